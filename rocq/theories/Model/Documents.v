(** A whole document, read into the classes of core/elements and written again: the functions
    of ElementGroups.v, ElementChoices.v, ScoreElements.v, NoteElements.v and ElementClasses.v for
    the children, of Attributes.v for the attributes and of ElementTexts.v for the texts, put
    together.

    Simplifications: an element has a text or children; comments, processing instructions, white
    space between elements, the XML declaration and the document type are left out. The text and
    the attributes written are the characters put out, before XML reads them again. Where a child
    object is written that has been read from no child, or from several, the outcome is
    [None], not modelled, but for the chord of a note and the children of an arrow. *)
From Coq Require Import List String Ascii Bool.
From Verif Require Import Model.Base Model.Text Model.ElementReading Model.ElementClasses Model.Attributes Model.AttributeClasses Model.ElementTexts
  Model.ElementGroups Model.ElementChoices Model.ScoreElements Model.NoteElements.
Import ListNotations.
Local Open Scope list_scope.

(** An element: name, attributes, text and children. *)
Inductive xml := Xml (name : string) (attributes : list attribute) (text : str) (children : list xml).
Definition xml_name (t : xml) : string := let 'Xml n _ _ _ := t in n.
Definition xml_text (t : xml) : str := let 'Xml _ _ x _ := t in x.

(** The children of an element read and written: whether all could be read, and for each child
    written its name and what its object has been read from. *)
Definition processor := forall A, (A -> bool) -> list (node A) -> outcome (bool * list (str * list (given A))).

Definition and_write {A S} (write : S -> list (str * list (given A))) (r : outcome (bool * S)) : outcome (bool * list (str * list (given A))) :=
  omap (fun q => (fst q, write (snd q))) r.

(** For the functions whose model leaves out whether the children could be read: the element is
    accepted only if all of them could. *)
Definition and_good {A} (good : A -> bool) (children : list (node A)) (r : outcome (bool * list (str * list (given A)))) : outcome (bool * list (str * list (given A))) :=
  omap (fun q => (fst q && forallb (fun x => match x with NElement _ a => good a | NInstruction _ _ => true end) children, snd q)) r.

(** The classes of ElementClasses.v: a child that is a set is written for each of its elements, a
    single child if it has been read. *)
Definition is_set_key (steps : list step) (key : str) : bool :=
  existsb (fun st => match st with
    | One _ _ _ => false
    | Many _ k _ _ => str_eqb k key
    | Group members _ => existsb (fun m => gm_many m && str_eqb (gm_key m) key) members
    | Each _ k => str_eqb k key
    end) steps.
Definition own {A} (o : option A) : list (given A) := match o with Some a => [Own a] | None => [] end.
Definition write_class {A} (c : element_class) (s : contents A) : list (str * list (given A)) :=
  flat_map (fun k => if is_set_key (cl_steps c) k then map (fun o => (k, own o)) (s k)
                     else match s k with [] => [] | l => [(k, flat_map own l)] end) (cl_writes c).
Definition process_class (c : element_class) : processor := fun A good l =>
  and_good good l (omap (fun s => (true, write_class c s)) (read_children (cl_steps c) l)).

Local Open Scope string_scope.
(** The other classes. In a score that is written by measures, a measure has parts and a part has
    the music. TimewiseMeasure.cpp, TimewisePart.cpp, PartwisePart.cpp, PartwiseMeasure.cpp. *)
Definition processors (timewise : bool) : list (string * processor) := [
  ("articulations", fun A good l => and_good good l (and_write write_articulations (read_articulations l)));
  ("technical", fun A good l => and_good good l (and_write write_technical (read_technical l)));
  ("notations", fun A good l => and_good good l (and_write write_notations (read_notations l)));
  ("arrow", fun A good l => and_good good l (and_write write_arrow (read_arrow l)));
  ("bend", fun A good l => and_good good l (and_write write_bend (read_bend l)));
  ("harmonic", fun A good l => and_good good l (and_write write_harmonic (read_harmonic l)));
  ("time", fun A good l => and_good good l (and_write write_time (read_time l)));
  ("interchangeable", fun A good l => and_good good l (and_write write_interchangeable (read_interchangeable l)));
  ("key", fun A good l => and_good good l (and_write write_key (read_key l)));
  ("harmony", fun A good l => and_good good l (and_write write_harmony (read_harmony l)));
  ("credit", fun A good l => and_good good l (and_write write_credit (read_credit l)));
  ("lyric", fun A good l => and_good good l (and_write write_lyric (read_lyric l)));
  ("metronome", fun A good l => and_write write_metronome (read_metronome good l));
  ("time-modification", fun A good l => and_write write_time_modification (read_time_modification good l));
  ("measure-style", fun A good l => and_write write_measure_style (read_measure_style good l));
  ("rest", fun A good l => and_write write_display (read_display good l));
  ("unpitched", fun A good l => and_write write_display (read_display good l));
  ("part", fun A good l => if timewise then and_write write_music (read_music good l) else and_write write_part (read_part good l));
  ("measure", fun A good l => if timewise then and_write write_timewise_measure (read_timewise_measure good l) else and_write write_music (read_music good l));
  ("score-partwise", fun A good l => and_write write_score_partwise (read_score_partwise good l));
  ("score-timewise", fun A good l => and_write write_score_timewise (read_score_timewise good l));
  ("part-list", fun A good l => and_write write_part_list (read_part_list good l));
  ("direction", fun A good l => and_write write_direction (read_direction good l));
  ("direction-type", fun A good l => and_write write_direction_type (read_direction_type good l));
  ("part-name-display", fun A good l => and_write write_name_display (read_name_display good l));
  ("part-abbreviation-display", fun A good l => and_write write_name_display (read_name_display good l));
  ("group-name-display", fun A good l => and_write write_name_display (read_name_display good l));
  ("group-abbreviation-display", fun A good l => and_write write_name_display (read_name_display good l));
  ("note", fun A good l => and_write write_note (read_note good l));
  ("score-part", fun A good l => and_write write_score_part (read_score_part good l));
  ("score-instrument", fun A good l => and_write write_score_instrument (read_score_instrument good l));
  ("encoding", fun A good l => and_write write_encoding (read_encoding good l));
  ("ornaments", fun A good l => and_write write_ornaments (read_ornaments good l));
  ("sound", fun A good l => and_write write_sound (read_sound good l));
  ("metronome-tuplet", process_class metronome_tuplet_class);
  ("notehead-text", fun A good l => and_good good l (and_write write_notehead_text (read_notehead_text l)));
  ("percussion", fun A good l => and_write (fun w => w) (read_percussion l));
  ("play", fun A good l => and_write (fun w => w) (read_play l))].

Fixpoint lookup {X} (n : string) (l : list (string * X)) : option X :=
  match l with [] => None | (m, x) :: r => if String.eqb m n then Some x else lookup n r end.

Definition class_named (n : string) : option element_class := find (fun c => str_eqb (cl_name c) (lit n)) element_classes.

Definition processor_of (timewise : bool) (n : string) : option processor :=
  match lookup n (processors timewise) with
  | Some p => Some p
  | None => match class_named n with Some c => Some (process_class c) | None => None end
  end.

Definition text_type_of (n : string) : option text_type :=
  match find (fun p => str_eqb (fst p) (lit n)) element_texts with Some p => Some (snd p) | None => None end.

(** The class an element is read into. *)
Definition element_of (timewise : bool) (n : string) : option elementClass :=
  find (fun e => String.eqb (e_name e) n && negb (mem (e_class e) (if timewise then ["PartwiseMeasure"; "PartwisePart"] else ["TimewiseMeasure"; "TimewisePart"])))
    elements.

(** A child as it is written, from what its object has been read from: [Some r] is what becomes of
    a child, if that is modelled. The chord of a note is an object that is never read
    (Chord.cpp:18-27); a direction or a style of an arrow is read again and again from the same
    child and has nothing but its text. *)
Definition written_child (w : str * list (given (option (bool * xml)))) : option xml :=
  match snd w with
  | [Own (Some r)] => Some (snd r)
  | [] => if str_eqb (fst w) (lit "chord") then Some (Xml "chord" [] [] []) else None
  | Own (Some r) :: _ :: _ =>
      if existsb (str_eqb (fst w)) [lit "arrow-direction"; lit "arrow-style"] then
        match last (snd w) Parent with Own (Some r') => Some (snd r') | _ => None end
      else None
  | _ => None
  end.
Fixpoint all_some {X} (l : list (option X)) : option (list X) :=
  match l with
  | [] => Some []
  | Some x :: r => match all_some r with Some q => Some (x :: q) | None => None end
  | None :: _ => None
  end.

(** ElementInterface::fromXElement and toStream of the class of an element: whether it is accepted,
    and what is written. *)
Fixpoint reread (takes : taking) (initial : string -> string) (timewise : bool) (t : xml) {struct t} : option (bool * xml) :=
  match t with
  | Xml n attrs text children =>
      match element_of timewise n with
      | None => None
      | Some e =>
          let ok := accepted takes initial e attrs in
          let attrs' := rewritten takes initial e attrs in
          if String.eqb n "dynamics" then
            match read_dynamics (map (fun c => NElement (lit (xml_name c)) (xml_text c)) children) with
            | Ok (b, v) => Some (ok && b, Xml n attrs' [] [Xml (string_of_list_ascii (fst (write_dynamics v))) [] (snd (write_dynamics v)) []])
            | _ => None
            end
          else match text_type_of n with
          | Some ty => match rewrite_text ty text with Ok w => Some (ok, Xml n attrs' w []) | _ => None end
          | None =>
              match processor_of timewise n with
              | Some p =>
                  match p _ (fun r : option (bool * xml) => match r with Some (b, _) => b | None => false end)
                          (map (fun c => NElement (lit (xml_name c)) (reread takes initial timewise c)) children) with
                  | Ok (b, w) => match all_some (map written_child w) with Some c => Some (ok && b, Xml n attrs' [] c) | None => None end
                  | _ => None
                  end
              | None => Some (ok, Xml n attrs' [] [])
              end
          end
      end
  end.

(** Document::fromXDoc, Document.cpp:162-181, and toStream of the score. *)
Definition reread_document (takes : taking) (initial : string -> string) (t : xml) : option (bool * xml) :=
  if String.eqb (xml_name t) "score-partwise" then reread takes initial false t
  else if String.eqb (xml_name t) "score-timewise" then reread takes initial true t
  else None.
