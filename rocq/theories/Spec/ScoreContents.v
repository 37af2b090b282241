(** The children MusicXML allows in scores, parts, measures, part lists, directions and name
    displays, and examples. *)
From Coq Require Import List String Bool.
From Verif Require Import Model.Base Model.Text Model.ElementReading Model.ElementGroups Spec.ContentModels Spec.MoreContents.
Import ListNotations.
Local Open Scope list_scope.

(** Documents/musicxml.xsd, the types and groups of these names. *)
Definition music_names : list string :=
  ["note"; "backup"; "forward"; "direction"; "attributes"; "harmony"; "figured-bass"; "print"; "sound"; "barline"; "grouping"; "link"; "bookmark"]%string.
Definition music_content : content := Many (one_of music_names).
Definition part_content : content := Some_of (Element "measure").
Definition timewise_measure_content : content := Some_of (Element "part").
Definition score_header_content : list content :=
  [Optional (Element "work"); Optional (Element "movement-number"); Optional (Element "movement-title"); Optional (Element "identification");
   Optional (Element "defaults"); Many (Element "credit"); Element "part-list"].
(** of score-partwise with part and of score-timewise with measure *)
Definition score_content (name : string) : content := Sequence (score_header_content ++ [Some_of (Element name)]).
Definition part_list_content : content :=
  Sequence [Many (Element "part-group"); Element "score-part"; Many (one_of ["part-group"; "score-part"]%string)].
Definition direction_content : content :=
  Sequence [Some_of (Element "direction-type"); Optional (Element "offset"); Optional (Element "footnote"); Optional (Element "level"); Optional (Element "voice");
            Optional (Element "staff"); Optional (Element "sound")].
Definition single_direction_types : list string :=
  ["wedge"; "dashes"; "bracket"; "pedal"; "metronome"; "octave-shift"; "harp-pedals"; "damp"; "damp-all"; "eyeglasses"; "string-mute"; "scordatura"; "image";
   "principal-voice"; "accordion-registration"; "other-direction"]%string.
Definition multiple_direction_types : list string := ["rehearsal"; "segno"; "words"; "coda"; "dynamics"; "percussion"]%string.
Definition direction_type_content : content :=
  Choice (map Element single_direction_types ++ map (fun n => Some_of (Element n)) multiple_direction_types).
Definition name_display_content : content := Many (one_of ["display-text"; "accidental-text"]%string).

(** ** Children of any kind *)
Definition is_named {A} (names : list string) (p : str * A) : bool := existsb (fun n => str_eqb (fst p) (lit n)) names.

(** What is written for a child that is read. *)
Definition as_read {A} (p : str * A) : str * list (given A) := (fst p, [Own (snd p)]).

(** What is in the children of that name, in their order. *)
Definition contents_of {A} (name : string) (l : list (str * A)) : list A := map snd (filter (is_named [name]) l).

(** Of the names, the one that comes last in the children: one element for all children of
    that name. *)
Definition last_choice {A} (names : list string) (l : list (str * A)) : list (str * list (given A)) :=
  match rev (filter (is_named names) l) with
  | [] => []
  | p :: _ => [(fst p, map (fun q => Own (snd q)) (filter (fun q => str_eqb (fst q) (fst p)) l))]
  end.

(** A credit: its links and bookmarks after the first credit-words have been read from the credit. *)
Fixpoint credit_written {A} (words : bool) (l : list (str * A)) : list (str * list (given A)) :=
  match l with
  | [] => []
  | p :: r => (fst p, [if words && is_named ["link"; "bookmark"]%string p then Parent else Own (snd p)]) :: credit_written (words || is_named ["credit-words"]%string p) r
  end.

(** The header members in the order they are written: what is written for the children of
    that name is one element, if there are any. *)
Definition header_members : list string := ["work"; "movement-number"; "movement-title"; "identification"; "defaults"]%string.
Definition header_names : list string := header_members ++ ["credit"; "part-list"]%string.
Definition one_from {A} (l : list (str * A)) (name : string) : list (str * list (given A)) :=
  match contents_of name l with [] => [] | g => [(lit name, map Own g)] end.
Definition each_from {A} (l : list (str * A)) (name : string) : list (str * list (given A)) := map (fun a => (lit name, [Own a])) (contents_of name l).

(** A score of any children, written again. *)
Definition score_written {A} (name : string) (l : list (str * A)) : list (str * list (given A)) :=
  List.concat (map (one_from l) header_members) ++ each_from l "credit" ++ [(lit "part-list", map Own (contents_of "part-list" l))]
  ++ match contents_of name l with [] => [(lit name, [])] | _ => each_from l name end.

(** A child before which there is no part-list although it is not in the header. *)
Definition before_part_list {A} (l : list (str * A)) : Prop :=
  exists x p y, l = x ++ p :: y /\ ~ In (fst p) (map lit header_names) /\ ~ has_child "part-list" x.

(** ** A direction of any children *)
Definition starts {A} (names : list string) (l : list (str * A)) : Prop := match l with [] => False | p :: _ => In (fst p) (map lit names) end.

(** The child of that name, if the children go on with one. *)
Definition optional_from {A} (name : string) (x rest : list (str * A)) : Prop :=
  (exists a, x = [(lit name, a)]) \/ (x = [] /\ ~ starts [name] rest).

(** A footnote, a level and a voice, each if it is next. *)
Definition voice_group {A} (x rest : list (str * A)) : Prop :=
  exists f l v, x = f ++ l ++ v /\ optional_from "footnote" f (l ++ v ++ rest) /\ optional_from "level" l (v ++ rest) /\ optional_from "voice" v rest.

(** The children that are read, turn by turn. After a footnote, a level or a voice the next
    child is read only if it is a staff or a sound. *)
Inductive in_turns {A} : list (str * A) -> list (list (str * A)) -> Prop :=
| turns_end : in_turns [] []
| turns_types x r ts : x <> [] -> Forall (fun p => fst p = lit "direction-type") x -> ~ starts ["direction-type"%string] r -> in_turns r ts -> in_turns (x ++ r) (x :: ts)
| turns_offset a r ts : in_turns r ts -> in_turns ((lit "offset", a) :: r) ([(lit "offset", a)] :: ts)
| turns_last x : x <> [] -> voice_group x [] -> in_turns x [x]
| turns_other x p r ts : voice_group x (p :: r) -> ~ starts ["direction-type"; "offset"]%string (x ++ p :: r) -> in_turns r ts ->
    in_turns (x ++ p :: r) ((x ++ filter (is_named ["staff"; "sound"]%string) [p]) :: ts).

(** The direction-types after the turns: a new direction has an empty one; a run of them
    replaces what is there if that is a single one. *)
Definition types_after {A} (types : list (list (given A))) (turn : list (str * A)) : list (list (given A)) :=
  match contents_of "direction-type" turn with
  | [] => types
  | l => match types with [_] => [] | _ => types end ++ map (fun a => [Own a]) l
  end.
Definition direction_written {A} (turns : list (list (str * A))) : list (str * list (given A)) :=
  map (fun g => (lit "direction-type", g)) (fold_left types_after turns [[]])
  ++ List.concat (map (one_from (List.concat turns)) ["offset"; "footnote"; "level"; "voice"; "staff"; "sound"]%string).

(** ** Examples *)
Definition a_measure : list (str * nat) := [(lit "attributes", 1); (lit "note", 2); (lit "backup", 3); (lit "note", 4); (lit "barline", 5)].
Definition a_score : list (str * nat) :=
  [(lit "work", 1); (lit "movement-title", 2); (lit "credit", 3); (lit "credit", 4); (lit "part-list", 5); (lit "part", 6); (lit "part", 7)].
Definition a_timewise_score : list (str * nat) := [(lit "identification", 1); (lit "part-list", 2); (lit "measure", 3); (lit "measure", 4)].
Definition a_part_list : list (str * nat) :=
  [(lit "part-group", 1); (lit "score-part", 2); (lit "score-part", 3); (lit "part-group", 4)].
Definition a_direction : list (str * nat) :=
  [(lit "direction-type", 1); (lit "direction-type", 2); (lit "offset", 3); (lit "voice", 4); (lit "staff", 5); (lit "sound", 6)].
(** A direction-type after an offset, and an offset after a voice. *)
Definition a_muddled_direction : list (str * nat) :=
  [(lit "direction-type", 1); (lit "offset", 2); (lit "direction-type", 3); (lit "voice", 4); (lit "offset", 5); (lit "level", 6); (lit "staff", 7); (lit "footnote", 8)].
