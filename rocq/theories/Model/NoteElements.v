(** Notes, score-parts, score-instruments, encodings, ornaments and sounds: how core/elements
    reads their children from a file (fromXElementImpl and what it calls) and writes them
    again (streamContents). As in ElementChoices.v whether a child could be read is an
    argument, [good], of what is in the child; left out are the attributes, white space and
    the texts of the messages. *)
From Coq Require Import List String Ascii Bool PeanoNat.
From Verif Require Import Model.Base Model.Text Model.ElementReading Model.ElementGroups Model.ElementChoices Model.ScoreElements.
Import ListNotations.
Local Open Scope list_scope.

(** The child objects of an element by their names. *)
Definition members (A : Type) := str -> child A.
Definition new_members {A} : members A := fun _ => new_child.

(** fromXElement on the object of that name, and its hasX = true. *)
Definition give_member {A} (n : str) (a : A) (m : members A) : members A := fun k => if str_eqb k n then give true (Own a) (m k) else m k.

Definition write_member {A} (m : members A) (name : string) : list (str * list (given A)) := if_has name (m (lit name)).

Definition is_one_of (names : list string) (n : str) : bool := existsb (fun m => str_eqb n (lit m)) names.

(** A turn of a loop of if( importElement( .. ) ) { continue; } for these names,
    FromXElement.cpp:56-70: a child of another name is passed over. *)
Definition import_turn {A} (names : list string) (good : A -> bool) (it : iterator A) (s : bool * members A) : outcome (bool * iterator A * (bool * members A)) :=
  let '(ok, m) := s in
  obind (name_at it) (fun n => obind (contents_at it) (fun a =>
    Ok (false, it, if is_one_of names n then (ok && good a, give_member n a m) else (ok, m)))).

(** ** sound: Sound.cpp:15-24,46-79,178-192. The midi-instrument is written whenever
    something is: it is asked whether the pointer is there, not whether the element is. *)
Definition read_sound {A} (good : A -> bool) (children : list (node A)) : outcome (bool * members A) :=
  each_child (import_turn ["midi-device"; "midi-instrument"; "play"]%string good) children (true, new_members).

Definition write_sound {A} (m : members A) :=
  if ch_has (m (lit "midi-device")) || ch_has (m (lit "midi-instrument")) || ch_has (m (lit "play")) then
    write_member m "midi-device" ++ always "midi-instrument" (m (lit "midi-instrument")) ++ write_member m "play"
  else [].

(** ** score-instrument: ScoreInstrument.cpp:14-25,59-86,227-262, SoloOrEnsembleChoice.cpp:14-19,47-66,
    checkSetChoiceMember, FromXElement.h:315-335. The choice is solo at first. *)
Record score_instrument (A : Type) := mkScoreInstrument { si_members : members A; si_chosen : bool; si_choice : string }.
Arguments mkScoreInstrument {A}.
Arguments si_members {A}.
Arguments si_chosen {A}.
Arguments si_choice {A}.

Definition score_instrument_turn {A} (good : A -> bool) (it : iterator A) (s : bool * bool * score_instrument A) : outcome (bool * iterator A * (bool * bool * score_instrument A)) :=
  let '(ok, found, i) := s in
  obind (name_at it) (fun n => obind (contents_at it) (fun a =>
    let m := give_member n a (si_members i) in
    Ok (false, it,
      if str_eqb n (lit "instrument-name") then (ok && good a, true, mkScoreInstrument m (si_chosen i) (si_choice i))
      else if is_one_of ["instrument-abbreviation"; "instrument-sound"; "virtual-instrument"]%string n then (ok && good a, found, mkScoreInstrument m (si_chosen i) (si_choice i))
      else if str_eqb n (lit "solo") then (ok && good a, found, mkScoreInstrument m true "solo")
      else if str_eqb n (lit "ensemble") then (ok && good a, found, mkScoreInstrument m true "ensemble")
      else (ok, found, i)))).

Definition read_score_instrument {A} (good : A -> bool) (children : list (node A)) : outcome (bool * score_instrument A) :=
  omap (fun s => let '(ok, found, i) := s in (ok && found, i))
    (each_child (score_instrument_turn good) children (true, false, mkScoreInstrument new_members false "solo"%string)).

Definition write_score_instrument {A} (i : score_instrument A) :=
  always "instrument-name" (si_members i (lit "instrument-name")) ++ write_member (si_members i) "instrument-abbreviation" ++ write_member (si_members i) "instrument-sound"
  ++ (if si_chosen i then always (si_choice i) (si_members i (lit (si_choice i))) else []) ++ write_member (si_members i) "virtual-instrument".

(** ** encoding: Encoding.cpp:14-16,38-62,95-108, EncodingChoice.cpp:18-25,54-91,178-186. Another
    name: the choice stays what the constructor made it, encoding-date, and is added. *)
Definition encoding_choices : choices :=
  [("encoding-date", "encoding-date"); ("encoder", "encoder"); ("software", "software"); ("encoding-description", "encoding-description"); ("supports", "supports")]%string.

Definition read_encoding {A} (good : A -> bool) (children : list (node A)) : outcome (bool * list (str * list (given A))) :=
  each_child (fun it s => let '(ok, l) := s in
    obind (name_at it) (fun n => obind (contents_at it) (fun a =>
      Ok (false, it, match choose encoding_choices n with
                     | Some w => (ok && good a, l ++ [(lit w, [Own a])])
                     | None => (false, l ++ [(lit "encoding-date", [])])
                     end)))) children (true, []).

Definition write_encoding {A} (l : list (str * list (given A))) := l.

(** importElementSet, FromXElement.h:61-95, with isSuccess: a run of children of that name,
    the first of which replaces one that is alone in the set. *)
Definition import_set {A} (name : string) (good : A -> bool) (it : iterator A) (ok : bool) (set : list A) : outcome (bool * iterator A * bool * list A) :=
  obind (named_now name it) (fun b =>
    if b then
      obind (take_all (left it) name it) (fun q => let '(it1, l) := q in
        omap (fun it2 => (true, it2, ok && forallb good l, if List.length set =? 1 then l else set ++ l)) (decrement it1))
    else Ok (false, it, ok, set)).

(** ** ornaments: Ornaments.cpp:16-19,47-62,145-198, OrnamentsChoice.cpp:68-143,353-435. *)
Definition ornaments_choices : choices :=
  [("trill-mark", "trill-mark"); ("turn", "turn"); ("delayed-turn", "delayed-turn"); ("inverted-turn", "inverted-turn");
   ("delayed-inverted-turn", "delayed-inverted-turn"); ("vertical-turn", "vertical-turn"); ("shake", "shake"); ("wavy-line", "wavy-line");
   ("mordent", "mordent"); ("inverted-mordent", "inverted-mordent"); ("schleifer", "schleifer"); ("tremolo", "tremolo"); ("other-ornament", "other-ornament")]%string.

Definition read_ornaments {A} (good : A -> bool) (children : list (node A)) : outcome (bool * (list (str * list (given A)) * list A)) :=
  each_child (fun it s => let '(ok, (l, marks)) := s in
    obind (name_at it) (fun n => obind (contents_at it) (fun a =>
      match choose ornaments_choices n with
      | Some w => Ok (false, it, (ok && good a, (l ++ [(lit w, [Own a])], marks)))
      | None => omap (fun q => let '(b, it', ok', marks') := q in (false, it', (ok', (l, marks')))) (import_set "accidental-mark" good it ok marks)
      end))) children (true, ([], [])).

Definition write_ornaments {A} (s : list (str * list (given A)) * list A) := fst s ++ map (fun a => (lit "accidental-mark", [Own a])) (snd s).

(** ** score-part: ScorePart.cpp:23-37,65-110,371-444, MidiDeviceInstrumentGroup.cpp:15-20,48-71. The
    importGroup of :421 looks for the children of a midi-instrument beside it and finds none
    (FromXElement.cpp:422-530): the iterator is at the midi-instrument. That there is no
    part-name is not counted as a failure. *)
Record score_part (A : Type) := mkScorePart {
  sp_members : members A; sp_groups : list A; sp_instruments : list A; sp_midi : list (child A * child A) }.
Arguments mkScorePart {A}.
Arguments sp_members {A}.
Arguments sp_groups {A}.
Arguments sp_instruments {A}.
Arguments sp_midi {A}.

(** The loop of importMidiDeviceInstrumentGroupSet, :404-439; whether it moved. *)
Fixpoint import_midi {A} (fuel : nat) (good : A -> bool) (it : iterator A) (ok moved : bool) (l : list (child A * child A)) : outcome (bool * iterator A * bool * list (child A * child A)) :=
  obind (is_here "midi-device" it) (fun b1 => obind (is_here "midi-instrument" it) (fun b2 =>
    if b1 || b2 then
      match fuel with
      | O => UB
      | S fuel =>
          obind (take_good good "midi-device" it ok new_child) (fun q => let '(_, it1, ok1, d) := q in
            obind (take_good good "midi-instrument" it1 ok1 new_child) (fun q => let '(_, it2, ok2, i) := q in
              import_midi fuel good it2 ok2 true (l ++ [(d, i)])))
      end
    else Ok (moved, it, ok, l))).

Definition score_part_names : list string := ["identification"; "part-name"; "part-name-display"; "part-abbreviation"; "part-abbreviation-display"]%string.

Definition score_part_turn {A} (good : A -> bool) (it : iterator A) (s : bool * score_part A) : outcome (bool * iterator A * (bool * score_part A)) :=
  let '(ok, p) := s in
  obind (name_at it) (fun n => obind (contents_at it) (fun a =>
    let '(ok1, m) := if is_one_of score_part_names n then (ok && good a, give_member n a (sp_members p)) else (ok, sp_members p) in
    obind (import_set "group" good it ok1 (sp_groups p)) (fun q => let '(_, it1, ok2, g) := q in
    obind (import_set "score-instrument" good it1 ok2 (sp_instruments p)) (fun q => let '(_, it2, ok3, i) := q in
    obind (import_midi (left it2) good it2 ok3 false (sp_midi p)) (fun q => let '(moved, it3, ok4, l) := q in
      omap (fun it4 => (false, it4, (ok4, mkScorePart m g i l))) (back_if moved it3)))))).

Definition read_score_part {A} (good : A -> bool) (children : list (node A)) : outcome (bool * score_part A) :=
  each_child (score_part_turn good) children (true, mkScorePart new_members [] [] []).

Definition write_score_part {A} (p : score_part A) :=
  write_member (sp_members p) "identification" ++ always "part-name" (sp_members p (lit "part-name")) ++ write_member (sp_members p) "part-name-display"
  ++ write_member (sp_members p) "part-abbreviation" ++ write_member (sp_members p) "part-abbreviation-display"
  ++ map (fun a => (lit "group", [Own a])) (sp_groups p) ++ map (fun a => (lit "score-instrument", [Own a])) (sp_instruments p)
  ++ List.concat (map (fun g => if_has "midi-device" (fst g) ++ if_has "midi-instrument" (snd g)) (sp_midi p)).

(** ** note: Note.cpp:43-69,95-165,652-985. *)
Inductive note_kind := NormalKind | GraceKind | CueKind.
Definition kind_eqb (a b : note_kind) : bool :=
  match a, b with NormalKind, NormalKind | GraceKind, GraceKind | CueKind, CueKind => true | _, _ => false end.

(** GraceNoteGroup, CueNoteGroup and NormalNoteGroup, which have a grace, a cue or neither, a
    FullNoteGroup (hasChord and FullNoteTypeChoice), a duration (not of grace notes) and ties
    (not of cue notes). *)
Record note_parts (A : Type) := mkParts {
  np_head : child A; np_chord : bool; np_which : string; np_types : members A; np_duration : child A; np_ties : list A }.
Arguments mkParts {A}.
Arguments np_head {A}.
Arguments np_chord {A}.
Arguments np_which {A}.
Arguments np_types {A}.
Arguments np_duration {A}.
Arguments np_ties {A}.

(** FullNoteTypeChoice.cpp:15-21: a pitch at first. *)
Definition new_parts {A} : note_parts A := mkParts new_child false "pitch" new_members new_child [].

Record note_element (A : Type) := mkNoteElement {
  ne_kind : note_kind; ne_parts : note_kind -> note_parts A; ne_members : members A; ne_sets : str -> bool * list (list (given A)) }.
Arguments mkNoteElement {A}.
Arguments ne_kind {A}.
Arguments ne_parts {A}.
Arguments ne_members {A}.
Arguments ne_sets {A}.

(** NoteChoice.cpp:15-20: a normal note at first. *)
Definition new_note {A} : note_element A := mkNoteElement NormalKind (fun _ => new_parts) new_members (fun _ => (false, [])).

(** Note::parseFullNoteGroup, :901-951. The chord is not given its element. *)
Definition parse_full {A} (good : A -> bool) (it : iterator A) (ok : bool) (g : note_parts A) : outcome (iterator A * bool * note_parts A) :=
  if at_end it then Ok (it, false, g)
  else
    obind (named_now "chord" it) (fun b =>
    obind (if b then increment it else Ok it) (fun it1 =>
      let g1 := mkParts (np_head g) (b || np_chord g) (np_which g) (np_types g) (np_duration g) (np_ties g) in
      if at_end it1 then Ok (it1, false, g1)
      else
        obind (name_at it1) (fun n => obind (contents_at it1) (fun a => obind (increment it1) (fun it2 =>
          match choose [("pitch", "pitch"); ("unpitched", "unpitched"); ("rest", "rest")]%string n with
          | Some w => Ok (it2, ok && good a, mkParts (np_head g1) (np_chord g1) w (give_member n a (np_types g1)) (np_duration g1) (np_ties g1))
          | None => Ok (it2, false, g1)
          end))))).

(** NormalNoteGroup::addTie, NormalNoteGroup.cpp:97-106, GraceNoteGroup.cpp:98-107: no more than two. *)
Definition addTie {A} (l : list A) (a : A) : list A := if List.length l <? 2 then l ++ [a] else l.

(** Note::parseNoteChoice, :810-898, the iterator not at the end. Whether the duration could
    be read is not looked at. *)
Definition parse_choice {A} (good : A -> bool) (it : iterator A) (ok : bool) (kind : note_kind) (parts : note_kind -> note_parts A)
  : outcome (iterator A * bool * note_kind * (note_kind -> note_parts A)) :=
  obind (name_at it) (fun n => obind (contents_at it) (fun a =>
    let kind := if str_eqb n (lit "grace") then GraceKind else if str_eqb n (lit "cue") then CueKind else NormalKind in
    let g := parts kind in
    obind (match kind with
           | NormalKind => Ok (it, ok, g)
           | _ => omap (fun it' => (it', ok && good a, mkParts (give true (Own a) (np_head g)) (np_chord g) (np_which g) (np_types g) (np_duration g) (np_ties g))) (increment it)
           end) (fun q => let '(it1, ok1, g1) := q in
    obind (parse_full good it1 ok1 g1) (fun q => let '(it2, ok2, g2) := q in
      let done it ok g := Ok (it, ok, kind, fun k => if kind_eqb k kind then g else parts k) in
      obind (is_here "duration" it2) (fun b =>
        if negb (kind_eqb kind GraceKind) && negb b then done it2 false g2
        else
          obind (if kind_eqb kind GraceKind then Ok (it2, g2)
                 else obind (contents_at it2) (fun d => omap (fun it' =>
                   (it', mkParts (np_head g2) (np_chord g2) (np_which g2) (np_types g2) (give true (Own d) (np_duration g2)) (np_ties g2))) (increment it2))) (fun q => let '(it3, g3) := q in
          match kind with
          | CueKind => done it3 ok2 g3
          | _ =>
              obind (take_all (left it3) "tie" it3) (fun q => let '(it4, l) := q in
                done it4 (ok2 && forallb good l) (mkParts (np_head g3) (np_chord g3) (np_which g3) (np_types g3) (np_duration g3) (fold_left addTie l (np_ties g3))))
          end)))))).

Definition choice_names : list string := ["pitch"; "unpitched"; "rest"; "chord"; "grace"; "cue"]%string.
Definition editorial_names : list string := ["footnote"; "level"; "voice"]%string.
Definition single_names : list string := ["instrument"; "type"; "accidental"; "time-modification"; "stem"; "notehead"; "notehead-text"; "staff"; "play"]%string.
Definition set_names : list string := ["dot"; "beam"; "notations"; "lyric"]%string.

(** The loop of Note::parseEditorialVoiceGroup, :954-985. *)
Fixpoint parse_editorial {A} (fuel : nat) (good : A -> bool) (it : iterator A) (ok moved : bool) (m : members A) : outcome (bool * iterator A * bool * members A) :=
  if at_end it then Ok (moved, it, ok, m)
  else
    obind (name_at it) (fun n =>
      if is_one_of editorial_names n then
        match fuel with
        | O => UB
        | S fuel => obind (contents_at it) (fun a => obind (increment it) (fun it' => parse_editorial fuel good it' (ok && good a) true (give_member n a m)))
        end
      else Ok (moved, it, ok, m)).

(** A turn of the loop, :663-798, with isNoteChoiceFound. *)
Definition note_turn {A} (good : A -> bool) (it : iterator A) (s : bool * bool * note_element A) : outcome (bool * iterator A * (bool * bool * note_element A)) :=
  let '(ok, found, x) := s in
  obind (name_at it) (fun n => obind (contents_at it) (fun a =>
    if is_one_of choice_names n then
      obind (parse_choice good it ok (ne_kind x) (ne_parts x)) (fun q => let '(it1, ok1, k, p) := q in
        omap (fun it2 => (false, it2, (ok1, true, mkNoteElement k p (ne_members x) (ne_sets x)))) (decrement it1))
    else if is_one_of single_names n then
      Ok (false, it, (ok && good a, found, mkNoteElement (ne_kind x) (ne_parts x) (give_member n a (ne_members x)) (ne_sets x)))
    else if is_one_of editorial_names n then
      obind (parse_editorial (left it) good it ok false (ne_members x)) (fun q => let '(moved, it1, ok1, m) := q in
        omap (fun it2 => (false, it2, (ok1, found, mkNoteElement (ne_kind x) (ne_parts x) m (ne_sets x)))) (back_if moved it1))
    else if is_one_of set_names n then
      Ok (false, it, (ok && good a, found, mkNoteElement (ne_kind x) (ne_parts x) (ne_members x)
        (fun k => if str_eqb k n then (true, add_first (fst (ne_sets x k)) [Own a] (snd (ne_sets x k))) else ne_sets x k)))
    else Ok (false, it, (false, found, x)))).

Definition read_note {A} (good : A -> bool) (children : list (node A)) : outcome (bool * note_element A) :=
  omap (fun s => let '(ok, found, x) := s in (ok && found, x)) (each_child (note_turn good) children (true, false, new_note)).

(** FullNoteGroup.cpp:46-56, FullNoteTypeChoice.cpp:48-69. *)
Definition write_full {A} (g : note_parts A) : list (str * list (given A)) :=
  (if np_chord g then [(lit "chord", [])] else []) ++ always (np_which g) (np_types g (lit (np_which g))).

(** NoteChoice.cpp:48-66, NormalNoteGroup.cpp:47-58, GraceNoteGroup.cpp:47-59, CueNoteGroup.cpp:47-56. *)
Definition write_choice {A} (k : note_kind) (g : note_parts A) : list (str * list (given A)) :=
  let ties := map (fun a => (lit "tie", [Own a])) (np_ties g) in
  match k with
  | NormalKind => write_full g ++ always "duration" (np_duration g) ++ ties
  | GraceKind => always "grace" (np_head g) ++ write_full g ++ ties
  | CueKind => always "cue" (np_head g) ++ write_full g ++ always "duration" (np_duration g)
  end.

Definition write_set {A} (x : note_element A) (name : string) : list (str * list (given A)) := map (fun g => (lit name, g)) (snd (ne_sets x (lit name))).

(** EditorialVoiceGroup.cpp:50-73 for footnote, level and voice. *)
Definition write_note {A} (x : note_element A) :=
  let one := write_member (ne_members x) in
  write_choice (ne_kind x) (ne_parts x (ne_kind x)) ++ one "instrument"%string ++ (one "footnote"%string ++ one "level"%string ++ one "voice"%string) ++ one "type"%string ++ write_set x "dot"
  ++ one "accidental"%string ++ one "time-modification"%string ++ one "stem"%string ++ one "notehead"%string ++ one "notehead-text"%string ++ one "staff"%string
  ++ write_set x "beam" ++ write_set x "notations" ++ write_set x "lyric" ++ one "play"%string.
