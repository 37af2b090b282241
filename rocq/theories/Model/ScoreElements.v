(** Scores, parts, measures, part lists, directions and name displays: how core/elements
    reads their children from a file (fromXElementImpl and what it calls) and writes them
    again (streamContents). As in ElementChoices.v whether a child could be read is an
    argument, [good], of what is in the child; left out are the attributes, white space and
    the texts of the messages. *)
From Coq Require Import List String Ascii Bool PeanoNat.
From Verif Require Import Model.Base Model.Text Model.ElementReading Model.ElementGroups Model.ElementChoices.
Import ListNotations.
Local Open Scope list_scope.

(** A set that the constructor gives one object: the first object that is read replaces it,
    the others are added.
    if( !isFirstAdded && set.size() == 1 ) { *set.begin() = x; } else { set.push_back( x ); } *)
Definition add_first {T} (first : bool) (x : T) (l : list T) : list T := if negb first && (List.length l =? 1) then [x] else l ++ [x].

(** ** measure of a part, and part of a measure: PartwiseMeasure.cpp:59-73,108-221,
    TimewisePart.cpp:60-74,107-207, MusicDataGroup.cpp:14-16,43-56, MusicDataChoice.cpp:69-117.
    Other children are passed over. *)
Definition music_choices : choices :=
  [("note", "note"); ("backup", "backup"); ("forward", "forward"); ("direction", "direction"); ("attributes", "attributes"); ("harmony", "harmony");
   ("figured-bass", "figured-bass"); ("print", "print"); ("sound", "sound"); ("barline", "barline"); ("grouping", "grouping"); ("link", "link");
   ("bookmark", "bookmark")]%string.

Definition read_music {A} (good : A -> bool) (children : list (node A)) : outcome (bool * (bool * list (str * list (given A)))) :=
  each_child (fun it s => let '(ok, (first, l)) := s in
    obind (name_at it) (fun n => obind (contents_at it) (fun a =>
      Ok (false, it, match choose music_choices n with
                     | Some w => (ok && good a, (true, add_first first (lit w, [Own a]) l))
                     | None => (ok, (first, l))
                     end)))) children (true, (false, [])).

Definition write_music {A} (s : bool * list (str * list (given A))) := snd s.

(** ** part of a score: PartwisePart.cpp:14-19,47-64,125-156. Another child refuses the file. *)
Definition members_turn {A} (name : string) (good : A -> bool) (it : iterator A) (s : bool * (bool * list (list (given A)))) : outcome (bool * iterator A * (bool * (bool * list (list (given A))))) :=
  let '(ok, (first, l)) := s in
  obind (name_at it) (fun n => obind (contents_at it) (fun a =>
    Ok (false, it, if negb (str_eqb n (lit name)) then (false, (first, l)) else (ok && good a, (true, add_first first [Own a] l))))).

Definition read_part {A} (good : A -> bool) (children : list (node A)) : outcome (bool * (bool * list (list (given A)))) :=
  each_child (members_turn "measure" good) children (true, (false, [[]])).

Definition write_part {A} (s : bool * list (list (given A))) := map (fun g => (lit "measure", g)) (snd s).

(** ** measure of a score: TimewiseMeasure.cpp:14-19,47-64,122-163. A part is required. *)
Definition read_timewise_measure {A} (good : A -> bool) (children : list (node A)) : outcome (bool * (bool * list (list (given A)))) :=
  omap (fun s => let '(ok, (first, l)) := s in (ok && first, (first, l)))
    (each_child (members_turn "part" good) children (true, (false, [[]]))).

Definition write_timewise_measure {A} (s : bool * list (list (given A))) := map (fun g => (lit "part", g)) (snd s).

(** ** the header of a score: ScoreHeaderGroup.cpp:20-33,60-124,317-385. *)
Record score_header (A : Type) := mkScoreHeader {
  sh_work : child A; sh_number : child A; sh_title : child A; sh_identification : child A; sh_defaults : child A;
  sh_credits : list (list (given A)); sh_list : child A }.
Arguments mkScoreHeader {A}.
Arguments sh_work {A}.
Arguments sh_number {A}.
Arguments sh_title {A}.
Arguments sh_identification {A}.
Arguments sh_defaults {A}.
Arguments sh_credits {A}.
Arguments sh_list {A}.

Definition new_score_header {A} : score_header A := mkScoreHeader new_child new_child new_child new_child new_child [] new_child.

(** isSuccess, isPartListFound, isFirstCreditAdded, and the members. Another child ends the
    reading with a failure if there was no part-list before it, :370-377. *)
Definition header_turn {A} (good : A -> bool) (it : iterator A) (s : bool * bool * bool * score_header A) : outcome (bool * iterator A * (bool * bool * bool * score_header A)) :=
  let '(ok, found, first, h) := s in
  obind (name_at it) (fun n => obind (contents_at it) (fun a =>
    let ok' := ok && good a in
    Ok (if str_eqb n (lit "work") then (false, it, (ok', found, first, mkScoreHeader (give true (Own a) (sh_work h)) (sh_number h) (sh_title h) (sh_identification h) (sh_defaults h) (sh_credits h) (sh_list h)))
        else if str_eqb n (lit "movement-number") then (false, it, (ok', found, first, mkScoreHeader (sh_work h) (give true (Own a) (sh_number h)) (sh_title h) (sh_identification h) (sh_defaults h) (sh_credits h) (sh_list h)))
        else if str_eqb n (lit "movement-title") then (false, it, (ok', found, first, mkScoreHeader (sh_work h) (sh_number h) (give true (Own a) (sh_title h)) (sh_identification h) (sh_defaults h) (sh_credits h) (sh_list h)))
        else if str_eqb n (lit "identification") then (false, it, (ok', found, first, mkScoreHeader (sh_work h) (sh_number h) (sh_title h) (give true (Own a) (sh_identification h)) (sh_defaults h) (sh_credits h) (sh_list h)))
        else if str_eqb n (lit "defaults") then (false, it, (ok', found, first, mkScoreHeader (sh_work h) (sh_number h) (sh_title h) (sh_identification h) (give true (Own a) (sh_defaults h)) (sh_credits h) (sh_list h)))
        else if str_eqb n (lit "credit") then (false, it, (ok', found, true, mkScoreHeader (sh_work h) (sh_number h) (sh_title h) (sh_identification h) (sh_defaults h) (add_first first [Own a] (sh_credits h)) (sh_list h)))
        else if str_eqb n (lit "part-list") then (false, it, (ok', true, first, mkScoreHeader (sh_work h) (sh_number h) (sh_title h) (sh_identification h) (sh_defaults h) (sh_credits h) (give true (Own a) (sh_list h))))
        else if negb found then (true, it, (false, found, first, h))
        else (false, it, (ok, found, first, h))))).

Definition read_score_header {A} (good : A -> bool) (children : list (node A)) : outcome (bool * score_header A) :=
  omap (fun s => let '(ok, found, first, h) := s in (ok, h)) (each_child (header_turn good) children (true, false, false, new_score_header)).

Definition write_score_header {A} (h : score_header A) :=
  if_has "work" (sh_work h) ++ if_has "movement-number" (sh_number h) ++ if_has "movement-title" (sh_title h) ++ if_has "identification" (sh_identification h)
  ++ if_has "defaults" (sh_defaults h) ++ map (fun g => (lit "credit", g)) (sh_credits h) ++ always "part-list" (sh_list h).

(** ** score-partwise and score-timewise: ScorePartwise.cpp:15-21,49-61,138-182,
    ScoreTimewise.cpp:17-23,51-63,139-183. [name] is part or measure. Other children are
    left to the header. *)
Definition score_turn {A} (name : string) (good : A -> bool) (it : iterator A) (s : bool * (bool * list (list (given A)))) : outcome (bool * iterator A * (bool * (bool * list (list (given A))))) :=
  let '(ok, (first, l)) := s in
  obind (name_at it) (fun n => obind (contents_at it) (fun a =>
    Ok (false, it, if str_eqb n (lit name) then (ok && good a, (true, add_first first [Own a] l)) else (ok, (first, l))))).

Definition read_score {A} (name : string) (good : A -> bool) (children : list (node A)) : outcome (bool * (score_header A * list (list (given A)))) :=
  obind (read_score_header good children) (fun q => let '(ok, h) := q in
    omap (fun s => let '(ok', (first, l)) := s in (ok', (h, l))) (each_child (score_turn name good) children (ok, (false, [[]])))).

Definition write_score {A} (name : string) (s : score_header A * list (list (given A))) :=
  write_score_header (fst s) ++ map (fun g => (lit name, g)) (snd s).

Definition read_score_partwise {A} := @read_score A "part".
Definition write_score_partwise {A} := @write_score A "part".
Definition read_score_timewise {A} := @read_score A "measure".
Definition write_score_timewise {A} := @write_score A "measure".

(** ** part-list: PartList.cpp:16-20,48-65,163-215, PartGroupOrScorePart.cpp:15-19,47-62. After
    the first score-part it is not looked at whether a child could be read, and a child of
    another name adds a part-group as its constructor makes it. *)
Record part_list (A : Type) := mkPartList { pl_groups : list A; pl_part : child A; pl_more : list (str * list (given A)) }.
Arguments mkPartList {A}.
Arguments pl_groups {A}.
Arguments pl_part {A}.
Arguments pl_more {A}.

Definition part_list_turn {A} (good : A -> bool) (it : iterator A) (s : bool * bool * part_list A) : outcome (bool * iterator A * (bool * bool * part_list A)) :=
  let '(ok, first, t) := s in
  obind (name_at it) (fun n => obind (contents_at it) (fun a =>
    Ok (false, it,
      if negb first then
        if str_eqb n (lit "part-group") then (ok && good a, first, mkPartList (pl_groups t ++ [a]) (pl_part t) (pl_more t))
        else if str_eqb n (lit "score-part") then (ok && good a, true, mkPartList (pl_groups t) (give true (Own a) (pl_part t)) (pl_more t))
        else (ok, first, t)
      else
        (ok, first, mkPartList (pl_groups t) (pl_part t) (pl_more t ++ [
          if str_eqb n (lit "part-group") then (lit "part-group", [Own a])
          else if str_eqb n (lit "score-part") then (lit "score-part", [Own a])
          else (lit "part-group", [])]))))).

Definition read_part_list {A} (good : A -> bool) (children : list (node A)) : outcome (bool * part_list A) :=
  omap (fun s => let '(ok, first, t) := s in (ok && first, t)) (each_child (part_list_turn good) children (true, false, mkPartList [] new_child [])).

Definition write_part_list {A} (t : part_list A) :=
  map (fun a => (lit "part-group", [Own a])) (pl_groups t) ++ always "score-part" (pl_part t) ++ pl_more t.

(** ** direction: Direction.cpp:91-103,131-161,319-384. *)
Record direction_element (A : Type) := mkDirection {
  dr_types : list (list (given A)); dr_offset : child A; dr_footnote : child A; dr_level : child A; dr_voice : child A; dr_staff : child A; dr_sound : child A }.
Arguments mkDirection {A}.
Arguments dr_types {A}.
Arguments dr_offset {A}.
Arguments dr_footnote {A}.
Arguments dr_level {A}.
Arguments dr_voice {A}.
Arguments dr_staff {A}.
Arguments dr_sound {A}.

Definition new_direction {A} : direction_element A := mkDirection [[]] new_child new_child new_child new_child new_child new_child.

(** importElement, FromXElement.cpp:56-70, with isSuccess. *)
Definition import_good {A} (good : A -> bool) (name : string) (it : iterator A) (ok : bool) (c : child A) : outcome (bool * bool * child A) :=
  obind (named_now name it) (fun b => if b then obind (contents_at it) (fun a => Ok (true, ok && good a, give true (Own a) c)) else Ok (false, ok, c)).

(** importGroup for the EditorialVoiceDirectionGroup, FromXElement.cpp:131-153: the iterator
    steps back only at the end of the children, and otherwise stays on the child after the
    group. *)
Definition import_voice_group {A} (good : A -> bool) (it : iterator A) (ok : bool) (footnote level voice : child A)
  : outcome (iterator A * bool * child A * child A * child A) :=
  if at_end it then Ok (it, ok, footnote, level, voice)
  else obind (take_good good "footnote" it ok footnote) (fun q => let '(m1, it1, ok1, f) := q in
    if at_end it1 then omap (fun i => (i, ok1, f, level, voice)) (back_if m1 it1)
    else obind (take_good good "level" it1 ok1 level) (fun q => let '(m2, it2, ok2, l) := q in
      if at_end it2 then omap (fun i => (i, ok2, f, l, voice)) (back_if (m1 || m2) it2)
      else obind (take_good good "voice" it2 ok2 voice) (fun q => let '(m3, it3, ok3, v) := q in
        if at_end it3 then omap (fun i => (i, ok3, f, l, v)) (back_if (m1 || m2 || m3) it3) else Ok (it3, ok3, f, l, v)))).

(** A turn of the loop, :326-333, importDirectionTypeSet, :339-384: a run of direction-types,
    the first of which replaces one that is alone in the set. *)
Definition direction_turn {A} (good : A -> bool) (it : iterator A) (s : bool * direction_element A) : outcome (bool * iterator A * (bool * direction_element A)) :=
  let '(ok, d) := s in
  obind (named_now "direction-type" it) (fun b =>
    if b then
      obind (take_all (left it) "direction-type" it) (fun q => let '(it1, l) := q in
        let read := map (fun a => [Own a]) l in
        let types := if List.length (dr_types d) =? 1 then read else dr_types d ++ read in
        omap (fun it2 => (false, it2, (ok && forallb good l, mkDirection types (dr_offset d) (dr_footnote d) (dr_level d) (dr_voice d) (dr_staff d) (dr_sound d)))) (decrement it1))
    else
      obind (import_good good "offset" it ok (dr_offset d)) (fun q => let '(b1, ok1, o) := q in
        if b1 then Ok (false, it, (ok1, mkDirection (dr_types d) o (dr_footnote d) (dr_level d) (dr_voice d) (dr_staff d) (dr_sound d)))
        else obind (import_voice_group good it ok1 (dr_footnote d) (dr_level d) (dr_voice d)) (fun q => let '(it1, ok2, f, l, v) := q in
          obind (import_good good "staff" it1 ok2 (dr_staff d)) (fun q => let '(b2, ok3, t) := q in
            if b2 then Ok (false, it1, (ok3, mkDirection (dr_types d) o f l v t (dr_sound d)))
            else obind (import_good good "sound" it1 ok3 (dr_sound d)) (fun q => let '(b3, ok4, u) := q in
              Ok (false, it1, (ok4, mkDirection (dr_types d) o f l v t u))))))).

Definition read_direction {A} (good : A -> bool) (children : list (node A)) : outcome (bool * direction_element A) :=
  each_child (direction_turn good) children (true, new_direction).

(** EditorialVoiceDirectionGroup.cpp:50-72 for footnote, level and voice. *)
Definition write_direction {A} (d : direction_element A) :=
  map (fun g => (lit "direction-type", g)) (dr_types d) ++ if_has "offset" (dr_offset d)
  ++ (if_has "footnote" (dr_footnote d) ++ if_has "level" (dr_level d) ++ if_has "voice" (dr_voice d))
  ++ if_has "staff" (dr_staff d) ++ if_has "sound" (dr_sound d).

(** ** direction-type: Direction.cpp:413-728, DirectionType.cpp:35-66,94-259. The children that
    come alone, and those that come in numbers. *)
Definition single_types : choices :=
  [("wedge", "wedge"); ("dashes", "dashes"); ("bracket", "bracket"); ("pedal", "pedal"); ("metronome", "metronome"); ("octave-shift", "octave-shift");
   ("harp-pedals", "harp-pedals"); ("damp", "damp"); ("damp-all", "damp-all"); ("eyeglasses", "eyeglasses"); ("string-mute", "string-mute");
   ("scordatura", "scordatura"); ("image", "image"); ("principal-voice", "principal-voice"); ("accordion-registration", "accordion-registration");
   ("other-direction", "other-direction")]%string.
Definition multiple_types : choices :=
  [("rehearsal", "rehearsal"); ("segno", "segno"); ("words", "words"); ("coda", "coda"); ("dynamics", "dynamics"); ("percussion", "percussion")]%string.

(** while( subIter != subIterEnd ), :545-568 and the same for the other names: a child of
    another name ends it with a failure. *)
Fixpoint read_types {A} (fuel : nat) (good : A -> bool) (name : str) (it : iterator A) (ok first : bool) (l : list (list (given A))) : outcome (bool * list (list (given A))) :=
  if at_end it then Ok (ok, l)
  else match fuel with
  | O => UB
  | S fuel =>
      obind (name_at it) (fun n =>
        if negb (str_eqb n name) then Ok (false, l)
        else obind (contents_at it) (fun a =>
          let l' := l ++ [[Own a]] in
          obind (increment it) (fun it' => read_types fuel good name it' (ok && good a) true (if negb first && (List.length l =? 1) then tl l' else l'))))
  end.

(** What it is written with: the choice and its member or members. As the constructor makes
    it, it is one rehearsal. *)
Definition read_direction_type {A} (good : A -> bool) (children : list (node A)) : outcome (bool * list (str * list (given A))) :=
  let it := begin children in
  if at_end it then Ok (false, [(lit "rehearsal", [])])
  else obind (name_at it) (fun n => obind (contents_at it) (fun a =>
    match choose single_types n with
    | Some w => Ok (good a, [(lit w, [Own a])])
    | None =>
        match choose multiple_types n with
        | Some w => omap (fun q => (fst q, map (fun g => (lit w, g)) (snd q))) (read_types (List.length children) good n it true false [[]])
        | None => Ok (true, [(lit "rehearsal", [])])
        end
    end)).

Definition write_direction_type {A} (l : list (str * list (given A))) := l.

(** ** part-name-display, part-abbreviation-display, group-name-display and
    group-abbreviation-display: PartNameDisplay.cpp:14-17,45-62,126-140,
    PartAbbreviationDisplay.cpp:14-17,45-62,126-140, GroupNameDisplay.cpp:14-17,45-59,123-137,
    GroupAbbreviationDisplay.cpp:14-17,45-59,123-137, DisplayTextOrAccidentalText.cpp:15-19,54-76,121-126. *)
Definition display_choices : choices := [("display-text", "display-text"); ("accidental-text", "accidental-text")]%string.

Definition read_name_display {A} (good : A -> bool) (children : list (node A)) : outcome (bool * list (str * list (given A))) :=
  each_child (fun it s => let '(ok, l) := s in
    obind (name_at it) (fun n => obind (contents_at it) (fun a =>
      Ok (false, it, match choose display_choices n with
                     | Some w => (ok && good a, l ++ [(lit w, [Own a])])
                     | None => (false, l ++ [(lit "display-text", [])])
                     end)))) children (true, []).

Definition write_name_display {A} (l : list (str * list (given A))) := l.
