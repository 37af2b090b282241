(** More elements with alternatives or groups of children: metronome, time-modification,
    measure-style, percussion, play, rest, unpitched and dynamics. As in ElementGroups.v, but
    whether a child could be read is an argument here, [good], of what is in the child; left
    out are the attributes, white space and the texts of the messages. *)
From Coq Require Import List String Ascii Bool PeanoNat.
From Verif Require Import Model.Base Model.Text Model.ElementReading Model.EnumLookup Model.CoreEnums Model.CustomEnums Model.ElementGroups.
Import ListNotations.
Local Open Scope list_scope.

(** As [take], with isSuccess &= x->fromXElement( .. ): checkSetGroupMemberAndIncrementIter,
    FromXElement.h:98-152. *)
Definition take_good {A} (good : A -> bool) (name : string) (it : iterator A) (ok : bool) (c : child A) : outcome (bool * iterator A * bool * child A) :=
  obind (is_here name it) (fun b =>
    if b then obind (contents_at it) (fun a => obind (increment it) (fun it' => Ok (true, it', ok && good a, give true (Own a) c)))
    else Ok (false, it, ok, c)).

(** ** metronome: Metronome.cpp:23-26,54-61,105-212. *)
(** BeatUnitGroup.cpp:15-18 *)
Record beat_unit (A : Type) := mkBeatUnit { bu_unit : child A; bu_dots : list A }.
Arguments mkBeatUnit {A}.
Arguments bu_unit {A}.
Arguments bu_dots {A}.

(** The choices and groups below myBeatUnitPerOrNoteRelationNoteChoice:
    BeatUnitPerOrNoteRelationNoteChoice.cpp:15-19, BeatUnitPer.cpp:15-18,
    PerMinuteOrBeatUnitChoice.cpp:15-19, NoteRelationNote.cpp:15-21, MetronomeRelationGroup.cpp:15-18. *)
Record metronome (A : Type) := mkMetronome {
  mt_isNotes : bool;                     (** the choice is noteRelationNote *)
  mt_first : beat_unit A;
  mt_isSecond : bool;                    (** the inner choice is beatUnitGroup, not perMinute *)
  mt_perMinute : child A;
  mt_second : beat_unit A;
  mt_notes : list (list (given A));      (** the metronome-notes, each with what it was read from *)
  mt_relation : child A;                 (** ch_has: myHasMetronomeRelationGroup *)
  mt_note : child A }.
Arguments mkMetronome {A}.
Arguments mt_isNotes {A}.
Arguments mt_first {A}.
Arguments mt_isSecond {A}.
Arguments mt_perMinute {A}.
Arguments mt_second {A}.
Arguments mt_notes {A}.
Arguments mt_relation {A}.
Arguments mt_note {A}.

Definition new_beat_unit {A} : beat_unit A := mkBeatUnit new_child [].
(** NoteRelationNote.cpp:15-21: one metronome-note. *)
Definition new_metronome {A} : metronome A := mkMetronome false new_beat_unit false new_child new_beat_unit [[]] new_child new_child.

(** importGroup for the BeatUnitGroup, FromXElement.cpp:185-211, with
    checkSetGroupMemberSetAndIncrementIter, FromXElement.h:155-200. *)
Definition import_beat_unit {A} (good : A -> bool) (it : iterator A) (ok : bool) (g : beat_unit A) : outcome (iterator A * bool * beat_unit A) :=
  if at_end it then Ok (it, ok, g)
  else obind (take_good good "beat-unit" it ok (bu_unit g)) (fun q => let '(m1, it1, ok1, u) := q in
    if at_end it1 then omap (fun i => (i, ok1, mkBeatUnit u (bu_dots g))) (back_if m1 it1)
    else obind (take_all (left it1) "beat-unit-dot" it1) (fun q => let '(it2, l) := q in
      let found := negb (List.length l =? 0) in
      omap (fun i => (i, ok1 && forallb good l, mkBeatUnit u (if found && (List.length (bu_dots g) =? 1) then l else bu_dots g ++ l)))
        (back_if (m1 || found) it2))).

Definition is_beat_unit (n : str) : bool := str_eqb n (lit "beat-unit") || str_eqb n (lit "beat-unit-dot").

(** A turn of the loop, Metronome.cpp:113-209, on a beat-unit or beat-unit-dot, :117-145: a
    metronome that ends after it is refused there. Whether the per-minute could be read is
    not looked at, :141. *)
Definition beat_unit_turn {A} (good : A -> bool) (it : iterator A) (ok : bool) (m : metronome A) : outcome (bool * iterator A * (bool * metronome A)) :=
  obind (import_beat_unit good it ok (mt_first m)) (fun q => let '(it1, ok1, u) := q in
    let m1 := mkMetronome false u (mt_isSecond m) (mt_perMinute m) (mt_second m) (mt_notes m) (mt_relation m) (mt_note m) in
    obind (increment it1) (fun it2 =>
      if at_end it2 then Ok (true, it2, (false, m1))
      else obind (name_at it2) (fun n =>
        if is_beat_unit n then
          obind (import_beat_unit good it2 ok1 (mt_second m1)) (fun q => let '(it3, ok3, v) := q in
            obind (increment it3) (fun it4 =>
              omap (fun it5 => (false, it5, (ok3, mkMetronome false u true (mt_perMinute m) v (mt_notes m) (mt_relation m) (mt_note m)))) (decrement it4)))
        else if str_eqb n (lit "per-minute") then
          obind (contents_at it2) (fun a => obind (increment it2) (fun it3 =>
            omap (fun it4 => (false, it4, (ok1, mkMetronome false u false (give true (Own a) (mt_perMinute m)) (mt_second m) (mt_notes m) (mt_relation m) (mt_note m)))) (decrement it3)))
        else omap (fun it3 => (false, it3, (ok1, m1))) (decrement it2)))).

(** On a metronome-note, :146-203. *)
Definition note_turn {A} (good : A -> bool) (it : iterator A) (ok : bool) (m : metronome A) : outcome (bool * iterator A * (bool * metronome A)) :=
  obind (take_all (left it) "metronome-note" it) (fun q => let '(it1, l) := q in
    let ok1 := ok && forallb good l in
    let read := map (fun a => [Own a]) l in
    let notes := if List.length (mt_notes m) =? 1 then read else mt_notes m ++ read in
    let made r n := mkMetronome true (mt_first m) (mt_isSecond m) (mt_perMinute m) (mt_second m) notes r n in
    if at_end it1 then Ok (true, it1, (ok1, made (mt_relation m) (mt_note m)))
    else obind (take_good good "metronome-relation" it1 ok1 (mt_relation m)) (fun q => let '(b, it2, ok2, r) := q in
      if b then
        if at_end it2 then Ok (true, it2, (ok2, made r (mt_note m)))
        else obind (take_good good "metronome-note" it2 ok2 (mt_note m)) (fun q => let '(b', it3, ok3, n) := q in
          if b' && at_end it3 then Ok (true, it3, (ok3, made r n))
          else omap (fun it4 => (false, it4, (ok3, made r n))) (decrement it3))
      else omap (fun it3 => (false, it3, (ok2, made r (mt_note m)))) (decrement it2))).

Definition metronome_turn {A} (good : A -> bool) (it : iterator A) (s : bool * metronome A) : outcome (bool * iterator A * (bool * metronome A)) :=
  let '(ok, m) := s in
  obind (name_at it) (fun n =>
    if is_beat_unit n then beat_unit_turn good it ok m
    else if str_eqb n (lit "metronome-note") then note_turn good it ok m
    else Ok (false, it, (ok, m))).

Definition read_metronome {A} (good : A -> bool) (children : list (node A)) : outcome (bool * metronome A) :=
  each_child (metronome_turn good) children (true, new_metronome).

(** BeatUnitGroup.cpp:45-55 *)
Definition write_beat_unit {A} (g : beat_unit A) := always "beat-unit" (bu_unit g) ++ map (fun a => (lit "beat-unit-dot", [Own a])) (bu_dots g).

(** BeatUnitPerOrNoteRelationNoteChoice.cpp:46-65, BeatUnitPer.cpp:45-52,
    PerMinuteOrBeatUnitChoice.cpp:46-65, NoteRelationNote.cpp:48-67, MetronomeRelationGroup.cpp:45-52. *)
Definition write_metronome {A} (m : metronome A) :=
  if mt_isNotes m then
    map (fun g => (lit "metronome-note", g)) (mt_notes m)
    ++ (if ch_has (mt_relation m) then always "metronome-relation" (mt_relation m) ++ always "metronome-note" (mt_note m) else [])
  else write_beat_unit (mt_first m) ++ (if mt_isSecond m then write_beat_unit (mt_second m) else always "per-minute" (mt_perMinute m)).

(** ** time-modification: TimeModification.cpp:18-23,52-66,125-161, NormalTypeNormalDotGroup.cpp:15-18,45-55. *)
Record time_modification (A : Type) := mkTimeModification {
  tmo_actual : child A; tmo_normal : child A; tmo_hasType : bool; tmo_type : child A; tmo_dots : list A }.
Arguments mkTimeModification {A}.
Arguments tmo_actual {A}.
Arguments tmo_normal {A}.
Arguments tmo_hasType {A}.
Arguments tmo_type {A}.
Arguments tmo_dots {A}.

(** A turn of the loop, :132-150. For the normal-type it is isSuccess = .., not &=, :138. A
    missing actual-notes or normal-notes is only a message, :152-159. *)
Definition time_modification_turn {A} (good : A -> bool) (it : iterator A) (s : bool * time_modification A) : outcome (bool * iterator A * (bool * time_modification A)) :=
  let '(ok, t) := s in
  obind (name_at it) (fun n => obind (contents_at it) (fun a =>
    Ok (false, it,
      if str_eqb n (lit "actual-notes") then (ok && good a, mkTimeModification (give true (Own a) (tmo_actual t)) (tmo_normal t) (tmo_hasType t) (tmo_type t) (tmo_dots t))
      else if str_eqb n (lit "normal-notes") then (ok && good a, mkTimeModification (tmo_actual t) (give true (Own a) (tmo_normal t)) (tmo_hasType t) (tmo_type t) (tmo_dots t))
      else if str_eqb n (lit "normal-type") then (good a, mkTimeModification (tmo_actual t) (tmo_normal t) true (give true (Own a) (tmo_type t)) (tmo_dots t))
      else if str_eqb n (lit "normal-dot") then (ok && good a, mkTimeModification (tmo_actual t) (tmo_normal t) true (tmo_type t) (tmo_dots t ++ [a]))
      else (ok, t)))).

Definition read_time_modification {A} (good : A -> bool) (children : list (node A)) : outcome (bool * time_modification A) :=
  each_child (time_modification_turn good) children (true, mkTimeModification new_child new_child false new_child []).

Definition write_time_modification {A} (t : time_modification A) :=
  always "actual-notes" (tmo_actual t) ++ always "normal-notes" (tmo_normal t)
  ++ (if tmo_hasType t then always "normal-type" (tmo_type t) ++ map (fun a => (lit "normal-dot", [Own a])) (tmo_dots t) else []).

(** ** measure-style: MeasureStyle.cpp:14-17,45-52,85-95, MeasureStyleChoice.cpp:17-25,52-73,148-155. The
    four members of the choice are a function of their names. *)
Definition measure_style_choices : choices :=
  [("multiple-rest", "multiple-rest"); ("measure-repeat", "measure-repeat"); ("beat-repeat", "beat-repeat"); ("slash", "slash")]%string.

Record measure_style (A : Type) := mkMeasureStyle { ms_choice : string; ms_members : string -> list (given A) }.
Arguments mkMeasureStyle {A}.
Arguments ms_choice {A}.
Arguments ms_members {A}.

Definition read_measure_style {A} (good : A -> bool) (children : list (node A)) : outcome (bool * measure_style A) :=
  each_child (fun it s => let '(ok, t) := s in
    obind (name_at it) (fun n => obind (contents_at it) (fun a =>
      Ok (false, it,
        match choose measure_style_choices n with
        | Some w => (ok && good a, mkMeasureStyle w (fun x => if String.eqb x w then ms_members t x ++ [Own a] else ms_members t x))
        | None => (false, t)
        end)))) children (true, mkMeasureStyle "multiple-rest"%string (fun _ => [])).

Definition write_measure_style {A} (t : measure_style A) := [(lit (ms_choice t), ms_members t (ms_choice t))].

(** ** percussion: Percussion.cpp:14-17,45-51,85-91, PercussionChoice.cpp:26-46,70-144,354-435. The
    choice is handed the percussion element itself. *)
Definition percussion_choices : choices :=
  [("glass", "glass"); ("metal", "metal"); ("wood", "wood"); ("pitched", "pitched"); ("membrane", "membrane"); ("effect", "effect"); ("timpani", "timpani");
   ("beater", "beater"); ("stick", "stick"); ("stick-type", "stick-type"); ("stick-material", "stick-material"); ("stick-location", "stick-location");
   ("other-percussion", "other-percussion")]%string.

Definition read_percussion {A} (children : list (node A)) : outcome (bool * list (str * list (given A))) :=
  match choose percussion_choices (lit "percussion") with
  | Some w => Ok (true, [(lit w, [Parent])])
  | None => Ok (false, [(lit "glass", [])])
  end.

(** ** play: Play.cpp:17-24,52-83,173-198. It looks at the name of the play element itself. *)
Definition play_choices : choices := [("ipa", "ipa"); ("mute", "mute"); ("semi-pitched", "semi-pitched"); ("other-play", "other-play")]%string.

Definition read_play {A} (children : list (node A)) : outcome (bool * list (str * list (given A))) :=
  match choose play_choices (lit "play") with
  | Some w => Ok (true, [(lit w, [Parent])])
  | None => Ok (false, [(lit "ipa", [])])
  end.

(** ** rest and unpitched: Rest.cpp:14-18,46-61,105-114, Unpitched.cpp:14-17,45-60,89-97,
    DisplayStepOctaveGroup.cpp:15-18,46-53, and importGroup for the DisplayStepOctaveGroup,
    FromXElement.cpp:246-282. *)
Record display (A : Type) := mkDisplay { dp_has : bool; dp_step : child A; dp_octave : child A }.
Arguments mkDisplay {A}.
Arguments dp_has {A}.
Arguments dp_step {A}.
Arguments dp_octave {A}.

Definition read_display {A} (good : A -> bool) (children : list (node A)) : outcome (bool * display A) :=
  let it := begin children in
  if at_end it then Ok (true, mkDisplay false new_child new_child)
  else obind (take_good good "display-step" it true new_child) (fun q => let '(b1, it1, ok1, s) := q in
    obind (take_good good "display-octave" it1 ok1 new_child) (fun q => let '(b2, it2, ok2, o) := q in
      omap (fun _ => (ok2, mkDisplay (b1 || b2) s o)) (back_if (b1 || b2) it2))).

Definition write_display {A} (d : display A) := if dp_has d then always "display-step" (dp_step d) ++ always "display-octave" (dp_octave d) else [].

(** ** dynamics: Dynamics.cpp:19-22,29-53,92-117; the child's text is what is in it. Only the
    first child is looked at. *)
Definition set_dynamics : custom DynamicsEnum -> str -> custom DynamicsEnum := setValue_text isOther_DynamicsValue DynamicsEnum_otherDynamics tryParse_DynamicsEnum.
Definition new_dynamics : custom DynamicsEnum := construct_enum isOther_DynamicsValue DynamicsEnum_mf.

Definition read_dynamics (children : list (node str)) : outcome (bool * custom DynamicsEnum) :=
  let it := begin children in
  if at_end it then Ok (false, new_dynamics)
  else obind (name_at it) (fun n =>
    if str_eqb n (lit "other-dynamics") then obind (contents_at it) (fun text => Ok (true, set_dynamics new_dynamics text))
    else Ok (true, set_dynamics new_dynamics n)).

(** The child written: its name and its text. *)
Definition write_dynamics (v : custom DynamicsEnum) : str * str :=
  if isOther_DynamicsValue (myEnum v) then (DynamicsEnum_toString (myEnum v), getValueString isOther_DynamicsValue DynamicsEnum_toString v)
  else (DynamicsEnum_toString (myEnum v), []).
