(** Directions that come back as they were written. *)
From Coq Require Import List ZArith Bool.
From Verif Require Import Model.ApiEnums Model.MeasureTypes Spec.MarkGroups.
Import ListNotations.
Open Scope Z_scope.

(** The direction without its chord symbols, and its chord symbols alone. *)
Definition without_chords (d : DirectionData) : DirectionData :=
  mkDirection (d_tick d) (d_staffSpecified d) (d_tempos d) (d_marks d) (d_wedgeStarts d) (d_wedgeStops d) (d_ottavaStarts d) (d_ottavaStops d)
    (d_bracketStarts d) (d_bracketStops d) (d_words d) [] (d_segnos d) (d_codas d) (d_rehearsals d).
Definition chords_alone (d : DirectionData) : DirectionData :=
  mkDirection (d_tick d) (d_staffSpecified d) [] [] [] [] [] [] [] [] [] (d_chords d) [] [] [].

(** The direction with what the writer leaves out removed: the ends of brackets, segnos,
    codas, rehearsal marks and marks that are neither dynamics nor pedal marks. *)
Definition writable_mark (m : api_MarkType * Z) : bool := dynamics_section (fst m) || pedal_section (fst m).
Definition trimmed (d : DirectionData) : DirectionData :=
  mkDirection (d_tick d) (d_staffSpecified d) (d_tempos d) (filter writable_mark (d_marks d)) (d_wedgeStarts d) (d_wedgeStops d) (d_ottavaStarts d) (d_ottavaStops d)
    (d_bracketStarts d) [] (d_words d) (d_chords d) [] [] [].

(** Nothing but a time and a staff. *)
Definition blank (d : DirectionData) : bool :=
  match d with mkDirection _ _ [] [] [] [] [] [] [] [] [] [] [] [] [] => true | _ => false end.

Definition on_its_staff (d : DirectionData) : DirectionData :=
  mkDirection (d_tick d) true (d_tempos d) (d_marks d) (d_wedgeStarts d) (d_wedgeStops d) (d_ottavaStarts d) (d_ottavaStops d)
    (d_bracketStarts d) (d_bracketStops d) (d_words d) (d_chords d) (d_segnos d) (d_codas d) (d_rehearsals d).

Definition unless_blank (d : DirectionData) : list DirectionData := if blank d then [] else [d].

(** The direction split in two, chord symbols last; below the first staff the first part
    has its staff specified. *)
Definition split_direction (i : nat) (d : DirectionData) : list DirectionData :=
  unless_blank (without_chords (match i with O => d | S _ => on_its_staff d end)) ++ unless_blank (chords_alone d).

(** Chord symbols below the first staff need their staff specified. *)
Definition chords_placed (i : nat) (d : DirectionData) : Prop := d_chords d = [] \/ i = O \/ d_staffSpecified d = true.

(** A direction that needs no split. *)
Definition simple_direction (i : nat) (d : DirectionData) : Prop :=
  blank d = false /\ trimmed d = d /\ (d_chords d = [] \/ without_chords d = mkDirection (d_tick d) (d_staffSpecified d) [] [] [] [] [] [] [] [] [] [] [] [] []) /\
  (i = O \/ d_staffSpecified d = true).

(** [P] holds of each element of a list and its position. *)
Definition Forall_at {A} (P : nat -> A -> Prop) (l : list A) : Prop := forall i a, nth_error l i = Some a -> P i a.

(** * Reading *)

(** The contents of a direction type, kind by kind. *)
Definition tempos_in (t : direction_type) : list TempoData := match t with DtMetronome r => [mkTempo true r] | _ => [] end.
Definition marks_in (t : direction_type) : list (api_MarkType * Z) :=
  match t with DtDynamics m r => [(m, r)] | DtPedalStart r => [(api_MarkType_pedal, r)] | DtPedalStop r => [(api_MarkType_damp, r)] | _ => [] end.
Definition wedge_starts_in (t : direction_type) : list Z := match t with DtWedgeStart r => [r] | _ => [] end.
Definition wedge_stops_in (t : direction_type) : list Z := match t with DtWedgeStop r => [r] | _ => [] end.
Definition ottava_starts_in (t : direction_type) : list Z := match t with DtOttavaStart r => [r] | _ => [] end.
Definition ottava_stops_in (t : direction_type) : list Z := match t with DtOttavaStop r => [r] | _ => [] end.
Definition bracket_starts_in (t : direction_type) : list Z := match t with DtBracketStart r => [r] | _ => [] end.
Definition bracket_stops_in (t : direction_type) : list Z := match t with DtBracketStop r => [r] | _ => [] end.
Definition words_in (t : direction_type) : list Z := match t with DtWords l => l | _ => [] end.
Definition segnos_in (t : direction_type) : list Z := match t with DtSegno l => l | _ => [] end.
Definition codas_in (t : direction_type) : list Z := match t with DtCoda l => l | _ => [] end.
Definition rehearsals_in (t : direction_type) : list Z := match t with DtRehearsal l => l | _ => [] end.

(** Of [n] staves, the one asked for (from 1) if it is there, else the first. *)
Definition staff_asked (n : nat) (asked : option Z) (i : nat) (specified : bool) : Prop :=
  if specified then asked = Some (Z.of_nat i + 1) /\ (i < n)%nat
  else i = O /\ forall k, asked = Some k -> ~ (1 <= k <= Z.of_nat n).

(** A direction of the API on staff [i] holds all that the element says, in its order,
    and nothing else. *)
Definition direction_read (n : nat) (x : music_data) (i : nat) (d : DirectionData) : Prop :=
  match x with
  | MDirection e =>
      staff_asked n (xd_staff e) i (d_staffSpecified d) /\
      d = mkDirection (d_tick d) (d_staffSpecified d) (flat_map tempos_in (xd_types e)) (flat_map marks_in (xd_types e))
            (flat_map wedge_starts_in (xd_types e)) (flat_map wedge_stops_in (xd_types e))
            (flat_map ottava_starts_in (xd_types e)) (flat_map ottava_stops_in (xd_types e))
            (flat_map bracket_starts_in (xd_types e)) (flat_map bracket_stops_in (xd_types e))
            (flat_map words_in (xd_types e)) [] (flat_map segnos_in (xd_types e)) (flat_map codas_in (xd_types e)) (flat_map rehearsals_in (xd_types e))
  | MHarmony e =>
      staff_asked n (xh_staff e) i (d_staffSpecified d) /\
      d = mkDirection (d_tick d) (d_staffSpecified d) [] [] [] [] [] [] [] [] [] (xh_chords e) [] [] []
  | _ => False
  end.

Definition is_direction (x : music_data) : bool := match x with MDirection _ | MHarmony _ => true | _ => false end.
