(** Scores that come back as they were written. *)
From Coq Require Import List ZArith QArith Bool Sorting.Sorted Sorting.Permutation.
From Verif Require Import Model.Base Model.Text Model.ApiEnums Model.Ticks Model.MeasureTypes Model.PartInfo Model.Scores.
From Verif Require Import Spec.Numerals Spec.Voices Spec.RoundTrip Spec.Changes Spec.Directions Spec.TimeSignatures Spec.PartReading.
Import ListNotations.
Open Scope Z_scope.

(** * What comes back *)

(** The measure as it was, except that every note asks for the number of its voice. *)
Definition staff_asking (st : StaffData) : StaffData := mkStaff (s_clefs st) (s_keys st) (s_directions st) (asking (s_voices st)).
Definition measure_asking (m : MeasureData) : MeasureData :=
  mkMeasure (map staff_asking (m_staves m)) (m_time m) (m_number m) (m_implicit m) (m_keys m) (m_barlines m).
Definition music_asking (p : PartMusic) : PartMusic := mkMusic (map measure_asking (pm_measures p)) (pm_transposition p).

(** All notes ask for the number of their voice already. *)
Definition all_asking (m : MeasureData) : Prop :=
  Forall (fun st => Forall (fun v => Forall (fun n => n_voice n = fst v + 1) (snd v)) (s_voices st)) (m_staves m).

(** * The scores it holds for *)

(** A barline at the start or at the end of its measure, all of which MusicXML can say. *)
Definition bar_stays (b : BarlineData) : Prop :=
  b_type b <> api_BarlineType_unsupported /\ (b_ending b <> api_EndingType_none -> 0 < b_number b) /\
  (b_ending b = api_EndingType_none -> b_number b = 0).
Definition start_bar (b : BarlineData) : Prop := bar_stays b /\ b_location b = api_HorizontalAlignment_left /\ b_tick b = 0.
Definition end_bar (b : BarlineData) : Prop := bar_stays b /\ b_location b = api_HorizontalAlignment_right /\ b_tick b = 2147483647.

(** All times, lengths and numbers fit in an int, with [staves] staves. *)
Definition values_fit (staves : nat) (m : MeasureData) : Prop :=
  List.length (m_staves m) = staves /\ Forall staff_in_range (m_staves m) /\
  is_int (ts_beats (m_time m)) /\ is_int (ts_beatType (m_time m)) /\
  Z.of_nat (List.length (flat_map snd (flat_map s_voices (m_staves m)))) <= 2147483647.

(** A measure at index [i] of a part with [staves] staves: the notes are in order (C24), the
    directions are ones that are supported (C28), clefs and keys change at notes (C29), the
    barlines are at the start or the end (C30), and the number does not merely spell
    out the index (C32). *)
Definition measure_fits (staves : nat) (i : Z) (m : MeasureData) : Prop :=
  values_fit staves m /\
  Forall staff_in_order (m_staves m) /\
  Forall_at (fun k st => Forall (simple_direction k) (s_directions st)) (m_staves m) /\
  Forall clefs_at_notes (m_staves m) /\
  Forall (fun st => s_keys st = []) (m_staves m) /\
  (exists a b, m_keys m = a ++ b /\ Forall (key_at_start (Z.of_nat staves)) a /\ Forall (key_at_note m) b /\ StronglySorted Z.lt (map k_tick b)) /\
  (exists a b, m_barlines m = a ++ b /\ Forall start_bar a /\ Forall end_bar b) /\
  tidy (m_number m) /\ m_number m <> print_int (i + 1).

(** A part: it has a measure; all have the same number of staves; implicit time
    signatures are the ones before (C31). *)
Definition music_fits (p : PartMusic) : Prop :=
  exists staves, 1 <= Z.of_nat staves <= 2147483647 /\ pm_measures p <> [] /\
    Forall_at (fun i m => measure_fits staves (Z.of_nat i) m) (pm_measures p) /\
    map m_time (pm_measures p) = inherit (mkTime 4 4 SymbolUnspecified BoolUnspecified true) (map stated (pm_measures p)).

(** * Other parts *)

(** A part for which only that is asked which C24, C28 and C29 need to say something. *)
Definition music_in_range (p : PartMusic) : Prop :=
  exists staves, 1 <= Z.of_nat staves <= 2147483647 /\ pm_measures p <> [] /\
    Forall (fun m => values_fit staves m /\ Forall chords_closed (m_staves m)) (pm_measures p).

(** No measure is lost, and each staff keeps its notes, at their times. *)
Definition same_notes (st st' : StaffData) : Prop :=
  Permutation (map note_time (flat_map snd (s_voices st))) (map note_time (flat_map snd (s_voices st'))).

(** * A part without measures comes back with this one *)
Definition one_empty_measure : MeasureData := mkMeasure [mkStaff [] [] [] []] (mkTime 4 4 SymbolUnspecified BoolUnspecified true) [] BoolUnspecified [] [].

(** * Files of others *)

Definition list_of {A} (o : option A) : list A := match o with Some a => [a] | None => [] end.

(** All staff numbers and numbers of staves said in a part. *)
Definition staff_numbers (l : list xmeasure) : list Z :=
  flat_map (fun m => flat_map (fun x => match x with
    | MNote n => list_of (xn_staff n) | MDirection d => list_of (xd_staff d) | MHarmony h => list_of (xh_staff h) | MProperties p => list_of (p_staves p)
    | _ => [] end) (xm_data m)) l.

(** All divisions said in a part, in order. *)
Definition divisions_said (l : list xmeasure) : list Q :=
  flat_map (fun m => flat_map (fun x => match x with MProperties p => list_of (p_divisions p) | _ => [] end) (xm_data m)) l.

(** The divisions in effect after [earlier] ones: the last, unless it rounds to less than 1. *)
Definition in_effect (global : Z) (earlier : list Q) : Z :=
  match rev earlier with d :: _ => if 0 <? round_half d then round_half d else global | [] => global end.

(** Elements that take no time, and the transposition the last of them says. *)
Definition takes_no_time (x : music_data) : Prop :=
  match x with MProperties _ | MBarline _ | MDirection _ | MHarmony _ | MPrint | MeasureTypes.MOther => True | _ => False end.
Definition says_transposition (x : music_data) : list Z := match x with MProperties p => firstn 1 (p_transpose p) | _ => [] end.
Definition last_said (items : list music_data) : option Z := match rev (flat_map says_transposition items) with t :: _ => Some t | [] => None end.
