(** C26: written measures are self-consistent. *)
From Coq Require Import String List ZArith QArith Bool.
From Verif Require Import Model.Base Model.Text Model.ApiEnums Model.MeasureTypes Model.MeasureWriter
  Spec.Numerals Spec.Measures Spec.Voices Spec.RoundTrip Spec.Replay.
From Verif Require Import Proofs.Meets Proofs.ReplayProofs.
Import ListNotations.
Open Scope Z_scope.

(** The full claim: under the timing rules of MusicXML the elements of the written
    measure are, in order, the notes given, each once and at its start; no backup goes
    before the start of the measure. *)
Definition C26_consistent : Prop := forall wc m, 1 <= wc_numStaves wc <= 2147483647 -> 1 <= wc_ticksPerQuarter wc <= 2147483647 ->
  measure_in_range wc m -> Forall chords_closed (m_staves m) ->
  exists x out, write_measure wc m = Ok x /\ replay 0 0 (xm_data x) = Some out /\ Forall2 stands_for (all_notes 0 (m_staves m)) out.

(** It holds if only grace notes take no time and the notes of a chord have the same
    length ([chords_even]); the notes may overlap or leave gaps in any way. *)
Theorem C26_consistent_partial wc m : 1 <= wc_numStaves wc <= 2147483647 -> 1 <= wc_ticksPerQuarter wc <= 2147483647 ->
  measure_in_range wc m -> Forall chords_closed (m_staves m) -> Forall chords_even (m_staves m) ->
  exists x out, write_measure wc m = Ok x /\ replay 0 0 (xm_data x) = Some out /\ Forall2 stands_for (all_notes 0 (m_staves m)) out.
Proof. exact (written_replayed wc m). Qed.

Example C26_writer (staves : Z) : wctx := mkWctx staves 6 0 true 0 None.
Example C26_measure (staves : list StaffData) : MeasureData := mkMeasure staves default_time (lit "1"%string) BoolUnspecified [] [].

(** Overlaps, a chord, a gap, a grace note, several voices and staves. *)
Example C26_sample : MeasureData := C26_measure
  [mkStaff [mkClef 0 1; mkClef 4 2] [] []
     [(0, [mkNote 3 6 true NormalNote 0 60; mkNote 3 6 true NormalNote 0 64; mkNote 5 0 false GraceNote 0 65; mkNote 4 3 false CueNote 0 67]); (3, [mkNote 20 12 false NormalNote 0 48])];
   mkStaff [] [] [] [(1, [mkNote 0 24 false NormalNote 9 36])]].

Example C26_consistent_holds : measure_in_range (C26_writer 2) C26_sample /\ Forall chords_closed (m_staves C26_sample) /\ Forall chords_even (m_staves C26_sample) /\
  exists x out, write_measure (C26_writer 2) C26_sample = Ok x /\ replay 0 0 (xm_data x) = Some out /\ map (fun p => Qred (fst p)) out = [3; 3; 5; 4; 20; 0]%Q.
Proof. split; [meets | ]. split; [meets | ]. split; [meets | ]. eexists. eexists. split; [vm_compute; reflexivity | ]. split; vm_compute; reflexivity. Qed.

(** The first note of a chord is shorter than the second: what follows is placed after
    the second by the writer, but after the first by the rules. *)
Example C26_uneven : MeasureData := C26_measure
  [mkStaff [] [] [] [(0, [mkNote 0 3 true NormalNote 0 60; mkNote 0 6 true NormalNote 0 64; mkNote 6 6 false NormalNote 0 65])]].

Theorem C26_consistent_refuted : ~ C26_consistent.
Proof.
  intros H. destruct (H (C26_writer 1) C26_uneven) as (x & out & W & R & F); [meets | meets | meets | meets | ].
  vm_compute in W. injection W as <-. vm_compute in R. injection R as <-. inversion F as [|? ? ? ? _ F1]; subst. inversion F1 as [|? ? ? ? _ F2]; subst. inversion F2 as [|? ? ? ? F3 _]; subst. destruct F3 as [F3 _].
  vm_compute in F3. discriminate F3.
Qed.

Print Assumptions C26_consistent_partial.
Print Assumptions C26_consistent_refuted.
