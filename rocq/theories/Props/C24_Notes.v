(** C24: writing and reading a measure preserves its notes. *)
From Coq Require Import String List ZArith QArith Bool Sorting.Permutation Sorting.Sorted.
From Verif Require Import Model.Base Model.Text Model.Ticks Model.ApiEnums Model.MeasureTypes Model.MeasureWriter Model.MeasureReader
  Spec.Numerals Spec.Measures Spec.Voices Spec.RoundTrip.
From Verif Require Import Proofs.Tac Proofs.Meets Proofs.MeasureBack.
Import ListNotations.
Open Scope Z_scope.

(** A note with everything but the requested voice number. *)
Definition C24_note (n : NoteData) : Z * Z * bool * note_type * Z := (n_tick n, n_dur n, n_chord n, n_type n, n_rest n).
Definition C24_voices (st : StaffData) : list (Z * list (Z * Z * bool * note_type * Z)) := map (fun v => (fst v, map C24_note (snd v))) (s_voices st).

(** The full claim: every measure whose values fit in an int comes back with, for each
    staff and voice, the same notes. *)
Definition C24_same_notes : Prop := forall wc rc m, agree wc rc -> measure_in_range wc m -> Forall staff_in_time (m_staves m) ->
  exists x m' transpose, write_measure wc m = Ok x /\ read_measure rc x = Ok (m', transpose, rc_global rc) /\
    map C24_voices (m_staves m') = map C24_voices (m_staves m).

(** It holds for measures whose notes are in order ([staff_in_order]: in a voice each
    note starts where the one before ends or later, or in its chord; chord flags are on
    neighbours; each further voice of a staff starts before the end of the one before):
    all of the notes come back, in the same voices, with the same times, lengths, types,
    chord flags and contents, and with the number of their voice. *)
Theorem C24_same_notes_partial wc rc m : agree wc rc -> measure_in_range wc m -> Forall staff_in_order (m_staves m) ->
  exists x m' transpose, write_measure wc m = Ok x /\ read_measure rc x = Ok (m', transpose, rc_global rc) /\
    Forall2 (fun st st' => s_voices st' = asking (s_voices st)) (m_staves m) (m_staves m').
Proof. exact (notes_back wc rc m). Qed.

(** So do the notes of all measures of a part. *)
Theorem C24_part_partial prints wc rc l : agree wc rc -> Forall (measure_in_range wc) l -> Forall (fun m => Forall staff_in_order (m_staves m)) l ->
  exists xs l', write_measures prints wc l = Ok xs /\ read_measures rc xs = Ok l' /\
    Forall2 (fun m m' => Forall2 (fun st st' => s_voices st' = asking (s_voices st)) (m_staves m) (m_staves m')) l l'.
Proof. exact (part_notes_back prints l wc rc). Qed.

(** For other measures no note is lost, doubled or moved, whatever the overlaps: each
    staff comes back with the same notes (time, length, type and contents), though they
    may be in other voices. *)
Theorem C24_no_note_lost_partial wc rc m : agree wc rc -> measure_in_range wc m -> Forall chords_closed (m_staves m) ->
  exists x m' transpose, write_measure wc m = Ok x /\ read_measure rc x = Ok (m', transpose, rc_global rc) /\
    Forall2 (fun st st' => Permutation (map note_time (flat_map snd (s_voices st))) (map note_time (flat_map snd (s_voices st')))) (m_staves m) (m_staves m').
Proof. exact (no_note_lost wc rc m). Qed.

Example C24_writer (staves : Z) : wctx := mkWctx staves 6 0 true 0 None.
Example C24_reader (staves : nat) : rctx := mkRctx staves 6 1 0 default_time.
Example C24_measure (staves : list StaffData) : MeasureData := mkMeasure staves default_time (lit "1"%string) BoolUnspecified [] [].

(** Two staves; the first has a voice with a chord, a gap and a grace note, and a voice
    numbered 3; the second has one voice. *)
Example C24_sample : MeasureData := C24_measure
  [mkStaff [] [] [] [(0, [mkNote 0 6 true NormalNote 0 60; mkNote 0 6 true NormalNote 0 64; mkNote 12 0 false GraceNote 0 65; mkNote 12 3 false CueNote 0 67]);
                     (3, [mkNote 3 12 false NormalNote 0 48])];
   mkStaff [] [] [] [(1, [mkNote 0 24 false NormalNote 9 36])]].

Example C24_same_notes_holds : agree (C24_writer 2) (C24_reader 2) /\ measure_in_range (C24_writer 2) C24_sample /\ Forall staff_in_order (m_staves C24_sample) /\
  exists x m', write_measure (C24_writer 2) C24_sample = Ok x /\ read_measure (C24_reader 2) x = Ok (m', None, 6) /\
    map C24_voices (m_staves m') = map C24_voices (m_staves C24_sample).
Proof. split; [meets | ]. split; [meets | ]. split; [meets | ]. eexists. eexists. split; [vm_compute; reflexivity | ]. split; vm_compute; reflexivity. Qed.

Example C24_part_holds : Forall (measure_in_range (C24_writer 2)) [C24_sample; C24_sample] /\
  Forall (fun m => Forall staff_in_order (m_staves m)) [C24_sample; C24_sample].
Proof. meets. Qed.

(** Overlapping notes in one voice. *)
Example C24_overlap : MeasureData := C24_measure
  [mkStaff [] [] [] [(0, [mkNote 0 6 false NormalNote 0 60; mkNote 3 6 false NormalNote 0 64])]].

Example C24_no_note_lost_holds : agree (C24_writer 1) (C24_reader 1) /\ measure_in_range (C24_writer 1) C24_overlap /\ Forall chords_closed (m_staves C24_overlap) /\
  exists x m', write_measure (C24_writer 1) C24_overlap = Ok x /\ read_measure (C24_reader 1) x = Ok (m', None, 6) /\
    map C24_voices (m_staves m') = [[(0, [(0, 6, false, NormalNote, 60)]); (1, [(3, 6, false, NormalNote, 64)])]].
Proof. split; [meets | ]. split; [meets | ]. split; [meets | ]. eexists. eexists. split; [vm_compute; reflexivity | ]. split; vm_compute; reflexivity. Qed.

(** A voice that starts where the one before it ends is joined to it. *)
Example C24_joined : MeasureData := C24_measure
  [mkStaff [] [] [] [(0, [mkNote 0 6 false NormalNote 0 60]); (1, [mkNote 6 6 false NormalNote 0 64])]].

Example C24_joined_read : exists x m', write_measure (C24_writer 1) C24_joined = Ok x /\ read_measure (C24_reader 1) x = Ok (m', None, 6) /\
    map C24_voices (m_staves m') = [[(0, [(0, 6, false, NormalNote, 60); (6, 6, false, NormalNote, 64)])]].
Proof. eexists. eexists. split; [vm_compute; reflexivity | ]. split; vm_compute; reflexivity. Qed.

Theorem C24_same_notes_refuted : ~ C24_same_notes.
Proof.
  intros H. destruct (H (C24_writer 1) (C24_reader 1) C24_joined) as (x & m & tr & W & R & E); [meets | meets | meets | ].
  destruct C24_joined_read as (x' & m' & W' & R' & E'). rewrite W' in W. injection W as <-. rewrite R' in R. injection R as <- <-. rewrite E' in E. vm_compute in E. discriminate E.
Qed.

Print Assumptions C24_same_notes_partial.
Print Assumptions C24_part_partial.
Print Assumptions C24_no_note_lost_partial.
Print Assumptions C24_same_notes_refuted.
