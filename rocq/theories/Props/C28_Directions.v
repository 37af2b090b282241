(** C28: directions are never lost and keep their time. *)
From Coq Require Import String List ZArith QArith Bool.
From Verif Require Import Model.Base Model.Text Model.ApiEnums Model.MeasureTypes Model.MeasureWriter Model.MeasureReader
  Spec.Numerals Spec.Measures Spec.Voices Spec.RoundTrip Spec.Directions Spec.Written.
From Verif Require Import Proofs.Meets Proofs.MeasureReadProofs Proofs.DirectionsBack Proofs.WrittenProofs.
Import ListNotations.
Open Scope Z_scope.

(** The full claim: each staff comes back with the directions it was given, in order and
    each at its tick. *)
Definition C28_same_directions : Prop := forall wc rc m, agree wc rc -> measure_in_range wc m -> Forall chords_closed (m_staves m) ->
  exists x m' transpose, write_measure wc m = Ok x /\ read_measure rc x = Ok (m', transpose, rc_global rc) /\
    map s_directions (m_staves m') = map s_directions (m_staves m).

(** It holds for directions with something in them that the writer supports, with chord
    symbols apart from other contents, and with their staff specified below the first
    staff ([simple_direction]). The times are any within the range of an int: before,
    between, at or after the notes. *)
Theorem C28_same_directions_partial wc rc m : agree wc rc -> measure_in_range wc m -> Forall chords_closed (m_staves m) ->
  Forall_at (fun i st => Forall (simple_direction i) (s_directions st)) (m_staves m) ->
  exists x m' transpose, write_measure wc m = Ok x /\ read_measure rc x = Ok (m', transpose, rc_global rc) /\
    map s_directions (m_staves m') = map s_directions (m_staves m).
Proof. exact (simple_directions_back wc rc m). Qed.

(** In general each direction comes back at its tick and on its staff, in order, as at
    most two: its contents less those that are not supported, if there are any, and its
    chord symbols, if there are any. *)
Theorem C28_in_general_partial wc rc m : agree wc rc -> measure_in_range wc m -> Forall chords_closed (m_staves m) ->
  Forall_at (fun i st => Forall (chords_placed i) (s_directions st)) (m_staves m) ->
  exists x m' transpose, write_measure wc m = Ok x /\ read_measure rc x = Ok (m', transpose, rc_global rc) /\
    List.length (m_staves m') = List.length (m_staves m) /\
    forall i st st', nth_error (m_staves m) i = Some st -> nth_error (m_staves m') i = Some st' ->
      s_directions st' = flat_map (fun d => split_direction i (trimmed d)) (s_directions st).
Proof. exact (directions_back wc rc m). Qed.

(** Of any <measure>: each of its <direction> and <harmony> elements becomes one direction,
    in their order, on the staff it asks for, with all of the contents of all of its
    types. *)
Theorem C28_reading c x m tr cur : 1 <= rc_global c -> 0 <= rc_current c -> Forall item_ok (xm_data x) -> read_measure c x = Ok (m, tr, cur) ->
  exists ds, Forall2 (fun e p => direction_read (List.length (m_staves m)) e (fst p) (snd p)) (filter is_direction (xm_data x)) ds /\
    forall i st, nth_error (m_staves m) i = Some st -> s_directions st = map snd (filter (fun p => Nat.eqb (fst p) i) ds).
Proof. exact (read_directions c x m tr cur). Qed.

(** A tempo that is not in beats per minute is never left out: the measure is not
    written at all. *)
Theorem C28_tempos wc m x : write_measure wc m = Ok x -> all_beats_per_minute m.
Proof. exact (tempos_written wc m x). Qed.

Example C28_writer (staves : Z) : wctx := mkWctx staves 6 0 true 0 None.
Example C28_reader (staves : nat) : rctx := mkRctx staves 6 1 0 default_time.
Example C28_measure (staves : list StaffData) : MeasureData := mkMeasure staves default_time (lit "1"%string) BoolUnspecified [] [].

Example C28_words (t : Z) (specified : bool) (w : Z) : DirectionData := mkDirection t specified [] [] [] [] [] [] [] [] [w] [] [] [] [].
Example C28_dynamics (t : Z) (specified : bool) (m : api_MarkType) : DirectionData := mkDirection t specified [] [(m, 7)] [] [] [] [] [] [] [] [] [] [] [].
Example C28_chord (t : Z) (specified : bool) : DirectionData := mkDirection t specified [] [] [] [] [] [] [] [] [] [3; 4] [] [] [].
Example C28_rehearsal (t : Z) : DirectionData := mkDirection t false [] [] [] [] [] [] [] [] [] [] [] [] [9].

(** Two staves with directions before, within and after the notes. *)
Example C28_sample : MeasureData := C28_measure
  [mkStaff [] [] [C28_words 0 false 1; C28_dynamics 2 true api_MarkType_ff; C28_chord 5 false; C28_words 100 true 2]
     [(0, [mkNote 1 6 false NormalNote 0 60; mkNote 12 6 false NormalNote 0 64]); (1, [mkNote 0 24 false NormalNote 0 48])];
   mkStaff [] [] [C28_chord 0 true; C28_dynamics 50 true api_MarkType_damp; C28_words 3 true 3] [(0, [mkNote 0 24 false NormalNote 9 36])]].

Example C28_same_directions_holds : agree (C28_writer 2) (C28_reader 2) /\ measure_in_range (C28_writer 2) C28_sample /\ Forall chords_closed (m_staves C28_sample) /\
  Forall_at (fun i st => Forall (simple_direction i) (s_directions st)) (m_staves C28_sample) /\
  Forall_at (fun i st => Forall (chords_placed i) (s_directions st)) (m_staves C28_sample).
Proof.
  split; [meets | ]. split; [meets | ]. split; [meets | ]. split.
  - intros [|[|i]] st H; cbn in H; [injection H as <-; meets | injection H as <-; meets | destruct i; discriminate H].
  - intros [|[|i]] st H; cbn in H; [injection H as <-; meets | injection H as <-; meets | destruct i; discriminate H].
Qed.

Example C28_tempo (b : bool) : MeasureData := C28_measure
  [mkStaff [] [] [mkDirection 3 false [mkTempo true 1; mkTempo b 2] [] [] [] [] [] [] [] [] [] [] [] []] [(0, [mkNote 0 24 false NormalNote 9 36])]].
Example C28_tempos_holds : (exists x, write_measure (C28_writer 1) (C28_tempo true) = Ok x) /\ write_measure (C28_writer 1) (C28_tempo false) = Throw.
Proof. split; [eexists | ]; vm_compute; reflexivity. Qed.

Example C28_file : xmeasure := mkXMeasure (lit "1"%string) None
  [MDirection (mkXDirection None (Some 2) [DtWords [1]; DtSegno [5]; DtWords [2; 3]]); MNote (mkXNote NormalNote 1 false None None 60);
   MHarmony (mkXHarmony (Some 2%Q) (Some 7) [4])].
Example C28_reading_holds : Forall item_ok (xm_data C28_file) /\ exists m, read_measure (C28_reader 2) C28_file = Ok (m, None, 1) /\
  map s_directions (m_staves m) = [[mkDirection 8 false [] [] [] [] [] [] [] [] [] [4] [] [] []]; [mkDirection 0 true [] [] [] [] [] [] [] [] [1; 2; 3] [] [5] [] []]].
Proof. split; [meets | ]. eexists. split; vm_compute; reflexivity. Qed.

(** A direction with contents and chord symbols comes back as two. *)
Example C28_in_general_holds : exists x m', let d := mkDirection 3 false [] [] [] [] [] [] [] [] [1] [2] [] [] [5] in
  write_measure (C28_writer 1) (C28_measure [mkStaff [] [] [d] []]) = Ok x /\ read_measure (C28_reader 1) x = Ok (m', None, 6) /\
  map s_directions (m_staves m') = [[C28_words 3 false 1; mkDirection 3 false [] [] [] [] [] [] [] [] [] [2] [] [] []]].
Proof. eexists. eexists. cbv zeta. split; [vm_compute; reflexivity | ]. split; vm_compute; reflexivity. Qed.

(** A rehearsal mark is lost. *)
Theorem C28_same_directions_refuted : ~ C28_same_directions.
Proof.
  intros H. destruct (H (C28_writer 1) (C28_reader 1) (C28_measure [mkStaff [] [] [C28_rehearsal 0] []])) as (x & m & tr & W & R & E); [meets | meets | meets | ].
  vm_compute in W. injection W as <-. vm_compute in R. injection R as <- _. vm_compute in E. discriminate E.
Qed.

Print Assumptions C28_same_directions_partial.
Print Assumptions C28_in_general_partial.
Print Assumptions C28_same_directions_refuted.
Print Assumptions C28_tempos.
Print Assumptions C28_reading.
