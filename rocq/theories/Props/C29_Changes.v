(** C29: clef and key changes are never lost. *)
From Coq Require Import String List ZArith QArith Bool Sorting.Sorted Permutation.
From Verif Require Import Model.Base Model.Text Model.ApiEnums Model.MeasureTypes Model.MeasureWriter Model.MeasureReader
  Spec.Numerals Spec.Measures Spec.Voices Spec.RoundTrip Spec.Changes.
From Verif Require Import Proofs.Meets Proofs.ChangesBack Proofs.KeysAny.
Import ListNotations.
Open Scope Z_scope.

(** The full claims. *)
Definition C29_same_clefs : Prop := forall wc rc m, agree wc rc -> measure_in_range wc m -> Forall chords_closed (m_staves m) ->
  exists x m' transpose, write_measure wc m = Ok x /\ read_measure rc x = Ok (m', transpose, rc_global rc) /\
    map s_clefs (m_staves m') = map s_clefs (m_staves m).

Definition C29_same_keys : Prop := forall wc rc m, agree wc rc -> measure_in_range wc m -> Forall chords_closed (m_staves m) ->
  exists x m' transpose, write_measure wc m = Ok x /\ read_measure rc x = Ok (m', transpose, rc_global rc) /\
    m_keys m' = m_keys m /\ map s_keys (m_staves m') = map s_keys (m_staves m).

(** Clefs: every staff comes back with the same clefs in the same order, none lost or
    doubled, wherever they were; and at their ticks, if these are 0 or those of notes of
    the staff's first voice. *)
Theorem C29_same_clefs_partial wc rc m : agree wc rc -> measure_in_range wc m -> Forall chords_closed (m_staves m) ->
  exists x m' transpose, write_measure wc m = Ok x /\ read_measure rc x = Ok (m', transpose, rc_global rc) /\
    Forall2 (fun st st' => map c_rest (s_clefs st') = map c_rest (s_clefs st) /\ (clefs_at_notes st -> s_clefs st' = s_clefs st)) (m_staves m) (m_staves m').
Proof. exact (clefs_back wc rc m). Qed.

(** Keys: the keys of the measure at its start come back as they are, followed by the
    staves' own keys, none lost or doubled; these come back at their ticks with the index
    of their staff, if the ticks are those of notes of the staff's first voice. *)
Theorem C29_same_keys_partial wc rc m : agree wc rc -> measure_in_range wc m -> Forall chords_closed (m_staves m) -> Forall (key_at_start (wc_numStaves wc)) (m_keys m) ->
  exists x m' transpose, write_measure wc m = Ok x /\ read_measure rc x = Ok (m', transpose, rc_global rc) /\
    map k_rest (m_keys m') = map k_rest (m_keys m ++ flat_map s_keys (m_staves m)) /\
    (Forall staff_keys_at_notes (m_staves m) -> m_keys m' = m_keys m ++ keys_of_staves 0 (m_staves m)).
Proof. exact (keys_back wc rc m). Qed.

(** Keys of the measure at its start and later, at distinct notes of the first voice of
    the first staff, come back as they are. *)
Theorem C29_later_keys_partial wc rc m a b : agree wc rc -> measure_in_range wc m -> Forall chords_closed (m_staves m) ->
  m_keys m = a ++ b -> Forall (key_at_start (wc_numStaves wc)) a -> Forall (key_at_note m) b -> StronglySorted Z.lt (map k_tick b) ->
  Forall (fun st => s_keys st = [] /\ StronglySorted Z.le (first_ticks st)) (m_staves m) ->
  exists x m' transpose, write_measure wc m = Ok x /\ read_measure rc x = Ok (m', transpose, rc_global rc) /\ m_keys m' = m_keys m.
Proof. exact (measure_keys_back wc rc m a b). Qed.

(** Keys of the measure anywhere: those that come back are the first of them, with the staves'
    own, none doubled and none made up. None is lost if, but for those at the start, there are
    no more than staves; so a single key change in a measure is never lost. *)
Theorem C29_any_keys_partial wc rc m : agree wc rc -> measure_in_range wc m -> Forall chords_closed (m_staves m) ->
  exists x m' transpose kept lost, write_measure wc m = Ok x /\ read_measure rc x = Ok (m', transpose, rc_global rc) /\
    m_keys m = kept ++ lost /\ Permutation (map k_rest (m_keys m')) (map k_rest (kept ++ flat_map s_keys (m_staves m))) /\
    (forall a b, m_keys m = a ++ b -> Forall (fun k => k_tick k = 0) a -> Forall (fun k => k_tick k <> 0) b ->
       (List.length b <= List.length (m_staves m))%nat -> lost = []).
Proof. exact (keys_any wc rc m). Qed.

Example C29_writer (staves : Z) : wctx := mkWctx staves 6 0 true 0 None.
Example C29_reader (staves : nat) : rctx := mkRctx staves 6 1 0 default_time.
Example C29_measure (staves : list StaffData) (keys : list KeyData) : MeasureData := mkMeasure staves default_time (lit "1"%string) BoolUnspecified keys [].
Example C29_voice : Z * list NoteData := (0, [mkNote 0 6 false NormalNote 0 60; mkNote 12 6 false NormalNote 0 64]).

Example C29_sample : MeasureData := C29_measure
  [mkStaff [mkClef 0 1; mkClef 12 2] [mkKey 0 (-1) false 3; mkKey 12 (-1) false 4] [] [C29_voice; (1, [mkNote 0 24 false NormalNote 0 48])];
   mkStaff [mkClef 12 3; mkClef 12 4] [mkKey 12 (-1) false 5] [] [C29_voice]]
  [mkKey 0 (-1) true 6; mkKey 0 1 false 7].

Example C29_same_clefs_holds : agree (C29_writer 2) (C29_reader 2) /\ measure_in_range (C29_writer 2) C29_sample /\ Forall chords_closed (m_staves C29_sample).
Proof. split; [meets | ]. split; meets. Qed.

Example C29_same_clefs_at_notes : Forall clefs_at_notes (m_staves C29_sample).
Proof. repeat constructor; cbn; auto; discriminate. Qed.

Example C29_same_keys_holds : Forall (key_at_start 2) (m_keys C29_sample) /\ Forall staff_keys_at_notes (m_staves C29_sample) /\
  keys_of_staves 0 (m_staves C29_sample) = [mkKey 0 0 false 3; mkKey 12 0 false 4; mkKey 12 1 false 5].
Proof. split; [ | split; [ | reflexivity]]; repeat constructor; cbn; auto; discriminate. Qed.

Example C29_later : MeasureData := C29_measure [mkStaff [] [] [] [C29_voice]; mkStaff [] [] [] []] [mkKey 0 0 false 6; mkKey 12 (-1) false 7].
Example C29_later_keys_holds : measure_in_range (C29_writer 2) C29_later /\ Forall chords_closed (m_staves C29_later) /\
  Forall (key_at_start 2) [mkKey 0 0 false 6] /\ Forall (key_at_note C29_later) [mkKey 12 (-1) false 7] /\
  Forall (fun st => s_keys st = [] /\ StronglySorted Z.le (first_ticks st)) (m_staves C29_later).
Proof.
  split; [meets | ]. split; [meets | ]. split; [repeat constructor; cbn; auto; discriminate | ]. split; [ | meets].
  constructor; [ | constructor]. split; [reflexivity | ]. split; [reflexivity | ]. split; [reflexivity | ]. eexists. eexists. split; [reflexivity | cbn; auto].
Qed.

Example C29_anywhere : MeasureData := C29_measure [mkStaff [] [mkKey 7 (-1) false 8] [] [C29_voice]] [mkKey 0 (-1) false 6; mkKey 5 (-1) true 7].
Example C29_any_keys_holds : measure_in_range (C29_writer 1) C29_anywhere /\ Forall chords_closed (m_staves C29_anywhere) /\
  m_keys C29_anywhere = [mkKey 0 (-1) false 6] ++ [mkKey 5 (-1) true 7] /\ (List.length [mkKey 5 (-1) true 7] <= List.length (m_staves C29_anywhere))%nat.
Proof. split; [meets | ]. split; [meets | ]. split; [reflexivity | cbn; constructor]. Qed.

(** A clef between two notes moves to the second. *)
Theorem C29_same_clefs_refuted : ~ C29_same_clefs.
Proof.
  intros H. destruct (H (C29_writer 1) (C29_reader 1) (C29_measure [mkStaff [mkClef 3 1] [] [] [C29_voice]] [])) as (x & m & tr & W & R & E); [meets | meets | meets | ].
  vm_compute in W. injection W as <-. vm_compute in R. injection R as <- _. vm_compute in E. discriminate E.
Qed.

(** Of two key changes after the last note only one is written. *)
Example C29_lost : exists x m', write_measure (C29_writer 1) (C29_measure [mkStaff [] [] [] []] [mkKey 6 (-1) false 1; mkKey 7 (-1) false 2]) = Ok x /\
  read_measure (C29_reader 1) x = Ok (m', None, 6) /\ m_keys m' = [mkKey 0 (-1) false 1].
Proof. eexists. eexists. split; [vm_compute; reflexivity | ]. split; vm_compute; reflexivity. Qed.

Theorem C29_same_keys_refuted : ~ C29_same_keys.
Proof.
  intros H. destruct (H (C29_writer 1) (C29_reader 1) (C29_measure [mkStaff [] [] [] []] [mkKey 6 (-1) false 1; mkKey 7 (-1) false 2])) as (x & m & tr & W & R & E & _); [meets | meets | meets | ].
  vm_compute in W. injection W as <-. vm_compute in R. injection R as <- _. vm_compute in E. discriminate E.
Qed.

Print Assumptions C29_same_clefs_partial.
Print Assumptions C29_same_keys_partial.
Print Assumptions C29_any_keys_partial.
Print Assumptions C29_later_keys_partial.
Print Assumptions C29_same_clefs_refuted.
Print Assumptions C29_same_keys_refuted.
