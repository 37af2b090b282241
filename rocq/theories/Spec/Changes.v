(** Clef and key changes that come back as they were written. *)
From Coq Require Import List ZArith Bool Sorting.Sorted.
From Verif Require Import Model.MeasureTypes.
Import ListNotations.
Open Scope Z_scope.

(** The times of the notes of the first voice of a staff. *)
Definition first_ticks (st : StaffData) : list Z := match s_voices st with v :: _ => map n_tick (snd v) | [] => [] end.

(** Changes in order of time, each at the start of the measure or at a note of the first
    voice, whose notes are in order. *)
Definition clefs_at_notes (st : StaffData) : Prop :=
  StronglySorted Z.le (first_ticks st) /\ StronglySorted Z.le (map c_tick (s_clefs st)) /\
  Forall (fun c => c_tick c = 0 \/ In (c_tick c) (first_ticks st)) (s_clefs st).

Definition staff_keys_at_notes (st : StaffData) : Prop :=
  StronglySorted Z.le (first_ticks st) /\ StronglySorted Z.le (map k_tick (s_keys st)) /\
  Forall (fun k => In (k_tick k) (first_ticks st) /\ k_custom k = false) (s_keys st).

(** A key of the measure at its start: for one staff or (-1) for all. *)
Definition key_at_start (numStaves : Z) (k : KeyData) : Prop :=
  k_tick k = 0 /\ -1 <= k_staff k < numStaves /\ (k_custom k = true -> k_staff k = -1).

(** A key of the measure at a note of the first staff, for all staves. *)
Definition key_at_note (m : MeasureData) (k : KeyData) : Prop :=
  0 < k_tick k /\ k_staff k = -1 /\ k_custom k = false /\ exists st r, m_staves m = st :: r /\ In (k_tick k) (first_ticks st).

(** A staff's own key, as a key of the measure. *)
Definition key_of_staff (i : nat) (k : KeyData) : KeyData := mkKey (k_tick k) (Z.of_nat i) false (k_rest k).

Fixpoint keys_of_staves (i : nat) (l : list StaffData) : list KeyData :=
  match l with [] => [] | st :: r => map (key_of_staff i) (s_keys st) ++ keys_of_staves (S i) r end.
