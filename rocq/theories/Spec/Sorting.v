(** What std::sort promises, and sorted scores. *)
From Coq Require Import List ZArith Bool Permutation Sorted.
From Verif Require Import Model.Base Model.Text Model.MeasureTypes Model.ScoreData Spec.Numerals.
Import ListNotations.
Open Scope Z_scope.

(** The comparison is a strict weak ordering. *)
Definition strict_weak {A} (lt : A -> A -> bool) : Prop :=
  (forall a, lt a a = false) /\
  (forall a b c, lt a b = true -> lt b c = true -> lt a c = true) /\
  (forall a b c, lt a b = false -> lt b a = false -> lt b c = false -> lt c b = false -> lt a c = false /\ lt c a = false).

(** No later element is less than an earlier one. *)
Definition in_order {A} (lt : A -> A -> bool) (l : list A) : Prop := StronglySorted (fun a b => lt b a = false) l.

(** A function that could be std::sort. *)
Definition allowed (S : sorter) : Prop :=
  forall A lt l, strict_weak lt -> Permutation (S A lt l) l /\ in_order lt (S A lt l).

(** In non-decreasing order of the ticks. *)
Definition by_tick {A} (tick : A -> Z) (l : list A) : Prop := StronglySorted (fun a b => tick a <= tick b) l.

Definition sorted_staff (st : StaffData) : Prop :=
  by_tick c_tick (s_clefs st) /\ by_tick d_tick (s_directions st) /\ Forall (fun v => by_tick n_tick (snd v)) (s_voices st).
Definition sorted_score (s : ScoreData) : Prop :=
  Forall (fun p => Forall (fun m => Forall sorted_staff (m_staves m)) (pd_measures p)) (sd_parts s).

(** The same staves, measures and parts, with clefs, directions and notes in some other
    order; everything else is the same. *)
Definition rearranged_staff (a b : StaffData) : Prop :=
  Permutation (s_clefs b) (s_clefs a) /\ s_keys b = s_keys a /\ Permutation (s_directions b) (s_directions a) /\
  Forall2 (fun v w => fst w = fst v /\ Permutation (snd w) (snd v)) (s_voices a) (s_voices b).
Definition rearranged_measure (a b : MeasureData) : Prop :=
  Forall2 rearranged_staff (m_staves a) (m_staves b) /\ m_time b = m_time a /\ m_number b = m_number a /\
  m_implicit b = m_implicit a /\ m_keys b = m_keys a /\ m_barlines b = m_barlines a.
Definition rearranged (a b : ScoreData) : Prop :=
  Forall2 (fun p q => pd_id q = pd_id p /\ pd_rest q = pd_rest p /\ Forall2 rearranged_measure (pd_measures p) (pd_measures q))
    (sd_parts a) (sd_parts b) /\ sd_rest b = sd_rest a.

(** Things at the same tick are in the same order as before. *)
Definition same_ties {A} (tick : A -> Z) (a b : list A) : Prop :=
  forall t, filter (fun x => tick x =? t) b = filter (fun x => tick x =? t) a.
Definition stable_staff (a b : StaffData) : Prop :=
  same_ties c_tick (s_clefs a) (s_clefs b) /\ same_ties d_tick (s_directions a) (s_directions b) /\
  Forall2 (fun v w => same_ties n_tick (snd v) (snd w)) (s_voices a) (s_voices b).
Definition stable (a b : ScoreData) : Prop :=
  Forall2 (fun p q => Forall2 (fun m n => Forall2 stable_staff (m_staves m) (m_staves n)) (pd_measures p) (pd_measures q))
    (sd_parts a) (sd_parts b).

(** No two clefs, directions or notes of a voice at the same tick. *)
Definition distinct_staff (st : StaffData) : Prop :=
  NoDup (map c_tick (s_clefs st)) /\ NoDup (map d_tick (s_directions st)) /\ Forall (fun v => NoDup (map n_tick (snd v))) (s_voices st).
Definition distinct (s : ScoreData) : Prop :=
  Forall (fun p => Forall (fun m => Forall distinct_staff (m_staves m)) (pd_measures p)) (sd_parts s).

(** A sort the standard allows: it sorts by insertion, from the front or from the back,
    so that things that are equal stay or are turned around. *)
Fixpoint insert {A} (lt : A -> A -> bool) (x : A) (l : list A) : list A :=
  match l with [] => [x] | y :: r => if lt y x then y :: insert lt x r else x :: l end.
Definition insertion_sort : sorter := fun A lt l => fold_right (insert lt) [] l.
Definition turning_sort : sorter := fun A lt l => fold_left (fun r x => insert lt x r) l [].

(** The largest of some numbers, or 0. *)
Definition is_largest (l : list Z) (n : Z) : Prop := (In n l \/ n = 0) /\ 0 <= n /\ Forall (fun x => x <= n) l.

(** The part, measure and staff exist. *)
Definition exists_at (l : MeasureLocation) (s : ScoreData) : Prop :=
  exists p m st, 0 <= l_part l /\ nth_error (sd_parts s) (Z.to_nat (l_part l)) = Some p /\
    0 <= l_measure l /\ nth_error (pd_measures p) (Z.to_nat (l_measure l)) = Some m /\
    0 <= l_staff l /\ nth_error (m_staves m) (Z.to_nat (l_staff l)) = Some st.

(** Fits in memory. *)
Definition small (s : ScoreData) : Prop :=
  Z.of_nat (List.length (sd_parts s)) <= int_max /\
  Forall (fun p => Z.of_nat (List.length (pd_measures p)) <= int_max /\
    Forall (fun m => Z.of_nat (List.length (m_staves m)) <= int_max) (pd_measures p)) (sd_parts s).
