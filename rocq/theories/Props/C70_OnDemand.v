(** C70: elements that make their children on demand, shared by threads. *)
From Coq Require Import List Bool PeanoNat.
From Verif Require Import Model.OnDemand Spec.Sharing Proofs.OnDemandProofs.
Import ListNotations.

(** Any number of threads may call the const functions of any elements, in any order and
    depending on what they were told, at any time: there is never a data race. *)
Theorem C70_no_race w programs s turns s' : fresh_start w programs s -> Forall only_const programs -> runs turns s s' -> ~ race s'.
Proof. exact (no_race w programs s turns s'). Qed.

(** Every answer that any thread ever got is what is in the element now: all get the same
    child, whoever made it, and never a null pointer. *)
Theorem C70_same_child w programs s turns s' i p : fresh_start w programs s -> Forall only_const programs -> runs turns s s' -> nth_error programs i = Some p ->
  exists t, nth_error (snd s') i = Some t /\
  forall k a, nth_error (got t) k = Some a -> exists c, p (firstn k (got t)) = Some c /\ holds_now (fst s') c a.
Proof. exact (same_answers w programs s turns s' i p). Qed.

(** A child that is there stays. *)
Theorem C70_kept w programs s turns s' : fresh_start w programs s -> Forall only_const programs -> runs turns s s' ->
  (forall o m x, child w o m = Some x -> child (fst s') o m = Some x) /\ plain (fst s') = plain w.
Proof. exact (children_kept w programs s turns s'). Qed.

(** No two members share a child that was made. *)
Theorem C70_own w programs s turns s' : fresh_start w programs s -> own_children w -> Forall only_const programs -> runs turns s s' -> own_children (fst s').
Proof. exact (own_kept w programs s turns s'). Qed.

(** No child is made unless it was asked for. *)
Theorem C70_asked w programs s turns s' o m x : fresh_start w programs s -> Forall only_const programs -> runs turns s s' -> child (fst s') o m = Some x ->
  child w o m = Some x \/ exists i t k, nth_error (snd s') i = Some t /\ calls t (firstn k (got t)) = Some (Get o m).
Proof. exact (made_for w programs s turns s' o m x). Qed.

(** There is no deadlock: unless all threads have finished one of them can go on. *)
Theorem C70_goes_on w programs s turns s' : fresh_start w programs s -> Forall only_const programs -> runs turns s s' ->
  (forall i, step i s' = None) -> Forall finished (snd s').
Proof. exact (goes_on w programs s turns s'). Qed.

(** And a call needs no more than six steps of its thread. *)
Theorem C70_short w programs s turns s' i t : fresh_start w programs s -> Forall only_const programs -> runs turns s s' -> nth_error (snd s') i = Some t ->
  count_occ Nat.eq_dec turns i <= 6 * List.length (got t) + 5.
Proof. exact (few_steps w programs s turns s' i t). Qed.

(** With the set functions, which do not lock, there are data races, *)
Theorem C70_set_refuted : ~ (forall w programs s turns s', fresh_start w programs s -> runs turns s s' -> ~ race s').
Proof. exact set_race. Qed.

(** and a child that was set can be lost to one that is made at the same time. *)
Theorem C70_set_lost_refuted : ~ (forall w programs s turns s' o m x i, fresh_start w programs s -> runs turns s s' -> Forall finished (snd s') ->
  (forall j p h y, nth_error programs j = Some p -> p h = Some (Set_child o m (Some y)) -> j = i /\ y = x /\ h = []) -> (exists p, nth_error programs i = Some p /\ p [] = Some (Set_child o m (Some x))) ->
  child (fst s') o m = Some x).
Proof. exact set_lost. Qed.

(** One thread alone gets from all functions what it should. *)
Theorem C70_alone w p s turns s' : fresh_start w [p] s -> runs turns s s' ->
  exists v t, s' = (v, [t]) /\ (todo t = [] -> exists h v', one_by_one w h v' /\ map snd h = got t /\ (forall k c, nth_error (map fst h) k = Some c -> p (firstn k (got t)) = Some c) /\
    child v' = child v /\ plain v' = plain v /\ next v' = next v).
Proof. exact (alone w p s turns s'). Qed.

(** Two threads that ask for the same child, one of which makes it; the other goes on to a child
    of it. *)
Example C70_met : fresh_start nothing_made [asks_twice; asks_once] (nothing_made, map starts_with [asks_twice; asks_once]) /\ Forall only_const [asks_twice; asks_once] /\
  exists s', runs [0; 1; 1; 1; 1; 1; 1; 0; 0; 0; 0; 0; 0; 0; 0; 0; 0] (nothing_made, map starts_with [asks_twice; asks_once]) s' /\
  map got (snd s') = [[Child (Some 1); Child (Some 2)]; [Child (Some 1)]].
Proof. exact (conj (example_start _) (conj asks_const asks_met)). Qed.
Example C70_own_met : own_children nothing_made.
Proof. split; intros; discriminate. Qed.

Print Assumptions C70_no_race.
Print Assumptions C70_same_child.
Print Assumptions C70_kept.
Print Assumptions C70_own.
Print Assumptions C70_asked.
Print Assumptions C70_goes_on.
Print Assumptions C70_short.
Print Assumptions C70_set_refuted.
Print Assumptions C70_set_lost_refuted.
Print Assumptions C70_alone.
