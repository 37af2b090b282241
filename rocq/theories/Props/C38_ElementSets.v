(** C38: sets of child elements respect their cardinality. *)
From Coq Require Import List String ZArith Bool.
From Verif Require Import Model.Base Model.Text Model.ElementSets Spec.Cardinality.
From Verif Require Import Proofs.SetProofs.
Import ListNotations.
Open Scope Z_scope.

(** The full claim: after every history of calls on every set of every class the number
    of elements is within the bounds. *)
Definition C38_within_bounds : Prop := forall (A : Type) e (cs : list (set_call A)), In e element_sets ->
  exists b, bounds_of e = Some b /\ within b (after_calls e cs).

(** It holds for all sets but the three of [unguarded]. *)
Theorem C38_within_bounds_partial (A : Type) e (cs : list (set_call A)) : In e element_sets -> ~ unguarded e ->
  exists b, bounds_of e = Some b /\ within b (after_calls e cs).
Proof. exact (sets_within e cs). Qed.

(** What each call does after any history: additions go to the end, a removal takes out
    the one element, a call that would break a bound changes nothing, and clearing leaves
    as few default elements as allowed. *)
Theorem C38_calls_partial (A : Type) e (cs : list (set_call A)) c : In e element_sets -> ~ unguarded e ->
  exists b, bounds_of e = Some b /\ effect b c (after_calls e cs) (after_calls e (cs ++ [c])).
Proof. exact (sets_step e cs c). Qed.

(** The three sets keep the order as well. *)
Theorem C38_order (A : Type) e (cs : list (set_call A)) c : In e element_sets -> unguarded e ->
  match c with
  | Add None => after_calls e (cs ++ [c]) = after_calls e cs
  | Add (Some a) => after_calls e (cs ++ [c]) = after_calls e cs ++ [Given a]
  | Remove i => (exists l x r, after_calls e cs = l ++ x :: r /\ List.length l = i /\ after_calls e (cs ++ [c]) = l ++ r) \/
                ((List.length (after_calls e cs) <= i)%nat /\ after_calls e (cs ++ [c]) = after_calls e cs)
  | Clear => Forall (fun x => x = Made) (after_calls e (cs ++ [c]))
  end.
Proof. exact (sets_order e cs c). Qed.

(** A new object has as few elements as allowed, all default ones. *)
Theorem C38_new (A : Type) e : In e element_sets -> exists b, bounds_of e = Some b /\ Z.of_nat (List.length (@after_calls A e [])) = fst b /\
  Forall (fun x => x = Made) (@after_calls A e []).
Proof. exact (sets_new e). Qed.

(** Every class and set with stated bounds is covered. *)
Theorem C38_covered c n b : In ((c, n), b) declared_bounds ->
  exists e, In e element_sets /\ es_class e = lit c /\ es_name e = lit n /\ bounds_of e = Some b.
Proof. exact (sets_listed c n b). Qed.

Example C38_measures : element_set := mkSet (lit "PartwisePart") (lit "PartwiseMeasure") 1 None 1 1.
Example C38_beams : element_set := mkSet (lit "Note") (lit "Beam") 0 (Some 8%nat) 0 0.
Example C38_parts : element_set := mkSet (lit "TimewiseMeasure") (lit "TimewisePart") 1 None 0 0.

Example C38_holds : In C38_measures element_sets /\ ~ unguarded C38_measures /\ In C38_beams element_sets /\ ~ unguarded C38_beams /\
  after_calls C38_measures [Add (Some 1); Add None; Remove 0; Remove 0; Add (Some 2); Add (Some 3); Remove 1] = [Given 1; Given 3] /\
  after_calls C38_beams (map (fun i => Add (Some i)) [1; 2; 3; 4; 5; 6; 7; 8; 9; 10]) = map Given [1; 2; 3; 4; 5; 6; 7; 8].
Proof.
  assert (F : forall e, (exists i, nth_error element_sets i = Some e) -> In e element_sets) by (intros e [i H]; exact (nth_error_In _ _ H)).
  split; [apply F; exists 59%nat; reflexivity | ]. split; [intros [H|[H|[H|[]]]]; discriminate H | ].
  split; [apply F; exists 47%nat; reflexivity | ]. split; [intros [H|[H|[H|[]]]]; discriminate H | ]. split; reflexivity.
Qed.

(** All parts of a timewise measure can be removed although it has to have one. *)
Theorem C38_within_bounds_refuted : ~ C38_within_bounds.
Proof.
  intros H. assert (I : In C38_parts element_sets) by (apply (nth_error_In _ 80); reflexivity).
  destruct (H Z C38_parts [Remove 0] I) as (b & B & W & _). vm_compute in B. injection B as <-. vm_compute in W. apply W. reflexivity.
Qed.

Print Assumptions C38_within_bounds_partial.
Print Assumptions C38_calls_partial.
Print Assumptions C38_order.
Print Assumptions C38_new.
Print Assumptions C38_covered.
Print Assumptions C38_within_bounds_refuted.
