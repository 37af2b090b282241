(** Checks for examples. *)
From Coq Require Import List ZArith Sorting.Sorted.
Import ListNotations.
Open Scope Z_scope.

(** Checks the conditions of a theorem for concrete values. *)
Ltac meets_step :=
  match goal with
  | |- Forall ?P ?l => let l' := eval hnf in l in change (Forall P l'); constructor
  | |- StronglySorted ?R ?l => let l' := eval hnf in l in change (StronglySorted R l'); constructor
  | |- True => exact I
  | |- _ /\ _ => split
  | |- _ <= _ => vm_compute; intros; discriminate
  | |- _ < _ => vm_compute; reflexivity
  | |- _ = _ => vm_compute; reflexivity
  | |- _ <> _ => vm_compute; intros; discriminate
  | |- _ -> _ => let H := fresh in intros H; try (solve [vm_compute in H; discriminate H])
  | |- exists _, _ = Some _ /\ _ => eexists; split; [cbn; reflexivity | ]
  | |- _ \/ _ => first [solve [left; repeat meets_step] | solve [right; repeat meets_step]]
  | |- ?G => let G' := eval hnf in G in first [constr_eq G G'; fail 1 | change G']
  end.
Ltac meets := repeat meets_step.
