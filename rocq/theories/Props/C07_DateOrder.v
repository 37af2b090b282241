(** C07: dates are totally ordered by time. *)
From Verif Require Import Proofs.Tac Model.Base Model.Text Model.Date Spec.Calendar Spec.DateText
  Proofs.DateProofs Proofs.DateProofs2 Proofs.DateProofs3.
Open Scope Z_scope.

(** Each comparison operator compares positions on the time line, and == is identity
    of year, month and day. Totality, transitivity and antisymmetry are those of Z
    together with injectivity of the position (C06_day_number_injective). *)
Theorem C07_operators a b : valid a -> valid b ->
  (date_eq a b = true <-> a = b) /\ (date_ne a b = true <-> a <> b) /\
  (date_lt a b = true <-> dayno a < dayno b) /\ (date_le a b = true <-> dayno a <= dayno b) /\
  (date_gt a b = true <-> dayno a > dayno b) /\ (date_ge a b = true <-> dayno a >= dayno b).
Proof. exact (date_ops_spec a b). Qed.

(** Strict total order, spelled out. *)
Theorem C07_strict_total_order :
  (forall a, date_lt a a = false) /\
  (forall a b c, valid a -> valid b -> valid c -> date_lt a b = true -> date_lt b c = true -> date_lt a c = true) /\
  (forall a b, valid a -> valid b -> date_lt a b = true \/ a = b \/ date_lt b a = true) /\
  (forall a b, valid a -> valid b -> date_lt a b = negb (date_ge a b) /\ date_gt a b = date_lt b a).
Proof. exact date_strict_total. Qed.

Example C07_example :
  valid (Date 1999 12 31) /\ valid (Date 2000 1 1) /\ date_lt (Date 1999 12 31) (Date 2000 1 1) = true /\
  date_ge (Date 1999 12 31) (Date 2000 1 1) = false.
Proof. unfold valid, valid_ymd. simpl. repeat split; lia. Qed.

Print Assumptions C07_operators.
Print Assumptions C07_strict_total_order.
