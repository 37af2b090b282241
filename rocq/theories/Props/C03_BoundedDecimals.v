(** C03: bounded decimal values never leave their range. *)
From Coq Require Import List Ascii String ZArith QArith Qabs.
From Verif Require Import Model.Base Model.Text Model.LongDouble Model.Decimals Spec.DecimalText Proofs.DecimalsRange Proofs.LongDoubleProofs.
Import ListNotations.
Open Scope Q_scope.

(** The full claim, for every type, is false for the types that exclude zero. *)
Definition C03_claim : Prop := forall d p, reached d p -> documented d (amount p).

Theorem C03_positive_types_refuted : ~ C03_claim.
Proof. exact positive_refuted. Qed.
Print Assumptions C03_positive_types_refuted.

(** What holds: every other type stays in its range, and the positive types never go
    below zero. Missing: the positive types may become exactly zero. *)
Theorem C03_range_partial : forall d p, reached d p ->
  well_formed p /\ (~ exclusive d -> documented d (amount p)) /\ (exclusive d -> 0 <= amount p).
Proof. exact range_partial. Qed.
Print Assumptions C03_range_partial.

(** The positive types stay positive when no given number lies strictly between zero
    and 0.0000006. *)
Theorem C03_positive_partial : forall d v cs p,
  exclusive d -> is_ld v -> clear_of_zero v -> Forall given cs ->
  (forall c x, In c cs -> gives c x -> clear_of_zero x) ->
  obind (construct d v) (fun p0 => run_calls d p0 cs) = Ok p -> documented d (amount p).
Proof. exact positive_partial. Qed.
Print Assumptions C03_positive_partial.

(** A number in range with at most six decimals (given as the nearest long double) is
    stored exactly. Limited to numbers up to 2^44. *)
Theorem C03_exact_partial : forall d p k, well_formed p -> (Z.abs k <= 2 ^ 44 * 10 ^ 6)%Z ->
  documented d (inject_Z k / 1000000) ->
  exists r, setValue d p (ld (inject_Z k / 1000000)) = Ok r /\ well_formed r /\ amount r == inject_Z k / 1000000.
Proof. exact exact_partial. Qed.
Print Assumptions C03_exact_partial.

(** Out of range: the end of the range, or a millionth above an excluded zero. *)
Theorem C03_below : forall d p v b, well_formed p -> lower_end d = Some b -> ~ exclusive d -> v < inject_Z b ->
  exists r, setValue d p v = Ok r /\ well_formed r /\ amount r == inject_Z b.
Proof. exact below_inclusive. Qed.
Print Assumptions C03_below.

Theorem C03_below_positive : forall d p v, well_formed p -> exclusive d -> v <= 0 ->
  exists r, setValue d p v = Ok r /\ well_formed r /\ amount r == 1 # 1000000.
Proof. exact below_exclusive. Qed.
Print Assumptions C03_below_positive.

Theorem C03_above : forall d p v b, well_formed p -> upper_end d = Some b -> inject_Z b < v ->
  exists r, setValue d p v = Ok r /\ well_formed r /\ amount r == inject_Z b.
Proof. exact above_range. Qed.
Print Assumptions C03_above.

(** setValue is undefined exactly for numbers of 2^64 and more on a side where the
    type has no bound, and never throws. *)
Theorem C03_defined : forall d p v, well_formed p -> is_ld v ->
  (setValue d p v = UB <->
   (upper_end d = None /\ inject_Z (2 ^ 64) <= v) \/ (lower_end d = None /\ v <= - inject_Z (2 ^ 64))) /\
  setValue d p v <> Throw.
Proof. exact set_defined. Qed.
Print Assumptions C03_defined.

(** A text that is a number sets it; any other text is refused and changes nothing. *)
Theorem C03_parse : forall d p t,
  (forall x, number_text t x -> Qabs x < inject_Z (2 ^ 64) ->
     parse d p t = omap (fun r => (true, r)) (setValue d p (ld x))) /\
  ((forall x, ~ number_text t x) -> parse d p t = Ok (false, p)) /\
  (forall q, parse d p t = Ok (false, q) -> q = p).
Proof.
  exact (fun d p t => conj (parse_number d p t) (conj (parse_other d p t) (parse_false d p t))).
Qed.
Print Assumptions C03_parse.

(** The hypotheses are met. *)
Example C03_reached : exists p, reached Percent p /\ amount p == 100.
Proof.
  exists (mkPrecise false 100 0 19 6). split; [ | reflexivity].
  exists (ld (123 # 10)), [CallParse (lit " 12.5e0 "); CallParse (lit "x"); CallSet (ld (1001 # 10))].
  split; [apply ld_is_ld | ]. split.
  - repeat constructor; cbn [given]; apply ld_is_ld.
  - vm_compute. reflexivity.
Qed.

Example C03_positive_reached : exists p,
  obind (construct PositiveDivisions (-3)) (fun p0 => run_calls PositiveDivisions p0 [CallSet 0; CallSet (ld (1 # 1000000))]) = Ok p /\ toString p = lit "0.000001".
Proof. exists (mkPrecise false 0 1 19 6). split; vm_compute; reflexivity. Qed.
