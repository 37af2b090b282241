(** C04: decimal rounding and text round trip. *)
From Coq Require Import List Ascii String ZArith QArith Qabs.
From Verif Require Import Model.Base Model.Text Model.LongDouble Model.Decimals Spec.DecimalText Proofs.DecimalsRange Proofs.DecimalsWide Proofs.LongDoubleProofs.
Import ListNotations.
Open Scope Q_scope.

(** "The nearest number of six decimals" is false: half a unit is taken to be
    0.4999999. *)
Definition C04_nearest_claim : Prop := forall p v r m, well_formed p -> is_ld v -> setValue Decimal p v = Ok r ->
  Qabs v < inject_Z (10 ^ 19) -> Qabs (amount r - v) <= Qabs (inject_Z m / 1000000 - v).

Theorem C04_nearest_refuted : ~ C04_nearest_claim.
Proof. exact nearest_refuted. Qed.
Print Assumptions C04_nearest_refuted.

(** What holds: the error is below 0.5000002 units, and a value within 0.4999998 units
    of a six-decimal number is stored as that number. *)
Theorem C04_nearest_partial : forall d p v r, well_formed p -> is_ld v -> documented d v -> Qabs v < inject_Z (10 ^ 19) ->
  setValue d p v = Ok r ->
  Qabs (amount r - v) < 5000002 # 10000000000000 /\
  (forall m, Qabs (v - inject_Z m / 1000000) <= 4999998 # 10000000000000 -> amount r == inject_Z m / 1000000).
Proof. exact set_nearest_partial. Qed.
Print Assumptions C04_nearest_partial.

(** The same bound for other digit configurations (missing: 12 to 19 decimals). *)
Theorem C04_digits_partial : forall n d v, (1 <= n <= 19)%Z -> (1 <= d <= 11)%Z -> Qabs v < inject_Z (10 ^ n) ->
  exists p, new_precise n d v = Ok p /\ p_int_digits p = n /\ p_dec_digits p = d /\
    (0 <= p_integer p <= 10 ^ n)%Z /\ (0 <= p_decimal p < 10 ^ d)%Z /\
    Qabs (amount p - v) < (5000002 # 10000000) / inject_Z (10 ^ d).
Proof. exact nearest_partial. Qed.
Print Assumptions C04_digits_partial.

(** With more digits after the point that is false: with 19 of them the number stored can be
    0.74 units away. *)
Definition C04_wide_claim : Prop := forall n d v p, (1 <= n <= 19)%Z -> (1 <= d <= 19)%Z -> is_ld v ->
  Qabs v < inject_Z (10 ^ n) -> new_precise n d v = Ok p -> Qabs (amount p - v) < (5000002 # 10000000) / inject_Z (10 ^ d).

Theorem C04_wide_refuted : ~ C04_wide_claim.
Proof. exact wide_refuted. Qed.
Print Assumptions C04_wide_refuted.

(** For any number of digits the error is as before, but for five times 2^-65. *)
Theorem C04_wide_partial : forall n d v, (1 <= n <= 19)%Z -> (1 <= d <= 19)%Z -> Qabs v < inject_Z (10 ^ n) ->
  exists p, new_precise n d v = Ok p /\ p_int_digits p = n /\ p_dec_digits p = d /\
    (0 <= p_integer p <= 10 ^ n)%Z /\ (0 <= p_decimal p < 10 ^ d)%Z /\
    Qabs (amount p - v) < (5000002 # 10000000) / inject_Z (10 ^ d) + (5 # 2 ^ 65).
Proof. exact nearest_wide. Qed.
Print Assumptions C04_wide_partial.

(** That the integer part keeps to its digits is false: 9.99 with one digit before and
    one after the point becomes 10. *)
Definition C04_digits_claim : Prop := forall n d v p, (1 <= n <= 19)%Z -> (1 <= d <= 19)%Z -> is_ld v ->
  Qabs v < inject_Z (10 ^ n) -> new_precise n d v = Ok p -> (p_integer p < 10 ^ n)%Z.

Theorem C04_digits_refuted : ~ C04_digits_claim.
Proof. exact digits_refuted. Qed.
Print Assumptions C04_digits_refuted.

(** The text denotes the stored number exactly, is plain and has no superfluous zero. *)
Theorem C04_text : forall p, well_formed p ->
  plain_decimal (toString p) (amount p) /\ shortest_decimal (toString p).
Proof. exact text_of. Qed.
Print Assumptions C04_text.

(** Printing and parsing, by a decimal of the same type, gives the same number. *)
Theorem C04_roundtrip : forall d p q, reached d p -> documented d (amount p) -> well_formed q ->
  exists r, parse d q (toString p) = Ok (true, r) /\ amount r == amount p /\ toString r = toString p.
Proof. exact text_roundtrip. Qed.
Print Assumptions C04_roundtrip.

(** So does passing on the value as a long double. *)
Theorem C04_value_roundtrip : forall d p q, reached d p -> documented d (getValue p) -> well_formed q ->
  exists r, setValue d q (getValue p) = Ok r /\ amount r == amount p /\ toString r = toString p.
Proof. exact getValue_roundtrip. Qed.
Print Assumptions C04_value_roundtrip.

(** Numbers too large for 19 digits become the largest one. *)
Theorem C04_too_large : forall p v, well_formed p -> inject_Z (10 ^ 19) <= v -> v < inject_Z (2 ^ 64) ->
  exists r, setValue Decimal p v = Ok r /\ toString r = lit "9999999999999999999.999999".
Proof. exact too_large. Qed.
Print Assumptions C04_too_large.

(** The hypotheses are met. *)
Example C04_reached : exists p, reached Decimal p /\ documented Decimal (amount p) /\ documented Decimal (getValue p) /\
  well_formed p /\ toString p = lit "-12.000345".
Proof.
  exists (mkPrecise true 12 345 19 6). split.
  - exists (ld (-12000345 # 1000000)), []. split; [apply ld_is_ld | ]. split; [constructor | vm_compute; reflexivity].
  - split; [exact I | ]. split; [exact I | ]. split; [ | vm_compute; reflexivity].
    unfold well_formed. cbn [p_int_digits p_dec_digits p_integer p_decimal]. repeat split; (discriminate || reflexivity).
Qed.
