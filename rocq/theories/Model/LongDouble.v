(** Floating point numbers with 64 (long double) or 53 (double) bits of precision.

    DecimalType is long double, core/Decimals.h:17. Modelled for the x86-64 System V
    platform, where a long double has a 64 bit significand and operations round to
    nearest, ties to even. Values are rational numbers, so that infinities, NaNs and
    the sign of zero are not represented. Simplified: the exponent is unbounded. *)
From Coq Require Import ZArith QArith Qround Qabs Bool.
Open Scope Z_scope.

(** 2 to an integer power. *)
Definition pow2 (e : Z) : Q := Qpower 2 e.

(** The exponent e with 2^e <= x < 2^(e+1), for positive x. *)
Definition exponent (x : Q) : Z :=
  let e := Z.log2 (Qnum x) - Z.log2 (Zpos (Qden x)) in
  if Qle_bool (pow2 e) x then e else e - 1.

(** The integer nearest to x, ties to even. *)
Definition nearest_even (x : Q) : Z :=
  let f := Qfloor x in
  match Qcompare (x - inject_Z f) (1 # 2) with
  | Lt => f
  | Gt => f + 1
  | Eq => if Z.even f then f else f + 1
  end.

(** A positive x rounded to [p] significant bits. *)
Definition round_pos (p : Z) (x : Q) : Q :=
  let e := exponent x - (p - 1) in
  (inject_Z (nearest_even (x / pow2 e)) * pow2 e)%Q.

Definition round_to (p : Z) (x : Q) : Q :=
  match Qcompare x 0 with
  | Eq => 0%Q
  | Gt => round_pos p x
  | Lt => (- round_pos p (- x))%Q
  end.

(** Rounding to long double and to double. *)
Definition ld (x : Q) : Q := round_to 64 x.
Definition dbl (x : Q) : Q := round_to 53 x.

(** A value that a long double (of any exponent) can hold. *)
Definition is_ld (x : Q) : Prop := exists m e, Z.abs m < 2 ^ 64 /\ (x == inject_Z m * pow2 e)%Q.
Definition is_dbl (x : Q) : Prop := exists m e, Z.abs m < 2 ^ 53 /\ (x == inject_Z m * pow2 e)%Q.
