(** Decimal numbers: what a stored decimal amounts to, which numbers the types
    document, and how numbers are written. *)
From Coq Require Import List Ascii String ZArith QArith.
From Verif Require Import Model.Text Model.Decimals Spec.Numerals.
Import ListNotations.
Open Scope Z_scope.
Open Scope list_scope.

(** The stored number in units of the last decimal place, and as a number. *)
Definition units (p : precise) : Z :=
  let k := p_integer p * 10 ^ p_dec_digits p + p_decimal p in
  if p_negative p then - k else k.

Definition amount (p : precise) : Q := (inject_Z (units p) / inject_Z (10 ^ p_dec_digits p))%Q.

(** A decimal as the derived types hold it: 19 and 6 digits, the fraction below 1. *)
Definition well_formed (p : precise) : Prop :=
  p_int_digits p = 19 /\ p_dec_digits p = 6 /\
  0 <= p_integer p < 10 ^ 19 /\ 0 <= p_decimal p < 10 ^ 6.

(** The ranges documented in core/Decimals.h. *)
Definition documented (d : decimal_type) (x : Q) : Prop :=
  match d with
  | NonNegativeDecimal => (0 <= x)%Q
  | Percent => (0 <= x /\ x <= 100)%Q
  | PositiveDecimal | PositiveDivisions | PositiveDivisionsValue => (0 < x)%Q
  | RotationDegrees => (-180 <= x /\ x <= 180)%Q
  | TrillBeats => (2 <= x)%Q
  | Decimal | DivisionsValue | MillimetersValue | Semitones | TenthsValue => True
  end.

(** The types whose range excludes its end. *)
Definition exclusive (d : decimal_type) : Prop :=
  In d [PositiveDecimal; PositiveDivisions; PositiveDivisionsValue].

(** [plain_decimal t x]: t is an optional minus sign, a numeral and, if there is a
    fraction, a point and a numeral; it denotes x. *)
Definition plain_decimal (t : str) (x : Q) : Prop :=
  exists sign ip n, numeral ip n /\
    ((exists q, t = sign ++ ip /\ q = inject_Z n /\
        ((sign = [] /\ x == q) \/ (sign = ["-"%char] /\ x == - q))%Q) \/
     (exists fp m q, t = sign ++ ip ++ "."%char :: fp /\ numeral fp m /\
        q = (inject_Z n + inject_Z m / inject_Z (10 ^ Z.of_nat (List.length fp)))%Q /\
        ((sign = [] /\ x == q) \/ (sign = ["-"%char] /\ x == - q))%Q)).

(** No superfluous zero: none in front of the integer part, none at the end of a
    fraction, no fraction when there is nothing in it, no minus zero. *)
Definition shortest_decimal (t : str) : Prop :=
  t = ["0"%char] \/
  exists sign ip rest, t = sign ++ ip ++ rest /\
    (sign = [] \/ sign = ["-"%char]) /\ canonical ip /\ (exists n, numeral ip n) /\
    ((rest = [] /\ ip <> ["0"%char]) \/
     exists fp c, rest = "."%char :: fp ++ [c] /\ (exists m, numeral (fp ++ [c]) m) /\ c <> "0"%char).

(** [number_text t x]: white space, an optional sign, digits with an optional point
    among, before or after them, an optional exponent, white space. *)
Definition number_text (t : str) (x : Q) : Prop :=
  exists w1 sign ip fp point ex e w2 n q,
    t = w1 ++ sign ++ ip ++ point ++ fp ++ ex ++ w2 /\
    Forall ws_char w1 /\ Forall ws_char w2 /\
    (point = ["."%char] \/ (point = [] /\ fp = [])) /\
    numeral (ip ++ fp) n /\
    ((ex = [] /\ e = 0) \/
     (exists c es ed m, ex = c :: es ++ ed /\ (c = "e"%char \/ c = "E"%char) /\ numeral ed m /\
        ((es = [] /\ e = m) \/ (es = ["+"%char] /\ e = m) \/ (es = ["-"%char] /\ e = - m)))) /\
    q = (inject_Z n * Qpower 10 (e - Z.of_nat (List.length fp)))%Q /\
    ((sign = [] /\ x = q) \/ (sign = ["+"%char] /\ x = q) \/ (sign = ["-"%char] /\ x = (- q)%Q)).

(** [reached d p]: p is a decimal of type d after some constructor call and any
    sequence of setValue and parse calls, all given numbers a long double can hold. *)
Definition given (c : decimal_call) : Prop :=
  match c with CallSet v => LongDouble.is_ld v | CallParse _ => True end.

Definition reached (d : decimal_type) (p : precise) : Prop :=
  exists v cs, LongDouble.is_ld v /\ Forall given cs /\
    Base.obind (construct d v) (fun p0 => run_calls d p0 cs) = Base.Ok p.

(** [gives c x]: the call c passes the number x. *)
Definition gives (c : decimal_call) (x : Q) : Prop :=
  match c with CallSet v => x = v | CallParse t => number_text t x end.

(** The ends of the documented ranges. *)
Definition lower_end (d : decimal_type) : option Z :=
  match d with
  | NonNegativeDecimal | Percent | PositiveDecimal | PositiveDivisions | PositiveDivisionsValue => Some 0
  | RotationDegrees => Some (-180)
  | TrillBeats => Some 2
  | _ => None
  end.

Definition upper_end (d : decimal_type) : option Z :=
  match d with Percent => Some 100 | RotationDegrees => Some 180 | _ => None end.

(** Not strictly between 0 and 0.0000006. *)
Definition clear_of_zero (x : Q) : Prop := (x <= 0 \/ 6 # 10000000 <= x)%Q.
