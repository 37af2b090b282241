(** core/Decimals.h, core/Decimals.cpp. *)
From Coq Require Import List Ascii String ZArith QArith Qround Qabs Bool.
From Verif Require Import Model.Base Model.Text Model.LongDouble.
Import ListNotations.
Open Scope Z_scope.
Open Scope list_scope.

(** PreciseDecimal, core/Decimals.h:43-82. The members myMaxExpressibleInteger and
    myMaxExpressibleDecimal are functions of the digit counts ([findMax]). *)
Record precise := mkPrecise {
  p_negative : bool;
  p_integer : Z;
  p_decimal : Z;
  p_int_digits : Z;
  p_dec_digits : Z
}.

(** uint64_t arithmetic. *)
Definition u64 (z : Z) : Z := z mod 2 ^ 64.

(** findMax, core/Decimals.cpp:231-244. std::pow( 10, i ) is exact for the i < 19
    that occur, and so is the rounding around it. *)
Fixpoint findMax (n : nat) : Z :=
  match n with
  | O => 0
  | S i => u64 (findMax i + u64 (u64 (10 ^ Z.of_nat i) * 9))
  end.

(** setMaxIntegerDigits and setMaxDecimalDigits, core/Decimals.cpp:197-229. *)
Definition clamp_digits (n : Z) : Z := if n <? 1 then 1 else if 19 <? n then 19 else n.

Definition max_integer (p : precise) : Z := findMax (Z.to_nat (p_int_digits p)).
Definition max_decimal (p : precise) : Z := findMax (Z.to_nat (p_dec_digits p)).

(** POINT_FIVE, core/Decimals.cpp:55: a double literal. *)
Definition POINT_FIVE : Q := dbl (4999999 # 10000000).

(** static_cast<uint64_t>( long double ): truncates; undefined outside the range. *)
Definition to_u64 (x : Q) : outcome Z :=
  let z := if Qle_bool 0 x then Qfloor x else Qceiling x in
  if (0 <=? z) && (z <? 2 ^ 64) then Ok z else UB.

(** static_cast<long double>( uint64_t ). *)
Definition of_u64 (z : Z) : Q := ld (inject_Z z).

(** std::ceil( std::pow( 10, digits ) - POINT_FIVE ) as uint64_t,
    core/Decimals.cpp:80-81, and as long double, :266-267. std::pow is exact for the
    1..19 digits that occur. *)
Definition powerMultiplier (digits : Z) : outcome Z :=
  to_u64 (inject_Z (Qceiling (ld (inject_Z (10 ^ digits) - POINT_FIVE)))).

(** PreciseDecimal::setValue, core/Decimals.cpp:57-94. *)
Definition p_setValue (p : precise) (v : Q) : outcome precise :=
  let neg := negb (Qle_bool 0 v) in
  let a := if neg then (- v)%Q else v in
  obind (to_u64 a) (fun integer =>
    if max_integer p <? integer then
      Ok (mkPrecise neg (max_integer p) (max_decimal p) (p_int_digits p) (p_dec_digits p))
    else
      let decimalPartAsFloat := ld (a - of_u64 integer) in
      obind (powerMultiplier (p_dec_digits p)) (fun mult =>
        let decimalDigitsShifted := ld (decimalPartAsFloat * of_u64 mult) in
        obind (to_u64 (inject_Z (Qceiling (ld (decimalDigitsShifted - POINT_FIVE))))) (fun digits =>
          if max_decimal p <? digits then
            Ok (mkPrecise neg (u64 (integer + 1)) 0 (p_int_digits p) (p_dec_digits p))
          else Ok (mkPrecise neg integer digits (p_int_digits p) (p_dec_digits p))))).

(** The constructors, core/Decimals.cpp:19-48. *)
Definition new_precise (intDigits decDigits : Z) (v : Q) : outcome precise :=
  p_setValue (mkPrecise false 0 0 (clamp_digits intDigits) (clamp_digits decDigits)) v.

(** PreciseDecimal::express and getValue, core/Decimals.cpp:50-53,262-277. *)
Definition p_getValue (p : precise) : Q :=
  let mult := inject_Z (Qceiling (ld (inject_Z (10 ^ p_dec_digits p) - (1 # 2)))) in
  let decimal := ld (of_u64 (p_decimal p) / mult) in
  let result := ld (of_u64 (p_integer p) + decimal) in
  if p_negative p then (- result)%Q else result.

(** The digits without the zeros at the end, core/Decimals.cpp:143-156,180-185: the
    reversed text loses its leading zeros. *)
Fixpoint drop_zeros (t : str) : str :=
  match t with
  | c :: r => if ascii_dec c "0" then drop_zeros r else t
  | [] => []
  end.

Definition strip_zeros (t : str) : str := rev (drop_zeros (rev t)).

(** The loop that counts the digits, core/Decimals.cpp:158-171; [n] rounds are left. *)
Fixpoint count_digits (n : nat) (digits tens dec : Z) : Z :=
  match n with
  | O => digits
  | S n' =>
      let digits' := digits + 1 in
      let tens' := u64 (tens * 10) in
      if dec / tens' <? 1 then digits' else count_digits n' digits' tens' dec
  end.

(** PreciseDecimal::toStream, core/Decimals.cpp:116-188. *)
Definition p_toString (p : precise) : str :=
  if (p_integer p =? 0) && (p_decimal p =? 0) then lit "0"
  else
    (if p_negative p then lit "-" else []) ++ print_nat (p_integer p) ++
    (if p_decimal p =? 0 then []
     else
       let digits := count_digits (Z.to_nat (p_dec_digits p + 1)) 0 1 (p_decimal p) in
       lit "." ++ repeat "0"%char (Z.to_nat (p_dec_digits p - digits)) ++
       strip_zeros (print_nat (p_decimal p))).

(** operator>>( istream&, long double& ) of libstdc++ in the "C" locale: an optional
    sign, digits with at most one point, and an exponent; the longest text that can
    continue such a number is taken. [None]: failbit. The rest is what the stream
    still holds. *)
Definition read_sign (t : str) : bool * str :=
  match t with
  | c :: r => if ascii_dec c "-" then (true, r) else if ascii_dec c "+" then (false, r) else (false, t)
  | [] => (false, [])
  end.

Definition read_fraction (t : str) : str * str :=
  match t with
  | c :: r => if ascii_dec c "." then span_digits r else ([], t)
  | [] => ([], [])
  end.

(** [None]: an e without digits after it. *)
Definition read_exponent (t : str) : option (Z * str) :=
  match t with
  | c :: r =>
      if Ascii.eqb c "e" || Ascii.eqb c "E" then
        let (neg, r1) := read_sign r in
        let (ds, r2) := span_digits r1 in
        match ds with
        | [] => None
        | _ => Some ((if neg then - digits_value ds else digits_value ds), r2)
        end
      else Some (0, t)
  | [] => Some (0, [])
  end.

(** The number denoted, before it is rounded to a long double. *)
Definition scan_decimal (t : str) : option (Q * str) :=
  let (neg, t1) := read_sign (skip_ws t) in
  let (ip, t2) := span_digits t1 in
  let (fp, t3) := read_fraction t2 in
  match ip ++ fp with
  | [] => None
  | ds =>
      match read_exponent t3 with
      | None => None
      | Some (e, t4) =>
          let m := (inject_Z (digits_value ds) * Qpower 10 (e - Z.of_nat (List.length fp)))%Q in
          Some ((if neg then - m else m)%Q, t4)
      end
  end.

(** The value, rounded; a number beyond the largest long double is a failure. *)
Definition read_decimal (t : str) : option (Q * str) :=
  match scan_decimal t with
  | None => None
  | Some (x, rest) =>
      let v := ld x in
      if Qle_bool (pow2 16384) (Qabs v) then None else Some (v, rest)
  end.

(** The bounds of the decimal types: minExclusive, minInclusive, maxInclusive, noOp,
    core/Decimals.cpp:355-398 (maxExclusive is not used). *)
Inductive low_bound := LowNone | LowIncl (b : Z) | LowExcl (b : Z).
Inductive high_bound := HighNone | HighIncl (b : Z).

(** NON_ZERO_AMOUNT, core/Decimals.h:29: a double literal. *)
Definition NON_ZERO_AMOUNT : Q := dbl (1 # 1000000).

Definition min_clamp (b : low_bound) (v : Q) : Q :=
  match b with
  | LowNone => v
  | LowIncl m => if Qle_bool (inject_Z m) v then v else inject_Z m
  | LowExcl m => if Qle_bool v (inject_Z m) then ld (inject_Z m + NON_ZERO_AMOUNT) else v
  end.

Definition max_clamp (b : high_bound) (v : Q) : Q :=
  match b with
  | HighNone => v
  | HighIncl m => if Qle_bool v (inject_Z m) then v else inject_Z m
  end.

(** The types derived from DecimalRange, and Decimal itself,
    core/Decimals.h:84-247. *)
Inductive decimal_type :=
| Decimal | DivisionsValue | MillimetersValue | NonNegativeDecimal | Percent
| PositiveDecimal | PositiveDivisions | PositiveDivisionsValue | RotationDegrees
| Semitones | TenthsValue | TrillBeats.

(** The bounds given to the constructor, core/Decimals.cpp:419-549. *)
Definition low (d : decimal_type) : low_bound :=
  match d with
  | NonNegativeDecimal | Percent => LowIncl 0
  | PositiveDecimal | PositiveDivisions | PositiveDivisionsValue => LowExcl 0
  | RotationDegrees => LowIncl (-180)
  | TrillBeats => LowIncl 2
  | _ => LowNone
  end.

Definition high (d : decimal_type) : high_bound :=
  match d with
  | Percent => HighIncl 100
  | RotationDegrees => HighIncl 180
  | _ => HighNone
  end.

(** The value of the default constructor, core/Decimals.cpp:285-549. *)
Definition default_value (d : decimal_type) : Q :=
  match d with
  | PositiveDecimal | PositiveDivisions | PositiveDivisionsValue => 1
  | TrillBeats => 2
  | _ => 0
  end.

Definition clamp (d : decimal_type) (v : Q) : Q := min_clamp (low d) (max_clamp (high d) v).

(** The constructor from a number, core/Decimals.cpp:279-283,400-406: 19 digits before
    and 6 after the point. *)
Definition construct (d : decimal_type) (v : Q) : outcome precise := new_precise 19 6 (clamp d v).

Definition construct_default (d : decimal_type) : outcome precise := construct d (default_value d).

(** setValue, core/Decimals.cpp:296-299,408-411. *)
Definition setValue (d : decimal_type) (p : precise) (v : Q) : outcome precise :=
  p_setValue p (clamp d v).

(** parse, core/Decimals.cpp:301-311: the answer and the new state. *)
Definition parse (d : decimal_type) (p : precise) (t : str) : outcome (bool * precise) :=
  match read_decimal t with
  | None => Ok (false, p)
  | Some (v, rest) =>
      match skip_ws rest with
      | [] => omap (fun p' => (true, p')) (setValue d p v)
      | _ :: _ => Ok (false, p)
      end
  end.

Definition getValue (p : precise) : Q := p_getValue p.
Definition toString (p : precise) : str := p_toString p.

(** The calls a program can make on one decimal. *)
Inductive decimal_call := CallSet (v : Q) | CallParse (t : str).

Definition run_call (d : decimal_type) (p : precise) (c : decimal_call) : outcome precise :=
  match c with
  | CallSet v => setValue d p v
  | CallParse t => omap snd (parse d p t)
  end.

Fixpoint run_calls (d : decimal_type) (p : precise) (cs : list decimal_call) : outcome precise :=
  match cs with
  | [] => Ok p
  | c :: r => obind (run_call d p c) (fun p' => run_calls d p' r)
  end.
