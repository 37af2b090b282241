(** Characters, text and the C++ stream conversions between int and text.

    These are the parts of the C++ standard library that the modelled code
    calls (std::string, isspace, isdigit, operator<< and operator>> for int in
    the "C" locale).  They are modelled from the C++ standard / libstdc++
    behaviour, not from a file in /repo; each definition names the call sites
    in /repo that use it. *)
From Coq Require Import List Ascii String ZArith Bool.
Import ListNotations.
Open Scope Z_scope.

(** std::string as a list of chars. *)
Definition str := list ascii.

(** A literal. *)
Definition lit (x : string) : str := list_ascii_of_string x.

Definition code (c : ascii) : Z := Z.of_N (N_of_ascii c).
Definition chr (z : Z) : ascii := ascii_of_N (Z.to_N z).

(** isspace in the "C" locale; also kWhitespace, core/StringUtils.h:13. *)
Definition is_space (c : ascii) : bool :=
  let n := code c in (n =? 32) || ((9 <=? n) && (n <=? 13)).

(** isdigit in the "C" locale. core/Date.cpp:196-204. *)
Definition is_digit (c : ascii) : bool :=
  let n := code c in (48 <=? n) && (n <=? 57).

Definition digit_of (c : ascii) : Z := code c - 48.
Definition char_of_digit (d : Z) : ascii := chr (48 + d).

Definition str_eqb (a b : str) : bool :=
  if list_eq_dec ascii_dec a b then true else false.

(** Machine int (32 bit). core/Integers.h:16-18. *)
Definition int_min : Z := -2147483648.
Definition int_max : Z := 2147483647.
Definition in_int (z : Z) : bool := (int_min <=? z) && (z <=? int_max).

(** operator<<(ostream&, int): shortest decimal numeral.
    [fuel] bounds the number of digits and is always sufficient
    (Proofs/TextProofs.v: print_nat_value). *)
Fixpoint print_digits (fuel : nat) (z : Z) (acc : str) : str :=
  match fuel with
  | O => acc
  | S f =>
      let acc' := char_of_digit (z mod 10) :: acc in
      if z / 10 =? 0 then acc' else print_digits f (z / 10) acc'
  end.

Definition print_nat (z : Z) : str := print_digits (S (Z.to_nat (Z.log2 z))) z [].

Definition print_int (z : Z) : str :=
  if z <? 0 then "-"%char :: print_nat (- z) else print_nat z.

(** Leading white space is skipped by operator>> (skipws) and by std::ws. *)
Fixpoint skip_ws (t : str) : str :=
  match t with
  | c :: r => if is_space c then skip_ws r else t
  | [] => []
  end.

(** The longest prefix of digits, and what follows it. *)
Fixpoint span_digits (t : str) : str * str :=
  match t with
  | c :: r => if is_digit c then let (d, q) := span_digits r in (c :: d, q) else ([], t)
  | [] => ([], [])
  end.

(** The number written by a list of digit characters. *)
Definition digits_value (ds : str) : Z :=
  fold_left (fun a c => 10 * a + digit_of c) ds 0.

(** The outcome of operator>>(istream&, int&). On [IntNone] and [IntOverflow]
    failbit is set; on overflow the variable is set to the nearest int. *)
Inductive int_read :=
| IntOk (v : Z) (rest : str)
| IntOverflow (v : Z) (rest : str)
| IntNone.

Definition finish_read (neg : bool) (t : str) : int_read :=
  let (ds, rest) := span_digits t in
  match ds with
  | [] => IntNone
  | _ =>
      let v := if neg then - digits_value ds else digits_value ds in
      if v <? int_min then IntOverflow int_min rest
      else if int_max <? v then IntOverflow int_max rest
      else IntOk v rest
  end.

(** operator>>(istream&, int&). core/Integers.cpp:41, core/Date.cpp:149,162,175,
    core/CommaSeparatedPositiveIntegers.cpp. *)
Definition read_int (t : str) : int_read :=
  match skip_ws t with
  | c :: r =>
      if ascii_dec c "-" then finish_read true r
      else if ascii_dec c "+" then finish_read false r
      else finish_read false (c :: r)
  | [] => IntNone
  end.
