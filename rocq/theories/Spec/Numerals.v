(** What decimal numerals and white space are, independently of the model. *)
From Coq Require Import List Ascii String ZArith.
From Verif Require Import Model.Text.
Import ListNotations.
Open Scope Z_scope.

(** The six white-space characters of the C locale: tab, newline, vertical tab,
    form feed, carriage return, blank. *)
Definition ws_char (c : ascii) : Prop :=
  In c ["009"; "010"; "011"; "012"; "013"; " "]%char.

(** The value of a decimal digit. *)
Definition digit_is (c : ascii) (d : Z) : Prop :=
  In (c, d) [("0", 0); ("1", 1); ("2", 2); ("3", 3); ("4", 4);
             ("5", 5); ("6", 6); ("7", 7); ("8", 8); ("9", 9)]%char.

(** [numeral ds n]: the digit string [ds] (most significant digit first) is
    non-empty and denotes [n]. *)
Inductive numeral_tail : str -> Z -> Prop :=
| nt_nil : numeral_tail [] 0
| nt_cons c d r n :
    digit_is c d -> numeral_tail r n ->
    numeral_tail (c :: r) (d * 10 ^ Z.of_nat (List.length r) + n).

Definition numeral (ds : str) (n : Z) : Prop := ds <> [] /\ numeral_tail ds n.

(** A numeral without superfluous leading zero. *)
Definition canonical (ds : str) : Prop := ds = ["0"%char] \/ exists c r, ds = c :: r /\ c <> "0"%char.

(** [int_text t n]: [t] is a decimal integer with an optional sign, surrounded by
    optional white space, and denotes [n]. *)
Definition int_text (t : str) (n : Z) : Prop :=
  exists w1 sign ds w2 m,
    t = w1 ++ sign ++ ds ++ w2 /\
    Forall ws_char w1 /\ Forall ws_char w2 /\
    numeral ds m /\
    ((sign = [] /\ n = m) \/ (sign = ["+"%char] /\ n = m) \/ (sign = ["-"%char] /\ n = - m)).

(** The numbers an int can hold. *)
Definition is_int (n : Z) : Prop := -2147483648 <= n <= 2147483647.

(** [canonical_int t n]: [t] is the one way to write [n] without plus sign, leading
    zeros or white space. *)
Definition canonical_int (t : str) (n : Z) : Prop :=
  exists ds m, numeral ds m /\ canonical ds /\
    ((t = ds /\ n = m) \/ (t = "-"%char :: ds /\ n = - m /\ m <> 0)).

(** [starts_with_int t n]: after optional white space and sign, [t] has a number,
    taken as far as it goes, that denotes [n]. *)
Definition starts_with_int (t : str) (n : Z) : Prop :=
  exists w sign ds r m,
    t = w ++ sign ++ ds ++ r /\ Forall ws_char w /\ numeral ds m /\
    match r with c :: _ => forall d, ~ digit_is c d | [] => True end /\
    ((sign = [] /\ n = m) \/ (sign = ["+"%char] /\ n = m) \/ (sign = ["-"%char] /\ n = - m)).
