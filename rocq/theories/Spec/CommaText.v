(** Comma-separated lists of integers. *)
From Coq Require Import List Ascii String ZArith Sorting.Sorted.
From Verif Require Import Model.Text Spec.Numerals Spec.XmlText.
Import ListNotations.
Open Scope Z_scope.

(** Ascending without duplicates. *)
Definition ascending (s : list Z) : Prop := StronglySorted Z.lt s.

(** Digits, commas and minus signs; all other characters are ignored. *)
Definition list_char (c : ascii) : Prop := (exists d, digit_is c d) \/ c = ","%char \/ c = "-"%char.

(** [kept t u]: [u] is [t] without the characters that are ignored. *)
Inductive kept : str -> str -> Prop :=
| kept_nil : kept [] []
| kept_yes c t u : list_char c -> kept t u -> kept (c :: t) (c :: u)
| kept_no c t u : ~ list_char c -> kept t u -> kept (c :: t) u.

(** A piece between commas: nothing, or a number with optional minus sign. *)
Inductive piece : str -> option Z -> Prop :=
| piece_none : piece [] None
| piece_pos ds n : numeral ds n -> piece ds (Some n)
| piece_neg ds n : numeral ds n -> piece ("-"%char :: ds) (Some (- n)).

(** [listing t ns]: apart from ignored characters, [t] is the comma-separated list
    of the pieces with the values [ns]. *)
Definition listing (t : str) (ns : list (option Z)) : Prop :=
  exists ps, Forall2 piece ps ns /\ ps <> [] /\ kept t (join [","%char] ps).
