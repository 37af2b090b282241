(** Texts that differ in the case of letters only, and where one is found in another. *)
From Coq Require Import List String Ascii Arith.
From Verif Require Import Model.Text.
Import ListNotations.

(** The same character, or the [i]-th letter of the alphabet twice. *)
Definition letter_forms (i : nat) : list ascii := [ascii_of_nat (65 + i); ascii_of_nat (97 + i)].
Definition same_letter (x y : ascii) : Prop :=
  x = y \/ exists i, i < 26 /\ In x (letter_forms i) /\ In y (letter_forms i).
Definition same_ignoring_case (a b : str) : Prop := Forall2 same_letter a b.

Definition ascii_text (t : str) : Prop := Forall (fun c => nat_of_ascii c < 128) t.

(** A character that is ASCII, or the one whose code is that of the end of a file. *)
Definition case_known (c : ascii) : Prop := nat_of_ascii c < 128 \/ nat_of_ascii c = 255.

(** [t] is found in [s] after [i] characters. *)
Definition found_at (s t : str) (i : nat) : Prop :=
  exists a b c, s = (a ++ b ++ c)%list /\ List.length a = i /\ same_ignoring_case b t.
