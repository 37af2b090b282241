(** C46: strict string to int conversion. The claim "fails on every other text" does
    not hold for texts that start with a number too large for an int, where the
    behaviour of the program is undefined (C46_rejects_refuted). *)
From Verif Require Import Proofs.Tac Model.Base Model.Text Model.Strings Spec.Numerals Proofs.StringsProofs.
Open Scope Z_scope.

(** Success, with which number, exactly on the canonical texts of ints. *)
Theorem C46_succeeds_exactly t n : stringToInt t = Ok (Some n) <-> canonical_int t n /\ is_int n.
Proof. exact (stringToInt_canonical t n). Qed.

(** Every int has a canonical text, and it is read back. *)
Theorem C46_print_read n : is_int n -> canonical_int (print_int n) n /\ stringToInt (print_int n) = Ok (Some n).
Proof.
  exact (fun H => conj (proj2 (canonical_int_print _ n) eq_refl)
                       (proj2 (stringToInt_success _ n) (conj H eq_refl))).
Qed.

(** Any other text is rejected, provided the number it starts with, if any, fits
    (the text being cut at its first NUL, as for any C string). *)
Theorem C46_rejects_partial t :
  (forall n, starts_with_int (c_str t) n -> is_int n) ->
  (forall n, canonical_int t n -> ~ is_int n) -> stringToInt t = Ok None.
Proof. exact (stringToInt_reject t). Qed.

(** No undefined behaviour on texts of at most nine characters. *)
Theorem C46_short_defined t : (List.length t <= 9)%nat -> exists o, stringToInt t = Ok o.
Proof. exact (stringToInt_short t). Qed.

Theorem C46_rejects_refuted : exists t, stringToInt t = UB /\ forall n, canonical_int t n -> ~ is_int n.
Proof. exact stringToInt_overflow. Qed.

Example C46_example :
  stringToInt (lit "-120") = Ok (Some (-120)) /\ stringToInt (lit "+1") = Ok None /\
  stringToInt (lit "01") = Ok None /\ stringToInt (lit " 1") = Ok None /\ stringToInt (lit "1.5") = Ok None /\
  stringToInt (lit "") = Ok None /\ stringToInt (lit "-0") = Ok None /\ stringToInt (lit "0") = Ok (Some 0) /\
  stringToInt (lit "2147483647") = Ok (Some 2147483647).
Proof. repeat split; vm_compute; reflexivity. Qed.

Print Assumptions C46_succeeds_exactly.
Print Assumptions C46_print_read.
Print Assumptions C46_rejects_partial.
Print Assumptions C46_short_defined.
Print Assumptions C46_rejects_refuted.
