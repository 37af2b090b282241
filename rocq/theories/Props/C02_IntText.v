(** C02: integer text round trip and all-or-nothing parsing. *)
From Verif Require Import Proofs.Tac Model.Text Model.Integers Spec.Numerals Spec.Ranges Proofs.IntegersProofs.
Open Scope Z_scope.

(** parse succeeds exactly on signed decimal numbers that fit an int, with
    surrounding white space, and yields that number. *)
Theorem C02_parse_accepts_exactly t n : parse_int t = Some n <-> int_text t n /\ is_int n.
Proof. exact (parse_int_iff t n). Qed.

(** Printing then parsing is the identity on every int. *)
Theorem C02_print_parse n : is_int n -> parse_int (print_int n) = Some n.
Proof. exact (parse_print_int n). Qed.

(** The printed text is the canonical numeral. *)
Theorem C02_print_form n :
  (n < 0 -> exists ds, print_int n = "-"%char :: ds /\ numeral ds (- n) /\ canonical ds) /\
  (0 <= n -> numeral (print_int n) n /\ canonical (print_int n)).
Proof. exact (print_int_form n). Qed.

(** For the bounded types: printing one object and parsing into any other object
    of the same type makes it equal to the first. *)
Theorem C02_object_roundtrip t v os v' os' :
  let r := run_ops t (construct t v) os in
  let r' := run_ops t (construct t v') os' in
  parse_range r' (print_range r) = (r, true).
Proof. exact (range_roundtrip t v os v' os'). Qed.

Example C02_example :
  parse_int (lit " -2147483648 ") = Some (-2147483648) /\ parse_int (lit "2147483648") = None /\
  parse_int (lit "12 x") = None /\ parse_int (lit "+") = None /\ print_int (-2147483648) = lit "-2147483648".
Proof. repeat split; vm_compute; reflexivity. Qed.

Print Assumptions C02_parse_accepts_exactly.
Print Assumptions C02_print_parse.
Print Assumptions C02_print_form.
Print Assumptions C02_object_roundtrip.
