(** C09: date text round trip. *)
From Verif Require Import Proofs.Tac Model.Base Model.Text Model.Date Spec.Calendar Spec.DateText
  Proofs.DateProofs Proofs.DateProofs2 Proofs.DateProofs3.
Open Scope Z_scope.

(** A valid date prints as its ten-character text. *)
Theorem C09_print_form x : valid x -> date_text (printDate x) (myYear x) (myMonth x) (myDay x).
Proof. exact (printDate_text x). Qed.

(** Printing then parsing into any date object gives the date back. *)
Theorem C09_print_parse x0 x : valid x0 -> valid x -> parseDate x0 (printDate x) = (x, true).
Proof. exact (print_parse x0 x). Qed.

(** parse accepts exactly the texts of valid dates and otherwise changes nothing. *)
Theorem C09_parse_accepts_exactly x t : valid x ->
  (forall y m d, date_text t y m d -> valid_ymd y m d -> parseDate x t = (Date y m d, true)) /\
  ((forall y m d, date_text t y m d -> ~ valid_ymd y m d) -> parseDate x t = (x, false)).
Proof. exact (parseDate_spec x t). Qed.

(** An accepted text is the text of the date it produced. *)
Theorem C09_parse_print x0 t : valid x0 ->
  snd (parseDate x0 t) = true -> printDate (fst (parseDate x0 t)) = t.
Proof. exact (parse_print x0 t). Qed.

Example C09_example :
  valid (Date 476 9 4) /\ printDate (Date 476 9 4) = lit "0476-09-04" /\
  parseDate defaultDate (lit "2023-02-29") = (defaultDate, false) /\
  parseDate defaultDate (lit "2024-02-29") = (Date 2024 2 29, true) /\
  parseDate defaultDate (lit "2024-2-29") = (defaultDate, false).
Proof. split; [unfold valid, valid_ymd; simpl; lia|]. repeat split; vm_compute; reflexivity. Qed.

Print Assumptions C09_print_form.
Print Assumptions C09_print_parse.
Print Assumptions C09_parse_accepts_exactly.
Print Assumptions C09_parse_print.
