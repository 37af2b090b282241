(** C08: the weekday of a date is correct. *)
From Verif Require Import Proofs.Tac Model.Base Model.Text Model.Date Spec.Calendar Spec.DateText
  Proofs.DateProofs Proofs.DateProofs2 Proofs.DateProofs3.
Open Scope Z_scope.

(** 1 = Sunday .. 7 = Saturday; day 1 of the calendar (0001-01-01) is a Monday. *)
Theorem C08_weekday x : valid x -> getWeekday x = dayno x mod 7 + 1.
Proof. exact (weekday_spec x). Qed.

(** Hence the next day has the next weekday. *)
Theorem C08_next_day x : valid x -> x <> Date 9999 12 31 ->
  getWeekday (addDays x 1) = getWeekday x mod 7 + 1.
Proof. exact (weekday_next x). Qed.

(** Anchors: 2000-01-01 was a Saturday, 1969-07-20 a Sunday, 2024-02-29 a Thursday. *)
Example C08_example :
  valid (Date 2000 1 1) /\ getWeekday (Date 2000 1 1) = 7 /\
  getWeekday (Date 1969 7 20) = 1 /\ getWeekday (Date 2024 2 29) = 5.
Proof. unfold valid, valid_ymd. simpl. repeat split; lia. Qed.

Print Assumptions C08_weekday.
Print Assumptions C08_next_day.
