(** C06: date arithmetic agrees with the proleptic Gregorian calendar. *)
From Verif Require Import Proofs.Tac Model.Base Model.Text Model.Date Spec.Calendar Spec.DateText
  Proofs.DateProofs Proofs.DateProofs2 Proofs.DateProofs3.
Open Scope Z_scope.

(** The specification's calendar is the Gregorian one. *)
Theorem C06_calendar :
  days_before_year 1 = 0 /\
  (forall y, days_before_year (y + 1) = days_before_year y + (if leapb y then 366 else 365)) /\
  (forall y, leapb y = true <-> leap y) /\
  (forall y, days_before_month y 13 = if leapb y then 366 else 365).
Proof. exact (conj days_before_year_1 (conj days_before_year_step (conj leapb_spec days_before_month_13))). Qed.

(** Day numbers identify dates. *)
Theorem C06_day_number_injective a b : valid a -> valid b -> dayno a = dayno b -> a = b.
Proof. exact (dayno_inj a b). Qed.

(** addDays moves by exactly n days, stopping at 0001-01-01 and 9999-12-31. *)
Theorem C06_addDays x n : valid x ->
  valid (addDays x n) /\
  dayno (addDays x n) = Z.max (day_number 1 1 1) (Z.min (day_number 9999 12 31) (dayno x + n)).
Proof. rewrite first_day_spec, last_day_spec. exact (addDays_spec x n). Qed.

(** Going there and back again. *)
Theorem C06_addDays_inverse x n : valid x ->
  day_number 1 1 1 <= dayno x + n <= day_number 9999 12 31 -> addDays (addDays x n) (- n) = x.
Proof. rewrite first_day_spec, last_day_spec. exact (addDays_inverse x n). Qed.

(** addMonths moves the month count by n; the day changes only if the target month
    is too short; past the ends it stops at the first or last day. *)
Theorem C06_addMonths x n : valid x -> int_min < n <= int_max ->
  let k := 12 * myYear x + (myMonth x - 1) + n in
  let y' := k / 12 in
  let m' := k mod 12 + 1 in
  addMonths x n = Ok (if y' <? 1 then Date 1 1 1
                      else if 9999 <? y' then Date 9999 12 31
                      else Date y' m' (Z.min (myDay x) (month_length y' m'))).
Proof. exact (addMonths_spec x n). Qed.

(** addYears keeps month and day, except that a leap day becomes March 1 in a year
    without one; the year stops at 1 and 9999. *)
Theorem C06_addYears x n : valid x -> in_int (myYear x + n) = true ->
  let y' := Z.max 1 (Z.min 9999 (myYear x + n)) in
  addYears x n = Ok (if (myMonth x =? 2) && (myDay x =? 29) && negb (leapb y')
                     then Date y' 3 1 else Date y' (myMonth x) (myDay x)).
Proof. exact (addYears_spec x n). Qed.

(** isLeapYear and daysInMonth as offered by the API, inside the supported years. *)
Theorem C06_leap_and_length y m : 1 <= y <= 9999 -> 1 <= m <= 12 ->
  isLeapYear y = leapb y /\ daysInMonth m y = month_length y m.
Proof. exact (fun Hy Hm => conj (isLeapYear_spec y Hy) (daysInMonth_spec m y Hm Hy)). Qed.

Example C06_example :
  valid (Date 1999 12 31) /\ addDays (Date 1999 12 31) 60 = Date 2000 2 29 /\
  addDays (Date 2000 3 1) (-1) = Date 2000 2 29 /\ addDays (Date 9999 12 30) 5 = Date 9999 12 31 /\
  addMonths (Date 2000 1 31) 13 = Ok (Date 2001 2 28) /\ addMonths (Date 2000 1 31) (-2) = Ok (Date 1999 11 30) /\
  addYears (Date 2000 2 29) 1 = Ok (Date 2001 3 1).
Proof. split; [unfold valid, valid_ymd; simpl; lia|]. repeat split; vm_compute; reflexivity. Qed.

Print Assumptions C06_calendar.
Print Assumptions C06_day_number_injective.
Print Assumptions C06_addDays.
Print Assumptions C06_addDays_inverse.
Print Assumptions C06_addMonths.
Print Assumptions C06_addYears.
Print Assumptions C06_leap_and_length.
