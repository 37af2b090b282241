(** C05: calendar dates are always valid. *)
From Verif Require Import Proofs.Tac Model.Base Model.Text Model.Date Spec.Calendar Spec.DateText
  Proofs.DateProofs Proofs.DateProofs2 Proofs.DateProofs3.
Open Scope Z_scope.

(** Whatever history of operations is applied to a date built by any constructor,
    the result (when the history has no undefined behaviour) is a day that exists. *)
Theorem C05_history_valid y m d os x' : run_date (mkDate y m d) os = Ok x' -> valid x'.
Proof. exact (run_date_valid os (mkDate y m d) x' (mkDate_valid y m d)). Qed.

Theorem C05_text_constructor_valid t os x' : run_date (dateFromText t) os = Ok x' -> valid x'.
Proof. exact (run_date_valid os (dateFromText t) x' (parseDate_valid defaultDate t (mkDate_valid 1900 1 1))). Qed.

(** The constructor keeps a valid triple, and otherwise moves each component to the
    nearest possible value. *)
Theorem C05_constructor y m d :
  let y' := Z.max 1 (Z.min 9999 y) in
  let m' := Z.max 1 (Z.min 12 m) in
  mkDate y m d = Date y' m' (Z.max 1 (Z.min (month_length y' m') d)).
Proof. exact (mkDate_clamped y m d). Qed.

(** setValue is all or nothing. *)
Theorem C05_setValue x y m d : valid x ->
  (valid_ymd y m d -> setValue x y m d = (Date y m d, true)) /\
  (~ valid_ymd y m d -> setValue x y m d = (x, false)).
Proof. exact (setValue_spec x y m d). Qed.

(** A setter moves its own component to the nearest possible value; the day moves
    only when the new month is too short. *)
Theorem C05_setters x v : valid x ->
  setYear x v = (let y' := Z.max 1 (Z.min 9999 v) in Date y' (myMonth x) (Z.min (myDay x) (month_length y' (myMonth x)))) /\
  setMonth x v = (let m' := Z.max 1 (Z.min 12 v) in Date (myYear x) m' (Z.min (myDay x) (month_length (myYear x) m'))) /\
  setDay x v = Date (myYear x) (myMonth x) (Z.max 1 (Z.min (month_length (myYear x) (myMonth x)) v)).
Proof. exact (setters_spec x v). Qed.

(** No history is undefined unless addMonths is given INT_MIN or addYears a number
    within 9999 of the ends of int. *)
Theorem C05_history_defined x os : valid x ->
  Forall (fun o => match o with
                   | DAddMonths n => int_min < n <= int_max
                   | DAddYears n => int_min + 9999 <= n <= int_max - 9999
                   | _ => True end) os ->
  exists x', run_date x os = Ok x'.
Proof. exact (run_date_defined os x). Qed.

(** A leap day, a month shortened under the day, and an overflow past the end. *)
Example C05_example :
  run_date (mkDate 2024 2 30) [DSetYear 2023; DSetMonth 13; DSetDay 99; DAddMonths (-10); DAddDays 1] =
    Ok (Date 2023 3 1) /\ valid (Date 2023 3 1) /\ ~ valid (Date 2023 2 29) /\
  date_step (Date 2000 1 1) (DAddMonths int_min) = UB.
Proof.
  split; [vm_compute; reflexivity|]. unfold valid, valid_ymd. simpl. repeat split; try lia.
Qed.

Print Assumptions C05_history_valid.
Print Assumptions C05_text_constructor_valid.
Print Assumptions C05_constructor.
Print Assumptions C05_setValue.
Print Assumptions C05_setters.
Print Assumptions C05_history_defined.
