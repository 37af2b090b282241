From Verif Require Import Proofs.Tac Model.Base Model.Text Model.Date Spec.Numerals Spec.Calendar Spec.DateText Proofs.TextProofs.
Open Scope Z_scope.

Ltac dm := Z.div_mod_to_equations; lia.

(** ** The calendar itself *)

Lemma leapb_spec y : leapb y = true <-> leap y.
Proof.
  unfold leapb, leap. rewrite <- !Z.mod_divide by lia.
  rewrite orb_true_iff, andb_true_iff, negb_true_iff, !Z.eqb_eq, Z.eqb_neq. tauto.
Qed.

Lemma div_pred y k : 1 < k -> y / k = (y - 1) / k + (if y mod k =? 0 then 1 else 0).
Proof. intros. destruct (y mod k =? 0) eqn:E; bool_hyps; Z.div_mod_to_equations; nia. Qed.
Lemma days_before_year_step y :
  days_before_year (y + 1) = days_before_year y + (if leapb y then 366 else 365).
Proof.
  unfold days_before_year, leapb. replace (y + 1 - 1) with y by lia.
  rewrite (div_pred y 4), (div_pred y 100), (div_pred y 400) by lia.
  assert (y mod 400 = 0 -> y mod 100 = 0) by dm.
  assert (y mod 100 = 0 -> y mod 4 = 0) by dm.
  destruct (y mod 4 =? 0) eqn:E1, (y mod 100 =? 0) eqn:E2, (y mod 400 =? 0) eqn:E3; cbn [andb orb negb];
    bool_hyps; try lia.
Qed.

Lemma days_before_year_1 : days_before_year 1 = 0.
Proof. reflexivity. Qed.

Lemma month_cases m : 1 <= m <= 12 ->
  m = 1 \/ m = 2 \/ m = 3 \/ m = 4 \/ m = 5 \/ m = 6 \/ m = 7 \/ m = 8 \/ m = 9 \/ m = 10 \/ m = 11 \/ m = 12.
Proof. lia. Qed.

Ltac month_cases m H :=
  let K := fresh in
  pose proof (month_cases m H) as K;
  repeat (destruct K as [K|K]); rewrite K in *.

Lemma month_length_bounds y m : 28 <= month_length y m <= 31.
Proof.
  assert (28 <= (if leapb y then 29 else 28) <= 31) by (destruct (leapb y); lia).
  unfold month_length. destruct m as [|p|p]; try lia.
  repeat (destruct p as [p|p|]; try lia).
Qed.

Lemma days_before_month_step y m : 1 <= m <= 12 ->
  days_before_month y (m + 1) = days_before_month y m + month_length y m.
Proof.
  intros H. unfold days_before_month.
  replace (Z.to_nat (m + 1 - 1)) with (Z.to_nat (m - 1) + 1)%nat by lia.
  rewrite seq_app, map_app, fold_right_app. cbn [seq map fold_right].
  replace (Z.of_nat (1 + Z.to_nat (m - 1))) with m by lia.
  rewrite Z.add_0_r.
  generalize (map (fun k => month_length y (Z.of_nat k)) (seq 1 (Z.to_nat (m - 1)))) as l.
  induction l as [|a l IH]; cbn [fold_right]; lia.
Qed.

Lemma days_before_month_1 y : days_before_month y 1 = 0.
Proof. reflexivity. Qed.

Lemma days_before_month_nonneg y m : 1 <= m <= 13 ->
  0 <= days_before_month y m <= days_before_month y 13.
Proof.
  intros H.
  assert (S : forall k, 1 <= k <= 12 -> days_before_month y k <= days_before_month y (k + 1)).
  { intros k Hk. rewrite days_before_month_step by lia. pose proof (month_length_bounds y k). lia. }
  pose proof (days_before_month_1 y).
  pose proof (S 1). pose proof (S 2). pose proof (S 3). pose proof (S 4). pose proof (S 5). pose proof (S 6).
  pose proof (S 7). pose proof (S 8). pose proof (S 9). pose proof (S 10). pose proof (S 11). pose proof (S 12).
  simpl Z.add in *.
  assert (m = 13 \/ 1 <= m <= 12) as [->|Hm] by lia; [lia|].
  month_cases m Hm; lia.
Qed.

Lemma days_before_month_13 y : days_before_month y 13 = if leapb y then 366 else 365.
Proof. unfold days_before_month. simpl. destruct (leapb y); reflexivity. Qed.

(** ** The model's calendar helpers *)

Lemma constrain_spec v lo hi : lo <= hi ->
  constrainToRange v lo hi = Z.max lo (Z.min hi v).
Proof. intros H. unfold constrainToRange. repeat case_if; bool_hyps; lia. Qed.

Lemma isLeapYear_spec y : 1 <= y <= 9999 -> isLeapYear y = leapb y.
Proof.
  intros H. unfold isLeapYear, leapb.
  assert ((y <? 1) || (9999 <? y) = false) as -> by lia.
  rewrite !Z.rem_mod_nonneg by lia.
  assert (y mod 400 = 0 -> y mod 100 = 0) by dm.
  assert (y mod 100 = 0 -> y mod 4 = 0) by dm.
  destruct (y mod 4 =? 0) eqn:E1, (y mod 100 =? 0) eqn:E2, (y mod 400 =? 0) eqn:E3; bool_hyps;
    try reflexivity; lia.
Qed.

Lemma isLeapYear_out y : ~ (1 <= y <= 9999) -> isLeapYear y = false.
Proof.
  intros H. unfold isLeapYear. assert ((y <? 1) || (9999 <? y) = true) as -> by lia. reflexivity.
Qed.

Lemma daysInMonth_gen m y : 1 <= m <= 12 ->
  daysInMonth m y = month_length (if isLeapYear y then 4 else 1) m.
Proof.
  intros H. unfold daysInMonth. rewrite constrain_spec by lia.
  replace (Z.max 1 (Z.min 12 m)) with m by lia.
  destruct (isLeapYear y); month_cases m H; reflexivity.
Qed.

Lemma daysInMonth_spec m y : 1 <= m <= 12 -> 1 <= y <= 9999 -> daysInMonth m y = month_length y m.
Proof.
  intros H Hy. rewrite daysInMonth_gen by assumption. rewrite isLeapYear_spec by assumption.
  unfold month_length. change (leapb 4) with true. change (leapb 1) with false.
  destruct (leapb y) eqn:E; month_cases m H; try reflexivity; rewrite ?E; try reflexivity.
Qed.

Lemma daysInMonth_bounds m y : 1 <= m <= 12 -> 28 <= daysInMonth m y <= 31.
Proof. intros. rewrite daysInMonth_gen by assumption. apply month_length_bounds. Qed.

Lemma setDay_valid x v : 1 <= myYear x <= 9999 -> 1 <= myMonth x <= 12 -> valid (setDay x v).
Proof.
  intros Hy Hm. unfold valid, setDay, valid_ymd. simpl.
  rewrite daysInMonth_spec by assumption. pose proof (month_length_bounds (myYear x) (myMonth x)).
  rewrite constrain_spec by lia. lia.
Qed.

Lemma setDay_exact x v : 1 <= myYear x <= 9999 -> 1 <= myMonth x <= 12 ->
  1 <= v <= month_length (myYear x) (myMonth x) -> setDay x v = Date (myYear x) (myMonth x) v.
Proof.
  intros Hy Hm Hv. unfold setDay. rewrite daysInMonth_spec by assumption.
  rewrite constrain_spec by lia. f_equal. lia.
Qed.

Lemma setMonth_valid x v : 1 <= myYear x <= 9999 -> valid (setMonth x v).
Proof.
  intros Hy. unfold setMonth. apply setDay_valid; simpl; [assumption|]. rewrite constrain_spec by lia. lia.
Qed.

Lemma setYear_valid x v : 1 <= myMonth x <= 12 -> valid (setYear x v).
Proof.
  intros Hy. unfold setYear. apply setDay_valid; simpl; [|assumption]. rewrite constrain_spec by lia. lia.
Qed.

Lemma setMonth_ym x v : myYear (setMonth x v) = myYear x /\ myMonth (setMonth x v) = Z.max 1 (Z.min 12 v).
Proof. unfold setMonth, setDay. simpl. rewrite constrain_spec by lia. auto. Qed.

Lemma setYear_ym x v : myYear (setYear x v) = Z.max 1 (Z.min 9999 v) /\ myMonth (setYear x v) = myMonth x.
Proof. unfold setYear, setDay. simpl. rewrite constrain_spec by lia. auto. Qed.

Lemma set_ymd x y m d : 1 <= myMonth x <= 12 -> valid_ymd y m d ->
  setDay (setMonth (setYear x y) m) d = Date y m d.
Proof.
  intros Hx (Hy & Hm & Hd).
  destruct (setYear_ym x y) as [E1 E2]. destruct (setMonth_ym (setYear x y) m) as [E3 E4].
  rewrite E1 in E3. replace (Z.max 1 (Z.min 9999 y)) with y in E3 by lia.
  replace (Z.max 1 (Z.min 12 m)) with m in E4 by lia.
  rewrite setDay_exact; rewrite ?E3, ?E4; auto.
Qed.

Lemma mkDate_valid y m d : valid (mkDate y m d).
Proof.
  unfold mkDate. apply setDay_valid.
  - apply setMonth_valid. apply setYear_valid. simpl. lia.
  - apply setMonth_valid. apply setYear_valid. simpl. lia.
Qed.

Lemma mkDate_exact y m d : valid_ymd y m d -> mkDate y m d = Date y m d.
Proof. intros H. apply set_ymd; [simpl; lia|exact H]. Qed.

Lemma mkDate_clamped y m d :
  let y' := Z.max 1 (Z.min 9999 y) in
  let m' := Z.max 1 (Z.min 12 m) in
  mkDate y m d = Date y' m' (Z.max 1 (Z.min (month_length y' m') d)).
Proof.
  intros y' m'. unfold mkDate.
  destruct (setYear_ym defaultDate y) as [E1 E2]. destruct (setMonth_ym (setYear defaultDate y) m) as [E3 E4].
  rewrite E1 in E3. fold y' in E3. fold m' in E4.
  unfold setDay. rewrite E3, E4.
  rewrite daysInMonth_spec by (unfold y', m'; lia).
  pose proof (month_length_bounds y' m'). rewrite constrain_spec by lia. reflexivity.
Qed.

Lemma isDateValid_spec y m d : isDateValid y m d = true <-> valid_ymd y m d.
Proof.
  unfold isDateValid, valid_ymd. split.
  - intros H. repeat match type of H with (if ?b then _ else _) = _ => destruct b eqn:?; [discriminate|] end.
    bool_hyps. rewrite daysInMonth_spec in * by lia. lia.
  - intros (Hy & Hm & Hd). rewrite daysInMonth_spec by lia.
    repeat (case_if; bool_hyps; try lia).
Qed.

Lemma setValue_spec x y m d : valid x ->
  (valid_ymd y m d -> setValue x y m d = (Date y m d, true)) /\
  (~ valid_ymd y m d -> setValue x y m d = (x, false)).
Proof.
  intros Hx. unfold setValue. split; intros H.
  - apply isDateValid_spec in H as E. rewrite E. rewrite set_ymd; [reflexivity|apply Hx|exact H].
  - destruct (isDateValid y m d) eqn:E; [apply isDateValid_spec in E; contradiction|reflexivity].
Qed.

(** ** Order *)

Lemma day_in_year y m d : valid_ymd y m d ->
  days_before_year y < day_number y m d <= days_before_year (y + 1).
Proof.
  intros (Hy & Hm & Hd). unfold day_number. rewrite days_before_year_step, <- days_before_month_13.
  pose proof (days_before_month_nonneg y m). pose proof (days_before_month_nonneg y (m + 1)).
  rewrite days_before_month_step in * by lia. lia.
Qed.

Lemma day_in_month y m d : valid_ymd y m d ->
  days_before_year y + days_before_month y m < day_number y m d <= days_before_year y + days_before_month y (m + 1).
Proof. intros (Hy & Hm & Hd). unfold day_number. rewrite days_before_month_step by lia. lia. Qed.

Lemma days_before_year_mono a b : a <= b -> days_before_year a <= days_before_year b.
Proof.
  intros H. replace b with (a + Z.of_nat (Z.to_nat (b - a))) by lia.
  induction (Z.to_nat (b - a)) as [|n IH]; [rewrite Z.add_0_r; lia|].
  replace (a + Z.of_nat (S n)) with (a + Z.of_nat n + 1) by lia.
  rewrite days_before_year_step. destruct (leapb _); lia.
Qed.

Lemma days_before_month_mono y a b : 1 <= a -> a <= b -> b <= 13 -> days_before_month y a <= days_before_month y b.
Proof.
  intros H1 H H2. replace b with (a + Z.of_nat (Z.to_nat (b - a))) in * by lia.
  induction (Z.to_nat (b - a)) as [|n IH]; [rewrite Z.add_0_r; lia|].
  replace (a + Z.of_nat (S n)) with (a + Z.of_nat n + 1) by lia.
  rewrite days_before_month_step by lia. pose proof (month_length_bounds y (a + Z.of_nat n)). lia.
Qed.

Lemma compare_spec a b : valid a -> valid b ->
  compareDate a b = Z.sgn (dayno a - dayno b).
Proof.
  intros Ha Hb. pose proof Ha as (Hy & Hm & Hd). pose proof Hb as (Hy' & Hm' & Hd').
  pose proof (day_in_year _ _ _ Ha). pose proof (day_in_year _ _ _ Hb).
  pose proof (day_in_month _ _ _ Ha). pose proof (day_in_month _ _ _ Hb).
  unfold compareDate, dayno.
  destruct (myYear b <? myYear a) eqn:E1; bool_hyps.
  { pose proof (days_before_year_mono (myYear b + 1) (myYear a)). lia. }
  destruct (myYear a <? myYear b) eqn:E2; bool_hyps.
  { pose proof (days_before_year_mono (myYear a + 1) (myYear b)). lia. }
  assert (Ey : myYear a = myYear b) by lia. rewrite Ey in *.
  destruct (myMonth b <? myMonth a) eqn:E3; bool_hyps.
  { pose proof (days_before_month_mono (myYear b) (myMonth b + 1) (myMonth a)). lia. }
  destruct (myMonth a <? myMonth b) eqn:E4; bool_hyps.
  { pose proof (days_before_month_mono (myYear b) (myMonth a + 1) (myMonth b)). lia. }
  assert (Em : myMonth a = myMonth b) by lia. rewrite Em in *.
  unfold day_number.
  destruct (myDay b <? myDay a) eqn:E5; bool_hyps; [lia|].
  destruct (myDay a <? myDay b) eqn:E6; bool_hyps; lia.
Qed.

Lemma compare_zero a b : compareDate a b = 0 <-> a = b.
Proof.
  unfold compareDate. split.
  - repeat case_if; bool_hyps; try discriminate. intros _.
    destruct a, b; simpl in *. f_equal; lia.
  - intros <-. rewrite !Z.ltb_irrefl. reflexivity.
Qed.

Lemma dayno_inj a b : valid a -> valid b -> dayno a = dayno b -> a = b.
Proof.
  intros Ha Hb E. apply compare_zero. rewrite compare_spec by assumption. rewrite E, Z.sub_diag. reflexivity.
Qed.

Lemma date_ops_spec a b : valid a -> valid b ->
  (date_eq a b = true <-> a = b) /\ (date_ne a b = true <-> a <> b) /\
  (date_lt a b = true <-> dayno a < dayno b) /\ (date_le a b = true <-> dayno a <= dayno b) /\
  (date_gt a b = true <-> dayno a > dayno b) /\ (date_ge a b = true <-> dayno a >= dayno b).
Proof.
  intros Ha Hb. unfold date_eq, date_ne, date_lt, date_le, date_gt, date_ge.
  rewrite negb_true_iff, Z.eqb_neq, Z.eqb_eq, compare_zero, compare_spec by assumption.
  repeat split; intros; try assumption; lia.
Qed.

(** ** addDays *)

Definition first_day : Z := 1.
Definition last_day : Z := 3652059.

Lemma first_day_spec : day_number 1 1 1 = first_day.
Proof. vm_compute. reflexivity. Qed.
Lemma last_day_spec : day_number 9999 12 31 = last_day.
Proof. vm_compute. reflexivity. Qed.

Lemma valid_first : valid (Date 1 1 1).
Proof. unfold valid, valid_ymd. simpl. lia. Qed.
Lemma valid_last : valid (Date 9999 12 31).
Proof. unfold valid, valid_ymd. simpl. lia. Qed.

Lemma dayno_range a : valid a -> first_day <= dayno a <= last_day.
Proof.
  intros H. rewrite <- first_day_spec, <- last_day_spec.
  pose proof (compare_spec a (Date 9999 12 31) H valid_last) as C1.
  pose proof (compare_spec a (Date 1 1 1) H valid_first) as C2.
  unfold dayno in *. simpl in *.
  destruct H as (Hy & Hm & Hd). pose proof (month_length_bounds (myYear a) (myMonth a)).
  unfold compareDate in *. simpl in *.
  split.
  - destruct (1 <? myYear a) eqn:?; bool_hyps; [lia|].
    destruct (myYear a <? 1) eqn:?; bool_hyps; [lia|].
    destruct (1 <? myMonth a) eqn:?; bool_hyps; [lia|].
    destruct (myMonth a <? 1) eqn:?; bool_hyps; [lia|].
    destruct (1 <? myDay a) eqn:?; bool_hyps; [lia|].
    destruct (myDay a <? 1) eqn:?; bool_hyps; lia.
  - destruct (9999 <? myYear a) eqn:?; bool_hyps; [lia|].
    destruct (myYear a <? 9999) eqn:?; bool_hyps; [lia|].
    destruct (12 <? myMonth a) eqn:?; bool_hyps; [lia|].
    destruct (myMonth a <? 12) eqn:?; bool_hyps; [lia|].
    destruct (31 <? myDay a) eqn:?; bool_hyps; [lia|].
    destruct (myDay a <? 31) eqn:?; bool_hyps; lia.
Qed.

Lemma date_eq_last x : date_eq x (mkDate 9999 12 31) = true <-> x = Date 9999 12 31.
Proof.
  rewrite mkDate_exact by apply valid_last. unfold date_eq. rewrite Z.eqb_eq. apply compare_zero.
Qed.
Lemma date_eq_first x : date_eq x (mkDate 1 1 1) = true <-> x = Date 1 1 1.
Proof.
  rewrite mkDate_exact by apply valid_first. unfold date_eq. rewrite Z.eqb_eq. apply compare_zero.
Qed.

Lemma stepForward_spec x : valid x ->
  match stepForward x with
  | None => dayno x = last_day
  | Some x' => valid x' /\ dayno x' = dayno x + 1
  end.
Proof.
  intros H. pose proof H as (Hy & Hm & Hd). unfold stepForward.
  destruct (date_eq x (mkDate 9999 12 31)) eqn:E.
  { apply date_eq_last in E. subst. exact last_day_spec. }
  assert (N : x <> Date 9999 12 31) by (rewrite <- date_eq_last; congruence).
  destruct ((myMonth x =? 12) && (myDay x =? 31)) eqn:E1; bool_hyps.
  - assert (myYear x < 9999) by (destruct x as [y m d]; simpl in *; destruct (Z.eq_dec y 9999); [subst; congruence|lia]).
    assert (V : valid_ymd (myYear x + 1) 1 1) by (unfold valid_ymd; simpl; lia).
    rewrite set_ymd by (auto; lia). split; [exact V|].
    unfold dayno. simpl. unfold day_number.
    rewrite H0, H1, days_before_year_step, days_before_month_1.
    pose proof (days_before_month_step (myYear x) 12). rewrite days_before_month_13 in *. simpl in *.
    destruct (leapb (myYear x)); lia.
  - rewrite daysInMonth_spec by assumption.
    destruct (myDay x =? month_length (myYear x) (myMonth x)) eqn:E2; bool_hyps.
    + assert (myMonth x < 12).
      { destruct (Z.eq_dec (myMonth x) 12) as [e|]; [|lia]. rewrite e in E2. simpl in E2. lia. }
      destruct (setMonth_ym x (myMonth x + 1)) as [A B].
      replace (Z.max 1 (Z.min 12 (myMonth x + 1))) with (myMonth x + 1) in B by lia.
      pose proof (month_length_bounds (myYear x) (myMonth x + 1)).
      rewrite setDay_exact by (rewrite ?A, ?B; lia). rewrite A, B.
      split; [unfold valid, valid_ymd; simpl; lia|].
      unfold dayno, day_number. simpl. rewrite days_before_month_step by lia. lia.
    + rewrite setDay_exact by lia. split; [unfold valid, valid_ymd; simpl; lia|].
      unfold dayno, day_number. simpl. lia.
Qed.

Lemma stepBackward_spec x : valid x ->
  match stepBackward x with
  | None => dayno x = first_day
  | Some x' => valid x' /\ dayno x' = dayno x - 1
  end.
Proof.
  intros H. pose proof H as (Hy & Hm & Hd). unfold stepBackward.
  destruct (date_eq x (mkDate 1 1 1)) eqn:E.
  { apply date_eq_first in E. subst. exact first_day_spec. }
  assert (N : x <> Date 1 1 1) by (rewrite <- date_eq_first; congruence).
  destruct ((myMonth x =? 1) && (myDay x =? 1)) eqn:E1; bool_hyps.
  - assert (1 < myYear x) by (destruct x as [y m d]; simpl in *; destruct (Z.eq_dec y 1); [subst; congruence|lia]).
    assert (V : valid_ymd (myYear x - 1) 12 31) by (unfold valid_ymd; simpl; lia).
    rewrite set_ymd by (auto; lia). split; [exact V|].
    unfold dayno. simpl. unfold day_number.
    rewrite H0, H1, days_before_month_1. set (y := myYear x - 1) in *.
    replace (myYear x) with (y + 1) by lia. rewrite days_before_year_step.
    pose proof (days_before_month_step y 12). simpl Z.add in *. rewrite days_before_month_13 in *.
    change (month_length y 12) with 31 in *.
    destruct (leapb y); lia.
  - destruct (myDay x =? 1) eqn:E2; bool_hyps.
    + assert (1 < myMonth x) by lia.
      destruct (setMonth_ym x (myMonth x - 1)) as [A B].
      replace (Z.max 1 (Z.min 12 (myMonth x - 1))) with (myMonth x - 1) in B by lia.
      pose proof (month_length_bounds (myYear x) (myMonth x - 1)).
      rewrite daysInMonth_spec by (rewrite ?A, ?B; lia).
      rewrite setDay_exact by (rewrite ?A, ?B; lia). rewrite A, B.
      split; [unfold valid, valid_ymd; simpl; lia|].
      unfold dayno, day_number. simpl.
      pose proof (days_before_month_step (myYear x) (myMonth x - 1)).
      replace (myMonth x - 1 + 1) with (myMonth x) in * by lia. lia.
    + rewrite setDay_exact by lia. split; [unfold valid, valid_ymd; simpl; lia|].
      unfold dayno, day_number. simpl. lia.
Qed.

Lemma loop_forward n x : valid x ->
  valid (loop stepForward n x) /\
  dayno (loop stepForward n x) = Z.min last_day (dayno x + Z.of_nat n).
Proof.
  revert x. induction n as [|n IH]; intros x H.
  - simpl loop. pose proof (dayno_range x H). split; [exact H|lia].
  - simpl loop. pose proof (stepForward_spec x H) as S. destruct (stepForward x) as [x'|].
    + destruct S as [V E]. destruct (IH x' V) as [V' E']. split; [exact V'|]. rewrite E', E. lia.
    + split; [exact H|]. lia.
Qed.

Lemma loop_backward n x : valid x ->
  valid (loop stepBackward n x) /\
  dayno (loop stepBackward n x) = Z.max first_day (dayno x - Z.of_nat n).
Proof.
  revert x. induction n as [|n IH]; intros x H.
  - simpl loop. pose proof (dayno_range x H). split; [exact H|lia].
  - simpl loop. pose proof (stepBackward_spec x H) as S. destruct (stepBackward x) as [x'|].
    + destruct S as [V E]. destruct (IH x' V) as [V' E']. split; [exact V'|]. rewrite E', E. lia.
    + split; [exact H|]. lia.
Qed.

Lemma addDays_spec x n : valid x ->
  valid (addDays x n) /\
  dayno (addDays x n) = Z.max first_day (Z.min last_day (dayno x + n)).
Proof.
  intros H. pose proof (dayno_range x H). unfold addDays.
  destruct (n =? 0) eqn:E; bool_hyps; [split; [exact H|lia]|].
  destruct (0 <? n) eqn:E'; bool_hyps.
  - destruct (loop_forward (Z.to_nat n) x H). split; [assumption|]. lia.
  - destruct (loop_backward (Z.to_nat (- n)) x H). split; [assumption|]. lia.
Qed.

Lemma addDays_inverse x n : valid x -> first_day <= dayno x + n <= last_day -> addDays (addDays x n) (- n) = x.
Proof.
  intros H Hn. destruct (addDays_spec x n H) as [V E]. destruct (addDays_spec (addDays x n) (- n) V) as [V' E'].
  pose proof (dayno_range x H). apply dayno_inj; auto. lia.
Qed.
