From Verif Require Import Proofs.Tac Model.Base Model.Text Model.Date Spec.Numerals Spec.Calendar Spec.DateText Proofs.TextProofs Proofs.DateProofs.
Open Scope Z_scope.

(** ** addYears *)

Lemma addYears_spec x n : valid x -> in_int (myYear x + n) = true ->
  let y' := Z.max 1 (Z.min 9999 (myYear x + n)) in
  addYears x n = Ok (if (myMonth x =? 2) && (myDay x =? 29) && negb (leapb y')
                     then Date y' 3 1 else Date y' (myMonth x) (myDay x)).
Proof.
  intros H Hi y'. pose proof H as (Hy & Hm & Hd). unfold addYears. rewrite Hi.
  unfold negb at 1. cbv zeta.
  assert (L : isLeapYear (myYear x + n) = leapb y').
  { destruct (Z_le_gt_dec 1 (myYear x + n)), (Z_le_gt_dec (myYear x + n) 9999).
    - rewrite isLeapYear_spec by lia. f_equal. unfold y'. lia.
    - rewrite isLeapYear_out by lia. unfold y'. replace (Z.max 1 _) with 9999 by lia. reflexivity.
    - rewrite isLeapYear_out by lia. unfold y'. replace (Z.max 1 _) with 1 by lia. reflexivity.
    - lia. }
  rewrite L. f_equal.
  destruct ((myMonth x =? 2) && (myDay x =? 29) && negb (leapb y')) eqn:E; bool_hyps.
  - rewrite setDay_exact by (try assumption; pose proof (month_length_bounds (myYear x) (myMonth x)); lia).
    assert (S : setMonth (Date (myYear x) (myMonth x) 1) 3 = Date (myYear x) 3 1).
    { unfold setMonth. rewrite constrain_spec by lia. simpl. apply setDay_exact; simpl; lia. }
    rewrite S. unfold setYear. rewrite constrain_spec by lia. fold y'. simpl.
    apply setDay_exact; simpl; unfold y'; lia.
  - unfold setYear. rewrite constrain_spec by lia. fold y'. simpl.
    rewrite (setDay_exact (Date y' (myMonth x) (myDay x))); simpl; [reflexivity|unfold y'; lia|lia|].
    split; [lia|].
    assert (C : myMonth x = 2 \/ myMonth x <> 2) by lia. destruct C as [C|C].
    + rewrite C in *. simpl in *. destruct (leapb y') eqn:El; [destruct (leapb (myYear x)); lia|].
      rewrite andb_true_r in E. destruct (leapb (myYear x)); lia.
    + assert (G : month_length y' (myMonth x) = month_length (myYear x) (myMonth x)).
      { clear - Hm C. month_cases (myMonth x) Hm; try reflexivity. congruence. }
      rewrite G. lia.
Qed.

(** ** addMonths *)

Lemma valid_eta x : x = Date (myYear x) (myMonth x) (myDay x).
Proof. destruct x; reflexivity. Qed.

Lemma addMonths_spec x n : valid x -> int_min < n <= int_max ->
  let k := 12 * myYear x + (myMonth x - 1) + n in
  let y' := k / 12 in
  let m' := k mod 12 + 1 in
  addMonths x n = Ok (if y' <? 1 then Date 1 1 1
                      else if 9999 <? y' then Date 9999 12 31
                      else Date y' m' (Z.min (myDay x) (month_length y' m'))).
Proof.
  intros H Hn k y' m'. pose proof H as (Hy & Hm & Hd).
  pose proof (month_length_bounds (myYear x) (myMonth x)) as Hb.
  unfold addMonths.
  assert (n =? int_min = false) as -> by lia.
  destruct (if n <? 0 then (-1, - n) else (1, n)) as [dir months] eqn:Ed.
  assert (Q : 0 <= months /\ n = dir * months /\ (dir = 1 \/ dir = -1)).
  { destruct (n <? 0) eqn:En; injection Ed as <- <-; bool_hyps; lia. }
  destruct Q as (Qm & Qn & Qd).
  rewrite Z.quot_div_nonneg, Z.rem_mod_nonneg by lia.
  set (new_month := myMonth x + dir * (months mod 12)).
  set (new_year := myYear x + dir * (months / 12)).
  cbv zeta.
  match goal with |- context [if new_month =? 0 then ?A else ?B] =>
    assert (P : exists x2, (if new_month =? 0 then A else B) = (y', x2) /\ myYear x2 = myYear x /\ myMonth x2 = m') end.
  { assert (Hk : k = 12 * new_year + (new_month - 1)).
    { unfold k, new_year, new_month. rewrite Qn at 1. pose proof (Z.div_mod months 12). nia. }
    assert (Hr : -10 <= new_month <= 23).
    { unfold new_month. pose proof (Z.mod_pos_bound months 12). nia. }
    assert (D : forall y m, k = 12 * y + (m - 1) -> 1 <= m <= 12 -> y' = y /\ m' = m).
    { intros y m E Hm'. unfold y', m'. rewrite E. split; Z.div_mod_to_equations; lia. }
    destruct (new_month =? 0) eqn:E1; bool_hyps.
    - destruct (D (new_year - 1) 12) as [-> ->]; [lia|lia|].
      exists (setMonth x 12). split; [reflexivity|]. destruct (setMonth_ym x 12). split; [assumption|lia].
    - destruct (new_month <? 0) eqn:E2; bool_hyps.
      + destruct (D (new_year - 1) (new_month + 12)) as [-> ->]; [lia|lia|].
        eexists. split; [reflexivity|]. destruct (setMonth_ym x (new_month + 12)). split; [assumption|lia].
      + destruct (12 <? new_month) eqn:E3; bool_hyps.
        * assert (R : Z.rem new_month 12 = new_month - 12)
            by (rewrite Z.rem_mod_nonneg by lia; Z.div_mod_to_equations; lia).
          rewrite R.
          destruct (D (new_year + 1) (new_month - 12)) as [-> ->]; [lia| |].
          { assert (new_month <> 24) by lia. lia. }
          eexists. split; [reflexivity|]. destruct (setMonth_ym x (new_month - 12)). split; [assumption|lia].
        * destruct (D new_year new_month) as [-> ->]; [lia|lia|].
          eexists. split; [reflexivity|]. destruct (setMonth_ym x new_month). split; [assumption|lia]. }
  destruct P as (x2 & -> & Hx2y & Hx2m).
  assert (Hm' : 1 <= m' <= 12) by (unfold m'; pose proof (Z.mod_pos_bound k 12); lia).
  f_equal. rewrite Hx2m.
  match goal with |- context [setYear (if 0 <? ?dd then ?A else ?B) y'] =>
    set (x3 := if 0 <? dd then A else B) end.
  assert (V3 : myMonth x3 = m').
  { unfold x3. case_if; simpl; unfold setYear, setDay; simpl; exact Hx2m. }
  destruct (y' <? 1) eqn:E1; bool_hyps.
  { apply set_ymd; [lia|]. unfold valid_ymd. simpl. lia. }
  destruct (9999 <? y') eqn:E2; bool_hyps.
  { apply set_ymd; [lia|]. unfold valid_ymd. simpl. lia. }
  assert (DM : daysInMonth m' y' = month_length y' m') by (apply daysInMonth_spec; lia).
  pose proof (month_length_bounds y' m') as Hb'.
  destruct (setYear_ym x2 y') as [Y1 Y2]. rewrite Hx2m in Y2.
  replace (Z.max 1 (Z.min 9999 y')) with y' in Y1 by lia.
  assert (E3 : x3 = Date y' m' (Z.min (myDay x) (month_length y' m'))).
  { subst x3. rewrite DM. case_if; bool_hyps.
    - rewrite Y1, Y2. rewrite daysInMonth_spec by lia.
      rewrite setDay_exact by (rewrite ?Y1, ?Y2; lia). rewrite Y1, Y2. f_equal. lia.
    - rewrite setDay_exact by (rewrite ?Y1, ?Y2; lia). rewrite Y1, Y2. f_equal. lia. }
  rewrite E3. unfold setYear. rewrite constrain_spec by lia.
  replace (Z.max 1 (Z.min 9999 y')) with y' by lia. simpl.
  apply setDay_exact; simpl; lia.
Qed.

(** ** Weekday *)

Lemma weekday_spec x : valid x -> getWeekday x = dayno x mod 7 + 1.
Proof.
  intros (Hy & Hm & Hd). unfold getWeekday, dayno, day_number, days_before_year.
  pose proof (month_length_bounds (myYear x) (myMonth x)) as Hb.
  assert (G : forall h n, 0 <= h -> h mod 7 = (n + 1) mod 7 ->
             (if Z.rem h 7 =? 0 then 7 else Z.rem h 7) = n mod 7 + 1).
  { intros h n Hh E. rewrite Z.rem_mod_nonneg by lia. rewrite E.
    destruct ((n + 1) mod 7 =? 0) eqn:E0; bool_hyps; Z.div_mod_to_equations; lia. }
  set (y := myYear x) in *. set (d := myDay x) in *.
  assert (F : exists M Y c, (1 <= M) /\ 0 <= Y <= 9999 /\
     ((M, Y) = if (let '(month, year) := if myMonth x =? 1 then (13, y - 1) else (myMonth x, y) in month) =? 2
              then (14, y - 1) else (let '(month, year) := if myMonth x =? 1 then (13, y - 1) else (myMonth x, y) in (month, year))) /\
     Z.quot (13 * (M + 1)) 5 = c /\ 0 <= c /\
     365 * (y - 1) + (y - 1) / 4 - (y - 1) / 100 + (y - 1) / 400 + days_before_month y (myMonth x) =
     365 * Y + Y / 4 - Y / 100 + Y / 400 + days_before_month y (myMonth x) - (if 2 <? myMonth x then 365 + (if leapb y then 1 else 0) else 0) /\
     (c - (days_before_month y (myMonth x) - (if 2 <? myMonth x then 365 + (if leapb y then 1 else 0) else 0)) - 1) mod 7 = 0).
  { pose proof (days_before_year_step y) as S. unfold days_before_year in S.
    replace (y + 1 - 1) with y in S by lia.
    assert (C1 : myMonth x <= 2 \/ 2 < myMonth x) by lia. destruct C1 as [C1|C1].
    - assert (C2 : myMonth x = 1 \/ myMonth x = 2) by lia.
      destruct C2 as [C2|C2]; rewrite C2.
      + exists 13, (y - 1), 36. repeat split; try lia; try reflexivity; change (2 <? 1) with false; change (2 <? 2) with false; cbv iota; lia.
      + exists 14, (y - 1), 39. repeat split; try lia; try reflexivity; change (2 <? 1) with false; change (2 <? 2) with false; cbv iota; lia.
    - exists (myMonth x), y, (Z.quot (13 * (myMonth x + 1)) 5).
      assert (C3 : myMonth x = 3 \/ myMonth x = 4 \/ myMonth x = 5 \/ myMonth x = 6 \/ myMonth x = 7 \/ myMonth x = 8
                   \/ myMonth x = 9 \/ myMonth x = 10 \/ myMonth x = 11 \/ myMonth x = 12) by lia.
      assert (2 <? myMonth x = true) as -> by lia.
      split; [lia|]. split; [lia|].
      split. { assert (myMonth x =? 1 = false) as -> by lia. assert (myMonth x =? 2 = false) as -> by lia. reflexivity. }
      split; [reflexivity|]. 
      split. { apply Z.quot_pos; lia. }
      split. { destruct (leapb y); lia. }
      unfold days_before_month.
      repeat (destruct C3 as [C3|C3]); rewrite C3; simpl; destruct (leapb y); reflexivity. }
  destruct F as (M & Y & c & HM & HY & EMY & Ec & Hc & E1 & E2).
  assert (Let : (let '(month, year) := if myMonth x =? 1 then (13, y - 1) else (myMonth x, y) in
           let '(month0, year0) := if month =? 2 then (14, year - 1) else (month, year) in (month0, year0)) = (M, Y)).
  { destruct (myMonth x =? 1); simpl in *; [congruence|].
    destruct (myMonth x =? 2); simpl in *; congruence. }
  destruct (if myMonth x =? 1 then (13, y - 1) else (myMonth x, y)) as [mm yy].
  destruct (if mm =? 2 then (14, yy - 1) else (mm, yy)) as [mm' yy'].
  injection Let as -> ->. rewrite Ec.
  rewrite (Z.rem_mod_nonneg Y 100), (Z.quot_div_nonneg Y 100) by lia.
  pose proof (Z.mod_pos_bound Y 100). pose proof (Z.div_pos Y 100).
  rewrite (Z.quot_div_nonneg (Y mod 100) 4), (Z.quot_div_nonneg (Y / 100) 4) by lia.
  apply G.
  { pose proof (Z.div_pos (Y mod 100) 4). pose proof (Z.div_pos (Y / 100) 4). lia. }
  rewrite E1. set (D := days_before_month y (myMonth x) - _) in *.
  replace (365 * Y + Y / 4 - Y / 100 + Y / 400 + days_before_month y (myMonth x) - _ + d + 1)
    with (365 * Y + Y / 4 - Y / 100 + Y / 400 + D + d + 1) by (unfold D; lia).
  clear - HY Hd E2 Hc.
  assert (T : exists t, c = D + 1 + 7 * t).
  { exists ((c - D - 1) / 7). pose proof (Z.div_mod (c - D - 1) 7). lia. }
  destruct T as [t ->].
  assert (Z4 : Y / 4 = 25 * (Y / 100) + Y mod 100 / 4).
  { pose proof (Z.div_mod Y 100). replace Y with ((25 * (Y / 100)) * 4 + Y mod 100) at 1 by lia.
    rewrite Z.div_add_l by lia. reflexivity. }
  assert (Z400 : Y / 400 = Y / 100 / 4) by (rewrite Z.div_div by lia; reflexivity).
  rewrite Z4, Z400. pose proof (Z.div_mod Y 100).
  set (K := Y mod 100) in *. set (J := Y / 100) in *.
  replace (365 * Y + (25 * J + K / 4) - J + J / 4 + D + d + 1)
    with (d + (D + 1 + 7 * t) + K + K / 4 + J / 4 + 5 * J + (5217 * J + 52 * K - t) * 7) by lia.
  rewrite Z_mod_plus_full. reflexivity.
Qed.
