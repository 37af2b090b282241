From Verif Require Import Proofs.Tac Model.Base Model.Text Model.Date Spec.Numerals Spec.Calendar Spec.DateText
  Proofs.TextProofs Proofs.DateProofs Proofs.DateProofs2.
Open Scope Z_scope.

Lemma all_digits_repeat k : all_digits (repeat "0"%char k).
Proof. induction k; simpl; constructor; auto. Qed.

Lemma digits_value_zeros k t : digits_value (repeat "0"%char k ++ t) = digits_value t.
Proof.
  rewrite digits_value_app. assert (digits_value (repeat "0"%char k) = 0) as ->; [|lia].
  induction k as [|k IH]; [reflexivity|]. simpl repeat. rewrite digits_value_cons, IH.
  change (digit_of "0") with 0. lia.
Qed.

Lemma print_nat_length v w : (1 <= w)%nat -> 0 <= v < 10 ^ Z.of_nat w -> (List.length (print_nat v) <= w)%nat.
Proof.
  intros Hw Hv. destruct (print_nat_spec v) as (H1 & H2 & H3 & [E|(c & r & E & Hc)]); [lia| |].
  - rewrite E. simpl. lia.
  - rewrite E in *. pose proof (digits_value_lower c r H1 Hc) as L. rewrite H3 in L.
    assert (P : 10 ^ Z.of_nat (List.length r) < 10 ^ Z.of_nat w) by lia.
    apply Z.pow_lt_mono_r_iff in P; [|lia|lia]. simpl. lia.
Qed.

Lemma zeroPad_spec v w : (1 <= w)%nat -> 0 <= v < 10 ^ Z.of_nat w ->
  List.length (zeroPad v w) = w /\ numeral (zeroPad v w) v.
Proof.
  intros Hw Hv. unfold zeroPad, print_int. assert (v <? 0 = false) as -> by lia. cbv zeta.
  pose proof (print_nat_length v w Hw Hv). destruct (print_nat_spec v) as (H1 & H2 & H3 & _); [lia|].
  split.
  - rewrite app_length, repeat_length. lia.
  - apply numeral_iff. split; [intros C; apply app_eq_nil in C; tauto|].
    split; [apply Forall_app; split; [apply all_digits_repeat|exact H1]|].
    rewrite digits_value_zeros. congruence.
Qed.

Lemma read_all ds : all_digits ds -> ds <> [] -> digits_value ds <= int_max ->
  read_int ds = IntOk (digits_value ds) [].
Proof. intros. rewrite <- (app_nil_r ds) at 1. apply read_int_digits; auto. Qed.

Lemma digits_value_bound_len ds w : all_digits ds -> List.length ds = w -> 0 <= digits_value ds < 10 ^ Z.of_nat w.
Proof. intros H <-. apply digits_value_range, H. Qed.

Lemma parsePart_spec t pos len a ds b n :
  t = a ++ ds ++ b -> List.length a = pos -> List.length ds = len -> numeral ds n -> n <= int_max ->
  parsePart t pos len = n.
Proof.
  intros -> <- <- Hn Hm. apply numeral_iff in Hn as (H1 & H2 & ->).
  unfold parsePart. rewrite skipn_app, skipn_all, Nat.sub_diag. cbn [app skipn].
  rewrite firstn_app, firstn_all, Nat.sub_diag. simpl firstn. rewrite app_nil_r.
  rewrite read_all; auto.
Qed.

Lemma format_iff t : isStringFormatValid t = true <-> exists y m d, date_text t y m d.
Proof.
  split.
  - intros H. unfold isStringFormatValid in H.
    do 10 (destruct t as [|? t]; [discriminate|]). destruct t; [|discriminate].
    bool_hyps.
    repeat match goal with H : (_ =? "-")%char = true |- _ => apply Ascii.eqb_eq in H; subst end.
    exists (digits_value [a; a0; a1; a2]), (digits_value [a4; a5]), (digits_value [a7; a8]).
    exists [a; a0; a1; a2], [a4; a5], [a7; a8]. repeat split; try discriminate;
      apply numeral_tail_iff; (split; [repeat constructor; assumption|reflexivity]).
  - intros (y & m & d & a & b & c & -> & Ha & Hb & Hc & Na & Nb & Nc).
    apply numeral_iff in Na as (_ & Na & _), Nb as (_ & Nb & _), Nc as (_ & Nc & _).
    do 4 (destruct a as [|? a]; [discriminate|]). destruct a; [|discriminate].
    do 2 (destruct b as [|? b]; [discriminate|]). destruct b; [|discriminate].
    do 2 (destruct c as [|? c]; [discriminate|]). destruct c; [|discriminate].
    simpl. repeat match goal with H : all_digits (_ :: _) |- _ => inversion H; clear H; subst
                               | H : Forall _ (_ :: _) |- _ => inversion H; clear H; subst end.
    repeat match goal with H : is_digit _ = true |- _ => rewrite H; clear H end. reflexivity.
Qed.

Lemma date_text_bounds t y m d : date_text t y m d -> 0 <= y <= 9999 /\ 0 <= m <= 99 /\ 0 <= d <= 99.
Proof.
  intros (a & b & c & -> & Ha & Hb & Hc & Na & Nb & Nc).
  apply numeral_iff in Na as (_ & Na & ->), Nb as (_ & Nb & ->), Nc as (_ & Nc & ->).
  pose proof (digits_value_bound_len _ _ Na Ha). pose proof (digits_value_bound_len _ _ Nb Hb).
  pose proof (digits_value_bound_len _ _ Nc Hc). simpl in *. lia.
Qed.

Lemma date_text_parts t y m d : date_text t y m d ->
  parsePart t 0 4 = y /\ parsePart t 5 2 = m /\ parsePart t 8 2 = d.
Proof.
  intros H. pose proof (date_text_bounds _ _ _ _ H) as B. destruct H as (a & b & c & E & Ha & Hb & Hc & Na & Nb & Nc).
  unfold int_max in *.
  repeat split.
  - apply (parsePart_spec t 0 4 [] a (["-"%char] ++ b ++ ["-"%char] ++ c)); auto. unfold int_max; lia.
  - apply (parsePart_spec t 5 2 (a ++ ["-"%char]) b (["-"%char] ++ c)); auto.
    + rewrite E, <- !app_assoc. reflexivity.
    + rewrite app_length. simpl. lia.
    + unfold int_max; lia.
  - apply (parsePart_spec t 8 2 (a ++ ["-"%char] ++ b ++ ["-"%char]) c []); auto.
    + rewrite E, <- !app_assoc, app_nil_r. reflexivity.
    + rewrite !app_length. simpl. lia.
    + unfold int_max; lia.
Qed.

Lemma parseDate_spec x t : valid x ->
  (forall y m d, date_text t y m d -> valid_ymd y m d -> parseDate x t = (Date y m d, true)) /\
  ((forall y m d, date_text t y m d -> ~ valid_ymd y m d) -> parseDate x t = (x, false)).
Proof.
  intros Hx. split.
  - intros y m d H V. unfold parseDate.
    assert (F : isStringFormatValid t = true) by (apply format_iff; eauto).
    rewrite F. destruct (date_text_parts _ _ _ _ H) as (-> & -> & ->).
    pose proof V as (Vy & Vm & Vd). pose proof (month_length_bounds y m).
    assert (((1 <=? y) && (y <=? 9999)) && ((1 <=? m) && (m <=? 12)) && ((1 <=? d) && (d <=? 31)) = true) as -> by lia.
    rewrite daysInMonth_spec by lia. assert (d <=? month_length y m = true) as -> by lia.
    destruct (setValue_spec x y m d Hx) as [S _]. rewrite (S V). reflexivity.
  - intros H. unfold parseDate. destruct (isStringFormatValid t) eqn:F; [|reflexivity].
    apply format_iff in F as (y & m & d & F). destruct (date_text_parts _ _ _ _ F) as (-> & -> & ->).
    specialize (H y m d F).
    destruct (((1 <=? y) && (y <=? 9999)) && ((1 <=? m) && (m <=? 12)) && ((1 <=? d) && (d <=? 31))) eqn:C; [|reflexivity].
    bool_hyps. rewrite daysInMonth_spec by lia.
    destruct (d <=? month_length y m) eqn:D; [|reflexivity]. bool_hyps. exfalso. apply H. unfold valid_ymd. lia.
Qed.

Lemma parseDate_valid x t : valid x -> valid (fst (parseDate x t)).
Proof.
  intros H. unfold parseDate. case_if; [|exact H]. case_if; [|exact H]. case_if; [|exact H].
  simpl. unfold setValue. case_if; [|exact H]. apply isDateValid_spec in E2.
  simpl. rewrite set_ymd; [exact E2|apply H|exact E2].
Qed.

Lemma printDate_text x : valid x -> date_text (printDate x) (myYear x) (myMonth x) (myDay x).
Proof.
  intros (Hy & Hm & Hd). pose proof (month_length_bounds (myYear x) (myMonth x)).
  destruct (zeroPad_spec (myYear x) 4) as [L1 N1]; [lia|simpl; lia|].
  destruct (zeroPad_spec (myMonth x) 2) as [L2 N2]; [lia|simpl; lia|].
  destruct (zeroPad_spec (myDay x) 2) as [L3 N3]; [lia|simpl; lia|].
  unfold printDate. do 3 eexists. repeat split; eauto; try apply N1; try apply N2; try apply N3.
Qed.

Lemma print_parse x0 x : valid x0 -> valid x -> parseDate x0 (printDate x) = (x, true).
Proof.
  intros H0 H. destruct (parseDate_spec x0 (printDate x) H0) as [S _].
  rewrite (S _ _ _ (printDate_text x H) H). rewrite <- valid_eta. reflexivity.
Qed.

Lemma date_text_unique t t' y m d : date_text t y m d -> date_text t' y m d -> t = t'.
Proof.
  intros (a & b & c & -> & Ha & Hb & Hc & Na & Nb & Nc) (a' & b' & c' & -> & Ha' & Hb' & Hc' & Na' & Nb' & Nc').
  apply numeral_iff in Na as (_ & Na & Ea), Nb as (_ & Nb & Eb), Nc as (_ & Nc & Ec),
    Na' as (_ & Na' & Ea'), Nb' as (_ & Nb' & Eb'), Nc' as (_ & Nc' & Ec').
  rewrite (same_length_digits a a'), (same_length_digits b b'), (same_length_digits c c'); auto; congruence.
Qed.

Lemma parse_print x0 t : valid x0 -> snd (parseDate x0 t) = true -> printDate (fst (parseDate x0 t)) = t.
Proof.
  intros H0 H. destruct (isStringFormatValid t) eqn:F.
  - apply format_iff in F as (y & m & d & F).
    destruct (isDateValid y m d) eqn:V.
    + apply isDateValid_spec in V. destruct (parseDate_spec x0 t H0) as [S _].
      rewrite (S _ _ _ F V). simpl. apply (date_text_unique _ _ y m d); [|exact F].
      apply (printDate_text (Date y m d) V).
    + exfalso. destruct (parseDate_spec x0 t H0) as [_ S].
      assert (N : forall y' m' d', date_text t y' m' d' -> ~ valid_ymd y' m' d').
      { intros y' m' d' F' V'. apply date_text_parts in F, F'. destruct F as (<- & <- & <-), F' as (<- & <- & <-).
        apply isDateValid_spec in V'. congruence. }
      rewrite (S N) in H. discriminate.
  - unfold parseDate in H. rewrite F in H. discriminate.
Qed.

(** ** All histories *)

Lemma date_step_valid x o x' : valid x -> date_step x o = Ok x' -> valid x'.
Proof.
  intros H E. destruct o; simpl in E; try (injection E as <-).
  - apply setYear_valid, H.
  - apply setMonth_valid, H.
  - apply setDay_valid; apply H.
  - unfold setValue. case_if; [|exact H]. apply isDateValid_spec in E. simpl.
    rewrite set_ymd; [exact E|apply H|exact E].
  - apply parseDate_valid, H.
  - apply addDays_spec, H.
  - destruct (n =? int_min) eqn:En; bool_hyps.
    { unfold addMonths in E. rewrite En in E. discriminate. }
    revert E. unfold addMonths. assert (n =? int_min = false) as -> by lia.
    destruct (if n <? 0 then (-1, - n) else (1, n)) as [dir months]. cbv zeta.
    match goal with |- context [if ?b =? 0 then ?A else ?B] => destruct (if b =? 0 then A else B) as [ny x2] eqn:Ex end.
    assert (V2 : 1 <= myMonth x2 <= 12 /\ 1 <= myYear x2 <= 9999).
    { repeat match type of Ex with (if ?b then _ else _) = _ => destruct b end; injection Ex as <- <-;
       match goal with |- context [setMonth x ?v] => destruct (setMonth_ym x v) as [A B] end; rewrite A, B;
       (split; [lia|apply H]). }
    intros E. injection E as <-.
    match goal with |- context [if 0 <? ?b then ?A else ?B] => set (x3 := if 0 <? b then A else B) end.
    assert (V3 : valid x3).
    { subst x3. case_if; apply setDay_valid; apply setYear_valid, V2. }
    case_if; [apply setDay_valid; apply setMonth_valid; apply setYear_valid, V3|].
    case_if; [apply setDay_valid; apply setMonth_valid; apply setYear_valid, V3|].
    apply setYear_valid, V3.
  - revert E. unfold addYears. case_if; [discriminate|]. cbv zeta. intros E'. injection E' as <-.
    apply setYear_valid. case_if; [|apply H]. apply setMonth_valid. apply H.
  - apply addDays_spec, H.
  - apply addDays_spec, H.
  - apply mkDate_valid.
  - apply parseDate_valid. unfold valid, valid_ymd. simpl. lia.
Qed.

Lemma run_date_valid os x x' : valid x -> run_date x os = Ok x' -> valid x'.
Proof.
  unfold run_date. revert x. induction os as [|o os IH]; intros x H E; simpl in E.
  - injection E as <-. exact H.
  - destruct (date_step x o) as [x1| |] eqn:E1.
    + apply (IH x1); [|exact E]. eapply date_step_valid; eauto.
    + exfalso. clear - E. induction os; simpl in E; [discriminate|auto].
    + exfalso. clear - E. induction os; simpl in E; [discriminate|auto].
Qed.

(** Only the two documented overflows are undefined. *)
Lemma run_date_defined os x :
  valid x ->
  Forall (fun o => match o with
                   | DAddMonths n => int_min < n <= int_max
                   | DAddYears n => int_min + 9999 <= n <= int_max - 9999
                   | _ => True end) os ->
  exists x', run_date x os = Ok x'.
Proof.
  unfold run_date. revert x. induction os as [|o os IH]; intros x H F; simpl.
  - eauto.
  - inversion F as [|? ? F1 F2]; subst.
    assert (S : exists x1, date_step x o = Ok x1).
    { destruct o; simpl; eauto.
      - rewrite addMonths_spec by assumption. eauto.
      - rewrite addYears_spec; eauto. destruct H as (Hy & _). unfold in_int, int_min, int_max in *. lia. }
    destruct S as [x1 E]. rewrite E. apply IH; [|exact F2]. eapply date_step_valid; eauto.
Qed.

Lemma date_strict_total :
  (forall a, date_lt a a = false) /\
  (forall a b c, valid a -> valid b -> valid c -> date_lt a b = true -> date_lt b c = true -> date_lt a c = true) /\
  (forall a b, valid a -> valid b -> date_lt a b = true \/ a = b \/ date_lt b a = true) /\
  (forall a b, valid a -> valid b -> date_lt a b = negb (date_ge a b) /\ date_gt a b = date_lt b a).
Proof.
  repeat split.
  - intros a. unfold date_lt. assert (compareDate a a = 0) as -> by (apply compare_zero; reflexivity). reflexivity.
  - intros a b c Ha Hb Hc. unfold date_lt. rewrite !compare_spec by assumption. lia.
  - intros a b Ha Hb.
    destruct (Z.lt_trichotomy (dayno a) (dayno b)) as [L|[L|L]].
    + left. unfold date_lt. rewrite compare_spec by assumption. lia.
    + right; left. apply dayno_inj; assumption.
    + right; right. unfold date_lt. rewrite compare_spec by assumption. lia.
  - unfold date_lt, date_ge. lia.
  - unfold date_gt, date_lt. rewrite !compare_spec by assumption. lia.
Qed.

Lemma weekday_next x : valid x -> x <> Date 9999 12 31 ->
  getWeekday (addDays x 1) = getWeekday x mod 7 + 1.
Proof.
  intros H N. destruct (addDays_spec x 1 H) as [V E].
  rewrite !weekday_spec by assumption. rewrite E. pose proof (dayno_range x H).
  assert (dayno x <> last_day).
  { intros C. apply N. apply dayno_inj; [exact H|apply valid_last|]. rewrite C. symmetry. exact last_day_spec. }
  replace (Z.max first_day (Z.min last_day (dayno x + 1))) with (dayno x + 1) by (unfold first_day, last_day in *; lia).
  dm.
Qed.

Lemma setters_spec x v : valid x ->
  setYear x v = (let y' := Z.max 1 (Z.min 9999 v) in Date y' (myMonth x) (Z.min (myDay x) (month_length y' (myMonth x)))) /\
  setMonth x v = (let m' := Z.max 1 (Z.min 12 v) in Date (myYear x) m' (Z.min (myDay x) (month_length (myYear x) m'))) /\
  setDay x v = Date (myYear x) (myMonth x) (Z.max 1 (Z.min (month_length (myYear x) (myMonth x)) v)).
Proof.
  intros (Hy & Hm & Hd). unfold setYear, setMonth, setDay. simpl.
  rewrite !(constrain_spec v) by (try lia; rewrite daysInMonth_spec by assumption; pose proof (month_length_bounds (myYear x) (myMonth x)); lia).
  rewrite !daysInMonth_spec by lia.
  rewrite !constrain_spec; try (pose proof (month_length_bounds (Z.max 1 (Z.min 9999 v)) (myMonth x)); pose proof (month_length_bounds (myYear x) (Z.max 1 (Z.min 12 v))); lia).
  repeat split; f_equal; 
  pose proof (month_length_bounds (Z.max 1 (Z.min 9999 v)) (myMonth x)); pose proof (month_length_bounds (myYear x) (Z.max 1 (Z.min 12 v))); lia.
Qed.
