From Coq Require Import List Ascii String ZArith QArith Qround Qabs Qpower Bool Lia Lqa.
From Verif Require Import Model.Base Model.Text Model.LongDouble Model.Decimals
  Spec.Numerals Spec.DecimalText Proofs.Tac Proofs.TextProofs Proofs.LongDoubleProofs Proofs.DecimalsProofs
  Proofs.DecimalsText Proofs.DecimalsStore.
Import ListNotations.
Open Scope Q_scope.

(** ** Clamping *)

Lemma low_lower d : low d = match lower_end d with
  | None => LowNone
  | Some b => if (b =? 0)%Z && (match d with NonNegativeDecimal | Percent => false | _ => true end) then LowExcl b else LowIncl b end.
Proof. destruct d; reflexivity. Qed.

Lemma high_upper d : high d = match upper_end d with None => HighNone | Some b => HighIncl b end.
Proof. destruct d; reflexivity. Qed.

Lemma exclusive_low d : exclusive d <-> low d = LowExcl 0.
Proof.
  unfold exclusive. cbn [In]. destruct d; cbn [low]; split; intros H; try reflexivity; try discriminate;
    try tauto; destruct H as [H | [H | [H | []]]]; discriminate.
Qed.

Lemma nonzero_value : NON_ZERO_AMOUNT * E6 - 1 < 1 # 10000 /\ -(1 # 10000) < NON_ZERO_AMOUNT * E6 - 1 /\ 0 < NON_ZERO_AMOUNT.
Proof. vm_compute. auto. Qed.

Lemma clamp_excl_value : forall b, b = 0%Z -> ld (inject_Z b + NON_ZERO_AMOUNT) == NON_ZERO_AMOUNT.
Proof. intros b ->. vm_compute. reflexivity. Qed.

Local Opaque ld NON_ZERO_AMOUNT.

Lemma is_ld_eq x y : x == y -> is_ld x -> is_ld y.
Proof. intros E (m & e & A & B). exists m, e. split; [exact A | rewrite <- E; exact B]. Qed.

Lemma clamp_is_ld d v : is_ld v -> is_ld (clamp d v).
Proof.
  intros H. unfold clamp, min_clamp, max_clamp.
  assert (Hz : forall b, (Z.abs b < 2 ^ 64)%Z -> is_ld (inject_Z b)) by apply is_ld_Z.
  destruct d; cbn [low high];
    repeat match goal with |- context [if ?b then _ else _] => destruct b end;
    match goal with
    | |- is_ld v => exact H
    | |- is_ld (inject_Z _) => apply Hz; reflexivity
    | |- is_ld (ld _) => apply ld_is_ld
    end.
Qed.

Lemma Qle_bool_false a b : Qle_bool a b = false -> b < a.
Proof. intros H. apply Qnot_le_lt. rewrite <- Qle_bool_iff. congruence. Qed.

(** The clamped value lies in the documented range. *)
Lemma clamp_documented d v : documented d (clamp d v).
Proof.
  unfold clamp, min_clamp, max_clamp.
  pose proof nonzero_value as (_ & _ & NZ). pose proof (clamp_excl_value 0 eq_refl) as CE.
  destruct d; cbn [low high documented]; try exact I;
    repeat match goal with |- context [if ?b then _ else _] => let E := fresh "E" in destruct b eqn:E end;
    repeat match goal with
           | H : Qle_bool _ _ = true |- _ => apply Qle_bool_iff in H
           | H : Qle_bool _ _ = false |- _ => apply Qle_bool_false in H
           end;
    change (inject_Z 0) with 0 in *; change (inject_Z 100) with 100 in *; change (inject_Z 2) with 2 in *;
    change (inject_Z 180) with 180 in *; change (inject_Z (-180)) with (-180) in *; try lra.
Qed.

(** In range, clamping changes nothing. *)
Lemma clamp_id d v : documented d v -> clamp d v = v.
Proof.
  intros H. unfold clamp.
  assert (Hh : max_clamp (high d) v = v).
  { destruct d; cbn [high max_clamp documented] in *; try reflexivity;
      match goal with |- (if ?b then _ else _) = _ => assert (b = true) as ->; [apply Qle_bool_iff, H | reflexivity] end. }
  rewrite Hh. destruct d; cbn [low min_clamp documented] in *; try reflexivity.
  - assert (Qle_bool (inject_Z 0) v = true) as -> by (apply Qle_bool_iff, H). reflexivity.
  - assert (Qle_bool (inject_Z 0) v = true) as -> by (apply Qle_bool_iff, H). reflexivity.
  - destruct (Qle_bool v (inject_Z 0)) eqn:E; [apply Qle_bool_iff in E; change (inject_Z 0) with 0 in E; lra | reflexivity].
  - destruct (Qle_bool v (inject_Z 0)) eqn:E; [apply Qle_bool_iff in E; change (inject_Z 0) with 0 in E; lra | reflexivity].
  - destruct (Qle_bool v (inject_Z 0)) eqn:E; [apply Qle_bool_iff in E; change (inject_Z 0) with 0 in E; lra | reflexivity].
  - assert (Qle_bool (inject_Z (-180)) v = true) as -> by (apply Qle_bool_iff, H). reflexivity.
  - assert (Qle_bool (inject_Z 2) v = true) as -> by (apply Qle_bool_iff, H). reflexivity.
Qed.

(** ** What a decimal holds after a value was set *)

Lemma holding_wf neg K : (0 <= K < 10 ^ 25)%Z -> well_formed (holding neg K).
Proof.
  intros H. unfold well_formed, holding. cbn [p_int_digits p_dec_digits p_integer p_decimal].
  pose proof (Z.mod_pos_bound K (10 ^ 6)). split; [reflexivity | ]. split; [reflexivity | ].
  split; [ | lia]. split; [apply Z.div_pos; lia | ]. apply Z.div_lt_upper_bound; [lia | ].
  change (10 ^ 6 * 10 ^ 19)%Z with (10 ^ 25)%Z. lia.
Qed.

Lemma ld_big_int a : is_ld a -> inject_Z (2 ^ 63) <= a -> exists n, a == inject_Z n.
Proof.
  intros Fa H. assert (Pa : 0 < a) by (assert (0 < inject_Z (2 ^ 63)) by reflexivity; lra).
  destruct (fits_pos 64 a ltac:(lia) Fa Pa) as (m & e & Hm & E).
  assert (He : (0 <= e)%Z).
  { assert (X : pow2 63 < pow2 (64 + e)).
    { rewrite pow2_add, (pow2_nonneg 64), (pow2_nonneg 63) by lia. pose proof (pow2_pos e).
      assert (inject_Z m < inject_Z (2 ^ 64)) by (rewrite <- Zlt_Qlt; lia). nra. }
    apply pow2_lt_inv in X. lia. }
  exists (m * 2 ^ e)%Z. rewrite E, pow2_nonneg, inject_Z_mult by exact He. reflexivity.
Qed.

Lemma set_cases p v r : digits_ok p -> is_ld v -> p_setValue p v = Ok r ->
  well_formed r /\
  ((Qabs v < inject_Z (10 ^ 19) /\ Qabs (inject_Z (units r) - v * E6) < 5000002 # 10000000 /\
    (p_negative r = true <-> v < 0)) \/
   (inject_Z (10 ^ 19) <= Qabs v /\ Qabs v < inject_Z (2 ^ 64) /\
    units r = (if Qle_bool 0 v then top else - top)%Z)).
Proof.
  intros D F H.
  destruct (Qlt_le_dec (Qabs v) (inject_Z (2 ^ 64))) as [Hv | Hv];
    [ | rewrite p_setValue_UB in H by exact Hv; discriminate].
  destruct (Qlt_le_dec (Qabs v) (inject_Z (10 ^ 19))) as [Hs | Hl].
  - destruct (set_small p v D Hs) as (K & K0 & K1 & K2). destruct (set_small_units p v D Hs) as (r' & R1 & R2 & R3 & R4).
    rewrite H in R1. injection R1 as <-. split; [ | left; auto].
    rewrite K2 in H. injection H as <-. apply holding_wf. split; [exact K0 | ].
    assert (Fa : is_ld (Qabs v)).
    { destruct (abs_cases v) as [[S E] | [S E]].
      - apply (is_ld_eq (- v)); [rewrite E; reflexivity | apply (fits_opp 64), F].
      - apply (is_ld_eq v); [rewrite E; reflexivity | exact F]. }
    apply Qabs_Qlt_condition in K1.
    destruct (Qlt_le_dec (Qabs v) (inject_Z (2 ^ 63))) as [H63 | H63].
    + assert (X : inject_Z (2 ^ 63) == 9223372036854775808) by reflexivity.
      rewrite Zlt_Qlt. assert (Y : inject_Z (10 ^ 25) == 10000000000000000000000000) by reflexivity. lra.
    + destruct (ld_big_int _ Fa H63) as (n & En).
      assert (Hn : (n <= 10 ^ 19 - 1)%Z).
      { apply Z.lt_succ_r. replace (Z.succ (10 ^ 19 - 1)) with (10 ^ 19)%Z by lia. rewrite Zlt_Qlt, <- En. exact Hs. }
      assert (Hnq : inject_Z n <= 9999999999999999999) by (change 9999999999999999999 with (inject_Z (10 ^ 19 - 1)); rewrite <- Zle_Qle; exact Hn).
      rewrite Zlt_Qlt. assert (Y : inject_Z (10 ^ 25) == 10000000000000000000000000) by reflexivity. lra.
  - rewrite (set_large p v D Hl Hv) in H. injection H as <-. split; [apply holding_wf; unfold top; lia | ].
    right. split; [exact Hl | ]. split; [exact Hv | ]. rewrite units_holding.
    destruct (Qle_bool 0 v); reflexivity.
Qed.

(** A whole lower or upper bound of the value is one of the stored number. *)
Lemma units_ge p v r b : digits_ok p -> is_ld v -> p_setValue p v = Ok r ->
  (Z.abs b < 10 ^ 18)%Z -> inject_Z b <= v -> (b * 10 ^ 6 <= units r)%Z.
Proof.
  intros D F H Hb Hv. destruct (set_cases p v r D F H) as (_ & [(A & B & _) | (A & B & C)]).
  - apply Qabs_Qlt_condition in B. apply Z.lt_succ_r. rewrite Zlt_Qlt. unfold Z.succ.
    rewrite inject_Z_plus, inject_Z_mult. change (inject_Z 1) with 1. change (inject_Z (10 ^ 6)) with 1000000. lra.
  - rewrite C. destruct (Qle_bool 0 v) eqn:E; [unfold top; lia | ].
    apply Qle_bool_false in E. rewrite Qabs_neg in A by lra. exfalso.
    assert (- inject_Z (10 ^ 18) < inject_Z b) by (rewrite <- inject_Z_opp, <- Zlt_Qlt; lia).
    assert (inject_Z (10 ^ 18) == 1000000000000000000) by reflexivity.
    assert (inject_Z (10 ^ 19) == 10000000000000000000) by reflexivity. lra.
Qed.

Lemma units_le p v r b : digits_ok p -> is_ld v -> p_setValue p v = Ok r ->
  (Z.abs b < 10 ^ 18)%Z -> v <= inject_Z b -> (units r <= b * 10 ^ 6)%Z.
Proof.
  intros D F H Hb Hv. destruct (set_cases p v r D F H) as (_ & [(A & B & _) | (A & B & C)]).
  - apply Qabs_Qlt_condition in B. apply Z.lt_succ_r. rewrite Zlt_Qlt. unfold Z.succ.
    rewrite inject_Z_plus, inject_Z_mult. change (inject_Z 1) with 1. change (inject_Z (10 ^ 6)) with 1000000. lra.
  - rewrite C. destruct (Qle_bool 0 v) eqn:E; [ | unfold top; lia].
    apply Qle_bool_iff in E. rewrite Qabs_pos in A by lra. exfalso.
    assert (inject_Z b < inject_Z (10 ^ 18)) by (rewrite <- Zlt_Qlt; lia).
    assert (inject_Z (10 ^ 18) == 1000000000000000000) by reflexivity.
    assert (inject_Z (10 ^ 19) == 10000000000000000000) by reflexivity. lra.
Qed.

Lemma amount_units r : p_dec_digits r = 6%Z -> amount r * 1000000 == inject_Z (units r).
Proof. intros E. unfold amount. rewrite E. change (inject_Z (10 ^ 6)) with (1000000 # 1). field. Qed.

Lemma amount_ge r b : p_dec_digits r = 6%Z -> (b * 10 ^ 6 <= units r)%Z -> inject_Z b <= amount r.
Proof.
  intros E H. pose proof (amount_units r E). rewrite Zle_Qle, inject_Z_mult in H.
  change (inject_Z (10 ^ 6)) with 1000000 in H. lra.
Qed.

Lemma amount_le r b : p_dec_digits r = 6%Z -> (units r <= b * 10 ^ 6)%Z -> amount r <= inject_Z b.
Proof.
  intros E H. pose proof (amount_units r E). rewrite Zle_Qle, inject_Z_mult in H.
  change (inject_Z (10 ^ 6)) with 1000000 in H. lra.
Qed.

Lemma wf_digits r : well_formed r -> digits_ok r.
Proof. intros (A & B & _). split; assumption. Qed.

Lemma wf_dec r : well_formed r -> p_dec_digits r = 6%Z.
Proof. intros (_ & A & _). exact A. Qed.

(** ** Reachable decimals come from one setValue *)

Lemma read_decimal_ld t v rest : read_decimal t = Some (v, rest) -> is_ld v.
Proof.
  unfold read_decimal. destruct (scan_decimal t) as [[x r] | ]; [ | discriminate].
  destruct (Qle_bool (pow2 16384) (Qabs (ld x))); [discriminate | ]. intros H.
  assert (v = ld x) by congruence. subst. apply ld_is_ld.
Qed.

Definition set_once (d : decimal_type) (p : precise) : Prop :=
  exists p0 v, digits_ok p0 /\ is_ld v /\ p_setValue p0 (clamp d v) = Ok p.

Lemma set_once_wf d p : set_once d p -> well_formed p.
Proof.
  intros (p0 & v & D & F & H). destruct (set_cases p0 (clamp d v) p D (clamp_is_ld d v F) H) as [W _]. exact W.
Qed.

Lemma construct_once d v p : is_ld v -> construct d v = Ok p -> set_once d p.
Proof.
  intros F H. unfold construct, new_precise in H. eexists _, v. split; [ | split; [exact F | exact H]].
  split; reflexivity.
Qed.

Lemma run_call_once d p c p' : digits_ok p -> given c -> run_call d p c = Ok p' -> p' = p \/ set_once d p'.
Proof.
  intros D G H. destruct c as [v | t]; cbn [run_call] in H.
  - right. exists p, v. auto.
  - unfold parse in H. destruct (read_decimal t) as [[v rest] | ] eqn:R.
    + destruct (skip_ws rest).
      * right. unfold setValue in H. destruct (p_setValue p (clamp d v)) as [x | | ] eqn:E; cbn in H; try discriminate.
        injection H as <-. exists p, v. repeat split; try apply D; [eapply read_decimal_ld, R | exact E].
      * cbn in H. injection H as <-. auto.
    + cbn in H. injection H as <-. auto.
Qed.

Lemma run_calls_once d cs p p' : set_once d p -> Forall given cs -> run_calls d p cs = Ok p' -> set_once d p'.
Proof.
  intros S G. revert p S. induction G as [|c cs Gc G IH]; intros p S H; cbn [run_calls] in H.
  - injection H as <-. exact S.
  - destruct (run_call d p c) as [p1 | | ] eqn:E; cbn [obind] in H; try discriminate.
    destruct (run_call_once d p c p1 (wf_digits _ (set_once_wf d p S)) Gc E) as [-> | S1]; [apply (IH p S H) | apply (IH p1 S1 H)].
Qed.

Lemma reached_once d p : reached d p -> set_once d p.
Proof.
  intros (v & cs & F & G & H). destruct (construct d v) as [p0 | | ] eqn:E; cbn [obind] in H; try discriminate.
  eapply run_calls_once; [eapply construct_once; eassumption | exact G | exact H].
Qed.

(** ** C03 *)

Lemma set_once_range d p : set_once d p ->
  well_formed p /\ (~ exclusive d -> documented d (amount p)) /\ (exclusive d -> 0 <= amount p).
Proof.
  intros S. pose proof (set_once_wf d p S) as W. split; [exact W | ].
  destruct S as (p0 & v & D & F & H).
  pose proof (clamp_is_ld d v F) as Fc. pose proof (clamp_documented d v) as Dc.
  pose proof (wf_dec p W) as W6.
  assert (GE : forall b, (Z.abs b < 10 ^ 18)%Z -> inject_Z b <= clamp d v -> inject_Z b <= amount p).
  { intros b Hb Hv. apply amount_ge; [exact W6 | ]. eapply units_ge; eassumption. }
  assert (LE : forall b, (Z.abs b < 10 ^ 18)%Z -> clamp d v <= inject_Z b -> amount p <= inject_Z b).
  { intros b Hb Hv. apply amount_le; [exact W6 | ]. eapply units_le; eassumption. }
  assert (B0 : (Z.abs 0 < 10 ^ 18)%Z) by reflexivity. assert (B2 : (Z.abs 2 < 10 ^ 18)%Z) by reflexivity.
  assert (B100 : (Z.abs 100 < 10 ^ 18)%Z) by reflexivity. assert (B180 : (Z.abs 180 < 10 ^ 18)%Z) by reflexivity.
  assert (Bm : (Z.abs (-180) < 10 ^ 18)%Z) by reflexivity.
  split; intros X.
  - destruct d; cbn [documented] in *; try exact I; try (exfalso; apply X; unfold exclusive; cbn; tauto).
    + apply (GE 0%Z B0 Dc).
    + destruct Dc as [D1 D2]. split; [apply (GE 0%Z B0 D1) | apply (LE 100%Z B100 D2)].
    + destruct Dc as [D1 D2]. split; [apply (GE (-180)%Z Bm D1) | apply (LE 180%Z B180 D2)].
    + apply (GE 2%Z B2 Dc).
  - apply (GE 0%Z B0). change (inject_Z 0) with 0. unfold exclusive in X. cbn [In] in X.
    destruct X as [<- | [<- | [<- | []]]]; cbn [documented] in Dc; lra.
Qed.

Lemma range_partial d p : reached d p ->
  well_formed p /\ (~ exclusive d -> documented d (amount p)) /\ (exclusive d -> 0 <= amount p).
Proof. intros H. apply set_once_range, reached_once, H. Qed.

(** Positive types, when no number strictly between 0 and 0.0000006 is given. *)
Definition once_clear (d : decimal_type) (p : precise) : Prop :=
  exists p0 v, digits_ok p0 /\ is_ld v /\ (v <= 0 \/ (5999999 # 10000000000000) <= v) /\ p_setValue p0 (clamp d v) = Ok p.

Lemma once_clear_positive d p : exclusive d -> once_clear d p -> 0 < amount p.
Proof.
  intros X (p0 & v & D & F & C & H). pose proof (clamp_is_ld d v F) as Fc.
  destruct (set_cases p0 _ p D Fc H) as [W U]. pose proof (amount_units p (wf_dec p W)) as A.
  assert (Hc : 5999999 # 10000000000000 <= clamp d v).
  { apply exclusive_low in X. unfold clamp. rewrite X. cbn [min_clamp].
    assert (Hh : max_clamp (high d) v = v) by (destruct d; try discriminate; reflexivity). rewrite Hh.
    destruct (Qle_bool v (inject_Z 0)) eqn:E.
    - pose proof nonzero_value. rewrite (clamp_excl_value 0 eq_refl). lra.
    - apply Qle_bool_false in E. change (inject_Z 0) with 0 in E. lra. }
  assert (0 < units p)%Z; [ | rewrite Zlt_Qlt in H0; change (inject_Z 0) with 0 in H0; lra].
  destruct U as [(U1 & U2 & _) | (U1 & U2 & U3)].
  - apply Qabs_Qlt_condition in U2. rewrite Zlt_Qlt. change (inject_Z 0) with 0. lra.
  - rewrite U3. assert (Qle_bool 0 (clamp d v) = true) as -> by (apply Qle_bool_iff; lra). reflexivity.
Qed.

Lemma scan_number t x rest : scan_decimal t = Some (x, rest) -> skip_ws rest = [] -> number_text t x.
Proof. apply scan_sound. Qed.

Lemma ld_clear x : x <= 0 \/ 6 # 10000000 <= x -> ld x <= 0 \/ (5999999 # 10000000000000) <= ld x.
Proof.
  intros [H | H].
  - left. apply ld_le; [apply (is_ld_Z 0); reflexivity | exact H].
  - right. assert (X : ld (5999999 # 10000000000000) <= ld x \/ ld (5999999 # 10000000000000) <= ld x).
    { left. apply ld_ge; [apply ld_is_ld | ]. assert (ld (5999999 # 10000000000000) <= 6 # 10000000) by (vm_compute; discriminate). lra. }
    assert (Y : is_ld (ld (59999995 # 100000000000000))) by apply ld_is_ld.
    assert (ld (59999995 # 100000000000000) <= ld x).
    { apply ld_ge; [exact Y | ]. assert (ld (59999995 # 100000000000000) <= 6 # 10000000) by (vm_compute; discriminate). lra. }
    assert (5999999 # 10000000000000 <= ld (59999995 # 100000000000000)) by (vm_compute; discriminate). lra.
Qed.

Lemma positive_partial d v cs p :
  exclusive d -> is_ld v -> clear_of_zero v -> Forall given cs ->
  (forall c x, In c cs -> gives c x -> clear_of_zero x) ->
  obind (construct d v) (fun p0 => run_calls d p0 cs) = Ok p -> documented d (amount p).
Proof.
  intros X F C G Gx H.
  assert (once_clear d p).
  { destruct (construct d v) as [p0 | | ] eqn:E; cbn [obind] in H; try discriminate.
    assert (S0 : once_clear d p0).
    { unfold construct, new_precise in E. eexists _, v. split; [ | split; [exact F | split; [ | exact E]]].
      - split; reflexivity.
      - destruct C as [C | C]; [left; exact C | right]. lra. }
    clear E F C v. revert p0 S0 H. induction G as [|c cs Gc G IH]; intros p0 S0 H; cbn [run_calls] in H.
    - injection H as <-. exact S0.
    - destruct (run_call d p0 c) as [p1 | | ] eqn:E; cbn [obind] in H; try discriminate.
      apply (IH (fun c' x Hin => Gx c' x (or_intror Hin)) p1); [ | exact H].
      assert (D0 : digits_ok p0).
      { destruct S0 as (q0 & w & D & F & _ & S). destruct (set_cases q0 _ p0 D (clamp_is_ld d w F) S) as [W _]. apply wf_digits, W. }
      destruct c as [v | t]; cbn [run_call] in E.
      + exists p0, v. split; [exact D0 | ]. split; [exact Gc | ]. split; [ | exact E].
        destruct (Gx (CallSet v) v (or_introl eq_refl) eq_refl) as [C | C]; [left; exact C | right; lra].
      + unfold parse in E. destruct (read_decimal t) as [[v rest] | ] eqn:R; [ | cbn in E; injection E as <-; exact S0].
        destruct (skip_ws rest) eqn:Es; [ | cbn in E; injection E as <-; exact S0].
        unfold setValue in E. destruct (p_setValue p0 (clamp d v)) as [y | | ] eqn:Ey; cbn in E; try discriminate.
        injection E as <-. exists p0, v. split; [exact D0 | ]. split; [eapply read_decimal_ld, R | ]. split; [ | exact Ey].
        unfold read_decimal in R. destruct (scan_decimal t) as [[x r] | ] eqn:Sc; [ | discriminate].
        destruct (Qle_bool (pow2 16384) (Qabs (ld x))); [discriminate | ].
        assert (Ev : v = ld x) by congruence. assert (Er : rest = r) by congruence. subst.
        apply ld_clear. apply (Gx (CallParse t) x (or_introl eq_refl)). cbn [gives]. eapply scan_sound; eassumption. }
  pose proof (once_clear_positive d p X H0). unfold exclusive in X. cbn [In] in X.
  destruct X as [<- | [<- | [<- | []]]]; exact H1.
Qed.

(** Numbers of at most six decimals are stored exactly. *)
Lemma ld_micro k : (Z.abs k <= 2 ^ 44 * 10 ^ 6)%Z ->
  Qabs (ld (inject_Z k / E6)) < inject_Z (10 ^ 19) /\
  Qabs (ld (inject_Z k / E6) * E6 - inject_Z k) <= 4999998 # 10000000.
Proof.
  intros Hk. set (y := inject_Z k / E6). assert (Hy : y * 1000000 == inject_Z k) by (unfold y; field; discriminate).
  assert (Kq : - (17592186044416 * 1000000) <= inject_Z k /\ inject_Z k <= 17592186044416 * 1000000).
  { change (- (17592186044416 * 1000000)) with (inject_Z (- (2 ^ 44 * 10 ^ 6))).
    change (17592186044416 * 1000000) with (inject_Z (2 ^ 44 * 10 ^ 6)). rewrite <- !Zle_Qle. lia. }
  assert (T19 : inject_Z (10 ^ 19) == 10000000000000000000) by reflexivity.
  destruct (Z.eq_dec (Z.abs k) (2 ^ 44 * 10 ^ 6)) as [E | E].
  - assert (Ey : exists n, y == inject_Z n /\ (Z.abs n < 2 ^ 64)%Z).
    { destruct (Z_lt_le_dec k 0) as [S | S].
      - exists (- 2 ^ 44)%Z. split; [ | reflexivity]. assert (k = - (2 ^ 44 * 10 ^ 6))%Z by lia.
        unfold y. rewrite H. reflexivity.
      - exists (2 ^ 44)%Z. split; [ | reflexivity]. assert (k = (2 ^ 44 * 10 ^ 6))%Z by lia.
        unfold y. rewrite H. reflexivity. }
    destruct Ey as (n & Ey & Hn). assert (El : ld y == y) by (rewrite Ey; apply ld_Z, Hn).
    split; rewrite El; [apply Qabs_Qlt_condition; rewrite T19; lra | apply Qabs_Qle_condition; lra].
  - assert (Kq2 : - (17592186044416 * 1000000 - 1) <= inject_Z k /\ inject_Z k <= 17592186044416 * 1000000 - 1).
    { change (- (17592186044416 * 1000000 - 1)) with (inject_Z (- (2 ^ 44 * 10 ^ 6 - 1))).
      change (17592186044416 * 1000000 - 1) with (inject_Z (2 ^ 44 * 10 ^ 6 - 1)). rewrite <- !Zle_Qle. lia. }
    assert (P44 : pow2 44 == 17592186044416) by reflexivity.
    assert (Er : Qabs (ld y - y) <= pow2 (44 - 65)) by (apply ld_error, Qabs_Qlt_condition; rewrite P44; lra).
    apply Qabs_Qle_condition in Er. assert (P21 : pow2 (44 - 65) == 1 # 2097152) by reflexivity. rewrite P21 in Er.
    split; [apply Qabs_Qlt_condition; rewrite T19; lra | apply Qabs_Qle_condition; lra].
Qed.

Lemma documented_ld d x : documented d x -> documented d (ld x).
Proof.
  assert (GE : forall b, (Z.abs b < 2 ^ 64)%Z -> inject_Z b <= x -> inject_Z b <= ld x) by (intros b Hb; apply ld_ge, is_ld_Z, Hb).
  assert (LE : forall b, (Z.abs b < 2 ^ 64)%Z -> x <= inject_Z b -> ld x <= inject_Z b) by (intros b Hb; apply ld_le, is_ld_Z, Hb).
  destruct (ld_sign x) as (P & _ & _).
  destruct d; cbn [documented]; intros H; try exact I; try (apply P, H).
  - apply (GE 0%Z); [reflexivity | exact H].
  - destruct H. split; [apply (GE 0%Z) | apply (LE 100%Z)]; try reflexivity; assumption.
  - destruct H. split; [apply (GE (-180)%Z) | apply (LE 180%Z)]; try reflexivity; assumption.
  - apply (GE 2%Z); [reflexivity | exact H].
Qed.

Lemma exact_partial d p k : well_formed p -> (Z.abs k <= 2 ^ 44 * 10 ^ 6)%Z ->
  documented d (inject_Z k / E6) ->
  exists r, setValue d p (ld (inject_Z k / E6)) = Ok r /\ well_formed r /\ amount r == inject_Z k / E6.
Proof.
  intros W Hk Hd. unfold setValue. rewrite clamp_id by (apply documented_ld, Hd).
  destruct (ld_micro k Hk) as [A B].
  destruct (set_near p _ k (wf_digits p W) A B) as (r & R1 & R2 & R3 & _).
  exists r. split; [exact R1 | ].
  destruct (set_cases p _ r (wf_digits p W) (ld_is_ld _) R1) as [Wr _]. split; [exact Wr | ].
  unfold amount. rewrite R3, (wf_dec r Wr). reflexivity.
Qed.

(** Out of range: the nearest end. *)
Lemma set_integer p n : digits_ok p -> (Z.abs n < 10 ^ 12)%Z ->
  exists r, p_setValue p (inject_Z n) = Ok r /\ well_formed r /\ amount r == inject_Z n.
Proof.
  intros D Hn.
  assert (Hq : - (1000000000000) <= inject_Z n /\ inject_Z n <= 1000000000000).
  { change (- (1000000000000)) with (inject_Z (- 10 ^ 12)). change 1000000000000 with (inject_Z (10 ^ 12)). rewrite <- !Zle_Qle. lia. }
  destruct (set_near p (inject_Z n) (n * 10 ^ 6) D) as (r & R1 & R2 & R3 & _).
  { apply Qabs_Qlt_condition. assert (T19 : inject_Z (10 ^ 19) == 10000000000000000000) by reflexivity. rewrite T19. lra. }
  { assert (inject_Z n * E6 - inject_Z (n * 10 ^ 6) == 0) as -> by (rewrite inject_Z_mult; change (inject_Z (10 ^ 6)) with 1000000; ring). discriminate. }
  exists r. split; [exact R1 | ].
  destruct (set_cases p _ r D (is_ld_Z n ltac:(lia)) R1) as [Wr _]. split; [exact Wr | ].
  unfold amount. rewrite R3, (wf_dec r Wr), inject_Z_mult. field. discriminate.
Qed.

Lemma below_range d p v b : well_formed p -> lower_end d = Some b ->
  (v < inject_Z b \/ (exclusive d /\ v == inject_Z b)) ->
  exists r, setValue d p v = Ok r /\ well_formed r /\
    amount r == inject_Z b + (if existsb (fun e => match e, d with PositiveDecimal, PositiveDecimal | PositiveDivisions, PositiveDivisions | PositiveDivisionsValue, PositiveDivisionsValue => true | _, _ => false end) [PositiveDecimal; PositiveDivisions; PositiveDivisionsValue] then 1 # 1000000 else 0).
Proof.
  intros W Hb Hv. unfold setValue.
  assert (Hu : max_clamp (high d) v = v).
  { destruct d; cbn [high max_clamp]; try reflexivity; cbn in Hb; injection Hb as <-.
    - destruct Hv as [Hv | [[X | [X | [X | []]]] _]]; try discriminate.
      assert (Qle_bool v (inject_Z 100) = true) as ->; [ | reflexivity]. apply Qle_bool_iff. change (inject_Z 100) with 100. change (inject_Z 0) with 0 in Hv. lra.
    - destruct Hv as [Hv | [[X | [X | [X | []]]] _]]; try discriminate.
      assert (Qle_bool v (inject_Z 180) = true) as ->; [ | reflexivity]. apply Qle_bool_iff. change (inject_Z 180) with 180. change (inject_Z (-180)) with (-180) in Hv. lra. }
  unfold clamp. rewrite Hu.
  assert (Incl : forall c, low d = LowIncl c -> c = b -> ~ exclusive d -> (Z.abs b < 10 ^ 12)%Z ->
     exists r, p_setValue p (min_clamp (low d) v) = Ok r /\ well_formed r /\ amount r == inject_Z b + 0).
  { intros c E -> Nx Hbb. rewrite E. cbn [min_clamp]. destruct Hv as [Hv | [Hx _]]; [ | contradiction].
    assert (Qle_bool (inject_Z b) v = false) as ->.
    { destruct (Qle_bool (inject_Z b) v) eqn:Q; [ | reflexivity]. apply Qle_bool_iff in Q. lra. }
    destruct (set_integer p b (wf_digits p W) Hbb) as (r & R1 & R2 & R3). exists r. rewrite R3. split; [exact R1 | ]. split; [exact R2 | ring]. }
  assert (Excl : low d = LowExcl 0 -> b = 0%Z ->
     exists r, p_setValue p (min_clamp (low d) v) = Ok r /\ well_formed r /\ amount r == inject_Z b + (1 # 1000000)).
  { intros E ->. rewrite E. cbn [min_clamp].
    assert (Qle_bool v (inject_Z 0) = true) as -> by (apply Qle_bool_iff; destruct Hv as [Hv | [_ Hv]]; lra).
    pose proof nonzero_value as (N1 & N2 & N3).
    assert (V : ld (inject_Z 0 + NON_ZERO_AMOUNT) == NON_ZERO_AMOUNT) by (apply clamp_excl_value; reflexivity).
    rewrite (p_setValue_eq p _ _ V).
    destruct (set_near p NON_ZERO_AMOUNT 1 (wf_digits p W)) as (r & R1 & R2 & R3 & _).
    { apply Qabs_Qlt_condition. assert (T19 : inject_Z (10 ^ 19) == 10000000000000000000) by reflexivity. rewrite T19. lra. }
    { apply Qabs_Qle_condition. change (inject_Z 1) with 1. lra. }
    exists r. split; [exact R1 | ].
    destruct (set_cases p _ r (wf_digits p W) (is_ld_eq _ _ V (ld_is_ld _)) R1) as [Wr _]. split; [exact Wr | ].
    unfold amount. rewrite R3, (wf_dec r Wr). reflexivity. }
  destruct d; cbn [lower_end] in Hb; try discriminate; injection Hb as <-; cbn [existsb orb];
    try (eapply Incl; [reflexivity | reflexivity | unfold exclusive; cbn [In]; intros [X | [X | [X | []]]]; discriminate | reflexivity]);
    apply Excl; reflexivity.
Qed.

Lemma above_range d p v b : well_formed p -> upper_end d = Some b -> inject_Z b < v ->
  exists r, setValue d p v = Ok r /\ well_formed r /\ amount r == inject_Z b.
Proof.
  intros W Hb Hv. unfold setValue, clamp.
  assert (Hu : max_clamp (high d) v = inject_Z b).
  { rewrite high_upper, Hb. cbn [max_clamp].
    destruct (Qle_bool v (inject_Z b)) eqn:Q; [ | reflexivity]. apply Qle_bool_iff in Q. lra. }
  rewrite Hu.
  destruct d; cbn [upper_end] in Hb; try discriminate; injection Hb as <-; apply set_integer; try (apply wf_digits, W); reflexivity.
Qed.

(** Defined unless the value exceeds 64 bits on an unbounded side. *)
Lemma set_defined d p v : well_formed p -> is_ld v ->
  (setValue d p v = UB <->
   (upper_end d = None /\ inject_Z (2 ^ 64) <= v) \/ (lower_end d = None /\ v <= - inject_Z (2 ^ 64))) /\
  setValue d p v <> Throw.
Proof.
  intros W F. unfold setValue.
  assert (K : forall w, (p_setValue p w = UB <-> inject_Z (2 ^ 64) <= Qabs w) /\ p_setValue p w <> Throw).
  { intros w. destruct (Qlt_le_dec (Qabs w) (inject_Z (2 ^ 64))) as [H | H].
    - destruct (Qlt_le_dec (Qabs w) (inject_Z (10 ^ 19))) as [H' | H'].
      + destruct (set_small p w (wf_digits p W) H') as (k & _ & _ & E). rewrite E. split; [split; [discriminate | lra] | discriminate].
      + rewrite (set_large p w (wf_digits p W) H' H). split; [split; [discriminate | lra] | discriminate].
    - rewrite p_setValue_UB by exact H. split; [split; auto | discriminate]. }
  destruct (K (clamp d v)) as [K1 K2]. split; [ | exact K2]. rewrite K1. clear K K1 K2.
  assert (Q64 : inject_Z (2 ^ 64) == 18446744073709551616) by reflexivity.
  pose proof nonzero_value as (N1 & N2 & N3). pose proof (clamp_excl_value 0 eq_refl) as CE.
  assert (Hgen : forall w, inject_Z (2 ^ 64) <= Qabs w <-> (inject_Z (2 ^ 64) <= w \/ w <= - inject_Z (2 ^ 64))).
  { intros w. destruct (abs_cases w) as [[S E] | [S E]]; rewrite E; lra. }
  rewrite Hgen. clear Hgen. generalize dependent (inject_Z (2 ^ 64)). intros B HB.
  assert (Hmax : (B <= max_clamp (high d) v <-> upper_end d = None /\ B <= v) /\
                 (max_clamp (high d) v <= - B <-> v <= - B)).
  { rewrite high_upper. destruct (upper_end d) as [b | ] eqn:Eb; cbn [max_clamp].
    - assert (Hb : -200 <= inject_Z b /\ inject_Z b <= 200) by (clear - Eb; destruct d; cbn in Eb; try discriminate Eb; injection Eb as <-; split; discriminate).
      destruct (Qle_bool v (inject_Z b)) eqn:E; [apply Qle_bool_iff in E | apply Qle_bool_false in E];
        (split; split; intros X; try (destruct X as [X _]; discriminate X); try (exfalso; lra); try lra).
    - split; split; intros X; try lra; tauto. }
  set (w := max_clamp (high d) v) in *. unfold clamp. fold w.
  assert (Hmin : (B <= min_clamp (low d) w <-> B <= w) /\ (min_clamp (low d) w <= - B <-> lower_end d = None /\ w <= - B)).
  { rewrite low_lower. destruct (lower_end d) as [b | ] eqn:Eb; cbn [min_clamp].
    - assert (Hb : -200 <= inject_Z b /\ inject_Z b <= 200) by (clear - Eb; destruct d; cbn in Eb; try discriminate Eb; injection Eb as <-; split; discriminate).
      destruct ((b =? 0)%Z && (match d with NonNegativeDecimal | Percent => false | _ => true end)) eqn:Ex; cbn [min_clamp].
      + apply andb_prop in Ex. destruct Ex as [Ex _]. apply Z.eqb_eq in Ex. rewrite Ex in *.
        set (k := ld (inject_Z 0 + NON_ZERO_AMOUNT)) in *. clearbody k. set (nz := NON_ZERO_AMOUNT) in *. clearbody nz.
        destruct (Qle_bool w (inject_Z 0)) eqn:E; [apply Qle_bool_iff in E | apply Qle_bool_false in E];
          (split; split; intros X; try (destruct X as [X _]; discriminate X); try (exfalso; lra); try lra).
      + destruct (Qle_bool (inject_Z b) w) eqn:E; [apply Qle_bool_iff in E | apply Qle_bool_false in E];
          (split; split; intros X; try (destruct X as [X _]; discriminate X); try (exfalso; lra); try lra).
    - split; split; intros X; try lra; tauto. }
  destruct Hmax as [M1 M2]. destruct Hmin as [M3 M4]. rewrite M3, M4, M1, M2. reflexivity.
Qed.

(** ** Texts *)

Lemma parse_number d p t x : number_text t x -> Qabs x < inject_Z (2 ^ 64) ->
  parse d p t = omap (fun r => (true, r)) (setValue d p (ld x)).
Proof.
  intros N B. destruct (scan_complete t x N) as (rest & E & R).
  assert (L : Qabs (ld x) < pow2 16384).
  { assert (Qabs (ld x) <= inject_Z (2 ^ 64)).
    { assert (F : is_ld (inject_Z (2 ^ 64))) by (exists 1%Z, 64%Z; split; [reflexivity | reflexivity]).
      apply Qabs_Qlt_condition in B. apply Qabs_Qle_condition. split.
      - apply ld_ge; [apply (fits_opp 64), F | lra].
      - apply ld_le; [exact F | lra]. }
    assert (pow2 65 <= pow2 16384) by (apply pow2_le; lia).
    assert (pow2 65 == 36893488147419103232) by reflexivity.
    assert (inject_Z (2 ^ 64) == 18446744073709551616) by reflexivity. lra. }
  unfold parse, read_decimal. rewrite E.
  destruct (Qle_bool (pow2 16384) (Qabs (ld x))) eqn:Q; [apply Qle_bool_iff in Q; lra | ].
  rewrite R. reflexivity.
Qed.

Lemma parse_other d p t : (forall x, ~ number_text t x) -> parse d p t = Ok (false, p).
Proof.
  intros N. unfold parse, read_decimal. destruct (scan_decimal t) as [[x rest] | ] eqn:E; [ | reflexivity].
  destruct (Qle_bool (pow2 16384) (Qabs (ld x))); [reflexivity | ].
  destruct (skip_ws rest) eqn:R; [ | reflexivity]. exfalso. apply (N x). eapply scan_sound; eassumption.
Qed.

Lemma parse_false d p t q : parse d p t = Ok (false, q) -> q = p.
Proof.
  unfold parse. destruct (read_decimal t) as [[v rest] | ]; [ | congruence].
  destruct (skip_ws rest); [ | congruence]. destruct (setValue d p v); cbn; congruence.
Qed.

(** ** C04 *)

Lemma amount_bound r : well_formed r -> Qabs (amount r) <= inject_Z (10 ^ 19).
Proof.
  intros (A & B & C & D). pose proof (amount_units r B) as E.
  assert (T19 : inject_Z (10 ^ 19) == 10000000000000000000) by reflexivity.
  assert (H : (Z.abs (units r) <= 10 ^ 25)%Z).
  { unfold units. rewrite B. change (10 ^ 25)%Z with (10 ^ 19 * 10 ^ 6)%Z. destruct (p_negative r); nia. }
  assert (- (10000000000000000000000000) <= inject_Z (units r) /\ inject_Z (units r) <= 10000000000000000000000000).
  { change (- (10000000000000000000000000)) with (inject_Z (- 10 ^ 25)). change 10000000000000000000000000 with (inject_Z (10 ^ 25)).
    rewrite <- !Zle_Qle. lia. }
  apply Qabs_Qle_condition. rewrite T19. lra.
Qed.

Lemma text_of r : well_formed r -> plain_decimal (toString r) (amount r) /\ shortest_decimal (toString r).
Proof. intros (A & B & C & D). apply toString_plain; rewrite ?B; lia. Qed.

Lemma text_roundtrip d p q : reached d p -> documented d (amount p) -> well_formed q ->
  exists r, parse d q (toString p) = Ok (true, r) /\ amount r == amount p /\ toString r = toString p.
Proof.
  intros R Doc Wq. apply reached_once in R. pose proof (set_once_wf d p R) as W.
  destruct R as (p0 & v & D & F & H). pose proof (clamp_is_ld d v F) as Fc.
  destruct (text_of p W) as [T _]. apply plain_is_number in T. destruct T as (y & Ey & N).
  pose proof (amount_bound p W) as B.
  assert (B' : Qabs y < inject_Z (2 ^ 64)).
  { rewrite <- Ey. assert (inject_Z (10 ^ 19) < inject_Z (2 ^ 64)) by reflexivity. lra. }
  rewrite (parse_number d q (toString p) y N B'). unfold setValue.
  rewrite clamp_id.
  2:{ apply documented_ld. clear - Ey Doc. destruct d; cbn [documented] in *; rewrite <- ?Ey; try exact I; exact Doc. }
  destruct (set_again p0 q (clamp d v) p y D (wf_digits q Wq) Fc H) as (r & R1 & R2 & R3).
  - assert (y - amount p == 0) as -> by (rewrite Ey; ring). discriminate.
  - intros _. rewrite Ey. reflexivity.
  - exists r. rewrite R1. cbn [omap obind]. split; [reflexivity | ]. split; [ | exact R3].
    destruct (set_cases q _ r (wf_digits q Wq) (ld_is_ld _) R1) as [Wr _].
    unfold amount. rewrite R2, (wf_dec r Wr), (wf_dec p W). reflexivity.
Qed.

Lemma getValue_roundtrip d p q : reached d p -> documented d (getValue p) -> well_formed q ->
  exists r, setValue d q (getValue p) = Ok r /\ amount r == amount p /\ toString r = toString p.
Proof.
  intros R Doc Wq. apply reached_once in R. pose proof (set_once_wf d p R) as W.
  destruct R as (p0 & v & D & F & H). pose proof (clamp_is_ld d v F) as Fc.
  unfold setValue. rewrite clamp_id by exact Doc.
  pose proof W as (W1 & W2 & W3 & W4).
  set (u := ld (of_u64 (p_decimal p) / inject_Z (10 ^ 6))).
  set (z0 := of_u64 (p_integer p) + u).
  set (z := if p_negative p then - z0 else z0).
  assert (Eg : getValue p == ld z).
  { unfold getValue, p_getValue. rewrite W2, express_mult by lia. fold u. fold z0. unfold z.
    destruct (p_negative p); [rewrite ld_neg; reflexivity | reflexivity]. }
  assert (Ei : of_u64 (p_integer p) == inject_Z (p_integer p)) by (apply of_u64_value; lia).
  assert (Ed : of_u64 (p_decimal p) == inject_Z (p_decimal p)) by (apply of_u64_value; lia).
  assert (Hd : 0 <= inject_Z (p_decimal p) /\ inject_Z (p_decimal p) <= 999999).
  { change 0 with (inject_Z 0). change 999999 with (inject_Z 999999). rewrite <- !Zle_Qle. lia. }
  set (f := inject_Z (p_decimal p) / 1000000).
  assert (Ef : f * 1000000 == inject_Z (p_decimal p)) by (unfold f; field; discriminate).
  assert (Eu : u == ld f) by (unfold u, f; rewrite Ed; reflexivity).
  assert (Er : Qabs (ld f - f) <= pow2 (0 - 65)).
  { apply ld_error, Qabs_Qlt_condition. change (pow2 0) with 1. lra. }
  apply Qabs_Qle_condition in Er. assert (P65 : pow2 (0 - 65) < 1 # 1000000000000) by reflexivity.
  assert (Ea : amount p == if p_negative p then - (inject_Z (p_integer p) + f) else inject_Z (p_integer p) + f).
  { unfold amount, units. rewrite W2. unfold f.
    destruct (p_negative p); rewrite ?inject_Z_opp, inject_Z_plus, inject_Z_mult; change (inject_Z (10 ^ 6)) with 1000000; field; discriminate. }
  destruct (set_again p0 q (clamp d v) p z D (wf_digits q Wq) Fc H) as (r & R1 & R2 & R3).
  - apply Qabs_Qle_condition. rewrite Ea. unfold z, z0. destruct (p_negative p); lra.
  - intros E0. rewrite Ea. unfold z, z0.
    assert (f == 0) by (unfold f; rewrite E0; reflexivity).
    destruct (ld_sign f) as (_ & _ & L). specialize (L H0). destruct (p_negative p); lra.
  - exists r. rewrite (p_setValue_eq q _ _ Eg). split; [exact R1 | ]. split; [ | exact R3].
    destruct (set_cases q _ r (wf_digits q Wq) (ld_is_ld _) R1) as [Wr _].
    unfold amount. rewrite R2, (wf_dec r Wr), (wf_dec p W). reflexivity.
Qed.

(** Any digit configuration up to 11 decimals: the nearest number, up to a
    ten-millionth of a unit. *)
Lemma nearest_partial n d v : (1 <= n <= 19)%Z -> (1 <= d <= 11)%Z -> Qabs v < inject_Z (10 ^ n) ->
  exists p, new_precise n d v = Ok p /\ p_int_digits p = n /\ p_dec_digits p = d /\
    (0 <= p_integer p <= 10 ^ n)%Z /\ (0 <= p_decimal p < 10 ^ d)%Z /\
    Qabs (amount p - v) < (5000002 # 10000000) / inject_Z (10 ^ d).
Proof.
  intros Hn Hd Hv. unfold new_precise.
  assert (C1 : clamp_digits n = n) by (unfold clamp_digits; destruct (n <? 1)%Z eqn:A; destruct (19 <? n)%Z eqn:B; bool_hyps; lia).
  assert (C2 : clamp_digits d = d) by (unfold clamp_digits; destruct (d <? 1)%Z eqn:A; destruct (19 <? d)%Z eqn:B; bool_hyps; lia).
  rewrite C1, C2.
  destruct (p_setValue_spec (mkPrecise false 0 0 n d) v) as (K & K0 & K1 & K2); cbn [p_int_digits p_dec_digits]; try lia; [exact Hv | ].
  cbn [p_int_digits p_dec_digits] in K1, K2. eexists. split; [exact K2 | ].
  cbn [p_int_digits p_dec_digits p_integer p_decimal]. split; [reflexivity | ]. split; [reflexivity | ].
  pose proof (Z.pow_pos_nonneg 10 d) as P. pose proof (Z.mod_pos_bound K (10 ^ d)).
  assert (PQ : 0 < inject_Z (10 ^ d)) by (change 0 with (inject_Z 0); rewrite <- Zlt_Qlt; lia).
  assert (P1 : 1 <= inject_Z (10 ^ d)) by (change 1 with (inject_Z 1); rewrite <- Zle_Qle; lia).
  apply Qabs_Qlt_condition in K1.
  split.
  { split; [apply Z.div_pos; lia | ].
    assert (K <= 10 ^ n * 10 ^ d)%Z.
    { apply Z.lt_succ_r. rewrite Zlt_Qlt. unfold Z.succ. rewrite inject_Z_plus, inject_Z_mult. change (inject_Z 1) with 1. nra. }
    apply Z.div_le_upper_bound; lia. }
  split; [lia | ].
  set (M := inject_Z (10 ^ d)) in *.
  assert (Ea : forall neg, amount (mkPrecise neg (K / 10 ^ d) (K mod 10 ^ d) n d) == (if neg then - (inject_Z K / M) else inject_Z K / M)).
  { intros neg. unfold amount, units. cbn [p_integer p_decimal p_dec_digits p_negative]. fold M.
    assert (K / 10 ^ d * 10 ^ d + K mod 10 ^ d = K)%Z as -> by (pose proof (Z.div_mod K (10 ^ d)); lia).
    destruct neg; [rewrite inject_Z_opp; field; lra | reflexivity]. }
  rewrite Ea. assert (EM : inject_Z K / M * M == inject_Z K) by (field; lra).
  set (y := inject_Z K / M) in *.
  assert (ET : (5000002 # 10000000) / M * M == 5000002 # 10000000) by (field; lra).
  set (t := (5000002 # 10000000) / M) in *. clearbody y t M.
  destruct (abs_cases v) as [[S E] | [S E]].
  - rewrite (proj2 (sign_flag v) S). rewrite E in K1. apply Qabs_Qlt_condition. split; nra.
  - rewrite (proj2 (sign_flag_false v) S). rewrite E in K1. apply Qabs_Qlt_condition. split; nra.
Qed.

Lemma below_inclusive d p v b : well_formed p -> lower_end d = Some b -> ~ exclusive d -> v < inject_Z b ->
  exists r, setValue d p v = Ok r /\ well_formed r /\ amount r == inject_Z b.
Proof.
  intros W Hb Nx Hv. destruct (below_range d p v b W Hb (or_introl Hv)) as (r & R1 & R2 & R3).
  exists r. split; [exact R1 | ]. split; [exact R2 | ]. rewrite R3.
  destruct d; cbn [existsb orb]; try (exfalso; apply Nx; unfold exclusive; cbn; tauto); ring.
Qed.

Lemma below_exclusive d p v : well_formed p -> exclusive d -> v <= 0 ->
  exists r, setValue d p v = Ok r /\ well_formed r /\ amount r == 1 # 1000000.
Proof.
  intros W X Hv.
  assert (Hb : lower_end d = Some 0%Z) by (unfold exclusive in X; cbn [In] in X; destruct X as [<- | [<- | [<- | []]]]; reflexivity).
  assert (Hv' : v < inject_Z 0 \/ (exclusive d /\ v == inject_Z 0)).
  { change (inject_Z 0) with 0. destruct (Qlt_le_dec v 0) as [L | L]; [left; exact L | right; split; [exact X | lra]]. }
  destruct (below_range d p v 0 W Hb Hv') as (r & R1 & R2 & R3). exists r. split; [exact R1 | ]. split; [exact R2 | ].
  rewrite R3. unfold exclusive in X; cbn [In] in X; destruct X as [<- | [<- | [<- | []]]]; reflexivity.
Qed.

(** A positive number below half a millionth is stored as zero. *)
Lemma positive_refuted : ~ (forall d p, reached d p -> documented d (amount p)).
Proof.
  intros H.
  assert (E : construct PositiveDecimal (ld (1 # 3000000)) = Ok (mkPrecise false 0 0 19 6)) by (vm_compute; reflexivity).
  specialize (H PositiveDecimal (mkPrecise false 0 0 19 6)).
  assert (R : reached PositiveDecimal (mkPrecise false 0 0 19 6)).
  { exists (ld (1 # 3000000)), []. split; [apply ld_is_ld | ]. split; [constructor | ]. rewrite E. reflexivity. }
  specialize (H R). clear E R. vm_compute in H. discriminate H.
Qed.

(** Just under half a unit is rounded up. *)
Lemma nearest_refuted : ~ (forall p v r m, well_formed p -> is_ld v -> setValue Decimal p v = Ok r ->
  Qabs v < inject_Z (10 ^ 19) -> Qabs (amount r - v) <= Qabs (inject_Z m / 1000000 - v)).
Proof.
  intros H.
  set (v := ld (49999995 # 100000000000000)).
  assert (E : setValue Decimal (mkPrecise false 0 0 19 6) v = Ok (mkPrecise false 0 1 19 6)) by (vm_compute; reflexivity).
  specialize (H (mkPrecise false 0 0 19 6) v (mkPrecise false 0 1 19 6) 0%Z).
  assert (W : well_formed (mkPrecise false 0 0 19 6)) by (unfold well_formed; cbn [p_int_digits p_dec_digits p_integer p_decimal]; lia).
  specialize (H W (ld_is_ld _) E).
  assert (B : Qabs v < inject_Z (10 ^ 19)) by (vm_compute; reflexivity).
  specialize (H B). clear E B W. vm_compute in H. apply H. reflexivity.
Qed.

(** With few digits, rounding can carry past the largest number. *)
Lemma digits_refuted : ~ (forall n d v p, (1 <= n <= 19)%Z -> (1 <= d <= 19)%Z -> is_ld v -> Qabs v < inject_Z (10 ^ n) ->
  new_precise n d v = Ok p -> (p_integer p < 10 ^ n)%Z).
Proof.
  intros H. specialize (H 1%Z 1%Z (ld (999 # 100)) (mkPrecise false 10 0 1 1)).
  assert (X : (10 < 10 ^ 1)%Z); [ | vm_compute in X; discriminate X].
  apply H; [lia | lia | apply ld_is_ld | vm_compute; reflexivity | vm_compute; reflexivity].
Qed.

Lemma set_nearest_partial d p v r : well_formed p -> is_ld v -> documented d v -> Qabs v < inject_Z (10 ^ 19) ->
  setValue d p v = Ok r ->
  Qabs (amount r - v) < 5000002 # 10000000000000 /\
  (forall m, Qabs (v - inject_Z m / 1000000) <= 4999998 # 10000000000000 -> amount r == inject_Z m / 1000000).
Proof.
  intros W F Doc B H. unfold setValue in H. rewrite clamp_id in H by exact Doc.
  destruct (set_cases p v r (wf_digits p W) F H) as [Wr _]. pose proof (amount_units r (wf_dec r Wr)) as A.
  split.
  - destruct (set_small_units p v (wf_digits p W) B) as (r' & R1 & _ & R3 & _). rewrite H in R1. injection R1 as <-.
    apply Qabs_Qlt_condition in R3. apply Qabs_Qlt_condition. lra.
  - intros m Hm. assert (Em : inject_Z m / 1000000 * 1000000 == inject_Z m) by (field; discriminate).
    destruct (set_near p v m (wf_digits p W) B) as (r' & R1 & _ & R3 & _).
    { apply Qabs_Qle_condition in Hm. apply Qabs_Qle_condition. lra. }
    rewrite H in R1. injection R1 as <-. unfold amount. rewrite R3, (wf_dec r Wr). reflexivity.
Qed.

Lemma too_large p v : well_formed p -> inject_Z (10 ^ 19) <= v -> v < inject_Z (2 ^ 64) ->
  exists r, setValue Decimal p v = Ok r /\ toString r = lit "9999999999999999999.999999".
Proof.
  intros W A B. unfold setValue. change (clamp Decimal v) with v.
  assert (P : 0 <= v) by (assert (0 <= inject_Z (10 ^ 19)) by discriminate; lra).
  assert (E : Qabs v == v) by (apply Qabs_pos, P).
  rewrite (set_large p v (wf_digits p W)) by (rewrite E; assumption).
  eexists. split; [reflexivity | ]. rewrite (proj2 (sign_flag_false v) P). vm_compute. reflexivity.
Qed.
