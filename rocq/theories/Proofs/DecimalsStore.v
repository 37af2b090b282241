From Coq Require Import List Ascii String ZArith QArith Qround Qabs Qpower Bool Lia Lqa.
From Verif Require Import Model.Base Model.Text Model.LongDouble Model.Decimals
  Spec.Numerals Spec.DecimalText Proofs.Tac Proofs.TextProofs Proofs.LongDoubleProofs Proofs.DecimalsProofs Proofs.DecimalsText.
Import ListNotations.
Open Scope Q_scope.

Notation E6 := (1000000 # 1).

Definition digits_ok (p : precise) : Prop := p_int_digits p = 19%Z /\ p_dec_digits p = 6%Z.

(** The state that holds K millionths. *)
Definition holding (neg : bool) (K : Z) : precise := mkPrecise neg (K / 10 ^ 6) (K mod 10 ^ 6) 19 6.

Lemma units_holding neg K : units (holding neg K) = (if neg then - K else K)%Z.
Proof.
  unfold units, holding. cbn [p_integer p_decimal p_dec_digits p_negative].
  pose proof (Z.div_mod K (10 ^ 6)). destruct neg; lia.
Qed.

Lemma p_setValue_digits p q v : digits_ok p -> digits_ok q -> p_setValue p v = p_setValue q v.
Proof. intros [A B] [C D]. unfold p_setValue, max_integer, max_decimal. rewrite A, B, C, D. reflexivity. Qed.

Lemma set_small p v : digits_ok p -> Qabs v < inject_Z (10 ^ 19) ->
  exists K : Z, (0 <= K)%Z /\ Qabs (inject_Z K - Qabs v * E6) < 5000002 # 10000000 /\
    p_setValue p v = Ok (holding (negb (Qle_bool 0 v)) K).
Proof.
  intros [A B] H. destruct (p_setValue_spec p v) as (K & K1 & K2 & K3); rewrite ?A, ?B; try lia; [exact H | ].
  exists K. rewrite A, B in *. change (inject_Z (10 ^ 6)) with E6 in K2. auto.
Qed.

Definition top : Z := (10 ^ 25 - 1)%Z.

Lemma set_large p v : digits_ok p -> inject_Z (10 ^ 19) <= Qabs v -> Qabs v < inject_Z (2 ^ 64) ->
  p_setValue p v = Ok (holding (negb (Qle_bool 0 v)) top).
Proof.
  intros [A B] H1 H2. rewrite p_setValue_big; rewrite ?A, ?B; try lia; try assumption. reflexivity.
Qed.

Lemma sign_flag v : negb (Qle_bool 0 v) = true <-> v < 0.
Proof.
  destruct (Qle_bool 0 v) eqn:E; cbn [negb]; split; intros H; try discriminate; try reflexivity.
  - apply Qle_bool_iff in E. lra.
  - apply Qnot_le_lt. rewrite <- Qle_bool_iff. congruence.
Qed.

Lemma sign_flag_false v : negb (Qle_bool 0 v) = false <-> 0 <= v.
Proof.
  destruct (Qle_bool 0 v) eqn:E; cbn [negb]; split; intros H; try discriminate; try reflexivity.
  - apply Qle_bool_iff in E. exact E.
  - apply Qle_bool_iff in H. congruence.
Qed.

Lemma abs_cases v : (v < 0 /\ Qabs v == - v) \/ (0 <= v /\ Qabs v == v).
Proof.
  destruct (Qlt_le_dec v 0) as [H | H]; [left | right]; split; try exact H.
  - apply Qabs_neg. lra.
  - apply Qabs_pos. exact H.
Qed.

(** Signed form. *)
Lemma set_small_units p v : digits_ok p -> Qabs v < inject_Z (10 ^ 19) ->
  exists r, p_setValue p v = Ok r /\ digits_ok r /\
    Qabs (inject_Z (units r) - v * E6) < 5000002 # 10000000 /\
    (p_negative r = true <-> v < 0).
Proof.
  intros D H. destruct (set_small p v D H) as (K & K1 & K2 & K3).
  exists (holding (negb (Qle_bool 0 v)) K). split; [exact K3 | ]. split; [split; reflexivity | ].
  split; [ | apply sign_flag].
  rewrite units_holding. apply Qabs_Qlt_condition in K2.
  destruct (abs_cases v) as [[S E] | [S E]].
  - rewrite (proj2 (sign_flag v) S). rewrite inject_Z_opp. apply Qabs_Qlt_condition. lra.
  - rewrite (proj2 (sign_flag_false v) S). apply Qabs_Qlt_condition. lra.
Qed.

Lemma inject_eq n m : Qabs (inject_Z n - inject_Z m) < 1 -> n = m.
Proof. intros H. apply Qabs_Qlt_condition in H. apply inject_half; lra. Qed.

(** A value within half a unit of K millionths is stored as K millionths. *)
Lemma set_near p v U : digits_ok p -> Qabs v < inject_Z (10 ^ 19) ->
  Qabs (v * E6 - inject_Z U) <= 4999998 # 10000000 ->
  exists r, p_setValue p v = Ok r /\ digits_ok r /\ units r = U /\ (p_negative r = true <-> v < 0).
Proof.
  intros D H N. destruct (set_small_units p v D H) as (r & R1 & R2 & R3 & R4).
  exists r. do 2 (split; [assumption | ]). split; [ | assumption].
  apply inject_eq. apply Qabs_Qlt_condition in R3. apply Qabs_Qle_condition in N. apply Qabs_Qlt_condition. lra.
Qed.

Lemma ld_near a z K :
  is_ld a -> 0 <= a -> a < inject_Z (10 ^ 19) ->
  Qabs (inject_Z K - a * E6) < 5000002 # 10000000 ->
  Qabs (z - inject_Z K / E6) <= 1 # 1000000000000 ->
  ((K mod 10 ^ 6 = 0)%Z -> z == inject_Z K / E6) ->
  ld z == a \/ (Qabs (ld z) < inject_Z (10 ^ 19) /\ Qabs (ld z * E6 - inject_Z K) <= 4999998 # 10000000).
Proof.
  intros Fa Ha Ha2 HK Hz Hex. apply Qabs_Qlt_condition in HK. apply Qabs_Qle_condition in Hz.
  assert (Hy : inject_Z K / E6 * 1000000 == inject_Z K) by (field; discriminate).
  set (y := inject_Z K / E6) in *.
  clearbody y.
  assert (P44 : pow2 44 == inject_Z (2 ^ 44)) by reflexivity.
  assert (N44 : inject_Z (2 ^ 44) == 17592186044416) by reflexivity.
  destruct (Qlt_le_dec a (inject_Z (2 ^ 44))) as [L | L].
  - right.
    assert (B : (K <= 2 ^ 44 * 10 ^ 6)%Z).
    { apply Z.lt_succ_r. rewrite Zlt_Qlt. unfold Z.succ. rewrite inject_Z_plus, inject_Z_mult. change (inject_Z 1) with 1. change (inject_Z (10 ^ 6)) with 1000000. lra. }
    assert (B0 : (0 <= K)%Z).
    { apply Z.lt_succ_r. rewrite Zlt_Qlt. unfold Z.succ. rewrite inject_Z_plus. change (inject_Z 1) with 1. change (inject_Z 0) with 0. lra. }
    assert (B0q : 0 <= inject_Z K) by (change 0 with (inject_Z 0); rewrite <- Zle_Qle; exact B0).
    assert (T19 : inject_Z (10 ^ 19) == 10000000000000000000) by reflexivity.
    destruct (Z.eq_dec K (2 ^ 44 * 10 ^ 6)) as [E | E].
    + assert (Kq : inject_Z K == 17592186044416 * 1000000) by (rewrite E; reflexivity).
      assert (Ez : z == 17592186044416).
      { rewrite Hex by (rewrite E, Z.mod_mul; [reflexivity | discriminate]). lra. }
      assert (El : ld z == 17592186044416) by (rewrite Ez; change 17592186044416 with (inject_Z 17592186044416); apply ld_Z; reflexivity).
      split.
      * rewrite El, T19. reflexivity.
      * rewrite El, Kq. discriminate.
    + assert (Kq : inject_Z K <= 17592186044416 * 1000000 - 1).
      { change (17592186044416 * 1000000 - 1) with (inject_Z (2 ^ 44 * 10 ^ 6 - 1)). rewrite <- Zle_Qle. lia. }
      assert (Zb : Qabs z < pow2 44) by (apply Qabs_Qlt_condition; rewrite P44, N44; split; lra).
      assert (Er : Qabs (ld z - z) <= pow2 (44 - 65)) by (apply ld_error; exact Zb).
      apply Qabs_Qle_condition in Er. apply Qabs_Qlt_condition in Zb. rewrite P44, N44 in Zb.
      assert (P21 : pow2 (44 - 65) == 1 # 2097152) by reflexivity. rewrite P21 in Er.
      split.
      * apply Qabs_Qlt_condition. rewrite T19. lra.
      * apply Qabs_Qle_condition. lra.
  - left.
    assert (Pa : 0 < a) by lra.
    destruct (fits_pos 64 a ltac:(lia) Fa Pa) as (m & e & Hm & Ea).
    assert (He : (-20 < e)%Z).
    { assert (pow2 44 < pow2 (64 + e)).
      { rewrite pow2_add, (pow2_nonneg 64) by lia. pose proof (pow2_pos e).
        assert (inject_Z m < inject_Z (2 ^ 64)) by (rewrite <- Zlt_Qlt; lia). rewrite P44. nra. }
      apply pow2_lt_inv in H. lia. }
    assert (P19 : pow2 (-19) <= pow2 e) by (apply pow2_le; lia).
    assert (V19 : pow2 (-19) == 1 # 524288) by reflexivity.
    destruct (Z.eq_dec m (2 ^ 63)) as [Em | Em].
    + assert (Ei : a == inject_Z (2 ^ (63 + e))).
      { rewrite Ea, Em. rewrite <- (pow2_nonneg (63 + e)) by lia. rewrite pow2_add, (pow2_nonneg 63) by lia. reflexivity. }
      assert (EKa : K = (2 ^ (63 + e) * 10 ^ 6)%Z).
      { apply inject_eq. rewrite inject_Z_mult. change (inject_Z (10 ^ 6)) with 1000000. apply Qabs_Qlt_condition. rewrite <- Ei. lra. }
      assert (Ez : z == a).
      { rewrite Hex by (rewrite EKa, Z.mod_mul; [reflexivity | discriminate]).
        assert (inject_Z K == a * 1000000) by (rewrite EKa, inject_Z_mult, Ei; reflexivity). lra. }
      rewrite Ez. apply ld_exact, Fa.
    + assert (Hlo : pow2 (e + (64 - 1)) + pow2 e <= a).
      { rewrite Ea, Z.add_comm, pow2_add, (pow2_nonneg (64 - 1)) by lia. pose proof (pow2_pos e).
        assert (inject_Z (2 ^ (64 - 1)) + 1 <= inject_Z m).
        { change 1 with (inject_Z 1). rewrite <- inject_Z_plus, <- Zle_Qle. change (2 ^ (64 - 1))%Z with (2 ^ 63)%Z in *. lia. }
        nra. }
      assert (He2 : pow2 e == 2 * pow2 (e - 1)) by (rewrite <- pow2_succ; replace (e - 1 + 1)%Z with e by lia; reflexivity).
      assert (Hp : 0 < pow2 (e + (64 - 1))) by apply pow2_pos.
      assert (Hzpos : pow2 (e + (64 - 1)) <= z) by lra.
      unfold ld, round_to. destruct (Qcompare_spec z 0) as [Z | Z | Z]; try lra.
      rewrite Ea. apply round_pos_near; [lia | exact Hm | exact Hzpos | ].
      apply Qabs_Qlt_condition. rewrite <- Ea. lra.
Qed.

Lemma toString_zero p : (0 <= p_integer p)%Z -> (0 <= p_decimal p)%Z -> p_dec_digits p = 6%Z -> units p = 0%Z -> toString p = ["0"%char].
Proof.
  intros A B C H. unfold units in H. rewrite C in H.
  assert (p_integer p = 0%Z /\ p_decimal p = 0%Z) as [E1 E2] by (destruct (p_negative p); lia).
  unfold toString, p_toString. rewrite E1, E2. reflexivity.
Qed.

Lemma holding_bounds neg K : (0 <= K)%Z ->
  (0 <= p_integer (holding neg K))%Z /\ (0 <= p_decimal (holding neg K) < 10 ^ 6)%Z /\ p_dec_digits (holding neg K) = 6%Z.
Proof.
  intros H. cbn [holding p_integer p_decimal p_dec_digits].
  pose proof (Z.mod_pos_bound K (10 ^ 6)). pose proof (Z.div_pos K (10 ^ 6)). lia.
Qed.

Lemma amount_holding neg K : amount (holding neg K) == (if neg then - (inject_Z K / E6) else inject_Z K / E6).
Proof.
  unfold amount. rewrite units_holding. cbn [holding p_dec_digits]. change (inject_Z (10 ^ 6)) with E6.
  destruct neg; [rewrite inject_Z_opp; field; discriminate | reflexivity].
Qed.

(** Setting a decimal to (nearly) what another one holds gives the same decimal. *)
Lemma set_again p q v r z :
  digits_ok p -> digits_ok q -> is_ld v -> p_setValue p v = Ok r ->
  Qabs (z - amount r) <= 1 # 1000000000000 -> (p_decimal r = 0%Z -> z == amount r) ->
  exists r', p_setValue q (ld z) = Ok r' /\ units r' = units r /\ toString r' = toString r.
Proof.
  intros Dp Dq Fv Hset Hz Hex.
  destruct (Qlt_le_dec (Qabs v) (inject_Z (2 ^ 64))) as [Hv | Hv];
    [ | rewrite p_setValue_UB in Hset by exact Hv; discriminate].
  assert (Fa : is_ld (Qabs v)).
  { destruct (abs_cases v) as [[S E] | [S E]].
    - destruct (fits_opp 64 v Fv) as (m & e & A & B). exists m, e. split; [exact A | rewrite E; exact B].
    - destruct Fv as (m & e & A & B). exists m, e. split; [exact A | rewrite E; exact B]. }
  pose proof (Qabs_nonneg v) as Hnn.
  destruct (Qlt_le_dec (Qabs v) (inject_Z (10 ^ 19))) as [Hs | Hl].
  - destruct (set_small p v Dp Hs) as (K & K0 & K1 & K2). rewrite K2 in Hset. injection Hset as Hr. subst r.
    set (neg := negb (Qle_bool 0 v)) in *.
    set (z0 := if neg then - z else z).
    rewrite (amount_holding neg K) in Hz, Hex. apply Qabs_Qle_condition in Hz.
    assert (Hz0 : Qabs (z0 - inject_Z K / E6) <= 1 # 1000000000000).
    { unfold z0. apply Qabs_Qle_condition. destruct neg; lra. }
    assert (Hex0 : (K mod 10 ^ 6 = 0)%Z -> z0 == inject_Z K / E6).
    { intros X. specialize (Hex X). unfold z0. destruct neg; rewrite Hex; ring. }
    destruct (holding_bounds neg K K0) as (HB1 & HB2 & HB3).
    destruct (Z.eq_dec K 0) as [KZ | KZ].
    + (* nothing left *)
      assert (Ez : z == 0).
      { rewrite KZ in Hex. rewrite Hex by reflexivity. destruct neg; reflexivity. }
      destruct (set_near q (ld z) 0 Dq) as (r' & R1 & R2 & R3 & R4).
      { rewrite Ez. reflexivity. }
      { rewrite Ez. discriminate. }
      exists r'. split; [exact R1 | ]. rewrite R3, (units_holding neg K), KZ.
      split; [destruct neg; reflexivity | ].
      assert (Et : toString (holding neg 0) = ["0"%char]) by (destruct neg; reflexivity).
      rewrite Et.
      assert (R1' : p_setValue q (ld z) = p_setValue q 0) by (apply p_setValue_eq; rewrite Ez; reflexivity).
      rewrite R1' in R1. destruct Dq as [D1 D2]. 
      destruct (set_small q 0) as (K' & X1 & X2 & X3); [split; assumption | reflexivity | ].
      rewrite X3 in R1. injection R1 as R1. subst r'.
      destruct (holding_bounds (negb (Qle_bool 0 0)) K' X1) as (Y1 & Y2 & Y3).
      apply toString_zero; [exact Y1 | exact (proj1 Y2) | exact Y3 | exact R3].
    + assert (Kpos : 1 <= inject_Z K) by (change 1 with (inject_Z 1); rewrite <- Zle_Qle; lia).
      assert (Ypos : 1 # 1000000 <= inject_Z K / E6).
      { assert (inject_Z K / E6 * 1000000 == inject_Z K) by (field; discriminate). lra. }
      assert (Zpos : 0 < z0) by (apply Qabs_Qle_condition in Hz0; lra).
      assert (Hflag : negb (Qle_bool 0 (ld z)) = neg).
      { destruct (ld_sign z) as (S1 & S2 & _). unfold z0 in Zpos. destruct neg.
        - apply sign_flag, S2. lra.
        - apply sign_flag_false. apply Qlt_le_weak, S1. lra. }
      assert (Hldz : Qabs (ld z) == ld z0).
      { destruct (ld_sign z0) as (S1 & _ & _). unfold z0 in *. destruct neg.
        - rewrite ld_neg in *. apply Qabs_neg. specialize (S1 Zpos). lra.
        - apply Qabs_pos. specialize (S1 Zpos). lra. }
      destruct (ld_near (Qabs v) z0 K Fa Hnn Hs K1 Hz0 Hex0) as [N | [N1 N2]].
      * assert (Hs2 : Qabs (ld z) < inject_Z (10 ^ 19)) by (rewrite Hldz, N; exact Hs).
        assert (Evz : ld z == v).
        { assert (Qabs (ld z) == Qabs v) as X by (rewrite Hldz; exact N).
          destruct (abs_cases v) as [[S E] | [S E]]; destruct (abs_cases (ld z)) as [[S' E'] | [S' E']]; rewrite E, E' in X; try lra.
          - apply sign_flag in S. fold neg in S. rewrite S in Hflag. apply sign_flag in Hflag. lra.
          - apply sign_flag_false in S. fold neg in S. rewrite S in Hflag. apply sign_flag_false in Hflag. lra. }
        exists (holding neg K). rewrite (p_setValue_eq q _ _ Evz), (p_setValue_digits q p v Dq Dp). auto.
      * destruct (set_small q (ld z) Dq) as (K' & K0' & K1' & K2').
        { rewrite Hldz. apply Qabs_Qlt_condition in N1. lra. }
        assert (EK : K' = K).
        { apply inject_eq. rewrite Hldz in K1'. apply Qabs_Qlt_condition in K1'. apply Qabs_Qle_condition in N2. apply Qabs_Qlt_condition. lra. }
        subst K'. exists (holding neg K). rewrite K2', Hflag. auto.
  - rewrite (set_large p v Dp Hl Hv) in Hset. injection Hset as Hr. subst r.
    set (neg := negb (Qle_bool 0 v)) in *.
    rewrite (amount_holding neg top) in Hz. apply Qabs_Qle_condition in Hz.
    assert (Ht : inject_Z top / E6 == 10000000000000000000 - (1 # 1000000)) by reflexivity.
    assert (T19 : inject_Z (10 ^ 19) == 10000000000000000000) by reflexivity.
    assert (Q64 : inject_Z (2 ^ 64) == 18446744073709551616) by reflexivity.
    set (z0 := if neg then - z else z).
    assert (Hz0 : ld z0 == inject_Z (10 ^ 19)).
    { assert (B : 10000000000000000000 - 1 < z0 * 1 /\ Qabs (z0 - inject_Z (10 ^ 19) * pow2 0) < pow2 (0 - 1)).
      { unfold z0. assert (X : pow2 (0 - 1) == 1 # 2) by reflexivity. assert (Y : pow2 0 == 1) by reflexivity.
        rewrite X, Y, T19. split; [destruct neg; lra | ]. apply Qabs_Qlt_condition. destruct neg; lra. }
      destruct B as [B1 B2].
      unfold ld, round_to. destruct (Qcompare_spec z0 0) as [Z | Z | Z]; try lra.
      rewrite (round_pos_near 64 z0 (10 ^ 19) 0); [change (pow2 0) with 1; ring | lia | split; vm_compute; [discriminate | reflexivity] | | exact B2].
      assert (X : pow2 (0 + (64 - 1)) == 9223372036854775808) by reflexivity. rewrite X. lra. }
    assert (Eld : ld z == if neg then - inject_Z (10 ^ 19) else inject_Z (10 ^ 19)).
    { unfold z0 in Hz0. destruct neg; [ | exact Hz0]. rewrite ld_neg in Hz0. lra. }
    exists (holding neg top). rewrite (p_setValue_eq q _ _ Eld).
    assert (Hflag : negb (Qle_bool 0 (if neg then - inject_Z (10 ^ 19) else inject_Z (10 ^ 19))) = neg) by (destruct neg; reflexivity).
    rewrite set_large; [ | exact Dq | destruct neg; vm_compute; discriminate | destruct neg; vm_compute; reflexivity].
    rewrite Hflag. split; [reflexivity | split; reflexivity].
Qed.
