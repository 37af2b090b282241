(** PreciseDecimals with any number of digits after the point. *)
From Coq Require Import List Ascii String ZArith QArith Qround Qabs Bool Lia Lqa.
From Verif Require Import Model.Base Model.Text Model.LongDouble Model.Decimals Spec.Numerals Spec.DecimalText Proofs.Tac Proofs.TextProofs Proofs.LongDoubleProofs Proofs.DecimalsProofs Proofs.DecimalsText Proofs.DecimalsStore Proofs.DecimalsRange.
Import ListNotations.
Local Open Scope Q_scope.

Lemma pow10_wide d : (1 <= d <= 19)%Z -> (1 <= 10 ^ d <= 10 ^ 19)%Z.
Proof. intros H. split; [pose proof (Z.pow_pos_nonneg 10 d); lia | ]. apply Z.pow_le_mono_r; lia. Qed.

(** A power of two above 10^d and not above twice as much. *)
Definition wide_exponent (d : Z) : Z := (Z.log2 (10 ^ d) + 1)%Z.
Lemma wide_exponent_ok d : (1 <= d <= 19)%Z ->
  inject_Z (10 ^ d) < pow2 (wide_exponent d) /\ pow2 (wide_exponent d - 65) <= inject_Z (10 ^ d) * (1 # 2 ^ 64).
Proof.
  intros H.
  assert (E : forallb (fun n => let d := Z.of_nat n in negb (Qle_bool (pow2 (wide_exponent d)) (inject_Z (10 ^ d))) && Qle_bool (pow2 (wide_exponent d - 65)) (inject_Z (10 ^ d) * (1 # 2 ^ 64))) (seq 1 19) = true)
    by (vm_compute; reflexivity).
  rewrite forallb_forall in E. specialize (E (Z.to_nat d)). rewrite in_seq in E. specialize (E ltac:(lia)). cbv zeta in E. rewrite Z2Nat.id in E by lia.
  apply andb_prop in E. destruct E as [E1 E2]. split; [ | apply Qle_bool_iff; exact E2].
  apply Qnot_le_lt. intros C. apply Qle_bool_iff in C. rewrite C in E1. discriminate E1.
Qed.

Lemma digits_wide a i d :
  (1 <= d <= 19)%Z -> (0 <= i < 2 ^ 64)%Z -> inject_Z i <= a -> a < inject_Z i + 1 ->
  (0 <= digits_after a i d <= 10 ^ d)%Z /\
  Qabs (inject_Z (digits_after a i d) - (a - inject_Z i) * inject_Z (10 ^ d)) < (5000002 # 10000000) + inject_Z (10 ^ d) * (5 # 2 ^ 65).
Proof.
  intros Hd Hi A B. unfold digits_after. pose proof (pow10_wide d Hd) as [M1 M2]. assert (T : (10 ^ 19 < 2 ^ 64)%Z) by reflexivity.
  assert (Hu : of_u64 (10 ^ d) == inject_Z (10 ^ d)) by (apply of_u64_value; lia).
  assert (M1q : 1 <= inject_Z (10 ^ d)) by (change 1 with (inject_Z 1); rewrite <- Zle_Qle; exact M1).
  destruct (wide_exponent_ok d Hd) as [W1 W2].
  assert (FM : is_ld (inject_Z (10 ^ d))) by (apply (is_ld_Z (10 ^ d)); lia).
  assert (F0 : is_ld 0) by (apply (is_ld_Z 0); reflexivity). assert (F1' : is_ld 1) by (apply (is_ld_Z 1); reflexivity).
  set (M := inject_Z (10 ^ d)) in *. set (e := wide_exponent d) in *.
  set (f := a - of_u64 i). assert (Ef : f == a - inject_Z i) by (unfold f; rewrite (of_u64_value i Hi); reflexivity).
  assert (F1 : Qabs (ld f - f) <= pow2 (0 - 65)) by (apply ld_error, Qabs_Qlt_condition; change (pow2 0) with 1; lra).
  apply Qabs_Qle_condition in F1. assert (P65 : pow2 (0 - 65) == 1 # 2 ^ 65) by reflexivity.
  assert (L0 : 0 <= ld f) by (apply ld_ge; [exact F0 | lra]). assert (L1 : ld f <= 1) by (apply ld_le; [exact F1' | lra]).
  set (f1 := ld f) in *. set (g := f1 * of_u64 (10 ^ d)). assert (Eg : g == f1 * M) by (unfold g; rewrite Hu; reflexivity).
  assert (G0 : 0 <= g) by (rewrite Eg; nra). assert (GM : g <= M) by (rewrite Eg; nra).
  assert (G1 : Qabs (ld g - g) <= pow2 (e - 65)) by (apply ld_error, Qabs_Qlt_condition; lra). apply Qabs_Qle_condition in G1.
  assert (L2 : 0 <= ld g) by (apply ld_ge; [exact F0 | lra]). assert (L3 : ld g <= M) by (apply ld_le; [exact FM | lra]).
  destruct POINT_FIVE_bounds as [PF0 PF]. apply Qabs_Qle_condition in PF. assert (FP : is_ld (- (1 # 2))) by (exists (-1)%Z, (-1)%Z; split; reflexivity).
  set (g1 := ld g) in *.
  assert (H1 : Qabs (ld (g1 - POINT_FIVE) - (g1 - POINT_FIVE)) <= pow2 (e - 65)) by (apply ld_error, Qabs_Qlt_condition; generalize dependent POINT_FIVE; intros; split; lra).
  apply Qabs_Qle_condition in H1.
  assert (L4 : - (1 # 2) <= ld (g1 - POINT_FIVE)) by (apply ld_ge; [exact FP | generalize dependent POINT_FIVE; intros; lra]).
  assert (L5 : ld (g1 - POINT_FIVE) <= M) by (apply ld_le; [exact FM | generalize dependent POINT_FIVE; intros; lra]).
  destruct (ceiling_bounds (ld (g1 - POINT_FIVE))) as [C1 C2]. set (z := Qceiling (ld (g1 - POINT_FIVE))) in *.
  split; [split | ].
  - apply Z.lt_succ_r. rewrite Zlt_Qlt. unfold Z.succ. rewrite inject_Z_plus. change (inject_Z 1) with 1. change (inject_Z 0) with 0. generalize dependent POINT_FIVE. intros. lra.
  - apply Z.lt_succ_r. rewrite Zlt_Qlt. unfold Z.succ. rewrite inject_Z_plus. change (inject_Z 1) with 1. fold M. lra.
  - assert (Emid : f1 * M - (a - inject_Z i) * M == (f1 - f) * M) by (rewrite Ef; ring).
    assert (Hmid : - ((1 # 2 ^ 65) * M) <= (f1 - f) * M /\ (f1 - f) * M <= (1 # 2 ^ 65) * M) by (apply mult_bound; lra).
    assert (T5 : M * (5 # 2 ^ 65) == M * (1 # 2 ^ 64) + M * (1 # 2 ^ 64) + (1 # 2 ^ 65) * M) by (assert (X : 5 # 2 ^ 65 == (1 # 2 ^ 64) + (1 # 2 ^ 64) + (1 # 2 ^ 65)) by reflexivity; rewrite X; ring).
    rewrite T5. set (u := M * (1 # 2 ^ 64)) in *. set (w := (1 # 2 ^ 65) * M) in *. set (k := inject_Z z) in *.
    apply Qabs_Qlt_condition. clear - Emid Hmid Eg G1 W2 PF H1 C1 C2. clearbody g g1 k f f1 M u w. generalize dependent (pow2 (e - 65)). generalize dependent POINT_FIVE. intros. split; lra.
Qed.

(** setValue stores K units. *)
Lemma p_setValue_wide p v :
  (1 <= p_int_digits p <= 19)%Z -> (1 <= p_dec_digits p <= 19)%Z ->
  Qabs v < inject_Z (10 ^ p_int_digits p) ->
  exists K : Z,
    (0 <= K <= 10 ^ p_int_digits p * 10 ^ p_dec_digits p)%Z /\
    Qabs (inject_Z K - Qabs v * inject_Z (10 ^ p_dec_digits p)) < (5000002 # 10000000) + inject_Z (10 ^ p_dec_digits p) * (5 # 2 ^ 65) /\
    p_setValue p v = Ok (mkPrecise (negb (Qle_bool 0 v)) (K / 10 ^ p_dec_digits p) (K mod 10 ^ p_dec_digits p)
                                   (p_int_digits p) (p_dec_digits p)).
Proof.
  intros Hn Hd Hv. unfold p_setValue.
  set (neg := negb (Qle_bool 0 v)).
  assert (Ea : (if neg then - v else v) == Qabs v).
  { unfold neg. destruct (Qle_bool 0 v) eqn:E; cbn [negb].
    - apply Qle_bool_iff in E. rewrite Qabs_pos by exact E. reflexivity.
    - assert (~ 0 <= v) by (rewrite <- Qle_bool_iff; congruence). rewrite Qabs_neg by lra. reflexivity. }
  set (a := if neg then - v else v) in *.
  pose proof (Qabs_nonneg v) as Hnn.
  assert (HnP : (10 ^ p_int_digits p <= 10 ^ 19)%Z) by (apply Z.pow_le_mono_r; lia).
  assert (HnQ : inject_Z (10 ^ p_int_digits p) <= inject_Z (10 ^ 19)) by (rewrite <- Zle_Qle; exact HnP).
  assert (H1964 : inject_Z (10 ^ 19) < inject_Z (2 ^ 64)) by reflexivity.
  rewrite (to_u64_ok a) by lra. cbn [obind].
  destruct (floor_bounds a) as [C D]. set (i := Qfloor a) in *.
  assert (Hi0 : (0 <= i)%Z).
  { apply Z.lt_succ_r. rewrite Zlt_Qlt. unfold Z.succ. rewrite inject_Z_plus. change (inject_Z 1) with 1. change (inject_Z 0) with 0. lra. }
  assert (Hi1 : (i < 10 ^ p_int_digits p)%Z) by (rewrite Zlt_Qlt; lra).
  assert (Hmax : max_integer p = (10 ^ p_int_digits p - 1)%Z).
  { unfold max_integer. rewrite findMax_value by lia. rewrite Z2Nat.id by lia. reflexivity. }
  assert (Hmaxd : max_decimal p = (10 ^ p_dec_digits p - 1)%Z).
  { unfold max_decimal. rewrite findMax_value by lia. rewrite Z2Nat.id by lia. reflexivity. }
  rewrite Hmax, Hmaxd.
  assert ((10 ^ p_int_digits p - 1 <? i)%Z = false) as -> by (apply Z.ltb_ge; lia).
  rewrite powerMultiplier_value by lia. cbn [obind].
  fold (digits_after a i (p_dec_digits p)).
  assert (T : (10 ^ 19 < 2 ^ 64)%Z) by reflexivity.
  assert (Hi64 : (0 <= i < 2 ^ 64)%Z) by (split; [exact Hi0 | lia]).
  destruct (digits_wide a i (p_dec_digits p) Hd Hi64 C D) as [[K0 K1] N].
  pose proof (pow10_wide (p_dec_digits p) Hd) as [M1 M2].
  set (k := digits_after a i (p_dec_digits p)) in *. set (M := (10 ^ p_dec_digits p)%Z) in *.
  rewrite to_u64_Z by lia. cbn [obind].
  exists (i * M + k)%Z. split; [nia | ]. split.
  - assert (X : inject_Z (i * M + k) - Qabs v * inject_Z M == inject_Z k - (a - inject_Z i) * inject_Z M) by (rewrite inject_Z_plus, inject_Z_mult, <- Ea; ring).
    rewrite X. exact N.
  - destruct (M - 1 <? k)%Z eqn:Ek; bool_hyps.
    + assert (Ekm : k = M) by lia.
      assert (E64 : u64 (i + 1) = (i + 1)%Z) by (unfold u64; apply Z.mod_small; lia).
      rewrite E64. f_equal. f_equal.
      * rewrite Ekm. replace (i * M + M)%Z with ((i + 1) * M)%Z by ring. rewrite Z.div_mul by lia. reflexivity.
      * rewrite Ekm. replace (i * M + M)%Z with ((i + 1) * M)%Z by ring. rewrite Z.mod_mul by lia. reflexivity.
    + f_equal. f_equal.
      * rewrite Z.div_add_l by lia. rewrite Z.div_small by lia. lia.
      * rewrite Z.add_comm, Z.mod_add by lia. rewrite Z.mod_small by lia. reflexivity.
Qed.

Lemma nearest_wide n d v : (1 <= n <= 19)%Z -> (1 <= d <= 19)%Z -> Qabs v < inject_Z (10 ^ n) ->
  exists p, new_precise n d v = Ok p /\ p_int_digits p = n /\ p_dec_digits p = d /\
    (0 <= p_integer p <= 10 ^ n)%Z /\ (0 <= p_decimal p < 10 ^ d)%Z /\
    Qabs (amount p - v) < (5000002 # 10000000) / inject_Z (10 ^ d) + (5 # 2 ^ 65).
Proof.
  intros Hn Hd Hv. unfold new_precise.
  assert (C1 : clamp_digits n = n) by (unfold clamp_digits; destruct (n <? 1)%Z eqn:A; destruct (19 <? n)%Z eqn:B; bool_hyps; lia).
  assert (C2 : clamp_digits d = d) by (unfold clamp_digits; destruct (d <? 1)%Z eqn:A; destruct (19 <? d)%Z eqn:B; bool_hyps; lia).
  rewrite C1, C2.
  destruct (p_setValue_wide (mkPrecise false 0 0 n d) v) as (K & K0 & K1 & K2); cbn [p_int_digits p_dec_digits]; try lia; [exact Hv | ].
  cbn [p_int_digits p_dec_digits] in K0, K1, K2. eexists. split; [exact K2 | ].
  cbn [p_int_digits p_dec_digits p_integer p_decimal]. split; [reflexivity | ]. split; [reflexivity | ].
  pose proof (Z.pow_pos_nonneg 10 d) as P. pose proof (Z.mod_pos_bound K (10 ^ d)).
  assert (PQ : 0 < inject_Z (10 ^ d)) by (change 0 with (inject_Z 0); rewrite <- Zlt_Qlt; lia).
  apply Qabs_Qlt_condition in K1.
  split; [split; [apply Z.div_pos; lia | apply Z.div_le_upper_bound; lia] | ].
  split; [lia | ].
  set (M := inject_Z (10 ^ d)) in *.
  assert (Ea : forall neg, amount (mkPrecise neg (K / 10 ^ d) (K mod 10 ^ d) n d) == (if neg then - (inject_Z K / M) else inject_Z K / M)).
  { intros neg. unfold amount, units. cbn [p_integer p_decimal p_dec_digits p_negative]. fold M.
    assert (K / 10 ^ d * 10 ^ d + K mod 10 ^ d = K)%Z as -> by (pose proof (Z.div_mod K (10 ^ d)); lia).
    destruct neg; [rewrite inject_Z_opp; field; lra | reflexivity]. }
  rewrite Ea. assert (EM : inject_Z K / M * M == inject_Z K) by (field; lra).
  set (y := inject_Z K / M) in *.
  assert (ET : ((5000002 # 10000000) / M + (5 # 2 ^ 65)) * M == (5000002 # 10000000) + M * (5 # 2 ^ 65)) by (field; lra).
  set (t := (5000002 # 10000000) / M + (5 # 2 ^ 65)) in *. rewrite <- ET in K1. clear ET. clearbody y t M.
  destruct (abs_cases v) as [[S E] | [S E]].
  - rewrite (proj2 (sign_flag v) S). rewrite E in K1. apply Qabs_Qlt_condition. split; nra.
  - rewrite (proj2 (sign_flag_false v) S). rewrite E in K1. apply Qabs_Qlt_condition. split; nra.
Qed.

(** With 19 digits the error can be three quarters of a unit. *)
Definition off_value : Q := 10376293541461622861 # 2 ^ 64.
Lemma wide_refuted : ~ (forall n d v p, (1 <= n <= 19)%Z -> (1 <= d <= 19)%Z -> is_ld v -> Qabs v < inject_Z (10 ^ n) -> new_precise n d v = Ok p ->
  Qabs (amount p - v) < (5000002 # 10000000) / inject_Z (10 ^ d)).
Proof.
  intros H. destruct (nearest_wide 1 19 off_value) as (p & E & _); [lia .. | reflexivity | ].
  assert (F : is_ld off_value) by (exists 10376293541461622861%Z, (-64)%Z; split; reflexivity).
  specialize (H 1%Z 19%Z off_value p ltac:(lia) ltac:(lia) F eq_refl E).
  assert (V : match new_precise 1 19 off_value with Ok q => Qle_bool ((5000002 # 10000000) / inject_Z (10 ^ 19)) (Qabs (amount q - off_value)) | _ => false end = true) by (vm_compute; reflexivity).
  rewrite E in V. apply Qle_bool_iff in V. exact (Qle_not_lt _ _ V H).
Qed.
