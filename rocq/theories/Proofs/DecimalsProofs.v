From Coq Require Import List Ascii String ZArith QArith Qround Qabs Qpower Bool Lia Lqa.
From Verif Require Import Model.Base Model.Text Model.LongDouble Model.Decimals
  Spec.Numerals Spec.DecimalText Proofs.Tac Proofs.TextProofs Proofs.LongDoubleProofs.
Import ListNotations.
Open Scope Q_scope.

Lemma findMax_value n : (n <= 19)%nat -> findMax n = (10 ^ Z.of_nat n - 1)%Z.
Proof.
  intros H.
  assert (E : forallb (fun n => findMax n =? 10 ^ Z.of_nat n - 1)%Z (seq 0 20) = true) by (vm_compute; reflexivity).
  rewrite forallb_forall in E. apply Z.eqb_eq, E, in_seq. lia.
Qed.

Lemma powerMultiplier_value d : (1 <= d <= 19)%Z -> powerMultiplier d = Ok (10 ^ d)%Z.
Proof.
  intros H.
  assert (E : forallb (fun n => match powerMultiplier (Z.of_nat n) with Ok z => z =? 10 ^ Z.of_nat n | _ => false end)%Z (seq 1 19) = true)
    by (vm_compute; reflexivity).
  rewrite forallb_forall in E. specialize (E (Z.to_nat d)). rewrite in_seq in E.
  rewrite Z2Nat.id in E by lia. destruct (powerMultiplier d) as [z | | ]; try (specialize (E ltac:(lia)); discriminate).
  specialize (E ltac:(lia)). apply Z.eqb_eq in E. congruence.
Qed.

Lemma express_mult d : (1 <= d <= 19)%Z ->
  Qceiling (ld (inject_Z (10 ^ d) - (1 # 2))) = (10 ^ d)%Z.
Proof.
  intros H.
  assert (E : forallb (fun n => Qceiling (ld (inject_Z (10 ^ Z.of_nat n) - (1 # 2))) =? 10 ^ Z.of_nat n)%Z (seq 1 19) = true)
    by (vm_compute; reflexivity).
  rewrite forallb_forall in E. specialize (E (Z.to_nat d)). rewrite in_seq in E.
  rewrite Z2Nat.id in E by lia. apply Z.eqb_eq, E. lia.
Qed.

Lemma POINT_FIVE_bounds : 4999998 # 10000000 < POINT_FIVE /\ Qabs (POINT_FIVE - (4999999 # 10000000)) <= 1 # 1000000000000.
Proof. split; vm_compute; [reflexivity | discriminate]. Qed.

Lemma to_u64_ok x : 0 <= x -> x < inject_Z (2 ^ 64) -> to_u64 x = Ok (Qfloor x).
Proof.
  intros A B. unfold to_u64. destruct (floor_bounds x) as [C D].
  assert (Qle_bool 0 x = true) as -> by (apply Qle_bool_iff; exact A).
  assert (0 <= Qfloor x)%Z.
  { apply Z.lt_succ_r. rewrite Zlt_Qlt. unfold Z.succ. rewrite inject_Z_plus. change (inject_Z 1) with 1. change (inject_Z 0) with 0. lra. }
  assert (Qfloor x < 2 ^ 64)%Z by (rewrite Zlt_Qlt; lra).
  assert ((0 <=? Qfloor x)%Z = true) as -> by (apply Z.leb_le; lia).
  assert ((Qfloor x <? 2 ^ 64)%Z = true) as -> by (apply Z.ltb_lt; lia). reflexivity.
Qed.

Lemma to_u64_Z z : (0 <= z < 2 ^ 64)%Z -> to_u64 (inject_Z z) = Ok z.
Proof.
  intros H. rewrite to_u64_ok.
  - f_equal. apply floor_unique; lra.
  - change 0 with (inject_Z 0). rewrite <- Zle_Qle. lia.
  - rewrite <- Zlt_Qlt. lia.
Qed.

Lemma to_u64_big x : inject_Z (2 ^ 64) <= x -> to_u64 x = UB.
Proof.
  intros H. unfold to_u64. assert (0 <= x) by (change 0 with (inject_Z 0); assert (inject_Z 0 <= inject_Z (2 ^ 64)) by discriminate; lra).
  assert (Qle_bool 0 x = true) as -> by (apply Qle_bool_iff; assumption).
  destruct (floor_bounds x) as [C D].
  assert (2 ^ 64 <= Qfloor x)%Z.
  { apply Z.lt_succ_r. rewrite Zlt_Qlt. unfold Z.succ. rewrite inject_Z_plus. change (inject_Z 1) with 1. lra. }
  assert ((Qfloor x <? 2 ^ 64)%Z = false) as -> by (apply Z.ltb_ge; lia).
  rewrite andb_false_r. reflexivity.
Qed.

Lemma to_u64_eq x y : x == y -> to_u64 x = to_u64 y.
Proof.
  intros E. unfold to_u64. rewrite (Qfloor_comp _ _ E), (Qceiling_comp _ _ E).
  assert (Qle_bool 0 x = Qle_bool 0 y) as -> by (rewrite E; reflexivity). reflexivity.
Qed.

Lemma of_u64_value z : (0 <= z < 2 ^ 64)%Z -> of_u64 z == inject_Z z.
Proof. intros H. apply ld_Z. lia. Qed.

Lemma p_setValue_eq p v w : v == w -> p_setValue p v = p_setValue p w.
Proof.
  intros E. unfold p_setValue.
  assert (Qle_bool 0 v = Qle_bool 0 w) as -> by (rewrite E; reflexivity).
  set (neg := negb (Qle_bool 0 w)).
  assert (Ea : (if neg then - v else v) == (if neg then - w else w)) by (destruct neg; rewrite E; reflexivity).
  set (a := if neg then - v else v) in *. set (b := if neg then - w else w) in *. clearbody a b.
  rewrite (to_u64_eq a b Ea). destruct (to_u64 b) as [i | | ]; cbn [obind]; try reflexivity.
  destruct (max_integer p <? i)%Z; [reflexivity | ].
  destruct (powerMultiplier (p_dec_digits p)) as [mu | | ]; cbn [obind]; try reflexivity.
  rewrite (Qceiling_comp (ld (ld (ld (a - of_u64 i) * of_u64 mu) - POINT_FIVE))
                         (ld (ld (ld (b - of_u64 i) * of_u64 mu) - POINT_FIVE))); [reflexivity | ].
  rewrite Ea. reflexivity.
Qed.

(** The digits after the point: the nearest whole number, up to a ten-millionth. *)
Definition digits_after (a : Q) (i d : Z) : Z :=
  Qceiling (ld (ld (ld (a - of_u64 i) * of_u64 (10 ^ d)) - POINT_FIVE)).

Lemma pow10_bound d : (1 <= d <= 11)%Z -> (1 <= 10 ^ d <= 100000000000)%Z.
Proof.
  intros H. split; [pose proof (Z.pow_pos_nonneg 10 d); lia | ].
  change 100000000000%Z with (10 ^ 11)%Z. apply Z.pow_le_mono_r; lia.
Qed.

Lemma mult_bound x e M B : - e <= x -> x <= e -> 0 <= M -> M <= B -> - (e * B) <= x * M /\ x * M <= e * B.
Proof. intros. split; nra. Qed.

Lemma digits_after_near a i d :
  (1 <= d <= 11)%Z -> (0 <= i < 2 ^ 64)%Z -> inject_Z i <= a -> a < inject_Z i + 1 ->
  Qabs (inject_Z (digits_after a i d) - (a - inject_Z i) * inject_Z (10 ^ d)) < 5000002 # 10000000.
Proof.
  intros Hd Hi A B. unfold digits_after.
  pose proof (pow10_bound d Hd) as [M1 M2].
  assert (Hu : of_u64 (10 ^ d) == inject_Z (10 ^ d)) by (apply of_u64_value; lia).
  assert (M1q : 1 <= inject_Z (10 ^ d)) by (change 1 with (inject_Z 1); rewrite <- Zle_Qle; exact M1).
  assert (M2q : inject_Z (10 ^ d) <= 100000000000) by (change 100000000000 with (inject_Z 100000000000); rewrite <- Zle_Qle; exact M2).
  set (M := inject_Z (10 ^ d)) in *.
  set (f := a - of_u64 i).
  assert (Ef : f == a - inject_Z i) by (unfold f; rewrite (of_u64_value i Hi); reflexivity).
  assert (F1 : Qabs (ld f - f) <= pow2 (0 - 65)).
  { apply ld_error. apply Qabs_Qlt_condition. change (pow2 0) with 1. lra. }
  apply Qabs_Qle_condition in F1.
  assert (P65 : pow2 (0 - 65) < 1 # 10000000000000000000) by reflexivity.
  set (f1 := ld f) in *.
  set (g := f1 * of_u64 (10 ^ d)).
  assert (Eg : g == f1 * M) by (unfold g; rewrite Hu; reflexivity).
  assert (P38 : pow2 38 == 274877906944) by reflexivity.
  assert (Hg : Qabs g < pow2 38) by (apply Qabs_Qlt_condition; rewrite Eg, P38; clear - F1 P65 Ef A B M1q M2q;
      destruct (mult_bound f1 2 M 100000000000); lra).
  assert (G1 : Qabs (ld g - g) <= pow2 (38 - 65)) by (apply ld_error; exact Hg).
  apply Qabs_Qle_condition in G1. apply Qabs_Qlt_condition in Hg.
  assert (P27 : pow2 (38 - 65) < 1 # 100000000) by reflexivity.
  destruct POINT_FIVE_bounds as [_ PF]. apply Qabs_Qle_condition in PF.
  set (g1 := ld g) in *.
  assert (H1 : Qabs (ld (g1 - POINT_FIVE) - (g1 - POINT_FIVE)) <= pow2 (39 - 65)).
  { apply ld_error. assert (P39 : pow2 39 == 549755813888) by reflexivity. apply Qabs_Qlt_condition. rewrite P39.
    clear - Hg G1 P27 PF P38. clearbody g g1. generalize dependent POINT_FIVE. intros. split; lra. }
  apply Qabs_Qle_condition in H1.
  assert (P26 : pow2 (39 - 65) < 15 # 1000000000) by reflexivity.
  destruct (ceiling_bounds (ld (g1 - POINT_FIVE))) as [C1 C2].
  set (k := inject_Z (Qceiling (ld (g1 - POINT_FIVE)))) in *.
  assert (Emid : f1 * M - (a - inject_Z i) * M == (f1 - f) * M) by (rewrite Ef; ring).
  assert (Hmid : - (1 # 100000000) <= (f1 - f) * M /\ (f1 - f) * M <= 1 # 100000000) by (clear - F1 P65 M1q M2q; destruct (mult_bound (f1 - f) (1 # 10000000000000000000) M 100000000000) as [X1 X2]; [lra .. | ];
    assert (Y : (1 # 10000000000000000000) * 100000000000 == 1 # 100000000) by reflexivity; rewrite Y in X1, X2; lra).
  apply Qabs_Qlt_condition. clear - Emid Hmid Eg G1 P27 PF H1 P26 C1 C2. clearbody g g1 k f f1 M.
  generalize dependent POINT_FIVE. intros. split; lra.
Qed.

(** setValue stores K units, where K is |v| in units, rounded. *)
Lemma p_setValue_spec p v :
  (1 <= p_int_digits p <= 19)%Z -> (1 <= p_dec_digits p <= 11)%Z ->
  Qabs v < inject_Z (10 ^ p_int_digits p) ->
  exists K : Z,
    (0 <= K)%Z /\
    Qabs (inject_Z K - Qabs v * inject_Z (10 ^ p_dec_digits p)) < 5000002 # 10000000 /\
    p_setValue p v = Ok (mkPrecise (negb (Qle_bool 0 v)) (K / 10 ^ p_dec_digits p) (K mod 10 ^ p_dec_digits p)
                                   (p_int_digits p) (p_dec_digits p)).
Proof.
  intros Hn Hd Hv. unfold p_setValue.
  set (neg := negb (Qle_bool 0 v)).
  assert (Ea : (if neg then - v else v) == Qabs v).
  { unfold neg. destruct (Qle_bool 0 v) eqn:E; cbn [negb].
    - apply Qle_bool_iff in E. rewrite Qabs_pos by exact E. reflexivity.
    - assert (~ 0 <= v) by (rewrite <- Qle_bool_iff; congruence). rewrite Qabs_neg by lra. reflexivity. }
  set (a := if neg then - v else v) in *.
  pose proof (Qabs_nonneg v) as Hnn.
  assert (HnP : (10 ^ p_int_digits p <= 10 ^ 19)%Z) by (apply Z.pow_le_mono_r; lia).
  assert (HnQ : inject_Z (10 ^ p_int_digits p) <= inject_Z (10 ^ 19)) by (rewrite <- Zle_Qle; exact HnP).
  assert (H1964 : inject_Z (10 ^ 19) < inject_Z (2 ^ 64)) by reflexivity.
  rewrite (to_u64_ok a) by lra. cbn [obind].
  destruct (floor_bounds a) as [C D]. set (i := Qfloor a) in *.
  assert (Hi0 : (0 <= i)%Z).
  { apply Z.lt_succ_r. rewrite Zlt_Qlt. unfold Z.succ. rewrite inject_Z_plus. change (inject_Z 1) with 1. change (inject_Z 0) with 0. lra. }
  assert (Hi1 : (i < 10 ^ p_int_digits p)%Z) by (rewrite Zlt_Qlt; lra).
  assert (Hmax : max_integer p = (10 ^ p_int_digits p - 1)%Z).
  { unfold max_integer. rewrite findMax_value by lia. rewrite Z2Nat.id by lia. reflexivity. }
  assert (Hmaxd : max_decimal p = (10 ^ p_dec_digits p - 1)%Z).
  { unfold max_decimal. rewrite findMax_value by lia. rewrite Z2Nat.id by lia. reflexivity. }
  rewrite Hmax, Hmaxd.
  assert ((10 ^ p_int_digits p - 1 <? i)%Z = false) as -> by (apply Z.ltb_ge; lia).
  rewrite powerMultiplier_value by lia. cbn [obind].
  fold (digits_after a i (p_dec_digits p)).
  assert (Hi64 : (0 <= i < 2 ^ 64)%Z).
  { split; [exact Hi0 | ]. assert (10 ^ 19 < 2 ^ 64)%Z by reflexivity. lia. }
  pose proof (digits_after_near a i (p_dec_digits p) Hd Hi64 C D) as N.
  apply Qabs_Qlt_condition in N.
  pose proof (pow10_bound (p_dec_digits p) Hd) as [M1 M2].
  assert (M1q : 1 <= inject_Z (10 ^ p_dec_digits p)) by (change 1 with (inject_Z 1); rewrite <- Zle_Qle; exact M1).
  set (k := digits_after a i (p_dec_digits p)) in *. set (M := (10 ^ p_dec_digits p)%Z) in *.
  assert (K0 : (0 <= k)%Z).
  { apply Z.lt_succ_r. rewrite Zlt_Qlt. unfold Z.succ. rewrite inject_Z_plus. change (inject_Z 1) with 1. change (inject_Z 0) with 0. nra. }
  assert (K1 : (k <= M)%Z).
  { apply Z.lt_succ_r. rewrite Zlt_Qlt. unfold Z.succ. rewrite inject_Z_plus. change (inject_Z 1) with 1. nra. }
  rewrite to_u64_Z by (assert (100000000000 < 2 ^ 64)%Z by reflexivity; lia). cbn [obind].
  exists (i * M + k)%Z. split; [nia | ]. split.
  - apply Qabs_Qlt_condition. rewrite inject_Z_plus, inject_Z_mult, <- Ea. split; nra.
  - destruct (M - 1 <? k)%Z eqn:Ek; bool_hyps.
    + assert (Ekm : k = M) by lia.
      assert (E64 : u64 (i + 1) = (i + 1)%Z).
      { unfold u64. apply Z.mod_small. assert (10 ^ 19 < 2 ^ 64)%Z by reflexivity. lia. }
      rewrite E64. f_equal. f_equal.
      * rewrite Ekm. replace (i * M + M)%Z with ((i + 1) * M)%Z by ring. rewrite Z.div_mul by lia. reflexivity.
      * rewrite Ekm. replace (i * M + M)%Z with ((i + 1) * M)%Z by ring. rewrite Z.mod_mul by lia. reflexivity.
    + f_equal. f_equal.
      * rewrite Z.div_add_l by lia. rewrite Z.div_small by lia. lia.
      * rewrite Z.add_comm, Z.mod_add by lia. rewrite Z.mod_small by lia. reflexivity.
Qed.

Lemma p_setValue_big p v :
  (1 <= p_int_digits p <= 19)%Z -> (1 <= p_dec_digits p <= 19)%Z ->
  inject_Z (10 ^ p_int_digits p) <= Qabs v -> Qabs v < inject_Z (2 ^ 64) ->
  p_setValue p v = Ok (mkPrecise (negb (Qle_bool 0 v)) (10 ^ p_int_digits p - 1) (10 ^ p_dec_digits p - 1)
                                 (p_int_digits p) (p_dec_digits p)).
Proof.
  intros Hn Hd H1 H2. unfold p_setValue. set (neg := negb (Qle_bool 0 v)).
  assert (Ea : (if neg then - v else v) == Qabs v).
  { unfold neg. destruct (Qle_bool 0 v) eqn:E; cbn [negb].
    - apply Qle_bool_iff in E. rewrite Qabs_pos by exact E. reflexivity.
    - assert (~ 0 <= v) by (rewrite <- Qle_bool_iff; congruence). rewrite Qabs_neg by lra. reflexivity. }
  set (a := if neg then - v else v) in *.
  pose proof (Qabs_nonneg v) as Hnn.
  rewrite (to_u64_ok a) by lra. cbn [obind].
  destruct (floor_bounds a) as [C D]. set (i := Qfloor a) in *.
  assert (Hi1 : (10 ^ p_int_digits p <= i)%Z).
  { apply Z.lt_succ_r. rewrite Zlt_Qlt. unfold Z.succ. rewrite inject_Z_plus. change (inject_Z 1) with 1. lra. }
  assert (Hmax : max_integer p = (10 ^ p_int_digits p - 1)%Z).
  { unfold max_integer. rewrite findMax_value by lia. rewrite Z2Nat.id by lia. reflexivity. }
  assert (Hmaxd : max_decimal p = (10 ^ p_dec_digits p - 1)%Z).
  { unfold max_decimal. rewrite findMax_value by lia. rewrite Z2Nat.id by lia. reflexivity. }
  rewrite Hmax, Hmaxd.
  assert ((10 ^ p_int_digits p - 1 <? i)%Z = true) as -> by (apply Z.ltb_lt; lia). reflexivity.
Qed.

Lemma p_setValue_UB p v : inject_Z (2 ^ 64) <= Qabs v -> p_setValue p v = UB.
Proof.
  intros H. unfold p_setValue. set (neg := negb (Qle_bool 0 v)).
  assert (Ea : (if neg then - v else v) == Qabs v).
  { unfold neg. destruct (Qle_bool 0 v) eqn:E; cbn [negb].
    - apply Qle_bool_iff in E. rewrite Qabs_pos by exact E. reflexivity.
    - assert (~ 0 <= v) by (rewrite <- Qle_bool_iff; congruence). rewrite Qabs_neg by lra. reflexivity. }
  rewrite to_u64_big; [reflexivity | lra].
Qed.
