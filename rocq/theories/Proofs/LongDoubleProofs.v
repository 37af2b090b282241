From Coq Require Import ZArith QArith Qround Qabs Qpower Bool Lia Lqa.
From Verif Require Import Model.LongDouble.
Open Scope Q_scope.

Lemma pow2_pos e : 0 < pow2 e.
Proof. unfold pow2. apply Qpower_0_lt. reflexivity. Qed.

Lemma pow2_add a b : pow2 (a + b) == pow2 a * pow2 b.
Proof. unfold pow2. apply Qpower_plus. discriminate. Qed.

Lemma pow2_nonneg e : (0 <= e)%Z -> pow2 e == inject_Z (2 ^ e).
Proof. intros H. unfold pow2. rewrite Zpower_Qpower by assumption. reflexivity. Qed.

Lemma pow2_opp e : pow2 (- e) == / pow2 e.
Proof. unfold pow2. apply Qpower_opp. Qed.

Lemma pow2_succ e : pow2 (e + 1) == 2 * pow2 e.
Proof. rewrite pow2_add. unfold pow2 at 2. simpl. ring. Qed.

Lemma pow2_le a b : (a <= b)%Z -> pow2 a <= pow2 b.
Proof.
  intros H. replace b with (a + (b - a))%Z by lia. rewrite pow2_add.
  rewrite (pow2_nonneg (b - a)) by lia.
  assert (1 <= inject_Z (2 ^ (b - a))).
  { change 1 with (inject_Z 1). rewrite <- Zle_Qle. pose proof (Z.pow_pos_nonneg 2 (b - a)). lia. }
  pose proof (pow2_pos a). nra.
Qed.

Lemma pow2_lt_inv a b : pow2 a < pow2 b -> (a < b)%Z.
Proof.
  intros H. destruct (Z_lt_le_dec a b) as [L | L]; [exact L | ].
  apply pow2_le in L. lra.
Qed.

Global Instance pow2_proper : Morphisms.Proper (Morphisms.respectful eq Qeq) pow2.
Proof. intros a b ->. reflexivity. Qed.

(** ** The exponent *)

Lemma log2_Q n : (0 < n)%Z -> pow2 (Z.log2 n) <= inject_Z n /\ inject_Z n < pow2 (Z.log2 n + 1).
Proof.
  intros H. destruct (Z.log2_spec n H) as [A B]. pose proof (Z.log2_nonneg n).
  rewrite (pow2_nonneg (Z.log2 n)) by lia. rewrite (pow2_nonneg (Z.log2 n + 1)) by lia.
  rewrite <- Zle_Qle, <- Zlt_Qlt. replace (Z.log2 n + 1)%Z with (Z.succ (Z.log2 n)) by lia. lia.
Qed.

Lemma Q_as_frac x : x == inject_Z (Qnum x) / inject_Z (Zpos (Qden x)).
Proof. destruct x as [n d]. cbn. rewrite Qmake_Qdiv. reflexivity. Qed.

Lemma exponent_spec x : 0 < x -> pow2 (exponent x) <= x /\ x < pow2 (exponent x + 1).
Proof.
  intros Hx. unfold exponent.
  set (e := (Z.log2 (Qnum x) - Z.log2 (Z.pos (Qden x)))%Z).
  assert (Hn : (0 < Qnum x)%Z) by (unfold Qlt in Hx; simpl in Hx; lia).
  destruct (log2_Q _ Hn) as [A B].
  destruct (log2_Q (Zpos (Qden x))) as [C D]; [reflexivity | ].
  pose proof (Q_as_frac x) as F.
  set (ln := Z.log2 (Qnum x)) in *. set (ldn := Z.log2 (Zpos (Qden x))) in *.
  set (n := inject_Z (Qnum x)) in *. set (d := inject_Z (Zpos (Qden x))) in *.
  assert (Hd : 0 < d) by (unfold d; reflexivity).
  assert (Hxd : x * d == n) by (rewrite F; field; lra).
  assert (E1 : pow2 e * pow2 ldn == pow2 ln) by (rewrite <- pow2_add; replace (e + ldn)%Z with ln by lia; reflexivity).
  rewrite pow2_succ in B, D. pose proof (pow2_pos e). pose proof (pow2_pos ldn). pose proof (pow2_pos ln).
  assert (U : x < 2 * pow2 e).
  { apply Qnot_le_lt. intros L.
    assert (n >= 2 * pow2 ln) by (rewrite <- Hxd, <- E1; nra). lra. }
  assert (Lo : pow2 e < 2 * x).
  { apply Qnot_le_lt. intros L.
    assert (2 * (x * d) <= pow2 e * d) by nra.
    assert (pow2 e * d < pow2 e * (2 * pow2 ldn)) by nra.
    nra. }
  destruct (Qle_bool (pow2 e) x) eqn:Q.
  - apply Qle_bool_iff in Q. rewrite pow2_succ. lra.
  - assert (~ pow2 e <= x) by (rewrite <- Qle_bool_iff; congruence).
    replace (e - 1 + 1)%Z with e by lia.
    assert (pow2 e == 2 * pow2 (e - 1)) by (rewrite <- pow2_succ; replace (e - 1 + 1)%Z with e by lia; reflexivity).
    lra.
Qed.

Lemma exponent_unique x e : pow2 e <= x -> x < pow2 (e + 1) -> exponent x = e.
Proof.
  intros A B. assert (0 < x) by (pose proof (pow2_pos e); lra).
  destruct (exponent_spec x H) as [C D].
  assert (e < exponent x + 1)%Z by (apply pow2_lt_inv; lra).
  assert (exponent x < e + 1)%Z by (apply pow2_lt_inv; lra). lia.
Qed.

Lemma exponent_eq x y : 0 < x -> x == y -> exponent x = exponent y.
Proof.
  intros H E. symmetry. destruct (exponent_spec x H). apply exponent_unique; lra.
Qed.

(** ** Rounding to an integer *)

Lemma floor_bounds x : inject_Z (Qfloor x) <= x /\ x < inject_Z (Qfloor x) + 1.
Proof.
  split; [apply Qfloor_le | ]. pose proof (Qlt_floor x) as H. rewrite inject_Z_plus in H. exact H.
Qed.

Lemma floor_unique x n : inject_Z n <= x -> x < inject_Z n + 1 -> Qfloor x = n.
Proof.
  intros A B. destruct (floor_bounds x) as [C D].
  assert (n < Qfloor x + 1)%Z by (rewrite Zlt_Qlt, inject_Z_plus; change (inject_Z 1) with 1; lra).
  assert (Qfloor x < n + 1)%Z by (rewrite Zlt_Qlt, inject_Z_plus; change (inject_Z 1) with 1; lra).
  lia.
Qed.

Lemma ceiling_bounds x : x <= inject_Z (Qceiling x) /\ inject_Z (Qceiling x) < x + 1.
Proof.
  split; [apply Qle_ceiling | ]. pose proof (Qceiling_lt x) as H.
  replace (Qceiling x - 1)%Z with (Qceiling x + - 1)%Z in H by lia.
  rewrite inject_Z_plus in H. change (inject_Z (-1)) with (-1 # 1) in H. lra.
Qed.

Lemma ceiling_unique x n : x <= inject_Z n -> inject_Z n < x + 1 -> Qceiling x = n.
Proof.
  intros A B. destruct (ceiling_bounds x) as [C D].
  assert (n < Qceiling x + 1)%Z by (rewrite Zlt_Qlt, inject_Z_plus; change (inject_Z 1) with 1; lra).
  assert (Qceiling x < n + 1)%Z by (rewrite Zlt_Qlt, inject_Z_plus; change (inject_Z 1) with 1; lra).
  lia.
Qed.

Lemma inject_half n m : inject_Z n < inject_Z m + 1 -> inject_Z m < inject_Z n + 1 -> n = m.
Proof.
  intros A B.
  assert (n < m + 1)%Z by (rewrite Zlt_Qlt, inject_Z_plus; exact A).
  assert (m < n + 1)%Z by (rewrite Zlt_Qlt, inject_Z_plus; exact B). lia.
Qed.

Lemma nearest_even_bounds x :
  x - (1 # 2) <= inject_Z (nearest_even x) <= x + (1 # 2).
Proof.
  unfold nearest_even. destruct (floor_bounds x) as [A B].
  destruct (Qcompare_spec (x - inject_Z (Qfloor x)) (1 # 2)) as [E | E | E].
  - destruct (Z.even (Qfloor x)); [lra | rewrite inject_Z_plus; change (inject_Z 1) with 1; lra].
  - lra.
  - rewrite inject_Z_plus; change (inject_Z 1) with 1; lra.
Qed.

Lemma nearest_even_unique x n :
  x - (1 # 2) < inject_Z n -> inject_Z n < x + (1 # 2) -> nearest_even x = n.
Proof.
  intros A B. destruct (nearest_even_bounds x) as [C D]. apply inject_half; lra.
Qed.

Lemma nearest_even_eq x y : x == y -> nearest_even x = nearest_even y.
Proof.
  intros E. unfold nearest_even. rewrite (Qfloor_comp x y E).
  assert (F : Qcompare (x - inject_Z (Qfloor y)) (1 # 2) = Qcompare (y - inject_Z (Qfloor y)) (1 # 2))
    by (rewrite E; reflexivity).
  rewrite F. reflexivity.
Qed.

(** ** Rounding to p bits *)

Lemma round_pos_eq p x y : 0 < x -> x == y -> round_pos p x == round_pos p y.
Proof.
  intros H E. unfold round_pos. rewrite (exponent_eq x y H E).
  rewrite (nearest_even_eq (x / pow2 (exponent y - (p - 1))) (y / pow2 (exponent y - (p - 1)))); [reflexivity | ].
  rewrite E. reflexivity.
Qed.

Lemma round_to_eq p x y : x == y -> round_to p x == round_to p y.
Proof.
  intros E. unfold round_to.
  assert (C : (x ?= 0) = (y ?= 0)) by (rewrite E; reflexivity). rewrite <- C.
  destruct (Qcompare_spec x 0) as [Z | Z | Z].
  - reflexivity.
  - rewrite (round_pos_eq p (- x) (- y)); [reflexivity | lra | rewrite E; reflexivity].
  - apply round_pos_eq; assumption.
Qed.

Global Instance round_to_proper : Morphisms.Proper (Morphisms.respectful eq (Morphisms.respectful Qeq Qeq)) round_to.
Proof. intros p q -> x y E. apply round_to_eq, E. Qed.
Global Instance ld_proper : Morphisms.Proper (Morphisms.respectful Qeq Qeq) ld.
Proof. intros x y E. apply round_to_eq, E. Qed.

Lemma round_pos_error p x k : 0 < x -> x < pow2 k -> Qabs (round_pos p x - x) <= pow2 (k - p - 1).
Proof.
  intros H Hk. unfold round_pos. destruct (exponent_spec x H) as [A B].
  set (e := (exponent x - (p - 1))%Z).
  assert (Le : (exponent x < k)%Z) by (apply pow2_lt_inv; lra).
  destruct (nearest_even_bounds (x / pow2 e)) as [C D].
  set (m := inject_Z (nearest_even (x / pow2 e))) in *.
  pose proof (pow2_pos e) as Pe.
  assert (Ex : x == x / pow2 e * pow2 e) by (field; lra).
  assert (Hh : pow2 (e - 1) <= pow2 (k - p - 1)) by (apply pow2_le; unfold e; lia).
  assert (He : pow2 e == 2 * pow2 (e - 1)) by (rewrite <- pow2_succ; replace (e - 1 + 1)%Z with e by lia; reflexivity).
  set (q := x / pow2 e) in *. clearbody q m.
  apply Qabs_Qle_condition. rewrite Ex. split; nra.
Qed.

Lemma round_to_neg p x : round_to p (- x) == - round_to p x.
Proof.
  unfold round_to.
  destruct (Qcompare_spec x 0) as [Z | Z | Z]; destruct (Qcompare_spec (- x) 0) as [Y | Y | Y];
    try (exfalso; lra).
  - reflexivity.
  - ring.
  - rewrite (round_pos_eq p (- - x) x); [reflexivity | lra | ring].
Qed.

Lemma round_to_error p x k : Qabs x < pow2 k -> Qabs (round_to p x - x) <= pow2 (k - p - 1).
Proof.
  intros H. pose proof (pow2_pos (k - p - 1)).
  unfold round_to. destruct (Qcompare_spec x 0) as [Z | Z | Z].
  - rewrite Z. change (Qabs (0 - 0)) with 0. lra.
  - assert (Hn : 0 < - x) by lra.
    assert (Hk : - x < pow2 k) by (rewrite Qabs_neg in H by lra; exact H).
    pose proof (round_pos_error p (- x) k Hn Hk) as E.
    rewrite <- (Qabs_opp). assert (- (- round_pos p (- x) - x) == round_pos p (- x) - - x) as -> by ring. exact E.
  - apply round_pos_error; [lra | rewrite Qabs_pos in H by lra; exact H].
Qed.

(** What is close to a number of p bits, and in its binade, is rounded to it. *)
Lemma round_pos_near p x m e :
  (0 < p)%Z -> (2 ^ (p - 1) <= m < 2 ^ p)%Z ->
  pow2 (e + (p - 1)) <= x -> Qabs (x - inject_Z m * pow2 e) < pow2 (e - 1) ->
  round_pos p x == inject_Z m * pow2 e.
Proof.
  intros Hp Hm Hlo Hn. pose proof (pow2_pos e) as Pe.
  apply Qabs_Qlt_condition in Hn. destruct Hn as [N1 N2].
  assert (He : pow2 e == 2 * pow2 (e - 1)) by (rewrite <- pow2_succ; replace (e - 1 + 1)%Z with e by lia; reflexivity).
  assert (Hup : inject_Z m * pow2 e <= pow2 (e + p) - pow2 e).
  { rewrite pow2_add, (pow2_nonneg p) by lia.
    assert (inject_Z m + 1 <= inject_Z (2 ^ p)).
    { change 1 with (inject_Z 1). rewrite <- inject_Z_plus, <- Zle_Qle. lia. }
    nra. }
  assert (E : exponent x = (e + (p - 1))%Z).
  { apply exponent_unique; [exact Hlo | ]. replace (e + (p - 1) + 1)%Z with (e + p)%Z by lia. lra. }
  unfold round_pos. rewrite E. replace (e + (p - 1) - (p - 1))%Z with e by lia.
  assert (Ex : x == x / pow2 e * pow2 e) by (field; lra).
  set (q := x / pow2 e) in *.
  rewrite (nearest_even_unique q m); [reflexivity | | ].
  - apply Qnot_le_lt. intros L. assert (inject_Z m * pow2 e <= (q - (1 # 2)) * pow2 e) by nra. nra.
  - apply Qnot_le_lt. intros L. assert ((q + (1 # 2)) * pow2 e <= inject_Z m * pow2 e) by nra. nra.
Qed.

Definition fits (p : Z) (x : Q) : Prop :=
  exists m e, (Z.abs m < 2 ^ p)%Z /\ x == inject_Z m * pow2 e.

(** A positive p-bit number with a normalised significand. *)
Lemma fits_pos p x : (0 < p)%Z -> fits p x -> 0 < x ->
  exists m e, (2 ^ (p - 1) <= m < 2 ^ p)%Z /\ x == inject_Z m * pow2 e.
Proof.
  intros Hp (m & e & Hm & E) Hx. pose proof (pow2_pos e) as Pe.
  assert (Pm : (0 < m)%Z).
  { destruct (Z_lt_le_dec 0 m) as [L | L]; [exact L | ].
    assert (inject_Z m <= 0) by (change 0 with (inject_Z 0); rewrite <- Zle_Qle; exact L). nra. }
  destruct (Z.log2_spec m Pm) as [A B]. pose proof (Z.log2_nonneg m).
  assert (Hl : (Z.log2 m < p)%Z) by (apply Z.log2_lt_pow2; lia).
  exists (m * 2 ^ (p - 1 - Z.log2 m))%Z, (e - (p - 1 - Z.log2 m))%Z. split.
  - assert (2 ^ (p - 1) = 2 ^ Z.log2 m * 2 ^ (p - 1 - Z.log2 m))%Z by (rewrite <- Z.pow_add_r by lia; f_equal; lia).
    assert (2 ^ p = 2 ^ Z.succ (Z.log2 m) * 2 ^ (p - 1 - Z.log2 m))%Z by (rewrite <- Z.pow_add_r by lia; f_equal; lia).
    assert (0 < 2 ^ (p - 1 - Z.log2 m))%Z by (apply Z.pow_pos_nonneg; lia). nia.
  - rewrite E, inject_Z_mult, <- (pow2_nonneg (p - 1 - Z.log2 m)) by lia.
    rewrite <- Qmult_assoc, <- pow2_add. replace (p - 1 - Z.log2 m + (e - (p - 1 - Z.log2 m)))%Z with e by lia. reflexivity.
Qed.

Lemma fits_opp p x : fits p x -> fits p (- x).
Proof.
  intros (m & e & A & B). exists (- m)%Z, e. split; [lia | ]. rewrite B, inject_Z_opp. ring.
Qed.

Lemma round_to_exact p x : (0 < p)%Z -> fits p x -> round_to p x == x.
Proof.
  intros Hp F.
  assert (P : forall y, fits p y -> 0 < y -> round_pos p y == y).
  { intros y Fy Hy. destruct (fits_pos p y Hp Fy Hy) as (m & e & A & B). rewrite B at 2.
    apply round_pos_near; [exact Hp | exact A | | ].
    - rewrite B, Z.add_comm, pow2_add, pow2_nonneg by lia. apply Qmult_le_compat_r; [ | pose proof (pow2_pos e); lra].
      rewrite <- Zle_Qle. lia.
    - assert (y - inject_Z m * pow2 e == 0) as -> by (rewrite B; ring).
      apply pow2_pos. }
  unfold round_to. destruct (Qcompare_spec x 0) as [Z | Z | Z].
  - rewrite Z. reflexivity.
  - rewrite P; [ring | apply fits_opp, F | lra].
  - apply P; assumption.
Qed.

Lemma fits_Z p n : (0 <= p)%Z -> (Z.abs n < 2 ^ p)%Z -> fits p (inject_Z n).
Proof. intros Hp H. exists n, 0%Z. split; [exact H | ]. change (pow2 0) with 1. ring. Qed.

(** The result has p bits. *)
Lemma round_to_fits p x : (0 < p)%Z -> fits p (round_to p x).
Proof.
  intros Hp.
  assert (P : forall y, 0 < y -> fits p (round_pos p y)).
  { intros y Hy. unfold round_pos. set (e := (exponent y - (p - 1))%Z).
    destruct (exponent_spec y Hy) as [A B]. pose proof (pow2_pos e) as Pe.
    destruct (nearest_even_bounds (y / pow2 e)) as [C D].
    assert (Ey : y == y / pow2 e * pow2 e) by (field; lra).
    set (q := y / pow2 e) in *.
    assert (Q0 : 0 < q) by (apply Qnot_le_lt; intros L; nra).
    assert (Q1 : q < inject_Z (2 ^ p)).
    { rewrite <- pow2_nonneg by lia.
      assert (pow2 (exponent y + 1) == pow2 p * pow2 e) by (rewrite <- pow2_add; unfold e; replace (p + (exponent y - (p - 1)))%Z with (exponent y + 1)%Z by lia; reflexivity).
      apply Qnot_le_lt. intros L. nra. }
    set (n := nearest_even q) in *.
    assert (N0 : (0 <= n)%Z).
    { apply Z.lt_succ_r. rewrite Zlt_Qlt. unfold Z.succ. rewrite inject_Z_plus. change (inject_Z 1) with 1. change (inject_Z 0) with 0. lra. }
    assert (N1 : (n <= 2 ^ p)%Z).
    { apply Z.lt_succ_r. rewrite Zlt_Qlt. unfold Z.succ. rewrite inject_Z_plus. change (inject_Z 1) with 1. lra. }
    destruct (Z.eq_dec n (2 ^ p)) as [En | En].
    - exists 1%Z, (e + p)%Z. split.
      + assert (1 < 2 ^ p)%Z by (apply Z.pow_gt_1; lia). lia.
      + rewrite En, pow2_add, (pow2_nonneg p) by lia. change (inject_Z 1) with 1. ring.
    - exists n, e. split; [lia | reflexivity]. }
  unfold round_to. destruct (Qcompare_spec x 0) as [Z | Z | Z].
  - exists 0%Z, 0%Z. split; [apply Z.pow_pos_nonneg; lia | reflexivity].
  - apply fits_opp, P. lra.
  - apply P, Z.
Qed.

(** ** Long doubles *)

Lemma is_ld_fits x : is_ld x <-> fits 64 x.
Proof. reflexivity. Qed.

Lemma ld_exact x : is_ld x -> ld x == x.
Proof. intros H. apply round_to_exact; [reflexivity | exact H]. Qed.

Lemma ld_is_ld x : is_ld (ld x).
Proof. apply round_to_fits. reflexivity. Qed.

Lemma ld_error x k : Qabs x < pow2 k -> Qabs (ld x - x) <= pow2 (k - 65).
Proof. intros H. replace (k - 65)%Z with (k - 64 - 1)%Z by lia. apply round_to_error, H. Qed.

Lemma ld_neg x : ld (- x) == - ld x.
Proof. apply round_to_neg. Qed.

Lemma ld_Z n : (Z.abs n < 2 ^ 64)%Z -> ld (inject_Z n) == inject_Z n.
Proof. intros H. apply ld_exact, (fits_Z 64); [discriminate | exact H]. Qed.

(** ** Order *)

Lemma nearest_even_ge x n : inject_Z n <= x -> (n <= nearest_even x)%Z.
Proof.
  intros H. destruct (nearest_even_bounds x) as [A B]. apply Z.lt_succ_r.
  rewrite Zlt_Qlt. unfold Z.succ. rewrite inject_Z_plus. change (inject_Z 1) with 1. lra.
Qed.

Lemma nearest_even_le x n : x <= inject_Z n -> (nearest_even x <= n)%Z.
Proof.
  intros H. destruct (nearest_even_bounds x) as [A B]. apply Z.lt_succ_r.
  rewrite Zlt_Qlt. unfold Z.succ. rewrite inject_Z_plus. change (inject_Z 1) with 1. lra.
Qed.

Lemma normal_exponent p m e : (0 < p)%Z -> (2 ^ (p - 1) <= m < 2 ^ p)%Z ->
  exponent (inject_Z m * pow2 e) = (e + (p - 1))%Z.
Proof.
  intros Hp Hm. pose proof (pow2_pos e). apply exponent_unique.
  - rewrite Z.add_comm, pow2_add, pow2_nonneg by lia. apply Qmult_le_compat_r; [ | lra]. rewrite <- Zle_Qle. lia.
  - replace (e + (p - 1) + 1)%Z with (p + e)%Z by lia. rewrite pow2_add, (pow2_nonneg p) by lia.
    assert (inject_Z m < inject_Z (2 ^ p)) by (rewrite <- Zlt_Qlt; lia). nra.
Qed.

Lemma round_pos_ge p x w : (0 < p)%Z -> fits p w -> 0 < w -> w <= x -> w <= round_pos p x.
Proof.
  intros Hp Fw Hw H. destruct (fits_pos p w Hp Fw Hw) as (m & e & Hm & E).
  assert (Hx : 0 < x) by lra. destruct (exponent_spec x Hx) as [A B].
  pose proof (normal_exponent p m e Hp Hm) as En.
  assert (En' : exponent w = (e + (p - 1))%Z) by (rewrite <- En; apply exponent_eq; assumption).
  destruct (exponent_spec w Hw) as [C D].
  assert (L : (exponent w < exponent x + 1)%Z) by (apply pow2_lt_inv; lra).
  unfold round_pos. set (ex := (exponent x - (p - 1))%Z). pose proof (pow2_pos ex) as Pe.
  assert (Exq : x == x / pow2 ex * pow2 ex) by (field; lra). set (q := x / pow2 ex) in *.
  destruct (Z.eq_dec (exponent x) (exponent w)) as [Eq | Ne].
  - assert (Ee : ex = e) by lia. rewrite Ee in *.
    assert (m <= nearest_even q)%Z.
    { apply nearest_even_ge. apply Qnot_lt_le. intros X. nra. }
    rewrite E. apply Qmult_le_compat_r; [rewrite <- Zle_Qle; assumption | lra].
  - assert (2 ^ (p - 1) <= nearest_even q)%Z.
    { apply nearest_even_ge. rewrite <- pow2_nonneg by lia.
      assert (pow2 (exponent x) == pow2 (p - 1) * pow2 ex) by (rewrite <- pow2_add; unfold ex; replace (p - 1 + (exponent x - (p - 1)))%Z with (exponent x) by lia; reflexivity).
      apply Qnot_lt_le. intros X. nra. }
    assert (pow2 (exponent w + 1) <= pow2 (exponent x)) by (apply pow2_le; lia).
    assert (pow2 (exponent x) <= inject_Z (nearest_even q) * pow2 ex); [ | lra].
    replace (exponent x) with (p - 1 + ex)%Z by (unfold ex; lia). rewrite pow2_add, (pow2_nonneg (p - 1)) by lia.
    apply Qmult_le_compat_r; [rewrite <- Zle_Qle; assumption | lra].
Qed.

Lemma round_pos_le p x w : (0 < p)%Z -> fits p w -> 0 < x -> x <= w -> round_pos p x <= w.
Proof.
  intros Hp Fw Hx H. assert (Hw : 0 < w) by lra. destruct (fits_pos p w Hp Fw Hw) as (m & e & Hm & E).
  destruct (exponent_spec x Hx) as [A B].
  pose proof (normal_exponent p m e Hp Hm) as En.
  assert (En' : exponent w = (e + (p - 1))%Z) by (rewrite <- En; apply exponent_eq; assumption).
  destruct (exponent_spec w Hw) as [C D].
  assert (L : (exponent x < exponent w + 1)%Z) by (apply pow2_lt_inv; lra).
  unfold round_pos. set (ex := (exponent x - (p - 1))%Z). pose proof (pow2_pos ex) as Pe.
  assert (Exq : x == x / pow2 ex * pow2 ex) by (field; lra). set (q := x / pow2 ex) in *.
  destruct (Z.eq_dec (exponent x) (exponent w)) as [Eq | Ne].
  - assert (Ee : ex = e) by lia. rewrite Ee in *.
    assert (nearest_even q <= m)%Z.
    { apply nearest_even_le. apply Qnot_lt_le. intros X. nra. }
    rewrite E. apply Qmult_le_compat_r; [rewrite <- Zle_Qle; assumption | lra].
  - assert (nearest_even q <= 2 ^ p)%Z.
    { apply nearest_even_le. rewrite <- pow2_nonneg by lia.
      assert (pow2 (exponent x + 1) == pow2 p * pow2 ex) by (rewrite <- pow2_add; unfold ex; replace (p + (exponent x - (p - 1)))%Z with (exponent x + 1)%Z by lia; reflexivity).
      apply Qnot_lt_le. intros X. nra. }
    assert (pow2 (exponent x + 1) <= pow2 (exponent w)) by (apply pow2_le; lia).
    assert (inject_Z (nearest_even q) * pow2 ex <= pow2 (exponent x + 1)); [ | lra].
    replace (exponent x + 1)%Z with (p + ex)%Z by (unfold ex; lia). rewrite pow2_add, (pow2_nonneg p) by lia.
    apply Qmult_le_compat_r; [rewrite <- Zle_Qle; assumption | lra].
Qed.

Lemma pow2_fits p e : (1 < p)%Z -> fits p (pow2 e).
Proof.
  intros H. exists 1%Z, e. split; [ | change (inject_Z 1) with 1; ring].
  assert (1 < 2 ^ p)%Z by (apply Z.pow_gt_1; lia). lia.
Qed.

Lemma round_pos_pos p x : (1 < p)%Z -> 0 < x -> 0 < round_pos p x.
Proof.
  intros Hp H. destruct (exponent_spec x H) as [A B]. pose proof (pow2_pos (exponent x)).
  pose proof (round_pos_ge p x (pow2 (exponent x)) ltac:(lia) (pow2_fits p _ Hp) (pow2_pos _) A). lra.
Qed.

Lemma ld_sign x : (0 < x -> 0 < ld x) /\ (x < 0 -> ld x < 0) /\ (x == 0 -> ld x == 0).
Proof.
  unfold ld, round_to. destruct (Qcompare_spec x 0) as [Z | Z | Z]; repeat split; intros; try lra.
  - assert (0 < round_pos 64 (- x)) by (apply round_pos_pos; [reflexivity | lra]). lra.
  - apply round_pos_pos; [reflexivity | lra].
Qed.

Lemma ld_ge x w : is_ld w -> w <= x -> w <= ld x.
Proof.
  intros F H. unfold ld, round_to. destruct (Qcompare_spec x 0) as [Z | Z | Z].
  - lra.
  - assert (round_pos 64 (- x) <= - w); [ | lra].
    apply round_pos_le; [reflexivity | apply (fits_opp 64), F | lra | lra].
  - destruct (Qlt_le_dec 0 w) as [P | P].
    + apply round_pos_ge; [reflexivity | exact F | exact P | exact H].
    + assert (0 < round_pos 64 x) by (apply round_pos_pos; [reflexivity | lra]). lra.
Qed.

Lemma ld_le x w : is_ld w -> x <= w -> ld x <= w.
Proof.
  intros F H. assert (X : - w <= ld (- x)) by (apply ld_ge; [apply (fits_opp 64), F | lra]).
  rewrite ld_neg in X. lra.
Qed.

Lemma is_ld_Z n : (Z.abs n < 2 ^ 64)%Z -> is_ld (inject_Z n).
Proof. intros H. apply (fits_Z 64); [discriminate | exact H]. Qed.
