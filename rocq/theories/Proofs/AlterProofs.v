(** Proofs about pitch alteration. *)
From Coq Require Import List ZArith QArith Qround Qabs Bool Lia Lqa.
From Verif Require Import Proofs.Tac Model.Base Model.Text Model.Ticks Model.LongDouble Model.Decimals Model.Transpose Model.Alter
  Spec.Numerals Spec.Intervals Spec.DecimalText
  Proofs.TicksProofs Proofs.LongDoubleProofs Proofs.DecimalsProofs Proofs.DecimalsRange Proofs.TransposeProofs.
Import ListNotations.
Open Scope Q_scope.

Lemma dbl_error x k : Qabs x < pow2 k -> Qabs (dbl x - x) <= pow2 (k - 54).
Proof. intros H. replace (k - 54)%Z with (k - 53 - 1)%Z by lia. apply round_to_error, H. Qed.

Lemma dbl_is_ld x : is_ld (dbl x).
Proof.
  destruct (round_to_fits 53 x ltac:(reflexivity)) as (m & e & A & B). exists m, e. split; [ | exact B].
  assert (2 ^ 53 < 2 ^ 64)%Z by reflexivity. lia.
Qed.

Lemma dbl_Z n : (Z.abs n < 2 ^ 53)%Z -> dbl (inject_Z n) == inject_Z n.
Proof. intros H. apply round_to_exact; [reflexivity | ]. apply (fits_Z 53); [discriminate | exact H]. Qed.

Lemma dbl_eq x y : x == y -> dbl x == dbl y.
Proof. apply round_to_eq. Qed.

Lemma ld_eq x y : x == y -> ld x == ld y.
Proof. apply round_to_eq. Qed.

Lemma threshold : 0 < dbl (1 # 1000000000000) /\ dbl (1 # 1000000000000) < 2 # 1000000000000.
Proof. split; vm_compute; reflexivity. Qed.

Local Opaque ld dbl.

(** The value of a decimal, with its sign. *)
Definition sgn (p : precise) : Q := if p_negative p then -1 else 1.

Lemma read_value p : well_formed p -> (p_integer p <= 200000)%Z ->
  exists c, convertToSemitonesAndCents (getValue p) = Ok ((if p_negative p then - p_integer p else p_integer p)%Z, c) /\
    Qabs (c - sgn p * (inject_Z (p_decimal p) / 10000)) <= 1 # 100000000000 /\
    (p_decimal p = 0%Z -> c = 0) /\ 0 <= sgn p * c.
Proof.
  intros (W1 & W2 & W3 & W4) HI.
  set (u := ld (of_u64 (p_decimal p) / inject_Z (10 ^ 6))).
  set (g := ld (of_u64 (p_integer p) + u)).
  assert (Eg : getValue p = if p_negative p then - g else g).
  { unfold getValue, p_getValue. rewrite W2, express_mult by lia. reflexivity. }
  assert (Ei : of_u64 (p_integer p) == inject_Z (p_integer p)) by (apply of_u64_value; lia).
  assert (Ed : of_u64 (p_decimal p) == inject_Z (p_decimal p)) by (apply of_u64_value; lia).
  assert (Hd : 0 <= inject_Z (p_decimal p) /\ inject_Z (p_decimal p) <= 999999).
  { change 0 with (inject_Z 0). change 999999 with (inject_Z 999999). rewrite <- !Zle_Qle. lia. }
  assert (Hi : 0 <= inject_Z (p_integer p) /\ inject_Z (p_integer p) <= 200000).
  { change 0 with (inject_Z 0). change 200000 with (inject_Z 200000). rewrite <- !Zle_Qle. lia. }
  set (f := inject_Z (p_decimal p) / 1000000).
  assert (Ef : f * 1000000 == inject_Z (p_decimal p)) by (unfold f; field; discriminate).
  assert (Eu : u == ld f) by (unfold u, f; apply ld_eq; rewrite Ed; reflexivity).
  assert (Er : Qabs (ld f - f) <= pow2 (0 - 65)).
  { apply ld_error, Qabs_Qlt_condition. change (pow2 0) with 1. lra. }
  apply Qabs_Qle_condition in Er. assert (P65 : pow2 (0 - 65) < 1 # 1000000000000000000) by reflexivity.
  assert (Lf : 0 <= ld f).
  { apply ld_ge; [apply (is_ld_Z 0); reflexivity | lra]. }
  assert (Gn : g == ld (inject_Z (p_integer p) + u)) by (unfold g; apply ld_eq; rewrite Ei; reflexivity).
  assert (G1 : inject_Z (p_integer p) <= g).
  { rewrite Gn. apply ld_ge; [apply is_ld_Z; lia | lra]. }
  assert (G2 : Qabs (ld (inject_Z (p_integer p) + u) - (inject_Z (p_integer p) + u)) <= pow2 (18 - 65)).
  { apply ld_error, Qabs_Qlt_condition. change (pow2 18) with (262144 # 1). lra. }
  apply Qabs_Qle_condition in G2. assert (P47 : pow2 (18 - 65) < 8 # 1000000000000000) by reflexivity.
  assert (G3 : p_decimal p = 0%Z -> g == inject_Z (p_integer p)).
  { intros E0. rewrite Gn. assert (F0 : f == 0) by (unfold f; rewrite E0; reflexivity).
    assert (U0 : u == 0) by (rewrite Eu; apply ld_sign, F0).
    rewrite (ld_eq _ (inject_Z (p_integer p))); [apply ld_Z; lia | lra]. }
  assert (Ti : to_int (getValue p) = Ok (if p_negative p then - p_integer p else p_integer p)%Z).
  { unfold to_int. rewrite Eg. destruct (p_negative p).
    - destruct (Qle_bool 0 (- g)) eqn:Eb.
      + apply Qle_bool_iff in Eb. assert (Z0 : g == 0) by lra.
        assert (I0 : p_integer p = 0%Z).
        { assert (inject_Z (p_integer p) <= inject_Z 0) by (change (inject_Z 0) with 0; lra). rewrite <- Zle_Qle in H. lia. }
        rewrite (floor_unique (- g) 0) by (change (inject_Z 0) with 0; lra). rewrite I0. apply as_int_ok. lia.
      + rewrite (ceiling_unique (- g) (- p_integer p)) by (rewrite inject_Z_opp; lra). apply as_int_ok. lia.
    - assert (Qle_bool 0 g = true) as -> by (apply Qle_bool_iff; lra).
      rewrite (floor_unique g (p_integer p)) by lra. apply as_int_ok. lia. }
  unfold convertToSemitonesAndCents. rewrite Ti. cbn [obind].
  set (h := getValue p - inject_Z (if p_negative p then - p_integer p else p_integer p)%Z).
  assert (Eh : h == sgn p * (g - inject_Z (p_integer p))).
  { unfold h, sgn. rewrite Eg. destruct (p_negative p); rewrite ?inject_Z_opp; ring. }
  assert (Bh : Qabs (ld h - h) <= pow2 (0 - 65)).
  { apply ld_error, Qabs_Qlt_condition. change (pow2 0) with 1. rewrite Eh. unfold sgn. destruct (p_negative p); lra. }
  apply Qabs_Qle_condition in Bh.
  set (m := ld h) in *.
  assert (Sm : 0 <= sgn p * m).
  { unfold m, sgn in *. destruct (p_negative p).
    - assert (ld h <= 0); [ | lra]. apply ld_le; [apply (is_ld_Z 0); reflexivity | ]. lra.
    - assert (0 <= ld h); [ | lra]. apply ld_ge; [apply (is_ld_Z 0); reflexivity | ]. lra. }
  assert (M0 : p_decimal p = 0%Z -> m == 0).
  { intros E0. apply ld_sign. rewrite Eh, (G3 E0). ring. }
  assert (B1 : Qabs (ld (m * 100) - m * 100) <= pow2 (7 - 65)).
  { apply ld_error, Qabs_Qlt_condition. change (pow2 7) with (128 # 1). unfold sgn in Eh. destruct (p_negative p); lra. }
  apply Qabs_Qle_condition in B1.
  assert (P58 : pow2 (7 - 65) < 1 # 100000000000000000) by reflexivity.
  set (w := ld (m * 100)) in *.
  assert (Sw : 0 <= sgn p * w).
  { unfold w, sgn in *. destruct (p_negative p).
    - assert (ld (m * 100) <= 0); [ | lra]. apply ld_le; [apply (is_ld_Z 0); reflexivity | ]. lra.
    - assert (0 <= ld (m * 100)); [ | lra]. apply ld_ge; [apply (is_ld_Z 0); reflexivity | ]. lra. }
  assert (B2 : Qabs (dbl w - w) <= pow2 (7 - 54)).
  { apply dbl_error, Qabs_Qlt_condition. change (pow2 7) with (128 # 1). unfold sgn in Eh. destruct (p_negative p); lra. }
  apply Qabs_Qle_condition in B2.
  assert (P54 : pow2 (7 - 54) < 1 # 100000000000000) by reflexivity.
  destruct threshold as [T1 T2].
  destruct (Qle_bool (dbl (1 # 1000000000000)) (Qabs m)) eqn:Ec.
  - exists (dbl w). split; [reflexivity | ].
    assert (Nd : p_decimal p <> 0%Z).
    { intros E0. apply Qle_bool_iff in Ec. rewrite (M0 E0) in Ec. change (Qabs 0) with 0 in Ec. lra. }
    assert (Hd1 : 1 <= inject_Z (p_decimal p)) by (change 1 with (inject_Z 1); rewrite <- Zle_Qle; lia).
    split; [ | split; [contradiction | ]].
    + apply Qabs_Qle_condition. assert (F4 : inject_Z (p_decimal p) / 10000 == f * 100) by (unfold f; field).
      rewrite F4. unfold sgn in *. destruct (p_negative p); lra.
    + unfold sgn in *. destruct (p_negative p); lra.
  - exists 0. split; [reflexivity | ]. split; [ | split; [reflexivity | unfold sgn; destruct (p_negative p); lra]].
    assert (Hm : Qabs m < dbl (1 # 1000000000000)) by (apply Qnot_le_lt; rewrite <- Qle_bool_iff; congruence).
    apply Qabs_Qlt_condition in Hm.
    assert (E0 : p_decimal p = 0%Z).
    { destruct (Z.eq_dec (p_decimal p) 0) as [E | N]; [exact E | exfalso].
      assert (Hd1 : 1 <= inject_Z (p_decimal p)) by (change 1 with (inject_Z 1); rewrite <- Zle_Qle; lia).
      unfold sgn in *. destruct (p_negative p); lra. }
    rewrite E0. apply Qabs_Qle_condition. change (inject_Z 0 / 10000) with (0 # 10000).
    assert (Z10 : 0 # 10000 == 0) by reflexivity. rewrite Z10. unfold sgn. destruct (p_negative p); lra.
Qed.

Lemma construct_reached v p : is_ld v -> construct Semitones v = Ok p -> reached Semitones p.
Proof. intros F H. exists v, []. split; [exact F | ]. split; [constructor | ]. rewrite H. reflexivity. Qed.

Lemma quot_units r : well_formed r ->
  Z.quot (units r) (10 ^ 6) = (if p_negative r then - p_integer r else p_integer r)%Z /\
  Z.rem (units r) (10 ^ 6) = (if p_negative r then - p_decimal r else p_decimal r)%Z.
Proof.
  intros (W1 & W2 & W3 & W4). unfold units. rewrite W2. change (10 ^ 6)%Z with 1000000%Z in *.
  assert (A : Z.quot (p_integer r * 1000000 + p_decimal r) 1000000 = p_integer r).
  { rewrite Z.quot_div_nonneg by lia. symmetry. apply (Z.div_unique _ _ _ (p_decimal r)); lia. }
  assert (B : Z.rem (p_integer r * 1000000 + p_decimal r) 1000000 = p_decimal r).
  { rewrite Z.rem_mod_nonneg by lia. symmetry. apply (Z.mod_unique _ _ (p_integer r)); lia. }
  destruct (p_negative r); [rewrite Z.quot_opp_l, Z.rem_opp_l by lia | ]; rewrite A, B; split; reflexivity.
Qed.

Lemma store_read v : is_ld v -> Qabs v <= 150000 ->
  exists p c, construct Semitones v = Ok p /\ Qabs (inject_Z (units p) - v * 1000000) < 5000002 # 10000000 /\
    (forall K, Qabs (v * 1000000 - inject_Z K) <= 4999998 # 10000000 -> units p = K) /\
    (forall f, (forall r, well_formed r -> units r = units p -> f (getValue r) = convertToSemitonesAndCents (getValue r)) ->
       obind (construct_default Semitones) (fun p0 => obind (parse Semitones p0 (Decimals.toString p)) (fun r => f (getValue (snd r)))) =
       Ok (Z.quot (units p) (10 ^ 6), c)) /\
    Qabs (c - inject_Z (Z.rem (units p) (10 ^ 6)) / 10000) <= 1 # 100000000000 /\
    (Z.rem (units p) (10 ^ 6) = 0%Z -> c = 0) /\ 0 <= inject_Z (units p) * c.
Proof.
  intros F B. set (p0 := mkPrecise false 0 0 19 6).
  assert (W0 : well_formed p0) by (unfold well_formed, p0; cbn [p_int_digits p_dec_digits p_integer p_decimal]; lia).
  assert (Bv : Qabs v < inject_Z (10 ^ 19)) by (change (inject_Z (10 ^ 19)) with (10000000000000000000 # 1); lra).
  assert (S : exists p, construct Semitones v = Ok p).
  { destruct (set_defined Semitones p0 v W0 F) as [D N]. change (construct Semitones v) with (setValue Semitones p0 v).
    destruct (setValue Semitones p0 v) as [p | | ]; [exists p; reflexivity | contradiction | ].
    assert (X : UB = UB :> outcome precise) by reflexivity. apply D in X. apply Qabs_Qle_condition in B.
    assert (inject_Z (2 ^ 64) == 18446744073709551616) by reflexivity. destruct X as [[_ X] | [_ X]]; lra. }
  destruct S as [p Hp].
  pose proof Hp as Hp'. change (construct Semitones v) with (setValue Semitones p0 v) in Hp'.
  unfold setValue in Hp'. rewrite clamp_id in Hp' by exact I.
  destruct (set_cases p0 v p (wf_digits _ W0) F Hp') as (Wp & Cs).
  assert (Cp : Qabs (inject_Z (units p) - v * 1000000) < 5000002 # 10000000).
  { destruct Cs as [(_ & C & _) | (C & _)]; [exact C | lra]. }
  destruct (text_roundtrip Semitones p p0 (construct_reached v p F Hp) I W0) as (r & R1 & R2 & R3).
  assert (Wr : well_formed r).
  { assert (X : reached Semitones r).
    { exists (inject_Z 0), [CallParse (Decimals.toString p)]. split; [apply is_ld_Z; reflexivity | ].
      split; [constructor; [exact I | constructor] | ].
      change (construct Semitones (inject_Z 0)) with (construct_default Semitones). rewrite construct_default_semitones. fold p0.
      cbn [obind run_calls run_call]. rewrite R1. reflexivity. }
    apply reached_once in X. apply (set_once_wf Semitones r X). }
  assert (Ur : units r = units p).
  { pose proof (amount_units r (wf_dec r Wr)) as A1. pose proof (amount_units p (wf_dec p Wp)) as A2.
    rewrite R2, A2 in A1. apply (proj1 (inject_Z_injective _ _)) in A1. symmetry. exact A1. }
  destruct (quot_units r Wr) as [Q1 Q2]. rewrite Ur in Q1, Q2.
  assert (Ir : (p_integer r <= 200000)%Z).
  { assert (Z.abs (units p) <= 150001 * 1000000)%Z.
    { apply Qabs_Qle_condition in B. apply Qabs_Qlt_condition in Cp. rewrite Zle_Qle.
      assert (X : inject_Z (Z.abs (units p)) == Qabs (inject_Z (units p))) by reflexivity.
      rewrite X. apply Qabs_Qle_condition. change (inject_Z (150001 * 1000000)) with (150001000000 # 1). lra. }
    rewrite <- Ur in H. unfold units in H. destruct Wr as (W1 & W2 & W3 & W4). rewrite W2 in H. change (10 ^ 6)%Z with 1000000%Z in *.
    destruct (p_negative r); lia. }
  destruct (read_value r Wr Ir) as (c & C1 & C2 & C3 & C4).
  exists p, c. split; [exact Hp | ]. split; [exact Cp | ]. split.
  { intros K HK. apply inject_half; apply Qabs_Qle_condition in HK; apply Qabs_Qlt_condition in Cp; lra. }
  split.
  { intros f Hf. rewrite construct_default_semitones. fold p0. cbn [obind]. rewrite R1. cbn [obind snd].
    rewrite (Hf r Wr Ur), C1, Q1. reflexivity. }
  split; [ | split].
  - rewrite Q2. assert (X : inject_Z (if p_negative r then - p_decimal r else p_decimal r) / 10000 == sgn r * (inject_Z (p_decimal r) / 10000)).
    { unfold sgn. destruct (p_negative r); rewrite ?inject_Z_opp; field. }
    rewrite X. exact C2.
  - rewrite Q2. intros X. apply C3. destruct (p_negative r); lia.
  - rewrite <- Ur. unfold units. unfold sgn in C4. destruct Wr as (W1 & W2 & W3 & W4). rewrite W2.
    assert (P : 0 <= inject_Z (p_integer r * 10 ^ 6 + p_decimal r)).
    { change 0 with (inject_Z 0). rewrite <- Zle_Qle. lia. }
    set (Y := inject_Z (p_integer r * 10 ^ 6 + p_decimal r)) in *. 
    destruct (p_negative r); [rewrite inject_Z_opp; fold Y | fold Y]; nra.
Qed.

Lemma alter_near s c : (Z.abs s <= 100000)%Z -> Qabs c <= 1000000 ->
  is_ld (convertToAlter s c) /\ Qabs (convertToAlter s c - (inject_Z s + c / 100)) <= 1 # 100000000000 /\
  Qabs (convertToAlter s c) <= 150000.
Proof.
  intros Hs Hc. apply Qabs_Qle_condition in Hc.
  assert (Hs' : - (100000) <= inject_Z s /\ inject_Z s <= 100000).
  { change (- (100000)) with (inject_Z (- (100000))). change 100000 with (inject_Z 100000). rewrite <- !Zle_Qle. lia. }
  set (y := c / 100). assert (Ey : y * 100 == c) by (unfold y; field).
  unfold convertToAlter. fold y.
  set (m := if Qeq_bool c 0 then 0 else dbl y).
  assert (Em : Qabs (m - y) <= 1 # 1000000000000).
  { unfold m. destruct (Qeq_bool c 0) eqn:E.
    - apply Qeq_bool_iff in E. apply Qabs_Qle_condition. lra.
    - assert (X : Qabs (dbl y - y) <= pow2 (14 - 54)).
      { apply dbl_error, Qabs_Qlt_condition. change (pow2 14) with (16384 # 1). lra. }
      assert (pow2 (14 - 54) < 1 # 1000000000000) by reflexivity. lra. }
  apply Qabs_Qle_condition in Em.
  assert (X : Qabs (dbl (inject_Z s + m) - (inject_Z s + m)) <= pow2 (17 - 54)).
  { apply dbl_error, Qabs_Qlt_condition. change (pow2 17) with (131072 # 1). lra. }
  assert (P : pow2 (17 - 54) < 8 # 1000000000000) by reflexivity. apply Qabs_Qle_condition in X.
  destruct (negb (s =? 0)%Z || negb (Qeq_bool c 0)) eqn:N.
  - split; [apply dbl_is_ld | ]. split; apply Qabs_Qle_condition; lra.
  - apply orb_false_elim in N. destruct N as [N1 N2]. apply negb_false_iff in N1, N2.
    apply Z.eqb_eq in N1. apply Qeq_bool_iff in N2. subst s. change (inject_Z 0) with 0 in *.
    split; [apply (is_ld_Z 0); reflexivity | ]. split; [apply Qabs_Qle_condition; lra | apply Qabs_Qle_condition; lra].
Qed.

Lemma preserves_zero c : c == 0 -> kept 0 c (Ok (0%Z, 0)).
Proof.
  intros E. exists 0%Z, 0. split; [reflexivity | ]. change (inject_Z 0) with 0.
  split; [rewrite E; vm_compute; reflexivity | ]. split; [vm_compute; discriminate | ]. split; [reflexivity | ].
  split; [intros; split; [reflexivity | rewrite E; vm_compute; reflexivity] | ].
  split; [intros; split; [reflexivity | rewrite E; vm_compute; reflexivity] | ].
  intros; split; reflexivity.
Qed.

Lemma quot_unique_sign U s d : (U = s * 1000000 + d)%Z -> (Z.abs d < 1000000)%Z -> (0 <= s /\ 0 <= d \/ s <= 0 /\ d <= 0)%Z ->
  Z.quot U 1000000 = s /\ Z.rem U 1000000 = d.
Proof.
  intros -> H S. split.
  - symmetry. destruct S as [S | S]; [apply (Z.quot_unique _ 1000000 s d); lia | ].
    replace (s * 1000000 + d)%Z with (- ((- s) * 1000000 + (- d)))%Z by lia. rewrite Z.quot_opp_l by lia.
    rewrite <- (Z.quot_unique ((- s) * 1000000 + (- d)) 1000000 (- s) (- d)); lia.
  - symmetry. destruct S as [S | S]; [apply (Z.rem_unique _ 1000000 s d); lia | ].
    replace (s * 1000000 + d)%Z with (- ((- s) * 1000000 + (- d)))%Z by lia. rewrite Z.rem_opp_l by lia.
    rewrite <- (Z.rem_unique ((- s) * 1000000 + (- d)) 1000000 (- s) (- d)); lia.
Qed.

Lemma near_kept s c p U c' : (Z.abs s <= 100000)%Z -> Qabs c <= 1000000 ->
  units p = U ->
  Qabs (inject_Z U - convertToAlter s c * 1000000) < 5000002 # 10000000 ->
  (forall K, Qabs (convertToAlter s c * 1000000 - inject_Z K) <= 4999998 # 10000000 -> U = K) ->
  Qabs (c' - inject_Z (Z.rem U (10 ^ 6)) / 10000) <= 1 # 100000000000 ->
  (Z.rem U (10 ^ 6) = 0%Z -> c' = 0) -> 0 <= inject_Z U * c' ->
  kept s c (Ok (Z.quot U (10 ^ 6), c')).
Proof.
  intros Hs Hc EU A1 A2 A3 A4 A5. destruct (alter_near s c Hs Hc) as (_ & N & _).
  set (v := convertToAlter s c) in *. clearbody v. change (10 ^ 6)%Z with 1000000%Z in *.
  apply Qabs_Qlt_condition in A1. apply Qabs_Qle_condition in A3, N, Hc.
  pose proof (Z.quot_rem' U 1000000) as QR. pose proof (Z.rem_bound_abs U 1000000 ltac:(lia)) as RB.
  assert (RS : (0 <= Z.quot U 1000000 /\ 0 <= Z.rem U 1000000 \/ Z.quot U 1000000 <= 0 /\ Z.rem U 1000000 <= 0)%Z).
  { destruct (Z_lt_le_dec U 0).
    - right. split; [ | apply Z.rem_nonpos; lia]. assert (0 <= Z.quot (- U) 1000000)%Z by (apply Z.quot_pos; lia). rewrite Z.quot_opp_l in H by lia. lia.
    - left. split; [apply Z.quot_pos; lia | apply Z.rem_nonneg; lia]. }
  set (q := Z.quot U 1000000) in *. set (rm := Z.rem U 1000000) in *.
  assert (QU : inject_Z U == inject_Z q * 1000000 + inject_Z rm).
  { rewrite QR. rewrite inject_Z_plus, inject_Z_mult. change (inject_Z 1000000) with 1000000. ring. }
  set (y := inject_Z rm / 10000) in *. assert (Ey : y * 10000 == inject_Z rm) by (unfold y; field).
  set (x := c / 100) in *. assert (Ex : x * 100 == c) by (unfold x; field).
  set (z := c' / 100) in *. assert (Ez : z * 100 == c') by (unfold z; field).
  assert (RQ : - (1000000) < inject_Z rm /\ inject_Z rm < 1000000).
  { change (- (1000000)) with (inject_Z (- (1000000))). change 1000000 with (inject_Z 1000000). rewrite <- !Zlt_Qlt. lia. }
  assert (RQ' : - (999999) <= inject_Z rm /\ inject_Z rm <= 999999).
  { change (- (999999)) with (inject_Z (- (999999))). change 999999 with (inject_Z 999999). rewrite <- !Zle_Qle. lia. }
  exists q, c'. split; [reflexivity | ]. fold x z. split; [apply Qabs_Qlt_condition; lra | ]. split.
  { destruct (Z.eq_dec rm 0) as [R0 | R0]; [rewrite (A4 R0); apply Qle_lteq; right; ring | ].
    destruct RS as [[S1 S2] | [S1 S2]].
    - assert (0 <= inject_Z q) by (change 0 with (inject_Z 0); rewrite <- Zle_Qle; exact S1).
      assert (1 <= inject_Z rm) by (change 1 with (inject_Z 1); rewrite <- Zle_Qle; lia).
      assert (0 <= c') by lra. nra.
    - assert (inject_Z q <= 0) by (change 0 with (inject_Z 0); rewrite <- Zle_Qle; exact S1).
      assert (inject_Z rm <= -1) by (change (-1) with (inject_Z (-1)); rewrite <- Zle_Qle; lia).
      assert (c' <= 0) by lra. nra. }
  split; [apply Qabs_Qlt_condition; lra | ].
  assert (Key : 0 <= inject_Z s * c -> Qabs c <= 999999 # 10000 -> q = s /\ Qabs (c' - c) < 6 # 100000).
  { intros Sg Bc. apply Qabs_Qle_condition in Bc.
    assert (q = s).
    { (* U lies strictly between (s-1) and (s+1) units and on the right side of zero *)
      assert (Sc : inject_Z s == 0 \/ (1 <= inject_Z s /\ 0 <= c) \/ (inject_Z s <= -1 /\ c <= 0)).
      { destruct (Z_dec s 0) as [[L | G] | E].
        - right; right. assert (inject_Z s <= -1) by (change (-1) with (inject_Z (-1)); rewrite <- Zle_Qle; lia). split; [assumption | nra].
        - right; left. assert (1 <= inject_Z s) by (change 1 with (inject_Z 1); rewrite <- Zle_Qle; lia). split; [assumption | nra].
        - left. subst. reflexivity. }
      set (d := (U - s * 1000000)%Z).
      assert (Qd : inject_Z d == inject_Z U - inject_Z s * 1000000).
      { unfold d, Z.sub. rewrite inject_Z_plus, inject_Z_opp, inject_Z_mult. change (inject_Z 1000000) with 1000000. ring. }
      assert (Bd : (Z.abs d < 1000000)%Z).
      { assert (inject_Z d < 1000000 /\ - (1000000) < inject_Z d) by lra.
        change 1000000 with (inject_Z 1000000) in H. change (- inject_Z 1000000) with (inject_Z (-1000000)) in H. rewrite <- !Zlt_Qlt in H. lia. }
      assert (Sd : (0 <= s /\ 0 <= d \/ s <= 0 /\ d <= 0)%Z).
      { destruct Sc as [S0 | [[S1 S2] | [S1 S2]]].
        - change 0 with (inject_Z 0) in S0. apply (proj1 (inject_Z_injective _ _)) in S0. lia.
        - left. change 1 with (inject_Z 1) in S1. rewrite <- Zle_Qle in S1.
          assert (-1 < inject_Z d) by lra. change (-1) with (inject_Z (-1)) in H. rewrite <- Zlt_Qlt in H. lia.
        - right. change (-1) with (inject_Z (-1)) in S1. rewrite <- Zle_Qle in S1.
          assert (inject_Z d < 1) by lra. change 1 with (inject_Z 1) in H. rewrite <- Zlt_Qlt in H. lia. }
      destruct (quot_unique_sign U s d) as [R _]; [unfold d; lia | exact Bd | exact Sd | exact R]. }
    split; [assumption | ]. subst q. rewrite H in QU. apply Qabs_Qlt_condition. lra. }
  split; [exact Key | ].
  assert (Exact : forall k, Qabs (c - inject_Z k / 10000) <= 1 # 10000000000 -> U = (s * 1000000 + k)%Z).
  { intros k Hk. apply Qabs_Qle_condition in Hk. apply A2. rewrite inject_Z_plus, inject_Z_mult. change (inject_Z 1000000) with 1000000.
    set (t := inject_Z k / 10000) in *. assert (Et : t * 10000 == inject_Z k) by (unfold t; field). apply Qabs_Qle_condition. lra. }
  split.
  - intros k Hk Sg Bk. pose proof (Exact k Hk) as EK.
    assert (Sk : (0 <= s /\ 0 <= k \/ s <= 0 /\ k <= 0)%Z).
    { apply Qabs_Qle_condition in Hk.
      set (t := inject_Z k / 10000) in *. assert (Et : t * 10000 == inject_Z k) by (unfold t; field).
      destruct (Z_dec s 0) as [[L | G] | E]; [ | | lia].
      - right. assert (inject_Z s <= -1) by (change (-1) with (inject_Z (-1)); rewrite <- Zle_Qle; lia).
        assert (c <= 0) by nra. assert (inject_Z k < 1) by lra. change 1 with (inject_Z 1) in H1. rewrite <- Zlt_Qlt in H1. lia.
      - left. assert (1 <= inject_Z s) by (change 1 with (inject_Z 1); rewrite <- Zle_Qle; lia).
        assert (0 <= c) by nra. assert (-1 < inject_Z k) by lra. change (-1) with (inject_Z (-1)) in H1. rewrite <- Zlt_Qlt in H1. lia. }
    destruct (quot_unique_sign U s k EK Bk Sk) as [R1 R2]. split; [exact R1 | ].
    assert (Yk : y == inject_Z k / 10000) by (unfold y; rewrite <- R2; reflexivity). apply Qabs_Qle_condition in Hk.
    rewrite <- Yk in Hk. apply Qabs_Qlt_condition. lra.
  - intros E0. assert (EK : U = (s * 1000000 + 0)%Z).
    { apply Exact. rewrite E0. vm_compute. discriminate. }
    destruct (quot_unique_sign U s 0 EK) as [R1 R2]; [lia | lia | ]. split; [exact R1 | ]. apply A4. exact R2.
Qed.

Lemma alter_kept s c : (Z.abs s <= 100000)%Z -> Qabs c <= 1000000 -> kept s c (alter_roundtrip s c).
Proof.
  intros Hs Hc. unfold alter_roundtrip, writeAlter.
  destruct (negb (s =? 0)%Z || negb (Qeq_bool c 0)) eqn:N.
  - destruct (alter_near s c Hs Hc) as (F & _ & B).
    destruct (store_read (convertToAlter s c) F B) as (p & c' & S1 & S2 & S3 & S4 & S5 & S6 & S7).
    rewrite S1. cbn [omap obind readAlter]. rewrite (S4 convertToSemitonesAndCents) by reflexivity.
    apply (near_kept s c p (units p) c'); auto.
  - apply orb_false_elim in N. destruct N as [N1 N2]. apply negb_false_iff in N1, N2.
    apply Z.eqb_eq in N1. apply Qeq_bool_iff in N2. subst s. apply preserves_zero, N2.
Qed.

Lemma zero_split x : Qeq_bool x 0 = true -> convertToSemitonesAndCents x = Ok (0%Z, 0).
Proof.
  intros H. apply Qeq_bool_iff in H. unfold convertToSemitonesAndCents. rewrite (to_int_Z x 0) by exact H.
  rewrite as_int_ok by lia. cbn [obind]. do 2 f_equal.
  assert (M : ld (x - inject_Z 0) == 0) by (apply ld_sign; rewrite H; reflexivity).
  destruct threshold as [T _].
  destruct (Qle_bool (dbl (1 # 1000000000000)) (Qabs (ld (x - inject_Z 0)))) eqn:E; [ | reflexivity].
  apply Qle_bool_iff in E. rewrite M in E. change (Qabs 0) with 0 in E. lra.
Qed.

Lemma key_alter_kept s c : (Z.abs s <= 100000)%Z -> Qabs c <= 1000000 -> kept s c (key_alter_roundtrip s c).
Proof.
  intros Hs Hc. unfold key_alter_roundtrip, writeKeyAlter, readKeyAlter.
  destruct (alter_near s c Hs Hc) as (F & _ & B).
  destruct (store_read (convertToAlter s c) F B) as (p & c' & S1 & S2 & S3 & S4 & S5 & S6 & S7).
  rewrite S1. cbn [omap obind].
  rewrite (S4 (fun x => if Qeq_bool x 0 then Ok (0%Z, 0) else convertToSemitonesAndCents x)).
  - apply (near_kept s c p (units p) c'); auto.
  - intros r _ _. destruct (Qeq_bool (getValue r) 0) eqn:E; [symmetry; apply zero_split, E | reflexivity].
Qed.

Lemma alter_refuted : ~ (forall s c, is_int s -> is_dbl c -> Qabs c < 100 ->
  exists c', alter_roundtrip s c = Ok (s, c') /\ Qabs (c' - c) <= 1 # 10000).
Proof.
  intros H. destruct (H 1%Z (- (50)) ltac:(unfold is_int; lia)) as (c' & E & _).
  - exists (-50)%Z, 0%Z. split; [reflexivity | reflexivity].
  - reflexivity.
  - assert (X : match alter_roundtrip 1 (- (50)) with Ok (s', _) => (s' =? 1)%Z | _ => false end = false) by (vm_compute; reflexivity).
    rewrite E in X. discriminate X.
Qed.

Lemma alter_roundtrip_whole s : is_int s -> alter_roundtrip s 0 = Ok (s, 0) /\ key_alter_roundtrip s 0 = Ok (s, 0).
Proof.
  intros H. unfold is_int in H.
  assert (R : forall f : Q -> outcome (Z * Q), (forall x, (x == inject_Z s)%Q -> f x = Ok (s, 0)) ->
    obind (construct Semitones (convertToAlter s 0)) (fun p => obind (construct_default Semitones) (fun p0 =>
      obind (parse Semitones p0 (Decimals.toString p)) (fun r => f (getValue (snd r))))) = Ok (s, 0)).
  { intros f Hf. set (p0 := mkPrecise false 0 0 19 6).
    assert (W0 : well_formed p0) by (unfold well_formed, p0; cbn [p_int_digits p_dec_digits p_integer p_decimal]; lia).
    assert (Ev : convertToAlter s 0 == inject_Z s).
    { unfold convertToAlter. change (Qeq_bool 0 0) with true. cbn [negb]. rewrite orb_false_r.
      destruct (s =? 0)%Z eqn:E; bool_hyps; cbn [negb]; [subst; reflexivity | ].
      rewrite (dbl_eq _ (inject_Z s)) by ring. apply dbl_Z. lia. }
    destruct (set_integer p0 s (wf_digits _ W0) ltac:(lia)) as (p & P1 & P2 & P3).
    assert (C : construct Semitones (inject_Z s) = Ok p).
    { change (construct Semitones (inject_Z s)) with (setValue Semitones p0 (inject_Z s)). unfold setValue. rewrite clamp_id by exact I. exact P1. }
    assert (C' : construct Semitones (convertToAlter s 0) = Ok p).
    { change (setValue Semitones p0 (convertToAlter s 0) = Ok p). unfold setValue. rewrite clamp_id by exact I. rewrite (p_setValue_eq p0 _ _ Ev). exact P1. }
    rewrite C'. cbn [obind]. rewrite construct_default_semitones. fold p0. cbn [obind].
    destruct (text_roundtrip Semitones p p0 (construct_reached (inject_Z s) p ltac:(apply is_ld_Z; lia) C) I W0) as (r & R1 & R2 & R3).
    rewrite R1. cbn [obind snd]. apply Hf. apply getValue_integer; [ | rewrite R2; exact P3].
    assert (X : reached Semitones r).
    { exists (inject_Z 0), [CallParse (Decimals.toString p)]. split; [apply is_ld_Z; reflexivity | ].
      split; [constructor; [exact I | constructor] | ].
      change (construct Semitones (inject_Z 0)) with (construct_default Semitones). rewrite construct_default_semitones. fold p0.
      cbn [obind run_calls run_call]. rewrite R1. reflexivity. }
    apply reached_once in X. apply (set_once_wf Semitones r X). }
  assert (Cv : forall x, (x == inject_Z s)%Q -> convertToSemitonesAndCents x = Ok (s, 0)).
  { intros x E. unfold convertToSemitonesAndCents. rewrite (to_int_Z x s E), as_int_ok by lia. cbn [obind]. do 2 f_equal.
    assert (M : ld (x - inject_Z s) == 0) by (apply ld_sign; rewrite E; ring).
    destruct threshold as [T _].
    destruct (Qle_bool (dbl (1 # 1000000000000)) (Qabs (ld (x - inject_Z s)))) eqn:Eb; [ | reflexivity].
    apply Qle_bool_iff in Eb. rewrite M in Eb. change (Qabs 0) with 0 in Eb. lra. }
  split.
  - unfold alter_roundtrip, writeAlter. change (Qeq_bool 0 0) with true. cbn [negb]. rewrite orb_false_r.
    destruct (s =? 0)%Z eqn:E; bool_hyps; cbn [negb]; [subst; reflexivity | ].
    specialize (R convertToSemitonesAndCents Cv). destruct (construct Semitones (convertToAlter s 0)); [exact R | discriminate R | discriminate R].
  - unfold key_alter_roundtrip, writeKeyAlter, readKeyAlter.
    specialize (R (fun x => if Qeq_bool x 0 then Ok (0%Z, 0) else convertToSemitonesAndCents x)).
    assert (Cv' : forall x, x == inject_Z s -> (if Qeq_bool x 0 then Ok (0%Z, 0) else convertToSemitonesAndCents x) = Ok (s, 0)).
    { intros x E. destruct (Qeq_bool x 0) eqn:Eb; [ | apply Cv, E]. apply Qeq_bool_iff in Eb. rewrite E in Eb.
      change 0 with (inject_Z 0) in Eb. apply (proj1 (inject_Z_injective _ _)) in Eb. subst. reflexivity. }
    specialize (R Cv'). destruct (construct Semitones (convertToAlter s 0)); [exact R | discriminate R | discriminate R].
Qed.

Lemma alter_absent s c : (writeAlter s c = Ok None <-> s = 0%Z /\ c == 0).
Proof.
  unfold writeAlter. split.
  - destruct (negb (s =? 0)%Z || negb (Qeq_bool c 0)) eqn:E.
    + destruct (construct Semitones (convertToAlter s c)); cbn; discriminate.
    + intros _. apply orb_false_iff in E. destruct E as (E1 & E2). apply negb_false_iff in E1, E2.
      apply Z.eqb_eq in E1. apply Qeq_bool_eq in E2. auto.
  - intros (-> & E). apply Qeq_bool_iff in E. rewrite E. reflexivity.
Qed.
