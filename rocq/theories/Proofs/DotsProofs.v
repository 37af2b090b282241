(** Proofs about dots. *)
From Coq Require Import List ZArith QArith Qpower Qround Qabs Bool Lia Lqa.
From Verif Require Import Proofs.Tac Model.LongDouble Model.Dots Spec.Intervals Proofs.LongDoubleProofs.
Import ListNotations.
Open Scope Q_scope.

Lemma ld_eq x y : x == y -> ld x == ld y.
Proof. apply round_to_eq. Qed.

Lemma ld_scaled m e : (Z.abs m < 2 ^ 64)%Z -> ld (inject_Z m * pow2 e) == inject_Z m * pow2 e.
Proof. intros H. apply ld_exact. exists m, e. split; [exact H | reflexivity]. Qed.

Lemma tolerance : dbl (1 # 10000) < 1 # 5000 /\ 0 < dbl (1 # 10000).
Proof. split; vm_compute; reflexivity. Qed.

Local Opaque ld dbl.

(** The loop adds base*2, base*4, ... *)
Lemma dots_loop_value n : forall out add m e a b,
  out == inject_Z m * pow2 e -> add == inject_Z a * pow2 b -> (e <= b)%Z ->
  (Z.abs m + Z.abs a * 2 ^ (b - e) * (2 ^ Z.of_nat n - 1) < 2 ^ 64)%Z -> (Z.abs a < 2 ^ 64)%Z ->
  dots_loop n out add == out + add * inject_Z (2 ^ Z.of_nat n - 1).
Proof.
  induction n as [|n IH]; intros out add m e a b Eo Ea Le Hb Ha; cbn [dots_loop].
  - change (2 ^ Z.of_nat 0 - 1)%Z with 0%Z. change (inject_Z 0) with 0. ring.
  - assert (P : (2 ^ Z.of_nat (S n) = 2 * 2 ^ Z.of_nat n)%Z) by (rewrite Nat2Z.inj_succ, Z.pow_succ_r by lia; reflexivity).
    rewrite P in Hb. rewrite P.
    pose proof (Z.pow_pos_nonneg 2 (Z.of_nat n) ltac:(lia) ltac:(lia)) as Pn.
    pose proof (Z.pow_pos_nonneg 2 (b - e) ltac:(lia) ltac:(lia)) as Pe.
    set (N := (2 ^ Z.of_nat n)%Z) in *. set (D := (2 ^ (b - e))%Z) in *.
    assert (Eb : pow2 b == inject_Z D * pow2 e).
    { replace b with ((b - e) + e)%Z at 1 by lia. rewrite pow2_add, (pow2_nonneg (b - e)) by lia. reflexivity. }
    assert (Ha2 : (Z.abs (a * D) = Z.abs a * D)%Z) by (rewrite Z.abs_mul, (Z.abs_eq D); lia).
    assert (Ho : out + add == inject_Z (m + a * D) * pow2 e).
    { rewrite Eo, Ea, Eb, inject_Z_plus, inject_Z_mult. ring. }
    assert (Hs : ld (out + add) == inject_Z (m + a * D) * pow2 e).
    { rewrite (ld_eq _ _ Ho). apply ld_scaled. nia. }
    assert (Hd : add / (1 # 2) == inject_Z a * pow2 (b + 1)).
    { rewrite Ea, pow2_succ. field. }
    assert (Hd' : ld (add / (1 # 2)) == inject_Z a * pow2 (b + 1)).
    { rewrite (ld_eq _ _ Hd). apply ld_scaled. exact Ha. }
    rewrite (IH _ _ (m + a * D)%Z e a (b + 1)%Z Hs Hd'); [ | lia | | exact Ha].
    + rewrite Hs, Hd', <- Ho, pow2_succ. rewrite Ea. unfold Z.sub. rewrite !inject_Z_plus, inject_Z_mult.
      change (inject_Z 2) with 2. change (inject_Z (- (1))) with (-1). ring.
    + replace (b + 1 - e)%Z with (Z.succ (b - e)) by lia. rewrite Z.pow_succ_r by lia. fold D N. nia.
Qed.

Lemma applyDots_value m e n : (Z.abs m * (2 ^ Z.of_nat (S n) - 1) < 2 ^ 64)%Z ->
  applyDots (inject_Z m * pow2 e) n == inject_Z m * pow2 e * inject_Z (2 ^ Z.of_nat (S n) - 1).
Proof.
  intros H. unfold applyDots.
  assert (P : (2 ^ Z.of_nat (S n) = 2 * 2 ^ Z.of_nat n)%Z) by (rewrite Nat2Z.inj_succ, Z.pow_succ_r by lia; reflexivity).
  rewrite P in H. rewrite P. pose proof (Z.pow_pos_nonneg 2 (Z.of_nat n) ltac:(lia) ltac:(lia)) as Pn.
  set (N := (2 ^ Z.of_nat n)%Z) in *.
  assert (Ha : (Z.abs m < 2 ^ 64)%Z) by nia.
  assert (Ea : ld (inject_Z m * pow2 e / (1 # 2)) == inject_Z m * pow2 (e + 1)).
  { assert (X : inject_Z m * pow2 e / (1 # 2) == inject_Z m * pow2 (e + 1)) by (rewrite pow2_succ; field).
    rewrite (ld_eq _ _ X). apply ld_scaled, Ha. }
  rewrite (dots_loop_value n _ _ m e m (e + 1)%Z); [ | reflexivity | exact Ea | lia | | exact Ha].
  - rewrite Ea, pow2_succ. fold N. unfold Z.sub. rewrite !inject_Z_plus, inject_Z_mult.
    change (inject_Z 2) with 2. change (inject_Z (- (1))) with (-1). ring.
  - replace (e + 1 - e)%Z with 1%Z by lia. change (2 ^ 1)%Z with 2%Z. fold N. nia.
Qed.

Lemma dots_add_value n : forall h, dots_add h n == h * (2 - 2 * Qpower (1 # 2) (Z.of_nat n)).
Proof.
  induction n as [|n IH]; intros h; cbn [dots_add].
  - change (Qpower (1 # 2) (Z.of_nat 0)) with 1. ring.
  - rewrite IH. rewrite Nat2Z.inj_succ. unfold Z.succ. rewrite Qpower_plus by discriminate.
    change (Qpower (1 # 2) 1) with (1 # 2). field.
Qed.

Lemma dotted_closed base n : dotted_length base n == base * (2 - Qpower (1 # 2) (Z.of_nat n)).
Proof. unfold dotted_length. rewrite dots_add_value. field. Qed.

(** Never the musical length, but for no dots or no duration. *)
Lemma dots_never_right m e n : (Z.abs m * (2 ^ Z.of_nat (S n) - 1) < 2 ^ 64)%Z -> (0 < n)%nat ->
  applyDots (inject_Z m * pow2 e) n == dotted_length (inject_Z m * pow2 e) n -> m = 0%Z.
Proof.
  intros H Hn E. rewrite applyDots_value, dotted_closed in E by exact H.
  assert (Pe := pow2_pos e). set (B := inject_Z m * pow2 e) in *.
  assert (T : (4 <= 2 ^ Z.of_nat (S n))%Z).
  { change 4%Z with (2 ^ 2)%Z. apply Z.pow_le_mono_r; lia. }
  assert (K : 3 <= inject_Z (2 ^ Z.of_nat (S n) - 1)) by (change 3 with (inject_Z 3); rewrite <- Zle_Qle; lia).
  assert (P : 0 < Qpower (1 # 2) (Z.of_nat n)) by (apply Qpower_0_lt; reflexivity).
  assert (Z0 : B == 0).
  { set (k := inject_Z (2 ^ Z.of_nat (S n) - 1)) in *. set (q := Qpower (1 # 2) (Z.of_nat n)) in *.
    assert (X : B * (k - 2 + q) == 0) by lra.
    apply Qmult_integral in X. destruct X as [X | X]; [exact X | lra]. }
  unfold B in Z0. apply Qmult_integral in Z0. destruct Z0 as [Z0 | Z0]; [ | lra].
  change 0 with (inject_Z 0) in Z0. apply (proj1 (inject_Z_injective _ _)) in Z0. exact Z0.
Qed.

(** Comparing multiples of 1/512. *)
Lemma ticks_equal_exact a b A B : a == inject_Z A * pow2 (-9) -> b == inject_Z B * pow2 (-9) ->
  (Z.abs A < 2 ^ 60)%Z -> (Z.abs B < 2 ^ 60)%Z -> ticks_equal a b = (A =? B)%Z.
Proof.
  intros Ea Eb HA HB. unfold ticks_equal.
  assert (E : a - b == inject_Z (A - B) * pow2 (-9)).
  { rewrite Ea, Eb. unfold Z.sub. rewrite inject_Z_plus, inject_Z_opp. ring. }
  assert (L : ld (a - b) == inject_Z (A - B) * pow2 (-9)).
  { rewrite (ld_eq _ _ E). apply ld_scaled. assert (2 ^ 61 <= 2 ^ 64)%Z by discriminate. assert (2 ^ 61 = 2 * 2 ^ 60)%Z by reflexivity. lia. }
  assert (P : pow2 (-9) == 1 # 512) by reflexivity.
  destruct tolerance as [T0 T1].
  assert (La : Qabs (ld (a - b)) == inject_Z (Z.abs (A - B)) * (1 # 512)).
  { rewrite L, Qabs_Qmult, P. reflexivity. }
  destruct (A =? B)%Z eqn:Q; bool_hyps.
  - subst B. rewrite Z.sub_diag in La. change (inject_Z (Z.abs 0)) with 0 in La.
    apply negb_true_iff. apply not_true_is_false. rewrite Qle_bool_iff. rewrite La. lra.
  - apply negb_false_iff. apply Qle_bool_iff. rewrite La.
    assert (1 <= inject_Z (Z.abs (A - B))) by (change 1 with (inject_Z 1); rewrite <- Zle_Qle; lia). lra.
Qed.

(** The lengths in 512ths of a quarter. *)
Definition dur_512 (n : duration_name) : Z :=
  match n with
  | Maxima => 16384 | Longa => 8192 | Breve => 4096 | Whole => 2048 | Half => 1024 | Quarter => 512
  | Eighth => 256 | Dur16th => 128 | Dur32nd => 64 | Dur64th => 32
  | Dur128th => 16 | Dur256th => 8 | Dur512th => 4 | Dur1024th => 2
  end.

Lemma dots_match_exact t L n dots : (0 < t <= 2147483647)%Z -> (dots <= 3)%nat -> (Z.abs L < 2 ^ 60)%Z ->
  forall len, len == inject_Z L * pow2 (-9) ->
  dots_match t len n dots = (dur_512 n * t * (2 ^ Z.of_nat (S dots) - 1) =? L)%Z.
Proof.
  intros Ht Hd HL len El. unfold dots_match.
  assert (Ed : dur_quarters n * inject_Z t == inject_Z (dur_512 n * t) * pow2 (-9)).
  { rewrite inject_Z_mult. destruct n; cbn [dur_quarters dur_512]; change (pow2 (-9)) with (1 # 512); unfold inject_Z at 2; field. }
  assert (Bn : (2 <= dur_512 n <= 16384)%Z) by (destruct n; cbn [dur_512]; lia).
  assert (Bd : (1 <= 2 ^ Z.of_nat (S dots) - 1 <= 15)%Z).
  { destruct dots as [|[|[|[|k]]]]; [ | | | | lia]; split; vm_compute; discriminate. }
  assert (Bt : (Z.abs (dur_512 n * t) <= 16384 * 2147483647)%Z) by nia.
  assert (Ev : ld (dur_quarters n * inject_Z t) == inject_Z (dur_512 n * t) * pow2 (-9)).
  { rewrite (ld_eq _ _ Ed). apply ld_scaled. assert (16384 * 2147483647 < 2 ^ 64)%Z by reflexivity. lia. }
  assert (Da : forall x y k, x == y -> applyDots x k == applyDots y k).
  { intros x y k E. unfold applyDots.
    assert (G : forall k a b c d, a == b -> c == d -> dots_loop k a c == dots_loop k b d).
    { induction k0 as [|j IH]; intros a b c d E1 E2; cbn [dots_loop]; [exact E1 | ].
      apply IH; apply ld_eq; rewrite E2; [rewrite E1 | ]; reflexivity. }
    apply G; [exact E | apply ld_eq; rewrite E; reflexivity]. }
  apply ticks_equal_exact.
  - rewrite (Da _ _ dots Ev), applyDots_value.
    + rewrite (inject_Z_mult (dur_512 n * t)). ring.
    + assert (16384 * 2147483647 * 15 < 2 ^ 64)%Z by reflexivity. nia.
  - exact El.
  - rewrite Z.abs_mul. assert (16384 * 2147483647 * 15 < 2 ^ 60)%Z by reflexivity. nia.
  - exact HL.
Qed.

Lemma mul_cancel_eqb t a b : (0 < t)%Z -> (a * t =? b * t)%Z = (a =? b)%Z.
Proof. intros H. apply eq_true_iff_eq. rewrite !Z.eqb_eq. split; [apply Z.mul_reg_r; lia | congruence]. Qed.

(** The search, on integers. *)
Definition find_512 (w : Z) (l : list nat) : option (duration_name * nat) :=
  (fix go l := match l with
   | [] => None
   | dots :: r =>
      match find (fun n => dur_512 n * (2 ^ Z.of_nat (S dots) - 1) =? w)%Z names_tried with
      | Some n => Some (n, dots)
      | None => go r
      end
   end) l.

Lemma find_ext {A} (f g : A -> bool) l : (forall x, f x = g x) -> find f l = find g l.
Proof. intros H. induction l as [|x l IH]; cbn [find]; [reflexivity | ]. rewrite H, IH. reflexivity. Qed.

Lemma find_exact t w len : (0 < t <= 2147483647)%Z -> (Z.abs w <= 1000000)%Z -> len == inject_Z (w * t) * pow2 (-9) ->
  findNormalNameAndDots t len = find_512 w [0%nat; 1%nat; 2%nat; 3%nat].
Proof.
  intros Ht Hw El. unfold findNormalNameAndDots.
  assert (B : (Z.abs (w * t) < 2 ^ 60)%Z) by (assert (1000000 * 2147483647 < 2 ^ 60)%Z by reflexivity; nia).
  assert (G : forall l, (forall d, In d l -> (d <= 3)%nat) -> find_dots t len l = find_512 w l).
  { induction l as [|d l IH]; intros Hl; cbn [find_dots find_512]; [reflexivity | ].
    assert (Hd : (d <= 3)%nat) by (apply Hl; left; reflexivity).
    rewrite (find_ext _ (fun n => dur_512 n * (2 ^ Z.of_nat (S d) - 1) =? w)%Z).
    - rewrite IH by (intros; apply Hl; right; assumption). reflexivity.
    - intros n. rewrite (dots_match_exact t (w * t) n d Ht Hd B len El).
      replace (dur_512 n * t * (2 ^ Z.of_nat (S d) - 1))%Z with (dur_512 n * (2 ^ Z.of_nat (S d) - 1) * t)%Z by ring.
      apply mul_cancel_eqb. lia. }
  apply G. cbn [In]. lia.
Qed.

Lemma find_undotted t n len : (0 < t <= 2147483647)%Z -> len == dur_quarters n * inject_Z t ->
  findNormalNameAndDots t len = Some (n, 0%nat).
Proof.
  intros Ht El. rewrite (find_exact t (dur_512 n) len Ht).
  - destruct n; vm_compute; reflexivity.
  - destruct n; cbn [dur_512]; lia.
  - rewrite El, inject_Z_mult. destruct n; cbn [dur_quarters dur_512]; change (pow2 (-9)) with (1 # 512); unfold inject_Z at 2; field.
Qed.

Lemma find_one_dot t n len : (0 < t <= 2147483647)%Z -> len == dotted_length (dur_quarters n * inject_Z t) 1 ->
  findNormalNameAndDots t len = match half_of n with Some h => Some (h, 1%nat) | None => None end.
Proof.
  intros Ht El. rewrite (find_exact t (dur_512 n + dur_512 n / 2) len Ht).
  - destruct n; vm_compute; reflexivity.
  - destruct n; vm_compute; discriminate.
  - rewrite El, inject_Z_mult. unfold dotted_length. cbn [dots_add].
    destruct n; cbn [dur_quarters]; change (pow2 (-9)) with (1 # 512);
      match goal with |- context [inject_Z (dur_512 ?x + dur_512 ?x / 2)] =>
        let v := eval vm_compute in (dur_512 x + dur_512 x / 2)%Z in change (dur_512 x + dur_512 x / 2)%Z with v end;
      unfold inject_Z at 3; field.
Qed.

Lemma all_tried n : In n names_tried.
Proof. destruct n; cbn; tauto. Qed.

Local Opaque dots_match names_tried.

Lemma find_sound t len n dots : findNormalNameAndDots t len = Some (n, dots) ->
  (dots <= 3)%nat /\ dots_match t len n dots = true /\
  forall d', (d' < dots)%nat -> forall n', dots_match t len n' d' = false.
Proof.
  intros H. unfold findNormalNameAndDots, find_dots in H.
  assert (A : forall d n', find (fun n => dots_match t len n d) names_tried = None -> dots_match t len n' d = false).
  { intros d n' F. apply (find_none _ _ F). apply all_tried. }
  repeat match type of H with
  | match find (fun n => dots_match t len n ?k) names_tried with _ => _ end = _ =>
      let F := fresh "F" in destruct (find (fun n => dots_match t len n k) names_tried) eqn:F;
      [injection H as <- <-; split; [lia | ]; split; [apply find_some in F; apply F | ];
       intros d' Hd' n'; destruct d' as [|[|[|[|d']]]]; try lia; apply A; assumption | ]
  end. discriminate H.
Qed.

Lemma applyDots_refuted : ~ (forall base n, is_ld base -> applyDots base n == dotted_length base n).
Proof.
  intros H. specialize (H 1 1%nat). assert (F : is_ld 1) by (apply (is_ld_Z 1); reflexivity). specialize (H F).
  vm_compute in H. discriminate H.
Qed.

(** No dots. *)
Lemma applyDots_none base : applyDots base 0 = base /\ dotted_length base 0 == base.
Proof. split; [reflexivity | ]. unfold dotted_length. cbn [dots_add]. ring. Qed.
