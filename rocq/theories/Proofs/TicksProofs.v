From Coq Require Import Znumtheory QArith Qround Lqa.
From Verif Require Import Proofs.Tac Model.Base Model.Text Model.CommaInts Model.Ticks.
From Verif Require Import Proofs.CommaProofs Spec.CommaText Spec.Rounding Spec.Divides.
Open Scope Z_scope.

(** Ints whose negation is an int. *)
Notation sym_int := has_abs.

Lemma as_int_ok z : -2147483648 <= z <= 2147483647 -> as_int z = Ok z.
Proof. intros H. unfold as_int. assert (in_int z = true) as -> by (unfold in_int, int_min, int_max; lia). reflexivity. Qed.

Lemma as_int_ub z : ~ (-2147483648 <= z <= 2147483647) -> as_int z = UB.
Proof. intros H. unfold as_int. assert (in_int z = false) as -> by (unfold in_int, int_min, int_max; lia). reflexivity. Qed.

Lemma as_int_inv z r : as_int z = Ok r -> r = z /\ -2147483648 <= z <= 2147483647.
Proof. unfold as_int, in_int, int_min, int_max. case_if; [|discriminate]. intros H. injection H as <-. lia. Qed.

Lemma abs_int_ok a : sym_int a -> abs_int a = Ok (Z.abs a).
Proof. unfold has_abs. intros. apply as_int_ok. lia. Qed.

Lemma gcd_loop_spec fuel a b : 0 <= a < Z.of_nat fuel -> 0 <= b -> gcd_loop fuel a b = Ok (Z.gcd a b).
Proof.
  revert a b. induction fuel as [|f IH]; intros a b Ha Hb; [lia|]. cbn [gcd_loop].
  destruct (a =? 0) eqn:E; bool_hyps.
  - subst. rewrite Z.gcd_0_l, Z.abs_eq by lia. reflexivity.
  - rewrite Z.rem_mod_nonneg by lia. cbv zeta.
    pose proof (Z.mod_pos_bound b a ltac:(lia)).
    assert (G : Z.gcd a b = Z.gcd (b mod a) a) by (rewrite Z.gcd_mod by lia; reflexivity).
    destruct (b mod a =? 0) eqn:E2; bool_hyps.
    + rewrite G, E2, Z.gcd_0_l, Z.abs_eq by lia. reflexivity.
    + rewrite Z.rem_mod_nonneg by lia. pose proof (Z.mod_pos_bound a (b mod a) ltac:(lia)).
      rewrite IH by lia. f_equal. rewrite G, Z.gcd_mod by lia. rewrite Z.gcd_comm. reflexivity.
Qed.

Lemma gcd_spec a b : sym_int a -> sym_int b -> greatestCommonDivisor a b = Ok (Z.gcd a b).
Proof.
  intros Ha Hb. unfold greatestCommonDivisor. rewrite !abs_int_ok by assumption. cbn [obind].
  rewrite gcd_loop_spec by (unfold has_abs in *; lia). f_equal. rewrite Z.gcd_abs_l, Z.gcd_abs_r. reflexivity.
Qed.

Lemma gcd_sym_int a b : sym_int a -> sym_int b -> sym_int (Z.gcd a b).
Proof.
  intros Ha Hb. pose proof (Z.gcd_nonneg a b).
  destruct (Z.eq_dec a 0) as [->|Na]; [rewrite Z.gcd_0_l; unfold has_abs in *; lia|].
  pose proof (Z.gcd_divide_l a b) as D. apply Z.divide_abs_r in D. apply Z.divide_pos_le in D; [|lia]. unfold has_abs in *. lia.
Qed.

(** ** The list version *)

Definition gcd_all (l : list Z) : Z := fold_right Z.gcd 0 l.
Definition lcm_all (l : list Z) : Z := fold_right Z.lcm 1 l.

Definition zeros (l : list Z) : nat := List.length (filter (fun z => z =? 0) l).

Lemma zeros_cons x l : zeros (x :: l) = ((if (x =? 0)%Z then 1 else 0) + zeros l)%nat.
Proof. unfold zeros. cbn [filter]. destruct (x =? 0)%Z; reflexivity. Qed.

Lemma gcd_rest_spec l (ze : bool) g : sym_int g -> Forall sym_int l ->
  ((if ze then 1 else 0) + zeros l <= 1)%nat -> l <> @nil Z ->
  gcd_rest ze g l = Ok (Z.gcd g (gcd_all l)).
Proof.
  intros Hg Hl. revert ze g Hg. induction Hl as [|x l Hx Hl IH]; intros ze g Hg Hz Hn; [congruence|].
  cbn [gcd_rest]. unfold zeros in Hz. simpl in Hz.
  assert ((x =? 0) && ze = false) as ->.
  { destruct (x =? 0) eqn:E, ze; simpl in Hz; try reflexivity. exfalso. lia. }
  rewrite gcd_spec by assumption. cbn [obind]. destruct l as [|y l].
  - simpl. rewrite Z.gcd_0_r. rewrite <- Z.gcd_abs_r. reflexivity.
  - rewrite IH; [|apply gcd_sym_int; assumption| |discriminate].
    + f_equal. cbn [gcd_all fold_right]. fold (gcd_all l). rewrite !Z.gcd_assoc. reflexivity.
    + unfold zeros. destruct (x =? 0), ze; simpl in *; lia.
Qed.

Lemma gcd_rest_throw l (ze : bool) g : sym_int g -> Forall sym_int l ->
  (2 <= (if ze then 1 else 0) + zeros l)%nat -> gcd_rest ze g l = Throw.
Proof.
  intros Hg Hl. revert ze g Hg. induction Hl as [|x l Hx Hl IH]; intros ze g Hg Hz.
  - unfold zeros in Hz. simpl in Hz. destruct ze; lia.
  - cbn [gcd_rest]. unfold zeros in Hz. simpl in Hz. destruct ((x =? 0) && ze) eqn:E; [reflexivity|].
    rewrite gcd_spec by assumption. cbn [obind]. apply IH; [apply gcd_sym_int; assumption|].
    unfold zeros. destruct (x =? 0), ze; simpl in *; try discriminate; lia.
Qed.

Lemma gcd_list_spec l : Forall sym_int l -> (2 <= List.length l)%nat ->
  ((zeros l <= 1)%nat -> gcd_list l = Ok (gcd_all l)) /\ ((2 <= zeros l)%nat -> gcd_list l = Throw).
Proof.
  intros H L. destruct l as [|x [|y l]]; simpl in L; try lia.
  inversion H; subst. cbn [gcd_list]. rewrite (zeros_cons x).
  split; intros Z0.
  - rewrite gcd_rest_spec; auto; discriminate.
  - apply gcd_rest_throw; auto.
Qed.

Lemma gcd_list_small x : gcd_list [] = Ok 1 /\ (sym_int x -> gcd_list [x] = Ok (if x =? 0 then 1 else Z.abs x)).
Proof.
  split; [reflexivity|]. intros H. cbn [gcd_list]. rewrite abs_int_ok by exact H. cbn [obind]. f_equal.
  destruct (x =? 0) eqn:E; bool_hyps; [subst; reflexivity|]. assert (Z.abs x =? 0 = false) as -> by lia. reflexivity.
Qed.

Lemma gcd_all_divides l x : In x l -> (gcd_all l | x).
Proof.
  induction l as [|y l IH]; simpl; intros H; [tauto|]. destruct H as [->|H].
  - apply Z.gcd_divide_l.
  - eapply Z.divide_trans; [apply Z.gcd_divide_r|]. auto.
Qed.

Lemma gcd_all_greatest l d : (forall x, In x l -> (d | x)) -> (d | gcd_all l).
Proof.
  induction l as [|y l IH]; simpl; intros H; [apply Z.divide_0_r|].
  apply Z.gcd_greatest; [apply H; auto|apply IH; intros; apply H; auto].
Qed.

Lemma gcd_all_nonneg l : 0 <= gcd_all l.
Proof. destruct l; simpl; [lia|apply Z.gcd_nonneg]. Qed.

(** ** lcm *)

Lemma lcm_quot a b : Z.gcd a b <> 0 -> Z.abs (Z.quot a (Z.gcd a b) * b) = Z.lcm a b.
Proof.
  intros H. unfold Z.lcm. rewrite !Z.abs_mul.
  pose proof (Z.gcd_nonneg a b). set (g := Z.gcd a b) in *.
  destruct (Z.gcd_divide_l a b) as [k Hk]. destruct (Z.gcd_divide_r a b) as [m Hm]. fold g in Hk, Hm.
  rewrite Hk at 1. rewrite Z.quot_mul by exact H. rewrite Hm at 2. rewrite Z.div_mul by exact H.
  rewrite Hk, Hm. rewrite !Z.abs_mul. ring.
Qed.

Lemma lcm2_spec a b : sym_int a -> sym_int b ->
  (Z.lcm a b <= 2147483647 -> leastCommonMultiple a b = Ok (Z.lcm a b)) /\
  (2147483647 < Z.lcm a b -> leastCommonMultiple a b = UB).
Proof.
  intros Ha Hb. unfold leastCommonMultiple. rewrite gcd_spec by assumption. cbn [obind].
  destruct (Z.gcd a b =? 0) eqn:E; bool_hyps.
  - apply Z.gcd_eq_0 in E as [-> ->]. simpl. split; [reflexivity|]. unfold Z.lcm. simpl. lia.
  - pose proof (lcm_quot a b E) as Q. pose proof (Z.lcm_nonneg a b).
    split; intros L.
    + rewrite as_int_ok by lia. cbn [obind]. destruct (Z.quot a (Z.gcd a b) * b <? 0) eqn:F; bool_hyps.
      * rewrite as_int_ok by lia. f_equal. lia.
      * f_equal. lia.
    + destruct (Z.eq_dec (Z.quot a (Z.gcd a b) * b) (-2147483648)) as [F|F].
      * rewrite F. reflexivity.
      * rewrite as_int_ub by lia. reflexivity.
Qed.

Lemma lcm_pos a b : a <> 0 -> b <> 0 -> 0 < Z.lcm a b.
Proof.
  intros Ha Hb. pose proof (Z.lcm_nonneg a b). assert (Z.lcm a b <> 0); [|lia].
  intros E. apply Z.lcm_eq_0 in E. tauto.
Qed.

Lemma lcm_all_pos l : Forall (fun z => z <> 0) l -> 0 < lcm_all l.
Proof. induction 1 as [|x l Hx Hl IH]; simpl; [lia|]. apply lcm_pos; [exact Hx|fold (lcm_all l); lia]. Qed.

Lemma lcm_rest_spec l a : sym_int a -> 0 < a -> Forall sym_int l -> Forall (fun z => z <> 0) l ->
  (Z.lcm a (lcm_all l) <= 2147483647 -> lcm_rest a l = Ok (Z.lcm a (lcm_all l))) /\
  (2147483647 < Z.lcm a (lcm_all l) -> lcm_rest a l = UB).
Proof.
  intros Ha Pa Hl. revert a Ha Pa. induction Hl as [|x l Hx Hl IH]; intros a Ha Pa Hz.
  - simpl. rewrite Z.lcm_1_r, Z.abs_eq by lia. split; [reflexivity|unfold has_abs in *; lia].
  - inversion Hz as [|? ? Nx Hz']; subst. cbn [lcm_rest]. assert (x =? 0 = false) as -> by lia.
    cbn [lcm_all fold_right]. fold (lcm_all l). rewrite Z.lcm_assoc.
    pose proof (lcm_pos a x ltac:(lia) Nx) as P.
    destruct (lcm2_spec a x Ha Hx) as [L1 L2].
    destruct (Z_le_gt_dec (Z.lcm a x) 2147483647) as [C|C].
    + rewrite L1 by exact C. cbn [obind]. apply IH; [unfold has_abs; lia|exact P|exact Hz'].
    + rewrite L2 by lia. cbn [obind]. split; [|reflexivity]. intros K. exfalso.
      pose proof (Z.divide_lcm_l (Z.lcm a x) (lcm_all l)) as D. apply Z.divide_pos_le in D; [lia|].
      apply lcm_pos; [lia|]. pose proof (lcm_all_pos l Hz'). lia.
Qed.

Lemma lcm_set_spec s : s <> [] -> Forall sym_int s -> Forall (fun z => z <> 0) s ->
  (lcm_all s <= 2147483647 -> lcm_set s = Ok (lcm_all s)) /\ (2147483647 < lcm_all s -> lcm_set s = UB).
Proof.
  intros Hn Hs Hz. destruct s as [|a [|b r]]; [congruence| |].
  - inversion Hz; inversion Hs; subst. cbn [lcm_set]. assert (a =? 0 = false) as -> by lia. rewrite abs_int_ok by assumption.
    simpl. rewrite Z.lcm_1_r. split; [reflexivity|unfold has_abs in *; lia].
  - inversion Hz as [|? ? Na Hz']; inversion Hs as [|? ? Ia Hs']; subst.
    inversion Hz' as [|? ? Nb Hz'']; inversion Hs' as [|? ? Ib Hs'']; subst. cbn [lcm_set].
    assert ((a =? 0) || (b =? 0) = false) as -> by lia.
    destruct (lcm2_spec a b Ia Ib) as [L1 L2]. pose proof (lcm_pos a b Na Nb) as P.
    assert (E : Z.lcm (Z.lcm a b) (lcm_all (b :: r)) = lcm_all (a :: b :: r)).
    { cbn [lcm_all fold_right]. fold (lcm_all r). rewrite !Z.lcm_assoc. f_equal. rewrite <- Z.lcm_assoc, Z.lcm_diag.
      destruct (Z.abs_spec b) as [[_ ->]|[_ ->]]; [reflexivity|]. rewrite Z.lcm_opp_r. reflexivity. }
    destruct (Z_le_gt_dec (Z.lcm a b) 2147483647) as [C|C].
    + rewrite L1 by exact C. cbn [obind].
      destruct (lcm_rest_spec (b :: r) (Z.lcm a b)) as [R1 R2]; try assumption; [unfold has_abs; lia|].
      rewrite E in R1, R2. split; assumption.
    + rewrite L2 by lia. cbn [obind]. split; [|reflexivity]. intros K. exfalso. rewrite <- E in K.
      pose proof (Z.divide_lcm_l (Z.lcm a b) (lcm_all (b :: r))) as D. apply Z.divide_pos_le in D; [lia|].
      apply lcm_pos; [lia|]. pose proof (lcm_all_pos (b :: r) Hz'). lia.
Qed.

Lemma lcm_set_zero s : In 0 s -> Forall sym_int s -> lcm_set s = Throw \/ lcm_set s = UB.
Proof.
  intros Hz Hs. destruct s as [|a [|b r]]; [destruct Hz| |].
  - destruct Hz as [->|[]]. left. reflexivity.
  - cbn [lcm_set]. destruct ((a =? 0) || (b =? 0)) eqn:E; [left; reflexivity|].
    apply orb_false_iff in E as [E1 E2]. apply Z.eqb_neq in E1, E2.
    assert (Hr : In 0 r) by (destruct Hz as [|[|]]; [congruence|congruence|assumption]).
    inversion Hs as [|? ? Ia Hs']; inversion Hs' as [|? ? Ib Hs'']; subst.
    assert (G : forall l x, In 0 l -> Forall sym_int l -> sym_int x -> 0 < x -> lcm_rest x l = Throw \/ lcm_rest x l = UB).
    { clear. induction l as [|y l IH]; intros x H Hl Hx Px; [destruct H|]. cbn [lcm_rest].
      destruct (y =? 0) eqn:E; bool_hyps; [left; reflexivity|]. destruct H as [->|H]; [congruence|]. inversion Hl; subst.
      destruct (lcm2_spec x y) as [L1 L2]; [assumption|assumption|].
      destruct (Z_le_gt_dec (Z.lcm x y) 2147483647) as [C|C].
      - rewrite L1 by exact C. cbn [obind]. pose proof (lcm_pos x y ltac:(lia) E). apply IH; auto. unfold has_abs. lia.
      - rewrite L2 by lia. right. reflexivity. }
    destruct (lcm2_spec a b Ia Ib) as [L1 L2]. pose proof (lcm_pos a b E1 E2).
    destruct (Z_le_gt_dec (Z.lcm a b) 2147483647) as [C|C].
    + rewrite L1 by exact C. cbn [obind]. apply G; [right; exact Hr|constructor; assumption|unfold has_abs; lia|assumption].
    + rewrite L2 by lia. right. reflexivity.
Qed.

Lemma lcm_all_multiple s x : In x s -> (x | lcm_all s).
Proof.
  induction s as [|y s IH]; simpl; intros H; [tauto|]. destruct H as [->|H].
  - apply Z.divide_lcm_l.
  - eapply Z.divide_trans; [apply IH, H|]. apply Z.divide_lcm_r.
Qed.

Lemma lcm_all_least s m : (forall x, In x s -> (x | m)) -> (lcm_all s | m).
Proof.
  induction s as [|y s IH]; simpl; intros H; [apply Z.divide_1_l|].
  apply Z.lcm_least; [apply H; auto|apply IH; intros; apply H; auto].
Qed.

(** ** Rounding and rescaling *)

Lemma ceiling_unique x n : (x <= inject_Z n)%Q -> (inject_Z (n - 1) < x)%Q -> Qceiling x = n.
Proof.
  intros H1 H2. pose proof (Qceiling_lt x) as A. pose proof (Qle_ceiling x) as B.
  assert (C1 : (inject_Z (n - 1) < inject_Z (Qceiling x))%Q) by (eapply Qlt_le_trans; eassumption).
  assert (C2 : (inject_Z (Qceiling x - 1) < inject_Z n)%Q) by (eapply Qlt_le_trans; eassumption).
  rewrite <- Zlt_Qlt in C1, C2. lia.
Qed.

Lemma inject_minus a b : (inject_Z (a - b) == inject_Z a - inject_Z b)%Q.
Proof. unfold Z.sub. rewrite inject_Z_plus, inject_Z_opp. reflexivity. Qed.

Lemma round_half_iff x n : round_half x = n <-> nearest_half_down x n.
Proof.
  unfold round_half, nearest_half_down. split.
  - intros <-. pose proof (Qceiling_lt (x - (1 # 2))) as A. pose proof (Qle_ceiling (x - (1 # 2))) as B.
    rewrite inject_minus in A. change (inject_Z 1) with 1%Q in A.
    set (c := inject_Z (Qceiling (x - (1 # 2)))) in *. split; lra.
  - intros [H1 H2]. apply ceiling_unique; [lra|]. rewrite inject_minus. change (inject_Z 1) with 1%Q. lra.
Qed.

Lemma round_half_Z n : round_half (inject_Z n) = n.
Proof. apply round_half_iff. unfold nearest_half_down. split; lra. Qed.

Lemma round_half_ext x y : (x == y)%Q -> round_half x = round_half y.
Proof. intros E. unfold round_half. apply Qceiling_comp. rewrite E. reflexivity. Qed.

Lemma scale_exact g c d : c <> 0 -> (c | g) -> (inject_Z d * (inject_Z g / inject_Z c) == inject_Z (d * g / c))%Q.
Proof.
  intros Hc [k ->]. rewrite Z.mul_assoc, Z.div_mul by exact Hc. rewrite !inject_Z_mult. field.
  intros E. apply Hc. apply inject_Z_injective. exact E.
Qed.

Lemma convert_exact global current d : current <> 0 -> (current | global) ->
  convertDuration global current (inject_Z d) = as_int (d * global / current).
Proof.
  intros Hc Hd. unfold convertDuration. destruct (current =? global) eqn:E; bool_hyps.
  - subst. rewrite round_half_Z, Z.div_mul by exact Hc. reflexivity.
  - assert (current =? 0 = false) as -> by lia. rewrite (round_half_ext _ _ (scale_exact global current d Hc Hd)), round_half_Z. reflexivity.
Qed.

(** Any duration, not only whole ones: the nearest tick. *)
Lemma convert_nearest global current d r : current <> 0 ->
  convertDuration global current d = Ok r ->
  nearest_half_down (d * (inject_Z global / inject_Z current)) r /\ -2147483648 <= r <= 2147483647.
Proof.
  intros Hc. unfold convertDuration. destruct (current =? global) eqn:E; bool_hyps; intros H.
  - apply as_int_inv in H as [-> H]. split; [|exact H]. apply round_half_iff.
    assert (Q : (d * (inject_Z global / inject_Z current) == d)%Q).
    { subst. field. intros E. apply Hc, inject_Z_injective, E. }
    rewrite (round_half_ext _ _ Q). reflexivity.
  - assert (current =? 0 = false) as Z0 by lia. rewrite Z0 in H. apply as_int_inv in H as [-> H]. split; [|exact H]. apply round_half_iff. reflexivity.
Qed.

Lemma foundDivisions_spec s : ascending (foundDivisions s) /\
  forall z, In z (foundDivisions s) <-> 0 < z /\ exists d, In d (List.concat (List.concat s)) /\ round_half d = z.
Proof.
  unfold foundDivisions.
  assert (G : forall l acc, ascending acc ->
    ascending (fold_left (fun acc d => if 0 <? round_half d then set_insert (round_half d) acc else acc) l acc) /\
    forall z, In z (fold_left (fun acc d => if 0 <? round_half d then set_insert (round_half d) acc else acc) l acc) <->
      In z acc \/ (0 < z /\ exists d, In d l /\ round_half d = z)).
  { clear. induction l as [|x l IH]; simpl; intros acc H.
    - split; [exact H|]. intros z. split; [auto|]. intros [K|(_ & d & [] & _)]. exact K.
    - assert (A : ascending (if 0 <? round_half x then set_insert (round_half x) acc else acc))
        by (destruct (0 <? round_half x); [apply set_insert_ascending, H|exact H]).
      destruct (IH _ A) as [I1 I2]. split; [exact I1|]. intros z. rewrite I2.
      destruct (0 <? round_half x) eqn:E; bool_hyps; rewrite ?set_insert_in; split.
      + intros [[->|K]|(P & d & D1 & D2)]; [right; eauto|auto|right; eauto].
      + intros [K|(P & d & [->|D1] & D2)]; [auto|subst; auto|right; eauto].
      + intros [K|(P & d & D1 & D2)]; [auto|right; eauto].
      + intros [K|(P & d & [->|D1] & D2)]; [auto|lia|right; eauto]. }
  destruct (G (List.concat (List.concat s)) []) as [G1 G2]; [constructor|]. split; [exact G1|]. intros z. rewrite G2. simpl. intuition.
Qed.

Section InEffect.
  Context (g : Z) (P : Z -> Prop).

  Lemma measure_ticks_P c m : P c -> (forall d, In d m -> P (round_half d)) ->
    Forall P (fst (measure_ticks c m)) /\ P (snd (measure_ticks c m)).
  Proof.
    revert c. induction m as [|d m IH]; simpl; intros c Hc Hm; [auto|].
    destruct (measure_ticks (round_half d) m) as [l e] eqn:E. simpl.
    destruct (IH (round_half d)) as [I1 I2]; [auto|auto|]. rewrite E in I1, I2. simpl in *. auto.
  Qed.

  Lemma part_ticks_P c p : P c -> (forall d, In d (List.concat p) -> P (round_half d)) ->
    Forall (Forall P) (fst (part_ticks c p)) /\ P (snd (part_ticks c p)).
  Proof.
    revert c. induction p as [|m p IH]; simpl; intros c Hc Hp; [auto|].
    pose proof (measure_ticks_P c m Hc ltac:(intros; apply Hp, in_app_iff; auto)) as [M1 M2].
    destruct (measure_ticks c m) as [l e]. simpl in *.
    pose proof (IH e M2 ltac:(intros; apply Hp, in_app_iff; auto)) as [Q1 Q2].
    destruct (part_ticks e p) as [ls e']. simpl in *. auto.
  Qed.

  Lemma score_ticks_P prev s : P g -> (0 < prev -> P prev) -> (forall d, In d (List.concat (List.concat s)) -> P (round_half d)) ->
    Forall (Forall (Forall P)) (score_ticks g prev s).
  Proof.
    revert prev. induction s as [|p s IH]; simpl; intros prev Hg Hp Hs; [constructor|].
    assert (Hc : P (if 0 <? prev then prev else g)) by (destruct (0 <? prev) eqn:E; bool_hyps; auto).
    pose proof (part_ticks_P _ p Hc ltac:(intros; apply Hs; rewrite concat_app; apply in_app_iff; auto)) as [M1 M2].
    destruct (part_ticks (if 0 <? prev then prev else g) p) as [ls e]. simpl in *.
    constructor; [exact M1|]. apply IH; auto. intros; apply Hs; rewrite concat_app; apply in_app_iff; auto.
  Qed.
End InEffect.

(** Every divisions value in effect while reading divides the score's ticks. *)
Lemma score_scale s g : findMaxDivisionsPerQuarter s = Ok g ->
  List.concat (List.concat s) <> [] -> (forall d, In d (List.concat (List.concat s)) -> 0 < round_half d <= 2147483647) ->
  0 < g /\ Forall (Forall (Forall (fun c => 0 < c /\ (c | g)))) (read_score_ticks g s).
Proof.
  intros H Hn Hd. destruct (foundDivisions_spec s) as [A B].
  assert (F : Forall sym_int (foundDivisions s) /\ Forall (fun z => z <> 0) (foundDivisions s) /\ foundDivisions s <> []).
  { split; [|split].
    - rewrite Forall_forall. intros z Hz. apply B in Hz as (_ & d & D & <-). apply Hd in D. unfold has_abs. lia.
    - rewrite Forall_forall. intros z Hz. apply B in Hz as (P & _). lia.
    - assert (D : exists d, In d (List.concat (List.concat s))).
      { destruct (List.concat (List.concat s)) as [|d l]; [congruence|]. exists d. left. reflexivity. }
      destruct D as [d D]. intros K.
      assert (In (round_half d) (foundDivisions s)) as I; [|rewrite K in I; destruct I].
      apply B. split; [apply Hd, D|]. exists d. split; [exact D|reflexivity]. }
  destruct F as (F1 & F2 & F3). unfold findMaxDivisionsPerQuarter in H.
  destruct (lcm_set_spec _ F3 F1 F2) as [L1 L2].
  destruct (Z_le_gt_dec (lcm_all (foundDivisions s)) 2147483647) as [C|C]; [|rewrite L2 in H by lia; discriminate].
  rewrite L1 in H by exact C. injection H as <-.
  pose proof (lcm_all_pos _ F2) as P. split; [exact P|].
  apply score_ticks_P; [split; [exact P|apply Z.divide_refl]|lia|].
  intros d D. split; [apply Hd, D|]. apply lcm_all_multiple. apply B. split; [apply Hd, D|]. exists d. auto.
Qed.

Lemma rescale_facts g c a b : 0 < c -> 0 < g -> (c | g) ->
  (a + b) * g / c = a * g / c + b * g / c /\ (a < b <-> a * g / c < b * g / c) /\ (a = b <-> a * g / c = b * g / c).
Proof.
  intros Hc Hg [k ->]. rewrite !Z.mul_assoc, !Z.div_mul by lia. assert (0 < k) by nia. repeat split; intros; nia.
Qed.

(** Sounding length in quarters is kept. *)
Lemma rescale_quarters g c d : 0 < c -> 0 < g -> (c | g) -> (inject_Z (d * g / c) / inject_Z g == inject_Z d / inject_Z c)%Q.
Proof.
  intros Hc Hg Hd. rewrite <- scale_exact by (lia || assumption). field.
  split; intros E; apply (proj1 (inject_Z_injective _ 0)) in E; lia.
Qed.

(** ** By divisibility *)

Lemma is_gcd_pair a b : is_gcd [a; b] (Z.gcd a b).
Proof.
  split; [apply Z.gcd_nonneg|]. split.
  - intros x [<-|[<-|[]]]; [apply Z.gcd_divide_l|apply Z.gcd_divide_r].
  - intros d H. apply Z.gcd_greatest; apply H; simpl; auto.
Qed.

Lemma is_gcd_all l : is_gcd l (gcd_all l).
Proof. exact (conj (gcd_all_nonneg l) (conj (gcd_all_divides l) (gcd_all_greatest l))). Qed.

Lemma is_lcm_all l : is_lcm l (lcm_all l).
Proof.
  split; [destruct l; simpl; [lia|apply Z.lcm_nonneg]|]. exact (conj (lcm_all_multiple l) (lcm_all_least l)).
Qed.

Lemma is_gcd_unique l g g' : is_gcd l g -> is_gcd l g' -> g = g'.
Proof. intros (H1 & H2 & H3) (H1' & H2' & H3'). apply Z.divide_antisym_nonneg; auto. Qed.

Lemma is_lcm_unique l g g' : is_lcm l g -> is_lcm l g' -> g = g'.
Proof. intros (H1 & H2 & H3) (H1' & H2' & H3'). apply Z.divide_antisym_nonneg; auto. Qed.

Lemma gcd_pair_is a b : has_abs a -> has_abs b -> exists g, greatestCommonDivisor a b = Ok g /\ is_gcd [a; b] g.
Proof. intros Ha Hb. exists (Z.gcd a b). split; [apply gcd_spec; assumption|apply is_gcd_pair]. Qed.

Lemma gcd_list_is l : Forall has_abs l -> (2 <= List.length l)%nat ->
  ((count_occ Z.eq_dec l 0%Z <= 1)%nat -> exists g, gcd_list l = Ok g /\ is_gcd l g) /\
  ((2 <= count_occ Z.eq_dec l 0%Z)%nat -> gcd_list l = Throw).
Proof.
  intros H L. assert (E : count_occ Z.eq_dec l 0 = zeros l).
  { clear. induction l as [|x l IH]; [reflexivity|]. rewrite zeros_cons. simpl. destruct (Z.eq_dec x 0) as [->|N]; simpl; [lia|].
    assert (x =? 0 = false) as -> by lia. exact IH. }
  rewrite E. destruct (gcd_list_spec l H L) as [A B]. split; [|exact B]. intros K. exists (gcd_all l). split; [auto|apply is_gcd_all].
Qed.

Lemma lcm_pair_is a b m : has_abs a -> has_abs b -> is_lcm [a; b] m ->
  (fits m -> leastCommonMultiple a b = Ok m) /\ (~ fits m -> leastCommonMultiple a b = UB).
Proof.
  intros Ha Hb Hm.
  assert (m = Z.lcm a b) as ->.
  { eapply is_lcm_unique; [exact Hm|]. split; [apply Z.lcm_nonneg|]. split.
    - intros x [<-|[<-|[]]]; [apply Z.divide_lcm_l|apply Z.divide_lcm_r].
    - intros d H. apply Z.lcm_least; apply H; simpl; auto. }
  unfold fits. destruct (lcm2_spec a b Ha Hb) as [A B]. split; [exact A|]. intros; apply B; lia.
Qed.

Lemma lcm_set_is s m : s <> [] -> Forall has_abs s -> ~ In 0 s -> is_lcm s m ->
  (fits m -> lcm_set s = Ok m) /\ (~ fits m -> lcm_set s = UB).
Proof.
  intros Hn Hs Hz Hm. assert (m = lcm_all s) as -> by (eapply is_lcm_unique; [exact Hm|apply is_lcm_all]).
  assert (F : Forall (fun z => z <> 0) s) by (rewrite Forall_forall; intros x Hx ->; auto).
  unfold fits. destruct (lcm_set_spec s Hn Hs F) as [A B]. split; [exact A|]. intros; apply B; lia.
Qed.

(** The score's scale is the lcm of the (rounded, positive) divisions found in it. *)
Lemma score_scale_is_lcm s g : findMaxDivisionsPerQuarter s = Ok g ->
  List.concat (List.concat s) <> [] -> (forall d, In d (List.concat (List.concat s)) -> 0 < round_half d <= 2147483647) ->
  is_lcm (map round_half (List.concat (List.concat s))) g.
Proof.
  intros H Hn Hd. destruct (foundDivisions_spec s) as [A B].
  assert (X : forall z, In z (map round_half (List.concat (List.concat s))) <-> In z (foundDivisions s)).
  { intros z. rewrite B, in_map_iff. split; [intros (d & <- & D); split; [apply Hd, D|eauto]|intros (_ & d & D & E); eauto]. }
  assert (L : is_lcm (foundDivisions s) g).
  { assert (F3 : foundDivisions s <> []).
    { assert (D : exists d, In d (List.concat (List.concat s))).
      { destruct (List.concat (List.concat s)) as [|d l]; [congruence|]. exists d. left. reflexivity. }
      destruct D as [d D]. intros K. assert (In (round_half d) (foundDivisions s)) as I; [|rewrite K in I; destruct I].
      apply X, in_map, D. }
    assert (F1 : Forall has_abs (foundDivisions s)).
    { rewrite Forall_forall. intros z Hz. apply X in Hz. apply in_map_iff in Hz as (d & <- & D). apply Hd in D. unfold has_abs. lia. }
    assert (F2 : ~ In 0 (foundDivisions s)) by (intros K; apply B in K; lia).
    destruct (lcm_set_is _ (lcm_all (foundDivisions s)) F3 F1 F2 (is_lcm_all _)) as [A1 A2].
    unfold findMaxDivisionsPerQuarter in H.
    destruct (Z_le_gt_dec (lcm_all (foundDivisions s)) 2147483647) as [C|C].
    - rewrite A1 in H by exact C. injection H as <-. apply is_lcm_all.
    - rewrite A2 in H by (unfold fits; lia). discriminate. }
  destruct L as (L1 & L2 & L3). split; [exact L1|]. split.
  - intros x Hx. apply L2, X, Hx.
  - intros d D. apply L3. intros x Hx. apply D, X, Hx.
Qed.

(** A score without divisions keeps the durations as they are. *)
Lemma no_divisions s d : List.concat (List.concat s) = [] -> findMaxDivisionsPerQuarter s = Ok 0 /\
  Forall (Forall (Forall (fun c => convertDuration 0 c (inject_Z d) = as_int d))) (read_score_ticks 0 s).
Proof.
  intros E. split.
  - unfold findMaxDivisionsPerQuarter. replace (foundDivisions s) with (@nil Z); [reflexivity|].
    destruct (foundDivisions s) as [|z l] eqn:F; [reflexivity|]. exfalso.
    destruct (foundDivisions_spec s) as [_ B]. destruct (proj1 (B z)) as (_ & d' & D & _); [rewrite F; left; reflexivity|].
    change (In d' (@List.concat Q (@List.concat (list Q) s))) in D. unfold measure_divs in *. rewrite E in D. destruct D.
  - apply score_ticks_P; [|lia|].
    + unfold convertDuration. simpl. rewrite round_half_Z. reflexivity.
    + intros d' D. rewrite E in D. destruct D.
Qed.
