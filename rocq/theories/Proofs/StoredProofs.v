(** How near the number held by an attribute is to the number given. *)
From Coq Require Import List ZArith QArith Qabs Qpower Bool Lia Lqa.
From Verif Require Import Model.Base Model.Text Model.LongDouble Model.Decimals
  Spec.Numerals Spec.DecimalText Proofs.Tac Proofs.TextProofs Proofs.LongDoubleProofs Proofs.DecimalsProofs
  Proofs.DecimalsText Proofs.DecimalsStore Proofs.DecimalsRange Proofs.DotsProofs.
From Verif Require Import Spec.Attachments.
Open Scope Q_scope.

Local Opaque ld.

Lemma value_amount p : well_formed p -> (p_integer p < 2 ^ 25)%Z -> Qabs (getValue p - amount p) <= 1 # 1000000000000.
Proof.
  intros W HI. pose proof W as (W1 & W2 & W3 & W4).
  set (u := ld (of_u64 (p_decimal p) / inject_Z (10 ^ 6))).
  set (z0 := of_u64 (p_integer p) + u).
  assert (Eg : getValue p == if p_negative p then - ld z0 else ld z0).
  { unfold getValue, p_getValue. rewrite W2, express_mult by lia. fold u. fold z0. destruct (p_negative p); reflexivity. }
  assert (Ei : of_u64 (p_integer p) == inject_Z (p_integer p)) by (apply of_u64_value; lia).
  assert (Ed : of_u64 (p_decimal p) == inject_Z (p_decimal p)) by (apply of_u64_value; lia).
  assert (Hd : 0 <= inject_Z (p_decimal p) /\ inject_Z (p_decimal p) <= 999999).
  { change 0 with (inject_Z 0). change 999999 with (inject_Z 999999). rewrite <- !Zle_Qle. lia. }
  assert (Hi : 0 <= inject_Z (p_integer p) /\ inject_Z (p_integer p) <= 33554431).
  { change 0 with (inject_Z 0). change 33554431 with (inject_Z 33554431). rewrite <- !Zle_Qle. lia. }
  set (f := inject_Z (p_decimal p) / 1000000).
  assert (Ef : f * 1000000 == inject_Z (p_decimal p)) by (unfold f; field; discriminate).
  assert (Eu : u == ld f) by (unfold u, f; apply ld_eq; rewrite Ed; reflexivity).
  assert (Er : Qabs (ld f - f) <= pow2 (0 - 65)).
  { apply ld_error, Qabs_Qlt_condition. change (pow2 0) with 1. lra. }
  apply Qabs_Qle_condition in Er. assert (P65 : pow2 (0 - 65) < 1 # 1000000000000000000) by reflexivity.
  assert (Ea : amount p == if p_negative p then - (inject_Z (p_integer p) + f) else inject_Z (p_integer p) + f).
  { unfold amount, units. rewrite W2. unfold f.
    destruct (p_negative p); rewrite ?inject_Z_opp, inject_Z_plus, inject_Z_mult; change (inject_Z (10 ^ 6)) with 1000000; field; discriminate. }
  assert (Ez : z0 == inject_Z (p_integer p) + ld f) by (unfold z0; rewrite Ei, Eu; reflexivity).
  assert (G : Qabs (ld z0 - z0) <= pow2 (25 - 65)).
  { apply ld_error, Qabs_Qlt_condition. change (pow2 25) with (33554432 # 1). lra. }
  apply Qabs_Qle_condition in G. assert (P47 : pow2 (25 - 65) < 9100 # 10000000000000000) by reflexivity.
  apply Qabs_Qle_condition. rewrite Eg, Ea. destruct (p_negative p); lra.
Qed.

Lemma amount_integer p : well_formed p -> Qabs (amount p) < 33554432 -> (p_integer p < 2 ^ 25)%Z.
Proof.
  intros W H. pose proof W as (W1 & W2 & W3 & W4). apply Qabs_Qlt_condition in H.
  pose proof (amount_units p W2) as A. unfold units in A. rewrite W2 in A.
  assert (- (33554432 * 10 ^ 6) < (if p_negative p then - (p_integer p * 10 ^ 6 + p_decimal p) else p_integer p * 10 ^ 6 + p_decimal p) < 33554432 * 10 ^ 6)%Z.
  { split; rewrite Zlt_Qlt, <- A.
    - change (inject_Z (- (33554432 * 10 ^ 6))) with (-33554432000000 # 1). lra.
    - change (inject_Z (33554432 * 10 ^ 6)) with (33554432000000 # 1). lra. }
  destruct (p_negative p); lia.
Qed.

Lemma fresh_wf : well_formed (mkPrecise false 0 0 19 6).
Proof. repeat split; cbn; lia. Qed.

Lemma stored_near t x : upper_end t = None -> lower_end t = None -> is_ld x -> Qabs x <= 33000000 ->
  Qabs (stored t x - x) < 6 # 10000000 /\
  (forall k, Qabs (x - inject_Z k / 1000000) <= 4999998 # 10000000000000 -> Qabs (stored t x - inject_Z k / 1000000) <= 1 # 1000000000000).
Proof.
  intros U L F H.
  assert (D : documented t x) by (destruct t; cbn in U, L |- *; try exact I; try discriminate U; discriminate L).
  assert (B : Qabs x < inject_Z (10 ^ 19)) by (assert (33000000 < inject_Z (10 ^ 19)) by reflexivity; lra).
  destruct (set_defined t _ x fresh_wf F) as [E1 E2].
  destruct (setValue t (mkPrecise false 0 0 19 6) x) as [r | | ] eqn:E; [ | congruence | ].
  2:{ exfalso. destruct (proj1 E1 eq_refl) as [[_ H1] | [_ H1]]; apply Qabs_Qle_condition in H;
      assert (33000000 < inject_Z (2 ^ 64)) by reflexivity; lra. }
  assert (S : stored t x = getValue r).
  { unfold stored. change (construct t x) with (setValue t (mkPrecise false 0 0 19 6) x). rewrite E. reflexivity. }
  destruct (set_nearest_partial t _ x r fresh_wf F D B E) as [N1 N2].
  assert (W : well_formed r).
  { unfold setValue in E. rewrite clamp_id in E by exact D. apply (set_cases _ x r (wf_digits _ fresh_wf) F E). }
  assert (I : (p_integer r < 2 ^ 25)%Z).
  { apply amount_integer; [exact W | ]. apply Qabs_Qlt_condition in N1. apply Qabs_Qle_condition in H. apply Qabs_Qlt_condition. lra. }
  pose proof (value_amount r W I) as V. apply Qabs_Qle_condition in V.
  rewrite S. split.
  - apply Qabs_Qlt_condition in N1. apply Qabs_Qlt_condition. lra.
  - intros k Hk. specialize (N2 k Hk). apply Qabs_Qle_condition. rewrite <- N2. lra.
Qed.
