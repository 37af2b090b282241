(** Any text as a pitch alteration. *)
From Coq Require Import List Ascii String Bool ZArith QArith Qabs Qround Lia Lqa.
From Verif Require Import Model.Base Model.Text Model.Ticks Model.LongDouble Model.Decimals Model.Transpose Model.Alter
  Spec.Numerals Spec.DecimalText Spec.Intervals
  Proofs.Tac Proofs.LongDoubleProofs Proofs.DecimalsProofs Proofs.DecimalsRange Proofs.DecimalsText Proofs.TicksProofs Proofs.TransposeProofs Proofs.AlterProofs.
Import ListNotations.
Open Scope Q_scope.

Local Opaque ld dbl.

Lemma said_of p x : well_formed p -> Qabs x <= 100000 -> Qabs (inject_Z (units p) - x * 1000000) < 5000003 # 10000000 ->
  exists s c, convertToSemitonesAndCents (getValue p) = Ok (s, c) /\ alter_said x s c.
Proof.
  intros W B Hp. pose proof W as (W1 & W2 & W3 & W4). apply Qabs_Qle_condition in B. apply Qabs_Qlt_condition in Hp.
  assert (U : units p = if p_negative p then (- (p_integer p * 1000000 + p_decimal p))%Z else (p_integer p * 1000000 + p_decimal p)%Z).
  { unfold units. rewrite W2. reflexivity. }
  change (10 ^ 6)%Z with 1000000%Z in W4.
  assert (I : (p_integer p <= 200000)%Z).
  { assert (Z.abs (units p) <= 150000 * 1000000)%Z.
    { rewrite Zle_Qle. change (inject_Z (Z.abs (units p))) with (Qabs (inject_Z (units p))). apply Qabs_Qle_condition.
      change (inject_Z (150000 * 1000000)) with (150000000000 # 1). lra. }
    rewrite U in H. destruct (p_negative p); lia. }
  destruct (read_value p W I) as (c & C1 & C2 & C3 & C4). eexists _, c. split; [exact C1 | ].
  apply Qabs_Qle_condition in C2.
  set (d := inject_Z (p_decimal p)) in *. set (i := inject_Z (p_integer p)).
  assert (Hd : 0 <= d /\ d <= 999999).
  { unfold d. change 0 with (inject_Z 0). change 999999 with (inject_Z 999999). rewrite <- !Zle_Qle. lia. }
  assert (Hi : 0 <= i). { unfold i. change 0 with (inject_Z 0). rewrite <- Zle_Qle. lia. }
  set (e := d / 10000) in *. assert (Ee : e * 10000 == d) by (unfold e; field).
  assert (Uq : inject_Z (units p) == sgn p * (i * 1000000 + e * 10000)).
  { rewrite Ee, U. unfold sgn, i, d. destruct (p_negative p); rewrite ?inject_Z_opp, inject_Z_plus, inject_Z_mult; [ring | ring]. }
  assert (Sq : inject_Z (if p_negative p then - p_integer p else p_integer p)%Z == sgn p * i).
  { unfold sgn, i. destruct (p_negative p); rewrite ?inject_Z_opp; ring. }
  assert (Sg : sgn p == 1 \/ sgn p == -1) by (unfold sgn; destruct (p_negative p); [right | left]; reflexivity).
  split.
  { rewrite Sq. apply Qabs_Qlt_condition. set (h := c / 100). assert (Eh : h * 100 == c) by (unfold h; field).
    destruct Sg as [Sg | Sg]; rewrite Sg in *; lra. }
  split. { rewrite Sq. destruct Sg as [Sg | Sg]; rewrite Sg in *; nra. }
  split. { apply Qabs_Qlt_condition. destruct Sg as [Sg | Sg]; rewrite Sg in *; lra. }
  intros n En. assert (X : units p = (n * 1000000)%Z).
  { apply inject_half; rewrite inject_Z_mult; change (inject_Z 1000000) with 1000000; rewrite En in Hp; lra. }
  rewrite U in X. assert (D0 : p_decimal p = 0%Z) by (destruct (p_negative p); lia).
  split; [destruct (p_negative p); lia | exact (C3 D0)].
Qed.

Lemma text_said t x : number_text t x -> Qabs x <= 100000 ->
  exists s c, readAlter (Some t) = Ok (s, c) /\ readKeyAlter t = Ok (s, c) /\ alter_said x s c.
Proof.
  intros N B. unfold readAlter, readKeyAlter. rewrite construct_default_semitones. cbn [obind].
  set (p0 := mkPrecise false 0 0 19 6).
  assert (W0 : well_formed p0) by (unfold well_formed, p0; cbn [p_int_digits p_dec_digits p_integer p_decimal]; lia).
  pose proof B as B'. apply Qabs_Qle_condition in B'.
  assert (E64 : inject_Z (2 ^ 64) == 18446744073709551616) by reflexivity.
  rewrite (parse_number Semitones p0 t x N) by (rewrite E64; lra).
  assert (X : Qabs (ld x - x) <= pow2 (17 - 65)).
  { apply ld_error, Qabs_Qlt_condition. change (pow2 17) with (131072 # 1). lra. }
  assert (P : pow2 (17 - 65) < 1 # 100000000000000) by reflexivity. apply Qabs_Qle_condition in X.
  destruct (set_defined Semitones p0 (ld x) W0 (ld_is_ld x)) as [D T].
  destruct (setValue Semitones p0 (ld x)) as [p | | ] eqn:S; [ | contradiction | ].
  2:{ exfalso. destruct (proj1 D eq_refl) as [[_ Y] | [_ Y]]; lra. }
  cbn [omap obind snd]. unfold setValue in S. rewrite clamp_id in S by exact I.
  destruct (set_cases p0 (ld x) p (wf_digits _ W0) (ld_is_ld x) S) as (W & C).
  assert (H : Qabs (inject_Z (units p) - x * 1000000) < 5000003 # 10000000).
  { destruct C as [(_ & C & _) | (C & _)].
    - apply Qabs_Qlt_condition. apply Qabs_Qlt_condition in C. lra.
    - exfalso. change (inject_Z (10 ^ 19)) with (10000000000000000000 # 1) in C.
      assert (Qabs (ld x) <= 200000) by (apply Qabs_Qle_condition; lra). lra. }
  destruct (said_of p x W B H) as (s & c & C1 & C2). exists s, c. split; [exact C1 | ]. split; [ | exact C2].
  destruct (Qeq_bool (getValue p) 0) eqn:Z; [rewrite <- C1; symmetry; apply zero_split, Z | exact C1].
Qed.

Lemma text_not_said t : (forall x, ~ number_text t x) -> readAlter (Some t) = Ok (0%Z, 0) /\ readKeyAlter t = Ok (0%Z, 0).
Proof.
  intros N. unfold readAlter, readKeyAlter. rewrite construct_default_semitones. cbn [obind].
  rewrite (parse_other Semitones _ t N). cbn [obind snd]. split; vm_compute; reflexivity.
Qed.
