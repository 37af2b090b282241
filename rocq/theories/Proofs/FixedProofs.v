(** std::to_string of a long double. *)
From Coq Require Import List Ascii String Bool ZArith QArith Qabs Qround Lia Lqa.
From Verif Require Import Model.Base Model.Text Spec.Numerals Proofs.TextProofs Proofs.DateProofs3 Spec.FixedText Model.Layout.
Import ListNotations.
Open Scope Z_scope.
Open Scope list_scope.

Lemma micro_units_near (q : Q) :
  (Qabs (inject_Z (micro_units q) - q * 1000000) <= 1 # 2)%Q /\
  ((Qabs (inject_Z (micro_units q) - q * 1000000) == 1 # 2)%Q -> Z.even (micro_units q) = true).
Proof.
  unfold micro_units. set (s := (q * 1000000)%Q). pose proof (Qfloor_le s) as L. pose proof (Qlt_floor s) as U.
  set (f := Qfloor s) in *. clearbody f.
  assert (P : (inject_Z (f + 1) == inject_Z f + 1)%Q) by (rewrite inject_Z_plus; reflexivity).
  rewrite P in U.
  destruct (Qle_bool (1 # 2) (s - inject_Z f)) eqn:E1; cbn [negb].
  - apply Qle_bool_iff in E1. destruct (Qeq_bool (s - inject_Z f) (1 # 2)) eqn:E2.
    + apply Qeq_bool_iff in E2. destruct (Z.even f) eqn:Ev.
      * split; [|intros _; exact Ev]. apply Qabs_Qle_condition. split; lra.
      * split; [|intros _; rewrite Z.even_add, Ev; reflexivity]. apply Qabs_Qle_condition. rewrite P. split; lra.
    + apply Qeq_bool_neq in E2.
      assert (S : (1 # 2 < s - inject_Z f)%Q).
      { apply Qle_lteq in E1 as [H | H]; [exact H|]. exfalso. apply E2. symmetry. exact H. }
      assert (A : (Qabs (inject_Z (f + 1) - s) < 1 # 2)%Q) by (apply Qabs_case; intros _; rewrite P; lra).
      split; [apply Qlt_le_weak; exact A|]. intros H. rewrite H in A. exfalso. apply (Qlt_irrefl _ A).
  - assert (S : (s - inject_Z f < 1 # 2)%Q).
    { apply Qnot_le_lt. intros H. apply Qle_bool_iff in H. rewrite H in E1. discriminate E1. }
    assert (A : (Qabs (inject_Z f - s) < 1 # 2)%Q) by (apply Qabs_case; intros _; lra).
    split; [apply Qlt_le_weak; exact A|]. intros H. rewrite H in A. exfalso. apply (Qlt_irrefl _ A).
Qed.
Lemma micro_units_positive q : (0 <= q)%Q -> 0 <= micro_units q.
Proof.
  intros H. pose proof (proj1 (micro_units_near q)) as N. apply Qabs_Qle_condition in N as [A _].
  assert (B : (- (1) < inject_Z (micro_units q))%Q) by lra.
  change (- (1))%Q with (inject_Z (-1)) in B. apply Zlt_Qlt in B || rewrite <- Zlt_Qlt in B. lia.
Qed.

Lemma numeral_padded k ds m : numeral ds m -> numeral (repeat "0"%char k ++ ds) m.
Proof.
  intros H. apply numeral_iff in H as (N & A & ->). induction k as [|k IH]; [apply numeral_iff; auto|].
  cbn [repeat app]. apply numeral_iff in IH as (N' & A' & E'). split; [discriminate|].
  replace (digits_value ds) with (0 * 10 ^ Z.of_nat (List.length (repeat "0"%char k ++ ds)) + digits_value ds) by lia.
  constructor; [left; reflexivity|]. apply numeral_tail_iff. split; assumption.
Qed.

Lemma to_string_six x : six_decimals (to_string_ld x) x.
Proof.
  unfold to_string_ld. set (u := micro_units (Qabs x)).
  assert (U : 0 <= u) by (apply micro_units_positive; apply Qabs_nonneg).
  assert (Um : 0 <= u mod 1000000 < 1000000) by (apply Z.mod_pos_bound; lia).
  assert (Ud : 0 <= u / 1000000) by (apply Z.div_pos; lia).
  assert (E : u / 1000000 * 1000000 + u mod 1000000 = u) by (rewrite (Z.div_mod u 1000000) at 3 by lia; ring).
  exists (if Qle_bool 0 x then [] else lit "-"), (print_nat (u / 1000000)),
    (repeat "0"%char (6 - List.length (print_nat (u mod 1000000))) ++ print_nat (u mod 1000000)), (u / 1000000), (u mod 1000000).
  rewrite E. split; [reflexivity|]. split; [|split; [apply numeral_print_nat; exact Ud|]].
  { destruct (Qle_bool 0 x) eqn:B.
    - left. split; [apply Qle_bool_iff; exact B|reflexivity].
    - right. split; [|reflexivity]. apply Qnot_le_lt. intros H. apply Qle_bool_iff in H. rewrite H in B. discriminate B. }
  split; [apply (proj2 (proj2 (proj2 (print_nat_spec _ Ud))))|]. split; [apply numeral_padded; apply numeral_print_nat; lia|].
  split; [|exact (micro_units_near (Qabs x))].
  rewrite app_length, repeat_length.
  assert (L : (List.length (print_nat (u mod 1000000)) <= 6)%nat) by (apply print_nat_length; [lia|]; change (10 ^ Z.of_nat 6) with 1000000; exact Um).
  lia.
Qed.

Lemma staff_first g s : readStaffLayout g s =
  mkSystemLayout (systemMargins s) (systemDistance s) (topSystemDistance s)
    (match g_staff g with Some q :: _ => Some q | _ => staffDistance s end).
Proof. unfold readStaffLayout. destruct s. destruct (g_staff g) as [|[q|] r]; reflexivity. Qed.
