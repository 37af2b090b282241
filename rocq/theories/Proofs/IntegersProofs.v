From Verif Require Import Proofs.Tac Model.Text Model.Integers Spec.Numerals Spec.Ranges Proofs.TextProofs.
Open Scope Z_scope.

Lemma bounds_within t v : within t v <-> fst (ctor_bounds t) <= v <= snd (ctor_bounds t).
Proof. destruct t; unfold within; simpl; unfold int_min, int_max; lia. Qed.

Lemma bounds_ordered t : fst (ctor_bounds t) <= snd (ctor_bounds t).
Proof. destruct t; simpl; unfold int_min, int_max; lia. Qed.

Lemma clamp_nearest t w :
  nearest_within t w (clamp (fst (ctor_bounds t)) (snd (ctor_bounds t)) w).
Proof.
  unfold nearest_within. pose proof (bounds_ordered t). unfold clamp.
  repeat case_if; bool_hyps; (split; [apply bounds_within; lia|]);
    intros x Hx; apply bounds_within in Hx; lia.
Qed.

Definition shape (t : int_type) (r : int_range) : Prop :=
  ir_min r = fst (ctor_bounds t) /\ ir_max r = snd (ctor_bounds t) /\ within t (ir_value r).

Lemma shape_construct t v : shape t (construct t v).
Proof. repeat split; apply clamp_nearest. Qed.

Lemma shape_set t r v : shape t r -> shape t (set_value r v).
Proof.
  intros (H1 & H2 & H3). repeat split; simpl; auto; rewrite H1, H2; apply clamp_nearest.
Qed.

Lemma shape_run t os r : shape t r -> shape t (run_ops t r os).
Proof.
  revert r. induction os as [|o os IH]; intros r H; [exact H|].
  simpl. apply IH. destruct o; simpl.
  - apply shape_set, H.
  - unfold parse_range. destruct (parse_int text); simpl; [apply shape_set|]; exact H.
  - apply shape_construct.
Qed.

Lemma range_invariant t v os : within t (ir_value (run_ops t (construct t v) os)).
Proof. apply (shape_run t os (construct t v)), shape_construct. Qed.

Lemma construct_nearest t v : nearest_within t v (ir_value (construct t v)).
Proof. apply clamp_nearest. Qed.

Lemma set_nearest t v os w :
  nearest_within t w (ir_value (set_value (run_ops t (construct t v) os) w)).
Proof.
  destruct (shape_run t os (construct t v) (shape_construct t v)) as (H1 & H2 & _).
  simpl. rewrite H1, H2. apply clamp_nearest.
Qed.

Lemma nearest_inside t w r : nearest_within t w r -> within t w -> r = w.
Proof. intros [_ H] Hw. specialize (H w Hw). lia. Qed.

(** ** Parsing *)

Lemma parse_int_sound t n : parse_int t = Some n -> int_text t n /\ is_int n.
Proof.
  unfold parse_int, read_int. intros H.
  destruct (skip_ws_split t) as (w1 & Hw1 & Et).
  assert (Fin : forall neg q (sg : str), t = w1 ++ sg ++ q ->
     (neg = false /\ (sg = [] \/ sg = ["+"%char]) \/ neg = true /\ sg = ["-"%char]) ->
     match finish_read neg q with
      | IntOk v rest => match skip_ws rest with [] => Some v | _ => None end
      | _ => None
      end = Some n -> int_text t n /\ is_int n).
  { clear H. intros neg q sg Hq Hs H. unfold finish_read in H.
    destruct (span_digits q) as [ds rest] eqn:Eq.
    apply span_digits_spec in Eq as (-> & Hd & _).
    destruct ds as [|c ds]; [discriminate|]. cbv zeta in H.
    remember (c :: ds) as D eqn:ED.
    assert (Dn : D <> []) by (rewrite ED; discriminate).
    clear ED.
    set (v := if neg then - digits_value D else digits_value D) in *.
    destruct (v <? int_min) eqn:E1; [discriminate|].
    destruct (int_max <? v) eqn:E2; [discriminate|].
    destruct (skip_ws rest) eqn:E3; [|discriminate].
    injection H as <-. bool_hyps. unfold int_min, int_max in *.
    apply skip_ws_nil in E3. split; [|unfold is_int; lia].
    exists w1, sg, D, rest, (digits_value D). repeat split; auto.
    - apply numeral_tail_iff. auto.
    - subst v. destruct Hs as [[-> [->| ->]]|[-> ->]]; tauto. }
  destruct (skip_ws t) as [|c r] eqn:E; [discriminate|].
  destruct (ascii_dec c "-") as [->|N1]; [apply (Fin true r ["-"%char]); auto|].
  destruct (ascii_dec c "+") as [->|N2]; [apply (Fin false r ["+"%char]); auto|].
  apply (Fin false (c :: r) []); auto.
Qed.

Lemma parse_int_complete t n : int_text t n -> is_int n -> parse_int t = Some n.
Proof.
  intros (w1 & sg & ds & w2 & m & -> & Hw1 & Hw2 & Hn & Hs) Hi.
  apply numeral_iff in Hn as (Hne & Hd & ->).
  assert (Hr : match w2 with c :: _ => is_digit c = false | [] => True end).
  { destruct w2 as [|c w2]; [exact I|]. inversion Hw2; subst.
    destruct (is_digit c) eqn:E; [|reflexivity]. apply digit_not_space in E.
    apply is_space_spec in H1. congruence. }
  assert (Hd0 : exists c r, ds = c :: r /\ is_digit c = true).
  { destruct ds as [|c r]; [congruence|]. inversion Hd; subst. eauto. }
  destruct Hd0 as (c & r & E & Hc).
  unfold parse_int, read_int. rewrite skip_ws_app by assumption.
  unfold is_int in Hi.
  destruct Hs as [[-> ->]|[[-> ->]|[-> ->]]]; simpl app.
  - rewrite E at 1. rewrite <- app_comm_cons, skip_ws_nonspace by (apply digit_not_space; assumption).
    destruct (ascii_dec c "-") as [->|_]; [discriminate|].
    destruct (ascii_dec c "+") as [->|_]; [discriminate|].
    change (c :: r ++ w2) with ((c :: r) ++ w2). rewrite <- E.
    rewrite finish_read_app by assumption. cbv zeta.
    assert (digits_value ds <? int_min = false) as -> by (unfold int_min; lia).
    assert (int_max <? digits_value ds = false) as -> by (unfold int_max; lia).
    apply skip_ws_nil in Hw2. rewrite Hw2. reflexivity.
  - rewrite skip_ws_nonspace by reflexivity. destruct (ascii_dec "+" "-"); [congruence|]. destruct (ascii_dec "+" "+"); [|congruence].
    rewrite finish_read_app by assumption. cbv zeta.
    assert (digits_value ds <? int_min = false) as -> by (unfold int_min; lia).
    assert (int_max <? digits_value ds = false) as -> by (unfold int_max; lia).
    apply skip_ws_nil in Hw2. rewrite Hw2. reflexivity.
  - rewrite skip_ws_nonspace by reflexivity. destruct (ascii_dec "-" "-"); [|congruence].
    rewrite finish_read_app by assumption. cbv zeta.
    assert (- digits_value ds <? int_min = false) as -> by (unfold int_min; lia).
    assert (int_max <? - digits_value ds = false) as -> by (unfold int_max; lia).
    apply skip_ws_nil in Hw2. rewrite Hw2. reflexivity.
Qed.

Lemma parse_int_iff t n : parse_int t = Some n <-> int_text t n /\ is_int n.
Proof. split; [apply parse_int_sound|intros []; apply parse_int_complete; assumption]. Qed.

Lemma parse_print_int n : is_int n -> parse_int (print_int n) = Some n.
Proof.
  intros H. unfold parse_int. rewrite <- (app_nil_r (print_int n)).
  rewrite read_int_print; [reflexivity|exact H|exact I].
Qed.

Lemma print_int_form n :
  (n < 0 -> exists ds, print_int n = "-"%char :: ds /\ numeral ds (- n) /\ canonical ds) /\
  (0 <= n -> numeral (print_int n) n /\ canonical (print_int n)).
Proof.
  unfold print_int. split; intros H.
  - assert (n <? 0 = true) as -> by lia. exists (print_nat (- n)).
    split; [reflexivity|]. split; [apply numeral_print_nat|apply print_nat_spec]; lia.
  - assert (n <? 0 = false) as -> by lia.
    split; [apply numeral_print_nat|apply print_nat_spec]; lia.
Qed.

Lemma parse_range_spec t v os text :
  let r := run_ops t (construct t v) os in
  (forall n, int_text text n -> is_int n ->
     snd (parse_range r text) = true /\ nearest_within t n (ir_value (fst (parse_range r text)))) /\
  ((forall n, int_text text n -> ~ is_int n) -> parse_range r text = (r, false)).
Proof.
  intros r. split.
  - intros n H1 H2. unfold parse_range. rewrite (parse_int_complete _ _ H1 H2). simpl snd. simpl fst.
    split; [reflexivity|]. apply set_nearest.
  - intros H. unfold parse_range. destruct (parse_int text) eqn:E; [|reflexivity].
    apply parse_int_sound in E as [E1 E2]. exfalso. exact (H _ E1 E2).
Qed.

Lemma range_roundtrip t v os v' os' :
  let r := run_ops t (construct t v) os in
  let r' := run_ops t (construct t v') os' in
  parse_range r' (print_range r) = (r, true).
Proof.
  intros r r'.
  assert (H : shape t r) by (apply shape_run, shape_construct).
  assert (H' : shape t r') by (apply shape_run, shape_construct).
  unfold parse_range, print_range.
  rewrite parse_print_int by (unfold is_int; apply H).
  unfold set_value. destruct H as (H1 & H2 & H3), H' as (H1' & H2' & _). rewrite H1', H2'.
  pose proof (clamp_nearest t (ir_value r)) as N. apply nearest_inside in N; [|exact H3].
  rewrite N. destruct r as [a b c]; simpl in *. subst a b. reflexivity.
Qed.

Lemma default_within t os :
  nearest_within t 0 (ir_value (construct_default t)) /\
  within t (ir_value (run_ops t (construct_default t) os)).
Proof. split; [apply construct_nearest|apply range_invariant]. Qed.
