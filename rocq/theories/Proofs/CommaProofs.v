From Verif Require Import Proofs.Tac Model.Base Model.Text Model.Strings Model.CommaInts
  Spec.Numerals Spec.XmlText Spec.CommaText Proofs.TextProofs Proofs.StringsProofs.
From Coq Require Import Sorting.Sorted.
Open Scope Z_scope.

(** ** Sets *)

Lemma set_insert_in z s x : In x (set_insert z s) <-> x = z \/ In x s.
Proof.
  induction s as [|y s IH]; simpl; [intuition|].
  destruct (z <? y) eqn:A; [simpl; intuition|]. destruct (z =? y) eqn:B; bool_hyps; simpl; [subst; intuition|].
  rewrite IH. intuition.
Qed.

Lemma set_insert_ascending z s : ascending s -> ascending (set_insert z s).
Proof.
  unfold ascending. induction 1 as [|y s Hs IH Hy]; simpl; [repeat constructor|].
  destruct (z <? y) eqn:A; bool_hyps.
  - constructor; [constructor; assumption|]. constructor; [exact A|].
    eapply Forall_impl; [|exact Hy]. simpl. lia.
  - destruct (z =? y) eqn:B; bool_hyps; [constructor; assumption|].
    constructor; [exact IH|]. rewrite Forall_forall in *. intros x Hx. apply set_insert_in in Hx as [->|Hx]; [lia|auto].
Qed.

Lemma ascending_ext a b : ascending a -> ascending b -> (forall z, In z a <-> In z b) -> a = b.
Proof.
  unfold ascending. intros Ha. revert b. induction Ha as [|x a Ha IH Hx]; intros b Hb E.
  - destruct b as [|y b]; [reflexivity|]. exfalso. apply (E y). left. reflexivity.
  - destruct Hb as [|y b Hb Hy].
    + exfalso. apply (E x). left. reflexivity.
    + rewrite Forall_forall in *.
      assert (x = y).
      { destruct (proj1 (E x) (or_introl eq_refl)) as [->|H1]; [reflexivity|].
        destruct (proj2 (E y) (or_introl eq_refl)) as [->|H2]; [reflexivity|].
        apply Hy in H1. apply Hx in H2. lia. }
      subst y. f_equal. apply IH; [exact Hb|]. intros z. split; intros Hz.
      * destruct (proj1 (E z) (or_intror Hz)) as [->|]; [|assumption]. apply Hx in Hz. lia.
      * destruct (proj2 (E z) (or_intror Hz)) as [->|]; [|assumption]. apply Hy in Hz. lia.
Qed.

Definition positives (f : str -> Z) := fun (s : list Z) (tok : str) =>
  match tok with [] => s | _ => if 0 <? f tok then set_insert (f tok) s else s end.

Lemma fold_positives f l s : ascending s ->
  ascending (fold_left (positives f) l s) /\
  forall z, In z (fold_left (positives f) l s) <-> In z s \/ (0 < z /\ exists t, In t l /\ t <> [] /\ f t = z).
Proof.
  revert s. induction l as [|t l IH]; intros s Hs; simpl.
  - split; [exact Hs|]. intros z. split; [auto|]. intros [H|(_ & t & [] & _)]. exact H.
  - assert (Q : ascending (positives f s t) /\ forall z, In z (positives f s t) <-> In z s \/ (0 < z /\ t <> [] /\ f t = z)).
    { destruct t as [|c t]; simpl.
      - split; [exact Hs|]. intros z. intuition.
      - destruct (0 <? f (c :: t)) eqn:E; bool_hyps.
        + split; [apply set_insert_ascending, Hs|]. intros z. rewrite set_insert_in.
          split; [intros [->|H]; [right; split; [exact E|split; [discriminate|reflexivity]]|auto]|].
          intros [H|(_ & _ & <-)]; auto.
        + split; [exact Hs|]. intros z. split; [auto|]. intros [H|(K & _ & L)]; [exact H|lia]. }
    destruct Q as [Q1 Q2]. destruct (IH _ Q1) as [I1 I2]. split; [exact I1|]. intros z. rewrite I2, Q2. split.
    + intros [[H|(H & H1 & H2)]|(H & u & H1 & H2)]; [auto| |].
      * right. split; [exact H|]. exists t. auto.
      * right. split; [exact H|]. exists u. auto.
    + intros [H|(H & u & [->|H1] & H2 & H3)]; [auto| |].
      * left. right. auto.
      * right. split; [exact H|]. exists u. auto.
Qed.

Lemma copyPositives_spec s : ascending (copyPositives s) /\ forall z, In z (copyPositives s) <-> In z s /\ 0 < z.
Proof.
  unfold copyPositives.
  assert (G : forall s acc, ascending acc ->
     ascending (fold_left (fun out z => if 0 <? z then set_insert z out else out) s acc) /\
     forall z, In z (fold_left (fun out z => if 0 <? z then set_insert z out else out) s acc) <-> In z acc \/ (In z s /\ 0 < z)).
  { clear. induction s as [|x s IH]; simpl; intros acc H; [intuition|].
    assert (A : ascending (if 0 <? x then set_insert x acc else acc)) by (destruct (0 <? x); [apply set_insert_ascending, H|exact H]).
    destruct (IH _ A) as [I1 I2]. split; [exact I1|]. intros z. rewrite I2.
    destruct (0 <? x) eqn:E; bool_hyps; rewrite ?set_insert_in; intuition; subst; auto; lia. }
  destruct (G s []) as [G1 G2]; [constructor|]. split; [exact G1|]. intros z. rewrite G2. simpl. intuition.
Qed.

(** ** Parsing *)

Lemma ci_allowed_spec c : ci_allowed c = true <-> list_char c.
Proof.
  unfold list_char. split.
  - assert (K : forall c, implb (ci_allowed c) (is_digit c || Ascii.eqb c "," || Ascii.eqb c "-") = true)
      by (apply ascii_all; vm_compute; reflexivity).
    intros H. specialize (K c). rewrite H in K. unfold implb in K. rewrite !orb_true_iff, !Ascii.eqb_eq in K.
    destruct K as [[K|K]|K]; auto. left. exists (digit_of c). apply digit_spec, K.
  - intros [[d H]|[->| ->]]; [|reflexivity|reflexivity]. apply digit_is_inv in H as [H _].
    assert (K : forall c, implb (is_digit c) (ci_allowed c) = true) by (apply ascii_all; vm_compute; reflexivity).
    specialize (K c). rewrite H in K. exact K.
Qed.

Lemma ci_parse_ok c t : ci_parse c t =
  Ok (CommaInts (fold_left (positives token_value) (split_comma (flat_map (scrub [] ci_allowed) t)) []) (ciSpacing c)).
Proof. unfold ci_parse. rewrite onlyAllow_spec by constructor. reflexivity. Qed.

Lemma kept_scrub t u : kept t u -> flat_map (scrub [] ci_allowed) t = u.
Proof.
  induction 1 as [|c t u H K IH|c t u H K IH]; [reflexivity| |]; cbn [flat_map]; unfold scrub at 1; rewrite IH.
  - apply ci_allowed_spec in H. rewrite H. reflexivity.
  - destruct (ci_allowed c) eqn:E; [apply ci_allowed_spec in E; contradiction|reflexivity].
Qed.

Lemma split_comma_nonempty t : split_comma t <> [].
Proof. destruct t as [|c t]; simpl; [discriminate|]. destruct (Ascii.eqb c ","); [discriminate|]. destruct (split_comma t); discriminate. Qed.

Lemma split_comma_word a r : ~ In ","%char a -> split_comma (a ++ ","%char :: r) = a :: split_comma r.
Proof.
  induction a as [|c a IH]; simpl; intros H; [reflexivity|].
  destruct (Ascii.eqb_spec c ","); [exfalso; auto|]. rewrite IH by tauto. reflexivity.
Qed.

Lemma split_comma_last a : ~ In ","%char a -> split_comma a = [a].
Proof.
  induction a as [|c a IH]; simpl; intros H; [reflexivity|].
  destruct (Ascii.eqb_spec c ","); [exfalso; auto|]. rewrite IH by tauto. reflexivity.
Qed.

Lemma split_comma_join ps : ps <> [] -> Forall (fun a => ~ In ","%char a) ps -> split_comma (join [","%char] ps) = ps.
Proof.
  intros Hn H. induction H as [|a ps Ha Hps IH]; [congruence|]. destruct ps as [|b ps].
  - apply split_comma_last, Ha.
  - change (join [","%char] (a :: b :: ps)) with (a ++ ","%char :: join [","%char] (b :: ps)).
    rewrite split_comma_word by exact Ha. rewrite IH by discriminate. reflexivity.
Qed.

Lemma digits_no_comma ds : all_digits ds -> ~ In ","%char ds.
Proof. intros H K. unfold all_digits in H. rewrite Forall_forall in H. apply H in K. discriminate. Qed.

Lemma piece_no_comma p n : piece p n -> ~ In ","%char p.
Proof.
  destruct 1 as [|ds n H|ds n H]; [auto| |]; apply numeral_iff in H as (_ & H & _); apply digits_no_comma in H; [exact H|].
  simpl. intros [K|K]; [discriminate|auto].
Qed.

Lemma piece_value p n : piece p (Some n) -> is_int n -> p <> [] /\ token_value p = n.
Proof.
  intros H I. unfold is_int in I. inversion H as [|ds m Hm|ds m Hm]; subst; apply numeral_iff in Hm as (Hn & Hd & ->).
  - split; [exact Hn|]. unfold token_value. pose proof (read_int_digits p [] Hd Hn Logic.I) as Q. rewrite app_nil_r in Q. rewrite Q; [reflexivity|unfold int_max; lia].
  - split; [discriminate|]. unfold token_value. pose proof (read_int_neg_digits ds [] Hd Hn Logic.I) as Q. rewrite app_nil_r in Q. rewrite Q; [reflexivity|unfold int_min; lia].
Qed.

Lemma listing_parse c t ns : listing t ns -> (forall n, In (Some n) ns -> is_int n) ->
  exists r, ci_parse c t = Ok r /\ ciSpacing r = ciSpacing c /\
    forall z, In z (ciValues r) <-> 0 < z /\ In (Some z) ns.
Proof.
  intros (ps & Hp & Hn & Hk) Hi. rewrite ci_parse_ok, (kept_scrub _ _ Hk). eexists. split; [reflexivity|]. split; [reflexivity|].
  cbn [ciValues]. rewrite split_comma_join; [|exact Hn|].
  - intros z. destruct (fold_positives token_value ps []) as [_ F]; [constructor|]. rewrite F. simpl. split.
    + intros [[]|(Hz & p & H1 & H2 & <-)]. split; [exact Hz|].
      clear Hk F Hn. induction Hp as [|q n ps ns Hq Hp IH]; [destruct H1|]. destruct H1 as [->|H1].
      * destruct n as [n|]; [|inversion Hq; subst; congruence]. left. f_equal. symmetry. apply piece_value; [exact Hq|].
        apply Hi. left. reflexivity.
      * right. apply IH; [|exact H1]. intros n' Hn'. apply Hi. right. exact Hn'.
    + intros (Hz & H). right. split; [exact Hz|].
      clear Hk F Hn. induction Hp as [|q n ps ns Hq Hp IH]; [destruct H|]. destruct H as [->|H].
      * exists q. destruct (piece_value q z Hq) as [V1 V2]; [apply Hi; left; reflexivity|]. simpl. auto.
      * destruct IH as (p & P1 & P2 & P3); [intros n' Hn'; apply Hi; right; exact Hn'|exact H|]. exists p. simpl. auto.
  - clear - Hp. induction Hp; constructor; auto. eapply piece_no_comma. eassumption.
Qed.

(** ** Invariant *)

Definition ci_good (c : comma_ints) : Prop := ascending (ciValues c) /\ Forall (fun z => 0 < z <= int_max) (ciValues c).

Definition op_ints (p : ci_op) : Prop := match p with CiSet s => Forall is_int s | _ => True end.
Definition start_ints (s : ci_start) : Prop := match s with CiFromSet _ s => Forall is_int s | _ => True end.

Lemma token_value_int t : is_int (token_value t).
Proof.
  unfold token_value, read_int, is_int.
  assert (F : forall neg q, -2147483648 <= match finish_read neg q with IntOk v _ => v | IntOverflow v _ => v | IntNone => 0 end <= 2147483647).
  { intros neg q. unfold finish_read. destruct (span_digits q) as [ds rest]. destruct ds; [lia|]. cbv zeta.
    case_if; [unfold int_min; lia|]. case_if; [unfold int_max; lia|]. bool_hyps. unfold int_min, int_max in *. lia. }
  destruct (skip_ws t) as [|c q]; [lia|]. case_if; [apply F|]. case_if; apply F.
Qed.

Lemma good_copy s : Forall is_int s -> ascending (copyPositives s) /\ Forall (fun z => 0 < z <= int_max) (copyPositives s).
Proof.
  intros H. destruct (copyPositives_spec s) as [A B]. split; [exact A|]. rewrite Forall_forall in *. intros z Hz. apply B in Hz as [Hz P].
  apply H in Hz. unfold is_int, int_max in *. lia.
Qed.

Lemma ci_parse_good c t : exists r, ci_parse c t = Ok r /\ ci_good r.
Proof.
  rewrite ci_parse_ok. eexists. split; [reflexivity|]. unfold ci_good. cbn [ciValues].
  match goal with |- context [fold_left _ ?l []] => destruct (fold_positives token_value l []) as [A B] end; [constructor|].
  split; [exact A|]. rewrite Forall_forall. intros z Hz. apply B in Hz as [[]|(P & t' & _ & _ & <-)].
  pose proof (token_value_int t'). unfold is_int, int_max in *. lia.
Qed.

Lemma ci_run_good s os : start_ints s -> Forall op_ints os -> exists c, ci_run s os = Ok c /\ ci_good c.
Proof.
  intros Hs Ho. unfold ci_run.
  assert (B : exists c, ci_begin s = Ok c /\ ci_good c).
  { destruct s as [|t|b l]; simpl.
    - exists ci_default. split; [reflexivity|]. split; constructor.
    - apply ci_parse_good.
    - exists (ci_of_set b l). split; [reflexivity|]. apply good_copy, Hs. }
  destruct B as (c & -> & G). revert c G. induction Ho as [|o os Ho Hos IH]; intros c G; simpl; [eauto|].
  destruct o as [t|l|b]; simpl.
  - destruct (ci_parse_good c t) as (r & -> & Gr). apply IH, Gr.
  - apply IH. apply good_copy, Ho.
  - apply IH. exact G.
Qed.

(** ** Printing *)

Definition printed (sp : bool) (l : list Z) : str :=
  join ([","%char] ++ if sp then [" "%char] else []) (map print_int l).

Lemma ci_print_join c : ci_print c = printed (ciSpacing c) (ciValues c).
Proof.
  unfold ci_print, printed. destruct (ciValues c) as [|x r]; [reflexivity|]. revert x.
  induction r as [|y r IH]; intros x; simpl; [rewrite app_nil_r; reflexivity|].
  specialize (IH y). simpl in IH. destruct (ciSpacing c); simpl in *; rewrite IH; reflexivity.
Qed.

Lemma kept_app a b a' b' : kept a a' -> kept b b' -> kept (a ++ b) (a' ++ b').
Proof. induction 1; simpl; auto; constructor; auto. Qed.

Lemma kept_all a : Forall list_char a -> kept a a.
Proof. induction 1; constructor; auto. Qed.

Lemma print_pos_chars z : 0 < z -> Forall list_char (print_int z) /\ piece (print_int z) (Some z).
Proof.
  intros H. unfold print_int. assert (z <? 0 = false) as -> by lia.
  pose proof (numeral_print_nat z ltac:(lia)) as N. split; [|constructor; exact N].
  apply numeral_iff in N as (_ & D & _). unfold all_digits in D. eapply Forall_impl; [|exact D].
  intros c Hc. left. exists (digit_of c). apply digit_spec, Hc.
Qed.

Lemma space_ignored : ~ list_char " "%char.
Proof. intros H. apply ci_allowed_spec in H. discriminate. Qed.

Lemma printed_listing sp l : l <> [] -> Forall (fun z => 0 < z) l -> listing (printed sp l) (map Some l).
Proof.
  intros Hn H. exists (map print_int l). split; [|split].
  - clear Hn. induction H as [|z l Hz Hl IH]; simpl; constructor; [apply print_pos_chars, Hz|exact IH].
  - destruct l; [congruence|discriminate].
  - unfold printed. induction H as [|z l Hz Hl IH]; [congruence|]. destruct l as [|y l].
    + simpl. apply kept_all, print_pos_chars, Hz.
    + cbn [map join]. apply kept_app; [apply kept_all, print_pos_chars, Hz|]. apply kept_app; [|apply IH; discriminate].
      change [","%char] with ([","%char] ++ []) at 2. apply kept_app.
      * apply kept_yes; [right; left; reflexivity|constructor].
      * destruct sp; [apply kept_no; [apply space_ignored|constructor]|constructor].
Qed.

Lemma ci_roundtrip c c0 : ci_good c -> exists r, ci_parse c0 (ci_print c) = Ok r /\ ciValues r = ciValues c.
Proof.
  intros [A B]. destruct (ciValues c) as [|x l] eqn:E.
  - exists (CommaInts [] (ciSpacing c0)). unfold ci_print. rewrite E. split; [rewrite ci_parse_ok; reflexivity|reflexivity].
  - rewrite ci_print_join, E.
    destruct (listing_parse c0 (printed (ciSpacing c) (x :: l)) (map Some (x :: l))) as (r & R1 & R2 & R3).
    + apply printed_listing; [discriminate|]. eapply Forall_impl; [|exact B]. simpl. lia.
    + intros n Hn. apply in_map_iff in Hn as (m & Em & Hm). injection Em as ->. rewrite Forall_forall in B. apply B in Hm. unfold is_int, int_max in *. lia.
    + exists r. split; [exact R1|]. destruct (ci_parse_good c0 (printed (ciSpacing c) (x :: l))) as (r' & E' & G'). rewrite R1 in E'. injection E' as <-.
      apply ascending_ext; [apply G'|exact A|]. intros z. rewrite R3. rewrite in_map_iff. split.
      * intros (_ & m & Em & Hm). injection Em as ->. exact Hm.
      * intros Hz. split; [|exists z; auto]. rewrite Forall_forall in B. apply B in Hz. lia.
Qed.
