(** Lemmas about values that are a number or a word. *)
From Coq Require Import List Ascii Bool String ZArith QArith Qabs Lia Lqa.
From Verif Require Import Model.Base Model.Text Model.LongDouble Model.Decimals Model.Integers Model.EnumLookup Model.CoreEnums Model.NumberOrWord
  Spec.Numerals Spec.Ranges Spec.DecimalText Spec.TextEnum Spec.SchemaTexts Spec.NumberOrWordText
  Proofs.DecimalsText Proofs.DecimalsRange Proofs.LongDoubleProofs Proofs.IntegersProofs Proofs.EnumTables Proofs.StringsProofs.
Import ListNotations.
Local Open Scope Z_scope.

Lemma scan_no_number t : scan_decimal t = None -> no_number t.
Proof. intros E x N. destruct (scan_complete t x N) as (rest & F & _). rewrite E in F. discriminate F. Qed.

Lemma css_no_number v : no_number (CssFontSize_toString v).
Proof. apply scan_no_number. destruct v; reflexivity. Qed.

Lemma yes_no_number v : no_number (YesNo_toString v).
Proof. apply scan_no_number. destruct v; reflexivity. Qed.

Lemma normal_no_number : no_number (lit "normal").
Proof. apply scan_no_number. reflexivity. Qed.

(** setValue only looks at the digits. *)
Lemma set_digits p q v : p_int_digits p = p_int_digits q -> p_dec_digits p = p_dec_digits q -> p_setValue p v = p_setValue q v.
Proof. intros A B. unfold p_setValue, max_integer, max_decimal. rewrite A, B. reflexivity. Qed.

Lemma set_construct p v : well_formed p -> setValue Decimal p v = Decimals.construct Decimal v.
Proof. intros (A & B & _). unfold setValue, Decimals.construct, new_precise. apply set_digits; cbn [p_int_digits p_dec_digits]; assumption. Qed.

Definition zero : precise := mkPrecise false 0 0 19 6.

Lemma zero_new : Decimals.construct Decimal 0 = Ok zero.
Proof. vm_compute. reflexivity. Qed.

Lemma zero_default : Decimals.construct_default Decimal = Ok zero.
Proof. exact zero_new. Qed.

Lemma zero_reached : reached Decimal zero.
Proof. exists 0%Q, []. split; [apply (is_ld_Z 0); reflexivity | ]. split; [constructor | ]. exact (f_equal (fun o => obind o Ok) zero_new). Qed.

Lemma zero_amount : (amount zero == 0)%Q.
Proof. reflexivity. Qed.

Lemma reached_wf p : reached Decimal p -> well_formed p.
Proof. intros H. apply (range_partial Decimal p H). Qed.

(** ** A Decimal that parses a text *)

Lemma reached_parse p t b q : reached Decimal p -> Decimals.parse Decimal p t = Ok (b, q) -> reached Decimal q.
Proof.
  intros (v & cs & F & G & H) E. exists v, (cs ++ [CallParse t]). split; [exact F | ]. split; [apply Forall_app; split; [exact G | repeat constructor] | ].
  destruct (Decimals.construct Decimal v) as [p0 | | ]; cbn [obind] in *; try discriminate H.
  clear F G. revert p0 H. induction cs as [|c cs IH]; intros p0 H; cbn [run_calls app] in *.
  - injection H as ->. cbn [run_call]. rewrite E. reflexivity.
  - destruct (run_call Decimal p0 c) as [p1 | | ]; cbn [obind] in *; try discriminate H. apply IH. exact H.
Qed.

Lemma parse_decimal_number t x : number_text t x -> (Qabs x < inject_Z (2 ^ 64))%Q ->
  parse_decimal t = omap Some (Decimals.construct Decimal (ld x)).
Proof.
  intros N B. unfold parse_decimal. rewrite zero_default. cbn [obind]. rewrite (parse_number Decimal zero t x N B).
  rewrite (set_construct zero _ (reached_wf _ zero_reached)). destruct (Decimals.construct Decimal (ld x)); reflexivity.
Qed.

Lemma parse_decimal_other t : no_number t -> parse_decimal t = Ok None.
Proof. intros N. unfold parse_decimal. rewrite zero_default. cbn [obind]. rewrite (parse_other Decimal zero t N). reflexivity. Qed.

Lemma parse_decimal_reached t p : parse_decimal t = Ok (Some p) -> reached Decimal p.
Proof.
  unfold parse_decimal. rewrite zero_default. cbn [obind]. destruct (Decimals.parse Decimal zero t) as [[b q] | | ] eqn:E; cbn [omap obind fst snd]; [ | intros H; discriminate H | intros H; discriminate H].
  destruct b; [ | intros H; discriminate H]. intros [= <-]. exact (reached_parse zero t true q zero_reached E).
Qed.

Lemma parse_decimal_back p : reached Decimal p ->
  exists r, parse_decimal (Decimals.toString p) = Ok (Some r) /\ (amount r == amount p)%Q /\ Decimals.toString r = Decimals.toString p /\ well_formed r.
Proof.
  intros R. destruct (text_roundtrip Decimal p zero R I (reached_wf _ zero_reached)) as (r & A & B & C).
  exists r. unfold parse_decimal. rewrite zero_default. cbn [obind]. rewrite A. cbn [omap obind fst snd].
  repeat split; try assumption; apply (reached_wf r (reached_parse zero _ true r zero_reached A)).
Qed.

Lemma text_is_number p : reached Decimal p -> exists x, number_text (Decimals.toString p) x.
Proof.
  intros R. destruct (text_of p (reached_wf p R)) as [T _]. apply plain_is_number in T. destruct T as (y & _ & N). exists y. exact N.
Qed.

(** ** FontSize *)

Lemma css_try v : tryParse_CssFontSize (CssFontSize_toString v) = Some v.
Proof. exact (proj1 (proj1 (proj2 (proj2 CssFontSize_text)) v)). Qed.

Lemma css_none t : ~ In t schema_css_font_size -> tryParse_CssFontSize t = None.
Proof. intros H. exact (proj1 (proj2 (proj2 (proj2 (proj2 (proj2 CssFontSize_text)))) t H)). Qed.

Lemma yes_try v : tryParse_YesNo (YesNo_toString v) = Some v.
Proof. exact (proj1 (proj1 (proj2 (proj2 YesNo_text)) v)). Qed.

Lemma yes_none t : ~ In t schema_yes_no -> tryParse_YesNo t = None.
Proof. intros H. exact (proj1 (proj2 (proj2 (proj2 (proj2 (proj2 YesNo_text)))) t H)). Qed.

Lemma yes_printed t v : tryParse_YesNo t = Some v -> t = YesNo_toString v.
Proof. exact (proj1 (proj2 (proj2 (proj2 (proj2 YesNo_text)))) t v). Qed.

Lemma font_text x t :
  (forall q, number_text t q -> (Qabs q < inject_Z (2 ^ 64))%Q ->
     FontSize_parse x t = omap (fun p => (true, Number p)) (Decimals.construct Decimal (ld q))) /\
  (forall v, t = CssFontSize_toString v -> FontSize_parse x t = Ok (true, Word v)) /\
  (no_number t -> ~ In t schema_css_font_size -> FontSize_parse x t = Ok (false, x)).
Proof.
  unfold FontSize_parse. split; [ | split].
  - intros q N B. rewrite (parse_decimal_number t q N B). destruct (Decimals.construct Decimal (ld q)); reflexivity.
  - intros v ->. rewrite (parse_decimal_other _ (css_no_number v)). cbn [obind]. rewrite css_try. reflexivity.
  - intros N H. rewrite (parse_decimal_other _ N). cbn [obind]. rewrite (css_none t H). reflexivity.
Qed.

Lemma yes_number_text x t :
  (forall q, number_text t q -> (Qabs q < inject_Z (2 ^ 64))%Q ->
     YesNoNumber_parse x t = omap (fun p => (true, Number p)) (Decimals.construct Decimal (ld q))) /\
  (forall v, t = YesNo_toString v -> YesNoNumber_parse x t = Ok (true, Word v)) /\
  (no_number t -> ~ In t schema_yes_no -> YesNoNumber_parse x t = Ok (false, x)).
Proof.
  unfold YesNoNumber_parse. split; [ | split].
  - intros q N B. destruct (tryParse_YesNo t) as [v | ] eqn:E.
    + apply yes_printed in E. subst t. exfalso. exact (yes_no_number v q N).
    + rewrite (parse_decimal_number t q N B). destruct (Decimals.construct Decimal (ld q)); reflexivity.
  - intros v ->. rewrite yes_try. reflexivity.
  - intros N H. rewrite (yes_none t H), (parse_decimal_other _ N). reflexivity.
Qed.

Definition ready {W} (x : number_or W) : Prop := match x with Number p => reached Decimal p | Word _ => True end.

Lemma runs_app {W} parse (x : number_or W) l m : variant_runs parse x (l ++ m) = obind (variant_runs parse x l) (fun y => variant_runs parse y m).
Proof.
  revert x. induction l as [|c l IH]; intros x; cbn [app variant_runs obind]; [reflexivity | ].
  destruct (variant_run parse x c); cbn [obind]; auto.
Qed.

Lemma runs_ready {W} parse (l : list (variant_call W)) : (forall x t b y, ready x -> parse x t = Ok (b, y) -> ready y) ->
  forall x y, Forall passed l -> ready x -> variant_runs parse x l = Ok y -> ready y.
Proof.
  intros K. induction l as [|c l IH]; intros x y P R E; cbn [variant_runs] in E; [injection E as <-; exact R | ].
  inversion P as [|? ? Pc Pl]; subst. destruct c as [p | w | t]; cbn [variant_run obind passed] in *.
  - exact (IH (Number p) y Pl Pc E).
  - exact (IH (Word w) y Pl I E).
  - destruct (parse x t) as [[b z] | | ] eqn:F; cbn [omap obind snd] in E; try discriminate E. exact (IH z y Pl (K x t b z R F) E).
Qed.

Lemma font_ready x t b y : ready x -> FontSize_parse x t = Ok (b, y) -> ready y.
Proof.
  intros R. unfold FontSize_parse. destruct (parse_decimal t) as [[p | ] | | ] eqn:E; cbn [obind];
    [ | | intros H; discriminate H | intros H; discriminate H].
  - intros [= <- <-]. exact (parse_decimal_reached t p E).
  - destruct (tryParse_CssFontSize t); intros [= <- <-]; [exact I | exact R].
Qed.

Lemma yes_ready x t b y : ready x -> YesNoNumber_parse x t = Ok (b, y) -> ready y.
Proof.
  intros R. unfold YesNoNumber_parse. destruct (tryParse_YesNo t); [intros [= <- <-]; exact I | ].
  destruct (parse_decimal t) as [[p | ] | | ] eqn:E; cbn [obind];
    [ | | intros H; discriminate H | intros H; discriminate H].
  - intros [= <- <-]. exact (parse_decimal_reached t p E).
  - intros [= <- <-]. exact R.
Qed.

Lemma font_history_ready l x : Forall passed l -> FontSize_history l = Ok x -> ready x.
Proof.
  intros P. unfold FontSize_history, FontSize_new. rewrite zero_default. cbn [omap obind]. intros E.
  exact (runs_ready FontSize_parse l font_ready _ _ P (zero_reached : ready (Number zero)) E).
Qed.

Lemma yes_history_ready l x : Forall passed l -> YesNoNumber_history l = Ok x -> ready x.
Proof.
  intros P. unfold YesNoNumber_history, YesNoNumber_new. cbn [obind]. intros E.
  exact (runs_ready YesNoNumber_parse l yes_ready (Word YesNo_yes) x P I E).
Qed.

Lemma font_roundtrip l x y : Forall passed l -> FontSize_history l = Ok x ->
  exists z, FontSize_parse y (FontSize_toString x) = Ok (true, z) /\ same_value x z /\ FontSize_toString z = FontSize_toString x.
Proof.
  intros P E. pose proof (font_history_ready l x P E) as R. destruct x as [p | v]; cbn [FontSize_toString ready] in *.
  - destruct (parse_decimal_back p R) as (r & A & B & C & D). exists (Number r). unfold FontSize_parse. rewrite A. cbn [obind same_value FontSize_toString].
    split; [reflexivity | ]. split; [split; [symmetry; exact B | exact D] | exact C].
  - exists (Word v). split; [exact (proj1 (proj2 (font_text y _)) v eq_refl) | ]. split; reflexivity.
Qed.

Lemma yes_number_roundtrip l x y : Forall passed l -> YesNoNumber_history l = Ok x ->
  exists z, YesNoNumber_parse y (YesNoNumber_toString x) = Ok (true, z) /\ same_value x z /\ YesNoNumber_toString z = YesNoNumber_toString x.
Proof.
  intros P E. pose proof (yes_history_ready l x P E) as R. destruct x as [p | v]; cbn [YesNoNumber_toString ready] in *.
  - destruct (parse_decimal_back p R) as (r & A & B & C & D). exists (Number r). unfold YesNoNumber_parse.
    destruct (tryParse_YesNo (Decimals.toString p)) as [v | ] eqn:F.
    + apply yes_printed in F. destruct (text_is_number p R) as (q & N). rewrite F in N. exfalso. exact (yes_no_number v q N).
    + rewrite A. cbn [obind same_value YesNoNumber_toString]. split; [reflexivity | ]. split; [split; [symmetry; exact B | exact D] | exact C].
  - exists (Word v). split; [exact (proj1 (proj2 (yes_number_text y _)) v eq_refl) | ]. split; reflexivity.
Qed.

Lemma font_last l x : FontSize_history l = Ok x ->
  (forall p, exists y, FontSize_history (l ++ [SetDecimal p]) = Ok y /\
     getIsDecimal y = true /\ getIsWord y = false /\ getValueDecimal y = Ok p /\ getValueCssFontSize y = CssFontSize_xxSmall) /\
  (forall v, exists y, FontSize_history (l ++ [SetWord v]) = Ok y /\
     getIsDecimal y = false /\ getIsWord y = true /\ getValueCssFontSize y = v /\
     exists p, getValueDecimal y = Ok p /\ (amount p == 0)%Q) /\
  (forall t, FontSize_history (l ++ [Parse t]) = omap snd (FontSize_parse x t)).
Proof.
  unfold FontSize_history. destruct FontSize_new as [n | | ]; cbn [obind]; [ | intros E; discriminate E | intros E; discriminate E]. intros E.
  repeat split; [intros p | intros v | intros t]; rewrite runs_app, E; cbn [obind variant_runs variant_run].
  - exists (Number p). repeat split; reflexivity.
  - exists (Word v). repeat split; try reflexivity. exists zero. split; [exact zero_default | exact zero_amount].
  - destruct (FontSize_parse x t); reflexivity.
Qed.

Lemma yes_last l x : YesNoNumber_history l = Ok x ->
  (forall p, exists y, YesNoNumber_history (l ++ [SetDecimal p]) = Ok y /\
     getIsDecimal y = true /\ getIsWord y = false /\ getValueDecimal y = Ok p /\ getValueYesNo y = YesNo_yes) /\
  (forall v, exists y, YesNoNumber_history (l ++ [SetWord v]) = Ok y /\
     getIsDecimal y = false /\ getIsWord y = true /\ getValueYesNo y = v /\
     exists p, getValueDecimal y = Ok p /\ (amount p == 0)%Q) /\
  (forall t, YesNoNumber_history (l ++ [Parse t]) = omap snd (YesNoNumber_parse x t)).
Proof.
  unfold YesNoNumber_history. destruct YesNoNumber_new as [n | | ]; cbn [obind]; [ | intros E; discriminate E | intros E; discriminate E]. intros E.
  repeat split; [intros p | intros v | intros t]; rewrite runs_app, E; cbn [obind variant_runs variant_run].
  - exists (Number p). repeat split; reflexivity.
  - exists (Word v). repeat split; try reflexivity. exists zero. split; [exact zero_default | exact zero_amount].
  - destruct (YesNoNumber_parse x t); reflexivity.
Qed.

Lemma font_new : exists x, FontSize_history [] = Ok x /\ getIsDecimal x = true /\ getIsWord x = false /\ FontSize_toString x = lit "0".
Proof. exists (Number zero). repeat split; vm_compute; reflexivity. Qed.

Lemma yes_new : exists x, YesNoNumber_history [] = Ok x /\ getIsDecimal x = false /\ getIsWord x = true /\ YesNoNumber_toString x = lit "yes".
Proof. exists (Word YesNo_yes). repeat split; vm_compute; reflexivity. Qed.

(** ** NumberOrNormal *)

Definition ready_normal (x : numberOrNormal) : Prop := reached Decimal (nn_decimal x) /\ (nn_isNormal x = true -> nn_decimal x = zero).

Lemma normal_made : NumberOrNormal_new = Ok (mkNumberOrNormal zero true).
Proof. unfold NumberOrNormal_new. rewrite zero_new. reflexivity. Qed.

Lemma normal_text x t : well_formed (nn_decimal x) ->
  (t = lit "normal" -> exists y, NumberOrNormal_parse x t = Ok y /\ getIsNormal y = true /\ getIsNumber y = false /\ (amount (getValueNumber y) == 0)%Q) /\
  (forall q, number_text t q -> (Qabs q < inject_Z (2 ^ 64))%Q ->
     NumberOrNormal_parse x t = omap (fun p => mkNumberOrNormal p false) (Decimals.construct Decimal (ld q))) /\
  (no_number t -> t <> lit "normal" -> NumberOrNormal_parse x t = Ok (mkNumberOrNormal (nn_decimal x) false)).
Proof.
  intros W. unfold NumberOrNormal_parse. split; [ | split].
  - intros ->. exists (mkNumberOrNormal zero true). rewrite normal_made. repeat split; reflexivity.
  - intros q N B. destruct (str_eqb t (lit "normal")) eqn:E.
    + apply str_eqb_eq in E. subst t. exfalso. exact (normal_no_number q N).
    + rewrite (parse_number Decimal _ t q N B), (set_construct _ _ W). destruct (Decimals.construct Decimal (ld q)); reflexivity.
  - intros N H. destruct (str_eqb t (lit "normal")) eqn:E; [apply str_eqb_eq in E; contradiction | ].
    rewrite (parse_other Decimal _ t N). reflexivity.
Qed.

Lemma normal_parse_ready x t y : ready_normal x -> NumberOrNormal_parse x t = Ok y -> ready_normal y.
Proof.
  intros [R _]. unfold NumberOrNormal_parse. destruct (str_eqb t (lit "normal")).
  - rewrite normal_made. intros [= <-]. split; [exact zero_reached | reflexivity].
  - destruct (Decimals.parse Decimal (nn_decimal x) t) as [[b q] | | ] eqn:E; cbn [omap obind snd]; [ | intros H; discriminate H | intros H; discriminate H]. intros [= <-].
    split; [exact (reached_parse _ t b q R E) | discriminate].
Qed.

Lemma normal_runs_ready l : forall x y, Forall passed_normal l -> ready_normal x -> normal_runs x l = Ok y -> ready_normal y.
Proof.
  induction l as [|c l IH]; intros x y P R E; cbn [normal_runs] in E; [injection E as <-; exact R | ].
  inversion P as [|? ? Pc Pl]; subst. destruct c as [ | p | t]; cbn [normal_run passed_normal] in *.
  - rewrite normal_made in E. cbn [obind] in E. apply (IH _ y Pl) in E; [exact E | ]. split; [exact zero_reached | reflexivity].
  - rewrite ?normal_made in E. cbn [obind] in E. apply (IH _ y Pl) in E; [exact E | ]. split; [exact Pc | discriminate].
  - destruct (NumberOrNormal_parse x t) as [z | | ] eqn:F; cbn [obind] in E; try discriminate E.
    exact (IH z y Pl (normal_parse_ready x t z R F) E).
Qed.

Lemma normal_history_ready l x : Forall passed_normal l -> NumberOrNormal_history l = Ok x -> ready_normal x.
Proof.
  intros P. unfold NumberOrNormal_history. rewrite normal_made. cbn [obind]. intros E.
  apply (normal_runs_ready l _ x P) in E; [exact E | ]. split; [exact zero_reached | reflexivity].
Qed.

Lemma normal_history_wf l x : Forall passed_normal l -> NumberOrNormal_history l = Ok x -> well_formed (nn_decimal x).
Proof. intros P E. apply reached_wf, (normal_history_ready l x P E). Qed.

Lemma normal_texts l x t : Forall passed_normal l -> NumberOrNormal_history l = Ok x ->
  (t = lit "normal" -> exists y, NumberOrNormal_parse x t = Ok y /\ getIsNormal y = true /\ getIsNumber y = false /\ (amount (getValueNumber y) == 0)%Q) /\
  (forall q, number_text t q -> (Qabs q < inject_Z (2 ^ 64))%Q ->
     NumberOrNormal_parse x t = omap (fun p => mkNumberOrNormal p false) (Decimals.construct Decimal (ld q))) /\
  (no_number t -> t <> lit "normal" -> NumberOrNormal_parse x t = Ok (mkNumberOrNormal (nn_decimal x) false)).
Proof. intros P E. exact (normal_text x t (normal_history_wf l x P E)). Qed.

Lemma normal_roundtrip l x m y : Forall passed_normal l -> NumberOrNormal_history l = Ok x -> Forall passed_normal m -> NumberOrNormal_history m = Ok y ->
  exists z, NumberOrNormal_parse y (NumberOrNormal_toString x) = Ok z /\ same_normal x z /\ NumberOrNormal_toString z = NumberOrNormal_toString x.
Proof.
  intros P E Q F. destruct (normal_history_ready l x P E) as [R Z]. pose proof (normal_history_wf m y Q F) as W.
  destruct x as [p n]. cbn [nn_decimal nn_isNormal] in *. unfold NumberOrNormal_toString. cbn [nn_decimal nn_isNormal]. destruct n.
  - exists (mkNumberOrNormal zero true). unfold NumberOrNormal_parse. cbn [str_eqb]. rewrite normal_made.
    split; [reflexivity | ]. split; [split; [reflexivity | rewrite (Z eq_refl); reflexivity] | reflexivity].
  - destruct (text_roundtrip Decimal p (nn_decimal y) R I W) as (r & A & B & C). exists (mkNumberOrNormal r false).
    unfold NumberOrNormal_parse. destruct (str_eqb (Decimals.toString p) (lit "normal")) eqn:G.
    + apply str_eqb_eq in G. destruct (text_is_number p R) as (q & N). rewrite G in N. exfalso. exact (normal_no_number q N).
    + rewrite A. cbn [omap obind snd nn_isNormal nn_decimal]. split; [reflexivity | ]. split; [split; [reflexivity | cbn [nn_decimal]; symmetry; exact B] | exact C].
Qed.

Lemma normal_runs_app x l m : normal_runs x (l ++ m) = obind (normal_runs x l) (fun y => normal_runs y m).
Proof.
  revert x. induction l as [|c l IH]; intros x; cbn [app normal_runs obind]; [reflexivity | ].
  destruct (normal_run x c); cbn [obind]; auto.
Qed.

Lemma normal_last l x : NumberOrNormal_history l = Ok x ->
  (forall p, exists y, NumberOrNormal_history (l ++ [SetNumber p]) = Ok y /\ getIsNumber y = true /\ getIsNormal y = false /\ getValueNumber y = p) /\
  (exists y, NumberOrNormal_history (l ++ [SetNormal]) = Ok y /\ getIsNumber y = false /\ getIsNormal y = true /\ (amount (getValueNumber y) == 0)%Q) /\
  (forall t, NumberOrNormal_history (l ++ [ParseNormal t]) = NumberOrNormal_parse x t).
Proof.
  unfold NumberOrNormal_history. rewrite normal_made. cbn [obind]. intros E.
  repeat split; [intros p | | intros t]; rewrite normal_runs_app, E; cbn [obind normal_runs normal_run].
  - rewrite ?normal_made. cbn [obind]. eexists. split; [reflexivity | repeat split; reflexivity].
  - rewrite normal_made. cbn [obind]. eexists. repeat split; reflexivity.
  - destruct (NumberOrNormal_parse x t); reflexivity.
Qed.

Lemma normal_new : exists x, NumberOrNormal_history [] = Ok x /\ getIsNormal x = true /\ NumberOrNormal_toString x = lit "normal".
Proof. exists (mkNumberOrNormal zero true). repeat split; vm_compute; reflexivity. Qed.

Lemma normal_of_text t : NumberOrNormal_of_text t = NumberOrNormal_history [ParseNormal t].
Proof.
  unfold NumberOrNormal_of_text, NumberOrNormal_history. rewrite zero_new, normal_made. cbn [obind normal_runs normal_run].
  unfold NumberOrNormal_parse. cbn [nn_decimal]. destruct (str_eqb t (lit "normal")).
  - rewrite normal_made. reflexivity.
  - destruct (Decimals.parse Decimal zero t); reflexivity.
Qed.

Lemma normal_refused_refuted : ~ (forall l x t, Forall passed_normal l -> NumberOrNormal_history l = Ok x -> no_number t -> t <> lit "normal" ->
  NumberOrNormal_parse x t = Ok x).
Proof.
  intros H. assert (N : no_number (lit "wide")) by (apply scan_no_number; reflexivity).
  specialize (H [] (mkNumberOrNormal zero true) (lit "wide") (Forall_nil _)).
  assert (E : NumberOrNormal_history [] = Ok (mkNumberOrNormal zero true)) by (unfold NumberOrNormal_history; rewrite normal_made; reflexivity).
  specialize (H E N ltac:(discriminate)).
  rewrite (proj2 (proj2 (normal_text (mkNumberOrNormal zero true) (lit "wide") (reached_wf _ zero_reached))) N ltac:(discriminate)) in H.
  discriminate H.
Qed.

(** ** PositiveIntegerOrEmpty *)

Definition positive (r : int_range) : Prop := exists v os, r = run_ops PositiveInteger (Integers.construct PositiveInteger v) os.

Lemma positive_made v : positive (Integers.construct PositiveInteger v).
Proof. exists v, []. reflexivity. Qed.

Lemma positive_parse r t : positive r -> positive (fst (parse_range r t)).
Proof.
  intros (v & os & ->). exists v, (os ++ [OpParse t]). unfold run_ops. rewrite fold_left_app. reflexivity.
Qed.

Definition ready_empty (x : integerOrEmpty) : Prop := positive (ie_integer x) /\ (ie_isEmpty x = true -> x = IntegerOrEmpty_new).

Lemma empty_run_ready x c : ready_empty x -> ready_empty (empty_run x c).
Proof.
  intros [R _]. destruct c as [ | v | [|a t]]; cbn [empty_run IntegerOrEmpty_parse].
  - split; [apply positive_made | reflexivity].
  - split; [apply positive_made | discriminate].
  - split; [apply positive_made | reflexivity].
  - split; [apply positive_parse, R | discriminate].
Qed.

Lemma empty_history_ready l : ready_empty (IntegerOrEmpty_history l).
Proof.
  unfold IntegerOrEmpty_history. assert (R : ready_empty IntegerOrEmpty_new) by (split; [apply positive_made | reflexivity]).
  revert R. generalize IntegerOrEmpty_new. induction l as [|c l IH]; intros x R; cbn [fold_left]; [exact R | ]. apply IH, empty_run_ready, R.
Qed.

Lemma print_range_cons r : print_range r <> [].
Proof.
  unfold print_range. intros E. destruct (print_int_form (ir_value r)) as [A B].
  destruct (Z_lt_le_dec (ir_value r) 0) as [H | H].
  - destruct (A H) as (ds & F & _). rewrite E in F. discriminate F.
  - destruct (B H) as [[F _] _]. rewrite E in F. contradiction.
Qed.

Lemma empty_roundtrip l m : IntegerOrEmpty_parse (IntegerOrEmpty_history m) (IntegerOrEmpty_toString (IntegerOrEmpty_history l)) = IntegerOrEmpty_history l.
Proof.
  destruct (empty_history_ready l) as [(v & os & R) Z]. destruct (empty_history_ready m) as [(v' & os' & R') _].
  set (x := IntegerOrEmpty_history l) in *. unfold IntegerOrEmpty_toString. destruct (ie_isEmpty x) eqn:E.
  - symmetry. exact (Z eq_refl).
  - unfold IntegerOrEmpty_parse. destruct (print_range (ie_integer x)) as [|a t] eqn:P; [exfalso; exact (print_range_cons _ P) | ].
    rewrite <- P, R, R'. rewrite (range_roundtrip PositiveInteger v' os' v os) || rewrite (range_roundtrip PositiveInteger v os v' os').
    cbn [fst]. rewrite <- R. destruct x as [r e]. cbn [ie_integer ie_isEmpty] in *. subst e. reflexivity.
Qed.

Lemma empty_text l t : let x := IntegerOrEmpty_history l in
  (t = [] -> IntegerOrEmpty_parse x t = IntegerOrEmpty_new) /\
  (forall n, int_text t n -> is_int n -> ie_isEmpty (IntegerOrEmpty_parse x t) = false /\
     nearest_within PositiveInteger n (ir_value (ie_integer (IntegerOrEmpty_parse x t)))) /\
  (t <> [] -> (forall n, int_text t n -> ~ is_int n) -> IntegerOrEmpty_parse x t = mkIntegerOrEmpty (ie_integer x) false).
Proof.
  intros x. destruct (empty_history_ready l) as [(v & os & R) _]. fold x in R.
  destruct (parse_range_spec PositiveInteger v os t) as [A B]. rewrite <- R in A, B. split; [ | split].
  - intros ->. reflexivity.
  - intros n N I. destruct t as [|a t].
    + exfalso. destruct N as (w1 & s & ds & w2 & k & F & _ & _ & [D _] & _).
      destruct w1; [ | discriminate F]. destruct s; [ | discriminate F]. destruct ds; [contradiction | discriminate F].
    + cbn [IntegerOrEmpty_parse ie_isEmpty ie_integer]. split; [reflexivity | ]. apply (A n N I).
  - intros H N. destruct t as [|a t]; [contradiction | ]. cbn [IntegerOrEmpty_parse]. rewrite (B N). reflexivity.
Qed.

Lemma empty_last l : let x := IntegerOrEmpty_history l in
  (forall v, let y := IntegerOrEmpty_history (l ++ [SetInteger v]) in ie_isEmpty y = false /\ nearest_within PositiveInteger v (ir_value (ie_integer y))) /\
  (let y := IntegerOrEmpty_history (l ++ [SetEmpty]) in ie_isEmpty y = true /\ ir_value (ie_integer y) = 1 /\ IntegerOrEmpty_toString y = []) /\
  (forall t, IntegerOrEmpty_history (l ++ [ParseEmpty t]) = IntegerOrEmpty_parse x t).
Proof.
  intros x. unfold IntegerOrEmpty_history. split; [ | split].
  - intros v. cbv zeta. rewrite fold_left_app. split; [reflexivity | exact (construct_nearest PositiveInteger v)].
  - cbv zeta. rewrite fold_left_app. repeat split; reflexivity.
  - intros t. rewrite fold_left_app. reflexivity.
Qed.

Lemma empty_new : ie_isEmpty (IntegerOrEmpty_history []) = true /\ IntegerOrEmpty_toString (IntegerOrEmpty_history []) = [].
Proof. split; reflexivity. Qed.

Lemma empty_of_text t : IntegerOrEmpty_of_text t = IntegerOrEmpty_history [ParseEmpty t].
Proof. destruct t; reflexivity. Qed.

Lemma empty_refused_refuted : ~ (forall l t, t <> [] -> (forall n, int_text t n -> ~ is_int n) ->
  IntegerOrEmpty_parse (IntegerOrEmpty_history l) t = IntegerOrEmpty_history l).
Proof.
  intros H. specialize (H [] (lit "few") ltac:(discriminate)).
  assert (N : forall n, int_text (lit "few") n -> ~ is_int n).
  { intros n A B. assert (E : parse_int (lit "few") = Some n) by (apply parse_int_iff; split; assumption). vm_compute in E. discriminate E. }
  specialize (H N). vm_compute in H. discriminate H.
Qed.
