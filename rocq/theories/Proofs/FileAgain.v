(** C68: files that have been written can be read and written again, any number of times. *)
From Coq Require Import List String Ascii Bool ZArith QArith Permutation Lia.
From Verif Require Import Proofs.Tac Model.Base Model.Text Model.Strings Model.PugiText Model.XmlStream Model.Attributes Model.Documents Model.Files.
From Verif Require Import Spec.Numerals Spec.DecimalText Spec.XmlText Spec.XmlGrammar Spec.XmlTrees Spec.Instructions Spec.SchemaElementTexts
  Spec.SchemaAttributes Spec.ContentModels Spec.AllowedDocuments Spec.WholeFiles.
From Verif Require Import Proofs.PugiReads Proofs.PugiCuts Proofs.StreamCuts Proofs.TextProofs Proofs.StringsProofs Proofs.ElementTextBack Proofs.ElementTextProofs Proofs.DocumentProofs Proofs.FileProofs.
Import ListNotations.
Local Open Scope nat_scope.
Local Open Scope list_scope.

(** * The same document is allowed too *)

Lemma conforms_names {A B} c (l : list (str * A)) : ContentModels.conforms c l -> forall l' : list (str * B), map fst l' = map fst l -> ContentModels.conforms c l'.
Proof.
  induction 1 as [n a | | c l x y X IX Y IY | c l x I X IX | c | c x X IX | c | c x y X IX Y IY]; intros l' E.
  - destruct l' as [ | [m b] [ | p r]]; try discriminate E. injection E as ->. constructor.
  - destruct l'; [constructor | discriminate E].
  - rewrite map_app in E. apply map_eq_app in E. destruct E as (p & q & -> & E1 & E2). apply conforms_sequence; auto.
  - apply (conforms_choice c); auto.
  - destruct l'; [constructor | discriminate E].
  - apply conforms_with; auto.
  - destruct l'; [constructor | discriminate E].
  - rewrite map_app in E. apply map_eq_app in E. destruct E as (p & q & -> & E1 & E2). apply conforms_more; auto.
Qed.

Lemma same_names us cs : Forall2 same_document us cs -> map Documents.xml_name us = map Documents.xml_name cs.
Proof. induction 1 as [ | u c us cs [] F IH]; [reflexivity | ]. cbn [map Documents.xml_name]. rewrite IH. reflexivity. Qed.

Lemma attributes_permuted takes n attrs attrs' : Permutation attrs' attrs -> attributes_allowed takes true n attrs -> attributes_allowed takes true n attrs'.
Proof.
  intros P ((ND & V & R) & K). pose proof (Permutation_map fst P) as PN.
  split; [split; [ | split] | ].
  - exact (Permutation_NoDup (Permutation_sym PN) ND).
  - intros m v I. exact (V m v (Permutation_in _ P I)).
  - intros a I Q. exact (Permutation_in _ (Permutation_sym PN) (R a I Q)).
  - intros E. destruct (K E) as [U L]. split; [exact U | ]. intros m v I. exact (L m v (Permutation_in _ P I)).
Qed.

Lemma plain_eq u x y : plain_decimal u x -> (x == y)%Q -> plain_decimal u y.
Proof.
  intros (s & ip & n & N & H) E. exists s, ip, n. split; [exact N | ].
  destruct H as [(q & T & Q & H) | (fp & m & q & T & M & Q & H)]; [left; exists q | right; exists fp, m, q];
    (repeat (split; [assumption | ])); (destruct H as [[S H] | [S H]]; [left | right]); (split; [exact S | rewrite <- E; exact H]).
Qed.

Lemma says_admits k t u : says k t u -> admits k t -> admits k u.
Proof.
  intros S A. destruct k as [ | texts | lo hi | lo hi | | ]; cbn [says admits] in *; try (subst u; exact A).
  - destruct S as (n & T & C). destruct A as (m & T' & B). rewrite (int_one _ _ _ T' T) in B. exists n. split; [exact (canonical_text _ _ C) | exact B].
  - destruct S as (x & T & D & _). destruct A as (y & T' & B). exists y. split; [ | exact B].
    apply plain_text. exact (plain_eq _ _ _ D (decimal_one _ _ _ T T')).
  - destruct S as [[_ ->] | (n & T & C)]; [left; reflexivity | ]. right. exists n. split; [exact (canonical_text _ _ C) | ].
    destruct A as [-> | (m & T' & B)]; [destruct (int_text_some _ T) | ]. rewrite (int_one _ _ _ T' T) in B. exact B.
Qed.

Lemma one_kind n k k' : In (n, k') schema_element_texts -> In (n, k) schema_element_texts -> k' = k.
Proof.
  intros I J. pose proof (find_kind_unique n k' _ schema_once I) as A. rewrite (find_kind_unique n k _ schema_once J) in A. injection A as ->. reflexivity.
Qed.
Lemma free_names n k : In (n, k) schema_element_texts -> n = lit "instrument-sound" \/ n = lit "mode" -> k = AnyText.
Proof.
  assert (K : forallb (fun p => match snd p with AnyText => true | _ => negb (str_eqb (fst p) (lit "instrument-sound")) && negb (str_eqb (fst p) (lit "mode")) end)
                schema_element_texts = true) by (vm_compute; reflexivity).
  rewrite forallb_forall in K. intros I N. specialize (K (n, k) I). cbn [fst snd] in K.
  destruct k; try reflexivity; destruct N as [-> | ->]; vm_compute in K; discriminate K.
Qed.

Lemma says_held n k t u : In (n, k) schema_element_texts -> says k t u -> held n k t -> held n k u.
Proof.
  intros I S (H1 & H2 & H3).
  assert (F : n = lit "instrument-sound" \/ n = lit "mode" -> u = t).
  { intros N. rewrite (free_names n k I N) in S. exact S. }
  split; [intros N; rewrite (F (or_introl N)); exact (H1 N) | ]. split; [intros N; rewrite (F (or_intror N)); exact (H2 N) | ].
  destruct k as [ | texts | lo hi | lo hi | | ]; cbn [says] in S; try exact Logic.I.
  - destruct S as (m & T & C). destruct H3 as (m' & T' & B). rewrite (int_one _ _ _ T' T) in B. exists m. split; [exact (canonical_text _ _ C) | exact B].
  - destruct S as (x & T & D & _). destruct H3 as (z & T' & B). exists z. split; [ | exact B].
    apply plain_text. exact (plain_eq _ _ _ D (decimal_one _ _ _ T T')).
  - destruct S as [[_ ->] | (m & T & C)]; [left; reflexivity | ]. right. exists m. split; [exact (canonical_text _ _ C) | ].
    destruct H3 as [-> | (m' & T' & B)]; [destruct (int_text_some _ T) | ]. rewrite (int_one _ _ _ T' T) in B. exact B.
Qed.

Lemma no_dynamics_text k : ~ In (lit "other-dynamics", k) schema_element_texts.
Proof.
  intros I. apply (in_map fst) in I. cbn [fst] in I.
  assert (K : existsb (str_eqb (lit "other-dynamics")) (map fst schema_element_texts) = true).
  { apply existsb_exists. exists (lit "other-dynamics"). split; [exact I | apply str_eqb_eq; reflexivity]. }
  vm_compute in K. discriminate K.
Qed.

Lemma text_nothing n (u : str) : u = [] \/ (exists k, In (lit n, k) schema_element_texts /\ says k [] u) -> u = [].
Proof. intros [-> | (k & _ & S)]; [reflexivity | exact (says_nothing k u S)]. Qed.

Lemma same_allowed takes timewise t : forall u, same_document u t -> allowed takes true timewise t -> allowed takes true timewise u.
Proof.
  induction t as [n attrs text cs IH] using xml_induction. intros u SD H.
  inversion SD as [n' a attrs' t text' c cs' P T F]; subst.
  assert (CH : Forall (allowed takes true timewise) cs -> Forall (allowed takes true timewise) cs').
  { clear - IH F. intros AC. induction F as [ | x y l l' X F IHf]; [constructor | ]. inversion IH; subst. inversion AC; subst. constructor; auto. }
  inversion H as [? ? ? k AA IK AD HE | ? ? AA IE | ? ? AA FD LE | ? ? ? o AA ND IO ORD RQ NE AC | ? ? ? c AA IC CO AC]; subst; apply (attributes_permuted _ _ _ _ P) in AA.
  - inversion F; subst. destruct T as [-> | (k' & IK' & S)]; [apply (allowed_text takes true timewise n attrs' text k AA IK AD HE) | ].
    assert (E : k' = k) by exact (one_kind _ _ _ IK' IK). subst k'.
    apply (allowed_text takes true timewise n attrs' text' k AA IK (says_admits _ _ _ S AD)). intros _. exact (says_held _ _ _ _ IK S (HE eq_refl)).
  - inversion F; subst. rewrite (text_nothing n text' T). apply (allowed_empty takes true timewise n attrs' AA IE).
  - rewrite (text_nothing _ text' T). apply (allowed_dynamics takes true timewise attrs' cs' AA).
    + clear - F FD. induction F as [ | x y l l' X F IHf]; [constructor | ]. inversion FD as [ | ? ? D FD']; subst. constructor; [ | exact (IHf FD')].
      destruct X as [m b b' s s' d d' P' T' F']. destruct D as (-> & -> & D). split; [apply Permutation_nil; apply Permutation_sym; exact P' | ].
      inversion F'; subst. split; [reflexivity | ]. destruct D as [[I ->] | [-> D]].
      * left. split; [exact I | exact (text_nothing m s' T')].
      * right. split; [reflexivity | ]. destruct T' as [-> | (k & K & _)]; [exact D | destruct (no_dynamics_text k K)].
    + intros E. rewrite <- (LE E). clear - F. induction F as [ | x y l l' X F IHf]; [reflexivity | cbn [List.length]; rewrite IHf; reflexivity].
  - rewrite (text_nothing n text' T). pose proof (same_names _ _ F) as N.
    apply (allowed_sequence takes true timewise n attrs' cs' o AA ND IO).
    + rewrite <- (map_map Documents.xml_name lit), N, map_map. exact ORD.
    + intros r d. rewrite N. exact (RQ r d).
    + intros d e. rewrite N. exact (NE d e).
    + exact (CH AC).
  - rewrite (text_nothing n text' T). apply (allowed_content takes true timewise n attrs' cs' c AA IC); [ | exact (CH AC)].
    apply (conforms_names c _ CO). rewrite !map_map. cbn [fst]. rewrite <- !(map_map Documents.xml_name lit), (same_names _ _ F). reflexivity.
Qed.

(** * Any number of times *)

Lemma says_again k t u v : says k t u -> says k u v -> says k t v.
Proof.
  intros S S'. destruct k as [ | texts | lo hi | lo hi | | ]; cbn [says] in *; try congruence.
  - destruct S as (n & T & C). destruct S' as (m & T' & C'). exists n. split; [exact T | ].
    rewrite (int_one _ _ _ T' (canonical_text _ _ C)) in C'. exact C'.
  - destruct S as (x & T & D & _). destruct S' as (y & T' & D' & L). exists y. split; [ | split; assumption].
    exact (decimal_eq _ _ _ T (decimal_one _ _ _ (plain_text _ _ D) T')).
  - destruct S as [[-> ->] | (n & T & C)].
    + destruct S' as [[_ ->] | (m & T' & _)]; [left; auto | destruct (int_text_some _ T')].
    + destruct S' as [[-> ->] | (m & T' & C')]; [destruct (int_text_some _ (canonical_text _ _ C)) | ].
      right. exists n. split; [exact T | ]. rewrite (int_one _ _ _ T' (canonical_text _ _ C)) in C'. exact C'.
Qed.

Lemma same_trans t : forall u v, same_document v u -> same_document u t -> same_document v t.
Proof.
  induction t as [n attrs text cs IH] using xml_induction. intros u v V U.
  inversion U as [n1 a1 attrs' t1 text' c1 cs' P T F]; subst. inversion V as [n2 a2 attrs'' t2 text'' c2 cs'' P' T' F']; subst.
  constructor.
  - exact (Permutation_trans P' P).
  - destruct T' as [-> | (k' & I' & S')]; [exact T | ]. right. destruct T as [-> | (k & I & S)]; [exists k'; auto | ].
    rewrite (one_kind _ _ _ I' I) in S'. exists k. split; [exact I | exact (says_again _ _ _ _ S S')].
  - clear - IH F F'. revert cs'' F'. induction F as [ | x y l l' X F IHf]; intros cs'' F'; inversion F' as [ | z ? m ? Z FZ]; subst; [constructor | ].
    inversion IH as [ | ? ? Y IHl]; subst. constructor; [exact (Y _ _ Z X) | exact (IHf IHl _ FZ)].
Qed.

Lemma same_fits t : forall u, same_document u t -> characters_fit t -> characters_fit u.
Proof.
  induction t as [n attrs text cs IH] using xml_induction. intros u U C.
  inversion U as [n1 a1 attrs' t1 text' c1 cs' P T F]; subst. inversion C as [n' a' t' c' N A X CC]; subst.
  constructor; [exact N | | | ].
  - rewrite Forall_forall in *. intros a I. exact (A a (Permutation_in _ P I)).
  - destruct T as [-> | (k & _ & S)]; [exact X | exact (says_fits k _ _ S X)].
  - clear - IH F CC. induction F as [ | x y l l' Z F IHf]; [constructor | ]. inversion IH as [ | ? ? Y IHl]; subst. inversion CC; subst.
    constructor; [apply Y; assumption | apply IHf; assumption].
Qed.

Lemma same_refl t : same_document t t.
Proof.
  induction t as [n attrs text cs IH] using xml_induction. constructor; [reflexivity | left; reflexivity | ].
  induction IH; constructor; assumption.
Qed.

Lemma written_spelled c t text : file_written c t text -> file_spelled t text.
Proof.
  intros D. exists [XDeclaration (lit "xml") mx_declaration []], [XDoctype (standard_doctype c)]. split; [exact D | ]. split.
  - right. exists mx_declaration. split; [reflexivity | ]. exists (lit "1.0"). split; [discriminate | ]. right. eexists _, _. reflexivity.
  - right. eexists. reflexivity.
Qed.

(** A run of files, each the one before written again. *)
Lemma file_history takes initial n : forall t text, allowed_document takes true t -> characters_fit t -> file_spelled t text ->
  exists text' t', rewritten_times takes initial n text text' /\ file_spelled t' text' /\ same_document t' t.
Proof.
  induction n as [ | n IH]; intros t text A C F.
  - exists text, t. split; [constructor | ]. split; [exact F | apply same_refl].
  - destruct (file_back takes initial t text A C F) as (c & text' & t' & N & R & W & S).
    assert (A' : allowed_document takes true t').
    { destruct A as [[E A] | [E A]]; [left | right]; (split; [destruct S; exact E | exact (same_allowed _ _ _ _ S A)]). }
    destruct (IH t' text' A' (same_fits _ _ S C) (written_spelled c t' text' W)) as (text'' & t'' & R' & F' & S').
    exists text'', t''. split; [exact (times_more _ _ _ _ _ _ R R') | ]. split; [exact F' | exact (same_trans _ _ _ S' S)].
Qed.

(** * Files cut off *)

Lemma file_cut takes initial t text a b : file_spelled t text -> text = a ++ b ->
  rewrite_file takes initial a = Some Throw \/ rewrite_file takes initial a = rewrite_file takes initial text.
Proof.
  intros (d & dt & D & HD & HT) E. destruct (cut_anywhere _ _ a b D E) as [P | (l1 & l2 & L & (x & IX & X) & P)].
  - left. unfold rewrite_file, read_stream, load_stream. rewrite P. reflexivity.
  - right. assert (N : l2 = []).
    { destruct l2 as [ | y l2]; [reflexivity | ]. exfalso. rewrite app_assoc in L.
      destruct (exists_last (l := y :: l2)) as (l3 & z & Z); [discriminate | ]. rewrite Z, app_assoc in L.
      apply app_inj_tail in L. destruct L as [L _].
      assert (I : In x (d ++ dt)) by (rewrite L; apply in_or_app; left; exact IX).
      apply in_app_or in I. destruct I as [I | I].
      - destruct HD as [-> | (l & -> & _)]; [destruct I | ]. destruct I as [<- | []]. discriminate X.
      - destruct HT as [-> | (v & ->)]; [destruct I | ]. destruct I as [<- | []]. discriminate X. }
    rewrite N, app_nil_r in L. rewrite <- L in P. unfold rewrite_file, read_stream, load_stream. rewrite P, (document_read _ _ D). reflexivity.
Qed.
