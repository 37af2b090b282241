(** C68: files that show that the theorems speak of something, and files that do not come back. *)
From Coq Require Import List String Ascii Bool.
From Verif Require Import Proofs.Tac Model.Base Model.Text Model.PugiText Model.XmlStream Model.Attributes Model.Documents Model.Files.
From Verif Require Import Spec.XmlGrammar Spec.XmlTrees Spec.Instructions Spec.AllowedDocuments Spec.WholeFiles.
From Verif Require Import Proofs.PugiReads Proofs.StreamReads Proofs.StreamExamples Proofs.DocumentProofs Proofs.DocumentExamples Proofs.FileProofs.
Import ListNotations.
Local Open Scope string_scope.
Local Open Scope list_scope.

Fixpoint fit_b (t : Documents.xml) : bool :=
  let 'Xml n attrs text children := t in
  is_name (lit n) && forallb (fun a => is_name (lit (fst a)) && value_b (lit (snd a))) attrs && text_b text && forallb fit_b children.
Lemma fit_decided t : fit_b t = true -> characters_fit t.
Proof.
  induction t as [n attrs text cs IH] using xml_induction. cbn [fit_b]. intros E.
  apply andb_true_iff in E; destruct E as [E E4]; apply andb_true_iff in E; destruct E as [E E3]; apply andb_true_iff in E; destruct E as [E1 E2].
  constructor.
  - apply is_name_iff. exact E1.
  - rewrite forallb_forall in E2. apply Forall_forall. intros a IN. apply E2 in IN. apply andb_true_iff in IN.
    destruct IN as [N V]. split; [apply is_name_iff; exact N | exact (value_b_plain _ V)].
  - exact (text_b_holdable text E3).
  - clear - IH E4. induction IH as [ | y m Y F IHm]; [constructor | ]. cbn [forallb] in E4. apply andb_true_iff in E4. destruct E4 as [A B].
    constructor; [exact (Y A) | exact (IHm B)].
Qed.

(** Every document that fits has a file. *)
Lemma file_exists t : characters_fit t -> unmixed t -> exists text, file_written Partwise t text.
Proof.
  intros C U. destruct (write_document Partwise (core_of t) (core_formed t C)) as (text & _ & D). exists text.
  unfold document_tree in D. rewrite (core_tree t U) in D. exact D.
Qed.

Lemma files_met : let t := a_document "Flute & Oboe" some_music in
  allowed_document as_it_stands true t /\ characters_fit t /\ exists text, file_spelled t text.
Proof.
  intros t. assert (C : characters_fit t) by (apply fit_decided; vm_compute; reflexivity).
  pose proof document_met as A. split; [exact A | ]. split; [exact C | ].
  assert (U : unmixed t) by (destruct A as [[_ A] | [E _]]; [exact (allowed_unmixed _ _ _ _ A) | discriminate E]).
  destruct (file_exists t C U) as (text & W). exists text. 
  exists [XDeclaration (lit "xml") mx_declaration []], [XDoctype (standard_doctype Partwise)]. split; [exact W | ]. split.
  - right. exists mx_declaration. split; [reflexivity | ]. exists (lit "1.0"). split; [discriminate | ]. right. eexists _, _. reflexivity.
  - right. eexists. reflexivity.
Qed.

Lemma file_rewritten initial : rewrite_file as_it_stands initial a_file = Some (Ok (written_with "Flute &amp; Oboe")).
Proof. vm_compute. reflexivity. Qed.

(** The rest of a text with a comment in it is lost. *)
Lemma comment_loses initial : rewrite_file as_it_stands initial a_commented_file = Some (Ok (written_with "Flute &amp; ")).
Proof. vm_compute. reflexivity. Qed.

Lemma link_allowed : allowed_document as_it_stands false (a_document "Flute & Oboe" a_link).
Proof.
  apply document_with; [ | unfold a_link; contents_of_it]. unfold a_link. constructor; [ | constructor].
  apply allowed_empty; [ | listed]. apply one_attribute; [vm_compute; reflexivity | vm_compute; reflexivity | intros E; discriminate E].
Qed.

Lemma file_refuted : ~ (forall takes initial t text, allowed_document takes false t -> characters_fit t -> file_spelled t text ->
  exists text' t', rewrite_file takes initial text = Some (Ok text') /\ file_spelled t' text' /\ same_document t' t).
Proof.
  intros H. set (t := a_document "Flute & Oboe" a_link).
  assert (C : characters_fit t) by (apply fit_decided; vm_compute; reflexivity).
  assert (U : unmixed t) by (destruct link_allowed as [[_ A] | [E _]]; [exact (allowed_unmixed _ _ _ _ A) | discriminate E]).
  destruct (file_exists t C U) as (text & W).
  assert (F : file_spelled t text).
  { exists [XDeclaration (lit "xml") mx_declaration []], [XDoctype (standard_doctype Partwise)]. split; [exact W | ]. split.
    - right. exists mx_declaration. split; [reflexivity | ]. exists (lit "1.0"). split; [discriminate | ]. right. eexists _, _. reflexivity.
    - right. eexists. reflexivity. }
  destruct (H as_it_stands (fun _ => "") t text link_allowed C F) as (text' & t' & R & _).
  unfold rewrite_file in R. rewrite (root_of t text Partwise C U eq_refl F), core_plain, (xml_core t U) in R.
  assert (X : exists w, reread_document as_it_stands (fun _ => "") t = Some (false, w)) by (vm_compute; eexists; reflexivity).
  destruct X as (w & X). rewrite X in R. discriminate R.
Qed.
