(** C67: a whole document, read and written again. *)
From Coq Require Import List String.
From Verif Require Import Model.Base Model.Text Model.Attributes Model.Documents Spec.SchemaAttributes Spec.AllowedDocuments Proofs.DocumentProofs Proofs.DocumentExamples.
Import ListNotations.
Local Open Scope string_scope.

(** Not every document the schema allows is read and written again as it was. *)
Theorem C67_document_refuted : ~ (forall takes initial t, allowed_document takes false t ->
  exists t', reread_document takes initial t = Some (true, t') /\ document_written t' t).
Proof. exact document_refuted. Qed.

(** But all those are that keep to attributes, texts and contents that come back: they are
    accepted, and written with the same elements in the same places, the same attributes and the
    same texts, at any depth and with any number of parts, measures and notes. *)
Theorem C67_document_partial takes initial t : allowed_document takes true t ->
  exists t', reread_document takes initial t = Some (true, t') /\ document_written t' t.
Proof. exact (document_back takes initial t). Qed.

(** So is every single element. *)
Theorem C67_element_partial takes initial timewise t : allowed takes true timewise t ->
  exists t', reread takes initial timewise t = Some (true, t') /\ document_written t' t.
Proof. exact (element_back takes initial timewise t). Qed.

(** These documents are among those that the schema allows. *)
Theorem C67_kept_allowed takes t : allowed_document takes true t -> allowed_document takes false t.
Proof. exact (kept_document_allowed takes t). Qed.

(** A document with a direction, notes, notations and an arrow is one of them. *)
Example C67_document_met : allowed_document as_it_stands true (a_document "Flute & Oboe" some_music).
Proof. exact document_met. Qed.
Example C67_document_met_again initial :
  reread_document as_it_stands initial (a_document "Flute & Oboe" some_music) = Some (true, a_document "Flute &amp; Oboe" some_music_written).
Proof. exact (document_met_again initial). Qed.

Print Assumptions C67_document_refuted.
Print Assumptions C67_document_partial.
Print Assumptions C67_element_partial.
Print Assumptions C67_kept_allowed.
