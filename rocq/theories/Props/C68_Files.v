(** C68: a whole file, from its characters to its characters. *)
From Coq Require Import List String.
From Verif Require Import Model.Base Model.Text Model.Attributes Model.XmlStream Model.Documents Model.Files Spec.Instructions Spec.AllowedDocuments Spec.WholeFiles
  Proofs.FileProofs Proofs.FileAgain Proofs.FileSettled Proofs.FileEnds Proofs.FileSpelling Proofs.FileExamples.
Import ListNotations.
Local Open Scope string_scope.

(** Not every file with a document the schema allows is read and written as the same document. *)
Theorem C68_file_refuted : ~ (forall takes initial t text, allowed_document takes false t -> characters_fit t -> file_spelled t text ->
  exists text' t', rewrite_file takes initial text = Some (Ok text') /\ file_spelled t' text' /\ same_document t' t).
Proof. exact file_refuted. Qed.

(** But every file is, in whatever way it is spelled, whose document keeps to what comes back: it is
    accepted, and the characters written spell the same document, with the declaration and the
    document type of its kind of score. *)
Theorem C68_file_partial takes initial t text : allowed_document takes true t -> characters_fit t -> file_spelled t text ->
  exists c text' t', lit (xml_name t) = choice_name c /\ rewrite_file takes initial text = Some (Ok text') /\
    file_written c t' text' /\ same_document t' t.
Proof. exact (file_back takes initial t text). Qed.

(** And so again, any number of times. *)
Theorem C68_history_partial takes initial n t text : allowed_document takes true t -> characters_fit t -> file_spelled t text ->
  exists text' t', rewritten_times takes initial n text text' /\ file_spelled t' text' /\ same_document t' t.
Proof. exact (file_history takes initial n t text). Qed.

(** What has been written once is written again character for character, however it was spelled at
    first, and so is not changed any more. *)
Theorem C68_settled_partial takes initial t text text' : allowed_document takes true t -> characters_fit t -> file_spelled t text ->
  rewrite_file takes initial text = Some (Ok text') -> rewrite_file takes initial text' = Some (Ok text').
Proof. exact (file_settled takes initial t text text'). Qed.
Theorem C68_forever_partial takes initial n t text text' text'' : allowed_document takes true t -> characters_fit t -> file_spelled t text ->
  rewrite_file takes initial text = Some (Ok text') -> rewritten_times takes initial n text' text'' -> text'' = text'.
Proof. exact (file_forever takes initial n t text text' text''). Qed.

(** What the model says nothing about: a file is outside of it only if it is read and has a
    processing instruction somewhere, or a document that Model/Documents.v leaves out. *)
Theorem C68_scope takes initial text :
  (forall c e, read_stream text = Ok (c, e) -> has_instruction e -> rewrite_file takes initial text = None) /\
  (rewrite_file takes initial text = None -> exists c e, read_stream text = Ok (c, e) /\
     (has_instruction e \/ reread_document takes initial (xml_of e) = None)).
Proof. exact (file_scope takes initial text). Qed.

(** However a document is spelled (comments, white space, quotation marks, character references,
    with or without a declaration), it is read and written alike, or refused alike. *)
Theorem C68_spelling takes initial t text text' : file_spelled t text -> file_spelled t text' ->
  rewrite_file takes initial text = rewrite_file takes initial text'.
Proof. exact (file_spelling takes initial t text text'). Qed.

(** Whatever the characters are, reading them and writing the document again comes to a defined
    end, and what cannot be read is refused. *)
Theorem C68_total takes initial text : rewrite_file takes initial text <> Some UB /\
  (read_stream text = Throw -> rewrite_file takes initial text = Some Throw).
Proof. exact (file_total takes initial text). Qed.

(** A file cut off anywhere is refused, or nothing but blanks and comments was missing and it is
    taken for what it was. *)
Theorem C68_cut takes initial t text a b : file_spelled t text -> text = (a ++ b)%list ->
  rewrite_file takes initial a = Some Throw \/ rewrite_file takes initial a = rewrite_file takes initial text.
Proof. exact (file_cut takes initial t text a b). Qed.

(** There are such files. *)
Example C68_file_met : let t := a_document "Flute & Oboe" some_music in
  allowed_document as_it_stands true t /\ characters_fit t /\ exists text, file_spelled t text.
Proof. exact files_met. Qed.
Example C68_file_rewritten initial : rewrite_file as_it_stands initial a_file = Some (Ok (written_with "Flute &amp; Oboe")).
Proof. exact (file_rewritten initial). Qed.
(** If there is a comment in a text, the rest of the text is lost. *)
Theorem C68_comment_refuted initial : rewrite_file as_it_stands initial a_commented_file = Some (Ok (written_with "Flute &amp; ")).
Proof. exact (comment_loses initial). Qed.

Print Assumptions C68_file_refuted.
Print Assumptions C68_file_partial.
Print Assumptions C68_history_partial.
Print Assumptions C68_total.
Print Assumptions C68_spelling.
Print Assumptions C68_cut.
Print Assumptions C68_comment_refuted.
Print Assumptions C68_settled_partial.
Print Assumptions C68_forever_partial.
Print Assumptions C68_scope.
