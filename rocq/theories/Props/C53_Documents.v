(** C53: every written document is XML that parses back to the same elements, attributes and
    texts. The claim fails for attribute values with double quotes (writing throws) or tabs
    and line ends, for blank texts and for carriage returns; it is proved for all others, of
    any size and depth. The reader is proved to understand every spelling of a document in
    the grammar of Spec/XmlGrammar, not only what the writer writes. *)
From Coq Require Import List Ascii String.
From Verif Require Import Model.Base Model.Text Model.PugiText Model.XmlStream.
From Verif Require Import Spec.XmlGrammar Spec.XmlTrees Spec.Instructions Spec.StreamCases Spec.XmlCuts.
From Verif Require Import Proofs.PugiProofs Proofs.PugiReads Proofs.PugiWrites Proofs.StreamReads Proofs.StreamExamples Proofs.PugiCuts Proofs.StreamCuts Proofs.FileEnds.
Import ListNotations.

Definition C53_claim : Prop :=
  forall c n l t, xml_name n -> n = choice_name c ->
    Forall (fun a => xml_name (fst a) /\ Forall character (snd a)) l -> Forall character t ->
    reread c (CoreElement n l [] (CoreText t)) = Ok (c, CoreElement n l [] (CoreText t)).
Theorem C53_reread_refuted : ~ C53_claim.
Proof. exact contents_lost. Qed.
Print Assumptions C53_reread_refuted.

Theorem C53_value_refuted :
  reread Partwise (with_value ["a"; "034"; "b"]%char) = Throw /\
  reread Partwise (with_value ["a"; "009"; "b"]%char) = Ok (Partwise, with_value (lit "a b")).
Proof. exact value_lost. Qed.
Theorem C53_text_refuted :
  reread Partwise (with_text (lit "  ")) = Ok (Partwise, with_text []) /\
  reread Partwise (with_text ["a"; "013"; "b"]%char) = Ok (Partwise, with_text ["a"; "010"; "b"]%char).
Proof. exact text_lost. Qed.

(** The reader ends on every text, and reads no memory outside of it. *)
Theorem C53_reader_total text : parse_document text <> UB.
Proof. exact (parse_total text). Qed.
Print Assumptions C53_reader_total.

(** So are reading a document from any stream and writing any one to it. *)
Theorem C53_total text c e : read_stream text <> UB /\ write_stream c e <> UB.
Proof. exact (conj (read_ends text) (write_ends c e)). Qed.
Print Assumptions C53_total.

(** Every spelling of a document is read as that document. *)
Theorem C53_read l text : document l text -> parse_document text = Ok l.
Proof. exact (document_read l text). Qed.
Print Assumptions C53_read.
Example C53_read_case : parse_document spelled_text = Ok spelled_tree.
Proof. exact spelled_ok. Qed.

(** So no text is the spelling of two documents. *)
Theorem C53_unambiguous l l' text : document l text -> document l' text -> l = l'.
Proof. exact (document_unique l l' text). Qed.
Print Assumptions C53_unambiguous.

(** A byte order mark is skipped. *)
Theorem C53_mark l text : document l text -> parse_document (byte_order_mark ++ text) = Ok l.
Proof. exact (bom_skipped l text). Qed.
Print Assumptions C53_mark.

(** What loading does with the declaration. *)
Theorem C53_load_undeclared l text : document l text -> (forall n a k r, l <> XDeclaration n a k :: r) ->
  load_stream text = Ok (XDeclaration (lit "xml") [(lit "version", lit "1.0"); (lit "encoding", lit "UTF-8")] [] :: l).
Proof. exact (load_undeclared l text). Qed.
Theorem C53_load_declared v enc r l text : v <> [] ->
  document (XDeclaration (lit "xml") ((lit "version", v) :: (lit "encoding", enc) :: r) [] :: l) text ->
  load_stream text = Ok (XDeclaration (lit "xml") ((lit "version", v) :: (lit "encoding", lit "UTF-8") :: r) [] :: l).
Proof. exact (load_declared v enc r l text). Qed.
Theorem C53_load_version v l text : v <> [] ->
  document (XDeclaration (lit "xml") [(lit "version", v)] [] :: l) text ->
  load_stream text = Ok (XDeclaration (lit "xml") [(lit "version", v); (lit "encoding", lit "UTF-8")] [] :: l).
Proof. exact (load_version_only v l text). Qed.
Theorem C53_load_standalone v b l text : v <> [] ->
  document (XDeclaration (lit "xml") [(lit "version", v); (lit "standalone", b)] [] :: l) text ->
  load_stream text = Ok (XDeclaration (lit "xml") [(lit "version", v); (lit "encoding", lit "UTF-8"); (lit "standalone", b)] [] :: l).
Proof. exact (load_version_standalone v b l text). Qed.
Theorem C53_load_encoding enc r l text :
  document (XDeclaration (lit "xml") ((lit "encoding", enc) :: r) [] :: l) text ->
  load_stream text = Ok (XDeclaration (lit "xml") ((lit "version", lit "1.0") :: (lit "encoding", lit "UTF-8") :: r) [] :: l).
Proof. exact (load_encoding_only enc r l text). Qed.
Print Assumptions C53_load_encoding.
Theorem C53_load_empty_version enc r l text :
  document (XDeclaration (lit "xml") ((lit "version", []) :: (lit "encoding", enc) :: r) [] :: l) text ->
  load_stream text = Ok (XDeclaration (lit "xml") ((lit "version", lit "1.0") :: (lit "encoding", lit "UTF-8") :: r) [] :: l).
Proof. exact (load_empty_version enc r l text). Qed.
(** An encoding whose name has capital letters makes loading throw, though its name is
    otherwise compared without regard to case. *)
Theorem C53_load_other_case v n enc r l text : v <> [] -> Forall2 alike (lit "encoding") n -> n <> lit "encoding" ->
  Forall (fun a => fst a <> lit "encoding") r ->
  document (XDeclaration (lit "xml") ((lit "version", v) :: (n, enc) :: r) [] :: l) text -> load_stream text = Throw.
Proof. exact (load_other_case v n enc r l text). Qed.
Print Assumptions C53_load_other_case.
Theorem C53_same_name a b : same_name a b = true <-> Forall2 alike a b.
Proof. exact (same_name_alike a b). Qed.
Print Assumptions C53_same_name.

(** Every document that can be held is saved as a text that spells it and is read as it. *)
Theorem C53_saved d l : holdable_declaration d -> holdable_document l ->
  document (d :: l) (save_document (d :: l)) /\ parse_document (save_document (d :: l)) = Ok (d :: l).
Proof. exact (saved_both d l). Qed.
Print Assumptions C53_saved.
Theorem C53_saved_undeclared l : holdable_document l ->
  parse_document (save_document l) = Ok (XDeclaration (lit "xml") [(lit "version", lit "1.0")] [] :: l).
Proof. exact (saved_read_undeclared l). Qed.
Print Assumptions C53_saved_undeclared.
Example C53_saved_case : holdable_document (tree_of example_score).
Proof. exact example_holdable. Qed.

(** The text of an element, at any indentation, spells its tree. *)
Theorem C53_stream_partial level e : well_formed e -> exists t, to_stream level e = Ok t /\ top_spelled (tree_of e) t.
Proof. exact (to_stream_top level e). Qed.
Print Assumptions C53_stream_partial.
Example C53_stream_case : well_formed example_score.
Proof. exact example_well_formed. Qed.

(** The written document: the declaration, the document type, the tree of the root. *)
Theorem C53_written_partial c e : well_formed e ->
  exists t, write_stream c e = Ok t /\ document (document_tree c e) t.
Proof. exact (write_document c e). Qed.
Print Assumptions C53_written_partial.
Theorem C53_document_partial c e : well_formed e -> to_xdoc c e = Ok (document_tree c e).
Proof. exact (to_xdoc_tree c e). Qed.
Print Assumptions C53_document_partial.

(** Without instructions, what is read is what was written. *)
Theorem C53_reread_partial c e : well_formed e -> arranged e -> element_name e = choice_name c -> reread c e = Ok (c, e).
Proof. exact (arranged_reread_same c e). Qed.
Print Assumptions C53_reread_partial.
Example C53_reread_case : arranged example_score /\ element_name example_score = choice_name Partwise.
Proof. exact (conj example_arranged eq_refl). Qed.

(** A document whose root has another name is refused. *)
Theorem C53_other_root n a kids l text : document (XElement n a kids :: l) text ->
  n <> lit "score-partwise" -> n <> lit "score-timewise" -> read_stream text = Throw.
Proof. exact (other_root n a kids l text). Qed.
Print Assumptions C53_other_root.

(** The text of an element is its first text or section, whatever elements or instructions
    come before it. *)
Theorem C53_first_text c a pre x t post l text : document (XElement (choice_name c) a (pre ++ x :: post) :: l) text ->
  Forall no_text pre -> x = XText t \/ x = XCData t -> t <> [] ->
  read_stream text = Ok (c, CoreElement (choice_name c) a (following_instructions l) (CoreText t)).
Proof. exact (first_text c a pre x t post l text). Qed.
Print Assumptions C53_first_text.

(** A section whose text contains the end of a section is written as several, which are read
    as texts that together are its text. *)
Theorem C53_sections t : Forall character t -> ~ In "013"%char t -> exists ps,
  List.concat ps = t /\ content_spelled (map XCData ps) (output_simple (XCData t)).
Proof. exact (cdata_written t). Qed.
Print Assumptions C53_sections.
Example C53_sections_case : output_simple (XCData (lit "a]]>b]]>")) = lit "<![CDATA[a]]]]><![CDATA[>b]]]]><![CDATA[>]]>".
Proof. exact eq_refl. Qed.
