(** C71: the names of the kinds of documents, versions and specifications survive being written and
    read without regard to case; texts are found without regard to case; the head of a document is
    the one MusicXML prescribes. *)
From Coq Require Import List String Ascii ZArith.
From Verif Require Import Model.Base Model.Text Model.XmlStream Model.DocumentSpecs Spec.CaseText Spec.Instructions Proofs.DocumentSpecProofs.
Import ListNotations.
Local Open Scope nat_scope.
Local Open Scope list_scope.

(** The full claim about names: each comes back. *)
Definition C71_names : Prop := (forall c, parse_choice (choice_text c) = Ok c) /\ (forall v, parse_version (version_text v) = Ok v) /\
  (forall s, parse_specification (specification_text s) = Ok s).

(** A break is missing after timewise, after the version 3.0 and after dtd and xsd. *)
Theorem C71_names_refuted : ~ C71_names.
Proof. intros (H & _). discriminate (H Timewise). Qed.
Theorem C71_texts_refuted : choice_text Timewise = lit "timewiseerror" /\ version_text ThreePointZero = lit "3.0error" /\
  specification_text Dtd = lit "dtdxsderror" /\ specification_text Xsd = lit "xsderror".
Proof. repeat split. Qed.

(** What comes back of each. *)
Theorem C71_names_partial :
  (forall c, parse_choice (choice_text c) = Ok Partwise) /\ choice_text Partwise = lit "partwise" /\
  (forall v, parse_version (version_text v) = Ok ThreePointZero) /\ version_text VersionUnknown = lit "unknown" /\
  (forall s, parse_specification (specification_text s) = Ok Xsd) /\ specification_text SpecificationUnknown = lit "unknown".
Proof. repeat split; intros []; reflexivity. Qed.

(** Two texts of ASCII characters are compared exactly without regard to case. *)
Theorem C71_compare_partial a b : ascii_text a -> ascii_text b ->
  (same_ignoring_case a b -> compareCaseInsensitive a b = Ok true) /\ (~ same_ignoring_case a b -> compareCaseInsensitive a b = Ok false).
Proof. exact (compare_spec a b). Qed.
Example C71_compare_met : ascii_text (lit "PartWise 1") /\ compareCaseInsensitive (lit "PartWise 1") (lit "partwise 1") = Ok true /\
  compareCaseInsensitive (lit "[") (lit "{") = Ok false.
Proof. split; [repeat constructor; cbn; repeat constructor | split; reflexivity]. Qed.

(** Others are not: the function for a letter's lower case is called with a negative number. *)
Theorem C71_compare_refuted : exists a b, ascii_text b /\ compareCaseInsensitive a b = UB.
Proof. exists [chr 195; chr 169], (lit "ab"). split; [repeat constructor; cbn; repeat constructor | reflexivity]. Qed.

(** Exactly when: the texts are equally long, and the characters before the first one that is
    neither ASCII nor the character 255 are the same but for case. *)
Theorem C71_compare_undefined a b : compareCaseInsensitive a b = UB <->
  exists p c q p' c' q', a = p ++ c :: q /\ b = p' ++ c' :: q' /\ List.length q = List.length q' /\
    same_ignoring_case p p' /\ Forall case_known p /\ Forall case_known p' /\ (~ case_known c \/ ~ case_known c').
Proof. exact (compare_undefined a b). Qed.
Example C71_compare_undefined_met :
  compareCaseInsensitive (lit "A" ++ [chr 195]) (lit "ab") = UB /\ compareCaseInsensitive (lit "A" ++ [chr 195]) (lit "bb") = Ok false /\
  compareCaseInsensitive [chr 255] [chr 255] = Ok true /\ compareCaseInsensitive [chr 255] (lit "a") = Ok false.
Proof. repeat split. Qed.

(** What is read from any text of ASCII characters. A specification "xsd" is taken for a dtd. *)
Theorem C71_choice_read t : ascii_text t ->
  (same_ignoring_case t (lit "timewise") -> parse_choice t = Ok Timewise) /\ (~ same_ignoring_case t (lit "timewise") -> parse_choice t = Ok Partwise).
Proof. exact (choice_read t). Qed.
Theorem C71_version_read t : ascii_text t -> parse_version t = Ok ThreePointZero.
Proof. exact (version_read t). Qed.
Theorem C71_specification_read t : ascii_text t ->
  (same_ignoring_case t (lit "dtd") \/ same_ignoring_case t (lit "xsd") -> parse_specification t = Ok Dtd) /\
  (~ same_ignoring_case t (lit "dtd") -> ~ same_ignoring_case t (lit "xsd") -> parse_specification t = Ok Xsd).
Proof. exact (specification_read t). Qed.
Theorem C71_xsd_refuted : parse_specification (lit "xsd") = Ok Dtd.
Proof. reflexivity. Qed.

(** Finding a text in another, of any characters: the first place where it is, but never the end of
    the text; so an empty text is not found in an empty one. *)
Theorem C71_find s t :
  (forall i, findCaseInsensitive s t = Z.of_nat i <-> i < List.length s /\ found_at s t i /\ forall j, j < i -> ~ found_at s t j) /\
  (findCaseInsensitive s t = (-1)%Z <-> forall i, i < List.length s -> ~ found_at s t i) /\
  (containsCaseInsensitive t s = true <-> exists i, i < List.length s /\ found_at s t i).
Proof. exact (find_spec s t). Qed.
Theorem C71_find_empty_refuted : found_at [] [] 0 /\ containsCaseInsensitive [] [] = false.
Proof. split; [exists [], [], []; repeat constructor | reflexivity]. Qed.
Example C71_find_met : findCaseInsensitive (lit "<!DOCTYPE Score-Partwise>") (lit "score-partwise") = 10%Z /\
  findCaseInsensitive (lit "score-part") (lit "score-partwise") = (-1)%Z.
Proof. split; reflexivity. Qed.

(** The head of a document is that of the type set last, whatever was set before; a new one is of a
    partwise document. *)
Theorem C71_header l v h : header_text (fold_left (fun h v => set_type v h) (l ++ [v]) h) =
  lit "<?xml version=""1.0"" encoding=""UTF-8"" standalone=""no""?>" ++ ["010"%char] ++ lit "<!DOCTYPE " ++ standard_doctype v ++ lit ">".
Proof. exact (eq_trans (header_last l v h) (header_spec v)). Qed.
Theorem C71_new_header v : header_text (header_of v) =
  lit "<?xml version=""1.0"" encoding=""UTF-8"" standalone=""no""?>" ++ ["010"%char] ++ lit "<!DOCTYPE " ++ standard_doctype v ++ lit ">" /\
  header_text new_header = header_text (header_of Partwise).
Proof. exact (conj (header_spec v) eq_refl). Qed.

Print Assumptions C71_names_refuted.
Print Assumptions C71_texts_refuted.
Print Assumptions C71_names_partial.
Print Assumptions C71_compare_partial.
Print Assumptions C71_compare_refuted.
Print Assumptions C71_compare_undefined.
Print Assumptions C71_choice_read.
Print Assumptions C71_version_read.
Print Assumptions C71_specification_read.
Print Assumptions C71_xsd_refuted.
Print Assumptions C71_find.
Print Assumptions C71_find_empty_refuted.
Print Assumptions C71_header.
Print Assumptions C71_new_header.
