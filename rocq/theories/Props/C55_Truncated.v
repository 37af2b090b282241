(** C55: a file that ends too early is never read as a score. Whatever the document, and
    wherever it is cut, reading the beginning fails unless the document element is complete;
    and an element that is not closed, or closed under another name, is refused. *)
From Coq Require Import List Ascii String.
From Verif Require Import Model.Base Model.Text Model.PugiText Model.XmlStream.
From Verif Require Import Spec.XmlGrammar Spec.XmlTrees Spec.Instructions Spec.StreamCases Spec.XmlCuts.
From Verif Require Import Proofs.PugiCuts Proofs.StreamCuts Proofs.StreamReads Proofs.StreamExamples Proofs.CutExamples.
Import ListNotations.

(** Cut before the end of the first element. *)
Theorem C55_inside pre p x s a b : outside pre p -> (forall y, In y pre -> is_element y = false) -> node_spelled x s ->
  p ++ s = a ++ b -> b <> [] -> parse_document a = Throw.
Proof. exact (cut_inside pre p x s a b). Qed.
Print Assumptions C55_inside.
Example C55_inside_case : outside [XInstruction (lit "i") (Some (lit "j"))] (lit "<?i j?><!--c-->") /\
  node_spelled (XElement (lit "a") [(lit "b", lit "c")] [XText (lit "d")]) (lit "<a b='c'>d</a>").
Proof. exact cut_case. Qed.

(** Cut anywhere: refused, or read as the nodes that are complete, one of them an element. *)
Theorem C55_anywhere l text a b : document l text -> text = a ++ b -> parse_document a = Throw \/
  exists l1 l2, l = l1 ++ l2 /\ (exists x, In x l1 /\ is_element x = true) /\ parse_document a = Ok l1.
Proof. exact (cut_anywhere l text a b). Qed.
Print Assumptions C55_anywhere.

(** A written file, cut anywhere, is refused or read as what was written. *)
Theorem C55_written c n l body t a b : well_formed (CoreElement n l [] body) -> n = choice_name c ->
  write_stream c (CoreElement n l [] body) = Ok t -> t = a ++ b ->
  read_stream a = Throw \/ read_stream a = Ok (c, settled (CoreElement n l [] body)).
Proof. exact (written_cut c n l body t a b). Qed.
Print Assumptions C55_written.
Example C55_written_case : exists t, write_stream Partwise (score [] [note [] (lit "t")]) = Ok t /\
  well_formed (score [] [note [] (lit "t")]) /\
  read_stream (firstn 200 t) = Throw /\ read_stream (removelast t) = Ok (Partwise, score [] [note [] (lit "t")]) /\
  200 < List.length t.
Proof. exact written_case. Qed.

(** Only a prolog: no element at all. *)
Theorem C55_no_element l a : outside l a -> (forall x, In x l -> is_element x = false) -> parse_document a = Throw.
Proof. exact (prolog_only l a). Qed.
Print Assumptions C55_no_element.

(** Elements that are left open, closed under another name, or closed without having been
    opened; whatever follows. *)
Theorem C55_not_closed pre p n u : outside pre p -> left_open n u -> parse_document (p ++ u) = Throw.
Proof. exact (not_closed pre p n u). Qed.
Print Assumptions C55_not_closed.
Theorem C55_wrong_end pre p n u m w rest : outside pre p -> left_open n u -> xml_name m -> blanks w -> m <> n ->
  parse_document (p ++ u ++ lit "</" ++ m ++ w ++ lit ">" ++ rest) = Throw.
Proof. exact (wrong_end pre p n u m w rest). Qed.
Print Assumptions C55_wrong_end.
Theorem C55_stray_end pre p rest : outside pre p -> parse_document (p ++ lit "</" ++ rest) = Throw.
Proof. exact (stray_end pre p rest). Qed.
Print Assumptions C55_stray_end.
Example C55_open_case : left_open (lit "b") (lit "<a>x<b c='d'>y") /\ outside [] [] /\ lit "a" <> lit "b".
Proof. exact open_case. Qed.
