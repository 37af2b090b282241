(** C40: processing instructions attached to an element are written and re-read attached to
    the same element, with name, data and order. The claim fails: instructions marked as
    children come back before the others, in an element without children they come back as
    siblings, data is cut at "?>" and loses leading white space, and instructions inside an
    element without children are not read at all. Proved for all elements of any depth whose
    names, values and texts can be written: every instruction comes back with its element,
    name and data, in the stated order; arranged elements come back exactly. *)
From Coq Require Import List Ascii String.
From Verif Require Import Model.Base Model.Text Model.PugiText Model.XmlStream.
From Verif Require Import Spec.XmlGrammar Spec.XmlTrees Spec.Instructions Spec.StreamCases.
From Verif Require Import Proofs.StreamReads Proofs.StreamExamples Proofs.StreamCuts.
Import ListNotations.

Definition C40_claim : Prop :=
  forall c e, well_formed e -> element_name e = choice_name c -> reread c e = Ok (c, e).
Theorem C40_order_refuted : ~ C40_claim.
Proof. exact order_lost. Qed.
Print Assumptions C40_order_refuted.

Theorem C40_position_refuted : ~ (forall c e, well_formed e -> element_name e = choice_name c ->
  forall e', reread c e = Ok (c, e') -> e' = e).
Proof. exact position_lost. Qed.
Print Assumptions C40_position_refuted.

Theorem C40_data_refuted :
  reread Partwise (score [pc "a" "if b?>c"] [note [] (lit "t")]) <> Ok (Partwise, score [pc "a" "if b?>c"] [note [] (lit "t")]) /\
  reread Partwise (score [pc "a" " b"] [note [] (lit "t")]) = Ok (Partwise, score [pc "a" "b"] [note [] (lit "t")]).
Proof. exact data_cut. Qed.
Print Assumptions C40_data_refuted.

Theorem C40_inside_refuted :
  document [XElement (lit "score-partwise") []
      [XElement (lit "words") [] [XInstruction (lit "a") (Some (lit "b")); XText (lit "t")];
       XElement (lit "rest") [] [XInstruction (lit "c") (Some (lit "d"))]]] inside_text /\
  read_stream inside_text = Ok (Partwise, CoreElement (lit "score-partwise") [] []
    (CoreChildren [CoreElement (lit "words") [] [] (CoreText (lit "t")); CoreElement (lit "rest") [] [] (CoreText [])])).
Proof. exact inside_lost. Qed.
Print Assumptions C40_inside_refuted.

(** What comes back. *)
Theorem C40_reread_partial c e : well_formed e -> element_name e = choice_name c ->
  exists t, write_stream c e = Ok t /\ read_stream t = Ok (c, settled e).
Proof. exact (write_read c e). Qed.
Print Assumptions C40_reread_partial.
Example C40_reread_case : well_formed example_score /\ element_name example_score = choice_name Partwise.
Proof. exact (conj example_well_formed eq_refl). Qed.

(** The same elements with the same names, values and texts, and at each the same
    instructions. *)
Theorem C40_kept_partial e : kept e (settled e).
Proof. exact (settled_kept e). Qed.
Print Assumptions C40_kept_partial.

(** Arranged elements come back exactly, and after one round everything is arranged. *)
Theorem C40_arranged_partial c e : well_formed e -> arranged e -> element_name e = choice_name c ->
  exists t, write_stream c e = Ok t /\ read_stream t = Ok (c, e).
Proof. exact (arranged_reread c e). Qed.
Print Assumptions C40_arranged_partial.
Example C40_arranged_case : arranged example_score.
Proof. exact example_arranged. Qed.

Theorem C40_second_round e : settled (settled e) = settled e /\ (well_formed e -> well_formed (settled e)).
Proof. exact (conj (settled_twice e) (settled_well_formed e)). Qed.
Print Assumptions C40_second_round.

(** Instructions are read from any spelling of the document. *)
Theorem C40_any_spelling_partial c e t : well_formed e -> element_name e = choice_name c ->
  document (document_tree c e) t -> read_stream t = Ok (c, settled e).
Proof. exact (root_read c e t). Qed.
Print Assumptions C40_any_spelling_partial.

(** An instruction has the name, data and position it is made with, but no empty name. *)
Theorem C40_made n d b : make_instruction n d b = mkInstruction (given_name n) d b.
Proof. exact (made n d b). Qed.
Print Assumptions C40_made.
