(** C65: the texts of elements. *)
From Coq Require Import List Ascii String ZArith QArith Qabs.
From Verif Require Import Model.Base Model.Text Model.ElementTexts Spec.Numerals Spec.DecimalText Spec.SoundTexts Spec.XmlText Spec.SchemaElementTexts
  Proofs.ElementTextProofs Proofs.ElementTextBack Proofs.ElementTextExamples.
Import ListNotations.
Local Open Scope list_scope.

(** ** The elements with a text are those of the schema, each once. *)
Theorem C65_elements : NoDup (map fst element_texts) /\ NoDup (map fst schema_element_texts) /\ forall n, In n (map fst element_texts) <-> In n (map fst schema_element_texts).
Proof. exact (conj elements_once (conj schema_once same_elements)). Qed.

(** ** A text the schema allows is read without being refused, and what is written says the same.
    It fails for these elements: there is a text the schema allows that does not come back. *)
Theorem C65_back_refuted : Forall (fun n => exists ty k t, In (n, ty) element_texts /\ In (n, k) schema_element_texts /\ admits k t /\
    ~ exists w u, rewrite_text ty t = Ok w /\ chardata w u /\ says k t u)
  [lit "instrument-sound"; lit "mode"; lit "octave-change"; lit "tenths"].
Proof. exact all_fail. Qed.

(** It holds of every element for the texts the program can hold: the written characters are an XML
    text that is the shortest to say what the text of the file said. *)
Theorem C65_back_partial n ty k t : In (n, ty) element_texts -> In (n, k) schema_element_texts -> admits k t -> held n k t ->
  exists w u, rewrite_text ty t = Ok w /\ chardata w u /\ says k t u.
Proof. exact (table_back n ty k t). Qed.

(** A text that is the shortest itself comes back character for character. *)
Theorem C65_shortest n ty k t : In (n, ty) element_texts -> In (n, k) schema_element_texts -> admits k t -> held n k t -> shortest k t ->
  exists w, rewrite_text ty t = Ok w /\ chardata w t.
Proof. exact (table_same n ty k t). Qed.

(** ** A text the schema does not allow is replaced by one that it does, and this is which. *)
Theorem C65_unfit n ty k t u : In (n, ty) element_texts -> In (n, k) schema_element_texts -> ~ admits k t -> rewrite_text ty t = Ok u -> taken_for n k t u.
Proof. exact (table_unfit n ty k t u). Qed.

(** ** Reading throws only at an instrument sound that is not known, and there it always does; it is
    undefined only for numbers whose absolute value is above that of 64 bits. *)
Theorem C65_outcome n ty k t : In (n, ty) element_texts -> In (n, k) schema_element_texts ->
  (rewrite_text ty t = Throw <-> n = lit "instrument-sound" /\ ~ In t standard_sounds) /\
  (rewrite_text ty t = UB -> exists lo hi x, k = Fraction lo hi /\ number_text t x /\ (inject_Z (2 ^ 64 - 1) < Qabs x)%Q).
Proof. exact (table_outcome n ty k t). Qed.

(** ** What was written is written again as it is. It fails for the least positive divisions. *)
Theorem C65_again_refuted : ~ (forall n ty t w u, In (n, ty) element_texts -> rewrite_text ty t = Ok w -> chardata w u -> rewrite_text ty u = Ok w).
Proof. exact again_refuted. Qed.

(** It holds, whatever the text, of the elements whose numbers need not be above a bound, and of
    modes without an ampersand. *)
Theorem C65_again_partial n ty k t w u : In (n, ty) element_texts -> In (n, k) schema_element_texts ->
  (forall b hi, k <> Fraction (Above b) hi) -> (n = lit "mode" -> ~ In "&"%char w) ->
  rewrite_text ty t = Ok w -> chardata w u -> rewrite_text ty u = Ok w.
Proof. exact (table_again n ty k t w u). Qed.

(** ** Cases *)
Example C65_back_met : exists ty k, In (lit "tenths", ty) element_texts /\ In (lit "tenths", k) schema_element_texts /\
  admits k (lit " +040.50") /\ held (lit "tenths") k (lit " +040.50") /\ rewrite_text ty (lit " +040.50") = Ok (lit "40.5").
Proof. exact ex_tenths. Qed.
Example C65_shortest_met : exists ty k, In (lit "staff", ty) element_texts /\ In (lit "staff", k) schema_element_texts /\
  admits k (lit "2") /\ held (lit "staff") k (lit "2") /\ shortest k (lit "2").
Proof. exact ex_staff. Qed.
Example C65_unfit_met : exists ty k, In (lit "midi-channel", ty) element_texts /\ In (lit "midi-channel", k) schema_element_texts /\
  ~ admits k (lit "17") /\ rewrite_text ty (lit "17") = Ok (lit "16").
Proof. exact ex_channel. Qed.
Example C65_again_met : exists ty k, In (lit "words", ty) element_texts /\ In (lit "words", k) schema_element_texts /\
  (forall b hi, k <> Fraction (Above b) hi) /\ rewrite_text ty (lit "p < f") = Ok (lit "p &lt; f").
Proof. exact ex_words. Qed.

Print Assumptions C65_elements.
Print Assumptions C65_back_refuted.
Print Assumptions C65_back_partial.
Print Assumptions C65_shortest.
Print Assumptions C65_unfit.
Print Assumptions C65_outcome.
Print Assumptions C65_again_refuted.
Print Assumptions C65_again_partial.
