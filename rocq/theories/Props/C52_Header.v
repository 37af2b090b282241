(** C52: titles, people and page texts survive writing and reading. *)
From Coq Require Import String Ascii List ZArith Bool.
From Verif Require Import Model.Base Model.Text Model.Strings Model.Date Model.ScoreHeader.
From Verif Require Import Spec.Headers.
From Verif Require Import Proofs.HeaderProofs.
Import ListNotations.
Open Scope Z_scope.

(** The full claim. *)
Definition C52_header : Prop := forall h, let h' := read_header (write_header h) in
  h_version h' = h_version h /\ h_workTitle h' = h_workTitle h /\ h_workNumber h' = h_workNumber h /\
  h_movementTitle h' = h_movementTitle h /\ h_movementNumber h' = h_movementNumber h /\
  h_composer h' = h_composer h /\ h_lyricist h' = h_lyricist h /\ h_arranger h' = h_arranger h /\
  h_publisher h' = h_publisher h /\ h_copyright h' = h_copyright h /\ h_pageTexts h' = map kept_page_text (h_pageTexts h).

(** It holds but for the arranger and the publisher, who are always lost. *)
Theorem C52_header_partial h : let h' := read_header (write_header h) in
  h_version h' = h_version h /\ h_workTitle h' = h_workTitle h /\ h_workNumber h' = h_workNumber h /\
  h_movementTitle h' = h_movementTitle h /\ h_movementNumber h' = h_movementNumber h /\
  h_composer h' = h_composer h /\ h_lyricist h' = h_lyricist h /\ h_arranger h' = [] /\
  h_publisher h' = [] /\ h_copyright h' = h_copyright h /\ h_pageTexts h' = map kept_page_text (h_pageTexts h).
Proof. exact (header_kept h). Qed.

(** What is read from any file: the first creator that is a composer, or the last one of
    no type, is the composer; the last lyricist, arranger or publisher is the lyricist;
    and the copyright is found like the composer. *)
Theorem C52_people x i : x_identification x = Some i ->
  (forall u, first_typed "composer" (i_creators i) u -> h_composer (read_header x) = u) /\
  (no_typed "composer" (i_creators i) -> last_untyped (i_creators i) (h_composer (read_header x))) /\
  last_typed ["lyricist"; "arranger"; "publisher"]%string (i_creators i) (h_lyricist (read_header x)) /\
  (forall u, first_typed "copyright" (i_rights i) u -> h_copyright (read_header x) = u) /\
  (no_typed "copyright" (i_rights i) -> last_untyped (i_rights i) (h_copyright (read_header x))).
Proof. exact (people_read x i). Qed.

(** Each page text is written as a credit of its own, and each credit with words is read
    as a page text; pictures are left out. *)
Theorem C52_credits_written h : Forall2 credit_of (h_pageTexts h) (x_credits (write_header h)).
Proof. exact (credits_written h). Qed.
Theorem C52_credits_read x : Forall2 page_text_of (filter has_words (x_credits x)) (h_pageTexts (read_header x)).
Proof. exact (credits_read x). Qed.

(** What is written of the titles, numbers and people: an element for each that is not
    empty, none for those that are, and nothing for the arranger and the publisher. *)
Theorem C52_titles_written h : let x := write_header h in
  stands_for (h_movementTitle h) (x_movementTitle x) /\ stands_for (h_movementNumber h) (x_movementNumber x) /\
  (h_workTitle h = [] -> h_workNumber h = [] -> x_work x = None) /\
  (h_workTitle h <> [] \/ h_workNumber h <> [] ->
    exists t n, x_work x = Some (t, n) /\ stands_for (h_workTitle h) t /\ stands_for (h_workNumber h) n) /\
  (h_version h = VersionUnspecified -> x_version x = None) /\ (h_version h = ThreePointZero -> x_version x = Some (lit "3.0"%string)).
Proof. exact (titles_written h). Qed.
Theorem C52_people_written h i : x_identification (write_header h) = Some i ->
  (forall u, In (Some (lit "composer"%string), u) (i_creators i) <-> u = h_composer h /\ u <> []) /\
  (forall u, In (Some (lit "lyricist"%string), u) (i_creators i) <-> u = h_lyricist h /\ u <> []) /\
  (forall t u, In (t, u) (i_creators i) -> t = Some (lit "composer"%string) \/ t = Some (lit "lyricist"%string)) /\
  (forall t u, In (t, u) (i_rights i) <-> t = Some (lit "copyright"%string) /\ u = h_copyright h /\ u <> []).
Proof. exact (people_written h i). Qed.

Example C52_some : HeaderData :=
  mkHeader ThreePointZero (lit "T"%string) [] [] (lit "2"%string) (lit "C"%string) (lit "L"%string) (lit "A"%string) [] (lit "(c)"%string)
    default_encoding [mkPageText (lit "1"%string) 1 (lit "page number"%string); mkPageText (lit "x"%string) (-1) []].

Example C52_holds : read_header (write_header C52_some) =
  mkHeader ThreePointZero (lit "T"%string) [] [] (lit "2"%string) (lit "C"%string) (lit "L"%string) [] [] (lit "(c)"%string)
    default_encoding [mkPageText (lit "1"%string) 1 (lit "page number"%string); mkPageText (lit "x"%string) 0 []].
Proof. vm_compute. reflexivity. Qed.

Example C52_read_people :
  h_composer (read_header (mkXHeader None None None None (Some (mkIdentification
    [(None, lit "a"%string); (Some (lit "composer"%string), lit "b"%string); (Some (lit "composer"%string), lit "c"%string)] [] None None)) [])) = lit "b"%string.
Proof. vm_compute. reflexivity. Qed.

Example C52_read_credits :
  let words := mkCredit (Some 2) [lit "title"%string; lit "x"%string] (Some (lit "t"%string)) in
  let picture := mkCredit (Some 1) [] None in
  filter has_words [picture; words; picture] = [words]
  /\ h_pageTexts (read_header (mkXHeader None None None None None [picture; words; picture])) = [mkPageText (lit "t"%string) 2 (lit "title"%string)].
Proof. split; reflexivity. Qed.

Theorem C52_header_refuted : ~ C52_header.
Proof. intros H. destruct (H C52_some) as (_ & _ & _ & _ & _ & _ & _ & K & _). vm_compute in K. discriminate K. Qed.

Print Assumptions C52_header_partial.
Print Assumptions C52_people.
Print Assumptions C52_header_refuted.
Print Assumptions C52_credits_written.
Print Assumptions C52_credits_read.
Print Assumptions C52_titles_written.
Print Assumptions C52_people_written.
