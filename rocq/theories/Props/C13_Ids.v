(** C13: identifiers are always legal XML IDs. The full claim is that the stored ID
    is an NCName; it fails for texts starting with '-' or '.' (C13_ncname_refuted)
    and holds for all others (C13_ncname_partial). *)
From Verif Require Import Proofs.Tac Model.Base Model.Text Model.Strings Spec.XmlText Proofs.StringsProofs.
Open Scope Z_scope.

(** Setting an ID always ends; the ID is non-empty, has only NCName characters and
    does not start with a digit. *)
Theorem C13_id_characters t : exists u, id_of t = Ok u /\ u <> [] /\ Forall name_char u /\
  (forall c r, u = c :: r -> ~ (48 <= code c <= 57)).
Proof. exact (id_chars t). Qed.

(** A text that already is such an ID is stored unchanged. *)
Theorem C13_good_ids_unchanged t : t <> [] -> Forall name_char t ->
  (forall c r, t = c :: r -> ~ (48 <= code c <= 57)) -> id_of t = Ok t.
Proof. exact (id_unchanged t). Qed.

(** The stored ID is the text with each illegal character replaced by '_', after
    "ID" if it would start with a digit; "ID" for the empty text. *)
Theorem C13_stored_text t : exists body, Forall2 scrubbed_as t body /\
  (body = [] -> id_of t = Ok (lit "ID")) /\
  (forall c r, body = c :: r -> 48 <= code c <= 57 -> id_of t = Ok (lit "ID" ++ body)) /\
  (forall c r, body = c :: r -> ~ 48 <= code c <= 57 -> id_of t = Ok body).
Proof. exact (id_body t). Qed.

Theorem C13_ncname_partial t u : id_of t = Ok u ->
  match t with c :: _ => c <> "-"%char /\ c <> "."%char | [] => True end -> ncname u.
Proof. exact (id_ncname t u). Qed.

Theorem C13_ncname_refuted : exists t u, id_of t = Ok u /\ ~ ncname u.
Proof. exact id_not_ncname. Qed.

Theorem C13_default : ncname id_default.
Proof. exact id_default_ncname. Qed.

Example C13_example :
  id_of (lit "1 my part!") = Ok (lit "ID1_my_part_") /\ id_of (lit "") = Ok (lit "ID") /\
  id_of (lit "P1.a-b") = Ok (lit "P1.a-b").
Proof. repeat split; reflexivity. Qed.

Print Assumptions C13_id_characters.
Print Assumptions C13_good_ids_unchanged.
Print Assumptions C13_stored_text.
Print Assumptions C13_ncname_partial.
Print Assumptions C13_ncname_refuted.
Print Assumptions C13_default.
