(** C45: the encoding survives writing and reading. *)
From Coq Require Import String Ascii List ZArith Bool.
From Verif Require Import Model.Base Model.Text Model.Strings Model.Date Model.ScoreHeader.
From Verif Require Import Spec.Calendar Spec.XmlText Spec.TimeSignatures Spec.Headers.
From Verif Require Import Proofs.HeaderProofs.
Import ListNotations.
Open Scope Z_scope.

(** The full claim. *)
Definition C45_encoding : Prop := forall h, let e := h_encoding h in let e' := h_encoding (read_header (write_header h)) in
  same_but_date e' e /\ (has_date e -> e_year e' = e_year e /\ e_month e' = e_month e /\ e_day e' = e_day e) /\
  (~ has_date e -> has_no_date e').

(** Everything but the date survives, if there is no superfluous white space in what
    the schema makes tokens. *)
Theorem C45_encoding_partial h : let e := h_encoding h in let e' := h_encoding (read_header (write_header h)) in
  tidy_encoding e -> same_but_date e' e.
Proof. exact (encoding_kept h). Qed.

(** A date survives; none is written if not even a part of it is possible. *)
Theorem C45_date_partial h : let e := h_encoding h in let e' := h_encoding (read_header (write_header h)) in
  (has_date e -> e_year e' = e_year e /\ e_month e' = e_month e /\ e_day e' = e_day e) /\ (hopeless_date e -> has_no_date e').
Proof. exact (date_kept h). Qed.

(** In general: a date that does not exist is written as the nearest one, if the year, the
    month or the day is the same in that. *)
Theorem C45_in_general_partial h : let e := h_encoding h in let e' := h_encoding (read_header (write_header h)) in
  e_encoder e' = e_encoder e /\ e_description e' = e_description e /\ e_software e' = e_software e /\
  Forall2 tidied_item (e_supported e) (e_supported e') /\ Forall2 tidied_misc (e_misc e) (e_misc e') /\
  (let '(y, m, d) := nearest_date e in
   ((e_year e = y \/ e_month e = m \/ e_day e = d) -> (e_year e', e_month e', e_day e') = (y, m, d)) /\
   (~ (e_year e = y \/ e_month e = m \/ e_day e = d) -> has_no_date e')).
Proof. exact (encoding_in_general h). Qed.

(** Of what a file says the first date, encoder and description are read, and all the
    software and supported items, in their order. *)
Theorem C45_read l : let e := createEncoding l in
  (e_year e, e_month e, e_day e) = hd (-1, -1, -1) (dates l) /\ e_encoder e = hd [] (encoders l) /\ e_description e = hd [] (descriptions l) /\
  e_software e = softwares l /\ e_supported e = supports l /\ e_misc e = [].
Proof. exact (choices_read l). Qed.

(** Nothing is written where there is nothing to say. *)
Theorem C45_presence h :
  (x_identification (write_header h) = None <-> nobody h /\ nothing_encoded (h_encoding h) /\ e_misc (h_encoding h) = []) /\
  (forall i, x_identification (write_header h) = Some i ->
     (i_encoding i = None <-> nothing_encoded (h_encoding h) /\ e_misc (h_encoding h) = []) /\
     (i_misc i = None <-> e_misc (h_encoding h) = [])).
Proof. exact (identification_written h). Qed.

Example C45_header (y m d : Z) : HeaderData :=
  mkHeader VersionUnspecified [] [] [] [] [] [] [] [] []
    (mkEncoding y m d (lit "me"%string) [] [lit "a"%string; lit "b"%string] [mkSupported (lit "accidental"%string) [] (lit "x y"%string) false]
       [mkMisc (lit "k"%string) (lit " v "%string)]) [].

Example C45_tidy : tidy_encoding (h_encoding (C45_header 2024 2 29)) /\ has_date (h_encoding (C45_header 2024 2 29)).
Proof.
  assert (T : forall t, reduce t = t -> tidy t).
  { intros t H. destruct (token_tidied t) as (l & W & E). exists l. split; [exact W|]. unfold token_of in E. rewrite H in E. exact E. }
  split; [split; repeat constructor; apply T; vm_compute; reflexivity|]. vm_compute. repeat split; discriminate.
Qed.

Example C45_holds :
  read_header (write_header (C45_header 2024 2 29)) = C45_header 2024 2 29 /\
  read_header (write_header (C45_header (-1) (-1) (-1))) = C45_header (-1) (-1) (-1) /\
  read_header (write_header (C45_header 2023 2 29)) = C45_header 2023 2 28.
Proof. repeat split; vm_compute; reflexivity. Qed.

Example C45_nothing : nothing_encoded default_encoding /\ ~ nothing_encoded (h_encoding (C45_header (-1) (-1) (-1))).
Proof. vm_compute. split; [repeat split; discriminate | intros (K & _); discriminate K]. Qed.

Theorem C45_encoding_refuted : ~ C45_encoding.
Proof.
  intros H. destruct (H (C45_header 2023 2 29)) as (_ & _ & K). destruct K as (K & _).
  - vm_compute. intros (_ & _ & _ & X). apply X. reflexivity.
  - vm_compute in K. discriminate K.
Qed.

Print Assumptions C45_encoding_partial.
Print Assumptions C45_date_partial.
Print Assumptions C45_in_general_partial.
Print Assumptions C45_read.
Print Assumptions C45_encoding_refuted.
Print Assumptions C45_presence.
