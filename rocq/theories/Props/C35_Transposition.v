(** C35: transposition survives writing and reading. *)
From Coq Require Import Ascii String ZArith QArith.
From Verif Require Import Model.Base Model.Text Model.Transpose Spec.Numerals Spec.Intervals Spec.DecimalText Proofs.TransposeProofs.
Open Scope Z_scope.

(** The full claim. It is false: diatonic steps of zero, alone or beyond the whole
    octaves, are not written and are guessed when read. *)
Definition C35_claim : Prop := forall c d, is_int c -> is_int d -> transposition_roundtrip (Some (c, d)) = Ok (Some (c, d)).

Theorem C35_claim_refuted : ~ C35_claim.
Proof. exact transposition_refuted. Qed.
Print Assumptions C35_claim_refuted.

(** What holds for every pair of ints: chromatic is always the same; diatonic is the
    same unless it is zero or just the whole octaves, when the usual number of steps is
    read. Two cases overflow an int: the least chromatic, and diatonic steps that differ
    from the octaves by more than an int. *)
Theorem C35_roundtrip_partial : forall c d o, is_int c -> is_int d -> (c, d) <> (0, 0) -> octaves_in c o ->
  ((c = -2147483648 \/ (d <> 0 /\ ~ is_int (d - 7 * o))) -> transposition_roundtrip (Some (c, d)) = UB) /\
  (~ (c = -2147483648 \/ (d <> 0 /\ ~ is_int (d - 7 * o))) ->
   exists d', transposition_roundtrip (Some (c, d)) = Ok (Some (c, d')) /\
     (d <> 0 -> d <> 7 * o -> d' = d) /\ (d = 0 \/ d = 7 * o -> usual_diatonic c d')).
Proof. exact roundtrip_cases. Qed.
Print Assumptions C35_roundtrip_partial.

(** Exactly when nothing is lost. *)
Theorem C35_roundtrip_exactly : forall c d o, is_int c -> is_int d -> (c, d) <> (0, 0) -> octaves_in c o ->
  ~ (c = -2147483648 \/ (d <> 0 /\ ~ is_int (d - 7 * o))) ->
  (transposition_roundtrip (Some (c, d)) = Ok (Some (c, d)) <-> (d <> 0 /\ d <> 7 * o) \/ usual_diatonic c d).
Proof. exact roundtrip_exactly. Qed.
Print Assumptions C35_roundtrip_exactly.

(** No transposition, or one by nothing, is read as none. *)
Theorem C35_no_transposition :
  transposition_roundtrip None = Ok None /\ transposition_roundtrip (Some (0, 0)) = Ok None.
Proof. exact roundtrip_none. Qed.
Print Assumptions C35_no_transposition.

(** The octaves of an interval are well defined, and so is the usual diatonic. *)
Theorem C35_octaves : forall c, octaves_in c (Z.quot c 12) /\ forall o, octaves_in c o -> o = Z.quot c 12.
Proof. exact (fun c => conj (octaves_quot c) (octaves_unique c)). Qed.
Print Assumptions C35_octaves.

Theorem C35_usual_unique : forall c d e, usual_diatonic c d -> usual_diatonic c e -> d = e.
Proof. exact usual_unique. Qed.
Print Assumptions C35_usual_unique.

(** Reading any transpose element with a whole number of semitones: octaves are added
    as 12 semitones and 7 steps, a missing diatonic is the usual one, text that is not
    an int counts as 0. *)
Theorem C35_reading : forall dt ct ot c x, number_text ct x -> (x == inject_Z c)%Q -> -2147483647 <= c <= 2147483647 ->
  exists d o,
  match dt with None => usual_diatonic c d | Some t => (forall n, int_text t n -> is_int n -> d = n) /\ ((forall n, int_text t n -> ~ is_int n) -> d = 0) end /\
  match ot with None => o = 0 | Some t => (forall n, int_text t n -> is_int n -> o = n) /\ ((forall n, int_text t n -> ~ is_int n) -> o = 0) end /\
  (is_int (o * 7) -> is_int (d + o * 7) -> is_int (o * 12) -> is_int (c + o * 12) ->
   readTransposition (Some (mkTransposeText dt (Some ct) ot)) = Ok (Some (c + o * 12, d + o * 7))).
Proof. exact read_text. Qed.
Print Assumptions C35_reading.

(** The hypotheses are met: a bass clarinet, down a major ninth; a semitone up, lost. *)
Example C35_example :
  transposition_roundtrip (Some (-14, -8)) = Ok (Some (-14, -8)) /\ octaves_in (-14) (-1) /\
  writeTransposition (Some (-14, -8)) = Ok (Some (mkTransposeText (Some (lit "-1")) (Some (lit "-2")) (Some (lit "-1")))) /\
  transposition_roundtrip (Some (1, 0)) = Ok (Some (1, 1)).
Proof.
  split; [vm_compute; reflexivity | ]. split; [exists (-2); split; [reflexivity | split; [reflexivity | discriminate]] | ].
  split; vm_compute; reflexivity.
Qed.
