(** C36: pitch alteration survives writing and reading. *)
From Coq Require Import Ascii String ZArith QArith Qabs.
From Verif Require Import Model.Base Model.Text Model.LongDouble Model.Alter Spec.Numerals Spec.DecimalText Spec.Intervals
  Proofs.AlterProofs Proofs.AlterReading.
Open Scope Q_scope.

(** The full claim for cents below 100. It is false when semitones and cents have
    different signs: 1 semitone and -50 cents are read as 50 cents. *)
Definition C36_claim : Prop := forall s c, is_int s -> is_dbl c -> Qabs c < 100 ->
  exists c', alter_roundtrip s c = Ok (s, c') /\ Qabs (c' - c) <= 1 # 10000.

Theorem C36_claim_refuted : ~ C36_claim.
Proof. exact alter_refuted. Qed.
Print Assumptions C36_claim_refuted.

(** What holds: see [kept]. Limited to 100000 semitones and 1000000 cents either way. *)
Theorem C36_kept_partial : forall s c, (Z.abs s <= 100000)%Z -> Qabs c <= 1000000 -> kept s c (alter_roundtrip s c).
Proof. exact alter_kept. Qed.
Print Assumptions C36_kept_partial.

(** The same for the notes of a non-traditional key. *)
Theorem C36_key_kept_partial : forall s c, (Z.abs s <= 100000)%Z -> Qabs c <= 1000000 -> kept s c (key_alter_roundtrip s c).
Proof. exact key_alter_kept. Qed.
Print Assumptions C36_key_kept_partial.

(** Without cents, every int is kept. *)
Theorem C36_whole : forall s, is_int s -> alter_roundtrip s 0 = Ok (s, 0) /\ key_alter_roundtrip s 0 = Ok (s, 0).
Proof. exact alter_roundtrip_whole. Qed.
Print Assumptions C36_whole.

(** The element is left out exactly when there is no alteration. *)
Theorem C36_absent : forall s c, (writeAlter s c = Ok None <-> s = 0%Z /\ c == 0).
Proof. exact alter_absent. Qed.
Print Assumptions C36_absent.

(** Any text that is a number is read as that alteration, for notes and for keys, up to 100000
    semitones either way; one that is not, as none. *)
Theorem C36_read_partial : forall t x, number_text t x -> Qabs x <= 100000 ->
  exists s c, readAlter (Some t) = Ok (s, c) /\ readKeyAlter t = Ok (s, c) /\ alter_said x s c.
Proof. exact text_said. Qed.
Print Assumptions C36_read_partial.

Theorem C36_read_other : forall t, (forall x, ~ number_text t x) -> readAlter (Some t) = Ok (0%Z, 0) /\ readKeyAlter t = Ok (0%Z, 0).
Proof. exact text_not_said. Qed.
Print Assumptions C36_read_other.

Example C36_read_example : (exists c, readKeyAlter (lit " -1.5e0 ") = Ok ((-1)%Z, c) /\ c == -50) /\ readKeyAlter (lit "flat") = Ok (0%Z, 0).
Proof. split; [eexists; split; vm_compute; reflexivity | vm_compute; reflexivity]. Qed.

(** The hypotheses are met: two flats and 25.5 cents lower. *)
Example C36_example : exists c, alter_roundtrip (-2) (-51 # 2) = Ok ((-2)%Z, c) /\ Qabs (c - (-51 # 2)) < 1 # 1000000000 /\
  writeAlter (-2) (-51 # 2) = Ok (Some (lit "-2.255")).
Proof. eexists. split; [vm_compute; reflexivity | ]. split; vm_compute; reflexivity. Qed.
