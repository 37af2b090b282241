(** Cases for C65. *)
From Coq Require Import List Ascii String ZArith QArith Qabs Lia.
From Verif Require Import Model.Base Model.Text Model.Strings Model.Date Model.Integers Model.Decimals Model.LongDouble Model.NumberOrWord   Model.EnumLookup Model.CoreEnums Model.CustomEnums Model.PlaybackSound Model.ElementTexts   Spec.Numerals Spec.DecimalText Spec.Calendar Spec.DateText Spec.TextEnum Spec.SchemaTexts Spec.SoundTexts Spec.XmlText Spec.Ranges Spec.SchemaElementTexts   Proofs.Tac Proofs.TextProofs Proofs.StringsProofs Proofs.IntegersProofs Proofs.LongDoubleProofs Proofs.DecimalsProofs Proofs.DecimalsStore Proofs.DecimalsText Proofs.DecimalsRange Proofs.DecimalUnique   Proofs.DateProofs3 Proofs.CustomEnumsProofs Proofs.PlaybackSoundProofs Proofs.EnumTables Proofs.NumberOrWordProofs Proofs.ElementTextProofs Proofs.ElementTextBack.
Import ListNotations.
Local Open Scope list_scope.

Ltac row := apply row_of_in; vm_compute; reflexivity.
Ltac kin := apply find_kind_in; vm_compute; reflexivity.

Lemma tenths_text : decimal_text (lit " +040.50") (inject_Z 40500000 / 1000000).
Proof.
  exists [" "%char], ["+"%char], (lit "040"), (lit "50"), ["."%char], [], 4050%Z, (inject_Z 4050 / inject_Z 100)%Q.
  split; [reflexivity | ]. split; [constructor; [do 5 right; left; reflexivity | constructor] | ]. split; [constructor | ]. split; [left; reflexivity | ].
  split; [apply numeral_iff; split; [discriminate | split; [repeat constructor | reflexivity]] | ]. split; [reflexivity | ]. right. left. split; reflexivity.
Qed.

Lemma ex_tenths : exists ty k, In (lit "tenths", ty) element_texts /\ In (lit "tenths", k) schema_element_texts /\
  admits k (lit " +040.50") /\ held (lit "tenths") k (lit " +040.50") /\ rewrite_text ty (lit " +040.50") = Ok (lit "40.5").
Proof.
  eexists. eexists. split; [row | ]. split; [kin | ]. split; [eexists; split; [exact tenths_text | split; exact I] | ].
  split; [split; [intros E; discriminate E | split; [intros E; discriminate E | ]]; exists 40500000%Z; split; [exact tenths_text | vm_compute; discriminate] | ].
  vm_compute. reflexivity.
Qed.

Lemma two_text : canonical_int (lit "2") 2.
Proof. apply canonical_int_print. vm_compute. reflexivity. Qed.

Lemma ex_staff : exists ty k, In (lit "staff", ty) element_texts /\ In (lit "staff", k) schema_element_texts /\
  admits k (lit "2") /\ held (lit "staff") k (lit "2") /\ shortest k (lit "2").
Proof.
  eexists. eexists. split; [row | ]. split; [kin | ]. split; [eexists; split; [exact (canonical_text _ _ two_text) | split; [cbn; lia | exact I]] | ].
  split; [split; [intros E; discriminate E | split; [intros E; discriminate E | ]]; exists 2%Z; split; [exact (canonical_text _ _ two_text) | vm_compute; split; discriminate] | ].
  exists 2%Z. exact two_text.
Qed.

Lemma ex_channel : exists ty k, In (lit "midi-channel", ty) element_texts /\ In (lit "midi-channel", k) schema_element_texts /\
  ~ admits k (lit "17") /\ rewrite_text ty (lit "17") = Ok (lit "16").
Proof.
  eexists. eexists. split; [row | ]. split; [kin | ]. split; [ | vm_compute; reflexivity].
  intros (n & T & _ & H). assert (S : canonical_int (lit "17") 17) by (apply canonical_int_print; vm_compute; reflexivity).
  rewrite (int_one _ _ _ T (canonical_text _ _ S)) in H. cbn in H. lia.
Qed.

Lemma ex_words : exists ty k, In (lit "words", ty) element_texts /\ In (lit "words", k) schema_element_texts /\
  (forall b hi, k <> Fraction (Above b) hi) /\ rewrite_text ty (lit "p < f") = Ok (lit "p &lt; f").
Proof. eexists. eexists. split; [row | ]. split; [kin | ]. split; [intros b hi E; discriminate E | vm_compute; reflexivity]. Qed.
