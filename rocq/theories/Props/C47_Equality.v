(** C47: what operator== on the data of the API tells. *)
From Coq Require Import List Ascii String Bool ZArith QArith Qabs.
From Verif Require Import Model.Base Model.Text Model.ApiEnums Model.ApiClasses Model.Equality Model.Layout
  Spec.Agreement Spec.DefaultsValue Proofs.EqualityProofs Proofs.EqualityExamples.
Import ListNotations.

(** Two values of any type compare equal exactly if they agree in all that they hold,
    but for the few members that are overlooked and the few numbers that are compared
    approximately. *)
Theorem C47_equal : forall a b k, typed a k -> typed b k ->
  (equal a b = true <-> agree overlooked approximate a b).
Proof. exact equal_agree. Qed.
Print Assumptions C47_equal.
Example C47_equal_case :
  typed (v_words (lit "dolce")) (KClass c_WordsData) /\
  equal (v_words (lit "dolce")) (v_words (lit "dolce")) = true /\
  equal (v_position (Finite 3)) (v_position (Finite 4)) = false /\
  equal (v_position (Finite 3)) (v_position (Finite (3000000001 # 1000000000))) = true.
Proof. exact equal_case. Qed.

(** The order of the two does not matter. *)
Theorem C47_symmetric : forall a b k, typed a k -> typed b k -> equal a b = equal b a.
Proof. exact equal_sym. Qed.
Print Assumptions C47_symmetric.

(** Values that hold the same are equal. *)
Theorem C47_identical : forall a b k, typed a k -> typed b k -> identical a b -> equal a b = true.
Proof. exact identical_equal. Qed.
Print Assumptions C47_identical.
Example C47_identical_case : identical (v_position (Finite 3)) (v_position (Finite (6 # 2))).
Proof. exact identical_case. Qed.

(** A value is equal to itself, unless a number in it is not a number. *)
Theorem C47_reflexive_partial : forall v k, typed v k -> numbers is_number v -> equal v v = true.
Proof. exact equal_refl. Qed.
Print Assumptions C47_reflexive_partial.
Example C47_reflexive_case : typed (v_position (Infinite true)) (KClass c_PositionData) /\ numbers is_number (v_position (Infinite true)).
Proof. exact reflexive_case. Qed.

Definition C47_reflexive_claim : Prop := forall v k, typed v k -> equal v v = true.
Theorem C47_reflexive_refuted : ~ C47_reflexive_claim.
Proof. exact reflexive_false. Qed.
Print Assumptions C47_reflexive_refuted.

(** Values equal to the same value are equal, if their numbers have at most seven
    decimals. *)
Theorem C47_transitive_partial : forall a b c k, typed a k -> typed b k -> typed c k ->
  numbers seven_digits a -> numbers seven_digits b -> numbers seven_digits c ->
  equal a b = true -> equal b c = true -> equal a c = true.
Proof. exact equal_trans. Qed.
Print Assumptions C47_transitive_partial.
Example C47_transitive_case :
  typed (v_words (lit "dolce")) (KClass c_WordsData) /\ numbers seven_digits (v_words (lit "dolce")) /\
  equal (v_words (lit "dolce")) (v_words (lit "dolce")) = true.
Proof. exact transitive_case. Qed.

Definition C47_transitive_claim : Prop := forall a b c k, typed a k -> typed b k -> typed c k ->
  equal a b = true -> equal b c = true -> equal a c = true.
Theorem C47_transitive_refuted : ~ C47_transitive_claim.
Proof. exact transitive_false. Qed.
Print Assumptions C47_transitive_refuted.

(** Not all that a value holds is compared: words that say different things are equal. *)
Definition C47_distinguishes_claim : Prop := forall a b k, typed a k -> typed b k ->
  numbers seven_digits a -> numbers seven_digits b -> equal a b = true -> identical a b.
Theorem C47_distinguishes_refuted : ~ C47_distinguishes_claim.
Proof. exact distinguishes_false. Qed.
Print Assumptions C47_distinguishes_refuted.
Theorem C47_words : forall s t, equal (v_words s) (v_words t) = true.
Proof. exact words_equal. Qed.
Print Assumptions C47_words.

(** Equal values need not be written as the same file. *)
Definition C47_written_claim : Prop := forall n d e, equal (v_defaults n d) (v_defaults n e) = true ->
  addDefaultsData d None = addDefaultsData e None.
Theorem C47_written_refuted : ~ C47_written_claim.
Proof. exact written_false. Qed.
Print Assumptions C47_written_refuted.
