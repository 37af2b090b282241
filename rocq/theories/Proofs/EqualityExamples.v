(** Concrete values that are compared. *)
From Coq Require Import List Ascii String Bool ZArith QArith Qabs Lia.
From Verif Require Import Model.Base Model.Text Model.LongDouble Model.Decimals Model.ApiEnums Model.ApiClasses Model.Equality Model.Layout
  Spec.Agreement Spec.DefaultsValue Proofs.EqualityProofs.
Import ListNotations.

Lemma position_typed x : typed (v_position x) (KClass c_PositionData).
Proof. cbn. intuition reflexivity. Qed.
Lemma words_typed t : typed (v_words t) (KClass c_WordsData).
Proof. cbn. intuition reflexivity. Qed.

Lemma equal_case :
  typed (v_words (lit "dolce")) (KClass c_WordsData) /\
  equal (v_words (lit "dolce")) (v_words (lit "dolce")) = true /\
  equal (v_position (Finite 3)) (v_position (Finite 4)) = false /\
  equal (v_position (Finite 3)) (v_position (Finite (3000000001 # 1000000000))) = true.
Proof. split; [apply words_typed|]. repeat split; vm_compute; reflexivity. Qed.

Lemma identical_position p q : (p == q)%Q -> identical (v_position (Finite p)) (v_position (Finite q)).
Proof.
  intros E. constructor; [|intros n x y _ _ _ []].
  intros n x y Ix Iy _ _. cbn [In] in Ix, Iy.
  repeat (destruct Ix as [Ix | Ix]; [injection Ix as <- <-; repeat (destruct Iy as [Iy | Iy]; [try discriminate Iy; injection Iy as <-; repeat constructor; exact E|]); contradiction|]).
  contradiction.
Qed.
Lemma identical_case : identical (v_position (Finite 3)) (v_position (Finite (6 # 2))).
Proof. apply identical_position. reflexivity. Qed.

Lemma reflexive_case : typed (v_position (Infinite true)) (KClass c_PositionData) /\ numbers is_number (v_position (Infinite true)).
Proof. split; [apply position_typed|]. constructor. repeat constructor; discriminate. Qed.

Definition no_size : value := VClass c_SizeData [("height"%string, VNumber NotANumber); ("width"%string, v_number 0)].
Lemma reflexive_false : ~ (forall v k, typed v k -> equal v v = true).
Proof.
  intros H. assert (T : typed no_size (KClass c_SizeData)) by (cbn; intuition reflexivity).
  specialize (H _ _ T). vm_compute in H. discriminate H.
Qed.

Lemma seven_int z : seven_digits (Finite (inject_Z z)).
Proof.
  exists (inject_Z z), (z * 10000000)%Z. split; [reflexivity|]. unfold Qeq, inject_Z. cbn [Qnum Qden]. lia.
Qed.
Lemma words_seven t : numbers seven_digits (v_words t).
Proof. constructor. repeat constructor; apply (seven_int 3) || apply (seven_int 0) || apply (seven_int 12). Qed.
Lemma transitive_case :
  typed (v_words (lit "dolce")) (KClass c_WordsData) /\ numbers seven_digits (v_words (lit "dolce")) /\
  equal (v_words (lit "dolce")) (v_words (lit "dolce")) = true.
Proof. split; [apply words_typed|]. split; [apply words_seven|]. vm_compute. reflexivity. Qed.

Lemma transitive_false : ~ (forall a b c k, typed a k -> typed b k -> typed c k ->
  equal a b = true -> equal b c = true -> equal a c = true).
Proof.
  intros H.
  specialize (H (v_position (Finite 0)) (v_position (Finite (9 # 1000000000))) (v_position (Finite (18 # 1000000000))) (KClass c_PositionData)
    (position_typed _) (position_typed _) (position_typed _)).
  vm_compute in H. specialize (H eq_refl eq_refl). discriminate H.
Qed.

Lemma words_equal s t : equal (v_words s) (v_words t) = true.
Proof. vm_compute. reflexivity. Qed.
Lemma distinguishes_false : ~ (forall a b k, typed a k -> typed b k ->
  numbers seven_digits a -> numbers seven_digits b -> equal a b = true -> identical a b).
Proof.
  intros H. specialize (H (v_words (lit "dolce")) (v_words (lit "forte")) (KClass c_WordsData) (words_typed _) (words_typed _)
    (words_seven _) (words_seven _) (words_equal _ _)).
  inversion H as [| | | | | | |? ? ? Hx _]; subst.
  specialize (Hx "text"%string (VText (lit "dolce")) (VText (lit "forte")) (or_introl eq_refl) (or_introl eq_refl) (fun F => F) (fun F => F)).
  inversion Hx.
Qed.

Definition scaled (q : Q) : DefaultsData := mkDefaults q 40 noPageLayout noSystemLayout [].
Lemma written_false : ~ (forall n d e, equal (v_defaults n d) (v_defaults n e) = true ->
  addDefaultsData d None = addDefaultsData e None).
Proof.
  intros H. specialize (H 0%Z (scaled 7) (scaled 8) ltac:(vm_compute; reflexivity)).
  vm_compute in H. discriminate H.
Qed.
