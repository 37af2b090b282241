(* The classes that hold an enumerator or a custom text. *)
From Coq Require Import Ascii String List Bool.
From Verif Require Import Model.Text Model.EnumLookup Model.CoreEnums Model.CustomEnums
  Spec.TextEnum Spec.SchemaTexts Proofs.StringsProofs Proofs.EnumProofs Proofs.EnumTables.
Import ListNotations.

Section Generic.
  Context {A : Type}.
  Variable isOther : A -> bool.
  Variable other : A.
  Variable members : list A.
  Variable print : A -> str.
  Variable tryParse : str -> option A.
  Variable parse : str -> A.
  Variable texts : list str.
  Variable fallback : A.
  Hypothesis Hother : forall v, isOther v = true <-> v = other.
  Hypothesis Htext : text_enum members print tryParse parse texts fallback.

  Lemma isOther_other : isOther other = true.
  Proof. apply Hother. reflexivity. Qed.

  Lemma isOther_named : forall v, v <> other -> isOther v = false.
  Proof.
    intros v H. destruct (isOther v) eqn:E; [exfalso; apply H; apply Hother; exact E | reflexivity].
  Qed.

  Lemma try_print : forall v, tryParse (print v) = Some v.
  Proof. intro v. destruct Htext as [_ [_ [H _]]]. apply H. Qed.

  Lemma try_none : forall s, ~ In s texts -> tryParse s = None.
  Proof. intros s H. destruct Htext as [_ [_ [_ [_ [_ H6]]]]]. apply H6. exact H. Qed.

  Lemma setters_ok_generic :
    setters_ok (setValue_enum isOther) (setValue_text isOther other tryParse)
      (getValue (A:=A)) (getValueString isOther print) print texts other.
  Proof.
    pose proof isOther_other as Ho.
    intro o. repeat split.
    - intros v Hv. unfold getValueString, setValue_enum. cbn [myEnum myCustomValue].
      rewrite (isOther_named v Hv). reflexivity.
    - intros v Hv. unfold getValueString, setValue_enum. cbn [myEnum myCustomValue].
      rewrite Ho, (isOther_named v Hv). cbn [negb andb].
      destruct (myCustomValue o); reflexivity.
    - unfold getValue, setValue_text. rewrite (try_none s H). reflexivity.
    - unfold getValueString, setValue_text. rewrite (try_none s H). cbn [myEnum myCustomValue setValue_enum].
      rewrite Ho. reflexivity.
    - unfold getValueString, setValue_text. rewrite (try_none s H).
      unfold setValue_enum. cbn [myEnum myCustomValue].
      rewrite Ho. reflexivity.
    - intros v. unfold getValue, setValue_text. rewrite try_print. reflexivity.
    - intros v Hv. unfold getValueString, setValue_text. rewrite try_print. cbn [myEnum].
      rewrite (isOther_named v Hv). reflexivity.
    - unfold getValueString, setValue_text. rewrite try_print. cbn [myEnum myCustomValue].
      rewrite Ho. reflexivity.
  Qed.

  Lemma run_sets_app : forall c h1 h2,
    run_sets isOther other tryParse c (h1 ++ h2)
    = run_sets isOther other tryParse (run_sets isOther other tryParse c h1) h2.
  Proof. intros. unfold run_sets. apply fold_left_app. Qed.

  Lemma setters_ok_history : forall start history,
    setters_ok
      (fun h c => h ++ [SetEnum c]) (fun h s => h ++ [SetText s])
      (fun h => getValue (run_sets isOther other tryParse start (history ++ h)))
      (fun h => getValueString isOther print (run_sets isOther other tryParse start (history ++ h)))
      print texts other.
  Proof.
    intros start history h.
    pose proof (setters_ok_generic (run_sets isOther other tryParse start (history ++ h)))
      as [H1 [H2 [H3 [H4 [H5 [H6 H7]]]]]].
    repeat split; intros; repeat rewrite app_assoc; repeat rewrite run_sets_app in *;
      cbn [run_sets fold_left run_set];
      match goal with
      | H : ~ In _ _ |- _ => solve [apply H4; exact H]
      | _ => solve [apply H1 | apply H2; assumption | apply H3; assumption | apply H5
                    | apply H6; assumption | apply H7]
      end.
  Qed.

  Lemma keeps_text_generic :
    keeps_text_except (construct_text isOther other tryParse) (getValueString isOther print)
      (print other).
  Proof.
    destruct Htext as [Hin [Hmap _]].
    assert (Hmem : forall s, In s texts -> exists v, s = print v).
    { intros s H. rewrite <- Hmap in H. apply in_map_iff in H. destruct H as [v [H _]].
      exists v. symmetry. exact H. }
    split.
    - intros s Hs. unfold construct_text.
      destruct (setters_ok_generic {| myEnum := other; myCustomValue := s |})
        as [_ [_ [_ [Hc [_ [Hn _]]]]]].
      destruct (in_dec (list_eq_dec ascii_dec) s texts) as [Hi | Hi].
      + destruct (Hmem s Hi) as [v ->]. apply Hn. intros ->. apply Hs. reflexivity.
      + apply Hc. exact Hi.
    - unfold construct_text.
      destruct (setters_ok_generic {| myEnum := other; myCustomValue := print other |})
        as [_ [_ [_ [_ [_ [_ H]]]]]]. exact H.
  Qed.

  Lemma construct_enum_generic : forall v,
    getValue (construct_enum isOther v) = v /\
    (v <> other -> getValueString isOther print (construct_enum isOther v) = print v) /\
    (v = other -> getValueString isOther print (construct_enum isOther v) = []).
  Proof.
    intro v. unfold construct_enum. split; [reflexivity | split].
    - intro Hv. apply setters_ok_generic. exact Hv.
    - intros ->. unfold getValueString, setValue_enum. cbn [myEnum myCustomValue].
      rewrite isOther_other. reflexivity.
  Qed.

  Lemma keeps_text_refuted : print other <> [] ->
    ~ keeps_text (construct_text isOther other tryParse) (getValueString isOther print).
  Proof.
    intros Hne H. destruct keeps_text_generic as [_ E].
    specialize (H (print other)). rewrite E in H. apply Hne. symmetry. exact H.
  Qed.
End Generic.

Ltac other_iff :=
  let v := fresh "v" in let H := fresh "H" in
  intro v; destruct v; vm_compute; split; intro H; (reflexivity || discriminate H).

Lemma DistanceType_other : forall v, isOther_DistanceType v = true <-> v = DistanceTypeEnum_other.
Proof. other_iff. Qed.
Lemma DynamicsValue_other : forall v, isOther_DynamicsValue v = true <-> v = DynamicsEnum_otherDynamics.
Proof. other_iff. Qed.
Lemma LineWidthType_other : forall v, isOther_LineWidthType v = true <-> v = LineWidthTypeEnum_other.
Proof. other_iff. Qed.
Lemma ModeValue_other : forall v, isOther_ModeValue v = true <-> v = ModeEnum_other.
Proof. other_iff. Qed.
