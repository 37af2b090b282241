(* Generic facts about the enumerations with a text form. *)
From Coq Require Import List Bool.
From Verif Require Import Model.Text Model.EnumLookup Spec.TextEnum Proofs.StringsProofs.
Import ListNotations.

Lemma lookup_text_in : forall A (chain : list (str * A)) s v,
  lookup_text chain s = Some v -> In (s, v) chain.
Proof.
  induction chain as [| [t w] rest IH]; cbn [lookup_text]; intros s v H; [discriminate H |].
  destruct (str_eqb s t) eqn:E.
  - apply str_eqb_eq in E. injection H as <-. subst. left. reflexivity.
  - right. apply IH. exact H.
Qed.

Definition chain_ok {A} (print : A -> str) (chain : list (str * A)) : bool :=
  forallb (fun p => str_eqb (fst p) (print (snd p))) chain.

Lemma text_enum_of : forall A (members : list A) print chain texts fallback,
  map snd chain = members ->
  map print members = texts ->
  (forall v, lookup_text chain (print v) = Some v) ->
  chain_ok print chain = true ->
  text_enum members print (lookup_text chain)
            (fun s => value_or (lookup_text chain s) fallback) texts fallback.
Proof.
  intros A members print chain texts fallback Hm Ht Hp Hc.
  assert (Hall : forall v, In v members).
  { intro v. subst members. apply in_map_iff. exists (print v, v).
    split; [reflexivity | apply lookup_text_in; apply Hp]. }
  assert (Hback : forall s v, lookup_text chain s = Some v -> s = print v).
  { intros s v H. apply lookup_text_in in H. unfold chain_ok in Hc.
    rewrite forallb_forall in Hc. specialize (Hc _ H). apply str_eqb_eq in Hc. exact Hc. }
  repeat split.
  - exact Hall.
  - exact Ht.
  - apply Hp.
  - rewrite Hp. reflexivity.
  - intros v w E. pose proof (Hp v) as H1. rewrite E, Hp in H1. injection H1 as <-. reflexivity.
  - exact Hback.
  - destruct (lookup_text chain s) as [v |] eqn:E; [exfalso | reflexivity].
    apply H. rewrite <- Ht. apply in_map_iff. exists v. split; [symmetry; apply Hback; exact E | apply Hall].
  - destruct (lookup_text chain s) as [v |] eqn:E; [exfalso | reflexivity].
    apply H. rewrite <- Ht. apply in_map_iff. exists v. split; [symmetry; apply Hback; exact E | apply Hall].
Qed.

Lemma text_enum_total_of : forall A (members : list A) print chain texts fallback,
  map snd chain = members ->
  map print members = texts ->
  (forall v, lookup_text chain (print v) = Some v) ->
  chain_ok print chain = true ->
  text_enum_total members print
            (fun s => value_or (lookup_text chain s) fallback) texts fallback.
Proof.
  intros A members print chain texts fallback Hm Ht Hp Hc.
  destruct (text_enum_of A members print chain texts fallback Hm Ht Hp Hc)
    as [H1 [H2 [H3 [H4 [H5 H6]]]]].
  repeat split; auto.
  - intro v. apply H3.
  - intros s Hs. apply H6. exact Hs.
Qed.

Ltac enum_text :=
  first [ apply text_enum_of | apply text_enum_total_of ];
  [ reflexivity
  | vm_compute; reflexivity
  | let v := fresh "v" in intro v; destruct v; vm_compute; reflexivity
  | vm_compute; reflexivity ].
