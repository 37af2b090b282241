(* Deciding the translation properties by computation over all values. *)
From Coq Require Import Ascii String List Bool ZArith.
From Verif Require Import Model.Text Model.EnumLookup Spec.Conversion Proofs.StringsProofs.
Import ListNotations.

(* every value is a member and is determined by its number *)
Definition numbered {A : Type} (members : list A) (value : A -> Z) : Prop :=
  forall v, find (fun w => Z.eqb (value w) (value v)) members = Some v.

Lemma numbered_in : forall A (members : list A) value, numbered members value ->
  forall v, In v members.
Proof. intros A m val H v. apply (find_some _ _ (H v)). Qed.

Lemma numbered_inj : forall A (members : list A) value, numbered members value ->
  forall v w, value v = value w -> v = w.
Proof.
  intros A m val H v w E. pose proof (H v) as H1. rewrite E, (H w) in H1.
  injection H1 as <-. reflexivity.
Qed.

Definition memb {A : Type} (value : A -> Z) (a : A) (l : list A) : bool :=
  existsb (fun b => Z.eqb (value a) (value b)) l.

Definition alike (prefix : str) (renames : list (str * str)) (text name : str) : bool :=
  str_eqb (bare (prefix ++ text)) (bare name) ||
  existsb (fun p => str_eqb (fst p) text && str_eqb (snd p) name) renames.

Lemma alike_iff : forall p r t n, alike p r t n = true <-> named_alike p r t n.
Proof.
  intros p r t n. unfold alike, named_alike. rewrite orb_true_iff, str_eqb_eq, existsb_exists.
  split; intros [H | H]; auto; right.
  - destruct H as [[a b] [Hin H]]. apply andb_true_iff in H. cbn [fst snd] in H.
    rewrite !str_eqb_eq in H. destruct H as [-> ->]. exact Hin.
  - exists (t, n). cbn [fst snd]. split; [exact H |]. apply andb_true_iff. rewrite !str_eqb_eq. auto.
Qed.

Lemma memb_in : forall A (members : list A) value, numbered members value ->
  forall a l, memb value a l = true <-> In a l.
Proof.
  intros A m val H a l. unfold memb. rewrite existsb_exists. split.
  - intros [b [Hb E]]. apply Z.eqb_eq in E. rewrite (numbered_inj _ _ _ H _ _ E). exact Hb.
  - intro Hi. exists a. split; [exact Hi | apply Z.eqb_refl].
Qed.

Section Check.
  Context {C A : Type}.
  Variables (cm : list C) (cv : C -> Z) (am : list A) (av : A -> Z).
  Variables (to_api : C -> A) (to_core : A -> C) (core_text : C -> str) (api_name : A -> str).
  Variables (prefix : str) (renames : list (str * str)) (group : A -> bool) (outside : C).
  Variables (lost_core : list (C * A)) (lost_api : list (A * C)).

  Definition check_core : bool :=
    forallb (fun c =>
      memb cv c (map fst lost_core) ||
      (Z.eqb (cv (to_core (to_api c))) (cv c) && group (to_api c) &&
       alike prefix renames (core_text c) (api_name (to_api c)))) cm.

  Definition check_api : bool :=
    forallb (fun a =>
      if group a then memb av a (map fst lost_api) || Z.eqb (av (to_api (to_core a))) (av a)
      else Z.eqb (cv (to_core a)) (cv outside)) am.

  Definition check_lost : bool :=
    forallb (fun p => Z.eqb (av (to_api (fst p))) (av (snd p)) &&
                      negb (Z.eqb (cv (to_core (snd p))) (cv (fst p)))) lost_core &&
    forallb (fun p => Z.eqb (cv (to_core (fst p))) (cv (snd p)) &&
                      negb (Z.eqb (av (to_api (snd p))) (av (fst p)))) lost_api.

  Lemma converts_of :
    numbered cm cv -> numbered am av ->
    check_core = true -> check_api = true -> check_lost = true ->
    converts to_api to_core core_text api_name prefix renames group outside lost_core lost_api.
  Proof.
    intros Hc Ha H1 H2 H3. unfold check_core, check_api, check_lost in *.
    rewrite forallb_forall in H1, H2. apply andb_true_iff in H3. destruct H3 as [H3 H4].
    rewrite forallb_forall in H3, H4.
    split; [| split; [| split; [| split]]].
    - intros c Hn. specialize (H1 c (numbered_in _ _ _ Hc c)). apply orb_true_iff in H1.
      destruct H1 as [H1 | H1]; [exfalso; apply Hn; apply (memb_in _ _ _ Hc); exact H1 |].
      apply andb_true_iff in H1. destruct H1 as [H1 H5]. apply andb_true_iff in H1.
      destruct H1 as [H1 H6]. apply Z.eqb_eq in H1.
      split; [apply (numbered_inj _ _ _ Hc); exact H1 | split; [exact H6 |]].
      apply alike_iff. exact H5.
    - intros a Hg Hn. specialize (H2 a (numbered_in _ _ _ Ha a)). rewrite Hg in H2.
      apply orb_true_iff in H2. destruct H2 as [H2 | H2].
      + exfalso. apply Hn. apply (memb_in _ _ _ Ha). exact H2.
      + apply Z.eqb_eq in H2. apply (numbered_inj _ _ _ Ha). exact H2.
    - intros a Hg. specialize (H2 a (numbered_in _ _ _ Ha a)). rewrite Hg in H2.
      apply Z.eqb_eq in H2. apply (numbered_inj _ _ _ Hc). exact H2.
    - intros c a Hi. specialize (H3 _ Hi). cbn [fst snd] in H3. apply andb_true_iff in H3.
      destruct H3 as [H3 H5]. apply Z.eqb_eq in H3.
      split; [apply (numbered_inj _ _ _ Ha); exact H3 |].
      intros E. rewrite E, Z.eqb_refl in H5. discriminate H5.
    - intros a c Hi. specialize (H4 _ Hi). cbn [fst snd] in H4. apply andb_true_iff in H4.
      destruct H4 as [H4 H5]. apply Z.eqb_eq in H4.
      split; [apply (numbered_inj _ _ _ Hc); exact H4 |].
      intros E. rewrite E, Z.eqb_refl in H5. discriminate H5.
  Qed.

  Definition check_all : bool :=
    forallb (fun c => forallb (fun a =>
      if alike prefix renames (core_text c) (api_name a)
      then Z.eqb (av (to_api c)) (av a) && Z.eqb (cv (to_core a)) (cv c) else true) am) cm.

  Lemma converts_all_of :
    numbered cm cv -> numbered am av -> check_all = true ->
    converts_all to_api to_core core_text api_name prefix renames.
  Proof.
    intros Hc Ha H c a Hn. unfold check_all in H. rewrite forallb_forall in H.
    specialize (H c (numbered_in _ _ _ Hc c)). rewrite forallb_forall in H.
    specialize (H a (numbered_in _ _ _ Ha a)). apply alike_iff in Hn. rewrite Hn in H.
    apply andb_true_iff in H. destruct H as [H1 H2]. apply Z.eqb_eq in H1, H2.
    split; [apply (numbered_inj _ _ _ Ha); exact H1 | apply (numbered_inj _ _ _ Hc); exact H2].
  Qed.
End Check.

Ltac number_all := let v := fresh "v" in intro v; destruct v; vm_compute; reflexivity.
Ltac convert_check N1 N2 :=
  apply (converts_of _ _ _ _ _ _ _ _ _ _ _ _ _ _ N1 N2); vm_compute; reflexivity.
