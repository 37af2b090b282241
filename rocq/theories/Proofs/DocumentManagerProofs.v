(** DocumentManager called by one thread. *)
From Coq Require Import ZArith List Lia Bool Arith.
From Verif Require Import Proofs.Tac Model.Base Model.Text Model.Conversions Model.DocumentManager
  Spec.Scores Spec.Documents Proofs.ConversionsProofs.
Import ListNotations.
Open Scope Z_scope.

Section P.
  Context {A M Hd V PI Input Data Output : Type} (sv : services A M Hd V PI Input Data Output).
  Local Notation doc := (document A M Hd V PI).
  Local Notation op := (op Input Data).
  Local Notation result := (result A M Hd V PI Data Output).
  Local Notation manager := (manager A M Hd V PI).
  Local Notation library := (@library A M Hd V PI).

  (** The map. *)
  Lemma find_erase_same id (m : list (Z * doc)) : m_find id (m_erase id m) = None.
  Proof.
    unfold m_find, m_erase. induction m as [|[k d] m IH]; cbn; [reflexivity|].
    destruct (k =? id) eqn:E; cbn; [exact IH|]. rewrite E. exact IH.
  Qed.

  Lemma find_erase_other id i (m : list (Z * doc)) : i <> id -> m_find i (m_erase id m) = m_find i m.
  Proof.
    intros N. unfold m_find, m_erase. induction m as [|[k d] m IH]; cbn; [reflexivity|].
    destruct (Z.eqb_spec k id) as [E|E]; cbn; destruct (Z.eqb_spec k i) as [E1|E1]; try exact IH; [congruence|reflexivity].
  Qed.

  Lemma find_set_same id d (m : list (Z * doc)) : m_find id (m_set id d m) = Some d.
  Proof. unfold m_find, m_set. cbn. rewrite Z.eqb_refl. reflexivity. Qed.

  Lemma find_set_other id i d (m : list (Z * doc)) : i <> id -> m_find i (m_set id d m) = m_find i m.
  Proof.
    intros N. rewrite <- (find_erase_other id i m N). unfold m_set. unfold m_find at 1. cbn.
    destruct (Z.eqb_spec id i); [congruence|reflexivity].
  Qed.

  (** Converting to partwise and back never fails. *)
  Lemma back_never_fails (t : score_tw A M Hd V PI) : exists t',
    partwiseTimewise (sv_attrs sv) (sv_music sv) (timewisePartwise (sv_attrs sv) (sv_music sv) t) = Ok t'.
  Proof.
    destruct (partwiseTimewise (sv_attrs sv) (sv_music sv) (timewisePartwise (sv_attrs sv) (sv_music sv) t)) as [t'| |] eqn:E.
    - eauto.
    - exfalso. revert E. apply to_timewise_nothrow.
    - exfalso. apply to_timewise_ub in E. destruct E as (p & q & _ & (_ & l1 & l2 & E & _) & Hq & L).
      assert (Hp : In p (pw_parts (timewisePartwise (sv_attrs sv) (sv_music sv) t))) by (rewrite E; apply in_or_app; right; left; reflexivity).
      unfold timewisePartwise in Hp, Hq. cbn [pw_parts] in Hp, Hq.
      apply in_map_iff in Hp, Hq. destruct Hp as (i & <- & _), Hq as (j & <- & _). cbn [pp_measures] in L.
      destruct (tw_measures t) as [|m0 ms0]; rewrite ?map_length in L; [exact (Nat.lt_irrefl _ L)|exact (Nat.lt_irrefl _ L)].
  Qed.

  Definition as_library (s : manager) : library :=
    Library (fun i => m_find i (dm_docs s)) (dm_next s - 1) (dm_unique s - 1000000).

  Lemma rep_as s : rep s (as_library s).
  Proof. unfold rep, as_library. cbn [dm_docs dm_next dm_unique held ids_given uniques_given]. split; [reflexivity|]. lia. Qed.

  Lemma rep_initial : rep (initial : manager) (empty : library).
  Proof. unfold rep. split; [reflexivity|]. split; reflexivity. Qed.

  Lemma makes_score d : makes sv (CreateFromScore d) (document_of_score sv d).
  Proof.
    unfold document_of_score. destruct (sv_write sv d) as [p| |] eqn:E; cbn.
    - destruct (sv_is_timewise sv d) eqn:E1; [|apply makes_partwise; assumption]. cbn [convertContents].
      apply makes_timewise; assumption.
    - apply makes_throw. exact E.
    - apply makes_ub. exact E.
  Qed.

  Lemma makes_fun o x y : makes sv o x -> makes sv o y -> x = y.
  Proof. intros H1 H2. inversion H1; subst; inversion H2; subst; congruence. Qed.

  Lemma store_refines o d (s : manager) (l : library) : rep s l -> makes sv o (Ok d) ->
    match store d s with
    | Crash => undefined sv o l
    | Returns r s' => exists l', says sv o l r l' /\ rep s' l'
    end.
  Proof.
    intros (R1 & R2 & R3) MK. unfold store. destruct (Z.eqb_spec (dm_next s) int_max) as [E|E].
    - eapply undefined_id; [exact MK|]. unfold int_max in E. lia.
    - rewrite R2. exists (Library (fun i => if i =? ids_given l + 1 then Some d else held l i) (ids_given l + 1) (uniques_given l)). split.
      + apply create_ok with d; cbn; [exact MK|rewrite Z.eqb_refl; reflexivity| |reflexivity|reflexivity].
        intros i N. destruct (Z.eqb_spec i (ids_given l + 1)); [congruence|reflexivity].
      + unfold rep. cbn [dm_docs dm_next dm_unique held ids_given uniques_given with_docs]. split; [|lia]. intros i. destruct (Z.eqb_spec i (ids_given l + 1)) as [->|N]; [apply find_set_same|].
        rewrite find_set_other by exact N. apply R1.
  Qed.

  Lemma unchanged_refl (l : library) : unchanged l l.
  Proof. unfold unchanged. auto. Qed.

  Lemma rep_set (s : manager) (l : library) id d : rep s l -> exists l', replaced id (Some d) l l' /\ rep (with_docs s (m_set id d (dm_docs s))) l'.
  Proof.
    intros (R1 & R2 & R3). exists (Library (fun i => if i =? id then Some d else held l i) (ids_given l) (uniques_given l)).
    unfold replaced, rep. cbn [held ids_given uniques_given dm_docs dm_next dm_unique with_docs]. rewrite Z.eqb_refl. split.
    - split; [reflexivity|]. split; [|auto]. intros i N. destruct (Z.eqb_spec i id); [congruence|reflexivity].
    - split; [|auto]. intros i. destruct (Z.eqb_spec i id) as [->|N]; [apply find_set_same|]. rewrite find_set_other by exact N. apply R1.
  Qed.

  Lemma call_refines o (s : manager) (l : library) : rep s l ->
    match call sv o s with
    | Crash => undefined sv o l
    | Returns r s' => exists l', says sv o l r l' /\ rep s' l'
    end.
  Proof.
    intros R. pose proof R as (R1 & R2 & R3). destruct o as [i|d|id|id|id|id|]; cbn [call].
    - unfold createFromInput. pose proof (makes_input sv i) as MK. destruct (sv_parse sv i) as [d| |].
      + apply store_refines; assumption.
      + exists l. split; [apply create_fails; [exact MK|apply unchanged_refl]|exact R].
      + apply undefined_make. exact MK.
    - unfold createFromScore. pose proof (makes_score d) as MK. destruct (document_of_score sv d) as [x| |].
      + apply store_refines; assumption.
      + exists l. split; [apply create_fails; [exact MK|apply unchanged_refl]|exact R].
      + apply undefined_make. exact MK.
    - unfold write. rewrite R1. destruct (held l id) as [d|] eqn:E.
      + destruct (sv_save sv d) as [x| |] eqn:E1.
        * exists l. split; [eapply write_known; eauto using unchanged_refl|exact R].
        * exists l. split; [eapply write_fails; eauto using unchanged_refl|exact R].
        * eapply undefined_save; eauto.
      + exists l. split; [apply write_unknown; [exact E|apply unchanged_refl]|exact R].
    - unfold getData. rewrite R1. destruct (held l id) as [[p|t]|] eqn:E.
      + destruct (sv_read sv p) as [x| |] eqn:E1.
        * exists l. split; [eapply get_partwise; eauto using unchanged_refl|exact R].
        * exists l. split; [eapply get_partwise_fails; eauto using unchanged_refl|exact R].
        * eapply undefined_read; eauto.
      + destruct (sv_read sv (timewisePartwise (sv_attrs sv) (sv_music sv) t)) as [x| |] eqn:E1.
        * cbn [convertContents]. destruct (back_never_fails t) as (t' & E2). rewrite E2. cbn [omap obind].
          destruct (rep_set s l id (Timewise t') R) as (l' & RP & RR). exists l'. split.
          -- eapply get_timewise; [exact E|exact E1|exact E2|exact RP].
          -- destruct RR as (Q1 & Q2 & Q3). split; [|split; [exact Q2|exact Q3]]. intros i. rewrite <- Q1. cbn [dm_docs with_docs].
             destruct (Z.eqb_spec i id) as [->|N]; [rewrite !find_set_same; reflexivity|rewrite !find_set_other by exact N; reflexivity].
        * destruct (rep_set s l id (Partwise (timewisePartwise (sv_attrs sv) (sv_music sv) t)) R) as (l' & RP & RR). exists l'. split; [|exact RR].
          eapply get_timewise_fails; [exact E|exact E1|exact RP].
        * eapply undefined_read_tw; eauto.
      + exists l. split; [apply get_unknown; [exact E|apply unchanged_refl]|exact R].
    - unfold destroyDocument. rewrite R1. destruct (held l id) as [d|] eqn:E.
      + exists (Library (fun i => if i =? id then None else held l i) (ids_given l) (uniques_given l)). split.
        * apply destroy. unfold replaced. cbn. rewrite Z.eqb_refl. split; [reflexivity|]. split; [|auto].
          intros i N. destruct (Z.eqb_spec i id); [congruence|reflexivity].
        * unfold rep. cbn [dm_docs dm_next dm_unique held ids_given uniques_given with_docs]. split; [|auto]. intros i. destruct (Z.eqb_spec i id) as [->|N]; [apply find_erase_same|]. rewrite find_erase_other by exact N. apply R1.
      + exists l. split; [|exact R]. apply destroy. unfold replaced. auto.
    - unfold getDocument. exists l. split; [|exact R]. rewrite R1. apply fetch. apply unchanged_refl.
    - unfold getUniqueId. destruct (Z.eqb_spec (dm_unique s) int_max) as [E|E].
      + apply undefined_unique. unfold int_max in E. lia.
      + exists (Library (held l) (ids_given l) (uniques_given l + 1)). split.
        * rewrite R3. apply unique; reflexivity.
        * unfold rep. cbn [dm_docs dm_next dm_unique held ids_given uniques_given with_docs]. split; [exact R1|lia].
  Qed.

  Lemma says_fun o l r1 l1 r2 l2 : says sv o l r1 l1 -> says sv o l r2 l2 ->
    r1 = r2 /\ (forall i, held l1 i = held l2 i) /\ ids_given l1 = ids_given l2 /\ uniques_given l1 = uniques_given l2.
  Proof.
    assert (U : forall l l1 l2 : library, unchanged l l1 -> unchanged l l2 ->
      (forall i, held l1 i = held l2 i) /\ ids_given l1 = ids_given l2 /\ uniques_given l1 = uniques_given l2).
    { intros a b c (P1 & P2 & P3) (Q1 & Q2 & Q3). split; [|split; congruence]. intros i. rewrite P1, Q1. reflexivity. }
    assert (RR : forall id d (l l1 l2 : library), replaced id d l l1 -> replaced id d l l2 ->
      (forall i, held l1 i = held l2 i) /\ ids_given l1 = ids_given l2 /\ uniques_given l1 = uniques_given l2).
    { intros id d a b c (P0 & P1 & P2 & P3) (Q0 & Q1 & Q2 & Q3). split; [|split; congruence]. intros i.
      destruct (Z.eq_dec i id) as [->|N]; [congruence|]. rewrite P1, Q1 by exact N. reflexivity. }
    intros H1 H2.
    destruct H1; inversion H2; subst; try congruence;
      try (match goal with H : makes sv _ _, K : makes sv _ _ |- _ => pose proof (makes_fun _ _ _ H K) as EE; try discriminate EE end);
      try (match goal with H : makes sv (Write _) _ |- _ => inversion H | H : makes sv (GetData _) _ |- _ => inversion H
           | H : makes sv (Destroy _) _ |- _ => inversion H | H : makes sv (GetDocument _) _ |- _ => inversion H | H : makes sv GetUniqueId _ |- _ => inversion H end; fail);
      try (split; [reflexivity|]; eapply U; eassumption);
      try (split; [congruence|]; eapply U; eassumption);
      try (split; [reflexivity|]; eapply RR; eassumption).
    - injection EE as <-. split; [reflexivity|]. split; [|split; congruence]. intros i.
      destruct (Z.eq_dec i (ids_given l + 1)) as [->|N]; [congruence|].
      repeat match goal with H : forall i, i <> ids_given l + 1 -> _ |- _ => rewrite (H i N); clear H end. reflexivity.
    - assert (EQ : t = t0) by congruence. subst t0. assert (EQ : x = x0) by congruence. subst x0. assert (EQ : t' = t'0) by congruence. subst t'0.
      split; [reflexivity|]. eapply RR; eassumption.
    - assert (EQ : t = t0) by congruence. subst t0. split; [reflexivity|]. eapply RR; eassumption.
    - split; [reflexivity|]. split; [|split; congruence]. intros i. congruence.
  Qed.
End P.
