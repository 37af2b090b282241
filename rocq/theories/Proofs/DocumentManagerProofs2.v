(** Histories of DocumentManager calls. *)
From Coq Require Import ZArith List Lia Bool Arith.
From Verif Require Import Proofs.Tac Model.Base Model.Text Model.Conversions Model.DocumentManager
  Spec.Scores Spec.Documents Proofs.ConversionsProofs Proofs.DocumentManagerProofs.
Import ListNotations.
Open Scope Z_scope.

Section P.
  Context {A M Hd V PI Input Data Output : Type} (sv : services A M Hd V PI Input Data Output).
  Local Notation doc := (document A M Hd V PI).
  Local Notation op := (op Input Data).
  Local Notation result := (result A M Hd V PI Data Output).
  Local Notation manager := (manager A M Hd V PI).
  Local Notation library := (@library A M Hd V PI).

  Lemma calls_length os : forall (s : manager) rs s', calls sv os s = Some (rs, s') -> List.length rs = List.length os.
  Proof.
    induction os as [|o os IH]; intros s rs s' H; cbn in H; [injection H as <- _; reflexivity|].
    destruct (call sv o s) as [r s1|]; [|discriminate]. destruct (calls sv os s1) as [[rs1 s2]|] eqn:E; [|discriminate].
    cbn in H. injection H as <- <-. cbn. f_equal. eapply IH. exact E.
  Qed.

  Lemma calls_app os1 os2 : forall (s : manager), calls sv (os1 ++ os2) s =
    match calls sv os1 s with
    | None => None
    | Some (r1, s1) => option_map (fun p => (r1 ++ fst p, snd p)) (calls sv os2 s1)
    end.
  Proof.
    induction os1 as [|o os IH]; intros s; cbn.
    - destruct (calls sv os2 s) as [[r2 s2]|]; reflexivity.
    - destruct (call sv o s) as [r s1|]; [|reflexivity]. rewrite IH. destruct (calls sv os s1) as [[r1 s2]|]; cbn; [|reflexivity].
      destruct (calls sv os2 s2) as [[r2 s3]|]; reflexivity.
  Qed.

  Lemma calls_legal os : forall (s : manager) l rs s', rep s l -> calls sv os s = Some (rs, s') ->
    exists l', legal sv l (combine os rs) l' /\ rep s' l'.
  Proof.
    induction os as [|o os IH]; intros s l rs s' R H; cbn in H.
    - injection H as <- <-. exists l. split; [constructor|exact R].
    - pose proof (call_refines sv o s l R) as C. destruct (call sv o s) as [r s1|]; [|discriminate].
      destruct C as (l1 & S1 & R1). destruct (calls sv os s1) as [[rs1 s2]|] eqn:E; [|discriminate]. cbn in H. injection H as <- <-.
      destruct (IH _ _ _ _ R1 E) as (l2 & L2 & R2). exists l2. split; [|exact R2]. cbn. econstructor; eassumption.
  Qed.

  (** A crash comes from an undefined call. *)
  Lemma calls_crash os : forall (s : manager) l, rep s l -> calls sv os s = None ->
    exists os1 o os2 rs l1, os = os1 ++ o :: os2 /\ legal sv l (combine os1 rs) l1 /\ undefined sv o l1.
  Proof.
    induction os as [|o os IH]; intros s l R H; cbn in H; [discriminate|].
    pose proof (call_refines sv o s l R) as C. destruct (call sv o s) as [r s1|].
    - destruct C as (l1 & S1 & R1). destruct (calls sv os s1) as [[rs1 s2]|] eqn:E; [discriminate|].
      destruct (IH _ _ R1 E) as (os1 & o1 & os2 & rs & l2 & E1 & L & U). exists (o :: os1), o1, os2, (r :: rs), l2.
      subst os. split; [reflexivity|]. split; [|exact U]. cbn. econstructor; eassumption.
    - exists [], o, os, [], l. split; [reflexivity|]. split; [constructor|exact C].
  Qed.

  (** Ids. *)
  Fixpoint upfrom (z : Z) (n : nat) : list Z := match n with O => [] | S n => z :: upfrom (z + 1) n end.

  Lemma upfrom_in n : forall z x, In x (upfrom z n) <-> z <= x < z + Z.of_nat n.
  Proof.
    induction n as [|n IH]; intros z x; cbn [upfrom In].
    - cbn. lia.
    - rewrite IH. lia.
  Qed.

  Lemma upfrom_nodup n : forall z, NoDup (upfrom z n).
  Proof.
    induction n as [|n IH]; intros z; cbn; constructor; [|apply IH]. rewrite upfrom_in. lia.
  Qed.

  Lemma upfrom_seq n : forall z, upfrom z n = map (fun k => z + Z.of_nat k) (seq 0 n).
  Proof.
    induction n as [|n IH]; intros z; cbn [upfrom seq map]; [reflexivity|]. f_equal; [lia|].
    rewrite IH, <- seq_shift, map_map. apply map_ext. intros k. lia.
  Qed.

  Lemma legal_ids h : forall l l', legal sv l h l' ->
    new_ids h = upfrom (ids_given l + 1) (List.length (new_ids h)) /\
    unique_ids h = upfrom (1000000 + uniques_given l) (List.length (unique_ids h)) /\
    ids_given l' = ids_given l + Z.of_nat (List.length (new_ids h)) /\
    uniques_given l' = uniques_given l + Z.of_nat (List.length (unique_ids h)).
  Proof.
    induction h as [|[o r] h IH]; intros l l' H; inversion H as [|? ? ? ? l1 ? S L]; subst.
    - cbn. split; [reflexivity|]. split; [reflexivity|]. lia.
    - destruct (IH _ _ L) as (I1 & I2 & I3 & I4). cbn [new_ids unique_ids flat_map].
      fold (new_ids h) (unique_ids h).
      assert (K : forall i u, ids_given l1 = ids_given l + Z.of_nat (List.length i) -> uniques_given l1 = uniques_given l + Z.of_nat (List.length u) ->
        i = upfrom (ids_given l + 1) (List.length i) -> u = upfrom (1000000 + uniques_given l) (List.length u) ->
        (List.length i <= 1)%nat -> (List.length u <= 1)%nat ->
        i ++ new_ids h = upfrom (ids_given l + 1) (List.length (i ++ new_ids h)) /\
        u ++ unique_ids h = upfrom (1000000 + uniques_given l) (List.length (u ++ unique_ids h)) /\
        ids_given l' = ids_given l + Z.of_nat (List.length (i ++ new_ids h)) /\
        uniques_given l' = uniques_given l + Z.of_nat (List.length (u ++ unique_ids h))).
      { clear - I1 I2 I3 I4. intros i u A1 A2 A3 A4 A5 A6. rewrite !app_length.
        assert (X : forall (z : Z) k j, upfrom z (k + j) = upfrom z k ++ upfrom (z + Z.of_nat k) j).
        { clear. intros z k. revert z. induction k as [|k IH]; intros z j; cbn [upfrom app Nat.add]; [f_equal; lia|]. rewrite IH. do 3 f_equal. lia. }
        rewrite !X, <- A3, <- A4. split; [f_equal; rewrite I1 at 1; f_equal; lia|]. split; [f_equal; rewrite I2 at 1; f_equal; lia|]. lia. }
      inversion S; subst; try (match goal with U : unchanged _ _ |- _ => destruct U as (_ & U1 & U2) end);
        try (match goal with U : replaced _ _ _ _ |- _ => destruct U as (_ & _ & U1 & U2) end);
        try (apply (K [] []); cbn; lia || reflexivity || (rewrite Z.add_0_r; assumption)).
      + assert (C : match o with CreateFromInput _ | CreateFromScore _ => True | _ => False end) by (inversion H0; exact I).
        destruct o; try contradiction; (apply (K [ids_given l + 1] []); cbn; try reflexivity; try lia).
      + assert (C : match o with CreateFromInput _ | CreateFromScore _ => True | _ => False end) by (inversion H0; exact I).
        destruct o; try contradiction; (apply (K [] []); cbn; try reflexivity; try lia).
      + apply (K [] [1000000 + uniques_given l]); cbn [List.length upfrom]; [lia|lia|reflexivity|reflexivity|lia|lia].
  Qed.

  Lemma history_ids os rs (s : manager) : calls sv os initial = Some (rs, s) ->
    new_ids (combine os rs) = map (fun k => 1 + Z.of_nat k) (seq 0 (List.length (new_ids (combine os rs)))) /\
    unique_ids (combine os rs) = map (fun k => 1000000 + Z.of_nat k) (seq 0 (List.length (unique_ids (combine os rs)))) /\
    NoDup (new_ids (combine os rs)) /\ NoDup (unique_ids (combine os rs)).
  Proof.
    intros H. destruct (calls_legal _ _ _ _ _ rep_initial H) as (l & L & _). apply legal_ids in L. cbn in L.
    destruct L as (H1 & H2 & _). rewrite <- !upfrom_seq. change (1000000 + 0) with 1000000 in H2. split; [exact H1|]. split; [exact H2|].
    split; [rewrite H1|rewrite H2]; apply upfrom_nodup.
  Qed.

  (** Isolation. *)
  Lemma says_other o (l : library) r l' i : says sv o l r l' -> about o <> Some i -> i <= ids_given l -> held l' i = held l i.
  Proof.
    intros S N Hi. inversion S; subst; cbn in N;
      try (match goal with U : unchanged _ _ |- _ => destruct U as (U0 & _); apply U0 end);
      try (match goal with U : replaced _ _ _ _ |- _ => destruct U as (_ & U0 & _); apply U0; congruence end).
    - match goal with H : forall i, i <> _ -> _ |- _ => apply H end. lia.
    - auto.
  Qed.

  Lemma call_other o (s : manager) r s' i : call sv o s = Returns r s' -> about o <> Some i -> i < dm_next s ->
    m_find i (dm_docs s') = m_find i (dm_docs s).
  Proof.
    intros C N Hi. pose proof (call_refines sv o s _ (rep_as s)) as K. rewrite C in K. destruct K as (l' & S & (R1 & _)).
    rewrite R1. rewrite (says_other _ _ _ _ _ S N); [reflexivity|]. cbn. lia.
  Qed.

  (** States that agree except on the document with id j. *)
  Definition agree (j : Z) (s s' : manager) : Prop :=
    dm_next s = dm_next s' /\ dm_unique s = dm_unique s' /\ (forall i, i <> j -> m_find i (dm_docs s) = m_find i (dm_docs s')).

  Lemma agree_docs j s s' m m' : agree j s s' -> (forall i, i <> j -> m_find i m = m_find i m') ->
    agree j (with_docs s m) (with_docs s' m').
  Proof. intros (A1 & A2 & _) H. unfold agree. cbn. auto. Qed.

  Lemma agree_set j s s' id d : agree j s s' -> forall i, i <> j -> m_find i (m_set id d (dm_docs s)) = m_find i (m_set id d (dm_docs s')).
  Proof.
    intros (_ & _ & H) i N. destruct (Z.eq_dec i id) as [->|N1]; [rewrite !find_set_same; reflexivity|].
    rewrite !find_set_other by exact N1. apply H. exact N.
  Qed.

  Lemma agree_call j s s' o r s1 : agree j s s' -> about o <> Some j -> call sv o s = Returns r s1 ->
    exists s1', call sv o s' = Returns r s1' /\ agree j s1 s1'.
  Proof.
    intros G N C. pose proof G as (A1 & A2 & A3).
    assert (ST : forall d, store (Data:=Data) (Output:=Output) d s = Returns r s1 -> exists s1', store d s' = Returns r s1' /\ agree j s1 s1').
    { intros d. unfold store. rewrite <- A1. destruct (dm_next s =? int_max); [discriminate|]. intros E. injection E as <- <-.
      eexists. split; [reflexivity|]. unfold agree. cbn. rewrite A2. split; [reflexivity|]. split; [reflexivity|]. apply agree_set. exact G. }
    destruct o as [i|d|id|id|id|id|]; cbn [call about] in *.
    - unfold createFromInput in *. destruct (sv_parse sv i); [apply ST; exact C| |discriminate]. injection C as <- <-. eauto.
    - unfold createFromScore in *. destruct (document_of_score sv d); [apply ST; exact C| |discriminate]. injection C as <- <-. eauto.
    - assert (ID : id <> j) by congruence. unfold write in *. rewrite <- (A3 id ID). destruct (m_find id (dm_docs s)) as [d|].
      + destruct (sv_save sv d); try discriminate; injection C as <- <-; eauto.
      + injection C as <- <-. eauto.
    - assert (ID : id <> j) by congruence. unfold getData in *. rewrite <- (A3 id ID). destruct (m_find id (dm_docs s)) as [[p|t]|].
      + destruct (sv_read sv p); try discriminate; injection C as <- <-; eauto.
      + assert (GS : forall d, agree j (with_docs s (m_set id d (dm_docs s))) (with_docs s' (m_set id d (dm_docs s')))).
        { intros d. apply agree_docs; [exact G|]. apply agree_set. exact G. }
        destruct (sv_read sv _); [|injection C as <- <-; eauto|discriminate].
        destruct (convertContents _ _ _); [|injection C as <- <-; eauto|discriminate]. injection C as <- <-.
        eexists. split; [reflexivity|]. apply agree_docs; [apply GS|]. exact (agree_set j _ _ id _ (GS _)).
      + injection C as <- <-. eauto.
    - assert (ID : id <> j) by congruence. unfold destroyDocument in *. rewrite <- (A3 id ID). destruct (m_find id (dm_docs s)).
      + injection C as <- <-. eexists. split; [reflexivity|]. apply agree_docs; [exact G|]. intros i Ni.
        destruct (Z.eq_dec i id) as [->|N1]; [rewrite !find_erase_same; reflexivity|]. rewrite !find_erase_other by exact N1. auto.
      + injection C as <- <-. eauto.
    - assert (ID : id <> j) by congruence. unfold getDocument in *. rewrite <- (A3 id ID). injection C as <- <-. eauto.
    - unfold getUniqueId in *. rewrite <- A2. destruct (dm_unique s =? int_max); [discriminate|]. injection C as <- <-.
      eexists. split; [reflexivity|]. unfold agree. cbn. auto.
  Qed.

  Lemma agree_sym j s s' : agree j s s' -> agree j s' s.
  Proof. intros (A1 & A2 & A3). unfold agree. split; [auto|]. split; [auto|]. intros i N. symmetry. auto. Qed.

  (** A call about j leaves everything else. *)
  Lemma about_agree j o (s : manager) r s1 : about o = Some j -> call sv o s = Returns r s1 -> agree j s s1.
  Proof.
    intros B C. pose proof (call_refines sv o s _ (rep_as s)) as K. rewrite C in K. destruct K as (l' & S & (R1 & R2 & R3)).
    assert (D : ids_given l' = dm_next s - 1 /\ uniques_given l' = dm_unique s - 1000000 /\ forall i, i <> j -> held l' i = m_find i (dm_docs s)).
    { inversion S; subst; cbn in B; try discriminate; try (injection B as ->);
      try (match goal with U : unchanged _ _ |- _ => destruct U as (U0 & U1 & U2); cbn [as_library held ids_given uniques_given] in *; split; [exact U1|]; split; [exact U2|]; intros i _; apply U0 end);
      try (match goal with U : replaced _ _ _ _ |- _ => destruct U as (_ & U0 & U1 & U2); cbn [as_library held ids_given uniques_given] in *; split; [exact U1|]; split; [exact U2|]; intros i N; apply U0; exact N end).
      match goal with U : makes _ _ _ |- _ => inversion U; subst; discriminate end. }
    destruct D as (D1 & D2 & D3). unfold agree. split; [lia|]. split; [lia|]. intros i N. rewrite R1. symmetry. apply D3. exact N.
  Qed.

  Lemma calls_agree j os : forall (s s' : manager) rs1 rs2 e1 e2, agree j s s' ->
    calls sv os s = Some (rs1, e1) -> calls sv os s' = Some (rs2, e2) ->
    agree j e1 e2 /\ forall k o, nth_error os k = Some o -> about o <> Some j -> nth_error rs1 k = nth_error rs2 k.
  Proof.
    induction os as [|o os IH]; intros s s' rs1 rs2 e1 e2 G H1 H2; cbn in H1, H2.
    - injection H1 as <- <-. injection H2 as <- <-. split; [exact G|]. intros k o _ _. destruct k; reflexivity.
    - destruct (call sv o s) as [r1 s1|] eqn:C1; [|discriminate]. destruct (call sv o s') as [r2 s2|] eqn:C2; [|discriminate].
      destruct (calls sv os s1) as [[q1 f1]|] eqn:E1; [|discriminate]. destruct (calls sv os s2) as [[q2 f2]|] eqn:E2; [|discriminate].
      cbn in H1, H2. injection H1 as <- <-. injection H2 as <- <-.
      assert (X : agree j s1 s2 /\ (about o <> Some j -> r1 = r2)).
      { destruct (about o) as [i|] eqn:B; [destruct (Z.eq_dec i j) as [->|N]|].
        - pose proof (about_agree j o s r1 s1 B C1) as P1. pose proof (about_agree j o s' r2 s2 B C2) as P2. split; [|congruence].
          destruct G as (G1 & G2 & G3), P1 as (P11 & P12 & P13), P2 as (P21 & P22 & P23). unfold agree.
          split; [congruence|]. split; [congruence|]. intros x Nx. rewrite <- (P13 x Nx), <- (P23 x Nx). auto.
        - destruct (agree_call j s s' o r1 s1 G) as (s1' & C3 & G1); [rewrite B; congruence|exact C1|].
          rewrite C2 in C3. injection C3 as -> ->. auto.
        - destruct (agree_call j s s' o r1 s1 G) as (s1' & C3 & G1); [rewrite B; congruence|exact C1|].
          rewrite C2 in C3. injection C3 as -> ->. auto. }
      destruct X as (X1 & X2). destruct (IH _ _ _ _ _ _ X1 E1 E2) as (I1 & I2). split; [exact I1|].
      intros [|k] p Hk Hp; cbn in *; [injection Hk as <-; f_equal; auto|]. eapply I2; eassumption.
  Qed.

  Lemma noninterference j o h1 h2 r1 x r2 s q1 q2 s' : about o = Some j ->
    calls sv (h1 ++ o :: h2) initial = Some (r1 ++ x :: r2, s) -> List.length r1 = List.length h1 ->
    calls sv (h1 ++ h2) initial = Some (q1 ++ q2, s') -> List.length q1 = List.length h1 ->
    r1 = q1 /\ (forall k p, nth_error h2 k = Some p -> about p <> Some j -> nth_error r2 k = nth_error q2 k) /\
    (forall i, i <> j -> m_find i (dm_docs s) = m_find i (dm_docs s')).
  Proof.
    intros B H1 L1 H2 L2. rewrite calls_app in H1, H2. destruct (calls sv h1 initial) as [[r s1]|] eqn:E; [|discriminate].
    pose proof (calls_length _ _ _ _ E) as L. cbn [calls] in H1. destruct (call sv o s1) as [y s2|] eqn:C; [|discriminate].
    destruct (calls sv h2 s2) as [[r3 s3]|] eqn:E2; [|discriminate]. destruct (calls sv h2 s1) as [[q3 s4]|] eqn:E3; [|discriminate].
    cbn in H1, H2. injection H1 as H11 <-. injection H2 as H21 <-.
    assert (SPLIT : forall (X : Type) (a b c d : list X), a ++ b = c ++ d -> List.length a = List.length c -> a = c /\ b = d).
    { clear. intros X a. induction a as [|v a IH]; intros b [|w c] d HE HL; cbn in *; try discriminate; [auto|].
      injection HE as -> HE. destruct (IH _ _ _ HE) as (-> & ->); [lia|]. auto. }
    apply SPLIT in H11; [|congruence]. apply SPLIT in H21; [|congruence]. destruct H11 as (<- & H11). destruct H21 as (<- & <-).
    injection H11 as <- <-. split; [reflexivity|].
    pose proof (about_agree j o s1 y s2 B C) as G. apply agree_sym in G.
    destruct (calls_agree j h2 s2 s1 _ _ _ _ G E2 E3) as (G1 & K). split; [exact K|]. destruct G1 as (_ & _ & G1). exact G1.
  Qed.

  (** Calls that change nothing. *)
  Lemma read_only o (s : manager) r s' : call sv o s = Returns r s' ->
    (match o with Write _ => True | GetDocument _ => True
     | GetData id => match m_find id (dm_docs s) with Some (Timewise _) => False | _ => True end | _ => False end) -> s' = s.
  Proof.
    destruct o as [i|d|id|id|id|id|]; cbn [call]; try contradiction; intros C H.
    - unfold write in C. destruct (m_find id (dm_docs s)); [destruct (sv_save sv d); try discriminate|]; injection C as _ <-; reflexivity.
    - unfold getData in C. destruct (m_find id (dm_docs s)) as [[p|t]|]; [destruct (sv_read sv p); try discriminate|contradiction|]; injection C as _ <-; reflexivity.
    - injection C as _ <-. reflexivity.
  Qed.

  Lemma timewise_read_ok id (s : manager) t r s' : m_find id (dm_docs s) = Some (Timewise t) ->
    rectangular_tw t -> plain_tw t -> (forall m, In m (tw_measures t) -> map tp_id (tm_parts m) = listed (tw_header t)) ->
    call sv (GetData id) s = Returns r s' -> r <> RThrow ->
    (forall i, m_find i (dm_docs s') = m_find i (dm_docs s)) /\ dm_next s' = dm_next s /\ dm_unique s' = dm_unique s.
  Proof.
    intros F R PT O C NT. cbn [call] in C. unfold getData in C. rewrite F in C.
    destruct (sv_read sv _); [|injection C as <- _; congruence|discriminate]. cbn [convertContents] in C.
    rewrite (reverse_round_trip_exact _ _ t R PT O) in C. cbn [omap obind] in C. injection C as _ <-. cbn.
    split; [|auto]. intros i. destruct (Z.eq_dec i id) as [->|N]; [rewrite find_set_same; auto|]. rewrite !find_set_other by exact N. reflexivity.
  Qed.

  Lemma unknown_neutral o id (s : manager) : about o = Some id -> m_find id (dm_docs s) = None -> call sv o s = Returns (neutral sv o) s.
  Proof.
    destruct o; cbn; intros B; try discriminate; injection B as ->; intros F; unfold write, getData, destroyDocument, getDocument; rewrite F; reflexivity.
  Qed.

  (** Destroyed documents stay unknown. *)
  Lemma legal_gone h : forall (l l' : library) id, legal sv l h l' -> held l id = None -> id <= ids_given l -> held l' id = None /\ id <= ids_given l'.
  Proof.
    induction h as [|[o r] h IH]; intros l l' id L H B; inversion L as [|? ? ? ? l1 ? S L1]; subst; [auto|].
    assert (MONO : ids_given l <= ids_given l1).
    { inversion S; subst; try (match goal with U : unchanged _ _ |- _ => destruct U as (_ & U1 & U2) end);
        try (match goal with U : replaced _ _ _ _ |- _ => destruct U as (_ & _ & U1 & U2) end); lia. }
    apply (IH l1 l' id L1); [|lia].
    destruct (about o) as [i|] eqn:E; [destruct (Z.eq_dec i id) as [->|N]|].
    - inversion S; subst; cbn in E; try discriminate; try (injection E as ->); try congruence;
        try (match goal with U : unchanged _ _ |- _ => destruct U as (U0 & _); rewrite U0; assumption end).
      + match goal with U : makes _ _ _ |- _ => inversion U; subst; discriminate end.
      + match goal with U : replaced _ _ _ _ |- _ => destruct U as (U0 & _); exact U0 end.
    - rewrite (says_other _ _ _ _ _ S); [exact H|congruence|exact B].
    - rewrite (says_other _ _ _ _ _ S); [exact H|congruence|exact B].
  Qed.

  Lemma destroyed_forever h1 id h2 rs (s : manager) o : calls sv (h1 ++ Destroy id :: h2) initial = Some (rs, s) ->
    In id (new_ids (combine h1 rs)) -> about o = Some id -> call sv o s = Returns (neutral sv o) s.
  Proof.
    intros H I B. apply (unknown_neutral o id); [exact B|].
    replace (h1 ++ Destroy id :: h2) with ((h1 ++ [Destroy id]) ++ h2) in H by (rewrite <- app_assoc; reflexivity).
    rewrite calls_app in H. destruct (calls sv (h1 ++ [Destroy id]) initial) as [[r1 s1]|] eqn:E; [|discriminate].
    destruct (calls sv h2 s1) as [[r2 s2]|] eqn:E2; [|discriminate]. cbn in H. injection H as <- <-.
    rewrite calls_app in E. destruct (calls sv h1 initial) as [[r0 s0]|] eqn:E0; [|discriminate].
    pose proof (calls_length _ _ _ _ E0) as L0.
    destruct (calls_legal _ _ _ _ _ rep_initial E0) as (l0 & LE0 & R0).
    assert (CI : combine h1 ((r1 ++ r2)) = combine h1 r0).
    { destruct (calls sv [Destroy id] s0) as [[rd sd]|]; [|discriminate]. cbn in E. injection E as <- _.
      rewrite <- !app_assoc. clear - L0. revert r0 L0. induction h1 as [|x h IH]; intros [|y r0] L; cbn in *; try discriminate; [reflexivity|]. f_equal. apply IH. lia. }
    rewrite CI in I. apply legal_ids in LE0. destruct LE0 as (I1 & _ & I3 & _). cbn in I1, I3. rewrite I1 in I. apply upfrom_in in I.
    pose proof R0 as (_ & N0 & _).
    assert (GONE : m_find id (dm_docs s1) = None /\ dm_next s1 = dm_next s0).
    { cbn [calls call] in E. unfold destroyDocument in E. destruct (m_find id (dm_docs s0)) eqn:F; cbn in E; injection E as _ <-; [|auto].
      cbn. split; [apply find_erase_same|reflexivity]. }
    destruct GONE as (G1 & G2).
    destruct (calls_legal _ _ _ _ _ (rep_as s1) E2) as (l2 & LE2 & R2). destruct R2 as (R2 & _). rewrite R2.
    apply (legal_gone _ _ _ id LE2); cbn; [exact G1|lia].
  Qed.

  (** A document stays what it was made. *)
  Lemma document_stays h : forall (s s' : manager) rs id d, calls sv h s = Some (rs, s') -> m_find id (dm_docs s) = Some d -> id < dm_next s ->
    (forall o, In o h -> o <> Destroy id) ->
    (match d with Timewise _ => forall o, In o h -> o <> GetData id | Partwise _ => True end) -> m_find id (dm_docs s') = Some d.
  Proof.
    induction h as [|o h IH]; intros s s' rs id d H F B N1 N2; cbn in H; [injection H as _ <-; exact F|].
    destruct (call sv o s) as [r s1|] eqn:C; [|discriminate]. destruct (calls sv h s1) as [[r1 s2]|] eqn:E; [|discriminate].
    cbn in H. injection H as _ <-.
    assert (MONO : dm_next s <= dm_next s1).
    { pose proof (call_refines sv o s _ (rep_as s)) as K. rewrite C in K. destruct K as (l' & S & (_ & R2 & _)).
      inversion S; subst; try (match goal with U : unchanged _ _ |- _ => destruct U as (_ & U1 & U2) end);
        try (match goal with U : replaced _ _ _ _ |- _ => destruct U as (_ & _ & U1 & U2) end); cbn [as_library held ids_given uniques_given] in *; lia. }
    apply (IH s1 s2 r1 id d E); [|lia|intros x Hx; apply N1; right; exact Hx|].
    - destruct (about o) as [i|] eqn:EA; [destruct (Z.eq_dec i id) as [->|N]|].
      + assert (s1 = s); [|subst; exact F]. apply (read_only o s r s1 C).
        destruct o; cbn in EA; try discriminate; injection EA as ->; try exact I.
        * rewrite F. destruct d; [exact I|]. exfalso. apply (N2 (GetData id)); [left; reflexivity|reflexivity].
        * exfalso. apply (N1 (Destroy id)); [left; reflexivity|reflexivity].
      + rewrite (call_other _ _ _ _ _ C); [exact F|congruence|exact B].
      + rewrite (call_other _ _ _ _ _ C); [exact F|congruence|exact B].
    - destruct d; [exact I|]. intros x Hx. apply N2. right. exact Hx.
  Qed.

  (** A failing getData. *)
  Lemma failing_read id (s : manager) s' : call sv (GetData id) s = Returns RThrow s' ->
    (s' = s /\ exists p, m_find id (dm_docs s) = Some (Partwise p)) \/
    (exists t, m_find id (dm_docs s) = Some (Timewise t) /\ m_find id (dm_docs s') = Some (Partwise (timewisePartwise (sv_attrs sv) (sv_music sv) t)) /\
      forall i, i <> id -> m_find i (dm_docs s') = m_find i (dm_docs s)).
  Proof.
    cbn [call]. unfold getData. destruct (m_find id (dm_docs s)) as [[p|t]|] eqn:F; [| |discriminate].
    - destruct (sv_read sv p); try discriminate. intros H. injection H as <-. left. eauto.
    - destruct (sv_read sv _); try discriminate.
      + cbn [convertContents]. destruct (back_never_fails sv t) as (t' & E). rewrite E. cbn. discriminate.
      + intros H. injection H as <-. right. exists t. split; [reflexivity|]. cbn. split; [apply find_set_same|].
        intros i N. apply find_set_other. exact N.
  Qed.
End P.
