(** DocumentManager called by many threads. *)
From Coq Require Import ZArith List Lia Bool Arith Permutation.
From Verif Require Import Proofs.Tac Model.Base Model.Text Model.Conversions Model.DocumentManager
  Spec.Scores Spec.Documents Spec.Linearizable Proofs.ConversionsProofs Proofs.DocumentManagerProofs Proofs.DocumentManagerProofs2.
Import ListNotations.

Section P.
  Context {A M Hd V PI Input Data Output : Type} (sv : services A M Hd V PI Input Data Output).
  Local Notation doc := (document A M Hd V PI).
  Local Notation op := (op Input Data).
  Local Notation result := (result A M Hd V PI Data Output).
  Local Notation manager := (manager A M Hd V PI).
  Local Notation library := (@library A M Hd V PI).
  Local Notation config := (@config A M Hd V PI Input Data Output).
  Local Notation locals := (@locals A M Hd V PI Data Output).
  Local Notation instr := (@instr A M Hd V PI Input Data Output).
  Local Notation point := (point op result).
  Local Notation phase := (phase op result).

  Lemma code_alone o s : finish sv (code sv o) no_locals s = call sv o s.
  Proof.
    destruct o as [i|d|id|id|id|id|]; cbn [code finish exec call].
    - unfold createFromInput. destruct (sv_parse sv i) as [d| |]; cbn; [|reflexivity|reflexivity].
      unfold store. cbn. destruct (Z.eqb (dm_next s) int_max); reflexivity.
    - unfold createFromScore. destruct (document_of_score sv d) as [x| |]; cbn; [|reflexivity|reflexivity].
      unfold store. cbn. destruct (Z.eqb (dm_next s) int_max); reflexivity.
    - unfold write. destruct (m_find id (dm_docs s)) as [d|] eqn:F; [|reflexivity].
      rewrite F. destruct (sv_save sv d); reflexivity.
    - unfold getData. destruct (m_find id (dm_docs s)) as [[p|t]|] eqn:F; cbn [no_locals l_doc l_was l_score l_result]; [| |reflexivity].
      + rewrite !F. destruct (sv_read sv p) as [x| |]; cbn; rewrite ?F; reflexivity.
      + rewrite F. cbn [with_docs dm_docs]. rewrite find_set_same. destruct (sv_read sv _) as [x| |]; cbn [l_doc l_was l_score l_result dm_docs with_docs]; [|reflexivity|reflexivity].
        rewrite find_set_same. destruct (convertContents (sv_attrs sv) (sv_music sv) (Partwise _)) as [d| |]; reflexivity.
    - unfold destroyDocument. destruct (m_find id (dm_docs s)) eqn:F; reflexivity.
    - unfold getDocument. destruct (m_find id (dm_docs s)) eqn:F; cbn; rewrite ?F; reflexivity.
    - unfold getUniqueId. cbn. destruct (Z.eqb (dm_unique s) int_max); reflexivity.
  Qed.

  (** Steps that need no lock and do not see the shared state. *)
  Definition local_step (i : instr) : Prop := match i with IParse _ => True | IWriteScore _ => True | _ => False end.
  Definition inner (i : instr) : Prop := match i with ILock => False | IUnlock => False | _ => True end.
  (** Rest of a call: inside the critical section, or before it. *)
  Definition inside (is : list instr) : Prop := exists b, is = b ++ [IUnlock] /\ Forall inner b.
  Inductive ahead : list instr -> Prop :=
  | ahead_lock b : inside b -> ahead (ILock :: b)
  | ahead_local i b : local_step i -> ahead b -> ahead (i :: b).

  Lemma code_ahead o : ahead (code sv o).
  Proof.
    destruct o as [i|d|id|id|id|id|]; cbn [code];
      repeat (apply ahead_local; [exact I|]); apply ahead_lock; red.
    1,2: exists [IStore; ITakeId; IIncId].
    3: exists [IFindOr id RNothing; ISave id].
    4: exists [IFindOr id (RData (sv_no_data sv)); IConvert id; IRead id; IConvertBack id].
    5: exists [IFindOr id RNothing; IErase id].
    6: exists [IFindOr id (RDoc None); IFetch id].
    7: exists [ITakeUnique; IIncUnique].
    all: split; [reflexivity|]; repeat constructor.
  Qed.

  Lemma finish_nil b : forall l s, finish sv (b ++ [IUnlock]) l s = finish sv b l s.
  Proof. induction b as [|i b IH]; intros l s; cbn; [reflexivity|]. destruct (exec sv i s l); [apply IH|reflexivity|reflexivity]. Qed.


  (** Where thread u is. *)
  Definition at_phase (c : config) (base : manager) (u : nat) (ph : phase) : Prop :=
    match t_now (c_threads c u) with
    | None => ph = Idle /\ c_owner c <> Some u
    | Some (Activation o rest l) =>
        (ph = Called o /\ c_owner c = Some u /\ inside rest /\ finish sv rest l (c_state c) = call sv o base) \/
        (ph = Called o /\ c_owner c <> Some u /\ ahead rest /\ forall s, finish sv rest l s = call sv o s) \/
        (ph = Took o (l_result l) /\ c_owner c <> Some u /\ rest = [])
    end.


  Record good (prog : nat -> list op) (c : config) (h : list point) (base : manager) : Prop := {
    g_obs : observed h = map to_point (c_trace c);
    g_calls : calls sv (map fst (effects h)) initial = Some (map snd (effects h), base);
    g_free : c_owner c = None -> c_state c = base;
    g_prog : forall u, invoked u h ++ t_todo (c_threads c u) = prog u;
    g_thread : forall u, exists ph, thread_run (of_thread u h) ph /\ at_phase c base u ph
  }.

  Lemma of_thread_app u (h : list point) (p : point) : of_thread u (h ++ [p]) = of_thread u h ++ (if Nat.eqb (thread_of p) u then [p] else []).
  Proof. unfold of_thread. rewrite filter_app. cbn. destruct (Nat.eqb _ u); reflexivity. Qed.
  Lemma effects_app (h k : list point) : effects (h ++ k) = effects h ++ effects k.
  Proof. unfold effects. apply flat_map_app. Qed.
  Lemma observed_app (h k : list point) : observed (h ++ k) = observed h ++ observed k.
  Proof. unfold observed. apply filter_app. Qed.
  Lemma invoked_app u (h k : list point) : invoked u (h ++ k) = invoked u h ++ invoked u k.
  Proof. unfold invoked. apply flat_map_app. Qed.

  Lemma upd_same f t x : upd f t x t = x :> (@thread A M Hd V PI Input Data Output).
  Proof. unfold upd. rewrite Nat.eqb_refl. reflexivity. Qed.
  Lemma upd_other f t x u : u <> t -> upd f t x u = f u :> (@thread A M Hd V PI Input Data Output).
  Proof. intros N. unfold upd. destruct (Nat.eqb_spec u t); [congruence|reflexivity]. Qed.

  Lemma calls_snoc h o r base s' : calls sv (map fst h) initial = Some (map snd h, base) -> call sv o base = Returns r s' ->
    calls sv (map fst (h ++ [(o, r)])) initial = Some (map snd (h ++ [(o, r)]), s').
  Proof.
    intros H C. rewrite !map_app, calls_app, H. cbn [map fst snd calls]. rewrite C. reflexivity.
  Qed.

  Lemma start_good prog : good prog (start prog) [] initial.
  Proof.
    constructor; cbn; try reflexivity. intros u. exists Idle. split; [constructor|]. unfold at_phase. cbn. split; [reflexivity|discriminate].
  Qed.

  (** Other threads do not notice a step of t that keeps the owner and either keeps the
      state or is made by the owner. *)
  Lemma other_phase c c' base base' t u ph : u <> t -> c_threads c' u = c_threads c u ->
    (c_owner c' = Some u <-> c_owner c = Some u) -> (c_owner c = Some u -> c_state c' = c_state c /\ base' = base) ->
    at_phase c base u ph -> at_phase c' base' u ph.
  Proof.
    intros N E O S. unfold at_phase. rewrite E. destruct (t_now (c_threads c u)) as [[o rest l]|].
    - intros [(H1 & H2 & H3 & H4)|[(H1 & H2 & H3)|(H1 & H2 & H3)]].
      + left. destruct (S H2) as (-> & ->). split; [exact H1|]. split; [apply O; exact H2|]. split; assumption.
      + right. left. split; [exact H1|]. split; [intros K; apply H2, O, K|exact H3].
      + right. right. split; [exact H1|]. split; [intros K; apply H2, O, K|exact H3].
    - intros (H1 & H2). split; [exact H1|]. intros K. apply H2, O, K.
  Qed.

  Lemma in_inside i rest : inside (i :: rest) -> (i = IUnlock /\ rest = []) \/ (inner i /\ inside rest).
  Proof.
    intros (b & E & F). destruct b as [|j b]; cbn in E.
    - injection E as -> ->. left. auto.
    - injection E as -> ->. inversion F; subst. right. split; [assumption|]. exists b. auto.
  Qed.

  Lemma move_good prog c h base t : good prog c h base ->
    match move sv t c with
    | Blocked => True
    | Moved c' => exists h' base', good prog c' h' base'
    | Crashed => exists o, call sv o base = Crash
    end.
  Proof.
    intros G. destruct G as [GO GC GF GP GT]. unfold move. destruct (GT t) as (ph & RUN & AT). unfold at_phase in AT.
    destruct (c_threads c t) as [now todo] eqn:ET. cbn [t_now t_todo] in *.
    destruct now as [[o rest l]|].
    - destruct AT as [(H1 & H2 & H3 & H4)|[(H1 & H2 & H3 & H4)|(H1 & H2 & H3)]].
      + (* holds the lock *)
        destruct rest as [|i rest]; [destruct H3 as (b & E & _); destruct b; discriminate|].
        assert (NOT : forall u, u <> t -> c_owner c <> Some u) by (intros u N K; congruence).
        destruct (in_inside _ _ H3) as [(-> & ->)|(IN & INS)].
        * (* release: the effect *)
          cbn in H4. symmetry in H4. exists (h ++ [Effect t o (l_result l)]), (c_state c). constructor; cbn [c_trace c_state c_owner c_threads].
          -- rewrite observed_app. cbn. rewrite app_nil_r. exact GO.
          -- rewrite effects_app. cbn [effects flat_map app]. eapply calls_snoc; [exact GC|exact H4].
          -- auto.
          -- intros u. rewrite invoked_app. cbn. rewrite app_nil_r. destruct (Nat.eq_dec u t) as [->|N]; [rewrite upd_same; cbn; specialize (GP t); rewrite ET in GP; exact GP|rewrite upd_other by exact N; apply GP].
          -- intros u. rewrite of_thread_app. cbn [thread_of]. destruct (Nat.eq_dec u t) as [->|N].
             ++ rewrite Nat.eqb_refl. exists (Took o (l_result l)). split; [apply run_effect; subst ph; exact RUN|].
                unfold at_phase. cbn [c_threads c_owner c_state]. rewrite upd_same. cbn. right. right. split; [reflexivity|]. split; [discriminate|reflexivity].
             ++ destruct (Nat.eqb_spec t u); [congruence|]. rewrite app_nil_r. destruct (GT u) as (ph' & RU & AU). exists ph'. split; [exact RU|].
                eapply (other_phase c _ base _ t u ph'); [exact N|cbn; apply upd_other; exact N| | |exact AU].
                ** cbn. split; [discriminate|intros K; exfalso; exact (NOT u N K)].
                ** intros K. exfalso. exact (NOT u N K).
        * (* a step inside *)
          assert (STEP : forall rest' l' s', inside rest' -> finish sv rest' l' s' = call sv o base ->
            exists h' base', good prog (Config s' (c_owner c) (upd (c_threads c) t (Thread (Some (Activation o rest' l')) todo)) (c_trace c)) h' base').
          { intros rest' l' s' I1 F1. exists h, base. constructor; cbn [c_trace c_state c_owner c_threads]; [exact GO|exact GC|congruence| |].
            - intros u. destruct (Nat.eq_dec u t) as [->|N]; [rewrite upd_same; cbn; specialize (GP t); rewrite ET in GP; exact GP|rewrite upd_other by exact N; apply GP].
            - intros u. destruct (Nat.eq_dec u t) as [->|N].
              + exists (Called o). split; [subst ph; exact RUN|]. unfold at_phase. cbn [c_threads c_owner c_state]. rewrite upd_same. cbn. left. auto.
              + destruct (GT u) as (ph' & RU & AU). exists ph'. split; [exact RU|].
                eapply (other_phase c _ base _ t u ph'); [exact N|cbn; apply upd_other; exact N|reflexivity| |exact AU].
                intros K. exfalso. exact (NOT u N K). }
          assert (OWN : owned_by t (c_owner c) = true) by (rewrite H2; cbn; apply Nat.eqb_refl).
          cbn [finish] in H4.
          assert (GOAL : match match exec sv i (c_state c) l with
              | Next s1 l1 => Moved (Config s1 (c_owner c) (upd (c_threads c) t (Thread (Some (Activation o rest l1)) todo)) (c_trace c))
              | Leave s1 l1 => Moved (Config s1 (c_owner c) (upd (c_threads c) t (Thread (Some (Activation o (if owned_by t (c_owner c) then [IUnlock] else []) l1)) todo)) (c_trace c))
              | Boom => Crashed end with
              | Blocked => True | Moved c' => exists h' base', good prog c' h' base' | Crashed => exists o, call sv o base = Crash end).
          { destruct (exec sv i (c_state c) l) as [s1 l1|s1 l1|].
            - apply STEP; assumption.
            - rewrite OWN. apply STEP; [exists []; split; [reflexivity|constructor]|exact H4].
            - exists o. congruence. }
          destruct i; try contradiction; exact GOAL.
      + (* before the lock *)
        inversion H3 as [b INS|i b LOC AH]; subst rest.
        * destruct (c_owner c) as [v|] eqn:EO; [exact I|]. cbn [finish exec] in H4.
          exists h, base. constructor; cbn [c_trace c_state c_owner c_threads]; [exact GO|exact GC|discriminate| |].
          -- intros u. destruct (Nat.eq_dec u t) as [->|N]; [rewrite upd_same; cbn; specialize (GP t); rewrite ET in GP; exact GP|rewrite upd_other by exact N; apply GP].
          -- intros u. destruct (Nat.eq_dec u t) as [->|N].
             ++ exists (Called o). split; [subst ph; exact RUN|]. unfold at_phase. cbn [c_threads c_owner c_state]. rewrite upd_same. cbn. left.
                split; [reflexivity|]. split; [reflexivity|]. split; [exact INS|]. rewrite (GF eq_refl). apply H4.
             ++ destruct (GT u) as (ph' & RU & AU). exists ph'. split; [exact RU|].
                eapply (other_phase c _ base _ t u ph'); [exact N|cbn; apply upd_other; exact N| | |exact AU].
                ** cbn. rewrite EO. split; [congruence|discriminate].
                ** rewrite EO. discriminate.
        * assert (NEXT : forall b' l', ahead b' -> (forall s, finish sv b' l' s = call sv o s) ->
            exists h' base', good prog (Config (c_state c) (c_owner c) (upd (c_threads c) t (Thread (Some (Activation o b' l')) todo)) (c_trace c)) h' base').
          { intros b' l' A1 F1. exists h, base. constructor; cbn [c_trace c_state c_owner c_threads]; [exact GO|exact GC|exact GF| |].
            - intros u. destruct (Nat.eq_dec u t) as [->|N]; [rewrite upd_same; cbn; specialize (GP t); rewrite ET in GP; exact GP|rewrite upd_other by exact N; apply GP].
            - intros u. destruct (Nat.eq_dec u t) as [->|N].
              + exists (Called o). split; [subst ph; exact RUN|]. unfold at_phase. cbn [c_threads c_owner c_state]. rewrite upd_same. cbn. right. left. auto.
              + destruct (GT u) as (ph' & RU & AU). exists ph'. split; [exact RU|].
                eapply (other_phase c _ base _ t u ph'); [exact N|cbn; apply upd_other; exact N|reflexivity|auto|exact AU]. }
          assert (OUT : forall l', call sv o base = Returns (l_result l') base ->
            exists h' base', good prog (Config (c_state c) (c_owner c) (upd (c_threads c) t (Thread (Some (Activation o [] l')) todo)) (c_trace c)) h' base').
          { intros l' C1. exists (h ++ [Effect t o (l_result l')]), base. constructor; cbn [c_trace c_state c_owner c_threads].
            - rewrite observed_app. cbn. rewrite app_nil_r. exact GO.
            - rewrite effects_app. cbn [effects flat_map app]. eapply calls_snoc; [exact GC|exact C1].
            - exact GF.
            - intros u. rewrite invoked_app. cbn. rewrite app_nil_r. destruct (Nat.eq_dec u t) as [->|N]; [rewrite upd_same; cbn; specialize (GP t); rewrite ET in GP; exact GP|rewrite upd_other by exact N; apply GP].
            - intros u. rewrite of_thread_app. cbn [thread_of]. destruct (Nat.eq_dec u t) as [->|N].
              + rewrite Nat.eqb_refl. exists (Took o (l_result l')). split; [apply run_effect; subst ph; exact RUN|].
                unfold at_phase. cbn [c_threads c_owner c_state]. rewrite upd_same. cbn. right. right. auto.
              + destruct (Nat.eqb_spec t u); [congruence|]. rewrite app_nil_r. destruct (GT u) as (ph' & RU & AU). exists ph'. split; [exact RU|].
                eapply (other_phase c _ base _ t u ph'); [exact N|cbn; apply upd_other; exact N|reflexivity|auto|exact AU]. }
          assert (OWN : owned_by t (c_owner c) = false).
          { unfold owned_by. destruct (c_owner c) as [v|]; [|reflexivity]. destruct (Nat.eqb_spec v t); [subst; congruence|reflexivity]. }
          cbn [finish] in H4.
          destruct i; try contradiction; cbn [exec] in *; rewrite OWN.
          -- destruct (sv_parse sv i) as [d| |].
             ++ apply NEXT; assumption.
             ++ apply OUT. symmetry. apply H4.
             ++ exists o. symmetry. apply H4.
          -- destruct (document_of_score sv d) as [x| |].
             ++ apply NEXT; assumption.
             ++ apply OUT. symmetry. apply H4.
             ++ exists o. symmetry. apply H4.
      + (* returns *)
        subst rest. exists (h ++ [Ret t o (l_result l)]), base. constructor; cbn [c_trace c_state c_owner c_threads].
        * rewrite observed_app, map_app. cbn. f_equal. exact GO.
        * rewrite effects_app. cbn. rewrite app_nil_r. exact GC.
        * exact GF.
        * intros u. rewrite invoked_app. cbn. rewrite app_nil_r. destruct (Nat.eq_dec u t) as [->|N]; [rewrite upd_same; cbn; specialize (GP t); rewrite ET in GP; exact GP|rewrite upd_other by exact N; apply GP].
        * intros u. rewrite of_thread_app. cbn [thread_of]. destruct (Nat.eq_dec u t) as [->|N].
          -- rewrite Nat.eqb_refl. exists Idle. split; [apply run_ret; subst ph; exact RUN|].
             unfold at_phase. cbn [c_threads c_owner c_state]. rewrite upd_same. cbn. auto.
          -- destruct (Nat.eqb_spec t u); [congruence|]. rewrite app_nil_r. destruct (GT u) as (ph' & RU & AU). exists ph'. split; [exact RU|].
             eapply (other_phase c _ base _ t u ph'); [exact N|cbn; apply upd_other; exact N|reflexivity|auto|exact AU].
    - (* next call *)
      destruct AT as (H1 & H2). destruct todo as [|o todo]; [exact I|].
      exists (h ++ [Call t o]), base. constructor; cbn [c_trace c_state c_owner c_threads].
      + rewrite observed_app, map_app. cbn. f_equal. exact GO.
      + rewrite effects_app. cbn. rewrite app_nil_r. exact GC.
      + exact GF.
      + intros u. rewrite invoked_app. cbn. destruct (Nat.eq_dec u t) as [->|N].
        * rewrite upd_same, Nat.eqb_refl. cbn. rewrite <- app_assoc. cbn. specialize (GP t). rewrite ET in GP. exact GP.
        * rewrite upd_other by exact N. destruct (Nat.eqb_spec t u); [congruence|]. cbn. rewrite app_nil_r. apply GP.
      + intros u. rewrite of_thread_app. cbn [thread_of]. destruct (Nat.eq_dec u t) as [->|N].
        * rewrite Nat.eqb_refl. exists (Called o). split; [apply run_call; subst ph; exact RUN|].
          unfold at_phase. cbn [c_threads c_owner c_state]. rewrite upd_same. cbn. right. left. split; [reflexivity|]. split; [exact H2|].
          split; [apply code_ahead|apply code_alone].
        * destruct (Nat.eqb_spec t u); [congruence|]. rewrite app_nil_r. destruct (GT u) as (ph' & RU & AU). exists ph'. split; [exact RU|].
          eapply (other_phase c _ base _ t u ph'); [exact N|cbn; apply upd_other; exact N|reflexivity|auto|exact AU].
  Qed.

  Lemma schedule_good prog ts : forall c h base, good prog c h base ->
    match schedule sv ts c with
    | Some c' => exists h' base', good prog c' h' base'
    | None => exists h' base' o, calls sv (map fst (effects h')) initial = Some (map snd (effects h'), base') /\ call sv o base' = Crash
    end.
  Proof.
    induction ts as [|t ts IH]; intros c h base G; cbn; [eauto|].
    pose proof (move_good prog c h base t G) as K. destruct (move sv t c) as [c'| |].
    - destruct K as (h' & base' & G'). eapply IH. exact G'.
    - eapply IH. exact G.
    - destruct K as (o & C). exists h, base, o. split; [apply (g_calls _ _ _ _ G)|exact C].
  Qed.

  Lemma combine_fst_snd {X Y} (l : list (X * Y)) : combine (map fst l) (map snd l) = l.
  Proof. induction l as [|[x y] l IH]; cbn; [reflexivity|]. rewrite IH. reflexivity. Qed.

  Lemma linearizable prog ts c : schedule sv ts (start prog) = Some c -> exists h l,
    linearization (fun e => legal sv empty e l) (map to_point (c_trace c)) h /\
    (forall u, invoked u h ++ t_todo (c_threads c u) = prog u) /\
    (c_owner c = None -> forall i, m_find i (dm_docs (c_state c)) = held l i).
  Proof.
    intros H. pose proof (schedule_good prog ts _ _ _ (start_good prog)) as K. rewrite H in K. destruct K as (h & base & G).
    destruct G as [GO GC GF GP GT]. destruct (calls_legal sv _ _ _ _ _ rep_initial GC) as (l & L & R).
    rewrite combine_fst_snd in L. exists h, l. split; [|split].
    - split; [exact GO|]. split; [|exact L]. intros t. destruct (GT t) as (ph & X & _). eauto.
    - exact GP.
    - intros O i. rewrite (GF O). apply R.
  Qed.

  Lemma crash_explained prog ts : schedule sv ts (start prog) = None ->
    exists e l o, legal sv empty e l /\ undefined sv o l.
  Proof.
    intros H. pose proof (schedule_good prog ts _ _ _ (start_good prog)) as K. rewrite H in K. destruct K as (h & base & o & C1 & C2).
    destruct (calls_legal sv _ _ _ _ _ rep_initial C1) as (l & L & R). rewrite combine_fst_snd in L. exists (effects h), l, o. split; [exact L|].
    pose proof (call_refines sv o base l R) as X. rewrite C2 in X. exact X.
  Qed.

  (** A thread that has something to do can move unless another holds the lock, and the
      holder of the lock can always move. *)

  Lemma no_deadlock prog ts c u : schedule sv ts (start prog) = Some c -> busy c u ->
    exists v, busy c v /\ move sv v c <> Blocked.
  Proof.
    intros H B. pose proof (schedule_good prog ts _ _ _ (start_good prog)) as K. rewrite H in K. destruct K as (h & base & G).
    destruct G as [GO GC GF GP GT].
    assert (FREE : forall v, busy c v -> (c_owner c = Some v \/ c_owner c = None) -> move sv v c <> Blocked).
    { intros v Bv O. destruct (GT v) as (ph & _ & AT). unfold at_phase in AT. unfold move. destruct Bv as [Bv|Bv].
      - destruct (t_now (c_threads c v)) as [[o rest l]|]; [|congruence]. destruct rest as [|i rest]; [discriminate|].
        assert (NL : i = ILock -> c_owner c = None).
        { intros ->. destruct O as [O|O]; [|exact O]. exfalso. destruct AT as [(_ & _ & X & _)|[(_ & X & _)|(_ & _ & X)]]; [|congruence|discriminate].
          destruct X as (b & E & F). destruct b; [discriminate|]. injection E as <- _. inversion F; subst. contradiction. }
        destruct i; try (destruct (exec sv _ _ _); discriminate); try discriminate. rewrite NL by reflexivity. discriminate.
      - destruct (t_now (c_threads c v)) as [[o rest l]|].
        + destruct rest as [|i rest]; [discriminate|].
          assert (NL : i = ILock -> c_owner c = None).
          { intros ->. destruct O as [O|O]; [|exact O]. exfalso. destruct AT as [(_ & _ & X & _)|[(_ & X & _)|(_ & _ & X)]]; [|congruence|discriminate].
            destruct X as (b & E & F). destruct b; [discriminate|]. injection E as <- _. inversion F; subst. contradiction. }
          destruct i; try (destruct (exec sv _ _ _); discriminate); try discriminate. rewrite NL by reflexivity. discriminate.
        + destruct (t_todo (c_threads c v)); [congruence|discriminate]. }
    destruct (c_owner c) as [v|] eqn:EO.
    - exists v. assert (Bv : busy c v).
      { destruct (GT v) as (ph & _ & AT). unfold at_phase in AT. unfold busy. destruct (t_now (c_threads c v)); [left; discriminate|]. destruct AT as (_ & X). congruence. }
      split; [exact Bv|]. apply FREE; [exact Bv|left; reflexivity].
    - exists u. split; [exact B|]. apply FREE; [exact B|right; reflexivity].
  Qed.

  (** Returned results are results of effects. *)

  Lemma thread_run_inv (h : list point) p ph : thread_run (h ++ [p]) ph ->
    match p with
    | Call _ o => thread_run h Idle /\ ph = Called o
    | Effect _ o r => thread_run h (Called o) /\ ph = Took o r
    | Ret _ o r => thread_run h (Took o r) /\ ph = Idle
    end.
  Proof.
    intros H. inversion H as [E|t o k R E|t o r k R E|t o r k R E]; [destruct h; discriminate| | |];
      apply app_inj_tail in E; destruct E as (<- & <-); auto.
  Qed.

  Lemma thread_run_fun (h : list point) ph1 ph2 : thread_run h ph1 -> thread_run h ph2 -> ph1 = ph2.
  Proof.
    intros H1 H2. inversion H1; subst.
    - inversion H2; subst; try (destruct h; discriminate); reflexivity.
    - apply thread_run_inv in H2. destruct H2. congruence.
    - apply thread_run_inv in H2. destruct H2. congruence.
    - apply thread_run_inv in H2. destruct H2. congruence.
  Qed.

  Lemma effects_cover (h : list point) : (forall t, exists ph, thread_run (of_thread t h) ph) ->
    exists pend : list (nat * (op * result)),
      Permutation (effects h) (returns h ++ map snd pend) /\
      forall t o r, thread_run (of_thread t h) (Took o r) -> In (t, (o, r)) pend.
  Proof.
    induction h as [|p h IH] using rev_ind; intros W.
    - exists []. split; [constructor|]. cbn. intros t o r H. inversion H; try (destruct h; discriminate).
    - assert (W' : forall t, exists ph, thread_run (of_thread t h) ph).
      { intros t. destruct (W t) as (ph & H). rewrite of_thread_app in H. destruct (Nat.eqb (thread_of p) t).
        - apply thread_run_inv in H. destruct p; destruct H; eauto.
        - rewrite app_nil_r in H. eauto. }
      destruct (IH W') as (pend & P1 & P2). rewrite effects_app. unfold returns. rewrite flat_map_app. fold (returns h).
      destruct p as [t o|t o r|t o r]; cbn [effects flat_map app]; rewrite ?app_nil_r.
      + exists pend. split; [exact P1|]. intros u o' r' H. rewrite of_thread_app in H. cbn [thread_of] in H. destruct (Nat.eqb_spec t u) as [->|N].
        * apply thread_run_inv in H. destruct H as (_ & H). discriminate.
        * rewrite app_nil_r in H. apply P2. exact H.
      + exists ((t, (o, r)) :: pend). cbn [map snd]. split.
        * apply perm_trans with ((o, r) :: effects h); [apply Permutation_sym, Permutation_cons_append|].
          apply perm_trans with ((o, r) :: (returns h ++ map snd pend)); [constructor; exact P1|]. apply Permutation_middle.
        * intros u o' r' H. rewrite of_thread_app in H. cbn [thread_of] in H. destruct (Nat.eqb_spec t u) as [->|N].
          -- apply thread_run_inv in H. destruct H as (_ & H). injection H as -> ->. left. reflexivity.
          -- rewrite app_nil_r in H. right. apply P2. exact H.
      + destruct (W t) as (ph & H). rewrite of_thread_app in H. cbn [thread_of] in H. rewrite Nat.eqb_refl in H. apply thread_run_inv in H.
        destruct H as (H & _). apply P2 in H. apply in_split in H. destruct H as (q1 & q2 & ->). exists (q1 ++ q2). split.
        * apply (perm_trans P1). rewrite !map_app. cbn [map snd]. rewrite <- app_assoc. cbn. apply Permutation_app_head.
          apply Permutation_sym, Permutation_middle.
        * intros u o' r' HU. rewrite of_thread_app in HU. cbn [thread_of] in HU. destruct (Nat.eqb_spec t u) as [->|N].
          -- apply thread_run_inv in HU. destruct HU as (_ & HU). discriminate.
          -- rewrite app_nil_r in HU. apply P2 in HU. apply in_app_or in HU. apply in_or_app. destruct HU as [HU|[HU|HU]]; [left; exact HU|congruence|right; exact HU].
  Qed.


  Lemma returns_observed (h : list point) tr : observed h = map to_point tr -> returns h = returned tr.
  Proof.
    intros H. transitivity (returns (observed h)).
    - clear H. unfold returns, observed. induction h as [|[t o|t o r|t o r] h IH]; cbn; rewrite ?IH; reflexivity.
    - rewrite H. unfold returns, returned. clear H. induction tr as [|[t o|t o r] tr IH]; cbn; rewrite ?IH; reflexivity.
  Qed.

  Lemma new_ids_perm (a b : list (op * result)) : Permutation a b -> Permutation (new_ids a) (new_ids b).
  Proof. intros H. unfold new_ids. apply Permutation_flat_map. exact H. Qed.
  Lemma unique_ids_perm (a b : list (op * result)) : Permutation a b -> Permutation (unique_ids a) (unique_ids b).
  Proof. intros H. unfold unique_ids. apply Permutation_flat_map. exact H. Qed.

  Lemma nodup_left {X} (a b : list X) : NoDup (a ++ b) -> NoDup a.
  Proof.
    induction a as [|x a IH]; intros H; [constructor|]. inversion H as [|? ? N1 N2]; subst. constructor; [|auto].
    intros K. apply N1. apply in_or_app. auto.
  Qed.

  Lemma concurrent_ids prog ts c : schedule sv ts (start prog) = Some c ->
    NoDup (new_ids (returned (c_trace c))) /\ NoDup (unique_ids (returned (c_trace c))).
  Proof.
    intros H. destruct (linearizable prog ts c H) as (h & l & (O & W & L) & _ & _).
    destruct (effects_cover h W) as (pend & P & _). rewrite (returns_observed _ _ O) in P.
    apply legal_ids in L. destruct L as (L1 & L2 & _).
    split.
    - assert (N : NoDup (new_ids (effects h))) by (rewrite L1; apply upfrom_nodup).
      apply (Permutation_NoDup (new_ids_perm _ _ P)) in N. unfold new_ids in N. rewrite flat_map_app in N.
      apply nodup_left in N. exact N.
    - assert (N : NoDup (unique_ids (effects h))) by (rewrite L2; apply upfrom_nodup).
      apply (Permutation_NoDup (unique_ids_perm _ _ P)) in N. unfold unique_ids in N. rewrite flat_map_app in N.
      apply nodup_left in N. exact N.
  Qed.

  (** Real-time order. *)
  Lemma run_prefix (a b : list point) ph : thread_run (a ++ b) ph -> exists ph', thread_run a ph'.
  Proof.
    revert ph. induction b as [|p b IH] using rev_ind; intros ph H; [rewrite app_nil_r in H; eauto|].
    rewrite app_assoc in H. apply thread_run_inv in H. destruct p; destruct H as (H & _); eapply IH; exact H.
  Qed.


  Lemma run_order (h : list point) ph : thread_run h ph ->
    exists e c, returns h ++ e = effects h /\ map fst (effects h) ++ c = calls_made h /\
      match ph with Idle => e = [] /\ c = [] | Called o => e = [] /\ c = [o] | Took o r => e = [(o, r)] /\ c = [] end.
  Proof.
    unfold returns, effects, calls_made.
    induction 1 as [|t o h _ (e & c & I1 & I2 & I3)|t o r h _ (e & c & I1 & I2 & I3)|t o r h _ (e & c & I1 & I2 & I3)];
      [exists [], []; cbn; auto|..]; destruct I3 as (-> & ->); rewrite !flat_map_app; cbn [flat_map app]; rewrite ?app_nil_r in *; rewrite <- ?I1.
    - exists [], [o]. rewrite app_nil_r, <- I2, I1. auto.
    - exists [(o, r)], []. rewrite app_nil_r, <- I2, map_app, I1. cbn. auto.
    - exists [], []. rewrite !app_nil_r, <- I2, <- I1. auto.
  Qed.

  Lemma real_time (obs h : list point) ok a b t : linearization ok obs h -> h = a ++ b -> exists e c,
    returns (of_thread t a) ++ e = effects (of_thread t a) /\ map fst (effects (of_thread t a)) ++ c = calls_made (of_thread t a).
  Proof.
    intros (_ & W & _) ->. destruct (W t) as (ph & H). unfold of_thread in H. rewrite filter_app in H. apply run_prefix in H.
    destruct H as (ph' & H). apply run_order in H. destruct H as (e & c & H1 & H2 & _). exists e, c. auto.
  Qed.
End P.
