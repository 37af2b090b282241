(** Reading children that are in the order of the statements. *)
From Coq Require Import List String Ascii ZArith Bool PeanoNat Lia.
From Verif Require Import Model.Base Model.Text Proofs.StringsProofs Model.ElementReading Spec.ChildOrder Spec.Children Proofs.ReadingPlain.
Import ListNotations.
Open Scope nat_scope.
Open Scope list_scope.

Definition member_part (m : group_member) : str * option nat := (gm_name m, if gm_many m then None else Some 1).
Definition step_parts (st : step) : order :=
  match st with
  | One n _ _ => [(n, Some 1)]
  | Many n _ _ _ => [(n, None)]
  | Group ms _ => map member_part ms
  | Each _ _ => []
  end.
Definition parts (steps : list step) : order := flat_map step_parts steps.
Definition simple (st : step) : Prop :=
  match st with
  | One n k _ => k = n
  | Many n k _ _ => k = n
  | Group ms _ => Forall (fun m => gm_key m = gm_name m) ms
  | Each _ _ => False
  end.
Definition pnames (o : order) : list str := map fst o.

Lemma str_eqb_refl : forall s, str_eqb s s = true.
Proof. intros. now apply str_eqb_eq. Qed.
Lemma str_eqb_neq : forall a b, a <> b -> str_eqb a b = false.
Proof. intros a b H. destruct (str_eqb a b) eqn:E; [|reflexivity]. apply str_eqb_eq in E. contradiction. Qed.

Section Order.
Context {A : Type}.
Notation pos := (@pos A).

Fixpoint named_in (k : str) (l : list (str * A)) : list A :=
  match l with (n, a) :: r => if str_eqb n k then a :: named_in k r else named_in k r | [] => [] end.

Lemma named_elements : forall k (children : list (node A)), named k children = named_in k (elements children).
Proof. intros k. induction children as [|[n a|n d] r IH]; cbn; auto. now rewrite IH. Qed.

Lemma named_in_app : forall k l1 l2, named_in k (l1 ++ l2) = named_in k l1 ++ named_in k l2.
Proof. intros k. induction l1 as [|[n a] r IH]; intros l2; cbn; auto. destruct (str_eqb n k); cbn; now rewrite IH. Qed.

Lemma named_in_none : forall k l, ~ In k (map fst l) -> named_in k l = [].
Proof.
  intros k. induction l as [|[n a] r IH]; intros H; cbn; auto. cbn in H. rewrite str_eqb_neq by tauto. apply IH. tauto.
Qed.

Lemma named_in_run : forall k run, named_in k (map (pair k) run) = run.
Proof. intros k. induction run as [|a r IH]; cbn; auto. rewrite str_eqb_refl. now rewrite IH. Qed.

Definition updated (s s' : contents A) (used : list (str * A)) : Prop :=
  forall k, s' k = match named_in k used with [] => s k | l => map Some l end.

Lemma updated_refl : forall s, updated s s [].
Proof. intros s k. reflexivity. Qed.

Lemma updated_trans : forall s s1 s2 u1 u2, updated s s1 u1 -> updated s1 s2 u2 -> (forall k, In k (map fst u1) -> ~ In k (map fst u2)) -> updated s s2 (u1 ++ u2).
Proof.
  intros s s1 s2 u1 u2 H1 H2 D k. rewrite H2, H1, named_in_app.
  destruct (named_in k u1) eqn:E1; [reflexivity|].
  assert (I : In k (map fst u1)). { destruct (in_dec (list_eq_dec ascii_dec) k (map fst u1)) as [I|I]; [exact I|]. rewrite (named_in_none _ _ I) in E1. discriminate. }
  rewrite (named_in_none k u2) by (apply D; exact I). now rewrite app_nil_r.
Qed.

Definition fresh (o : order) (s : contents A) : Prop := forall n b, In (n, b) o -> List.length (s n) <= 1 /\ (b <> None -> s n = []).

Lemma fresh_updated : forall o s s' u, fresh o s -> updated s s' u -> (forall k, In k (map fst u) -> ~ In k (pnames o)) -> fresh o s'.
Proof.
  intros o s s' u F U D n b I. rewrite (U n). rewrite named_in_none.
  - exact (F n b I).
  - intros X. apply (D n X). apply in_map_iff. exists (n, b). auto.
Qed.

Lemma fresh_app : forall o1 o2 s, fresh (o1 ++ o2) s -> fresh o1 s /\ fresh o2 s.
Proof. intros o1 o2 s F. split; intros n b I; apply (F n b); apply in_or_app; auto. Qed.

(** Orders. *)
Lemma in_order_names : forall o l, in_order o l -> forall k, In k l -> In k (pnames o).
Proof.
  induction 1 as [|name bound n rest names B H IH]; intros k I; [contradiction|]. cbn. apply in_app_or in I. destruct I as [I|I].
  - left. symmetry. now apply repeat_spec in I.
  - right. auto.
Qed.

Lemma in_order_inv : forall n b o l, in_order ((n, b) :: o) l ->
  exists k names, l = repeat n k ++ names /\ match b with Some x => k <= x | None => True end /\ in_order o names.
Proof. intros n b o l H. inversion H; subst. eauto 6. Qed.

Lemma in_order_nil : forall o1 o2, in_order (o1 ++ o2) [] -> in_order o2 [].
Proof.
  induction o1 as [|[n b] r IH]; intros o2 H; [exact H|]. cbn in H. apply in_order_inv in H. destruct H as (k & names & E & _ & H).
  symmetry in E. apply app_eq_nil in E. destruct E as [_ ->]. auto.
Qed.

Lemma run_repeat : forall n k l (post : list (str * A)), map fst post = repeat n k ++ l -> ~ In n l ->
  List.length (run_of n post) = k /\ map fst (rest_of n post) = l.
Proof.
  intros n. induction k as [|k IH]; intros l post E N; cbn in E.
  - destruct post as [|[n' a] post]; cbn in *; [auto|]. rewrite str_eqb_neq; [auto|]. intros ->. apply N. rewrite <- E. cbn. auto.
  - destruct post as [|[n' a] post]; cbn in *; [discriminate|]. injection E as -> E. rewrite str_eqb_refl. destruct (IH l post E N). cbn. auto.
Qed.

Lemma in_order_split : forall n b o (post : list (str * A)), in_order ((n, b) :: o) (map fst post) -> ~ In n (pnames o) ->
  in_order o (map fst (rest_of n post)) /\ (b = Some 1 -> List.length (run_of n post) <= 1).
Proof.
  intros n b o post H N. apply in_order_inv in H. destruct H as (k & names & E2 & B & H').
  destruct (run_repeat n k names post E2) as [L R].
  { intros X. apply N. eapply in_order_names; eauto. }
  rewrite R. split; [exact H'|]. intros ->. rewrite L. exact B.
Qed.

(** Statements that do not match. *)
Definition head_in (p : pos) (l : list str) : Prop := match snd p with (n, _) :: _ => In n l | [] => False end.

Lemma run_none : forall n (post : list (str * A)), match post with (m, _) :: _ => m <> n | [] => True end -> run_of n post = [] /\ rest_of n post = post.
Proof. intros n [|[m a] r] H; cbn; auto. rewrite str_eqb_neq by auto. auto. Qed.

Lemma p_run_none : forall n k (p : pos) s, match snd p with (m, _) :: _ => m <> n | [] => True end -> p_run n k p s = (false, p, s).
Proof. intros n k [pre post] s H. unfold p_run. cbn [fst snd] in *. destruct (run_none n post H) as [-> ->]. reflexivity. Qed.

Lemma p_member_none : forall m (p : pos) s, match snd p with (n, _) :: _ => n <> gm_name m | [] => True end -> p_member m p s = (false, p, s).
Proof.
  intros m [pre post] s H. unfold p_member. destruct (gm_many m); [now apply p_run_none|]. cbn [fst snd] in *.
  destruct post as [|[n a] r]; [reflexivity|]. now rewrite str_eqb_neq.
Qed.

Lemma p_group_none : forall bk ms (p : pos) s, ~ head_in p (map gm_name ms) -> p_group bk ms false p s = (p, s).
Proof.
  intros bk. induction ms as [|m r IH]; intros p s H; cbn [p_group].
  - now rewrite andb_false_r.
  - assert (N : match snd p with (n, _) :: _ => n <> gm_name m | [] => True end).
    { unfold head_in in H. destruct (snd p) as [|[n a] q]; auto. cbn in H. intros ->. tauto. }
    rewrite (p_member_none m p s N). cbn [orb]. destruct (snd p) as [|x q] eqn:Q; [reflexivity|]. apply IH.
    unfold head_in in *. rewrite Q in *. destruct x as [n a]. cbn in H. tauto.
Qed.

Lemma p_steps_none : forall d st (p : pos) s, Forall simple d -> ~ head_in p (pnames (parts d)) -> p_steps (d ++ st) p s = p_steps st p s.
Proof.
  induction d as [|x d IH]; intros st p s F H; [reflexivity|]. inversion F as [|? ? S1 S2]; subst. cbn [app p_steps].
  assert (H1 : ~ head_in p (pnames (step_parts x)) /\ ~ head_in p (pnames (parts d))).
  { unfold head_in in *. destruct (snd p) as [|[n a] q]; [tauto|]. cbn [parts flat_map] in H. fold (parts d) in H. unfold pnames in *. rewrite map_app in H.
    split; intros X; apply H; apply in_or_app; auto. }
  destruct H1 as [H1 H2].
  destruct x as [n k stop|n k init stop|ms bk|ns k].
  - unfold p_one. assert (N : match snd p with (m, _) :: _ => m <> n | [] => True end).
    { unfold head_in in H1. destruct (snd p) as [|[m a] q]; auto. cbn in H1. intros ->. tauto. }
    destruct (snd p) as [|[m a] q]; cbn [andb]; [now apply IH|]. rewrite str_eqb_neq by auto. cbn [andb]. now apply IH.
  - unfold p_many. rewrite p_run_none. + cbn [andb]. now apply IH.
    + unfold head_in in H1. destruct (snd p) as [|[m a] q]; auto. cbn in H1. intros ->. tauto.
  - rewrite p_group_none. + now apply IH.
    + unfold pnames in H1. cbn [step_parts] in H1. rewrite map_map in H1. exact H1.
  - destruct S1.
Qed.

(** A member of a group, or a set. *)
Lemma fill_fresh : forall (set : list (option A)) run, List.length set <= 1 -> run <> [] -> fill false set run = map Some run.
Proof.
  intros set run L N. unfold fill. destruct run; [contradiction|]. cbn [negb andb]. destruct set as [|x [|y l]]; cbn in *; try reflexivity. lia.
Qed.

Lemma put_updated : forall n run (s : contents A), run <> [] -> updated s (put n (map Some run) s) (map (pair n) run).
Proof.
  intros n run s N k. unfold put. destruct (str_eqb k n) eqn:E.
  - apply str_eqb_eq in E. subst. rewrite named_in_run. destruct run; [contradiction|]. reflexivity.
  - rewrite named_in_none; [reflexivity|]. rewrite map_map. cbn. intros I. apply in_map_iff in I. destruct I as (x & E' & _). subst.
    rewrite str_eqb_refl in E. discriminate.
Qed.

Lemma passed_rev : forall n run (pre : list (str * A)), passed n run pre = rev (map (pair n) run) ++ pre.
Proof. reflexivity. Qed.

Lemma p_run_spec : forall n pre post s, List.length (s n) <= 1 ->
  exists s', p_run n n (pre, post) s = (nonempty (run_of n post), (rev (map (pair n) (run_of n post)) ++ pre, rest_of n post), s')
    /\ updated s s' (map (pair n) (run_of n post)).
Proof.
  intros n pre post s F. unfold p_run. cbn [fst snd]. eexists. split; [reflexivity|].
  destruct (run_of n post) as [|a run] eqn:E; cbn [nonempty].
  - apply updated_refl.
  - rewrite fill_fresh by (auto; discriminate). apply put_updated. discriminate.
Qed.

Lemma p_member_spec : forall m pre post s, gm_key m = gm_name m -> fresh [member_part m] s ->
  (gm_many m = false -> List.length (run_of (gm_name m) post) <= 1) ->
  exists s', p_member m (pre, post) s
      = (nonempty (run_of (gm_name m) post), (rev (map (pair (gm_name m)) (run_of (gm_name m) post)) ++ pre, rest_of (gm_name m) post), s')
    /\ updated s s' (map (pair (gm_name m)) (run_of (gm_name m) post)).
Proof.
  intros m pre post s K F O. destruct (F _ _ (or_introl eq_refl)) as [F1 F2]. unfold p_member. rewrite K. destruct (gm_many m) eqn:M.
  - apply p_run_spec. exact F1.
  - specialize (O eq_refl). cbn [fst snd]. destruct post as [|[n a] post]; cbn [run_of rest_of nonempty map rev app].
    + exists s. split; [reflexivity | apply updated_refl].
    + cbn [run_of rest_of] in O. destruct (str_eqb n (gm_name m)) eqn:E; cbn [nonempty map rev app].
      * cbn [List.length] in O. pose proof (run_rest (gm_name m) post) as RR. destruct (run_of (gm_name m) post) eqn:R; [|cbn in O; lia].
        cbn in RR. rewrite <- RR. apply str_eqb_eq in E. subst n. eexists. split; [reflexivity|]. rewrite F2 by discriminate.
        apply (put_updated (gm_name m) [a] s). discriminate.
      * exists s. split; [reflexivity | apply updated_refl].
Qed.

Lemma used_names : forall (n : str) (run : list A) (k : str), In k (map fst (map (pair n) run)) -> k = n.
Proof. intros n run k I. rewrite map_map in I. apply in_map_iff in I. destruct I as (x & E & _). auto. Qed.

(** A group. *)
Definition where_after (bk moved : bool) (pre used rest : list (str * A)) : pos :=
  if (moved || nonempty used) && (bk || negb (nonempty rest)) then back (rev used ++ pre, rest) else (rev used ++ pre, rest).

Lemma p_group_spec : forall bk ms o moved pre post s,
  Forall (fun m => gm_key m = gm_name m) ms -> NoDup (pnames (map member_part ms ++ o)) ->
  in_order (map member_part ms ++ o) (map fst post) -> fresh (map member_part ms) s -> post <> [] ->
  exists used rest s', post = used ++ rest /\ p_group bk ms moved (pre, post) s = (where_after bk moved pre used rest, s')
    /\ updated s s' used /\ in_order o (map fst rest) /\ (forall k, In k (map fst used) -> In k (map gm_name ms)).
Proof.
  intros bk. induction ms as [|m r IH]; intros o moved pre post s F ND IO FR N; cbn [p_group map app] in *.
  - exists [], post, s. unfold where_after. cbn [nonempty rev app]. destruct post; [contradiction|]. cbn [nonempty negb]. rewrite orb_false_r, orb_false_r, (andb_comm moved).
    repeat split; auto.
  - inversion F as [|? ? F1 F2]; subst. change (NoDup (gm_name m :: pnames (map member_part r ++ o))) in ND. apply NoDup_cons_iff in ND. destruct ND as [N1 N2].
    destruct (fresh_app [member_part m] (map member_part r) s FR) as [FR1 FR2].
    destruct (in_order_split _ _ _ _ IO N1) as [IO' O].
    destruct (p_member_spec m pre post s F1 FR1) as (s1 & P & U1).
    { intros E. apply O. unfold member_part. now rewrite E. }
    rewrite P. clear P. cbn [snd]. pose proof (run_rest (gm_name m) post) as RR.
    set (run := run_of (gm_name m) post) in *. set (rest := rest_of (gm_name m) post) in *.
    assert (FR' : fresh (map member_part r) s1).
    { eapply fresh_updated; eauto. intros k I J. apply used_names in I. subst k. apply N1. unfold pnames in *. rewrite map_app. apply in_or_app. auto. }
    destruct rest as [|x rest'] eqn:Q.
    + exists (map (pair (gm_name m)) run), [], s1. split; [exact RR|]. split.
      * unfold where_after. cbn [nonempty negb]. rewrite orb_true_r, andb_true_r.
        replace (nonempty (map (pair (gm_name m)) run)) with (nonempty run) by (now destruct run). reflexivity.
      * split; [exact U1|]. split; [exact (in_order_nil _ _ IO')|]. intros k I. apply used_names in I. subst k. cbn. auto.
    + destruct (IH o (moved || nonempty run) (rev (map (pair (gm_name m)) run) ++ pre) (x :: rest') s1 F2 N2 IO' FR' ltac:(discriminate))
        as (used2 & rest2 & s2 & E & P & U2 & IO2 & K2).
      exists (map (pair (gm_name m)) run ++ used2), rest2, s2. split; [rewrite RR, E at 1; now rewrite <- app_assoc|]. split.
      * rewrite P. unfold where_after. f_equal. rewrite rev_app_distr, <- app_assoc.
        replace (moved || nonempty run || nonempty used2) with (moved || nonempty (map (pair (gm_name m)) run ++ used2)); [reflexivity|].
        rewrite <- orb_assoc. f_equal. destruct run; reflexivity.
      * split.
        { eapply updated_trans; eauto. intros k I J. apply used_names in I. subst k. apply K2 in J. apply N1. unfold pnames. rewrite map_app, map_map.
          apply in_or_app. left. exact J. }
        split; [exact IO2|]. intros k I. rewrite map_app in I. apply in_app_or in I. cbn. destruct I as [I|I]; [apply used_names in I; auto | right; auto].
Qed.

Lemma back_forth : forall p : pos, fst p <> [] -> forth (back p) = p.
Proof. intros [[|x b] a] H; [contradiction|]. reflexivity. Qed.

Lemma last_used : forall used rest (pre : list (str * A)), used <> [] ->
  exists n a b, back (rev used ++ pre, rest) = (b, (n, a) :: rest) /\ In n (map fst used).
Proof.
  intros used rest pre N. destruct (exists_last N) as (l & [n a] & ->). exists n, a, (rev l ++ pre). rewrite rev_app_distr. cbn. split; [reflexivity|].
  rewrite map_app. apply in_or_app. right. cbn. auto.
Qed.

(** One round of the loop. *)
Lemma p_steps_spec : forall st pre post s, Forall simple st -> NoDup (pnames (parts st)) -> in_order (parts st) (map fst post) -> fresh (parts st) s -> post <> [] ->
  exists p' s' used rest d st', p_steps st (pre, post) s = (p', s') /\ post = used ++ rest /\ used <> [] /\ forth p' = (rev used ++ pre, rest)
    /\ updated s s' used /\ st = d ++ st' /\ in_order (parts st') (map fst rest) /\ (forall k, In k (map fst used) -> ~ In k (pnames (parts st'))).
Proof.
  induction st as [|x r IH]; intros pre post s F ND IO FR N.
  - cbn in IO. inversion IO as [E|]. destruct post; [contradiction | discriminate].
  - inversion F as [|? ? S1 S2]; subst. cbn [parts flat_map] in *. fold (parts r) in *.
    assert (DIS : forall k, In k (pnames (step_parts x)) -> ~ In k (pnames (parts r))).
    { intros k I J. unfold pnames in *. rewrite map_app in ND. clear - ND I J. induction (map fst (step_parts x)) as [|y l IHl]; [contradiction|].
      cbn in ND. apply NoDup_cons_iff in ND. destruct ND as [N1 N2]. destruct I as [->|I]; [apply N1; apply in_or_app; auto | auto]. }
    assert (ND2 : NoDup (pnames (parts r))).
    { unfold pnames in *. rewrite map_app in ND. clear - ND. induction (map fst (step_parts x)) as [|y l IHl]; [exact ND|]. cbn in ND. apply NoDup_cons_iff in ND. tauto. }
    destruct (fresh_app _ _ _ FR) as [FR1 FR2].
    assert (NONE : forall (p : pos) n a q s, snd p = (n, a) :: q -> In n (pnames (step_parts x)) -> p_steps r p s = (p, s)).
    { intros p n a q s0 E I. rewrite <- (app_nil_r r) at 1. rewrite p_steps_none; [reflexivity | exact S2 | ]. unfold head_in. rewrite E. apply DIS. exact I. }
    destruct x as [n k stop|n k init stop|ms bk|ns k]; cbn [p_steps step_parts] in *.
    + cbn in S1. subst k. cbn [app] in IO. destruct (in_order_split _ _ _ _ IO (DIS n (or_introl eq_refl))) as [IO' O]. specialize (O eq_refl).
      pose proof (run_rest n post) as RR. destruct post as [|[m a] post]; [contradiction|]. unfold p_one. cbn [snd]. cbn [run_of rest_of] in *.
      destruct (str_eqb m n) eqn:E.
      * apply str_eqb_eq in E. subst m. cbn [List.length map app] in *. destruct (run_of n post) eqn:R; [|cbn in O; lia]. cbn in RR. injection RR as RR.
        assert (FN : s n = []) by (apply (FR1 n (Some 1)); [now left | discriminate]). rewrite FN. cbn [app].
        pose proof (NONE (pre, (n, a) :: post) n a post (put n [Some a] s) eq_refl (or_introl eq_refl)) as NM.
        exists (pre, (n, a) :: post), (put n [Some a] s), [(n, a)], post, [One n n stop], r.
        split; [destruct stop; cbn [andb]; [reflexivity | exact NM]|].
        rewrite <- RR in IO'. split; [reflexivity|]. split; [discriminate|]. split; [reflexivity|]. split; [apply (put_updated n [a] s); discriminate|].
        split; [reflexivity|]. split; [exact IO'|]. intros k [<-|[]]. apply DIS. now left.
      * cbn [andb]. cbn in RR. destruct (IH pre ((m, a) :: post) s S2 ND2 IO' FR2 N) as (p' & s' & used & rest & d & st' & P & E1 & E2 & E3 & E4 & E5 & E6 & E7).
        exists p', s', used, rest, (One n n stop :: d), st'. repeat (split; [assumption || (cbn; congruence)|]). exact E7.
    + cbn in S1. subst k. cbn [app] in IO. destruct (in_order_split _ _ _ _ IO (DIS n (or_introl eq_refl))) as [IO' O].
      destruct (p_run_spec n pre post s) as (s1 & P & U).
      { apply (FR1 n None). now left. }
      unfold p_many. rewrite P. clear P. pose proof (run_rest n post) as RR.
      destruct (run_of n post) as [|a run] eqn:R; cbn [nonempty andb].
      * cbn in RR, U. cbn [map rev app]. rewrite <- RR. rewrite <- RR in IO'.
        assert (FR2' : fresh (parts r) s1) by (eapply fresh_updated; [exact FR2 | exact U | intros k []]).
        destruct (IH pre post s1 S2 ND2 IO' FR2' N) as (p' & s' & used & rest' & d & st' & P & E1 & E2 & E3 & E4 & E5 & E6 & E7).
        exists p', s', used, rest', (Many n n init stop :: d), st'. split; [exact P|]. split; [exact E1|]. split; [exact E2|]. split; [exact E3|].
        split; [exact (updated_trans _ _ _ [] used U E4 ltac:(intros k []))|]. split; [cbn; congruence|]. split; assumption.
      * remember (rest_of n post) as rest eqn:RE. clear RE. assert (NE : map (pair n) (a :: run) <> []) by discriminate.
        destruct (last_used (map (pair n) (a :: run)) rest pre NE) as (n' & a' & b & B & I). 
        assert (n' = n) by (apply used_names in I; exact I). subst n'.
        pose proof (NONE (b, (n, a') :: rest) n a' rest s1 eq_refl (or_introl eq_refl)) as NM.
        exists (back (rev (map (pair n) (a :: run)) ++ pre, rest)), s1, (map (pair n) (a :: run)), rest, [Many n n init stop], r.
        split; [rewrite B; destruct stop; [reflexivity | exact NM]|]. split; [exact RR|]. split; [exact NE|].
        split; [apply back_forth; cbn [fst]; intros X; apply app_eq_nil in X; destruct X as [X _]; cbn in X; now apply app_eq_nil in X as [_ X]|].
        split; [exact U|]. split; [reflexivity|]. split; [exact IO'|]. intros k J. apply used_names in J. subst k. apply DIS. now left.
    + destruct (p_group_spec bk ms (parts r) false pre post s S1 ND IO FR1 N) as (used & rest & s1 & E & P & U & IO' & K).
      rewrite P. clear P. unfold where_after. cbn [orb].
      assert (PN : pnames (map member_part ms) = map gm_name ms) by (unfold pnames; now rewrite map_map).
      rewrite PN in *.
      destruct used as [|u used]; cbn [nonempty andb].
      * cbn [rev app] in *. subst rest.
        assert (FR2' : fresh (parts r) s1) by (eapply fresh_updated; [exact FR2 | exact U | intros k []]).
        destruct (IH pre post s1 S2 ND2 IO' FR2' N) as (p' & s' & used' & rest' & d & st' & P & E1 & E2 & E3 & E4 & E5 & E6 & E7).
        exists p', s', used', rest', (Group ms bk :: d), st'. split; [exact P|]. split; [exact E1|]. split; [exact E2|]. split; [exact E3|].
        split; [exact (updated_trans _ _ _ [] used' U E4 ltac:(intros k []))|]. split; [cbn; congruence|]. split; assumption.
      * destruct (bk || negb (nonempty rest)) eqn:BK; cbn [andb].
        { destruct (last_used (u :: used) rest pre ltac:(discriminate)) as (n' & a' & b & B & I).
          pose proof (NONE (b, (n', a') :: rest) n' a' rest s1 eq_refl (K _ I)) as NM.
          exists (back (rev (u :: used) ++ pre, rest)), s1, (u :: used), rest, [Group ms bk], r.
          split; [rewrite B; exact NM|]. split; [exact E|]. split; [discriminate|].
          split; [apply back_forth; cbn [fst]; intros X; apply app_eq_nil in X; destruct X as [X _]; cbn in X; now apply app_eq_nil in X as [_ X]|].
          split; [exact U|]. split; [reflexivity|]. split; [exact IO'|]. intros k J. apply DIS. now apply K. }
        { apply orb_false_iff in BK. destruct BK as [_ BK]. destruct rest as [|y rest']; [discriminate|].
          assert (FR2' : fresh (parts r) s1) by (eapply fresh_updated; [exact FR2 | exact U | intros k J; apply DIS; now apply K]).
          destruct (IH (rev (u :: used) ++ pre) (y :: rest') s1 S2 ND2 IO' FR2' ltac:(discriminate)) as (p' & s' & used' & rest2 & d & st' & P & E1 & E2 & E3 & E4 & E5 & E6 & E7).
          exists p', s', ((u :: used) ++ used'), rest2, (Group ms bk :: d), st'. split; [exact P|]. split; [rewrite E, E1; now rewrite <- app_assoc|].
          split; [discriminate|]. split; [rewrite E3, rev_app_distr, <- app_assoc; reflexivity|].
          assert (SUB : forall k, In k (map fst used') -> In k (pnames (parts r))).
          { intros k J. eapply in_order_names; [exact IO'|]. rewrite E1, map_app. apply in_or_app. auto. }
          split; [eapply updated_trans; eauto; intros k J J'; exact (DIS k (K k J) (SUB k J'))|].
          split; [cbn; congruence|]. split; [exact E6|]. intros k J. rewrite map_app in J. apply in_app_or in J. destruct J as [J|J]; [|auto].
          intros X. apply (DIS k (K k J)). rewrite E5. unfold parts, pnames. rewrite flat_map_app, map_app. apply in_or_app. auto. }
    + destruct S1.
Qed.

Lemma p_loop_spec : forall fuel ST d st pre post s, ST = d ++ st -> Forall simple ST -> NoDup (pnames (parts ST)) -> in_order (parts st) (map fst post) -> fresh (parts st) s ->
  List.length post <= fuel -> updated s (p_loop fuel ST (pre, post) s) post.
Proof.
  induction fuel as [|fuel IH]; intros ST d st pre post s E F ND IO FR L; cbn [p_loop].
  - destruct post; [apply updated_refl | cbn in L; lia].
  - cbn [snd]. destruct post as [|[n a] post]; [apply updated_refl|].
    assert (ND' := ND). subst ST. unfold parts, pnames in ND'. rewrite flat_map_app, map_app in ND'. fold (parts d) (parts st) in ND'.
    assert (F' := F). apply Forall_app in F'. destruct F' as [Fd Fst].
    assert (DIS : forall k, In k (pnames (parts st)) -> ~ In k (pnames (parts d))).
    { intros k I J. unfold pnames in *. clear - ND' I J. induction (map fst (parts d)) as [|y l IHl]; [contradiction|]. cbn in ND'. apply NoDup_cons_iff in ND'. destruct ND' as [N1 N2].
      destruct J as [->|J]; [apply N1; apply in_or_app; auto | auto]. }
    assert (NDst : NoDup (pnames (parts st))).
    { unfold pnames. clear - ND'. induction (map fst (parts d)) as [|y l IHl]; [exact ND'|]. cbn in ND'. apply NoDup_cons_iff in ND'. tauto. }
    rewrite p_steps_none; [|exact Fd|unfold head_in; cbn [snd]; apply DIS; eapply in_order_names; [exact IO | cbn; auto]].
    destruct (p_steps_spec st pre ((n, a) :: post) s Fst NDst IO FR ltac:(discriminate)) as (p' & s' & used & rest & d' & st' & P & E1 & E2 & E3 & E4 & E5 & E6 & E7).
    rewrite P, E3. assert (L2 : List.length rest <= fuel).
    { apply (f_equal (@List.length _)) in E1. rewrite app_length in E1. destruct used; [contradiction|]. cbn in E1, L. lia. }
    rewrite E1. eapply updated_trans; [exact E4 | |].
    + apply (IH _ (d ++ d') st'); auto.
      * rewrite E5. now rewrite app_assoc.
      * eapply fresh_updated; [|exact E4|exact E7]. intros m b I. apply (FR m b). rewrite E5. unfold parts. rewrite flat_map_app. apply in_or_app. auto.
    + intros k I J. apply (E7 k I). eapply in_order_names; eauto.
Qed.
End Order.
