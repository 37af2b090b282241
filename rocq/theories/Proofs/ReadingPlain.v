(** Reading children without processing instructions and without failures. *)
From Coq Require Import List String Ascii ZArith Bool PeanoNat Lia.
From Verif Require Import Model.Base Model.Text Proofs.StringsProofs Model.ElementReading Spec.ChildOrder Spec.Children.
Import ListNotations.
Open Scope nat_scope.

Section Plain.
Context {A : Type}.
Definition pos := (list (str * A) * list (str * A))%type.

Definition at_pos (it : iterator A) (p : pos) : Prop :=
  elements (it_before it) = fst p /\ elements (it_after it) = snd p /\ match it_after it with NInstruction _ _ :: _ => False | _ => True end.

Lemma skip_forward_at : forall after before, at_pos (skip_forward before after) (elements before, elements after).
Proof.
  induction after as [|[n a|n d] r IH]; intros before; cbn [skip_forward].
  - repeat split.
  - repeat split.
  - exact (IH (NInstruction n d :: before)).
Qed.

Lemma skip_forward_length : forall after (before : list (node A)), List.length (it_after (skip_forward before after)) <= List.length after.
Proof.
  induction after as [|[n a|n d] r IH]; intros before; cbn [skip_forward it_after List.length]; try lia.
  specialize (IH (NInstruction n d :: before)). lia.
Qed.

Lemma begin_at : forall children : list (node A), at_pos (begin children) ([], elements children).
Proof.
  intros [|[n a|n d] r]; cbn [begin]; try (repeat split; fail).
  exact (skip_forward_at (NInstruction n d :: r) []).
Qed.

Lemma begin_length : forall children : list (node A), List.length (it_after (begin children)) <= List.length children.
Proof.
  intros [|[n a|n d] r]; cbn [begin it_after]; try lia. apply skip_forward_length.
Qed.

Lemma at_end_at : forall it p, at_pos it p -> at_end it = match snd p with [] => true | _ => false end.
Proof.
  intros [b a] [pre post] (H1 & H2 & H3). cbn in *. unfold at_end. cbn.
  destruct a as [|[n x|n d] r]; cbn in *; subst; auto. contradiction.
Qed.

Lemma at_cons : forall it pre n a post, at_pos it (pre, (n, a) :: post) -> exists r, it_after it = NElement n a :: r /\ elements r = post.
Proof.
  intros [b l] pre n a post (H1 & H2 & H3). cbn in *. destruct l as [|[n' x|n' d] r]; cbn in *; try discriminate; try contradiction.
  injection H2 as -> -> H2. exists r. auto.
Qed.

Lemma name_at_at : forall it pre n a post, at_pos it (pre, (n, a) :: post) -> name_at it = Ok n.
Proof. intros it pre n a post H. destruct (at_cons _ _ _ _ _ H) as (r & E & _). unfold name_at. rewrite E. reflexivity. Qed.

Lemma contents_at_at : forall it pre n a post, at_pos it (pre, (n, a) :: post) -> contents_at it = Ok a.
Proof. intros it pre n a post H. destruct (at_cons _ _ _ _ _ H) as (r & E & _). unfold contents_at. rewrite E. reflexivity. Qed.

Lemma increment_at : forall it pre x post, at_pos it (pre, x :: post) ->
  exists it', increment it = Ok it' /\ at_pos it' (x :: pre, post) /\ List.length (it_after it') < List.length (it_after it).
Proof.
  intros it pre [n a] post H. destruct (at_cons _ _ _ _ _ H) as (r & E & E2). destruct H as (H1 & _ & _). cbn [fst] in H1.
  unfold increment. rewrite E. eexists. split; [reflexivity|]. split.
  - pose proof (skip_forward_at r (NElement n a :: it_before it)) as K. cbn [elements] in K. rewrite H1, E2 in K. exact K.
  - pose proof (skip_forward_length r (NElement n a :: it_before it)). cbn [List.length]. lia.
Qed.

Lemma skip_backward_at : forall before x after e pre, elements (x :: before) = e :: pre -> at_pos (skip_backward before x after) (pre, e :: elements after).
Proof.
  induction before as [|y b IH]; intros [n a|n d] after e pre H; cbn in H.
  - injection H as <- <-. repeat split.
  - discriminate.
  - injection H as <- <-. repeat split.
  - cbn [skip_backward]. specialize (IH y (NInstruction n d :: after) e pre H). exact IH.
Qed.

Lemma decrement_at : forall it e pre post, at_pos it (e :: pre, post) -> exists it', decrement it = Ok it' /\ at_pos it' (pre, e :: post).
Proof.
  intros [b a] e pre post (H1 & H2 & H3). cbn in *. unfold decrement. cbn [it_before it_after].
  destruct b as [|x b]; [discriminate|]. eexists. split; [reflexivity|]. rewrite <- H2. apply skip_backward_at. exact H1.
Qed.

(** Runs. *)
Fixpoint run_of (name : str) (post : list (str * A)) : list A :=
  match post with (n, a) :: r => if str_eqb n name then a :: run_of name r else [] | [] => [] end.
Fixpoint rest_of (name : str) (post : list (str * A)) : list (str * A) :=
  match post with (n, a) :: r => if str_eqb n name then rest_of name r else post | [] => [] end.
Definition passed (name : str) (run : list A) (pre : list (str * A)) : list (str * A) := rev (map (pair name) run) ++ pre.
Definition nonempty {B} (l : list B) : bool := match l with [] => false | _ => true end.
Definition fill (first : bool) (set : list (option A)) (run : list A) : list (option A) :=
  match run with [] => set | _ => if negb first && (List.length set =? 1) then map Some run else set ++ map Some run end.

Lemma fill_step : forall first set a run,
  fill true (if negb first && (List.length set =? 1) then [Some a] else set ++ [Some a]) run = fill first set (a :: run).
Proof.
  intros first set a run. unfold fill. cbn [negb andb]. destruct (negb first && (List.length set =? 1)); destruct run; cbn [map app]; try reflexivity.
  now rewrite <- app_assoc.
Qed.

Lemma passed_step : forall name a run pre, passed name run ((name, a) :: pre) = passed name (a :: run) pre.
Proof. intros. unfold passed. cbn [map rev]. now rewrite <- app_assoc. Qed.

Lemma import_run_at : forall fuel name first set it pre post, at_pos it (pre, post) -> List.length (it_after it) <= fuel ->
  exists it', import_run fuel name first set it = Ok (first || nonempty (run_of name post), fill first set (run_of name post), it')
    /\ at_pos it' (passed name (run_of name post) pre, rest_of name post).
Proof.
  induction fuel as [|fuel IH]; intros name first set it pre post H L; cbn [import_run]; rewrite (at_end_at _ _ H); cbn [snd].
  - destruct post as [|[n a] post].
    + exists it. cbn. now rewrite orb_false_r.
    + destruct (at_cons _ _ _ _ _ H) as (r & E & _). rewrite E in L. cbn in L. lia.
  - destruct post as [|[n a] post].
    + exists it. cbn. now rewrite orb_false_r.
    + rewrite (name_at_at _ _ _ _ _ H), (contents_at_at _ _ _ _ _ H). cbn [obind run_of rest_of].
      destruct (str_eqb n name) eqn:E.
      * destruct (increment_at _ _ _ _ H) as (it' & E1 & H' & L'). rewrite E1. cbn [obind].
        destruct (IH name true (if negb first && (List.length set =? 1)%nat then [Some a] else (set ++ [Some a])%list) it' _ _ H' ltac:(lia)) as (it'' & R & H'').
        exists it''. rewrite R, fill_step. cbn [orb nonempty]. rewrite orb_true_r. split; [reflexivity|].
        apply str_eqb_eq in E. subst n. now rewrite <- passed_step.
      * exists it. cbn. now rewrite orb_false_r.
Qed.

Lemma import_member_run_at : forall fuel name first set it pre post, at_pos it (pre, post) -> List.length (it_after it) <= fuel ->
  exists it', import_member_run fuel name first set it = Ok (first || nonempty (run_of name post), fill first set (run_of name post), it')
    /\ at_pos it' (passed name (run_of name post) pre, rest_of name post).
Proof.
  induction fuel as [|fuel IH]; intros name first set it pre post H L; cbn [import_member_run]; rewrite (at_end_at _ _ H); cbn [snd].
  - destruct post as [|[n a] post].
    + exists it. cbn. now rewrite orb_false_r.
    + destruct (at_cons _ _ _ _ _ H) as (r & E & _). rewrite E in L. cbn in L. lia.
  - destruct post as [|[n a] post].
    + exists it. cbn. now rewrite orb_false_r.
    + rewrite (name_at_at _ _ _ _ _ H), (contents_at_at _ _ _ _ _ H). cbn [obind run_of rest_of].
      destruct (str_eqb n name) eqn:E.
      * destruct (increment_at _ _ _ _ H) as (it' & E1 & H' & L'). rewrite E1. cbn [obind].
        assert (X : (if negb first && (List.length set =? 1) then tl (set ++ [Some a]) else set ++ [Some a])
                    = (if negb first && (List.length set =? 1) then [Some a] else set ++ [Some a])).
        { destruct (negb first && (List.length set =? 1)) eqn:X; [|reflexivity]. apply andb_true_iff in X. destruct X as [_ X].
          apply Nat.eqb_eq in X. destruct set as [|y [|z l]]; cbn in X; try lia. reflexivity. }
        rewrite X.
        destruct (IH name true (if negb first && (List.length set =? 1)%nat then [Some a] else (set ++ [Some a])%list) it' _ _ H' ltac:(lia)) as (it'' & R & H'').
        exists it''. rewrite R, fill_step. cbn [orb nonempty]. rewrite orb_true_r. split; [reflexivity|].
        apply str_eqb_eq in E. subst n. now rewrite <- passed_step.
      * exists it. cbn. now rewrite orb_false_r.
Qed.

(** The same on positions. *)
Definition back (p : pos) : pos := match fst p with x :: b => (b, x :: snd p) | [] => p end.

Definition p_run (name key : str) (p : pos) (s : contents A) : bool * pos * contents A :=
  let run := run_of name (snd p) in
  (nonempty run, (passed name run (fst p), rest_of name (snd p)), if nonempty run then put key (fill false (s key) run) s else s).

Definition p_many (name key : str) (p : pos) (s : contents A) : bool * pos * contents A :=
  let '(found, p', s') := p_run name key p s in (found, if found then back p' else p', s').

Definition p_one (name key : str) (p : pos) (s : contents A) : bool * contents A :=
  match snd p with
  | (n, a) :: _ => if str_eqb n name then (true, put key (s key ++ [Some a]) s) else (false, s)
  | [] => (false, s)
  end.

Definition p_member (m : group_member) (p : pos) (s : contents A) : bool * pos * contents A :=
  if gm_many m then p_run (gm_name m) (gm_key m) p s
  else match snd p with
       | (n, a) :: r => if str_eqb n (gm_name m) then (true, ((n, a) :: fst p, r), put (gm_key m) (s (gm_key m) ++ [Some a]) s) else (false, p, s)
       | [] => (false, p, s)
       end.

Fixpoint p_group (bk : bool) (members : list group_member) (moved : bool) (p : pos) (s : contents A) : pos * contents A :=
  match members with
  | [] => (if bk && moved then back p else p, s)
  | m :: r =>
      let '(found, p', s') := p_member m p s in
      match snd p' with
      | [] => (if moved || found then back p' else p', s')
      | _ => p_group bk r (moved || found) p' s'
      end
  end.

Fixpoint p_steps (steps : list step) (p : pos) (s : contents A) : pos * contents A :=
  match steps with
  | [] => (p, s)
  | One name key stop :: r => let (found, s') := p_one name key p s in if found && stop then (p, s') else p_steps r p s'
  | Many name key _ stop :: r => let '(found, p', s') := p_many name key p s in if found && stop then (p', s') else p_steps r p' s'
  | Group members bk :: r => let (p', s') := p_group bk members false p s in p_steps r p' s'
  | Each names key :: r =>
      match snd p with
      | (n, a) :: _ => if existsb (str_eqb n) names then (p, put key (s key ++ [Some a]) s) else p_steps r p s
      | [] => p_steps r p s
      end
  end.

Definition forth (p : pos) : pos := match snd p with x :: r => (x :: fst p, r) | [] => p end.

Fixpoint p_loop (fuel : nat) (steps : list step) (p : pos) (s : contents A) : contents A :=
  match fuel with
  | O => s
  | S fuel => match snd p with [] => s | _ => let (p', s') := p_steps steps p s in p_loop fuel steps (forth p') s' end
  end.

(** How a statement moves the iterator: not backwards, and not past the end. [whole] is
    all the elements. *)
Definition whole (p : pos) : list (str * A) := rev (fst p) ++ snd p.
Definition advances (p p' : pos) : Prop := whole p = whole p' /\ List.length (snd p') <= List.length (snd p).

Lemma advances_refl : forall p, advances p p.
Proof. intros p. split; auto. Qed.
Lemma advances_trans : forall p q r, advances p q -> advances q r -> advances p r.
Proof. intros p q r [H1 H2] [H3 H4]. split; [congruence | lia]. Qed.

Lemma run_rest : forall name post, post = map (pair name) (run_of name post) ++ rest_of name post.
Proof.
  induction post as [|[n a] r IH]; [reflexivity|]. cbn [run_of rest_of]. destruct (str_eqb n name) eqn:E; [|reflexivity].
  apply str_eqb_eq in E. subst. cbn [map app]. now rewrite <- IH.
Qed.

Lemma whole_passed : forall name pre post, whole (passed name (run_of name post) pre, rest_of name post) = whole (pre, post).
Proof.
  intros. unfold whole, passed. cbn [fst snd]. rewrite rev_app_distr, rev_involutive, <- app_assoc. now rewrite <- run_rest.
Qed.

Lemma rest_length : forall name post, List.length post = List.length (run_of name post) + List.length (rest_of name post).
Proof. intros. rewrite (run_rest name post) at 1. rewrite app_length, map_length. reflexivity. Qed.

Lemma whole_back : forall p, whole (back p) = whole p.
Proof.
  intros [[|x b] a]; unfold back, whole; cbn [fst snd]; [reflexivity|]. cbn [rev]. now rewrite <- app_assoc.
Qed.

Lemma back_ok : forall it p, at_pos it p -> fst p <> [] -> exists it', decrement it = Ok it' /\ at_pos it' (back p) /\ snd (back p) <> [].
Proof.
  intros it [[|e pre] post] H N; [contradiction|]. destruct (decrement_at _ _ _ _ H) as (it' & E & H'). exists it'. cbn. repeat split; auto; try apply H'. discriminate.
Qed.

Lemma passed_nonempty : forall name run (pre : list (str * A)), nonempty run = true -> passed name run pre <> [].
Proof. intros name [|a run] pre H; [discriminate|]. unfold passed. cbn. intros X. apply app_eq_nil in X. destruct X as [X _]. now apply app_eq_nil in X as [_ X]. Qed.

Lemma p_many_at : forall name key it p s, at_pos it p -> snd p <> [] ->
  exists it', importElementSet name key it s = Ok (fst (fst (p_many name key p s)), it', snd (p_many name key p s))
    /\ at_pos it' (snd (fst (p_many name key p s))) /\ snd (snd (fst (p_many name key p s))) <> [] /\ advances p (snd (fst (p_many name key p s))).
Proof.
  intros name key it [pre post] s H N. unfold importElementSet, p_many, p_run. cbn [fst snd] in *.
  destruct (import_run_at (List.length (it_after it)) name false (s key) it pre post H (le_n _)) as (it' & R & H').
  rewrite R. cbn [obind orb].
  destruct (nonempty (run_of name post)) eqn:E; cbn [fst snd].
  - destruct (back_ok _ _ H' ltac:(cbn; apply passed_nonempty; auto)) as (it'' & D & H'' & N'').
    rewrite D. cbn [obind]. exists it''. split; [reflexivity|]. split; [exact H''|]. split; [exact N''|].
    split; [now rewrite whole_back, whole_passed|]. pose proof (rest_length name post) as L.
    destruct (passed name (run_of name post) pre) as [|x b] eqn:P; [exfalso; eapply passed_nonempty; eauto|]. cbn [back fst snd List.length].
    destruct (run_of name post); [discriminate|]. cbn in L. lia.
  - exists it'. destruct (run_of name post) eqn:Q; [|discriminate]. pose proof (run_rest name post) as RR. rewrite Q in RR. cbn in RR.
    rewrite <- RR in *. split; [reflexivity|]. split; [exact H'|]. split; [exact N|]. unfold passed. cbn. apply advances_refl.
Qed.

Lemma p_one_at : forall name key it p s, at_pos it p -> snd p <> [] -> importElement name key it s = Ok (p_one name key p s).
Proof.
  intros name key it [pre [|[n a] post]] s H N; [contradiction|]. unfold importElement, p_one. cbn [snd].
  rewrite (name_at_at _ _ _ _ _ H), (contents_at_at _ _ _ _ _ H). cbn [obind]. destruct (str_eqb n name); reflexivity.
Qed.

Lemma p_member_at : forall m it p s, at_pos it p -> snd p <> [] ->
  exists it', (if gm_many m then checkSetGroupMemberSet else checkSetGroupMember) (gm_name m) (gm_key m) it s
      = Ok (fst (fst (p_member m p s)), it', snd (p_member m p s))
    /\ at_pos it' (snd (fst (p_member m p s))) /\ whole (snd (fst (p_member m p s))) = whole p
    /\ (if fst (fst (p_member m p s)) then fst (snd (fst (p_member m p s))) <> [] /\ List.length (snd (snd (fst (p_member m p s)))) < List.length (snd p)
        else snd (fst (p_member m p s)) = p).
Proof.
  intros [name many key] it [pre post] s H N. unfold p_member, checkSetGroupMemberSet, checkSetGroupMember, p_run. cbn [gm_many gm_name gm_key fst snd] in *.
  destruct many.
  - destruct (import_member_run_at (List.length (it_after it)) name false (s key) it pre post H (le_n _)) as (it' & R & H').
    rewrite R. cbn [obind orb fst snd]. exists it'. split; [reflexivity|]. split; [exact H'|]. split; [apply whole_passed|].
    pose proof (rest_length name post) as L. pose proof (run_rest name post) as RR.
    destruct (nonempty (run_of name post)) eqn:E.
    + split; [now apply passed_nonempty|]. destruct (run_of name post); [discriminate|]. cbn in L. lia.
    + destruct (run_of name post); [|discriminate]. cbn in RR. unfold passed. cbn. now rewrite <- RR.
  - destruct post as [|[n a] post]; [contradiction|]. rewrite (name_at_at _ _ _ _ _ H), (contents_at_at _ _ _ _ _ H). cbn [obind].
    destruct (str_eqb n name) eqn:E; cbn [fst snd].
    + destruct (increment_at _ _ _ _ H) as (it' & E1 & H' & L'). rewrite E1. cbn [obind]. exists it'. split; [reflexivity|]. split; [exact H'|].
      split; [unfold whole; cbn [fst snd rev]; now rewrite <- app_assoc|]. split; [discriminate|]. cbn. lia.
    + exists it. repeat split; auto; apply H.
Qed.

Lemma p_group_at : forall bk members moved it p s, at_pos it p -> snd p <> [] -> (moved = true -> fst p <> []) ->
  exists it', importGroup bk members moved it s = Ok (it', snd (p_group bk members moved p s))
    /\ at_pos it' (fst (p_group bk members moved p s)) /\ snd (fst (p_group bk members moved p s)) <> []
    /\ whole (fst (p_group bk members moved p s)) = whole p
    /\ List.length (snd (fst (p_group bk members moved p s))) <= List.length (snd p) + (if moved then 1 else 0).
Proof.
  intros bk. induction members as [|m r IH]; intros moved it p s H N M; cbn [importGroup p_group].
  - destruct (bk && moved) eqn:E; cbn [fst snd].
    + apply andb_true_iff in E. destruct E as [_ E]. destruct (back_ok _ _ H (M E)) as (it' & D & H' & N').
      rewrite D. cbn [omap obind]. exists it'. split; [reflexivity|]. split; [exact H'|]. split; [exact N'|]. split; [apply whole_back|].
      specialize (M E). rewrite E. destruct p as [[|x b] a]; [contradiction|]. cbn. lia.
    + exists it. split; [reflexivity|]. split; [exact H|]. split; [exact N|]. split; [reflexivity|]. lia.
  - destruct (p_member_at m it p s H N) as (it' & R & H' & W & K). rewrite R. clear R.
    destruct (p_member m p s) as [[found p'] s']. cbn [obind fst snd] in *. rewrite (at_end_at _ _ H').
    destruct (snd p') as [|x q] eqn:Q.
    + destruct (moved || found) eqn:MF.
      * assert (F : fst p' <> []). { destruct found; [apply K|]. subst p'. apply M. now rewrite orb_false_r in MF. }
        destruct (back_ok _ _ H' F) as (it'' & D & H'' & N''). rewrite D. cbn [omap obind fst snd]. exists it''. split; [reflexivity|]. split; [exact H''|].
        split; [exact N''|]. split; [rewrite whole_back; exact W|]. destruct p' as [[|y b] a]; [contradiction|]. cbn in *. subst a. cbn.
        destruct (snd p); [contradiction|]. cbn. lia.
      * apply orb_false_iff in MF. destruct MF as [_ ->]. subst p'. contradiction.
    + destruct (IH (moved || found) it' p' s' H' ltac:(rewrite Q; discriminate)) as (it'' & R' & H'' & N'' & W'' & L'').
      { intros MF. destruct found; [apply K|]. subst p'. apply M. now rewrite orb_false_r in MF. }
      exists it''. split; [exact R'|]. split; [exact H''|]. split; [exact N''|]. split; [congruence|].
      destruct found; [|subst p'; rewrite orb_false_r in *; lia]. destruct K as [_ K]. rewrite orb_true_r in *. rewrite Q in L''. lia.
Qed.

Lemma p_steps_at : forall steps it p s, at_pos it p -> snd p <> [] ->
  exists it', run_steps steps it s = Ok (it', snd (p_steps steps p s)) /\ at_pos it' (fst (p_steps steps p s))
    /\ snd (fst (p_steps steps p s)) <> [] /\ advances p (fst (p_steps steps p s)).
Proof.
  induction steps as [|st r IH]; intros it p s H N; cbn [run_steps p_steps].
  - exists it. split; [reflexivity|]. split; [exact H|]. split; [exact N|]. apply advances_refl.
  - destruct st as [name key stop|name key init stop|members bk|names key].
    + rewrite (p_one_at _ _ _ _ _ H N). cbn [obind]. destruct (p_one name key p s) as [found s']. destruct (found && stop).
      * exists it. split; [reflexivity|]. split; [exact H|]. split; [exact N|]. apply advances_refl.
      * apply IH; auto.
    + destruct (p_many_at name key it p s H N) as (it' & R & H' & N' & AD). rewrite R. clear R. destruct (p_many name key p s) as [[found p'] s'].
      cbn [obind fst snd] in *. destruct (found && stop).
      * exists it'. split; [reflexivity|]. auto.
      * destruct (IH it' p' s' H' N') as (it'' & R & H'' & N'' & AD'). exists it''. split; [exact R|]. split; [exact H''|]. split; [exact N''|]. eapply advances_trans; eauto.
    + destruct (p_group_at bk members false it p s H N ltac:(discriminate)) as (it' & R & H' & N' & W & L). rewrite R. clear R. destruct (p_group bk members false p s) as [p' s'].
      cbn [obind fst snd] in *. destruct (IH it' p' s' H' N') as (it'' & R & H'' & N'' & AD'). exists it''. split; [exact R|]. split; [exact H''|]. split; [exact N''|].
      eapply advances_trans; [|eauto]. split; [now rewrite W | lia].
    + destruct p as [pre [|[n a] post]]; [contradiction|]. rewrite (name_at_at _ _ _ _ _ H), (contents_at_at _ _ _ _ _ H). cbn [obind snd].
      destruct (existsb (str_eqb n) names).
      * exists it. split; [reflexivity|]. split; [exact H|]. split; [exact N|]. apply advances_refl.
      * apply IH; auto.
Qed.

Lemma p_loop_at : forall fuel1 fuel2 steps it p s, at_pos it p -> List.length (snd p) <= fuel1 -> List.length (snd p) <= fuel2 ->
  read_loop fuel1 steps it s = Ok (p_loop fuel2 steps p s).
Proof.
  induction fuel1 as [|fuel1 IH]; intros fuel2 steps it p s H L1 L2; cbn [read_loop]; rewrite (at_end_at _ _ H).
  - destruct (snd p) as [|x post] eqn:Q; [|cbn in L1; lia].
    destruct fuel2; cbn [p_loop]; [reflexivity|]. rewrite Q. reflexivity.
  - destruct (snd p) as [|x post] eqn:Q.
    + destruct fuel2; cbn [p_loop]; [reflexivity|]. rewrite Q. reflexivity.
    + destruct fuel2 as [|fuel2]; [cbn in L2; lia|]. cbn [p_loop]. rewrite Q.
      destruct (p_steps_at steps it p s H ltac:(rewrite Q; discriminate)) as (it' & R & H' & N' & W & L). rewrite R. clear R.
      destruct (p_steps steps p s) as [p' s']. cbn [obind fst snd] in *. destruct p' as [pre' [|x' post']]; [contradiction|].
      destruct (increment_at _ _ _ _ H') as (it'' & E & H'' & L''). rewrite E. cbn [obind]. unfold forth. cbn [fst snd].
      rewrite Q in L. cbn in L, L1, L2. apply IH; [exact H'' | cbn; lia | cbn; lia].
Qed.

Lemma elements_length : forall children : list (node A), List.length (elements children) <= List.length children.
Proof. induction children as [|[n a|n d] r IH]; cbn; lia. Qed.

Lemma read_plain : forall steps (children : list (node A)),
  read_children steps children = Ok (p_loop (List.length (elements children)) steps ([], elements children) (initial_contents steps)).
Proof.
  intros. unfold read_children. apply p_loop_at; [apply begin_at | apply elements_length | apply le_n].
Qed.
End Plain.
