(** Whatever the children: nothing is made up, read twice or turned around. *)
From Coq Require Import List String Ascii ZArith Bool PeanoNat Lia.
From Verif Require Import Model.Base Model.Text Proofs.StringsProofs Model.ElementReading Spec.ChildOrder Spec.Children Proofs.ReadingPlain Proofs.ReadingOrder.
Import ListNotations.
Open Scope nat_scope.
Open Scope list_scope.

Lemma picked_refl : forall {B} (l : list B), picked l l.
Proof. induction l; [apply picked_end | apply picked_take; auto]. Qed.
Lemma picked_nil : forall {B} (l : list B), picked [] l.
Proof. induction l; constructor; auto. Qed.
Lemma picked_app : forall {B} (a b c d : list B), picked a b -> picked c d -> picked (a ++ c) (b ++ d).
Proof. intros B a b c d H K. induction H; cbn; [exact K | apply picked_skip; auto | apply picked_take; auto]. Qed.
Lemma picked_right : forall {B} (a b c : list B), picked a b -> picked a (b ++ c).
Proof. intros. rewrite <- (app_nil_r a). apply picked_app; auto. apply picked_nil. Qed.
Lemma picked_left : forall {B} (a b c : list B), picked a c -> picked a (b ++ c).
Proof. intros B a b c H. induction b; cbn; [exact H | now constructor]. Qed.
Lemma given_app : forall {A} (a b : list (option A)), given (a ++ b) = given a ++ given b.
Proof. intros. unfold given. apply flat_map_app. Qed.
Lemma given_some : forall {A} (l : list A), given (map Some l) = l.
Proof. induction l as [|a l IH]; cbn; [reflexivity|]. unfold given in IH. now rewrite IH. Qed.

Section Sub.
Context {A : Type}.
Notation pos := (@pos A).

Definition before (k : str) (p : pos) : list A := named_in k (rev (fst p)).
Definition upto_ (k : str) (p : pos) : list A := named_in k (rev (fst p) ++ firstn 1 (snd p)).

Lemma before_upto : forall k p, exists l, upto_ k p = before k p ++ l.
Proof. intros. unfold upto_, before. rewrite named_in_app. eauto. Qed.

Lemma before_skip : forall k n a pre post post', k <> n -> before k ((n, a) :: pre, post) = before k (pre, post').
Proof. intros. unfold before. cbn [fst rev]. rewrite named_in_app. cbn. rewrite str_eqb_neq by auto. now rewrite app_nil_r. Qed.

Lemma before_take : forall n a pre post post', before n ((n, a) :: pre, post) = before n (pre, post') ++ [a].
Proof. intros. unfold before. cbn [fst rev]. rewrite named_in_app. cbn. now rewrite str_eqb_refl. Qed.

Lemma upto_back : forall k p, fst p <> [] -> upto_ k (back p) = before k p.
Proof.
  intros k [[|x b] a] H; [contradiction|]. unfold upto_, before, back. cbn [fst snd firstn rev]. reflexivity.
Qed.

Lemma before_run : forall k n run pre rest post,
  before k (rev (map (pair n) run) ++ pre, rest) = before k (pre, post) ++ (if str_eqb n k then run else []).
Proof.
  intros. unfold before. cbn [fst]. rewrite rev_app_distr, rev_involutive, named_in_app. f_equal. destruct (str_eqb n k) eqn:E.
  - apply str_eqb_eq in E. subst. apply named_in_run.
  - apply named_in_none. intros I. apply used_names in I. subst. rewrite str_eqb_refl in E. discriminate.
Qed.

Lemma fill_picked : forall (set : list (option A)) run l, picked (given set) l -> picked (given (fill false set run)) (l ++ run).
Proof.
  intros set run l H. unfold fill. destruct run as [|a run]; [rewrite app_nil_r; exact H|].
  destruct (negb false && (List.length set =? 1)).
  - rewrite given_some. apply picked_left, picked_refl.
  - rewrite given_app, given_some. apply picked_app; [exact H | apply picked_refl].
Qed.

(** What a member of a group, or a set, does. *)
Definition good (names : list str) (moved : bool) (p : pos) (s : contents A) : Prop :=
  (forall k, In k names -> picked (given (s k)) (before k p)) /\ (forall k, picked (given (s k)) (if moved then before k p else upto_ k p)).

Lemma put_same : forall k (l : list (option A)) s, put k l s k = l.
Proof. intros. unfold put. now rewrite str_eqb_refl. Qed.
Lemma put_other : forall k n (l : list (option A)) s, k <> n -> put n l s k = s k.
Proof. intros. unfold put. now rewrite str_eqb_neq. Qed.

Lemma upto_before_run : forall k n a run pre post rest, picked (upto_ k (pre, (n, a) :: post)) (before k (rev (map (pair n) (a :: run)) ++ pre, rest)).
Proof.
  intros. rewrite (before_run k n (a :: run) pre rest ((n, a) :: post)). unfold upto_. cbn [fst snd firstn]. rewrite named_in_app. apply picked_app; [apply picked_refl|].
  cbn. destruct (str_eqb n k); [|constructor]. apply picked_take. apply picked_nil.
Qed.

Lemma run_good : forall n names moved pre post s, ~ In n names -> good (n :: names) moved (pre, post) s ->
  good names (moved || nonempty (run_of n post)) (rev (map (pair n) (run_of n post)) ++ pre, rest_of n post)
    (if nonempty (run_of n post) then put n (fill false (s n) (run_of n post)) s else s).
Proof.
  intros n names moved pre post s N [G1 G2]. pose proof (run_rest n post) as RR. destruct (run_of n post) as [|a run] eqn:E; cbn [nonempty].
  - cbn in RR. rewrite <- RR, orb_false_r. split; [|exact G2]. intros k I. apply G1. now right.
  - rewrite orb_true_r. assert (P : forall k, picked (given (put n (fill false (s n) (a :: run)) s k)) (before k (rev (map (pair n) (a :: run)) ++ pre, rest_of n post))).
    { intros k. destruct (list_eq_dec ascii_dec k n) as [->|D].
      - rewrite put_same. rewrite (before_run n n (a :: run) pre _ post), str_eqb_refl. apply fill_picked. apply G1. now left.
      - rewrite put_other by auto. rewrite RR in G2. specialize (G2 k). destruct moved.
        + rewrite (before_run k n (a :: run) pre _ (map (pair n) (a :: run) ++ rest_of n post)). apply picked_right. exact G2.
        + rewrite (before_run k n (a :: run) pre _ post), str_eqb_neq, app_nil_r by auto. unfold upto_ in G2. cbn [fst snd map app firstn] in G2.
          rewrite named_in_app in G2. cbn in G2. rewrite str_eqb_neq, app_nil_r in G2 by auto. exact G2. }
    split; auto.
Qed.

Lemma p_member_good : forall m names moved pre post s, gm_key m = gm_name m -> ~ In (gm_name m) names -> good (gm_name m :: names) moved (pre, post) s ->
  exists found p' s', p_member m (pre, post) s = (found, p', s') /\ good names (moved || found) p' s'
    /\ (if found then exists a b, fst p' = (gm_name m, a) :: b else p' = (pre, post)).
Proof.
  intros m names moved pre post s K N G. unfold p_member. rewrite K. destruct (gm_many m).
  - unfold p_run. cbn [fst snd]. do 3 eexists. split; [reflexivity|]. split; [exact (run_good _ _ _ _ _ _ N G)|].
    pose proof (run_rest (gm_name m) post) as RR. destruct (run_of (gm_name m) post) as [|a run] eqn:E; cbn [nonempty].
    + cbn in RR. rewrite <- RR. reflexivity.
    + unfold passed. cbn [fst]. assert (NE : map (pair (gm_name m)) (a :: run) <> []) by discriminate. destruct (exists_last NE) as (l & [n x] & E'). rewrite E'.
      assert (I : In n (map fst (map (pair (gm_name m)) (a :: run)))) by (rewrite E', map_app; apply in_or_app; right; now left).
      apply used_names in I. subst n. rewrite rev_app_distr. cbn. eauto.
  - cbn [fst snd]. destruct post as [|[n a] post].
    + do 3 eexists. split; [reflexivity|]. split; [|reflexivity]. rewrite orb_false_r. destruct G as [G1 G2]. split; [|exact G2]. intros k I. apply G1. now right.
    + destruct (str_eqb n (gm_name m)) eqn:E.
      * apply str_eqb_eq in E. subst n. do 3 eexists. split; [reflexivity|]. rewrite orb_true_r. split; [|cbn; eauto].
        assert (P : forall k, picked (given (put (gm_name m) (s (gm_name m) ++ [Some a]) s k)) (before k ((gm_name m, a) :: pre, post))).
        { destruct G as [G1 G2]. intros k. destruct (list_eq_dec ascii_dec k (gm_name m)) as [->|D].
          - rewrite put_same, given_app. rewrite (before_take _ _ _ _ ((gm_name m, a) :: post)). apply picked_app; [apply G1; now left | apply picked_refl].
          - rewrite put_other by auto. specialize (G2 k). rewrite (before_skip k _ _ _ _ ((gm_name m, a) :: post)) by auto.
            destruct moved; [exact G2|]. unfold upto_ in G2. cbn [fst snd firstn] in G2. rewrite named_in_app in G2. cbn in G2. rewrite str_eqb_neq, app_nil_r in G2 by auto. exact G2. }
        split; auto.
      * do 3 eexists. split; [reflexivity|]. split; [|reflexivity]. rewrite orb_false_r. destruct G as [G1 G2]. split; [|exact G2]. intros k I. apply G1. now right.
Qed.

Definition last_in (ns : list str) (p : pos) : Prop := exists n a b, fst p = (n, a) :: b /\ In n ns.

Lemma good_back : forall names ns p s, good names true p s -> last_in ns p -> (forall k, In k ns -> ~ In k names) -> good names false (back p) s.
Proof.
  intros names ns [pre post] s [G1 G2] (n & a & b & E & I) D. cbn [fst] in E. subst pre. split.
  - intros k J. specialize (G1 k J). unfold back. cbn [fst snd]. assert (k <> n) by (intros ->; exact (D n I J)).
    rewrite (before_skip k n a b post ((n, a) :: post)) in G1 by auto. exact G1.
  - intros k. rewrite upto_back by discriminate. apply G2.
Qed.

Lemma p_group_good : forall bk ns ms names moved p s, Forall (fun m => gm_key m = gm_name m) ms -> NoDup (map gm_name ms ++ names) ->
  (forall m, In m ms -> In (gm_name m) ns) -> (forall k, In k ns -> ~ In k names) ->
  good (map gm_name ms ++ names) moved p s -> (moved = true -> last_in ns p) ->
  good names false (fst (p_group bk ms moved p s)) (snd (p_group bk ms moved p s)).
Proof.
  intros bk ns. induction ms as [|m r IH]; intros names moved p s F ND SUB DIS G M; cbn [p_group map app] in *.
  - cbn [fst snd]. destruct bk; cbn [andb].
    + destruct moved; [eapply good_back; eauto | exact G].
    + destruct moved; [|exact G]. destruct G as [G1 G2]. split; [exact G1|]. intros k. destruct (before_upto k p) as [l ->]. apply picked_right, G2.
  - inversion F as [|? ? F1 F2]; subst. apply NoDup_cons_iff in ND. destruct ND as [N1 N2]. destruct p as [pre post].
    destruct (p_member_good m _ moved pre post s F1 N1 G) as (found & p' & s' & P & G' & K). rewrite P.
    assert (M' : moved || found = true -> last_in ns p').
    { intros MF. destruct found; [destruct K as (a & b & E); exists (gm_name m), a, b; split; [exact E | apply SUB; now left]|].
      rewrite orb_false_r in MF. subst p'. auto. }
    destruct (snd p') as [|y q] eqn:Q.
    + cbn [fst snd].
      assert (G3 : good names (moved || found) p' s') by (destruct G' as [X Y]; split; [intros k I; apply X, in_or_app; auto | exact Y]).
      destruct (moved || found); [eapply good_back; eauto | exact G3].
    + apply IH; auto. intros m' I. apply SUB. now right.
Qed.

Lemma app_disjoint : forall {B} (l1 l2 : list B), NoDup (l1 ++ l2) -> forall k, In k l1 -> ~ In k l2.
Proof.
  intros B. induction l1 as [|y l IHl]; intros l2 ND k I J; [contradiction|]. cbn in ND. apply NoDup_cons_iff in ND. destruct ND as [N1 N2].
  destruct I as [->|I]; [apply N1; apply in_or_app; auto | eapply IHl; eauto].
Qed.
Lemma app_nodup_r : forall {B} (l1 l2 : list B), NoDup (l1 ++ l2) -> NoDup l2.
Proof. intros B. induction l1; intros l2 ND; [exact ND|]. cbn in ND. apply NoDup_cons_iff in ND. apply IHl1. tauto. Qed.

Lemma p_steps_good : forall st p s, Forall simple st -> NoDup (pnames (parts st)) -> snd p <> [] -> good (pnames (parts st)) false p s ->
  good [] false (fst (p_steps st p s)) (snd (p_steps st p s)).
Proof.
  induction st as [|x r IH]; intros p s F ND N G; cbn [p_steps].
  - cbn [fst snd]. destruct G as [_ G]. split; [intros k [] | exact G].
  - inversion F as [|? ? S1 S2]; subst. cbn [parts flat_map] in *. fold (parts r) in *. unfold pnames in *. rewrite map_app in *.
    assert (DONE : forall p s, good (map fst (parts r)) false p s -> good [] false p s) by (intros p0 s0 [_ Y]; split; [intros k [] | exact Y]).
    pose proof (app_nodup_r _ _ ND) as ND2.
    destruct x as [n k stop|n k init stop|ms bk|ns k]; cbn [step_parts map fst app] in *.
    + cbn in S1. subst k. apply NoDup_cons_iff in ND. destruct ND as [N1 _]. destruct p as [pre [|[m a] post]]; [contradiction|]. unfold p_one. cbn [snd].
      destruct (str_eqb m n) eqn:E.
      * apply str_eqb_eq in E. subst m. assert (G' : good (map fst (parts r)) false (pre, (n, a) :: post) (put n (s n ++ [Some a]) s)).
        { destruct G as [G1 G2]. split.
          - intros k I. rewrite put_other by (intros ->; contradiction). apply G1. now right.
          - intros k. destruct (list_eq_dec ascii_dec k n) as [->|D].
            + rewrite put_same, given_app. unfold upto_. cbn [fst snd firstn]. rewrite named_in_app. cbn [named_in]. rewrite str_eqb_refl.
              apply picked_app; [apply G1; now left | apply picked_refl].
            + rewrite put_other by auto. apply G2. }
        destruct stop; cbn [andb]; [apply DONE; exact G' | apply IH; auto].
      * cbn [andb]. apply IH; auto. destruct G as [G1 G2]. split; [|exact G2]. intros k I. apply G1. now right.
    + cbn in S1. subst k. apply NoDup_cons_iff in ND. destruct ND as [N1 _]. destruct p as [pre post]. cbn [snd] in N. unfold p_many, p_run. cbn [fst snd].
      pose proof (run_good n (map fst (parts r)) false pre post s N1 G) as R. cbn [orb] in R. pose proof (run_rest n post) as RR.
      destruct (run_of n post) as [|a run] eqn:E; cbn [nonempty andb] in *.
      * unfold passed. cbn in R, RR |- *. rewrite <- RR in *. apply IH; auto.
      * assert (LI : last_in [n] (passed n (a :: run) pre, rest_of n post)).
        { unfold passed, last_in. cbn [fst]. assert (NE : map (pair n) (a :: run) <> []) by discriminate. destruct (exists_last NE) as (l & [n' x] & E'). rewrite E'.
          assert (I : In n' (map fst (map (pair n) (a :: run)))) by (rewrite E', map_app; apply in_or_app; right; now left).
          apply used_names in I. subst n'. rewrite rev_app_distr. cbn. eauto 6. }
        assert (G' : good (map fst (parts r)) false (back (passed n (a :: run) pre, rest_of n post)) (put n (fill false (s n) (a :: run)) s)).
        { eapply good_back; [exact R | exact LI | intros k [<-|[]]; exact N1]. }
        destruct stop; cbn [fst snd]; [apply DONE; exact G' | apply IH; auto].
        unfold back. destruct LI as (n' & a' & b' & E' & _). rewrite E'. discriminate.
    + assert (PN : map fst (map member_part ms) = map gm_name ms) by (now rewrite map_map). rewrite PN in *.
      pose proof (p_group_good bk (map gm_name ms) ms (map fst (parts r)) false p s S1 ND ltac:(intros m I; now apply in_map) ltac:(exact (app_disjoint _ _ ND)) G ltac:(discriminate)) as G'.
      destruct (p_group bk ms false p s) as [p' s'] eqn:P. cbn [fst snd] in G'. apply IH; auto.
      clear - P N. intros Z.
      assert (X : forall ms moved (p : pos) s, snd p <> [] -> snd (fst (p_group bk ms moved p s)) = [] -> False).
      { clear. intros ms0. induction ms0 as [|m r IH]; intros moved p s N Z; cbn [p_group] in Z.
        - cbn [fst] in Z. destruct (bk && moved); [|contradiction]. unfold back in Z. destruct (fst p); [contradiction | discriminate].
        - destruct (p_member m p s) as [[found p'] s'] eqn:P. destruct (snd p') as [|y q] eqn:Q.
          + cbn [fst] in Z. assert (F : found = true /\ fst p' <> []).
            { unfold p_member in P. destruct p as [pre post]. cbn [snd] in N. destruct (gm_many m).
              - unfold p_run in P. cbn [fst snd] in P. injection P as <- <- _. cbn [snd] in Q. pose proof (run_rest (gm_name m) post) as RR. rewrite Q, app_nil_r in RR.
                destruct (run_of (gm_name m) post) as [|a run] eqn:E; [contradiction|]. split; [reflexivity|]. cbn [fst]. apply passed_nonempty. reflexivity.
              - cbn [snd fst] in P. destruct post as [|[n a] post]; [contradiction|]. destruct (str_eqb n (gm_name m)); injection P as <- <- _; [split; [reflexivity | discriminate] | discriminate]. }
            destruct F as [-> F]. rewrite orb_true_r in Z. unfold back in Z. destruct (fst p'); [contradiction | discriminate].
          + eapply IH; [|exact Z]. rewrite Q. discriminate. }
      apply (X ms false p s N). rewrite P. exact Z.
    + destruct S1.
Qed.

Lemma p_loop_good : forall fuel st p s, Forall simple st -> NoDup (pnames (parts st)) -> (forall k, picked (given (s k)) (before k p)) ->
  forall k, picked (given (p_loop fuel st p s k)) (named_in k (whole p)).
Proof.
  induction fuel as [|fuel IH]; intros st p s F ND G k; cbn [p_loop].
  - unfold whole. rewrite named_in_app. apply picked_right, G.
  - destruct (snd p) as [|x post] eqn:Q.
    + unfold whole. rewrite named_in_app. apply picked_right, G.
    + assert (G' : good (pnames (parts st)) false p s).
      { split; [auto|]. intros k'. destruct (before_upto k' p) as [l ->]. apply picked_right, G. }
      assert (N : snd p <> []) by (rewrite Q; discriminate).
      pose proof (p_steps_good st p s F ND N G') as R. 
      assert (W : advances p (fst (p_steps st p s)) /\ snd (fst (p_steps st p s)) <> []).
      { assert (AT : exists it, at_pos it p).
        { exists (mkIter (map (fun q => NElement (fst q) (snd q)) (fst p)) (map (fun q => NElement (fst q) (snd q)) (snd p))).
          assert (X : forall l : list (str * A), elements (map (fun q => NElement (fst q) (snd q)) l) = l) by (induction l as [|[n a] l IHl]; cbn; congruence).
          unfold at_pos. cbn [it_before it_after]. rewrite !X. repeat split. rewrite Q. reflexivity || exact I. }
        destruct AT as [it AT]. destruct (p_steps_at st it p s AT N) as (it' & _ & _ & X & Y). auto. }
      destruct (p_steps st p s) as [p' s'] eqn:P. cbn [fst snd] in *. destruct W as [[W1 W2] W3].
      destruct p' as [pre' [|y post']]; [contradiction|]. unfold forth. cbn [fst snd] in *.
      assert (WW : whole p = whole (y :: pre', post')) by (rewrite W1; unfold whole; cbn [fst snd rev]; now rewrite <- app_assoc).
      rewrite WW. apply IH; auto. intros k'. destruct R as [_ R]. specialize (R k'). unfold upto_ in R. cbn [fst snd firstn] in R. unfold before. cbn [fst rev]. exact R.
Qed.
End Sub.
