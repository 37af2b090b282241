From Coq Require Import List Permutation Lia Arith.
From Verif Require Import Proofs.Tac Model.Base Model.Text Model.Conversions Spec.Scores Proofs.StringsProofs Proofs.ConversionsProofs.
Import ListNotations.
Open Scope nat_scope.

Section P.
  Context {A M Hd V PI : Type} (defA : A) (defM : M).

  Lemma find_tw_first id (l : list (tw_part M PI)) :
    match find_tw id l with
    | Some p => tp_id p = id /\ exists l1 l2, l = l1 ++ p :: l2 /\ ~ In id (map tp_id l1)
    | None => ~ In id (map tp_id l)
    end.
  Proof.
    unfold find_tw. induction l as [|q l IH]; [cbn; tauto|]. cbn [find].
    destruct (str_eqb (tp_id q) id) eqn:E.
    - apply str_eqb_eq in E. split; [exact E|]. exists [], l. cbn. tauto.
    - assert (NQ : tp_id q <> id) by (intros X; apply str_eqb_eq in X; congruence).
      destruct (find _ l) as [p|].
      + destruct IH as (H1 & l1 & l2 & H2 & H3). split; [exact H1|]. exists (q :: l1), l2. subst l. split; [reflexivity|].
        cbn. tauto.
      + cbn. tauto.
  Qed.

  Lemma to_partwise_general (t : score_tw A M Hd V PI) : tw_measures t <> [] ->
    let s := timewisePartwise defA defM t in
    pw_header s = tw_header t /\ pw_version s = tw_version t /\ pw_pis s = [] /\
    map pp_id (pw_parts s) = listed (tw_header t) /\
    (forall p, In p (pw_parts s) -> pp_pis p = [] /\
      Forall2 (fun tm pm => pm_attrs pm = tm_attrs tm /\ pm_pis pm = [] /\
        match_first tp_id tp_music (pp_id p) (tm_parts tm) defM (pm_music pm)) (tw_measures t) (pp_measures p)).
  Proof.
    intros NE s. subst s. unfold timewisePartwise. cbn [pw_header pw_version pw_pis pw_parts].
    do 3 (split; [reflexivity|]). split; [rewrite map_map; apply map_id|].
    intros p H. apply in_map_iff in H. destruct H as (id & <- & _). cbn [pp_pis pp_measures pp_id]. split; [reflexivity|].
    destruct (tw_measures t) as [|m ms]; [congruence|]. clear NE. generalize (m :: ms). clear m ms. intros l.
    induction l as [|m l IH]; [constructor|]. cbn [map]. constructor; [|exact IH].
    cbn. do 2 (split; [reflexivity|]). pose proof (find_tw_first id (tm_parts m)) as F.
    unfold match_first. destruct (find_tw id (tm_parts m)) as [p|].
    - left. destruct F as (F1 & l1 & l2 & F2 & F3). exists l1, p, l2. auto.
    - right. split; [exact F | reflexivity].
  Qed.

  Lemma found_ids (parts : list (pw_part A M PI)) ids :
    map pp_id (found parts ids) = filter (fun id => existsb (fun p => str_eqb (pp_id p) id) parts) ids.
  Proof.
    induction ids as [|id r IH]; [reflexivity|]. rewrite found_cons, map_app, IH. cbn [filter].
    destruct (find_pw id parts) as [p|] eqn:E.
    - pose proof (find_pw_in id parts p E) as (HI & HE).
      assert (X : existsb (fun p0 => str_eqb (pp_id p0) id) parts = true)
        by (apply existsb_exists; exists p; split; [exact HI | apply str_eqb_eq; exact HE]).
      rewrite X. cbn. rewrite HE. reflexivity.
    - assert (X : existsb (fun p0 => str_eqb (pp_id p0) id) parts = false).
      { destruct (existsb _ parts) eqn:X; [|reflexivity]. apply existsb_exists in X. destruct X as (q & HQ & HE).
        unfold find_pw in E. rewrite (find_none _ _ E q HQ) in HE. discriminate. }
      rewrite X. reflexivity.
  Qed.

  Lemma to_timewise_general (s : score_pw A M Hd V PI) n : n <> 0 ->
    (forall p, In p (pw_parts s) -> List.length (pp_measures p) = n) ->
    (exists p, In p (pw_parts s) /\ In (pp_id p) (listed (pw_header s))) ->
    exists t, partwiseTimewise defA defM s = Ok t /\ tw_header t = pw_header s /\ tw_version t = pw_version s /\
      List.length (tw_measures t) = n /\
      (forall i tm, nth_error (tw_measures t) i = Some tm ->
        map tp_id (tm_parts tm) = filter (fun id => existsb (fun p => str_eqb (pp_id p) id) (pw_parts s)) (listed (pw_header s)) /\
        (forall tp, In tp (tm_parts tm) -> exists p pm, first_part (tp_id tp) (pw_parts s) p /\
           nth_error (pp_measures p) i = Some pm /\ tp_music tp = pm_music pm)).
  Proof.
    intros Hn L (p0 & I0 & J0).
    assert (NE : pw_parts s <> []) by (intros X; rewrite X in I0; destruct I0).
    eexists. split; [apply (to_timewise_value defA defM s n L NE)|]. cbn [tw_header tw_version tw_measures].
    do 2 (split; [reflexivity|]). destruct n as [|n]; [congruence|]. rewrite map_length, seq_length. split; [reflexivity|].
    intros i tm H. rewrite nth_error_map in H. destruct (nth_error (seq 0 (S n)) i) as [j|] eqn:E; [|discriminate].
    assert (Hi : i < S n). { rewrite <- (seq_length (S n) 0). apply nth_error_Some. congruence. }
    assert (j = i). { apply nth_error_nth with (d := 0) in E. rewrite seq_nth in E by exact Hi. cbn in E. lia. }
    subst j. cbn [option_map] in H.
    set (fs := found (pw_parts s) (listed (pw_header s))) in *.
    assert (TM : tm = filled defA defM fs i) by congruence. rewrite TM. clear TM H.
    assert (NF : fs <> []).
    { intros X. assert (Y : map pp_id fs = []) by (rewrite X; reflexivity). unfold fs in Y. rewrite found_ids in Y.
      assert (Z : In (pp_id p0) []).
      { rewrite <- Y. apply filter_In. split; [exact J0|]. apply existsb_exists. exists p0. split; [exact I0|apply str_eqb_refl]. }
      destruct Z. }
    assert (FI : filled defA defM fs i = TwMeasure (last (map (fun p => match nth_error (pp_measures p) i with Some pm => pm_attrs pm | None => defA end) fs) defA)
             (map (fun p => TwPart (pp_id p) (match nth_error (pp_measures p) i with Some pm => pm_music pm | None => defM end) []) fs) []).
    { clearbody fs. destruct fs; [congruence|reflexivity]. }
    rewrite FI. cbn [tm_parts]. split.
    - rewrite map_map. cbn [tp_id]. unfold fs. rewrite <- found_ids. reflexivity.
    - intros tp HT. apply in_map_iff in HT. destruct HT as (p & <- & HP). cbn [tp_id tp_music].
      unfold fs in HP. apply found_in in HP. destruct HP as (_ & HP). assert (HQ := HP). destruct HQ as (_ & l1 & l2 & EQ & _).
      assert (IN : In p (pw_parts s)) by (rewrite EQ; apply in_or_app; right; left; reflexivity).
      specialize (L p IN). destruct (nth_error (pp_measures p) i) as [pm|] eqn:EN.
      + exists p, pm. auto.
      + apply nth_error_None in EN. lia.
  Qed.

  Lemma convert_twice (d : document A M Hd V PI) : convertible d ->
    exists d', convertContents defA defM d = Ok d' /\ other_form d d' /\ convertContents defA defM d' = Ok d.
  Proof.
    destruct d as [s|t]; cbn [convertible].
    - intros (n & R & O & G & P). destruct (round_trip_exact defA defM s n R O G P) as (t & E & B).
      exists (Timewise t). cbn [convertContents]. rewrite E. cbn [omap obind]. rewrite B. cbn. auto.
    - intros (R & P & O). exists (Partwise (timewisePartwise defA defM t)). cbn [convertContents].
      rewrite (reverse_round_trip_exact defA defM t R P O). cbn. auto.
  Qed.
End P.
