From Coq Require Import List Permutation Lia Arith.
From Verif Require Import Proofs.Tac Model.Base Model.Text Model.Conversions Spec.Scores Proofs.StringsProofs.
Import ListNotations.
Open Scope nat_scope.

Section P.
  Context {A M Hd V PI : Type} (defA : A) (defM : M).
  Local Notation part := (pw_part A M PI).
  Local Notation score := (score_pw A M Hd V PI).
  Local Notation tscore := (score_tw A M Hd V PI).

  Lemma str_eqb_refl a : str_eqb a a = true.
  Proof. apply str_eqb_eq. reflexivity. Qed.

  Lemma find_pw_first id (l : list part) p : find_pw id l = Some p <-> first_part id l p.
  Proof.
    unfold find_pw, first_part. induction l as [|q l IH]; cbn.
    - split; [discriminate|]. intros (_ & l1 & l2 & E & _). destruct l1; discriminate.
    - destruct (str_eqb (pp_id q) id) eqn:E.
      + apply str_eqb_eq in E. split.
        * intros H. inversion H; subst. split; [reflexivity|]. exists [], l. cbn. auto.
        * intros (E1 & l1 & l2 & E2 & N). destruct l1 as [|r l1]; cbn in *.
          -- inversion E2; subst. reflexivity.
          -- inversion E2; subst. exfalso. apply N. left. congruence.
      + rewrite IH. split.
        * intros (E1 & l1 & l2 & E2 & N). split; [exact E1|]. exists (q :: l1), l2. subst l. split; [reflexivity|].
          cbn. intros [H|H]; [|contradiction]. apply str_eqb_eq in H. congruence.
        * intros (E1 & l1 & l2 & E2 & N). split; [exact E1|]. destruct l1 as [|r l1]; cbn in *.
          -- inversion E2; subst. rewrite str_eqb_refl in E. discriminate.
          -- inversion E2; subst. exists l1, l2. split; [reflexivity|]. intros H. apply N. auto.
  Qed.

  Lemma find_pw_in id (l : list part) p : find_pw id l = Some p -> In p l /\ pp_id p = id.
  Proof. intros H. unfold find_pw in H. apply find_some in H. rewrite str_eqb_eq in H. exact H. Qed.

  Lemma find_pw_nodup (l : list part) p : NoDup (map pp_id l) -> In p l -> find_pw (pp_id p) l = Some p.
  Proof.
    unfold find_pw. induction l as [|q l IH]; cbn; [contradiction|]. intros N [H|H].
    - subst. rewrite str_eqb_refl. reflexivity.
    - inversion N as [|? ? N1 N2]; subst. destruct (str_eqb (pp_id q) (pp_id p)) eqn:E; [|auto].
      apply str_eqb_eq in E. exfalso. apply N1. rewrite E. apply in_map. exact H.
  Qed.

  Lemma find_tw_nodup (l : list (tw_part M PI)) p : NoDup (map tp_id l) -> In p l -> find_tw (tp_id p) l = Some p.
  Proof.
    unfold find_tw. induction l as [|q l IH]; cbn; [contradiction|]. intros N [H|H].
    - subst. rewrite str_eqb_refl. reflexivity.
    - inversion N as [|? ? N1 N2]; subst. destruct (str_eqb (tp_id q) (tp_id p)) eqn:E; [|auto].
      apply str_eqb_eq in E. exfalso. apply N1. rewrite E. apply in_map. exact H.
  Qed.

  Definition found (parts : list part) (ids : list str) : list part :=
    flat_map (fun id => match find_pw id parts with Some p => [p] | None => [] end) ids.

  Lemma found_cons parts id r : found parts (id :: r) = match find_pw id parts with Some p => [p] | None => [] end ++ found parts r.
  Proof. reflexivity. Qed.

  Definition cell (i : nat) (p : part) : option (tw_part M PI) :=
    option_map (fun pm => TwPart (pp_id p) (pm_music pm) []) (nth_error (pp_measures p) i).

  Lemma fill_ub parts i ids : forall b m,
    (fill_measure parts i b m ids = UB <-> exists p, In p (found parts ids) /\ List.length (pp_measures p) <= i).
  Proof.
    induction ids as [|id r IH]; intros b m; [cbn|rewrite found_cons; cbn [fill_measure]].
    - split; [discriminate|]. intros (p & [] & _).
    - destruct (find_pw id parts) as [p|] eqn:E; cbn [app].
      + destruct (nth_error (pp_measures p) i) as [pm|] eqn:E1.
        * rewrite IH. split.
          -- intros (q & H & L). exists q. split; [right; exact H|exact L].
          -- intros (q & [H|H] & L); [|exists q; split; assumption].
             subst q. assert (nth_error (pp_measures p) i <> None) by congruence.
             apply nth_error_Some in H. lia.
        * split; [|reflexivity]. intros _. exists p. apply nth_error_None in E1. split; [left; reflexivity|exact E1].
      + apply IH.
  Qed.

  Lemma fill_nothrow parts i ids : forall b m, fill_measure (A:=A) (M:=M) (PI:=PI) parts i b m ids <> Throw.
  Proof.
    induction ids as [|id r IH]; intros b m; cbn; [discriminate|].
    destruct (find_pw id parts); [destruct (nth_error _ i); [apply IH|discriminate]|apply IH].
  Qed.

  (** What a filled measure holds. *)
  Lemma fill_ok parts i ids : forall b m r,
    fill_measure parts i b m ids = Ok r ->
    exists pms, map (fun p : part => nth_error (pp_measures p) i) (found parts ids) = map Some pms /\
      tm_pis r = tm_pis m /\
      tm_attrs r = last (map pm_attrs pms) (tm_attrs m) /\
      tm_parts r = (if b then match pms with [] => tm_parts m
                              | _ => map (fun pp => TwPart (pp_id (fst pp)) (pm_music (snd pp)) []) (combine (found parts ids) pms) ++ tl (tm_parts m) end
                    else tm_parts m ++ map (fun pp => TwPart (pp_id (fst pp)) (pm_music (snd pp)) []) (combine (found parts ids) pms))
      \/ b = true /\ List.length (tm_parts m) <> 1.
  Proof.
    induction ids as [|id r IH]; intros b m res H; [cbn in *|rewrite found_cons; cbn [fill_measure] in H].
    - inversion H; subst. exists []. left. do 3 (split; [reflexivity|]). destruct b; [reflexivity|]. cbn. rewrite app_nil_r. reflexivity.
    - destruct (find_pw id parts) as [p|] eqn:E; cbn [app]; [|apply IH; exact H].
      destruct (nth_error (pp_measures p) i) as [pm|] eqn:E1; [|discriminate].
      apply IH in H. destruct H as (pms & [(H1 & H2 & H3 & H4)|[? _]]); [|discriminate].
      destruct b.
      + destruct (Nat.eq_dec (List.length (tm_parts m)) 1) as [L|L]; [|exists []; right; auto].
        exists (pm :: pms). left. cbn [map app]. rewrite E1, H1. split; [reflexivity|].
        cbn [tm_pis tm_attrs tm_parts] in *. split; [exact H2|]. split.
        * rewrite H3. destruct (map pm_attrs pms) as [|a l]; [reflexivity|]. cbn. clear. revert a. induction l as [|b l IH]; intros a; [reflexivity|]. cbn. apply IH.
        * rewrite H4. cbn. destruct (tm_parts m) as [|x [|y l]]; cbn in *; try discriminate. rewrite app_nil_r. reflexivity.
      + exists (pm :: pms). left. cbn [map app]. rewrite E1, H1. split; [reflexivity|].
        cbn [tm_pis tm_attrs tm_parts] in *. split; [exact H2|]. split.
        * rewrite H3. destruct (map pm_attrs pms) as [|a l]; [reflexivity|]. cbn. clear. revert a. induction l as [|b l IH]; intros a; [reflexivity|]. cbn. apply IH.
        * rewrite H4. rewrite <- app_assoc. reflexivity.
  Qed.

  (** Direct form: all found parts long enough. *)
  Definition filled (ps : list part) (i : nat) : tw_measure A M PI :=
    match ps with
    | [] => new_tw_measure defA defM
    | _ => TwMeasure (last (map (fun p => match nth_error (pp_measures p) i with Some pm => pm_attrs pm | None => defA end) ps) defA)
             (map (fun p => TwPart (pp_id p) (match nth_error (pp_measures p) i with Some pm => pm_music pm | None => defM end) []) ps) []
    end.

  Lemma cells fs : forall i pms, map (fun p : part => nth_error (pp_measures p) i) fs = map Some pms ->
    map (fun p => match nth_error (pp_measures p) i with Some pm => pm_attrs pm | None => defA end) fs = map pm_attrs pms /\
    map (fun p => TwPart (PI:=PI) (pp_id p) (match nth_error (pp_measures p) i with Some pm => pm_music pm | None => defM end) []) fs
    = map (fun pp => TwPart (pp_id (fst pp)) (pm_music (snd pp)) []) (combine fs pms).
  Proof.
    induction fs as [|f fs IH]; intros i [|pm pms] H; cbn in *; try discriminate; [auto|].
    injection H as X Y. destruct (IH _ _ Y) as (IA & IB). rewrite X, IA, IB. auto.
  Qed.

  Lemma fill_filled parts i ids : (forall p, In p (found parts ids) -> i < List.length (pp_measures p)) ->
    fill_measure parts i true (new_tw_measure defA defM) ids = Ok (filled (found parts ids) i).
  Proof.
    intros L. destruct (fill_measure parts i true (new_tw_measure defA defM) ids) as [r| |] eqn:E.
    - apply fill_ok in E. destruct E as (pms & [(H1 & H2 & H3 & H4)|[_ H]]); [|exfalso; apply H; reflexivity].
      f_equal. destruct r as [a ps pis]. cbn in H2, H3, H4. subst a pis. unfold filled.
      destruct (cells _ _ _ H1) as (HA & HB).
      destruct (found parts ids) as [|f fs].
      + destruct pms; [|discriminate]. cbn in H4. subst ps. reflexivity.
      + rewrite HA, HB. destruct pms as [|pm pms]; [discriminate|]. rewrite H4, app_nil_r. reflexivity.
    - exfalso. revert E. apply fill_nothrow.
    - exfalso. apply fill_ub in E. destruct E as (p & H & H1). specialize (L p H). lia.
  Qed.

  Lemma fill_measures_ok (s : score) is :
    (forall i p, In i is -> In p (found (pw_parts s) (listed (pw_header s))) -> i < List.length (pp_measures p)) ->
    fill_measures defA defM s is = Ok (map (filled (found (pw_parts s) (listed (pw_header s)))) is).
  Proof.
    induction is as [|i r IH]; intros H; cbn [fill_measures]; [reflexivity|].
    rewrite fill_filled by (intros p Hp; apply (H i); [left; reflexivity|exact Hp]). cbn.
    rewrite IH by (intros j p Hj; apply H; right; exact Hj). reflexivity.
  Qed.

  Lemma fill_measures_ub (s : score) is :
    fill_measures defA defM s is = UB <->
    exists i p, In i is /\ In p (found (pw_parts s) (listed (pw_header s))) /\ List.length (pp_measures p) <= i.
  Proof.
    induction is as [|i r IH]; cbn [fill_measures].
    - split; [discriminate|]. intros (i & p & [] & _).
    - destruct (fill_measure (pw_parts s) i true (new_tw_measure defA defM) (listed (pw_header s))) as [m| |] eqn:E; cbn [obind].
      + assert (N : forall p, In p (found (pw_parts s) (listed (pw_header s))) -> ~ List.length (pp_measures p) <= i).
        { intros p Hp L. assert (X : fill_measure (pw_parts s) i true (new_tw_measure defA defM) (listed (pw_header s)) = UB).
          { apply fill_ub. eauto. } congruence. }
        destruct (fill_measures defA defM s r) as [ms| |]; cbn [obind].
        * split; [discriminate|]. intros (j & p & [H|H] & Hp & L); [subst; exfalso; eapply N; eauto|].
          destruct IH as [_ IH]. assert (Ok ms = UB) by (apply IH; eauto). discriminate.
        * split; [discriminate|]. intros (j & p & [H|H] & Hp & L); [subst; exfalso; eapply N; eauto|].
          destruct IH as [_ IH]. assert (@Throw (list (tw_measure A M PI)) = UB) by (apply IH; eauto). discriminate.
        * split; [|reflexivity]. intros _. destruct IH as [IH _]. destruct (IH eq_refl) as (j & p & H & Hp & L). exists j, p. cbn; auto.
      + exfalso. revert E. apply fill_nothrow.
      + split; [|reflexivity]. intros _. apply fill_ub in E. destruct E as (p & Hp & L). exists i, p. cbn; auto.
  Qed.

  Lemma fill_measures_nothrow (s : score) is : fill_measures defA defM s is <> Throw.
  Proof.
    induction is as [|i r IH]; cbn [fill_measures]; [discriminate|].
    destruct (fill_measure (pw_parts s) i true _ _) eqn:E; cbn [obind]; [|exfalso; revert E; apply fill_nothrow|discriminate].
    destruct (fill_measures defA defM s r); cbn [obind]; [discriminate|congruence|discriminate].
  Qed.

  (** measureCount is the maximum. *)
  Lemma measureCount_from (l : list part) : forall n,
    let r := fold_left (fun n p => if Nat.ltb n (List.length (pp_measures p)) then List.length (pp_measures p) else n) l n in
    n <= r /\ (forall p, In p l -> List.length (pp_measures p) <= r) /\ (r = n \/ exists p, In p l /\ List.length (pp_measures p) = r).
  Proof.
    induction l as [|q l IH]; intros n; cbv zeta; cbn [fold_left].
    - split; [lia|]. split; [contradiction|auto].
    - specialize (IH (if Nat.ltb n (List.length (pp_measures q)) then List.length (pp_measures q) else n)). cbv zeta in IH.
      destruct IH as (H1 & H2 & H3). destruct (Nat.ltb_spec n (List.length (pp_measures q))).
      + split; [lia|]. split; [intros p [E|E]; [subst; lia|auto]|].
        destruct H3 as [H3|(p & H3 & H4)]; right; [exists q; split; [left; reflexivity|symmetry; exact H3]|exists p; split; [right; exact H3|exact H4]].
      + split; [lia|]. split; [intros p [E|E]; [subst; lia|auto]|].
        destruct H3 as [H3|(p & H3 & H4)]; [left; exact H3|right; exists p; split; [right; exact H3|exact H4]].
  Qed.

  Lemma measureCount_max (l : list part) :
    (forall p, In p l -> List.length (pp_measures p) <= measureCount l) /\
    (measureCount l = 0 \/ exists p, In p l /\ List.length (pp_measures p) = measureCount l).
  Proof. destruct (measureCount_from l 0) as (_ & H). exact H. Qed.

  Lemma found_in (parts : list part) ids p : In p (found parts ids) <-> In (pp_id p) ids /\ first_part (pp_id p) parts p.
  Proof.
    unfold found. rewrite in_flat_map. split.
    - intros (id & H & H1). destruct (find_pw id parts) as [q|] eqn:E; [|destruct H1]. destruct H1 as [H1|[]]. subst q.
      pose proof (find_pw_in _ _ _ E) as (_ & E1). subst id. split; [exact H|]. apply find_pw_first. exact E.
    - intros (H & H1). exists (pp_id p). split; [exact H|]. apply find_pw_first in H1. rewrite H1. left. reflexivity.
  Qed.

  Lemma to_timewise_nothrow (s : score) : partwiseTimewise defA defM s <> Throw.
  Proof.
    unfold partwiseTimewise. destruct (fill_measures defA defM s _) eqn:E; cbn; [discriminate| |discriminate].
    exfalso. revert E. apply fill_measures_nothrow.
  Qed.

  Lemma to_timewise_ub (s : score) : partwiseTimewise defA defM s = UB <->
    exists p q, In (pp_id p) (listed (pw_header s)) /\ first_part (pp_id p) (pw_parts s) p /\
      In q (pw_parts s) /\ List.length (pp_measures p) < List.length (pp_measures q).
  Proof.
    unfold partwiseTimewise. destruct (measureCount_max (pw_parts s)) as (M1 & M2).
    transitivity (fill_measures defA defM s (seq 0 (measureCount (pw_parts s))) = UB).
    { destruct (fill_measures defA defM s _); cbn; split; congruence. }
    rewrite fill_measures_ub. split.
    - intros (i & p & Hi & Hp & L). apply in_seq in Hi. apply found_in in Hp. destruct Hp as (Hp1 & Hp2).
      destruct M2 as [M2|(q & Hq & E)]; [lia|]. exists p, q. split; [exact Hp1|]. split; [exact Hp2|]. split; [exact Hq|]. lia.
    - intros (p & q & H1 & H2 & H3 & L). specialize (M1 q H3). exists (List.length (pp_measures p)), p.
      split; [apply in_seq; lia|]. split; [apply found_in; auto|lia].
  Qed.

  (** The whole conversion when no part is too short. *)
  Lemma to_timewise_value (s : score) n :
    (forall p, In p (pw_parts s) -> List.length (pp_measures p) = n) -> pw_parts s <> [] ->
    partwiseTimewise defA defM s =
    Ok (ScoreTw (pw_header s) (pw_version s)
          (match n with O => [new_tw_measure defA defM] | _ => map (filled (found (pw_parts s) (listed (pw_header s)))) (seq 0 n) end) []).
  Proof.
    intros H NE. assert (E : measureCount (pw_parts s) = n).
    { destruct (measureCount_max (pw_parts s)) as (M1 & [M2|(q & Hq & E)]).
      - destruct (pw_parts s) as [|p l]; [congruence|]. rewrite <- (H p (or_introl eq_refl)) in *. specialize (M1 p (or_introl eq_refl)). lia.
      - rewrite <- E. apply H. exact Hq. }
    unfold partwiseTimewise. rewrite E, fill_measures_ok.
    - destruct n as [|n]; reflexivity.
    - intros i p Hi Hp. apply in_seq in Hi. apply found_in in Hp. destruct Hp as (_ & _ & l1 & l2 & E1 & _).
      rewrite (H p); [lia|]. rewrite E1. apply in_or_app. right. left. reflexivity.
  Qed.

  Lemma found_listed (s : score) n : rectangular_pw n s ->
    map pp_id (found (pw_parts s) (listed (pw_header s))) = listed (pw_header s) /\
    Permutation (found (pw_parts s) (listed (pw_header s))) (pw_parts s).
  Proof.
    intros (_ & N & P & _).
    assert (N1 : NoDup (map pp_id (pw_parts s))) by (eapply Permutation_NoDup; [apply Permutation_sym; exact P|exact N]).
    assert (G : forall ids, (forall id, In id ids -> In id (map pp_id (pw_parts s))) ->
      map pp_id (found (pw_parts s) ids) = ids).
    { induction ids as [|id r IH]; intros H; [reflexivity|]. cbn.
      assert (Hid : In id (map pp_id (pw_parts s))) by (apply H; left; reflexivity).
      apply in_map_iff in Hid. destruct Hid as (p & E & Hp). subst id. rewrite (find_pw_nodup _ _ N1 Hp).
      cbn. f_equal. apply IH. intros x Hx. apply H. right. exact Hx. }
    assert (G1 : map pp_id (found (pw_parts s) (listed (pw_header s))) = listed (pw_header s)).
    { apply G. intros id Hid. eapply Permutation_in; [apply Permutation_sym; exact P|exact Hid]. }
    split; [exact G1|]. apply NoDup_Permutation.
    - apply (NoDup_map_inv pp_id). rewrite G1. exact N.
    - apply (NoDup_map_inv pp_id). exact N1.
    - intros p. rewrite found_in, <- find_pw_first. split.
      + intros (_ & E). apply find_pw_in in E. tauto.
      + intros Hp. split; [|apply find_pw_nodup; assumption].
        eapply Permutation_in; [exact P|]. apply in_map. exact Hp.
  Qed.

  Lemma map_nth_default {X Y} (f : X -> Y) d : forall l,
    map (fun i => match nth_error l i with Some x => f x | None => d end) (seq 0 (List.length l)) = map f l.
  Proof.
    induction l as [|x l IH]; [reflexivity|]. cbn [List.length seq map nth_error]. f_equal.
    rewrite <- seq_shift, map_map. cbn [nth_error]. exact IH.
  Qed.

  (** Timewise contents. *)
  Lemma to_timewise_contents (s : score) n : rectangular_pw n s -> exists t,
    partwiseTimewise defA defM s = Ok t /\ tw_header t = pw_header s /\ tw_version t = pw_version s /\ tw_pis t = [] /\
    List.length (tw_measures t) = n /\
    (forall i tm, nth_error (tw_measures t) i = Some tm ->
      map tp_id (tm_parts tm) = listed (pw_header s) /\ tm_pis tm = [] /\
      (forall tp, In tp (tm_parts tm) -> tp_pis tp = [] /\
        exists p pm, In p (pw_parts s) /\ pp_id p = tp_id tp /\ nth_error (pp_measures p) i = Some pm /\ tp_music tp = pm_music pm) /\
      (exists p pm, In p (pw_parts s) /\ pp_id p = last (listed (pw_header s)) (pp_id p) /\ nth_error (pp_measures p) i = Some pm /\ tm_attrs tm = pm_attrs pm)).
  Proof.
    intros R. pose proof (found_listed s n R) as (F1 & F2). destruct R as (Hn & N & P & L).
    assert (NE : pw_parts s <> []).
    { intros E. rewrite E in P. cbn in P. apply Permutation_nil in P. discriminate. }
    eexists. split; [apply (to_timewise_value s n); assumption|]. cbn [tw_header tw_version tw_measures tw_pis].
    do 3 (split; [reflexivity|]). destruct n as [|n]; [congruence|].
    split; [rewrite map_length, seq_length; reflexivity|].
    intros i tm H. rewrite nth_error_map in H. destruct (nth_error (seq 0 (S n)) i) as [j|] eqn:E; [|discriminate].
    assert (Hi : i < S n). { rewrite <- (seq_length (S n) 0). apply nth_error_Some. congruence. }
    assert (j = i). { apply nth_error_nth with (d := 0) in E. rewrite seq_nth in E by exact Hi. cbn in E. lia. }
    subst j. cbn [option_map] in H. assert (TM : tm = filled (found (pw_parts s) (listed (pw_header s))) i) by congruence. rewrite TM. clear TM H.
    set (fs := found (pw_parts s) (listed (pw_header s))) in *.
    assert (IN : forall p, In p fs -> In p (pw_parts s)) by (intros p; apply Permutation_in; exact F2).
    assert (NTH : forall p, In p fs -> exists pm, nth_error (pp_measures p) i = Some pm).
    { intros p Hp. specialize (L p (IN p Hp)). destruct (nth_error (pp_measures p) i) eqn:E1; [eauto|]. apply nth_error_None in E1. lia. }
    assert (NN : fs <> []) by (intros X; rewrite X in F1; discriminate).
    assert (FI : filled fs i = TwMeasure (last (map (fun p => match nth_error (pp_measures p) i with Some pm => pm_attrs pm | None => defA end) fs) defA)
             (map (fun p => TwPart (pp_id p) (match nth_error (pp_measures p) i with Some pm => pm_music pm | None => defM end) []) fs) []).
    { clearbody fs. destruct fs; [congruence|reflexivity]. }
    rewrite FI. clear FI.
    cbn [tm_parts tm_attrs tm_pis].
    split; [rewrite map_map; cbn; exact F1|]. split; [reflexivity|]. split.
    - intros tp Hp. apply in_map_iff in Hp. destruct Hp as (p & E1 & Hp). subst tp. cbn. split; [reflexivity|].
      destruct (NTH p Hp) as (pm & E1). exists p, pm. rewrite E1. auto.
    - assert (LAST : exists p, In p fs /\ pp_id p = last (listed (pw_header s)) (pp_id p) /\
        last (map (fun p => match nth_error (pp_measures p) i with Some pm => pm_attrs pm | None => defA end) fs) defA =
        match nth_error (pp_measures p) i with Some pm => pm_attrs pm | None => defA end).
      { rewrite <- F1. assert (fs <> []) by (intros X; rewrite X in F1; discriminate). clear - H.
        destruct (exists_last H) as (l & x & E). rewrite E. exists x. split; [apply in_or_app; right; left; reflexivity|].
        rewrite !map_app. cbn. split; rewrite last_last; reflexivity. }
      destruct LAST as (p & Hp & E1 & E2). destruct (NTH p Hp) as (pm & E3). exists p, pm. rewrite E2, E3. auto.
  Qed.

  (** There and back. *)
  Definition back (fs : list part) (n : nat) (p : part) : part :=
    PwPart (pp_id p) (map (fun i => PwMeasure
          (last (map (fun p => match nth_error (pp_measures p) i with Some pm => pm_attrs pm | None => defA end) fs) defA)
          (match nth_error (pp_measures p) i with Some pm => pm_music pm | None => defM end) []) (seq 0 n)) [].

  Lemma round_trip_value (s : score) n : rectangular_pw n s -> exists t, partwiseTimewise defA defM s = Ok t /\
    let fs := found (pw_parts s) (listed (pw_header s)) in
    timewisePartwise defA defM t = ScorePw (pw_header s) (pw_version s) (map (back fs n) fs) [].
  Proof.
    intros R. pose proof (found_listed s n R) as (F1 & F2). destruct R as (Hn & N & P & L).
    assert (NE : pw_parts s <> []).
    { intros E. rewrite E in P. cbn in P. apply Permutation_nil in P. discriminate. }
    eexists. split; [apply (to_timewise_value s n); assumption|]. cbn zeta. destruct n as [|n]; [congruence|].
    unfold timewisePartwise. cbn [tw_header tw_version tw_measures].
    set (fs := found (pw_parts s) (listed (pw_header s))) in *. f_equal. rewrite <- F1, map_map.
    apply map_ext_in. intros p Hp. unfold back. f_equal.
    transitivity (map (take_measure defM (pp_id p)) (map (filled fs) (seq 0 (S n)))); [reflexivity|].
    rewrite map_map. apply map_ext. intros i. unfold take_measure.
    assert (NN : fs <> []) by (intros X; rewrite X in F1; discriminate).
    assert (FI : filled fs i = TwMeasure (last (map (fun p => match nth_error (pp_measures p) i with Some pm => pm_attrs pm | None => defA end) fs) defA)
             (map (fun p => TwPart (pp_id p) (match nth_error (pp_measures p) i with Some pm => pm_music pm | None => defM end) []) fs) []).
    { clearbody fs. destruct fs; [congruence|reflexivity]. }
    rewrite FI. cbn [tm_attrs tm_parts]. f_equal.
    set (g := fun p : part => TwPart (PI:=PI) (pp_id p) (match nth_error (pp_measures p) i with Some pm => pm_music pm | None => defM end) []).
    assert (FT : find_tw (pp_id p) (map g fs) = Some (g p)).
    { change (pp_id p) with (tp_id (g p)). apply find_tw_nodup; [|apply in_map; exact Hp].
      rewrite map_map. change (NoDup (map pp_id fs)). rewrite F1. exact N. }
    rewrite FT. reflexivity.
  Qed.

  Lemma back_music fs n p : List.length (pp_measures p) = n ->
    map pm_music (pp_measures (back fs n p)) = map pm_music (pp_measures p).
  Proof. intros E. unfold back. cbn. rewrite map_map. cbn. subst n. apply map_nth_default. Qed.

  Lemma back_attrs fs n p q l : fs = l ++ [q] -> List.length (pp_measures q) = n ->
    map pm_attrs (pp_measures (back fs n p)) = map pm_attrs (pp_measures q).
  Proof.
    intros E L. unfold back. cbn. rewrite map_map. cbn. subst n fs. rewrite <- (map_nth_default pm_attrs defA).
    apply map_ext. intros i. rewrite map_app. cbn. rewrite last_last. reflexivity.
  Qed.

  Lemma round_trip (s : score) n : rectangular_pw n s -> exists t,
    partwiseTimewise defA defM s = Ok t /\
    let s' := timewisePartwise defA defM t in
    pw_header s' = pw_header s /\ pw_version s' = pw_version s /\
    map pp_id (pw_parts s') = listed (pw_header s) /\
    (forall p, In p (pw_parts s) -> exists p', In p' (pw_parts s') /\ same_music p p') /\
    (forall p', In p' (pw_parts s') -> exists p, In p (pw_parts s) /\ same_music p p') /\
    (exists q, In q (pw_parts s) /\ pp_id q = last (listed (pw_header s)) (pp_id q) /\
      forall p', In p' (pw_parts s') -> map pm_attrs (pp_measures p') = map pm_attrs (pp_measures q)).
  Proof.
    intros R. destruct (round_trip_value s n R) as (t & E & V0). exists t. split; [exact E|]. cbn zeta in *. rewrite V0.
    pose proof (found_listed s n R) as (F1 & F2). destruct R as (Hn & N & P & L).
    set (fs := found (pw_parts s) (listed (pw_header s))) in *. cbn [pw_header pw_version pw_parts].
    do 2 (split; [reflexivity|]).
    assert (IN : forall p, In p fs -> In p (pw_parts s)) by (intros p; apply Permutation_in; exact F2).
    assert (NI : forall p, In p (pw_parts s) -> In p fs) by (intros p; apply Permutation_in, Permutation_sym; exact F2).
    split; [rewrite map_map; exact F1|].
    split; [|split].
    - intros p Hp. exists (back fs n p). split; [apply in_map, NI, Hp|]. split; [reflexivity|]. symmetry. apply back_music. auto.
    - intros p' Hp. apply in_map_iff in Hp. destruct Hp as (p & <- & Hp). exists p. split; [auto|]. split; [reflexivity|]. symmetry. apply back_music. auto.
    - assert (NN : fs <> []) by (intros X; rewrite X in F1; discriminate).
      destruct (exists_last NN) as (l & q & EQ). exists q. assert (Hq : In q fs) by (rewrite EQ; apply in_or_app; right; left; reflexivity).
      split; [auto|]. split.
      + rewrite <- F1, EQ, map_app. cbn. rewrite last_last. reflexivity.
      + intros p' Hp. apply in_map_iff in Hp. destruct Hp as (p & <- & Hp). eapply back_attrs; eauto.
  Qed.

  Lemma measures_eq : forall l l' : list (pw_measure A M PI), map pm_music l = map pm_music l' -> map pm_attrs l = map pm_attrs l' ->
    (forall m, In m l -> pm_pis m = []) -> (forall m, In m l' -> pm_pis m = []) -> l = l'.
  Proof.
    induction l as [|[a m p] l IH]; intros [|[a' m' p'] l'] H1 H2 H3 H4; cbn in *; try discriminate; [reflexivity|].
    injection H1 as E1 E2. injection H2 as E3 E4.
    pose proof (H3 _ (or_introl eq_refl)) as X. pose proof (H4 _ (or_introl eq_refl)) as Y. cbn in X, Y. subst. f_equal. apply IH; auto.
  Qed.

  Lemma nodup_keys_perm {X} (f : X -> str) (l l' : list X) : NoDup (map f l) -> map f l = map f l' ->
    (forall x, In x l -> In x l') -> l = l'.
  Proof.
    revert l'. induction l as [|x l IH]; intros [|y l'] N E I; cbn in *; try discriminate; [reflexivity|].
    injection E as E1 E2. inversion N as [|? ? N1 N2]; subst.
    assert (x = y). { destruct (I x (or_introl eq_refl)) as [H|H]; [auto|]. exfalso. apply N1. rewrite E2. apply in_map. exact H. }
    subst y. f_equal. apply IH; auto. intros z Hz. destruct (I z (or_intror Hz)) as [H|H]; [|exact H].
    subst z. exfalso. apply N1. apply in_map. exact Hz.
  Qed.

  Lemma round_trip_exact (s : score) n : rectangular_pw n s -> map pp_id (pw_parts s) = listed (pw_header s) ->
    agreeing s -> plain_pw s -> exists t, partwiseTimewise defA defM s = Ok t /\ timewisePartwise defA defM t = s.
  Proof.
    intros R O G (PL1 & PL). destruct (round_trip_value s n R) as (t & E & V0). exists t. split; [exact E|]. cbn zeta in V0. rewrite V0.
    pose proof (found_listed s n R) as (F1 & F2). destruct R as (Hn & N & P & L).
    set (fs := found (pw_parts s) (listed (pw_header s))) in *.
    assert (IN : forall p, In p fs -> In p (pw_parts s)) by (intros p; apply Permutation_in; exact F2).
    assert (FS : fs = pw_parts s).
    { apply (nodup_keys_perm pp_id); [rewrite F1; exact N|congruence|exact IN]. }
    rewrite FS. clear FS IN F1 F2 V0. clear fs. destruct s as [h v ps pis]. cbn in *. subst pis. f_equal.
    transitivity (map (fun p => p) ps); [|apply map_id]. apply map_ext_in. intros p Hp.
    assert (NN : ps <> []) by (intros X; subst ps; contradiction).
    destruct (exists_last NN) as (l & q & EQ).
    assert (Hq : In q ps) by (rewrite EQ; apply in_or_app; right; left; reflexivity).
    pose proof (back_attrs ps n p q l EQ (L q Hq)) as BA. pose proof (back_music ps n p (L p Hp)) as BM.
    rewrite (G q p Hq Hp) in BA. destruct (PL p Hp) as (PL2 & PL3).
    assert (ME : pp_measures (back ps n p) = pp_measures p).
    { apply measures_eq; [exact BM|exact BA| |exact PL3]. intros m Hm. unfold back in Hm. cbn in Hm. apply in_map_iff in Hm. destruct Hm as (i & <- & _). reflexivity. }
    destruct p as [id ms pi]. cbn in *. subst pi. unfold back in *. cbn in *. rewrite ME. reflexivity.
  Qed.

  (** Timewise to partwise. *)
  Lemma to_partwise_contents (t : tscore) : rectangular_tw t ->
    let s := timewisePartwise defA defM t in
    pw_header s = tw_header t /\ pw_version s = tw_version t /\
    rectangular_pw (List.length (tw_measures t)) s /\ map pp_id (pw_parts s) = listed (tw_header t) /\ agreeing s /\ plain_pw s /\
    (forall p i pm, In p (pw_parts s) -> nth_error (pp_measures p) i = Some pm ->
      exists tm tp, nth_error (tw_measures t) i = Some tm /\ In tp (tm_parts tm) /\ tp_id tp = pp_id p /\
        pm_music pm = tp_music tp /\ pm_attrs pm = tm_attrs tm).
  Proof.
    intros (NE & N & P). cbn zeta. unfold timewisePartwise. destruct (tw_measures t) as [|m0 ms0] eqn:EM; [congruence|]. rewrite <- EM in *.
    cbn [pw_header pw_version pw_parts pw_pis].
    assert (IDS : map pp_id (map (fun id => PwPart id (map (take_measure defM id) (tw_measures t)) []) (listed (tw_header t))) = listed (tw_header t)).
    { rewrite map_map. apply map_id. }
    do 2 (split; [reflexivity|]).
    split; [|split; [|split; [|split]]].
    - unfold rectangular_pw. cbn [pw_header pw_parts]. split; [rewrite EM; discriminate|]. split; [exact N|]. split; [rewrite IDS; reflexivity|].
      intros p Hp. apply in_map_iff in Hp. destruct Hp as (id & <- & Hp). cbn. apply map_length.
    - exact IDS.
    - intros p q Hp Hq. cbn [pw_parts] in Hp, Hq. apply in_map_iff in Hp, Hq. destruct Hp as (id & <- & Hp). destruct Hq as (id' & <- & Hq).
      cbn. rewrite !map_map. reflexivity.
    - split; [reflexivity|]. intros p Hp. apply in_map_iff in Hp. destruct Hp as (id & <- & Hp). split; [reflexivity|]. cbn. intros m Hm.
      apply in_map_iff in Hm. destruct Hm as (x & <- & Hm). reflexivity.
    - intros p i pm Hp H. apply in_map_iff in Hp. destruct Hp as (id & <- & Hp). cbn [pp_measures pp_id] in *.
      rewrite nth_error_map in H. destruct (nth_error (tw_measures t) i) as [tm|] eqn:E; [|discriminate]. injection H as <-. exists tm.
      assert (Htm : In tm (tw_measures t)) by (eapply nth_error_In; exact E).
      specialize (P tm Htm). assert (X : In id (map tp_id (tm_parts tm))) by (eapply Permutation_in; [apply Permutation_sym; exact P|exact Hp]).
      apply in_map_iff in X. destruct X as (tp & E1 & X). exists tp. do 3 (split; [auto|]). cbn. split; [|reflexivity].
      assert (FT : find_tw id (tm_parts tm) = Some tp).
      { rewrite <- E1. apply find_tw_nodup; [|exact X]. eapply Permutation_NoDup; [apply Permutation_sym; exact P|exact N]. }
      rewrite FT. reflexivity.
  Qed.

  Lemma reverse_round_trip (t : tscore) : rectangular_tw t -> plain_tw t -> exists t',
    partwiseTimewise defA defM (timewisePartwise defA defM t) = Ok t' /\
    tw_header t' = tw_header t /\ tw_version t' = tw_version t /\ tw_pis t' = tw_pis t /\
    Forall2 (fun m m' => tm_attrs m' = tm_attrs m /\ tm_pis m' = tm_pis m /\
      Permutation (tm_parts m') (tm_parts m) /\ map tp_id (tm_parts m') = listed (tw_header t)) (tw_measures t) (tw_measures t').
  Proof.
    intros R (PT1 & PT). pose proof (to_partwise_contents t R) as (H1 & H2 & H3 & H4 & H5 & H6 & H7).
    set (s := timewisePartwise defA defM t) in *.
    destruct (to_timewise_contents s _ H3) as (t' & E & T1 & T2 & T3 & T4 & T5). exists t'.
    split; [exact E|]. split; [congruence|]. split; [congruence|]. split; [congruence|].
    destruct R as (NE & N & P). rewrite H1 in T5.
    assert (G : forall i m m', nth_error (tw_measures t) i = Some m -> nth_error (tw_measures t') i = Some m' ->
      tm_attrs m' = tm_attrs m /\ tm_pis m' = tm_pis m /\
      Permutation (tm_parts m') (tm_parts m) /\ map tp_id (tm_parts m') = listed (tw_header t)).
    { intros i m m' Em Em'. destruct (T5 i m' Em') as (I1 & I2 & I3 & I4).
      assert (Hm : In m (tw_measures t)) by (eapply nth_error_In; exact Em). destruct (PT m Hm) as (PM1 & PM2).
      split; [|split; [|split]].
      - destruct I4 as (p & pm & A1 & A2 & A3 & A4). destruct (H7 p i pm A1 A3) as (tm & tp & B1 & B2 & B3 & B4 & B5). congruence.
      - congruence.
      - assert (NM : NoDup (map tp_id (tm_parts m))) by (eapply Permutation_NoDup; [apply Permutation_sym; apply P; exact Hm|exact N]).
        assert (SUB : forall tp, In tp (tm_parts m') -> In tp (tm_parts m)).
        { intros tp Htp. destruct (I3 tp Htp) as (J1 & p & pm & A1 & A2 & A3 & A4).
          destruct (H7 p i pm A1 A3) as (tm & tp0 & B1 & B2 & B3 & B4 & B5).
          assert (tm = m) by congruence. subst tm. destruct tp as [id mu pi], tp0 as [id0 mu0 pi0]. cbn in *.
          pose proof (PM2 _ B2) as X. cbn in X. subst. congruence. }
        apply NoDup_Permutation_bis.
        + apply (NoDup_map_inv tp_id). rewrite I1. exact N.
        + rewrite <- (map_length tp_id (tm_parts m)), (Permutation_length (P m Hm)), <- I1, map_length. lia.
        + exact SUB.
      - exact I1. }
    clear - G T4. revert G T4. generalize (tw_measures t') as l', (tw_measures t) as l.
    induction l' as [|m' l' IH]; intros [|m l] G L; cbn in *; try discriminate; constructor.
    - apply (G 0 m m'); reflexivity.
    - apply IH; [|lia]. intros i. apply (G (S i)).
  Qed.

  Lemma reverse_round_trip_exact (t : tscore) : rectangular_tw t -> plain_tw t ->
    (forall m, In m (tw_measures t) -> map tp_id (tm_parts m) = listed (tw_header t)) ->
    partwiseTimewise defA defM (timewisePartwise defA defM t) = Ok t.
  Proof.
    intros R PT O. destruct (reverse_round_trip t R PT) as (t' & E & H1 & H2 & H3 & H4). rewrite E. f_equal.
    destruct R as (_ & N & _). destruct t as [h v ms pis], t' as [h' v' ms' pis']. cbn in *. subst. f_equal.
    clear E PT. induction H4 as [|m m' l l' (A1 & A2 & A3 & A4) F IH]; [reflexivity|]. f_equal.
    - destruct m as [a ps p], m' as [a' ps' p']. cbn in *. subst. f_equal.
      apply (nodup_keys_perm tp_id); [rewrite A4; exact N|rewrite A4; symmetry; apply (O _ (or_introl eq_refl))|].
      intros x. apply Permutation_in. exact A3.
    - apply IH. intros x Hx. apply O. right. exact Hx.
  Qed.
End P.
