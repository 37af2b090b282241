From Coq Require Import List ZArith Bool Permutation Sorted Lia.
From Verif Require Import Model.Base Model.Text Model.Ticks Model.MeasureTypes Model.ScoreData Spec.Numerals Spec.Sorting Proofs.StringsProofs.
Import ListNotations.
Open Scope Z_scope.

Lemma tick_weak {A} (tick : A -> Z) : strict_weak (fun a b => tick a <? tick b).
Proof.
  split; [intros; apply Z.ltb_irrefl|]. split.
  - intros a b c H1 H2. apply Z.ltb_lt in H1, H2. apply Z.ltb_lt. lia.
  - intros a b c H1 H2 H3 H4. apply Z.ltb_ge in H1, H2, H3, H4. split; apply Z.ltb_ge; lia.
Qed.

Lemma in_order_tick {A} (tick : A -> Z) l : in_order (fun a b => tick a <? tick b) l <-> by_tick tick l.
Proof.
  unfold in_order, by_tick. split; intros H; induction H; constructor; auto; eapply Forall_impl; try eassumption; cbn beta; intros b X.
  - apply Z.ltb_ge in X. exact X.
  - apply Z.ltb_ge. exact X.
Qed.

Lemma sorts {A} (tick : A -> Z) (S : sorter) l : allowed S ->
  Permutation (S A (fun a b => tick a <? tick b) l) l /\ by_tick tick (S A (fun a b => tick a <? tick b) l).
Proof. intros H. destruct (H A _ l (tick_weak tick)) as (P & O). split; [exact P | apply in_order_tick; exact O]. Qed.

Lemma Forall2_map {A B} (R : A -> B -> Prop) f l : (forall x, In x l -> R x (f x)) -> Forall2 R l (map f l).
Proof. induction l as [|x l IH]; intros H; [constructor|]. cbn. constructor; [apply H; left; reflexivity|]. apply IH. intros y Y. apply H. right. exact Y. Qed.

Lemma Forall_map_all {A B} (P : B -> Prop) (f : A -> B) l : (forall x, P (f x)) -> Forall P (map f l).
Proof. intros H. apply Forall_forall. intros y Y. apply in_map_iff in Y. destruct Y as (x & <- & _). apply H. Qed.

Lemma sort_sorted S s : allowed S -> sorted_score (sort_score S s) /\ rearranged s (sort_score S s).
Proof.
  intros H. split.
  - unfold sorted_score, sort_score. cbn [sd_parts]. apply Forall_map_all. intros p. cbn [pd_measures].
    apply Forall_map_all. intros m. cbn [m_staves sort_measure]. apply Forall_map_all. intros st.
    unfold sorted_staff, sort_staff. cbn [s_clefs s_directions s_voices].
    split; [apply sorts; exact H|]. split; [apply sorts; exact H|]. apply Forall_map_all. intros v. cbn [snd]. apply sorts. exact H.
  - unfold rearranged, sort_score. cbn [sd_parts sd_rest]. split; [|reflexivity]. apply Forall2_map. intros p _. cbn [pd_id pd_rest pd_measures].
    do 2 (split; [reflexivity|]). apply Forall2_map. intros m _. unfold rearranged_measure, sort_measure. cbn [m_staves m_time m_number m_implicit m_keys m_barlines].
    split; [|auto 6]. apply Forall2_map. intros st _. unfold rearranged_staff, sort_staff. cbn [s_clefs s_keys s_directions s_voices].
    split; [apply (sorts c_tick); exact H|]. split; [reflexivity|]. split; [apply (sorts d_tick); exact H|].
    apply Forall2_map. intros v _. cbn [fst snd]. split; [reflexivity|]. apply (sorts n_tick). exact H.
Qed.

(** Distinct ticks. *)
Lemma filter_distinct {A} (tick : A -> Z) l t : NoDup (map tick l) ->
  filter (fun x => tick x =? t) l = [] \/ exists x, In x l /\ filter (fun x => tick x =? t) l = [x].
Proof.
  induction l as [|x l IH]; [auto|]. cbn [map]. intros N. inversion N as [|? ? N1 N2]; subst. cbn [filter].
  destruct (Z.eqb_spec (tick x) t) as [E|E].
  - right. exists x. split; [left; reflexivity|]. f_equal. destruct (IH N2) as [->|(y & Y & F)]; [reflexivity|].
    exfalso. apply N1. assert (Z : In y (filter (fun x0 => tick x0 =? t) l)) by (rewrite F; left; reflexivity).
    apply filter_In in Z. destruct Z as (_ & Z). apply Z.eqb_eq in Z. rewrite E, <- Z. apply in_map. exact Y.
  - destruct (IH N2) as [H|(y & Y & F)]; [auto|]. right. exists y. split; [right; exact Y | exact F].
Qed.

Lemma perm_filter {A} (f : A -> bool) l l' : Permutation l l' -> Permutation (filter f l) (filter f l').
Proof.
  intros P. induction P; cbn; [constructor| | |].
  - destruct (f x); [constructor|]; assumption.
  - destruct (f x), (f y); try constructor; try apply Permutation_refl.
  - eapply Permutation_trans; eassumption.
Qed.

Lemma perm_ties {A} (tick : A -> Z) a b : Permutation b a -> NoDup (map tick a) -> same_ties tick a b.
Proof.
  intros P N t. pose proof (perm_filter (fun x => tick x =? t) b a P) as F.
  destruct (filter_distinct tick a t N) as [E|(x & _ & E)]; rewrite E in *.
  - apply Permutation_sym in F. apply Permutation_nil in F. exact F.
  - apply Permutation_sym in F. apply Permutation_length_1_inv in F. exact F.
Qed.

Lemma sorted_unique {A} (tick : A -> Z) a b : Permutation a b -> NoDup (map tick a) -> by_tick tick a -> by_tick tick b -> a = b.
Proof.
  unfold by_tick. revert b. induction a as [|x a IH]; intros b P N Sa Sb; [apply Permutation_nil in P; congruence|].
  destruct b as [|y b]; [apply Permutation_sym, Permutation_nil in P; discriminate|].
  inversion Sa as [|? ? Sa1 Sa2]; subst. inversion Sb as [|? ? Sb1 Sb2]; subst.
  rewrite Forall_forall in Sa2, Sb2. cbn [map] in N. inversion N as [|? ? N1 N2]; subst.
  assert (E : x = y).
  { assert (X : In x (y :: b)) by (eapply Permutation_in; [exact P | left; reflexivity]).
    assert (Y : In y (x :: a)) by (eapply Permutation_in; [apply Permutation_sym; exact P | left; reflexivity]).
    destruct X as [->|X]; [reflexivity|]. destruct Y as [->|Y]; [reflexivity|].
    specialize (Sa2 y Y). specialize (Sb2 x X). cbn beta in *.
    exfalso. apply N1. assert (T : tick x = tick y) by lia. rewrite T. apply in_map. exact Y. }
  subst y. f_equal. apply IH; auto. apply Permutation_cons_inv in P. exact P.
Qed.

Lemma sort_stable S s : allowed S -> distinct s -> stable s (sort_score S s).
Proof.
  intros H D. unfold stable, sort_score. cbn [sd_parts]. unfold distinct in D. rewrite Forall_forall in D.
  apply Forall2_map. intros p P. specialize (D p P). cbn [pd_measures]. rewrite Forall_forall in D.
  apply Forall2_map. intros m M. specialize (D m M). cbn [sort_measure m_staves]. rewrite Forall_forall in D.
  apply Forall2_map. intros st ST. specialize (D st ST). destruct D as (D1 & D2 & D3). unfold stable_staff, sort_staff. cbn [s_clefs s_directions s_voices].
  split; [apply perm_ties; [apply (sorts c_tick); exact H | exact D1]|].
  split; [apply perm_ties; [apply (sorts d_tick); exact H | exact D2]|].
  rewrite Forall_forall in D3. apply Forall2_map. intros v V. cbn [snd]. apply perm_ties; [apply (sorts n_tick); exact H | exact (D3 v V)].
Qed.

Lemma perm_nodup {A} (f : A -> Z) a b : Permutation a b -> NoDup (map f b) -> NoDup (map f a).
Proof. intros P. apply Permutation_NoDup. apply Permutation_map. apply Permutation_sym. exact P. Qed.

Lemma determined {A} (tick : A -> Z) S S' l : allowed S -> allowed S' -> NoDup (map tick l) ->
  S A (fun a b => tick a <? tick b) l = S' A (fun a b => tick a <? tick b) l.
Proof.
  intros H H' N. destruct (sorts tick S l H) as (P & O). destruct (sorts tick S' l H') as (P' & O').
  apply (sorted_unique tick); [|exact (perm_nodup tick _ _ P N)|exact O|exact O'].
  eapply Permutation_trans; [exact P | apply Permutation_sym; exact P'].
Qed.

Lemma unmoved {A} (tick : A -> Z) S l : allowed S -> NoDup (map tick l) -> by_tick tick l -> S A (fun a b => tick a <? tick b) l = l.
Proof.
  intros H N O. destruct (sorts tick S l H) as (P & O'). apply (sorted_unique tick); auto. exact (perm_nodup tick _ _ P N).
Qed.

Lemma map_ext_Forall {A B} (P : A -> Prop) (f g : A -> B) l : Forall P l -> (forall x, P x -> f x = g x) -> map f l = map g l.
Proof. intros F H. induction F; cbn; [reflexivity|]. f_equal; auto. Qed.

Lemma sort_determined S S' s : allowed S -> allowed S' -> distinct s -> sort_score S s = sort_score S' s.
Proof.
  intros H H' D. unfold sort_score. f_equal. eapply map_ext_Forall; [exact D|]. intros p P. f_equal.
  eapply map_ext_Forall; [exact P|]. intros m M. unfold sort_measure. f_equal. eapply map_ext_Forall; [exact M|].
  intros st (D1 & D2 & D3). unfold sort_staff. f_equal.
  - apply (determined c_tick); assumption.
  - apply (determined d_tick); assumption.
  - eapply map_ext_Forall; [exact D3|]. intros v V. cbn beta in V. f_equal. apply (determined n_tick); assumption.
Qed.

Lemma map_same {A} (P : A -> Prop) (f : A -> A) l : Forall P l -> (forall x, P x -> f x = x) -> map f l = l.
Proof. intros F H. rewrite <- (map_id l) at 2. eapply map_ext_Forall; eauto. Qed.

Lemma sort_unmoved S s : allowed S -> distinct s -> sorted_score s -> sort_score S s = s.
Proof.
  intros H D O. unfold sort_score. destruct s as [ps r]. cbn [sd_parts sd_rest]. f_equal.
  pose proof (Forall_and D O) as DO. cbn [sd_parts] in DO. eapply map_same; [exact DO|]. intros [i pr ms] (P & P'). cbn [pd_id pd_rest pd_measures] in *. f_equal.
  pose proof (Forall_and P P') as PP. eapply map_same; [exact PP|]. intros [sts t nu im ks bs] (M & M'). cbn [m_staves] in *. unfold sort_measure. cbn [m_staves m_time m_number m_implicit m_keys m_barlines]. f_equal.
  pose proof (Forall_and M M') as MM. eapply map_same; [exact MM|]. intros [cl ke di vo] ((D1 & D2 & D3) & O1 & O2 & O3). unfold sort_staff. cbn [s_clefs s_keys s_directions s_voices] in *. f_equal.
  - apply (unmoved c_tick); assumption.
  - apply (unmoved d_tick); assumption.
  - pose proof (Forall_and D3 O3) as VV. eapply map_same; [exact VV|]. intros [k ns] (V & V'). cbn [fst snd] in *. f_equal. apply (unmoved n_tick); assumption.
Qed.

(** The two sorts are allowed. *)
Section Insert.
  Context {A : Type} (lt : A -> A -> bool) (W : strict_weak lt).

  Lemma insert_perm x l : Permutation (insert lt x l) (x :: l).
  Proof.
    induction l as [|y l IH]; [apply Permutation_refl|]. cbn. destruct (lt y x); [|apply Permutation_refl].
    eapply Permutation_trans; [apply perm_skip; exact IH|]. apply perm_swap.
  Qed.

  Lemma not_lt_trans a b c : lt b a = false -> lt c b = false -> lt c a = false.
  Proof.
    destruct W as (W1 & W2 & W3). intros H1 H2. destruct (lt c a) eqn:E; [|reflexivity].
    destruct (lt a b) eqn:E1; [rewrite (W2 _ _ _ E E1) in H2; discriminate|].
    destruct (lt b c) eqn:E2; [rewrite (W2 _ _ _ E2 E) in H1; discriminate|].
    destruct (W3 a b c E1 H1 E2 H2). congruence.
  Qed.

  Lemma asym a b : lt a b = true -> lt b a = false.
  Proof.
    destruct W as (W1 & W2 & W3). intros H. destruct (lt b a) eqn:E; [|reflexivity]. specialize (W2 _ _ _ H E). rewrite W1 in W2. discriminate.
  Qed.

  Lemma insert_order x l : in_order lt l -> in_order lt (insert lt x l).
  Proof.
    unfold in_order. induction l as [|y l IH]; intros O; [repeat constructor|]. cbn. inversion O as [|? ? O1 O2]; subst.
    destruct (lt y x) eqn:E.
    - constructor; [apply IH; exact O1|]. apply (Permutation_Forall (Permutation_sym (insert_perm x l))).
      constructor; [apply asym; exact E | exact O2].
    - constructor; [exact O|]. constructor; [exact E|]. eapply Forall_impl; [|exact O2]. cbn beta. intros z Z. exact (not_lt_trans _ _ _ E Z).
  Qed.
End Insert.

Lemma insertion_allowed : allowed insertion_sort.
Proof.
  intros A lt l W. unfold insertion_sort. induction l as [|x l (P & O)]; [split; constructor|]. cbn. split.
  - eapply Permutation_trans; [apply insert_perm|]. apply perm_skip. exact P.
  - apply insert_order; assumption.
Qed.

Lemma turning_allowed : allowed turning_sort.
Proof.
  intros A lt l W. unfold turning_sort.
  assert (G : forall l r, in_order lt r -> Permutation (fold_left (fun r x => insert lt x r) l r) (r ++ l) /\ in_order lt (fold_left (fun r x => insert lt x r) l r)).
  { clear l. induction l as [|x l IH]; intros r O; cbn [fold_left]; [rewrite app_nil_r; auto|].
    destruct (IH (insert lt x r)) as (P & O'); [apply insert_order; assumption|]. split; [|exact O'].
    eapply Permutation_trans; [exact P|]. eapply Permutation_trans; [apply Permutation_app_tail; apply insert_perm|].
    cbn. apply Permutation_middle. }
  destruct (G l []) as (P & O); [constructor|]. auto.
Qed.

(** Counting. *)
Lemma int_of_size_small n : 0 <= n <= int_max -> int_of_size n = n.
Proof. unfold int_of_size, int_max. intros H. rewrite Z.mod_small; lia. Qed.

Lemma largest_from {A} (f : A -> Z) l : forall m, 0 <= m ->
  let n := fold_left (fun m p => larger (f p) m) l m in
  (n = m \/ In n (map f l)) /\ m <= n /\ Forall (fun x => x <= n) (map f l).
Proof.
  induction l as [|x l IH]; intros m Hm; cbn [fold_left map]; [split; [auto|]; split; [lia | constructor]|].
  assert (L : m <= larger (f x) m /\ f x <= larger (f x) m /\ (larger (f x) m = m \/ larger (f x) m = f x)).
  { unfold larger. destruct (Z.ltb_spec m (f x)); lia. }
  destruct L as (L1 & L2 & L3). destruct (IH (larger (f x) m)) as (I1 & I2 & I3); [lia|]. cbv zeta in *.
  split; [|split; [lia|constructor; [lia|exact I3]]].
  destruct I1 as [I1|I1]; [|right; right; exact I1]. destruct L3 as [L3|L3]; [left; congruence | right; left; congruence].
Qed.

Lemma fold_left_ext {A B} (f g : A -> B -> A) l : forall a, (forall a b, In b l -> f a b = g a b) -> fold_left f l a = fold_left g l a.
Proof. induction l as [|b l IH]; intros a H; cbn; [reflexivity|]. rewrite (H a b) by (left; reflexivity). apply IH. intros. apply H. right. assumption. Qed.

Lemma num_measures s : small s -> is_largest (map (fun p => size (pd_measures p)) (sd_parts s)) (getNumMeasures s).
Proof.
  intros (_ & F). unfold getNumMeasures. rewrite Forall_forall in F.
  rewrite (fold_left_ext _ (fun m p => larger (size (pd_measures p)) m)).
  - destruct (largest_from (fun p => size (pd_measures p)) (sd_parts s) 0 ltac:(lia)) as (L1 & L2 & L3). cbv zeta in *. unfold is_largest. tauto.
  - intros m p P. rewrite int_of_size_small; [reflexivity|]. destruct (F p P) as (X & _). unfold size. lia.
Qed.

Lemma num_staves s p : small s -> In p (sd_parts s) -> is_largest (map (fun m => size (m_staves m)) (pd_measures p)) (getNumStaves p).
Proof.
  intros (_ & F) P. unfold getNumStaves. rewrite Forall_forall in F. destruct (F p P) as (_ & G). rewrite Forall_forall in G.
  rewrite (fold_left_ext _ (fun m x => larger (size (m_staves x)) m)).
  - destruct (largest_from (fun m => size (m_staves m)) (pd_measures p) 0 ltac:(lia)) as (L1 & L2 & L3). cbv zeta in *. unfold is_largest. tauto.
  - intros m x X. rewrite int_of_size_small; [reflexivity|]. specialize (G x X). unfold size. cbn beta in G. lia.
Qed.

Lemma num_staves_nonneg p : 0 <= getNumStaves p.
Proof.
  unfold getNumStaves. destruct (largest_from (fun x => int_of_size (size (m_staves x))) (pd_measures p) 0 ltac:(lia)) as (_ & H & _). exact H.
Qed.

Lemma staves_per_system s : let total := fold_right Z.add 0 (map getNumStaves (sd_parts s)) in
  getNumStavesPerSystem s = if total <=? int_max then Ok total else UB.
Proof.
  cbv zeta. unfold getNumStavesPerSystem.
  assert (UBs : forall l, fold_left (fun o p => obind o (fun n => as_int (n + getNumStaves p))) l UB = UB) by (induction l; auto).
  assert (G : forall l n, 0 <= n -> fold_left (fun o p => obind o (fun n => as_int (n + getNumStaves p))) l (if n <=? int_max then Ok n else UB)
    = if n + fold_right Z.add 0 (map getNumStaves l) <=? int_max then Ok (n + fold_right Z.add 0 (map getNumStaves l)) else UB).
  { induction l as [|p l IH]; intros n Hn; cbn [fold_left map fold_right]; [rewrite Z.add_0_r; reflexivity|].
    pose proof (num_staves_nonneg p) as N.
    assert (Z0 : 0 <= fold_right Z.add 0 (map getNumStaves l)) by (clear; induction l as [|q l IH]; cbn; [lia|pose proof (num_staves_nonneg q); lia]).
    rewrite Z.add_assoc, <- (IH (n + getNumStaves p)) by lia. f_equal.
    destruct (Z.leb_spec n int_max); cbn [obind].
    - unfold as_int, in_int. destruct (Z.leb_spec int_min (n + getNumStaves p)); [reflexivity|]. unfold int_min in *. lia.
    - destruct (Z.leb_spec (n + getNumStaves p) int_max); [lia|reflexivity]. }
  specialize (G (sd_parts s) 0 ltac:(lia)). rewrite !Z.add_0_l in G. exact G.
Qed.

Lemma max_voice p : is_largest (map fst (flat_map s_voices (flat_map m_staves (pd_measures p)))) (getMaxVoice p).
Proof.
  assert (E : getMaxVoice p = fold_left (fun m v => larger (fst v) m) (flat_map s_voices (flat_map m_staves (pd_measures p))) 0).
  { unfold getMaxVoice. generalize 0. induction (pd_measures p) as [|x l IH]; intros m; cbn [fold_left flat_map]; [reflexivity|].
    rewrite IH, flat_map_app, fold_left_app. f_equal. clear. revert m.
    induction (m_staves x) as [|st l IH]; intros m; cbn [fold_left flat_map]; [reflexivity|]. rewrite IH, fold_left_app. reflexivity. }
  rewrite E. destruct (largest_from (@fst Z (list NoteData)) (flat_map s_voices (flat_map m_staves (pd_measures p))) 0 ltac:(lia)) as (L1 & L2 & L3).
  cbv zeta in *. unfold is_largest. tauto.
Qed.

Lemma find_part l id : match findPart l id with
  | Some p => pd_id p = id /\ exists l1 l2, l = l1 ++ p :: l2 /\ ~ In id (map pd_id l1)
  | None => ~ In id (map pd_id l) end.
Proof.
  unfold findPart. induction l as [|q l IH]; [cbn; tauto|]. cbn [find]. destruct (str_eqb id (pd_id q)) eqn:E.
  - apply str_eqb_eq in E. split; [auto|]. exists [], l. cbn. auto.
  - assert (N : pd_id q <> id) by (intros X; assert (Y : str_eqb id (pd_id q) = true) by (apply str_eqb_eq; auto); congruence).
    destruct (find _ l) as [p|].
    + destruct IH as (H1 & l1 & l2 & -> & H3). split; [exact H1|]. exists (q :: l1), l2. cbn. split; [reflexivity|tauto].
    + cbn. tauto.
Qed.

(** Locations. *)
Lemma beyond_small {A} i (l : list A) : 0 <= i <= int_max -> size l <= int_max -> l <> [] -> beyond i (size l) = negb (i <? size l).
Proof.
  intros Hi Hl N. unfold beyond, size, int_max in *. assert (1 <= Z.of_nat (List.length l)) by (destruct l; [congruence|cbn [List.length]; lia]).
  rewrite Z.mod_small by lia. destruct (Z.ltb_spec (Z.of_nat (List.length l) - 1) i), (Z.ltb_spec i (Z.of_nat (List.length l))); cbn; lia || reflexivity.
Qed.

Lemma beyond_none {A} i : 0 <= i <= int_max -> beyond i (size (@nil A)) = false.
Proof. intros H. unfold beyond, size, int_max in *. cbn [List.length Z.of_nat]. change ((0 - 1) mod 2 ^ 64) with 18446744073709551615. apply Z.ltb_ge. lia. Qed.

Lemma at_inside {A} (l : list A) i : 0 <= i < size l -> exists x, nth_error l (Z.to_nat i) = Some x.
Proof.
  unfold size. intros H. destruct (nth_error l (Z.to_nat i)) eqn:E; [eauto|]. apply nth_error_None in E. lia.
Qed.

Lemma at_outside {A} (l : list A) i : 0 <= i -> ~ i < size l -> nth_error l (Z.to_nat i) = None.
Proof. unfold size. intros H H1. apply nth_error_None. lia. Qed.

Lemma valid_iff l s : is_int (l_part l) -> is_int (l_staff l) -> is_int (l_measure l) -> small s ->
  sd_parts s <> [] -> Forall (fun p => pd_measures p <> [] /\ Forall (fun m => m_staves m <> []) (pd_measures p)) (sd_parts s) ->
  exists b, isValid l s = Ok b /\ (b = true <-> exists_at l s).
Proof.
  intros I1 I2 I3 (S1 & S2) N1 N2. unfold isValid, exists_at. unfold is_int in *.
  destruct ((l_part l <? 0) || (l_staff l <? 0) || (l_measure l <? 0)) eqn:NEG.
  { exists false. split; [reflexivity|]. split; [discriminate|]. intros (p & m & st & H).
    apply orb_true_iff in NEG. rewrite orb_true_iff in NEG. rewrite !Z.ltb_lt in NEG. lia. }
  apply orb_false_iff in NEG. rewrite orb_false_iff in NEG. rewrite !Z.ltb_ge in NEG. destruct NEG as ((G1 & G2) & G3).
  rewrite beyond_small; [|unfold int_max; lia|exact S1|exact N1].
  destruct (Z.ltb_spec (l_part l) (size (sd_parts s))) as [L1|L1]; cbn [negb].
  2:{ exists false. split; [reflexivity|]. split; [discriminate|]. intros (p & m & st & _ & H & _). rewrite at_outside in H by lia. discriminate. }
  destruct (at_inside (sd_parts s) (l_part l) ltac:(lia)) as (p & P). unfold vector_at. rewrite P. cbn [obind].
  rewrite Forall_forall in S2, N2. assert (IP := nth_error_In _ _ P). destruct (S2 p IP) as (S3 & S4). destruct (N2 p IP) as (N3 & N4).
  rewrite beyond_small; [|unfold int_max; lia|exact S3|exact N3].
  destruct (Z.ltb_spec (l_measure l) (size (pd_measures p))) as [L2|L2]; cbn [negb].
  2:{ exists false. split; [reflexivity|]. split; [discriminate|]. intros (p' & m & st & _ & H & _ & H2 & _). assert (p' = p) by congruence. subst p'. rewrite at_outside in H2 by lia. discriminate. }
  destruct (at_inside (pd_measures p) (l_measure l) ltac:(lia)) as (m & M). rewrite M. cbn [obind].
  rewrite Forall_forall in S4, N4. assert (IM := nth_error_In _ _ M). specialize (S4 m IM). specialize (N4 m IM). cbn beta in *.
  rewrite beyond_small; [|unfold int_max; lia|exact S4|exact N4]. rewrite negb_involutive.
  eexists. split; [reflexivity|]. rewrite Z.ltb_lt. split.
  - intros L3. destruct (at_inside (m_staves m) (l_staff l) ltac:(lia)) as (st & ST). exists p, m, st. auto 8.
  - intros (p' & m' & st & _ & H & _ & H2 & _ & H3). assert (p' = p) by congruence. subst p'. assert (m' = m) by congruence. subst m'.
    destruct (Z.lt_ge_cases (l_staff l) (size (m_staves m))); [assumption|]. rewrite at_outside in H3 by lia. discriminate.
Qed.

(** An empty container on the way. *)
Lemma valid_empty l s : is_int (l_part l) -> is_int (l_staff l) -> is_int (l_measure l) -> 0 <= l_part l -> 0 <= l_staff l -> 0 <= l_measure l ->
  (sd_parts s = [] -> isValid l s = Throw) /\
  (small s -> forall p, nth_error (sd_parts s) (Z.to_nat (l_part l)) = Some p -> pd_measures p = [] -> isValid l s = Throw) /\
  (small s -> forall p m, nth_error (sd_parts s) (Z.to_nat (l_part l)) = Some p -> nth_error (pd_measures p) (Z.to_nat (l_measure l)) = Some m ->
    m_staves m = [] -> isValid l s = Ok true).
Proof.
  unfold is_int. intros I1 I2 I3 G1 G2 G3. unfold isValid.
  assert (NEG : (l_part l <? 0) || (l_staff l <? 0) || (l_measure l <? 0) = false).
  { apply orb_false_iff. rewrite orb_false_iff, !Z.ltb_ge. auto. }
  rewrite NEG. split; [|split].
  - intros E. rewrite E, beyond_none by (unfold int_max; lia). unfold vector_at. destruct (Z.to_nat (l_part l)); reflexivity.
  - intros (S1 & S2) p P E.
    assert (NE : sd_parts s <> []) by (intros X; rewrite X in P; destruct (Z.to_nat (l_part l)); discriminate).
    rewrite beyond_small; [|unfold int_max; lia|exact S1|exact NE].
    assert (L : l_part l < size (sd_parts s)).
    { unfold size. assert (X : (Z.to_nat (l_part l) < List.length (sd_parts s))%nat) by (apply nth_error_Some; congruence). lia. }
    apply Z.ltb_lt in L. rewrite L. cbn [negb]. unfold vector_at. rewrite P. cbn [obind]. rewrite E, beyond_none by (unfold int_max; lia).
    destruct (Z.to_nat (l_measure l)); reflexivity.
  - intros (S1 & S2) p m P M E.
    assert (NE : sd_parts s <> []) by (intros X; rewrite X in P; destruct (Z.to_nat (l_part l)); discriminate).
    assert (NM : pd_measures p <> []) by (intros X; rewrite X in M; destruct (Z.to_nat (l_measure l)); discriminate).
    rewrite beyond_small; [|unfold int_max; lia|exact S1|exact NE].
    assert (L : l_part l < size (sd_parts s)).
    { unfold size. assert (X : (Z.to_nat (l_part l) < List.length (sd_parts s))%nat) by (apply nth_error_Some; congruence). lia. }
    apply Z.ltb_lt in L. rewrite L. cbn [negb]. unfold vector_at. rewrite P. cbn [obind].
    rewrite Forall_forall in S2. destruct (S2 p (nth_error_In _ _ P)) as (S3 & _).
    rewrite beyond_small; [|unfold int_max; lia|exact S3|exact NM].
    assert (L2 : l_measure l < size (pd_measures p)).
    { unfold size. assert (X : (Z.to_nat (l_measure l) < List.length (pd_measures p))%nat) by (apply nth_error_Some; congruence). lia. }
    apply Z.ltb_lt in L2. rewrite L2. cbn [negb]. rewrite M. cbn [obind]. rewrite E, beyond_none by (unfold int_max; lia). reflexivity.
Qed.
