From Coq Require Import List ZArith Bool Permutation Sorted Lia.
From Verif Require Import Model.Base Model.Text Model.Strings Model.ApiEnums Model.CoreEnums Model.EnumLookup Model.ConverterTables Model.ScoreData Model.PartGroups.
From Verif Require Import Spec.Numerals Spec.Sorting Spec.Groups Proofs.StringsProofs Proofs.SortProofs.
Import ListNotations.
Open Scope Z_scope.

Notation number g := (number_or_none (g_number g)).

Definition opened (g : PartGroupData) : PartGroupData :=
  mkGroup (g_first g) (-1) (g_name g) [] [] []
    (match g_bracket g with Some api_BracketType_unspecified => None | b => b end) (number g).

Definition good (g : PartGroupData) : Prop := g_number g <= int_max /\ g_bracket g <> None.

Definition xstart (g : PartGroupData) : part_group :=
  match makePartGroupStart g with Ok x => x | _ => makePartGroupStop g end.

Lemma starts_ok i l : Forall good l -> starts i l = Ok (map xstart (filter (fun g => g_first g =? i) l)).
Proof.
  intros F. unfold starts, findPartGroupsByStartIndex. induction F as [|g l (H1 & H2) F IH]; [reflexivity|].
  cbn [filter]. destruct (g_first g =? i); [|exact IH]. cbn [fold_right map]. rewrite IH. unfold xstart, makePartGroupStart.
  destruct (g_bracket g); [reflexivity|contradiction].
Qed.

Lemma number_parsed g x : good g -> xg_number x = number_attribute g -> parsePartGroupNumber x = Ok (number g).
Proof.
  intros (H & _) E. unfold parsePartGroupNumber. rewrite E. unfold number_attribute, number_or_none.
  destruct (Z.leb_spec 0 (g_number g)); [|reflexivity].
  assert (stringToInt (print_int (g_number g)) = Ok (Some (g_number g))) as ->; [|reflexivity].
  apply stringToInt_success. split; [unfold is_int; unfold int_max in H; lia|reflexivity].
Qed.

Lemma start_read g i st out : good g -> g_first g = i -> handlePartGroup i (xstart g) (st, out) = Ok (opened g :: st, out).
Proof.
  intros G E. assert (X : xg_start (xstart g) = true /\ xg_number (xstart g) = number_attribute g).
  { destruct G as (_ & G). unfold xstart, makePartGroupStart. destruct (g_bracket g); [auto|contradiction]. }
  destruct X as (X1 & X2). unfold handlePartGroup. rewrite X1. unfold startPartGroup.
  rewrite (number_parsed g _ G X2). cbn [omap obind fst snd]. do 2 f_equal. unfold opened. destruct G as (_ & G).
  unfold xstart, makePartGroupStart. destruct (g_bracket g) as [b|]; [|contradiction]. cbn [xg_name xg_abbreviation xg_symbol].
  rewrite E. f_equal. f_equal; [destruct (g_name g); reflexivity|]. destruct b; reflexivity.
Qed.

Lemma starts_read i gs : forall st out, Forall good gs -> Forall (fun g => g_first g = i) gs ->
  handle_groups i (map xstart gs) (st, out) = Ok (map opened (rev gs) ++ st, out).
Proof.
  induction gs as [|g gs IH]; intros st out F1 F2; [reflexivity|]. inversion F1; subst. inversion F2; subst. cbn [map handle_groups].
  rewrite start_read by auto. cbn [obind]. rewrite IH by assumption. cbn [rev]. rewrite map_app, <- app_assoc. reflexivity.
Qed.

(** The order of the stack: the one on top ends first, of the groups with the same number. *)
Definition stacked (a b : PartGroupData) : Prop := number a = number b -> g_last a <= g_last b.

Lemma pop_opened k T : (exists g, In g T /\ number g = k) ->
  exists g T1 T2, T = T1 ++ g :: T2 /\ number g = k /\ (forall h, In h T1 -> number h <> k) /\
    popGroupFromStack k (map opened T) = Some (opened g, map opened (T1 ++ T2)) /\ groupNumberExistsOnStack k (map opened T) = true.
Proof.
  induction T as [|a T IH]; intros (g & G & K); [destruct G|]. unfold groupNumberExistsOnStack. cbn [map popGroupFromStack existsb].
  change (g_number (opened a)) with (number a). destruct (Z.eqb_spec (number a) k) as [E|E].
  - exists a, [], T. cbn. repeat split; auto; tauto.
  - destruct G as [->|G]; [contradiction|]. destruct IH as (h & T1 & T2 & -> & H1 & H2 & H3 & H4); [eauto|].
    exists h, (a :: T1), T2. rewrite H3. cbn [option_map fst snd app map orb]. repeat split; auto. intros x [<-|X]; auto.
Qed.

Lemma sorted_remove {A} (R : A -> A -> Prop) a x b : StronglySorted R (a ++ x :: b) -> StronglySorted R (a ++ b) /\ Forall (R x) b.
Proof.
  induction a as [|y a IH]; cbn; intros H; inversion H as [|? ? H1 H2]; subst; [auto|].
  destruct (IH H1) as (I1 & I2). split; [|exact I2]. constructor; [exact I1|]. rewrite Forall_app in *. destruct H2 as (H2 & H3). inversion H3; auto.
Qed.

Lemma stop_read i g k T out h : StronglySorted stacked T -> Forall (fun x => i <= g_last x) T ->
  In h T -> number h = k -> g_last h = i -> 0 <= i -> parsePartGroupNumber g = Ok k -> xg_start g = false ->
  exists a T1 T2, T = T1 ++ a :: T2 /\ number a = k /\ g_last a = i /\
    handlePartGroup (i + 1) g (map opened T, out) = Ok (map opened (T1 ++ T2), out ++ [kept_group a]).
Proof.
  intros SS FL IH NK LI I0 PN XS. destruct (pop_opened k T) as (a & T1 & T2 & E & A1 & A2 & A3 & A4); [eauto|].
  assert (LA : g_last a = i).
  { rewrite E in SS, IH, FL. apply sorted_remove in SS. destruct SS as (_ & SS). rewrite Forall_forall in SS.
    apply in_app_or in IH. destruct IH as [IH|[IH|IH]].
    - exfalso. exact (A2 h IH NK).
    - congruence.
    - specialize (SS h IH). unfold stacked in SS. rewrite Forall_forall in FL. specialize (FL a (in_elt _ _ _)). cbn beta in FL.
      specialize (SS ltac:(congruence)). lia. }
  exists a, T1, T2. repeat split; auto. unfold handlePartGroup. rewrite XS. unfold stopPartGroup. cbn [fst snd].
  destruct (map opened T) as [|x r] eqn:EM; [cbn in A4; discriminate|]. rewrite PN. cbn [obind]. rewrite A4, A3.
  destruct (Z.ltb_spec 0 (i + 1)); [|lia]. unfold kept_group. cbn. rewrite LA. replace (i + 1 - 1) with i by lia. reflexivity.
Qed.

Definition closing (i : Z) (g : PartGroupData) : bool := g_last g =? i.

Lemma stops_read i : 0 <= i -> forall gs T out, Forall good gs -> StronglySorted stacked T -> Forall (fun x => i <= g_last x) T ->
  Permutation (map (fun g => number g) gs) (map (fun g => number g) (filter (closing i) T)) ->
  exists out', handle_groups (i + 1) (map makePartGroupStop gs) (map opened T, out) = Ok (map opened (filter (fun g => negb (closing i g)) T), out ++ out') /\
    Permutation out' (map kept_group (filter (closing i) T)).
Proof.
  intros I0. induction gs as [|g gs IH]; intros T out G SS FL P.
  - cbn [map] in P. apply Permutation_nil in P. exists []. cbn [map handle_groups]. rewrite app_nil_r.
    apply map_eq_nil in P. split; [|rewrite P; constructor]. do 3 f_equal. clear - P. induction T as [|x T IH]; [reflexivity|].
    cbn [filter] in *. destruct (closing i x) eqn:E; [discriminate|]. cbn [negb]. f_equal. apply IH. exact P.
  - inversion G as [|? ? G1 G2]; subst. cbn [map] in P.
    assert (IN : In (number g) (map (fun g => number g) (filter (closing i) T))) by (eapply Permutation_in; [exact P | left; reflexivity]).
    apply in_map_iff in IN. destruct IN as (h & NK & H). apply filter_In in H. destruct H as (H1 & H2). unfold closing in H2. apply Z.eqb_eq in H2.
    destruct (stop_read i (makePartGroupStop g) (number g) T out h) as (a & T1 & T2 & -> & A1 & A2 & A3); auto.
    { apply number_parsed; [exact G1|reflexivity]. }
    assert (CA : closing i a = true) by (unfold closing; apply Z.eqb_eq; exact A2).
    cbn [map handle_groups]. rewrite A3. cbn [obind].
    destruct (IH (T1 ++ T2) (out ++ [kept_group a])) as (out' & O1 & O2); auto.
    + apply sorted_remove in SS. tauto.
    + rewrite Forall_app in *. destruct FL as (F1 & F2). inversion F2; auto.
    + rewrite filter_app, map_app in *. cbn [filter] in P. rewrite CA in P. cbn [map] in P. rewrite A1 in P.
      eapply Permutation_cons_inv. eapply Permutation_trans; [exact P|]. apply Permutation_sym, Permutation_middle.
    + exists (kept_group a :: out'). split.
      * rewrite O1, <- app_assoc. cbn [app]. rewrite !filter_app. cbn [filter]. rewrite CA. reflexivity.
      * rewrite filter_app in *. cbn [filter]. rewrite CA. rewrite map_app in *. cbn [map].
        eapply Permutation_trans; [|apply Permutation_middle]. apply perm_skip. exact O2.
Qed.

(** One part. *)
Lemma FOP_filter {A} (R : A -> A -> Prop) f l : ForallOrdPairs R l -> ForallOrdPairs R (filter f l).
Proof.
  induction 1 as [|x l F FO IH]; [constructor|]. cbn. destruct (f x); [|exact IH]. constructor; [|exact IH].
  rewrite Forall_forall in *. intros y Y. apply filter_In in Y. apply F. tauto.
Qed.

Lemma sorted_app {A} (R : A -> A -> Prop) a b : StronglySorted R a -> StronglySorted R b -> (forall x y, In x a -> In y b -> R x y) -> StronglySorted R (a ++ b).
Proof.
  induction 1 as [|x a H IH F]; intros B H2; [exact B|]. cbn. constructor; [apply IH; [exact B|intros; apply H2; [right|]; assumption]|].
  rewrite Forall_app. split; [exact F|]. apply Forall_forall. intros y Y. apply H2; [left; reflexivity|exact Y].
Qed.

Lemma FOP_rev {A} (R : A -> A -> Prop) l : ForallOrdPairs R l -> StronglySorted (fun a b => R b a) (rev l).
Proof.
  induction 1 as [|x l F FO IH]; [constructor|]. cbn [rev]. apply sorted_app; [exact IH|repeat constructor|].
  intros a y A1 [<-|[]]. rewrite Forall_forall in F. apply F. apply in_rev. exact A1.
Qed.

Lemma perm_split {A} (f g : A -> bool) l : (forall x, In x l -> f x = true -> g x = false) ->
  Permutation (filter (fun x => f x || g x) l) (filter f l ++ filter g l).
Proof.
  induction l as [|x l IH]; intros H; [constructor|]. cbn [filter].
  assert (IH' := IH (fun y Y => H y (or_intror Y))). destruct (f x) eqn:F.
  - rewrite (H x (or_introl eq_refl) F). cbn [orb]. cbn. apply perm_skip. exact IH'.
  - cbn [orb]. destruct (g x); [|exact IH']. eapply Permutation_trans; [apply perm_skip; exact IH'|]. apply Permutation_middle.
Qed.

Lemma filter_ext_In {A} (f g : A -> bool) l : (forall x, In x l -> f x = g x) -> filter f l = filter g l.
Proof. induction l as [|x l IH]; intros H; [reflexivity|]. cbn. rewrite (H x (or_introl eq_refl)), IH; [reflexivity|]. intros. apply H. right. assumption. Qed.

Lemma filter_filter {A} (f g : A -> bool) l : filter f (filter g l) = filter (fun x => g x && f x) l.
Proof. induction l as [|x l IH]; [reflexivity|]. cbn. destruct (g x) eqn:E; cbn; [destruct (f x)|]; rewrite IH; reflexivity. Qed.

Section Loop.
  Variables (count : nat) (l : list PartGroupData).
  Hypothesis GOOD : Forall good l.
  Hypothesis WITHIN : Forall (within count) l.
  Hypothesis FOP : ForallOrdPairs distinguishable l.

  (** Before part i: the open groups are on the stack, the closed ones have been read. *)
  Definition before (i : Z) (T out : list PartGroupData) : Prop :=
    StronglySorted stacked T /\
    Permutation T (filter (fun g => (g_first g <? i) && (i <=? g_last g)) l) /\
    Permutation out (map kept_group (filter (fun g => g_last g <? i) l)).
  Definition inside_part (i : Z) (T out : list PartGroupData) : Prop :=
    StronglySorted stacked T /\
    Permutation T (filter (fun g => (g_first g <=? i) && (i <=? g_last g)) l) /\
    Permutation out (map kept_group (filter (fun g => g_last g <? i) l)).

  Definition opening (i : Z) : list PartGroupData := filter (fun g => g_first g =? i) l.

  Lemma in_facts g : In g l -> good g /\ within count g.
  Proof. intros H. rewrite Forall_forall in *. auto. Qed.

  Lemma start_part i T out : before i T out ->
    inside_part i (rev (opening i) ++ T) out /\
    handle_groups i (map xstart (opening i)) (map opened T, out) = Ok (map opened (rev (opening i) ++ T), out).
  Proof.
    intros (B1 & B2 & B3). split.
    - split; [|split; [|exact B3]].
      + apply sorted_app; [|exact B1|].
        * assert (F : ForallOrdPairs (fun a b => stacked b a) (opening i)).
          { assert (F : ForallOrdPairs distinguishable (opening i)) by (apply FOP_filter; exact FOP).
            assert (FI : Forall (fun g => g_first g = i /\ within count g) (opening i)).
            { apply Forall_forall. intros g G. apply filter_In in G. destruct G as (G1 & G2). apply Z.eqb_eq in G2. split; [exact G2|]. apply in_facts. exact G1. }
            clear - F FI. induction F as [|x r FX FO IH]; [constructor|]. inversion FI as [|? ? FI1 FI2]; subst. constructor; [|apply IH; exact FI2].
            rewrite Forall_forall in *. intros y Y. specialize (FX y Y). destruct (FI2 y Y) as (E & W). destruct FI1 as (E1 & W1).
            unfold distinguishable, same_number, stacked, apart, inside, within in *. intros N. specialize (FX (eq_sym N)). lia. }
          exact (FOP_rev _ _ F).
        * intros x y X Y. apply in_rev in X. apply filter_In in X. destruct X as (X1 & X2). apply Z.eqb_eq in X2.
          apply (Permutation_in _ B2) in Y. apply filter_In in Y. destruct Y as (Y1 & Y2). apply andb_true_iff in Y2. rewrite Z.ltb_lt, Z.leb_le in Y2.
          destruct (in_facts x X1) as (_ & WX). destruct (in_facts y Y1) as (_ & WY).
          destruct (ForallOrdPairs_In FOP x y X1 Y1) as [->|[D|D]]; [lia| |];
            unfold distinguishable, same_number, stacked, apart, inside, within in *; intros N; [specialize (D N)|specialize (D (eq_sym N))]; lia.
      + eapply Permutation_trans; [apply Permutation_app; [apply Permutation_sym, Permutation_rev|exact B2]|].
        unfold opening. rewrite (filter_ext_In (fun g => (g_first g <=? i) && (i <=? g_last g)) (fun g => (g_first g =? i) || ((g_first g <? i) && (i <=? g_last g)))).
        * apply Permutation_sym. apply perm_split. intros x _ X. apply Z.eqb_eq in X. apply andb_false_iff. left. apply Z.ltb_ge. lia.
        * intros x X. destruct (in_facts x X) as (_ & W). unfold within in W.
          destruct (Z.leb_spec (g_first x) i), (Z.leb_spec i (g_last x)), (Z.eqb_spec (g_first x) i), (Z.ltb_spec (g_first x) i); cbn; lia || reflexivity.
    - rewrite map_app. apply starts_read.
      + apply Forall_forall. intros g G. apply filter_In in G. apply in_facts. tauto.
      + apply Forall_forall. intros g G. apply filter_In in G. apply Z.eqb_eq. tauto.
  Qed.

  Lemma stop_part S i T out : allowed S -> 0 <= i -> inside_part i T out ->
    exists T' out', handle_groups (i + 1) (stops S i l) (map opened T, out) = Ok (map opened T', out') /\ before (i + 1) T' out'.
  Proof.
    intros AS I0 (B1 & B2 & B3). unfold stops, findPartGroupsByStopIndex.
    assert (SP : Permutation (S PartGroupData reverseStopsCompare (filter (fun g => g_last g =? i) l)) (filter (fun g => g_last g =? i) l)).
    { apply AS. unfold reverseStopsCompare. destruct (tick_weak (fun g => - g_number g)) as (W1 & W2 & W3).
      split; [intros; apply Z.ltb_irrefl|]. split.
      - intros a b c H1 H2. rewrite Z.ltb_lt in *. lia.
      - intros a b c H1 H2 H3 H4. rewrite !Z.ltb_ge in *. lia. }
    assert (CL : Permutation (filter (closing i) T) (filter (fun g => g_last g =? i) l)).
    { eapply Permutation_trans; [apply perm_filter; exact B2|]. rewrite filter_filter. erewrite filter_ext_In; [apply Permutation_refl|].
      intros x X. destruct (in_facts x X) as (_ & W). unfold within in W. unfold closing.
      destruct (Z.leb_spec (g_first x) i), (Z.leb_spec i (g_last x)), (Z.eqb_spec (g_last x) i); cbn; lia || reflexivity. }
    assert (IT : forall x, In x T -> In x l /\ g_first x <= i <= g_last x).
    { intros x X. apply (Permutation_in _ B2) in X. apply filter_In in X. destruct X as (X & Y). apply andb_true_iff in Y. rewrite !Z.leb_le in Y. auto. }
    destruct (stops_read i I0 (S PartGroupData reverseStopsCompare (filter (fun g => g_last g =? i) l)) T out) as (out' & O1 & O2); auto.
    - apply Forall_forall. intros g G. apply (Permutation_in _ SP) in G. apply filter_In in G. apply in_facts. tauto.
    - apply Forall_forall. intros x X. destruct (IT x X). lia.
    - apply Permutation_map. eapply Permutation_trans; [exact SP|]. apply Permutation_sym. exact CL.
    - exists (filter (fun g => negb (closing i g)) T), (out ++ out'). split; [exact O1|]. split; [|split].
      + clear - B1. induction B1 as [|x T H IH F]; [constructor|]. cbn. destruct (negb (closing i x)); [|exact IH].
        constructor; [exact IH|]. rewrite Forall_forall in *. intros y Y. apply filter_In in Y. apply F. tauto.
      + eapply Permutation_trans; [apply perm_filter; exact B2|]. rewrite filter_filter. erewrite filter_ext_In; [apply Permutation_refl|].
        intros x X. unfold closing.
        destruct (Z.leb_spec (g_first x) i), (Z.leb_spec i (g_last x)), (Z.eqb_spec (g_last x) i), (Z.ltb_spec (g_first x) (i + 1)), (Z.leb_spec (i + 1) (g_last x)); cbn; lia || reflexivity.
      + eapply Permutation_trans; [apply Permutation_app; [exact B3|]|].
        * eapply Permutation_trans; [exact O2|]. apply Permutation_map. exact CL.
        * rewrite <- map_app. apply Permutation_map. apply Permutation_sym.
          erewrite filter_ext_In; [apply perm_split|].
          -- intros x _ X. apply Z.ltb_lt in X. apply Z.eqb_neq. lia.
          -- intros x X. cbn beta. destruct (Z.ltb_spec (g_last x) (i + 1)), (Z.ltb_spec (g_last x) i), (Z.eqb_spec (g_last x) i); cbn; lia || reflexivity.
  Qed.

  Lemma handle_app i a : forall b s, handle_all i (map PartGroup a ++ b) s = obind (handle_groups i a s) (handle_all i b).
  Proof. induction a as [|x a IH]; intros b s; [reflexivity|]. cbn [map app handle_all handle_groups]. destruct (handlePartGroup i x s); cbn [obind]; auto. Qed.

  Lemma parts_read S : allowed S -> forall n i T out, 0 <= i -> before i T out ->
    exists x T' out', add_parts S l i n = Ok x /\ handle_all i x (map opened T, out) = Ok (map opened T', out') /\ before (i + Z.of_nat n) T' out'.
  Proof.
    intros AS. induction n as [|n IH]; intros i T out I0 B.
    - exists [], T, out. rewrite Z.add_0_r. auto.
    - destruct (start_part i T out B) as (B1 & H1). destruct (stop_part S i _ out AS I0 B1) as (T' & out' & H2 & B2).
      destruct (IH (i + 1) T' out' ltac:(lia) B2) as (x & T'' & out'' & E & H3 & B3).
      cbn [add_parts]. rewrite (starts_ok i l GOOD), E. cbn [obind omap]. eexists _, T'', out''. split; [reflexivity|]. split.
      + rewrite handle_app. unfold opening in H1, H2. rewrite H1. cbn [obind app handle_all]. rewrite handle_app, H2. cbn [obind]. exact H3.
      + replace (i + Z.of_nat (Datatypes.S n)) with (i + 1 + Z.of_nat n) by lia. exact B3.
  Qed.

  Lemma nothing_before : before 0 [] [].
  Proof.
    split; [constructor|]. split.
    - rewrite (filter_ext_In _ (fun _ => false)).
      + clear. induction l as [|x r IH]; [constructor|exact IH].
      + intros x X. destruct (in_facts x X) as (_ & W). unfold within in W. apply andb_false_iff. left. apply Z.ltb_ge. lia.
    - rewrite (filter_ext_In _ (fun _ => false)).
      + clear. induction l as [|x r IH]; [constructor|exact IH].
      + intros x X. destruct (in_facts x X) as (_ & W). unfold within in W. apply Z.ltb_ge. lia.
  Qed.
End Loop.

Lemma sorting_weak : strict_weak sortingCompare.
Proof.
  unfold sortingCompare. split; [|split].
  - intros a. rewrite !Z.ltb_irrefl. reflexivity.
  - intros a b c. repeat match goal with |- context [?x <? ?y] => destruct (Z.ltb_spec x y) end; intros; try discriminate; try reflexivity; lia.
  - intros a b c. repeat match goal with |- context [?x <? ?y] => destruct (Z.ltb_spec x y) end; intros; try discriminate; auto; lia.
Qed.

Lemma sorting_order l : in_order sortingCompare l -> StronglySorted group_le l.
Proof.
  unfold in_order. induction 1 as [|x l H IH F]; constructor; auto. eapply Forall_impl; [|exact F]. cbn beta. intros y. unfold sortingCompare, group_le.
  repeat match goal with |- context [?x <? ?y] => destruct (Z.ltb_spec x y) end; intros; try discriminate; lia.
Qed.

Lemma all_last count l : Forall (within count) l -> filter (fun g => g_last g <? Z.of_nat count) l = l.
Proof.
  induction 1 as [|x l H F IH]; [reflexivity|]. cbn. unfold within in H. destruct (Z.ltb_spec (g_last x) (Z.of_nat count)); [|lia]. f_equal. exact IH.
Qed.

Lemma groups_back S S' count l : allowed S -> allowed S' -> proper_groups count l ->
  exists x l', write_groups S count l = Ok x /\ read_groups S' x = Ok l' /\
    Permutation l' (map kept_group l) /\ StronglySorted group_le l'.
Proof.
  intros AS AS' (P1 & P2).
  assert (GOOD : Forall good l) by (eapply Forall_impl; [|exact P1]; cbn beta; intros g (_ & H); exact H).
  assert (WI : Forall (within count) l) by (eapply Forall_impl; [|exact P1]; cbn beta; intros g (H & _); exact H).
  destruct count as [|n].
  - destruct l as [|g l]; [|inversion WI as [|? ? W _]; unfold within in W; lia].
    exists (mkPartList [] []), []. split; [reflexivity|]. destruct (AS' PartGroupData sortingCompare [] sorting_weak) as (SP & _). apply Permutation_sym, Permutation_nil in SP.
    split; [unfold read_groups; cbn; rewrite SP; reflexivity|]. split; constructor.
  - pose proof (nothing_before (Datatypes.S n) l GOOD WI) as B.
    destruct (start_part (Datatypes.S n) l GOOD WI P2 0 [] [] B) as (B1 & H1).
    destruct (stop_part (Datatypes.S n) l GOOD WI S 0 _ [] AS ltac:(lia) B1) as (T' & out' & H2 & B2).
    destruct (parts_read (Datatypes.S n) l GOOD WI P2 S AS n 1 T' out' ltac:(lia) B2) as (x & T'' & out'' & E & H3 & _ & _ & B3).
    unfold write_groups. rewrite (starts_ok 0 l GOOD), E. cbn [obind omap]. eexists _, _. split; [reflexivity|].
    split.
    + unfold read_groups. cbn [pl_before pl_after]. unfold opening in H1, H2. cbn [map] in H1. rewrite H1. cbn [obind]. rewrite handle_app.
      change (0 + 1) with 1 in H2. rewrite H2. cbn [obind]. rewrite H3. cbn [omap obind snd]. reflexivity.
    + replace (1 + Z.of_nat n) with (Z.of_nat (Datatypes.S n)) in B3 by lia. rewrite (all_last (Datatypes.S n) l WI) in B3.
      destruct (AS' PartGroupData sortingCompare out'' sorting_weak) as (SP & SO). split; [|apply sorting_order; exact SO].
      eapply Permutation_trans; [exact SP | exact B3].
Qed.

(** With distinct numbers. *)
Lemma distinct_distinguishable l : distinctly_numbered l -> ForallOrdPairs distinguishable l.
Proof.
  induction 1 as [|x l F FO IH]; constructor; auto. eapply Forall_impl; [|exact F]. cbn beta. unfold distinguishable. intros y H N. left. exact (H N).
Qed.

Lemma kept_five g : -1 <= g_number g -> g_bracket g <> Some api_BracketType_unspecified -> five (kept_group g) = five g.
Proof.
  intros H1 H2. unfold five, kept_group. cbn [g_first g_last g_number g_name g_bracket].
  assert (number g = g_number g) as -> by (unfold number_or_none; destruct (Z.leb_spec 0 (g_number g)); lia).
  f_equal. destruct (g_bracket g) as [[]|]; try reflexivity. contradiction.
Qed.

Lemma groups_five S S' count l : allowed S -> allowed S' ->
  Forall (fun g => within count g /\ -1 <= g_number g <= int_max /\ g_bracket g <> None /\ g_bracket g <> Some api_BracketType_unspecified) l ->
  ForallOrdPairs distinguishable l ->
  exists x l', write_groups S count l = Ok x /\ read_groups S' x = Ok l' /\ Permutation (map five l') (map five l).
Proof.
  intros AS AS' F D. destruct (groups_back S S' count l AS AS') as (x & l' & H1 & H2 & H3 & _).
  - split; [|exact D]. eapply Forall_impl; [|exact F]. cbn beta. intros g. tauto.
  - exists x, l'. split; [exact H1|]. split; [exact H2|]. eapply Permutation_trans; [apply Permutation_map; exact H3|].
    rewrite map_map. erewrite map_ext_Forall; [apply Permutation_refl|exact F|]. cbn beta. intros g (_ & (N & _) & _ & B). apply kept_five; assumption.
Qed.

(** The result is the same for all sorts. *)
Lemma kept_order l : Forall (fun g => g_first g <= g_last g) l -> distinctly_numbered l -> NoDup (map (fun g => (g_first g, g_number g)) (map kept_group l)).
Proof.
  intros F D. rewrite map_map. unfold kept_group. cbn [g_first g_number]. induction D as [|x l H FO IH]; [constructor|].
  inversion F as [|? ? F1 F2]; subst. cbn [map]. constructor; [|apply IH; exact F2]. intros I. apply in_map_iff in I. destruct I as (y & E & Y).
  injection E as E1 E2. rewrite Forall_forall in *. specialize (H y Y). specialize (F2 y Y). cbn beta in *. unfold same_number, apart in H. specialize (H (eq_sym E2)). lia.
Qed.

Lemma group_sorted_unique a : forall b, Permutation a b -> NoDup (map (fun g => (g_first g, g_number g)) a) -> StronglySorted group_le a -> StronglySorted group_le b -> a = b.
Proof.
  induction a as [|x a IH]; intros b P N Sa Sb; [apply Permutation_nil in P; congruence|].
  destruct b as [|y b]; [apply Permutation_sym, Permutation_nil in P; discriminate|].
  inversion Sa as [|? ? Sa1 Sa2]; subst. inversion Sb as [|? ? Sb1 Sb2]; subst.
  rewrite Forall_forall in Sa2, Sb2. cbn [map] in N. inversion N as [|? ? N1 N2]; subst.
  assert (E : x = y).
  { assert (X : In x (y :: b)) by (eapply Permutation_in; [exact P | left; reflexivity]).
    assert (Y : In y (x :: a)) by (eapply Permutation_in; [apply Permutation_sym; exact P | left; reflexivity]).
    destruct X as [->|X]; [reflexivity|]. destruct Y as [->|Y]; [reflexivity|].
    specialize (Sa2 y Y). specialize (Sb2 x X). unfold group_le in *.
    exfalso. apply N1. apply in_map_iff. exists y. split; [f_equal; lia|exact Y]. }
  subst y. f_equal. apply IH; auto. apply Permutation_cons_inv in P. exact P.
Qed.

Lemma groups_determined S S' S1 S1' count l : allowed S -> allowed S' -> allowed S1 -> allowed S1' -> proper_groups count l -> distinctly_numbered l ->
  obind (write_groups S count l) (read_groups S') = obind (write_groups S1 count l) (read_groups S1').
Proof.
  intros A1 A2 A3 A4 P D. destruct (groups_back S S' count l A1 A2 P) as (x & a & H1 & H2 & H3 & H4).
  destruct (groups_back S1 S1' count l A3 A4 P) as (y & b & K1 & K2 & K3 & K4). rewrite H1, K1. cbn [obind]. rewrite H2, K2. f_equal.
  apply group_sorted_unique; auto.
  - eapply Permutation_trans; [exact H3|]. apply Permutation_sym. exact K3.
  - eapply Permutation_NoDup; [|apply (kept_order l); [|exact D]].
    + apply Permutation_map, Permutation_sym. exact H3.
    + eapply Forall_impl; [|exact (proj1 P)]. cbn beta. unfold within. intros g. lia.
Qed.

(** The order of the stops. *)
Definition fresh (r : list group_or_part) : Prop := match r with PartGroup x :: _ => xg_start x = true | _ => True end.

Lemma sorted_fresh a r : Sorted stops_descend a -> Sorted stops_descend r -> fresh r -> Sorted stops_descend (a ++ r).
Proof.
  induction a as [|x a IH]; intros H1 H2 F; [exact H2|]. inversion H1 as [|? ? H3 H4]; subst. cbn [app]. constructor; [auto|].
  destruct a as [|y a]; [|inversion H4; constructor; assumption]. cbn [app]. destruct r as [|z r]; constructor.
  unfold stops_descend. destruct x as [x|]; [|exact I]. destruct z as [z|]; [|exact I]. cbn in F. intros _ X. congruence.
Qed.

Lemma starts_sorted l : Forall (fun x => xg_start x = true) l -> Sorted stops_descend (map PartGroup l).
Proof.
  induction 1 as [|x l H F IH]; [constructor|]. cbn. constructor; [exact IH|]. destruct l; constructor. intros X. congruence.
Qed.

Lemma starts_start i l : forall a, starts i l = Ok a -> Forall (fun x => xg_start x = true) a.
Proof.
  unfold starts. induction (findPartGroupsByStartIndex i l) as [|g r IH]; cbn [fold_right]; intros a H; [injection H as <-; constructor|].
  unfold makePartGroupStart in H. destruct (g_bracket g); [|discriminate]. cbn [obind] in H. destruct (fold_right _ _ r) as [b| |]; [|discriminate H|discriminate H].
  injection H as <-. constructor; [reflexivity|]. apply IH. reflexivity.
Qed.

Lemma stops_sorted S i l : allowed S -> Sorted stops_descend (map PartGroup (stops S i l)).
Proof.
  intros AS. unfold stops. rewrite map_map.
  destruct (AS PartGroupData reverseStopsCompare (findPartGroupsByStopIndex i l)) as (_ & SO).
  { unfold reverseStopsCompare. split; [intros; apply Z.ltb_irrefl|]. split.
    - intros a b c H1 H2. rewrite Z.ltb_lt in *. lia.
    - intros a b c H1 H2 H3 H4. rewrite !Z.ltb_ge in *. lia. }
  unfold in_order in SO. induction SO as [|x r H IH F]; [constructor|]. cbn [map]. constructor; [exact IH|]. destruct r as [|y r]; constructor.
  cbn. intros _ _. inversion F as [|? ? F1 _]; subst. unfold reverseStopsCompare in F1. apply Z.ltb_ge in F1.
  assert (N : forall g, has_number (makePartGroupStop g) (number g)).
  { intros g. unfold has_number, number_attribute, number_or_none. cbn [xg_number makePartGroupStop]. unfold number_attribute.
    destruct (Z.leb_spec 0 (g_number g)); [right|left]; split; reflexivity || lia. }
  exists (number x), (number y). split; [apply N|]. split; [apply N|]. unfold number_or_none.
  destruct (Z.leb_spec 0 (g_number x)), (Z.leb_spec 0 (g_number y)); lia.
Qed.

Lemma add_parts_sorted S l : allowed S -> forall n i x, add_parts S l i n = Ok x -> Sorted stops_descend x /\ fresh x.
Proof.
  intros AS. induction n as [|n IH]; intros i x H; cbn [add_parts] in H; [injection H as <-; split; [constructor|exact I]|].
  destruct (starts i l) as [a| |] eqn:E; [|discriminate H|discriminate H]. cbn [obind] in H. destruct (add_parts S l (i + 1) n) as [r| |] eqn:E2; [|discriminate H|discriminate H].
  cbn [omap obind] in H. injection H as <-. destruct (IH _ _ E2) as (H1 & H2). pose proof (starts_start _ _ _ E) as ST. split.
  - apply sorted_fresh; [apply starts_sorted; exact ST| |exact I]. constructor.
    + apply sorted_fresh; [apply stops_sorted; exact AS|exact H1|exact H2].
    + destruct (map PartGroup (stops S i l) ++ r) as [|z ?]; constructor. exact I.
  - destruct a as [|x a]; [exact I|]. cbn. inversion ST. assumption.
Qed.

Lemma stops_in_order S count l x : allowed S -> write_groups S count l = Ok x -> Sorted stops_descend (pl_after x).
Proof.
  intros AS H. destruct count as [|n]; cbn [write_groups] in H; [injection H as <-; constructor|].
  destruct (starts 0 l) as [a| |]; [|discriminate H|discriminate H]. cbn [obind] in H. destruct (add_parts S l 1 n) as [r| |] eqn:E; [|discriminate H|discriminate H].
  cbn [omap obind] in H. injection H as <-. cbn [pl_after]. destruct (add_parts_sorted S l AS _ _ _ E) as (H1 & H2). apply sorted_fresh; auto. apply stops_sorted. exact AS.
Qed.

(** The parts are all there. *)
Lemma count_app a b : count_parts (a ++ b) = (count_parts a + count_parts b)%nat.
Proof. induction a as [|[x|] a IH]; cbn; auto. Qed.
Lemma count_groups l : count_parts (map PartGroup l) = O.
Proof. induction l; auto. Qed.

Lemma parts_counted S l : forall n i x, add_parts S l i n = Ok x -> count_parts x = n.
Proof.
  induction n as [|n IH]; intros i x H; cbn [add_parts] in H; [injection H as <-; reflexivity|].
  destruct (starts i l) as [a| |] eqn:E; [|discriminate H|discriminate H]. cbn [obind] in H. destruct (add_parts S l (i + 1) n) as [r| |] eqn:E2; [|discriminate H|discriminate H].
  cbn [omap obind] in H. injection H as <-. rewrite !count_app, !count_groups. cbn. rewrite count_app, count_groups, (IH _ _ E2). reflexivity.
Qed.

Lemma groups_counted S count l x : write_groups S (Datatypes.S count) l = Ok x -> count_parts (pl_after x) = count.
Proof.
  cbn [write_groups]. intros H. destruct (starts 0 l) as [a| |]; [|discriminate H|discriminate H]. cbn [obind] in H. destruct (add_parts S l 1 count) as [r| |] eqn:E; [|discriminate H|discriminate H].
  cbn [omap obind] in H. injection H as <-. cbn [pl_after]. rewrite count_app, count_groups. exact (parts_counted S l _ _ _ E).
Qed.

(** What is written for a group. *)
Lemma number_written g p : xg_number p = number_attribute g -> numbered g p.
Proof.
  unfold numbered, number_attribute. intros ->. destruct (Z.leb_spec 0 (g_number g)) as [L | L]; [right | left].
  - split; [exact L|]. eexists. split; [reflexivity|]. apply (proj2 (canonical_int_print _ _)). reflexivity.
  - split; [exact L | reflexivity].
Qed.

Lemma start_written g p : makePartGroupStart g = Ok p -> start_of g p.
Proof.
  unfold makePartGroupStart. destruct (g_bracket g) as [b|] eqn:B; [|discriminate]. intros H. injection H as <-.
  split; [reflexivity|]. split; [apply number_written; reflexivity|]. cbn [xg_name xg_abbreviation xg_symbol].
  split; [intros ->; reflexivity|]. split; [destruct (g_name g); [intros K; destruct (K eq_refl) | reflexivity]|].
  split; [reflexivity|]. rewrite B. destruct b; split; (reflexivity || discriminate).
Qed.

Lemma stop_written g : stop_of g (makePartGroupStop g).
Proof. split; [reflexivity|]. split; [apply number_written; reflexivity|]. repeat split. Qed.

Definition stands_for (l : list PartGroupData) (p : part_group) : Prop := exists g, In g l /\ (start_of g p \/ stop_of g p).

Lemma starts_written i l a : starts i l = Ok a -> Forall (stands_for l) a.
Proof.
  unfold starts, findPartGroupsByStartIndex.
  assert (K : forall f a, (forall g, In g f -> In g l) -> fold_right (fun g o => obind (makePartGroupStart g) (fun x => omap (cons x) o)) (Ok []) f = Ok a -> Forall (stands_for l) a).
  { induction f as [|g f IH]; intros b I; cbn [fold_right].
    - intros H. injection H as <-. constructor.
    - destruct (makePartGroupStart g) as [p| |] eqn:P; cbn [obind]; try discriminate.
      destruct (fold_right _ (Ok []) f) as [r| |] eqn:R; cbn [omap obind]; try discriminate.
      intros H. injection H as <-. constructor.
      + exists g. split; [apply I; left; reflexivity | left; apply start_written; exact P].
      + apply IH; [intros q Q; apply I; right; exact Q | reflexivity]. }
  apply K. intros g G. apply filter_In in G. apply G.
Qed.

Lemma stops_written S i l : allowed S -> Forall (stands_for l) (stops S i l).
Proof.
  intros A. unfold stops, findPartGroupsByStopIndex. apply Forall_forall. intros p P. apply in_map_iff in P. destruct P as (g & <- & G).
  exists g. split; [|right; apply stop_written].
  assert (Q : Permutation (filter (fun g => g_last g =? i) l) (S PartGroupData reverseStopsCompare (filter (fun g => g_last g =? i) l))).
  { destruct (A PartGroupData reverseStopsCompare (filter (fun g => g_last g =? i) l)) as (P & _); [|exact P || exact (Permutation_sym P)].
    unfold reverseStopsCompare. split; [intros; apply Z.ltb_irrefl|]. split.
    - intros a b c H1 H2. rewrite Z.ltb_lt in *. lia.
    - intros a b c H1 H2 H3 H4. rewrite !Z.ltb_ge in *. lia. }
  apply (Permutation_in _ (Permutation_sym Q)) in G. apply filter_In in G. apply G.
Qed.

Definition picked_groups (l : list group_or_part) : list part_group := flat_map (fun i => match i with PartGroup g => [g] | ScorePart => [] end) l.

Lemma picked_groups_map l : picked_groups (map PartGroup l) = l.
Proof. induction l as [|a l IH]; [reflexivity|]. cbn. f_equal. exact IH. Qed.

Lemma picked_groups_app a b : picked_groups (a ++ b) = picked_groups a ++ picked_groups b.
Proof. apply flat_map_app. Qed.

Lemma parts_written S l : allowed S -> forall n i x, add_parts S l i n = Ok x -> Forall (stands_for l) (picked_groups x).
Proof.
  intros A. induction n as [|n IH]; intros i x; cbn [add_parts].
  - intros H. injection H as <-. constructor.
  - destruct (starts i l) as [a| |] eqn:E; cbn [obind]; try discriminate.
    destruct (add_parts S l (i + 1) n) as [r| |] eqn:R; cbn [omap obind]; try discriminate.
    intros H. injection H as <-. rewrite !picked_groups_app, picked_groups_map. apply Forall_app. split; [apply (starts_written i), E|].
    change (picked_groups (ScorePart :: map PartGroup (stops S i l) ++ r)) with (picked_groups (map PartGroup (stops S i l) ++ r)).
    rewrite picked_groups_app, picked_groups_map. apply Forall_app. split; [apply stops_written, A | apply (IH _ _ R)].
Qed.

Lemma groups_written S count l x : allowed S -> write_groups S count l = Ok x ->
  Forall (fun p => exists g, In g l /\ (start_of g p \/ stop_of g p)) (groups_of x).
Proof.
  intros A. change (fun p => _) with (stands_for l). unfold write_groups. destruct count as [|n].
  - intros H. injection H as <-. constructor.
  - destruct (starts 0 l) as [a| |] eqn:E; cbn [obind]; try discriminate.
    destruct (add_parts S l 1 n) as [r| |] eqn:R; cbn [omap obind]; try discriminate.
    intros H. injection H as <-. unfold groups_of. cbn [pl_before pl_after]. apply Forall_app. split; [apply (starts_written 0), E|].
    change (Forall (stands_for l) (picked_groups (map PartGroup (stops S 0 l) ++ r))).
    rewrite picked_groups_app, picked_groups_map. apply Forall_app. split; [apply stops_written, A | apply (parts_written S l A _ _ _ R)].
Qed.

(** A number that cannot be read. *)
Lemma bad_number_start i g t s : xg_start g = true -> xg_number g = Some t -> stringToInt t = Ok None -> handlePartGroup i g s = Throw.
Proof. intros A B C. unfold handlePartGroup, startPartGroup, parsePartGroupNumber. rewrite A, B, C. reflexivity. Qed.

Lemma bad_number S x g t : In g (groups_of x) -> xg_start g = true -> xg_number g = Some t -> stringToInt t = Ok None ->
  forall l, read_groups S x <> Ok l.
Proof.
  intros I A B C l. unfold read_groups.
  assert (K1 : forall l i s, In g l -> forall s', handle_groups i l s <> Ok s').
  { induction l0 as [|p r IH]; intros i s J s'; [destruct J|]. cbn [handle_groups]. destruct J as [-> | J].
    - rewrite (bad_number_start i g t s A B C). discriminate.
    - destruct (handlePartGroup i p s); cbn [obind]; try discriminate. apply IH, J. }
  assert (K2 : forall l i s, In g (picked_groups l) -> forall s', handle_all i l s <> Ok s').
  { induction l0 as [|p r IH]; intros i s J s'; [destruct J|]. cbn [handle_all]. destruct p as [p|].
    - destruct J as [-> | J].
      + rewrite (bad_number_start i g t s A B C). discriminate.
      + destruct (handlePartGroup i p s); cbn [obind]; try discriminate. apply IH, J.
    - apply IH, J. }
  apply in_app_or in I. destruct (handle_groups 0 (pl_before x) ([], [])) as [s| |] eqn:H; cbn [obind]; try discriminate.
  destruct I as [I | I]; [destruct (K1 _ _ _ I _ H)|].
  destruct (handle_all 1 (pl_after x) s) as [s'| |] eqn:H'; cbn [omap obind]; try discriminate. destruct (K2 _ _ _ I _ H').
Qed.
