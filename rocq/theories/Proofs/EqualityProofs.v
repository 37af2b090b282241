(** What operator== compares. *)
From Coq Require Import List Ascii String Bool ZArith QArith Qabs Lia Lqa.
From Verif Require Import Model.Base Model.Text Model.ApiClasses Model.Equality Spec.Agreement Proofs.StringsProofs.
Import ListNotations.
Open Scope nat_scope.
Open Scope list_scope.

(** ** Induction over values *)
Section Values.
  Variable P : value -> Prop.
  Hypothesis Hint : forall z, P (VInt z).
  Hypothesis Htext : forall t, P (VText t).
  Hypothesis Hnumber : forall x, P (VNumber x).
  Hypothesis Hclass : forall c ms, Forall (fun p => P (snd p)) ms -> P (VClass c ms).
  Hypothesis Hvector : forall l, Forall P l -> P (VVector l).
  Hypothesis Hnone : P (VOptional None).
  Hypothesis Hsome : forall x, P x -> P (VOptional (Some x)).
  Hypothesis Hmap : forall l, Forall (fun p => P (snd p)) l -> P (VMap l).

  Fixpoint value_all (v : value) : P v :=
    match v with
    | VInt z => Hint z
    | VText t => Htext t
    | VNumber x => Hnumber x
    | VClass c ms =>
        Hclass c ms
          ((fix go (ms : list (string * value)) : Forall (fun p => P (snd p)) ms :=
              match ms with
              | [] => Forall_nil _
              | p :: r => @Forall_cons _ (fun p => P (snd p)) p r (value_all (snd p)) (go r)
              end) ms)
    | VVector l =>
        Hvector l
          ((fix go (l : list value) : Forall P l :=
              match l with [] => Forall_nil _ | x :: r => Forall_cons x (value_all x) (go r) end) l)
    | VOptional None => Hnone
    | VOptional (Some x) => Hsome x (value_all x)
    | VMap l =>
        Hmap l
          ((fix go (l : list (Z * value)) : Forall (fun p => P (snd p)) l :=
              match l with
              | [] => Forall_nil _
              | p :: r => @Forall_cons _ (fun p => P (snd p)) p r (value_all (snd p)) (go r)
              end) l)
    end.
End Values.

(** ** The loops by name *)
Fixpoint vectors (l m : list value) : bool :=
  match l, m with
  | [], [] => true
  | x :: l, y :: m => equal x y && vectors l m
  | _, _ => false
  end.
Fixpoint maps (l m : list (Z * value)) : bool :=
  match l, m with
  | [], [] => true
  | (i, x) :: l, (j, y) :: m => (i =? j)%Z && equal x y && maps l m
  | _, _ => false
  end.
Definition one (c : api_class) (ns : list (string * value)) (n : string) (x : value) : bool :=
  match member n (compared c), member n ns with
  | Some Exactly, Some y => equal x y
  | Some Nearly, Some (VNumber y) => match x with VNumber x => number_near x y | _ => false end
  | Some _, _ => false
  | None, _ => true
  end.
Fixpoint all (c : api_class) (ns ms : list (string * value)) : bool :=
  match ms with
  | [] => true
  | (n, x) :: r => one c ns n x && all c ns r
  end.
Fixpoint members_typed (ms : list (string * value)) (ds : list (string * kind)) : Prop :=
  match ms, ds with
  | [], [] => True
  | (n, x) :: ms, (m, k) :: ds => n = m /\ typed x k /\ members_typed ms ds
  | _, _ => False
  end.

Lemma equal_vectors l m : equal (VVector l) (VVector m) = vectors l m.
Proof. reflexivity. Qed.
Lemma equal_maps l m : equal (VMap l) (VMap m) = maps l m.
Proof. reflexivity. Qed.
Lemma equal_class c d ms ns : equal (VClass c ms) (VClass d ns) = all c ns ms.
Proof. induction ms as [|[n x] r IH]; [reflexivity|]. cbn [all]. rewrite <- IH. unfold one. reflexivity. Qed.
Lemma typed_class c d ms : typed (VClass c ms) (KClass d) <-> c = d /\ members_typed ms (members d).
Proof. reflexivity. Qed.
Lemma typed_vector l k : typed (VVector l) (KVector k) <-> Forall (fun x => typed x k) l.
Proof.
  induction l as [|x l IH].
  - split; [constructor|exact (fun _ => I)].
  - split.
    + intros [A B]. constructor; [exact A|]. apply IH. exact B.
    + intros H. inversion H; subst. split; [assumption|]. apply IH. assumption.
Qed.
Lemma typed_map l k : typed (VMap l) (KMap k) <-> Forall (fun p => typed (snd p) k) l.
Proof.
  induction l as [|[i x] l IH].
  - split; [constructor|exact (fun _ => I)].
  - split.
    + intros [A B]. constructor; [exact A|]. apply IH. exact B.
    + intros H. inversion H; subst. split; [assumption|]. apply IH. assumption.
Qed.

(** ** Numbers *)
Lemma number_eqb_spec x y : number_eqb x y = true <-> same_number x y.
Proof.
  destruct x as [p|s|]; destruct y as [q|t|]; cbn; split; intros H; try discriminate H; try (inversion H; fail).
  - constructor. apply Qeq_bool_iff. exact H.
  - inversion H; subst. apply Qeq_bool_iff. assumption.
  - apply eqb_prop in H. subst. constructor.
  - inversion H; subst. apply eqb_reflx.
Qed.
Lemma number_near_spec x y : number_near x y = true <-> close_number x y.
Proof.
  destruct x as [p|s|]; destruct y as [q|t|]; cbn [number_near]; split; intros H; try discriminate H; try (inversion H; fail); try reflexivity; try constructor.
  - apply Qle_bool_iff. exact H.
  - inversion H; subst. apply Qle_bool_iff. assumption.
  - apply eqb_prop in H. subst. constructor.
  - inversion H; subst. apply eqb_reflx.
Qed.

(** ** The tables *)
Definition names_of (c : api_class) : list string := map fst (members c).
Definition is_in (n : string) (l : list string) : bool := existsb (String.eqb n) l.
Lemma is_in_spec n l : is_in n l = true <-> In n l.
Proof.
  unfold is_in. rewrite existsb_exists. split.
  - intros (x & I & E). apply String.eqb_eq in E. subst. exact I.
  - intros I. exists n. split; [exact I|apply String.eqb_refl].
Qed.
Definition how_expected (c : api_class) (n : string) : option comparison :=
  if is_in n (overlooked c) then None else if is_in n (approximate c) then Some Nearly else Some Exactly.
Definition how_eqb (a b : option comparison) : bool :=
  match a, b with
  | None, None | Some Exactly, Some Exactly | Some Nearly, Some Nearly => true
  | _, _ => false
  end.
Definition row_ok (c : api_class) (d : string * kind) : bool :=
  how_eqb (member (fst d) (compared c)) (how_expected c (fst d)) &&
  (if is_in (fst d) (approximate c) then match snd d with KNumber => true | _ => false end else true).
Fixpoint distinct (l : list string) : bool := match l with [] => true | x :: r => negb (is_in x r) && distinct r end.

Lemma distinct_spec l : distinct l = true -> NoDup l.
Proof.
  induction l as [|x r IH]; [constructor|]. cbn [distinct]. intros H. apply andb_true_iff in H as [A B].
  constructor; [|exact (IH B)]. intros I. apply is_in_spec in I. rewrite I in A. discriminate A.
Qed.
Lemma tables c : (forallb (row_ok c) (members c) && distinct (names_of c))%bool = true.
Proof. destruct c; vm_compute; reflexivity. Qed.
Lemma row c n k : In (n, k) (members c) ->
  member n (compared c) = how_expected c n /\ (In n (approximate c) -> k = KNumber).
Proof.
  intros I. pose proof (tables c) as T. apply andb_true_iff in T as [T _].
  rewrite forallb_forall in T. specialize (T _ I). unfold row_ok in T. cbn [fst snd] in T.
  apply andb_true_iff in T as [A B]. split.
  - destruct (member n (compared c)) as [[|]|]; destruct (how_expected c n) as [[|]|]; try discriminate A; reflexivity.
  - intros J. apply is_in_spec in J. rewrite J in B. destruct k; try discriminate B. reflexivity.
Qed.
Lemma names_distinct c : NoDup (names_of c).
Proof. pose proof (tables c) as T. apply andb_true_iff in T as [_ T]. apply distinct_spec. exact T. Qed.

Lemma member_in {A} n (l : list (string * A)) x : member n l = Some x -> In (n, x) l.
Proof.
  induction l as [|[m y] r IH]; [discriminate 1|]. cbn [member]. destruct (String.eqb_spec n m) as [-> | N].
  - intros [= ->]. left. reflexivity.
  - intros H. right. exact (IH H).
Qed.
Lemma in_member {A} n (l : list (string * A)) x : NoDup (map fst l) -> In (n, x) l -> member n l = Some x.
Proof.
  induction l as [|[m y] r IH]; [intros _ []|]. cbn [map fst]. intros N I. inversion N as [|? ? Na B]; subst.
  cbn [member]. destruct I as [E | I].
  - injection E as -> ->. rewrite String.eqb_refl. reflexivity.
  - destruct (String.eqb_spec n m) as [-> | D]; [|exact (IH B I)].
    exfalso. apply Na. apply (in_map fst) in I. exact I.
Qed.

Lemma members_names ms : forall ds, members_typed ms ds -> map fst ms = map fst ds.
Proof.
  induction ms as [|[n x] r IH]; intros [|[m k] ds]; try (intros F; contradiction F); [reflexivity|].
  intros (-> & _ & H). cbn [map fst]. f_equal. exact (IH _ H).
Qed.
Lemma members_kind ms : forall ds n x, members_typed ms ds -> In (n, x) ms -> exists k, In (n, k) ds /\ typed x k.
Proof.
  induction ms as [|[n x] r IH]; intros [|[m k] ds] n' x'; try (intros F; contradiction F); [intros _ []|].
  intros (-> & T & H) [E | I].
  - injection E as -> ->. exists k. split; [left; reflexivity|exact T].
  - destruct (IH _ _ _ H I) as (k' & A & B). exists k'. split; [right; exact A|exact B].
Qed.

(** ** operator== is agreement *)
Lemma all_iff c ns ms : all c ns ms = true <-> forall n x, In (n, x) ms -> one c ns n x = true.
Proof.
  induction ms as [|[m y] r IH]; cbn [all].
  - split; [intros _ n x []|reflexivity].
  - rewrite andb_true_iff, IH. split.
    + intros [A B] n x [E | I]; [injection E as -> ->; exact A|exact (B n x I)].
    + intros H. split; [exact (H m y (or_introl eq_refl))|]. intros n x I. exact (H n x (or_intror I)).
Qed.

Lemma in_both c ms ns n x : members_typed ms (members c) -> members_typed ns (members c) -> In (n, x) ms ->
  exists y k, In (n, y) ns /\ In (n, k) (members c) /\ typed x k /\ typed y k.
Proof.
  intros A B I. destruct (members_kind _ _ _ _ A I) as (k & J & T).
  assert (N : In n (map fst ns)) by (rewrite (members_names _ _ B); apply (in_map fst) in J; exact J).
  apply in_map_iff in N as ([n' y] & E & Iy). cbn in E. subst n'.
  destruct (members_kind _ _ _ _ B Iy) as (k' & J' & T').
  assert (k = k').
  { pose proof (names_distinct c) as D. pose proof (in_member _ _ _ D J) as U. pose proof (in_member _ _ _ D J') as V.
    rewrite U in V. injection V as ->. reflexivity. }
  subst k'. exists y, k. repeat split; assumption.
Qed.

Lemma equal_agree a : forall b k, typed a k -> typed b k -> equal a b = true <-> agree overlooked approximate a b.
Proof.
  induction a as [z|t|x|c ms IH|l IH| |x IH|l IH] using value_all; intros b k Ta Tb.
  - destruct k; try contradiction. destruct b as [z'|?|?|? ?|?|[|]|?]; try contradiction. cbn. rewrite Z.eqb_eq. split; [intros ->; constructor|].
    intros H. inversion H; reflexivity.
  - destruct k; try contradiction. destruct b as [?|t'|?|? ?|?|[|]|?]; try contradiction. cbn. rewrite str_eqb_eq. split; [intros ->; constructor|].
    intros H. inversion H; reflexivity.
  - destruct k; try contradiction. destruct b as [?|?|y|? ?|?|[|]|?]; try contradiction. cbn [equal]. rewrite number_eqb_spec. split; [constructor; assumption|].
    intros H. inversion H; assumption.
  - destruct k as [| | |d| | |]; try contradiction. destruct b as [?|?|?|c' ns|?|[|]|?]; try contradiction.
    apply typed_class in Ta as [<- Ta]. apply typed_class in Tb as [-> Tb].
    rewrite equal_class, all_iff. rewrite Forall_forall in IH.
    pose proof (names_distinct c) as D. unfold names_of in D. rewrite <- (members_names _ _ Tb) in D.
    split.
    + intros H. constructor.
      * intros n x y Ix Iy Ns Na. specialize (H n x Ix). unfold one in H.
        destruct (in_both _ _ _ _ _ Ta Tb Ix) as (y' & k & Iy' & Ik & Tx & Ty).
        pose proof (in_member _ _ _ D Iy) as M. pose proof (in_member _ _ _ D Iy') as M'. rewrite M in M'. injection M' as <-.
        rewrite M in H. rewrite (proj1 (row _ _ _ Ik)) in H. unfold how_expected in H.
        destruct (is_in n (overlooked c)) eqn:E1; [apply is_in_spec in E1; contradiction|].
        destruct (is_in n (approximate c)) eqn:E2; [apply is_in_spec in E2; contradiction|].
        apply (IH (n, x) Ix y k Tx Ty). exact H.
      * intros n x y Ix Iy Ns Na. specialize (H n x Ix). unfold one in H.
        destruct (in_both _ _ _ _ _ Ta Tb Ix) as (y' & k & Iy' & Ik & Tx & Ty).
        pose proof (in_member _ _ _ D Iy) as M. pose proof (in_member _ _ _ D Iy') as M'. rewrite M in M'. injection M' as <-.
        rewrite M in H. rewrite (proj1 (row _ _ _ Ik)) in H. unfold how_expected in H.
        destruct (is_in n (overlooked c)) eqn:E1; [apply is_in_spec in E1; contradiction|].
        destruct (is_in n (approximate c)) eqn:E2; [|apply is_in_spec in Na; rewrite Na in E2; discriminate E2].
        destruct y; try discriminate H. destruct x; try discriminate H. constructor. apply number_near_spec. exact H.
    + intros H. inversion H as [| | | | | | |? ? ? Hx Hn]; subst. intros n x Ix. unfold one.
      destruct (in_both _ _ _ _ _ Ta Tb Ix) as (y & k & Iy & Ik & Tx & Ty).
      rewrite (in_member _ _ _ D Iy), (proj1 (row _ _ _ Ik)). unfold how_expected.
      destruct (is_in n (overlooked c)) eqn:E1; [reflexivity|].
      assert (N1 : ~ In n (overlooked c)) by (intros J; apply is_in_spec in J; rewrite J in E1; discriminate E1).
      destruct (is_in n (approximate c)) eqn:E2.
      * apply is_in_spec in E2. specialize (Hn n x y Ix Iy N1 E2). inversion Hn; subst. apply number_near_spec. assumption.
      * assert (N2 : ~ In n (approximate c)) by (intros J; apply is_in_spec in J; rewrite J in E2; discriminate E2).
        apply (IH (n, x) Ix y k Tx Ty). exact (Hx n x y Ix Iy N1 N2).
  - destruct k as [| | | |k| |]; try contradiction. destruct b as [?|?|?|? ?|m|[|]|?]; try contradiction.
    apply typed_vector in Ta. apply typed_vector in Tb. rewrite equal_vectors.
    assert (E : vectors l m = true <-> Forall2 (agree overlooked approximate) l m).
    { revert m Tb. induction l as [|x l IHl]; intros [|y m] Tb; cbn [vectors].
      - split; [constructor|reflexivity].
      - split; [discriminate 1|intros H; inversion H].
      - split; [discriminate 1|intros H; inversion H].
      - inversion IH; inversion Ta; inversion Tb; subst. rewrite andb_true_iff. split.
        + intros [A B]. constructor; [apply (H1 y k); assumption|apply IHl; assumption].
        + intros J. inversion J; subst. split; [apply (H1 y k); assumption|apply IHl; assumption]. }
    rewrite E. split; [constructor; assumption|]. intros H. inversion H. assumption.
  - destruct k; try contradiction. destruct b as [?|?|?|? ?|?|[y|]|?]; try contradiction.
    + split; [discriminate 1|]. intros H. inversion H.
    + split; [constructor|reflexivity].
  - destruct k as [| | | | |k|]; try contradiction. destruct b as [?|?|?|? ?|?|[y|]|?]; try contradiction.
    + cbn [equal]. rewrite (IH y k Ta Tb). split; [constructor; assumption|]. intros H. inversion H. assumption.
    + split; [discriminate 1|]. intros H. inversion H.
  - destruct k as [| | | | | |k]; try contradiction. destruct b as [?|?|?|? ?|?|[|]|m]; try contradiction.
    apply typed_map in Ta. apply typed_map in Tb. rewrite equal_maps.
    assert (E : maps l m = true <-> Forall2 (fun p q => fst p = fst q /\ agree overlooked approximate (snd p) (snd q)) l m).
    { revert m Tb. induction l as [|[i x] l IHl]; intros [|[j y] m] Tb; cbn [maps].
      - split; [constructor|reflexivity].
      - split; [discriminate 1|intros H; inversion H].
      - split; [discriminate 1|intros H; inversion H].
      - inversion IH; inversion Ta; inversion Tb; subst. rewrite !andb_true_iff, Z.eqb_eq. split.
        + intros [[A B] C]. constructor; [split; [exact A|apply (H1 y k); assumption]|apply IHl; assumption].
        + intros J. inversion J as [|? ? ? ? [A B] C]; subst. split; [split; [exact A|apply (H1 y k); assumption]|apply IHl; assumption]. }
    rewrite E. split; [constructor; assumption|]. intros H. inversion H. assumption.
Qed.

(** ** Symmetric *)
Lemma same_sym x y : same_number x y -> same_number y x.
Proof. intros H. inversion H; subst; constructor. symmetry. assumption. Qed.
Lemma close_sym x y : close x y -> close y x.
Proof.
  intros H. inversion H as [p q C]; subst. constructor. inversion C; subst; constructor.
  rewrite Qabs_Qminus. assumption.
Qed.
Lemma agree_sym s p a : forall b, agree s p a b -> agree s p b a.
Proof.
  induction a as [z|t|x|c ms IH|l IH| |x IH|l IH] using value_all; intros b H; inversion H; subst; try constructor.
  - apply same_sym. assumption.
  - intros n x y Ix Iy Ns Na. rewrite Forall_forall in IH. apply (IH (n, y) Iy). eauto.
  - intros n x y Ix Iy Ns Na. apply close_sym. eauto.
  - match goal with J : Forall2 _ l _ |- _ => revert J end. clear H. revert m. induction l as [|x l IHl]; intros m J; inversion J; subst; constructor.
    + inversion IH; subst. auto.
    + inversion IH; subst. auto.
  - apply IH. assumption.
  - match goal with J : Forall2 _ l _ |- _ => revert J end. clear H. revert m. induction l as [|x l IHl]; intros m J; inversion J as [|? ? ? ? [A B] C]; subst; constructor.
    + inversion IH; subst. split; [symmetry; exact A|auto].
    + inversion IH; subst. auto.
Qed.
Lemma equal_sym a b k : typed a k -> typed b k -> equal a b = equal b a.
Proof.
  intros Ta Tb. destruct (equal a b) eqn:E.
  - symmetry. apply (equal_agree b a k Tb Ta). apply agree_sym. apply (equal_agree a b k Ta Tb). exact E.
  - destruct (equal b a) eqn:F; [|reflexivity]. exfalso.
    apply (equal_agree b a k Tb Ta) in F. apply agree_sym in F. apply (equal_agree a b k Ta Tb) in F. congruence.
Qed.

(** ** Values that are the same are equal *)
Lemma epsilon_positive : (0 <= epsilon)%Q.
Proof. unfold epsilon, Qle. cbn [Qnum Qden]. lia. Qed.
Lemma same_close x y : same_number x y -> close_number x y.
Proof.
  intros H. inversion H as [p q E|]; subst; constructor.
  assert (Z0 : (p - q == 0)%Q) by (rewrite E; ring). rewrite Z0. exact epsilon_positive.
Qed.
Lemma identical_equal a b k : typed a k -> typed b k -> identical a b -> equal a b = true.
Proof.
  intros Ta Tb H. apply (equal_agree a b k Ta Tb). revert b k Ta Tb H.
  induction a as [z|t|x|c ms IH|l IH| |x IH|l IH] using value_all; intros b k Ta Tb H; inversion H; subst; try (constructor; assumption).
  - destruct k as [| | |d| | |]; try contradiction.
    apply typed_class in Ta as [<- Ta]. apply typed_class in Tb as [_ Tb].
    rewrite Forall_forall in IH. constructor.
    + intros n x y Ix Iy Ns Na. destruct (in_both _ _ _ _ _ Ta Tb Ix) as (y' & k & Iy' & Ik & Tx & Ty).
      pose proof (names_distinct c) as D. unfold names_of in D. rewrite <- (members_names _ _ Tb) in D.
      pose proof (in_member _ _ _ D Iy) as M. pose proof (in_member _ _ _ D Iy') as M'. rewrite M in M'. injection M' as <-.
      apply (IH (n, x) Ix y k Tx Ty). apply (H2 n x y); [exact Ix|exact Iy|intros []|intros []].
    + intros n x y Ix Iy Ns Na. destruct (in_both _ _ _ _ _ Ta Tb Ix) as (y' & k & Iy' & Ik & Tx & Ty).
      pose proof (names_distinct c) as D. unfold names_of in D. rewrite <- (members_names _ _ Tb) in D.
      pose proof (in_member _ _ _ D Iy) as M. pose proof (in_member _ _ _ D Iy') as M'. rewrite M in M'. injection M' as <-.
      pose proof (proj2 (row _ _ _ Ik) Na) as ->. destruct x as [?|?|x|? ?|?|[|]|?]; try contradiction. destruct y as [?|?|x0|? ?|?|[|]|?]; try contradiction.
      assert (J : agree nothing nothing (VNumber x) (VNumber x0)) by (apply (H2 n (VNumber x) (VNumber x0)); [exact Ix|exact Iy|intros []|intros []]).
      inversion J; subst. constructor. apply same_close. assumption.
  - destruct k as [| | | |k| |]; try contradiction. apply typed_vector in Ta. apply typed_vector in Tb. constructor.
    match goal with J : Forall2 _ l _ |- _ => revert J end. clear H. revert m Tb.
    induction l as [|x l IHl]; intros m Tb J; inversion J; subst; constructor; inversion IH; inversion Ta; inversion Tb; subst; eauto.
  - destruct k as [| | | | |k|]; try contradiction. constructor. eauto.
  - destruct k as [| | | | | |k]; try contradiction. apply typed_map in Ta. apply typed_map in Tb. constructor.
    match goal with J : Forall2 _ l _ |- _ => revert J end. clear H. revert m Tb.
    induction l as [|x l IHl]; intros m Tb J; inversion J as [|? ? ? ? [A B] C]; subst; constructor; inversion IH; inversion Ta; inversion Tb; subst; eauto.
Qed.
Lemma identical_refl v : numbers is_number v -> forall k, typed v k -> identical v v.
Proof.
  induction v as [z|t|x|c ms IH|l IH| |x IH|l IH] using value_all; intros N k T; inversion N; subst; try (constructor; fail).
  - constructor. destruct x as [q|s|]; [constructor; reflexivity|constructor|]. exfalso. match goal with J : is_number _ |- _ => apply J; reflexivity end.
  - destruct k as [| | |d| | |]; try contradiction. apply typed_class in T as [<- T].
    pose proof (names_distinct c) as D. unfold names_of in D. rewrite <- (members_names _ _ T) in D.
    rewrite Forall_forall in IH. match goal with J : Forall _ ms |- _ => rewrite Forall_forall in J; rename J into F end.
    constructor.
    + intros n x y Ix Iy _ _. pose proof (in_member _ _ _ D Ix) as M. pose proof (in_member _ _ _ D Iy) as M'. rewrite M in M'. injection M' as <-.
      destruct (members_kind _ _ _ _ T Ix) as (k & _ & Tx). exact (IH (n, x) Ix (F (n, x) Ix) k Tx).
    + intros n x y _ _ _ [].
  - destruct k as [| | | |k| |]; try contradiction. apply typed_vector in T. constructor.
    match goal with J : Forall (numbers _) l |- _ => revert J end. clear N. intros F.
    induction l as [|x l IHl]; constructor; inversion IH as [|? ? I1 I2]; inversion T; inversion F; subst; [eapply I1; eassumption|apply IHl; assumption].
  - destruct k as [| | | | |k|]; try contradiction. constructor. eapply IH; eauto.
  - destruct k as [| | | | | |k]; try contradiction. apply typed_map in T. constructor.
    match goal with J : Forall (fun p => numbers _ (snd p)) l |- _ => revert J end. clear N. intros F.
    induction l as [|x l IHl]; constructor; inversion IH as [|? ? I1 I2]; inversion T; inversion F; subst; [split; [reflexivity|eapply I1; eassumption]|apply IHl; assumption].
Qed.
Lemma equal_refl v k : typed v k -> numbers is_number v -> equal v v = true.
Proof. intros T N. apply (identical_equal v v k T T). exact (identical_refl v N k T). Qed.

(** ** Transitive, if the numbers have at most seven digits *)
Lemma seven_apart (y z : Z) : (Qabs ((y # 10000000) - (z # 10000000)) <= epsilon)%Q -> y = z.
Proof.
  intros H. apply Qabs_Qle_condition in H as [A B]. unfold epsilon, Qle, Qminus, Qplus, Qopp in A, B. cbn [Qnum Qden] in A, B.
  apply Z.le_antisymm; lia.
Qed.
Lemma close_same x y : seven_digits x -> seven_digits y -> close_number x y -> same_number x y.
Proof.
  intros (p & a & -> & E) (q & b & -> & F) C. inversion C; subst. constructor.
  match goal with J : (Qabs _ <= _)%Q |- _ => rewrite E, F in J; apply seven_apart in J; subst end.
  rewrite E, F. reflexivity.
Qed.
Lemma same_trans x y z : same_number x y -> same_number y z -> same_number x z.
Proof. intros A B. inversion A; subst; inversion B; subst; constructor. etransitivity; eassumption. Qed.
Lemma chain {A} (R : A -> A -> Prop) (ok : A -> Prop) l :
  Forall (fun b => forall a c, ok a -> ok b -> ok c -> R a b -> R b c -> R a c) l ->
  forall u w, Forall ok u -> Forall ok l -> Forall ok w -> Forall2 R u l -> Forall2 R l w -> Forall2 R u w.
Proof.
  induction l as [|b l IH]; intros F u w U L W J K; inversion J; subst; inversion K; subst; [constructor|].
  inversion F as [|? ? F1 F2]; inversion U; inversion L; inversion W; subst. constructor; [eapply F1; eassumption|apply IH; assumption].
Qed.
Lemma agree_trans b : forall a c k, typed a k -> typed b k -> typed c k ->
  numbers seven_digits a -> numbers seven_digits b -> numbers seven_digits c ->
  agree overlooked approximate a b -> agree overlooked approximate b c -> agree overlooked approximate a c.
Proof.
  induction b as [z|t|x|d ms IH|l IH| |x IH|l IH] using value_all; intros a c k Ta Tb Tc Na Nb Nc A B; inversion A; subst; inversion B; subst; try (constructor; fail).
  - constructor. eapply same_trans; eassumption.
  - destruct k as [| | |d'| | |]; try contradiction.
    apply typed_class in Ta as [<- Ta]. apply typed_class in Tb as [_ Tb]. apply typed_class in Tc as [_ Tc].
    pose proof (names_distinct d) as D. unfold names_of in D.
    inversion Na; inversion Nb; inversion Nc; subst.
    repeat match goal with J : Forall _ _ |- _ => rewrite Forall_forall in J end.
    constructor.
    + intros n x z Ix Iz Ns Nn. destruct (in_both _ _ _ _ _ Ta Tb Ix) as (y & k & Iy & Ik & Tx & Ty).
      destruct (members_kind _ _ _ _ Tc Iz) as (k' & Ik' & Tz).
      pose proof (in_member _ _ _ D Ik) as M. pose proof (in_member _ _ _ D Ik') as M'. rewrite M in M'. injection M' as <-.
      apply (IH (n, y) Iy x z k Tx Ty Tz);
        [match goal with J : forall x, In x _ -> numbers _ _ |- _ => exact (J (n, x) Ix) end
        |match goal with J : forall x, In x _ -> numbers _ _ |- _ => exact (J (n, y) Iy) end
        |match goal with J : forall x, In x _ -> numbers _ _ |- _ => exact (J (n, z) Iz) end
        |eauto|eauto].
    + intros n x z Ix Iz Ns Nn. destruct (in_both _ _ _ _ _ Ta Tb Ix) as (y & k & Iy & Ik & Tx & Ty).
      assert (C1 : close x y) by eauto. assert (C2 : close y z) by eauto.
      assert (Sx : numbers seven_digits x) by (match goal with J : forall x, In x _ -> numbers _ _ |- _ => exact (J (n, x) Ix) end).
      assert (Sy : numbers seven_digits y) by (match goal with J : forall x, In x _ -> numbers _ _ |- _ => exact (J (n, y) Iy) end).
      assert (Sz : numbers seven_digits z) by (match goal with J : forall x, In x _ -> numbers _ _ |- _ => exact (J (n, z) Iz) end).
      inversion C1 as [p q Cpq]; subst; inversion C2 as [q' r Cqr]; subst. inversion Sx; inversion Sy; inversion Sz; subst.
      constructor. apply same_close. apply (same_trans p q r); apply close_same; assumption.
  - destruct k as [| | | |k| |]; try contradiction. apply typed_vector in Ta. apply typed_vector in Tb. apply typed_vector in Tc.
    inversion Na as [| | | | |? Fa| |]; inversion Nb as [| | | | |? Fb| |]; inversion Nc as [| | | | |? Fc| |]; subst. constructor.
    match goal with J : Forall2 _ _ ?l, K : Forall2 _ ?l _ |- _ =>
      refine (chain _ (fun x => typed x k /\ numbers seven_digits x) l _ _ _ (Forall_and Ta Fa) (Forall_and Tb Fb) (Forall_and Tc Fc) J K) end.
    apply Forall_impl with (2 := IH). intros y Hy x z [? ?] [? ?] [? ?]. apply (Hy x z k); assumption.
  - destruct k as [| | | | |k|]; try contradiction. inversion Na; inversion Nb; inversion Nc; subst. constructor. eapply IH; [exact Ta|exact Tb|exact Tc|..]; assumption.
  - destruct k as [| | | | | |k]; try contradiction. apply typed_map in Ta. apply typed_map in Tb. apply typed_map in Tc.
    inversion Na as [| | | | | |? Fa|]; inversion Nb as [| | | | | |? Fb|]; inversion Nc as [| | | | | |? Fc|]; subst. constructor.
    match goal with J : Forall2 _ _ ?l, K : Forall2 _ ?l _ |- _ =>
      refine (chain _ (fun p => typed (snd p) k /\ numbers seven_digits (snd p)) l _ _ _ (Forall_and Ta Fa) (Forall_and Tb Fb) (Forall_and Tc Fc) J K) end.
    apply Forall_impl with (2 := IH). intros y Hy x z [? ?] [? ?] [? ?] [? ?] [? ?]. split; [congruence|]. apply (Hy (snd x) (snd z) k); assumption.
Qed.
Lemma equal_trans a b c k : typed a k -> typed b k -> typed c k ->
  numbers seven_digits a -> numbers seven_digits b -> numbers seven_digits c ->
  equal a b = true -> equal b c = true -> equal a c = true.
Proof.
  intros Ta Tb Tc Na Nb Nc A B. apply (equal_agree a c k Ta Tc).
  apply (agree_trans b a c k Ta Tb Tc Na Nb Nc); [apply (equal_agree a b k Ta Tb)|apply (equal_agree b c k Tb Tc)]; assumption.
Qed.
