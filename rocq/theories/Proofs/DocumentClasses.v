(** The classes whose children form a sequence. *)
From Coq Require Import List String Ascii ZArith Bool PeanoNat Lia.
From Verif Require Import Model.Base Model.Text Proofs.StringsProofs Model.ElementReading Model.ElementClasses Model.ElementGroups Model.Attributes Model.Documents
  Spec.ChildOrder Spec.Children Proofs.ReadingPlain Proofs.ReadingOrder Proofs.ReadingSub Proofs.ReadingProofs Spec.ContentModels Spec.MoreContents Spec.ScoreContents Spec.AllowedDocuments
  Proofs.DocumentChildren.
Import ListNotations.
Open Scope nat_scope.
Open Scope list_scope.

Lemma read_ordered_exact : forall c, In c element_classes -> forall o, In (cl_name c, o) schema_order ->
  forall A (children : list (node A)), in_order o (map fst (elements children)) ->
  exists s, read_children (cl_steps c) children = Ok s
    /\ forall name, s name = match named_in name (elements children) with [] => initial_contents (cl_steps c) name | l => map Some l end.
Proof.
  intros c I o J A children IO. destruct (class_facts c I) as (F & ND & SB & K). destruct (K o J) as [FI _].
  rewrite read_plain. eexists. split; [reflexivity|].
  exact (p_loop_spec (List.length (elements children)) (cl_steps c) [] (cl_steps c) [] (elements children) (initial_contents (cl_steps c)) eq_refl F ND
    (fits_order _ _ _ FI IO) (initial_fresh A _ SB ND) (le_n _)).
Qed.

Lemma elements_nodes {A} (l : list (str * A)) : elements (nodes l) = l.
Proof. induction l as [ | [n a] l IH]; [reflexivity | ]. change (elements (nodes ((n, a) :: l))) with ((n, a) :: elements (nodes l)). now rewrite IH. Qed.

Lemma flat_map_same {X Y} (f g : X -> list Y) l : (forall x, In x l -> f x = g x) -> flat_map f l = flat_map g l.
Proof. induction l as [ | x l IH]; intros H; [reflexivity | ]. cbn [flat_map]. rewrite (H x (or_introl eq_refl)), IH; [reflexivity | ]. intros y I. apply H. right. exact I. Qed.

Lemma flat_map_next {X Y} (f : X -> list Y) x l : flat_map f (x :: l) = f x ++ flat_map f l.
Proof. reflexivity. Qed.

(** Children in order, put together again name by name. *)
Lemma in_order_together {A} o : forall l : list (str * A), NoDup (pnames o) -> in_order o (map fst l) ->
  l = flat_map (fun k => map (pair k) (named_in k l)) (pnames o) /\
  forall k b, In (k, Some b) o -> List.length (named_in k l) <= b.
Proof.
  induction o as [ | [n b] o IH]; intros l D IO.
  - destruct l; [ | exfalso; inversion IO]. split; [reflexivity | intros k b []].
  - apply in_order_inv in IO. destruct IO as (m & names & E & B & IO). cbn [pnames map fst] in D. inversion D as [ | ? ? D1 D2]; subst.
    assert (exists l1 l2, l = l1 ++ l2 /\ map fst l1 = repeat n m /\ map fst l2 = names) as (l1 & l2 & -> & E1 & E2).
    { exists (firstn m l), (skipn m l). split; [symmetry; apply firstn_skipn | ]. rewrite <- firstn_map, <- skipn_map, E.
      rewrite firstn_app, skipn_app, repeat_length, Nat.sub_diag. cbn [firstn skipn]. rewrite app_nil_r.
      rewrite firstn_all2 by (rewrite repeat_length; lia). rewrite skipn_all2 by (rewrite repeat_length; lia). auto. }
    subst names.
    assert (N2 : ~ In n (map fst l2)) by (intros X; exact (D1 (in_order_names _ _ IO _ X))).
    assert (L1 : l1 = map (pair n) (map snd l1)).
    { clear - E1. revert m E1. induction l1 as [ | [k a] l1 IH]; intros [ | m] E1; try discriminate E1; [reflexivity | ]. cbn in *. injection E1 as -> E1. f_equal. eauto. }
    assert (M1 : named_in n (l1 ++ l2) = map snd l1).
    { rewrite named_in_app, (named_in_none n l2 N2), app_nil_r. rewrite L1 at 1. apply named_in_run. }
    assert (Z : forall k, k <> n -> named_in k l1 = []).
    { intros k NE. apply named_in_none. rewrite E1. intros X. apply repeat_spec in X. contradiction. }
    destruct (IH l2 D2 IO) as [T U]. split.
    + cbn [pnames map fst flat_map]. rewrite M1, <- L1. f_equal. rewrite T at 1. apply flat_map_same. intros k K.
      rewrite named_in_app, (Z k); [reflexivity | ]. intros ->. contradiction.
    + intros k b' [I | I].
      * injection I as -> ->. rewrite M1, map_length. assert (LM : List.length (map fst l1) = m) by (rewrite E1; apply repeat_length). rewrite map_length in LM. lia.
      * rewrite named_in_app, (Z k); [exact (U k b' I) | ]. intros ->. apply D1. apply in_map_iff. exists (n, Some b'). auto.
Qed.

(** The bounds of single children, and the children the constructors make. *)
Definition required_of (n : str) : list str := flat_map (fun p => if str_eqb (lit (fst p)) n then map lit (snd p) else []) required_children.
Definition bounds_ok (c : element_class) : bool :=
  str_eqb (cl_name c) (lit "direction") ||
  (forallb (fun p => negb (str_eqb (fst p) (cl_name c)) ||
     forallb (fun q => is_set_key (cl_steps c) (fst q) || match snd q with Some b => b <=? 1 | None => false end) (snd p)) schema_order &&
   forallb (fun st => match st with ElementReading.Many _ k i _ => (i =? 0) || existsb (str_eqb k) (required_of (cl_name c)) | _ => true end) (cl_steps c)).
Lemma all_bounds : forallb bounds_ok element_classes = true.
Proof. vm_compute. reflexivity. Qed.

Lemma initial_empty {A} steps k : (forall n i b, In (ElementReading.Many n k i b) steps -> i = 0) -> @initial_contents A steps k = [].
Proof.
  induction steps as [ | [n k' s | n k' i s | ms b | ns k'] r IH]; intros H; cbn [initial_contents]; try (apply IH; intros n' i' b' J; apply (H n' i' b'); right; exact J); [reflexivity | ].
  unfold put. destruct (str_eqb k k') eqn:E.
  - apply str_eqb_eq in E. subst k'. rewrite (H n i s (or_introl eq_refl)). reflexivity.
  - apply IH. intros n' i' b' J. apply (H n' i' b'). right. exact J.
Qed.

Theorem class_back c o A (l : list (str * A)) : In c element_classes -> In (cl_name c, o) schema_order -> cl_name c <> lit "direction" -> in_order o (map fst l) ->
  (forall k, In k (required_of (cl_name c)) -> In k (map fst l)) ->
  exists s, read_children (cl_steps c) (nodes l) = Ok s /\ write_class c s = map as_read l.
Proof.
  intros I J ND IO RQ. destruct (read_ordered_exact c I o J A (nodes l)) as (s & R & S); [rewrite elements_nodes; exact IO | ].
  exists s. split; [exact R | ]. rewrite elements_nodes in S.
  destruct (class_facts c I) as (_ & DU & _ & K). destruct (K o J) as [FI W].
  assert (DO : NoDup (pnames o)) by (rewrite (fits_names _ _ FI); exact DU).
  destruct (in_order_together o l DO IO) as [T U].
  pose proof all_bounds as B. rewrite forallb_forall in B. specialize (B c I). unfold bounds_ok in B. apply orb_true_iff in B. destruct B as [B | B].
  { apply str_eqb_eq in B. contradiction. }
  apply andb_true_iff in B. destruct B as [B1 B2]. rewrite forallb_forall in B1. specialize (B1 _ J). cbn [fst snd] in B1. rewrite str_eqb_refl in B1. cbn [negb orb] in B1.
  rewrite forallb_forall in B1, B2.
  assert (FM : forall (ks : list str), (forall k, In k ks -> In k (pnames o)) ->
    flat_map (fun k => if is_set_key (cl_steps c) k then map (fun x => (k, own x)) (s k) else match s k with [] => [] | q => [(k, flat_map own q)] end) ks
    = map as_read (flat_map (fun k => map (pair k) (named_in k l)) ks)).
  { induction ks as [ | k ks IH]; intros KS; [reflexivity | ]. rewrite !(flat_map_next _ k ks), map_app, IH by (intros k' X; apply KS; right; exact X). f_equal. clear IH.
    specialize (KS k (or_introl eq_refl)). unfold pnames in KS. apply in_map_iff in KS. destruct KS as ([k' b] & E & KO). cbn [fst] in E. subst k'.
    specialize (B1 _ KO). cbn [fst snd] in B1. rewrite (S k).
    destruct (named_in k l) as [ | a q] eqn:Q.
    - assert (Z : @initial_contents A (cl_steps c) k = []).
      { apply initial_empty. intros n i st X. specialize (B2 _ X). cbn in B2. apply orb_true_iff in B2. destruct B2 as [B2 | B2]; [now apply Nat.eqb_eq | ]. exfalso.
        apply existsb_exists in B2. destruct B2 as (k' & Y & E). apply str_eqb_eq in E. subst k'. apply RQ in Y. clear - Y Q.
        induction l as [ | [m a] r IH]; [contradiction | ]. cbn in *. destruct (str_eqb m k) eqn:E; [discriminate Q | ]. destruct Y as [Y | Y]; [ | exact (IH Y Q)].
        subst m. rewrite str_eqb_refl in E. discriminate E. }
      rewrite Z. cbn [map]. now destruct (is_set_key (cl_steps c) k).
    - destruct (is_set_key (cl_steps c) k) eqn:IS.
      + rewrite !map_map. apply map_ext. reflexivity.
      + cbn [orb] in B1. destruct b as [b | ]; [ | discriminate B1]. apply Nat.leb_le in B1. specialize (U k b KO). rewrite Q in U. cbn [List.length] in U.
        destruct q as [ | ? ?]; [ | cbn in U; lia]. reflexivity. }
  unfold write_class. rewrite <- W, (FM (pnames o) (fun k X => X)), <- T. reflexivity.
Qed.
