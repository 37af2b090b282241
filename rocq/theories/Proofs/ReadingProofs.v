(** What the classes read and write. *)
From Coq Require Import List String Ascii ZArith Bool PeanoNat Lia.
From Verif Require Import Model.Base Model.Text Proofs.StringsProofs Model.ElementReading Model.ElementClasses Spec.ChildOrder Spec.Children Proofs.ReadingPlain Proofs.ReadingOrder Proofs.ReadingSub.
Import ListNotations.
Open Scope nat_scope.
Open Scope list_scope.

Definition simpleb (st : step) : bool :=
  match st with
  | One n k _ => str_eqb k n
  | Many n k i _ => str_eqb k n && (i <=? 1)
  | Group ms _ => forallb (fun m => str_eqb (gm_key m) (gm_name m)) ms
  | Each _ _ => false
  end.
Fixpoint nodupb (l : list str) : bool := match l with [] => true | x :: r => negb (existsb (str_eqb x) r) && nodupb r end.
Fixpoint fitsb (schema code : order) : bool :=
  match schema, code with
  | [], [] => true
  | (n, b) :: r, (m, c) :: q => str_eqb n m && match c with None => true | Some 1 => match b with Some x => x <=? 1 | None => false end | _ => false end && fitsb r q
  | _, _ => false
  end.
Fixpoint strs_eqb (a b : list str) : bool := match a, b with [], [] => true | x :: r, y :: q => str_eqb x y && strs_eqb r q | _, _ => false end.

Definition class_ok (c : element_class) : bool :=
  forallb simpleb (cl_steps c) && nodupb (pnames (parts (cl_steps c)))
  && forallb (fun p => negb (str_eqb (fst p) (cl_name c)) || (fitsb (snd p) (parts (cl_steps c)) && strs_eqb (pnames (snd p)) (cl_writes c))) schema_order.

Lemma classes_ok : forallb class_ok element_classes = true.
Proof. vm_compute. reflexivity. Qed.

Lemma simpleb_ok : forall st, simpleb st = true -> simple st.
Proof.
  intros [n k s|n k i s|ms b|ns k] H; cbn in *; try discriminate.
  - now apply str_eqb_eq.
  - apply andb_true_iff in H. destruct H as [H _]. now apply str_eqb_eq.
  - rewrite forallb_forall in H. apply Forall_forall. intros m I. now apply str_eqb_eq, H.
Qed.

Lemma nodupb_ok : forall l, nodupb l = true -> NoDup l.
Proof.
  induction l as [|x r IH]; intros H; [constructor|]. cbn in H. apply andb_true_iff in H. destruct H as [H1 H2]. constructor; [|auto].
  intros I. apply negb_true_iff in H1. rewrite <- not_true_iff_false in H1. apply H1. apply existsb_exists. exists x. split; [exact I | apply str_eqb_refl].
Qed.

Lemma strs_eqb_eq : forall a b, strs_eqb a b = true -> a = b.
Proof.
  induction a as [|x r IH]; intros [|y q] H; cbn in *; try discriminate; [reflexivity|]. apply andb_true_iff in H. destruct H as [H1 H2].
  apply str_eqb_eq in H1. f_equal; auto.
Qed.

Lemma fits_order : forall o o' l, fitsb o o' = true -> in_order o l -> in_order o' l.
Proof.
  induction o as [|[n b] r IH]; intros [|[m c] q] l F H; cbn in F; try discriminate; [exact H|].
  apply andb_true_iff in F. destruct F as [F F3]. apply andb_true_iff in F. destruct F as [F1 F2]. apply str_eqb_eq in F1. subst m.
  apply in_order_inv in H. destruct H as (k & names & -> & B & H). constructor; [|eauto].
  destruct c as [[|[|x]]|]; try discriminate; [|exact I]. destruct b as [y|]; [|discriminate]. apply Nat.leb_le in F2. lia.
Qed.

Lemma fits_names : forall o o', fitsb o o' = true -> pnames o = pnames o'.
Proof.
  induction o as [|[n b] r IH]; intros [|[m c] q] F; cbn in F; try discriminate; [reflexivity|].
  apply andb_true_iff in F. destruct F as [F F3]. apply andb_true_iff in F. destruct F as [F1 F2]. apply str_eqb_eq in F1. subst m. cbn. f_equal. apply IH. exact F3.
Qed.

Lemma class_facts : forall c, In c element_classes ->
  Forall simple (cl_steps c) /\ NoDup (pnames (parts (cl_steps c))) /\ forallb simpleb (cl_steps c) = true /\
  forall o, In (cl_name c, o) schema_order -> fitsb o (parts (cl_steps c)) = true /\ pnames o = cl_writes c.
Proof.
  intros c I. pose proof classes_ok as K. rewrite forallb_forall in K. specialize (K c I). unfold class_ok in K.
  apply andb_true_iff in K. destruct K as [K K3]. apply andb_true_iff in K. destruct K as [K1 K2].
  split; [rewrite forallb_forall in K1; apply Forall_forall; intros st J; apply simpleb_ok; auto|]. split; [now apply nodupb_ok|]. split; [exact K1|].
  intros o J. rewrite forallb_forall in K3. specialize (K3 _ J). cbn [fst snd] in K3. rewrite str_eqb_refl in K3. cbn in K3.
  apply andb_true_iff in K3. destruct K3 as [K3 K4]. split; [exact K3 | now apply strs_eqb_eq].
Qed.

Lemma initial_none : forall A steps k, Forall (eq None) (@initial_contents A steps k).
Proof.
  intros A. induction steps as [|[n k' s|n k' i s|ms b|ns k'] r IH]; intros k; cbn; try apply Forall_nil; auto.
  unfold put. destruct (str_eqb k k'); [|apply IH]. apply Forall_forall. intros x J. apply repeat_spec in J. auto.
Qed.

Lemma initial_fresh : forall A steps, forallb simpleb steps = true -> NoDup (pnames (parts steps)) -> fresh (parts steps) (@initial_contents A steps).
Proof.
  intros A steps H ND.
  assert (L : forall k, List.length (@initial_contents A steps k) <= 1).
  { clear ND. intros k. induction steps as [|x r IH]; cbn in *; [lia|]. apply andb_true_iff in H. destruct H as [H1 H2].
    destruct x as [n k' s|n k' i s|ms b|ns k']; auto. unfold put. destruct (str_eqb k k'); auto. cbn in H1. apply andb_true_iff in H1. destruct H1 as [_ H1].
    rewrite repeat_length. now apply Nat.leb_le. }
  assert (Z : forall k, (forall i s, ~ In (Many k k i s) steps) -> @initial_contents A steps k = []).
  { clear ND L. intros k. induction steps as [|x r IH]; intros K; [reflexivity|]. cbn in *. apply andb_true_iff in H. destruct H as [H1 H2].
    assert (IH' := IH H2 ltac:(intros i s J; apply (K i s); auto)).
    destruct x as [n k' s|n k' i s|ms b|ns k']; auto. unfold put. destruct (str_eqb k k') eqn:E; auto. exfalso.
    cbn in H1. apply andb_true_iff in H1. destruct H1 as [H1 _]. apply str_eqb_eq in E. apply str_eqb_eq in H1. subst. apply (K i s). now left. }
  intros n b I. split; [apply L|]. intros B. apply Z. intros i s J.
  clear L Z. unfold parts in *. induction steps as [|x r IH]; [contradiction|]. cbn [forallb] in H. apply andb_true_iff in H. destruct H as [_ H]. cbn [flat_map] in *.
  unfold pnames in ND. rewrite map_app in ND. pose proof (app_disjoint _ _ ND) as D. pose proof (app_nodup_r _ _ ND) as ND2.
  destruct J as [->|J].
  - cbn in I. destruct I as [I|I]; [injection I as <-; contradiction|]. apply (D n); [now left|]. apply in_map_iff. exists (n, b). auto.
  - apply in_app_or in I. destruct I as [I|I]; [|exact (IH H ND2 I J)]. apply (D n); [apply in_map_iff; exists (n, b); auto|].
    apply in_map_iff. exists (n, None). split; [reflexivity|]. apply in_flat_map. exists (Many n n i s). split; [exact J | now left].
Qed.

Theorem read_ordered : forall c, In c element_classes -> forall o, In (cl_name c, o) schema_order ->
  forall A (children : list (node A)), in_order o (map fst (elements children)) ->
  exists s, read_children (cl_steps c) children = Ok s
    /\ forall name, match named name children with [] => Forall (eq None) (s name) | l => s name = map Some l end.
Proof.
  intros c I o J A children IO. destruct (class_facts c I) as (F & ND & SB & K). destruct (K o J) as [FI _].
  rewrite read_plain. eexists. split; [reflexivity|].
  pose proof (p_loop_spec (List.length (elements children)) (cl_steps c) [] (cl_steps c) [] (elements children) (initial_contents (cl_steps c)) eq_refl F ND
    (fits_order _ _ _ FI IO) (initial_fresh A _ SB ND) (le_n _)) as U.
  intros name. rewrite (U name), named_elements. destruct (named_in name (elements children)); [apply initial_none | reflexivity].
Qed.

Theorem read_picked : forall c, In c element_classes -> forall A (children : list (node A)) s, read_children (cl_steps c) children = Ok s ->
  forall name, picked (given (s name)) (named name children).
Proof.
  intros c I A children s E name. rewrite read_plain in E. injection E as <-. destruct (class_facts c I) as (F & ND & _ & _).
  rewrite named_elements. apply (p_loop_good _ _ ([], elements children)); auto. intros k. unfold before. cbn.
  assert (G : forall l : list (option A), Forall (eq None) l -> given l = []) by (induction 1 as [|x l <- _ IH]; [reflexivity | exact IH]).
  rewrite G by apply initial_none. constructor.
Qed.

Theorem read_total : forall A steps (children : list (node A)), exists s, read_children steps children = Ok s.
Proof. intros. rewrite read_plain. eauto. Qed.

Lemma elements_without : forall A (children : list (node A)), elements (without_instructions children) = elements children.
Proof. intros. unfold without_instructions. induction (elements children) as [|[n a] l IH]; cbn; congruence. Qed.

Theorem read_instructions : forall A steps (children : list (node A)), read_children steps children = read_children steps (without_instructions children).
Proof. intros. rewrite !read_plain, elements_without. reflexivity. Qed.

(** The cursor. *)
Lemma decrement_skip : forall A after (pis : list (node A)) n a b, Forall (fun x => match x with NInstruction _ _ => True | _ => False end) pis ->
  decrement (skip_forward (pis ++ NElement n a :: b) after) = Ok (mkIter b (NElement n a :: rev pis ++ after)).
Proof.
  assert (BK : forall A (pis : list (node A)) n a b after, Forall (fun x => match x with NInstruction _ _ => True | _ => False end) pis ->
    decrement (mkIter (pis ++ NElement n a :: b) after) = Ok (mkIter b (NElement n a :: rev pis ++ after))).
  { intros A pis n a b after H. unfold decrement. cbn [it_before it_after]. destruct pis as [|x pis]; [destruct b; reflexivity|]. cbn [app].
    revert x after H. induction pis as [|y pis IH]; intros x after H.
    - inversion H as [|? ? H1 _]; subst. destruct x; [contradiction|]. cbn. destruct b; reflexivity.
    - inversion H as [|? ? H1 H2]; subst. destruct x; [contradiction|]. cbn [app skip_backward]. specialize (IH y (NInstruction name data :: after) H2). cbn [app] in IH.
      rewrite IH. cbn [rev]. rewrite <- !app_assoc. reflexivity. }
  intros A. induction after as [|[m x|m d] r IH]; intros pis n a b H; cbn [skip_forward].
  - now apply BK.
  - now apply BK.
  - change (NInstruction m d :: pis ++ NElement n a :: b) with ((NInstruction m d :: pis) ++ NElement n a :: b). rewrite IH.
    + cbn [rev]. now rewrite <- app_assoc.
    + constructor; auto.
Qed.

Lemma import_run_exact : forall A name run a fuel first set before (after : list (node A)), match elements after with (n, _) :: _ => n <> name | [] => True end ->
  List.length (map (NElement name) (a :: run) ++ after) <= fuel ->
  import_run fuel name first set (mkIter before (map (NElement name) (a :: run) ++ after))
  = Ok (true, fill first set (a :: run), skip_forward (rev (map (NElement name) (a :: run)) ++ before) after).
Proof.
  intros A name. induction run as [|b run IH]; intros a fuel first set before after N L.
  - destruct fuel as [|fuel]; [cbn in L; lia|]. cbn [import_run map app at_end it_after name_at contents_at obind]. rewrite str_eqb_refl. unfold increment. cbn [it_after it_before obind].
    rewrite <- (fill_step first set a []). cbn [fill].
    pose proof (skip_forward_at after (NElement name a :: before)) as H. destruct H as (H1 & H2 & H3). cbn [fst snd] in *.
    set (it := skip_forward (NElement name a :: before) after) in *. destruct (it_after it) as [|[m x|m d] r] eqn:E.
    + destruct fuel; cbn [import_run]; unfold at_end; rewrite E; reflexivity.
    + destruct fuel as [|fuel]; [cbn in L; pose proof (skip_forward_length after (NElement name a :: before)) as SL; fold it in SL; rewrite E in SL; cbn in SL; lia|].
      cbn [import_run]. unfold at_end, name_at. rewrite E. cbn [obind]. cbn in H2. rewrite <- H2 in N. rewrite str_eqb_neq by auto. reflexivity.
    + contradiction.
  - destruct fuel as [|fuel]; [cbn in L; lia|]. cbn [import_run map app at_end it_after name_at contents_at obind]. rewrite str_eqb_refl. unfold increment. cbn [it_after it_before obind skip_forward].
    change (NElement name b :: map (NElement name) run ++ after) with (map (NElement name) (b :: run) ++ after).
    rewrite IH; [|exact N|cbn in L |- *; lia]. rewrite fill_step. cbn [map rev]. rewrite <- !app_assoc. reflexivity.
Qed.

Theorem set_cursor : forall A name key (s : contents A) before run a after, match elements after with (n, _) :: _ => n <> name | [] => True end ->
  importElementSet name key (mkIter before (map (NElement name) (run ++ [a]) ++ after)) s
  = Ok (true, mkIter (rev (map (NElement name) run) ++ before) (NElement name a :: after),
        put key (if List.length (s key) =? 1 then map Some (run ++ [a]) else s key ++ map Some (run ++ [a])) s).
Proof.
  intros A name key s before run a after N. unfold importElementSet. cbn [it_after].
  destruct (run ++ [a]) as [|b run'] eqn:E; [now apply app_eq_nil in E as [_ E]|].
  rewrite import_run_exact by auto. cbn [obind]. rewrite <- E, map_app, rev_app_distr. cbn [map rev app].
  pose proof (decrement_skip A after [] name a (rev (map (NElement name) run) ++ before) (Forall_nil _)) as D. cbn [app rev] in D.
  rewrite D. cbn [obind]. unfold fill. rewrite E. cbn [negb andb]. reflexivity.
Qed.

Theorem set_no_match : forall A name key (s : contents A) it, match it_after it with NElement n _ :: _ => n <> name | NInstruction n _ :: _ => n <> name | [] => True end ->
  importElementSet name key it s = Ok (false, it, s).
Proof.
  intros A name key s [b [|[n a|n d] r]] H; cbn in *; [reflexivity| |]; unfold importElementSet; cbn; rewrite str_eqb_neq by auto; reflexivity.
Qed.

(** Writing. *)
Lemma named_write : forall A (s : str -> list A) writes, NoDup writes -> forall k,
  named k (flat_map (fun k => map (NElement k) (s k)) writes) = if existsb (str_eqb k) writes then s k else [].
Proof.
  intros A s. induction writes as [|w r IH]; intros ND k; [reflexivity|]. apply NoDup_cons_iff in ND. destruct ND as [N1 N2]. cbn [flat_map existsb].
  assert (AP : forall (a b : list (node A)), named k (a ++ b) = named k a ++ named k b).
  { intros a b. induction a as [|[n x|n d] a IHa]; cbn; auto. destruct (str_eqb n k); cbn; congruence. }
  rewrite AP, IH by exact N2. destruct (str_eqb k w) eqn:E.
  - apply str_eqb_eq in E. subst w. cbn [orb]. assert (X : existsb (str_eqb k) r = false).
    { apply not_true_iff_false. intros X. apply existsb_exists in X. destruct X as (y & J & E). apply str_eqb_eq in E. subst. contradiction. }
    rewrite X, app_nil_r. induction (s k) as [|x l IHl]; cbn; [reflexivity|]. rewrite str_eqb_refl. congruence.
  - cbn [orb]. assert (X : named k (map (NElement w) (s w)) = []).
    { induction (s w) as [|x l IHl]; cbn; [reflexivity|]. rewrite str_eqb_neq; [exact IHl|]. intros ->. rewrite str_eqb_refl in E. discriminate. }
    now rewrite X.
Qed.

Lemma write_in_order : forall A (s : str -> list A) o, (forall n b, In (n, Some b) o -> List.length (s n) <= b) ->
  in_order o (map fst (elements (flat_map (fun k => map (NElement k) (s k)) (pnames o)))).
Proof.
  intros A s. induction o as [|[n b] r IH]; intros H; [constructor|]. cbn [pnames map flat_map fst].
  assert (AP : forall (a b : list (node A)), elements (a ++ b) = elements a ++ elements b).
  { intros a b0. induction a as [|[m x|m d] a IHa]; cbn; congruence. }
  rewrite AP, map_app. replace (map fst (elements (map (NElement n) (s n)))) with (repeat n (List.length (s n))) by (induction (s n); cbn; congruence).
  constructor; [|apply IH; intros m c I; apply H; now right]. destruct b as [b|]; [apply H; now left | exact I].
Qed.

Theorem write_ordered : forall c, In c element_classes -> forall o, In (cl_name c, o) schema_order ->
  forall A (s : str -> list A), (forall n b, In (n, Some b) o -> List.length (s n) <= b) ->
  in_order o (map fst (elements (write_children c s))) /\ forall name, In name (map fst o) -> named name (write_children c s) = s name.
Proof.
  intros c I o J A s H. destruct (class_facts c I) as (F & ND & SB & K). destruct (K o J) as [FI W]. unfold write_children. rewrite <- W. split; [now apply write_in_order|].
  intros name IN. rewrite named_write by (rewrite (fits_names _ _ FI); exact ND). replace (existsb (str_eqb name) (pnames o)) with true; [reflexivity|].
  symmetry. apply existsb_exists. exists name. split; [exact IN | apply str_eqb_refl].
Qed.

Theorem write_read : forall c, In c element_classes -> forall o, In (cl_name c, o) schema_order ->
  forall A (s : str -> list A), (forall n b, In (n, Some b) o -> List.length (s n) <= b) ->
  exists s', read_children (cl_steps c) (write_children c s) = Ok s'
    /\ forall name, In name (map fst o) -> match s name with [] => Forall (eq None) (s' name) | l => s' name = map Some l end.
Proof.
  intros c I o J A s H. destruct (write_ordered c I o J A s H) as [W N]. destruct (read_ordered c I o J A _ W) as (s' & R & E). exists s'. split; [exact R|].
  intros name IN. specialize (E name). rewrite (N name IN) in E. exact E.
Qed.

Theorem classes_covered : map cl_name element_classes = map fst schema_order.
Proof. vm_compute. reflexivity. Qed.
