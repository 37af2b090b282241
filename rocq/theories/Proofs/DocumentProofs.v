(** A whole document, read and written again. *)
From Coq Require Import List String Ascii Bool PeanoNat Permutation Lia.
From Verif Require Import Model.Base Model.Text Model.ElementReading Model.ElementClasses Model.ElementGroups Model.ElementChoices Model.ElementTexts
  Model.Attributes Model.AttributeClasses Model.Documents
  Spec.XmlText Spec.SchemaElementTexts Spec.ChildOrder Spec.SchemaAttributes Spec.ContentModels Spec.MoreContents Spec.ScoreContents Spec.AllowedDocuments
  Proofs.StringsProofs Proofs.GroupLoops Proofs.AttributeProofs Proofs.ElementTextBack Proofs.MoreChildrenProofs Proofs.DocumentChildren Proofs.DocumentClasses.
Import ListNotations.
Local Open Scope list_scope.

Fixpoint xml_induction (P : xml -> Prop) (step : forall n attrs text cs, Forall P cs -> P (Xml n attrs text cs)) (t : xml) : P t :=
  match t with
  | Xml n attrs text cs => step n attrs text cs ((fix all l : Forall P l := match l with [] => Forall_nil P | c :: r => Forall_cons c (xml_induction P step c) (all r) end) cs)
  end.

Lemma unlit n : string_of_list_ascii (lit n) = n.
Proof. apply string_of_list_ascii_of_string. Qed.
Lemma lit_same s t : lit s = lit t -> s = t.
Proof. intros E. rewrite <- (unlit s), <- (unlit t), E. reflexivity. Qed.

(** ** What the names stand for. *)
Definition is_some {X} (o : option X) : bool := match o with Some _ => true | None => false end.
Definition text_names : list string := map (fun p => string_of_list_ascii (fst p)) schema_element_texts.
Definition class_names : list string := map (fun p => string_of_list_ascii (fst p)) schema_order.
Definition content_names : list string := map fst (kept_contents true).

Lemma names_known timewise : forallb (fun n => is_some (element_of timewise n)) ("dynamics"%string :: text_names ++ class_names ++ content_names ++ empty_elements) = true.
Proof. destruct timewise; vm_compute; reflexivity. Qed.
Lemma texts_known : forallb (fun n => is_some (text_type_of n) && negb (String.eqb n "dynamics")) text_names = true.
Proof. vm_compute. reflexivity. Qed.
Lemma others_known : forallb (fun n => negb (is_some (text_type_of n)) && negb (String.eqb n "dynamics")) (class_names ++ content_names ++ empty_elements) = true.
Proof. vm_compute. reflexivity. Qed.
Lemma empties_known timewise : forallb (fun n => negb (is_some (processor_of timewise n))) empty_elements = true.
Proof. destruct timewise; vm_compute; reflexivity. Qed.
Lemma classes_known timewise : forallb (fun n => String.eqb n "direction" || negb (is_some (lookup n (processors timewise))) && is_some (class_named n)) class_names = true.
Proof. destruct timewise; vm_compute; reflexivity. Qed.
Lemma contents_named timewise : map fst (kept_contents timewise) = content_names.
Proof. destruct timewise; reflexivity. Qed.

Lemma known timewise n : In n ("dynamics"%string :: text_names ++ class_names ++ content_names ++ empty_elements) ->
  exists e, element_of timewise n = Some e /\ In e elements /\ e_name e = n.
Proof.
  intros I. pose proof (names_known timewise) as K. rewrite forallb_forall in K. specialize (K n I). destruct (element_of timewise n) as [e | ] eqn:E; [ | discriminate K].
  exists e. split; [reflexivity | ]. unfold element_of in E. apply find_some in E. destruct E as [J E]. split; [exact J | ].
  apply andb_true_iff in E. destruct E as [E _]. apply String.eqb_eq, E.
Qed.

Lemma text_known n k : In (lit n, k) schema_element_texts -> In n text_names /\ n <> "dynamics"%string /\ exists ty, text_type_of n = Some ty /\ In (lit n, ty) element_texts.
Proof.
  intros I. assert (T : In n text_names). { unfold text_names. apply in_map_iff. exists (lit n, k). split; [apply unlit | exact I]. }
  split; [exact T | ]. pose proof texts_known as K. rewrite forallb_forall in K. specialize (K n T). apply andb_true_iff in K. destruct K as [K D].
  split; [intros ->; discriminate D | ]. destruct (text_type_of n) as [ty | ] eqn:E; [ | discriminate K]. exists ty. split; [reflexivity | ].
  unfold text_type_of in E. destruct (find (fun p => str_eqb (fst p) (lit n)) element_texts) as [[m ty'] | ] eqn:F; [ | discriminate E]. injection E as ->.
  apply find_some in F. destruct F as [J F]. cbn [fst] in F. apply str_eqb_eq in F. subst m. exact J.
Qed.

Lemma other_known n : In n (class_names ++ content_names ++ empty_elements) -> n <> "dynamics"%string /\ text_type_of n = None.
Proof.
  intros I. pose proof others_known as K. rewrite forallb_forall in K. specialize (K n I). apply andb_true_iff in K. destruct K as [K D].
  split; [intros ->; discriminate D | ]. now destruct (text_type_of n).
Qed.

Lemma class_known timewise n o : In (lit n, o) schema_order -> n <> "direction"%string ->
  In n class_names /\ exists c, processor_of timewise n = Some (process_class c) /\ In c element_classes /\ cl_name c = lit n.
Proof.
  intros I D. assert (T : In n class_names). { unfold class_names. apply in_map_iff. exists (lit n, o). split; [apply unlit | exact I]. }
  split; [exact T | ]. pose proof (classes_known timewise) as K. rewrite forallb_forall in K. specialize (K n T). apply orb_true_iff in K. destruct K as [K | K].
  { apply String.eqb_eq in K. contradiction. }
  apply andb_true_iff in K. destruct K as [K1 K2]. unfold processor_of. destruct (lookup n (processors timewise)); [discriminate K1 | ].
  destruct (class_named n) as [c | ] eqn:E; [ | discriminate K2]. exists c. split; [reflexivity | ]. unfold class_named in E. apply find_some in E. destruct E as [J E].
  split; [exact J | apply str_eqb_eq, E].
Qed.

(** ** Attributes and texts. *)
Lemma plain_chardata t : plain t -> chardata t t.
Proof.
  intros (L & G & A & _). induction t as [ | c t IH]; [constructor | ]. constructor.
  - intros ->. apply L. left. reflexivity.
  - intros ->. apply G. left. reflexivity.
  - intros ->. apply A. left. reflexivity.
  - apply IH; intros I; [apply L | apply G | apply A]; right; exact I.
Qed.

Lemma attributes_back takes initial n attrs e : attributes_allowed takes true n attrs -> In e elements -> e_name e = n ->
  accepted takes initial e attrs = true /\ exists order, Permutation order attrs /\ Forall2 attribute_written (rewritten takes initial e attrs) order.
Proof.
  intros [C K] I <-. destruct (K eq_refl) as [U P].
  assert (M : mem (e_name e) unreadable = false).
  { destruct (mem (e_name e) unreadable) eqn:E; [ | reflexivity]. exfalso. apply U. unfold mem in E. apply existsb_exists in E. destruct E as (m & J & E).
    apply String.eqb_eq in E. rewrite E. exact J. }
  split; [exact (proj1 (conforming_back takes initial e attrs I M C)) | ].
  assert (R : Permutation (rewritten takes initial e attrs) attrs).
  { apply conforming_same; [exact I | exact M | exact C | ]. intros m J. unfold names in J. apply in_map_iff in J. destruct J as ([m' v] & E & J). cbn [fst] in E. subst m'.
    destruct (P m v J) as (A & B & _). split; assumption. }
  exists (rewritten takes initial e attrs). split; [exact R | ].
  assert (Q : forall m v, In (m, v) (rewritten takes initial e attrs) -> plain (lit v)).
  { intros m v J. apply (Permutation_in _ R) in J. exact (proj2 (proj2 (P m v J))). }
  induction (rewritten takes initial e attrs) as [ | [m v] l IH]; [constructor | ].
  constructor; [ | clear IH]. 
  - split; [reflexivity | ]. cbn [snd]. specialize (Q m v (or_introl eq_refl)). split; [apply plain_chardata, Q | apply Q].
  - assert (QL : forall m v, In (m, v) l -> plain (lit v)) by (intros m' v' J; apply (Q m' v'); right; exact J). clear - QL.
    induction l as [ | [m v] l IH]; [constructor | ]. constructor; [ | apply IH; intros m' v' J; apply (QL m' v'); right; exact J].
    split; [reflexivity | ]. cbn [snd]. specialize (QL m v (or_introl eq_refl)). split; [apply plain_chardata, QL | apply QL].
Qed.

Lemma nothing_written n : text_written n [] [].
Proof. exists []. split; [constructor | left; reflexivity]. Qed.

(** ** Children. *)
Lemma conforms_map {A B} (f : A -> B) c l : ContentModels.conforms c l -> ContentModels.conforms c (map (fun p => (fst p, f (snd p))) l).
Proof.
  induction 1; cbn [map fst snd]; rewrite ?map_app; try (econstructor; eassumption).
Qed.

Lemma chord_alone takes timewise t : allowed takes true timewise t -> xml_name t = "chord"%string -> t = Xml "chord" [] [] [].
Proof.
  intros H E.
  assert (Z : forall attrs, attributes_allowed takes true "chord" attrs -> attrs = []).
  { intros [ | [m v] attrs] [(_ & C & _) _]; [reflexivity | ]. destruct (C m v (or_introl eq_refl)) as (a & I & _). vm_compute in I. contradiction. }
  destruct H as [n attrs text k A I _ _ | n attrs A I | attrs cs A _ _ | n attrs cs o A D I _ _ _ _ | n attrs cs c A I _ _]; cbn [xml_name] in E; try subst n.
  - destruct (text_known _ _ I) as (T & _). vm_compute in T. decompose [or] T; try contradiction; discriminate.
  - rewrite (Z attrs A). reflexivity.
  - discriminate E.
  - destruct (class_known timewise _ _ I D) as [T _]. vm_compute in T. decompose [or] T; try contradiction; discriminate.
  - apply (in_map fst) in I. cbn [fst] in I. rewrite contents_named in I. vm_compute in I. decompose [or] I; try contradiction; discriminate.
Qed.

Lemma chord_again takes initial timewise : reread takes initial timewise (Xml "chord" [] [] []) = Some (true, Xml "chord" [] [] []).
Proof. destruct timewise; vm_compute; reflexivity. Qed.

Section Children.
  Variables (takes : taking) (initial : string -> string) (timewise : bool).
  Let again := reread takes initial timewise.
  Definition comes_again (t : xml) : Prop := exists t', again t = Some (true, t') /\ document_written t' t.
  Definition good_result (r : option (bool * xml)) : bool := match r with Some (b, _) => b | None => false end.
  Definition results (cs : list xml) : list (str * option (bool * xml)) := map (fun c => (lit (xml_name c), again c)) cs.

  Lemma results_nodes cs : map (fun c => NElement (lit (xml_name c)) (again c)) cs = nodes (results cs).
  Proof. unfold nodes, results. rewrite map_map. reflexivity. Qed.

  Lemma results_good cs : Forall comes_again cs -> all_readable good_result (results cs).
  Proof. induction 1 as [ | c cs (t' & R & _) _ IH]; [constructor | ]. constructor; [ | exact IH]. cbn [snd]. rewrite R. reflexivity. Qed.

  Lemma results_conform c cs : ContentModels.conforms c (map (fun t => (lit (xml_name t), t)) cs) -> ContentModels.conforms c (results cs).
  Proof. intros H. apply (conforms_map again) in H. rewrite map_map in H. exact H. Qed.

  Lemma children_written cs : Forall comes_again cs -> Forall (allowed takes true timewise) cs -> forall w, Forall2 child_written w (results cs) ->
    exists cs', all_some (map written_child w) = Some cs' /\ Forall2 document_written cs' cs /\ Forall2 (fun c' c => again c = Some (true, c')) cs' cs.
  Proof.
    induction 1 as [ | c cs (t' & R & D) _ IH]; intros AL w F; cbn [results map] in F.
    - inversion F; subst. exists []. split; [reflexivity | split; constructor].
    - inversion F as [ | [m gs] ? w' ? [N G] F']; subst. inversion AL as [ | ? ? A1 A2]; subst. destruct (IH A2 w' F') as (cs' & E & DS & AS).
      cbn [fst snd] in N, G. subst m. rewrite R in G. cbn [map all_some].
      assert (W : exists t1, written_child (lit (xml_name c), gs) = Some t1 /\ document_written t1 c /\ again c = Some (true, t1)).
      { destruct G as [-> | [[C ->] | [I [k ->]]]].
        - exists t'. split; [reflexivity | split; [exact D | exact R]].
        - exists (Xml "chord" [] [] []). unfold written_child. cbn [fst snd]. rewrite C, str_eqb_refl. split; [reflexivity | ].
          apply lit_same in C. rewrite (chord_alone takes timewise c A1 C).
          split; [ | exact (chord_again takes initial timewise)].
          apply element_written with []; [constructor | constructor | apply nothing_written | constructor].
        - exists t'. split; [ | split; [exact D | exact R]]. unfold written_child. cbn [fst snd repeat].
          assert (X : existsb (str_eqb (lit (xml_name c))) [lit "arrow-direction"; lit "arrow-style"] = true).
          { apply existsb_exists. exists (lit (xml_name c)). split; [exact I | apply str_eqb_refl]. }
          rewrite X. clear. induction k as [ | k IH]; [reflexivity | exact IH]. }
      destruct W as (t1 & W & D1 & G1). rewrite W, E. exists (t1 :: cs'). split; [reflexivity | split; constructor; assumption].
  Qed.
End Children.

Lemma required_names n k : In k (required_of (lit n)) -> exists r c, In (n, r) required_children /\ In c r /\ k = lit c.
Proof.
  unfold required_of. intros I. apply in_flat_map in I. destruct I as ([m r] & I & J). cbn [fst snd] in J. destruct (str_eqb (lit m) (lit n)) eqn:E; [ | contradiction].
  apply str_eqb_eq, lit_same in E. subst m. apply in_map_iff in J. destruct J as (c & <- & J). exists r, c. auto.
Qed.

(** The attributes and children that are written, given those of the element. *)
Definition from_parts (takes : taking) (initial : string -> string) (timewise : bool) (t' t : xml) : Prop :=
  match t', t with
  | Xml n' attrs' _ cs', Xml n attrs _ cs =>
      n' = n /\ (exists e, element_of timewise n = Some e /\ In e elements /\ e_name e = n /\ attrs' = rewritten takes initial e attrs) /\
      (n <> "dynamics"%string -> Forall2 (fun c' c => reread takes initial timewise c = Some (true, c')) cs' cs)
  end.

Theorem element_exact takes initial timewise t : allowed takes true timewise t ->
  exists t', reread takes initial timewise t = Some (true, t') /\ document_written t' t /\ from_parts takes initial timewise t' t.
Proof.
  induction t as [n attrs text cs IH] using xml_induction. intros H.
  assert (RUN : forall p, n <> "dynamics"%string -> In n (class_names ++ content_names ++ empty_elements) -> processor_of timewise n = Some p -> text = [] ->
    attributes_allowed takes true n attrs -> Forall (allowed takes true timewise) cs ->
    (all_readable good_result (results takes initial timewise cs) ->
       exists w, p _ good_result (nodes (results takes initial timewise cs)) = Ok (true, w) /\ Forall2 child_written w (results takes initial timewise cs)) ->
    exists t', reread takes initial timewise (Xml n attrs text cs) = Some (true, t') /\ document_written t' (Xml n attrs text cs) /\ from_parts takes initial timewise t' (Xml n attrs text cs)).
  { intros p ND IN PR -> AA AC PW. destruct (other_known n IN) as [_ TT].
    destruct (known timewise n) as (e & EO & EI & EN); [right; apply in_or_app; right; exact IN | ].
    destruct (attributes_back takes initial n attrs e AA EI EN) as (AC1 & order & PE & AW).
    assert (CA : Forall (comes_again takes initial timewise) cs).
    { clear - IH AC. induction cs as [ | c cs IHc]; [constructor | ]. inversion IH; subst. inversion AC; subst. constructor; [ | auto]. destruct H1 as (t' & R & D & _); [assumption | ]. exists t'. auto. }
    destruct (PW (results_good takes initial timewise cs CA)) as (w & PW1 & PW2).
    destruct (children_written takes initial timewise cs CA AC w PW2) as (cs' & AS & DS & FS).
    exists (Xml n (rewritten takes initial e attrs) [] cs'). split.
    - cbn [reread]. rewrite EO, TT, PR, AC1. apply String.eqb_neq in ND. rewrite ND. rewrite results_nodes.
      unfold good_result in PW1. rewrite PW1, AS. reflexivity.
    - split; [apply element_written with order; [exact PE | exact AW | apply nothing_written | exact DS] | ].
      split; [reflexivity | split; [exists e; auto | intros _; exact FS]]. }
  inversion H as [? ? ? k AA IK AD HE | ? ? AA IE | ? ? AA FD LE | ? ? ? o AA ND IO ORD RQ NE AC | ? ? ? c AA IC CO AC]; subst.
  - destruct (text_known n k IK) as (T & ND & ty & TT & TI).
    destruct (known timewise n) as (e & EO & EI & EN); [right; apply in_or_app; left; exact T | ].
    destruct (attributes_back takes initial n attrs e AA EI EN) as (AC1 & order & PE & AW).
    destruct (table_back (lit n) ty k text TI IK AD (HE eq_refl)) as (w & u & R & CD & SA).
    exists (Xml n (rewritten takes initial e attrs) w []). split.
    + cbn [reread]. rewrite EO, TT, R, AC1. apply String.eqb_neq in ND. rewrite ND. reflexivity.
    + split; [ | split; [reflexivity | split; [exists e; auto | constructor]]].
      apply element_written with order; [exact PE | exact AW | | constructor]. exists u. split; [exact CD | right; exists k; split; assumption].
  - assert (IN : In n (class_names ++ content_names ++ empty_elements)) by (apply in_or_app; right; apply in_or_app; right; exact IE).
    destruct (other_known n IN) as [ND TT].
    destruct (known timewise n) as (e & EO & EI & EN); [right; apply in_or_app; right; exact IN | ].
    destruct (attributes_back takes initial n attrs e AA EI EN) as (AC1 & order & PE & AW).
    exists (Xml n (rewritten takes initial e attrs) [] []). split.
    + pose proof (empties_known timewise) as K. rewrite forallb_forall in K. specialize (K n IE).
      cbn [reread]. rewrite EO, TT, AC1. apply String.eqb_neq in ND. rewrite ND. destruct (processor_of timewise n); [discriminate K | reflexivity].
    + split; [ | split; [reflexivity | split; [exists e; auto | constructor]]].
      apply element_written with order; [exact PE | exact AW | apply nothing_written | constructor].
  - specialize (LE eq_refl). destruct cs as [ | [m ma mt mc] [ | ? ?]]; try discriminate LE. inversion FD as [ | ? ? DM _]; subst. destruct DM as (-> & -> & DM).
    destruct (known timewise "dynamics") as (e & EO & EI & EN); [left; reflexivity | ].
    destruct (attributes_back takes initial "dynamics" attrs e AA EI EN) as (AC1 & order & PE & AW).
    destruct DM as [[DI ->] | [-> DT]].
    + destruct (dynamics_standard (lit m) [] []) as (v & R & W); [apply in_map, DI | ].
      exists (Xml "dynamics" (rewritten takes initial e attrs) [] [Xml m [] [] []]). split.
      * cbn [reread map xml_name xml_text]. rewrite EO, AC1. cbn [String.eqb Ascii.eqb Bool.eqb]. unfold nodes in R. cbn [map fst snd] in R. rewrite R, W. cbn [fst snd].
        rewrite unlit. reflexivity.
      * split; [ | split; [reflexivity | split; [exists e; auto | intros NE; destruct (NE eq_refl)]]].
        apply element_written with order; [exact PE | exact AW | apply nothing_written | ]. constructor; [ | constructor].
        apply element_written with []; [constructor | constructor | apply nothing_written | constructor].
    + destruct (DT eq_refl) as [PL NI]. destruct (dynamics_text mt [] NI) as (v & R & W).
      exists (Xml "dynamics" (rewritten takes initial e attrs) [] [Xml "other-dynamics" [] mt []]). split.
      * cbn [reread map xml_name xml_text]. rewrite EO, AC1. cbn [String.eqb Ascii.eqb Bool.eqb]. unfold nodes in R. cbn [map fst snd] in R. rewrite R, W. cbn [fst snd].
        rewrite unlit. reflexivity.
      * split; [ | split; [reflexivity | split; [exists e; auto | intros NE; destruct (NE eq_refl)]]].
        apply element_written with order; [exact PE | exact AW | apply nothing_written | ]. constructor; [ | constructor].
        apply element_written with []; [constructor | constructor | | constructor]. exists mt. split; [apply plain_chardata, PL | left; reflexivity].
  - destruct (class_known timewise n o IO ND) as (IN & c & PR & CI & CN).
    assert (IN' : In n (class_names ++ content_names ++ empty_elements)) by (apply in_or_app; left; exact IN).
    apply (RUN (process_class c) (proj1 (other_known n IN')) IN' PR eq_refl AA AC). intros G.
    destruct (class_back c o _ (results takes initial timewise cs) CI) as (s & R & W).
    + rewrite CN. exact IO.
    + rewrite CN. intros E. apply lit_same in E. contradiction.
    + unfold results. rewrite map_map. exact ORD.
    + intros k K. rewrite CN in K. apply required_names in K. destruct K as (r & d & K1 & K2 & ->). unfold results. rewrite map_map. cbn [fst].
      specialize (RQ r d K1 K2). apply in_map_iff in RQ. destruct RQ as (x & <- & RQ). apply in_map_iff. exists x. auto.
    + unfold process_class. apply (good_back _ _ (write_class c s)); [exact G | rewrite R; reflexivity | ]. rewrite W.
      generalize (results takes initial timewise cs). intros l. induction l as [ | [m a] l IHl]; [constructor | ]. constructor; [ | exact IHl]. split; [reflexivity | left; reflexivity].
  - destruct (processor_kept timewise n c IC) as (p & PR & BB).
    assert (IN' : In n (class_names ++ content_names ++ empty_elements)).
    { apply in_or_app. right. apply in_or_app. left. rewrite <- (contents_named timewise). apply (in_map fst) in IC. exact IC. }
    apply (RUN p (proj1 (other_known n IN')) IN' PR eq_refl AA AC). intros G. apply BB; [apply results_conform, CO | exact G].
Qed.

Theorem element_back takes initial timewise t : allowed takes true timewise t -> exists t', reread takes initial timewise t = Some (true, t') /\ document_written t' t.
Proof. intros H. destruct (element_exact takes initial timewise t H) as (t' & R & D & _). exists t'. auto. Qed.

Theorem document_back takes initial t : allowed_document takes true t -> exists t', reread_document takes initial t = Some (true, t') /\ document_written t' t.
Proof.
  intros [[N H] | [N H]]; unfold reread_document; rewrite N; cbn [String.eqb Ascii.eqb Bool.eqb]; apply element_back; exact H.
Qed.

(** What comes back is allowed. *)
Lemma attributes_kept_allowed takes n attrs : attributes_allowed takes true n attrs -> attributes_allowed takes false n attrs.
Proof. intros [C _]. split; [exact C | intros E; discriminate E]. Qed.

Theorem kept_allowed takes timewise t : allowed takes true timewise t -> allowed takes false timewise t.
Proof.
  induction t as [n attrs text cs IH] using xml_induction. intros H.
  assert (CH : Forall (allowed takes true timewise) cs -> Forall (allowed takes false timewise) cs).
  { clear - IH. intros AC. induction cs as [ | c cs IHc]; [constructor | ]. inversion IH; subst. inversion AC; subst. constructor; auto. }
  inversion H as [? ? ? k AA IK AD HE | ? ? AA IE | ? ? AA FD LE | ? ? ? o AA ND IO ORD RQ NE AC | ? ? ? c AA IC CO AC]; subst; apply attributes_kept_allowed in AA.
  - apply (allowed_text takes false timewise n attrs text k AA IK AD). intros E. discriminate E.
  - apply (allowed_empty takes false timewise n attrs AA IE).
  - apply (allowed_dynamics takes false timewise attrs cs AA); [ | intros E; discriminate E].
    revert FD. apply Forall_impl. intros [m ma mt mc] (A & C & D). split; [exact A | ]. split; [exact C | ]. destruct D as [D | [D _]]; [left; exact D | right; split; [exact D | intros E; discriminate E]].
  - apply (allowed_sequence takes false timewise n attrs cs o AA ND IO ORD RQ NE (CH AC)).
  - destruct (content_allowed timewise n c _ _ IC CO) as (c' & IC' & CO'). apply (allowed_content takes false timewise n attrs cs c' AA IC' CO' (CH AC)).
Qed.
Theorem kept_document_allowed takes t : allowed_document takes true t -> allowed_document takes false t.
Proof. intros [[N H] | [N H]]; [left | right]; (split; [exact N | apply kept_allowed; exact H]). Qed.
