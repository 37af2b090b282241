(** C68: a file that has been written is written again character for character. *)
From Coq Require Import List String Ascii Bool Permutation Lia.
From Verif Require Import Proofs.Tac Model.Base Model.Text Model.Strings Model.PugiText Model.XmlStream Model.Attributes Model.AttributeClasses Model.ElementTexts Model.ElementReading Model.ElementChoices Model.ElementGroups Model.Documents Model.Files.
From Verif Require Import Spec.XmlText Spec.XmlGrammar Spec.XmlTrees Spec.Instructions Spec.SchemaElementTexts
  Spec.SchemaAttributes Spec.ContentModels Spec.AllowedDocuments Spec.WholeFiles.
From Verif Require Import Proofs.AttributeProofs Proofs.AttributeLoops Proofs.PugiReads Proofs.StringsProofs Proofs.StreamWrites Proofs.StreamReads
  Proofs.ElementTextBack Proofs.ElementTextProofs Proofs.DocumentProofs Proofs.FileProofs Proofs.FileAgain.
Import ListNotations.
Local Open Scope list_scope.
Local Open Scope nat_scope.
Local Open Scope list_scope.
Local Notation reread := Documents.reread.

(** * Attributes *)

Lemma same_by_name {A B} (l1 : list (A * B)) : forall l2, map fst l1 = map fst l2 -> Permutation l1 l2 -> NoDup (map fst l1) -> l1 = l2.
Proof.
  induction l1 as [ | [a b] l1 IH]; intros [ | [c d] l2] E P N; try discriminate E; [reflexivity | ].
  cbn [map fst] in E, N. injection E as -> E. inversion N as [ | ? ? NI N']; subst.
  assert (D : In (c, b) ((c, d) :: l2)) by (apply (Permutation_in _ P); left; reflexivity).
  destruct D as [D | D].
  - injection D as ->. rewrite (IH l2 E (Permutation_cons_inv P) N'). reflexivity.
  - exfalso. apply NI. rewrite E. apply (in_map fst) in D. exact D.
Qed.

Lemma existsb_permuted {A} (f : A -> bool) l l' : Permutation l l' -> existsb f l = existsb f l'.
Proof.
  induction 1 as [ | x l l' P IH | x y l | l m r P IH Q IH']; cbn [existsb]; [reflexivity | rewrite IH; reflexivity | | rewrite IH; exact IH'].
  destruct (f x), (f y); reflexivity.
Qed.

Lemma names_permuted takes initial e attrs attrs' : Permutation attrs' attrs ->
  map fst (rewritten takes initial e attrs') = map fst (rewritten takes initial e attrs).
Proof.
  intros P. rewrite !rewritten_final. cbv zeta.
  assert (F : forall f, is_set (final takes initial e attrs') f = is_set (final takes initial e attrs) f).
  { intros f. unfold final. rewrite !loop_flags. f_equal. apply existsb_permuted, Permutation_map, P. }
  assert (H : existsb (is_set (final takes initial e attrs')) (has_of e) = existsb (is_set (final takes initial e attrs)) (has_of e)).
  { induction (has_of e) as [ | f l IH]; [reflexivity | ]. cbn [existsb]. rewrite F, IH. reflexivity. }
  rewrite H. destruct (existsb (is_set (final takes initial e attrs)) (has_of e)); [ | reflexivity].
  generalize (writes_of e). induction l as [ | w l IH]; [reflexivity | ]. cbn [flat_map].
  etransitivity; [apply map_app | ]. etransitivity; [ | symmetry; apply map_app]. apply (f_equal2 (@app _)); [ | exact IH].
  unfold streamAttribute. rewrite F. destruct (is_set _ (w_flag w)); reflexivity.
Qed.

Lemma rewritten_permutes takes initial e n attrs : attributes_allowed takes true n attrs -> In e elements -> e_name e = n ->
  Permutation (rewritten takes initial e attrs) attrs.
Proof.
  intros [C K] I <-. destruct (K eq_refl) as [U P].
  apply conforming_same; [exact I | | exact C | ].
  - destruct (mem (e_name e) unreadable) eqn:E; [ | reflexivity]. exfalso. apply U, mem_In, E.
  - intros m J. unfold names in J. apply in_map_iff in J. destruct J as ([m' v] & E & J). cbn [fst] in E. subst m'.
    destruct (P m v J) as (A & B & _). split; assumption.
Qed.

Lemma rewritten_settled takes initial e n attrs attrs' : attributes_allowed takes true n attrs -> In e elements -> e_name e = n ->
  Permutation attrs' attrs -> rewritten takes initial e attrs' = rewritten takes initial e attrs.
Proof.
  intros A I E P. pose proof (rewritten_permutes takes initial e n attrs A I E) as R.
  pose proof (rewritten_permutes takes initial e n attrs' (attributes_permuted _ _ _ _ P A) I E) as R'.
  apply same_by_name.
  - exact (names_permuted takes initial e attrs attrs' P).
  - exact (Permutation_trans R' (Permutation_trans P (Permutation_sym R))).
  - destruct A as [(ND & _) _]. apply (Permutation_NoDup (l := map fst attrs)); [ | exact ND].
    apply Permutation_map. exact (Permutation_sym (Permutation_trans R' P)).
Qed.

(** * Texts *)

Lemma says_shortest k t u : says k t u -> shortest k u.
Proof.
  destruct k as [ | texts | lo hi | lo hi | | ]; cbn [says shortest]; try exact (fun _ => I).
  - intros (n & _ & C). exists n. exact C.
  - intros (x & _ & D & L). exists x. auto.
  - intros [[_ ->] | (n & _ & C)]; [left; reflexivity | right; exists n; exact C].
Qed.

Lemma text_settled n ty k t w u : In (n, ty) element_texts -> In (n, k) schema_element_texts -> admits k t -> held n k t ->
  rewrite_text ty t = Ok w -> w = escape u -> rewrite_text ty u = Ok w.
Proof.
  intros I J A H R E. destruct (table_back n ty k t I J A H) as (w' & x & R' & C & S). rewrite R in R'. injection R' as <-.
  pose proof (chardata_escape _ _ C) as X. rewrite E in X. apply escape_injective in X. subst x.
  destruct (table_same n ty k u I J (says_admits _ _ _ S A) (says_held _ _ _ _ J S H) (says_shortest _ _ _ S)) as (v & RV & CV).
  rewrite (chardata_escape _ _ CV), <- E in RV. exact RV.
Qed.

(** * Elements *)

Lemma reread_dynamics takes initial timewise attrs cs text : 
  reread takes initial timewise (Xml "dynamics" attrs text cs) =
  match element_of timewise "dynamics" with
  | None => None
  | Some e =>
      match read_dynamics (map (fun c => NElement (lit (Documents.xml_name c)) (Documents.xml_text c)) cs) with
      | Ok (b, v) => Some (accepted takes initial e attrs && b,
          Xml "dynamics" (rewritten takes initial e attrs) [] [Xml (string_of_list_ascii (fst (write_dynamics v))) [] (snd (write_dynamics v)) []])
      | _ => None
      end
  end.
Proof. reflexivity. Qed.

Lemma reread_no_text takes initial timewise n attrs text cs b n' a x c : reread takes initial timewise (Xml n attrs text cs) = Some (b, Xml n' a x c) ->
  text_type_of n = None -> x = [].
Proof.
  cbn [reread]. intros H T. destruct (element_of timewise n); [ | discriminate H]. rewrite T in H.
  destruct (String.eqb n "dynamics").
  - destruct (read_dynamics _) as [[b' v] | | ]; try discriminate H. injection H as _ _ _ <- _. reflexivity.
  - destruct (processor_of timewise n).
    + destruct (p _ _ _) as [[b' v] | | ]; try discriminate H. destruct (all_some _); try discriminate H. injection H as _ _ _ <- _. reflexivity.
    + injection H as _ _ _ <- _. reflexivity.
Qed.

Lemma element_settled takes initial timewise t : allowed takes true timewise t -> forall w u,
  reread takes initial timewise t = Some (true, w) -> put w u -> same_document u t -> reread takes initial timewise u = Some (true, w).
Proof.
  induction t as [n attrs text cs IH] using xml_induction. intros H w u R P SD.
  pose proof (same_allowed takes timewise _ u SD H) as HU.
  destruct (element_exact takes initial timewise _ H) as (w0 & R0 & _ & FP). rewrite R in R0. injection R0 as <-.
  destruct (element_exact takes initial timewise _ HU) as (w' & R' & _ & FP').
  inversion SD as [n' a attrs' t text' c cs' PM T F]; subst.
  inversion P as [n' a A t c C PA PC]; subst.
  destruct w' as [n' A' x' C']. destruct FP as (_ & (e & EO & EI & EN & EA) & FC). destruct FP' as (-> & (e' & EO' & _ & _ & EA') & FC').
  rewrite EO in EO'. injection EO' as <-. 
  assert (AA : attributes_allowed takes true n attrs) by (inversion H; assumption).
  rewrite (rewritten_settled takes initial e n attrs attrs' AA EI EN PM) in EA'. rewrite <- EA in EA'. subst A'. clear EN EA. rewrite R'.
  assert (CHILD : Forall (allowed takes true timewise) cs -> n <> "dynamics"%string -> C' = C).
  { intros AC ND. specialize (FC ND). specialize (FC' ND). clear - IH AC FC FC' PC F. revert C' FC' C PC FC.
    induction F as [ | x y l l' X F IHf]; intros C' FC' C PC FC.
    - inversion FC'; subst. inversion PC; subst. reflexivity.
    - inversion FC' as [ | y' ? C1' ? Y1 Y2]; subst. inversion FC as [ | z ? C1 ? Z1 Z2]; subst. inversion PC as [ | ? ? ? ? Q1 Q2]; subst.
      inversion IH as [ | ? ? I1 I2]; subst. inversion AC as [ | ? ? A1 A2]; subst.
      rewrite (I1 A1 z x Z1 Q1 X) in Y1. injection Y1 as ->. rewrite (IHf I2 A2 C1' Y2 C1 Q2 Z2). reflexivity. }
  assert (OTHER : text_type_of n = None -> x' = escape text').
  { intros TT. rewrite (reread_no_text _ _ _ _ _ _ _ _ _ _ _ _ R' TT). symmetry. exact (reread_no_text _ _ _ _ _ _ _ _ _ _ _ _ R TT). }
  inversion H as [? ? ? k _ IK AD HE | ? ? _ IE | ? ? _ FD LE | ? ? ? o _ ND IO ORD RQ NE AC | ? ? ? c _ IC CO AC]; subst.
  - destruct (text_known n k IK) as (_ & ND & ty & TT & TI). inversion F; subst.
    assert (X : C' = C) by (apply CHILD; [constructor | exact ND]). subst C'.
    cbn [reread] in R, R'. rewrite EO, TT in R, R'. apply String.eqb_neq in ND. rewrite ND in R, R'.
    destruct (rewrite_text ty text) as [y | | ] eqn:RT; try discriminate R. assert (Y : y = escape text') by (injection R as _ _ Y _; exact Y).
    rewrite (text_settled (lit n) ty k text y text' TI IK AD (HE eq_refl) RT Y) in R'. injection R' as _ _ <- _. rewrite Y. reflexivity.
  - assert (IN : In n (class_names ++ content_names ++ empty_elements)) by (apply in_or_app; right; apply in_or_app; right; exact IE).
    destruct (other_known n IN) as [ND TT]. rewrite (OTHER TT), (CHILD ltac:(constructor) ND). reflexivity.
  - rewrite reread_dynamics in R, R'. rewrite EO in R, R'.
    specialize (LE eq_refl). destruct cs as [ | [m ma mt mc] [ | ? ?]]; try discriminate LE. inversion FD as [ | ? ? DM _]; subst. destruct DM as (-> & -> & DM).
    inversion F as [ | y ? l ? Y1 Y2]; subst. inversion Y2; subst. inversion Y1 as [m' b mb s mt' d md PB TB FB]; subst. inversion FB; subst.
    assert (E : mt' = mt).
    { destruct DM as [[_ ->] | [-> _]]; [exact (text_nothing m mt' TB) | ]. destruct TB as [-> | (k & K & _)]; [reflexivity | destruct (no_dynamics_text k K)]. }
    subst mt'. cbn [map Documents.xml_name Documents.xml_text] in R, R'.
    destruct (read_dynamics _) as [[b v] | | ]; try discriminate R. injection R as _ _ EX EC. injection R' as _ _ EX' EC'. rewrite <- EX, <- EC, <- EX', <- EC'. reflexivity.
  - destruct (class_known timewise n o IO ND) as (IN & _).
    assert (IN' : In n (class_names ++ content_names ++ empty_elements)) by (apply in_or_app; left; exact IN).
    destruct (other_known n IN') as [NY TT]. rewrite (OTHER TT), (CHILD AC NY). reflexivity.
  - assert (IN' : In n (class_names ++ content_names ++ empty_elements)).
    { apply in_or_app. right. apply in_or_app. left. rewrite <- (contents_named timewise). apply (in_map fst) in IC. exact IC. }
    destruct (other_known n IN') as [NY TT]. rewrite (OTHER TT), (CHILD AC NY). reflexivity.
Qed.

(** * Files *)

Lemma file_settled takes initial t text text' : allowed_document takes true t -> characters_fit t -> file_spelled t text ->
  rewrite_file takes initial text = Some (Ok text') -> rewrite_file takes initial text' = Some (Ok text').
Proof.
  intros A CF F R1.
  assert (U : unmixed t) by (destruct A as [[_ A] | [_ A]]; exact (allowed_unmixed _ _ _ _ A)).
  assert (N : exists c, lit (Documents.xml_name t) = choice_name c) by (destruct A as [[-> _] | [-> _]]; [exists Partwise | exists Timewise]; reflexivity).
  destruct N as (c & N). destruct (document_back takes initial t A) as (w & R & W).
  destruct (written_put t w W CF U) as (u & P & UF & UU & S).
  destruct (write_document c (core_of u) (core_formed u UF)) as (text2 & E & D).
  assert (OUT : omap save_document (obind (load_stream (put_document c w)) (set_doctype (doctype_of c))) = Ok text2).
  { rewrite <- E. unfold write_stream, to_xdoc, document_stream. rewrite (put_stream u w 0 P UU). reflexivity. }
  assert (X : text' = text2).
  { unfold rewrite_file in R1. rewrite (root_of t text c CF U N F), core_plain, (xml_core t U), R, OUT in R1. injection R1 as <-. reflexivity. }
  subst text2. assert (NU : Documents.xml_name u = Documents.xml_name t) by (destruct S; reflexivity).
  assert (FW : file_spelled u text').
  { apply (written_spelled c). unfold file_written. unfold document_tree in D. rewrite (core_tree u UU) in D. exact D. }
  assert (RU : reread_document takes initial u = Some (true, w)).
  { unfold reread_document in *. rewrite NU. destruct A as [[NT A] | [NT A]]; rewrite NT in *; cbn [String.eqb Ascii.eqb Bool.eqb] in *;
      exact (element_settled takes initial _ t A w u R P S). }
  unfold rewrite_file. rewrite (root_of u text' c UF UU ltac:(rewrite NU; exact N) FW), core_plain, (xml_core u UU), RU, OUT. reflexivity.
Qed.

(** So that from then on nothing changes. *)
Lemma file_forever takes initial n t text text' text'' : allowed_document takes true t -> characters_fit t -> file_spelled t text ->
  rewrite_file takes initial text = Some (Ok text') -> rewritten_times takes initial n text' text'' -> text'' = text'.
Proof.
  intros A CF F R T. pose proof (file_settled takes initial t text text' A CF F R) as S. clear - S T.
  induction T as [ | n a b c R T IH]; [reflexivity | ]. rewrite S in R. injection R as <-. exact (IH S).
Qed.

(** * What is not modelled *)

Fixpoint core_size (e : core_element) : nat :=
  match e with CoreElement _ _ _ (CoreText _) => 1 | CoreElement _ _ _ (CoreChildren kids) => S (fold_right (fun k n => core_size k + n) 0 kids) end.

Lemma instructions_found k : forall e, core_size e <= k -> without_instructions e = false -> has_instruction e.
Proof.
  induction k as [ | k IH]; intros [n l i b] S W.
  - exfalso. destruct b; cbn [core_size] in S; inversion S.
  - destruct i as [ | x i]; [ | constructor]. destruct b as [t | kids]; [discriminate W | ]. cbn [without_instructions] in W.
    assert (E : exists c, In c kids /\ without_instructions c = false).
    { clear - W. induction kids as [ | c kids IHk]; [discriminate W | ]. cbn [forallb] in W. destruct (without_instructions c) eqn:C.
      - destruct (IHk W) as (d & I & D). exists d. split; [right; exact I | exact D].
      - exists c. split; [left; reflexivity | exact C]. }
    destruct E as (c & I & C). apply (instruction_inside n l [] kids c I). apply IH; [ | exact C].
    cbn [core_size] in S. apply le_S_n in S. clear - S I. induction kids as [ | d kids IHk]; [destruct I | ]. cbn [fold_right] in S.
    destruct I as [-> | I]; [lia | apply IHk; [lia | exact I]].
Qed.

Lemma instruction_seen e : has_instruction e -> without_instructions e = false.
Proof.
  induction 1 as [n l i r b | n l i kids k I H IH]; [destruct b; reflexivity | ]. destruct i; [ | reflexivity]. cbn [without_instructions].
  destruct (forallb without_instructions kids) eqn:F; [ | reflexivity]. rewrite forallb_forall in F. rewrite (F k I) in IH. discriminate IH.
Qed.

Lemma file_scope takes initial text :
  (forall c e, read_stream text = Ok (c, e) -> has_instruction e -> rewrite_file takes initial text = None) /\
  (rewrite_file takes initial text = None -> exists c e, read_stream text = Ok (c, e) /\
     (has_instruction e \/ reread_document takes initial (xml_of e) = None)).
Proof.
  unfold rewrite_file. split.
  - intros c e -> H. rewrite (instruction_seen e H). reflexivity.
  - destruct (read_stream text) as [[c e] | | ]; try discriminate. intros H. exists c, e. split; [reflexivity | ].
    destruct (without_instructions e) eqn:W; [ | left; exact (instructions_found _ e (le_n _) W)].
    right. destruct (reread_document takes initial (xml_of e)) as [[[ | ] x] | ]; try discriminate H. reflexivity.
Qed.
