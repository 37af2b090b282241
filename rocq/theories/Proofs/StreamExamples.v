(** Concrete elements for the examples and refutations of C40 and C53. *)
From Coq Require Import List Ascii String ZArith Bool Lia Permutation.
From Verif Require Import Proofs.Tac Model.Base Model.Text Model.Strings Model.PugiText Model.XmlStream.
From Verif Require Import Spec.Numerals Spec.XmlText Spec.XmlGrammar Spec.XmlTrees Spec.Instructions Spec.StreamCases.
From Verif Require Import Proofs.PugiReads Proofs.StreamWrites Proofs.StreamReads Proofs.PugiWrites.
Import ListNotations.
Open Scope nat_scope.
Open Scope list_scope.

(** Deciding the conditions. *)
Definition reserved_b (n : str) : bool := is_xml n.
Lemma not_reserved_b n : is_xml n = false -> ~ reserved n.
Proof.
  intros E (a & b & c & -> & [-> | ->] & [-> | ->] & [-> | ->]); discriminate E.
Qed.
Definition value_b (v : str) : bool := forallb (fun c => negb (existsb (Ascii.eqb c) ["000"; "034"; "009"; "010"; "013"]%char)) v.
Lemma value_b_plain v : value_b v = true -> plain_value v.
Proof.
  intros V. unfold value_b in V. rewrite forallb_forall in V. split; apply Forall_forall; intros c IN; specialize (V c IN);
    apply negb_true_iff in V; apply existsb_not in V; cbn [In] in V.
  - intros E. apply V. left. symmetry. exact E.
  - cbn [In]. tauto.
Qed.
Definition data_b (d : str) : bool :=
  match scan_for (lit "?>") d with None => true | Some _ => false end &&
  negb (existsb (Ascii.eqb "000") d) &&
  match d with c :: _ => negb (existsb (Ascii.eqb c) [" "; "009"; "010"; "013"]%char) | [] => true end.
Lemma scan_for_complete p s : scan_for p s = None -> ~ occurs p s.
Proof.
  intros E (a & b & ->). revert E. induction a as [ | c a IH]; cbn [app].
  - destruct (p ++ b) as [ | d q] eqn:X; cbn [scan_for]; rewrite <- X; rewrite PugiProofs.after_prefix_app; discriminate.
  - cbn [scan_for]. destruct (after_prefix p (c :: a ++ p ++ b)); [discriminate | ].
    destruct (scan_for p (a ++ p ++ b)) as [[u v] | ]; [discriminate | ]. intros _. exact (IH eq_refl).
Qed.
Lemma data_b_holdable d : data_b d = true -> holdable_data d.
Proof.
  unfold data_b. intros E. apply andb_true_iff in E. destruct E as [E E3]. apply andb_true_iff in E. destruct E as [E1 E2].
  split; [ | split].
  - apply scan_for_complete. destruct (scan_for (lit "?>") d); [discriminate E1 | reflexivity].
  - apply characters_no_zero. apply existsb_not. apply negb_true_iff. exact E2.
  - intros c r ->. apply negb_true_iff in E3. apply existsb_not in E3. cbn [In] in E3. unfold blank. intuition congruence.
Qed.
Definition instruction_b (p : instruction) : bool := is_name (pi_name p) && negb (is_xml (pi_name p)) && data_b (pi_data p).
Lemma instruction_b_plain p : instruction_b p = true -> plain_instruction p.
Proof.
  unfold instruction_b. intros E. apply andb_true_iff in E. destruct E as [E E3]. apply andb_true_iff in E. destruct E as [E1 E2].
  split; [apply is_name_iff; exact E1 | ]. split; [apply not_reserved_b; apply negb_true_iff; exact E2 | exact (data_b_holdable _ E3)].
Qed.
Definition text_b (t : str) : bool :=
  match t with [] => true | _ => negb (existsb (Ascii.eqb "000") t) && negb (existsb (Ascii.eqb "013") t) && negb (forallb PugiProofs.blank_b t) end.
Lemma text_b_holdable t : text_b t = true -> t = [] \/ holdable_text t.
Proof.
  destruct t as [ | c t]; [left; reflexivity | ]. intros E. right. unfold text_b in E. remember (c :: t) as u. clear Hequ.
  apply andb_true_iff in E. destruct E as [E E3]. apply andb_true_iff in E. destruct E as [E1 E2].
  split; [apply characters_no_zero; apply existsb_not; apply negb_true_iff; exact E1 | ].
  split; [apply existsb_not; apply negb_true_iff; exact E2 | ].
  intros B. apply negb_true_iff in E3. assert (X : forallb PugiProofs.blank_b u = true); [ | congruence].
  apply forallb_forall. intros d IN. unfold blanks in B. rewrite Forall_forall in B. apply B in IN.
  rewrite <- PugiProofs.space_b. apply PugiProofs.blank_iff. exact IN.
Qed.
Fixpoint well_formed_b (e : core_element) : bool :=
  match e with
  | CoreElement n l ps body =>
      is_name n && forallb (fun a => is_name (fst a) && value_b (snd a)) l && forallb instruction_b ps &&
      match body with
      | CoreText t => text_b t
      | CoreChildren kids => forallb well_formed_b kids
      end
  end.
Lemma well_formed_decided e : well_formed_b e = true -> well_formed e.
Proof.
  assert (A : forall l, forallb (fun a => is_name (fst a) && value_b (snd a)) l = true -> plain_attributes l).
  { intros l E. rewrite forallb_forall in E. apply Forall_forall. intros a IN. apply E in IN. apply andb_true_iff in IN.
    destruct IN as [N V]. split; [apply is_name_iff; exact N | exact (value_b_plain _ V)]. }
  assert (I : forall ps, forallb instruction_b ps = true -> Forall plain_instruction ps).
  { intros l E. rewrite forallb_forall in E. apply Forall_forall. intros a IN. apply instruction_b_plain. exact (E a IN). }
  induction e as [n l ps t | n l ps kids IH] using core_elements_ind; intros E; cbn [well_formed_b] in E;
    apply andb_true_iff in E; destruct E as [E E4]; apply andb_true_iff in E; destruct E as [E E3]; apply andb_true_iff in E; destruct E as [E1 E2].
  - split; [apply is_name_iff; exact E1 | ]. split; [exact (A l E2) | ]. split; [exact (I ps E3) | exact (text_b_holdable t E4)].
  - apply well_formed_children. split; [apply is_name_iff; exact E1 | ]. split; [exact (A l E2) | ]. split; [exact (I ps E3) | ].
    clear - IH E4. induction IH as [ | y m Y F IHm]; [constructor | ]. cbn [forallb] in E4. apply andb_true_iff in E4. destruct E4 as [A B].
    constructor; [exact (Y A) | exact (IHm B)].
Qed.

(** A small score. *)

Lemma example_well_formed : well_formed example_score.
Proof. apply well_formed_decided. vm_compute. reflexivity. Qed.
Lemma example_arranged : arranged example_score.
Proof.
  apply arranged_children. split; [discriminate | ]. split.
  - exists [pc "a" "one"; pc "b" ""], [ps "c" "x=1 y"].
    split; [reflexivity | ]. split; [constructor; [reflexivity | constructor; [reflexivity | constructor]] | constructor; [reflexivity | constructor]].
  - constructor; [constructor; [reflexivity | constructor] | ]. constructor; [ | constructor].
    apply arranged_children. split; [discriminate | ]. split.
    + exists [pc "e" "?"], [ps "f" "three"].
      split; [reflexivity | ]. split; [constructor; [reflexivity | constructor] | constructor; [reflexivity | constructor]].
    + constructor; [constructor | ]. constructor; [constructor; [reflexivity | constructor] | constructor].
Qed.

(** ** Refutations *)

(** Order and position. *)
Lemma turned_reread : well_formed turned /\ reread Partwise turned = Ok (Partwise, score [pc "b" "2"; ps "a" "1"] [note [] (lit "t")]).
Proof. split; [apply well_formed_decided; vm_compute; reflexivity | vm_compute; reflexivity]. Qed.
Lemma moved_reread : well_formed moved /\ reread Partwise moved = Ok (Partwise, score [] [note [ps "a" "1"] (lit "t")]).
Proof. split; [apply well_formed_decided; vm_compute; reflexivity | vm_compute; reflexivity]. Qed.

Lemma order_lost : ~ (forall c e, well_formed e -> element_name e = choice_name c -> reread c e = Ok (c, e)).
Proof.
  intros H. destruct turned_reread as [WF R]. specialize (H Partwise turned WF eq_refl). rewrite R in H. discriminate H.
Qed.
Lemma position_lost : ~ (forall c e, well_formed e -> element_name e = choice_name c ->
  forall e', reread c e = Ok (c, e') -> e' = e).
Proof.
  intros H. destruct moved_reread as [WF R]. specialize (H Partwise moved WF eq_refl _ R). discriminate H.
Qed.

(** Data that ends the instruction, or begins with a blank. *)
Lemma data_cut : reread Partwise (score [pc "a" "if b?>c"] [note [] (lit "t")]) <> Ok (Partwise, score [pc "a" "if b?>c"] [note [] (lit "t")]) /\
  reread Partwise (score [pc "a" " b"] [note [] (lit "t")]) = Ok (Partwise, score [pc "a" "b"] [note [] (lit "t")]).
Proof. split; [vm_compute; discriminate | vm_compute; reflexivity]. Qed.

(** An instruction inside an element without children is not read. *)
Lemma inside_lost : document [XElement (lit "score-partwise") [] [XElement (lit "words") [] [XInstruction (lit "a") (Some (lit "b")); XText (lit "t")];
    XElement (lit "rest") [] [XInstruction (lit "c") (Some (lit "d"))]]] inside_text /\
  read_stream inside_text = Ok (Partwise, CoreElement (lit "score-partwise") [] []
    (CoreChildren [CoreElement (lit "words") [] [] (CoreText (lit "t")); CoreElement (lit "rest") [] [] (CoreText [])])).
Proof.
  split; [ | vm_compute; reflexivity].
  assert (NM : forall n, is_name n = true -> xml_name n) by (intros n E; apply is_name_iff; exact E).
  assert (PI : forall n d, instruction_b (mkInstruction n d true) = true -> node_spelled (XInstruction n (Some d)) (lit "<?" ++ n ++ lit " " ++ d ++ lit "?>")).
  { intros n d E. exact (instruction_spelled _ (instruction_b_plain _ E)). }
  split; [eexists; split; [left; reflexivity | reflexivity] | left].
  apply laid_top; [ | constructor; [exact I | constructor]]. apply laid_one.
  assert (EL : forall n kids c, is_name n = true -> content_spelled kids c -> node_spelled (XElement n [] kids) (open_text n [] ++ c ++ close_text n)).
  { intros n kids c E C. apply element_spelled; [exact (NM n E) | constructor | exact C]. }
  assert (W : node_spelled (XElement (lit "words") [] [XInstruction (lit "a") (Some (lit "b")); XText (lit "t")]) (lit "<words><?a b?>t</words>")).
  { apply (EL (lit "words") _ (lit "<?a b?>t")); [reflexivity | ].
    apply (XmlGrammar.content_node [] _ (lit "<?a b?>") _ (lit "t")); [constructor | exact (PI (lit "a") (lit "b") eq_refl) | ].
    assert (HT : holdable_text (lit "t")) by (destruct (text_b_holdable (lit "t") eq_refl) as [X | X]; [discriminate X | exact X]).
    exact (text_content (lit "t") HT). }
  assert (R : node_spelled (XElement (lit "rest") [] [XInstruction (lit "c") (Some (lit "d"))]) (lit "<rest><?c d?></rest>")).
  { apply (EL (lit "rest") _ (lit "<?c d?>")); [reflexivity | ].
    exact (laid_content _ _ (laid_one _ _ (PI (lit "c") (lit "d") eq_refl))). }
  apply (EL (lit "score-partwise") _ (lit "<words><?a b?>t</words><rest><?c d?></rest>")); [reflexivity | ].
  apply laid_content. exact (laid_app _ _ _ _ (laid_one _ _ W) (laid_one _ _ R)).
Qed.

(** Attribute values with a double quote or white space; blank texts; carriage returns. *)
Lemma value_lost :
  reread Partwise (with_value ["a"; "034"; "b"]%char) = Throw /\
  reread Partwise (with_value ["a"; "009"; "b"]%char) = Ok (Partwise, with_value (lit "a b")).
Proof. split; vm_compute; reflexivity. Qed.
Lemma text_lost :
  reread Partwise (with_text (lit "  ")) = Ok (Partwise, with_text []) /\
  reread Partwise (with_text ["a"; "013"; "b"]%char) = Ok (Partwise, with_text ["a"; "010"; "b"]%char).
Proof. split; vm_compute; reflexivity. Qed.
Lemma contents_lost : ~ (forall c n l t, xml_name n -> n = choice_name c -> Forall (fun a => xml_name (fst a) /\ Forall character (snd a)) l -> Forall character t ->
  reread c (CoreElement n l [] (CoreText t)) = Ok (c, CoreElement n l [] (CoreText t))).
Proof.
  intros H. specialize (H Partwise (lit "score-partwise") [(lit "version", ["a"; "034"; "b"]%char)] []).
  change (CoreElement (lit "score-partwise") [(lit "version", ["a"; "034"; "b"]%char)] [] (CoreText [])) with (with_value ["a"; "034"; "b"]%char) in H.
  rewrite (proj1 value_lost) in H.
  assert (X : Throw = Ok (Partwise, with_value ["a"; "034"; "b"]%char)); [ | discriminate X].
  apply H; [apply is_name_iff; reflexivity | reflexivity | | constructor].
  constructor; [ | constructor]. split; [apply is_name_iff; reflexivity | ]. cbn [snd]. apply characters_no_zero. cbn. intuition discriminate.
Qed.

(** A spelling of a document that uses what the writer does not. *)
Lemma spelled_ok : parse_document spelled_text = Ok spelled_tree.
Proof. vm_compute. reflexivity. Qed.
Lemma example_holdable : holdable_document (tree_of example_score).
Proof.
  split.
  - apply holdable_tops; [exact (tree_holdable _ example_well_formed) | apply tree_outer].
  - destruct (tree_element example_score) as (n & l & kids & q & T). exists n, l, kids. rewrite T. left. reflexivity.
Qed.
