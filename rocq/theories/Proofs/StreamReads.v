(** Reading the tree of an element; documents written and read again. *)
From Coq Require Import List Ascii String ZArith Bool Lia Permutation.
From Verif Require Import Proofs.Tac Model.Base Model.Text Model.Strings Model.PugiText Model.XmlStream.
From Verif Require Import Spec.Numerals Spec.XmlText Spec.XmlGrammar Spec.XmlTrees Spec.Instructions.
From Verif Require Import Proofs.TextProofs Proofs.StringsProofs Proofs.PugiProofs Proofs.PugiReads Proofs.PugiWrites Proofs.StreamWrites.
Import ListNotations.
Open Scope nat_scope.
Open Scope list_scope.

Fixpoint read_children (kids : list xml) : outcome (list core_element) :=
  match kids with
  | [] => Ok []
  | XInstruction _ _ :: r => read_children r
  | (XElement _ _ _ as y) :: r => obind (read_element y r) (fun e => obind (read_children r) (fun es => Ok (e :: es)))
  | _ => Throw
  end.

Lemma read_element_eq n l kids following : read_element (XElement n l kids) following =
  match type_of kids with
  | TypeText => Ok (CoreElement n l (following_instructions following) (CoreText (text_of kids)))
  | TypeEmpty => Ok (CoreElement n l (following_instructions following) (CoreText []))
  | TypeElement =>
      obind (read_children kids) (fun es =>
      obind (leading_instructions kids) (fun ps =>
      Ok (CoreElement n l (ps ++ following_instructions following) (CoreChildren es))))
  end.
Proof.
  assert (K : forall kids, (fix go (kids : list xml) : outcome (list core_element) :=
        match kids with
        | [] => Ok []
        | XInstruction _ _ :: r => go r
        | (XElement _ _ _ as y) :: r => obind (read_element y r) (fun e => obind (go r) (fun es => Ok (e :: es)))
        | _ => Throw
        end) kids = read_children kids).
  { intros m. induction m as [ | x m IH]; [reflexivity | ]. destruct x; cbn [read_children]; rewrite ?IH; reflexivity. }
  rewrite <- (K kids). reflexivity.
Qed.

Lemma instruction_back child p : plain_instruction p ->
  instruction_of child (pi_name p) (Some (pi_data p)) = mkInstruction (pi_name p) (pi_data p) child.
Proof.
  intros ((c & r & E & _) & _). unfold instruction_of, make_instruction. rewrite E. reflexivity.
Qed.

Definition no_instruction_first (l : list xml) : Prop := match l with XInstruction _ _ :: _ => False | _ => True end.

Lemma following_back q rest : Forall plain_instruction q -> no_instruction_first rest ->
  following_instructions (map instruction_node q ++ rest) = map as_sibling q.
Proof.
  intros F NR. induction F as [ | p q P F IH].
  - destruct rest as [ | x rest]; [reflexivity | ]. destruct x; try reflexivity. destruct NR.
  - cbn [map app following_instructions instruction_node]. rewrite IH. rewrite (instruction_back false p P). reflexivity.
Qed.
Lemma siblings_same ps : map as_sibling (filter (fun p => negb (pi_child p)) ps) = filter (fun p => negb (pi_child p)) ps.
Proof.
  induction ps as [ | [n d c] ps IH]; [reflexivity | ]. cbn [filter pi_child]. destruct c; cbn [negb]; [exact IH | ].
  cbn [map]. rewrite IH. reflexivity.
Qed.
Lemma leading_back q rest : Forall plain_instruction q -> (exists n l kids r, rest = XElement n l kids :: r) ->
  leading_instructions (map instruction_node q ++ rest) = Ok (map (fun p => mkInstruction (pi_name p) (pi_data p) true) q).
Proof.
  intros F (n & l & kids & r & ->). induction F as [ | p q P F IH]; [reflexivity | ].
  cbn [map app leading_instructions instruction_node]. rewrite IH. rewrite (instruction_back true p P). reflexivity.
Qed.
Lemma children_same ps : map (fun p => mkInstruction (pi_name p) (pi_data p) true) (filter pi_child ps) = filter pi_child ps.
Proof.
  induction ps as [ | [n d c] ps IH]; [reflexivity | ]. cbn [filter pi_child]. destruct c; [ | exact IH].
  cbn [map]. rewrite IH. reflexivity.
Qed.
Lemma children_skip q rest : read_children (map instruction_node q ++ rest) = read_children rest.
Proof. induction q as [ | p q IH]; [reflexivity | exact IH]. Qed.

Lemma trees_start k kids : exists n l m r, flat_map tree_of (k :: kids) = XElement n l m :: r.
Proof. cbn [flat_map]. destruct (tree_element k) as (n & l & m & q & ->). eexists _, _, _, _. reflexivity. Qed.
Lemma trees_first kids : no_instruction_first (flat_map tree_of kids).
Proof. destruct kids as [ | k kids]; [exact I | ]. destruct (trees_start k kids) as (n & l & m & r & ->). exact I. Qed.

Lemma read_back e : well_formed e -> forall rest, no_instruction_first rest ->
  exists x q, tree_of e = x :: map instruction_node q /\ is_element x = true /\
    read_element x (map instruction_node q ++ rest) = Ok (settled e).
Proof.
  induction e as [n l ps t | n l ps kids IH] using core_elements_ind; intros WF rest NR.
  - destruct WF as (N & A & P & T).
    exists (XElement n l (bare_kids (CoreText t))), ps. split; [destruct t; reflexivity | ]. split; [reflexivity | ].
    rewrite read_element_eq. rewrite (following_back ps rest P NR). destruct t as [ | c t]; reflexivity.
  - apply well_formed_children in WF. destruct WF as (N & A & P & W).
    destruct kids as [ | k kids].
    + exists (XElement n l []), ps. split; [reflexivity | ]. split; [reflexivity | ].
      rewrite read_element_eq. rewrite (following_back ps rest P NR). reflexivity.
    + exists (XElement n l (map instruction_node (filter pi_child ps) ++ flat_map tree_of (k :: kids))), (filter (fun p => negb (pi_child p)) ps).
      split; [reflexivity | ]. split; [reflexivity | ].
      rewrite read_element_eq. rewrite type_children. rewrite (following_back _ rest (filter_all _ _ _ P) NR). rewrite siblings_same.
      rewrite children_skip.
      rewrite (leading_back (filter pi_child ps) _ (filter_all _ _ _ P) (trees_start k kids)). rewrite children_same.
      assert (KS : forall m, Forall (fun e => well_formed e -> forall rest, no_instruction_first rest ->
          exists x q, tree_of e = x :: map instruction_node q /\ is_element x = true /\
            read_element x (map instruction_node q ++ rest) = Ok (settled e)) m ->
          Forall well_formed m -> read_children (flat_map tree_of m) = Ok (map settled m)).
      { intros m F. induction F as [ | y m Y F IHm]; intros WM; [reflexivity | ].
        inversion WM as [ | y' m' WY WM']; subst. cbn [flat_map map].
        destruct (Y WY (flat_map tree_of m) (trees_first m)) as (x & q & E & X & R). rewrite E. cbn [app].
        destruct x; try discriminate X. cbn [read_children]. rewrite R. cbn [obind]. rewrite children_skip. rewrite (IHm WM'). reflexivity. }
      rewrite (KS _ IH W). reflexivity.
Qed.

(** * The trees can be held by a document *)

Lemma plain_holdable v : plain_value v -> holdable_value v.
Proof. intros [CH _]. exact CH. Qed.
Lemma plain_holdable_attributes l : plain_attributes l -> holdable_attributes l.
Proof. intros F. induction F as [ | a l [N V] F IH]; [constructor | ]. constructor; [split; [exact N | exact (plain_holdable _ V)] | exact IH]. Qed.
Lemma instruction_holdable p : plain_instruction p -> holdable (instruction_node p).
Proof. intros (N & R & D). apply holdable_instruction; [exact N | exact R | ]. intros t E. injection E as <-. exact D. Qed.
Lemma holdable_nodes l : Forall holdable l -> holdable_content l.
Proof. induction 1; [apply content_none | apply content_node; assumption]. Qed.
Lemma instructions_holdable q : Forall plain_instruction q -> Forall holdable (map instruction_node q).
Proof. induction 1; [constructor | ]. constructor; [apply instruction_holdable; assumption | assumption]. Qed.

Lemma tree_holdable e : well_formed e -> Forall holdable (tree_of e).
Proof.
  induction e as [n l ps t | n l ps kids IH] using core_elements_ind; intros WF.
  - destruct WF as (N & A & P & T).
    assert (E : tree_of (CoreElement n l ps (CoreText t)) = XElement n l (bare_kids (CoreText t)) :: map instruction_node ps) by (destruct t; reflexivity).
    rewrite E. constructor; [ | exact (instructions_holdable ps P)].
    apply holdable_element; [exact N | exact (plain_holdable_attributes l A) | ].
    destruct t as [ | c t]; [apply content_none | ]. destruct T as [T | T]; [discriminate T | ].
    apply content_text; [exact T | intros u r X; discriminate X | apply content_none].
  - apply well_formed_children in WF. destruct WF as (N & A & P & W).
    assert (KS : Forall holdable (flat_map tree_of kids)).
    { clear - IH W. induction IH as [ | y m Y F IHm]; [constructor | ]. inversion W as [ | y' m' WY WM']; subst.
      cbn [flat_map]. apply Forall_app. split; [exact (Y WY) | exact (IHm WM')]. }
    destruct kids as [ | k kids].
    + cbn [tree_of]. constructor; [ | exact (instructions_holdable ps P)].
      apply holdable_element; [exact N | exact (plain_holdable_attributes l A) | apply content_none].
    + cbn [tree_of]. constructor; [ | exact (instructions_holdable _ (filter_all _ _ _ P))].
      apply holdable_element; [exact N | exact (plain_holdable_attributes l A) | ].
      apply holdable_nodes. apply Forall_app. split; [exact (instructions_holdable _ (filter_all _ _ _ P)) | exact KS].
Qed.
Lemma holdable_tops l : Forall holdable l -> Forall outer l -> Forall holdable_top l.
Proof.
  induction 1 as [ | x l X F IH]; intros O; [constructor | ]. inversion O as [ | x' l' OX OL]; subst.
  constructor; [ | exact (IH OL)]. destruct x; try destruct OX; [apply top_element | apply top_instruction]; exact X.
Qed.

(** * Documents *)

Lemma mx_declaration_plain : plain_attributes mx_declaration.
Proof.
  assert (K : forall n v, is_name n = true -> forallb (fun c => negb (existsb (Ascii.eqb c) ["000"; "034"; "009"; "010"; "013"]%char)) v = true ->
    xml_name n /\ plain_value v).
  { intros n v N V. split; [apply is_name_iff; exact N | ]. rewrite forallb_forall in V. split; apply Forall_forall; intros c IN; specialize (V c IN);
      apply negb_true_iff in V; cbn [existsb] in V; repeat (apply orb_false_iff in V; destruct V as [? V]);
      repeat match goal with H : Ascii.eqb _ _ = false |- _ => apply Ascii.eqb_neq in H end.
    - assumption.
    - cbn [In]. intuition congruence. }
  repeat (apply Forall_cons; [apply K; vm_compute; reflexivity | ]). apply Forall_nil.
Qed.
Lemma mx_declaration_spelled : declaration_spelled mx_declaration default_xml_declaration.
Proof.
  exists (stream_attributes mx_declaration), []. split; [exact (stream_attributes_spelled _ mx_declaration_plain) | ].
  split; [discriminate | ]. split; [constructor | ]. split; [ | reflexivity].
  intros (a & b & E).
  assert (K : ~ In "?"%char (stream_attributes mx_declaration ++ [])).
  { assert (B : existsb (Ascii.eqb "?") (stream_attributes mx_declaration ++ []) = false) by (vm_compute; reflexivity).
    intros IN. assert (X : existsb (Ascii.eqb "?") (stream_attributes mx_declaration ++ []) = true); [ | congruence].
    apply existsb_exists. exists "?"%char. split; [exact IN | reflexivity]. }
  apply K. rewrite E. rewrite !in_app_iff. right. left. left. reflexivity.
Qed.

(** The two document types. *)
Fixpoint doctype_b (fuel : nat) (s : str) : bool :=
  match fuel with
  | O => false
  | S f =>
      match s with
      | [] => true
      | c :: r =>
          if Ascii.eqb c "034" then
            match scan_for ["034"%char] r with
            | Some (p, q) => negb (existsb (Ascii.eqb "034") p) && negb (existsb (Ascii.eqb "000") p) && doctype_b f q
            | None => false
            end
          else negb (existsb (Ascii.eqb c) ["000"; "<"; ">"; "034"; "'"]%char) && doctype_b f r
      end
  end.
Lemma existsb_not c l : existsb (Ascii.eqb c) l = false -> ~ In c l.
Proof.
  intros E IN. assert (X : existsb (Ascii.eqb c) l = true); [ | congruence].
  apply existsb_exists. exists c. split; [exact IN | apply Ascii.eqb_refl].
Qed.
Lemma doctype_b_spelled f : forall s, doctype_b f s = true -> doctype_spelled s.
Proof.
  induction f as [ | f IH]; intros s E; [discriminate E | ]. cbn [doctype_b] in E.
  destruct s as [ | c r]; [apply doctype_end | ].
  destruct (Ascii.eqb_spec c "034") as [-> | NQ].
  - destruct (scan_for ["034"%char] r) as [[p q] | ] eqn:S; [ | discriminate E].
    apply andb_true_iff in E. destruct E as [E E3]. apply andb_true_iff in E. destruct E as [E1 E2].
    apply scan_for_some in S. rewrite S.
    apply (doctype_quoted "034" p q); [left; reflexivity | | | exact (IH q E3)].
    + apply existsb_not. apply negb_true_iff. exact E1.
    + apply characters_no_zero. apply existsb_not. apply negb_true_iff. exact E2.
  - apply andb_true_iff in E. destruct E as [E1 E2]. apply negb_true_iff in E1. apply existsb_not in E1. cbn [In] in E1.
    apply doctype_char; [ | | exact (IH r E2)].
    + intros X. apply E1. left. symmetry. exact X.
    + cbn [In]. tauto.
Qed.
Lemma doctype_standard c : doctype_of c = standard_doctype c.
Proof. destruct c; reflexivity. Qed.
Lemma doctype_ok c : doctype_spelled (standard_doctype c) /\ (forall a s, standard_doctype c = a :: s -> ~ blank a).
Proof.
  split; [apply (doctype_b_spelled 200); destruct c; vm_compute; reflexivity | ].
  intros a s E. destruct c; injection E as <- _; intros [X | [X | [X | X]]]; discriminate X.
Qed.

Lemma stream_document c e : well_formed e -> exists t, document_stream c e = Ok t /\ document (document_tree c e) t.
Proof.
  intros WF. destruct (to_stream_laid e WF 0) as (t & E & L). unfold document_stream. rewrite E, doctype_standard. cbn [omap obind].
  eexists. split; [reflexivity | ].
  split.
  - destruct (tree_element e) as (n & l & kids & q & T). exists (XElement n l kids). split; [ | reflexivity].
    unfold document_tree. rewrite T. right. right. left. reflexivity.
  - right. exists mx_declaration, (XDoctype (standard_doctype c) :: tree_of e), default_xml_declaration.
    eexists. split; [reflexivity | ]. split; [exact mx_declaration_spelled | ]. split; [ | reflexivity].
    destruct (doctype_ok c) as [D NB].
    change (lit "<!DOCTYPE ") with (lit "<!DOCTYPE" ++ lit " "). rewrite <- !(app_assoc (lit "<!DOCTYPE")).
    apply (XmlGrammar.top_doctype ["010"%char] (lit " ") (standard_doctype c)); [exact nl_blanks | discriminate | exact sp_blanks | exact D | exact NB | ].
    apply laid_top; [ | apply tree_outer]. apply laid_blank; [exact nl_blanks | exact L].
Qed.

Lemma load_document l t : document (XDeclaration (lit "xml") mx_declaration [] :: l) t ->
  load_stream t = Ok (XDeclaration (lit "xml") mx_declaration [] :: l).
Proof.
  intros D. unfold load_stream. rewrite (document_read _ _ D). cbn [obind].
  change (complete_attributes mx_declaration) with mx_declaration.
  change (settle_attributes mx_declaration) with (Ok mx_declaration). reflexivity.
Qed.

Lemma to_xdoc_tree c e : well_formed e -> to_xdoc c e = Ok (document_tree c e).
Proof.
  intros WF. destruct (stream_document c e WF) as (t & E & D). unfold to_xdoc. rewrite E, doctype_standard. cbn [obind].
  rewrite (load_document _ t D). reflexivity.
Qed.

Lemma write_document c e : well_formed e -> exists t, write_stream c e = Ok t /\ document (document_tree c e) t.
Proof.
  intros WF. unfold write_stream. rewrite (to_xdoc_tree c e WF). cbn [omap obind].
  eexists. split; [reflexivity | ]. unfold document_tree. apply saved_declared.
  - exists mx_declaration. split; [reflexivity | ]. split; [discriminate | ]. split; [exact (plain_holdable_attributes _ mx_declaration_plain) | ].
    repeat (apply Forall_cons; [cbn; intuition discriminate | ]). apply Forall_nil.
  - split.
    + destruct (doctype_ok c) as [DS NB]. constructor; [apply top_doctype; assumption | ].
      apply holdable_tops; [exact (tree_holdable e WF) | apply tree_outer].
    + destruct (tree_element e) as (n & l & kids & q & T). exists n, l, kids. rewrite T. right. left. reflexivity.
Qed.

Lemma root_read c e t : well_formed e -> element_name e = choice_name c -> document (document_tree c e) t ->
  read_stream t = Ok (c, settled e).
Proof.
  intros WF EN D. unfold read_stream. unfold document_tree in D. rewrite (load_document _ t D). cbn [obind get_root].
  destruct (read_back e WF [] I) as (x & q & T & X & R). rewrite T. destruct x as [n l kids | | | | | ]; try discriminate X.
  cbn [get_root]. rewrite app_nil_r in R.
  assert (N : n = choice_name c).
  { rewrite <- EN. destruct e as [n' l' ps [[ | a b] | [ | k m]]]; cbn [tree_of] in T; injection T as <- _ _ _; reflexivity. }
  subst n. rewrite R. destruct c; reflexivity.
Qed.

Lemma write_read c e : well_formed e -> element_name e = choice_name c ->
  exists t, write_stream c e = Ok t /\ read_stream t = Ok (c, settled e).
Proof.
  intros WF EN. destruct (write_document c e WF) as (t & E & D). exists t. split; [exact E | ]. exact (root_read c e t WF EN D).
Qed.

(** Reading any spelling of the tree gives the same. *)
Lemma spelled_read_back c e t : well_formed e -> element_name e = choice_name c -> document (document_tree c e) t ->
  read_stream t = Ok (c, settled e).
Proof. exact (root_read c e t). Qed.

(** * What is settled *)

Lemma filter_idem {A} (f : A -> bool) l : filter f (filter f l) = filter f l.
Proof. induction l as [ | x l IH]; [reflexivity | ]. cbn [filter]. destruct (f x) eqn:F; [cbn [filter]; rewrite F, IH; reflexivity | exact IH]. Qed.
Lemma filter_none {A} (f : A -> bool) l : filter f (filter (fun x => negb (f x)) l) = [].
Proof. induction l as [ | x l IH]; [reflexivity | ]. cbn [filter]. destruct (f x) eqn:F; cbn [negb]; [exact IH | ]. cbn [filter]. rewrite F. exact IH. Qed.
Lemma filter_none' {A} (f : A -> bool) l : filter (fun x => negb (f x)) (filter f l) = [].
Proof. induction l as [ | x l IH]; [reflexivity | ]. cbn [filter]. destruct (f x) eqn:F; [ | exact IH]. cbn [filter]. rewrite F. exact IH. Qed.
Lemma filter_perm {A} (f : A -> bool) l : Permutation (filter f l ++ filter (fun x => negb (f x)) l) l.
Proof.
  induction l as [ | x l IH]; [constructor | ]. cbn [filter]. destruct (f x); cbn [negb app].
  - constructor. exact IH.
  - etransitivity; [symmetry; apply Permutation_middle | ]. constructor. exact IH.
Qed.

Lemma settled_twice e : settled (settled e) = settled e.
Proof.
  induction e as [n l ps t | n l ps kids IH] using core_elements_ind.
  - cbn [settled]. rewrite map_map. reflexivity.
  - destruct kids as [ | k kids]; [cbn [settled]; rewrite map_map; reflexivity | ].
    cbn [settled map]. rewrite filter_app, filter_idem, filter_none, app_nil_r.
    rewrite filter_app, filter_none', (filter_idem (fun p => negb (pi_child p))). cbn [app].
    inversion IH as [ | k' kids' K KS]; subst. rewrite K. f_equal. f_equal. f_equal.
    clear - KS. induction KS as [ | y m Y F IHm]; [reflexivity | ]. cbn [map]. rewrite Y, IHm. reflexivity.
Qed.

Lemma settled_well_formed e : well_formed e -> well_formed (settled e).
Proof.
  assert (S : forall ps, Forall plain_instruction ps -> Forall plain_instruction (map as_sibling ps)).
  { intros ps F. induction F as [ | p ps P F IH]; [constructor | ]. constructor; [exact P | exact IH]. }
  induction e as [n l ps t | n l ps kids IH] using core_elements_ind; intros WF.
  - cbn [settled well_formed] in *. destruct WF as (N & A & P & T). repeat split; try apply N; try exact A; try exact T. exact (S ps P).
  - apply well_formed_children in WF. destruct WF as (N & A & P & W). destruct kids as [ | k kids].
    + cbn [settled well_formed]. split; [exact N | ]. split; [exact A | ]. split; [exact (S ps P) | left; reflexivity].
    + change (well_formed (CoreElement n l (filter pi_child ps ++ filter (fun p => negb (pi_child p)) ps) (CoreChildren (map settled (k :: kids))))).
      apply well_formed_children. split; [exact N | ]. split; [exact A | ]. split.
      * apply Forall_app. split; apply filter_all; exact P.
      * clear - IH W. remember (k :: kids) as m eqn:E. clear E. induction IH as [ | y m Y F IHm]; [constructor | ]. inversion W as [ | y' m' WY WM']; subst.
        cbn [map]. constructor; [exact (Y WY) | exact (IHm WM')].
Qed.

Lemma no_position_sibling ps : map no_position (map as_sibling ps) = map no_position ps.
Proof. rewrite map_map. reflexivity. Qed.
Lemma settled_kept e : kept e (settled e).
Proof.
  induction e as [n l ps t | n l ps kids IH] using core_elements_ind.
  - cbn [settled]. apply kept_text. rewrite no_position_sibling. apply Permutation_refl.
  - destruct kids as [ | k kids].
    + cbn [settled]. apply kept_empty. rewrite no_position_sibling. apply Permutation_refl.
    + change (settled (CoreElement n l ps (CoreChildren (k :: kids)))) with
        (CoreElement n l (filter pi_child ps ++ filter (fun p => negb (pi_child p)) ps) (CoreChildren (map settled (k :: kids)))).
      apply kept_children.
      * apply Permutation_map. symmetry. apply filter_perm.
      * clear - IH. induction IH as [ | y m Y F IHm]; [apply Forall2_nil | ]. cbn [map]. constructor; assumption.
Qed.

Lemma filter_true {A} (f : A -> bool) l : Forall (fun x => f x = true) l -> filter f l = l.
Proof. induction 1 as [ | x l X F IH]; [reflexivity | ]. cbn [filter]. rewrite X, IH. reflexivity. Qed.
Lemma filter_false {A} (f : A -> bool) l : Forall (fun x => f x = false) l -> filter f l = [].
Proof. induction 1 as [ | x l X F IH]; [reflexivity | ]. cbn [filter]. rewrite X. exact IH. Qed.
Lemma arranged_children n l ps kids : arranged (CoreElement n l ps (CoreChildren kids)) <->
  kids <> [] /\ (exists a b, ps = a ++ b /\ Forall (fun p => pi_child p = true) a /\ Forall (fun p => pi_child p = false) b) /\ Forall arranged kids.
Proof.
  cbn [arranged].
  assert (K : forall kids, (fix all (kids : list core_element) : Prop :=
          match kids with [] => True | k :: r => arranged k /\ all r end) kids <-> Forall arranged kids).
  { intros m. induction m as [ | k m IH]; [split; constructor | ].
    rewrite IH. split; [intros [A B]; constructor; assumption | intros H; inversion H; subst; split; assumption]. }
  rewrite K. tauto.
Qed.
Lemma arranged_settled e : arranged e -> settled e = e.
Proof.
  induction e as [n l ps t | n l ps kids IH] using core_elements_ind; intros A.
  - cbn [settled arranged] in *. f_equal. induction A as [ | [pn pd pc] ps P F IH]; [reflexivity | ].
    cbn [map]. rewrite IH. cbn in P. subst pc. reflexivity.
  - apply arranged_children in A. destruct A as (NE & (a & b & -> & FA & FB) & AK).
    destruct kids as [ | k kids]; [congruence | ].
    change (CoreElement n l (filter pi_child (a ++ b) ++ filter (fun p => negb (pi_child p)) (a ++ b)) (CoreChildren (map settled (k :: kids)))
      = CoreElement n l (a ++ b) (CoreChildren (k :: kids))).
    rewrite !filter_app. rewrite (filter_true _ a FA), (filter_false _ b FB).
    rewrite (filter_false (fun p => negb (pi_child p)) a) by (revert FA; apply Forall_impl; intros p ->; reflexivity).
    rewrite (filter_true (fun p => negb (pi_child p)) b) by (revert FB; apply Forall_impl; intros p ->; reflexivity).
    rewrite app_nil_r. cbn [app]. f_equal. f_equal.
    clear - IH AK. induction IH as [ | y m Y F IHm]; [reflexivity | ]. inversion AK; subst. cbn [map]. rewrite Y, IHm by assumption. reflexivity.
Qed.

Lemma to_stream_top level e : well_formed e -> exists t, to_stream level e = Ok t /\ top_spelled (tree_of e) t.
Proof.
  intros WF. destruct (to_stream_laid e WF level) as (t & E & L). exists t. split; [exact E | ]. apply laid_top; [exact L | apply tree_outer].
Qed.

(** * Loading *)

Lemma load_undeclared l text : document l text -> (forall n a k r, l <> XDeclaration n a k :: r) ->
  load_stream text = Ok (XDeclaration (lit "xml") standard_attributes [] :: l).
Proof.
  intros D N. unfold load_stream. rewrite (document_read _ _ D). cbn [obind].
  destruct l as [ | x l]; [reflexivity | ]. destruct x; try reflexivity. exfalso. exact (N _ _ _ _ eq_refl).
Qed.
Lemma load_declared v enc r l text : v <> [] ->
  document (XDeclaration (lit "xml") ((lit "version", v) :: (lit "encoding", enc) :: r) [] :: l) text ->
  load_stream text = Ok (XDeclaration (lit "xml") ((lit "version", v) :: (lit "encoding", lit "UTF-8") :: r) [] :: l).
Proof.
  intros NV D. unfold load_stream. rewrite (document_read _ _ D). cbn [obind].
  destruct v as [ | c v]; [congruence | ]. reflexivity.
Qed.
Lemma load_version_only v l text : v <> [] ->
  document (XDeclaration (lit "xml") [(lit "version", v)] [] :: l) text ->
  load_stream text = Ok (XDeclaration (lit "xml") [(lit "version", v); (lit "encoding", lit "UTF-8")] [] :: l).
Proof.
  intros NV D. unfold load_stream. rewrite (document_read _ _ D). cbn [obind].
  destruct v as [ | c v]; [congruence | ]. reflexivity.
Qed.
Lemma load_version_standalone v b l text : v <> [] ->
  document (XDeclaration (lit "xml") [(lit "version", v); (lit "standalone", b)] [] :: l) text ->
  load_stream text = Ok (XDeclaration (lit "xml") [(lit "version", v); (lit "encoding", lit "UTF-8"); (lit "standalone", b)] [] :: l).
Proof.
  intros NV D. unfold load_stream. rewrite (document_read _ _ D). cbn [obind].
  destruct v as [ | c v]; [congruence | ]. reflexivity.
Qed.
Lemma load_encoding_only enc r l text :
  document (XDeclaration (lit "xml") ((lit "encoding", enc) :: r) [] :: l) text ->
  load_stream text = Ok (XDeclaration (lit "xml") ((lit "version", lit "1.0") :: (lit "encoding", lit "UTF-8") :: r) [] :: l).
Proof. intros D. unfold load_stream. rewrite (document_read _ _ D). reflexivity. Qed.

Lemma arranged_reread c e : well_formed e -> arranged e -> element_name e = choice_name c ->
  exists t, write_stream c e = Ok t /\ read_stream t = Ok (c, e).
Proof.
  intros WF A EN. destruct (write_read c e WF EN) as (t & W & R). exists t. split; [exact W | ].
  rewrite (arranged_settled e A) in R. exact R.
Qed.
Lemma arranged_reread_same c e : well_formed e -> arranged e -> element_name e = choice_name c -> reread c e = Ok (c, e).
Proof. intros WF A EN. destruct (arranged_reread c e WF A EN) as (t & W & R). unfold reread. rewrite W. exact R. Qed.
Lemma document_unique l l' text : document l text -> document l' text -> l = l'.
Proof. intros A B. apply document_read in A, B. congruence. Qed.
Lemma saved_both d l : holdable_declaration d -> holdable_document l ->
  document (d :: l) (save_document (d :: l)) /\ parse_document (save_document (d :: l)) = Ok (d :: l).
Proof. intros D H. split; [exact (saved_declared d l D H) | exact (saved_read_declared d l D H)]. Qed.
Lemma other_root n a kids l text : document (XElement n a kids :: l) text ->
  n <> lit "score-partwise" -> n <> lit "score-timewise" -> read_stream text = Throw.
Proof.
  intros D N1 N2. unfold read_stream.
  rewrite (load_undeclared _ _ D) by discriminate. cbn [obind get_root].
  destruct (str_eqb n (lit "score-partwise")) eqn:E1; [apply str_eqb_eq in E1; congruence | ].
  destruct (str_eqb n (lit "score-timewise")) eqn:E2; [apply str_eqb_eq in E2; congruence | ]. reflexivity.
Qed.
