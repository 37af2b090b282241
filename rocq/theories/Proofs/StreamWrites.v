(** The text of an element spells its tree. *)
From Coq Require Import List Ascii String ZArith Bool Lia.
From Verif Require Import Proofs.Tac Model.Base Model.Text Model.Strings Model.PugiText Model.XmlStream.
From Verif Require Import Spec.Numerals Spec.XmlText Spec.XmlGrammar Spec.XmlTrees Spec.Instructions.
From Verif Require Import Proofs.TextProofs Proofs.StringsProofs Proofs.PugiProofs Proofs.PugiReads Proofs.PugiWrites.
Import ListNotations.
Open Scope nat_scope.
Open Scope list_scope.

(** * Induction over elements *)

Definition core_elements_ind (P : core_element -> Prop)
  (HT : forall n l ps t, P (CoreElement n l ps (CoreText t)))
  (HC : forall n l ps kids, Forall P kids -> P (CoreElement n l ps (CoreChildren kids))) : forall e, P e :=
  fix go (e : core_element) : P e :=
    match e with
    | CoreElement n l ps (CoreText t) => HT n l ps t
    | CoreElement n l ps (CoreChildren kids) =>
        HC n l ps kids ((fix all (kids : list core_element) : Forall P kids :=
          match kids with [] => Forall_nil P | k :: r => Forall_cons k (go k) (all r) end) kids)
    end.

Lemma well_formed_children n l ps kids : well_formed (CoreElement n l ps (CoreChildren kids)) <->
  xml_name n /\ plain_attributes l /\ Forall plain_instruction ps /\ Forall well_formed kids.
Proof.
  cbn [well_formed].
  assert (K : forall kids, (fix all (kids : list core_element) : Prop :=
          match kids with [] => True | k :: r => well_formed k /\ all r end) kids <-> Forall well_formed kids).
  { intros m. induction m as [ | k m IH]; [split; constructor | ].
    rewrite IH. split; [intros [A B]; constructor; assumption | intros H; inversion H; subst; split; assumption]. }
  rewrite K. tauto.
Qed.

(** * Nodes with white space around them *)

Inductive laid : list xml -> str -> Prop :=
| laid_end w : blanks w -> laid [] w
| laid_node w x s l r : blanks w -> node_spelled x s -> laid l r -> laid (x :: l) (w ++ s ++ r).

Lemma laid_blank w l s : blanks w -> laid l s -> laid l (w ++ s).
Proof.
  intros W H. destruct H as [v V | v x s l r V N H].
  - apply laid_end. apply Forall_app. split; assumption.
  - rewrite app_assoc. apply laid_node; [apply Forall_app; split; assumption | exact N | exact H].
Qed.
Lemma laid_app l s l' s' : laid l s -> laid l' s' -> laid (l ++ l') (s ++ s').
Proof.
  induction 1 as [v V | v x s l r V N H IH]; intros H'.
  - apply laid_blank; assumption.
  - rewrite <- !app_assoc. cbn [app]. apply laid_node; [exact V | exact N | apply IH; exact H'].
Qed.
Lemma laid_one x s : node_spelled x s -> laid [x] s.
Proof.
  intros N. assert (K := laid_node [] x s [] [] (Forall_nil _) N (laid_end [] (Forall_nil _))). rewrite app_nil_r in K. exact K.
Qed.
Lemma laid_content l s : laid l s -> content_spelled l s.
Proof. induction 1; [apply content_end; assumption | apply XmlGrammar.content_node; assumption]. Qed.
Definition outer (x : xml) : Prop := match x with XElement _ _ _ | XInstruction _ _ => True | _ => False end.
Lemma laid_top l s : laid l s -> Forall outer l -> top_spelled l s.
Proof.
  induction 1 as [v V | v x s l r V N H IH]; intros F; [apply top_end; assumption | ].
  inversion F; subst. apply top_node; [exact V | exact N | assumption | apply IH; assumption].
Qed.

Lemma nl_blanks : blanks ["010"%char].
Proof. constructor; [right; right; left; reflexivity | constructor]. Qed.
Lemma sp_blanks : blanks (lit " ").
Proof. constructor; [left; reflexivity | constructor]. Qed.
Lemma stream_indent_blanks d : blanks (stream_indent d).
Proof.
  unfold stream_indent. induction d as [ | d IH]; [constructor | ].
  cbn [repeat List.concat]. apply Forall_app. split; [ | exact IH].
  constructor; [left; reflexivity | constructor; [left; reflexivity | constructor; [left; reflexivity | constructor]]].
Qed.

(** * Texts and attributes *)

Lemma escape_ref c : c = "<"%char \/ c = ">"%char \/ c = "&"%char -> reference [c] (escape_char c).
Proof. intros [-> | [-> | ->]]; [apply ref_lt | apply ref_gt | apply ref_amp]. Qed.
Lemma escape_same c : c <> "<"%char -> c <> ">"%char -> c <> "&"%char -> escape_char c = [c].
Proof.
  intros A B C. unfold escape_char. rewrite (proj2 (Ascii.eqb_neq _ _) A), (proj2 (Ascii.eqb_neq _ _) B), (proj2 (Ascii.eqb_neq _ _) C). reflexivity.
Qed.
Lemma special_dec c : (c = "<"%char \/ c = ">"%char \/ c = "&"%char) \/ (c <> "<"%char /\ c <> ">"%char /\ c <> "&"%char).
Proof.
  destruct (Ascii.eqb_spec c "<"); [tauto | ]. destruct (Ascii.eqb_spec c ">"); [tauto | ]. destruct (Ascii.eqb_spec c "&"); tauto.
Qed.

Lemma escape_text t : Forall character t -> ~ In "013"%char t -> text_spelled t (escape t).
Proof.
  intros CH. induction CH as [ | c t N CH IH]; intros R; [apply text_end | ].
  assert (Rc : c <> "013"%char) by (intros E; apply R; left; exact E).
  assert (Rt : ~ In "013"%char t) by (intros I; apply R; right; exact I).
  change (escape (c :: t)) with (escape_char c ++ escape t).
  destruct (special_dec c) as [S | (A & B & C)].
  - exact (text_reference [c] _ t _ (escape_ref c S) (IH Rt)).
  - rewrite (escape_same c A B C). apply (text_char c t); [exact N | exact A | exact C | exact Rc | exact (IH Rt)].
Qed.
Lemma escape_blanks t : blanks (escape t) -> blanks t.
Proof.
  induction t as [ | c t IH]; intros B; [constructor | ].
  change (escape (c :: t)) with (escape_char c ++ escape t) in B. apply Forall_app in B. destruct B as [B1 B2].
  constructor; [ | exact (IH B2)].
  destruct (special_dec c) as [[-> | [-> | ->]] | (A1 & A2 & A3)].
  1-3: exfalso; inversion B1 as [ | x y X]; subst; destruct X as [X | [X | [X | X]]]; discriminate X.
  rewrite (escape_same c A1 A2 A3) in B1. inversion B1; subst; assumption.
Qed.
Lemma escape_value v : plain_value v -> value_spelled "034" v (escape v).
Proof.
  intros [CH P]. revert P. induction CH as [ | c t N CH IH]; intros P; [apply value_end | ].
  inversion P as [ | x y Pc Pt]; subst.
  change (escape (c :: t)) with (escape_char c ++ escape t).
  destruct (special_dec c) as [S | (A & B & C)].
  - exact (value_reference "034" [c] _ t _ (escape_ref c S) (IH Pt)).
  - rewrite (escape_same c A B C). cbn [In] in Pc.
    destruct (Ascii.eqb_spec c " ") as [-> | NB].
    + apply value_blank; [left; reflexivity | exact (IH Pt)].
    + apply (value_char "034" c t); [exact N | intros E; apply Pc; rewrite E; tauto | exact A | exact C | | exact (IH Pt)].
      intros [E | [E | [E | E]]]; [exact (NB E) | | | ]; apply Pc; rewrite E; tauto.
Qed.
Lemma stream_attributes_spelled l : plain_attributes l -> attributes_spelled l (stream_attributes l).
Proof.
  intros H. induction H as [ | [n v] l [N V] H IH]; [apply attributes_end | ].
  cbn [fst snd] in N, V.
  change (stream_attributes ((n, v) :: l)) with
    ((lit " " ++ n ++ ["="; "034"]%char ++ escape v ++ ["034"%char]) ++ stream_attributes l).
  replace ((lit " " ++ n ++ ["="; "034"]%char ++ escape v ++ ["034"%char]) ++ stream_attributes l)
    with (lit " " ++ n ++ [] ++ ["="%char] ++ [] ++ ["034"%char] ++ escape v ++ ["034"%char] ++ stream_attributes l)
    by (rewrite <- !app_assoc; reflexivity).
  apply attributes_next; [discriminate | exact sp_blanks | exact N | constructor | constructor | left; reflexivity | exact (escape_value v V) | exact IH].
Qed.

(** * Instructions *)

Lemma instruction_spelled p : plain_instruction p -> node_spelled (instruction_node p) (stream_instruction p).
Proof.
  intros (N & R & NO & CH & NB). unfold stream_instruction, instruction_node.
  apply node_instruction_data; [exact N | exact R | discriminate | exact sp_blanks | exact NO | exact CH | exact NB].
Qed.
Lemma instructions_laid level l : Forall plain_instruction l -> laid (map instruction_node l) (stream_instructions level l).
Proof.
  intros F. destruct F as [ | p l P F]; [apply laid_end; constructor | ].
  cbn [map stream_instructions]. apply laid_node; [apply stream_indent_blanks | exact (instruction_spelled p P) | ].
  induction F as [ | q l Q F IH]; [apply laid_end; constructor | ].
  cbn [map flat_map]. rewrite <- !app_assoc. rewrite (app_assoc ["010"%char]).
  apply laid_node; [ | exact (instruction_spelled q Q) | exact IH].
  apply Forall_app. split; [exact nl_blanks | apply stream_indent_blanks].
Qed.

(** * The parts of [to_stream] *)

Fixpoint kids_stream (level : nat) (kids : list core_element) : outcome str :=
  match kids with
  | [] => Ok []
  | k :: r => obind (to_stream (S level) k) (fun s => obind (kids_stream level r) (fun q => Ok (["010"%char] ++ s ++ q)))
  end.
Definition contents (level : nat) (body : core_body) : outcome (str * bool) :=
  match body with
  | CoreText t => Ok (escape t, true)
  | CoreChildren [] => Ok ([], true)
  | CoreChildren kids => omap (fun s => (s ++ ["010"%char], false)) (kids_stream level kids)
  end.
Definition plain (n : str) (l : list (str * str)) (body : core_body) (c0 : str * bool) (level : nat) : outcome str :=
  match fst c0 with
  | [] => Ok (self_close_text n l)
  | _ => omap (fun c => open_text n l ++ fst c ++ (if snd c : bool then [] else stream_indent level) ++ close_text n) (contents level body)
  end.
Definition with_instructions (level : nat) (n : str) (l : list (str * str)) (ps : list instruction) (body : core_body) (c0 : str * bool) : outcome str :=
  obind (plain n l body c0 0) (fun own =>
  obind (load_stream own) (fun doc =>
  match get_root doc with
  | Some (XElement _ _ kids, _) =>
      let hasChildren := match type_of kids with TypeElement => true | _ => false end in
      match fst c0 with
      | [] => Ok (stream_indent level ++ self_close_text n l ++ ["010"%char] ++ stream_instructions level ps)
      | _ =>
          omap (fun c =>
            stream_indent level ++ open_text n l ++
            (if hasChildren then stream_instructions (S level) (filter pi_child ps) else []) ++
            fst c ++ (if snd c : bool then [] else stream_indent level) ++ close_text n ++ ["010"%char] ++
            stream_instructions level (if hasChildren then filter (fun p => negb (pi_child p)) ps else ps))
          (contents level body)
      end
  | _ => Throw
  end)).

Lemma to_stream_eq level n l ps body : to_stream level (CoreElement n l ps body) =
  obind (contents 0 body) (fun c0 =>
    match ps with
    | [] => omap (fun s => stream_indent level ++ s) (plain n l body c0 level)
    | _ => with_instructions level n l ps body c0
    end).
Proof.
  destruct body as [t | kids]; [reflexivity | ]. destruct kids as [ | k kids]; [reflexivity | ].
  assert (K : forall level kids, (fix go (kids : list core_element) : outcome str :=
                  match kids with
                  | [] => Ok []
                  | k :: r => obind (to_stream (S level) k) (fun s => obind (go r) (fun q => Ok (["010"%char] ++ s ++ q)))
                  end) kids = kids_stream level kids).
  { intros lv m. induction m as [ | y m IH]; [reflexivity | ]. cbn [kids_stream]. rewrite IH. reflexivity. }
  unfold with_instructions, plain. cbn [contents].
  rewrite <- (K level (k :: kids)), <- (K 0 (k :: kids)). reflexivity.
Qed.

(** * Elements *)

Lemma tree_element e : exists n l kids q, tree_of e = XElement n l kids :: map instruction_node q.
Proof.
  destruct e as [n l ps [[ | c t] | [ | k kids]]]; cbn [tree_of]; eexists _, _, _, _; reflexivity.
Qed.
Lemma tree_outer e : Forall outer (tree_of e).
Proof.
  destruct (tree_element e) as (n & l & kids & q & ->). constructor; [exact I | ].
  induction q; constructor; [exact I | assumption].
Qed.

Lemma text_of_outer l : Forall outer l -> text_of l = [].
Proof. induction 1 as [ | x l X F IH]; [reflexivity | ]. destruct x; try contradiction; exact IH. Qed.
Lemma trees_outer kids : Forall outer (flat_map tree_of kids).
Proof. induction kids as [ | k kids IH]; [constructor | ]. cbn [flat_map]. apply Forall_app. split; [apply tree_outer | exact IH]. Qed.
Lemma instructions_outer q : Forall outer (map instruction_node q).
Proof. induction q; constructor; [exact I | assumption]. Qed.

Lemma type_children q k kids : type_of (map instruction_node q ++ flat_map tree_of (k :: kids)) = TypeElement.
Proof.
  unfold type_of. rewrite text_of_outer by (apply Forall_app; split; [apply instructions_outer | apply trees_outer]).
  assert (S : exists x r, skip_instructions (map instruction_node q ++ flat_map tree_of (k :: kids)) = x :: r).
  { induction q as [ | p q IH]; [ | exact IH]. cbn [map app flat_map].
    destruct (tree_element k) as (n & l & m & q' & ->). cbn [app skip_instructions]. eexists _, _. reflexivity. }
  destruct S as (x & r & S).
  assert (B : begin_all (map instruction_node q ++ flat_map tree_of (k :: kids)) = map instruction_node q ++ flat_map tree_of (k :: kids)).
  { destruct q as [ | p q]; [ | reflexivity]. cbn [map app flat_map].
    destruct (tree_element k) as (n & l & m & q' & ->). reflexivity. }
  unfold begin_elements. rewrite B, S. reflexivity.
Qed.

Definition root_of (e : core_element) : xml := hd (XText []) (tree_of e).

(** An element's own text, without its instructions. *)
Definition bare_kids (body : core_body) : list xml :=
  match body with
  | CoreText [] => []
  | CoreText t => [XText t]
  | CoreChildren kids => flat_map tree_of kids
  end.

Lemma element_spelled n l kids c : xml_name n -> plain_attributes l -> content_spelled kids c ->
  node_spelled (XElement n l kids) (open_text n l ++ c ++ close_text n).
Proof.
  intros N A C. unfold open_text, close_text.
  assert (K := node_element n l (stream_attributes l) [] kids c [] N (stream_attributes_spelled l A) (Forall_nil _) C (Forall_nil _)).
  rewrite <- !app_assoc. exact K.
Qed.
Lemma self_close_spelled n l : xml_name n -> plain_attributes l -> node_spelled (XElement n l []) (self_close_text n l).
Proof. intros N A. exact (node_empty n l (stream_attributes l) [] N (stream_attributes_spelled l A) (Forall_nil _)). Qed.

Lemma text_content t : holdable_text t -> content_spelled [XText t] (escape t).
Proof.
  intros (CH & R & NB).
  assert (K := XmlGrammar.content_text t (escape t) [] [] (escape_text t CH R) (fun B => NB (escape_blanks t B)) (or_introl eq_refl) (content_end [] (Forall_nil _))).
  rewrite app_nil_r in K. exact K.
Qed.

Lemma load_one x s : node_spelled x s -> outer x -> is_element x = true -> load_stream s = Ok [XDeclaration (lit "xml") standard_attributes []; x].
Proof.
  intros N O E. unfold load_stream.
  assert (D : document [x] s).
  { split; [exists x; split; [left; reflexivity | exact E] | left].
    apply laid_top; [exact (laid_one x s N) | constructor; [exact O | constructor]]. }
  rewrite (document_read _ _ D). cbn [obind]. destruct x; try discriminate E. reflexivity.
Qed.

Lemma filter_all {A} (P : A -> Prop) f l : Forall P l -> Forall P (filter f l).
Proof. induction 1 as [ | x l X F IH]; [constructor | ]. cbn [filter]. destruct (f x); [constructor; assumption | exact IH]. Qed.

(** What [contents] is, in each case. *)
Definition contents_case (body : core_body) : Prop :=
  (exists c, forall level, contents level body = Ok (c, true) /\
      match c with [] => bare_kids body = [] | _ => content_spelled (bare_kids body) c /\ type_of (bare_kids body) <> TypeElement end) \/
  (exists k kids, body = CoreChildren (k :: kids) /\
      forall level, exists c, contents level body = Ok ("010"%char :: c, false) /\ laid (bare_kids body) ("010"%char :: c)).

Lemma escape_nil t : escape t = [] -> t = [].
Proof.
  destruct t as [ | c t]; [reflexivity | ]. change (escape (c :: t)) with (escape_char c ++ escape t). unfold escape_char.
  destruct (Ascii.eqb c "<"); [discriminate | ]. destruct (Ascii.eqb c ">"); [discriminate | ]. destruct (Ascii.eqb c "&"); discriminate.
Qed.

Lemma to_stream_laid e : well_formed e -> forall level, exists t, to_stream level e = Ok t /\ laid (tree_of e) t.
Proof.
  assert (STEP : forall n l ps body, xml_name n -> plain_attributes l -> Forall plain_instruction ps -> contents_case body ->
    forall level, exists t, to_stream level (CoreElement n l ps body) = Ok t /\ laid (tree_of (CoreElement n l ps body)) t).
  { intros n l ps body N A P CC level. rewrite to_stream_eq.
    destruct CC as [(c & C) | (k & kids & -> & C)].
    - destruct (C 0) as [-> K]. cbn [obind].
      assert (T : tree_of (CoreElement n l ps body) = XElement n l (bare_kids body) :: map instruction_node ps).
      { destruct body as [[ | d t] | [ | k kids]]; try reflexivity. exfalso. destruct (C 0) as [E _]. cbn [contents] in E.
        destruct (kids_stream 0 (k :: kids)); cbn in E; congruence. }
      rewrite T.
      assert (OWN : exists own, plain n l body (c, true) level = Ok own /\ plain n l body (c, true) 0 = Ok own /\
        node_spelled (XElement n l (bare_kids body)) own /\
        match c with [] => own = self_close_text n l | _ => own = open_text n l ++ c ++ close_text n end).
      { unfold plain. cbn [fst]. destruct c as [ | d c].
        - exists (self_close_text n l). split; [reflexivity | ]. split; [reflexivity | ]. rewrite K. split; [exact (self_close_spelled n l N A) | reflexivity].
        - destruct (C level) as [-> _]. rewrite (proj1 (C 0)). cbn [omap obind fst snd].
          eexists. split; [reflexivity | ]. split; [reflexivity | ]. cbn [app].
          split; [exact (element_spelled n l _ _ N A (proj1 K)) | reflexivity]. }
      destruct OWN as (own & E1 & E0 & SP & OT).
      destruct ps as [ | p ps].
      + rewrite E1. cbn [omap obind map]. eexists. split; [reflexivity | ].
        apply laid_blank; [apply stream_indent_blanks | exact (laid_one _ _ SP)].
      + unfold with_instructions. rewrite E0. cbn [obind]. rewrite (load_one _ _ SP I eq_refl). cbn [obind get_root fst].
        remember (p :: ps) as qs eqn:Q. clear Q. destruct c as [ | d c].
        * subst own. eexists. split; [reflexivity | ].
          apply laid_node; [apply stream_indent_blanks | exact SP | ]. apply laid_blank; [exact nl_blanks | exact (instructions_laid level _ P)].
        * destruct (C level) as [-> _]. cbn [omap obind fst snd].
          destruct K as [_ NE]. destruct (type_of (bare_kids body)); [ | | congruence]; cbn [app]; eexists; (split; [reflexivity | ]);
            (replace (stream_indent level ++ open_text n l ++ d :: c ++ close_text n ++ "010"%char :: stream_instructions level qs)
              with (stream_indent level ++ own ++ (["010"%char] ++ stream_instructions level qs))
              by (rewrite OT; rewrite <- !app_assoc; reflexivity));
            (apply laid_node; [apply stream_indent_blanks | exact SP | ]); (apply laid_blank; [exact nl_blanks | exact (instructions_laid level _ P)]).
    - destruct (C 0) as (c0 & E0 & L0). destruct (C level) as (c & E & L). rewrite E0. cbn [obind].
      assert (SPELL : forall q lv d, Forall plain_instruction q -> laid (bare_kids (CoreChildren (k :: kids))) d ->
        node_spelled (XElement n l (map instruction_node q ++ flat_map tree_of (k :: kids)))
          (open_text n l ++ (stream_instructions (S lv) q ++ d ++ stream_indent lv) ++ close_text n)).
      { intros q lv d FQ LD. apply element_spelled; [exact N | exact A | ]. apply laid_content.
        apply laid_app; [exact (instructions_laid (S lv) q FQ) | ].
        rewrite <- (app_nil_r (flat_map tree_of (k :: kids))). apply laid_app; [exact LD | ]. apply laid_end. apply stream_indent_blanks. }
      destruct ps as [ | p ps].
      + unfold plain. cbn [fst]. rewrite E. cbn [omap obind fst snd]. eexists. split; [reflexivity | ].
        apply laid_blank; [apply stream_indent_blanks | ].
        assert (K := SPELL [] level _ (Forall_nil _) L). cbn [stream_instructions app] in K. rewrite <- !app_assoc in K.
        exact (laid_one _ _ K).
      + unfold with_instructions, plain. cbn [fst]. rewrite E0. cbn [omap obind fst snd].
        assert (K := SPELL [] 0 _ (Forall_nil _) L0). cbn [stream_instructions] in K. rewrite <- !app_assoc in K.
        change ([] ++ ?x) with x in K.
        rewrite (load_one _ _ K I eq_refl). cbn [obind get_root].
        rewrite (type_children [] k kids). rewrite E. cbn [omap obind fst snd].
        eexists. split; [reflexivity | ].
        remember (p :: ps) as qs eqn:Q. clear Q.
        assert (K2 := SPELL (filter pi_child qs) level _ (filter_all _ _ _ P) L).
        assert (K3 := laid_node _ _ _ _ _ (stream_indent_blanks level) K2
          (laid_blank _ _ _ nl_blanks (instructions_laid level _ (filter_all _ (fun p => negb (pi_child p)) _ P)))).
        rewrite <- !app_assoc in K3. exact K3. }
  induction e as [n l ps t | n l ps kids IH] using core_elements_ind; intros WF.
  - cbn [well_formed] in WF. destruct WF as (N & A & P & T). apply STEP; try assumption.
    left. exists (escape t). intros lv. split; [reflexivity | ]. destruct T as [-> | T]; [reflexivity | ].
    destruct (escape t) as [ | d c] eqn:E.
    + apply escape_nil in E. subst t. reflexivity.
    + rewrite <- E. destruct t as [ | a t]; [discriminate E | ].
      split; [exact (text_content _ T) | ]. cbn. discriminate.
  - apply well_formed_children in WF. destruct WF as (N & A & P & W). apply STEP; try assumption.
    destruct kids as [ | k kids].
    + left. exists []. intros lv. split; reflexivity.
    + right. exists k, kids. split; [reflexivity | ]. intros lv.
      assert (KS : forall m, Forall (fun e => well_formed e -> forall level, exists t, to_stream level e = Ok t /\ laid (tree_of e) t) m ->
        Forall well_formed m -> exists s, kids_stream lv m = Ok s /\ laid (flat_map tree_of m) s /\ (m <> [] -> hd_error s = Some "010"%char)).
      { intros m F. induction F as [ | y m Y F IHm]; intros WM.
        - exists []. split; [reflexivity | ]. split; [apply laid_end; constructor | congruence].
        - inversion WM as [ | y' m' WY WM']; subst. destruct (IHm WM') as (s & E & L & _). destruct (Y WY (S lv)) as (t & ET & LT).
          exists (["010"%char] ++ t ++ s). cbn [kids_stream]. rewrite ET. cbn [obind]. rewrite E. cbn [obind].
          split; [reflexivity | ]. split; [ | reflexivity].
          cbn [flat_map]. apply laid_blank; [exact nl_blanks | ]. apply laid_app; assumption. }
      destruct (KS _ IH W) as (s & E & L & H). specialize (H ltac:(discriminate)).
      destruct s as [ | d s]; [discriminate H | ]. injection H as ->.
      exists (s ++ ["010"%char]). unfold contents. rewrite E. cbn [omap obind app]. split; [reflexivity | ].
      cbn [bare_kids]. rewrite <- (app_nil_r (flat_map tree_of (k :: kids))).
      change ("010"%char :: s ++ ["010"%char]) with (("010"%char :: s) ++ ["010"%char]).
      apply laid_app; [exact L | apply laid_end; exact nl_blanks].
Qed.
