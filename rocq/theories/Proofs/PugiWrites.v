(** What the writer makes of a tree spells that tree. *)
From Coq Require Import List Ascii String ZArith Bool Lia.
From Verif Require Import Proofs.Tac Model.Base Model.Text Model.Strings Model.PugiText Spec.Numerals Spec.XmlText Spec.XmlGrammar Spec.XmlTrees.
From Verif Require Import Proofs.TextProofs Proofs.StringsProofs Proofs.PugiProofs Proofs.PugiReads.
Import ListNotations.
Open Scope nat_scope.
Open Scope list_scope.

(** * Characters *)

Definition control_ref (c : ascii) : str := ["&"; "#"; chr (code c / 10 + 48)%Z; chr (code c mod 10 + 48)%Z; ";"]%char.

Lemma control_reference c : (0 < code c < 32)%Z -> reference [c] (control_ref c).
Proof.
  intros R. unfold control_ref.
  change (reference [c] (lit "&#" ++ ([chr (code c / 10 + 48)%Z] ++ [chr (code c mod 10 + 48)%Z]) ++ lit ";")).
  assert (D1 : (0 <= code c / 10 <= 3)%Z) by (split; [apply Z.div_pos; lia | apply Z.lt_succ_r; apply Z.div_lt_upper_bound; lia]).
  assert (D2 : (0 <= code c mod 10 < 10)%Z) by (apply Z.mod_pos_bound; lia).
  assert (C1 : code (chr (code c / 10 + 48)) = (code c / 10 + 48)%Z) by (apply code_chr; lia).
  assert (C2 : code (chr (code c mod 10 + 48)) = (code c mod 10 + 48)%Z) by (apply code_chr; lia).
  assert (V1 : digit_value 10 (chr (code c / 10 + 48)) (code c / 10)).
  { replace (code c / 10)%Z with (code (chr (code c / 10 + 48)) - 48)%Z at 2 by lia. apply dv_decimal. lia. }
  assert (V2 : digit_value 10 (chr (code c mod 10 + 48)) (code c mod 10)).
  { replace (code c mod 10)%Z with (code (chr (code c mod 10 + 48)) - 48)%Z at 2 by lia. apply dv_decimal. lia. }
  apply ref_decimal with (u := (10 * (code c / 10) + code c mod 10)%Z).
  - apply numeral_more; [apply numeral_1; exact V1 | exact V2].
  - rewrite <- Z.div_mod by lia. apply utf8_1; [lia | reflexivity].
Qed.

(** The two classes of special characters. *)
Definition pcdata_b (c : ascii) : bool :=
  ((code c <? 32) && negb (existsb (Ascii.eqb c) ["009"; "010"; "013"]%char) || existsb (Ascii.eqb c) ["&"; "<"; ">"]%char)%Z.
Definition attr_b (c : ascii) : bool :=
  ((code c <? 32) || existsb (Ascii.eqb c) ["&"; "<"; "034"; "'"]%char)%Z.
Lemma pcdata_special c : is_chartypex c ctx_special_pcdata = pcdata_b c.
Proof. apply eqb_true_iff. revert c. apply all_chars. intros [] [] [] [] [] [] [] []; vm_compute; reflexivity. Qed.
Lemma attr_special c : is_chartypex c ctx_special_attr = attr_b c.
Proof. apply eqb_true_iff. revert c. apply all_chars. intros [] [] [] [] [] [] [] []; vm_compute; reflexivity. Qed.

Lemma code_positive c : character c -> (0 < code c)%Z.
Proof.
  intros N. assert (R := code_range c). assert (code c <> 0)%Z; [ | lia].
  intros E. apply N. apply code_inj. rewrite E. reflexivity.
Qed.

Lemma escaped_reference special c : character c -> is_chartypex c special = true ->
  (code c < 32)%Z \/ In c ["&"; "<"; ">"; "034"]%char -> reference [c] (output_char special c).
Proof.
  intros N S H. unfold output_char. rewrite S.
  destruct (Ascii.eqb_spec c "&") as [-> | N1]; [apply ref_amp | ].
  destruct (Ascii.eqb_spec c "<") as [-> | N2]; [apply ref_lt | ].
  destruct (Ascii.eqb_spec c ">") as [-> | N3]; [apply ref_gt | ].
  destruct (Ascii.eqb_spec c "034") as [-> | N4]; [apply ref_quot | ].
  destruct H as [H | [<- | [<- | [<- | [<- | []]]]]]; try (exfalso; congruence).
  destruct (Ascii.eqb_spec c "'") as [E | N5]; [subst c; vm_compute in H; discriminate H | ].
  apply control_reference. split; [apply code_positive; exact N | exact H].
Qed.

Lemma pcdata_char c : character c -> c <> "013"%char ->
  (output_char ctx_special_pcdata c = [c] /\ c <> "<"%char /\ c <> "&"%char) \/
  (reference [c] (output_char ctx_special_pcdata c) /\ hd_error (output_char ctx_special_pcdata c) = Some "&"%char).
Proof.
  intros N R. destruct (is_chartypex c ctx_special_pcdata) eqn:S.
  - right. assert (REF : reference [c] (output_char ctx_special_pcdata c)).
    { apply escaped_reference; [exact N | exact S | ]. rewrite pcdata_special in S. unfold pcdata_b in S.
      apply orb_true_iff in S. destruct S as [S | S].
      - apply andb_true_iff in S. left. apply Z.ltb_lt. apply S.
      - right. apply existsb_exists in S. destruct S as (d & IN & E). apply Ascii.eqb_eq in E. subst d. cbn in IN |- *. tauto. }
    split; [exact REF | ]. destruct REF; reflexivity.
  - left. unfold output_char. rewrite S. rewrite pcdata_special in S. unfold pcdata_b in S. apply orb_false_iff in S. destruct S as [_ S].
    split; [reflexivity | ]. split; intros ->; discriminate S.
Qed.

Lemma text_out t : Forall character t -> ~ In "013"%char t -> text_spelled t (text_output ctx_special_pcdata t).
Proof.
  intros CH. induction CH as [ | c t N CH IH]; intros R; [apply text_end | ].
  assert (Rc : c <> "013"%char) by (intros E; apply R; left; exact E).
  assert (Rt : ~ In "013"%char t) by (intros I; apply R; right; exact I).
  change (text_output ctx_special_pcdata (c :: t)) with (output_char ctx_special_pcdata c ++ text_output ctx_special_pcdata t).
  destruct (pcdata_char c N Rc) as [(E & L & A) | (REF & _)].
  - rewrite E. apply (text_char c t); [exact N | exact L | exact A | exact Rc | exact (IH Rt)].
  - exact (text_reference [c] _ t _ REF (IH Rt)).
Qed.

Lemma text_out_blanks t : Forall character t -> ~ In "013"%char t -> blanks (text_output ctx_special_pcdata t) -> blanks t.
Proof.
  intros CH. induction CH as [ | c t N CH IH]; intros R B; [constructor | ].
  assert (Rc : c <> "013"%char) by (intros E; apply R; left; exact E).
  assert (Rt : ~ In "013"%char t) by (intros I; apply R; right; exact I).
  change (text_output ctx_special_pcdata (c :: t)) with (output_char ctx_special_pcdata c ++ text_output ctx_special_pcdata t) in B.
  destruct (pcdata_char c N Rc) as [(E & L & A) | (_ & H)].
  - rewrite E in B. inversion B as [ | x y Bc Bt]; subst. constructor; [exact Bc | exact (IH Rt Bt)].
  - destruct (output_char ctx_special_pcdata c) as [ | d q]; [discriminate H | ]. injection H as ->.
    inversion B as [ | x y Bc Bt]; subst. destruct Bc as [X | [X | [X | X]]]; discriminate X.
Qed.

Lemma value_out v : holdable_value v -> value_spelled "034" v (text_output ctx_special_attr v).
Proof.
  intros CH. induction CH as [ | c t N CH IH]; [apply value_end | ].
  change (text_output ctx_special_attr (c :: t)) with (output_char ctx_special_attr c ++ text_output ctx_special_attr t).
  destruct (Ascii.eqb_spec c "'") as [-> | NQ].
  { apply (value_char "034" "'" t); [discriminate | discriminate | discriminate | discriminate | | exact IH].
    intros [E | [E | [E | E]]]; discriminate E. }
  destruct (is_chartypex c ctx_special_attr) eqn:S.
  - assert (REF : reference [c] (output_char ctx_special_attr c)).
    { apply escaped_reference; [exact N | exact S | ]. rewrite attr_special in S. unfold attr_b in S.
      apply orb_true_iff in S. destruct S as [S | S].
      - left. apply Z.ltb_lt. apply S.
      - right. apply existsb_exists in S. destruct S as (d & IN & E). apply Ascii.eqb_eq in E. subst d. cbn in IN |- *. intuition congruence. }
    exact (value_reference "034" [c] _ t _ REF IH).
  - unfold output_char. rewrite S. rewrite attr_special in S. unfold attr_b in S. apply orb_false_iff in S. destruct S as [S1 S2].
    destruct (Ascii.eqb_spec c " ") as [-> | NB].
    + apply value_blank; [left; reflexivity | exact IH].
    + apply (value_char "034" c t); try (exact IH); try exact N; try (intros ->; discriminate S2).
      intros [E | [E | [E | E]]]; subst c; try discriminate S1; congruence.
Qed.

Lemma attributes_out l : holdable_attributes l -> attributes_spelled l (output_attributes l).
Proof.
  intros H. induction H as [ | [n v] l [N V] H IH]; [apply attributes_end | ].
  cbn [fst snd] in N, V.
  change (output_attributes ((n, v) :: l)) with
    ((lit " " ++ n ++ ["="; "034"]%char ++ text_output ctx_special_attr v ++ ["034"%char]) ++ output_attributes l).
  replace ((lit " " ++ n ++ ["="; "034"]%char ++ text_output ctx_special_attr v ++ ["034"%char]) ++ output_attributes l)
    with (lit " " ++ n ++ [] ++ ["="%char] ++ [] ++ ["034"%char] ++ text_output ctx_special_attr v ++ ["034"%char] ++ output_attributes l)
    by (rewrite <- !app_assoc; reflexivity).
  apply attributes_next; [discriminate | | exact N | constructor | constructor | left; reflexivity | exact (value_out v V) | exact IH].
  constructor; [left; reflexivity | constructor].
Qed.

(** Question marks are only written for question marks. *)
Lemma output_char_no_question c : c <> "?"%char -> ~ In "?"%char (output_char ctx_special_attr c).
Proof.
  assert (K : forall c, (Ascii.eqb c "?" || negb (existsb (Ascii.eqb "?") (output_char ctx_special_attr c))) = true).
  { apply all_chars. intros [] [] [] [] [] [] [] []; vm_compute; reflexivity. }
  intros NC I. specialize (K c). apply orb_true_iff in K. destruct K as [K | K]; [apply Ascii.eqb_eq in K; exact (NC K) | ].
  apply negb_true_iff in K.
  assert (existsb (Ascii.eqb "?") (output_char ctx_special_attr c) = true); [ | congruence].
  apply existsb_exists. exists "?"%char. split; [exact I | reflexivity].
Qed.
Lemma name_no_question n : xml_name n -> ~ In "?"%char n.
Proof.
  intros N I. apply xml_name_bytes in N. rewrite Forall_forall in N. apply N in I. apply symbol_iff in I. discriminate I.
Qed.
Lemma attributes_no_question l : holdable_attributes l -> Forall (fun a => ~ In "?"%char (snd a)) l -> ~ In "?"%char (output_attributes l).
Proof.
  intros H Q I. unfold output_attributes in I. apply in_flat_map in I. destruct I as ([n v] & IN & I).
  unfold holdable_attributes in H. rewrite Forall_forall in H, Q. assert (V := Q _ IN). apply H in IN. destruct IN as [N _]. cbn [fst snd] in *.
  rewrite !in_app_iff in I. destruct I as [[X | []] | [I | [[X | [X | []]] | [I | [X | []]]]]]; try discriminate X.
  - exact (name_no_question n N I).
  - unfold text_output in I. apply in_flat_map in I. destruct I as (c & IC & I).
    apply (output_char_no_question c); [intros ->; exact (V IC) | exact I].
Qed.
Lemma no_question_no_end s : ~ In "?"%char s -> ~ occurs (lit "?>") s.
Proof. intros N (a & b & ->). apply N. rewrite !in_app_iff. right. left. left. reflexivity. Qed.

(** * Nodes *)

Lemma scan_for_none p s : ~ occurs p s -> scan_for p s = None.
Proof.
  intros N. destruct (scan_for p s) as [[a r] | ] eqn:E; [ | reflexivity].
  exfalso. apply N. apply scan_for_some in E. exists a, r. exact E.
Qed.

Lemma line_ends_same t : ~ In "013"%char t -> read_line_ends t = t.
Proof.
  induction t as [ | c t IH]; intros N; [reflexivity | ]. cbn [read_line_ends].
  destruct (Ascii.eqb_spec c "013") as [-> | NC]; [exfalso; apply N; left; reflexivity | ].
  rewrite IH; [reflexivity | ]. intros I. apply N. right. exact I.
Qed.

Lemma indentation_blanks d : blanks (indentation d).
Proof.
  unfold indentation. induction d as [ | d IH]; [constructor | ].
  cbn [repeat List.concat]. apply Forall_app. split; [ | exact IH].
  constructor; [left; reflexivity | constructor; [left; reflexivity | constructor]].
Qed.
Lemma indent_blanks fl d : blanks (output_indent fl d).
Proof.
  destruct fl; cbn [output_indent]; [ | apply indentation_blanks | constructor].
  constructor; [right; right; left; reflexivity | apply indentation_blanks].
Qed.

Lemma node_output_children fl d n a x l : node_output fl d (XElement n a (x :: l)) =
  let (s, inner) := nodes_output IndentBoth (S d) (x :: l) in
  (output_indent fl d ++ lit "<" ++ n ++ output_attributes a ++ lit ">" ++ s ++ output_indent inner d ++ lit "</" ++ n ++ lit ">", IndentBoth).
Proof.
  assert (K : forall l fl d,
    (fix go (flags : indent_flags) (depth : nat) (l : list xml) : str * indent_flags :=
      match l with
      | [] => ([], flags)
      | y :: r => let (s, flags) := node_output flags depth y in let (q, flags) := go flags depth r in (s ++ q, flags)
      end) fl d l = nodes_output fl d l).
  { intros m. induction m as [ | y m IH]; intros; [reflexivity | ]. cbn [nodes_output].
    destruct (node_output _ _ y) as [s fl']. rewrite IH. reflexivity. }
  rewrite <- (K (x :: l) IndentBoth (S d)). reflexivity.
Qed.

Scheme holdable_mut := Induction for holdable Sort Prop
with holdable_content_mut := Induction for holdable_content Sort Prop.
Combined Scheme holdable_both from holdable_mut, holdable_content_mut.

Definition spelled_at (x : xml) : Prop := forall fl d, exists w s,
  blanks w /\ (fl = IndentNone -> w = []) /\ node_spelled x s /\ fst (node_output fl d x) = w ++ s.

Lemma nodes_cons fl d x l :
  nodes_output fl d (x :: l) =
  (fst (node_output fl d x) ++ fst (nodes_output (snd (node_output fl d x)) d l), snd (nodes_output (snd (node_output fl d x)) d l)).
Proof.
  cbn [nodes_output]. destruct (node_output fl d x) as [s fl']. cbn [fst snd].
  destruct (nodes_output fl' d l) as [q fl'']. reflexivity.
Qed.

Lemma spelled_out :
  (forall x, holdable x -> spelled_at x) /\
  (forall l, holdable_content l ->
     (forall fl d d', content_spelled l (fst (nodes_output fl d l) ++ output_indent (snd (nodes_output fl d l)) d')) /\
     (forall d d', (forall u r, l <> XText u :: r) ->
        fst (nodes_output IndentNone d l) ++ output_indent (snd (nodes_output IndentNone d l)) d' = [] \/
        hd_error (fst (nodes_output IndentNone d l) ++ output_indent (snd (nodes_output IndentNone d l)) d') = Some "<"%char)).
Proof.
  apply holdable_both.
  - intros n l kids N A HC [IHc _] fl d.
    destruct kids as [ | k kids].
    + exists (output_indent fl d), (lit "<" ++ n ++ output_attributes l ++ lit " " ++ lit "/>").
      split; [apply indent_blanks | ]. split; [intros ->; reflexivity | ]. split; [ | reflexivity].
      apply node_empty; [exact N | exact (attributes_out l A) | ].
      constructor; [left; reflexivity | constructor].
    + rewrite node_output_children. specialize (IHc IndentBoth (S d) d).
      destruct (nodes_output IndentBoth (S d) (k :: kids)) as [s inner] eqn:E. cbn [fst snd] in IHc |- *.
      exists (output_indent fl d). eexists. split; [apply indent_blanks | ]. split; [intros ->; reflexivity | ]. split; [ | reflexivity].
      assert (K := node_element n l (output_attributes l) [] (k :: kids) (s ++ output_indent inner d) []
        N (attributes_out l A) (Forall_nil _) IHc (Forall_nil _)).
      rewrite <- !app_assoc in K. exact K.
  - intros t NO CH R fl d. exists [], (lit "<![CDATA[" ++ t ++ lit "]]>").
    split; [constructor | ]. split; [reflexivity | ]. split.
    + rewrite <- (line_ends_same t R) at 1. apply node_cdata; [exact NO | exact CH].
    + cbn [node_output fst output_simple text_output_cdata]. rewrite (scan_for_none _ _ NO). reflexivity.
  - intros n dt N NR H fl d. exists (output_indent fl d). destruct dt as [t | ].
    + destruct (H t eq_refl) as (NO & CH & NB).
      exists (lit "<?" ++ n ++ lit " " ++ t ++ lit "?>").
      split; [apply indent_blanks | ]. split; [intros ->; reflexivity | ]. split.
      * apply node_instruction_data; [exact N | exact NR | discriminate | | exact NO | exact CH | exact NB].
        constructor; [left; reflexivity | constructor].
      * cbn [node_output fst output_simple output_pi_value]. rewrite (scan_for_none _ _ NO). rewrite <- !app_assoc. reflexivity.
    + exists (lit "<?" ++ n ++ lit "?>").
      split; [apply indent_blanks | ]. split; [intros ->; reflexivity | ]. split; [ | reflexivity].
      apply node_instruction; [exact N | exact NR].
  - split.
    + intros fl d d'. cbn [nodes_output fst snd app]. apply content_end. apply indent_blanks.
    + intros d d' _. left. reflexivity.
  - intros t l (CH & R & NB) NX HC [IH1 IH2]. split.
    + intros fl d d'. rewrite nodes_cons. cbn [fst snd node_output output_simple]. rewrite <- app_assoc.
      apply XmlGrammar.content_text; [exact (text_out t CH R) | | exact (IH2 d d' NX) | exact (IH1 IndentNone d d')].
      intros B. exact (NB (text_out_blanks t CH R B)).
    + intros d d' NT. exfalso. exact (NT t l eq_refl).
  - intros x l HX IHx HC [IH1 IH2]. split.
    + intros fl d d'. rewrite nodes_cons. cbn [fst snd].
      destruct (IHx fl d) as (w & s & B & _ & SP & ->). rewrite <- !app_assoc.
      apply XmlGrammar.content_node; [exact B | exact SP | apply IH1].
    + intros d d' NT. right. rewrite nodes_cons. cbn [fst snd].
      destruct (IHx IndentNone d) as (w & s & B & W & SP & ->). rewrite (W eq_refl).
      assert (F := node_first x s SP). destruct s as [ | c s]; [discriminate F | ]. exact F.
Qed.

(** * Documents *)

Lemma tops_out l : Forall holdable_top l -> forall fl d w,
  blanks w -> top_spelled l (fst (nodes_output fl d l) ++ w).
Proof.
  induction 1 as [ | x l HX HL IH]; intros fl d w B; [apply top_end; exact B | ].
  rewrite nodes_cons. cbn [fst].
  destruct HX as [n a kids HX | n dt HX | v DS NB].
  - destruct (proj1 spelled_out _ HX fl d) as (w1 & s & B1 & _ & SP & ->). rewrite <- !app_assoc.
    apply top_node; [exact B1 | exact SP | exact I | apply IH; exact B].
  - destruct (proj1 spelled_out _ HX fl d) as (w1 & s & B1 & _ & SP & ->). rewrite <- !app_assoc.
    apply top_node; [exact B1 | exact SP | exact I | apply IH; exact B].
  - cbn [node_output fst snd output_simple]. rewrite <- !app_assoc.
    apply (XmlGrammar.top_doctype _ (lit " ")); [apply indent_blanks | discriminate | | exact DS | exact NB | apply IH; exact B].
    constructor; [left; reflexivity | constructor].
Qed.

Lemma tops_no_declaration l : Forall holdable_top l -> has_declaration l = false.
Proof. induction 1 as [ | x l HX HL IH]; [reflexivity | ]. destruct HX; cbn [has_declaration]; [reflexivity | exact IH | exact IH]. Qed.

Definition last_line (fl : indent_flags) : str := match fl with IndentBoth => ["010"%char] | _ => [] end.
Lemma last_line_blanks fl : blanks (last_line fl).
Proof. destruct fl; [ | constructor | constructor]. constructor; [right; right; left; reflexivity | constructor]. Qed.

Lemma declaration_out l : l <> [] -> holdable_attributes l -> Forall (fun a => ~ In "?"%char (snd a)) l -> declaration_spelled l (lit "<?xml" ++ output_attributes l ++ lit "?>").
Proof.
  intros NE A Q. exists (output_attributes l), []. split; [exact (attributes_out l A) | ]. split.
  - destruct l as [ | [n v] l]; [congruence | ]. discriminate.
  - split; [constructor | ]. split; [ | reflexivity].
    rewrite app_nil_r. apply no_question_no_end. apply attributes_no_question; [exact A | exact Q].
Qed.

(** With a declaration. *)
Lemma saved_declared d l : holdable_declaration d -> holdable_document l -> document (d :: l) (save_document (d :: l)).
Proof.
  intros (a & -> & NE & A & Q) (T & n & at_ & kids & IN). split.
  - exists (XElement n at_ kids). split; [right; exact IN | reflexivity].
  - right. exists a, l, (lit "<?xml" ++ output_attributes a ++ lit "?>").
    unfold save_document. cbn [has_declaration app]. rewrite nodes_cons. cbn [fst snd node_output output_simple].
    change (output_indent IndentOnly 0) with (@nil ascii). cbn [app].
    eexists. split; [reflexivity | ]. split; [exact (declaration_out a NE A Q) | ].
    split; [exact (tops_out l T IndentBoth 0 _ (last_line_blanks (snd (nodes_output IndentBoth 0 l)))) | ].
    unfold last_line. rewrite <- !app_assoc. reflexivity.
Qed.

(** Without a declaration, the default one is added. *)
Definition default_declaration : xml := XDeclaration (lit "xml") [(lit "version", lit "1.0")] [].
Lemma saved_undeclared l : holdable_document l -> document (default_declaration :: l) (save_document l).
Proof.
  intros (T & n & at_ & kids & IN). split.
  - exists (XElement n at_ kids). split; [right; exact IN | reflexivity].
  - right. exists [(lit "version", lit "1.0")], l, (lit "<?xml" ++ output_attributes [(lit "version", lit "1.0")] ++ lit "?>").
    unfold save_document. rewrite (tops_no_declaration l T).
    exists (["010"%char] ++ fst (nodes_output IndentOnly 0 l) ++ last_line (snd (nodes_output IndentOnly 0 l))).
    split; [reflexivity | ]. split.
    + apply declaration_out; [discriminate | | ]; (constructor; [ | constructor]); cbn [fst snd]; [ | cbn; intuition discriminate].
      split; [apply is_name_iff; vm_compute; reflexivity | ]. apply characters_no_zero. cbn. intuition discriminate.
    + split.
      * assert (K := tops_out l T IndentOnly 0 _ (last_line_blanks (snd (nodes_output IndentOnly 0 l)))).
        clear - K. assert (B : blanks ["010"%char]) by (constructor; [right; right; left; reflexivity | constructor]).
        set (s := fst (nodes_output IndentOnly 0 l) ++ last_line (snd (nodes_output IndentOnly 0 l))) in *. clearbody s.
        destruct K as [w W | w x s l r B1 N X K | w s l r B1 NO CH K | w w1 v l r B1 NE B2 D NB K]; rewrite ?(app_assoc _ w).
        -- apply top_end. apply Forall_app. split; [exact B | exact W].
        -- apply top_node; try assumption. apply Forall_app. split; assumption.
        -- apply top_comment; try assumption. apply Forall_app. split; assumption.
        -- apply XmlGrammar.top_doctype; try assumption. apply Forall_app. split; assumption.
      * destruct (nodes_output IndentOnly 0 l) as [s fl]. reflexivity.
Qed.

Lemma saved_read_declared d l : holdable_declaration d -> holdable_document l ->
  parse_document (save_document (d :: l)) = Ok (d :: l).
Proof. intros D H. apply document_read. apply saved_declared; assumption. Qed.
Lemma saved_read_undeclared l : holdable_document l ->
  parse_document (save_document l) = Ok (XDeclaration (lit "xml") [(lit "version", lit "1.0")] [] :: l).
Proof. intros H. apply document_read. exact (saved_undeclared l H). Qed.
