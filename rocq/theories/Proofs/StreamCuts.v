(** Written documents that have been cut, sections, and declarations of other forms. *)
From Coq Require Import List Ascii String ZArith Bool Lia.
From Verif Require Import Proofs.Tac Model.Base Model.Text Model.Strings Model.PugiText Model.XmlStream Spec.XmlText Spec.XmlGrammar Spec.XmlCuts Spec.XmlTrees Spec.Instructions.
From Verif Require Import Proofs.TextProofs Proofs.StringsProofs Proofs.PugiProofs Proofs.PugiReads Proofs.PugiWrites Proofs.StreamReads Proofs.PugiCuts.
Import ListNotations.
Open Scope nat_scope.
Open Scope list_scope.

Lemma read_by_parse a b : parse_document a = parse_document b -> read_stream a = read_stream b.
Proof. intros E. unfold read_stream, load_stream. rewrite E. reflexivity. Qed.
Lemma read_throw a : parse_document a = Throw -> read_stream a = Throw.
Proof. intros E. unfold read_stream, load_stream. rewrite E. reflexivity. Qed.

Lemma tree_single n l body : exists kids, tree_of (CoreElement n l [] body) = [XElement n l kids].
Proof. destruct body as [[ | c t] | [ | k m]]; eexists; reflexivity. Qed.

Lemma written_cut c n l body t a b : well_formed (CoreElement n l [] body) -> n = choice_name c ->
  write_stream c (CoreElement n l [] body) = Ok t -> t = a ++ b ->
  read_stream a = Throw \/ read_stream a = Ok (c, settled (CoreElement n l [] body)).
Proof.
  intros WF EN W E. destruct (write_document c _ WF) as (t' & W' & D). assert (T : t' = t) by congruence. subst t'.
  destruct (cut_anywhere _ _ a b D E) as [P | (l1 & l2 & L & (x & IX & X) & P)]; [left; apply read_throw; exact P | right].
  rewrite <- (root_read c _ t WF EN D). apply read_by_parse. rewrite P, (document_read _ _ D). f_equal.
  destruct (tree_single n l body) as (kids & TS). unfold document_tree in *. rewrite TS in *.
  destruct l1 as [ | x1 l1]; [destruct IX | ]. cbn [app] in L. injection L as <- L.
  destruct l1 as [ | x2 l1]; [destruct IX as [<- | []]; discriminate X | ]. cbn [app] in L. injection L as <- L.
  destruct l1 as [ | x3 l1]; [destruct IX as [<- | [<- | []]]; discriminate X | ]. cbn [app] in L. injection L as <- L.
  symmetry in L. apply app_eq_nil in L. destruct L as [-> _]. reflexivity.
Qed.

(** * Sections *)

Definition section (p : str) : str := lit "<![CDATA[" ++ p ++ lit "]]>".

Lemma sections_out f : forall t, List.length t < f ->
  exists ps, text_output_cdata f t = flat_map section ps /\ List.concat ps = t /\ Forall (fun p => ~ occurs (lit "]]>") p) ps.
Proof.
  induction f as [ | f IH]; intros t L; [lia | ]. cbn [text_output_cdata].
  destruct (scan_for (lit "]]>") t) as [[p r] | ] eqn:S.
  - pose proof (scan_for_some _ _ _ _ S) as E.
    destruct (IH (">"%char :: r)) as (ps & O & C & F).
    { rewrite E, !app_length in L. cbn [List.length lit list_ascii_of_string] in *. lia. }
    exists ((p ++ lit "]]") :: ps). split; [ | split].
    + cbn [flat_map]. unfold section. rewrite O, <- !app_assoc. reflexivity.
    + cbn [List.concat]. rewrite C, E. rewrite <- app_assoc. reflexivity.
    + constructor; [ | exact F]. intros OC. apply occurs_scan in OC. destruct OC as (x & y & K).
      apply (scan_for_more _ _ _ _ (">"%char :: r)) in K.
      replace ((p ++ lit "]]") ++ ">"%char :: r) with t in K by (rewrite E, <- app_assoc; reflexivity).
      rewrite S in K. injection K as _ K. apply (f_equal (@List.length ascii)) in K. rewrite app_length in K. cbn [List.length] in K. lia.
  - exists [t]. split; [cbn [flat_map]; unfold section; rewrite app_nil_r; reflexivity | split; [apply app_nil_r | ]].
    constructor; [ | constructor]. intros OC. apply occurs_scan in OC. destruct OC as (x & y & K). congruence.
Qed.

Lemma sections_content ps : Forall (fun p => ~ occurs (lit "]]>") p) ps -> Forall (fun p => Forall character p /\ ~ In "013"%char p) ps ->
  content_spelled (map XCData ps) (flat_map section ps).
Proof.
  intros F G. induction F as [ | p ps NO F IH]; [apply XmlGrammar.content_end; constructor | ].
  inversion G as [ | ? ? [CH NC] G']; subst. cbn [map flat_map].
  apply (XmlGrammar.content_node [] (XCData p) (section p)); [constructor | | exact (IH G')].
  rewrite <- (line_ends_same p NC) at 1. apply node_cdata; assumption.
Qed.

Lemma cdata_written t : Forall character t -> ~ In "013"%char t -> exists ps,
  List.concat ps = t /\ content_spelled (map XCData ps) (output_simple (XCData t)).
Proof.
  intros CH NC. destruct (sections_out (S (List.length t)) t) as (ps & O & C & F); [lia | ].
  exists ps. split; [exact C | ]. cbn [output_simple]. rewrite O. apply sections_content; [exact F | ].
  apply Forall_forall. intros p I. rewrite <- C in CH, NC. split.
  - apply Forall_forall. intros c IC. rewrite Forall_forall in CH. apply CH. apply in_concat. eauto.
  - intros IC. apply NC. apply in_concat. eauto.
Qed.

(** The first text counts. *)
Lemma first_text c a pre x t post l text : document (XElement (choice_name c) a (pre ++ x :: post) :: l) text ->
  Forall no_text pre -> x = XText t \/ x = XCData t -> t <> [] ->
  read_stream text = Ok (c, CoreElement (choice_name c) a (following_instructions l) (CoreText t)).
Proof.
  intros D F X NE. unfold read_stream. rewrite (load_undeclared _ _ D) by discriminate. cbn [obind get_root].
  assert (T : text_of (pre ++ x :: post) = t).
  { clear D. induction F as [ | y pre Y F IH]; [destruct X as [-> | ->]; reflexivity | ].
    destruct y; try destruct Y; exact IH. }
  assert (R : read_element (XElement (choice_name c) a (pre ++ x :: post)) l = Ok (CoreElement (choice_name c) a (following_instructions l) (CoreText t))).
  { rewrite read_element_eq. unfold type_of. rewrite T. destruct t; [contradiction NE; reflexivity | reflexivity]. }
  rewrite R. destruct c; reflexivity.
Qed.

(** * Declarations *)

Lemma load_empty_version enc r l text :
  document (XDeclaration (lit "xml") ((lit "version", []) :: (lit "encoding", enc) :: r) [] :: l) text ->
  load_stream text = Ok (XDeclaration (lit "xml") ((lit "version", lit "1.0") :: (lit "encoding", lit "UTF-8") :: r) [] :: l).
Proof. intros D. unfold load_stream. rewrite (document_read _ _ D). reflexivity. Qed.

Lemma code_lower c : (65 <= code c <= 90 -> code (lower c) = code c + 32)%Z /\ (~ (65 <= code c <= 90) -> lower c = c)%Z.
Proof.
  unfold lower. split; intros H.
  - rewrite (proj2 (Z.leb_le 65 (code c))), (proj2 (Z.leb_le (code c) 90)) by lia. cbn [andb]. apply code_chr. lia.
  - destruct (65 <=? code c)%Z eqn:A; [ | reflexivity]. destruct (code c <=? 90)%Z eqn:B; [ | reflexivity]. apply Z.leb_le in A, B. lia.
Qed.

Lemma lower_alike a b : lower a = lower b <-> alike a b.
Proof.
  destruct (code_lower a) as [A1 A2], (code_lower b) as [B1 B2].
  assert (DA : (65 <= code a <= 90 \/ ~ (65 <= code a <= 90))%Z) by lia.
  assert (DB : (65 <= code b <= 90 \/ ~ (65 <= code b <= 90))%Z) by lia.
  unfold alike. split.
  - intros E. destruct DA as [DA | DA], DB as [DB | DB].
    + left. apply code_inj. apply (f_equal code) in E. rewrite A1, B1 in E by assumption. lia.
    + right. exists (code a). split; [exact DA | ]. left. split; [reflexivity | ]. rewrite <- (A1 DA), E, (B2 DB). reflexivity.
    + right. exists (code b). split; [exact DB | ]. right. split; [reflexivity | ]. rewrite <- (B1 DB), <- E, (A2 DA). reflexivity.
    + left. rewrite (A2 DA), (B2 DB) in E. exact E.
  - intros [-> | (k & K & [[KA KB] | [KB KA]])]; [reflexivity | | ]; apply code_inj.
    + rewrite (A1 ltac:(lia)). rewrite (B2 ltac:(lia)). lia.
    + rewrite (B1 ltac:(lia)). rewrite (A2 ltac:(lia)). lia.
Qed.

Lemma same_name_alike a : forall b, same_name a b = true <-> Forall2 alike a b.
Proof.
  unfold same_name. intros b. rewrite str_eqb_eq. revert b. induction a as [ | x a IH]; intros [ | y b]; cbn [map].
  - split; [constructor | reflexivity].
  - split; [discriminate | intros H; inversion H].
  - split; [discriminate | intros H; inversion H].
  - split.
    + intros E. injection E as E1 E2. constructor; [apply lower_alike; exact E1 | apply IH; exact E2].
    + intros H. inversion H; subst. f_equal; [apply lower_alike; assumption | apply IH; assumption].
Qed.

(** An encoding that is not spelled in small letters is not found. *)
Lemma load_other_case v n enc r l text : v <> [] -> Forall2 alike (lit "encoding") n -> n <> lit "encoding" ->
  Forall (fun a => fst a <> lit "encoding") r ->
  document (XDeclaration (lit "xml") ((lit "version", v) :: (n, enc) :: r) [] :: l) text -> load_stream text = Throw.
Proof.
  intros NV AL NE F D. unfold load_stream. rewrite (document_read _ _ D). cbn [obind].
  apply same_name_alike in AL. 
  assert (CA : complete_attributes ((lit "version", v) :: (n, enc) :: r) = (lit "version", v) :: (n, enc) :: r).
  { transitivity (if same_name (lit "encoding") n then (lit "version", v) :: (n, enc) :: r
                  else (lit "version", v) :: (lit "encoding", lit "UTF-8") :: (n, enc) :: r); [reflexivity | rewrite AL; reflexivity]. }
  rewrite CA.
  destruct v as [ | c v]; [congruence | ]. unfold settle_attributes.
  replace (find_attribute (lit "version") ((lit "version", c :: v) :: (n, enc) :: r)) with (Some (c :: v)) by reflexivity.
  assert (FN : find_attribute (lit "encoding") ((lit "version", c :: v) :: (n, enc) :: r) = None).
  { unfold find_attribute. change (find (fun a => str_eqb (fst a) (lit "encoding")) ((lit "version", c :: v) :: (n, enc) :: r))
      with (find (fun a : str * str => str_eqb (fst a) (lit "encoding")) ((n, enc) :: r)).
    assert (K : find (fun a : str * str => str_eqb (fst a) (lit "encoding")) ((n, enc) :: r) = None); [ | rewrite K; reflexivity].
    assert (G : Forall (fun a => fst a <> lit "encoding") ((n, enc) :: r)) by (constructor; assumption).
    clear D CA. induction G as [ | [xn xv] m X G IH]; [reflexivity | ]. cbn [find fst] in *.
    destruct (str_eqb xn (lit "encoding")) eqn:E; [apply str_eqb_eq in E; contradiction | exact IH]. }
  rewrite FN. reflexivity.
Qed.

(** The document type that is set replaces one that is there. *)
Lemma doctype_set v d a k w r : set_doctype v (XDeclaration d a k :: XDoctype w :: r) = Ok (XDeclaration d a k :: XDoctype v :: r).
Proof. reflexivity. Qed.

Lemma made n d b : make_instruction n d b = mkInstruction (given_name n) d b.
Proof. destruct n; reflexivity. Qed.
