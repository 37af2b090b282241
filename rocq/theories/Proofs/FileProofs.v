(** C68: a whole file, read and written again. *)
From Coq Require Import List String Ascii Bool ZArith QArith Permutation Lia.
From Verif Require Import Proofs.Tac Model.Base Model.Text Model.Strings Model.PugiText Model.XmlStream Model.Attributes Model.Documents Model.Files.
From Verif Require Import Spec.Numerals Spec.DecimalText Spec.XmlText Spec.XmlGrammar Spec.XmlTrees Spec.Instructions Spec.SchemaElementTexts Spec.AllowedDocuments Spec.WholeFiles.
From Verif Require Import Proofs.TextProofs Proofs.StringsProofs Proofs.PugiReads Proofs.StreamWrites Proofs.StreamReads Proofs.DocumentProofs.
Import ListNotations.
Local Open Scope nat_scope.
Local Open Scope list_scope.

(** * Elements as those of XmlStream *)

Definition pair_of (a : attribute) : str * str := (lit (fst a), lit (snd a)).
Fixpoint core_of (t : Documents.xml) : core_element :=
  let 'Xml n attrs text children := t in
  CoreElement (lit n) (map pair_of attrs) []
    (match children with [] => CoreText text | _ => CoreChildren (map core_of children) end).

(** No element has a text and children. *)
Inductive unmixed : Documents.xml -> Prop :=
| unmixed_element n attrs text children : text = [] \/ children = [] -> Forall unmixed children -> unmixed (Xml n attrs text children).

Lemma pairs_back l : map attribute_of (map pair_of l) = l.
Proof.
  rewrite map_map. rewrite <- (map_id l) at 2. apply map_ext. intros [n v]. unfold attribute_of, pair_of. cbn [fst snd].
  rewrite !unlit. reflexivity.
Qed.

Lemma xml_core t : unmixed t -> xml_of (core_of t) = t.
Proof.
  induction t as [n attrs text cs IH] using xml_induction. intros U. inversion U as [n' a' t' c' T C]; subst.
  destruct cs as [ | c cs].
  - cbn [core_of xml_of]. rewrite pairs_back, unlit. reflexivity.
  - cbn [core_of xml_of]. rewrite pairs_back, unlit. destruct T as [-> | T]; [ | discriminate T].
    f_equal. rewrite map_map. clear U. induction IH as [ | x l X F IHl]; [reflexivity | ].
    inversion C as [ | x' l' CX CL]; subst. cbn [map]. rewrite (X CX), (IHl CL). reflexivity.
Qed.

Lemma core_plain t : without_instructions (core_of t) = true.
Proof.
  induction t as [n attrs text cs IH] using xml_induction. cbn [core_of without_instructions].
  destruct cs as [ | c cs]; [reflexivity | ]. rewrite forallb_forall. intros e I. apply in_map_iff in I. destruct I as (x & <- & I).
  rewrite Forall_forall in IH. exact (IH x I).
Qed.

Lemma core_settled t : settled (core_of t) = core_of t.
Proof.
  induction t as [n attrs text cs IH] using xml_induction. cbn [core_of].
  destruct cs as [ | c cs]; [reflexivity | ]. cbn [settled map filter app]. f_equal. f_equal.
  rewrite map_map. inversion IH as [ | x l X F]; subst. rewrite X. f_equal.
  clear - F. induction F as [ | y l Y F IHl]; [reflexivity | ]. cbn [map]. rewrite Y, IHl. reflexivity.
Qed.

Lemma core_tree t : unmixed t -> tree_of (core_of t) = [element_tree t].
Proof.
  induction t as [n attrs text cs IH] using xml_induction. intros U. inversion U as [n' a' t' c' T C]; subst.
  destruct cs as [ | c cs].
  - cbn [core_of element_tree map app]. destruct text; reflexivity.
  - destruct T as [-> | T]; [ | discriminate T]. cbn [core_of element_tree app].
    cbn [tree_of]. cbn [map filter app]. f_equal. f_equal. clear U.
    change (flat_map tree_of (map core_of (c :: cs)) = map element_tree (c :: cs)).
    induction IH as [ | x l X F IHl]; [reflexivity | ].
    inversion C as [ | x' l' CX CL]; subst. cbn [map flat_map]. rewrite (X CX), (IHl CL). reflexivity.
Qed.

Lemma core_formed t : characters_fit t -> well_formed (core_of t).
Proof.
  induction t as [n attrs text cs IH] using xml_induction. intros U. inversion U as [n' a' t' c' N A T C]; subst.
  assert (PA : plain_attributes (map pair_of attrs)).
  { unfold plain_attributes. clear - A. induction A as [ | a l X F IHl]; constructor; [exact X | exact IHl]. }
  destruct cs as [ | c cs].
  - cbn [core_of]. repeat split; [exact N | exact PA | constructor | exact T].
  - cbn [core_of]. apply well_formed_children. repeat split; [exact N | exact PA | constructor | ].
    clear - IH C. induction IH as [ | x l X F IHl]; [constructor | ].
    inversion C as [ | x' l' CX CL]; subst. constructor; [exact (X CX) | exact (IHl CL)].
Qed.

(** * What is put out *)

Lemma chardata_escape w u : chardata w u -> w = escape u.
Proof.
  induction 1 as [ | c e t L G A C IH | e t C IH | e t C IH | e t C IH]; [reflexivity | | | | ];
    change (escape (?c :: ?t)) with (escape_char c ++ escape t); rewrite <- IH.
  - rewrite (escape_same c L G A). reflexivity.
  - reflexivity.
  - reflexivity.
  - reflexivity.
Qed.

(** [put w u]: the characters of [w] are put out for [u]. *)
Inductive put : Documents.xml -> Documents.xml -> Prop :=
| put_element n attrs attrs' text children children' :
    Forall2 (fun w a => fst w = fst a /\ lit (snd w) = escape (lit (snd a))) attrs' attrs -> Forall2 put children' children ->
    put (Xml n attrs' (escape text) children') (Xml n attrs text children).

Lemma put_attributes_stream attrs' attrs : Forall2 (fun w a : attribute => fst w = fst a /\ lit (snd w) = escape (lit (snd a))) attrs' attrs ->
  put_attributes attrs' = stream_attributes (map pair_of attrs).
Proof.
  induction 1 as [ | w a l' l [N V] F IH]; [reflexivity | ].
  unfold put_attributes, stream_attributes in *. cbn [flat_map map]. rewrite IH, N, V. unfold stream_attribute, pair_of. cbn [fst snd].
  change (lit "=""") with ["="%char; dquote]. change (lit """") with [dquote]. rewrite <- !app_assoc. reflexivity.
Qed.

Lemma put_stream t : forall w level, put w t -> unmixed t -> to_stream level (core_of t) = Ok (put_out level w).
Proof.
  induction t as [n attrs text cs IH] using xml_induction. intros w level P U.
  inversion U as [n' a' t' c' T C]; subst. inversion P as [n' a'' attrs' t'' c'' cs' A F]; subst.
  pose proof (put_attributes_stream _ _ A) as PA. cbn [core_of put_out]. rewrite to_stream_eq.
  destruct cs as [ | c cs].
  - inversion F; subst. cbn [contents obind fst]. unfold plain. cbn [fst].
    destruct (escape text) as [ | d r] eqn:E.
    + cbn [omap obind]. unfold self_close_text. rewrite PA, <- !app_assoc. reflexivity.
    + cbn [contents omap obind fst snd]. unfold open_text, close_text. rewrite E, PA, <- !app_assoc. reflexivity.
  - destruct T as [-> | T]; [ | discriminate T].
    assert (K : forall lv l l', Forall (fun t => forall w level, put w t -> unmixed t -> to_stream level (core_of t) = Ok (put_out level w)) l ->
              Forall unmixed l -> Forall2 put l' l -> kids_stream lv (map core_of l) = Ok (flat_map (fun c => ["010"%char] ++ put_out (S lv) c) l')).
    { clear. intros lv l l' IH U F. induction F as [ | w t l' l P F IHl]; [reflexivity | ].
      inversion IH as [ | t' m' X Y]; subst. inversion U as [ | t' m' UX UY]; subst.
      cbn [map kids_stream flat_map]. rewrite (X w (S lv) P UX), (IHl Y UY). cbn [obind]. rewrite <- app_assoc. reflexivity. }
    pose proof (fun lv => K lv _ _ IH C F) as KK. clear K IH.
    assert (CC : forall lv, contents lv (CoreChildren (map core_of (c :: cs))) = Ok (flat_map (fun c => ["010"%char] ++ put_out (S lv) c) cs' ++ ["010"%char], false)).
    { intros lv. cbn [contents]. specialize (KK lv). cbn [map] in *. rewrite KK. reflexivity. }
    rewrite CC. cbn [obind]. unfold plain. rewrite CC. inversion F as [ | w t l' l PW FW]; subst.
    cbn [fst]. cbn [flat_map app]. cbn [omap obind fst snd]. unfold open_text, close_text. rewrite PA, <- !app_assoc.
    cbn [app]. rewrite <- !app_assoc. reflexivity.
Qed.

(** * Texts that say the same *)

Definition visible (c : ascii) : Prop := (33 <= code c <= 126)%Z.
Lemma visible_text t : t <> [] -> Forall visible t -> holdable_text t.
Proof.
  intros NE F. assert (X : forall c, In c t -> visible c) by (rewrite Forall_forall in F; exact F). split; [ | split].
  - apply Forall_forall. intros c I E. specialize (X c I). subst c. unfold visible in X. cbn in X. lia.
  - intros I. specialize (X _ I). unfold visible in X. cbn in X. lia.
  - intros B. destruct t as [ | c t]; [congruence | ]. inversion B as [ | c' t' BC BT]; subst. specialize (X c (or_introl eq_refl)).
    unfold visible in X. destruct BC as [-> | [-> | [-> | ->]]]; cbn in X; lia.
Qed.
Lemma tail_visible t n : numeral_tail t n -> Forall visible t.
Proof.
  induction 1 as [ | c d r n D T IH]; [constructor | ]. constructor; [ | exact IH].
  unfold digit_is in D. cbn [In] in D. unfold visible. decompose [or] D; try contradiction;
    match goal with E : (_, _) = (c, d) |- _ => injection E as <- _; cbn; lia end.
Qed.
Lemma canonical_fits u n : canonical_int u n -> holdable_text u.
Proof.
  intros (ds & m & (NE & T) & _ & [[-> _] | (-> & _)]); apply visible_text; try discriminate; try exact NE.
  - exact (tail_visible _ _ T).
  - constructor; [unfold visible; cbn; lia | exact (tail_visible _ _ T)].
Qed.
Lemma decimal_fits u x : plain_decimal u x -> holdable_text u.
Proof.
  intros (sign & ip & n & (NE & T) & H). pose proof (tail_visible _ _ T) as V.
  assert (S : forall s : str, s = [] \/ s = ["-"%char] -> Forall visible s).
  { intros s [-> | ->]; repeat constructor; unfold visible; cbn; lia. }
  destruct H as [(q & -> & _ & H) | (fp & m & q & -> & (NF & TF) & _ & H)]; (assert (SG : Forall visible sign) by (apply S; destruct H as [[-> _] | [-> _]]; auto)).
  - apply visible_text; [intros E; apply app_eq_nil in E; tauto | apply Forall_app; auto].
  - apply visible_text; [intros E; apply app_eq_nil in E; destruct E as [_ E]; apply app_eq_nil in E; tauto | ].
    apply Forall_app. split; [exact SG | ]. apply Forall_app. split; [exact V | ]. constructor; [unfold visible; cbn; lia | exact (tail_visible _ _ TF)].
Qed.
Lemma int_text_some n : ~ int_text [] n.
Proof.
  intros (w1 & sign & ds & w2 & m & E & _ & _ & (NE & _) & _).
  destruct w1; [ | discriminate E]. destruct sign; [ | discriminate E]. destruct ds; [ | discriminate E]. congruence.
Qed.
Lemma decimal_text_some x : ~ decimal_text [] x.
Proof.
  intros (w1 & sign & ip & fp & point & w2 & m & q & E & _ & _ & _ & (NE & _) & _).
  destruct w1; [ | discriminate E]. destruct sign; [ | discriminate E]. destruct ip; [ | discriminate E].
  destruct point; [ | discriminate E]. destruct fp; [ | discriminate E]. apply NE. reflexivity.
Qed.

Lemma says_fits k t u : says k t u -> t = [] \/ holdable_text t -> u = [] \/ holdable_text u.
Proof.
  intros S T. destruct k as [ | texts | lo hi | lo hi | | ]; cbn [says] in S.
  - subst u. exact T.
  - subst u. exact T.
  - destruct S as (n & _ & C). right. exact (canonical_fits _ _ C).
  - destruct S as (x & _ & D & _). right. exact (decimal_fits _ _ D).
  - destruct S as [[_ ->] | (n & _ & C)]; [left; reflexivity | right; exact (canonical_fits _ _ C)].
  - subst u. exact T.
Qed.
Lemma says_nothing k u : says k [] u -> u = [].
Proof.
  intros S. destruct k as [ | texts | lo hi | lo hi | | ]; cbn [says] in S; try exact S.
  - destruct S as (n & X & _). destruct (int_text_some _ X).
  - destruct S as (x & X & _). destruct (decimal_text_some _ X).
  - destruct S as [[_ ->] | (n & X & _)]; [reflexivity | destruct (int_text_some _ X)].
Qed.

(** * A document that has been written *)

Lemma attributes_put attrs' order : Forall2 attribute_written attrs' order ->
  Forall2 (fun w a => fst w = fst a /\ lit (snd w) = escape (lit (snd a))) attrs' order.
Proof. induction 1 as [ | w a l' l (N & C & _) F IH]; constructor; [ | exact IH]. split; [exact N | exact (chardata_escape _ _ C)]. Qed.

Lemma written_put t : forall w, document_written w t -> characters_fit t -> unmixed t ->
  exists u, put w u /\ characters_fit u /\ unmixed u /\ same_document u t.
Proof.
  induction t as [n attrs text cs IH] using xml_induction. intros w W CF U.
  inversion W as [n' attrs0 attrs' order text0 text' cs0 cs' PM AW (x & CD & SX) F]; subst.
  inversion CF as [n' a' t' c' N A T C]; subst. inversion U as [n' a' t' c' UT UC]; subst.
  assert (K : exists us, Forall2 put cs' us /\ Forall characters_fit us /\ Forall unmixed us /\ Forall2 same_document us cs).
  { clear - IH F C UC. induction F as [ | w t l' l P F IHl]; [exists []; repeat split; constructor | ].
    inversion IH as [ | t' m' X Y]; subst. inversion C as [ | t' m' CX CY]; subst. inversion UC as [ | t' m' UX UY]; subst.
    destruct (X w P CX UX) as (u & U1 & U2 & U3 & U4). destruct (IHl Y CY UY) as (us & V1 & V2 & V3 & V4).
    exists (u :: us). repeat split; constructor; assumption. }
  destruct K as (us & K1 & K2 & K3 & K4).
  assert (XF : x = [] \/ holdable_text x).
  { destruct SX as [-> | (k & _ & S)]; [exact T | exact (says_fits k _ _ S T)]. }
  exists (Xml n order x us). split; [ | split; [ | split]].
  - rewrite (chardata_escape _ _ CD). constructor; [exact (attributes_put _ _ AW) | exact K1].
  - constructor; [exact N | | exact XF | exact K2].
    rewrite Forall_forall in *. intros a I. apply A. apply (Permutation_in a PM I).
  - constructor; [ | exact K3]. destruct UT as [-> | ->].
    + left. destruct SX as [E | (k & _ & S)]; [exact E | exact (says_nothing k _ S)].
    + right. inversion K4. reflexivity.
  - constructor; [exact PM | exact SX | exact K4].
Qed.

(** * Files *)

Lemma allowed_unmixed takes kept timewise t : allowed takes kept timewise t -> unmixed t.
Proof.
  induction t as [n attrs text cs IH] using xml_induction. intros H.
  assert (K : Forall (allowed takes kept timewise) cs -> Forall unmixed cs).
  { intros F. rewrite Forall_forall in *. intros x I. exact (IH x I (F x I)). }
  inversion H; subst; constructor; auto.
  match goal with D : Forall (dynamic_mark kept) _ |- _ => clear - D; induction D as [ | x l X F IHl]; constructor; [ | exact IHl] end.
  destruct x as [m a x c]. destruct X as (_ & -> & _). constructor; auto.
Qed.

Lemma root_of t text c : characters_fit t -> unmixed t -> lit (Documents.xml_name t) = choice_name c -> file_spelled t text ->
  read_stream text = Ok (c, core_of t).
Proof.
  intros CF U N (d & dt & D & HD & HT).
  destruct (read_back (core_of t) (core_formed t CF) [] I) as (x & q & T & X & R).
  rewrite (core_tree t U) in T. injection T as TX TQ. destruct q; [ | discriminate TQ]. rewrite <- TX in *. cbn [map app] in R. clear TX TQ.
  assert (L : exists y, load_stream text = Ok (XDeclaration (lit "xml") y [] :: dt ++ [element_tree t])).
  { destruct HD as [-> | (l & -> & (v & NV & [-> | (enc & r & ->)]))].
    - eexists. cbn [app] in D. apply (load_undeclared _ _ D). intros n a k r E. destruct HT as [-> | (v & ->)]; [ | discriminate E].
      cbn [app] in E. destruct t. discriminate E.
    - eexists. exact (load_version_only v _ _ NV D).
    - eexists. exact (load_declared v enc r _ _ NV D). }
  destruct L as (y & L). unfold read_stream. rewrite L. cbn [obind get_root].
  assert (G : get_root (dt ++ [element_tree t]) = Some (element_tree t, [])).
  { destruct HT as [-> | (v & ->)]; cbn [app get_root]; destruct t; reflexivity. }
  rewrite G. rewrite (core_settled t) in R. destruct t as [n attrs tx cs]. cbn [element_tree Documents.xml_name] in *.
  rewrite N in *. destruct c; rewrite R; reflexivity.
Qed.

Lemma file_back takes initial t text : allowed_document takes true t -> characters_fit t -> file_spelled t text ->
  exists c text' t', lit (Documents.xml_name t) = choice_name c /\ rewrite_file takes initial text = Some (Ok text') /\
    file_written c t' text' /\ same_document t' t.
Proof.
  intros A CF F.
  assert (U : unmixed t) by (destruct A as [[_ A] | [_ A]]; exact (allowed_unmixed _ _ _ _ A)).
  assert (N : exists c, lit (Documents.xml_name t) = choice_name c) by (destruct A as [[-> _] | [-> _]]; [exists Partwise | exists Timewise]; reflexivity).
  destruct N as (c & N). destruct (document_back takes initial t A) as (w & R & W).
  destruct (written_put t w W CF U) as (u & P & UF & UU & S).
  exists c. destruct (write_document c (core_of u) (core_formed u UF)) as (text' & E & D).
  exists text', u. split; [exact N | ]. split; [ | split; [ | exact S]].
  - unfold rewrite_file. rewrite (root_of t text c CF U N F), core_plain, (xml_core t U), R. f_equal. rewrite <- E.
    unfold write_stream, to_xdoc, document_stream. rewrite (put_stream u w 0 P UU). reflexivity.
  - unfold document_tree in D. rewrite (core_tree u UU) in D. exact D.
Qed.
