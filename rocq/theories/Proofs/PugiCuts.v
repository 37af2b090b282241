(** A text that ends too early is refused. *)
From Coq Require Import List Ascii String ZArith Bool Lia.
From Verif Require Import Proofs.Tac Model.Base Model.Text Model.Strings Model.PugiText Spec.Numerals Spec.XmlText Spec.XmlGrammar Spec.XmlCuts.
From Verif Require Import Proofs.TextProofs Proofs.StringsProofs Proofs.PugiProofs Proofs.PugiReads.
Import ListNotations.
Open Scope nat_scope.
Open Scope list_scope.

(** * Proper prefixes *)

Definition cut (a s : str) : Prop := exists b, b <> [] /\ s = a ++ b.

Lemma cut_app a x y : cut a (x ++ y) -> cut a x \/ exists a', a = x ++ a' /\ cut a' y.
Proof.
  revert a. induction x as [ | c x IH]; intros a (b & NB & E).
  - right. exists a. split; [reflexivity | exists b; auto].
  - destruct a as [ | d a]; [left; exists (c :: x); split; [discriminate | reflexivity] | ].
    cbn [app] in E. injection E as -> E.
    destruct (IH a) as [(b' & NB' & ->) | (a' & -> & C)]; [exists b; auto | | ].
    + left. exists b'. auto.
    + right. exists a'. auto.
Qed.
Lemma cut_nil a : ~ cut a [].
Proof. intros (b & NB & E). symmetry in E. apply app_eq_nil in E. destruct E as [_ E]. exact (NB E). Qed.
Lemma cut_cons a c s : cut a (c :: s) -> a = [] \/ exists a', a = c :: a' /\ cut a' s.
Proof.
  intros H. destruct (cut_app a [c] s H) as [(b & NB & E) | (a' & -> & C)].
  - left. destruct a as [ | d a]; [reflexivity | ]. injection E as _ E. symmetry in E. apply app_eq_nil in E. destruct E as [_ E]. contradiction (NB E).
  - right. exists a'. auto.
Qed.
Lemma cut_forall (P : ascii -> Prop) a s : Forall P s -> cut a s -> Forall P a.
Proof. intros F (b & _ & ->). apply Forall_app in F. tauto. Qed.
Lemma cut_in c a s : ~ In c s -> cut a s -> ~ In c a.
Proof. intros F (b & _ & ->) I. apply F. apply in_or_app. left. exact I. Qed.

(** * Suffixes *)

Definition tail_of (r s : str) : Prop := exists k, s = k ++ r.
Lemma tail_refl s : tail_of s s. Proof. exists []. reflexivity. Qed.
Lemma tail_cons r c s : tail_of r s -> tail_of r (c :: s).
Proof. intros (k & ->). exists (c :: k). reflexivity. Qed.
Lemma tail_trans a b c : tail_of a b -> tail_of b c -> tail_of a c.
Proof. intros (k & ->) (k' & ->). exists (k' ++ k). rewrite app_assoc. reflexivity. Qed.
Lemma tail_in a b c : tail_of a b -> In c a -> In c b.
Proof. intros (k & ->) I. apply in_or_app. right. exact I. Qed.

Lemma entity_tail name : forall seen s,
  match entity seen name s with inl r => tail_of r s | inr (_, r) => tail_of r s end.
Proof.
  induction name as [ | a n IH]; intros seen s; cbn [entity]; [apply tail_refl | ].
  destruct s as [ | c r]; [apply tail_refl | ]. destruct (Ascii.eqb a c); [ | apply tail_refl].
  specialize (IH (seen ++ [c]) r). destruct (entity (seen ++ [c]) n r) as [q | [p q]]; apply tail_cons; exact IH.
Qed.

Lemma char_reference_tail base digit s : forall seen u,
  match char_reference base digit seen u s with inl (_, r) => tail_of r s | inr (_, r) => tail_of r s end.
Proof.
  induction s as [ | c r IH]; intros seen u; cbn [char_reference]; [apply tail_refl | ].
  destruct (digit c) as [d | ].
  - match goal with |- context [char_reference base digit ?a ?b r] => specialize (IH a b); destruct (char_reference base digit a b r) as [[x y] | [x y]] end; apply tail_cons; exact IH.
  - destruct (Ascii.eqb c ";"); [apply tail_cons | ]; apply tail_refl.
Qed.

Lemma escape_tail s : tail_of (snd (strconv_escape s)) s.
Proof.
  destruct s as [ | c0 s]; [apply tail_refl | ].
  assert (G : forall x name z q, tail_of (snd (escaped (entity x name q) z)) q).
  { intros x name z q. pose proof (entity_tail name x q) as H. destruct (entity x name q) as [r | [p r]]; exact H. }
  assert (N : forall base digit x q, tail_of (snd (numbered_escape (char_reference base digit x 0 q))) q).
  { intros base digit x q. pose proof (char_reference_tail base digit q x 0%Z) as H.
    destruct (char_reference base digit x 0 q) as [[u r] | [u r]]; exact H. }
  destruct (ascii_dec c0 "#") as [-> | N1].
  - destruct s as [ | c1 s]; [exists ["#"%char]; reflexivity | ].
    destruct (ascii_dec c1 "x") as [-> | NX].
    + destruct s as [ | c2 s]; [exists ["#"%char; "x"%char]; reflexivity | ].
      destruct (ascii_dec c2 ";") as [-> | NS]; [exists ["#"%char; "x"%char]; reflexivity | ].
      replace (strconv_escape ("#"%char :: "x"%char :: c2 :: s)) with (numbered_escape (char_reference 16 hex_digit (lit "&#x") 0 (c2 :: s))).
      * do 2 apply tail_cons. apply N.
      * destruct c2 as [[] [] [] [] [] [] [] []]; try reflexivity; exfalso; apply NS; reflexivity.
    + destruct (ascii_dec c1 ";") as [-> | NS]; [exists ["#"%char]; reflexivity | ].
      replace (strconv_escape ("#"%char :: c1 :: s)) with (numbered_escape (char_reference 10 dec_digit (lit "&#") 0 (c1 :: s))).
      * apply tail_cons. apply N.
      * destruct c1 as [[] [] [] [] [] [] [] []]; try reflexivity; exfalso; (apply NS; reflexivity) || (apply NX; reflexivity).
  - destruct (ascii_dec c0 "a") as [-> | NA].
    + destruct s as [ | c1 s]; [exists ["a"%char]; reflexivity | ].
      destruct (ascii_dec c1 "m") as [-> | NM].
      * change (strconv_escape ("a"%char :: "m"%char :: s)) with (escaped (entity (lit "&am") (lit "p;") s) "&"). do 2 apply tail_cons. apply G.
      * destruct (ascii_dec c1 "p") as [-> | NP].
        -- change (strconv_escape ("a"%char :: "p"%char :: s)) with (escaped (entity (lit "&ap") (lit "os;") s) "'"). do 2 apply tail_cons. apply G.
        -- replace (strconv_escape ("a"%char :: c1 :: s)) with (lit "&a", c1 :: s); [exists ["a"%char]; reflexivity | ].
           destruct c1 as [[] [] [] [] [] [] [] []]; try reflexivity; exfalso; (apply NM; reflexivity) || (apply NP; reflexivity).
    + destruct (ascii_dec c0 "g") as [-> | NG].
      * change (strconv_escape ("g"%char :: s)) with (escaped (entity (lit "&g") (lit "t;") s) ">"). apply tail_cons. apply G.
      * destruct (ascii_dec c0 "l") as [-> | NL].
        -- change (strconv_escape ("l"%char :: s)) with (escaped (entity (lit "&l") (lit "t;") s) "<"). apply tail_cons. apply G.
        -- destruct (ascii_dec c0 "q") as [-> | NQ].
           ++ change (strconv_escape ("q"%char :: s)) with (escaped (entity (lit "&q") (lit "uot;") s) "034"). apply tail_cons. apply G.
           ++ replace (strconv_escape (c0 :: s)) with (lit "&", c0 :: s); [apply tail_refl | ].
              destruct c0 as [[] [] [] [] [] [] [] []]; try reflexivity; exfalso;
                (apply N1; reflexivity) || (apply NA; reflexivity) || (apply NG; reflexivity) || (apply NL; reflexivity) || (apply NQ; reflexivity).
Qed.

Lemma drop_lf_tail r : tail_of (drop_lf r) r.
Proof. destruct r as [ | c r]; [apply tail_refl | ]. destruct c as [[] [] [] [] [] [] [] []]; try apply tail_refl. apply tail_cons, tail_refl. Qed.

(** A value is only found if its quote is there. *)
Lemma attribute_quote f quote : forall s v r, strconv_attribute f quote s = Some (v, r) -> In quote s.
Proof.
  induction f as [ | f IH]; intros s v r E; [destruct s; discriminate E | ].
  destruct s as [ | c s]; [discriminate E | ]. cbn [strconv_attribute] in E.
  destruct (Ascii.eqb_spec c quote) as [-> | _]; [left; reflexivity | ]. right.
  destruct (is_chartype c ct_space).
  - match type of E with option_map _ (strconv_attribute f quote ?x) = _ => assert (L : tail_of x s) end.
    { destruct (Ascii.eqb c "013"); [apply drop_lf_tail | apply tail_refl]. }
    match type of E with option_map _ ?x = _ => destruct x as [[v' r'] | ] eqn:K; [ | discriminate E] end.
    apply IH in K. exact (tail_in _ _ _ L K).
  - destruct (Ascii.eqb c "&").
    + pose proof (escape_tail s) as L. destruct (strconv_escape s) as [e r'].
      destruct (strconv_attribute f quote r') as [[v' r''] | ] eqn:K; [ | discriminate E].
      apply IH in K. exact (tail_in _ _ _ L K).
    + destruct (strconv_attribute f quote s) as [[v' r''] | ] eqn:K; [ | discriminate E]. exact (IH _ _ _ K).
Qed.

Lemma attribute_none f quote s : ~ In quote s -> strconv_attribute f quote s = None.
Proof. intros N. destruct (strconv_attribute f quote s) as [[v r] | ] eqn:E; [ | reflexivity]. contradiction (N (attribute_quote _ _ _ _ _ E)). Qed.

(** A section is only found if its end is there. *)
Lemma cdata_end f : forall s v r, strconv_cdata f s = Some (v, r) -> occurs (lit "]]>") s.
Proof.
  assert (T : forall x s, tail_of x s -> occurs (lit "]]>") x -> occurs (lit "]]>") s).
  { intros x s (k & ->) (a & b & ->). exists (k ++ a), b. rewrite <- app_assoc. reflexivity. }
  induction f as [ | f IH]; intros s v r E; [destruct s; discriminate E | ].
  destruct s as [ | c s]; [discriminate E | ]. cbn [strconv_cdata] in E.
  destruct (Ascii.eqb c "013").
  - fold (drop_lf s) in E.
    destruct (strconv_cdata f (drop_lf s)) as [[v' r'] | ] eqn:K; [ | discriminate E].
    apply IH in K. apply (T (drop_lf s)); [apply tail_cons, drop_lf_tail | exact K].
  - destruct (after_prefix (lit "]]>") (c :: s)) as [r' | ] eqn:A.
    + apply after_prefix_some in A. exists [], r'. exact A.
    + destruct (strconv_cdata f s) as [[v' r'] | ] eqn:K; [ | discriminate E].
      apply IH in K. apply (T s); [apply tail_cons, tail_refl | exact K].
Qed.

(** Text is read up to a '<' or to the end. *)
Lemma pcdata_all f : forall s, List.length s <= f -> ~ In "<"%char s -> snd (strconv_pcdata f s) = [].
Proof.
  induction f as [ | f IH]; intros s L NL; [destruct s; [reflexivity | cbn in L; lia] | ].
  destruct s as [ | c r]; [reflexivity | ]. cbn [strconv_pcdata List.length] in *.
  destruct (Ascii.eqb_spec c "<") as [-> | _]; [contradiction NL; left; reflexivity | ].
  destruct (Ascii.eqb c "013").
  - fold (drop_lf r). pose proof (drop_lf_le r) as LE.
    assert (K : snd (strconv_pcdata f (drop_lf r)) = []).
    { apply IH; [lia | ]. intros I. apply NL. right. exact (tail_in _ _ _ (drop_lf_tail r) I). }
    destruct (strconv_pcdata f (drop_lf r)). exact K.
  - destruct (Ascii.eqb c "&").
    + pose proof (escape_le r) as LE. pose proof (escape_tail r) as TL. destruct (strconv_escape r) as [e r']. cbn [snd] in *.
      assert (K : snd (strconv_pcdata f r') = []).
      { apply IH; [lia | ]. intros I. apply NL. right. exact (tail_in _ _ _ TL I). }
      destruct (strconv_pcdata f r'). exact K.
    + assert (K : snd (strconv_pcdata f r) = []) by (apply IH; [lia | intros I; apply NL; right; exact I]).
      destruct (strconv_pcdata f r). exact K.
Qed.

(** * Marks that have been cut *)

Lemma after_prefix_more p s r b : after_prefix p s = Some r -> after_prefix p (s ++ b) = Some (r ++ b).
Proof. intros E. apply after_prefix_some in E. subst s. rewrite <- app_assoc. apply after_prefix_app. Qed.
Lemma after_prefix_not p : forall s b, after_prefix p s = None -> List.length p <= List.length s -> after_prefix p (s ++ b) = None.
Proof.
  induction p as [ | a p IH]; intros s b E L; [discriminate E | ].
  destruct s as [ | c s]; [cbn in L; lia | ]. cbn [app after_prefix] in *.
  destruct (Ascii.eqb a c); [ | reflexivity]. apply IH; [exact E | cbn in L; lia].
Qed.
Lemma scan_for_more p s : forall x y b, scan_for p s = Some (x, y) -> scan_for p (s ++ b) = Some (x, y ++ b).
Proof.
  induction s as [ | c s IH]; intros x y b E.
  - cbn [scan_for] in E. destruct (after_prefix p []) as [q | ] eqn:A; [ | discriminate E]. injection E as <- <-.
    pose proof (after_prefix_more p [] q b A) as M. destruct ([] ++ b) eqn:F; cbn [scan_for]; rewrite M; reflexivity.
  - cbn [scan_for] in E. destruct (after_prefix p (c :: s)) as [q | ] eqn:A.
    + injection E as <- <-. pose proof (after_prefix_more p _ q b A) as M. cbn [app scan_for] in *. rewrite M. reflexivity.
    + destruct (scan_for p s) as [[x' y'] | ] eqn:K; [ | discriminate E]. cbn in E. injection E as <- <-.
      assert (M : after_prefix p ((c :: s) ++ b) = None).
      { apply after_prefix_not; [exact A | ]. apply scan_for_some in K. rewrite K. cbn [List.length]. rewrite !app_length. lia. }
      cbn [app scan_for] in *. rewrite M. rewrite (IH x' y' b eq_refl). reflexivity.
Qed.

Lemma occurs_scan p s : occurs p s -> exists x y, scan_for p s = Some (x, y).
Proof.
  induction s as [ | c s IH]; intros (a & b & E).
  - destruct a; [ | discriminate E]. cbn [app] in E. cbn [scan_for].
    assert (P : after_prefix p [] = Some b) by (rewrite E; apply after_prefix_app). rewrite P. eauto.
  - cbn [scan_for]. destruct (after_prefix p (c :: s)) as [q | ] eqn:A; [eauto | ].
    destruct a as [ | d a].
    + cbn [app] in E. rewrite E, after_prefix_app in A. discriminate A.
    + cbn [app] in E. injection E as _ E. destruct IH as (x & y & ->); [exists a, b; exact E | ]. cbn. eauto.
Qed.

Lemma scan_cut z p s a : ~ In z p -> ~ occurs (p ++ [z]) s -> cut a (s ++ p ++ [z]) -> scan_for (p ++ [z]) a = None.
Proof.
  intros NI NO (b & NB & E). destruct (scan_for (p ++ [z]) a) as [[x y] | ] eqn:K; [exfalso | reflexivity].
  apply (scan_for_more _ _ _ _ b) in K. rewrite <- E in K.
  pose proof (scan_for_last z p s [] NI NO) as F. rewrite app_nil_r in F. rewrite F in K. injection K as _ K.
  symmetry in K. apply app_eq_nil in K. destruct K as [_ K]. exact (NB K).
Qed.

Lemma skip_space_cut a s x : no_blank_first x -> x <> [] -> cut a (s ++ x) -> skip_space a = [] \/ cut (skip_space a) (skip_space s ++ x).
Proof.
  intros NB NE C. revert a C. induction s as [ | c s IH]; intros a C.
  - cbn [app] in C. right. destruct C as (b & NBB & E). exists b. split; [exact NBB | ]. cbn [skip_space app].
    rewrite skip_none; [exact E | ]. intros c r K. subst a. apply (NB c (r ++ b)). exact E.
  - cbn [app] in C. apply cut_cons in C. destruct C as [-> | (a' & -> & C)]; [left; reflexivity | ].
    cbn [skip_space]. destruct (is_chartype c ct_space); [exact (IH a' C) | ]. right.
    destruct C as (b & NBB & E). exists b. split; [exact NBB | ]. cbn [app]. rewrite E. reflexivity.
Qed.

(** * Values and attributes that have been cut *)

Lemma reference_no_quote e r q : reference e r -> q = "034"%char \/ q = "'"%char -> ~ In q r.
Proof.
  assert (D : forall base ds u, numeral base ds u -> q = "034"%char \/ q = "'"%char -> ~ In q ds).
  { intros base ds u N Q.
    assert (DV : forall b c d, digit_value b c d -> c <> q).
    { intros b c d H ->. inversion H; subst; destruct Q as [-> | ->]; cbv in *; intuition congruence. }
    induction N as [c d H | s c u d N IH H]; intros I.
    - destruct I as [-> | []]. exact (DV _ _ _ H eq_refl).
    - apply in_app_or in I. destruct I as [I | [-> | []]]; [exact (IH I) | exact (DV _ _ _ H eq_refl)]. }
  intros H Q. destruct H as [ | | | | | ds u e N U | ds u e N U]; try (cbn; destruct Q as [-> | ->]; intuition discriminate);
    (repeat apply in_app_not; [ | exact (D _ _ _ N Q) | ]; cbn; destruct Q as [-> | ->]; intuition discriminate).
Qed.

Lemma value_no_quote q v s : value_spelled q v s -> q = "034"%char \/ q = "'"%char -> ~ In q s.
Proof.
  intros H Q. induction H as [ | c t s CH N1 N2 N3 N4 H IH | c t s B H IH | t s H IH | t s NL H IH | e r t s R H IH].
  - intros [].
  - apply in_cons_not; assumption.
  - apply in_cons_not; [ | exact IH]. intros ->. destruct Q as [-> | ->]; intuition discriminate.
  - repeat (apply in_cons_not; [destruct Q as [-> | ->]; discriminate | ]). exact IH.
  - apply in_cons_not; [destruct Q as [-> | ->]; discriminate | exact IH].
  - apply in_app_not; [eapply reference_no_quote; eassumption | exact IH].
Qed.

Lemma cut_blanks w a : blanks w -> cut a w -> skip_space a = [].
Proof. intros B C. apply skip_all. exact (cut_forall _ _ _ B C). Qed.

Lemma scan_prefix n a : Forall name_byte n -> cut a n -> scan_symbol a = (a, []).
Proof.
  intros F C. rewrite <- (app_nil_r a) at 1. apply scan_name; [exact (cut_forall _ _ _ F C) | intros c r E; discriminate E].
Qed.

Lemma parse_attributes_empty f acc a : skip_space a = [] -> parse_attributes f acc a = None.
Proof. intros E. destruct f as [ | f]; [reflexivity | ]. cbn [parse_attributes]. rewrite E. reflexivity. Qed.

Lemma cut_tag_end a b : cut a (tag_end b) -> a = [] \/ a = ["/"%char].
Proof.
  destruct b; cbn [tag_end lit list_ascii_of_string]; intros C; apply cut_cons in C; destruct C as [-> | (a' & -> & C)]; auto.
  - apply cut_cons in C. destruct C as [-> | (a'' & -> & C)]; [auto | contradiction (cut_nil _ C)].
  - contradiction (cut_nil _ C).
Qed.

Lemma attributes_cut l s : attributes_spelled l s -> forall f acc w b a, blanks w ->
  cut a (s ++ w ++ tag_end b) -> parse_attributes f acc a = None.
Proof.
  induction 1 as [ | n v l w0 w1 w2 quote s r NE B0 XN B1 B2 Q V A IH]; intros f acc w b a B C.
  - cbn [app] in C. apply cut_app in C. destruct C as [C | (a' & -> & C)]; [apply parse_attributes_empty; exact (cut_blanks _ _ B C) | ].
    destruct f as [ | f]; [reflexivity | ]. cbn [parse_attributes]. rewrite skip_blanks by exact B.
    destruct (cut_tag_end a' b C) as [-> | ->]; reflexivity.
  - destruct f as [ | f]; [reflexivity | ].
    replace ((w0 ++ n ++ w1 ++ ["="%char] ++ w2 ++ [quote] ++ s ++ [quote] ++ r) ++ w ++ tag_end b)
      with (w0 ++ n ++ w1 ++ ["="%char] ++ w2 ++ [quote] ++ s ++ [quote] ++ r ++ w ++ tag_end b) in C
      by (rewrite <- !app_assoc; reflexivity).
    apply cut_app in C. destruct C as [C | (a0 & -> & C)]; [apply parse_attributes_empty; exact (cut_blanks _ _ B0 C) | ].
    cbn [parse_attributes]. rewrite skip_blanks by exact B0.
    apply cut_app in C. destruct C as [C | (a1 & -> & C)].
    + assert (NB : no_blank_first a0).
      { destruct C as (x & _ & E). intros c q K. subst a0. apply (name_not_blank n [] XN c (q ++ x)). rewrite app_nil_r. exact E. }
      rewrite skip_none by exact NB. rewrite (scan_prefix n a0 (xml_name_bytes n XN) C). destruct (starts_symbol a0) eqn:SS; [reflexivity | ].
      destruct a0 as [ | c a0]; [reflexivity | ]. exfalso. destruct XN as (c' & r' & -> & L & _). destruct C as (x & _ & E). injection E as <- _.
      cbn [starts_symbol] in SS. apply start_iff in L. rewrite L in SS. discriminate SS.
    + rewrite skip_none by (apply name_not_blank; exact XN). rewrite xml_name_starts by exact XN.
      assert (NF : no_name_first a1).
      { intros c q E. subst a1. apply cut_app in C. destruct C as [C | (a2 & E & C)].
        - apply blank_not_name. pose proof (cut_forall _ _ _ B1 C) as F. inversion F. assumption.
        - destruct w1 as [ | c1 w1]; [ | injection E as <- _; apply blank_not_name; inversion B1; assumption]. cbn [app] in E. subst a2.
          apply cut_cons in C. destruct C as [C | (a3 & E & _)]; [discriminate C | ]. injection E as -> _.
          unfold name_byte, letter_byte, letter. cbn. intuition (try discriminate; lia). }
      rewrite scan_name by (auto using xml_name_bytes).
      apply cut_app in C. destruct C as [C | (a2 & -> & C)]; [rewrite (cut_blanks _ _ B1 C); reflexivity | ].
      rewrite skip_blanks by exact B1. apply cut_cons in C. destruct C as [-> | (a3 & -> & C)]; [reflexivity | ].
      change (skip_space ("="%char :: a3)) with (lit "=" ++ a3). rewrite after_prefix_app.
      apply cut_app in C. destruct C as [C | (a4 & -> & C)]; [rewrite (cut_blanks _ _ B2 C); reflexivity | ].
      rewrite skip_blanks by exact B2. apply cut_cons in C. destruct C as [-> | (a5 & -> & C)]; [reflexivity | ].
      assert (QB : ~ blank quote) by (unfold blank; destruct Q as [-> | ->]; intuition discriminate).
      rewrite skip_none by (intros c q E; injection E as <- _; exact QB).
      replace (Ascii.eqb quote "034" || Ascii.eqb quote "'") with true by (destruct Q as [-> | ->]; reflexivity).
      apply cut_app in C. destruct C as [C | (a6 & -> & C)].
      { rewrite attribute_none; [reflexivity | ]. exact (cut_in _ _ _ (value_no_quote _ _ _ V Q) C). }
      apply cut_cons in C. destruct C as [-> | (a7 & -> & C)].
      { rewrite app_nil_r. rewrite attribute_none; [reflexivity | exact (value_no_quote _ _ _ V Q)]. }
      change (s ++ quote :: a7) with (s ++ [quote] ++ a7).
      rewrite (value_read quote v s V Q) by (rewrite !app_length; cbn; lia).
      destruct (starts_symbol a7); [reflexivity | ]. apply (IH f _ w b a7 B). exact C.
Qed.

Lemma tag_cut n l s w b a open top :
  xml_name n -> attributes_spelled l s -> blanks w -> cut a (n ++ s ++ w ++ tag_end b) -> parse_tag a open top = Failed.
Proof.
  intros XN A B C. apply cut_app in C. destruct C as [C | (a' & -> & C)].
  - destruct a as [ | c a]; [reflexivity | ]. unfold parse_tag.
    replace (starts_symbol (c :: a)) with true.
    2: { symmetry. destruct XN as (c' & r' & -> & L & _). destruct C as (x & _ & E). injection E as <- _. apply start_iff. exact L. }
    rewrite (scan_prefix n (c :: a) (xml_name_bytes n XN) C). reflexivity.
  - assert (NF : no_name_first a').
    { intros c q E K. destruct C as (x & _ & E'). subst a'. pose proof (attributes_no_name l s w b [] A B) as H.
      rewrite app_nil_r in H. apply (H c (q ++ x)); [exact E' | exact K]. }
    unfold parse_tag. rewrite xml_name_starts by exact XN. rewrite scan_name by (auto using xml_name_bytes).
    destruct a' as [ | c q]; [reflexivity | ].
    assert (CC : blank c \/ (s ++ w = [] /\ c :: q = ["/"%char])).
    { destruct A as [ | n0 v l w0 w1 w2 quote s r NE B0 XN0 B1 B2 Q V A].
      - cbn [app] in *. destruct w as [ | c1 w].
        + right. split; [reflexivity | ]. destruct (cut_tag_end (c :: q) b C) as [E | E]; [discriminate E | exact E].
        + left. destruct C as (x & _ & E). injection E as -> _. inversion B. assumption.
      - left. destruct w0 as [ | c1 w0]; [contradiction NE; reflexivity | ]. destruct C as (x & _ & E). injection E as -> _. inversion B0. assumption. }
    destruct CC as [BC | [_ E]]; [ | injection E as -> ->; reflexivity].
    assert (N1 : after_prefix (lit ">") (c :: q) = None) by (apply (blank_first_prefix c ">"%char []); [exact BC | unfold blank; intuition discriminate]).
    assert (N2 : after_prefix (lit "/>") (c :: q) = None) by (apply (blank_first_prefix c "/"%char [">"%char]); [exact BC | unfold blank; intuition discriminate]).
    rewrite N1, N2, (proj2 (blank_iff c) BC). unfold open_tag.
    rewrite <- (attributes_skip _ _ c q BC). rewrite (attributes_cut l s A _ _ w b (c :: q) B C). reflexivity.
Qed.

(** * Nodes that have been cut *)

Lemma result_failed st : parse_step st = Failed -> result st = Throw.
Proof. intros E. unfold result. cbn [parse_loop]. rewrite E. reflexivity. Qed.
Lemma lt_failed open top s : parse_tag s open top = Failed -> result (mkState open top ("<"%char :: s)) = Throw.
Proof. intros E. apply result_failed. exact E. Qed.
Lemma result_end open top : result (mkState open top []) = match open with [] => if existsb is_element top then Ok (rev top) else Throw | _ :: _ => Throw end.
Proof. reflexivity. Qed.

Lemma name_cut n a : xml_name n -> cut a n -> a = [] \/ starts_symbol a = true.
Proof.
  intros (c & r & -> & L & _) (x & _ & E). destruct a as [ | d a]; [left; reflexivity | right]. injection E as <- _. apply start_iff. exact L.
Qed.

Lemma question_none open top : parse_question [] open top = Failed.
Proof. reflexivity. Qed.

Lemma question_name_cut n a open top : xml_name n -> cut a n -> parse_question a open top = Failed.
Proof.
  intros XN C. destruct (name_cut n a XN C) as [-> | S]; [reflexivity | ].
  unfold parse_question. rewrite S. cbn [negb]. rewrite (scan_prefix n a (xml_name_bytes n XN) C).
  destruct (is_xml a); [destruct open; reflexivity | reflexivity].
Qed.

Lemma question_mark a : cut a (lit "?>") -> a = [] \/ a = ["?"%char].
Proof.
  intros C. apply cut_cons in C. destruct C as [-> | (a' & -> & C)]; [auto | ].
  apply cut_cons in C. destruct C as [-> | (a'' & -> & C)]; [auto | contradiction (cut_nil _ C)].
Qed.

(** The rest of an instruction after its name: white space, data and its end. *)
Lemma question_rest_cut n q a open top : xml_name n ->
  (q = [] \/ exists c r, q = c :: r /\ blank c) -> ~ occurs (lit "?>") q ->
  cut a (q ++ lit "?>") -> parse_question (n ++ a) open top = Failed.
Proof.
  intros XN Q NO C.
  assert (FIRST : a = [] \/ a = ["?"%char] \/ exists c r, a = c :: r /\ blank c).
  { destruct Q as [-> | (c & r & -> & BC)].
    - cbn [app] in C. destruct (question_mark a C); auto.
    - cbn [app] in C. apply cut_cons in C. destruct C as [-> | (a' & -> & C)]; [auto | ]. right; right. eauto. }
  assert (NF : no_name_first a).
  { intros c r E. destruct FIRST as [-> | [-> | (c' & r' & -> & BC)]]; [discriminate E | injection E as <- _ | injection E as <- _; apply blank_not_name; exact BC].
    unfold name_byte, letter_byte, letter. cbn. intuition (try discriminate; lia). }
  unfold parse_question. rewrite xml_name_starts by exact XN. cbn [negb]. rewrite scan_name by (auto using xml_name_bytes).
  assert (REST : forall c r, a = c :: r -> blank c -> after_prefix (lit "?>") a = None /\ scan_for (lit "?>") (skip_space r) = None).
  { intros c r -> BC. split; [apply (blank_first_prefix c "?"%char [">"%char]); [exact BC | unfold blank; intuition discriminate] | ].
    destruct Q as [-> | (c' & r' & -> & _)].
    { cbn [app] in C. destruct (question_mark _ C) as [E | E]; [discriminate E | ]. injection E as -> _. unfold blank in BC. intuition discriminate. }
    cbn [app] in C. apply cut_cons in C. destruct C as [C | (a' & E & C)]; [discriminate C | ]. injection E as <- <-.
    apply occurs_tail in NO. apply occurs_skip in NO.
    apply skip_space_cut in C; [ | intros z y E; injection E as <- _; unfold blank; intuition discriminate | discriminate].
    destruct C as [-> | C]; [reflexivity | ].
    pose proof (scan_cut ">" (lit "?") (skip_space r') (skip_space r)) as F. change (lit "?" ++ [">"%char]) with (lit "?>") in F.
    apply F; [cbn; intuition discriminate | exact NO | exact C]. }
  destruct (is_xml n).
  - destruct open; [ | reflexivity].
    destruct FIRST as [-> | [-> | (c & r & E & BC)]]; [reflexivity | reflexivity | ].
    destruct (REST c r E BC) as [R1 R2]. rewrite R1, E. rewrite (proj2 (blank_iff c) BC), R2. reflexivity.
  - destruct FIRST as [-> | [-> | (c & r & E & BC)]]; [reflexivity | reflexivity | ].
    destruct (REST c r E BC) as [R1 R2]. rewrite R1, E. rewrite (proj2 (blank_iff c) BC), R2. reflexivity.
Qed.

Lemma no_data_end d w : ~ occurs (lit "?>") d -> blanks w -> ~ occurs (lit "?>") (w ++ d).
Proof.
  intros NO B. induction B as [ | c w BC _ IH]; [exact NO | ]. intros (x & y & E). destruct x as [ | z x].
  - cbn [app] in E. injection E as -> _. unfold blank in BC. intuition discriminate.
  - cbn [app] in E. injection E as -> E. apply IH. exists x, y. exact E.
Qed.

Lemma comment_cut s a open top : ~ occurs (lit "-->") s -> cut a (lit "!--" ++ s ++ lit "-->") -> parse_tag a open top = Failed.
Proof.
  intros NO C. do 3 (cbn [app lit list_ascii_of_string] in C; apply cut_cons in C; destruct C as [-> | (? & -> & C)]; [reflexivity | ]).
  match type of C with cut ?x _ => change (parse_tag ("!" :: "-" :: "-" :: x)%char open top)
    with (match scan_for (lit "-->") x with Some (_, r) => Next (mkState open top r) | None => Failed end);
    pose proof (scan_cut ">" (lit "--") s x) as F end.
  change (lit "--" ++ [">"%char]) with (lit "-->") in F. rewrite F; [reflexivity | cbn; intuition discriminate | exact NO | exact C].
Qed.

Lemma cdata_cut s a open top : ~ occurs (lit "]]>") s -> cut a (lit "![CDATA[" ++ s ++ lit "]]>") -> parse_tag a open top = Failed.
Proof.
  intros NO C. do 8 (cbn [app lit list_ascii_of_string] in C; apply cut_cons in C; destruct C as [-> | (? & -> & C)]; [reflexivity | ]).
  match type of C with cut ?x _ => change (parse_tag (lit "![CDATA[" ++ x) open top = Failed);
    change (parse_tag (lit "![CDATA[" ++ x) open top)
    with (match strconv_cdata (List.length x) x with Some (t, r) => Next (add_node (XCData t) open top r) | None => Failed end);
    pose proof (scan_cut ">" (lit "]]") s x) as F; destruct (strconv_cdata (List.length x) x) as [[t r] | ] eqn:K; [exfalso | reflexivity] end.
  change (lit "]]" ++ [">"%char]) with (lit "]]>") in F. apply cdata_end in K. apply occurs_scan in K. destruct K as (u & v & K).
  rewrite F in K; [discriminate K | cbn; intuition discriminate | exact NO | exact C].
Qed.

Lemma close_cut n w a f open top : xml_name n -> blanks w -> fr_name f = n -> cut a (lit "/" ++ n ++ w ++ lit ">") ->
  parse_tag a (f :: open) top = Failed.
Proof.
  intros XN B E C. apply cut_cons in C. destruct C as [-> | (a1 & -> & C)]; [reflexivity | ].
  unfold parse_tag. change (starts_symbol ("/"%char :: a1)) with false. cbv iota.
  change ("/"%char :: a1) with (lit "/" ++ a1). rewrite after_prefix_app.
  apply cut_app in C. destruct C as [C | (a2 & -> & C)].
  - rewrite (scan_prefix n a1 (xml_name_bytes n XN) C). destruct (str_eqb a1 (fr_name f)); reflexivity.
  - assert (K : no_name_first a2 /\ after_prefix (lit ">") (skip_space a2) = None).
    { apply cut_app in C. destruct C as [C | (a3 & -> & C)].
      - split; [ | rewrite (cut_blanks _ _ B C); reflexivity]. intros c r ->. apply blank_not_name. pose proof (cut_forall _ _ _ B C) as F. inversion F. assumption.
      - apply cut_cons in C. destruct C as [-> | (a4 & -> & C)]; [ | contradiction (cut_nil _ C)]. rewrite app_nil_r. split.
        + intros c r ->. apply blank_not_name. inversion B. assumption.
        + rewrite skip_all by exact B. reflexivity. }
    destruct K as [NF K]. rewrite scan_name by (auto using xml_name_bytes). rewrite E, (proj2 (str_eqb_eq n n) eq_refl), K. reflexivity.
Qed.

Lemma blank_end w open top : blanks w -> result (mkState open top w) = result (mkState open top []).
Proof.
  intros B. destruct w as [ | c w]; [reflexivity | ]. apply result_next.
  unfold parse_step. cbn [ps_text ps_open ps_top]. pose proof (skip_all _ B) as S. inversion B as [ | ? ? BC BW]; subst.
  change (lit "<") with ["<"%char]. rewrite blank_first_prefix; [ | exact BC | unfold blank; intuition discriminate]. rewrite S. reflexivity.
Qed.

Lemma text_end s f open top : ~ In "<"%char s -> result (mkState (f :: open) top s) = Throw.
Proof.
  intros NL. destruct (skip_space s) as [ | c q] eqn:S.
  - destruct (skip_space_suffix s) as (w & B & E). rewrite S, app_nil_r in E. subst w. rewrite blank_end by exact B. reflexivity.
  - destruct s as [ | d s]; [discriminate S | ].
    destruct (strconv_pcdata (List.length (d :: s)) (d :: s)) as [t r] eqn:P.
    assert (R : r = []) by (pose proof (pcdata_all (List.length (d :: s)) (d :: s) (le_n _) NL) as K; rewrite P in K; exact K). subst r.
    rewrite (result_next _ (add_node (XText (c_str t)) (f :: open) top [])); [reflexivity | ].
    unfold parse_step. cbn [ps_text ps_open ps_top].
    assert (A : after_prefix (lit "<") (d :: s) = None).
    { cbn [lit list_ascii_of_string after_prefix]. rewrite (proj2 (Ascii.eqb_neq "<"%char d)); [reflexivity | ]. intros <-. apply NL. left. reflexivity. }
    rewrite A, S, P. rewrite (proj2 (Ascii.eqb_neq c "<"%char)); [reflexivity | ]. intros ->. apply NL.
    destruct (skip_space_suffix (d :: s)) as (w & _ & E). rewrite S in E. rewrite E. apply in_or_app. right. left. reflexivity.
Qed.

Lemma cut_or_all a s : (exists b, s = a ++ b) -> a = s \/ cut a s.
Proof. intros ([ | c b] & ->); [left; rewrite app_nil_r; reflexivity | right; exists (c :: b); split; [discriminate | reflexivity]]. Qed.

Lemma prefix_app a x y : (exists b, x ++ y = a ++ b) -> cut a x \/ exists a', a = x ++ a' /\ exists b, y = a' ++ b.
Proof.
  intros H. destruct (cut_or_all a (x ++ y) H) as [-> | C].
  - right. exists y. split; [reflexivity | exists []; symmetry; apply app_nil_r].
  - destruct (cut_app a x y C) as [C' | (a' & -> & (b & _ & ->))]; [left; exact C' | right]. exists a'. split; [reflexivity | exists b; reflexivity].
Qed.

(** The start tag, with what follows it. *)
Lemma start_read n l s w rest open top : xml_name n -> attributes_spelled l s -> blanks w ->
  result (mkState open top (lit "<" ++ n ++ s ++ w ++ lit ">" ++ rest)) = result (mkState (mkFrame false n l [] :: open) top rest).
Proof.
  intros XN A B. apply result_next. rewrite lt_step. exact (tag_read n l s w false rest open top XN A (attributes_no_zero l s A) B).
Qed.

Lemma blank_or_lt w x a open top : blanks w -> (exists b, w ++ "<"%char :: x = a ++ b) ->
  result (mkState open top a) = result (mkState open top []) \/
  exists a', a = w ++ "<"%char :: a' /\ result (mkState open top a) = result (mkState open top ("<"%char :: a')) /\ exists b, x = a' ++ b.
Proof.
  intros B H. apply prefix_app in H. destruct H as [C | (a' & -> & H)].
  - left. apply blank_end. exact (cut_forall _ _ _ B C).
  - destruct H as (b & E). destruct a' as [ | c a']; [left; rewrite app_nil_r; apply blank_end; exact B | ]. injection E as <- E.
    right. exists a'. split; [reflexivity | split; [ | exists b; exact E]]. apply blank_step; [exact B | reflexivity].
Qed.

Lemma spelled_cut :
  (forall x s, node_spelled x s -> forall a open top, cut a s -> a <> [] -> plain_open open -> result (mkState open top a) = Throw) /\
  (forall l s, content_spelled l s -> forall a f open top, (exists b, s = a ++ b) -> fr_declaration f = false -> result (mkState (f :: open) top a) = Throw).
Proof.
  apply spelled_ind.
  - intros n l s w XN A B a open top C NE P. apply cut_cons in C. destruct C as [-> | (a' & -> & C)]; [contradiction NE; reflexivity | ].
    apply lt_failed. exact (tag_cut n l s w true a' open top XN A B C).
  - intros n l s w kids c w' XN A B CS IH B' a open top C NE P.
    replace (lit "<" ++ n ++ s ++ w ++ lit ">" ++ c ++ lit "</" ++ n ++ w' ++ lit ">")
      with ((lit "<" ++ n ++ s ++ w ++ lit ">") ++ c ++ lit "</" ++ n ++ w' ++ lit ">") in C by (rewrite <- !app_assoc; reflexivity).
    apply cut_app in C. destruct C as [C | (a1 & -> & C)].
    + apply cut_cons in C. destruct C as [-> | (a' & -> & C)]; [contradiction NE; reflexivity | ].
      apply lt_failed. exact (tag_cut n l s w false a' open top XN A B C).
    + replace ((lit "<" ++ n ++ s ++ w ++ lit ">") ++ a1) with (lit "<" ++ n ++ s ++ w ++ lit ">" ++ a1) by (rewrite <- !app_assoc; reflexivity).
      rewrite (start_read n l s w a1 open top XN A B).
      apply cut_app in C. destruct C as [(b & _ & E) | (a2 & -> & C)]; [apply IH; [exists b; exact E | reflexivity] | ].
      apply cut_cons in C. destruct C as [-> | (a3 & -> & C)]; [rewrite app_nil_r; apply IH; [exists []; symmetry; apply app_nil_r | reflexivity] | ].
      rewrite (proj2 spelled_read kids c CS (proj2 spelled_no_zero kids c CS)) by reflexivity.
      apply lt_failed. apply (close_cut n w' a3); [exact XN | exact B' | reflexivity | exact C].
  - intros n XN R a open top C NE P. do 2 (apply cut_cons in C; destruct C as [-> | (? & -> & C)]; [try (contradiction NE; reflexivity); reflexivity | ]).
    apply lt_failed. match type of C with cut ?x _ => change (parse_question x open top = Failed) end.
    apply cut_app in C. destruct C as [C | (a' & -> & C)]; [exact (question_name_cut n _ open top XN C) | ].
    apply (question_rest_cut n [] a' open top XN); [left; reflexivity | | exact C]. intros ([ | ? ?] & ? & E); discriminate E.
  - intros n w d XN R NEW B NO CH NB a open top C NE P. do 2 (apply cut_cons in C; destruct C as [-> | (? & -> & C)]; [try (contradiction NE; reflexivity); reflexivity | ]).
    apply lt_failed. match type of C with cut ?x _ => change (parse_question x open top = Failed) end.
    apply cut_app in C. destruct C as [C | (a' & -> & C)]; [exact (question_name_cut n _ open top XN C) | ].
    apply (question_rest_cut n (w ++ d) a' open top XN).
    + right. destruct w as [ | c w]; [contradiction NEW; reflexivity | ]. exists c, (w ++ d). split; [reflexivity | inversion B; assumption].
    + apply no_data_end; assumption.
    + rewrite <- app_assoc. exact C.
  - intros s NO CH a open top C NE P. apply cut_cons in C. destruct C as [-> | (a' & -> & C)]; [contradiction NE; reflexivity | ].
    apply lt_failed. exact (cdata_cut s a' open top NO C).
  - intros w B a f open top (b & E) D. rewrite blank_end; [reflexivity | ]. unfold blanks in *. rewrite E in B. apply Forall_app in B. tauto.
  - intros w x s l r B N IHN CS IHC a f open top H D. pose proof (node_first x s N) as F. destruct s as [ | c s]; [discriminate F | ]. injection F as ->.
    destruct (blank_or_lt w (s ++ r) a (f :: open) top B) as [-> | (a' & -> & -> & H')]; [exact H | reflexivity | ].
    apply prefix_app in H'. destruct H' as [(b & NB & E) | (a2 & -> & H2)].
    + apply IHN; [ | discriminate | exact D]. exists b. split; [exact NB | cbn [app]; f_equal; exact E].
    + change ("<"%char :: s ++ a2) with (("<"%char :: s) ++ a2).
      rewrite (proj1 spelled_read x _ N (proj1 spelled_no_zero x _ N)) by exact D. cbn [add_node]. apply IHC; [exact H2 | exact D].
  - intros w s l r B NO CH CS IHC a f open top H D.
    destruct (blank_or_lt w (lit "!--" ++ s ++ lit "-->" ++ r) a (f :: open) top B) as [-> | (a' & -> & -> & H')]; [exact H | reflexivity | ].
    replace (lit "!--" ++ s ++ lit "-->" ++ r) with ((lit "!--" ++ s ++ lit "-->") ++ r) in H' by (rewrite <- !app_assoc; reflexivity).
    apply prefix_app in H'. destruct H' as [C | (a2 & -> & H2)].
    + apply lt_failed. exact (comment_cut s a' _ _ NO C).
    + rewrite (result_next _ (mkState (f :: open) top a2)); [apply IHC; assumption | ].
      change ("<"%char :: (lit "!--" ++ s ++ lit "-->") ++ a2) with (lit "<" ++ (lit "!--" ++ s ++ lit "-->") ++ a2). rewrite lt_step.
      replace ((lit "!--" ++ s ++ lit "-->") ++ a2) with (lit "!--" ++ s ++ lit "-->" ++ a2) by (rewrite <- !app_assoc; reflexivity).
      apply comment_step. exact NO.
  - intros t s l r T NBL R CS IHC a f open top H D. apply prefix_app in H. destruct H as [C | (a2 & -> & H)].
    + apply text_end. exact (cut_in _ _ _ (text_no_lt t s T) C).
    + destruct a2 as [ | c a2]; [rewrite app_nil_r; apply text_end; exact (text_no_lt t s T) | ].
      assert (HR : hd_error (c :: a2) = Some "<"%char).
      { destruct H as (b & ->). destruct R as [R | R]; [discriminate R | exact R]. }
      rewrite (result_next _ (add_node (XText t) (f :: open) top (c :: a2))).
      * cbn [add_node]. apply IHC; [exact H | exact D].
      * apply text_step; try assumption. exact (text_spelled_no_zero t s T).
Qed.

(** * Documents that have been cut *)

Lemma doctype_group_cut v : doctype_spelled v -> forall f seen a, cut a (v ++ lit ">") -> parse_doctype_group f 0 0 seen a = None.
Proof.
  induction 1 as [ | c s CH N D IH | quote p s Q NI CH D IH]; intros f seen a C; (destruct f as [ | f]; [reflexivity | ]).
  - apply cut_cons in C. destruct C as [-> | (a' & -> & C)]; [reflexivity | contradiction (cut_nil _ C)].
  - cbn [app] in C. apply cut_cons in C. destruct C as [-> | (a' & -> & C)]; [reflexivity | ].
    assert (NL : c <> "<"%char) by (intros ->; apply N; cbn; tauto).
    assert (NG : c <> ">"%char) by (intros ->; apply N; cbn; tauto).
    assert (N1 : c <> "034"%char) by (intros ->; apply N; cbn; tauto).
    assert (N2 : c <> "'"%char) by (intros ->; apply N; cbn; tauto).
    assert (P : forall m, after_prefix ("<"%char :: m) (c :: a') = None).
    { intros m. cbn [after_prefix]. rewrite (proj2 (Ascii.eqb_neq "<"%char c)) by (intros E; apply NL; symmetry; exact E). reflexivity. }
    cbn [parse_doctype_group]. change (lit "<![") with ("<"%char :: lit "!["). change (lit "<!-") with ("<"%char :: lit "!-").
    change (lit "<!") with ("<"%char :: lit "!"). rewrite !P.
    rewrite (proj2 (Ascii.eqb_neq _ _) N1), (proj2 (Ascii.eqb_neq _ _) N2), (proj2 (Ascii.eqb_neq _ _) NL), (proj2 (Ascii.eqb_neq _ _) NG).
    cbn [orb]. apply IH. exact C.
  - rewrite <- !app_assoc in C. apply cut_cons in C. destruct C as [-> | (a1 & -> & C)]; [reflexivity | ].
    assert (NL : quote <> "<"%char) by (destruct Q as [-> | ->]; discriminate).
    assert (P : forall m, after_prefix ("<"%char :: m) (quote :: a1) = None).
    { intros m. cbn [after_prefix]. rewrite (proj2 (Ascii.eqb_neq "<"%char quote)) by (intros E; apply NL; symmetry; exact E). reflexivity. }
    cbn [parse_doctype_group]. change (lit "<![") with ("<"%char :: lit "!["). change (lit "<!-") with ("<"%char :: lit "!-").
    change (lit "<!") with ("<"%char :: lit "!"). rewrite !P.
    replace (Ascii.eqb quote "034" || Ascii.eqb quote "'") with true by (destruct Q as [-> | ->]; reflexivity).
    assert (NOP : ~ occurs [quote] p) by (intros (x & y & E); apply NI; rewrite E; apply in_or_app; right; left; reflexivity).
    rewrite app_assoc in C. apply cut_app in C. destruct C as [C | (a2 & -> & C)].
    + pose proof (scan_cut quote [] p a1) as F. cbn [app] in F. rewrite F; [reflexivity | intros [] | exact NOP | exact C].
    + rewrite <- app_assoc. pose proof (scan_for_last quote [] p a2) as F. cbn [app] in F. cbn [app]. rewrite F; [ | intros [] | exact NOP].
      apply IH. exact C.
Qed.

Lemma doctype_cut w v a top : blanks w -> doctype_spelled v -> cut a (lit "!DOCTYPE" ++ w ++ v ++ lit ">") -> parse_tag a [] top = Failed.
Proof.
  intros B D C. do 8 (cbn [app lit list_ascii_of_string] in C; apply cut_cons in C; destruct C as [-> | (? & -> & C)]; [reflexivity | ]).
  match type of C with cut ?x _ => change (parse_tag (lit "!DOCTYPE" ++ x) [] top = Failed);
    change (parse_tag (lit "!DOCTYPE" ++ x) [] top)
    with (match parse_doctype_group (List.length x) 0 0 [] x with
          | Some (seen, r) => Next (add_node (XDoctype (skip_space (rev seen))) [] top r)
          | None => Failed end) end.
  rewrite (doctype_group_cut (w ++ v)); [reflexivity | apply blanks_doctype; assumption | rewrite <- app_assoc; exact C].
Qed.

(** What a text spells may be read up to any point. *)
Definition read_so_far (top l : list xml) (o : outcome (list xml)) : Prop :=
  o = Throw \/ exists l1 l2, l = l1 ++ l2 /\ o = Ok (rev top ++ l1) /\ existsb is_element (rev l1 ++ top) = true.

Lemma end_so_far top l : read_so_far top l (result (mkState [] top [])).
Proof.
  rewrite result_end. destruct (existsb is_element top) eqn:E; [right | left; reflexivity].
  exists [], l. rewrite app_nil_r. auto.
Qed.
Lemma next_so_far x top l o : read_so_far (x :: top) l o -> read_so_far top (x :: l) o.
Proof.
  intros [H | (l1 & l2 & -> & -> & EX)]; [left; exact H | right]. exists (x :: l1), l2.
  split; [reflexivity | ]. cbn [rev]. rewrite <- !app_assoc. auto.
Qed.

Lemma top_cut l s : top_spelled l s -> forall a top, (exists b, s = a ++ b) -> read_so_far top l (result (mkState [] top a)).
Proof.
  induction 1 as [w B | w x s l r B N X T IH | w s l r B NO CH T IH | w w1 v l r B NE B1 D NB T IH]; intros a top H.
  - rewrite blank_end; [apply end_so_far | ]. destruct H as (b & E). unfold blanks in *. rewrite E in B. apply Forall_app in B. tauto.
  - pose proof (node_first x s N) as F. destruct s as [ | c s]; [discriminate F | ]. injection F as ->.
    destruct (blank_or_lt w (s ++ r) a [] top B) as [-> | (a' & -> & -> & H')]; [exact H | apply end_so_far | ].
    apply prefix_app in H'. destruct H' as [(b & NB & E) | (a2 & -> & H2)].
    + left. apply (proj1 spelled_cut x _ N); [ | discriminate | exact I]. exists b. split; [exact NB | cbn [app]; f_equal; exact E].
    + change ("<"%char :: s ++ a2) with (("<"%char :: s) ++ a2).
      rewrite (proj1 spelled_read x _ N (proj1 spelled_no_zero x _ N)) by exact I. cbn [add_node]. apply next_so_far. apply IH. exact H2.
  - destruct (blank_or_lt w (lit "!--" ++ s ++ lit "-->" ++ r) a [] top B) as [-> | (a' & -> & -> & H')]; [exact H | apply end_so_far | ].
    replace (lit "!--" ++ s ++ lit "-->" ++ r) with ((lit "!--" ++ s ++ lit "-->") ++ r) in H' by (rewrite <- !app_assoc; reflexivity).
    apply prefix_app in H'. destruct H' as [C | (a2 & -> & H2)].
    + left. apply lt_failed. exact (comment_cut s a' _ _ NO C).
    + rewrite (result_next _ (mkState [] top a2)); [apply IH; exact H2 | ].
      change ("<"%char :: (lit "!--" ++ s ++ lit "-->") ++ a2) with (lit "<" ++ (lit "!--" ++ s ++ lit "-->") ++ a2). rewrite lt_step.
      replace ((lit "!--" ++ s ++ lit "-->") ++ a2) with (lit "!--" ++ s ++ lit "-->" ++ a2) by (rewrite <- !app_assoc; reflexivity).
      apply comment_step. exact NO.
  - destruct (blank_or_lt w (lit "!DOCTYPE" ++ w1 ++ v ++ lit ">" ++ r) a [] top B) as [-> | (a' & -> & -> & H')]; [exact H | apply end_so_far | ].
    replace (lit "!DOCTYPE" ++ w1 ++ v ++ lit ">" ++ r) with ((lit "!DOCTYPE" ++ w1 ++ v ++ lit ">") ++ r) in H' by (rewrite <- !app_assoc; reflexivity).
    apply prefix_app in H'. destruct H' as [C | (a2 & -> & H2)].
    + left. apply lt_failed. exact (doctype_cut w1 v a' _ B1 D C).
    + rewrite (result_next _ (add_node (XDoctype v) [] top a2)); [cbn [add_node]; apply next_so_far; apply IH; exact H2 | ].
      change ("<"%char :: (lit "!DOCTYPE" ++ w1 ++ v ++ lit ">") ++ a2) with (lit "<" ++ (lit "!DOCTYPE" ++ w1 ++ v ++ lit ">") ++ a2). rewrite lt_step.
      replace ((lit "!DOCTYPE" ++ w1 ++ v ++ lit ">") ++ a2) with (lit "!DOCTYPE" ++ w1 ++ v ++ lit ">" ++ a2) by (rewrite <- !app_assoc; reflexivity).
      apply doctype_step; assumption.
Qed.

Lemma top_skip l s : top_spelled l s -> forall top rest, hd_error rest = Some "<"%char ->
  result (mkState [] top (s ++ rest)) = result (mkState [] (rev l ++ top) rest).
Proof.
  induction 1 as [w B | w x s l r B N X T IH | w s l r B NO CH T IH | w w1 v l r B NE B1 D NB T IH]; intros top rest H.
  - apply blank_step; assumption.
  - rewrite <- !app_assoc. rewrite blank_step; [ | exact B | ].
    2: { pose proof (node_first x s N) as F. destruct s; [discriminate F | exact F]. }
    rewrite (proj1 spelled_read x s N (proj1 spelled_no_zero x s N)) by exact I. cbn [add_node]. rewrite IH by exact H.
    cbn [rev]. rewrite <- app_assoc. reflexivity.
  - rewrite <- !app_assoc. rewrite blank_step by (auto; reflexivity).
    change (lit "<!--" ++ s ++ lit "-->" ++ r ++ rest) with (lit "<" ++ lit "!--" ++ s ++ lit "-->" ++ r ++ rest).
    rewrite (result_next _ (mkState [] top (r ++ rest))); [apply IH; exact H | ]. rewrite lt_step. apply comment_step. exact NO.
  - rewrite <- !app_assoc. rewrite blank_step by (auto; reflexivity).
    change (lit "<!DOCTYPE" ++ w1 ++ v ++ lit ">" ++ r ++ rest) with (lit "<" ++ lit "!DOCTYPE" ++ w1 ++ v ++ lit ">" ++ r ++ rest).
    rewrite (result_next _ (add_node (XDoctype v) [] top (r ++ rest))).
    + cbn [add_node]. rewrite IH by exact H. cbn [rev]. rewrite <- app_assoc. reflexivity.
    + rewrite lt_step. apply doctype_step; assumption.
Qed.

Lemma declaration_cut d s a top : declaration_spelled d s -> cut a s -> a <> [] -> result (mkState [] top a) = Throw.
Proof.
  intros (x & w & A & NX & B & NO & ->) C NE.
  do 2 (apply cut_cons in C; destruct C as [-> | (? & -> & C)]; [try (contradiction NE; reflexivity); reflexivity | ]).
  apply lt_failed. match type of C with cut ?q _ => change (parse_question q [] top = Failed); change (cut q (lit "xml" ++ x ++ w ++ lit "?>")) in C end.
  apply cut_app in C. destruct C as [C | (a' & -> & C)]; [exact (question_name_cut (lit "xml") _ [] top xml_is_name C) | ].
  apply (question_rest_cut (lit "xml") (x ++ w) a' [] top xml_is_name).
  - right. destruct A as [ | n0 v l w0 w1 w2 quote sv r NE0 B0 _ _ _ _ _ _]; [contradiction NX; reflexivity | ].
    destruct w0 as [ | c w0]; [contradiction NE0; reflexivity | ]. eexists c, _. split; [reflexivity | inversion B0; assumption].
  - exact NO.
  - rewrite <- app_assoc. exact C.
Qed.

Lemma outside_no_zero l p : outside l p -> ~ In "000"%char p.
Proof.
  intros [T | (d & l' & s & r & _ & D & T & ->)]; [exact (top_no_zero _ _ T) | ].
  apply in_app_not; [exact (declaration_no_zero d s D) | exact (top_no_zero _ _ T)].
Qed.
Lemma outside_first l p : outside l p -> hd_error p <> Some (chr 239).
Proof.
  intros [T | (d & l' & s & r & _ & (a & w & _ & _ & _ & _ & ->) & T & ->)]; [ | intros E; discriminate E].
  destruct (top_first l p T) as [-> | (c & r & -> & C)]; [discriminate | ]. cbn. intros E. injection E as E. exact (no_bom c C E).
Qed.

Lemma parse_plain text : ~ In "000"%char text -> hd_error text <> Some (chr 239) -> parse_document text = result (mkState [] [] text).
Proof. intros Z0 F. unfold parse_document. rewrite c_str_id by exact Z0. rewrite skip_bom_none by exact F. reflexivity. Qed.

Lemma outside_skip l p : outside l p -> forall rest, hd_error rest = Some "<"%char ->
  result (mkState [] [] (p ++ rest)) = result (mkState [] (rev l) rest).
Proof.
  intros [T | (d & l' & s & r & -> & D & T & ->)] rest H.
  - rewrite (top_skip l p T) by exact H. rewrite app_nil_r. reflexivity.
  - rewrite <- app_assoc. rewrite (declaration_step d s (r ++ rest) D (declaration_no_zero d s D)).
    rewrite (top_skip l' r T) by exact H. reflexivity.
Qed.

Lemma outside_cut l p : outside l p -> forall a, (exists b, p = a ++ b) -> read_so_far [] l (result (mkState [] [] a)).
Proof.
  intros [T | (d & l' & s & r & -> & D & T & ->)] a H; [exact (top_cut l p T a [] H) | ].
  apply prefix_app in H. destruct H as [C | (a' & -> & H)].
  - left. destruct a as [ | c a]; [reflexivity | ]. apply (declaration_cut d s _ _ D C). discriminate.
  - rewrite (declaration_step d s a' D (declaration_no_zero d s D)). apply next_so_far. apply top_cut with (s := r); assumption.
Qed.

Lemma hd_app (a b : str) c : hd_error a = Some c -> hd_error (a ++ b) = Some c.
Proof. destruct a; [discriminate | exact (fun H => H)]. Qed.
Lemma not_bom_prefix a b : hd_error (a ++ b) <> Some (chr 239) -> hd_error a <> Some (chr 239).
Proof. intros H E. apply H. apply hd_app. exact E. Qed.

Lemma none_element l : (forall x, In x l -> is_element x = false) -> existsb is_element l = false.
Proof.
  intros H. destruct (existsb is_element l) eqn:E; [ | reflexivity]. apply existsb_exists in E. destruct E as (x & I & X).
  rewrite (H x I) in X. discriminate X.
Qed.

Lemma prolog_only l a : outside l a -> (forall x, In x l -> is_element x = false) -> parse_document a = Throw.
Proof.
  intros O NE. rewrite parse_plain by (eauto using outside_no_zero, outside_first).
  destruct (outside_cut l a O a) as [H | (l1 & l2 & -> & _ & EX)]; [exists []; symmetry; apply app_nil_r | exact H | exfalso].
  rewrite app_nil_r in EX. rewrite none_element in EX; [discriminate EX | ]. intros x I. apply NE. apply in_or_app. left. apply in_rev. exact I.
Qed.

Lemma cut_inside pre p x s a b : outside pre p -> (forall y, In y pre -> is_element y = false) -> node_spelled x s ->
  p ++ s = a ++ b -> b <> [] -> parse_document a = Throw.
Proof.
  intros O NE N E NB.
  assert (Z0 : ~ In "000"%char a).
  { intros I. assert (IN : In "000"%char (p ++ s)) by (rewrite E; apply in_or_app; left; exact I).
    apply in_app_or in IN. destruct IN as [IN | IN]; [exact (outside_no_zero pre p O IN) | exact (proj1 spelled_no_zero x s N IN)]. }
  assert (HF : hd_error (p ++ s) <> Some (chr 239)).
  { destruct p as [ | c p]; [ | exact (outside_first _ _ O)]. cbn [app]. rewrite (node_first x s N). intros K. discriminate K. }
  assert (C : cut a (p ++ s)) by (exists b; auto).
  rewrite parse_plain; [ | exact Z0 | apply (not_bom_prefix a b); rewrite <- E; exact HF].
  assert (PRE : forall q, (exists b, p = q ++ b) -> result (mkState [] [] q) = Throw).
  { intros q H. destruct (outside_cut pre p O q H) as [T | (l1 & l2 & -> & _ & EX)]; [exact T | exfalso].
    rewrite app_nil_r in EX. rewrite none_element in EX; [discriminate EX | ]. intros y I. apply NE. apply in_or_app. left. apply in_rev. exact I. }
  apply cut_app in C. destruct C as [(b' & _ & ->) | (a' & -> & C)]; [apply PRE; exists b'; reflexivity | ].
  destruct a' as [ | c a']; [rewrite app_nil_r; apply PRE; exists []; symmetry; apply app_nil_r | ].
  rewrite (outside_skip pre p O).
  - apply (proj1 spelled_cut x s N); [exact C | discriminate | exact I].
  - pose proof (node_first x s N) as F. destruct C as (b' & _ & ->). exact F.
Qed.

Lemma document_outside l text : document l text <-> (exists x, In x l /\ is_element x = true) /\ outside l text.
Proof. reflexivity. Qed.

Lemma cut_anywhere l text a b : document l text -> text = a ++ b -> parse_document a = Throw \/
  exists l1 l2, l = l1 ++ l2 /\ (exists x, In x l1 /\ is_element x = true) /\ parse_document a = Ok l1.
Proof.
  intros D E. apply document_outside in D. destruct D as [_ O].
  rewrite parse_plain.
  - destruct (outside_cut l text O a) as [T | (l1 & l2 & -> & R & EX)]; [exists b; exact E | left; exact T | right].
    exists l1, l2. split; [reflexivity | split; [ | exact R]]. rewrite app_nil_r in EX. apply existsb_exists in EX. destruct EX as (x & I & X).
    exists x. split; [apply in_rev; exact I | exact X].
  - intros I. apply (outside_no_zero l text O). rewrite E. apply in_or_app. left. exact I.
  - apply (not_bom_prefix a b). rewrite <- E. exact (outside_first l text O).
Qed.

(** * Elements that are not closed, and tags that close nothing *)

Lemma left_open_first n u : left_open n u -> hd_error u = Some "<"%char.
Proof. intros H. destruct H; reflexivity. Qed.

Lemma left_open_no_zero n u : left_open n u -> ~ In "000"%char u.
Proof.
  induction 1 as [n l s w kids c XN A B C | m l s w kids c n u XN A B C L IH];
    repeat apply in_app_not; try (apply blanks_no_zero; assumption); try (apply name_no_zero; assumption);
    try (eapply attributes_no_zero; eassumption); try exact (proj2 spelled_no_zero _ _ C); try exact IH; cbn; intuition discriminate.
Qed.

Lemma left_open_read n u : left_open n u -> forall open top rest, hd_error rest = Some "<"%char -> exists f open',
  fr_declaration f = false /\ fr_name f = n /\ result (mkState open top (u ++ rest)) = result (mkState (f :: open') top rest).
Proof.
  induction 1 as [n l s w kids c XN A B C | m l s w kids c n u XN A B C L IH]; intros open top rest H; rewrite <- !app_assoc.
  - rewrite (start_read n l s w (c ++ rest) open top XN A B).
    rewrite (proj2 spelled_read kids c C (proj2 spelled_no_zero kids c C)) by (auto; reflexivity).
    eexists _, _. split; [ | split; [ | reflexivity]]; reflexivity.
  - rewrite (start_read m l s w (c ++ u ++ rest) open top XN A B).
    rewrite (proj2 spelled_read kids c C (proj2 spelled_no_zero kids c C)); [ | reflexivity | apply hd_app; exact (left_open_first n u L)].
    apply IH. exact H.
Qed.

Lemma left_open_end n u : left_open n u -> forall open top, result (mkState open top u) = Throw.
Proof.
  induction 1 as [n l s w kids c XN A B C | m l s w kids c n u XN A B C L IH]; intros open top.
  - rewrite (start_read n l s w c open top XN A B). apply (proj2 spelled_cut kids c C); [exists []; symmetry; apply app_nil_r | reflexivity].
  - rewrite (start_read m l s w (c ++ u) open top XN A B).
    rewrite (proj2 spelled_read kids c C (proj2 spelled_no_zero kids c C)); [ | reflexivity | exact (left_open_first n u L)]. apply IH.
Qed.

Lemma not_closed pre p n u : outside pre p -> left_open n u -> parse_document (p ++ u) = Throw.
Proof.
  intros O L. rewrite parse_plain.
  - rewrite (outside_skip pre p O) by exact (left_open_first n u L). exact (left_open_end n u L [] _).
  - apply in_app_not; [exact (outside_no_zero _ _ O) | exact (left_open_no_zero _ _ L)].
  - destruct p as [ | c p]; [ | exact (outside_first _ _ O)]. cbn [app]. rewrite (left_open_first n u L). intros K. discriminate K.
Qed.

Lemma c_str_app a b : ~ In "000"%char a -> c_str (a ++ b) = a ++ c_str b.
Proof.
  induction a as [ | c a IH]; intros N; [reflexivity | ]. cbn [app].
  assert (K : forall x, c_str (c :: x) = c :: c_str x).
  { intros x. assert (NC : c <> "000"%char) by (intros ->; apply N; left; reflexivity).
    destruct c as [[] [] [] [] [] [] [] []]; try reflexivity. contradiction NC. reflexivity. }
  rewrite K, IH; [reflexivity | ]. intros I. apply N. right. exact I.
Qed.

Lemma parse_plain_app text rest : ~ In "000"%char text -> (exists c, hd_error text = Some c /\ c <> chr 239) ->
  parse_document (text ++ rest) = result (mkState [] [] (text ++ c_str rest)).
Proof.
  intros Z0 (c & F & NC). unfold parse_document. rewrite c_str_app by exact Z0. rewrite skip_bom_none; [reflexivity | ].
  destruct text; [discriminate F | ]. intros E. rewrite (hd_app _ _ _ F) in E. injection E as E. exact (NC E).
Qed.

Lemma outside_then_first pre p u c : outside pre p -> hd_error u = Some c -> c <> chr 239 -> exists d, hd_error (p ++ u) = Some d /\ d <> chr 239.
Proof.
  intros O F NC. destruct p as [ | d p]; [exists c; auto | ]. exists d. split; [reflexivity | ]. intros ->. exact (outside_first _ _ O eq_refl).
Qed.

Lemma wrong_end pre p n u m w rest : outside pre p -> left_open n u -> xml_name m -> blanks w -> m <> n ->
  parse_document (p ++ u ++ lit "</" ++ m ++ w ++ lit ">" ++ rest) = Throw.
Proof.
  intros O L XM B NE.
  replace (p ++ u ++ lit "</" ++ m ++ w ++ lit ">" ++ rest) with ((p ++ u ++ lit "</" ++ m ++ w ++ lit ">") ++ rest) by (rewrite <- !app_assoc; reflexivity).
  rewrite parse_plain_app.
  - rewrite <- !app_assoc. rewrite (outside_skip pre p O) by (apply hd_app; exact (left_open_first n u L)).
    destruct (left_open_read n u L [] (rev pre) (lit "</" ++ m ++ w ++ lit ">" ++ c_str rest) eq_refl) as (f & open' & _ & FN & ->).
    apply result_failed. change (parse_tag (lit "/" ++ m ++ w ++ lit ">" ++ c_str rest) (f :: open') (rev pre) = Failed).
    unfold parse_tag. change (starts_symbol (lit "/" ++ m ++ w ++ lit ">" ++ c_str rest)) with false. cbv iota. rewrite after_prefix_app.
    rewrite scan_name; [ | apply xml_name_bytes; exact XM | apply blanks_no_name; [exact B | apply (tag_end_no_name false)]].
    destruct (str_eqb m (fr_name f)) eqn:E; [ | reflexivity]. apply str_eqb_eq in E. contradiction NE. rewrite E. exact FN.
  - repeat apply in_app_not; try (apply blanks_no_zero; assumption); try (apply name_no_zero; assumption);
      [exact (outside_no_zero _ _ O) | exact (left_open_no_zero _ _ L) | cbn; intuition discriminate | cbn; intuition discriminate].
  - apply (outside_then_first pre p _ "<"%char O); [apply hd_app; exact (left_open_first n u L) | discriminate].
Qed.

Lemma stray_end pre p rest : outside pre p -> parse_document (p ++ lit "</" ++ rest) = Throw.
Proof.
  intros O. replace (p ++ lit "</" ++ rest) with ((p ++ lit "</") ++ rest) by (rewrite <- !app_assoc; reflexivity).
  rewrite parse_plain_app.
  - rewrite <- !app_assoc. rewrite (outside_skip pre p O) by reflexivity. apply result_failed. reflexivity.
  - apply in_app_not; [exact (outside_no_zero _ _ O) | cbn; intuition discriminate].
  - apply (outside_then_first pre p _ "<"%char O); [reflexivity | discriminate].
Qed.

(** The byte order mark. *)
Lemma bom_skipped l text : document l text -> parse_document (byte_order_mark ++ text) = Ok l.
Proof.
  intros D. rewrite <- (document_read l text D). apply document_outside in D. destruct D as [_ O].
  rewrite (parse_plain text); [ | exact (outside_no_zero _ _ O) | exact (outside_first _ _ O)].
  unfold parse_document. rewrite c_str_id.
  - unfold skip_bom. change [chr 239; chr 187; chr 191] with byte_order_mark. rewrite after_prefix_app. reflexivity.
  - apply in_app_not; [cbn; intuition discriminate | exact (outside_no_zero _ _ O)].
Qed.
