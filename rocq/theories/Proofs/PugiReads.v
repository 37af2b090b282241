(** Any spelling of a tree is read as that tree. *)
From Coq Require Import List Ascii String ZArith Bool Lia.
From Verif Require Import Proofs.Tac Model.Base Model.Text Model.Strings Model.PugiText Spec.Numerals Spec.XmlText Spec.XmlGrammar.
From Verif Require Import Proofs.TextProofs Proofs.StringsProofs Proofs.PugiProofs.
Import ListNotations.
Open Scope nat_scope.
Open Scope list_scope.

(** * References *)

Lemma chr_of a z : code a = z -> chr z = a.
Proof. intros <-. apply chr_code. Qed.

Lemma utf8_spec u e : utf8_bytes u e -> utf8 u = e.
Proof.
  unfold utf8. intros H. destruct H as [u a R A | u a b x y R E Y A B | u a b c x y z R E Y Z A B C | u a b c d x y z w R E Y Z W A B C D].
  - rewrite (proj2 (Z.ltb_lt _ _)) by lia. rewrite (chr_of a u A). reflexivity.
  - rewrite (proj2 (Z.ltb_ge u 128)) by lia. rewrite (proj2 (Z.ltb_lt u 2048)) by lia.
    assert (D1 : (u / 64 = x)%Z) by (symmetry; apply (Z.div_unique u 64 x y); lia).
    assert (M1 : (u mod 64 = y)%Z) by (symmetry; apply (Z.mod_unique u 64 x y); lia).
    rewrite D1, M1, (chr_of a _ A), (chr_of b _ B). reflexivity.
  - rewrite (proj2 (Z.ltb_ge u 128)) by lia. rewrite (proj2 (Z.ltb_ge u 2048)) by lia. rewrite (proj2 (Z.ltb_lt u 65536)) by lia.
    assert (D1 : (u / 64 = 64 * x + y)%Z) by (symmetry; apply (Z.div_unique u 64 (64 * x + y) z); lia).
    assert (M1 : (u mod 64 = z)%Z) by (symmetry; apply (Z.mod_unique u 64 (64 * x + y) z); lia).
    assert (D2 : (u / 4096 = x)%Z) by (symmetry; apply (Z.div_unique u 4096 x (64 * y + z)); lia).
    assert (M2 : ((64 * x + y) mod 64 = y)%Z) by (symmetry; apply (Z.mod_unique _ 64 x y); lia).
    rewrite D2, D1, M1, M2, (chr_of a _ A), (chr_of b _ B), (chr_of c _ C). reflexivity.
  - rewrite (proj2 (Z.ltb_ge u 128)) by lia. rewrite (proj2 (Z.ltb_ge u 2048)) by lia. rewrite (proj2 (Z.ltb_ge u 65536)) by lia.
    assert (D1 : (u / 64 = 4096 * x + 64 * y + z)%Z) by (symmetry; apply (Z.div_unique u 64 _ w); lia).
    assert (M1 : (u mod 64 = w)%Z) by (symmetry; apply (Z.mod_unique u 64 (4096 * x + 64 * y + z) w); lia).
    assert (D2 : (u / 4096 = 64 * x + y)%Z) by (symmetry; apply (Z.div_unique u 4096 _ (64 * z + w)); lia).
    assert (D3 : (u / 262144 = x)%Z) by (symmetry; apply (Z.div_unique u 262144 _ (4096 * y + 64 * z + w)); lia).
    assert (M2 : ((4096 * x + 64 * y + z) mod 64 = z)%Z) by (symmetry; apply (Z.mod_unique _ 64 (64 * x + y) z); lia).
    assert (M3 : ((64 * x + y) mod 64 = y)%Z) by (symmetry; apply (Z.mod_unique _ 64 x y); lia).
    rewrite D3, D2, D1, M1, M2, M3, (chr_of b _ B), (chr_of c _ C), (chr_of d _ D).
    assert (X : (x = 0 \/ x = 1 \/ x = 2 \/ x = 3 \/ x = 4)%Z) by lia.
    replace (Z.lor 240 x mod 256)%Z with (240 + x)%Z by (destruct X as [-> | [-> | [-> | [-> | ->]]]]; reflexivity).
    rewrite (chr_of a _ A). reflexivity.
Qed.

Lemma utf8_range u e : utf8_bytes u e -> (0 < u <= 1114111)%Z /\ ~ In "000"%char e /\ e <> [].
Proof.
  intros H. assert (Z0 : code "000"%char = 0%Z) by reflexivity.
  destruct H as [u a R A | u a b x y R E Y A B | u a b c x y z R E Y Z A B C | u a b c d x y z w R E Y Z W A B C D];
    (split; [lia | split; [ | discriminate]]); intros I; cbn [In] in I;
    repeat (destruct I as [-> | I]; [lia | ]); contradiction.
Qed.

Definition digit_fun (base : Z) : ascii -> option Z := if (base =? 16)%Z then hex_digit else dec_digit.

Lemma digit_read base c d : digit_value base c d -> base = 10%Z \/ base = 16%Z ->
  digit_fun base c = Some d /\ c <> ";"%char /\ c <> "x"%char /\ (0 <= d < base)%Z.
Proof.
  intros H B. unfold digit_fun, hex_digit, dec_digit, is_digit, digit_of.
  assert (S : code ";"%char = 59%Z) by reflexivity. assert (X : code "x"%char = 120%Z) by reflexivity.
  destruct H as [base c R | c R | c R].
  - repeat split; try (intros ->; lia); try (destruct B as [-> | ->]; lia).
    destruct B as [-> | ->]; cbn [Z.eqb Pos.eqb];
      rewrite (proj2 (Z.leb_le 48 (code c))), (proj2 (Z.leb_le (code c) 57)) by lia; reflexivity.
  - repeat split; try (intros ->; lia); try lia. cbn [Z.eqb Pos.eqb].
    rewrite (proj2 (Z.leb_gt (code c) 57)) by lia. rewrite andb_false_r.
    rewrite (proj2 (Z.leb_le 97 (code c))), (proj2 (Z.leb_le (code c) 102)) by lia. cbn [andb]. f_equal. lia.
  - repeat split; try (intros ->; lia); try lia. cbn [Z.eqb Pos.eqb].
    rewrite (proj2 (Z.leb_gt (code c) 57)) by lia. rewrite andb_false_r.
    rewrite (proj2 (Z.leb_gt 97 (code c))) by lia. cbn [andb].
    rewrite (proj2 (Z.leb_le 65 (code c))), (proj2 (Z.leb_le (code c) 70)) by lia. cbn [andb]. f_equal. lia.
Qed.

Lemma numeral_read base ds u : numeral base ds u -> base = 10%Z \/ base = 16%Z ->
  forall seen rest,
    char_reference base (digit_fun base) seen 0 (ds ++ rest) =
    char_reference base (digit_fun base) (seen ++ ds) (u mod 4294967296) rest.
Proof.
  intros H B. induction H as [c d D | s c u d H IH D]; intros seen rest.
  - cbn [app char_reference]. destruct (digit_read _ _ _ D B) as (E & _). rewrite E. rewrite Z.mul_0_r. reflexivity.
  - rewrite <- app_assoc. rewrite IH. cbn [app char_reference]. destruct (digit_read _ _ _ D B) as (E & _). rewrite E.
    rewrite <- app_assoc. f_equal.
    rewrite <- (Zplus_mod_idemp_l (base * (u mod 4294967296))). rewrite Zmult_mod_idemp_r. rewrite Zplus_mod_idemp_l. reflexivity.
Qed.

Lemma numeral_first base ds u : numeral base ds u -> exists c r d, ds = c :: r /\ digit_value base c d.
Proof.
  induction 1 as [c d D | s c u d H (c' & r & d' & -> & D') D]; [exists c, [], d; auto | ].
  exists c', (r ++ [c]), d'. split; [reflexivity | exact D'].
Qed.

Lemma semicolon_read base seen u rest : base = 10%Z \/ base = 16%Z ->
  char_reference base (digit_fun base) seen u (";"%char :: rest) = inl (u, rest).
Proof. intros [-> | ->]; reflexivity. Qed.

Lemma reference_read e r : reference e r ->
  exists r', r = "&"%char :: r' /\ (forall s, strconv_escape (r' ++ s) = (e, s)) /\ ~ In "000"%char e /\ e <> [] /\ ~ In "034"%char r /\ ~ In "'"%char r.
Proof.
  intros H.
  assert (NQ : forall base ds u c, numeral base ds u -> (code c < 48)%Z -> ~ In c ds).
  { intros base ds u c N L. induction N as [c' d D | s c' u d N IH D]; intros I.
    - destruct I as [-> | []]. inversion D; lia.
    - apply in_app_or in I. destruct I as [I | [-> | []]]; [exact (IH I) | inversion D; lia]. }
  destruct H as [ | | | | | ds u e N U | ds u e N U];
    try (eexists; split; [reflexivity | split; [intros s; reflexivity | repeat split; try discriminate; cbn; intuition discriminate]]).
  - destruct (utf8_range u e U) as (R & Z0 & NE).
    assert (SEE : forall c, (code c < 48)%Z -> c <> "&"%char -> c <> "#"%char -> ~ In c (lit "&#" ++ ds ++ lit ";")).
    { intros c L N1 N2 I. apply in_app_or in I. destruct I as [I | I].
      - cbn in I. intuition congruence.
      - apply in_app_or in I. destruct I as [I | I]; [exact (NQ _ _ _ _ N L I) | ]. cbn in I. destruct I as [<- | []]. cbv in L. discriminate L. }
    exists ("#"%char :: ds ++ lit ";"). split; [reflexivity | ]. split; [ | split; [exact Z0 | split; [exact NE | split; apply SEE; try reflexivity; discriminate]]].
    intros s. destruct (numeral_first _ _ _ N) as (c & r & d & -> & D).
    destruct (digit_read _ _ _ D (or_introl eq_refl)) as (_ & N1 & N2 & _).
    change (("#"%char :: (c :: r) ++ lit ";") ++ s) with ("#"%char :: c :: (r ++ lit ";") ++ s).
    replace (strconv_escape ("#"%char :: c :: (r ++ lit ";") ++ s))
      with (numbered_escape (char_reference 10 dec_digit (lit "&#") 0 (c :: (r ++ lit ";") ++ s))).
    2: { destruct c as [[] [] [] [] [] [] [] []]; try reflexivity; exfalso; (apply N1; reflexivity) || (apply N2; reflexivity). }
    replace (c :: (r ++ lit ";") ++ s) with ((c :: r) ++ lit ";" ++ s) by (cbn [app]; rewrite <- app_assoc; reflexivity).
    change dec_digit with (digit_fun 10). rewrite (numeral_read _ _ _ N (or_introl eq_refl)).
    change (lit ";" ++ s) with (";"%char :: s). rewrite semicolon_read by (left; reflexivity). cbn [numbered_escape].
    rewrite Z.mod_small by lia. rewrite (utf8_spec u e U). reflexivity.
  - destruct (utf8_range u e U) as (R & Z0 & NE).
    assert (SEE : forall c, (code c < 48)%Z -> c <> "&"%char -> c <> "#"%char -> ~ In c (lit "&#x" ++ ds ++ lit ";")).
    { intros c L N1 N2 I. apply in_app_or in I. destruct I as [I | I].
      - cbn in I. destruct I as [I | [I | [I | []]]]; [congruence | congruence | ]. rewrite <- I in L. cbv in L. discriminate L.
      - apply in_app_or in I. destruct I as [I | I]; [exact (NQ _ _ _ _ N L I) | ]. cbn in I. destruct I as [<- | []]. cbv in L. discriminate L. }
    exists ("#"%char :: "x"%char :: ds ++ lit ";"). split; [reflexivity | ]. split; [ | split; [exact Z0 | split; [exact NE | split; apply SEE; try reflexivity; discriminate]]].
    intros s. destruct (numeral_first _ _ _ N) as (c & r & d & -> & D).
    destruct (digit_read _ _ _ D (or_intror eq_refl)) as (_ & N1 & N2 & _).
    change (("#"%char :: "x"%char :: (c :: r) ++ lit ";") ++ s) with ("#"%char :: "x"%char :: c :: (r ++ lit ";") ++ s).
    replace (strconv_escape ("#"%char :: "x"%char :: c :: (r ++ lit ";") ++ s))
      with (numbered_escape (char_reference 16 hex_digit (lit "&#x") 0 (c :: (r ++ lit ";") ++ s))).
    2: { destruct c as [[] [] [] [] [] [] [] []]; try reflexivity; exfalso; (apply N1; reflexivity). }
    replace (c :: (r ++ lit ";") ++ s) with ((c :: r) ++ lit ";" ++ s) by (cbn [app]; rewrite <- app_assoc; reflexivity).
    change hex_digit with (digit_fun 16). rewrite (numeral_read _ _ _ N (or_intror eq_refl)).
    change (lit ";" ++ s) with (";"%char :: s). rewrite semicolon_read by (right; reflexivity). cbn [numbered_escape].
    rewrite Z.mod_small by lia. rewrite (utf8_spec u e U). reflexivity.
Qed.

(** * Text, attribute values and CDATA sections *)

Lemma pcdata_cr f r :
  strconv_pcdata (S f) ("013"%char :: r) = let (t, q) := strconv_pcdata f (drop_lf r) in ("010"%char :: t, q).
Proof. reflexivity. Qed.
Lemma attribute_cr f quote r : quote <> "013"%char ->
  strconv_attribute (S f) quote ("013"%char :: r) = option_map (fun q => (" "%char :: fst q, snd q)) (strconv_attribute f quote (drop_lf r)).
Proof.
  intros N. cbn [strconv_attribute]. rewrite (proj2 (Ascii.eqb_neq "013"%char quote)) by (intros E; apply N; symmetry; exact E).
  reflexivity.
Qed.
Lemma cdata_cr f r :
  strconv_cdata (S f) ("013"%char :: r) = option_map (fun q => ("010"%char :: fst q, snd q)) (strconv_cdata f (drop_lf r)).
Proof. reflexivity. Qed.

Lemma text_read t s : text_spelled t s ->
  forall f rest, rest = [] \/ hd_error rest = Some "<"%char -> List.length (s ++ rest) <= f ->
  strconv_pcdata f (s ++ rest) = (t, rest).
Proof.
  induction 1 as [ | c t s CH N1 N2 N3 H IH | t s H IH | t s NL H IH | e r t s R H IH]; intros f rest B L.
  - cbn [app] in *. destruct B as [-> | B]; [destruct f; reflexivity | ].
    destruct rest as [ | c rest]; [discriminate B | ]. injection B as ->. destruct f as [ | f]; [cbn in L; lia | ]. reflexivity.
  - cbn [app List.length] in L. destruct f as [ | f]; [lia | ]. cbn [app strconv_pcdata].
    rewrite (proj2 (Ascii.eqb_neq _ _) N1), (proj2 (Ascii.eqb_neq _ _) N3), (proj2 (Ascii.eqb_neq _ _) N2).
    rewrite IH by (auto; lia). reflexivity.
  - cbn [app List.length] in L. destruct f as [ | f]; [lia | ]. cbn [app strconv_pcdata Ascii.eqb Bool.eqb].
    rewrite IH by (auto; lia). reflexivity.
  - cbn [app List.length] in L. destruct f as [ | f]; [lia | ]. cbn [app]. rewrite pcdata_cr. rewrite drop_lf_none.
    + rewrite IH by (auto; lia). reflexivity.
    + destruct s as [ | c s]; [ | exact NL]. cbn [app]. destruct B as [-> | ->]; discriminate.
  - destruct (reference_read e r R) as (r' & -> & E & _). cbn [app List.length] in L. destruct f as [ | f]; [lia | ].
    cbn [app strconv_pcdata Ascii.eqb Bool.eqb]. rewrite <- app_assoc. rewrite E.
    rewrite !app_length in L. rewrite IH by (auto; rewrite app_length; lia). reflexivity.
Qed.

Lemma text_no_zero t s : text_spelled t s -> ~ In "000"%char s -> ~ In "000"%char t.
Proof.
  induction 1 as [ | c t s CH N1 N2 N3 H IH | t s H IH | t s NL H IH | e r t s R H IH]; intros Z0 I.
  - exact I.
  - destruct I as [-> | I]; [apply Z0; left; reflexivity | ]. apply IH; [ | exact I]. intros K. apply Z0. right. exact K.
  - destruct I as [E | I]; [discriminate E | ]. apply IH; [ | exact I]. intros K. apply Z0. right. right. exact K.
  - destruct I as [E | I]; [discriminate E | ]. apply IH; [ | exact I]. intros K. apply Z0. right. exact K.
  - destruct (reference_read e r R) as (r' & -> & _ & N & _). apply in_app_or in I. destruct I as [I | I]; [exact (N I) | ].
    apply IH; [ | exact I]. intros K. apply Z0. apply in_or_app. right. exact K.
Qed.

Lemma value_no_zero q t s : value_spelled q t s -> ~ In "000"%char s -> ~ In "000"%char t.
Proof.
  induction 1 as [ | c t s CH N1 N2 N3 N4 H IH | c t s B H IH | t s H IH | t s NL H IH | e r t s R H IH]; intros Z0 I.
  - exact I.
  - destruct I as [-> | I]; [apply Z0; left; reflexivity | ]. apply IH; [ | exact I]. intros K. apply Z0. right. exact K.
  - destruct I as [E | I]; [discriminate E | ]. apply IH; [ | exact I]. intros K. apply Z0. right. exact K.
  - destruct I as [E | I]; [discriminate E | ]. apply IH; [ | exact I]. intros K. apply Z0. right. right. exact K.
  - destruct I as [E | I]; [discriminate E | ]. apply IH; [ | exact I]. intros K. apply Z0. right. exact K.
  - destruct (reference_read e r R) as (r' & -> & _ & N & _). apply in_app_or in I. destruct I as [I | I]; [exact (N I) | ].
    apply IH; [ | exact I]. intros K. apply Z0. apply in_or_app. right. exact K.
Qed.

Lemma c_str_id t : ~ In "000"%char t -> c_str t = t.
Proof.
  induction t as [ | c r IH]; intros H; [reflexivity | ]. cbn [c_str].
  destruct (Z.eqb_spec (code c) 0) as [E | _].
  - exfalso. apply H. left. apply code_inj. exact E.
  - rewrite IH; [reflexivity | ]. intros K. apply H. right. exact K.
Qed.

Lemma value_read q t s : value_spelled q t s -> q = "034"%char \/ q = "'"%char ->
  forall f rest, List.length s < f -> strconv_attribute f q (s ++ [q] ++ rest) = Some (t, rest).
Proof.
  intros H Q. assert (QB : ~ blank q) by (unfold blank; destruct Q as [-> | ->]; intuition discriminate).
  assert (QA : q <> "&"%char) by (destruct Q as [-> | ->]; discriminate).
  assert (QL : q <> "010"%char) by (destruct Q as [-> | ->]; discriminate).
  induction H as [ | c t s CH N1 N2 N3 N4 H IH | c t s B H IH | t s H IH | t s NL H IH | e r t s R H IH]; intros f rest L;
    destruct f as [ | f]; try (cbn [List.length] in L; lia);
    [cbn [app strconv_attribute] | cbn [app strconv_attribute] | cbn [app strconv_attribute] | | | ].
  - rewrite Ascii.eqb_refl. reflexivity.
  - rewrite (proj2 (Ascii.eqb_neq _ _) N1), (proj2 (not_blank c) N4), (proj2 (Ascii.eqb_neq _ _) N3).
    cbn [app] in IH. rewrite IH by (cbn [List.length] in L; lia). reflexivity.
  - assert (BC : blank c) by (unfold blank; tauto).
    rewrite (proj2 (Ascii.eqb_neq c q)) by (intros ->; exact (QB BC)).
    rewrite (proj2 (blank_iff c) BC).
    replace (Ascii.eqb c "013") with false by (destruct B as [-> | [-> | ->]]; reflexivity).
    cbn [app] in IH. rewrite IH by (cbn [List.length] in L; lia). reflexivity.
  - cbn [app]. rewrite attribute_cr by (intros ->; apply QB; unfold blank; tauto). cbn [drop_lf].
    cbn [app] in IH. rewrite IH by (cbn [List.length] in L; lia). reflexivity.
  - cbn [app]. rewrite attribute_cr by (intros ->; apply QB; unfold blank; tauto). rewrite drop_lf_none.
    + cbn [app] in IH. rewrite IH by (cbn [List.length] in L; lia). reflexivity.
    + destruct s as [ | c s]; [cbn; intros E; injection E as E; exact (QL E) | exact NL].
  - destruct (reference_read e r R) as (r' & -> & E & _). cbn [app List.length] in *. rewrite app_length in L.
    cbn [strconv_attribute].
    rewrite (proj2 (Ascii.eqb_neq "&"%char q)) by (intros E'; apply QA; symmetry; exact E').
    replace (is_chartype "&" ct_space) with false by (vm_compute; reflexivity). cbn [Ascii.eqb Bool.eqb].
    rewrite <- app_assoc. rewrite E. rewrite IH by lia. reflexivity.
Qed.

Lemma line_ends_cr r : read_line_ends ("013"%char :: r) = "010"%char :: read_line_ends (drop_lf r).
Proof.
  destruct r as [ | d r]; [reflexivity | ]. cbn [read_line_ends Ascii.eqb Bool.eqb].
  destruct (Ascii.eqb_spec d "010") as [-> | N]; [reflexivity | ].
  rewrite drop_lf_none; [reflexivity | ]. cbn. intros E. injection E as E. exact (N E).
Qed.

Lemma cdata_read n : forall s f rest, List.length s <= n -> ~ occurs (lit "]]>") s -> List.length s < f ->
  strconv_cdata f (s ++ lit "]]>" ++ rest) = Some (read_line_ends s, rest).
Proof.
  induction n as [ | n IH]; intros s f rest LN NO L; (destruct f as [ | f]; [lia | ]).
  - destruct s as [ | c s]; [ | cbn in LN; lia]. reflexivity.
  - destruct s as [ | c s]; [reflexivity | ]. cbn [List.length] in *.
    assert (NO' : ~ occurs (lit "]]>") s).
    { intros (a & b & E). apply NO. exists (c :: a), b. rewrite E. reflexivity. }
    destruct (ascii_dec c "013") as [-> | NC].
    + rewrite line_ends_cr. cbn [app]. rewrite cdata_cr.
      assert (D : drop_lf (s ++ lit "]]>" ++ rest) = drop_lf s ++ lit "]]>" ++ rest).
      { destruct s as [ | d s]; [reflexivity | ]. destruct d as [[] [] [] [] [] [] [] []]; reflexivity. }
      rewrite D. pose proof (drop_lf_le s). rewrite IH; [reflexivity | lia | | lia].
      destruct s as [ | d s]; [exact NO' | ].
      destruct (ascii_dec d "010") as [-> | ND].
      * cbn [drop_lf]. intros (a & b & E). apply NO'. exists ("010"%char :: a), b. rewrite E. reflexivity.
      * rewrite drop_lf_none; [exact NO' | ]. cbn. intros E. injection E as E. exact (ND E).
    + assert (A : after_prefix (lit "]]>") (c :: s ++ lit "]]>" ++ rest) = None).
      { pose proof (scan_for_last ">" (lit "]]") (c :: s) rest) as F.
        change (lit "]]" ++ [">"%char]) with (lit "]]>") in F. cbn [app] in F.
        assert (F' : scan_for (lit "]]>") (c :: s ++ lit "]]>" ++ rest) = Some (c :: s, rest)).
        { apply F; [cbn; intuition discriminate | exact NO]. }
        cbn [scan_for] in F'. destruct (after_prefix (lit "]]>") (c :: s ++ lit "]]>" ++ rest)); [discriminate F' | reflexivity]. }
      cbn [app strconv_cdata read_line_ends]. rewrite A. rewrite (proj2 (Ascii.eqb_neq _ _) NC).
      rewrite IH by (auto; lia). reflexivity.
Qed.

(** * Tags *)

Lemma no_zero_app a b : ~ In "000"%char (a ++ b) -> ~ In "000"%char a /\ ~ In "000"%char b.
Proof. intros H. split; intros I; apply H; apply in_or_app; [left | right]; exact I. Qed.

Lemma letter_not_blank c : letter_byte c -> ~ blank c.
Proof. unfold letter_byte, letter, blank. intros H B. destruct B as [-> | [-> | [-> | ->]]]; destruct H as [[H | H] | [H | [H | H]]]; try discriminate H; cbv in H; intuition congruence. Qed.
Lemma blank_not_name c : blank c -> ~ name_byte c.
Proof. unfold name_byte, letter_byte, letter, blank. intros B H. destruct B as [-> | [-> | [-> | ->]]]; destruct H as [[[H | H] | [H | [H | H]]] | [H | [H | H]]]; try discriminate H; cbv in H; intuition congruence. Qed.
Lemma blank_not_letter c : blank c -> is_chartype c ct_start_symbol = false.
Proof. intros B. apply not_start. intros L. exact (letter_not_blank c L B). Qed.
Lemma blank_not_lt c : blank c -> c <> "<"%char.
Proof. unfold blank. intros B ->. intuition discriminate. Qed.

Lemma name_not_blank n s : xml_name n -> no_blank_first (n ++ s).
Proof. intros (c & r & -> & L & _) c' r' E. injection E as <- _. exact (letter_not_blank c L). Qed.

Definition tag_end (empty : bool) : str := if empty then lit "/>" else lit ">".

Lemma attributes_start l s w b rest : attributes_spelled l s -> blanks w -> starts_symbol (s ++ w ++ tag_end b ++ rest) = false.
Proof.
  intros H B. destruct H as [ | n v l w0 w1 w2 quote s r NE B0 _ _ _ _ _ _].
  - cbn [app]. destruct w as [ | c w]; [destruct b; reflexivity | ]. cbn [app starts_symbol].
    apply blank_not_letter. inversion B. assumption.
  - destruct w0 as [ | c w0]; [contradiction NE; reflexivity | ]. cbn [app starts_symbol]. apply blank_not_letter. inversion B0. assumption.
Qed.

Lemma blanks_no_name w s : blanks w -> no_name_first s -> no_name_first (w ++ s).
Proof.
  intros B N. destruct w as [ | c w]; [exact N | ]. intros c' r E. injection E as <- _. apply blank_not_name. inversion B. assumption.
Qed.

Lemma attributes_read l s : attributes_spelled l s -> ~ In "000"%char s ->
  forall f acc w b rest, blanks w -> List.length s < f ->
  parse_attributes f acc (s ++ w ++ tag_end b ++ rest) = Some (acc ++ l, b, rest).
Proof.
  induction 1 as [ | n v l w0 w1 w2 quote s r NE B0 XN B1 B2 Q V A IH]; intros Z0 f acc w b rest B L;
    (destruct f as [ | f]; [cbn in L; lia | ]); cbn [parse_attributes].
  - cbn [app]. rewrite skip_blanks by exact B.
    replace (skip_space (tag_end b ++ rest)) with (tag_end b ++ rest) by (destruct b; reflexivity).
    rewrite app_nil_r. destruct b; reflexivity.
  - replace ((w0 ++ n ++ w1 ++ ["="%char] ++ w2 ++ [quote] ++ s ++ [quote] ++ r) ++ w ++ tag_end b ++ rest)
      with (w0 ++ n ++ w1 ++ ["="%char] ++ w2 ++ [quote] ++ s ++ [quote] ++ r ++ w ++ tag_end b ++ rest)
      by (rewrite <- !app_assoc; reflexivity).
    rewrite skip_blanks by exact B0. rewrite skip_none by (apply name_not_blank; exact XN).
    rewrite xml_name_starts by exact XN.
    rewrite scan_name; [ | apply xml_name_bytes; exact XN | ].
    2: { apply blanks_no_name; [exact B1 | ]. intros c q E. injection E as <- _. unfold name_byte, letter_byte, letter. cbn. intuition (try discriminate; lia). }
    rewrite skip_blanks by exact B1.
    replace (skip_space (["="%char] ++ w2 ++ [quote] ++ s ++ [quote] ++ r ++ w ++ tag_end b ++ rest))
      with (["="%char] ++ w2 ++ [quote] ++ s ++ [quote] ++ r ++ w ++ tag_end b ++ rest) by reflexivity.
    change (lit "=") with ["="%char]. rewrite after_prefix_app.
    rewrite skip_blanks by exact B2.
    assert (QB : ~ blank quote) by (unfold blank; destruct Q as [-> | ->]; intuition discriminate).
    rewrite skip_none by (intros c q E; injection E as <- _; exact QB).
    cbn [app].
    replace (Ascii.eqb quote "034" || Ascii.eqb quote "'") with true by (destruct Q as [-> | ->]; reflexivity).
    assert (Z1 : ~ In "000"%char s /\ ~ In "000"%char r).
    { do 6 (apply no_zero_app in Z0; destruct Z0 as [_ Z0]).
      apply no_zero_app in Z0. destruct Z0 as [Zs Z0]. apply no_zero_app in Z0. destruct Z0 as [_ Zr]. split; assumption. }
    destruct Z1 as [Zs Zr].
    change (s ++ quote :: r ++ w ++ tag_end b ++ rest) with (s ++ [quote] ++ r ++ w ++ tag_end b ++ rest).
    rewrite (value_read quote v s V Q) by (rewrite !app_length; cbn; lia).
    rewrite attributes_start with (l := l) by assumption.
    rewrite c_str_id by (eapply value_no_zero; eassumption).
    rewrite IH; [rewrite <- app_assoc; reflexivity | exact Zr | exact B | ].
    rewrite !app_length in L. cbn in L. lia.
Qed.

Lemma attributes_skip f acc c s : blank c -> parse_attributes f acc (c :: s) = parse_attributes f acc s.
Proof.
  intros B. destruct f as [ | f]; [reflexivity | ]. cbn [parse_attributes skip_space]. rewrite (proj2 (blank_iff c) B). reflexivity.
Qed.

Lemma attributes_skip_space f acc s : parse_attributes f acc (skip_space s) = parse_attributes f acc s.
Proof.
  induction s as [ | c s IH]; [reflexivity | ]. cbn [skip_space].
  destruct (is_chartype c ct_space) eqn:E; [ | reflexivity]. rewrite IH. symmetry. apply attributes_skip. apply blank_iff. exact E.
Qed.

Definition opened (d : bool) (n : str) (l : list (str * str)) (b : bool) (open : list frame) (top : list xml) (rest : str) : parse_state :=
  if b then pop_node (mkFrame d n l []) open top rest else mkState (mkFrame d n l [] :: open) top rest.

Lemma open_tag_read d n l s w b rest open top x :
  attributes_spelled l s -> ~ In "000"%char s -> blanks w ->
  skip_space x = skip_space (s ++ w ++ tag_end b ++ rest) ->
  open_tag d n x open top = Next (opened d n l b open top rest).
Proof.
  intros A Z0 B E. unfold open_tag, opened.
  rewrite <- attributes_skip_space, E, attributes_skip_space.
  assert (K : parse_attributes (S (List.length x)) [] (s ++ w ++ tag_end b ++ rest) = Some (l, b, rest)).
  2: { rewrite K. destruct b; reflexivity. }
  (* the fuel is enough: what is left after the blanks is no longer than x *)
  destruct A as [ | n0 v l w0 w1 w2 quote sv r NE B0 XN B1 B2 Q V A].
  - exact (attributes_read [] [] attributes_end (fun H => H) (S (List.length x)) [] w b rest B ltac:(cbn; lia)).
  - set (core := n0 ++ w1 ++ ["="%char] ++ w2 ++ [quote] ++ sv ++ [quote] ++ r) in *.
    assert (LX : List.length (core ++ w ++ tag_end b ++ rest) <= List.length x).
    { etransitivity; [ | apply skip_space_le]. rewrite E.
      replace ((w0 ++ core) ++ w ++ tag_end b ++ rest) with (w0 ++ core ++ w ++ tag_end b ++ rest) by (rewrite <- app_assoc; reflexivity).
      rewrite skip_blanks by exact B0. rewrite skip_none; [lia | ].
      unfold core. rewrite <- !app_assoc. apply name_not_blank. exact XN. }
    destruct w0 as [ | c w0]; [contradiction NE; reflexivity | ].
    assert (A' : attributes_spelled ((n0, v) :: l) ([c] ++ core)).
    { apply attributes_next with (w := [c]); try assumption; [discriminate | constructor; [inversion B0; assumption | constructor]]. }
    replace (((c :: w0) ++ core) ++ w ++ tag_end b ++ rest) with ((c :: w0) ++ core ++ w ++ tag_end b ++ rest) by (rewrite <- app_assoc; reflexivity).
    rewrite <- attributes_skip_space. rewrite skip_blanks by exact B0.
    rewrite <- (skip_blanks [c]) by (constructor; [inversion B0; assumption | constructor]). rewrite attributes_skip_space.
    replace ([c] ++ core ++ w ++ tag_end b ++ rest) with (([c] ++ core) ++ w ++ tag_end b ++ rest) by (rewrite <- app_assoc; reflexivity).
    rewrite (attributes_read _ _ A').
    + reflexivity.
    + intros I. apply Z0. destruct I as [-> | I]; [left; reflexivity | apply in_or_app; right; exact I].
    + exact B.
    + assert (TE : 1 <= List.length (tag_end b)) by (destruct b; cbn; lia).
      clear - LX TE. rewrite !app_length in *. cbn [List.length]. lia.
Qed.

Lemma tag_end_no_name b rest : no_name_first (tag_end b ++ rest).
Proof. destruct b; intros c r E; injection E as <- _; unfold name_byte, letter_byte, letter; cbn; intuition (try discriminate; lia). Qed.

Lemma attributes_no_name l s w b rest : attributes_spelled l s -> blanks w -> no_name_first (s ++ w ++ tag_end b ++ rest).
Proof.
  intros A B. destruct A as [ | n v l w0 w1 w2 quote s r NE B0 _ _ _ _ _ _].
  - cbn [app]. apply blanks_no_name; [exact B | apply tag_end_no_name].
  - rewrite <- app_assoc. destruct w0 as [ | c w0]; [contradiction NE; reflexivity | ]. intros c' q E. injection E as <- _.
    apply blank_not_name. inversion B0. assumption.
Qed.

Lemma blank_first_prefix c a p s : blank c -> ~ blank a -> after_prefix (a :: p) (c :: s) = None.
Proof.
  intros B N. cbn [after_prefix]. rewrite (proj2 (Ascii.eqb_neq a c)); [reflexivity | ]. intros ->. exact (N B).
Qed.

Lemma tag_read n l s w b rest open top :
  xml_name n -> attributes_spelled l s -> ~ In "000"%char s -> blanks w ->
  parse_tag (n ++ s ++ w ++ tag_end b ++ rest) open top = Next (opened false n l b open top rest).
Proof.
  intros XN A Z0 B. unfold parse_tag. rewrite xml_name_starts by exact XN.
  rewrite scan_name; [ | apply xml_name_bytes; exact XN | apply attributes_no_name with (l := l); assumption].
  assert (CASES : (s ++ w = [] /\ l = []) \/ exists c q, s ++ w = c :: q /\ blank c).
  { destruct A as [ | n0 v l w0 w1 w2 quote s r NE B0 _ _ _ _ _ _].
    - cbn [app]. destruct w as [ | c w]; [left; auto | ]. right. exists c, w. split; [reflexivity | inversion B; assumption].
    - right. destruct w0 as [ | c w0]; [contradiction NE; reflexivity | ]. eexists c, _. split; [reflexivity | inversion B0; assumption]. }
  destruct CASES as [[E ->] | (c & q & E & BC)].
  - apply app_eq_nil in E. destruct E as [-> ->]. cbn [app]. destruct b; reflexivity.
  - replace (s ++ w ++ tag_end b ++ rest) with (c :: q ++ tag_end b ++ rest) by (rewrite (app_assoc s w), E; reflexivity).
    assert (N1 : after_prefix (lit ">") (c :: q ++ tag_end b ++ rest) = None).
    { apply (blank_first_prefix c ">"%char []); [exact BC | unfold blank; intuition discriminate]. }
    assert (N2 : after_prefix (lit "/>") (c :: q ++ tag_end b ++ rest) = None).
    { apply (blank_first_prefix c "/"%char [">"%char]); [exact BC | unfold blank; intuition discriminate]. }
    rewrite N1, N2. rewrite (proj2 (blank_iff c) BC).
    apply open_tag_read with (s := s) (w := w); try assumption.
    replace (s ++ w ++ tag_end b ++ rest) with (c :: q ++ tag_end b ++ rest) by (rewrite (app_assoc s w), E; reflexivity).
    cbn [skip_space]. rewrite (proj2 (blank_iff c) BC). reflexivity.
Qed.

(** * Nodes *)

Lemma occurs_tail p c s : ~ occurs p (c :: s) -> ~ occurs p s.
Proof. intros H (a & b & ->). apply H. exists (c :: a), b. reflexivity. Qed.

Lemma skip_space_suffix s : exists w, blanks w /\ s = w ++ skip_space s.
Proof.
  induction s as [ | c s (w & B & E)]; [exists []; split; [constructor | reflexivity] | ]. cbn [skip_space].
  destruct (is_chartype c ct_space) eqn:K; [ | exists []; split; [constructor | reflexivity]].
  exists (c :: w). split; [constructor; [apply blank_iff; exact K | exact B] | ]. cbn [app]. f_equal. exact E.
Qed.

Lemma skip_space_app s x : no_blank_first x -> skip_space (s ++ x) = skip_space s ++ x.
Proof.
  intros N. induction s as [ | c s IH]; [cbn [app]; apply skip_none; exact N | ]. cbn [app skip_space].
  destruct (is_chartype c ct_space); [exact IH | reflexivity].
Qed.

Lemma occurs_skip p s : ~ occurs p s -> ~ occurs p (skip_space s).
Proof. intros H (a & b & E). destruct (skip_space_suffix s) as (w & _ & S). apply H. exists (w ++ a), b. rewrite S, E, <- app_assoc. reflexivity. Qed.

Lemma is_xml_spec n : is_xml n = true -> reserved n.
Proof.
  unfold is_xml. destruct n as [ | a [ | b [ | c [ | d n]]]]; try discriminate.
  intros H. apply andb_true_iff in H. destruct H as [H C]. apply andb_true_iff in H. destruct H as [A B].
  assert (L : forall x y y', (forall c, is_letter c x = true -> c = y \/ c = y') -> True) by auto.
  assert (LX : forall c, is_letter c "x" = true -> c = "x"%char \/ c = "X"%char).
  { intros [[] [] [] [] [] [] [] []]; vm_compute; intros E; (discriminate E || auto). }
  assert (LM : forall c, is_letter c "m" = true -> c = "m"%char \/ c = "M"%char).
  { intros [[] [] [] [] [] [] [] []]; vm_compute; intros E; (discriminate E || auto). }
  assert (LL : forall c, is_letter c "l" = true -> c = "l"%char \/ c = "L"%char).
  { intros [[] [] [] [] [] [] [] []]; vm_compute; intros E; (discriminate E || auto). }
  exists a, b, c. auto.
Qed.

Lemma not_reserved n : ~ reserved n -> is_xml n = false.
Proof. intros H. destruct (is_xml n) eqn:E; [ | reflexivity]. exfalso. apply H. apply is_xml_spec. exact E. Qed.

(** No declaration is open. *)
Definition plain_open (open : list frame) : Prop := match open with f :: _ => fr_declaration f = false | [] => True end.

Lemma after_question_plain x open top rest : plain_open open -> after_question (add_node x open top rest) = Next (add_node x open top rest).
Proof. intros P. unfold after_question. destruct open as [ | f open]; [reflexivity | ]. cbn in *. rewrite P. reflexivity. Qed.

Lemma question_mark_not_name rest : no_name_first (lit "?>" ++ rest).
Proof. intros c r E; injection E as <- _; unfold name_byte, letter_byte, letter; cbn; intuition (try discriminate; lia). Qed.

Lemma instruction_read n open top rest :
  xml_name n -> ~ reserved n -> plain_open open ->
  parse_question (n ++ lit "?>" ++ rest) open top = Next (add_node (XInstruction n None) open top rest).
Proof.
  intros XN R P. unfold parse_question. rewrite xml_name_starts by exact XN. cbn [negb].
  rewrite scan_name; [ | apply xml_name_bytes; exact XN | apply question_mark_not_name].
  rewrite (not_reserved n R). rewrite after_prefix_app. apply after_question_plain. exact P.
Qed.

Lemma instruction_data_read n w d open top rest :
  xml_name n -> ~ reserved n -> w <> [] -> blanks w -> ~ occurs (lit "?>") d -> no_blank_first d -> plain_open open ->
  parse_question (n ++ w ++ d ++ lit "?>" ++ rest) open top = Next (add_node (XInstruction n (Some d)) open top rest).
Proof.
  intros XN R NE B NO NB P. unfold parse_question. rewrite xml_name_starts by exact XN. cbn [negb].
  destruct w as [ | c w]; [contradiction NE; reflexivity | ]. clear NE. inversion B as [ | ? ? BC BW]; subst.
  rewrite scan_name; [ | apply xml_name_bytes; exact XN | intros c' r E; injection E as <- _; apply blank_not_name; exact BC].
  rewrite (not_reserved n R). cbn [app].
  rewrite (blank_first_prefix c "?"%char [">"%char]); [ | exact BC | unfold blank; intuition discriminate].
  rewrite (proj2 (blank_iff c) BC). rewrite skip_blanks by exact BW.
  rewrite skip_none.
  2: { destruct d as [ | z d]; [intros c' r E; injection E as <- _; unfold blank; intuition discriminate | ].
       intros c' r E. injection E as <- _. exact (NB z d eq_refl). }
  pose proof (scan_for_last ">" ["?"%char] d rest) as F. cbn [app] in F.
  change (lit "?>") with ["?"%char; ">"%char] in *. cbn [app] in *. rewrite F; [ | cbn; intuition discriminate | exact NO].
  apply after_question_plain. exact P.
Qed.

Lemma close_read n w f open top rest :
  xml_name n -> blanks w -> fr_name f = n ->
  parse_tag (lit "/" ++ n ++ w ++ lit ">" ++ rest) (f :: open) top = Next (pop_node f open top rest).
Proof.
  intros XN B E. unfold parse_tag. replace (starts_symbol (lit "/" ++ n ++ w ++ lit ">" ++ rest)) with false by reflexivity.
  rewrite after_prefix_app.
  rewrite scan_name; [ | apply xml_name_bytes; exact XN | apply blanks_no_name; [exact B | apply (tag_end_no_name false)]].
  rewrite E. rewrite (proj2 (str_eqb_eq n n) eq_refl). rewrite skip_blanks by exact B.
  replace (skip_space (lit ">" ++ rest)) with (lit ">" ++ rest) by reflexivity. rewrite after_prefix_app. reflexivity.
Qed.

Lemma lt_step open top s : parse_step (mkState open top (lit "<" ++ s)) = parse_tag s open top.
Proof. reflexivity. Qed.

Lemma cdata_step s open top rest : ~ occurs (lit "]]>") s ->
  parse_tag (lit "![CDATA[" ++ s ++ lit "]]>" ++ rest) open top = Next (add_node (XCData (read_line_ends s)) open top rest).
Proof.
  intros NO. unfold parse_tag.
  change (starts_symbol (lit "![CDATA[" ++ s ++ lit "]]>" ++ rest)) with false. cbv iota.
  change (after_prefix (lit "/") (lit "![CDATA[" ++ s ++ lit "]]>" ++ rest)) with (@None str).
  change (after_prefix (lit "?") (lit "![CDATA[" ++ s ++ lit "]]>" ++ rest)) with (@None str).
  change (after_prefix (lit "!") (lit "![CDATA[" ++ s ++ lit "]]>" ++ rest)) with (Some (lit "[CDATA[" ++ s ++ lit "]]>" ++ rest)).
  cbv iota. unfold parse_exclamation.
  change (after_prefix (lit "--") (lit "[CDATA[" ++ s ++ lit "]]>" ++ rest)) with (@None str).
  rewrite after_prefix_app. rewrite (cdata_read (List.length s)); [reflexivity | lia | exact NO | rewrite !app_length; cbn; lia].
Qed.

Lemma comment_step s open top rest : ~ occurs (lit "-->") s ->
  parse_tag (lit "!--" ++ s ++ lit "-->" ++ rest) open top = Next (mkState open top rest).
Proof.
  intros NO. unfold parse_tag.
  change (starts_symbol (lit "!--" ++ s ++ lit "-->" ++ rest)) with false. cbv iota.
  change (after_prefix (lit "/") (lit "!--" ++ s ++ lit "-->" ++ rest)) with (@None str).
  change (after_prefix (lit "?") (lit "!--" ++ s ++ lit "-->" ++ rest)) with (@None str).
  change (after_prefix (lit "!") (lit "!--" ++ s ++ lit "-->" ++ rest)) with (Some (lit "--" ++ s ++ lit "-->" ++ rest)).
  cbv iota. unfold parse_exclamation. rewrite after_prefix_app.
  pose proof (scan_for_last ">" (lit "--") s rest) as F. change (lit "--" ++ [">"%char]) with (lit "-->") in F.
  rewrite F; [reflexivity | cbn; intuition discriminate | exact NO].
Qed.

(** * Text between tags *)

Lemma numeral_no_lt base ds u : numeral base ds u -> ~ In "<"%char ds.
Proof.
  assert (D : forall b c d, digit_value b c d -> c <> "<"%char).
  { intros b c d H ->. inversion H; subst; cbv in *; intuition congruence. }
  induction 1 as [c d H | s c u d N IH H]; intros I.
  - destruct I as [E | []]. exact (D _ _ _ H E).
  - apply in_app_or in I. destruct I as [I | [E | []]]; [exact (IH I) | exact (D _ _ _ H E)].
Qed.

Lemma reference_no_lt e r : reference e r -> ~ In "<"%char r.
Proof.
  intros H. destruct H as [ | | | | | ds u e N U | ds u e N U]; try (cbn; intuition discriminate).
  - intros I. apply in_app_or in I. destruct I as [I | I]; [cbn in I; intuition discriminate | ].
    apply in_app_or in I. destruct I as [I | I]; [exact (numeral_no_lt _ _ _ N I) | cbn in I; intuition discriminate].
  - intros I. apply in_app_or in I. destruct I as [I | I]; [cbn in I; intuition discriminate | ].
    apply in_app_or in I. destruct I as [I | I]; [exact (numeral_no_lt _ _ _ N I) | cbn in I; intuition discriminate].
Qed.

Lemma text_no_lt t s : text_spelled t s -> ~ In "<"%char s.
Proof.
  induction 1 as [ | c t s CH N1 N2 N3 H IH | t s H IH | t s NL H IH | e r t s R H IH]; intros I.
  - exact I.
  - destruct I as [E | I]; [exact (N1 E) | exact (IH I)].
  - destruct I as [E | [E | I]]; [discriminate E | discriminate E | exact (IH I)].
  - destruct I as [E | I]; [discriminate E | exact (IH I)].
  - apply in_app_or in I. destruct I as [I | I]; [exact (reference_no_lt _ _ R I) | exact (IH I)].
Qed.

Lemma not_blanks_skip s x : ~ blanks s -> ~ In "<"%char s -> exists c q, skip_space (s ++ x) = c :: q /\ c <> "<"%char.
Proof.
  induction s as [ | c s IH]; intros NB NL; [contradiction NB; constructor | ]. cbn [app skip_space].
  destruct (is_chartype c ct_space) eqn:K.
  - apply IH; [ | intros I; apply NL; right; exact I]. intros B. apply NB. constructor; [apply blank_iff; exact K | exact B].
  - exists c, (s ++ x). split; [reflexivity | ]. intros ->. apply NL. left. reflexivity.
Qed.

Lemma blank_step w open top rest : blanks w -> hd_error rest = Some "<"%char ->
  result (mkState open top (w ++ rest)) = result (mkState open top rest).
Proof.
  intros B H. destruct w as [ | c w]; [reflexivity | ]. apply result_next.
  unfold parse_step. cbn [ps_text ps_open ps_top app]. inversion B as [ | ? ? BC BW]; subst.
  change (lit "<") with ["<"%char]. rewrite blank_first_prefix; [ | exact BC | unfold blank; intuition discriminate].
  change (c :: w ++ rest) with ((c :: w) ++ rest). rewrite skip_blanks by exact B.
  destruct rest as [ | z rest]; [discriminate H | ]. injection H as ->. reflexivity.
Qed.

Lemma text_step t s f open top rest :
  text_spelled t s -> ~ In "000"%char s -> ~ blanks s -> hd_error rest = Some "<"%char ->
  parse_step (mkState (f :: open) top (s ++ rest)) = Next (add_node (XText t) (f :: open) top rest).
Proof.
  intros T Z0 NB H. pose proof (text_no_lt t s T) as NL.
  destruct s as [ | c s]; [contradiction NB; constructor | ]. unfold parse_step. cbn [ps_text ps_open ps_top app].
  assert (A : after_prefix (lit "<") (c :: s ++ rest) = None).
  { cbn [lit list_ascii_of_string after_prefix]. destruct (ascii_dec c "<") as [-> | N]; [exfalso; apply NL; left; reflexivity | ].
    rewrite (proj2 (Ascii.eqb_neq "<"%char c)) by (intros E; apply N; symmetry; exact E). reflexivity. }
  rewrite A. change (c :: s ++ rest) with ((c :: s) ++ rest).
  destruct (not_blanks_skip (c :: s) rest NB NL) as (z & q & E & NZ). rewrite E.
  rewrite (proj2 (Ascii.eqb_neq _ _) NZ).
  rewrite (text_read t (c :: s) T) by (auto; right; exact H). rewrite c_str_id by (eapply text_no_zero; eassumption). reflexivity.
Qed.

(** * Elements *)

Scheme node_ind2 := Induction for node_spelled Sort Prop
with content_ind2 := Induction for content_spelled Sort Prop.
Combined Scheme spelled_ind from node_ind2, content_ind2.

Definition with_children (f : frame) (l : list xml) : frame :=
  mkFrame (fr_declaration f) (fr_name f) (fr_attributes f) (rev l ++ fr_children f).

Lemma node_first x s : node_spelled x s -> hd_error s = Some "<"%char.
Proof. intros H. destruct H; reflexivity. Qed.

Lemma spelled_read :
  (forall x s, node_spelled x s -> ~ In "000"%char s -> forall open top rest, plain_open open ->
     result (mkState open top (s ++ rest)) = result (add_node x open top rest)) /\
  (forall l s, content_spelled l s -> ~ In "000"%char s -> forall f open top rest, fr_declaration f = false -> hd_error rest = Some "<"%char ->
     result (mkState (f :: open) top (s ++ rest)) = result (mkState (with_children f l :: open) top rest)).
Proof.
  apply spelled_ind.
  - intros n l s w XN A B Z0 open top rest P.
    apply no_zero_app in Z0. destruct Z0 as [_ Z0]. apply no_zero_app in Z0. destruct Z0 as [_ Z0]. apply no_zero_app in Z0. destruct Z0 as [Zs _].
    apply result_next. rewrite <- !app_assoc. rewrite lt_step.
    exact (tag_read n l s w true rest open top XN A Zs B).
  - intros n l s w kids c w' XN A B C IH B' Z0 open top rest P.
    apply no_zero_app in Z0. destruct Z0 as [_ Z0]. apply no_zero_app in Z0. destruct Z0 as [_ Z0].
    apply no_zero_app in Z0. destruct Z0 as [Zs Z0]. apply no_zero_app in Z0. destruct Z0 as [_ Z0].
    apply no_zero_app in Z0. destruct Z0 as [_ Z0]. apply no_zero_app in Z0. destruct Z0 as [Zc _].
    rewrite <- !app_assoc.
    rewrite (result_next _ (opened false n l false open top (c ++ lit "</" ++ n ++ w' ++ lit ">" ++ rest))).
    2: { rewrite lt_step. exact (tag_read n l s w false _ open top XN A Zs B). }
    unfold opened. rewrite IH by (auto; reflexivity).
    change (lit "</" ++ n ++ w' ++ lit ">" ++ rest) with (lit "<" ++ lit "/" ++ n ++ w' ++ lit ">" ++ rest).
    apply result_next. rewrite lt_step. rewrite close_read by (auto; reflexivity).
    unfold pop_node, closed_frame, with_children. cbn [fr_declaration fr_name fr_attributes fr_children].
    rewrite app_nil_r, rev_involutive. reflexivity.
  - intros n XN R Z0 open top rest P. apply result_next. rewrite <- !app_assoc.
    change (lit "<?" ++ n ++ lit "?>" ++ rest) with (lit "<" ++ lit "?" ++ n ++ lit "?>" ++ rest). rewrite lt_step.
    change (parse_tag (lit "?" ++ n ++ lit "?>" ++ rest) open top) with (parse_question (n ++ lit "?>" ++ rest) open top).
    apply instruction_read; assumption.
  - intros n w d XN R NE B NO CH NB Z0 open top rest P. apply result_next. rewrite <- !app_assoc.
    change (lit "<?" ++ n ++ w ++ d ++ lit "?>" ++ rest) with (lit "<" ++ lit "?" ++ n ++ w ++ d ++ lit "?>" ++ rest). rewrite lt_step.
    change (parse_tag (lit "?" ++ n ++ w ++ d ++ lit "?>" ++ rest) open top) with (parse_question (n ++ w ++ d ++ lit "?>" ++ rest) open top).
    apply instruction_data_read; assumption.
  - intros s NO CH Z0 open top rest P. apply result_next. rewrite <- !app_assoc.
    change (lit "<![CDATA[" ++ s ++ lit "]]>" ++ rest) with (lit "<" ++ lit "![CDATA[" ++ s ++ lit "]]>" ++ rest). rewrite lt_step.
    apply cdata_step. exact NO.
  - intros w B Z0 f open top rest D H. rewrite blank_step by assumption. destruct f; reflexivity.
  - intros w x s l r B N IHN C IHC Z0 f open top rest D H.
    apply no_zero_app in Z0. destruct Z0 as [_ Z0]. apply no_zero_app in Z0. destruct Z0 as [Zs Zr].
    rewrite <- !app_assoc. rewrite blank_step; [ | exact B | ].
    2: { pose proof (node_first x s N) as F. destruct s; [discriminate F | exact F]. }
    rewrite IHN by assumption. cbn [add_node]. rewrite IHC by assumption.
    unfold with_children. cbn [fr_declaration fr_name fr_attributes fr_children rev]. rewrite <- app_assoc. reflexivity.
  - intros w s l r B NO CH C IHC Z0 f open top rest D H.
    apply no_zero_app in Z0. destruct Z0 as [_ Z0]. apply no_zero_app in Z0. destruct Z0 as [_ Z0]. apply no_zero_app in Z0. destruct Z0 as [_ Z0].
    apply no_zero_app in Z0. destruct Z0 as [_ Zr].
    rewrite <- !app_assoc. rewrite blank_step by (auto; reflexivity).
    change (lit "<!--" ++ s ++ lit "-->" ++ r ++ rest) with (lit "<" ++ lit "!--" ++ s ++ lit "-->" ++ r ++ rest).
    rewrite (result_next _ (mkState (f :: open) top (r ++ rest))).
    + apply IHC; assumption.
    + rewrite lt_step. apply comment_step. exact NO.
  - intros t s l r T NB R C IHC Z0 f open top rest D H.
    apply no_zero_app in Z0. destruct Z0 as [Zs Zr]. rewrite <- app_assoc.
    rewrite (result_next _ (add_node (XText t) (f :: open) top (r ++ rest))).
    + cbn [add_node]. rewrite IHC by assumption. unfold with_children. cbn [fr_declaration fr_name fr_attributes fr_children rev].
      rewrite <- app_assoc. reflexivity.
    + apply text_step; try assumption. destruct R as [-> | R]; [exact H | ]. destruct r; [discriminate R | exact R].
Qed.

(** * Documents *)

Lemma doctype_read v : doctype_spelled v -> forall f seen rest, List.length v < f ->
  parse_doctype_group f 0 0 seen (v ++ lit ">" ++ rest) = Some (rev v ++ seen, rest).
Proof.
  induction 1 as [ | c s CH N D IH | quote p s Q NI CH D IH]; intros f seen rest L; (destruct f as [ | f]; [lia | ]).
  - reflexivity.
  - cbn [List.length] in L.
    assert (NL : c <> "<"%char) by (intros ->; apply N; cbn; tauto).
    assert (NG : c <> ">"%char) by (intros ->; apply N; cbn; tauto).
    assert (N1 : c <> "034"%char) by (intros ->; apply N; cbn; tauto).
    assert (N2 : c <> "'"%char) by (intros ->; apply N; cbn; tauto).
    assert (P : forall m, after_prefix ("<"%char :: m) (c :: s ++ lit ">" ++ rest) = None).
    { intros m. cbn [after_prefix]. rewrite (proj2 (Ascii.eqb_neq "<"%char c)) by (intros E; apply NL; symmetry; exact E). reflexivity. }
    cbn [app parse_doctype_group]. change (lit "<![") with ("<"%char :: lit "!["). change (lit "<!-") with ("<"%char :: lit "!-").
    change (lit "<!") with ("<"%char :: lit "!"). rewrite !P.
    rewrite (proj2 (Ascii.eqb_neq _ _) N1), (proj2 (Ascii.eqb_neq _ _) N2), (proj2 (Ascii.eqb_neq _ _) NL), (proj2 (Ascii.eqb_neq _ _) NG).
    cbn [orb rev app]. rewrite IH by lia. rewrite <- app_assoc. reflexivity.
  - rewrite !app_length in L. cbn [List.length] in L. rewrite <- !app_assoc.
    assert (NL : quote <> "<"%char) by (destruct Q as [-> | ->]; discriminate).
    assert (P : forall m x, after_prefix ("<"%char :: m) (quote :: x) = None).
    { intros m x. cbn [after_prefix]. rewrite (proj2 (Ascii.eqb_neq "<"%char quote)) by (intros E; apply NL; symmetry; exact E). reflexivity. }
    change ([quote] ++ p ++ [quote] ++ s ++ lit ">" ++ rest) with (quote :: p ++ [quote] ++ s ++ lit ">" ++ rest).
    cbn [parse_doctype_group]. change (lit "<![") with ("<"%char :: lit "!["). change (lit "<!-") with ("<"%char :: lit "!-").
    change (lit "<!") with ("<"%char :: lit "!"). rewrite !P.
    replace (Ascii.eqb quote "034" || Ascii.eqb quote "'") with true by (destruct Q as [-> | ->]; reflexivity).
    pose proof (scan_for_last quote [] p (s ++ lit ">" ++ rest)) as F. cbn [app] in F. cbn [app].
    rewrite F.
    + rewrite IH by lia. f_equal. f_equal. cbn [rev]. rewrite !rev_app_distr. cbn [rev app]. rewrite <- !app_assoc. cbn [app]. reflexivity.
    + intros [].
    + intros (a & b & E). apply NI. rewrite E. apply in_or_app. right. left. reflexivity.
Qed.

Lemma blanks_doctype w v : blanks w -> doctype_spelled v -> doctype_spelled (w ++ v).
Proof.
  induction 1 as [ | c w B _ IH]; intros D; [exact D | ]. cbn [app]. apply doctype_char; [unfold character; intros ->; unfold blank in B; intuition discriminate | | apply IH; exact D].
  unfold blank in B. cbn. destruct B as [-> | [-> | [-> | ->]]]; intuition discriminate.
Qed.

Lemma doctype_step w v top rest : blanks w -> doctype_spelled v -> no_blank_first v ->
  parse_tag (lit "!DOCTYPE" ++ w ++ v ++ lit ">" ++ rest) [] top = Next (add_node (XDoctype v) [] top rest).
Proof.
  intros B D NB.
  change (parse_tag (lit "!DOCTYPE" ++ w ++ v ++ lit ">" ++ rest) [] top)
    with (match parse_doctype_group (List.length (w ++ v ++ lit ">" ++ rest)) 0 0 [] (w ++ v ++ lit ">" ++ rest) with
          | Some (seen, r) => Next (add_node (XDoctype (skip_space (rev seen))) [] top r)
          | None => Failed end).
  replace (w ++ v ++ lit ">" ++ rest) with ((w ++ v) ++ lit ">" ++ rest) by (rewrite <- app_assoc; reflexivity).
  rewrite doctype_read; [ | apply blanks_doctype; assumption | rewrite !app_length; cbn [List.length lit list_ascii_of_string]; lia].
  rewrite app_nil_r, rev_involutive. rewrite skip_blanks by exact B. rewrite skip_none by exact NB. reflexivity.
Qed.

Lemma top_read l s : top_spelled l s -> ~ In "000"%char s -> forall top,
  existsb is_element (rev l ++ top) = true -> result (mkState [] top s) = Ok (rev top ++ l).
Proof.
  induction 1 as [w B | w x s l r B N X T IH | w s l r B NO CH T IH | w w1 v l r B NE B1 D NB T IH]; intros Z0 top EX.
  - assert (E0 : result (mkState [] top []) = Ok (rev top ++ [])).
    { cbn [rev app] in EX. unfold result. cbn [ps_text List.length parse_loop parse_step ps_open ps_top]. rewrite EX. rewrite app_nil_r. reflexivity. }
    destruct w as [ | c w]; [exact E0 | ].
    rewrite (result_next _ (mkState [] top [])); [exact E0 | ].
    unfold parse_step. cbn [ps_text ps_open ps_top]. inversion B as [ | ? ? BC BW]; subst.
    change (lit "<") with ["<"%char]. rewrite blank_first_prefix; [ | exact BC | unfold blank; intuition discriminate].
    rewrite skip_all by exact B. reflexivity.
  - apply no_zero_app in Z0. destruct Z0 as [_ Z0]. apply no_zero_app in Z0. destruct Z0 as [Zs Zr].
    rewrite blank_step; [ | exact B | ].
    2: { pose proof (node_first x s N) as F. destruct s; [discriminate F | exact F]. }
    rewrite (proj1 spelled_read x s N Zs) by exact I. cbn [add_node]. rewrite IH; [ | exact Zr | ].
    + cbn [rev]. rewrite <- app_assoc. reflexivity.
    + cbn [rev] in EX. rewrite <- app_assoc in EX. exact EX.
  - do 4 (apply no_zero_app in Z0; destruct Z0 as [_ Z0]).
    rewrite blank_step by (auto; reflexivity).
    change (lit "<!--" ++ s ++ lit "-->" ++ r) with (lit "<" ++ lit "!--" ++ s ++ lit "-->" ++ r).
    rewrite (result_next _ (mkState [] top r)); [apply IH; assumption | ]. rewrite lt_step. apply comment_step. exact NO.
  - do 5 (apply no_zero_app in Z0; destruct Z0 as [_ Z0]).
    rewrite blank_step by (auto; reflexivity).
    change (lit "<!DOCTYPE" ++ w1 ++ v ++ lit ">" ++ r) with (lit "<" ++ lit "!DOCTYPE" ++ w1 ++ v ++ lit ">" ++ r).
    rewrite (result_next _ (add_node (XDoctype v) [] top r)).
    + cbn [add_node]. rewrite IH; [ | exact Z0 | ].
      * cbn [rev]. rewrite <- app_assoc. reflexivity.
      * cbn [rev] in EX. rewrite <- app_assoc in EX. exact EX.
    + rewrite lt_step. apply doctype_step; assumption.
Qed.

(** Names are recognised by computation. *)
Definition is_name (n : str) : bool := match n with c :: r => is_chartype c ct_start_symbol && forallb (fun z => is_chartype z ct_symbol) r | [] => false end.
Lemma is_name_iff n : is_name n = true <-> xml_name n.
Proof.
  unfold is_name, xml_name. destruct n as [ | c r]; [split; [discriminate | intros (? & ? & E & _); discriminate E] | ].
  rewrite andb_true_iff, start_iff, forallb_forall. split.
  - intros [L F]. exists c, r. split; [reflexivity | split; [exact L | ]]. apply Forall_forall. intros z I. apply symbol_iff. exact (F z I).
  - intros (c' & r' & E & L & F). injection E as <- <-. split; [exact L | ]. intros z I. apply symbol_iff. exact (proj1 (Forall_forall _ _) F z I).
Qed.

Lemma xml_is_name : xml_name (lit "xml").
Proof. apply is_name_iff. vm_compute. reflexivity. Qed.

Lemma declaration_step d s rest : declaration_spelled d s -> ~ In "000"%char s ->
  result (mkState [] [] (s ++ rest)) = result (mkState [] [XDeclaration (lit "xml") d []] rest).
Proof.
  intros (a & w & A & NE & B & NO & ->) Z0.
  apply no_zero_app in Z0. destruct Z0 as [_ Z0]. apply no_zero_app in Z0. destruct Z0 as [Za _].
  rewrite <- !app_assoc.
  change (lit "<?xml" ++ a ++ w ++ lit "?>" ++ rest) with (lit "<" ++ lit "?" ++ lit "xml" ++ a ++ w ++ lit "?>" ++ rest).
  apply result_next. rewrite lt_step.
  change (parse_tag (lit "?" ++ lit "xml" ++ a ++ w ++ lit "?>" ++ rest) [] []) with (parse_question (lit "xml" ++ a ++ w ++ lit "?>" ++ rest) [] []).
  assert (FB : exists c q, a = c :: q /\ blank c).
  { destruct A as [ | n0 v l w0 w1 w2 quote sv r NE0 B0 _ _ _ _ _ _]; [contradiction NE; reflexivity | ].
    destruct w0 as [ | c w0]; [contradiction NE0; reflexivity | ]. eexists c, _. split; [reflexivity | inversion B0; assumption]. }
  destruct FB as (c & q & E & BC).
  unfold parse_question. rewrite xml_name_starts by exact xml_is_name. cbn [negb].
  rewrite scan_name; [ | apply xml_name_bytes; exact xml_is_name | ].
  2: { rewrite E. intros c' r E'. injection E' as <- _. apply blank_not_name. exact BC. }
  replace (is_xml (lit "xml")) with true by reflexivity. rewrite E. cbn [app].
  change (lit "?>") with ["?"%char; ">"%char]. rewrite blank_first_prefix; [ | exact BC | unfold blank; intuition discriminate].
  rewrite (proj2 (blank_iff c) BC).
  rewrite (app_assoc q w). rewrite skip_space_app.
  2: { intros c' r E'. injection E' as <- _. unfold blank. intuition discriminate. }
  pose proof (scan_for_last ">" ["?"%char] (skip_space (q ++ w)) rest) as F. cbn [app] in F. cbn [app].
  rewrite F; [ | cbn; intuition discriminate | ].
  2: { apply occurs_skip. rewrite E in NO. cbn [app] in NO. apply occurs_tail in NO. exact NO. }
  rewrite (open_tag_read true (lit "xml") d a w true rest); try assumption.
  - reflexivity.
  - rewrite <- skip_space_app by (intros c' r E'; injection E' as <- _; unfold blank; intuition discriminate).
    rewrite E. cbn [app tag_end]. cbn [skip_space]. rewrite (proj2 (blank_iff c) BC).
    rewrite <- (app_assoc q w). 
    assert (ID : forall x, skip_space (skip_space x) = skip_space x).
    { intros x. induction x as [ | z x IH]; [reflexivity | ]. cbn [skip_space]. destruct (is_chartype z ct_space) eqn:K; [exact IH | ].
      cbn [skip_space]. rewrite K. reflexivity. }
    apply ID.
Qed.

Lemma skip_bom_none s : hd_error s <> Some (chr 239) -> skip_bom s = s.
Proof.
  intros H. unfold skip_bom. destruct s as [ | c s]; [reflexivity | ]. cbn [after_prefix].
  rewrite (proj2 (Ascii.eqb_neq (chr 239) c)); [reflexivity | ]. intros <-. apply H. reflexivity.
Qed.

Lemma top_first l s : top_spelled l s -> s = [] \/ exists c r, s = c :: r /\ (blank c \/ c = "<"%char).
Proof.
  intros H. assert (W : forall w x, blanks w -> hd_error x = Some "<"%char -> exists c r, w ++ x = c :: r /\ (blank c \/ c = "<"%char)).
  { intros w x B E. destruct w as [ | c w]; [ | exists c, (w ++ x); split; [reflexivity | left; inversion B; assumption]].
    destruct x as [ | c x]; [discriminate E | ]. injection E as ->. exists "<"%char, x. auto. }
  destruct H as [w B | w x s l r B N X T | w s l r B NO CH T | w w1 v l r B NE B1 D NB T].
  - destruct w as [ | c w]; [left; reflexivity | ]. right. exists c, w. split; [reflexivity | left; inversion B; assumption].
  - right. apply W; [exact B | ]. pose proof (node_first x s N) as F. destruct s; [discriminate F | exact F].
  - right. apply W; [exact B | reflexivity].
  - right. apply W; [exact B | reflexivity].
Qed.

Lemma no_bom c : blank c \/ c = "<"%char -> c <> chr 239.
Proof. intros H ->. unfold blank in H. destruct H as [[H | [H | [H | H]]] | H]; vm_compute in H; discriminate H. Qed.

(** No zero byte is part of a document. *)
Lemma in_app_not (c : ascii) a b : ~ In c a -> ~ In c b -> ~ In c (a ++ b).
Proof. intros A B I. apply in_app_or in I. tauto. Qed.
Lemma in_cons_not (c d : ascii) a : d <> c -> ~ In c a -> ~ In c (d :: a).
Proof. intros A B [I | I]; [exact (A I) | exact (B I)]. Qed.
Lemma characters_no_zero s : Forall character s <-> ~ In "000"%char s.
Proof.
  rewrite Forall_forall. split.
  - intros H I. exact (H _ I eq_refl).
  - intros H c I ->. exact (H I).
Qed.
Lemma blanks_no_zero w : blanks w -> ~ In "000"%char w.
Proof. intros B I. unfold blanks in B. rewrite Forall_forall in B. specialize (B _ I). unfold blank in B. intuition discriminate. Qed.
Lemma name_no_zero n : xml_name n -> ~ In "000"%char n.
Proof.
  intros XN I. apply xml_name_bytes in XN. rewrite Forall_forall in XN. specialize (XN _ I). apply symbol_iff in XN. vm_compute in XN. discriminate XN.
Qed.
Lemma reference_no_zero e r : reference e r -> ~ In "000"%char r.
Proof.
  assert (D : forall base ds u, numeral base ds u -> ~ In "000"%char ds).
  { intros base ds u N. induction N as [c d H | s c u d N IH H]; intros I.
    - destruct I as [E | []]. subst c. inversion H; subst; cbv in *; intuition congruence.
    - apply in_app_or in I. destruct I as [I | [E | []]]; [exact (IH I) | ]. subst c. inversion H; subst; cbv in *; intuition congruence. }
  intros H. destruct H as [ | | | | | ds u e N U | ds u e N U]; try (cbn; intuition discriminate);
    repeat apply in_app_not; try (exact (D _ _ _ N)); cbn; intuition discriminate.
Qed.
Lemma text_spelled_no_zero t s : text_spelled t s -> ~ In "000"%char s.
Proof.
  induction 1 as [ | c t s CH N1 N2 N3 H IH | t s H IH | t s NL H IH | e r t s R H IH].
  - intros [].
  - apply in_cons_not; [exact CH | exact IH].
  - apply in_cons_not; [discriminate | ]. apply in_cons_not; [discriminate | exact IH].
  - apply in_cons_not; [discriminate | exact IH].
  - apply in_app_not; [exact (reference_no_zero e r R) | exact IH].
Qed.
Lemma value_spelled_no_zero q t s : value_spelled q t s -> ~ In "000"%char s.
Proof.
  induction 1 as [ | c t s CH N1 N2 N3 N4 H IH | c t s B H IH | t s H IH | t s NL H IH | e r t s R H IH].
  - intros [].
  - apply in_cons_not; [exact CH | exact IH].
  - apply in_cons_not; [destruct B as [-> | [-> | ->]]; discriminate | exact IH].
  - apply in_cons_not; [discriminate | ]. apply in_cons_not; [discriminate | exact IH].
  - apply in_cons_not; [discriminate | exact IH].
  - apply in_app_not; [exact (reference_no_zero e r R) | exact IH].
Qed.
Lemma quote_no_zero (q : ascii) : q = "034"%char \/ q = "'"%char -> ~ In "000"%char [q].
Proof. intros [-> | ->]; cbn; intuition discriminate. Qed.
Lemma attributes_no_zero l s : attributes_spelled l s -> ~ In "000"%char s.
Proof.
  induction 1 as [ | n v l w0 w1 w2 quote s r NE B0 XN B1 B2 Q V A IH]; [intros [] | ].
  repeat apply in_app_not; try (apply blanks_no_zero; assumption); try (apply name_no_zero; assumption); try (apply quote_no_zero; exact Q);
    try (eapply value_spelled_no_zero; exact V); try exact IH; cbn; intuition discriminate.
Qed.
Ltac no_zero := repeat apply in_app_not; try (apply blanks_no_zero; assumption); try (apply name_no_zero; assumption);
  try (apply characters_no_zero; assumption); try (eapply attributes_no_zero; eassumption); try assumption; try (cbn; intuition discriminate).
Lemma spelled_no_zero :
  (forall x s, node_spelled x s -> ~ In "000"%char s) /\ (forall l s, content_spelled l s -> ~ In "000"%char s).
Proof.
  apply spelled_ind; intros; no_zero. eapply text_spelled_no_zero. eassumption.
Qed.
Lemma doctype_no_zero v : doctype_spelled v -> ~ In "000"%char v.
Proof.
  induction 1 as [ | c s CH N D IH | quote p s Q NI CH D IH]; [intros [] | apply in_cons_not; [exact CH | exact IH] | ].
  no_zero; apply quote_no_zero; exact Q.
Qed.
Lemma top_no_zero l s : top_spelled l s -> ~ In "000"%char s.
Proof.
  induction 1 as [w B | w x s l r B N X T IH | w s l r B NO CH T IH | w w1 v l r B NE B1 D NB T IH]; no_zero.
  - exact (proj1 spelled_no_zero x s N).
  - exact (doctype_no_zero v D).
Qed.
Lemma declaration_no_zero d s : declaration_spelled d s -> ~ In "000"%char s.
Proof. intros (a & w & A & NE & B & NO & ->). no_zero. Qed.

(** Any spelling of a document is read as that document. *)
Lemma document_read l text : document l text -> parse_document text = Ok l.
Proof.
  intros ((x & IN & X) & H). unfold parse_document.
  assert (Z0 : ~ In "000"%char text).
  { destruct H as [T | (d & l' & s & r & _ & D & T & ->)]; [exact (top_no_zero _ _ T) | ].
    apply in_app_not; [exact (declaration_no_zero d s D) | exact (top_no_zero _ _ T)]. }
  rewrite c_str_id by exact Z0.
  destruct H as [T | (d & l' & s & r & -> & D & T & ->)].
  - rewrite skip_bom_none.
    + change (result (mkState [] [] text) = Ok l). rewrite (top_read l text T Z0 []); [reflexivity | ].
      rewrite app_nil_r. apply existsb_exists. exists x. split; [ | exact X]. apply in_rev in IN. exact IN.
    + destruct (top_first l text T) as [-> | (c & r & -> & C)]; [discriminate | ]. cbn. intros E. injection E as E. exact (no_bom c C E).
  - apply no_zero_app in Z0. destruct Z0 as [Zs Zr].
    assert (F : hd_error (s ++ r) = Some "<"%char) by (destruct D as (a & w & _ & _ & _ & _ & ->); reflexivity).
    rewrite skip_bom_none by (rewrite F; intros E; discriminate E).
    change (result (mkState [] [] (s ++ r)) = Ok (XDeclaration (lit "xml") d [] :: l')).
    rewrite (declaration_step d s r D Zs). rewrite (top_read l' r T Zr); [reflexivity | ].
    destruct IN as [<- | IN]; [discriminate X | ].
    apply existsb_exists. exists x. split; [ | exact X]. apply in_or_app. left. apply in_rev in IN. exact IN.
Qed.
