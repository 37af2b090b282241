(** How pugixml reads: the loop ends, and any spelling of a tree is read as that tree. *)
From Coq Require Import List Ascii String ZArith Bool Lia.
From Verif Require Import Proofs.Tac Model.Base Model.Text Model.Strings Model.PugiText Spec.Numerals Spec.XmlText Spec.XmlGrammar.
From Verif Require Import Proofs.TextProofs Proofs.StringsProofs.
Import ListNotations.
Open Scope nat_scope.
Open Scope list_scope.

(** * Characters *)

Lemma all_chars (P : ascii -> bool) : (forall b0 b1 b2 b3 b4 b5 b6 b7, P (Ascii b0 b1 b2 b3 b4 b5 b6 b7) = true) -> forall c, P c = true.
Proof. intros H [b0 b1 b2 b3 b4 b5 b6 b7]. apply H. Qed.

Definition blank_b (c : ascii) : bool := existsb (Ascii.eqb c) [" "; "009"; "010"; "013"]%char.
Definition letter_b (c : ascii) : bool :=
  (((65 <=? code c) && (code c <=? 90)) || ((97 <=? code c) && (code c <=? 122)) || Ascii.eqb c "_" || Ascii.eqb c ":" || (128 <=? code c))%Z.
Definition name_b (c : ascii) : bool :=
  (letter_b c || ((48 <=? code c) && (code c <=? 57)) || Ascii.eqb c "-" || Ascii.eqb c ".")%Z.

Lemma space_b c : is_chartype c ct_space = blank_b c.
Proof. apply eqb_true_iff. revert c. apply all_chars. intros [] [] [] [] [] [] [] []; vm_compute; reflexivity. Qed.
Lemma start_b c : is_chartype c ct_start_symbol = letter_b c.
Proof. apply eqb_true_iff. revert c. apply all_chars. intros [] [] [] [] [] [] [] []; vm_compute; reflexivity. Qed.
Lemma symbol_b c : is_chartype c ct_symbol = name_b c.
Proof. apply eqb_true_iff. revert c. apply all_chars. intros [] [] [] [] [] [] [] []; vm_compute; reflexivity. Qed.

Lemma blank_iff c : is_chartype c ct_space = true <-> blank c.
Proof.
  rewrite space_b. unfold blank_b, blank. cbn [existsb].
  rewrite !orb_true_iff, !Ascii.eqb_eq. intuition discriminate.
Qed.
Lemma start_iff c : is_chartype c ct_start_symbol = true <-> letter_byte c.
Proof.
  rewrite start_b. unfold letter_b, letter_byte, letter.
  rewrite !orb_true_iff, !andb_true_iff, !Z.leb_le, !Ascii.eqb_eq. tauto.
Qed.
Lemma symbol_iff c : is_chartype c ct_symbol = true <-> name_byte c.
Proof.
  rewrite symbol_b. unfold name_b, name_byte, letter_b, letter_byte, letter.
  rewrite !orb_true_iff, !andb_true_iff, !Z.leb_le, !Ascii.eqb_eq. tauto.
Qed.
Lemma not_true b : b = false <-> b <> true. Proof. destruct b; intuition congruence. Qed.
Lemma not_blank c : is_chartype c ct_space = false <-> ~ blank c. Proof. rewrite not_true, blank_iff. tauto. Qed.
Lemma not_start c : is_chartype c ct_start_symbol = false <-> ~ letter_byte c. Proof. rewrite not_true, start_iff. tauto. Qed.
Lemma not_symbol c : is_chartype c ct_symbol = false <-> ~ name_byte c. Proof. rewrite not_true, symbol_iff. tauto. Qed.

(** * Scanners *)

Lemma skip_space_le s : List.length (skip_space s) <= List.length s.
Proof. induction s as [ | c r IH]; cbn [skip_space List.length]; [lia | ]. destruct (is_chartype c ct_space); cbn [List.length]; lia. Qed.

Lemma skip_blanks w s : blanks w -> skip_space (w ++ s) = skip_space s.
Proof.
  induction 1 as [ | c r B _ IH]; [reflexivity | ]. cbn [app skip_space].
  apply blank_iff in B. rewrite B. exact IH.
Qed.

Definition no_blank_first (s : str) : Prop := forall c r, s = c :: r -> ~ blank c.

Lemma skip_none s : no_blank_first s -> skip_space s = s.
Proof.
  intros H. destruct s as [ | c r]; [reflexivity | ]. cbn [skip_space].
  rewrite (proj2 (not_blank c) (H c r eq_refl)). reflexivity.
Qed.

Lemma skip_all w : blanks w -> skip_space w = [].
Proof. intros H. rewrite <- (app_nil_r w). rewrite skip_blanks by exact H. reflexivity. Qed.

Definition no_name_first (s : str) : Prop := forall c r, s = c :: r -> ~ name_byte c.

Lemma scan_name n s : Forall name_byte n -> no_name_first s -> scan_symbol (n ++ s) = (n, s).
Proof.
  intros H K. induction H as [ | c r B _ IH].
  - destruct s as [ | c r]; [reflexivity | ]. cbn [app scan_symbol].
    rewrite (proj2 (not_symbol c) (K c r eq_refl)). reflexivity.
  - cbn [app scan_symbol]. apply symbol_iff in B. rewrite B, IH. reflexivity.
Qed.

Lemma xml_name_bytes n : xml_name n -> Forall name_byte n.
Proof. intros (c & r & -> & L & F). constructor; [left; exact L | exact F]. Qed.
Lemma xml_name_starts n s : xml_name n -> starts_symbol (n ++ s) = true.
Proof. intros (c & r & -> & L & F). cbn [app starts_symbol]. apply start_iff. exact L. Qed.

Lemma scan_symbol_length s : List.length (fst (scan_symbol s)) + List.length (snd (scan_symbol s)) = List.length s.
Proof.
  induction s as [ | c r IH]; [reflexivity | ]. cbn [scan_symbol].
  destruct (is_chartype c ct_symbol); [ | reflexivity].
  destruct (scan_symbol r) as [n q]. cbn in *. lia.
Qed.

Lemma after_prefix_app p s : after_prefix p (p ++ s) = Some s.
Proof. induction p as [ | a p IH]; [reflexivity | ]. cbn [app after_prefix]. rewrite Ascii.eqb_refl. exact IH. Qed.

Lemma after_prefix_some p s r : after_prefix p s = Some r -> s = p ++ r.
Proof.
  revert s. induction p as [ | a p IH]; intros s E; cbn in E; [injection E as ->; reflexivity | ].
  destruct s as [ | c s]; [discriminate E | ]. destruct (Ascii.eqb_spec a c) as [-> | ]; [ | discriminate E].
  cbn [app]. f_equal. apply IH. exact E.
Qed.

Lemma scan_for_some p s a r : scan_for p s = Some (a, r) -> s = a ++ p ++ r.
Proof.
  revert a. induction s as [ | c s IH]; intros a E; cbn [scan_for] in E.
  - destruct (after_prefix p []) as [q | ] eqn:A; [ | discriminate E].
    injection E as <- <-. apply after_prefix_some in A. exact A.
  - destruct (after_prefix p (c :: s)) as [q | ] eqn:A.
    + injection E as <- <-. apply after_prefix_some in A. exact A.
    + destruct (scan_for p s) as [[a' r'] | ] eqn:K; [ | discriminate E]. cbn in E. injection E as <- <-.
      cbn [app]. f_equal. apply IH. reflexivity.
Qed.

(** The mark is found where it is, if it cannot start inside of [s]. *)
Lemma scan_for_found p z s r :
  (forall a b, s ++ p = a ++ (p ++ [z]) ++ b -> False) -> scan_for (p ++ [z]) (s ++ (p ++ [z]) ++ r) = Some (s, r).
Proof.
  induction s as [ | c s IH]; intros H.
  - cbn [app]. assert (K : after_prefix (p ++ [z]) ((p ++ [z]) ++ r) = Some r) by apply after_prefix_app.
    destruct ((p ++ [z]) ++ r) eqn:E; cbn [scan_for]; rewrite K; reflexivity.
  - cbn [app scan_for].
    destruct (after_prefix (p ++ [z]) (c :: s ++ (p ++ [z]) ++ r)) as [q | ] eqn:A.
    + exfalso. apply after_prefix_some in A.
      assert (F : firstn (List.length (p ++ [z])) (c :: s ++ (p ++ [z]) ++ r) = firstn (List.length (p ++ [z])) (c :: s ++ p)).
      { replace (c :: s ++ (p ++ [z]) ++ r) with ((c :: s ++ p) ++ [z] ++ r) by (cbn [app]; rewrite <- !app_assoc; reflexivity).
        rewrite firstn_app.
        replace (List.length (p ++ [z]) - List.length (c :: s ++ p)) with 0 by (cbn [List.length]; rewrite !app_length; cbn; lia).
        cbn [firstn]. apply app_nil_r. }
      rewrite A, firstn_app, firstn_all, Nat.sub_diag in F. cbn [firstn] in F. rewrite app_nil_r in F.
      apply (H [] (skipn (List.length (p ++ [z])) (c :: s ++ p))). cbn [app].
      rewrite F at 1. change (c :: s ++ p) with ((c :: s) ++ p). symmetry. apply firstn_skipn.
    + rewrite IH; [reflexivity | ]. intros a b E. apply (H (c :: a) b). cbn [app]. f_equal. exact E.
Qed.

Lemma scan_for_last z p s r :
  ~ In z p -> ~ occurs (p ++ [z]) s -> scan_for (p ++ [z]) (s ++ (p ++ [z]) ++ r) = Some (s, r).
Proof.
  intros NI H. apply scan_for_found.
  intros a b E.
  (* the last character of the occurrence is z, which is not among p *)
  assert (K : exists k, s = a ++ p ++ [z] ++ k).
  { assert (L : List.length (a ++ p ++ [z]) <= List.length s).
    { destruct (Nat.le_gt_cases (List.length (a ++ p ++ [z])) (List.length s)) as [ | G]; [assumption | exfalso].
      apply NI. assert (N : nth_error (s ++ p) (List.length (a ++ p)) = Some z).
      { rewrite E. rewrite <- (app_assoc p [z] b). rewrite (app_assoc a p ([z] ++ b)). rewrite nth_error_app2 by lia. rewrite Nat.sub_diag. reflexivity. }
      rewrite nth_error_app2 in N by (rewrite !app_length in *; cbn in *; lia).
      apply nth_error_In in N. exact N. }
    exists (skipn (List.length (a ++ p ++ [z])) s).
    assert (F : firstn (List.length (a ++ p ++ [z])) (s ++ p) = firstn (List.length (a ++ p ++ [z])) s).
    { rewrite firstn_app. replace (List.length (a ++ p ++ [z]) - List.length s) with 0 by lia. cbn. apply app_nil_r. }
    rewrite E in F. rewrite !app_assoc in F. rewrite firstn_app in F.
    rewrite <- (firstn_skipn (List.length (a ++ p ++ [z])) s) at 1. rewrite !app_assoc in *. rewrite <- F.
    rewrite firstn_all, Nat.sub_diag. cbn. rewrite app_nil_r. reflexivity. }
  destruct K as [k ->]. apply H. exists a, k. rewrite <- app_assoc. reflexivity.
Qed.

(** * What is left of the text gets shorter *)

Lemma entity_le name : forall seen s,
  match entity seen name s with inl r => List.length r <= List.length s | inr (_, r) => List.length r <= List.length s end.
Proof.
  induction name as [ | a n IH]; intros seen s; cbn [entity]; [lia | ].
  destruct s as [ | c r]; [cbn; lia | ]. destruct (Ascii.eqb a c); [ | lia].
  specialize (IH (seen ++ [c]) r). destruct (entity (seen ++ [c]) n r) as [q | [p q]]; cbn [List.length]; lia.
Qed.

Lemma char_reference_le base digit s : forall seen u,
  match char_reference base digit seen u s with inl (_, r) => List.length r <= List.length s | inr (_, r) => List.length r <= List.length s end.
Proof.
  induction s as [ | c r IH]; intros seen u; cbn [char_reference]; [cbn; lia | ].
  destruct (digit c) as [d | ].
  - match goal with |- context [char_reference base digit ?a ?b r] => specialize (IH a b); destruct (char_reference base digit a b r) as [[x y] | [x y]] end; cbn [List.length]; lia.
  - destruct (Ascii.eqb c ";"); cbn [List.length]; lia.
Qed.

Lemma escape_le s : List.length (snd (strconv_escape s)) <= List.length s.
Proof.
  destruct s as [ | c0 s]; [cbn; lia | ].
  assert (G : forall x name q, List.length (snd (escaped (entity x name q) c0)) <= List.length q).
  { intros x name q. pose proof (entity_le name x q) as H. destruct (entity x name q) as [r | [p r]]; exact H. }
  assert (G' : forall x name z q, List.length (snd (escaped (entity x name q) z)) <= List.length q).
  { intros x name z q. pose proof (entity_le name x q) as H. destruct (entity x name q) as [r | [p r]]; exact H. }
  assert (N : forall base digit x q, List.length (snd (numbered_escape (char_reference base digit x 0 q))) <= List.length q).
  { intros base digit x q. pose proof (char_reference_le base digit q x 0%Z) as H.
    destruct (char_reference base digit x 0 q) as [[u r] | [u r]]; exact H. }
  pose proof (fun b d x => N b d x s) as N0.
  destruct (ascii_dec c0 "#") as [-> | N1].
  - destruct s as [ | c1 s]; [cbn; lia | ].
    destruct (ascii_dec c1 "x") as [-> | NX].
    + destruct s as [ | c2 s]; [cbn; lia | ].
      destruct (ascii_dec c2 ";") as [-> | NS]; [cbn; lia | ].
      replace (strconv_escape ("#"%char :: "x"%char :: c2 :: s)) with (numbered_escape (char_reference 16 hex_digit (lit "&#x") 0 (c2 :: s))).
      * pose proof (N 16%Z hex_digit (lit "&#x") (c2 :: s)). cbn [List.length] in *. lia.
      * destruct c2 as [[] [] [] [] [] [] [] []]; try reflexivity; exfalso; apply NS; reflexivity.
    + destruct (ascii_dec c1 ";") as [-> | NS]; [cbn; lia | ].
      replace (strconv_escape ("#"%char :: c1 :: s)) with (numbered_escape (char_reference 10 dec_digit (lit "&#") 0 (c1 :: s))).
      * pose proof (N 10%Z dec_digit (lit "&#") (c1 :: s)). cbn [List.length] in *. lia.
      * destruct c1 as [[] [] [] [] [] [] [] []]; try reflexivity; exfalso; (apply NS; reflexivity) || (apply NX; reflexivity).
  - destruct (ascii_dec c0 "a") as [-> | NA].
    + destruct s as [ | c1 s]; [cbn; lia | ].
      destruct (ascii_dec c1 "m") as [-> | NM].
      * change (strconv_escape ("a"%char :: "m"%char :: s)) with (escaped (entity (lit "&am") (lit "p;") s) "&"). etransitivity; [apply G' | cbn [List.length]; lia].
      * destruct (ascii_dec c1 "p") as [-> | NP].
        -- change (strconv_escape ("a"%char :: "p"%char :: s)) with (escaped (entity (lit "&ap") (lit "os;") s) "'"). etransitivity; [apply G' | cbn [List.length]; lia].
        -- replace (strconv_escape ("a"%char :: c1 :: s)) with (lit "&a", c1 :: s); [cbn; lia | ].
           destruct c1 as [[] [] [] [] [] [] [] []]; try reflexivity; exfalso; (apply NM; reflexivity) || (apply NP; reflexivity).
    + destruct (ascii_dec c0 "g") as [-> | NG].
      * change (strconv_escape ("g"%char :: s)) with (escaped (entity (lit "&g") (lit "t;") s) ">"). etransitivity; [apply G' | cbn [List.length]; lia].
      * destruct (ascii_dec c0 "l") as [-> | NL].
        -- change (strconv_escape ("l"%char :: s)) with (escaped (entity (lit "&l") (lit "t;") s) "<"). etransitivity; [apply G' | cbn [List.length]; lia].
        -- destruct (ascii_dec c0 "q") as [-> | NQ].
           ++ change (strconv_escape ("q"%char :: s)) with (escaped (entity (lit "&q") (lit "uot;") s) "034"). etransitivity; [apply G' | cbn [List.length]; lia].
           ++ replace (strconv_escape (c0 :: s)) with (lit "&", c0 :: s); [cbn; lia | ].
              destruct c0 as [[] [] [] [] [] [] [] []]; try reflexivity; exfalso;
                (apply N1; reflexivity) || (apply NA; reflexivity) || (apply NG; reflexivity) || (apply NL; reflexivity) || (apply NQ; reflexivity).
Qed.

(** A line feed after a carriage return is left out. *)
Definition drop_lf (r : str) : str := match r with "010"%char :: r' => r' | _ => r end.
Lemma drop_lf_le r : List.length (drop_lf r) <= List.length r.
Proof. destruct r as [ | c r]; [cbn; lia | ]. destruct c as [[] [] [] [] [] [] [] []]; cbn [drop_lf List.length]; lia. Qed.
Lemma drop_lf_none r : hd_error r <> Some "010"%char -> drop_lf r = r.
Proof. destruct r as [ | c r]; [reflexivity | ]. intros H. destruct c as [[] [] [] [] [] [] [] []]; try reflexivity. exfalso. apply H. reflexivity. Qed.

Lemma pcdata_le f : forall s, List.length (snd (strconv_pcdata f s)) <= List.length s.
Proof.
  induction f as [ | f IH]; intros s; [destruct s; cbn; lia | ].
  destruct s as [ | c r]; [cbn; lia | ]. cbn [strconv_pcdata].
  destruct (Ascii.eqb c "<"); [cbn; lia | ].
  destruct (Ascii.eqb c "013").
  - fold (drop_lf r). pose proof (IH (drop_lf r)). pose proof (drop_lf_le r).
    destruct (strconv_pcdata f (drop_lf r)). cbn [snd List.length] in *. lia.
  - destruct (Ascii.eqb c "&").
    + pose proof (escape_le r). destruct (strconv_escape r) as [e r']. pose proof (IH r').
      destruct (strconv_pcdata f r'). cbn [snd List.length] in *. lia.
    + pose proof (IH r). destruct (strconv_pcdata f r). cbn [snd List.length] in *. lia.
Qed.

Lemma attribute_lt f quote : forall s v r, strconv_attribute f quote s = Some (v, r) -> List.length r < List.length s.
Proof.
  induction f as [ | f IH]; intros s v r E; [destruct s; discriminate E | ].
  destruct s as [ | c s]; [discriminate E | ]. cbn [strconv_attribute] in E.
  destruct (Ascii.eqb c quote); [injection E as <- <-; cbn; lia | ].
  destruct (is_chartype c ct_space).
  - match type of E with option_map _ (strconv_attribute f quote ?x) = _ => assert (L : List.length x <= List.length s) end.
    { destruct (Ascii.eqb c "013"); [apply drop_lf_le | lia]. }
    match type of E with option_map _ ?x = _ => destruct x as [[v' r'] | ] eqn:K; [ | discriminate E] end.
    cbn in E. injection E as <- <-. apply IH in K. cbn [List.length]. lia.
  - destruct (Ascii.eqb c "&").
    + pose proof (escape_le s). destruct (strconv_escape s) as [e r'].
      destruct (strconv_attribute f quote r') as [[v' r''] | ] eqn:K; [ | discriminate E].
      cbn in E. injection E as <- <-. apply IH in K. cbn [snd List.length] in *. lia.
    + destruct (strconv_attribute f quote s) as [[v' r''] | ] eqn:K; [ | discriminate E].
      cbn in E. injection E as <- <-. apply IH in K. cbn [List.length]. lia.
Qed.

Lemma cdata_le f : forall s v r, strconv_cdata f s = Some (v, r) -> List.length r <= List.length s.
Proof.
  induction f as [ | f IH]; intros s v r E; [destruct s; discriminate E | ].
  destruct s as [ | c s]; [discriminate E | ]. cbn [strconv_cdata] in E.
  destruct (Ascii.eqb c "013").
  - fold (drop_lf s) in E. pose proof (drop_lf_le s).
    destruct (strconv_cdata f (drop_lf s)) as [[v' r'] | ] eqn:K; [ | discriminate E].
    cbn in E. injection E as <- <-. apply IH in K. cbn [List.length]. lia.
  - destruct (after_prefix (lit "]]>") (c :: s)) as [r' | ] eqn:A.
    + injection E as <- <-. apply after_prefix_some in A. rewrite A, app_length. lia.
    + destruct (strconv_cdata f s) as [[v' r'] | ] eqn:K; [ | discriminate E].
      cbn in E. injection E as <- <-. apply IH in K. cbn [List.length]. lia.
Qed.

Lemma attributes_lt f : forall acc s l b r, parse_attributes f acc s = Some (l, b, r) -> List.length r < List.length s.
Proof.
  induction f as [ | f IH]; intros acc s l b r E; [discriminate E | ]. cbn [parse_attributes] in E.
  pose proof (skip_space_le s) as L0. set (s0 := skip_space s) in *.
  destruct (starts_symbol s0).
  - pose proof (scan_symbol_length s0) as L1. destruct (scan_symbol s0) as [name r0]. cbn [fst snd] in L1.
    pose proof (skip_space_le r0) as L2. set (r1 := skip_space r0) in *.
    destruct (after_prefix (lit "=") r1) as [r2 | ] eqn:A; [ | discriminate E].
    apply after_prefix_some in A. assert (L3 : List.length r2 < List.length r1) by (rewrite A; cbn; lia).
    pose proof (skip_space_le r2) as L4. destruct (skip_space r2) as [ | quote r3]; [discriminate E | ].
    destruct (Ascii.eqb quote "034" || Ascii.eqb quote "'"); [ | discriminate E].
    destruct (strconv_attribute (List.length r3) quote r3) as [[v r4] | ] eqn:S4; [ | discriminate E].
    apply attribute_lt in S4. destruct (starts_symbol r4); [discriminate E | ]. apply IH in E.
    cbn [List.length] in L4. clear - L0 L1 L2 L3 L4 S4 E. lia.
  - destruct (after_prefix (lit "/>") s0) as [q | ] eqn:A.
    + injection E as _ _ <-. apply after_prefix_some in A. rewrite A in L0. cbn in L0. lia.
    + destruct (after_prefix (lit ">") s0) as [q | ] eqn:A'; [ | discriminate E].
      injection E as _ _ <-. apply after_prefix_some in A'. rewrite A' in L0. cbn in L0. lia.
Qed.

Lemma doctype_lt f : forall ignore depth seen s p r, parse_doctype_group f ignore depth seen s = Some (p, r) -> List.length r < List.length s.
Proof.
  induction f as [ | f IH]; intros ignore depth seen s p r E; [destruct s; discriminate E | ].
  destruct s as [ | c s]; [discriminate E | ]. cbn [parse_doctype_group] in E.
  assert (AP : forall m q, after_prefix m (c :: s) = Some q -> List.length q <= List.length (c :: s)).
  { intros m q A. apply after_prefix_some in A. rewrite A, app_length. lia. }
  destruct ignore as [ | ignore'].
  - destruct (after_prefix (lit "<![") (c :: s)) as [q | ] eqn:A1.
    { apply IH in E. pose proof (AP _ _ A1). lia. }
    assert (R : forall o : option (str * str),
      (if Ascii.eqb c "034" || Ascii.eqb c "'" then
         match scan_for [c] s with Some (p, q) => parse_doctype_group f 0 depth (rev ([c] ++ p ++ [c]) ++ seen) q | None => None end
       else if Ascii.eqb c "<" then
         match after_prefix (lit "<?") (c :: s), after_prefix (lit "<!--") (c :: s) with
         | Some q, _ => match scan_for (lit "?>") q with Some (p, q) => parse_doctype_group f 0 depth (rev (lit "<?" ++ p ++ lit "?>") ++ seen) q | None => None end
         | None, Some q => match scan_for (lit "-->") q with Some (p, q) => parse_doctype_group f 0 depth (rev (lit "<!--" ++ p ++ lit "-->") ++ seen) q | None => None end
         | None, None => None
         end
       else if Ascii.eqb c ">" then
         match depth with
         | O => Some (seen, s)
         | S d => parse_doctype_group f 0 d (c :: seen) s
         end
       else parse_doctype_group f 0 depth (rev [c] ++ seen) s) = o -> o = Some (p, r) -> List.length r < List.length (c :: s)).
    { intros o <- E'. clear E.
      destruct (Ascii.eqb c "034" || Ascii.eqb c "'").
      { destruct (scan_for [c] s) as [[p' q] | ] eqn:K; [ | discriminate E']. apply scan_for_some in K. apply IH in E'.
        rewrite K. cbn [List.length]. rewrite !app_length. lia. }
      destruct (Ascii.eqb c "<").
      { destruct (after_prefix (lit "<?") (c :: s)) as [q | ] eqn:A.
        - destruct (scan_for (lit "?>") q) as [[p' q'] | ] eqn:K; [ | discriminate E']. apply scan_for_some in K. apply IH in E'.
          pose proof (AP _ _ A) as L. rewrite K in L. rewrite !app_length in L. lia.
        - destruct (after_prefix (lit "<!--") (c :: s)) as [q | ] eqn:A'; [ | discriminate E'].
          destruct (scan_for (lit "-->") q) as [[p' q'] | ] eqn:K; [ | discriminate E']. apply scan_for_some in K. apply IH in E'.
          pose proof (AP _ _ A') as L. rewrite K in L. rewrite !app_length in L. lia. }
      destruct (Ascii.eqb c ">").
      { destruct depth as [ | d]; [injection E' as _ <-; cbn; lia | ]. apply IH in E'. cbn [List.length]. lia. }
      apply IH in E'. cbn [List.length]. lia. }
    destruct (after_prefix (lit "<!-") (c :: s)) as [q2 | ] eqn:A2.
    + exact (R _ eq_refl E).
    + destruct (after_prefix (lit "<!") (c :: s)) as [q | ] eqn:A3.
      * apply IH in E. pose proof (AP _ _ A3). lia.
      * exact (R _ eq_refl E).
  - destruct (after_prefix (lit "<![") (c :: s)) as [q | ] eqn:A1.
    { apply IH in E. pose proof (AP _ _ A1). lia. }
    destruct (after_prefix (lit "]]>") (c :: s)) as [q | ] eqn:A2.
    { apply IH in E. pose proof (AP _ _ A2). lia. }
    apply IH in E. cbn [List.length]. lia.
Qed.

Definition shorter (s : str) (o : step_result) : Prop :=
  match o with Next st => List.length (ps_text st) < List.length s | _ => True end.
Definition not_longer (s : str) (o : step_result) : Prop :=
  match o with Next st => List.length (ps_text st) <= List.length s | _ => True end.

Lemma add_node_text x open top s : ps_text (add_node x open top s) = s.
Proof. destruct open; reflexivity. Qed.

Lemma open_tag_shorter d n s open top : shorter s (open_tag d n s open top).
Proof.
  unfold open_tag. destruct (parse_attributes (S (List.length s)) [] s) as [[[l b] r] | ] eqn:E; [ | exact I].
  apply attributes_lt in E. destruct b; cbn; [unfold pop_node; rewrite add_node_text | ]; exact E.
Qed.

Lemma after_question_shorter st : not_longer (ps_text st) (after_question st).
Proof.
  unfold after_question. destruct (ps_open st) as [ | f open]; [cbn; lia | ].
  destruct (fr_declaration f); [ | cbn; lia].
  destruct (parse_attributes _ _ _) as [[[l b] r] | ] eqn:E; [ | exact I].
  apply attributes_lt in E. destruct b; cbn; [unfold pop_node; rewrite add_node_text | ]; lia.
Qed.

Lemma question_shorter s open top : shorter s (parse_question s open top).
Proof.
  unfold parse_question. destruct (negb (starts_symbol s)); [exact I | ].
  pose proof (scan_symbol_length s) as L. destruct (scan_symbol s) as [n r]. cbn [fst snd] in L.
  assert (Q : forall x r', List.length r' < List.length s -> shorter s (after_question (add_node x open top r'))).
  { intros x r' H. pose proof (after_question_shorter (add_node x open top r')) as K. rewrite add_node_text in K.
    destruct (after_question _); [cbn in *; lia | exact I | exact I]. }
  destruct (is_xml n).
  - destruct open as [ | f open]; [ | exact I].
    destruct (after_prefix (lit "?>") r) as [q | ] eqn:A.
    + apply after_prefix_some in A. rewrite A in L. rewrite app_length in L. cbn in *. lia.
    + destruct r as [ | c r]; [exact I | ]. destruct (is_chartype c ct_space); [ | exact I].
      pose proof (skip_space_le r). destruct (scan_for (lit "?>") (skip_space r)) as [[v q] | ] eqn:K; [ | exact I].
      apply scan_for_some in K. rewrite K in H. rewrite !app_length in H. cbn in H, L.
      pose proof (open_tag_shorter true n (v ++ lit "/>" ++ q) [] top) as O.
      destruct (open_tag true n (v ++ lit "/>" ++ q) [] top); [ | exact I | exact I]. cbn [shorter] in *. rewrite !app_length in O. cbn in O. lia.
  - destruct (after_prefix (lit "?>") r) as [q | ] eqn:A.
    + apply after_prefix_some in A. rewrite A in L. rewrite app_length in L. cbn in L. apply Q. lia.
    + destruct r as [ | c r]; [exact I | ]. destruct (is_chartype c ct_space); [ | exact I].
      pose proof (skip_space_le r). destruct (scan_for (lit "?>") (skip_space r)) as [[v q] | ] eqn:K; [ | exact I].
      apply scan_for_some in K. rewrite K in H. rewrite !app_length in H. cbn in H, L. apply Q. lia.
Qed.

Lemma exclamation_shorter s open top : shorter s (parse_exclamation s open top).
Proof.
  unfold parse_exclamation.
  destruct (after_prefix (lit "--") s) as [r | ] eqn:A1.
  { apply after_prefix_some in A1. destruct (scan_for (lit "-->") r) as [[v q] | ] eqn:K; [ | exact I].
    apply scan_for_some in K. cbn. rewrite A1, K, !app_length. cbn. lia. }
  destruct (after_prefix (lit "[CDATA[") s) as [r | ] eqn:A2.
  { apply after_prefix_some in A2. destruct (strconv_cdata _ r) as [[v q] | ] eqn:K; [ | exact I].
    apply cdata_le in K. cbn. rewrite add_node_text, A2, !app_length. cbn. lia. }
  destruct (after_prefix (lit "DOCTYPE") s) as [r | ] eqn:A3; [ | exact I].
  apply after_prefix_some in A3. destruct open; [ | exact I].
  destruct (parse_doctype_group _ _ _ _ r) as [[v q] | ] eqn:K; [ | exact I].
  apply doctype_lt in K. cbn. rewrite A3, app_length. cbn. lia.
Qed.

Lemma tag_shorter s open top : shorter s (parse_tag s open top).
Proof.
  unfold parse_tag. destruct (starts_symbol s).
  - pose proof (scan_symbol_length s) as L. destruct (scan_symbol s) as [n r]. cbn [fst snd] in L.
    destruct (after_prefix (lit ">") r) as [q | ] eqn:A1.
    { apply after_prefix_some in A1. rewrite A1 in L. rewrite app_length in L. cbn in *. lia. }
    destruct (after_prefix (lit "/>") r) as [q | ] eqn:A2.
    { apply after_prefix_some in A2. rewrite A2 in L. rewrite app_length in L. cbn. unfold pop_node. rewrite add_node_text. cbn in *. lia. }
    destruct r as [ | c r]; [exact I | ]. destruct (is_chartype c ct_space); [ | exact I].
    pose proof (open_tag_shorter false n r open top) as O.
    destruct (open_tag false n r open top); [ | exact I | exact I]. cbn [shorter List.length] in *. lia.
  - destruct (after_prefix (lit "/") s) as [r | ] eqn:A1.
    { apply after_prefix_some in A1. destruct open as [ | f open]; [exact I | ].
      pose proof (scan_symbol_length r) as L. destruct (scan_symbol r) as [n r']. cbn [fst snd] in L.
      destruct (str_eqb n (fr_name f)); [ | exact I]. pose proof (skip_space_le r') as L'.
      destruct (after_prefix (lit ">") (skip_space r')) as [q | ] eqn:A; [ | exact I].
      apply after_prefix_some in A. rewrite A in L'. cbn [shorter]. unfold pop_node. rewrite add_node_text.
      rewrite A1, app_length. rewrite app_length in L'. cbn in *. lia. }
    destruct (after_prefix (lit "?") s) as [r | ] eqn:A2.
    { apply after_prefix_some in A2. pose proof (question_shorter r open top) as O.
      destruct (parse_question r open top); [ | exact I | exact I]. cbn [shorter] in *. rewrite A2, app_length. lia. }
    destruct (after_prefix (lit "!") s) as [r | ] eqn:A3; [ | exact I].
    apply after_prefix_some in A3. pose proof (exclamation_shorter r open top) as O.
    destruct (parse_exclamation r open top); [ | exact I | exact I]. cbn [shorter] in *. rewrite A3, app_length. lia.
Qed.

Lemma step_shorter st : shorter (ps_text st) (parse_step st).
Proof.
  unfold parse_step. destruct (ps_text st) as [ | c0 s0] eqn:T; [exact I | ]. cbv zeta.
  set (s := c0 :: s0) in *.
  destruct (after_prefix (lit "<") s) as [r | ] eqn:A.
  { apply after_prefix_some in A. pose proof (tag_shorter r (ps_open st) (ps_top st)) as O.
    destruct (parse_tag r (ps_open st) (ps_top st)); [ | exact I | exact I]. cbn [shorter] in *. rewrite A, app_length. lia. }
  assert (N : c0 <> "<"%char).
  { intros ->. cbn in A. discriminate A. }
  destruct (skip_space s) as [ | c r] eqn:K; [cbn; lia | ].
  destruct (Ascii.eqb_spec c "<") as [-> | N'].
  - cbn [shorter ps_text]. unfold s in K. cbn [skip_space] in K.
    destruct (is_chartype c0 ct_space).
    + pose proof (skip_space_le s0) as L. rewrite K in L. unfold s. cbn [List.length] in *. lia.
    + injection K as -> _. contradiction.
  - destruct (ps_open st) as [ | f open].
    + destruct (scan_for (lit "<") s) as [[v q] | ] eqn:F; [ | exact I].
      apply scan_for_some in F. pose proof (tag_shorter q [] (ps_top st)) as O.
      destruct (parse_tag q [] (ps_top st)); [ | exact I | exact I]. cbn [shorter] in *. rewrite F, !app_length. cbn. lia.
    + assert (L : List.length (snd (strconv_pcdata (List.length s) s)) < List.length s).
      { unfold s. cbn [List.length strconv_pcdata].
        destruct (Ascii.eqb_spec c0 "<") as [-> | _]; [contradiction | ].
        destruct (Ascii.eqb c0 "013").
        - fold (drop_lf s0). pose proof (pcdata_le (List.length s0) (drop_lf s0)). pose proof (drop_lf_le s0).
          destruct (strconv_pcdata (List.length s0) (drop_lf s0)). cbn [snd List.length] in *. lia.
        - destruct (Ascii.eqb c0 "&").
          + pose proof (escape_le s0). destruct (strconv_escape s0) as [e r']. pose proof (pcdata_le (List.length s0) r').
            destruct (strconv_pcdata (List.length s0) r'). cbn [snd List.length] in *. lia.
          + pose proof (pcdata_le (List.length s0) s0). destruct (strconv_pcdata (List.length s0) s0). cbn [snd List.length] in *. lia. }
      destruct (strconv_pcdata (List.length s) s) as [t q]. cbn [shorter snd] in *. rewrite add_node_text. exact L.
Qed.

(** * The loop *)

Definition result (st : parse_state) : outcome (list xml) := parse_loop (S (List.length (ps_text st))) st.

Lemma loop_fuel f : forall st, List.length (ps_text st) < f -> parse_loop f st = result st.
Proof.
  induction f as [f IH] using lt_wf_ind. intros st L. unfold result.
  destruct f as [ | f]; [lia | ]. cbn [parse_loop].
  pose proof (step_shorter st) as K.
  destruct (parse_step st) as [st' | | ]; [ | reflexivity | reflexivity]. cbn [shorter] in K.
  rewrite (IH f) by lia. destruct (Nat.eq_dec f (List.length (ps_text st))) as [-> | N].
  - rewrite (IH (List.length (ps_text st))) by lia. reflexivity.
  - symmetry. apply IH; lia.
Qed.

Lemma result_next st st' : parse_step st = Next st' -> result st = result st'.
Proof.
  intros E. pose proof (step_shorter st) as K. rewrite E in K. cbn [shorter] in K.
  unfold result at 1. cbn [parse_loop]. rewrite E. apply loop_fuel. exact K.
Qed.

(** Reading never runs out of steps. *)
Lemma loop_total f : forall st, List.length (ps_text st) < f -> parse_loop f st <> UB.
Proof.
  induction f as [ | f IH]; intros st L; [lia | ]. cbn [parse_loop].
  pose proof (step_shorter st) as K. destruct (parse_step st) as [st' | | ].
  - apply IH. cbn [shorter] in K. lia.
  - destruct (ps_open st); [ | discriminate]. destruct (existsb is_element (ps_top st)); discriminate.
  - discriminate.
Qed.

Lemma parse_total text : parse_document text <> UB.
Proof. unfold parse_document. apply loop_total. cbn [ps_text]. lia. Qed.
