(** The texts of elements, read and written again. *)
From Coq Require Import List Ascii String ZArith QArith Qabs Bool Lia Lqa.
From Verif Require Import Model.Base Model.Text Model.Strings Model.Date Model.Integers Model.Decimals Model.LongDouble Model.NumberOrWord
  Model.EnumLookup Model.CoreEnums Model.CustomEnums Model.PlaybackSound Model.ElementTexts
  Spec.Numerals Spec.DecimalText Spec.Calendar Spec.DateText Spec.TextEnum Spec.SchemaTexts Spec.SoundTexts Spec.XmlText Spec.Ranges Spec.SchemaElementTexts
  Proofs.Tac Proofs.TextProofs Proofs.StringsProofs Proofs.IntegersProofs Proofs.LongDoubleProofs Proofs.DecimalsProofs Proofs.DecimalsStore Proofs.DecimalsText Proofs.DecimalsRange Proofs.DecimalUnique
  Proofs.DateProofs3 Proofs.CustomEnumsProofs Proofs.PlaybackSoundProofs Proofs.EnumTables Proofs.NumberOrWordProofs Proofs.ElementTextProofs.
Import ListNotations.
Open Scope Z_scope.
Open Scope list_scope.

(** ** The tables *)
Lemma find_kind_in n k l : find_kind n l = Some k -> In (n, k) l.
Proof.
  induction l as [ | [m k'] l IH]; [discriminate | ]. cbn [find_kind]. destruct (str_eqb n m) eqn:E.
  - apply str_eqb_eq in E as ->. intros H. injection H as ->. left. reflexivity.
  - intros H. right. auto.
Qed.

Lemma find_kind_unique n k l : NoDup (map fst l) -> In (n, k) l -> find_kind n l = Some k.
Proof.
  induction l as [ | [m k'] l IH]; [intros _ [] | ]. cbn [map fst]. intros N [E | I]; inversion N as [ | ? ? N1 N2]; subst.
  - injection E as -> ->. cbn [find_kind]. rewrite (proj2 (str_eqb_eq n n) eq_refl). reflexivity.
  - cbn [find_kind]. destruct (str_eqb n m) eqn:E; [ | auto]. apply str_eqb_eq in E as ->. exfalso. apply N1. apply (in_map fst) in I. exact I.
Qed.

Fixpoint nodupb (l : list str) : bool := match l with [] => true | x :: r => negb (existsb (str_eqb x) r) && nodupb r end.

Lemma nodupb_ok l : nodupb l = true -> NoDup l.
Proof.
  induction l as [ | x l IH]; [constructor | ]. cbn [nodupb]. intros H. apply andb_prop in H as [A B]. constructor; [ | auto].
  intros I. apply negb_true_iff in A. assert (E : existsb (str_eqb x) l = true) by (apply existsb_exists; exists x; split; [exact I | apply str_eqb_eq; reflexivity]). congruence.
Qed.

Lemma schema_once : NoDup (map fst schema_element_texts).
Proof. apply nodupb_ok. vm_compute. reflexivity. Qed.

Lemma elements_once : NoDup (map fst element_texts).
Proof. apply nodupb_ok. vm_compute. reflexivity. Qed.

Lemma table_fits n ty k : In (n, ty) element_texts -> In (n, k) schema_element_texts -> fits n ty k.
Proof.
  intros I J. pose proof all_fit as H. rewrite Forall_forall in H. destruct (H _ I) as (k' & E & F). cbn [fst snd] in *.
  rewrite (find_kind_unique n k _ schema_once J) in E. injection E as <-. exact F.
Qed.

Lemma same_elements n : In n (map fst element_texts) <-> In n (map fst schema_element_texts).
Proof.
  assert (X : forall a b : list str, forallb (fun x => existsb (str_eqb x) b) a = true -> In n a -> In n b).
  { intros a b H I. rewrite forallb_forall in H. apply H, existsb_exists in I as (y & I & E). apply str_eqb_eq in E as ->. exact I. }
  split; apply X; vm_compute; reflexivity.
Qed.

(** ** Numbers *)
Lemma number_one t x y : number_text t x -> number_text t y -> x = y.
Proof. intros A B. destruct (scan_complete t x A) as (r & E & _). destruct (scan_complete t y B) as (r' & E' & _). congruence. Qed.

Lemma decimal_number t x : decimal_text t x -> exists y, number_text t y /\ (y == x)%Q.
Proof.
  intros (w1 & sign & ip & fp & point & w2 & n & q & E & W1 & W2 & P & N & Eq & S).
  set (q' := (inject_Z n * Qpower 10 (0 - Z.of_nat (List.length fp)))%Q).
  assert (Z : (q' == q)%Q) by (unfold q'; rewrite Eq, pow10_neg; reflexivity).
  assert (X : exists y, (y == x)%Q /\ ((sign = [] /\ y = q') \/ (sign = ["+"%char] /\ y = q') \/ (sign = ["-"%char] /\ y = (- q')%Q))).
  { destruct S as [[-> S] | [[-> S] | [-> S]]].
    - exists q'. split; [rewrite S; exact Z | auto].
    - exists q'. split; [rewrite S; exact Z | auto].
    - exists (- q')%Q. split; [rewrite S, Z; reflexivity | auto]. }
  destruct X as (y & Ey & X). exists y. split; [ | exact Ey].
  exists w1, sign, ip, fp, point, [], 0, w2, n, q'. split; [exact E | ]. split; [exact W1 | ]. split; [exact W2 | ]. split; [exact P | ]. split; [exact N | ].
  split; [left; auto | ]. split; [reflexivity | exact X].
Qed.

Lemma decimal_one t x y : decimal_text t x -> decimal_text t y -> (x == y)%Q.
Proof.
  intros A B. destruct (decimal_number t x A) as (x' & A' & <-). destruct (decimal_number t y B) as (y' & B' & <-). rewrite (number_one t x' y' A' B'). reflexivity.
Qed.

Lemma decimal_eq t x y : decimal_text t x -> (x == y)%Q -> decimal_text t y.
Proof.
  intros (w1 & sign & ip & fp & point & w2 & n & q & E & W1 & W2 & P & N & Eq & S) H.
  exists w1, sign, ip, fp, point, w2, n, q. repeat (split; [assumption | ]). rewrite <- H. exact S.
Qed.

Lemma int_decimal t n : int_text t n -> decimal_text t (inject_Z n).
Proof.
  intros (w1 & sign & ds & w2 & m & E & W1 & W2 & N & S).
  exists w1, sign, ds, [], [], w2, m, (inject_Z m / inject_Z (10 ^ Z.of_nat 0))%Q. split; [exact E | ]. split; [exact W1 | ]. split; [exact W2 | ].
  split; [right; auto | ]. split; [rewrite app_nil_r; exact N | ]. split; [reflexivity | ].
  assert (Z : (inject_Z m / inject_Z (10 ^ Z.of_nat 0) == inject_Z m)%Q) by (change (inject_Z (10 ^ Z.of_nat 0)) with 1%Q; field).
  rewrite Z. destruct S as [[-> ->] | [[-> ->] | [-> ->]]]; [left | right; left | right; right]; split; reflexivity || (rewrite inject_Z_opp; reflexivity).
Qed.

Lemma int_one t n m : int_text t n -> int_text t m -> n = m.
Proof. intros A B. pose proof (decimal_one t _ _ (int_decimal t n A) (int_decimal t m B)) as H. unfold Qeq in H. cbn in H. lia. Qed.

Lemma canonical_text t n : canonical_int t n -> int_text t n.
Proof.
  intros (ds & m & N & _ & [[-> ->] | (-> & -> & _)]).
  - exists [], [], ds, [], m. rewrite app_nil_r. repeat (split; [assumption || reflexivity || constructor | ]). left. auto.
  - exists [], ["-"%char], ds, [], m. rewrite app_nil_r. repeat (split; [assumption || reflexivity || constructor | ]). right. right. auto.
Qed.

Lemma canonical_one t u n : canonical_int t n -> canonical_int u n -> t = u.
Proof. intros A B. apply canonical_int_print in A, B. congruence. Qed.

Lemma plain_text t x : plain_decimal t x -> decimal_text t x.
Proof.
  intros (sign & ip & n & N & [(q & -> & -> & S) | (fp & m & q & -> & M & -> & S)]).
  - exists [], sign, ip, [], [], [], n, (inject_Z n / inject_Z (10 ^ Z.of_nat 0))%Q. rewrite !app_nil_r. split; [reflexivity | ]. split; [constructor | ]. split; [constructor | ].
    split; [right; auto | ]. split; [exact N | ]. split; [reflexivity | ].
    assert (Z : (inject_Z n / inject_Z (10 ^ Z.of_nat 0) == inject_Z n)%Q) by (change (inject_Z (10 ^ Z.of_nat 0)) with 1%Q; field).
    rewrite Z. destruct S as [[-> S] | [-> S]]; [left | right; right]; auto.
  - apply numeral_iff in N as (N1 & N2 & ->). apply numeral_iff in M as (M1 & M2 & ->).
    exists [], sign, ip, fp, ["."%char], [], (digits_value (ip ++ fp)), (inject_Z (digits_value (ip ++ fp)) / inject_Z (10 ^ Z.of_nat (List.length fp)))%Q.
    rewrite !app_nil_r. split; [reflexivity | ]. split; [constructor | ]. split; [constructor | ]. split; [left; reflexivity | ].
    split; [apply numeral_iff; split; [destruct ip; [congruence | discriminate] | split; [apply Forall_app; auto | reflexivity]] | ]. split; [reflexivity | ].
    assert (Z : (inject_Z (digits_value (ip ++ fp)) / inject_Z (10 ^ Z.of_nat (List.length fp)) == inject_Z (digits_value ip) + inject_Z (digits_value fp) / inject_Z (10 ^ Z.of_nat (List.length fp)))%Q).
    { rewrite digits_value_app, inject_Z_plus, inject_Z_mult. pose proof (pow10_pos (List.length fp)). field. lra. }
    rewrite Z. destruct S as [[-> S] | [-> S]]; [left | right; right]; auto.
Qed.

(** ** Integers *)
Lemma range_nearest ty lo hi n : is_int n -> documented_range ty = (lo, hi) -> nearest lo hi n (ir_value (Integers.construct ty n)).
Proof.
  unfold is_int. intros I E. unfold Integers.construct, mk_int_range, ir_value, Integers.clamp, nearest.
  destruct ty; injection E as <- <-; cbn [ctor_bounds fst snd no_less no_more]; unfold int_min, int_max;
    repeat match goal with |- context [Z.ltb ?a ?b] => destruct (Z.ltb_spec a b) end; repeat split; intros; lia.
Qed.

Lemma nearest_in lo hi n m : nearest lo hi n m -> no_less lo n -> no_more hi n -> m = n.
Proof. intros (_ & _ & H) A B. specialize (H n A B). lia. Qed.

Lemma printed n : canonical_int (print_int n) n.
Proof. apply canonical_int_print. reflexivity. Qed.

Lemma parse_range_value ty start t : ir_value (fst (parse_range (Integers.construct ty start) t)) =
  ir_value (Integers.construct ty (match parse_int t with Some n => n | None => start end)).
Proof. unfold parse_range. destruct (parse_int t); reflexivity. Qed.

Lemma no_parse t : (forall n, int_text t n -> ~ is_int n) -> parse_int t = None.
Proof. intros H. destruct (parse_int t) eqn:E; [ | reflexivity]. apply parse_int_iff in E as [A B]. exfalso. exact (H z A B). Qed.

Lemma range_taken ty lo hi start t : documented_range ty = (lo, hi) -> is_int start ->
  taken_whole lo hi start t (print_range (fst (parse_range (Integers.construct ty start) t))).
Proof.
  intros E I. unfold print_range. rewrite parse_range_value. split.
  - intros n T N. rewrite (proj2 (parse_int_iff t n) (conj T N)). eexists. split; [apply range_nearest; eassumption | apply printed].
  - intros T. rewrite (no_parse t T). eexists. split; [apply range_nearest; eassumption | apply printed].
Qed.

Lemma integer_taken t : taken_whole None None 0 t (print_int (match parse_int t with Some n => n | None => 0 end)).
Proof.
  assert (N : forall n, nearest None None n n) by (intros n; repeat split; intros; lia).
  split.
  - intros n T I. rewrite (proj2 (parse_int_iff t n) (conj T I)). exists n. split; [apply N | apply printed].
  - intros T. rewrite (no_parse t T). exists 0. split; [apply N | apply printed].
Qed.

(** ** Decimals *)
Lemma start_ok d start lo hi : same_ends d start lo hi -> exists p, Decimals.construct d start = Ok p /\ well_formed p /\ is_ld start /\
  toString p = match lo with Above _ => lit "1" | _ => lit "0" end.
Proof.
  intros (NT & _ & H). assert (L : is_ld start /\ (start = 0%Q /\ ~ exclusive d \/ start = 1%Q /\ exclusive d)).
  { destruct lo; destruct H as (_ & X & ->); (split; [first [exists 0, 0; split; reflexivity | exists 1, 0; split; reflexivity] | auto]). }
  destruct L as [L X]. assert (Y : exists p, Decimals.construct d start = Ok p /\ well_formed p /\ toString p = (if Qeq_bool start 1 then lit "1" else lit "0")).
  { destruct X as [[-> X] | [-> X]]; destruct d; try congruence; try (exfalso; apply X; cbn; tauto); try (exfalso; cbn in X; intuition discriminate);
      (eexists; split; [vm_compute; reflexivity | ]; split; [repeat split; vm_compute; intros E; discriminate E | vm_compute; reflexivity]). }
  destruct Y as (p & A & B & C). exists p. split; [exact A | ]. split; [exact B | ]. split; [exact L | ]. rewrite C.
  destruct lo; destruct H as (_ & _ & ->); reflexivity.
Qed.

Lemma exact_eq d p k x : well_formed p -> Z.abs k <= 2 ^ 44 * 10 ^ 6 -> documented d (inject_Z k / 1000000)%Q -> (x == inject_Z k / 1000000)%Q ->
  exists r, setValue d p (ld x) = Ok r /\ well_formed r /\ (amount r == inject_Z k / 1000000)%Q.
Proof.
  intros W Hk Hd Hx. unfold setValue. rewrite clamp_id.
  2:{ apply documented_ld. destruct d; cbn [documented] in *; rewrite ?Hx; exact Hd. }
  destruct (ld_micro k Hk) as [A B].
  assert (A' : (Qabs (ld x) < inject_Z (10 ^ 19))%Q) by (rewrite Hx; exact A).
  assert (B' : (Qabs (ld x * 1000000 - inject_Z k) <= 4999998 # 10000000)%Q) by (rewrite Hx; exact B).
  destruct (set_near p _ k (wf_digits p W) A' B') as (r & R1 & R2 & R3 & _).
  exists r. split; [exact R1 | ].
  destruct (set_cases p _ r (wf_digits p W) (ld_is_ld _) R1) as [Wr _]. split; [exact Wr | ].
  unfold amount. rewrite R3, (wf_dec r Wr). reflexivity.
Qed.

Lemma ends_documented d start lo hi x : same_ends d start lo hi -> bounded lo hi x -> documented d x.
Proof.
  intros (NT & <- & H) [A B]. unfold exclusive in H. cbn [In] in H.
  destruct d; cbn [documented upper_end] in *; try exact I; try congruence; destruct lo; cbn [lower_end] in H; destruct H as (H1 & H2 & H3);
    try discriminate H1; try (injection H1 as <-); try subst b; try (exfalso; clear - H2; intuition discriminate); try (exfalso; apply H2; clear; tauto); try exact A; try (split; assumption).
Qed.

Lemma number_taken d start lo hi t p : same_ends d start lo hi -> Decimals.construct d start = Ok p -> well_formed p ->
  forall x, number_text t x -> (Qabs x < inject_Z (2 ^ 64))%Q ->
  rewrite_text (OfNumber d start) t = omap toString (setValue d p (ld x)).
Proof.
  intros S C W x N B. cbn [rewrite_text]. rewrite C. cbn [obind]. rewrite (parse_number d p t x N B). destruct (setValue d p (ld x)); reflexivity.
Qed.

Lemma micro_small k : Z.abs k <= 2 ^ 44 * 10 ^ 6 -> (Qabs (inject_Z k / 1000000) < inject_Z (2 ^ 64))%Q.
Proof.
  intros H. assert (A : (- inject_Z (2 ^ 44 * 10 ^ 6) <= inject_Z k /\ inject_Z k <= inject_Z (2 ^ 44 * 10 ^ 6))%Q).
  { rewrite <- inject_Z_opp, <- !Zle_Qle. lia. }
  change (inject_Z (2 ^ 44 * 10 ^ 6)) with (17592186044416000000%Q) in A. change (inject_Z (2 ^ 64)) with (18446744073709551616%Q).
  set (y := (inject_Z k / 1000000)%Q). assert (E : (y * 1000000 == inject_Z k)%Q) by (unfold y; field). apply Qabs_Qlt_condition. lra.
Qed.

Lemma decimal_back d start lo hi t x k : same_ends d start lo hi -> decimal_text t x -> bounded lo hi x -> (x == inject_Z k / 1000000)%Q -> Z.abs k <= 2 ^ 44 * 10 ^ 6 ->
  exists u, rewrite_text (OfNumber d start) t = Ok u /\ plain_decimal u x /\ shortest_decimal u.
Proof.
  intros S T B E K. destruct (start_ok d start lo hi S) as (p & C & W & _ & _). destruct (decimal_number t x T) as (y & N & Ey).
  assert (D : documented d (inject_Z k / 1000000)%Q).
  { pose proof (ends_documented d start lo hi x S B) as D. destruct d; cbn [documented] in *; rewrite <- ?E; exact D. }
  assert (Y : (y == inject_Z k / 1000000)%Q) by (rewrite Ey; exact E).
  destruct (exact_eq d p k y W K D Y) as (r & R & Wr & A).
  rewrite (number_taken d start lo hi t p S C W y N) by (rewrite Y; apply micro_small, K). rewrite R. cbn [omap obind].
  destruct (text_of r Wr) as [P1 P2]. exists (toString r). split; [reflexivity | ]. split; [ | exact P2].
  destruct P1 as (sign & ip & n & Nn & [(q & E1 & E2 & E3) | (fp & m & q & E1 & E2 & E3 & E4)]); exists sign, ip, n; (split; [exact Nn | ]).
  - left. exists q. split; [exact E1 | ]. split; [exact E2 | ]. rewrite E, <- A. exact E3.
  - right. exists fp, m, q. split; [exact E1 | ]. split; [exact E2 | ]. split; [exact E3 | ]. rewrite E, <- A. exact E4.
Qed.

(** ** The texts that come back *)
Definition comes_to (ty : text_type) (k : kind) (t : str) : Prop := exists w u, rewrite_text ty t = Ok w /\ chardata w u /\ says k t u.

Lemma comes_unmarked ty k t u : rewrite_text ty t = Ok u -> unmarked u -> says k t u -> comes_to ty k t.
Proof. intros A B C. exists u, u. split; [exact A | ]. split; [apply unmarked_chardata, B | exact C]. Qed.

Lemma mode_text t : rewrite_text OfMode t = Ok (getValueString isOther_ModeValue ModeEnum_toString (construct_text isOther_ModeValue ModeEnum_other tryParse_ModeEnum t)).
Proof. cbn [rewrite_text]. unfold construct_text, setValue_text. destruct (tryParse_ModeEnum t); reflexivity. Qed.

Lemma default_valid : valid defaultDate.
Proof. vm_compute. repeat split; intros E; discriminate E. Qed.

Lemma enum_kept {A} (members : list A) print try parse texts fb t : text_enum members print try parse texts fb -> In t texts -> print (parse t) = t.
Proof. intros (M & <- & P & _) I. apply in_map_iff in I as (v & <- & _). rewrite (proj2 (P v)). reflexivity. Qed.

Lemma back_partial n ty k t : fits n ty k -> admits k t -> held n k t -> comes_to ty k t.
Proof.
  intros F A (H1 & H2 & H3). destruct F as [n N1 N2 | | | | n | n | n | n ty start lo hi S | n d start lo hi S | n A' members print try parse texts fb N T Hd U].
  - exists (escape t), t. split; [reflexivity | ]. split; [apply escape_chardata | reflexivity].
  - destruct (H2 eq_refl) as (O & U). apply (comes_unmarked _ _ _ t); [ | exact U | reflexivity]. rewrite mode_text.
    destruct (keeps_text_generic isOther_ModeValue ModeEnum_other _ _ _ _ _ _ ModeValue_other ModeEnum_text) as [K _]. rewrite K; [reflexivity | exact O].
  - destruct PlaybackSound_total as (M & E & P & _). pose proof (H1 eq_refl) as I. pose proof I as J. rewrite <- E in I. apply in_map_iff in I as (v & Ev & _).
    apply (comes_unmarked _ _ _ t); [cbn [rewrite_text]; rewrite <- Ev, P; cbn [omap obind]; reflexivity | | reflexivity].
    assert (X : forallb unmarkedb standard_sounds = true) by (vm_compute; reflexivity). rewrite forallb_forall in X. apply unmarkedb_ok, X, J.
  - cbn [admits] in A. apply (comes_unmarked _ _ _ t); [ | | reflexivity].
    + cbn [rewrite_text]. unfold parse_accidental. destruct (str_eqb t (lit "double-flat")) eqn:E.
      * apply str_eqb_eq in E as ->. exfalso. revert A. vm_compute. intuition discriminate.
      * rewrite (enum_kept _ _ _ _ _ _ t AccidentalValue_text A). reflexivity.
    + assert (X : forallb unmarkedb schema_accidental_value = true) by (vm_compute; reflexivity). rewrite forallb_forall in X. apply unmarkedb_ok, X, A.
  - cbn [admits] in A. destruct A as (y & m & d & T & V). destruct (parseDate_spec defaultDate t default_valid) as [P _]. specialize (P y m d T V).
    assert (E : printDate (fst (parseDate defaultDate t)) = t) by (apply parse_print; [apply default_valid | rewrite P; reflexivity]).
    apply (comes_unmarked _ _ _ t); [cbn [rewrite_text]; rewrite E; reflexivity | | reflexivity].
    destruct T as (a & b & c & -> & _ & _ & _ & Na & Nb & Nc). apply numeral_iff in Na as (_ & Na & _), Nb as (_ & Nb & _), Nc as (_ & Nc & _).
    repeat apply unmarked_app; try (apply digits_unmarked; assumption); apply unmarkedb_ok; reflexivity.
  - destruct A as (m & T & _). destruct H3 as (m' & T' & I). rewrite <- (int_one t m m' T T') in I. clear m' T'.
    apply (comes_unmarked _ _ _ (print_int m)).
    + cbn [rewrite_text]. rewrite (proj2 (parse_int_iff t m) (conj T I)). reflexivity.
    + eapply canonical_unmarked, printed.
    + exists m. split; [exact T | apply printed].
  - cbn [admits] in A. destruct t as [ | c t].
    + apply (comes_unmarked _ _ _ []); [reflexivity | apply unmarkedb_ok; reflexivity | left; auto].
    + destruct A as [A | (m & T & L)]; [discriminate A | ]. destruct H3 as [H3 | (m' & T' & I)]; [discriminate H3 | ]. rewrite <- (int_one _ m m' T T') in I. clear m' T'.
      apply (comes_unmarked _ _ _ (print_int m)).
      * cbn [rewrite_text IntegerOrEmpty_parse]. unfold IntegerOrEmpty_toString, print_range. cbn [ie_isEmpty ie_integer IntegerOrEmpty_new]. rewrite parse_range_value, (proj2 (parse_int_iff _ m) (conj T I)).
        do 2 f_equal. eapply nearest_in; [apply (range_nearest PositiveInteger (Some 1) None m I eq_refl) | exact L | exact Logic.I].
      * eapply canonical_unmarked, printed.
      * right. exists m. split; [exact T | apply printed].
  - destruct A as (m & T & L & M). destruct H3 as (m' & T' & I). rewrite <- (int_one t m m' T T') in I. clear m' T'.
    apply (comes_unmarked _ _ _ (print_int m)).
    + cbn [rewrite_text]. unfold print_range. rewrite parse_range_value, (proj2 (parse_int_iff t m) (conj T I)). do 2 f_equal.
      destruct S as [(_ & -> & _ & -> & ->) | [(_ & -> & _ & -> & ->) | (_ & _ & E & _)]].
      * eapply nearest_in; [apply (range_nearest AccordionMiddleValue (Some 0) (Some 3) m I eq_refl) | cbn in *; lia | exact M].
      * eapply nearest_in; [apply (range_nearest TremoloMarks (Some 0) (Some 8) m I eq_refl) | exact L | exact M].
      * eapply nearest_in; [apply (range_nearest ty lo hi m I E) | exact L | exact M].
    + eapply canonical_unmarked, printed.
    + exists m. split; [exact T | apply printed].
  - destruct A as (x & T & B). destruct H3 as (z & T' & Z). pose proof (decimal_one t _ _ T T') as E.
    destruct (decimal_back d start lo hi t x z S T B E Z) as (u & R & P & Q). apply (comes_unmarked _ _ _ u); [exact R | apply shortest_unmarked, Q | ].
    exists x. auto.
  - cbn [admits] in A. apply (comes_unmarked _ _ _ t); [cbn [rewrite_text]; rewrite (enum_kept _ _ _ _ _ _ t T A); reflexivity | | reflexivity].
    rewrite forallb_forall in U. apply unmarkedb_ok, U, A.
Qed.

Lemma plain_eq t x y : plain_decimal t x -> (x == y)%Q -> plain_decimal t y.
Proof.
  intros (sign & ip & n & N & [(q & E1 & E2 & E3) | (fp & m & q & E1 & E2 & E3 & E4)]) E; exists sign, ip, n; (split; [exact N | ]).
  - left. exists q. split; [exact E1 | ]. split; [exact E2 | ]. rewrite <- E. exact E3.
  - right. exists fp, m, q. split; [exact E1 | ]. split; [exact E2 | ]. split; [exact E3 | ]. rewrite <- E. exact E4.
Qed.

Lemma shortest_same k t u : says k t u -> shortest k t -> u = t.
Proof.
  destruct k; cbn [says shortest]; try (intros; assumption).
  - intros (n & T & C) (m & C'). apply (canonical_one u t m); [ | exact C']. rewrite <- (int_one t n m T (canonical_text t m C')). exact C.
  - intros (x & T & P & S) (y & P' & S'). apply (decimal_unique u t x y P S P' S'). apply (decimal_one t); [exact T | apply plain_text, P'].
  - assert (X : forall n, ~ int_text [] n).
    { intros n (w1 & sg & ds & w2 & k & E & _ & _ & N & _). apply numeral_iff in N as (N & _). destruct w1, sg, ds; discriminate E || congruence. }
    intros [[E ->] | (n & T & C)] H; [symmetry; exact E | ]. destruct H as [E | (m & C')]; [exfalso; rewrite E in T; exact (X n T) | ].
    apply (canonical_one u t m); [ | exact C']. rewrite <- (int_one t n m T (canonical_text t m C')). exact C.
Qed.

(** ** The texts that are not of their kind *)
Lemma day_other t : ~ admits Day t -> printDate (fst (parseDate defaultDate t)) = lit "1900-01-01".
Proof.
  intros H. destruct (parseDate_spec defaultDate t default_valid) as [_ P]. rewrite P; [reflexivity | ].
  intros y m d T V. apply H. exists y, m, d. auto.
Qed.

Lemma ends_below d start b hi : same_ends d start (From b) hi -> lower_end d = Some b /\ ~ exclusive d.
Proof. intros (_ & _ & A & B & _). auto. Qed.

Lemma text_of_integer r b : well_formed r -> (amount r == inject_Z b)%Q -> canonical_int (toString r) b.
Proof.
  intros W A. destruct (text_of r W) as [P S]. apply canonical_int_print.
  destruct (print_int_form b) as [Neg Pos]. pose proof (plain_eq _ _ _ P A) as P'.
  apply (decimal_unique _ _ (inject_Z b) (inject_Z b) P' S); [ | | reflexivity].
  - destruct (Z_lt_le_dec b 0) as [L | L].
    + destruct (Neg L) as (ds & -> & N & _). exists ["-"%char], ds, (- b). split; [exact N | ]. left. exists (inject_Z (- b)). split; [reflexivity | ]. split; [reflexivity | ].
      right. split; [reflexivity | ]. rewrite inject_Z_opp, Qopp_involutive. reflexivity.
    + destruct (Pos L) as [N _]. exists [], (print_int b), b. split; [exact N | ]. left. exists (inject_Z b). split; [reflexivity | ]. split; [reflexivity | ]. left. split; reflexivity.
  - destruct (Z.eq_dec b 0) as [-> | Nz]; [left; reflexivity | right].
    destruct (Z_lt_le_dec b 0) as [L | L].
    + destruct (Neg L) as (ds & -> & N & C). exists ["-"%char], ds, []. rewrite app_nil_r. split; [reflexivity | ]. split; [right; reflexivity | ]. split; [exact C | ]. split; [eauto | ].
      left. split; [reflexivity | ]. intros ->. apply numeral_iff in N as (_ & _ & E). change (digits_value ["0"%char]) with 0 in E. lia.
    + destruct (Pos L) as [N C]. exists [], (print_int b), []. rewrite app_nil_r. split; [reflexivity | ]. split; [left; reflexivity | ]. split; [exact C | ]. split; [eauto | ].
      left. split; [reflexivity | ]. intros E. rewrite E in N. apply numeral_iff in N as (_ & _ & E'). change (digits_value ["0"%char]) with 0 in E'. lia.
Qed.

Lemma millionth_text r : well_formed r -> (amount r == 1 # 1000000)%Q -> toString r = lit "0.000001".
Proof.
  intros W A. destruct (text_of r W) as [P S]. pose proof (plain_eq _ _ _ P A) as P'.
  apply (decimal_unique _ _ (1 # 1000000) (1 # 1000000) P' S); [ | | reflexivity].
  - exists [], (lit "0"), 0. split; [apply numeral_iff; repeat split; [discriminate | repeat constructor] | ]. right.
    exists (lit "000001"), 1, (inject_Z 0 + inject_Z 1 / inject_Z (10 ^ Z.of_nat (List.length (lit "000001"))))%Q. split; [reflexivity | ].
    split; [apply numeral_iff; repeat split; [discriminate | repeat constructor] | ]. split; [reflexivity | ]. left. split; [reflexivity | ]. reflexivity.
  - right. exists [], (lit "0"), (lit ".000001"). split; [reflexivity | ]. split; [left; reflexivity | ]. split; [left; reflexivity | ].
    split; [exists 0; apply numeral_iff; repeat split; [discriminate | repeat constructor] | ]. right. exists (lit "00000"), "1"%char. split; [reflexivity | ].
    split; [exists 1; apply numeral_iff; repeat split; [discriminate | repeat constructor] | discriminate].
Qed.

Lemma clamp_low d b w : lower_end d = Some b -> ~ exclusive d -> (w <= inject_Z b)%Q -> (Decimals.clamp d w == inject_Z b)%Q.
Proof.
  intros L X H. unfold Decimals.clamp. unfold exclusive in X. cbn [In] in X.
  assert (U : max_clamp (high d) w = w).
  { destruct d; cbn [lower_end] in L; try discriminate L; cbn [high max_clamp]; try reflexivity; injection L as <-;
      match goal with |- context [Qle_bool w ?c] => destruct (Qle_bool w c) eqn:E; [reflexivity | ]; apply Qle_bool_false in E; exfalso; revert E H; unfold inject_Z; intros; lra end. }
  rewrite U. clear U. destruct d; cbn [lower_end] in L; try discriminate L; try (exfalso; apply X; tauto); injection L as <-; cbn [low min_clamp];
    match goal with |- context [Qle_bool ?c w] => destruct (Qle_bool c w) eqn:E; [apply Qle_bool_iff in E; apply Qle_antisym; assumption | reflexivity] end.
Qed.

Lemma clamp_high d b w : upper_end d = Some b -> (inject_Z b <= w)%Q -> (Decimals.clamp d w == inject_Z b)%Q.
Proof.
  intros L H. unfold Decimals.clamp. assert (U : (max_clamp (high d) w == inject_Z b)%Q).
  { destruct d; cbn [upper_end] in L; try discriminate L; cbn [high max_clamp]; injection L as <-;
      match goal with |- context [Qle_bool w ?c] => destruct (Qle_bool w c) eqn:E; [apply Qle_bool_iff in E; apply Qle_antisym; assumption | reflexivity] end. }
  set (m := max_clamp (high d) w) in *. clearbody m.
  destruct d; cbn [upper_end] in L; try discriminate L; cbn [low min_clamp]; injection L as <-;
    match goal with |- context [Qle_bool ?c m] => destruct (Qle_bool c m) eqn:E; [exact U | apply Qle_bool_false in E; exfalso; revert E; rewrite U; unfold inject_Z; intros; lra] end.
Qed.

Lemma set_end d p w b : well_formed p -> Z.abs b < 10 ^ 12 -> (Decimals.clamp d w == inject_Z b)%Q ->
  forall r, setValue d p w = Ok r -> canonical_int (toString r) b.
Proof.
  intros W B E r R. unfold setValue in R. rewrite (p_setValue_eq p _ _ E) in R. destruct (set_integer p b (wf_digits p W) B) as (r' & R1 & W' & A).
  rewrite R1 in R. injection R as <-. apply text_of_integer; assumption.
Qed.

Lemma ends_small d b : lower_end d = Some b \/ upper_end d = Some b -> Z.abs b < 10 ^ 12.
Proof. destruct d; cbn [lower_end upper_end]; intros [H | H]; try discriminate H; injection H as <-; reflexivity. Qed.

Lemma unfit_decimal d start lo hi n t u : same_ends d start lo hi -> rewrite_text (OfNumber d start) t = Ok u -> taken_for n (Fraction lo hi) t u.
Proof.
  intros S R. destruct (start_ok d start lo hi S) as (p & C & W & _ & T). split.
  - intros x N B. rewrite (number_taken d start lo hi t p S C W x N B) in R.
    destruct (setValue d p (ld x)) as [r | | ] eqn:E; [ | discriminate R | discriminate R]. cbn [omap obind] in R. injection R as <-.
    destruct S as (_ & U & S). split; [ | split].
    + intros b -> L. destruct S as (S1 & S2 & _). pose proof (ends_small d b (or_introl S1)) as Bb.
      apply (set_end d p (ld x) b W Bb); [ | exact E]. apply clamp_low; [exact S1 | exact S2 | ]. apply ld_le; [apply is_ld_Z; lia | apply Qlt_le_weak, L].
    + intros b -> L. destruct S as (-> & S2 & _). destruct (below_exclusive d p (ld x) W S2) as (r' & R1 & W' & A).
      * apply (ld_le x (inject_Z 0)); [apply is_ld_Z; reflexivity | exact L].
      * rewrite R1 in E. injection E as <-. apply millionth_text; assumption.
    + intros b -> L. pose proof (ends_small d b (or_intror U)) as Bb. apply (set_end d p (ld x) b W Bb); [ | exact E].
      apply clamp_high; [exact U | ]. apply ld_ge; [apply is_ld_Z; lia | apply Qlt_le_weak, L].
  - intros N. cbn [rewrite_text] in R. rewrite C in R. cbn [obind] in R. rewrite (parse_other d p t N) in R. cbn [omap obind snd] in R. injection R as <-. exact T.
Qed.

Lemma enum_other {A} (members : list A) print try parse texts fb t : text_enum members print try parse texts fb -> ~ In t texts -> print (parse t) = print fb.
Proof. intros (_ & _ & _ & _ & _ & H) I. rewrite (proj2 (H t I)). reflexivity. Qed.

Lemma unfit n ty k t u : fits n ty k -> ~ admits k t -> rewrite_text ty t = Ok u -> taken_for n k t u.
Proof.
  intros F A R. destruct F as [n N1 N2 | | | | n | n N1 N2 | n | n ty start lo hi S | n d start lo hi S | n A' members print try parse texts fb N T Hd U].
  - exfalso. apply A. exact I.
  - exfalso. apply A. exact I.
  - exfalso. apply A. exact I.
  - cbn [admits taken_for rewrite_text] in *. injection R as <-. unfold parse_accidental. destruct (str_eqb t (lit "double-flat")) eqn:E.
    + apply str_eqb_eq in E. left. split; [reflexivity | ]. split; [exact E | reflexivity].
    + right. split; [intros [_ X]; apply str_eqb_eq in X; congruence | ]. rewrite (enum_other _ _ _ _ _ _ t AccidentalValue_text A). reflexivity.
  - cbn [rewrite_text taken_for] in *. injection R as <-. apply day_other, A.
  - cbn [rewrite_text taken_for] in *. injection R as <-. right. right. split; [exact N1 | ]. split; [exact N2 | ]. apply integer_taken.
  - cbn [rewrite_text taken_for admits] in *. injection R as <-. destruct t as [ | c t]; [exfalso; apply A; left; reflexivity | ].
    cbn [IntegerOrEmpty_parse]. unfold IntegerOrEmpty_toString. cbn [ie_isEmpty ie_integer IntegerOrEmpty_new].
    apply (range_taken PositiveInteger (Some 1) None 1 (c :: t) eq_refl). split; intros E; discriminate E.
  - cbn [rewrite_text taken_for] in *. injection R as <-. destruct S as [(-> & -> & -> & -> & ->) | [(-> & -> & -> & -> & ->) | (N1 & N2 & E & ->)]].
    + left. split; [reflexivity | ]. apply (range_taken AccordionMiddleValue (Some 0) (Some 3) 0 t eq_refl). split; intros E; discriminate E.
    + right. left. split; [reflexivity | ]. apply (range_taken TremoloMarks (Some 0) (Some 8) 3 t eq_refl). split; intros E; discriminate E.
    + right. right. split; [exact N1 | ]. split; [exact N2 | ]. apply (range_taken ty lo hi 0 t E). split; intros E'; discriminate E'.
  - eapply unfit_decimal; eassumption.
  - cbn [rewrite_text taken_for admits] in *. injection R as <-. right. split; [intros [X _]; contradiction | ]. rewrite (enum_other _ _ _ _ _ _ t T A). exact Hd.
Qed.

(** ** What a text can lead to *)
Lemma set_undefined d p x : well_formed p -> setValue d p (ld x) = UB -> (inject_Z (2 ^ 64 - 1) < Qabs x)%Q.
Proof.
  intros W U. apply (set_defined d p (ld x) W (ld_is_ld x)) in U. apply Qnot_le_lt. intros L. apply Qabs_Qle_condition in L as [L1 L2].
  assert (F : is_ld (inject_Z (2 ^ 64 - 1))) by (apply is_ld_Z; reflexivity). assert (F' : is_ld (- inject_Z (2 ^ 64 - 1))) by (rewrite <- inject_Z_opp; apply is_ld_Z; reflexivity).
  pose proof (ld_le x _ F L2) as A. pose proof (ld_ge x _ F' L1) as B.
  change (inject_Z (2 ^ 64 - 1)) with 18446744073709551615%Q in A, B. change (inject_Z (2 ^ 64)) with 18446744073709551616%Q in U. clear - A B U. destruct U as [[_ U] | [_ U]]; lra.
Qed.

Lemma parse_outcome d p t : well_formed p -> parse d p t <> Throw /\ (parse d p t = UB -> exists x, number_text t x /\ (inject_Z (2 ^ 64 - 1) < Qabs x)%Q).
Proof.
  intros W. unfold parse, read_decimal. destruct (scan_decimal t) as [[x rest] | ] eqn:E; [ | split; intros X; discriminate X].
  destruct (Qle_bool (pow2 16384) (Qabs (ld x))); [split; intros X; discriminate X | ].
  destruct (skip_ws rest) eqn:Er; [ | split; intros X; discriminate X].
  destruct (set_defined d p (ld x) W (ld_is_ld x)) as [_ T].
  destruct (setValue d p (ld x)) eqn:S; cbn [omap obind]; split; try (intros X; discriminate X); try congruence.
  intros _. exists x. split; [eapply scan_sound; eassumption | eapply set_undefined; eassumption].
Qed.

Lemma number_outcome d start lo hi t : same_ends d start lo hi ->
  rewrite_text (OfNumber d start) t <> Throw /\ (rewrite_text (OfNumber d start) t = UB -> exists x, number_text t x /\ (inject_Z (2 ^ 64 - 1) < Qabs x)%Q).
Proof.
  intros S. destruct (start_ok d start lo hi S) as (p & C & W & _). destruct (parse_outcome d p t W) as [A B].
  cbn [rewrite_text]. rewrite C. cbn [obind]. destruct (parse d p t); cbn [omap obind]; split; try (intros X; discriminate X); try congruence. auto.
Qed.

Lemma outcome_of n ty k t : fits n ty k ->
  (rewrite_text ty t = Throw -> n = lit "instrument-sound" /\ ~ In t standard_sounds) /\
  (rewrite_text ty t = UB -> exists lo hi x, k = Fraction lo hi /\ number_text t x /\ (inject_Z (2 ^ 64 - 1) < Qabs x)%Q).
Proof.
  intros F. destruct F; try (split; intros X; discriminate X).
  - cbn [rewrite_text]. destruct PlaybackSound_total as (_ & E & P & _). split.
    + intros X. split; [reflexivity | ]. intros I. rewrite <- E in I. apply in_map_iff in I as (v & <- & _). rewrite P in X. discriminate X.
    + unfold PlaybackSoundFromString. destruct (lookup_text _ t); intros X; discriminate X.
  - destruct (number_outcome d start lo hi t H) as [A B]. split; [contradiction | ]. intros U. destruct (B U) as (x & N & L). exists lo, hi, x. auto.
Qed.

Lemma row_once n ty ty' : In (n, ty) element_texts -> In (n, ty') element_texts -> ty = ty'.
Proof.
  pose proof elements_once as N. revert N. generalize element_texts as l. induction l as [ | [m ty0] l IH]; [intros _ [] | ]. cbn [map fst]. intros N. inversion N as [ | ? ? N1 N2]; subst.
  intros [E | I] [E' | I']; [congruence | | | auto]; exfalso; apply N1; [injection E as -> _; apply (in_map fst) in I'; exact I' | injection E' as -> _; apply (in_map fst) in I; exact I].
Qed.

Lemma sound_throws ty t : In (lit "instrument-sound", ty) element_texts -> ~ In t standard_sounds -> rewrite_text ty t = Throw.
Proof.
  intros I H. assert (J : In (lit "instrument-sound", OfSound) element_texts) by (unfold element_texts; cbn [In]; repeat (first [left; reflexivity | right])).
  rewrite (row_once _ _ _ I J). cbn [rewrite_text]. destruct PlaybackSound_total as (_ & _ & _ & _ & _ & P). rewrite (P t H). reflexivity.
Qed.

(** ** A second time *)
Lemma chardata_plain w u : chardata w u -> ~ In "&"%char w -> u = w.
Proof.
  intros H N. apply (chardata_functional w); [exact H | ]. apply unmarked_chardata. pose proof (chardata_no_markup w u H) as [A B]. split; [exact A | ]. split; assumption.
Qed.

Lemma chardata_unmarked w u : chardata w u -> unmarked w -> u = w.
Proof. intros H (_ & _ & N). exact (chardata_plain w u H N). Qed.

Lemma number_again d start lo hi t w : same_ends d start lo hi -> ~ exclusive d -> rewrite_text (OfNumber d start) t = Ok w -> unmarked w /\ rewrite_text (OfNumber d start) w = Ok w.
Proof.
  intros S X R. destruct (start_ok d start lo hi S) as (p & C & W & L & _). cbn [rewrite_text] in *. rewrite C in *. cbn [obind] in *.
  destruct (parse d p t) as [[b r] | | ] eqn:E; cbn [omap obind snd] in R; try discriminate R. injection R as <-.
  assert (Re : reached d r).
  { exists start, [CallParse t]. split; [exact L | ]. split; [repeat constructor | ]. rewrite C. cbn [obind run_calls run_call]. rewrite E. reflexivity. }
  destruct (range_partial d r Re) as (Wr & D & _). split; [apply shortest_unmarked, (proj2 (text_of r Wr)) | ].
  destruct (text_roundtrip d r p Re (D X) W) as (r' & P & _ & T). rewrite P. cbn [omap obind snd]. rewrite T. reflexivity.
Qed.

Lemma enum_again {A} (members : list A) print try parse texts fb t : text_enum members print try parse texts fb -> In (print (parse t)) texts /\ print (parse (print (parse t))) = print (parse t).
Proof.
  intros (M & <- & P & _). split; [apply in_map, M | rewrite (proj2 (P _)); reflexivity].
Qed.

Lemma date_again t : let w := printDate (fst (parseDate defaultDate t)) in printDate (fst (parseDate defaultDate w)) = w /\ unmarked w.
Proof.
  cbn zeta. pose proof (parseDate_valid defaultDate t default_valid) as V. rewrite (print_parse defaultDate _ default_valid V). split; [reflexivity | ].
  pose proof (printDate_text _ V) as T. set (w := printDate _) in *. clearbody w.
  destruct T as (a & b & c & -> & _ & _ & _ & Na & Nb & Nc). apply numeral_iff in Na as (_ & Na & _), Nb as (_ & Nb & _), Nc as (_ & Nc & _).
  repeat apply unmarked_app; try (apply digits_unmarked; assumption); apply unmarkedb_ok; reflexivity.
Qed.

Lemma printed_unmarked n : unmarked (print_int n).
Proof. eapply canonical_unmarked, printed. Qed.

Lemma again n ty k t w u : fits n ty k -> (forall b hi, k <> Fraction (Above b) hi) -> (n = lit "mode" -> ~ In "&"%char w) ->
  rewrite_text ty t = Ok w -> chardata w u -> rewrite_text ty u = Ok w.
Proof.
  intros F NA NM R H. destruct F as [n N1 N2 | | | | n | n N1 N2 | n | n ty start lo hi S | n d start lo hi S | n A' members print try parse texts fb N T Hd U].
  - cbn [rewrite_text] in *. injection R as <-. rewrite (chardata_functional _ _ _ H (escape_chardata t)). reflexivity.
  - rewrite (chardata_plain w u H (NM eq_refl)). clear H NM. rewrite mode_text in *. injection R as <-. f_equal.
    destruct (keeps_text_generic isOther_ModeValue ModeEnum_other _ _ _ _ _ _ ModeValue_other ModeEnum_text) as [K L].
    destruct (list_eq_dec ascii_dec t (ModeEnum_toString ModeEnum_other)) as [-> | X].
    + rewrite L. vm_compute. reflexivity.
    + rewrite (K t X). apply K, X.
  - cbn [rewrite_text] in *. destruct PlaybackSound_total as (M & E & P & _). destruct (PlaybackSoundFromString t) as [v | | ]; try discriminate R. cbn [omap obind] in R. injection R as <-.
    assert (X : forallb unmarkedb standard_sounds = true) by (vm_compute; reflexivity). rewrite forallb_forall in X.
    assert (J : In (PlaybackSoundToString v) standard_sounds) by (rewrite <- E; apply in_map, M).
    rewrite (chardata_unmarked _ u H (unmarkedb_ok _ (X _ J))), P. reflexivity.
  - cbn [rewrite_text] in *. injection R as <-. unfold parse_accidental in *.
    assert (X : forallb unmarkedb schema_accidental_value = true) by (vm_compute; reflexivity). rewrite forallb_forall in X.
    assert (Y : exists t', (if str_eqb t (lit "double-flat") then parse_AccidentalValue (lit "flat-flat") else parse_AccidentalValue t) = parse_AccidentalValue t') by (destruct (str_eqb t _); eauto).
    destruct Y as (t' & Et). rewrite Et in *. destruct (enum_again _ _ _ _ _ _ t' AccidentalValue_text) as [J A].
    rewrite (chardata_unmarked _ u H (unmarkedb_ok _ (X _ J))). set (w := AccidentalValue_toString (parse_AccidentalValue t')) in *.
    destruct (str_eqb w (lit "double-flat")) eqn:E; [ | rewrite A; reflexivity]. apply str_eqb_eq in E. rewrite E in J. exfalso. revert J. vm_compute. intuition discriminate.
  - cbn [rewrite_text] in *. injection R as <-. destruct (date_again t) as [A B]. rewrite (chardata_unmarked _ u H B), A. reflexivity.
  - cbn [rewrite_text] in *. injection R as <-. rewrite (chardata_unmarked _ u H (printed_unmarked _)). rewrite parse_print_int; [reflexivity | ].
    destruct (parse_int t) eqn:E; [apply (proj1 (parse_int_iff t z) E) | split; intros X; discriminate X].
  - cbn [rewrite_text] in *. injection R as <-.
    assert (B : unmarked (IntegerOrEmpty_toString (IntegerOrEmpty_parse IntegerOrEmpty_new t))) by (unfold IntegerOrEmpty_toString; destruct (ie_isEmpty _); [apply unmarkedb_ok; reflexivity | apply printed_unmarked]).
    rewrite (chardata_unmarked _ u H B). pose proof (empty_roundtrip [ParseEmpty t] []) as E. unfold IntegerOrEmpty_history in E. cbn [fold_left empty_run] in E. rewrite E. reflexivity.
  - cbn [rewrite_text] in *. injection R as <-. rewrite (chardata_unmarked _ u H (printed_unmarked _)).
    pose proof (range_roundtrip ty start [OpParse t] start []) as E. cbn [run_ops fold_left apply_op] in E. cbn zeta in E. rewrite E. reflexivity.
  - assert (X : ~ exclusive d) by (destruct S as (_ & _ & S); destruct lo; [apply S | apply S | exfalso; exact (NA b hi eq_refl)]).
    destruct (number_again d start lo hi t w S X R) as [A B]. rewrite (chardata_unmarked w u H A). exact B.
  - cbn [rewrite_text] in *. injection R as <-. destruct (enum_again _ _ _ _ _ _ t T) as [J A]. rewrite forallb_forall in U. rewrite (chardata_unmarked _ u H (unmarkedb_ok _ (U _ J))), A. reflexivity.
Qed.

Definition row_of (n : str) : option text_type :=
  match find (fun p => str_eqb n (fst p)) element_texts with Some p => Some (snd p) | None => None end.

Lemma row_of_in n ty : row_of n = Some ty -> In (n, ty) element_texts.
Proof.
  unfold row_of. destruct (find _ element_texts) as [[m ty'] | ] eqn:E; [ | discriminate]. intros H. injection H as <-.
  apply find_some in E as [I E]. cbn [fst snd] in *. apply str_eqb_eq in E as ->. exact I.
Qed.

Lemma in_row n ty : In (n, ty) element_texts -> row_of n = Some ty.
Proof.
  intros I. unfold row_of. destruct (find (fun p => str_eqb n (fst p)) element_texts) as [[m ty'] | ] eqn:E.
  - apply find_some in E as [J E]. cbn [fst snd] in *. apply str_eqb_eq in E as <-. f_equal. symmetry. eapply row_once; eassumption.
  - exfalso. apply find_none with (x := (n, ty)) in E; [ | exact I]. cbn [fst] in E. rewrite (proj2 (str_eqb_eq n n) eq_refl) in E. discriminate E.
Qed.

Lemma table_back n ty k t : In (n, ty) element_texts -> In (n, k) schema_element_texts -> admits k t -> held n k t ->
  exists w u, rewrite_text ty t = Ok w /\ chardata w u /\ says k t u.
Proof. intros I J A H. exact (back_partial n ty k t (table_fits n ty k I J) A H). Qed.

Lemma table_same n ty k t : In (n, ty) element_texts -> In (n, k) schema_element_texts -> admits k t -> held n k t -> shortest k t ->
  exists w, rewrite_text ty t = Ok w /\ chardata w t.
Proof.
  intros I J A H S. destruct (table_back n ty k t I J A H) as (w & u & R & C & E). exists w. split; [exact R | ]. rewrite <- (shortest_same k t u E S). exact C.
Qed.

Lemma table_unfit n ty k t u : In (n, ty) element_texts -> In (n, k) schema_element_texts -> ~ admits k t -> rewrite_text ty t = Ok u -> taken_for n k t u.
Proof. intros I J. exact (unfit n ty k t u (table_fits n ty k I J)). Qed.

Lemma table_outcome n ty k t : In (n, ty) element_texts -> In (n, k) schema_element_texts ->
  (rewrite_text ty t = Throw <-> n = lit "instrument-sound" /\ ~ In t standard_sounds) /\
  (rewrite_text ty t = UB -> exists lo hi x, k = Fraction lo hi /\ number_text t x /\ (inject_Z (2 ^ 64 - 1) < Qabs x)%Q).
Proof.
  intros I J. destruct (outcome_of n ty k t (table_fits n ty k I J)) as [A B]. split; [split; [exact A | ] | exact B].
  intros [-> H]. exact (sound_throws ty t I H).
Qed.

Lemma table_again n ty k t w u : In (n, ty) element_texts -> In (n, k) schema_element_texts ->
  (forall b hi, k <> Fraction (Above b) hi) -> (n = lit "mode" -> ~ In "&"%char w) ->
  rewrite_text ty t = Ok w -> chardata w u -> rewrite_text ty u = Ok w.
Proof. intros I J. exact (again n ty k t w u (table_fits n ty k I J)). Qed.

(** ** What fails *)
Definition fails (n : str) : Prop := exists ty k t, In (n, ty) element_texts /\ In (n, k) schema_element_texts /\ admits k t /\
  ~ exists w u, rewrite_text ty t = Ok w /\ chardata w u /\ says k t u.

Lemma sound_fails : fails (lit "instrument-sound").
Proof.
  exists OfSound, AnyText, (lit "piano"). split; [apply row_of_in; vm_compute; reflexivity | ]. split; [apply find_kind_in; vm_compute; reflexivity | ]. split; [exact I | ].
  intros (w & u & R & _). vm_compute in R. discriminate R.
Qed.

Lemma no_bare w u : chardata w u -> w <> lit "a&b".
Proof.
  assert (B : forall w u, chardata w u -> w <> lit "&b").
  { intros w' u' C. destruct C as [ | c e t _ _ N C | | | ]; intros E; try discriminate E. injection E as -> _. exact (N eq_refl). }
  intros C. destruct C as [ | c e t _ _ N C | | | ]; intros E; try discriminate E. injection E as _ E. exact (B e t C E).
Qed.

Lemma mode_fails : fails (lit "mode").
Proof.
  exists OfMode, AnyText, (lit "a&b"). split; [apply row_of_in; vm_compute; reflexivity | ]. split; [apply find_kind_in; vm_compute; reflexivity | ]. split; [exact I | ].
  intros (w & u & R & C & _). apply (no_bare w u C). rewrite mode_text in R. vm_compute in R. injection R as <-. reflexivity.
Qed.

Lemma integer_fails : fails (lit "octave-change").
Proof.
  exists OfInteger, (Whole None None), (lit "3000000000"). split; [apply row_of_in; vm_compute; reflexivity | ]. split; [apply find_kind_in; vm_compute; reflexivity | ].
  assert (T : int_text (lit "3000000000") 3000000000) by (apply canonical_text, canonical_int_print; vm_compute; reflexivity).
  split; [exists 3000000000; split; [exact T | split; exact I] | ].
  intros (w & u & R & C & n & N & K). vm_compute in R. injection R as <-. assert (u = ["0"%char]) as -> by (apply (chardata_unmarked _ _ C), unmarkedb_ok; reflexivity).
  apply canonical_int_print in K. rewrite <- (int_one _ _ _ T N) in K. vm_compute in K. discriminate K.
Qed.

Lemma decimal_fails : fails (lit "tenths").
Proof.
  exists (OfNumber TenthsValue (default_value TenthsValue)), (Fraction Anywhere None), (lit "0.1234567"). split; [apply row_of_in; vm_compute; reflexivity | ]. split; [apply find_kind_in; vm_compute; reflexivity | ].
  assert (D : forall f m, numeral f m -> decimal_text (lit "0." ++ f) (inject_Z m / inject_Z (10 ^ Z.of_nat (List.length f)))).
  { intros f m N. exists [], [], (lit "0"), f, (lit "."), [], m, (inject_Z m / inject_Z (10 ^ Z.of_nat (List.length f)))%Q. rewrite app_nil_r. split; [reflexivity | ]. split; [constructor | ]. split; [constructor | ].
    split; [left; reflexivity | ]. split; [ | split; [reflexivity | left; split; reflexivity]]. apply numeral_iff in N as (N1 & N2 & ->). apply numeral_iff. split; [discriminate | ]. split; [constructor; [reflexivity | exact N2] | ].
    change (lit "0" ++ f) with ("0"%char :: f). rewrite digits_value_cons. change (digit_of "0"%char) with 0. lia. }
  assert (A : decimal_text (lit "0.1234567") (1234567 # 10000000)).
  { eapply decimal_eq; [apply (D (lit "1234567") 1234567); apply numeral_iff; split; [discriminate | split; [repeat constructor | reflexivity]] | reflexivity]. }
  assert (B : decimal_text (lit "0.123457") (123457 # 1000000)).
  { eapply decimal_eq; [apply (D (lit "123457") 123457); apply numeral_iff; split; [discriminate | split; [repeat constructor | reflexivity]] | reflexivity]. }
  split; [exists (1234567 # 10000000); split; [exact A | split; exact I] | ].
  intros (w & u & R & C & x & N & P & _). vm_compute in R. injection R as <-.
  assert (u = lit "0.123457") as -> by (apply (chardata_unmarked _ _ C), unmarkedb_ok; reflexivity).
  pose proof (decimal_one _ _ _ N A) as E1. pose proof (decimal_one _ _ _ (plain_text _ _ P) B) as E2. rewrite E1 in E2. discriminate E2.
Qed.

Lemma all_fail : Forall fails [lit "instrument-sound"; lit "mode"; lit "octave-change"; lit "tenths"].
Proof.
  constructor; [exact sound_fails | ]. constructor; [exact mode_fails | ]. constructor; [exact integer_fails | ]. constructor; [exact decimal_fails | constructor].
Qed.

Lemma again_refuted : ~ (forall n ty t w u, In (n, ty) element_texts -> rewrite_text ty t = Ok w -> chardata w u -> rewrite_text ty u = Ok w).
Proof.
  intros H. specialize (H (lit "divisions") (OfNumber PositiveDivisionsValue (default_value PositiveDivisionsValue)) (lit "0.0000001") (lit "0") (lit "0")).
  assert (X : rewrite_text (OfNumber PositiveDivisionsValue (default_value PositiveDivisionsValue)) (lit "0") = Ok (lit "0")).
  { apply H; [apply row_of_in; vm_compute; reflexivity | vm_compute; reflexivity | apply unmarked_chardata, unmarkedb_ok; reflexivity]. }
  vm_compute in X. discriminate X.
Qed.
