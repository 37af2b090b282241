(** C71. *)
From Coq Require Import List String Ascii ZArith Bool Lia.
From Verif Require Import Model.Base Model.Text Model.XmlStream Model.DocumentSpecs Spec.CaseText Spec.Instructions.
Import ListNotations.
Local Open Scope nat_scope.
Local Open Scope list_scope.

(** * Characters *)

Definition all_chars : list ascii := Eval vm_compute in map ascii_of_nat (seq 0 256).

Lemma every_char c : In c all_chars.
Proof.
  change all_chars with (map ascii_of_nat (seq 0 256)). rewrite <- (ascii_nat_embedding c). apply in_map, in_seq. pose proof (nat_ascii_bounded c). lia.
Qed.

Definition letter_table : list (list ascii) := Eval vm_compute in map letter_forms (seq 0 26).
Definition letterb (x y : ascii) : bool :=
  Ascii.eqb x y || existsb (fun l => existsb (Ascii.eqb x) l && existsb (Ascii.eqb y) l) letter_table.

Lemma letterb_spec x y : letterb x y = true <-> same_letter x y.
Proof.
  unfold letterb, same_letter. rewrite orb_true_iff, Ascii.eqb_eq, existsb_exists. apply or_iff_compat_l. split.
  - intros (l & I & H). change letter_table with (map letter_forms (seq 0 26)) in I. apply in_map_iff in I. destruct I as (i & <- & I). apply in_seq in I. apply andb_true_iff in H. destruct H as [H1 H2]. apply existsb_exists in H1, H2.
    destruct H1 as (u & U & E1), H2 as (v & V & E2). apply Ascii.eqb_eq in E1, E2. subst u v. exists i. split; [lia | auto].
  - intros (i & I & H1 & H2). exists (letter_forms i). split; [change letter_table with (map letter_forms (seq 0 26)); apply in_map, in_seq; lia | ]. apply andb_true_iff. split; apply existsb_exists; [exists x | exists y]; rewrite Ascii.eqb_refl; auto.
Qed.

Definition lower_right (x y : ascii) : bool :=
  negb (Nat.ltb (nat_of_ascii x) 128 && Nat.ltb (nat_of_ascii y) 128) ||
  match to_lower x, to_lower y with Ok u, Ok v => Bool.eqb (u =? v)%Z (letterb x y) | _, _ => false end.

Lemma lower_all : forallb (fun x => forallb (lower_right x) all_chars) all_chars = true.
Proof. vm_compute. reflexivity. Qed.

Lemma lower_letters x y : nat_of_ascii x < 128 -> nat_of_ascii y < 128 ->
  exists u v, to_lower x = Ok u /\ to_lower y = Ok v /\ ((u =? v)%Z = true <-> same_letter x y).
Proof.
  intros X Y. pose proof (proj1 (forallb_forall _ _) lower_all x (every_char x)) as A.
  pose proof (proj1 (forallb_forall _ _) A y (every_char y)) as B. unfold lower_right in B.
  apply Nat.ltb_lt in X, Y. rewrite X, Y in B. cbn [andb negb orb] in B.
  destruct (to_lower x) as [u | | ]; try discriminate B. destruct (to_lower y) as [v | | ]; try discriminate B.
  exists u, v. split; [reflexivity | ]. split; [reflexivity | ]. apply Bool.eqb_prop in B. rewrite B. apply letterb_spec.
Qed.

Definition upper_right (x y : ascii) : bool := Bool.eqb (to_upper x =? to_upper y)%Z (letterb x y).
Lemma upper_all : forallb (fun x => forallb (upper_right x) all_chars) all_chars = true.
Proof. vm_compute. reflexivity. Qed.
Lemma upper_letters x y : (to_upper x =? to_upper y)%Z = true <-> same_letter x y.
Proof.
  pose proof (proj1 (forallb_forall _ _) upper_all x (every_char x)) as A.
  pose proof (proj1 (forallb_forall _ _) A y (every_char y)) as B. apply Bool.eqb_prop in B. rewrite B. apply letterb_spec.
Qed.

Lemma letter_sym x y : same_letter x y -> same_letter y x.
Proof. intros [-> | (i & I & H1 & H2)]; [left; reflexivity | right; exists i; auto]. Qed.

(** * Comparing *)

Lemma case_sym a b : same_ignoring_case a b -> same_ignoring_case b a.
Proof. induction 1; constructor; [apply letter_sym | ]; assumption. Qed.

Lemma equal_spec b : forall a, List.length a = List.length b -> ascii_text a -> ascii_text b ->
  exists r, equal_letters b a = Ok r /\ (r = true <-> same_ignoring_case a b).
Proof.
  induction b as [ | x b IH]; intros [ | y a] L A B; try discriminate L.
  - exists true. split; [reflexivity | ]. split; [constructor | reflexivity].
  - inversion A as [ | ? ? A1 A2]; subst. inversion B as [ | ? ? B1 B2]; subst. injection L as L.
    cbn [equal_letters]. destruct (lower_letters x y B1 A1) as (u & v & -> & -> & H). cbn [obind]. destruct (u =? v)%Z.
    + destruct (IH a L A2 B2) as (r & E & R). exists r. split; [exact E | ]. rewrite R. split.
      * intros S. constructor; [apply letter_sym, H; reflexivity | exact S].
      * intros S. inversion S; assumption.
    + exists false. split; [reflexivity | ]. split; [discriminate | ]. intros S. inversion S; subst. exfalso. assert (X : false = true) by (apply H, letter_sym; assumption). discriminate X.
Qed.

Lemma case_length a b : same_ignoring_case a b -> List.length a = List.length b.
Proof. induction 1; cbn; congruence. Qed.

Lemma compare_spec a b : ascii_text a -> ascii_text b ->
  (same_ignoring_case a b -> compareCaseInsensitive a b = Ok true) /\ (~ same_ignoring_case a b -> compareCaseInsensitive a b = Ok false).
Proof.
  intros A B. unfold compareCaseInsensitive. destruct (Nat.eqb (List.length a) (List.length b)) eqn:L.
  - apply Nat.eqb_eq in L. destruct (equal_spec b a L A B) as (r & E & R). split; intros H.
    + rewrite E. f_equal. apply R, H.
    + rewrite E. f_equal. destruct r; [exfalso; apply H, R; reflexivity | reflexivity].
  - split; intros H; [ | reflexivity]. apply case_length in H. rewrite H, Nat.eqb_refl in L. discriminate L.
Qed.

(** Exactly when a comparison is undefined. *)
Definition knownb (c : ascii) : bool := (nat_of_ascii c <? 128) || (nat_of_ascii c =? 255).
Lemma knownb_spec c : knownb c = true <-> case_known c.
Proof. unfold knownb, case_known. rewrite orb_true_iff, Nat.ltb_lt, Nat.eqb_eq. reflexivity. Qed.

Definition known_right (x y : ascii) : bool :=
  match to_lower x, to_lower y with Ok u, Ok v => Bool.eqb (u =? v)%Z (letterb x y) | _, _ => true end.
Definition known_one (x : ascii) : bool :=
  match to_lower x with Ok _ => knownb x | UB => negb (knownb x) | Throw => false end.
Lemma known_all : forallb (fun x => forallb (known_right x) all_chars) all_chars = true.
Proof. vm_compute. reflexivity. Qed.
Lemma known_each : forallb known_one all_chars = true.
Proof. vm_compute. reflexivity. Qed.

Lemma lower_known x : (case_known x /\ exists u, to_lower x = Ok u) \/ (~ case_known x /\ to_lower x = UB).
Proof.
  pose proof (proj1 (forallb_forall _ _) known_each x (every_char x)) as A. unfold known_one in A. rewrite <- knownb_spec.
  destruct (to_lower x) as [u | | ]; [left | discriminate A | right].
  - split; [exact A | exists u; reflexivity].
  - split; [ | reflexivity]. apply negb_true_iff in A. rewrite A. discriminate.
Qed.
Lemma lower_same x y u v : to_lower x = Ok u -> to_lower y = Ok v -> ((u =? v)%Z = true <-> same_letter x y).
Proof.
  intros X Y. pose proof (proj1 (forallb_forall _ _) known_all x (every_char x)) as A.
  pose proof (proj1 (forallb_forall _ _) A y (every_char y)) as B. unfold known_right in B. rewrite X, Y in B.
  apply Bool.eqb_prop in B. rewrite B. apply letterb_spec.
Qed.

Lemma equal_undefined b : forall a, List.length a = List.length b -> (equal_letters b a = UB <->
  exists p c q p' c' q', a = p ++ c :: q /\ b = p' ++ c' :: q' /\ List.length q = List.length q' /\
    same_ignoring_case p p' /\ Forall case_known p /\ Forall case_known p' /\ (~ case_known c \/ ~ case_known c')).
Proof.
  induction b as [ | x b IH]; intros [ | y a] L; try discriminate L.
  - split; [discriminate | ]. intros (p & c & q & p' & c' & q' & E & _). destruct p; discriminate E.
  - injection L as L. cbn [equal_letters]. destruct (lower_known x) as [[KX [u X]] | [KX X]]; rewrite X; cbn [obind].
    + destruct (lower_known y) as [[KY [v Y]] | [KY Y]]; rewrite Y; cbn [obind].
      * pose proof (lower_same x y u v X Y) as S. destruct (u =? v)%Z eqn:D.
        -- rewrite (IH a L). split.
           ++ intros (p & c & q & p' & c' & q' & -> & -> & LQ & I & F & F' & N). exists (y :: p), c, q, (x :: p'), c', q'.
              split; [reflexivity | ]. split; [reflexivity | ]. split; [exact LQ | ].
              split; [constructor; [apply letter_sym, S; reflexivity | exact I] | ].
              split; [constructor; assumption | ]. split; [constructor; assumption | exact N].
           ++ intros (p & c & q & p' & c' & q' & EA & EB & LQ & I & F & F' & N).
              destruct I as [ | m n p p' M I].
              ** injection EA as -> ->. injection EB as -> ->. exfalso. destruct N as [N | N]; apply N; assumption.
              ** injection EA as -> ->. injection EB as -> ->. inversion F; subst. inversion F'; subst. exists p, c, q, p', c', q'. repeat (split; [assumption || reflexivity | ]). assumption.
        -- split; [discriminate | ]. intros (p & c & q & p' & c' & q' & EA & EB & LQ & I & F & F' & N). exfalso.
           destruct I as [ | m n p p' M I].
           ++ injection EA as -> ->. injection EB as -> ->. destruct N as [N | N]; apply N; assumption.
           ++ injection EA as -> ->. injection EB as -> ->. assert (Z : false = true) by (apply S, letter_sym; assumption). discriminate Z.
      * split; [intros _ | reflexivity]. exists [], y, a, [], x, b. repeat (split; [reflexivity || assumption || constructor | ]). left. exact KY.
    + split; [intros _ | reflexivity]. exists [], y, a, [], x, b. repeat (split; [reflexivity || assumption || constructor | ]). right. exact KX.
Qed.

Lemma compare_undefined a b : compareCaseInsensitive a b = UB <->
  exists p c q p' c' q', a = p ++ c :: q /\ b = p' ++ c' :: q' /\ List.length q = List.length q' /\
    same_ignoring_case p p' /\ Forall case_known p /\ Forall case_known p' /\ (~ case_known c \/ ~ case_known c').
Proof.
  unfold compareCaseInsensitive. destruct (Nat.eqb (List.length a) (List.length b)) eqn:L.
  - apply equal_undefined, Nat.eqb_eq, L.
  - split; [discriminate | ]. intros (p & c & q & p' & c' & q' & -> & -> & LQ & I & _). apply case_length in I.
    rewrite !app_length in L. cbn [List.length] in L. rewrite LQ, I, Nat.eqb_refl in L. discriminate L.
Qed.

Definition caseb (a b : str) : bool := match compareCaseInsensitive a b with Ok r => r | _ => false end.

Lemma compare_ascii a b : ascii_text a -> ascii_text b ->
  (same_ignoring_case a b /\ compareCaseInsensitive a b = Ok true) \/ (~ same_ignoring_case a b /\ compareCaseInsensitive a b = Ok false).
Proof.
  intros A B. destruct (compare_spec a b A B) as [H1 H2].
  assert (D : same_ignoring_case a b \/ ~ same_ignoring_case a b).
  { destruct (Nat.eq_dec (List.length a) (List.length b)) as [L | L].
    - destruct (equal_spec b a L A B) as (r & E & R). destruct r; [left; apply R; reflexivity | right; intros S; apply R in S; discriminate S].
    - right. intros S. apply L, case_length, S. }
  destruct D as [D | D]; [left | right]; auto.
Qed.

Ltac ascii_words := repeat constructor; cbn; lia.

Lemma choice_read t : ascii_text t ->
  (same_ignoring_case t (lit "timewise") -> parse_choice t = Ok Timewise) /\ (~ same_ignoring_case t (lit "timewise") -> parse_choice t = Ok Partwise).
Proof.
  intros A. unfold parse_choice.
  destruct (compare_ascii t (lit "partwise") A ltac:(ascii_words)) as [[P ->] | [P ->]]; cbn [obind].
  - split; [ | reflexivity]. intros T. exfalso. assert (X : same_letter "p" "t").
    { inversion P as [ | x y ? ? H1 ? E1]; subst. inversion T as [ | ? ? ? ? H2]; subst.
      apply letterb_spec in H1, H2. destruct (Ascii.eqb x "p") eqn:X1; [apply Ascii.eqb_eq in X1; subst; vm_compute in H2; discriminate H2 | ].
      exfalso. revert H1 H2. pose proof (every_char x) as I. revert I. clear.
      assert (F : forallb (fun x => negb (letterb x "p" && letterb x "t")) all_chars = true) by (vm_compute; reflexivity).
      intros I H1 H2. apply (proj1 (forallb_forall _ _) F) in I. rewrite H1, H2 in I. discriminate I. }
    apply letterb_spec in X. vm_compute in X. discriminate X.
  - destruct (compare_ascii t (lit "timewise") A ltac:(ascii_words)) as [[T ->] | [T ->]]; cbn [obind]; split; intros H; try reflexivity; contradiction.
Qed.

Lemma version_read t : ascii_text t -> parse_version t = Ok ThreePointZero.
Proof.
  intros A. unfold parse_version. destruct (compare_ascii t (lit "3.0") A ltac:(ascii_words)) as [[_ ->] | [_ ->]]; reflexivity.
Qed.

Lemma specification_read t : ascii_text t ->
  (same_ignoring_case t (lit "dtd") \/ same_ignoring_case t (lit "xsd") -> parse_specification t = Ok Dtd) /\
  (~ same_ignoring_case t (lit "dtd") -> ~ same_ignoring_case t (lit "xsd") -> parse_specification t = Ok Xsd).
Proof.
  intros A. unfold parse_specification.
  destruct (compare_ascii t (lit "dtd") A ltac:(ascii_words)) as [[P ->] | [P ->]]; cbn [obind]; [split; [reflexivity | contradiction] | ].
  destruct (compare_ascii t (lit "xsd") A ltac:(ascii_words)) as [[T ->] | [T ->]]; cbn [obind]; split; try reflexivity; tauto.
Qed.

(** * Finding *)

Lemma begins_spec t : forall s, begins s t = true <-> exists b c, s = b ++ c /\ same_ignoring_case b t.
Proof.
  induction t as [ | y t IH]; intros s.
  - split; [intros _; exists [], s; split; [reflexivity | constructor] | destruct s; reflexivity].
  - destruct s as [ | x s]; cbn [begins].
    + split; [discriminate | ]. intros (b & c & E & S). inversion S; subst. discriminate E.
    + rewrite andb_true_iff, upper_letters, IH. split.
      * intros (L & b & c & -> & S). exists (x :: b), c. split; [reflexivity | constructor; assumption].
      * intros (b & c & E & S). inversion S as [ | u ? b' ? L S']; subst. injection E as -> ->. split; [exact L | exists b', c; auto].
Qed.

Lemma found_cons x s t i : found_at (x :: s) t (S i) <-> found_at s t i.
Proof.
  split.
  - intros (a & b & c & E & L & S). destruct a as [ | z a]; [discriminate L | ]. injection E as -> E. injection L as L. exists a, b, c. auto.
  - intros (a & b & c & -> & <- & S). exists (x :: a), b, c. auto.
Qed.

Lemma found_begin s t : found_at s t 0 <-> begins s t = true.
Proof.
  rewrite begins_spec. split.
  - intros (a & b & c & E & L & S). destruct a; [ | discriminate L]. exists b, c. auto.
  - intros (b & c & E & S). exists [], b, c. auto.
Qed.

Lemma search_spec s t : (search s t <= List.length s)%nat /\
  (search s t < List.length s -> found_at s t (search s t)) /\ (forall i, i < search s t -> i < List.length s -> ~ found_at s t i).
Proof.
  induction s as [ | x s (I0 & I1 & I2)]; cbn [search List.length]; [split; [lia | split; intros; lia] | ].
  destruct (begins (x :: s) t) eqn:B.
  - split; [lia | ]. split; [intros _; apply found_begin, B | intros; lia].
  - split; [lia | ]. split.
    + intros H. apply (proj2 (found_cons x s t (search s t))), I1. lia.
    + intros [ | i] H L F; [rewrite (proj1 (found_begin (x :: s) t) F) in B; discriminate B | ]. exact (I2 i ltac:(lia) ltac:(lia) (proj1 (found_cons x s t i) F)).
Qed.

Lemma find_spec s t :
  (forall i, findCaseInsensitive s t = Z.of_nat i <-> i < List.length s /\ found_at s t i /\ forall j, j < i -> ~ found_at s t j) /\
  (findCaseInsensitive s t = (-1)%Z <-> forall i, i < List.length s -> ~ found_at s t i) /\
  (containsCaseInsensitive t s = true <-> exists i, i < List.length s /\ found_at s t i).
Proof.
  destruct (search_spec s t) as (H0 & H1 & H2). unfold containsCaseInsensitive, findCaseInsensitive.
  destruct (Nat.eqb (search s t) (List.length s)) eqn:E.
  - apply Nat.eqb_eq in E. assert (N : forall i, i < List.length s -> ~ found_at s t i) by (intros i I; apply H2; lia).
    split; [ | split].
    + intros i. split; [lia | ]. intros (L & F & _). exfalso. exact (N i L F).
    + split; [intros _; exact N | reflexivity].
    + split; [discriminate | ]. intros (i & L & F). exfalso. exact (N i L F).
  - apply Nat.eqb_neq in E. assert (F := H1 ltac:(lia)). split; [ | split].
    + intros i. split.
      * intros Q. apply Nat2Z.inj in Q. subst i. split; [lia | ]. split; [exact F | ]. intros j J. apply H2; lia.
      * intros (L & G & M). f_equal. destruct (Nat.lt_trichotomy (search s t) i) as [T | [T | T]]; [exfalso; exact (M _ T F) | exact T | ].
        exfalso. exact (H2 i T L G).
    + split; [lia | ]. intros N. exfalso. assert (L : search s t < List.length s) by lia. exact (N (search s t) L F).
    + split; [intros _; exists (search s t); split; [lia | exact F] | ]. intros _. apply Z.ltb_lt. lia.
Qed.

(** * The head of a document *)

Lemma header_spec h : header_text h = lit "<?xml version=""1.0"" encoding=""UTF-8"" standalone=""no""?>" ++ ["010"%char] ++ lit "<!DOCTYPE " ++ standard_doctype h ++ lit ">".
Proof. destruct h; vm_compute; reflexivity. Qed.

Lemma header_last l v h : header_text (fold_left (fun h v => set_type v h) (l ++ [v]) h) = header_text (header_of v).
Proof. rewrite fold_left_app. reflexivity. Qed.
