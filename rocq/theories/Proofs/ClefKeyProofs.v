(** Proofs about clefs and keys. *)
From Coq Require Import List Ascii Bool String ZArith QArith Qabs Lia.
From Verif Require Import Model.Base Model.Text Model.Integers Model.Alter Model.EnumLookup Model.CoreEnums Model.ApiEnums
  Model.ConverterTables Model.CustomEnums Model.ClefsKeys Spec.Numerals Spec.DecimalText Spec.Intervals Spec.TextEnum Spec.Conversion
  Spec.ClefKeyText Proofs.Tac Proofs.TextProofs Proofs.IntegersProofs Proofs.StringsProofs Proofs.EnumTables Proofs.ConversionTables Proofs.AlterProofs
  Proofs.AlterReading.
Import ListNotations.
Local Open Scope Z_scope.

(** ** The last that says something *)

Lemma last_here {A B} (says : A -> B -> Prop) l a b : says a b -> last_said says (l ++ [a]) (Some b).
Proof. intros H. exists l, a, []. split; [reflexivity | ]. split; [exact H | ]. intros ? ? []. Qed.

Lemma last_before {A B} (says : A -> B -> Prop) l a v : (forall b, ~ says a b) -> last_said says l v -> last_said says (l ++ [a]) v.
Proof.
  intros N. destruct v as [b | ]; cbn [last_said].
  - intros (l1 & x & l2 & -> & H & F). exists l1, x, (l2 ++ [a]). rewrite <- app_assoc. split; [reflexivity | ]. split; [exact H | ].
    intros a' b' I. apply in_app_or in I. destruct I as [I | [<- | []]]; [exact (F a' b' I) | exact (N b')].
  - intros F a' b' I. apply in_app_or in I. destruct I as [I | [<- | []]]; [exact (F a' b' I) | exact (N b')].
Qed.

(** ** Integers *)

Lemma wide_value t v : is_int v -> ctor_bounds t = (int_min, int_max) -> ir_value (Integers.construct t v) = v.
Proof.
  intros H B. unfold Integers.construct. rewrite B. cbn [fst snd mk_int_range ir_value]. unfold Integers.clamp, int_min, int_max.
  unfold is_int in H. repeat case_if; bool_hyps; lia.
Qed.

Lemma wide_parse r t : ir_min r = int_min -> ir_max r = int_max ->
  (forall n, says_int t n -> ir_value (fst (parse_range r t)) = n) /\
  ((forall n, ~ says_int t n) -> fst (parse_range r t) = r) /\
  ir_min (fst (parse_range r t)) = int_min /\ ir_max (fst (parse_range r t)) = int_max.
Proof.
  intros E1 E2. unfold parse_range. destruct (parse_int t) as [n | ] eqn:P; cbn [fst].
  - split; [ | split; [ | split; [exact E1 | exact E2]]].
    + intros m M. apply parse_int_iff in M. assert (m = n) as -> by congruence. apply parse_int_iff in P. destruct P as [_ P].
      unfold set_value. cbn [ir_value]. rewrite E1, E2. unfold Integers.clamp, int_min, int_max. unfold is_int in P.
      repeat case_if; bool_hyps; lia.
    + intros N. apply parse_int_iff in P. destruct (N n P).
  - split; [ | split; [reflexivity | split; [exact E1 | exact E2]]]. intros m M. apply parse_int_iff in M. congruence.
Qed.

Lemma says_dec t : (exists n, says_int t n) \/ (forall n, ~ says_int t n).
Proof.
  destruct (parse_int t) as [n | ] eqn:P; [left; exists n; apply parse_int_iff, P | right].
  intros n M. apply parse_int_iff in M. congruence.
Qed.

Lemma staff_number_said staff : -1 <= staff < 2 ^ 31 - 1 -> staff_said (staff_number staff) staff.
Proof.
  intros H. unfold staff_number, staff_said. destruct (0 <=? staff) eqn:E; bool_hyps.
  - left. split; [lia | ]. f_equal. unfold Integers.construct. cbn [ctor_bounds fst snd mk_int_range ir_value].
    unfold Integers.clamp, int_max. repeat case_if; bool_hyps; lia.
  - right. split; [lia | reflexivity].
Qed.

(** ** Clefs *)

Lemma symbol_shown s : ClefSign_toString (clefMap_toCore s) = symbol_text s.
Proof. destruct s; vm_compute; reflexivity. Qed.

Lemma symbol_read s : clefMap_toApi (parse_ClefSign (symbol_text s)) = s.
Proof. destruct s; vm_compute; reflexivity. Qed.

Lemma symbol_other t : (forall s, t <> symbol_text s) -> clefMap_toApi (parse_ClefSign t) = api_ClefSymbol_g.
Proof.
  intros N. destruct ClefSign_text as (_ & T & _ & _ & _ & F). destruct (F t) as [_ ->]; [ | vm_compute; reflexivity].
  rewrite <- T. intros I. apply in_map_iff in I as (v & E & _). subst t. apply (N (clefMap_toApi v)). destruct v; vm_compute; reflexivity.
Qed.

Lemma clef_is_written staff c : clef_ok staff c -> clef_written staff c (stream_clef (write_clef staff c)).
Proof.
  intros (L & O & S). unfold clef_written, stream_clef, write_clef. cbn [fc_number fc_afterBarline fc_children xc_number xc_afterBarline xc_sign
    xc_hasLine xc_line xc_hasChange xc_change].
  split; [exact (staff_number_said staff S) | ]. split; [reflexivity | ]. rewrite symbol_shown. eexists _, _. split; [reflexivity | ]. split.
  - destruct (0 <=? cf_line c) eqn:E; bool_hyps; [right; split; [lia | ] | left; split; [lia | reflexivity]].
    eexists. split; [ | reflexivity]. unfold print_range. rewrite wide_value by (exact L || reflexivity). apply canonical_int_print. reflexivity.
  - destruct (cf_octaveChange c =? 0) eqn:E; bool_hyps; cbn [negb]; [left; split; [exact E | reflexivity] | right; split; [exact E | ]].
    eexists. split; [ | reflexivity]. apply canonical_int_print. reflexivity.
Qed.

(** The state after some of the children. *)
Definition clef_state (n : option Z) (a : option YesNo) (l : list clef_child) (x : xclef) : Prop :=
  xc_number x = n /\ xc_afterBarline x = a /\
  (exists sign, last_said sign_says l sign /\ xc_sign x = match sign with Some t => parse_ClefSign t | None => ClefSign_g end) /\
  (exists line, last_said line_says l line /\ ir_value (xc_line x) = or_else line 0) /\
  ir_min (xc_line x) = int_min /\ ir_max (xc_line x) = int_max /\
  (if xc_hasLine x then exists t, In (CkLine t) l else forall t, ~ In (CkLine t) l) /\
  (exists change, last_said change_says l change /\ xc_change x = or_else change 0) /\
  (xc_hasChange x = false -> xc_change x = 0).

Lemma clef_child_state n a l x c : clef_state n a l x -> clef_state n a (l ++ [c]) (read_clef_child x c).
Proof.
  intros (H1 & H2 & (sg & S1 & S2) & (ln & L1 & L2) & L3 & L4 & L5 & (ch & C1 & C2) & C3).
  assert (NL : (forall t, c <> CkLine t) -> if xc_hasLine x then exists t, In (CkLine t) (l ++ [c]) else forall t, ~ In (CkLine t) (l ++ [c])).
  { intros N. destruct (xc_hasLine x).
    - destruct L5 as [t I]. exists t. apply in_or_app. left. exact I.
    - intros t I. apply in_app_or in I. destruct I as [I | [I | []]]; [exact (L5 t I) | exact (N t I)]. }
  destruct c as [t | t | t | ]; cbn [read_clef_child]; unfold clef_state; cbn [xc_number xc_afterBarline xc_sign xc_hasLine xc_line xc_hasChange xc_change].
  - split; [exact H1 | ]. split; [exact H2 | ]. split; [exists (Some t); split; [apply last_here; constructor | reflexivity] | ].
    split; [exists ln; split; [apply last_before; [intros b K; inversion K | exact L1] | exact L2] | ].
    split; [exact L3 | ]. split; [exact L4 | ]. split; [apply NL; discriminate | ].
    split; [exists ch; split; [apply last_before; [intros b K; inversion K | exact C1] | exact C2] | exact C3].
  - destruct (wide_parse (xc_line x) t L3 L4) as (P1 & P2 & P3 & P4).
    split; [exact H1 | ]. split; [exact H2 | ]. split; [exists sg; split; [apply last_before; [intros b K; inversion K | exact S1] | exact S2] | ].
    split.
    { destruct (says_dec t) as [[m M] | M].
      - exists (Some m). split; [apply last_here; constructor; exact M | exact (P1 m M)].
      - exists ln. split; [apply last_before; [ | exact L1]; intros b K; inversion K; subst; exact (M _ H0) | rewrite (P2 M); exact L2]. }
    split; [exact P3 | ]. split; [exact P4 | ]. split; [exists t; apply in_or_app; right; left; reflexivity | ].
    split; [exists ch; split; [apply last_before; [intros b K; inversion K | exact C1] | exact C2] | exact C3].
  - split; [exact H1 | ]. split; [exact H2 | ]. split; [exists sg; split; [apply last_before; [intros b K; inversion K | exact S1] | exact S2] | ].
    split; [exists ln; split; [apply last_before; [intros b K; inversion K | exact L1] | exact L2] | ].
    split; [exact L3 | ]. split; [exact L4 | ]. split; [apply NL; discriminate | ]. split; [ | discriminate].
    destruct (parse_int t) as [m | ] eqn:P.
    + exists (Some m). split; [apply last_here; constructor; apply parse_int_iff, P | reflexivity].
    + exists ch. split; [apply last_before; [ | exact C1]; intros b K; inversion K; subst; apply parse_int_iff in H0; congruence | exact C2].
  - split; [exact H1 | ]. split; [exact H2 | ]. split; [exists sg; split; [apply last_before; [intros b K; inversion K | exact S1] | exact S2] | ].
    split; [exists ln; split; [apply last_before; [intros b K; inversion K | exact L1] | exact L2] | ].
    split; [exact L3 | ]. split; [exact L4 | ]. split; [apply NL; discriminate | ].
    split; [exists ch; split; [apply last_before; [intros b K; inversion K | exact C1] | exact C2] | exact C3].
Qed.

Lemma clef_children_state n a l : clef_state n a l (fold_left read_clef_child l (newXClef n a)).
Proof.
  induction l as [ | c l IH] using rev_ind.
  - unfold clef_state, newXClef. cbn [fold_left xc_number xc_afterBarline xc_sign xc_hasLine xc_line xc_hasChange xc_change].
    split; [reflexivity | ]. split; [reflexivity | ]. split; [exists None; split; [intros ? ? [] | reflexivity] | ].
    split; [exists None; split; [intros ? ? [] | reflexivity] | ]. split; [reflexivity | ]. split; [reflexivity | ]. split; [intros t [] | ].
    split; [exists None; split; [intros ? ? [] | reflexivity] | reflexivity].
  - rewrite fold_left_app. cbn [fold_left]. apply clef_child_state, IH.
Qed.

Lemma clef_any tick f : let (c, staff) := read_clef tick f in clef_said tick f c staff.
Proof.
  unfold read_clef, import_clef, read_xclef.
  destruct (clef_children_state (fc_number f) (fc_afterBarline f) (fc_children f)) as
    (H1 & H2 & (sg & S1 & S2) & (ln & L1 & L2) & L3 & L4 & L5 & (ch & C1 & C2) & C3).
  set (x := fold_left read_clef_child (fc_children f) (newXClef (fc_number f) (fc_afterBarline f))) in *. clearbody x.
  unfold clef_said. cbn [cf_symbol cf_line cf_octaveChange cf_tick cf_location]. split.
  { exists sg. split; [exact S1 | ]. rewrite S2. destruct sg as [t | ]; [ | right; split; [reflexivity | discriminate]].
    destruct (in_dec (list_eq_dec ascii_dec) t (map symbol_text [api_ClefSymbol_none; api_ClefSymbol_g; api_ClefSymbol_f; api_ClefSymbol_c;
      api_ClefSymbol_percussion; api_ClefSymbol_tab; api_ClefSymbol_jianpu])) as [I | N].
    - apply in_map_iff in I as (s & <- & _). left. rewrite symbol_read. reflexivity.
    - right. assert (M : forall s, t <> symbol_text s).
      { intros s E. apply N, in_map_iff. exists s. split; [symmetry; exact E | destruct s; cbn; tauto]. }
      split; [apply symbol_other, M | intros s E; injection E as E; exact (M s E)]. }
  split.
  { destruct (xc_hasLine x).
    - left. exists ln. split; [exact L1 | ]. split; [exact L2 | exact L5].
    - right. split; [ | exact L5]. destruct (clefMap_toApi (xc_sign x)); reflexivity. }
  split; [exists ch; split; [exact C1 | ]; destruct (xc_hasChange x); [exact C2 | transitivity (xc_change x); [symmetry; exact (C3 eq_refl) | exact C2]] | ].
  split; [reflexivity | ]. split.
  { rewrite H2. destruct (tick =? 0) eqn:E; bool_hyps; [ | exact E].
    destruct (fc_afterBarline f) as [[ | ] | ]; split; first [exact E | reflexivity]. }
  rewrite H1. destruct (fc_number f) as [m | ]; [left; f_equal; lia | right; split; reflexivity].
Qed.

Lemma clef_is_back tick staff c : clef_ok staff c -> clef_back tick staff c = (kept_clef tick c, Z.max 0 staff).
Proof.
  intros (L & O & S). unfold clef_back, read_clef, stream_clef, read_xclef, write_clef, kept_clef, import_clef.
  cbn [xc_number xc_afterBarline xc_sign xc_hasLine xc_line xc_hasChange xc_change fc_number fc_afterBarline fc_children].
  rewrite symbol_shown.
  assert (N : forall z, match staff_number staff with Some n => n - 1 | None => z end = if 0 <=? staff then staff else z).
  { intros z. destruct (staff_number_said staff S) as [[A ->] | [A ->]]; destruct (0 <=? staff) eqn:E; bool_hyps; lia. }
  assert (P : 0 <= cf_line c -> ir_value (fst (parse_range (Integers.construct_default StaffLine) (print_range (Integers.construct StaffLine (cf_line c))))) = cf_line c).
  { intros _. unfold print_range. rewrite wide_value by (exact L || reflexivity). unfold parse_range. rewrite (parse_print_int _ L). cbn [fst set_value ir_value].
    unfold Integers.clamp. cbn [Integers.construct_default Integers.construct ctor_bounds fst snd mk_int_range ir_min ir_max]. unfold int_min, int_max. unfold is_int in L.
    repeat case_if; bool_hyps; lia. }
  assert (M : (if 0 <=? staff then staff else 0) = Z.max 0 staff) by (destruct (0 <=? staff) eqn:E; bool_hyps; lia).
  destruct (0 <=? cf_line c) eqn:E1; destruct (cf_octaveChange c =? 0) eqn:E2; bool_hyps;
    cbn [negb app fold_left read_clef_child newXClef xc_number xc_afterBarline xc_sign xc_hasLine xc_line xc_hasChange xc_change];
    rewrite symbol_read, N, M; rewrite ?P by assumption; rewrite ?(parse_print_int _ O), ?E2;
    (destruct (cf_line c <? 0) eqn:E3; bool_hyps; [try lia | try lia]);
    try (f_equal; f_equal; try reflexivity; destruct (cf_symbol c); reflexivity).
Qed.

Lemma clef_back_refuted : ~ (forall tick staff c, clef_ok staff c -> cf_tick c = tick -> fst (clef_back tick staff c) = c).
Proof.
  intros H. specialize (H 0 0 (mkClef api_ClefSymbol_g 2 0 0 Location_afterBarline)).
  assert (X : clef_ok 0 (mkClef api_ClefSymbol_g 2 0 0 Location_afterBarline)) by (unfold clef_ok, is_int; cbn; lia).
  specialize (H X eq_refl). rewrite (clef_is_back 0 0 _ X) in H. discriminate H.
Qed.

Lemma clef_fits_back staff c : clef_ok staff c -> 0 <= cf_line c -> 0 <= staff ->
  cf_location c = (if cf_tick c =? 0 then Location_unspecified else Location_midMeasure) -> clef_back (cf_tick c) staff c = (c, staff).
Proof.
  intros K L S E. rewrite (clef_is_back _ _ _ K). destruct c as [s l o t loc]. unfold kept_clef. cbn [cf_symbol cf_line cf_octaveChange cf_tick cf_location] in *.
  assert (l <? 0 = false) as -> by (apply Z.ltb_ge; exact L). rewrite <- E. f_equal. lia.
Qed.

(** ** Clefs by name *)

Lemma symbol_eqb a b : (api_ClefSymbol_value a =? api_ClefSymbol_value b) = true <-> a = b.
Proof. destruct a, b; vm_compute; split; intros H; try reflexivity; discriminate H. Qed.

Lemma named_iff n c : is_named n c = true <->
  cf_symbol c = cf_symbol (set_named n newClef) /\ cf_line c = cf_line (set_named n newClef) /\ cf_octaveChange c = 0.
Proof.
  destruct n; cbn [is_named set_named cf_symbol cf_line]; rewrite !andb_true_iff, symbol_eqb, !Z.eqb_eq; tauto.
Qed.

Lemma named_set n c : is_named n (set_named n c) = true /\ cf_tick (set_named n c) = cf_tick c /\ cf_location (set_named n c) = cf_location c /\
  forall m, is_named m (set_named n c) = true -> m = n.
Proof.
  split; [destruct n; reflexivity | ]. split; [destruct n; reflexivity | ]. split; [destruct n; reflexivity | ].
  intros m H. destruct n, m; try reflexivity; discriminate H.
Qed.

Lemma named_standard n c : n <> Soprano -> n <> MezzoSoprano ->
  (is_named n c = true <-> (cf_symbol c, cf_line c) = standard n /\ cf_octaveChange c = 0).
Proof.
  intros A B. rewrite named_iff. destruct n; cbn [standard set_named cf_symbol cf_line]; try contradiction;
    (split; [intros (-> & -> & ->); split; reflexivity | intros (E & O); injection E as E1 E2; repeat split; assumption]).
Qed.

Lemma named_refuted : ~ (forall n c, is_named n c = true <-> (cf_symbol c, cf_line c) = standard n /\ cf_octaveChange c = 0).
Proof.
  intros H. destruct (H Soprano (mkClef api_ClefSymbol_c 1 0 0 Location_unspecified)) as [_ X].
  specialize (X (conj eq_refl eq_refl)). discriminate X.
Qed.

(** ** Clefs as text *)

Lemma print_int_chars n c : In c (print_int n) -> c = "-"%char \/ is_digit c = true.
Proof.
  intros I. destruct (proj2 (canonical_int_print (print_int n) n) eq_refl) as (ds & m & N & _ & [[E _] | [E _]]); rewrite E in I.
  - right. apply numeral_iff in N as (_ & D & _). unfold all_digits in D. rewrite Forall_forall in D. exact (D c I).
  - destruct I as [<- | I]; [left; reflexivity | right]. apply numeral_iff in N as (_ & D & _). unfold all_digits in D.
    rewrite Forall_forall in D. exact (D c I).
Qed.

Lemma before_comma (a b r s : str) : ~ In ","%char a -> ~ In ","%char b -> a ++ ","%char :: r = b ++ ","%char :: s -> a = b /\ r = s.
Proof.
  revert b. induction a as [ | x a IH]; intros [ | y b] A B E; cbn [app] in E.
  - injection E as ->. split; reflexivity.
  - injection E as E _. destruct B. left. symmetry. exact E.
  - injection E as E _. destruct A. left. exact E.
  - injection E as -> E. destruct (IH b) as [-> ->]; [intros I; apply A; right; exact I | intros I; apply B; right; exact I | exact E | ].
    split; reflexivity.
Qed.

Lemma print_int_inj a b : print_int a = print_int b -> a = b.
Proof.
  intros E. assert (X : forall n m t, canonical_int t n -> canonical_int t m -> n = m).
  { intros n m t (ds & k & N & C & D) (ds' & k' & N' & C' & D'). apply numeral_iff in N as (N1 & N2 & ->). apply numeral_iff in N' as (N1' & N2' & ->).
    destruct D as [[-> ->] | (-> & -> & D)]; destruct D' as [[E' ->] | (E' & -> & D')].
    - rewrite E'. reflexivity.
    - exfalso. rewrite E' in N2. unfold all_digits in N2. inversion N2; subst. discriminate.
    - exfalso. rewrite <- E' in N2'. unfold all_digits in N2'. inversion N2'; subst. discriminate.
    - injection E' as ->. reflexivity. }
  apply (X a b (print_int a)); apply canonical_int_print; [reflexivity | exact E].
Qed.

Lemma clef_text_inj a b : clef_toString a = clef_toString b ->
  cf_symbol a = cf_symbol b /\ cf_line a = cf_line b /\ cf_octaveChange a = cf_octaveChange b.
Proof.
  assert (NC : forall n, ~ In ","%char (print_int n)).
  { intros n I. destruct (print_int_chars n _ I) as [E | E]; discriminate E. }
  unfold clef_toString. intros E. apply app_inv_head in E.
  assert (S : cf_symbol a = cf_symbol b).
  { destruct (cf_symbol a), (cf_symbol b); try reflexivity; cbn in E; discriminate E. }
  rewrite S in E. apply app_inv_head, app_inv_head in E. split; [exact S | ].
  change (lit ", OctaveChange ") with (","%char :: lit " OctaveChange ") in E. cbn [app] in E.
  apply before_comma in E; [ | apply NC | apply NC]. destruct E as [E1 E2]. apply app_inv_head in E2.
  split; apply print_int_inj; assumption.
Qed.

Lemma clef_text_is c : exists line change, canonical_int line (cf_line c) /\ canonical_int change (cf_octaveChange c) /\
  clef_toString c = lit "Symbol " ++ symbol_word (cf_symbol c) ++ lit ", Line " ++ line ++ lit ", OctaveChange " ++ change.
Proof.
  eexists _, _. split; [apply canonical_int_print; reflexivity | ]. split; [apply canonical_int_print; reflexivity | ].
  unfold clef_toString. destruct (cf_symbol c); reflexivity.
Qed.

(** ** Keys: reading any *)

Definition component_is (p : fcomponent) (x : xcomponent) : Prop :=
  xk_step x = match fp_step p with Some t => parse_StepEnum t | None => StepEnum_a end /\ xk_alter x = fp_alter p /\
  xk_accidental x = option_map parse_AccidentalValue (fp_accidental p).

Definition starts (l : list key_child) : bool := match l with c :: _ => component_child c | [] => false end.

Lemma starts_in l : in_component l = starts l.
Proof. destruct l as [ | [] l]; reflexivity. Qed.

Lemma component_taken l c r : starts l = true -> take_component l = (c, r) ->
  exists p, l = component_children p ++ r /\ component_is p c /\ component_children p <> [] /\
    (starts r = true -> place (hd KkOther r) <= place (last (component_children p) KkOther)).
Proof.
  intros S T. unfold take_component, newXComponent in T. cbn [xk_step xk_alter xk_accidental] in T.
  assert (X : exists p, l = component_children p ++ r /\ component_is p c /\
    (forall t q, r = KkStep t :: q -> component_children p <> []) /\
    (forall t q, r = KkAlter t :: q -> fp_alter p <> None \/ fp_accidental p <> None) /\
    (forall t q, r = KkAccidental t :: q -> fp_accidental p <> None) /\ component_children p <> []).
  { destruct l as [ | [t | t | t | t | t | t | | ] l]; cbn [starts component_child] in S; try discriminate S.
    - destruct l as [ | [u | u | u | u | u | u | | ] l];
        try (injection T as <- <-; exists (mkFComponent (Some t) None None); split; [reflexivity | ]; split; [repeat split | ];
             split; [discriminate | ]; split; [intros ? ? E; discriminate E | ]; split; [intros ? ? E; discriminate E | discriminate]).
      + destruct l as [ | [w | w | w | w | w | w | | ] l];
        try (injection T as <- <-; exists (mkFComponent (Some t) (Some u) None); split; [reflexivity | ]; split; [repeat split | ];
             split; [discriminate | ]; split; [intros ? ? E; left; discriminate | ]; split; [intros ? ? E; discriminate E | discriminate]).
        injection T as <- <-. exists (mkFComponent (Some t) (Some u) (Some w)). split; [reflexivity | ]. split; [repeat split | ].
        split; [discriminate | ]. split; [left; discriminate | ]. split; [discriminate | discriminate].
      + injection T as <- <-. exists (mkFComponent (Some t) None (Some u)). split; [reflexivity | ]. split; [repeat split | ].
        split; [discriminate | ]. split; [right; discriminate | ]. split; [discriminate | discriminate].
    - destruct l as [ | [w | w | w | w | w | w | | ] l];
        try (injection T as <- <-; exists (mkFComponent None (Some t) None); split; [reflexivity | ]; split; [repeat split | ];
             split; [discriminate | ]; split; [intros ? ? E; left; discriminate | ]; split; [intros ? ? E; discriminate E | discriminate]).
      injection T as <- <-. exists (mkFComponent None (Some t) (Some w)). split; [reflexivity | ]. split; [repeat split | ].
      split; [discriminate | ]. split; [left; discriminate | ]. split; [discriminate | discriminate].
    - injection T as <- <-. exists (mkFComponent None None (Some t)). split; [reflexivity | ]. split; [repeat split | ].
      split; [discriminate | ]. split; [right; discriminate | ]. split; [discriminate | discriminate]. }
  destruct X as (p & X1 & X2 & X3 & X4 & X5 & X6). exists p. split; [exact X1 | ]. split; [exact X2 | ]. split; [exact X6 | ].
  clear - X4 X5 X6. intros S. destruct p as [[s | ] [a | ] [k | ]]; unfold component_children in *; cbn [fp_step fp_alter fp_accidental app last] in *;
    destruct r as [ | [t | t | t | t | t | t | | ] r]; cbn [starts component_child hd place] in *; try discriminate S; try lia;
    try (destruct (X5 _ _ eq_refl eq_refl)); try (destruct (X4 _ _ eq_refl) as [Y | Y]; destruct (Y eq_refl)); destruct (X6 eq_refl).
Qed.

Lemma row_head q (r : list fcomponent) rest : component_children q <> [] ->
  hd KkOther (flat_map component_children (q :: r) ++ rest) = hd KkOther (component_children q).
Proof. intros N. cbn [flat_map]. destruct (component_children q); [destruct (N eq_refl) | reflexivity]. Qed.

Lemma components_read fuel : forall first set l set' rest, (List.length l <= fuel)%nat -> import_components fuel first set l = (set', rest) ->
  exists row xs, l = flat_map component_children row ++ rest /\ starts rest = false /\ in_a_row row /\ Forall2 component_is row xs /\
    set' = (if first && match row with [] => false | _ => true end then match set with [_] => [] | _ => set end else set) ++ xs /\
    (starts l = true -> row <> []).
Proof.
  induction fuel as [ | fuel IH]; intros first set l set' rest L E.
  - destruct l; [ | cbn in L; lia]. cbn in E. injection E as <- <-. exists [], []. split; [reflexivity | ]. split; [reflexivity | ].
    split; [exact I | ]. split; [constructor | ]. rewrite andb_false_r, app_nil_r. split; [reflexivity | discriminate].
  - cbn [import_components] in E. rewrite starts_in in E. destruct (starts l) eqn:S.
    + destruct (take_component l) as [c r] eqn:T. destruct (component_taken l c r S T) as (p & P1 & P2 & P3 & P4).
      assert (Lr : (List.length r <= fuel)%nat).
      { rewrite P1, app_length in L. destruct (component_children p); [destruct (P3 eq_refl) | cbn in L; lia]. }
      destruct (IH _ _ _ _ _ Lr E) as (row & xs & R1 & R2 & R3 & R4 & R5 & R6).
      exists (p :: row), (c :: xs). split; [cbn [flat_map]; rewrite <- app_assoc, <- R1; exact P1 | ]. split; [exact R2 | ]. split.
      { cbn [in_a_row]. split; [exact P3 | ]. split; [ | exact R3]. destruct row as [ | q row]; [exact I | ].
        destruct R3 as [Q _]. assert (Sr : starts r = true).
        { rewrite R1. cbn [flat_map]. destruct q as [[s | ] [a | ] [k | ]]; cbn; try reflexivity. destruct (Q eq_refl). }
        specialize (P4 Sr). rewrite R1, (row_head q row rest Q) in P4. exact P4. }
      split; [constructor; assumption | ]. split; [ | discriminate].
      rewrite R5. cbn [andb]. unfold add_component. destruct first; cbn [andb].
      * destruct set as [ | a [ | b set]]; cbn [List.length Nat.eqb app]; [reflexivity | reflexivity | rewrite <- app_assoc; reflexivity].
      * rewrite <- app_assoc. reflexivity.
    + injection E as <- <-. exists [], []. split; [reflexivity | ]. split; [exact S | ]. split; [exact I | ]. split; [constructor | ].
      rewrite andb_false_r, app_nil_r. split; [reflexivity | discriminate].
Qed.

(** The state after some of the children. *)
Definition key_state (n : option Z) (l : list key_child) (x : xkey) : Prop :=
  xk_number x = n /\
  (exists v, last_said fifths_says l v /\ ir_value (xk_fifths x) = or_else v 0) /\ ir_min (xk_fifths x) = int_min /\ ir_max (xk_fifths x) = int_max /\
  (exists v, last_said cancel_says l v /\ ir_value (xk_cancel x) = or_else v 0) /\ ir_min (xk_cancel x) = int_min /\ ir_max (xk_cancel x) = int_max /\
  (xk_hasCancel x = false -> ir_value (xk_cancel x) = 0) /\
  (exists t, last_said mode_says l t /\
     match t with
     | Some t => exists m, xk_mode x = Some m /\ myEnum m = match tryParse_ModeEnum t with Some v => v | None => ModeEnum_other end
     | None => xk_mode x = None
     end) /\
  (if xk_isNonTraditional x then ~ traditional_key l else traditional_key l) /\
  exists rows, key_rows l rows /\ Forall2 component_is rows (xk_components x).

Lemma rows_snoc l rows c : key_rows l rows -> component_child c = false -> key_rows (l ++ [c]) rows.
Proof.
  intros H C. inversion H as [l0 F | l0 before r row after A1 A2 A3 A4 A5 A6 E1 E2]; subst.
  - constructor. apply Forall_app. split; [exact F | constructor; [exact C | constructor]].
  - rewrite <- !app_assoc. econstructor; try eassumption; [ | reflexivity]. apply Forall_app. split; [exact A5 | constructor; [exact C | constructor]].
Qed.

Lemma traditional_snoc l c : traditional_child c = true -> traditional_key (l ++ [c]).
Proof. intros H. left. exists l, c, []. split; [reflexivity | ]. split; [exact H | constructor]. Qed.

Lemma split_snoc {A} (l1 : list A) c l2 l d : l1 ++ c :: l2 = l ++ [d] ->
  (l2 = [] /\ l1 = l /\ c = d) \/ exists l3, l2 = l3 ++ [d] /\ l = l1 ++ c :: l3.
Proof.
  intros E. destruct l2 as [ | e l2'] using rev_ind.
  - apply app_inj_tail in E. destruct E as [-> ->]. left. repeat split.
  - right. exists l2'. rewrite app_comm_cons, app_assoc in E. apply app_inj_tail in E. destruct E as [E ->]. split; [reflexivity | ].
    symmetry. exact E.
Qed.

Lemma kind_snoc l c : traditional_child c = false -> component_child c = false -> (traditional_key (l ++ [c]) <-> traditional_key l).
Proof.
  intros T C. split.
  - intros [(l1 & d & l2 & E & D & F) | F].
    + left. destruct (split_snoc _ _ _ _ _ (eq_sym E)) as [(-> & -> & ->) | (l3 & -> & ->)]; [congruence | ].
      exists l1, d, l3. split; [reflexivity | ]. split; [exact D | ]. apply Forall_app in F. exact (proj1 F).
    + right. apply Forall_app in F. exact (proj1 F).
  - intros [(l1 & d & l2 & -> & D & F) | F].
    + left. exists l1, d, (l2 ++ [c]). rewrite <- app_assoc. split; [reflexivity | ]. split; [exact D | ]. apply Forall_app.
      split; [exact F | constructor; [exact C | constructor]].
    + right. apply Forall_app. split; [exact F | constructor; [exact C | constructor]].
Qed.

Lemma kind_component l r : r <> [] -> Forall (fun c => component_child c = true) r -> ~ traditional_key (l ++ r).
Proof.
  intros N R. destruct r as [ | c r _] using rev_ind; [destruct (N eq_refl) | ]. apply Forall_app in R. destruct R as [_ R]. inversion R as [ | ? ? C _]; subst.
  rewrite app_assoc. intros [(l1 & d & l2 & E & D & F) | F].
  - destruct (split_snoc _ _ _ _ _ (eq_sym E)) as [(-> & -> & ->) | (l3 & -> & X)].
    + destruct c; discriminate.
    + apply Forall_app in F. destruct F as [_ F]. inversion F; subst. congruence.
  - apply Forall_app in F. destruct F as [_ F]. inversion F; subst. congruence.
Qed.

Lemma row_children row : Forall (fun c => component_child c = true) (flat_map component_children row).
Proof.
  induction row as [ | p row IH]; [constructor | ]. cbn [flat_map]. apply Forall_app. split; [ | exact IH].
  destruct p as [[s | ] [a | ] [k | ]]; cbn; repeat constructor.
Qed.

(** A traditional child. *)
Definition take_one (x : xkey) (c : key_child) : xkey :=
  match c with
  | KkCancel _ => fst (take_cancel x [c])
  | KkFifths _ => fst (take_fifths x [c])
  | _ => fst (take_mode x [c])
  end.

Lemma traditional_taken x l : match l with c :: _ => traditional_child c = true | [] => False end ->
  exists taken rest, l = taken ++ rest /\ taken <> [] /\ Forall (fun c => traditional_child c = true) taken /\
    import_traditional x l = Some (fold_left take_one taken x, rest).
Proof.
  intros T. destruct l as [ | [t | t | t | t | t | t | | ] l]; try contradiction; try discriminate T.
  - destruct l as [ | [u | u | u | u | u | u | | ] l];
      try (eexists [_], _; split; [reflexivity | ]; split; [discriminate | ]; split; [repeat constructor | reflexivity]).
    + destruct l as [ | [w | w | w | w | w | w | | ] l];
        try (eexists [_; _], _; split; [reflexivity | ]; split; [discriminate | ]; split; [repeat constructor | reflexivity]).
      eexists [_; _; _], _; split; [reflexivity | ]; split; [discriminate | ]; split; [repeat constructor | reflexivity].
    + eexists [_; _], _; split; [reflexivity | ]; split; [discriminate | ]; split; [repeat constructor | reflexivity].
  - destruct l as [ | [u | u | u | u | u | u | | ] l];
      try (eexists [_], _; split; [reflexivity | ]; split; [discriminate | ]; split; [repeat constructor | reflexivity]).
    eexists [_; _], _; split; [reflexivity | ]; split; [discriminate | ]; split; [repeat constructor | reflexivity].
  - eexists [_], _; split; [reflexivity | ]; split; [discriminate | ]; split; [repeat constructor | reflexivity].
Qed.

Lemma not_taken x l : match l with c :: _ => traditional_child c = false | [] => True end -> import_traditional x l = None.
Proof. destruct l as [ | [] l]; intros T; try discriminate T; reflexivity. Qed.

Lemma state_traditional n l x c : traditional_child c = true -> key_state n l x -> key_state n (l ++ [c]) (take_one x c).
Proof.
  intros T (N & (vf & F1 & F2) & F3 & F4 & (vc & C1 & C2) & C3 & C4 & C5 & (t & M1 & M2) & _ & (rows & R1 & R2)).
  assert (K : component_child c = false) by (destruct c; try discriminate T; reflexivity).
  pose proof (rows_snoc l rows c R1 K) as R1'. pose proof (traditional_snoc l c T) as T'.
  destruct c as [u | u | u | u | u | u | | ]; try discriminate T; cbn [take_one take_cancel take_fifths take_mode fst]; unfold key_state;
    cbn [xk_number xk_isNonTraditional xk_hasCancel xk_cancel xk_fifths xk_mode xk_components]; (split; [exact N | ]).
  - destruct (wide_parse (xk_cancel x) u C3 C4) as (P1 & P2 & P3 & P4).
    split; [exists vf; split; [apply last_before; [intros b Y; inversion Y | exact F1] | exact F2] | ]. split; [exact F3 | ]. split; [exact F4 | ].
    split.
    { destruct (says_dec u) as [[m M] | M].
      - exists (Some m). split; [apply last_here; constructor; exact M | exact (P1 m M)].
      - exists vc. split; [apply last_before; [intros b Y; inversion Y; subst; exact (M _ H0) | exact C1] | rewrite (P2 M); exact C2]. }
    split; [exact P3 | ]. split; [exact P4 | ]. split; [discriminate | ].
    split; [exists t; split; [apply last_before; [intros b Y; inversion Y | exact M1] | exact M2] | ]. split; [exact T' | exists rows; split; assumption].
  - destruct (wide_parse (xk_fifths x) u F3 F4) as (P1 & P2 & P3 & P4).
    split.
    { destruct (says_dec u) as [[m M] | M].
      - exists (Some m). split; [apply last_here; constructor; exact M | exact (P1 m M)].
      - exists vf. split; [apply last_before; [intros b Y; inversion Y; subst; exact (M _ H0) | exact F1] | rewrite (P2 M); exact F2]. }
    split; [exact P3 | ]. split; [exact P4 | ].
    split; [exists vc; split; [apply last_before; [intros b Y; inversion Y | exact C1] | exact C2] | ]. split; [exact C3 | ]. split; [exact C4 | ].
    split; [exact C5 | ].
    split; [exists t; split; [apply last_before; [intros b Y; inversion Y | exact M1] | exact M2] | ]. split; [exact T' | exists rows; split; assumption].
  - split; [exists vf; split; [apply last_before; [intros b Y; inversion Y | exact F1] | exact F2] | ]. split; [exact F3 | ]. split; [exact F4 | ].
    split; [exists vc; split; [apply last_before; [intros b Y; inversion Y | exact C1] | exact C2] | ]. split; [exact C3 | ]. split; [exact C4 | ].
    split; [exact C5 | ].
    split; [exists (Some u); split; [apply last_here; constructor | ] | split; [exact T' | exists rows; split; assumption]].
    eexists. split; [reflexivity | ]. unfold setValue_text. destruct (tryParse_ModeEnum u); reflexivity.
Qed.

Lemma state_other n l x c : traditional_child c = false -> component_child c = false -> key_state n l x -> key_state n (l ++ [c]) x.
Proof.
  intros T K (N & (vf & F1 & F2) & F3 & F4 & (vc & C1 & C2) & C3 & C4 & C5 & (t & M1 & M2) & Kd & (rows & R1 & R2)).
  split; [exact N | ].
  split; [exists vf; split; [apply last_before; [intros b Y; inversion Y; subst; discriminate T | exact F1] | exact F2] | ]. split; [exact F3 | ]. split; [exact F4 | ].
  split; [exists vc; split; [apply last_before; [intros b Y; inversion Y; subst; discriminate T | exact C1] | exact C2] | ]. split; [exact C3 | ]. split; [exact C4 | ].
  split; [exact C5 | ].
  split; [exists t; split; [apply last_before; [intros b Y; inversion Y; subst; discriminate T | exact M1] | exact M2] | ].
  split; [ | exists rows; split; [apply rows_snoc; assumption | exact R2]].
  destruct (xk_isNonTraditional x); rewrite (kind_snoc l c T K); exact Kd.
Qed.

Lemma last_before_all {A B} (says : A -> B -> Prop) l r v : (forall a b, In a r -> ~ says a b) -> last_said says l v -> last_said says (l ++ r) v.
Proof.
  induction r as [ | a r IH] using rev_ind; intros N H; [rewrite app_nil_r; exact H | ]. rewrite app_assoc. apply last_before.
  - intros b. apply N. apply in_or_app. right. left. reflexivity.
  - apply IH; [ | exact H]. intros a' b I. apply N. apply in_or_app. left. exact I.
Qed.

Lemma state_row n l x row xs : row <> [] -> in_a_row row -> Forall2 component_is row xs ->
  match rev l with c :: _ => component_child c = false | [] => True end -> key_state n l x ->
  key_state n (l ++ flat_map component_children row)
    (mkXKey (xk_number x) true (xk_hasCancel x) (xk_cancel x) (xk_fifths x) (xk_mode x)
       ((match xk_components x with [_] => [] | _ => xk_components x end) ++ xs)).
Proof.
  intros Ne Row Is End (N & (vf & F1 & F2) & F3 & F4 & (vc & C1 & C2) & C3 & C4 & C5 & (t & M1 & M2) & _ & (rows & R1 & R2)).
  pose proof (row_children row) as All. rewrite Forall_forall in All.
  unfold key_state. cbn [xk_number xk_isNonTraditional xk_hasCancel xk_cancel xk_fifths xk_mode xk_components].
  split; [exact N | ].
  split; [exists vf; split; [apply last_before_all; [intros a b I Y; apply All in I; inversion Y; subst; discriminate I | exact F1] | exact F2] | ].
  split; [exact F3 | ]. split; [exact F4 | ].
  split; [exists vc; split; [apply last_before_all; [intros a b I Y; apply All in I; inversion Y; subst; discriminate I | exact C1] | exact C2] | ].
  split; [exact C3 | ]. split; [exact C4 | ]. split; [exact C5 | ].
  split; [exists t; split; [apply last_before_all; [intros a b I Y; apply All in I; inversion Y; subst; discriminate I | exact M1] | exact M2] | ].
  split.
  { apply kind_component; [ | apply row_children]. destruct row as [ | p row]; [destruct (Ne eq_refl) | ]. destruct Row as [X _]. cbn [flat_map].
    destruct (component_children p); [destruct (X eq_refl) | discriminate]. }
  eexists. split.
  - rewrite <- (app_nil_r (flat_map component_children row)). eapply rows_more; [exact R1 | exact End | exact Ne | exact Row | constructor | reflexivity].
  - apply Forall2_app; [ | exact Is]. inversion R2 as [ | a b ra rb Y1 Y2]; subst; [constructor | ]. inversion Y2; subst; [constructor | ].
    constructor; [exact Y1 | constructor; assumption].
Qed.

Lemma state_taken n taken : Forall (fun c => traditional_child c = true) taken -> forall l x, key_state n l x ->
  key_state n (l ++ taken) (fold_left take_one taken x).
Proof.
  induction 1 as [ | c taken T _ IH]; intros l x H; [rewrite app_nil_r; exact H | ]. cbn [fold_left].
  change (c :: taken) with ([c] ++ taken). rewrite app_assoc. apply IH. apply state_traditional; assumption.
Qed.

Lemma last_not (l taken : list key_child) : taken <> [] -> Forall (fun c => traditional_child c = true) taken ->
  match rev (l ++ taken) with c :: _ => component_child c = false | [] => True end.
Proof.
  intros N T. destruct taken as [ | c taken _] using rev_ind; [destruct (N eq_refl) | ]. rewrite app_assoc, rev_app_distr. cbn [rev app].
  apply Forall_app in T. destruct T as [_ T]. inversion T; subst. destruct c; try discriminate; reflexivity.
Qed.

Lemma children_read n fuel : forall l before x, (List.length l <= fuel)%nat -> key_state n before x ->
  (match rev before with c :: _ => component_child c = false | [] => True end \/ starts l = false) ->
  key_state n (before ++ l) (read_key_children fuel x l).
Proof.
  induction fuel as [ | fuel IH]; intros l before x L H E.
  - destruct l; [ | cbn in L; lia]. rewrite app_nil_r. exact H.
  - destruct l as [ | c l]; [rewrite app_nil_r; exact H | ]. cbn [read_key_children].
    destruct (traditional_child c) eqn:T.
    + destruct (traditional_taken x (c :: l) T) as (taken & rest & A1 & A2 & A3 & A4). rewrite A4, A1, app_assoc. apply IH.
      * rewrite A1, app_length in L. destruct taken; [destruct (A2 eq_refl) | cbn in L; lia].
      * apply state_taken; assumption.
      * left. apply last_not; assumption.
    + rewrite (not_taken x (c :: l) T), starts_in. destruct (starts (c :: l)) eqn:S.
      * destruct (import_components (List.length (c :: l)) true (xk_components x) (c :: l)) as [set rest] eqn:I.
        destruct (components_read _ _ _ _ _ _ (le_n _) I) as (row & xs & R1 & R2 & R3 & R4 & R5 & R6). specialize (R6 S).
        destruct E as [E | E]; [ | congruence].
        rewrite R1, app_assoc. apply IH.
        -- rewrite R1, app_length in L. destruct row as [ | p row]; [destruct (R6 eq_refl) | ]. destruct R3 as [X _]. cbn [flat_map] in L.
           destruct (component_children p); [destruct (X eq_refl) | cbn in L; lia].
        -- rewrite R5. destruct row as [ | p row]; [destruct (R6 eq_refl) | ]. cbn [andb]. apply state_row; assumption.
        -- right. exact R2.
      * change (c :: l) with ([c] ++ l). rewrite app_assoc. apply IH.
        -- cbn in L. lia.
        -- apply state_other; assumption.
        -- left. rewrite rev_app_distr. cbn [rev app]. exact S.
Qed.

Lemma key_read_state f : key_state (fk_number f) (fk_children f) (read_xkey f).
Proof.
  unfold read_xkey. apply (children_read (fk_number f) _ (fk_children f) []); [lia | | left; exact I].
  unfold key_state, newXKey. cbn [xk_number xk_isNonTraditional xk_hasCancel xk_cancel xk_fifths xk_mode xk_components].
  split; [reflexivity | ]. split; [exists None; split; [intros ? ? [] | reflexivity] | ]. split; [reflexivity | ]. split; [reflexivity | ].
  split; [exists None; split; [intros ? ? [] | reflexivity] | ]. split; [reflexivity | ]. split; [reflexivity | ]. split; [reflexivity | ].
  split; [exists None; split; [intros ? ? [] | reflexivity] | ]. split; [right; constructor | ]. exists []. split; constructor. constructor.
Qed.
