(** Proofs about the layout of a score. *)
From Coq Require Import List Ascii String Bool ZArith QArith QArith.Qminmax Qabs Lia Lqa Sorting.Sorted.
From Verif Require Import Model.Base Model.Text Model.Strings Model.LongDouble Model.Decimals Model.EnumLookup Model.CoreEnums
  Model.CustomEnums Model.ApiEnums Spec.TextEnum Spec.DecimalText Spec.MarkGroups Proofs.Tac Proofs.StringsProofs Proofs.DecimalsProofs Proofs.DecimalsRange
  Proofs.EnumTables Proofs.CustomEnumsProofs.
From Verif Require Import Model.Notations Spec.Attachments Model.Layout Spec.Layouts.
Import ListNotations.
Open Scope Z_scope.
Open Scope list_scope.

Local Opaque Decimals.construct stored ld.

(** ** Numbers *)

Lemma decimal_any t x : storable x -> decimal_value t x = Ok (stored t x).
Proof.
  intros (F & S1 & S2).
  assert (E : exists p, Decimals.construct t x = Ok p).
  { destruct (set_defined t (mkPrecise false 0 0 19 6) x) as [D1 D2]; [apply holding_wf with (neg := false) (K := 0); lia | exact F | ].
    change (Decimals.construct t x) with (Decimals.setValue t (mkPrecise false 0 0 19 6) x).
    destruct (Decimals.setValue t (mkPrecise false 0 0 19 6) x) as [p | | ] eqn:E.
    - exists p. reflexivity.
    - congruence.
    - exfalso. destruct (proj1 D1 eq_refl) as [[_ H] | [_ H]].
      + apply (Qlt_not_le _ _ S2 H).
      + apply (Qlt_not_le _ _ S1 H). }
  destruct E as [p E]. unfold decimal_value. Transparent stored. unfold stored. Opaque stored. rewrite E. reflexivity.
Qed.

Lemma tenths_eq x y : (x == y)%Q -> storable x -> tenths x = tenths y.
Proof.
  intros E S. unfold tenths.
  assert (C : Decimals.construct TenthsValue x = Decimals.construct TenthsValue y).
  { change (Decimals.construct TenthsValue x) with (p_setValue (mkPrecise false 0 0 19 6) x).
    change (Decimals.construct TenthsValue y) with (p_setValue (mkPrecise false 0 0 19 6) y). apply p_setValue_eq, E. }
  pose proof (decimal_any TenthsValue x S) as D. unfold decimal_value in D.
  Transparent stored. unfold stored. Opaque stored. rewrite <- C.
  destruct (Decimals.construct TenthsValue x); [reflexivity | discriminate D | discriminate D].
Qed.

Lemma storable_zero : storable 0.
Proof.
  split; [ | split; reflexivity].
  exists 0, 0. split; [reflexivity | ]. unfold inject_Z. rewrite Qmult_0_l. reflexivity.
Qed.

Lemma positive_above q : is_positive q = above_zero q.
Proof.
  unfold is_positive, above_zero. destruct (Qle_bool q 0) eqn:E; cbn [negb].
  - apply Qle_bool_iff in E. destruct (0 ?= q)%Q eqn:C; try reflexivity. apply Qlt_alt in C. exfalso. lra.
  - destruct (0 ?= q)%Q eqn:C; try reflexivity; exfalso.
    + apply Qeq_alt in C. assert (q <= 0)%Q by lra. apply Qle_bool_iff in H. congruence.
    + apply Qgt_alt in C. assert (q <= 0)%Q by lra. apply Qle_bool_iff in H. congruence.
Qed.

Lemma above_zero_true q : above_zero q = true <-> (0 < q)%Q.
Proof.
  unfold above_zero. destruct (0 ?= q)%Q eqn:C; split; intros H; try discriminate H; try reflexivity.
  - apply Qeq_alt in C. exfalso. lra.
  - apply Qlt_alt, C.
  - apply Qgt_alt in C. exfalso. lra.
Qed.

Lemma above_zero_false q : above_zero q = false <-> ~ (0 < q)%Q.
Proof. rewrite <- above_zero_true. destruct (above_zero q); split; intros H; try discriminate; try reflexivity; try (intros X; discriminate X). exfalso. apply H. reflexivity. Qed.

Lemma toTenths_ok v : storable v -> toTenths v = Ok (margin v).
Proof.
  intros S. unfold toTenths, margin. rewrite positive_above.
  destruct (above_zero v) eqn:E.
  - apply above_zero_true in E. rewrite (decimal_any TenthsValue v S). f_equal. apply tenths_eq; [ | exact S].
    symmetry. apply Q.max_r. lra.
  - apply above_zero_false in E. rewrite (decimal_any TenthsValue 0 storable_zero). f_equal. apply tenths_eq; [ | exact storable_zero].
    symmetry. apply Q.max_l. lra.
Qed.

Lemma storable_max v : storable v -> storable (Qmax 0 v).
Proof.
  intros S. pose proof storable_zero as Z0. destruct (Qlt_le_dec 0 v) as [H | H].
  - destruct S as (F & S1 & S2). assert (E : (Qmax 0 v == v)%Q) by (apply Q.max_r; lra).
    split; [apply (is_ld_eq v); [symmetry; exact E | exact F] | ]. rewrite E. split; assumption.
  - destruct Z0 as (F & S1 & S2). assert (E : (Qmax 0 v == 0)%Q) by (apply Q.max_l; lra).
    split; [apply (is_ld_eq 0); [symmetry; exact E | exact F] | ]. rewrite E. split; assumption.
Qed.

Lemma margin_eq x y : (x == y)%Q -> storable x -> margin x = margin y.
Proof. intros E S. unfold margin. apply tenths_eq; [rewrite E; reflexivity | apply storable_max, S]. Qed.

Lemma margin_plain x : (0 <= x)%Q -> storable x -> margin x = tenths x.
Proof. intros E S. unfold margin. apply tenths_eq; [apply Q.max_r, E | apply storable_max, S]. Qed.

(** ** Page layouts *)

Lemma write_margins_ok t m : every_margin storable m -> write_margins t m = Ok (margins_element t m).
Proof.
  intros (A & B & C & D). unfold write_margins, margins_element.
  rewrite (toTenths_ok _ A), (toTenths_ok _ B), (toTenths_ok _ C), (toTenths_ok _ D). reflexivity.
Qed.

Lemma margins_eqb_equal a b : margins_eqb a b = true <-> equal_margins a b.
Proof.
  unfold margins_eqb, equal_margins. rewrite !andb_true_iff, !Qeq_bool_iff. tauto.
Qed.

Lemma createPageMargins_ok m : every (every_margin storable) (odd m) -> every (every_margin storable) (even m) ->
  exists l, createPageMargins m = Ok l /\ margins_elements m l.
Proof.
  intros A B. destruct m as [[a | ] [b | ]]; unfold createPageMargins, margins_elements, margins_used, same;
    cbn [odd even given orb negb every obind] in *.
  - destruct (margins_eqb a b) eqn:E.
    + rewrite (write_margins_ok _ _ A). cbn [omap obind negb]. eexists. split; [reflexivity | ].
      left. split; [apply margins_eqb_equal, E | reflexivity].
    + rewrite (write_margins_ok _ _ A), (write_margins_ok _ _ B). cbn [omap obind negb]. eexists. split; [reflexivity | ].
      right. split; [ | reflexivity]. intros X. apply margins_eqb_equal in X. congruence.
  - rewrite (write_margins_ok _ _ A). eexists. split; reflexivity.
  - rewrite (write_margins_ok _ _ B). eexists. split; reflexivity.
  - eexists. split; reflexivity.
Qed.

Lemma createPageLayout_ok p : every_in_page storable p -> exists x, createPageLayout p = Ok x /\ page_element p x.
Proof.
  intros (A & B & C). destruct (createPageMargins_ok (pageMargins p) B C) as (l & E & M).
  unfold createPageLayout. rewrite E. clear E B C. destruct p as [s m]. cbn [size pageMargins] in *.
  assert (N : margins_used m = false -> l = []).
  { destruct m as [[a | ] [b | ]]; unfold margins_used; cbn [odd even given orb] in *; intros X; try discriminate X. exact M. }
  destruct s as [s | ]; cbn [every] in A.
  - destruct A as [A1 A2]. rewrite (decimal_any _ _ A1), (decimal_any _ _ A2). cbn [obind].
    destruct (margins_used m) eqn:U; cbn [negb omap obind page_height page_width page_margins app].
    + eexists. split; [reflexivity | ]. split; [reflexivity | ]. split; [reflexivity | exact M].
    + eexists. split; [reflexivity | ]. split; [reflexivity | ]. split; [reflexivity | ]. rewrite (N eq_refl) in M. exact M.
  - cbn [obind]. destruct (margins_used m) eqn:U; cbn [negb omap obind page_height page_width page_margins app].
    + eexists. split; [reflexivity | ]. split; [reflexivity | ]. split; [reflexivity | exact M].
    + eexists. split; [reflexivity | ]. split; [reflexivity | ]. split; [reflexivity | ]. rewrite (N eq_refl) in M. exact M.
Qed.

Lemma page_layout_used_false p : page_layout_used p = false <-> p = noPageLayout.
Proof.
  destruct p as [[s | ] [[a | ] [b | ]]]; unfold page_layout_used, margins_used, noPageLayout, noPageMargins;
    cbn [size pageMargins odd even given orb]; split; intros H; try discriminate H; reflexivity.
Qed.

(** ** Reading page layouts *)

Definition or_else {A} (x y : option A) : option A := match x with Some _ => x | None => y end.

Lemma or_else_none {A} (x : option A) : or_else x None = x.
Proof. destruct x; reflexivity. Qed.

Lemma margins_for_cons k x l :
  margins_for k (x :: l) = or_else (margins_for k l) (if serves k x then Some (mkMargins (xm_left x) (xm_right x) (xm_top x) (xm_bottom x)) else None).
Proof.
  unfold margins_for. cbn [filter]. destruct (serves k x); cbn [last_of].
  - destruct (last_of (filter (serves k) l)); reflexivity.
  - rewrite or_else_none. reflexivity.
Qed.

Lemma readMargins_any l : forall m, readMargins l m =
  mkPageMargins (or_else (margins_for MarginType_odd l) (odd m)) (or_else (margins_for MarginType_even l) (even m)).
Proof.
  induction l as [ | x l IH]; intros m; [destruct m; reflexivity | ].
  cbn [readMargins]. rewrite IH, !margins_for_cons. clear IH.
  destruct (margins_for MarginType_odd l), (margins_for MarginType_even l), m as [mo me], x as [[ [ | | ] | ] ? ? ? ?];
    unfold for_odd, for_even, serves, or_else; cbn [xm_type odd even]; reflexivity.
Qed.

Lemma readPageLayout_any g : readPageLayout g = page_layout_in g.
Proof.
  unfold readPageLayout, page_layout_in. destruct (g_page g) as [p | ]; [ | reflexivity].
  rewrite readMargins_any. cbn [odd even noPageMargins]. rewrite !or_else_none. reflexivity.
Qed.

Lemma readSystemLayout_any g : readSystemLayout g = system_layout_in g None.
Proof. unfold readSystemLayout, system_layout_in. destruct (g_system g); reflexivity. Qed.

Lemma page_read p g : every_in_page storable p -> page_elements p (g_page g) -> page_layout_in g = kept_page_layout p.
Proof.
  intros (_ & S1 & S2) H. unfold page_layout_in. destruct (g_page g) as [x | ]; cbn [page_elements] in H.
  2:{ rewrite H. reflexivity. }
  destruct H as [(H1 & H2 & H3) N]. rewrite H1, H2. clear H1 H2. destruct p as [s [a b]]. cbn [size pageMargins] in *.
  unfold kept_page_layout, margins_elements in *. cbn [size pageMargins odd even] in *.
  assert (X : mkPageMargins (margins_for MarginType_odd (page_margins x)) (margins_for MarginType_even (page_margins x)) =
              mkPageMargins (option_map kept_margins a) (option_map kept_margins b)).
  { destruct a as [a | ], b as [b | ]; cbn [every] in *.
    - destruct H3 as [[(E1 & E2 & E3 & E4) ->] | [_ ->]]; cbn [option_map]; [ | reflexivity].
      destruct S1 as (A1 & A2 & A3 & A4).
      unfold margins_for, kept_margins. cbn [filter serves xm_type margins_element last_of option_map xm_left xm_right xm_top xm_bottom].
      rewrite <- (margin_eq _ _ E1 A1), <- (margin_eq _ _ E2 A2), <- (margin_eq _ _ E3 A3), <- (margin_eq _ _ E4 A4). reflexivity.
    - rewrite H3. reflexivity.
    - rewrite H3. reflexivity.
    - rewrite H3. reflexivity. }
  rewrite X. destruct s as [s | ]; [reflexivity | ].
  destruct a, b; cbn [is_some orb]; try reflexivity. exfalso. apply N. reflexivity.
Qed.

(** ** The steps that write the defaults *)

Notation now h := (there empty_xdefaults h).

Lemma there_with f h : now (with_defaults f h) = f (now h). Proof. reflexivity. Qed.
Lemma some_with f h : is_some (with_defaults f h) = true. Proof. reflexivity. Qed.

Lemma addScaling_ok d : storable (scalingMillimeters d) -> storable (scalingTenths d) ->
  exists h, addScaling d None = Ok h /\ now h = mkXDefaults (scaling_element d) empty_group None /\
    is_some h = above_zero (scalingMillimeters d) || above_zero (scalingTenths d).
Proof.
  intros A B. unfold addScaling, scaling_element, kept_scaling. rewrite !positive_above.
  rewrite (decimal_any _ _ A), (decimal_any _ _ B).
  destruct (above_zero (scalingMillimeters d)), (above_zero (scalingTenths d)); cbn [omap obind orb];
    eexists; (split; [reflexivity | split; reflexivity]).
Qed.

Lemma addPageLayout_ok p h : every_in_page storable p -> g_page (x_group (now h)) = None ->
  exists h', addPageLayout p h = Ok h' /\
    (exists x, page_elements p x /\ now h' = set_group (fun g => mkGroup x (g_system g) (g_staff g)) (now h)) /\
    (h' = None <-> h = None /\ p = noPageLayout).
Proof.
  intros S N. unfold addPageLayout. destruct (page_layout_used p) eqn:U; cbn [negb].
  - destruct (createPageLayout_ok p S) as (x & E & X). rewrite E. cbn [omap obind].
    eexists. split; [reflexivity | ]. split.
    + exists (Some x). split; [ | reflexivity]. split; [exact X | ]. intros Q. apply page_layout_used_false in Q. congruence.
    + split; [discriminate | ]. intros [_ Q]. apply page_layout_used_false in Q. congruence.
  - apply page_layout_used_false in U. exists h. split; [reflexivity | ]. split; [ | tauto].
    exists None. split; [exact U | ]. destruct (now h) as [s [gp gs gt] a]. cbn [x_group g_page] in N. subst gp. reflexivity.
Qed.

Lemma write_left_right_ok m : every_left_right storable m -> write_left_right m = Ok (rounded_left_right m).
Proof. intros [A B]. unfold write_left_right. rewrite (decimal_any _ _ A), (decimal_any _ _ B). reflexivity. Qed.

Lemma addSystemMargins_ok s h : every_in_system storable s -> g_system (x_group (now h)) = None -> g_staff (x_group (now h)) = [] ->
  exists h', addSystemMargins s h = Ok h' /\
    now h' = set_group (fun g => mkGroup (g_page g) (default_system_element s) (staff_elements s)) (now h) /\
    (h' = None <-> h = None /\ s = noSystemLayout).
Proof.
  intros (S1 & S2 & S3 & S4) N1 N2. unfold addSystemMargins.
  assert (X : now h = mkXDefaults (x_scaling (now h)) (mkGroup (g_page (x_group (now h))) None []) (x_appearance (now h))).
  { destruct (now h) as [sc [gp gs gt] a]. cbn [x_group g_system g_staff] in *. subst. reflexivity. }
  clear N1 N2. destruct s as [m di tp st]. cbn [systemMargins systemDistance topSystemDistance staffDistance] in *.
  destruct m as [m | ], di as [di | ], tp as [tp | ], st as [st | ]; cbn [every if_given obind] in *;
    rewrite ?(write_left_right_ok _ S1), ?(decimal_any _ _ S2), ?(decimal_any _ _ S3), ?(decimal_any _ _ S4); cbn [omap obind];
    eexists; (split; [reflexivity | ]); rewrite ?there_with; rewrite X; (split; [reflexivity | ]);
    (split; [first [discriminate | intros E; split; [exact E | reflexivity]] | intros [E K]; first [discriminate K | exact E]]).
Qed.

(** The appearances *)

Lemma sub_type_line_width t : line_width_text t = sub_type t.
Proof.
  pose proof (keeps_text_generic isOther_LineWidthType LineWidthTypeEnum_other _ _ _ _ _ _ LineWidthType_other LineWidthTypeEnum_text) as [A B].
  unfold line_width_text, sub_type. destruct (str_eqb t (lit "other")) eqn:E.
  - apply str_eqb_eq in E. subst. exact B.
  - apply A. intros ->. rewrite (proj2 (str_eqb_eq _ _) eq_refl) in E. discriminate E.
Qed.

Lemma sub_type_distance t : distance_text t = sub_type t.
Proof.
  pose proof (keeps_text_generic isOther_DistanceType DistanceTypeEnum_other _ _ _ _ _ _ DistanceType_other DistanceTypeEnum_text) as [A B].
  unfold distance_text, sub_type. destruct (str_eqb t (lit "other")) eqn:E.
  - apply str_eqb_eq in E. subst. exact B.
  - apply A. intros ->. rewrite (proj2 (str_eqb_eq _ _) eq_refl) in E. discriminate E.
Qed.

Lemma read_line_width_text t : read_line_width t = line_width_text t.
Proof. unfold read_line_width, line_width_text, construct_text, setValue_text. destruct (tryParse_LineWidthTypeEnum t); reflexivity. Qed.
Lemma read_distance_text t : read_distance t = distance_text t.
Proof. unfold read_distance, distance_text, construct_text, setValue_text. destruct (tryParse_DistanceTypeEnum t); reflexivity. Qed.

Lemma sub_type_twice t : sub_type (sub_type t) = sub_type t.
Proof. unfold sub_type. destruct (str_eqb t (lit "other")) eqn:E; [reflexivity | ]. rewrite E. reflexivity. Qed.

Lemma note_size_text t : NoteSizeType_toString (parse_NoteSizeType t) = note_size t.
Proof.
  unfold parse_NoteSizeType, tryParse_NoteSizeType, NoteSizeType_chain, note_size. cbn [lookup_text existsb].
  destruct (str_eqb t (lit "cue")) eqn:E1; [apply str_eqb_eq in E1; subst; reflexivity | ].
  destruct (str_eqb t (lit "grace")) eqn:E2; [apply str_eqb_eq in E2; subst; reflexivity | ].
  destruct (str_eqb t (lit "large")) eqn:E3; [apply str_eqb_eq in E3; subst; reflexivity | ].
  reflexivity.
Qed.

Lemma note_size_twice t : note_size (note_size t) = note_size t.
Proof.
  unfold note_size at 2 3. destruct (existsb (str_eqb t) [lit "cue"; lit "grace"; lit "large"]) eqn:E; [ | reflexivity].
  unfold note_size. rewrite E. reflexivity.
Qed.

Definition appended (l : list AppearanceData) (x : xappearance) : xappearance :=
  let y := there empty_appearance (appearance_element l) in
  mkXAppearance (line_widths x ++ line_widths y) (note_sizes x ++ note_sizes y) (distances x ++ distances y) (other_appearances x ++ other_appearances y).

Lemma appended_nil x : appended [] x = x.
Proof. destruct x. unfold appended. cbn. rewrite !app_nil_r. reflexivity. Qed.

Lemma element_there a l : there empty_appearance (appearance_element (a :: l)) =
  appended l (there empty_appearance (appearance_element [a])).
Proof.
  destruct l as [ | b l]; [rewrite appended_nil; reflexivity | ].
  unfold appended. cbn [appearance_element there]. unfold is_line_width, is_note_size, is_distance, is_other_appearance.
  cbn [filter]. destruct (appearanceType a); reflexivity.
Qed.

Lemma appended_cons a l x : appended (a :: l) x = appended l (appended [a] x).
Proof.
  unfold appended at 1. rewrite element_there. unfold appended at 2 3. unfold appended at 1 2 3 4.
  cbn [line_widths note_sizes distances other_appearances]. rewrite !app_assoc. reflexivity.
Qed.

Lemma addAppearance1_ok a h : storable (appearanceValue a) ->
  addAppearance1 a h = Ok (with_defaults (set_appearance (appended [a])) h).
Proof.
  intros S. unfold addAppearance1, appended. cbn [appearance_element there].
  unfold is_line_width, is_note_size, is_distance, is_other_appearance. cbn [filter].
  destruct (appearanceType a) eqn:E; cbn [map]; rewrite ?(decimal_any _ _ S); cbn [omap obind]; f_equal;
    unfold with_defaults, set_appearance; f_equal; f_equal; cbn [line_widths note_sizes distances other_appearances]; rewrite ?app_nil_r;
    rewrite ?sub_type_line_width, ?sub_type_distance, ?note_size_text; reflexivity.
Qed.

Lemma addAppearance_ok l : forall h, Forall (fun a => storable (appearanceValue a)) l ->
  addAppearance l h = Ok (match l with [] => h | _ => with_defaults (set_appearance (appended l)) h end).
Proof.
  induction l as [ | a l IH]; intros h F; [reflexivity | ].
  apply Forall_cons_iff in F. destruct F as [F1 F2]. cbn [addAppearance].
  rewrite (addAppearance1_ok a h F1). cbn [obind]. rewrite (IH _ F2). f_equal.
  destruct l as [ | b l]; [reflexivity | ].
  unfold with_defaults, set_appearance. cbn [there x_scaling x_group x_appearance]. f_equal. f_equal. f_equal. symmetry. apply appended_cons.
Qed.

(** ** The defaults that are written *)

Lemma defaults_written d : every_in_defaults storable d ->
  exists h, addDefaultsData d None = Ok h /\ defaults_element d h.
Proof.
  intros (S1 & S2 & S3 & S4 & S5). unfold addDefaultsData.
  destruct (addScaling_ok d S1 S2) as (h1 & E1 & N1 & B1). rewrite E1. cbn [obind].
  destruct (addPageLayout_ok (pageLayout d) h1 S3) as (h2 & E2 & (x & X & N2) & B2); [rewrite N1; reflexivity | ].
  rewrite E2. cbn [obind].
  destruct (addSystemMargins_ok (defaultSystemLayout d) h2 S4) as (h3 & E3 & N3 & B3);
    [rewrite N2, N1; reflexivity | rewrite N2, N1; reflexivity | ].
  rewrite E3. cbn [obind]. rewrite (addAppearance_ok _ h3 S5). eexists. split; [reflexivity | ].
  rewrite N1 in N2. rewrite N2 in N3. unfold set_group in N3. cbn [x_scaling x_group x_appearance g_page g_system g_staff] in N3.
  assert (B : h3 = None <-> ~ (0 < scalingMillimeters d)%Q /\ ~ (0 < scalingTenths d)%Q /\ pageLayout d = noPageLayout /\ defaultSystemLayout d = noSystemLayout).
  { assert (Q : h1 = None <-> ~ (0 < scalingMillimeters d)%Q /\ ~ (0 < scalingTenths d)%Q).
    { rewrite <- !above_zero_false.
      destruct h1, (above_zero (scalingMillimeters d)), (above_zero (scalingTenths d)); cbn in B1; try discriminate B1;
        split; intros H; try discriminate H; try (destruct H; discriminate); tauto. }
    rewrite B3, B2, Q. tauto. }
  clear E1 E2 E3 B1 B2 B3.
  destruct (appearance d) as [ | a l] eqn:EA.
  - destruct h3 as [e | ]; cbn [defaults_element].
    + split; [intros (A1 & A2 & A3 & A4 & A5) | ].
      { assert (Some e = None) by (apply B; tauto). discriminate. }
      cbn [there] in N3. rewrite N3, EA. cbn [x_scaling x_group x_appearance g_page g_system g_staff].
      split; [reflexivity | split; [exact X | split; [reflexivity | split; reflexivity]]].
    + unfold nothing_given. pose proof (proj1 B eq_refl) as (A1 & A2 & A3 & A4). tauto.
  - unfold with_defaults. cbn [defaults_element]. split; [intros (A1 & A2 & A3 & A4 & A5); congruence | ].
    rewrite N3, EA. unfold set_appearance. cbn [x_scaling x_group x_appearance g_page g_system g_staff].
    split; [reflexivity | split; [exact X | split; [reflexivity | split; [reflexivity | ]]]].
    cbn [there]. reflexivity.
Qed.

Lemma default_system_read g s : g_system g = default_system_element s -> g_staff g = staff_elements s ->
  readStaffLayout g (readSystemLayout g) = kept_system_layout s.
Proof.
  intros A B. unfold readStaffLayout, readSystemLayout. rewrite A, B. destruct s as [[m | ] [di | ] [tp | ] [st | ]]; reflexivity.
Qed.

Lemma appearance_read d h : x_appearance d = appearance_element h -> readAppearance (Some d) = kept_appearances h.
Proof.
  intros E. unfold readAppearance, kept_appearances. rewrite E. destruct h as [ | a l]; [reflexivity | ].
  cbn [appearance_element line_widths note_sizes distances other_appearances]. rewrite !map_app, !map_map.
  f_equal; [ | f_equal; [ | f_equal]]; apply map_ext_in; intros b I; apply filter_In in I; destruct I as [_ I]; cbn [fst snd];
    unfold is_line_width, is_note_size, is_distance, is_other_appearance in I; unfold kept_appearance;
    destruct (appearanceType b); try discriminate I;
    rewrite ?read_line_width_text, ?read_distance_text, ?sub_type_line_width, ?sub_type_distance, ?note_size_text, ?sub_type_twice, ?note_size_twice; reflexivity.
Qed.

Lemma defaults_read d h : every_in_defaults storable d -> defaults_element d h -> createDefaults h = kept_defaults d.
Proof.
  intros (_ & _ & S & _ & _) H. destruct h as [e | ]; cbn [defaults_element] in H.
  - destruct H as (_ & H1 & H2 & H3 & H4 & H5). unfold createDefaults, kept_defaults. cbn [there].
    rewrite (default_system_read _ _ H3 H4), (appearance_read _ _ H5), readPageLayout_any, (page_read _ _ S H2).
    unfold readScaling. rewrite H1. unfold scaling_element, kept_scaling.
    destruct (above_zero (scalingMillimeters d)), (above_zero (scalingTenths d)); reflexivity.
  - destruct H as (H1 & H2 & H3 & H4 & H5). unfold createDefaults, kept_defaults, kept_scaling.
    rewrite H3, H4, H5. apply above_zero_false in H1, H2. rewrite H1, H2. reflexivity.
Qed.

Lemma plain_page_kept p : every_in_page storable p -> plain_page p -> kept_page_layout p = rounded_page_layout p.
Proof.
  intros (_ & S1 & S2) (N & P1 & P2). destruct p as [s [a b]]. unfold kept_page_layout, rounded_page_layout, rounded_page_margins.
  cbn [size pageMargins odd even] in *.
  assert (K : forall x, every (every_margin storable) x -> every (every_margin (Qle 0)) x -> option_map kept_margins x = option_map rounded_margins x).
  { intros [x | ] A B; [ | reflexivity]. destruct A as (A1 & A2 & A3 & A4), B as (B1 & B2 & B3 & B4). cbn [option_map]. unfold kept_margins, rounded_margins.
    rewrite (margin_plain _ B1 A1), (margin_plain _ B2 A2), (margin_plain _ B3 A3), (margin_plain _ B4 A4). reflexivity. }
  rewrite (K a S1 P1), (K b S2 P2). destruct s as [s | ]; [reflexivity | ].
  destruct (N eq_refl) as [-> ->]. reflexivity.
Qed.

Lemma filter_all {A} (f : A -> bool) l : Forall (fun x => f x = true) l -> filter f l = l.
Proof. induction 1 as [ | x l H _ IH]; [reflexivity | ]. cbn [filter]. rewrite H, IH. reflexivity. Qed.
Lemma filter_nothing {A} (f : A -> bool) l : Forall (fun x => f x = false) l -> filter f l = [].
Proof. induction 1 as [ | x l H _ IH]; [reflexivity | ]. cbn [filter]. rewrite H, IH. reflexivity. Qed.

Lemma plain_defaults_kept d : every_in_defaults storable d -> plain_defaults d -> kept_defaults d = rounded_defaults d.
Proof.
  intros (_ & _ & S & _) (P1 & P2 & P3 & P4 & (a & b & c & P5 & A & B & C)).
  unfold kept_defaults, rounded_defaults, kept_scaling.
  apply above_zero_true in P1, P2. rewrite P1, P2, (plain_page_kept _ S P3). cbn [orb fst snd]. f_equal.
  - destruct (defaultSystemLayout d) as [m di tp st]. cbn [systemMargins topSystemDistance] in P4.
    destruct m as [m | ]; [reflexivity | ]. rewrite (P4 eq_refl). reflexivity.
  - rewrite P5. unfold kept_appearances. rewrite !filter_app.
    assert (T : forall (P : AppearanceData -> Prop) (t : AppearanceType) (f : AppearanceData -> bool) (v : bool) (l : list AppearanceData), Forall (fun x => appearanceType x = t /\ P x) l ->
                (forall x, appearanceType x = t -> f x = v) -> Forall (fun x => f x = v) l).
    { intros P t f v l F H. apply (Forall_impl _ (fun x K => H x (proj1 K)) F). }
    rewrite (filter_all is_line_width a (T _ _ is_line_width true a A ltac:(intros x X; unfold is_line_width; rewrite X; reflexivity))).
    rewrite (filter_nothing is_line_width b (T _ _ is_line_width false b B ltac:(intros x X; unfold is_line_width; rewrite X; reflexivity))).
    rewrite (filter_nothing is_line_width c (T _ _ is_line_width false c C ltac:(intros x X; unfold is_line_width; rewrite X; reflexivity))).
    rewrite (filter_nothing is_note_size a (T _ _ is_note_size false a A ltac:(intros x X; unfold is_note_size; rewrite X; reflexivity))).
    rewrite (filter_all is_note_size b (T _ _ is_note_size true b B ltac:(intros x X; unfold is_note_size; rewrite X; reflexivity))).
    rewrite (filter_nothing is_note_size c (T _ _ is_note_size false c C ltac:(intros x X; unfold is_note_size; rewrite X; reflexivity))).
    rewrite (filter_nothing is_distance a (T _ _ is_distance false a A ltac:(intros x X; unfold is_distance; rewrite X; reflexivity))).
    rewrite (filter_nothing is_distance b (T _ _ is_distance false b B ltac:(intros x X; unfold is_distance; rewrite X; reflexivity))).
    rewrite (filter_all is_distance c (T _ _ is_distance true c C ltac:(intros x X; unfold is_distance; rewrite X; reflexivity))).
    rewrite (filter_nothing is_other_appearance a (T _ _ is_other_appearance false a A ltac:(intros x X; unfold is_other_appearance; rewrite X; reflexivity))).
    rewrite (filter_nothing is_other_appearance b (T _ _ is_other_appearance false b B ltac:(intros x X; unfold is_other_appearance; rewrite X; reflexivity))).
    rewrite (filter_nothing is_other_appearance c (T _ _ is_other_appearance false c C ltac:(intros x X; unfold is_other_appearance; rewrite X; reflexivity))).
    cbn [app]. rewrite !app_nil_r. apply map_ext_in. intros x I.
    assert (O : forall t, t <> lit "other" -> sub_type t = t).
    { intros t H. unfold sub_type. destruct (str_eqb t (lit "other")) eqn:E; [apply str_eqb_eq in E; contradiction | reflexivity]. }
    rewrite !in_app_iff in I. rewrite Forall_forall in A, B, C. unfold kept_appearance, rounded_appearance.
    destruct I as [I | [I | I]].
    + destruct (A x I) as [-> H]. rewrite (O _ H). reflexivity.
    + destruct (B x I) as [-> H]. unfold note_size.
      replace (existsb (str_eqb (appearanceSubType x)) [lit "cue"; lit "grace"; lit "large"]) with true; [reflexivity | ].
      symmetry. apply existsb_exists. exists (appearanceSubType x). split; [exact H | apply str_eqb_eq; reflexivity].
    + destruct (C x I) as [-> H]. rewrite (O _ H). reflexivity.
Qed.

(** ** Writing prints *)

Lemma system_used_says s : system_used s = system_says s.
Proof. destruct s as [[ | | ] [[m | ] [di | ] [tp | ] [st | ]]]; reflexivity. Qed.
Lemma page_used_says p : page_used p = page_says p.
Proof. destruct p as [[ | | ] [[s | ] [[a | ] [b | ]]] [n | ]]; reflexivity. Qed.

Lemma writeSystemInfo_ok d measure : every_in_system storable (systemLayout d) ->
  writeSystemInfo d measure =
  Ok (if system_says d then measure ++ [Print (mkPrint (yes_no (newSystem d)) None None (mkGroup None (print_system_element (systemLayout d)) []))] else measure).
Proof.
  intros (S1 & S2 & S3 & _). unfold writeSystemInfo. rewrite system_used_says. destruct (system_says d); cbn [negb]; [ | reflexivity].
  destruct (systemLayout d) as [m di tp st]. cbn [systemMargins systemDistance topSystemDistance staffDistance] in *.
  destruct m as [m | ], di as [di | ], tp as [tp | ]; cbn [every if_given obind] in *;
    rewrite ?(write_left_right_ok _ S1), ?(decimal_any _ _ S2), ?(decimal_any _ _ S3); reflexivity.
Qed.

Lemma page_print_ok d p : every_in_page storable (pageLayoutData d) -> p_newPage p = None -> p_pageNumber p = None -> g_page (p_group p) = None ->
  exists x, page_elements (pageLayoutData d) x /\
    page_print d p = Ok (mkPrint (p_newSystem p) (yes_no (newPage d)) (option_map token_of (pageNumber d)) (mkGroup x (g_system (p_group p)) (g_staff (p_group p)))).
Proof.
  intros S N1 N2 N3. unfold page_print. rewrite N1, N2.
  assert (Y : match yes_no (newPage d) with Some b => Some b | None => None end = yes_no (newPage d)) by (destruct (yes_no (newPage d)); reflexivity).
  rewrite Y. destruct (page_layout_used (pageLayoutData d)) eqn:U.
  - destruct (createPageLayout_ok _ S) as (x & E & X). rewrite E. cbn [omap obind]. exists (Some x). split.
    + split; [exact X | ]. intros Q. apply page_layout_used_false in Q. congruence.
    + destruct (pageNumber d); reflexivity.
  - apply page_layout_used_false in U. exists None. split; [exact U | ].
    destruct (p_group p) as [gp gs gt]. cbn [g_page] in N3. subst gp. destruct (pageNumber d); reflexivity.
Qed.

Lemma writePageInfo_none d before : no_print before -> writePageInfo d before = omap (fun p => before ++ [Print p]) (page_print d empty_print).
Proof.
  induction before as [ | x r IH]; intros F; [reflexivity | ].
  apply Forall_cons_iff in F. destruct F as [-> F]. cbn [writePageInfo]. rewrite (IH F). destruct (page_print d empty_print); reflexivity.
Qed.

Lemma writePageInfo_one d p before : no_print before -> writePageInfo d (before ++ [Print p]) = omap (fun p => before ++ [Print p]) (page_print d p).
Proof.
  induction before as [ | x r IH]; intros F; [reflexivity | ].
  apply Forall_cons_iff in F. destruct F as [-> F]. cbn [writePageInfo app]. rewrite (IH F). destruct (page_print d p); reflexivity.
Qed.

Lemma writePrints_ok m i before : (forall l, find_layout i m = Some l -> every_in_layout storable l) -> no_print before ->
  exists prints, writePrints m i before = Ok (before ++ prints) /\ measure_prints (find_layout i m) prints.
Proof.
  intros S F. unfold writePrints, isSystemInfo, findPageLayoutData, getSystemData.
  destruct (find_layout i m) as [l | ]; cbn [measure_prints].
  2:{ exists []. rewrite app_nil_r. split; reflexivity. }
  destruct (S l eq_refl) as [S1 S2]. destruct l as [s p]. cbn [ld_system ld_page] in *. unfold layout_says. cbn [ld_system ld_page].
  rewrite system_used_says, page_used_says, (writeSystemInfo_ok s before S1).
  destruct (system_says s) eqn:Us; cbn [obind orb].
  - destruct (page_says p) eqn:Up; cbn [negb].
    + rewrite (writePageInfo_one _ _ _ F).
      destruct (page_print_ok p (mkPrint (yes_no (newSystem s)) None None (mkGroup None (print_system_element (systemLayout s)) [])) S2) as (x & X & E);
        try reflexivity.
      rewrite E. cbn [omap obind]. eexists. split; [reflexivity | ]. eexists. split; [reflexivity | ].
      split; [reflexivity | split; [reflexivity | split; [reflexivity | split; [exact X | split; reflexivity]]]].
    + eexists. split; [reflexivity | ]. eexists. split; [reflexivity | ].
      destruct p as [[ | | ] [[z | ] [[a | ] [b | ]]] [n | ]]; try discriminate Up.
      split; [reflexivity | split; [reflexivity | split; [reflexivity | split; [reflexivity | split; reflexivity]]]].
  - destruct (page_says p) eqn:Up; cbn [negb].
    + rewrite (writePageInfo_none _ _ F).
      destruct (page_print_ok p empty_print S2) as (x & X & E); try reflexivity.
      rewrite E. cbn [omap obind]. eexists. split; [reflexivity | ]. eexists. split; [reflexivity | ].
      destruct s as [[ | | ] [[z | ] [di | ] [tp | ] [st | ]]]; try discriminate Us.
      split; [reflexivity | split; [reflexivity | split; [reflexivity | split; [exact X | split; reflexivity]]]].
    + exists []. rewrite app_nil_r. split; reflexivity.
Qed.

(** ** Maps *)

Lemma find_above i m : Forall (fun e => i < fst e) m -> find_layout i m = None.
Proof.
  induction 1 as [ | [k v] r H _ IH]; [reflexivity | ]. cbn [find_layout fst] in *.
  destruct (Z.eqb_spec k i); [lia | exact IH].
Qed.

Lemma by_index_cons k v m : by_index ((k, v) :: m) <-> by_index m /\ Forall (fun e => k < fst e) m.
Proof.
  unfold by_index. split; intros H.
  - inversion H; subst. split; assumption.
  - destruct H. constructor; assumption.
Qed.

Lemma Forall_above i k m : i <= k -> Forall (fun e : Z * LayoutData => k < fst e) m -> Forall (fun e => i < fst e) m.
Proof. intros H. apply Forall_impl. intros e E. lia. Qed.

Lemma update_above i f j m : j < i -> Forall (fun e => j < fst e) m -> Forall (fun e => j < fst e) (update_layout i f m).
Proof.
  intros H. induction 1 as [ | [k v] r A B IH]; cbn [update_layout]; [constructor; [exact H | constructor] | ].
  destruct (Z.eqb_spec i k); [constructor; [exact A | exact B] | ].
  destruct (Z.ltb_spec i k); constructor; try exact H; try exact A; try exact IH. constructor; assumption.
Qed.

Lemma update_sorted i f m : by_index m -> by_index (update_layout i f m).
Proof.
  induction m as [ | [k v] r IH]; intros S; cbn [update_layout].
  - apply by_index_cons. split; [constructor | constructor].
  - apply by_index_cons in S. destruct S as [S1 S2].
    destruct (Z.eqb_spec i k); [apply by_index_cons; split; assumption | ].
    destruct (Z.ltb_spec i k).
    + apply by_index_cons. split; [apply by_index_cons; split; assumption | ].
      constructor; [exact H | apply (Forall_above i k); [lia | exact S2]].
    + apply by_index_cons. split; [apply IH, S1 | apply update_above; [lia | exact S2]].
Qed.

Lemma update_find i f m j : by_index m ->
  find_layout j (update_layout i f m) = if i =? j then Some (f (there noLayout (find_layout i m))) else find_layout j m.
Proof.
  induction m as [ | [k v] r IH]; intros S; cbn [update_layout find_layout].
  - destruct (i =? j); reflexivity.
  - apply by_index_cons in S. destruct S as [S1 S2]. specialize (IH S1).
    destruct (Z.eqb_spec i k) as [-> | N].
    + cbn [find_layout]. rewrite Z.eqb_refl. destruct (Z.eqb_spec k j); reflexivity.
    + destruct (Z.ltb_spec i k).
      * cbn [find_layout]. destruct (Z.eqb_spec i j) as [M | M]; [subst j | reflexivity].
        destruct (Z.eqb_spec k i); [lia | ]. rewrite (find_above i r); [reflexivity | apply (Forall_above i k); [lia | exact S2]].
      * cbn [find_layout]. rewrite IH. destruct (Z.eqb_spec k i); [lia | ].
        destruct (Z.eqb_spec k j); destruct (Z.eqb_spec i j); try lia; reflexivity.
Qed.

Lemma find_ext a : forall b, by_index a -> by_index b -> (forall i, find_layout i a = find_layout i b) -> a = b.
Proof.
  induction a as [ | [k v] a IH]; intros [ | [k' v'] b] Sa Sb H.
  - reflexivity.
  - specialize (H k'). cbn [find_layout] in H. rewrite Z.eqb_refl in H. discriminate H.
  - specialize (H k). cbn [find_layout] in H. rewrite Z.eqb_refl in H. discriminate H.
  - apply by_index_cons in Sa, Sb. destruct Sa as [Sa1 Sa2], Sb as [Sb1 Sb2].
    assert (K : k = k').
    { destruct (Z.lt_trichotomy k k') as [L | [L | L]]; [ | exact L | ]; exfalso.
      - pose proof (H k) as X. cbn [find_layout] in X. rewrite Z.eqb_refl in X. destruct (Z.eqb_spec k' k); [lia | ].
        rewrite (find_above k b) in X; [discriminate X | apply (Forall_above k k'); [lia | exact Sb2]].
      - pose proof (H k') as X. cbn [find_layout] in X. rewrite Z.eqb_refl in X. destruct (Z.eqb_spec k k'); [lia | ].
        rewrite (find_above k' a) in X; [discriminate X | apply (Forall_above k' k); [lia | exact Sa2]]. }
    subst k'. pose proof (H k) as X. cbn [find_layout] in X. rewrite Z.eqb_refl in X. injection X as <-. f_equal.
    apply IH; [exact Sa1 | exact Sb1 | ]. intros i. specialize (H i). cbn [find_layout] in H.
    destruct (Z.eqb_spec k i) as [N | N]; [subst i | exact H]. rewrite (find_above k a Sa2), (find_above k b Sb2). reflexivity.
Qed.

(** ** Reading prints *)

Lemma last_of_app {A} (l r : list A) : last_of (l ++ r) = or_else (last_of r) (last_of l).
Proof.
  induction l as [ | x l IH]; cbn [app last_of]; [rewrite or_else_none; reflexivity | ].
  rewrite IH. destruct (last_of r), (last_of l); reflexivity.
Qed.

Section Scan.
  Context {X : Type}.
  Variable get : xprint -> X.
  Variable says : X -> bool.
  Variable put : X -> LayoutData -> LayoutData.
  Hypothesis put_put : forall x y l, put x (put y l) = put x l.

  Definition note (i : Z) (p : xprint) (m : layout_map) : layout_map := if says (get p) then update_layout i (put (get p)) m else m.
  Definition found (measure : list music_data) : option X := last_of (filter says (map get (prints_of measure))).
  Definition after (measure : list music_data) (l : option LayoutData) : option LayoutData :=
    match found measure with Some x => Some (put x (there noLayout l)) | None => l end.

  Lemma scan_prints_any i measure : forall m, by_index m ->
    by_index (scan_prints (note i) measure m) /\
    (forall j, find_layout j (scan_prints (note i) measure m) = if i =? j then after measure (find_layout i m) else find_layout j m).
  Proof.
    unfold after, found. induction measure as [ | [p | ] r IH]; intros m S; cbn [scan_prints prints_of flat_map map filter last_of app].
    - split; [exact S | ]. intros j. destruct (Z.eqb_spec i j) as [M | M]; [subst j | ]; reflexivity.
    - assert (T : note i p m = if says (get p) then update_layout i (put (get p)) m else m) by reflexivity.
      rewrite T. clear T. destruct (says (get p)) eqn:E.
      + destruct (IH (update_layout i (put (get p)) m) (update_sorted _ _ _ S)) as [I1 I2]. split; [exact I1 | ].
        intros j. rewrite I2. fold (prints_of r). rewrite !(update_find i _ m _ S), Z.eqb_refl. cbn [last_of].
        destruct (last_of (filter says (map get (prints_of r)))) as [x | ].
        * cbn [there]. rewrite put_put. destruct (i =? j); reflexivity.
        * destruct (i =? j); reflexivity.
      + apply (IH m S).
    - apply (IH m S).
  Qed.

  Lemma scan_measures_any l : forall i m, by_index m ->
    by_index (scan_measures note i l m) /\
    (forall j, find_layout j (scan_measures note i l m) =
       if (i <=? j) then match nth_error l (Z.to_nat (j - i)) with Some measure => after measure (find_layout j m) | None => find_layout j m end
       else find_layout j m).
  Proof.
    induction l as [ | x l IH]; intros i m S; cbn [scan_measures].
    - split; [exact S | ]. intros j. destruct (Z.to_nat (j - i)); destruct (i <=? j); reflexivity.
    - destruct (scan_prints_any i x m S) as [P1 P2]. destruct (IH (i + 1) _ P1) as [I1 I2]. split; [exact I1 | ].
      intros j. rewrite I2, P2. destruct (Z.leb_spec (i + 1) j); destruct (Z.leb_spec i j); try lia.
      + replace (Z.to_nat (j - i)) with (Datatypes.S (Z.to_nat (j - (i + 1)))) by lia. cbn [nth_error].
        destruct (Z.eqb_spec i j); [lia | reflexivity].
      + replace j with i by lia. rewrite Z.sub_diag, Z.eqb_refl. reflexivity.
      + destruct (Z.eqb_spec i j); [lia | reflexivity].
  Qed.
End Scan.

Lemma system_of_in p : system_of p = system_in p.
Proof. unfold system_of, system_in. rewrite readSystemLayout_any. destruct (p_newSystem p) as [[ | ] | ]; reflexivity. Qed.
Lemma page_of_in p : page_of p = page_in p.
Proof. unfold page_of, page_in. rewrite readPageLayout_any. destruct (p_newPage p) as [[ | ] | ]; reflexivity. Qed.

Definition put_system (s : SystemData) (l : LayoutData) : LayoutData := mkLayout s (ld_page l).
Definition put_page (p : PageData) (l : LayoutData) : LayoutData := mkLayout (ld_system l) p.

Lemma note_system_note i p m : note_system i p m = note system_in system_says put_system i p m.
Proof. unfold note_system, note. rewrite system_used_says, system_of_in. reflexivity. Qed.
Lemma note_page_note i p m : note_page i p m = note page_in page_says put_page i p m.
Proof. unfold note_page, note. rewrite page_used_says, page_of_in. reflexivity. Qed.

Lemma scan_prints_ext f g measure : (forall p m, f p m = g p m) -> forall m, scan_prints f measure m = scan_prints g measure m.
Proof. intros H. induction measure as [ | [p | ] r IH]; intros m; cbn [scan_prints]; rewrite ?H, ?IH; reflexivity. Qed.
Lemma scan_measures_ext f g l : (forall i p m, f i p m = g i p m) -> forall i m, scan_measures f i l m = scan_measures g i l m.
Proof.
  intros H. induction l as [ | x l IH]; intros i m; cbn [scan_measures]; [reflexivity | ].
  rewrite IH. f_equal. apply scan_prints_ext, H.
Qed.

Lemma read_any topPart rest :
  by_index (readLayout (topPart :: rest)) /\
  (forall i, find_layout i (readLayout (topPart :: rest)) = match measure_at i topPart with Some measure => layout_in measure | None => None end).
Proof.
  unfold readLayout, scanForPageInfo, scanForSystemInfo.
  rewrite (scan_measures_ext _ _ topPart note_system_note 0 []).
  destruct (scan_measures_any system_in system_says put_system ltac:(reflexivity) topPart 0 []) as [S1 S2]; [constructor | ].
  set (m := scan_measures (note system_in system_says put_system) 0 topPart []) in *. clearbody m.
  rewrite (scan_measures_ext _ _ topPart note_page_note 0 m).
  destruct (scan_measures_any page_in page_says put_page ltac:(reflexivity) topPart 0 m S1) as [P1 P2].
  split; [exact P1 | ]. intros i. rewrite P2, S2. unfold measure_at. rewrite Z.sub_0_r.
  destruct (Z.leb_spec 0 i); destruct (Z.ltb_spec i 0); try lia; [ | reflexivity].
  destruct (nth_error topPart (Z.to_nat i)) as [x | ]; [ | reflexivity].
  unfold layout_in, after, found. cbn [find_layout].
  destruct (last_of (filter system_says (map system_in (prints_of x)))), (last_of (filter page_says (map page_in (prints_of x)))); reflexivity.
Qed.

(** ** Written and read *)

Lemma no_print_prints l : no_print l -> prints_of l = [].
Proof. induction 1 as [ | x l -> _ IH]; [reflexivity | exact IH]. Qed.

Lemma prints_of_app a b : prints_of (a ++ b) = prints_of a ++ prints_of b.
Proof. unfold prints_of. apply flat_map_app. Qed.

Lemma print_read l p : every_in_layout storable l -> print_element l p -> system_in p = kept_system (ld_system l) /\ page_in p = kept_page (ld_page l).
Proof.
  intros [_ S] (H1 & H2 & H3 & H4 & H5 & _). unfold system_in, page_in, kept_system, kept_page. split.
  - rewrite H1. unfold system_layout_in. rewrite H5. destruct (ld_system l) as [b [m di tp st]]. cbn [newSystem systemLayout].
    f_equal; [destruct b; reflexivity | ]. destruct m, di, tp; reflexivity.
  - rewrite H2, H3, (page_read _ _ S H4). f_equal. destruct (newPage (ld_page l)); reflexivity.
Qed.

Lemma kept_layout_nothing l : layout_says l = false -> layout_says (kept_layout l) = false.
Proof.
  destruct l as [[[ | | ] [[m | ] [di | ] [tp | ] [st | ]]] [[ | | ] [[z | ] [[a | ] [b | ]]] [n | ]]]; intros H; try discriminate H; reflexivity.
Qed.

Lemma layout_in_one l p before after : every_in_layout storable l -> print_element l p -> no_print before -> no_print after ->
  layout_in ((before ++ [Print p]) ++ after) = if layout_says (kept_layout l) then Some (kept_layout l) else None.
Proof.
  intros S P B A. destruct (print_read l p S P) as [E1 E2]. unfold layout_in.
  rewrite !prints_of_app, (no_print_prints _ B), (no_print_prints _ A). cbn [app prints_of flat_map map filter]. rewrite E1, E2.
  unfold layout_says, kept_layout. cbn [ld_system ld_page].
  destruct (system_says (kept_system (ld_system l))) eqn:U1, (page_says (kept_page (ld_page l))) eqn:U2; cbn [filter last_of orb]; try reflexivity.
  - assert (kept_page (ld_page l) = noPage) as ->; [ | reflexivity].
    destruct (kept_page (ld_page l)) as [[ | | ] [[z | ] [[a | ] [b | ]]] [n | ]]; try discriminate U2. reflexivity.
  - assert (kept_system (ld_system l) = noSystem) as ->; [ | reflexivity].
    destruct (kept_system (ld_system l)) as [[ | | ] [[z | ] [di | ] [tp | ] [st | ]]]; try discriminate U1. reflexivity.
Qed.

Lemma layout_in_none before : no_print before -> layout_in before = None.
Proof. intros B. unfold layout_in. rewrite (no_print_prints _ B). reflexivity. Qed.

Lemma measures_written m l : forall i, (forall k x, find_layout k m = Some x -> every_in_layout storable x) ->
  Forall (fun p => no_print (fst p) /\ no_print (snd p)) l ->
  exists xs, writeMeasures m i l = Ok xs /\ List.length xs = List.length l /\
    (forall n x, nth_error xs n = Some x ->
       exists before prints after, nth_error l n = Some (before, after) /\ x = (before ++ prints) ++ after /\
         measure_prints (find_layout (i + Z.of_nat n) m) prints).
Proof.
  induction l as [ | [before after] l IH]; intros i S F; cbn [writeMeasures].
  - exists []. split; [reflexivity | split; [reflexivity | ]]. intros [ | n] x H; discriminate H.
  - apply Forall_cons_iff in F. destruct F as [[F1 F2] F]. cbn [fst snd] in *.
    destruct (writePrints_ok m i before (S i) F1) as (prints & E & P). rewrite E. cbn [obind].
    destruct (IH (i + 1) S F) as (xs & E2 & L & N). rewrite E2. cbn [omap obind].
    eexists. split; [reflexivity | split; [cbn [List.length]; rewrite L; reflexivity | ]].
    intros [ | n] x H; cbn [nth_error] in *.
    + injection H as <-. exists before, prints, after. rewrite Z.add_0_r. split; [reflexivity | split; [reflexivity | exact P]].
    + destruct (N n x H) as (b & p & a & N1 & N2 & N3). exists b, p, a. split; [exact N1 | split; [exact N2 | ]].
      replace (i + Z.of_nat (Datatypes.S n)) with (i + 1 + Z.of_nat n) by lia. exact N3.
Qed.

Lemma sorted_filter f m : by_index m -> by_index (filter f m).
Proof.
  induction m as [ | [k v] m IH]; intros S; [exact S | ]. apply by_index_cons in S. destruct S as [S1 S2]. cbn [filter].
  destruct (f (k, v)); [ | apply IH, S1]. apply by_index_cons. split; [apply IH, S1 | ].
  apply Forall_forall. intros e E. apply filter_In in E. rewrite Forall_forall in S2. apply S2, (proj1 E).
Qed.

Lemma sorted_map g m : by_index m -> by_index (map (fun e => (fst e, g (snd e))) m).
Proof.
  induction m as [ | [k v] m IH]; intros S; [exact S | ]. apply by_index_cons in S. destruct S as [S1 S2]. cbn [map fst snd].
  apply by_index_cons. split; [apply IH, S1 | ]. apply Forall_forall. intros e E. apply in_map_iff in E. destruct E as (x & <- & E).
  rewrite Forall_forall in S2. apply (S2 x E).
Qed.

Lemma kept_layouts_find n m : by_index m -> by_index (kept_layouts n m) /\ forall i, find_layout i (kept_layouts n m) =
  match find_layout i m with
  | Some l => if (0 <=? i) && (i <? Z.of_nat n) && layout_says (kept_layout l) then Some (kept_layout l) else None
  | None => None
  end.
Proof.
  intros S. split; [unfold kept_layouts; apply sorted_filter, sorted_map, sorted_filter, S | ]. intros i.
  induction m as [ | [k v] m IH]; [reflexivity | ]. apply by_index_cons in S. destruct S as [S1 S2]. specialize (IH S1).
  unfold kept_layouts in *. cbn [filter fst find_layout].
  destruct (Z.eqb_spec k i) as [N | N].
  - subst i. rewrite (find_above k m S2) in IH.
    destruct ((0 <=? k) && (k <? Z.of_nat n)) eqn:R; cbn [map filter fst snd andb].
    + destruct (layout_says (kept_layout v)); cbn [find_layout]; [rewrite Z.eqb_refl; reflexivity | exact IH].
    + exact IH.
  - destruct ((0 <=? k) && (k <? Z.of_nat n)); cbn [map filter fst snd]; [ | exact IH].
    destruct (layout_says (kept_layout v)); cbn [find_layout]; [ | exact IH].
    destruct (Z.eqb_spec k i); [lia | exact IH].
Qed.

Lemma prints_back m l rest : by_index m -> Forall (fun e => every_in_layout storable (snd e)) m ->
  Forall (fun p => no_print (fst p) /\ no_print (snd p)) l ->
  exists xs, writeMeasures m 0 l = Ok xs /\ readLayout (xs :: rest) = kept_layouts (List.length l) m.
Proof.
  intros B S F.
  assert (S' : forall k x, find_layout k m = Some x -> every_in_layout storable x).
  { clear - S. induction S as [ | [k v] m H _ IH]; intros i x E; cbn [find_layout] in E; [discriminate E | ].
    destruct (k =? i); [injection E as <-; exact H | apply (IH i x E)]. }
  destruct (measures_written m l 0 S' F) as (xs & E & L & N). exists xs. split; [exact E | ].
  destruct (read_any xs rest) as [R1 R2]. destruct (kept_layouts_find (List.length l) m B) as [K1 K2].
  apply find_ext; [exact R1 | exact K1 | ]. intros i. rewrite R2, K2. unfold measure_at.
  destruct (Z.ltb_spec i 0).
  { destruct (find_layout i m); [ | reflexivity]. destruct (Z.leb_spec 0 i); [lia | reflexivity]. }
  destruct (Z.leb_spec 0 i); [ | lia]. cbn [andb].
  destruct (nth_error xs (Z.to_nat i)) as [x | ] eqn:X.
  - destruct (N _ _ X) as (before & prints & after & N1 & N2 & N3). rewrite Z.add_0_l, Z2Nat.id in N3 by lia.
    assert (Li : (Z.to_nat i < List.length l)%nat) by (rewrite <- L; apply nth_error_Some; congruence).
    destruct (Z.ltb_spec i (Z.of_nat (List.length l))); [ | lia].
    rewrite Forall_forall in F. apply nth_error_In in N1. destruct (F _ N1) as [F1 F2]. cbn [fst snd] in F1, F2. subst x.
    destruct (find_layout i m) as [y | ] eqn:Y; cbn [measure_prints] in N3.
    + destruct (layout_says y) eqn:U.
      * destruct N3 as (p & -> & P). apply layout_in_one; [apply (S' i y Y) | exact P | exact F1 | exact F2].
      * subst prints. rewrite (kept_layout_nothing y U). cbn [andb]. apply layout_in_none. rewrite app_nil_r. apply Forall_app. split; assumption.
    + subst prints. apply layout_in_none. rewrite app_nil_r. apply Forall_app. split; assumption.
  - apply nth_error_None in X. rewrite L in X. destruct (find_layout i m); [ | reflexivity].
    destruct (Z.ltb_spec i (Z.of_nat (List.length l))); [lia | reflexivity].
Qed.

Lemma plain_layout_kept l : every_in_layout storable l -> plain_layout l -> kept_layout l = rounded_layout l /\ layout_says (kept_layout l) = true.
Proof.
  intros [_ S] (P1 & P2 & P3 & P4).
  assert (E : kept_layout l = rounded_layout l).
  { destruct l as [[b [m di tp st]] [c p n]]. unfold kept_layout, rounded_layout, kept_system, kept_page, rounded_system.
    cbn [ld_system ld_page newSystem systemLayout systemMargins systemDistance topSystemDistance staffDistance newPage pageLayoutData pageNumber] in *. subst st.
    rewrite (plain_page_kept p S P3). destruct n as [n | ]; [ | reflexivity]. cbn [every] in P4. cbn [option_map]. rewrite P4. reflexivity. }
  split; [exact E | ]. rewrite E. clear - P1.
  destruct l as [[[ | | ] [[m | ] [di | ] [tp | ] [st | ]]] [[ | | ] [[z | ] [[a | ] [b | ]]] [n | ]]]; try discriminate P1; reflexivity.
Qed.

Lemma plain_layouts_kept n m : Forall (fun e => 0 <= fst e < Z.of_nat n /\ every_in_layout storable (snd e) /\ plain_layout (snd e)) m ->
  kept_layouts n m = map (fun e => (fst e, rounded_layout (snd e))) m.
Proof.
  induction 1 as [ | [k v] m (R & S & P) _ IH]; [reflexivity | ]. unfold kept_layouts in *. cbn [filter map fst snd] in *.
  destruct (Z.leb_spec 0 k); [ | lia]. destruct (Z.ltb_spec k (Z.of_nat n)); [ | lia]. cbn [andb map filter fst snd].
  destruct (plain_layout_kept v S P) as [E U]. rewrite U, IH, E. reflexivity.
Qed.

(** ** The claims that do not hold *)

Lemma storable_int n : Z.abs n < 2 ^ 63 -> storable (inject_Z n).
Proof.
  intros H. split.
  - exists n, 0. split; [lia | ]. rewrite Qmult_1_r. reflexivity.
  - rewrite <- inject_Z_opp, <- !Zlt_Qlt. lia.
Qed.

Lemma defaults_refuted : ~ (forall d, every_in_defaults storable d ->
  exists h, addDefaultsData d None = Ok h /\ createDefaults h = rounded_defaults d).
Proof.
  intros C.
  set (m := mkMargins (inject_Z 10) (inject_Z 10) (inject_Z 10) (inject_Z 10)).
  set (d := mkDefaults (inject_Z 7) (inject_Z 40) (mkPageLayout None (mkPageMargins (Some m) None)) noSystemLayout []).
  assert (S : every_in_defaults storable d).
  { split; [apply storable_int; lia | ]. split; [apply storable_int; lia | ].
    split; [split; [exact I | ]; split; [ | exact I] | ].
    - split; [apply storable_int; lia | ]. split; [apply storable_int; lia | ]. split; apply storable_int; lia.
    - split; [split; [exact I | split; [exact I | split; exact I]] | constructor]. }
  destruct (C d S) as (h & E & R). destruct (defaults_written d S) as (h' & E' & W).
  assert (h = h') as -> by congruence. rewrite (defaults_read d h' S W) in R.
  apply (f_equal (fun x => size (pageLayout x))) in R. discriminate R.
Qed.

Lemma prints_refuted : ~ (forall m l, by_index m -> Forall (fun e => 0 <= fst e < Z.of_nat (List.length l) /\ every_in_layout storable (snd e) /\ layout_says (snd e) = true) m ->
  Forall (fun p => no_print (fst p) /\ no_print (snd p)) l ->
  exists xs, writeMeasures m 0 l = Ok xs /\ readLayout [xs] = map (fun e => (fst e, rounded_layout (snd e))) m).
Proof.
  intros C.
  set (m := [(0, mkLayout (mkSystem api_Bool_yes (mkSystemLayout None None None (Some (inject_Z 60)))) noPage)]).
  assert (B : by_index m) by (apply by_index_cons; split; constructor).
  assert (S : every_in_layout storable (mkLayout (mkSystem api_Bool_yes (mkSystemLayout None None None (Some (inject_Z 60)))) noPage)).
  { split; [ | split; [exact I | split; exact I]]. split; [exact I | split; [exact I | split; [exact I | ]]]. apply storable_int. lia. }
  assert (F : Forall (fun p : list music_data * list music_data => no_print (fst p) /\ no_print (snd p)) [([], [])]).
  { constructor; [split; constructor | constructor]. }
  destruct (C m [([], [])] B) as (xs & E & R); [ | exact F | ].
  { constructor; [ | constructor]. split; [cbn; lia | split; [exact S | reflexivity]]. }
  destruct (prints_back m [([], [])] [] B) as (xs' & E' & R'); [constructor; [exact S | constructor] | exact F | ].
  assert (xs = xs') as -> by congruence. rewrite R' in R. cbn in R. discriminate R.
Qed.
