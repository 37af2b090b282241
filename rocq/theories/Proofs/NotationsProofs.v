(** Proofs about the notations of a note. *)
From Coq Require Import List Ascii String Bool ZArith QArith Lia.
From Verif Require Import Model.Base Model.Text Model.LongDouble Model.Integers Model.Decimals Model.Ticks Model.EnumLookup
  Model.CoreEnums Model.ApiEnums Model.ConverterTables Model.MarkData Model.CustomEnums
  Model.MeasureWriter Spec.DecimalText Spec.MarkGroups Proofs.Tac Proofs.StringsProofs Proofs.DecimalsRange Proofs.MeasureSync.
From Verif Require Import Model.Notations Spec.Attachments.
Import ListNotations.
Open Scope Z_scope.

(** ** Lists of outcomes *)

Lemma each_ok {A B} (f : A -> outcome B) l r : each f l = Ok r -> Forall2 (fun x y => f x = Ok y) l r.
Proof.
  revert r. induction l as [ | x l IH]; intros r; cbn [each].
  - intros [= <-]. constructor.
  - destruct (f x) eqn:E; cbn [obind]; try discriminate. destruct (each f l); cbn [obind]; try discriminate.
    intros [= <-]. constructor; [exact E | apply IH; reflexivity].
Qed.

Lemma each_defined {A B} (f : A -> outcome B) l : Forall (fun x => exists y, f x = Ok y) l -> exists r, each f l = Ok r.
Proof.
  induction 1 as [ | x l (y & Hy) _ (r & Hr)]; cbn [each]; [eexists; reflexivity | ].
  rewrite Hy, Hr. cbn [obind]. eexists; reflexivity.
Qed.

Lemma obind_ok {A B} (o : outcome A) (f : A -> outcome B) r : obind o f = Ok r -> exists x, o = Ok x /\ f x = Ok r.
Proof. destruct o; cbn [obind]; try discriminate. intros H. exists x. split; [reflexivity | exact H]. Qed.

Ltac inv_ok H :=
  repeat (match type of H with
          | obind _ _ = Ok _ => apply obind_ok in H; let x := fresh "v" in let E := fresh "E" in destruct H as (x & E & H)
          end).

(** ** Positions *)

Lemma decimal_stored t x y : decimal_value t x = Ok y -> y = stored t x.
Proof.
  unfold decimal_value, stored, omap. destruct (Decimals.construct t x); cbn [obind]; try discriminate.
  intros [= <-]. reflexivity.
Qed.

Lemma option_stored t x y : option_value t x = Ok y -> y = option_map (stored t) x.
Proof.
  destruct x as [x | ]; cbn [option_value option_map]; [ | intros [= <-]; reflexivity].
  unfold omap. intros H. inv_ok H. injection H as <-. rewrite (decimal_stored _ _ _ E). reflexivity.
Qed.

Lemma position_back d p x : setAttributesFromPositionData d p = Ok x -> has_halign d = has_valign d ->
  getPositionData x = kept_position (has_halign d) (has_placement d) p.
Proof.
  intros H A. unfold setAttributesFromPositionData in H. inv_ok H. injection H as <-.
  apply option_stored in E, E0, E1, E2. subst.
  destruct d as [ha va pl]. cbn [has_halign has_valign has_placement] in *. subst va.
  unfold getPositionData, kept_position.
  cbn [x_defaultX x_defaultY x_relativeX x_relativeY x_halign x_valign x_placement].
  f_equal; [destruct ha, (horizontalAlignment p) | destruct ha, (verticalAlignment p) | destruct pl, (placement p)]; reflexivity.
Qed.

(** ** Curves *)

Lemma number_back n : match number_attribute n with Some v => v | None => -1 end = kept_number n.
Proof.
  unfold number_attribute, kept_number. destruct (Z.ltb_spec 0 n); destruct (Z.leb_spec n 0); try lia.
  unfold Integers.construct, mk_int_range, Integers.clamp. cbn [ctor_bounds fst snd ir_value].
  destruct (Z.ltb_spec n 1), (Z.ltb_spec 6 n); lia.
Qed.

(** ** What is written, in closed form *)

Definition free (t : decimal_type) : Prop := upper_end t = None /\ lower_end t = None.

Lemma construct_ok t x : free t -> storable x -> exists p, Decimals.construct t x = Ok p.
Proof.
  intros (U & L) (F & S1 & S2).
  destruct (set_defined t (mkPrecise false 0 0 19 6) x) as [D1 D2]; [apply holding_wf with (neg := false) (K := 0); lia | exact F | ].
  change (Decimals.construct t x) with (Decimals.setValue t (mkPrecise false 0 0 19 6) x).
  destruct (Decimals.setValue t (mkPrecise false 0 0 19 6) x) as [p | | ] eqn:E.
  - exists p. reflexivity.
  - congruence.
  - exfalso. destruct (proj1 D1 eq_refl) as [[_ H] | [_ H]].
    + apply (Qlt_not_le _ _ S2 H).
    + apply (Qlt_not_le _ _ S1 H).
Qed.

Lemma decimal_ok t x : free t -> storable x -> decimal_value t x = Ok (stored t x).
Proof.
  intros F S. destruct (construct_ok t x F S) as [p E]. unfold decimal_value, stored. rewrite E. reflexivity.
Qed.

Lemma option_ok t x : free t -> every storable x -> option_value t x = Ok (option_map (stored t) x).
Proof.
  intros F S. destruct x as [x | ]; [ | reflexivity]. cbn [option_value option_map every] in *. rewrite (decimal_ok t x F S). reflexivity.
Qed.

Lemma tenths_free : free TenthsValue. Proof. split; reflexivity. Qed.
Lemma divisions_free : free DivisionsValue. Proof. split; reflexivity. Qed.

Lemma position_ok_back d p : position_ok storable p -> has_halign d = has_valign d ->
  exists x, setAttributesFromPositionData d p = Ok x /\ getPositionData x = kept_position (has_halign d) (has_placement d) p.
Proof.
  intros (H1 & H2 & H3 & H4) A.
  assert (E : exists x, setAttributesFromPositionData d p = Ok x).
  { unfold setAttributesFromPositionData.
    rewrite (option_ok _ _ tenths_free H1), (option_ok _ _ tenths_free H2), (option_ok _ _ tenths_free H3), (option_ok _ _ tenths_free H4).
    eexists. reflexivity. }
  destruct E as [x E]. exists x. split; [exact E | ]. apply position_back; assumption.
Qed.

Lemma offset_back o : every (fun z => - 2 ^ 31 <= z < 2 ^ 31) o ->
  exists q, offset_attribute o = Ok q /\ offset_read q = Ok o.
Proof.
  destruct o as [z | ]; cbn [every]; intros H; [ | exists None; split; reflexivity].
  destruct (offset_value z) as (q & Q1 & Q2); [lia | ].
  exists (Some q). unfold offset_attribute. cbn [option_map option_value]. unfold decimal_value.
  unfold element_value in Q1. rewrite Q1. split; [reflexivity | ].
  cbn [offset_read]. rewrite Q2. unfold as_int, Text.in_int, int_min, int_max.
  destruct (Z.leb_spec (-2147483648) z); destruct (Z.leb_spec z 2147483647); try lia. reflexivity.
Qed.

(** ** Curves, written and read *)

Definition addStart (c : CurveStart) (a : NoteAttachmentData) : NoteAttachmentData :=
  mkAttachments (marks a) (curveStarts a ++ [c]) (curveContinuations a) (curveStops a) (tupletStarts a) (tupletStops a).
Definition addContinue (c : CurveContinue) (a : NoteAttachmentData) : NoteAttachmentData :=
  mkAttachments (marks a) (curveStarts a) (curveContinuations a ++ [c]) (curveStops a) (tupletStarts a) (tupletStops a).
Definition addStop (c : CurveStop) (a : NoteAttachmentData) : NoteAttachmentData :=
  mkAttachments (marks a) (curveStarts a) (curveContinuations a) (curveStops a ++ [c]) (tupletStarts a) (tupletStops a).

Lemma default_back b a : parseCurve (default_curve b) a =
  Ok (addStart (if b then mkCurveStart Curve_slur (-1) no_points Orientation_unspecified api_Placement_unspecified
    (mkLine api_LineType_unspecified api_LineHook_unspecified None None None) None else plain_tie_start) a).
Proof. destruct b; reflexivity. Qed.

Local Opaque Decimals.construct stored.

Lemma start_back c : points_ok storable (cs_points c) -> every storable (dashLength (cs_line c)) -> every storable (spaceLength (cs_line c)) ->
  exists x, write_curve cs_type writeAttributesFromCurveStart c = Ok x /\ forall a, parseCurve x a = Ok (addStart (kept_start c) a).
Proof.
  intros (P & X & Y & O) D S. unfold write_curve, kept_start.
  destruct (cs_type c) eqn:T; [exists (default_curve false); split; [reflexivity | intros a; apply default_back] | | ].
  all: unfold writeAttributesFromCurveStart.
  all: destruct (position_ok_back placement_declares _ P eq_refl) as (p & P1 & P2); rewrite P1; cbn [obind].
  all: rewrite (option_ok _ _ tenths_free D), (option_ok _ _ tenths_free S); cbn [obind].
  all: destruct (offset_back _ O) as (q & Q1 & Q2); rewrite Q1; cbn [obind].
  all: rewrite (option_ok _ _ tenths_free X), (option_ok _ _ tenths_free Y); cbn [obind].
  all: eexists; split; [reflexivity | ]; intros a.
  all: unfold parseCurve, parseCurveStart, parseCurvePoints, curve_number, curve_type, addStart.
  all: cbn [xc_kind xc_bezierOffset xc_bezierX xc_bezierY xc_position xc_slur xc_number xc_lineType xc_dashLength xc_spaceLength xc_orientation xc_color].
  all: rewrite Q2, P2, number_back; cbn [obind has_halign has_placement placement_declares].
  all: do 2 f_equal; f_equal; f_equal; unfold kept_points; destruct (cs_orientation c); destruct (lineType (cs_line c)); reflexivity.
Qed.

Lemma continue_back c : points_ok storable (cc_points c) -> every storable (bezierX2 c) -> every storable (bezierY2 c) ->
  every storable (bezierOffset2 c) ->
  exists x, write_curve cc_type writeAttributesFromCurveContinue c = Ok x /\
    forall a, parseCurve x a = Ok (if typed (cc_type c) then addContinue (kept_continue c) a else addStart plain_tie_start a).
Proof.
  intros (P & X & Y & O) X2 Y2 O2. unfold write_curve, kept_continue.
  destruct (cc_type c) eqn:T; cbn [typed]; [exists (default_curve false); split; [reflexivity | intros a; apply default_back] | | ].
  all: unfold writeAttributesFromCurveContinue.
  all: destruct (position_ok_back placement_declares _ P eq_refl) as (p & P1 & P2); rewrite P1; cbn [obind].
  all: destruct (offset_back _ O) as (q & Q1 & Q2); rewrite Q1; cbn [obind].
  all: rewrite (option_ok _ _ tenths_free X), (option_ok _ _ tenths_free Y), (option_ok _ _ tenths_free X2), (option_ok _ _ tenths_free Y2),
    (option_ok _ _ divisions_free O2); cbn [obind].
  all: eexists; split; [reflexivity | ]; intros a.
  all: unfold parseCurve, parseCurveContinue, parseCurvePoints, curve_number, curve_type, addContinue.
  all: cbn [xc_kind xc_bezierOffset xc_bezierX xc_bezierY xc_position xc_slur xc_number xc_bezierX2 xc_bezierY2 xc_bezierOffset2].
  all: rewrite Q2, P2, number_back; reflexivity.
Qed.

Lemma stop_back c : points_ok storable (cp_points c) ->
  exists x, write_curve cp_type writeAttributesFromCurveStop c = Ok x /\
    forall a, parseCurve x a = Ok (if typed (cp_type c) then addStop (kept_stop c) a else addStart plain_tie_start a).
Proof.
  intros (P & X & Y & O). unfold write_curve, kept_stop.
  destruct (cp_type c) eqn:T; cbn [typed]; [exists (default_curve false); split; [reflexivity | intros a; apply default_back] | | ].
  all: unfold writeAttributesFromCurveStop.
  all: destruct (position_ok_back placement_declares _ P eq_refl) as (p & P1 & P2); rewrite P1; cbn [obind].
  all: destruct (offset_back _ O) as (q & Q1 & Q2); rewrite Q1; cbn [obind].
  all: rewrite (option_ok _ _ tenths_free X), (option_ok _ _ tenths_free Y); cbn [obind].
  all: eexists; split; [reflexivity | ]; intros a.
  all: unfold parseCurve, parseCurveStop, parseCurvePoints, curve_number, curve_type, addStop.
  all: cbn [xc_kind xc_bezierOffset xc_bezierX xc_bezierY xc_position xc_slur xc_number].
  all: rewrite Q2, P2, number_back; reflexivity.
Qed.

(** ** Tuplets *)

Lemma nonnegative_back n : - 2 ^ 31 <= n < 2 ^ 31 -> ir_value (Integers.construct NonNegativeInteger n) = Z.max 0 n.
Proof.
  intros H. unfold Integers.construct, mk_int_range, Integers.clamp. cbn [ctor_bounds fst snd ir_value].
  unfold int_max. destruct (Z.ltb_spec n 0); [ | destruct (Z.ltb_spec 2147483647 n)]; lia.
Qed.

Lemma dots_back n : match Z.to_nat n with O => -1 | d => Z.of_nat d end = kept_dots n.
Proof.
  unfold kept_dots. destruct (Z.leb_spec n 0).
  - replace (Z.to_nat n) with 0%nat by lia. reflexivity.
  - destruct (Z.to_nat n) eqn:E; lia.
Qed.

Lemma tupletStart_back ctx t : - 2 ^ 31 <= actualNumber t < 2 ^ 31 -> - 2 ^ 31 <= normalNumber t < 2 ^ 31 ->
  parseTuplet ctx (write_tupletStart t) = inl (kept_tupletStart t).
Proof.
  intros A N. unfold parseTuplet, write_tupletStart, kept_tupletStart.
  cbn [xt_stop xt_number xt_position xt_show xt_bracket xt_actual xt_normal].
  rewrite number_back. unfold portion_number, portion_type, portion_dots. cbn [xp_number xp_type xp_dots].
  rewrite (nonnegative_back _ A), (nonnegative_back _ N), !dots_back.
  f_equal. f_equal.
  - destruct (actualDurationName t); reflexivity.
  - destruct (normalDurationName t); reflexivity.
  - destruct (showActualNumber t), (showNormalNumber t); reflexivity.
  - destruct (showActualNumber t), (showNormalNumber t); reflexivity.
  - destruct (bracket t); reflexivity.
Qed.

Lemma tupletStop_back ctx t : parseTuplet ctx (write_tupletStop t) = inr (kept_tupletStop t).
Proof.
  unfold parseTuplet, write_tupletStop, kept_tupletStop. cbn [xt_stop xt_number xt_position]. rewrite number_back. reflexivity.
Qed.

(** ** Marks *)

Lemma technicals_back tick m : position_ok storable (m_position m) ->
  exists l, technicals_of m = Ok l /\
    flat_map (parseTechnical tick) l = if of_family (fun f => match f with Technical => true | _ => false end) m then [kept_mark tick m] else [].
Proof.
  intros P. destruct (position_ok_back placement_declares _ P eq_refl) as (x & X1 & X2).
  assert (X0 : getPositionData noXPosition = noPosition) by reflexivity.
  destruct m as [t name tk pr pos]. cbn [m_type m_position m_name] in *.
  unfold technicals_of, addTechnical, position_of, of_family, kept_mark. cbn [m_type m_position m_name].
  rewrite X1. cbn [obind]. change (kept_position (has_halign placement_declares) (has_placement placement_declares) pos) with (kept_position false true pos) in X2.
  rewrite <- X2. clear X1 X2 P.
  destruct t; (eexists; split; [cbv -[getPositionData] ; reflexivity | cbv -[getPositionData kept_position]; try reflexivity]).
Qed.

Lemma ornaments_back tick m : position_ok storable (m_position m) ->
  exists l, ornaments_of m = Ok l /\
    parseOrnaments tick l [] = if of_family (fun f => match f with Ornament => true | _ => false end) m then [kept_mark tick m] else [].
Proof.
  intros P. destruct (position_ok_back placement_declares _ P eq_refl) as (x & X1 & X2).
  destruct m as [t name tk pr pos]. cbn [m_type m_position m_name] in *.
  unfold ornaments_of, addOrnament, position_of, of_family, kept_mark. cbn [m_type m_position m_name].
  rewrite X1. cbn [obind]. change (kept_position (has_halign placement_declares) (has_placement placement_declares) pos) with (kept_position false true pos) in X2.
  rewrite <- X2. clear X1 X2 P.
  destruct t; (eexists; split; [cbv -[getPositionData] ; reflexivity | destruct name; cbv -[getPositionData kept_position]; try reflexivity]).
Qed.

Lemma articulations_back tick m : position_ok storable (m_position m) ->
  exists l, articulations_of m = Ok l /\
    map (parseArticulation tick) l = if of_family (fun f => match f with Articulation => true | _ => false end) m then [kept_mark tick m] else [].
Proof.
  intros P. destruct (position_ok_back placement_declares _ P eq_refl) as (x & X1 & X2).
  destruct m as [t name tk pr pos]. cbn [m_type m_position m_name] in *.
  unfold articulations_of, addArticulation, position_of, of_family, kept_mark. cbn [m_type m_position m_name].
  rewrite X1. cbn [obind]. change (kept_position (has_halign placement_declares) (has_placement placement_declares) pos) with (kept_position false true pos) in X2.
  rewrite <- X2. clear X1 X2 P.
  destruct t; (eexists; split; [cbv -[getPositionData] ; reflexivity | ]);
    try (cbv -[getPositionData kept_position]; reflexivity).
  cbn [map]. unfold parseArticulation. cbn [xm_choice articulation_name xm_value xm_print xm_position].
  unfold getMarkTypeFromCustomString. destruct (str_eqb name markStringCustomAccentTenuto) eqn:E; cbv -[getPositionData kept_position str_eqb markStringCustomAccentTenuto]; reflexivity.
Qed.

Lemma find_filter {A} (p q : A -> bool) l : find (fun x => p x && q x) l = find q (filter p l).
Proof.
  induction l as [ | x l IH]; [reflexivity | ]. cbn [find filter]. destruct (p x); cbn [andb find]; [ | exact IH].
  destruct (q x); [reflexivity | exact IH].
Qed.

Lemma str_eqb_comm a b : str_eqb a b = str_eqb b a.
Proof.
  destruct (str_eqb a b) eqn:E, (str_eqb b a) eqn:F; try reflexivity.
  - apply str_eqb_eq in E. symmetry in E. apply str_eqb_eq in E. congruence.
  - apply str_eqb_eq in F. symmetry in F. apply str_eqb_eq in F. congruence.
Qed.

Definition plain_dynamics : list api_MarkType :=
  Eval vm_compute in filter (fun m => dynamics_section m && negb (api_MarkType_value m =? api_MarkType_value api_MarkType_otherDynamics)) api_MarkType_members.

Lemma dynamic_called_find name : dynamic_called name = find (fun m => str_eqb (api_MarkType_name m) name) plain_dynamics.
Proof.
  unfold dynamic_called. rewrite find_filter. f_equal.
Qed.

Lemma written_dynamic name : tryParse_DynamicsEnum name =
  if str_eqb name (lit "other-dynamics") then Some DynamicsEnum_otherDynamics else option_map dynamicsMap_toCore (dynamic_called name).
Proof.
  destruct (str_eqb name (lit "other-dynamics")) eqn:E; [apply str_eqb_eq in E; subst; reflexivity | ].
  rewrite dynamic_called_find. unfold tryParse_DynamicsEnum, DynamicsEnum_chain, plain_dynamics.
  cbn [lookup_text find]. rewrite E.
  repeat match goal with |- (if str_eqb name ?t then _ else _) = option_map _ (if str_eqb ?u name then _ else _) =>
    change u with t; rewrite (str_eqb_comm t name); destruct (str_eqb name t); [reflexivity | ] end.
  reflexivity.
Qed.

Lemma own_back tick ctx m : position_ok storable (m_position m) ->
  exists l, own_notation m = Ok l /\
    forall a, parse_choices tick ctx l a =
      Ok (addMarks (if of_family (fun f => match f with Dynamic | Fermata => true | _ => false end) m then [kept_mark tick m] else []) a).
Proof.
  intros P. destruct (position_ok_back dynamics_declares _ P eq_refl) as (x & X1 & X2).
  destruct (position_ok_back fermata_declares _ P eq_refl) as (y & Y1 & _).
  assert (N : forall a, a = addMarks [] a) by (intros [? ? ? ? ? ?]; unfold addMarks; cbn; rewrite app_nil_r; reflexivity).
  destruct m as [t name tk pr pos]. cbn [m_type m_position m_name] in *.
  unfold own_notation, getDynamics, write_fermata, of_family, kept_mark. cbn [m_type m_position m_name m_print].
  rewrite X1, Y1. cbn [obind]. change (kept_position (has_halign dynamics_declares) (has_placement dynamics_declares) pos) with (kept_position true true pos) in X2.
  rewrite <- X2. clear X1 X2 Y1 P.
  destruct t.
  all: eexists; (split; [cbv -[getPositionData str_eqb setValue_text tryParse_DynamicsEnum] ; reflexivity | ]); intros a.
  all: try (cbn [parse_choices]; f_equal; apply (N a)).
  all: try (cbv -[getPositionData kept_position addMarks]; reflexivity).
  destruct name as [ | n name]; [cbv -[getPositionData kept_position addMarks]; reflexivity | ].
  remember (n :: name) as nm eqn:Enm.
  assert (E : str_eqb nm [] = false) by (subst nm; reflexivity). rewrite E. cbn [negb].
  unfold setValue_text. rewrite written_dynamic.
  destruct (str_eqb nm (lit "other-dynamics")) eqn:O.
  - apply str_eqb_eq in O. rewrite O. cbv -[getPositionData kept_position addMarks]. reflexivity.
  - change (written_as api_MarkType_otherDynamics) with Dynamic. cbv beta iota.
    destruct (dynamic_called nm) as [t | ] eqn:D; cbn [option_map].
    + rewrite dynamic_called_find in D. apply find_some in D. destruct D as [D1 D2]. apply str_eqb_eq in D2. rewrite <- D2.
      clear - D1. unfold plain_dynamics in D1. cbn [In] in D1.
      repeat (destruct D1 as [<- | D1]; [cbv -[getPositionData kept_position addMarks]; reflexivity | ]). destruct D1.
    + cbn. rewrite Enm. reflexivity.
Qed.

(** ** All of them *)

Lemma choices_app tick ctx l1 l2 a : parse_choices tick ctx (l1 ++ l2) a = obind (parse_choices tick ctx l1 a) (parse_choices tick ctx l2).
Proof.
  revert a. induction l1 as [ | x l IH]; intros a; [reflexivity | ]. cbn [app parse_choices].
  destruct (parseNotation tick ctx x a); cbn [obind]; auto.
Qed.

Lemma each_choices {A B} tick ctx (w : A -> outcome B) (g : B -> list notation) (act : A -> NoteAttachmentData -> NoteAttachmentData) l :
  Forall (fun x => exists y, w x = Ok y /\ forall a, parse_choices tick ctx (g y) a = Ok (act x a)) l ->
  exists ys, each w l = Ok ys /\ forall a, parse_choices tick ctx (flat_map g ys) a = Ok (fold_left (fun a x => act x a) l a).
Proof.
  induction 1 as [ | x l (y & Y1 & Y2) _ (ys & E1 & E2)]; [exists []; split; reflexivity | ].
  exists (y :: ys). cbn [each]. rewrite Y1, E1. split; [reflexivity | ]. intros a. cbn [flat_map fold_left].
  rewrite choices_app, Y2. cbn [obind]. apply E2.
Qed.

Lemma each_marks {B} (w : MarkData -> outcome (list B)) (r : list B -> list MarkData) (f : MarkData -> bool) (k : MarkData -> MarkData) l :
  r [] = [] -> (forall a b, r (a ++ b) = r a ++ r b) ->
  Forall (fun m => exists y, w m = Ok y /\ r y = if f m then [k m] else []) l ->
  exists ys, each w l = Ok ys /\ r (List.concat ys) = map k (filter f l).
Proof.
  intros R0 RA. induction 1 as [ | x l (y & Y1 & Y2) _ (ys & E1 & E2)]; [exists []; split; [reflexivity | exact R0] | ].
  exists (y :: ys). cbn [each]. rewrite Y1, E1. split; [reflexivity | ]. cbn [List.concat filter].
  rewrite RA, Y2, E2. destruct (f x); reflexivity.
Qed.

Lemma flat_singles {A B} (f : A -> B) l : flat_map (fun x => [f x]) l = map f l.
Proof. induction l as [ | x l IH]; [reflexivity | ]. cbn [flat_map map app]. rewrite IH. reflexivity. Qed.

Lemma flat_concat {A} (l : list (list A)) : flat_map (fun x => x) l = List.concat l.
Proof. induction l as [ | x l IH]; [reflexivity | ]. cbn [flat_map List.concat]. rewrite IH. reflexivity. Qed.

Lemma fold_stops l a :
  fold_left (fun a c => if typed (cp_type c) then addStop (kept_stop c) a else addStart plain_tie_start a) l a =
  mkAttachments (marks a) (curveStarts a ++ strays cp_type l) (curveContinuations a) (curveStops a ++ kept_stops l) (tupletStarts a) (tupletStops a).
Proof.
  revert a. induction l as [ | c l IH]; intros a; cbn [fold_left].
  - destruct a. unfold strays, kept_stops. cbn. rewrite !app_nil_r. reflexivity.
  - rewrite IH. unfold strays, kept_stops. cbn [filter]. destruct (typed (cp_type c)); cbn [negb map];
      unfold addStop, addStart; cbn [marks curveStarts curveContinuations curveStops tupletStarts tupletStops];
      rewrite <- ?app_assoc; reflexivity.
Qed.

Lemma fold_continues l a :
  fold_left (fun a c => if typed (cc_type c) then addContinue (kept_continue c) a else addStart plain_tie_start a) l a =
  mkAttachments (marks a) (curveStarts a ++ strays cc_type l) (curveContinuations a ++ kept_continues l) (curveStops a) (tupletStarts a) (tupletStops a).
Proof.
  revert a. induction l as [ | c l IH]; intros a; cbn [fold_left].
  - destruct a. unfold strays, kept_continues. cbn. rewrite !app_nil_r. reflexivity.
  - rewrite IH. unfold strays, kept_continues. cbn [filter]. destruct (typed (cc_type c)); cbn [negb map];
      unfold addContinue, addStart; cbn [marks curveStarts curveContinuations curveStops tupletStarts tupletStops];
      rewrite <- ?app_assoc; reflexivity.
Qed.

Lemma fold_starts l a :
  fold_left (fun a c => addStart (kept_start c) a) l a =
  mkAttachments (marks a) (curveStarts a ++ map kept_start l) (curveContinuations a) (curveStops a) (tupletStarts a) (tupletStops a).
Proof.
  revert a. induction l as [ | c l IH]; intros a; cbn [fold_left].
  - destruct a. cbn. rewrite !app_nil_r. reflexivity.
  - rewrite IH. unfold addStart. cbn [marks curveStarts curveContinuations curveStops tupletStarts tupletStops map]. rewrite <- app_assoc. reflexivity.
Qed.

Lemma fold_own tick (f : MarkData -> bool) l a :
  fold_left (fun a m => addMarks (if f m then [kept_mark tick m] else []) a) l a = addMarks (map (kept_mark tick) (filter f l)) a.
Proof.
  revert a. induction l as [ | c l IH]; intros a; cbn [fold_left].
  - destruct a. unfold addMarks. cbn. rewrite app_nil_r. reflexivity.
  - rewrite IH. unfold addMarks. cbn [filter marks curveStarts curveContinuations curveStops tupletStarts tupletStops].
    rewrite <- app_assoc. destruct (f c); reflexivity.
Qed.

Lemma choices_tupletStops tick ctx l a :
  parse_choices tick ctx (map (fun t => XTuplet (write_tupletStop t)) l) a =
  Ok (mkAttachments (marks a) (curveStarts a) (curveContinuations a) (curveStops a) (tupletStarts a) (tupletStops a ++ map kept_tupletStop l)).
Proof.
  revert a. induction l as [ | t l IH]; intros a; cbn [map parse_choices].
  - destruct a. cbn. rewrite app_nil_r. reflexivity.
  - unfold parseNotation. rewrite tupletStop_back. cbn [obind]. rewrite IH.
    cbn [marks curveStarts curveContinuations curveStops tupletStarts tupletStops]. rewrite <- app_assoc. reflexivity.
Qed.

Lemma choices_tupletStarts tick ctx l a :
  Forall (fun t => - 2 ^ 31 <= actualNumber t < 2 ^ 31 /\ - 2 ^ 31 <= normalNumber t < 2 ^ 31) l ->
  parse_choices tick ctx (map (fun t => XTuplet (write_tupletStart t)) l) a =
  Ok (mkAttachments (marks a) (curveStarts a) (curveContinuations a) (curveStops a) (tupletStarts a ++ map kept_tupletStart l) (tupletStops a)).
Proof.
  intros H. revert a. induction H as [ | t l [A N] _ IH]; intros a; cbn [map parse_choices].
  - destruct a. cbn. rewrite app_nil_r. reflexivity.
  - unfold parseNotation. rewrite (tupletStart_back ctx t A N). cbn [obind]. rewrite IH.
    cbn [marks curveStarts curveContinuations curveStops tupletStarts tupletStops]. rewrite <- app_assoc. reflexivity.
Qed.

Lemma addMarks_nil a : addMarks [] a = a.
Proof. destruct a. unfold addMarks. cbn. rewrite app_nil_r. reflexivity. Qed.

Lemma choices_articulations tick ctx l a :
  parse_choices tick ctx (match l with [] => [] | x :: r => [XArticulations (x :: r)] end) a = Ok (addMarks (map (parseArticulation tick) l) a).
Proof. destruct l; [cbn [map parse_choices]; rewrite addMarks_nil; reflexivity | reflexivity]. Qed.

Lemma choices_ornaments tick ctx l a :
  parse_choices tick ctx (match l with [] => [] | x :: r => [XOrnaments (x :: r) []] end) a = Ok (addMarks (parseOrnaments tick l []) a).
Proof. destruct l; [cbn; rewrite addMarks_nil; reflexivity | reflexivity]. Qed.

Lemma choices_technical tick ctx l a :
  parse_choices tick ctx (match l with [] => [] | x :: r => [XTechnical (x :: r)] end) a = Ok (addMarks (flat_map (parseTechnical tick) l) a).
Proof. destruct l; [cbn [flat_map parse_choices]; rewrite addMarks_nil; reflexivity | reflexivity]. Qed.

Lemma notations_back tick ctx a0 a : attachments_ok storable a ->
  exists n, getNotations a = Ok n /\
    parse_choices tick ctx n a0 = Ok (mkAttachments (marks a0 ++ kept_marks tick (marks a)) (curveStarts a0 ++ kept_starts a)
      (curveContinuations a0 ++ kept_continues (curveContinuations a)) (curveStops a0 ++ kept_stops (curveStops a))
      (tupletStarts a0 ++ map kept_tupletStart (tupletStarts a)) (tupletStops a0 ++ map kept_tupletStop (tupletStops a))).
Proof.
  intros (M & S & C & P & T).
  destruct (each_choices tick ctx (write_curve cp_type writeAttributesFromCurveStop) (fun x => [XCurve x])
    (fun c a => if typed (cp_type c) then addStop (kept_stop c) a else addStart plain_tie_start a) (curveStops a)) as (s1 & A1 & B1).
  { eapply Forall_impl; [ | exact P]. intros c Hc. destruct (stop_back c Hc) as (x & X1 & X2). exists x. split; [exact X1 | ].
    intros b. cbn [parse_choices parseNotation]. rewrite X2. reflexivity. }
  destruct (each_choices tick ctx (write_curve cc_type writeAttributesFromCurveContinue) (fun x => [XCurve x])
    (fun c a => if typed (cc_type c) then addContinue (kept_continue c) a else addStart plain_tie_start a) (curveContinuations a)) as (s2 & A2 & B2).
  { eapply Forall_impl; [ | exact C]. intros c (H1 & H2 & H3 & H4). destruct (continue_back c H1 H2 H3 H4) as (x & X1 & X2). exists x. split; [exact X1 | ].
    intros b. cbn [parse_choices parseNotation]. rewrite X2. reflexivity. }
  destruct (each_choices tick ctx (write_curve cs_type writeAttributesFromCurveStart) (fun x => [XCurve x])
    (fun c a => addStart (kept_start c) a) (curveStarts a)) as (s3 & A3 & B3).
  { eapply Forall_impl; [ | exact S]. intros c (H1 & H2 & H3). destruct (start_back c H1 H2 H3) as (x & X1 & X2). exists x. split; [exact X1 | ].
    intros b. cbn [parse_choices parseNotation]. rewrite X2. reflexivity. }
  destruct (each_choices tick ctx own_notation (fun x => x)
    (fun m a => addMarks (if of_family (fun f => match f with Dynamic | Fermata => true | _ => false end) m then [kept_mark tick m] else []) a) (marks a)) as (s4 & A4 & B4).
  { eapply Forall_impl; [ | exact M]. intros m Hm. apply own_back, Hm. }
  destruct (each_marks articulations_of (map (parseArticulation tick)) (of_family (fun f => match f with Articulation => true | _ => false end))
    (kept_mark tick) (marks a)) as (s5 & A5 & B5); [reflexivity | intros; apply map_app | | ].
  { eapply Forall_impl; [ | exact M]. intros m Hm. apply articulations_back, Hm. }
  destruct (each_marks ornaments_of (fun l => parseOrnaments tick l []) (of_family (fun f => match f with Ornament => true | _ => false end))
    (kept_mark tick) (marks a)) as (s6 & A6 & B6); [reflexivity | | | ].
  { intros x y. unfold parseOrnaments. cbn [map]. rewrite !app_nil_r, map_app, filter_app. reflexivity. }
  { eapply Forall_impl; [ | exact M]. intros m Hm. apply ornaments_back, Hm. }
  destruct (each_marks technicals_of (flat_map (parseTechnical tick)) (of_family (fun f => match f with Technical => true | _ => false end))
    (kept_mark tick) (marks a)) as (s7 & A7 & B7); [reflexivity | intros; apply flat_map_app | | ].
  { eapply Forall_impl; [ | exact M]. intros m Hm. apply technicals_back, Hm. }
  unfold getNotations. rewrite A1, A2, A3, A4, A5, A6, A7. cbn [obind]. eexists. split; [reflexivity | ].
  rewrite !flat_singles in B1, B2, B3. rewrite flat_concat in B4.
  destruct a0 as [am as_ ac ap at_ au].
  rewrite choices_app, B1. cbn [obind]. rewrite fold_stops. cbn [marks curveStarts curveContinuations curveStops tupletStarts tupletStops].
  rewrite choices_app, B2. cbn [obind]. rewrite fold_continues. cbn [marks curveStarts curveContinuations curveStops tupletStarts tupletStops].
  rewrite choices_app, B3. cbn [obind]. rewrite fold_starts. cbn [marks curveStarts curveContinuations curveStops tupletStarts tupletStops].
  rewrite choices_app, choices_tupletStops. cbn [obind marks curveStarts curveContinuations curveStops tupletStarts tupletStops].
  rewrite choices_app, (choices_tupletStarts tick ctx _ _ T). cbn [obind marks curveStarts curveContinuations curveStops tupletStarts tupletStops].
  rewrite choices_app, B4. cbn [obind]. rewrite fold_own. unfold addMarks at 1. cbn [marks curveStarts curveContinuations curveStops tupletStarts tupletStops].
  rewrite choices_app, choices_articulations. cbn [obind]. rewrite B5. unfold addMarks at 1. cbn [marks curveStarts curveContinuations curveStops tupletStarts tupletStops].
  rewrite choices_app, choices_ornaments. cbn [obind]. rewrite B6. unfold addMarks at 1. cbn [marks curveStarts curveContinuations curveStops tupletStarts tupletStops].
  rewrite choices_technical, B7. unfold addMarks at 1. cbn [marks curveStarts curveContinuations curveStops tupletStarts tupletStops].
  unfold kept_marks, kept_starts. rewrite !map_app, <- !app_assoc. reflexivity.
Qed.

Lemma attachments_back tick ctx ties isTieStop isTieStart a : attachments_ok storable a ->
  exists s, write_notations_set ties isTieStop isTieStart a = Ok s /\
    parseNotations tick ctx s = Ok (with_ties (ties && isTieStop) (ties && isTieStart) (kept_attachments tick a)).
Proof.
  intros H. unfold write_notations_set.
  destruct (notations_back tick ctx (with_ties (ties && isTieStop) (ties && isTieStart) noAttachments) a H) as (n & N1 & N2).
  rewrite N1. cbn [obind]. eexists. split; [reflexivity | ].
  unfold parseNotations. rewrite concat_app, choices_app.
  assert (E : forall l : list notation, List.concat (match l with [] => [] | _ :: _ => [l] end) = l).
  { intros [ | x l]; [reflexivity | ]. cbn [List.concat]. apply app_nil_r. }
  rewrite E.
  match goal with |- obind ?o _ = _ =>
    assert (T : o = Ok (with_ties (ties && isTieStop) (ties && isTieStart) noAttachments)) by (destruct (ties && isTieStop), (ties && isTieStart); reflexivity);
    rewrite T; clear T end.
  cbn [obind]. rewrite N2. unfold with_ties, kept_attachments, noAttachments.
  cbn [marks curveStarts curveContinuations curveStops tupletStarts tupletStops]. rewrite !app_nil_r. reflexivity.
Qed.
