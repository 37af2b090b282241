(** Proofs about reading <direction>. *)
From Coq Require Import List Ascii Bool String ZArith QArith Lia Lqa.
From Verif Require Import Model.Base Model.Text Model.Strings Model.LongDouble Model.Integers Model.Decimals Model.Ticks
  Model.EnumLookup Model.CoreEnums Model.ApiEnums Model.ConverterTables Model.MarkData Model.CustomEnums Model.Color
  Model.NumberOrWord Model.Notations Model.ChordSymbols Model.Directions Spec.Numerals Spec.MarkGroups Spec.Attachments Spec.NoteReading
  Spec.Rounding Spec.DirectionText Proofs.StringsProofs Proofs.TicksProofs Proofs.NotationsProofs Proofs.MarksProofs.
From Verif Require Model.MeasureReader.
Import ListNotations.
Local Open Scope Z_scope.

(** ** Values *)

Lemma as_int_in n : is_int n -> as_int n = Ok n.
Proof.
  intros [A B]. unfold as_int, in_int. replace (int_min <=? n) with true by (symmetry; apply Z.leb_le; unfold int_min; lia).
  replace (n <=? int_max) with true by (symmetry; apply Z.leb_le; unfold int_max; lia). reflexivity.
Qed.

Lemma as_int_out n m : as_int n = Ok m -> n = m /\ is_int n.
Proof.
  unfold as_int, in_int, is_int, int_min, int_max. destruct ((-2147483648 <=? n) && (n <=? 2147483647))%bool eqn:E; [ | intros X; discriminate X].
  apply andb_true_iff in E as [A B]. apply Z.leb_le in A, B. intros X. injection X as <-. split; [reflexivity | lia].
Qed.

Lemma placed_api o : match o with Some p => placementMap_toApi p | None => api_Placement_unspecified end = placed o.
Proof. destruct o as [[ | ] | ]; reflexivity. Qed.
Lemma placed_pedal o : pedal_placement o = placed o.
Proof. destruct o as [[ | ] | ]; reflexivity. Qed.

Lemma shown_position x : getPositionData x = position_shown x.
Proof. destruct x as [a b c d h v p]. unfold getPositionData, position_shown. cbn -[placed]. destruct h as [[ | | ] | ], v as [[ | | | ] | ], p as [[ | ] | ]; reflexivity. Qed.

Lemma shown_font x e : getFontData x e = font_shown x e.
Proof.
  destruct x as [f s z w]. unfold getFontData, font_shown, number_shown. cbn.
  destruct z as [[p | v] | ], s as [[ | ] | ], w as [[ | ] | ]; reflexivity.
Qed.

Lemma shown_line t a b : getLineData t a b = line_shown t a b.
Proof. destruct t as [[ | | | ] | ]; reflexivity. Qed.

Lemma shown_color c : getColor c = color_shown c.
Proof. destruct c as [c | ]; [ | reflexivity]. unfold getColor, color_shown. destruct (myColorType c); reflexivity. Qed.

Lemma shown_dynamic tick t x : (let m := parseDynamics tick x in mkMark (m_type m) (m_name m) t (m_print m) (m_position m)) = dynamic_shown t x.
Proof.
  destruct x as [[v c] s p z]. unfold parseDynamics, dynamic_shown. cbv zeta. cbn [m_type m_name m_print m_position xm_choice xm_position myEnum myCustomValue].
  rewrite shown_position. destruct v; reflexivity.
Qed.

(** ** All types *)

Definition raw_marks (tick : Z) (p : option AboveBelow) (x : xtype) : list MarkData :=
  match x with
  | TDynamics l => map (parseDynamics tick) l
  | TPedal q => match parsePedal p q with Some m => [m] | None => [] end
  | _ => []
  end.

Definition retick (t : Z) (m : MarkData) : MarkData := mkMark (m_type m) (m_name m) t (m_print m) (m_position m).

Lemma marks_retick tick t p x : map (retick t) (raw_marks tick p x) = marks_in t p x.
Proof.
  destruct x; try reflexivity.
  - cbn [raw_marks marks_in]. rewrite map_map. apply map_ext. intros e. apply (shown_dynamic tick t e).
  - cbn [raw_marks marks_in]. unfold parsePedal. rewrite placed_pedal, shown_position. destruct (xl_type p0); reflexivity.
Qed.

Lemma map_flat {A B C} (f : B -> C) (g : A -> list B) l : map f (flat_map g l) = flat_map (fun x => map f (g x)) l.
Proof. induction l as [ | x l IH]; [reflexivity | ]. cbn [flat_map]. rewrite map_app, IH. reflexivity. Qed.

Lemma outcomes_app {A B} (f : A -> outcome B) l m :
  outcomes f (l ++ m) = obind (outcomes f l) (fun a => omap (fun b => a ++ b) (outcomes f m)).
Proof.
  induction l as [ | x l IH]; cbn [app outcomes obind].
  - unfold omap. destruct (outcomes f m); reflexivity.
  - destruct (f x); cbn [obind]; [ | reflexivity | reflexivity]. rewrite IH. unfold omap.
    destruct (outcomes f l); cbn [obind]; [ | reflexivity | reflexivity]. destruct (outcomes f m); reflexivity.
Qed.

Definition added (tick : Z) (p : option AboveBelow) (l : list xtype) (d : DirectionData) (te : list TempoData) : DirectionData :=
  mkDirection (d_tick d) (placed p) (d_voice d) (d_isStaffValueSpecified d) (d_tempos d ++ te) (d_marks d ++ flat_map (raw_marks tick p) l)
    (d_wedgeStarts d ++ flat_map wedgeStarts_in l) (d_wedgeStops d ++ flat_map wedgeStops_in l)
    (d_ottavaStarts d ++ flat_map (ottavaStarts_in tick) l) (d_ottavaStops d ++ flat_map (ottavaStops_in tick) l)
    (d_bracketStarts d ++ flat_map (bracketStarts_in tick) l) (d_bracketStops d ++ flat_map (bracketStops_in tick) l)
    (d_words d ++ flat_map words_in l) (d_segnos d ++ flat_map segnos_in l) (d_codas d ++ flat_map codas_in l)
    (d_rehearsals d ++ flat_map rehearsals_in l).

Lemma shown_rehearsals l : map parseRehearsal l =
  map (fun r => mkRehearsal (xr_text r) (position_shown (xr_position r)) false black_on_nothing plain_font) l.
Proof. apply map_ext. intros x. unfold parseRehearsal. rewrite shown_position. reflexivity. Qed.
Lemma shown_signs l : map parseSign l = map sign_shown l.
Proof. apply map_ext. intros x. unfold parseSign, sign_shown. rewrite shown_position, shown_color. reflexivity. Qed.
Lemma shown_words l : map parseWord l =
  map (fun w => mkWords (xs_text w) (position_shown (xs_position w)) (font_shown (xs_font w) (xs_decoration w)) false black_on_nothing) l.
Proof. apply map_ext. intros x. unfold parseWord. rewrite shown_position, shown_font. reflexivity. Qed.

Ltac fields := cbn [d_tick d_placement d_voice d_isStaffValueSpecified d_tempos d_marks d_wedgeStarts d_wedgeStops d_ottavaStarts d_ottavaStops d_bracketStarts d_bracketStops d_words d_segnos d_codas d_rehearsals metronomes_in raw_marks wedgeStarts_in wedgeStops_in ottavaStarts_in ottavaStops_in bracketStarts_in bracketStops_in words_in segnos_in codas_in rehearsals_in flat_map added omap obind app outcomes]; rewrite ?app_nil_r.

Lemma type_adds tick p d x : d_placement d = placed p ->
  parseDirectionType tick p d x = omap (added tick p [x] d) (outcomes getTempoData (metronomes_in x)).
Proof.
  destruct d as [tk pl vo sp te ma ws wp os op bs bp wo se co re]. cbn [d_placement]. intros ->. unfold added.
  destruct x as [r | s | w | s | w | y | b | q | m | o | | ]; unfold parseDirectionType; fields.
  - rewrite shown_rehearsals. reflexivity.
  - rewrite shown_signs. reflexivity.
  - rewrite shown_words. reflexivity.
  - rewrite shown_signs. reflexivity.
  - assert (W : parseWedgeStop w = mkWedgeStop (number_shown (-1) (xw_number w)) (position_shown (xw_position w)) (xw_spread w))
      by (unfold parseWedgeStop; rewrite shown_position; reflexivity).
    assert (V : parseWedgeStart w = mkWedgeStart (number_shown (-1) (xw_number w)) (wedgeMap_toApi (xw_type w)) (xw_spread w)
                  (line_shown (xw_lineType w) (xw_dash w) (xw_space w)) (position_shown (xw_position w)) black_on_nothing)
      by (unfold parseWedgeStart; rewrite shown_position, shown_line; reflexivity).
    rewrite W, V. clear W V. destruct (xw_type w); rewrite ?app_nil_r; reflexivity.
  - reflexivity.
  - assert (W : parseBracketStop tick b = mkSpannerStop (number_shown 1 (xb_number b)) tick (position_shown (xb_position b))).
    { unfold parseBracketStop, bracket_number. rewrite shown_position. destruct (xb_number b); reflexivity. }
    assert (V : parseBracketStart tick b = mkSpannerStart (number_shown 1 (xb_number b)) tick (position_shown (xb_position b))
           (mkPrint api_Bool_unspecified plain_font (match xb_color b with Some _ => true | None => false end) (color_shown (xb_color b)))
           (line_shown (xb_lineType b) (xb_dash b) (xb_space b))).
    { unfold parseBracketStart, bracket_number, getPrintData. rewrite shown_position, shown_line, shown_color, shown_font. destruct (xb_number b); reflexivity. }
    rewrite W, V. clear W V. destruct (xb_type b); rewrite ?app_nil_r; reflexivity.
  - rewrite placed_pedal. destruct (parsePedal p q); rewrite ?app_nil_r; reflexivity.
  - destruct (getTempoData m); reflexivity.
  - assert (W : parseOttavaStop tick o = mkSpannerStop (number_shown (-1) (xo_number o)) tick (position_shown (xo_position o)))
      by (unfold parseOttavaStop; rewrite shown_position; reflexivity).
    unfold parseOttavaStart, getPrintData. rewrite W, shown_position, shown_line, shown_font. clear W.
    change (match xo_size o with Some n => n | None => 8 end) with (number_shown 8 (xo_size o)).
    destruct (xo_type o); rewrite ?app_nil_r; reflexivity.
  - reflexivity.
  - reflexivity.
Qed.

Lemma values_read tick p l : forall d, d_placement d = placed p ->
  parseValues tick p l d = omap (added tick p l d) (outcomes getTempoData (flat_map metronomes_in l)).
Proof.
  induction l as [ | x l IH]; intros d P.
  - destruct d as [tk pl vo sp te ma ws wp os op bs bp wo se co re]. cbn [d_placement] in P. subst pl. unfold added. cbn [parseValues]. fields. reflexivity.
  - cbn [parseValues flat_map]. rewrite (type_adds tick p d x P), outcomes_app.
    destruct (outcomes getTempoData (metronomes_in x)) as [t1 | | ]; cbn [omap obind]; [ | reflexivity | reflexivity].
    rewrite IH by reflexivity. destruct (outcomes getTempoData (flat_map metronomes_in l)) as [t2 | | ]; cbn [omap obind]; [ | reflexivity | reflexivity].
    f_equal. unfold added. cbn [d_tick d_placement d_voice d_isStaffValueSpecified d_tempos d_marks d_wedgeStarts d_wedgeStops d_ottavaStarts d_ottavaStops d_bracketStarts d_bracketStops d_words d_segnos d_codas d_rehearsals flat_map]. rewrite !app_nil_r, <- !app_assoc. reflexivity.
Qed.

(** ** Metronomes *)

Lemma dots_run_repeat n r : (match r with MBeatUnitDot :: _ => False | _ => True end) -> dots_run (repeat MBeatUnitDot n ++ r) = (n, r).
Proof.
  intros H. induction n as [ | n IH]; cbn [repeat app dots_run].
  - destruct r as [ | [ | | | | | ] r]; try reflexivity. destruct H.
  - rewrite IH. reflexivity.
Qed.

Lemma import_beat v n r : (match r with MBeatUnitDot :: _ => False | _ => True end) ->
  import_unit NoteTypeValue_eighth 0 (beat v n ++ r) = (beat_value v, n, r).
Proof.
  intros H. unfold beat, import_unit. cbn [app]. destruct v as [v | ]; cbn [beat_value]; rewrite (dots_run_repeat n r H); destruct n; reflexivity.
Qed.

Lemma notes_run_repeat n r : (match r with MNote :: _ => False | _ => True end) -> notes_run (repeat MNote n ++ r) = r.
Proof.
  intros H. induction n as [ | n IH]; cbn [repeat app notes_run]; [ | exact IH]. destruct r as [ | [ | | | | | ] r]; try reflexivity. destruct H.
Qed.

Lemma read_metronome_nil f m : read_metronome f [] m = (true, m).
Proof. destruct f; reflexivity. Qed.

Lemma metronome_reads c m : metronome_read c m -> read_metronome (List.length c) c newMetronome = (true, m).
Proof.
  destruct 1; [reflexivity | | | | ].
  - assert (I := import_beat v n [MPerMinute t] I). unfold newMetronome. unfold beat in *. cbn [app List.length read_metronome me_unit me_dots].
    cbn [app] in I. rewrite I. apply read_metronome_nil.
  - assert (I := import_beat v n (beat w m) I). pose proof (import_beat w m [] Logic.I) as J. rewrite app_nil_r in J.
    unfold newMetronome. unfold beat in I |- *. cbn [app List.length read_metronome me_unit me_dots me_unit2 me_dots2].
    cbn [app] in I. rewrite I. fold (beat w m). unfold beat at 1. fold (beat w m). rewrite J. apply read_metronome_nil.
  - cbn [repeat List.length read_metronome]. unfold import_relation.
    pose proof (notes_run_repeat (S n) [] I) as N. rewrite app_nil_r in N. cbn [repeat] in N. rewrite N. apply read_metronome_nil.
  - pose proof (notes_run_repeat (S n) [MRelation; MNote] I) as N. cbn [repeat app] in N |- *. cbn [List.length read_metronome]. unfold import_relation.
    rewrite N. apply read_metronome_nil.
Qed.

Lemma all_of_map {A} (f : echild -> option A) g l : (forall a, f (g a) = Some a) -> all_of f (map g l) = (true, l).
Proof. intros H. induction l as [ | a l IH]; [reflexivity | ]. cbn [map all_of]. rewrite H, IH. reflexivity. Qed.

Lemma type_reads c x : type_read c x -> createDirectionType c = (true, x).
Proof.
  destruct 1 as [l N | l N | l N | l N | l N | n | | | | | c m r M | | | ]; try reflexivity.
  7:{ cbn [createDirectionType]. rewrite (metronome_reads c m M). reflexivity. }
  6:{ cbn [repeat createDirectionType]. change (EPercussion :: repeat EPercussion n) with (repeat EPercussion (S n)).
      assert (E : forall k, all_of (fun c => match c with EPercussion => Some tt | _ => None end) (repeat EPercussion k) = (true, repeat tt k)).
      { induction k as [ | k IH]; [reflexivity | ]. cbn [repeat all_of]. rewrite IH. reflexivity. }
      rewrite E. reflexivity. }
  all: destruct l as [ | a l]; [destruct (N eq_refl) | ].
  all: set (k := a :: l); unfold createDirectionType; cbn [map k].
  - change (ERehearsal a :: map ERehearsal l) with (map ERehearsal k). rewrite (all_of_map _ ERehearsal k); reflexivity.
  - change (ESegno a :: map ESegno l) with (map ESegno k). rewrite (all_of_map _ ESegno k); reflexivity.
  - change (EWords a :: map EWords l) with (map EWords k). rewrite (all_of_map _ EWords k); reflexivity.
  - change (ECoda a :: map ECoda l) with (map ECoda k). rewrite (all_of_map _ ECoda k); reflexivity.
  - change (EDynamics a :: map EDynamics l) with (map EDynamics k). rewrite (all_of_map _ EDynamics k); reflexivity.
Qed.

Lemma types_read c x : Forall2 type_read c x -> read_types c = Ok x.
Proof.
  unfold read_types. induction 1 as [ | a b c x A _ IH]; [reflexivity | ]. cbn [outcomes]. rewrite (type_reads a b A). cbn [obind]. rewrite IH. reflexivity.
Qed.

(** ** Tempos *)

Lemma tempo_reads m : me_relation m = false -> legible m -> exists t, getTempoData m = Ok t /\ tempo_said m t.
Proof.
  intros R L. unfold getTempoData, tempo_said. rewrite R. destruct (me_second m) eqn:S; [eexists; split; reflexivity | ].
  specialize (L R S). destruct (stringToInt (me_perMinute m)) as [[n | ] | | ] eqn:E; cbn [omap obind].
  - eexists. split; [reflexivity | ]. pose proof (proj1 (stringToInt_canonical _ _) E) as [C I]. split.
    + intros k Ck Ik. assert (K : stringToInt (me_perMinute m) = Ok (Some k)) by (apply stringToInt_canonical; split; assumption).
      rewrite E in K. injection K as <-. reflexivity.
    + intros H. destruct (H n C I).
  - eexists. split; [reflexivity | ]. split; [ | reflexivity].
    intros k Ck Ik. assert (K : stringToInt (me_perMinute m) = Ok (Some k)) by (apply stringToInt_canonical; split; assumption).
    rewrite E in K. discriminate K.
  - exfalso. unfold stringToInt, atoi in E. destruct (read_int (c_str (me_perMinute m))); discriminate E.
  - exfalso. destruct (stringToInt_defined (me_perMinute m)) as [o O].
    + intros v r K. apply read_int_overflow in K as (n & S1 & N). exact (N (L n S1)).
    + rewrite O in E. discriminate E.
Qed.

Lemma tempo_relation m : me_relation m = true -> getTempoData m = Throw.
Proof. intros R. unfold getTempoData. rewrite R. reflexivity. Qed.

(** ** The direction *)

Lemma fixTimes_marks d : fixTimes d =
  mkDirection (d_tick d) (d_placement d) (d_voice d) (d_isStaffValueSpecified d) (d_tempos d) (map (retick (d_tick d)) (d_marks d)) (d_wedgeStarts d)
    (d_wedgeStops d) (d_ottavaStarts d) (d_ottavaStops d) (d_bracketStarts d) (d_bracketStops d) (d_words d) (d_segnos d) (d_codas d) (d_rehearsals d).
Proof. destruct d. reflexivity. Qed.

Definition read_as (t tick : Z) (p : option AboveBelow) (l : list xtype) (staff : option Z) (te : list TempoData) : DirectionData :=
  mkDirection t (placed p) (-1) (match staff with Some _ => true | None => false end) te (flat_map (marks_in t p) l)
    (flat_map wedgeStarts_in l) (flat_map wedgeStops_in l) (flat_map (ottavaStarts_in tick) l) (flat_map (ottavaStops_in tick) l)
    (flat_map (bracketStarts_in tick) l) (flat_map (bracketStops_in tick) l) (flat_map words_in l) (flat_map segnos_in l) (flat_map codas_in l)
    (flat_map rehearsals_in l).

Lemma direction_reads tick f l t : Forall2 type_read (f_types f) l -> MeasureReader.direction_tick (f_offset f) tick = Ok t ->
  read_direction tick f = omap (read_as t tick (f_placement f) l (f_staff f)) (outcomes getTempoData (flat_map metronomes_in l)).
Proof.
  intros T O. unfold read_direction. rewrite (types_read _ _ T). cbn [obind]. unfold getDirectionData. cbn [dx_offset dx_placement dx_types dx_staff].
  rewrite O. cbn [obind]. rewrite placed_api, values_read by reflexivity.
  destruct (outcomes getTempoData (flat_map metronomes_in l)) as [te | | ]; cbn [omap obind]; [ | reflexivity | reflexivity].
  rewrite fixTimes_marks. unfold added, read_as, new_direction.
  cbn [d_tick d_placement d_voice d_isStaffValueSpecified d_tempos d_marks d_wedgeStarts d_wedgeStops d_ottavaStarts
                d_ottavaStops d_bracketStarts d_bracketStops d_words d_segnos d_codas d_rehearsals app].
  rewrite map_flat, (flat_map_ext _ _ (marks_retick tick t (f_placement f))). reflexivity.
Qed.

Lemma outcomes_throw {A B} (f : A -> outcome B) l x : In x l -> f x = Throw -> (forall y, In y l -> f y <> UB) -> outcomes f l = Throw.
Proof.
  induction l as [ | y l IH]; [intros [] | ]. intros I T U. cbn [outcomes].
  destruct (f y) as [v | | ] eqn:E; cbn [obind].
  - destruct I as [-> | I]; [rewrite T in E; discriminate E | ]. unfold omap. rewrite (IH I T); [reflexivity | ]. intros z Z. apply U. right. exact Z.
  - reflexivity.
  - exfalso. exact (U y (or_introl eq_refl) E).
Qed.

Lemma legible_defined m : legible m -> getTempoData m <> UB.
Proof.
  intros L. destruct (me_relation m) eqn:R; [rewrite (tempo_relation m R); discriminate | ].
  destruct (tempo_reads m R L) as (t & E & _). rewrite E. discriminate.
Qed.

(** The tick. *)
Lemma offset_reads o tick t : MeasureReader.direction_tick o tick = Ok t <-> offset_by o tick t /\ (o <> None \/ t = tick).
Proof.
  destruct o as [q | ]; cbn [MeasureReader.direction_tick offset_by].
  - split.
    + intros H. apply obind_ok in H as (n & N1 & N2). apply as_int_out in N1 as [N1 N3]. apply as_int_out in N2 as [N2 N4].
      split; [ | left; discriminate]. exists n. pose proof (proj1 (round_half_iff q n) N1) as R. unfold nearest_half_down in R. destruct R as [R1 R2].
      split; [lra | ]. split; [lra | ]. split; [rewrite <- N1; exact N3 | ]. split; [symmetry; exact N2 | rewrite <- N2; exact N4].
    + intros [(n & A & B & C & -> & E) _]. assert (R : round_half q = n) by (apply round_half_iff; unfold nearest_half_down; split; lra).
      rewrite R, (as_int_in n C). cbn [obind]. apply as_int_in, E.
  - split; [intros H; injection H as <-; split; [reflexivity | right; reflexivity] | ]. intros [-> _]. reflexivity.
Qed.

Lemma said_exactly t tick p l o staff te : offset_by o tick t -> Forall2 tempo_said (flat_map metronomes_in l) te ->
  direction_said tick p l o staff (read_as t tick p l staff te).
Proof.
  intros O T. unfold direction_said, read_as.
  cbn [d_tick d_placement d_voice d_isStaffValueSpecified d_tempos d_marks d_wedgeStarts d_wedgeStops d_ottavaStarts
                d_ottavaStops d_bracketStarts d_bracketStops d_words d_segnos d_codas d_rehearsals].
  split; [exact O | ]. repeat (split; [reflexivity | ]). split; [exact T | ]. repeat (split; [reflexivity | ]). reflexivity.
Qed.

Lemma tempos_read l : Forall (fun m => me_relation m = false /\ legible m) l -> exists te, outcomes getTempoData l = Ok te /\ Forall2 tempo_said l te.
Proof.
  induction 1 as [ | m l [R L] _ (te & E & F)]; [exists []; split; [reflexivity | constructor] | ].
  destruct (tempo_reads m R L) as (t & T & S). exists (t :: te). cbn [outcomes]. rewrite T. cbn [obind]. rewrite E. split; [reflexivity | ]. constructor; assumption.
Qed.

Lemma direction_any tick f l t : Forall2 type_read (f_types f) l -> offset_by (f_offset f) tick t -> Forall legible (flat_map metronomes_in l) ->
  Forall (fun m => me_relation m = false) (flat_map metronomes_in l) ->
  exists d, read_direction tick f = Ok d /\ direction_said tick (f_placement f) l (f_offset f) (f_staff f) d /\ d_tick d = t.
Proof.
  intros T O L R.
  assert (D : MeasureReader.direction_tick (f_offset f) tick = Ok t).
  { apply offset_reads. split; [exact O | ]. destruct (f_offset f); [left; discriminate | right; exact O]. }
  rewrite (direction_reads tick f l t T D).
  destruct (tempos_read (flat_map metronomes_in l)) as (te & E & F).
  { rewrite Forall_forall in *. intros m M. split; [exact (R m M) | exact (L m M)]. }
  rewrite E. cbn [omap obind]. eexists. split; [reflexivity | ]. split; [apply said_exactly; assumption | reflexivity].
Qed.

Lemma direction_relation tick f l t : Forall2 type_read (f_types f) l -> offset_by (f_offset f) tick t -> Forall legible (flat_map metronomes_in l) ->
  Exists (fun m => me_relation m = true) (flat_map metronomes_in l) -> read_direction tick f = Throw.
Proof.
  intros T O L R.
  assert (D : MeasureReader.direction_tick (f_offset f) tick = Ok t).
  { apply offset_reads. split; [exact O | ]. destruct (f_offset f); [left; discriminate | right; exact O]. }
  rewrite (direction_reads tick f l t T D). apply Exists_exists in R as (m & I & R). rewrite Forall_forall in L.
  rewrite (outcomes_throw getTempoData _ m I (tempo_relation m R)); [reflexivity | ]. intros y Y. apply legible_defined, L, Y.
Qed.
