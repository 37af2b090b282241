(** Proofs about writing <direction> and reading it back. *)
From Coq Require Import List Ascii Bool String ZArith QArith Lia Lqa.
From Verif Require Import Model.Base Model.Text Model.Strings Model.LongDouble Model.Integers Model.Decimals Model.Ticks
  Model.EnumLookup Model.CoreEnums Model.ApiEnums Model.ConverterTables Model.MarkData Model.CustomEnums Model.Color Model.CommaInts
  Model.NumberOrWord Model.Notations Model.ChordSymbols Model.Directions Spec.Numerals Spec.MarkGroups Spec.Attachments Spec.NoteReading
  Spec.Rounding Spec.DirectionText Proofs.StringsProofs Proofs.TicksProofs Proofs.NotationsProofs Proofs.MarksProofs Proofs.NoteProofs
  Proofs.DirectionProofs.
From Verif Require Model.MeasureReader Model.MeasureWriter Model.NoteContent Proofs.MeasureSync.
Import ListNotations.
Local Open Scope Z_scope.

(** ** Values *)

Definition xp (h : bool) (p : PositionData) : xposition :=
  mkXPosition (option_map (stored TenthsValue) (defaultX p)) (option_map (stored TenthsValue) (defaultY p))
    (option_map (stored TenthsValue) (relativeX p)) (option_map (stored TenthsValue) (relativeY p))
    (if h then match horizontalAlignment p with api_HorizontalAlignment_unspecified => None | v => Some (halignMap_toCore v) end else None) None None.

Lemma position_writes (h : bool) p : position_ok storable p ->
  setAttributesFromPositionData (if h then halign_declares else nothing_declares) p = Ok (xp h p).
Proof.
  intros (H1 & H2 & H3 & H4). unfold setAttributesFromPositionData.
  rewrite (option_ok _ _ tenths_free H1), (option_ok _ _ tenths_free H2), (option_ok _ _ tenths_free H3), (option_ok _ _ tenths_free H4).
  destruct h; reflexivity.
Qed.

Lemma xp_at h p : at_position h p (xp h p).
Proof.
  unfold at_position, coordinates_written, halign_written, xp. cbn [x_defaultX x_defaultY x_relativeX x_relativeY x_halign x_valign Notations.x_placement].
  split; [repeat (split; [reflexivity | ]); reflexivity | ]. split; [ | split; reflexivity].
  destruct h; [ | reflexivity]. destruct (horizontalAlignment p); [reflexivity | | | ]; split; try reflexivity; intros X; discriminate X.
Qed.

Lemma xp_shown h p : position_shown (xp h p) = kept_coordinates h api_Placement_unspecified p.
Proof.
  unfold position_shown, kept_coordinates, xp. cbn [x_defaultX x_defaultY x_relativeX x_relativeY x_halign x_valign Notations.x_placement].
  destruct h; [ | reflexivity]. destruct (horizontalAlignment p); reflexivity.
Qed.

Definition xl (l : LineData) : option LineType :=
  match lineType l with api_LineType_unspecified => None | t => Some (lineTypeMap_toCore t) end.

Lemma line_writes l : line_ok l ->
  option_value TenthsValue (dashLength l) = Ok (option_map (stored TenthsValue) (dashLength l)) /\
  option_value TenthsValue (spaceLength l) = Ok (option_map (stored TenthsValue) (spaceLength l)).
Proof. intros [A B]. split; apply option_ok; try exact tenths_free; assumption. Qed.

Lemma xl_shown l : line_shown (xl l) (option_map (stored TenthsValue) (dashLength l)) (option_map (stored TenthsValue) (spaceLength l)) = kept_line true l.
Proof. unfold line_shown, kept_line, xl. destruct (lineType l); reflexivity. Qed.

Lemma xl_written l : line_written true l (xl l) (option_map (stored TenthsValue) (dashLength l)) (option_map (stored TenthsValue) (spaceLength l)).
Proof.
  unfold line_written, xl. split; [reflexivity | ]. split; [reflexivity | ].
  destruct (lineType l); [reflexivity | | | | ]; split; try reflexivity; intros X; discriminate X.
Qed.

Lemma lines_written n : lines_attribute n = if n <=? 0 then None else Some (Z.min 3 n).
Proof.
  unfold lines_attribute. destruct (Z.ltb_spec 0 n), (Z.leb_spec n 0); try lia; [ | reflexivity]. f_equal.
  unfold Integers.construct, mk_int_range, Integers.clamp. cbn [ctor_bounds fst snd ir_value].
  destruct (Z.ltb_spec n 0), (Z.ltb_spec 3 n); lia.
Qed.

Lemma lines_shown n : number_shown 0 (if n <=? 0 then None else Some (Z.min 3 n)) = kept_lines n.
Proof. unfold number_shown, kept_lines. destruct (Z.leb_spec n 0); lia. Qed.

(** *** Families *)

Lemma between_nonempty t : between_commas t <> [].
Proof. induction t as [ | c t IH]; [discriminate | ]. cbn [between_commas]. destruct (between_commas t); [congruence | ]. destruct (Ascii.eqb c ","); discriminate. Qed.

Lemma between_split t : split_comma t = between_commas t.
Proof.
  induction t as [ | c t IH]; [reflexivity | ]. cbn [split_comma between_commas]. rewrite IH. pose proof (between_nonempty t) as N.
  destruct (between_commas t) as [ | a l]; [congruence | ]. destruct (Ascii.eqb c ","); reflexivity.
Qed.

Lemma between_app a b : between_commas (a ++ ","%char :: b) = between_commas a ++ between_commas b.
Proof.
  induction a as [ | c a IH].
  - cbn [app between_commas]. pose proof (between_nonempty b) as N. destruct (between_commas b) as [ | x l]; [congruence | ]. reflexivity.
  - cbn [app between_commas]. rewrite IH. pose proof (between_nonempty a) as N. destruct (between_commas a) as [ | x l]; [congruence | ].
    cbn [app]. destruct (Ascii.eqb c ","); reflexivity.
Qed.

Lemma family_between l : l <> [] -> between_commas (NoteContent.family_text l) = flat_map between_commas l.
Proof.
  induction l as [ | t [ | u l] IH]; intros N; [congruence | cbn [NoteContent.family_text flat_map]; rewrite app_nil_r; reflexivity | ].
  cbn [NoteContent.family_text flat_map]. rewrite between_app. f_equal. apply IH. discriminate.
Qed.

Lemma families_back l : l <> [] -> NoteContent.family_parse (NoteContent.family_text (map token_of l)) = kept_families l.
Proof.
  intros N. unfold NoteContent.family_parse, NoteContent.pieces, kept_families, without_last_empty. rewrite between_split, family_between; [reflexivity | ].
  destruct l; [congruence | discriminate].
Qed.

Lemma kept_families_nil : kept_families [] = [].
Proof. reflexivity. Qed.

(** *** Fonts *)

Definition xf (f : FontData) : xfont := match write_font f with Ok x => x | _ => noXFont end.

Lemma font_writes f : font_ok f -> write_font f = Ok (xf f).
Proof.
  intros O. unfold xf. assert (E : exists x, write_font f = Ok x); [ | destruct E as [x E]; rewrite E; reflexivity].
  unfold write_font, write_size. unfold font_ok in O. destruct (sizeType f); cbn [obind]; [eexists; reflexivity | eexists; reflexivity | ].
  destruct (construct_ok Decimal (sizePoint f)) as [p P]; [split; reflexivity | exact (O eq_refl) | ]. rewrite P. eexists. reflexivity.
Qed.

Lemma construct_stored t x p : Decimals.construct t x = Ok p -> Decimals.getValue p = stored t x.
Proof. intros E. unfold stored. rewrite E. reflexivity. Qed.

Lemma css_kept c : cssMap_toApi (cssMap_toCore c) = kept_css c.
Proof. destruct c; reflexivity. Qed.

Lemma xf_size_is f : font_ok f ->
  match sizeType f with
  | Size_unspecified => xf_size (xf f) = None
  | Size_css => xf_size (xf f) = Some (Word (cssMap_toCore (sizeCss f)))
  | Size_point => exists p, xf_size (xf f) = Some (Number p) /\ Decimals.getValue p = stored Decimal (sizePoint f)
  end.
Proof.
  intros O. pose proof (font_writes f O) as W. unfold write_font in W. apply obind_ok in W as (z & Z1 & Z2). injection Z2 as <-. cbn [xf_size].
  unfold write_size in Z1. destruct (sizeType f); [injection Z1 as <-; reflexivity | injection Z1 as <-; reflexivity | ].
  unfold omap in Z1. apply obind_ok in Z1 as (p & P1 & P2). injection P2 as <-. exists p. split; [reflexivity | exact (construct_stored _ _ _ P1)].
Qed.

Lemma xf_rest f : font_ok f ->
  xf_family (xf f) = (match fontFamily f with [] => None | l => Some (map token_of l) end) /\
  xf_style (xf f) = (match fontStyle f with api_FontStyle_unspecified => None | s => Some (fontStyleMap_toCore s) end) /\
  xf_weight (xf f) = (match fontWeight f with api_FontWeight_unspecified => None | w => Some (fontWeightMap_toCore w) end).
Proof.
  intros O. pose proof (font_writes f O) as W. unfold write_font in W. apply obind_ok in W as (z & Z1 & Z2). injection Z2 as <-.
  split; [reflexivity | split; reflexivity].
Qed.

Lemma file_family f : font_ok f ->
  xf_family (file_font (xf f)) = (match fontFamily f with [] => None | l => Some (kept_families l) end).
Proof.
  intros O. unfold file_font. cbn [xf_family]. rewrite (proj1 (xf_rest f O)). destruct (fontFamily f) as [ | t l] eqn:E; [reflexivity | ].
  cbn [option_map]. f_equal. apply families_back. discriminate.
Qed.

Lemma decoration_written f : write_decoration f = mkXDecoration (if underline f <=? 0 then None else Some (Z.min 3 (underline f)))
        (if overline f <=? 0 then None else Some (Z.min 3 (overline f))) (if lineThrough f <=? 0 then None else Some (Z.min 3 (lineThrough f))).
Proof. unfold write_decoration. rewrite !lines_written. reflexivity. Qed.

Lemma font_is_written f : font_ok f -> font_written f (file_font (xf f)) (write_decoration f).
Proof.
  intros O. unfold font_written. rewrite (file_family f O), decoration_written. destruct (xf_rest f O) as (_ & S & W). pose proof (xf_size_is f O) as Z.
  unfold file_font. cbn [xf_style xf_size xf_weight]. rewrite S, W.
  split; [reflexivity | ]. split; [destruct (fontStyle f); [reflexivity | | ]; split; try reflexivity; intros X; discriminate X | ].
  split; [destruct (fontWeight f); [reflexivity | | ]; split; try reflexivity; intros X; discriminate X | ]. split; [ | reflexivity].
  destruct (sizeType f); [rewrite Z; exact I | rewrite Z; apply css_kept | ]. destruct Z as (p & -> & Z). exact Z.
Qed.

Lemma font_back f : font_ok f -> font_shown (file_font (xf f)) (write_decoration f) = kept_font f.
Proof.
  intros O. unfold font_shown, kept_font. rewrite (file_family f O), decoration_written. destruct (xf_rest f O) as (_ & S & W). pose proof (xf_size_is f O) as Z.
  unfold file_font. cbn [xf_style xf_size xf_weight xd_underline xd_overline xd_lineThrough]. rewrite S, W, !lines_shown. clear S W.
  assert (F : match match fontFamily f with [] => None | l => Some (kept_families l) end with Some l => l | None => [] end = kept_families (fontFamily f))
    by (destruct (fontFamily f); reflexivity).
  rewrite F. clear F.
  assert (A : match match fontStyle f with api_FontStyle_unspecified => None | s => Some (fontStyleMap_toCore s) end with
     | Some FontStyle_normal => api_FontStyle_normal | Some FontStyle_italic => api_FontStyle_italic | None => api_FontStyle_unspecified
     end = fontStyle f) by (destruct (fontStyle f); reflexivity).
  assert (B : match match fontWeight f with api_FontWeight_unspecified => None | s => Some (fontWeightMap_toCore s) end with
     | Some FontWeight_normal => api_FontWeight_normal | Some FontWeight_bold => api_FontWeight_bold | None => api_FontWeight_unspecified
     end = fontWeight f) by (destruct (fontWeight f); reflexivity).
  rewrite A, B. clear A B.
  destruct (sizeType f); [rewrite Z; reflexivity | rewrite Z, css_kept; reflexivity | ]. destruct Z as (p & -> & Z). rewrite Z. reflexivity.
Qed.

(** ** What is written of each *)

Definition xdyn (m : MarkData) : xmark (custom DynamicsEnum) :=
  match getDynamics m with Ok x => x | _ => mkXMark (construct_enum isOther_DynamicsValue DynamicsEnum_mf) [] noXPosition 0 end.

Lemma own_dynamic m : dynamics_section (m_type m) = true -> position_ok storable (m_position m) ->
  getDynamics m = Ok (xdyn m) /\ forall t, dynamic_shown t (xdyn m) = kept_mark t m.
Proof.
  intros D P. destruct (position_ok_back dynamics_declares _ P eq_refl) as (x & X1 & X2).
  assert (E : exists y, getDynamics m = Ok y).
  { unfold getDynamics. rewrite X1. eexists. reflexivity. }
  destruct E as [y E]. unfold xdyn. rewrite E. split; [reflexivity | ]. intros t.
  rewrite <- (shown_dynamic t t y). revert E.
  destruct m as [ty name tk pr pos]. cbn [m_type m_position m_name] in *.
  unfold getDynamics, kept_mark. cbn [m_type m_position m_name m_print].
  rewrite X1. cbn [obind]. change (kept_position (has_halign dynamics_declares) (has_placement dynamics_declares) pos) with (kept_position true true pos) in X2.
  rewrite <- X2. clear X1 X2 P.
  destruct ty; try (exfalso; clear - D; vm_compute in D; discriminate D).
  all: try (intros E; injection E as <-; cbv -[getPositionData]; reflexivity).
  destruct name as [ | n name]; [intros E; injection E as <-; cbv -[getPositionData]; reflexivity | ].
  remember (n :: name) as nm eqn:Enm.
  assert (F : str_eqb nm [] = false) by (subst nm; reflexivity). rewrite F. cbn [negb].
  unfold setValue_text. rewrite written_dynamic.
  destruct (str_eqb nm (lit "other-dynamics")) eqn:O.
  - apply str_eqb_eq in O. rewrite O. intros E. injection E as <-. cbv -[getPositionData]. reflexivity.
  - change (written_as api_MarkType_otherDynamics) with Dynamic. cbv beta iota.
    destruct (dynamic_called nm) as [t0 | ] eqn:DC; cbn [option_map].
    + intros E. injection E as <-. rewrite dynamic_called_find in DC. apply find_some in DC. destruct DC as [D1 D2]. apply str_eqb_eq in D2. rewrite <- D2.
      clear - D1. unfold plain_dynamics in D1. cbn [In] in D1.
      repeat (destruct D1 as [<- | D1]; [cbv -[getPositionData]; reflexivity | ]). destruct D1.
    + intros E. injection E as <-. cbn. rewrite Enm. reflexivity.
Qed.

Definition xped (m : MarkData) : xpedal :=
  mkXPedal (match m_type m with api_MarkType_damp => StartStopChangeContinue_stop | _ => StartStopChangeContinue_start end)
    (Some YesNo_no) (Some YesNo_yes) (xp true (m_position m)).

Definition tmark (m : MarkData) : xtype := if is_pedal m then TPedal (xped m) else TDynamics [xdyn m].
Definition shown_mark (m : MarkData) : bool := is_dynamic m || is_pedal m.

Lemma pedal_types t : pedal_section t = true -> t = api_MarkType_pedal \/ t = api_MarkType_damp.
Proof. destruct t; intros H; try discriminate H; auto. Qed.

Lemma not_both t : dynamics_section t = true -> pedal_section t = false.
Proof. destruct t; intros H; try discriminate H; reflexivity. Qed.

Lemma mark_writes m : position_ok storable (m_position m) -> write_mark m = Ok (if shown_mark m then [tmark m] else []).
Proof.
  intros P. unfold write_mark, shown_mark, tmark, is_dynamic, is_pedal.
  destruct (predicates_sections (m_type m)) as (_ & D & _ & _ & _ & Q & _). rewrite D, Q.
  destruct (dynamics_section (m_type m)) eqn:E1.
  - rewrite (not_both _ E1). destruct (own_dynamic m E1 P) as [W _]. rewrite W. reflexivity.
  - destruct (pedal_section (m_type m)) eqn:E2; [ | reflexivity]. unfold write_pedal.
    rewrite (position_writes true _ P). reflexivity.
Qed.

Lemma marks_write l : Forall (fun m => position_ok storable (m_position m)) l ->
  omap (@List.concat xtype) (outcomes write_mark l) = Ok (map tmark (filter shown_mark l)).
Proof.
  intros F. assert (E : outcomes write_mark l = Ok (map (fun m => if shown_mark m then [tmark m] else []) l)).
  { induction F as [ | m l P _ IH]; [reflexivity | ]. cbn [outcomes map]. rewrite (mark_writes m P). cbn [obind]. rewrite IH. reflexivity. }
  rewrite E. cbn [omap obind]. f_equal. clear. induction l as [ | m l IH]; [reflexivity | ]. cbn [map filter List.concat]. rewrite IH.
  destruct (shown_mark m); reflexivity.
Qed.

Lemma outcomes_map {A B} (f : A -> outcome B) g (P : A -> Prop) l : Forall P l -> (forall x, P x -> f x = Ok (g x)) -> outcomes f l = Ok (map g l).
Proof. intros F H. induction F as [ | x l X _ IH]; [reflexivity | ]. cbn [outcomes map]. rewrite (H x X). cbn [obind]. rewrite IH. reflexivity. Qed.

Definition xstop (w : WedgeStop) : xwedge := mkXWedge WedgeType_stop None None (option_map (stored TenthsValue) (wp_spread w)) None None (xp false (wp_position w)).
Lemma stop_writes w : position_ok storable (wp_position w) /\ every storable (wp_spread w) -> write_wedgeStop w = Ok (xstop w).
Proof. intros [P S]. unfold write_wedgeStop. rewrite (option_ok _ _ tenths_free S), (position_writes false _ P). reflexivity. Qed.

Definition xstart (w : WedgeStart) : xwedge :=
  mkXWedge (match ws_type w with api_WedgeType_unspecified => WedgeType_crescendo | t => wedgeMap_toCore t end) None (xl (ws_line w))
    (option_map (stored TenthsValue) (ws_spread w)) (option_map (stored TenthsValue) (dashLength (ws_line w)))
    (option_map (stored TenthsValue) (spaceLength (ws_line w))) (xp false (ws_position w)).
Lemma start_writes w : position_ok storable (ws_position w) /\ every storable (ws_spread w) /\ line_ok (ws_line w) -> write_wedgeStart w = Ok (xstart w).
Proof.
  intros (P & S & L). unfold write_wedgeStart. destruct (line_writes _ L) as [L1 L2].
  rewrite (option_ok _ _ tenths_free S), (position_writes false _ P). cbn [obind]. rewrite L1, L2. reflexivity.
Qed.

Definition xott (o : OttavaStart) : xoctave :=
  mkXOctave (match os_type o with Ottava_8vb | Ottava_15mb => UpDownStopContinue_down | _ => UpDownStopContinue_up end) None
           (Some (match os_type o with Ottava_15ma | Ottava_15mb => 15 | _ => 8 end)) (option_map (stored TenthsValue) (dashLength (ss_line (os_start o))))
           (option_map (stored TenthsValue) (spaceLength (ss_line (os_start o)))) noXPosition noXFont.
Lemma ottava_writes o : line_ok (ss_line (os_start o)) -> write_ottavaStart o = Ok (xott o).
Proof.
  intros L. unfold write_ottavaStart. destruct (line_writes _ L) as [L1 L2]. rewrite L1, L2. cbn [obind]. unfold xott. destruct (os_type o); reflexivity.
Qed.

Definition xword (w : WordsData) : xwords := mkXWords (wo_text w) (xp true (wo_position w)) (xf (wo_font w)) (write_decoration (wo_font w)).
Definition fword (w : WordsData) : xwords := mkXWords (wo_text w) (xp true (wo_position w)) (file_font (xf (wo_font w))) (write_decoration (wo_font w)).
Lemma word_writes w : position_ok storable (wo_position w) /\ font_ok (wo_font w) -> write_word w = Ok (xword w).
Proof. intros [P F]. unfold write_word. rewrite (position_writes true _ P), (font_writes _ F). reflexivity. Qed.

Definition xtempo (t : TempoData) : xmetronome :=
  mkXMetronome false (durationMap_toCore (b_duration (te_beats t))) (Z.to_nat (b_dots (te_beats t))) false (print_int (b_beats (te_beats t))) NoteTypeValue_eighth 0.
Lemma tempo_writes t : te_type t = Tempo_beatsPerMinute -> write_tempo t = Ok (xtempo t).
Proof. intros E. unfold write_tempo. rewrite E. reflexivity. Qed.

Definition segments (d : DirectionData) (words : list WordsData -> list xtype) : list xtype :=
  map tmark (filter shown_mark (d_marks d)) ++ map (fun w => TWedge (xstop w)) (d_wedgeStops d) ++ map (fun w => TWedge (xstart w)) (d_wedgeStarts d) ++
  map (fun s => TOctaveShift (write_ottavaStop s)) (d_ottavaStops d) ++ map (fun o => TOctaveShift (xott o)) (d_ottavaStarts d) ++
  map (fun s => TBracket (write_bracketStart s)) (d_bracketStarts d) ++ map (fun t => TMetronome (xtempo t)) (d_tempos d) ++ words (d_words d).
Definition as_word (l : list WordsData) : list xtype := match l with [] => [] | _ => [TWords (map xword l)] end.
Definition as_read (l : list WordsData) : list xtype := match l with [] => [] | _ => [TWords (map fword l)] end.

Lemma all_but_tempos d tick staff : numbers_ok tick staff d ->
  write_types d = obind (outcomes write_tempo (d_tempos d)) (fun tempos =>
    Ok (map tmark (filter shown_mark (d_marks d)) ++ map TWedge (map xstop (d_wedgeStops d)) ++ map TWedge (map xstart (d_wedgeStarts d)) ++
      map TOctaveShift (map write_ottavaStop (d_ottavaStops d)) ++
      map TOctaveShift (map xott (d_ottavaStarts d)) ++ map TBracket (map write_bracketStart (d_bracketStarts d)) ++ map TMetronome tempos ++
      as_word (d_words d))).
Proof.
  intros (_ & _ & _ & _ & M & WS & WP & OT & WO & _). unfold write_types.
  rewrite (marks_write _ M). cbn [obind]. rewrite (outcomes_map _ xstop _ _ WP stop_writes). cbn [obind].
  rewrite (outcomes_map _ xstart _ _ WS start_writes). cbn [obind]. rewrite (outcomes_map _ xott _ _ OT ottava_writes). cbn [obind].
  rewrite (outcomes_map _ xword _ _ WO word_writes).
  destruct (outcomes write_tempo (d_tempos d)); cbn [obind]; [ | reflexivity | reflexivity]. destruct (d_words d); reflexivity.
Qed.

Lemma types_write tick staff d : numbers_ok tick staff d -> beats_only d -> write_types d = Ok (segments d as_word).
Proof.
  intros N B. rewrite (all_but_tempos d tick staff N), (outcomes_map _ xtempo _ _ B tempo_writes). cbn [obind]. unfold segments. rewrite !map_map. reflexivity.
Qed.

(** ** The file *)

Lemma Forall2_map_r {A B} (R : A -> B -> Prop) (g : A -> B) (P : A -> Prop) l : Forall P l -> (forall x, P x -> R x (g x)) -> Forall2 R l (map g l).
Proof. intros F H. induction F; cbn [map]; constructor; auto. Qed.
Lemma Forall2_map_all {A B} (R : A -> B -> Prop) (g : A -> B) l : (forall x, R x (g x)) -> Forall2 R l (map g l).
Proof. intros H. induction l; cbn [map]; constructor; auto. Qed.

Lemma duration_kept n : durationMap_toApi (durationMap_toCore n) = kept_duration n.
Proof. destruct n; reflexivity. Qed.

Lemma number_written n : number_attribute n = if n <=? 0 then None else Some (Z.min 6 n).
Proof.
  unfold number_attribute. destruct (Z.ltb_spec 0 n), (Z.leb_spec n 0); try lia; [ | reflexivity]. f_equal.
  unfold Integers.construct, mk_int_range, Integers.clamp. cbn [ctor_bounds fst snd ir_value].
  destruct (Z.ltb_spec n 1), (Z.ltb_spec 6 n); lia.
Qed.

Lemma types_are_written tick staff d : numbers_ok tick staff d -> types_written d (map stream_type (segments d as_word)).
Proof.
  intros (_ & _ & _ & _ & M & WS & WP & OT & WO & _). unfold segments. rewrite !map_app, !map_map. unfold types_written.
  eexists _, _, _, _, _, _, _, _. split; [reflexivity | ].
  split; [ | split; [ | split; [ | split; [ | split; [ | split; [ | split]]]]]].
  - change (filter (fun m => is_dynamic m || is_pedal m) (d_marks d)) with (filter shown_mark (d_marks d)).
    assert (F : Forall (fun m => position_ok storable (m_position m) /\ shown_mark m = true) (filter shown_mark (d_marks d))).
    { rewrite Forall_forall in *. intros m I. apply filter_In in I as [I J]. split; [exact (M m I) | exact J]. }
    apply (Forall2_map_r _ _ _ _ F). intros m [P S]. unfold mark_written, tmark. destruct (is_pedal m) eqn:E.
    + cbn [stream_type]. exists (xp true (m_position m)). split; [ | apply xp_at]. unfold xped, is_pedal in *.
      destruct (pedal_types _ E) as [-> | ->]; reflexivity.
    + unfold shown_mark in S. rewrite E, orb_false_r in S. destruct (own_dynamic m S P) as [_ W]. exists (xdyn m). split; [reflexivity | apply W].
  - apply Forall2_map_all. intros w. exists (xp false (wp_position w)). split; [reflexivity | apply xp_at].
  - apply Forall2_map_all. intros w. eexists _, _, _, _, (xp false (ws_position w)). split; [reflexivity | ]. split; [apply xp_at | ].
    split; [destruct (ws_type w); reflexivity | apply xl_written].
  - apply Forall2_map_all. intros s. reflexivity.
  - apply Forall2_map_all. intros o. unfold ottavaStart_written. eexists _, _. split; [ | reflexivity]. split; [reflexivity | ]. split; reflexivity.
  - apply Forall2_map_all. intros s. unfold bracketStart_written. cbn [stream_type]. unfold write_bracketStart. rewrite number_written. reflexivity.
  - apply Forall2_map_all. intros t. exists (durationMap_toCore (b_duration (te_beats t))). split; [apply duration_kept | ].
    reflexivity.
  - unfold words_written, as_word. destruct (d_words d) as [ | w l]; [reflexivity | ]. eexists. split; [reflexivity | ].
    cbn [stream_type]. rewrite map_map. apply (Forall2_map_r _ _ _ _ WO). intros v [P F].
    exists (xp true (wo_position v)), (file_font (xf (wo_font v))), (write_decoration (wo_font v)).
    split; [reflexivity | ]. split; [apply xp_at | apply font_is_written, F].
Qed.

Lemma last_placements_map l : forall o,
  fold_left (fun old p => match p with api_Placement_unspecified => old | p => p end) (map (fun m => placement (m_position m)) (filter is_pedal l)) (placed o) =
  placed (fold_left (fun old m => if isMarkPedal (m_type m) then match placement (m_position m) with api_Placement_unspecified => old | p => Some (placementMap_toCore p) end else old) l o).
Proof.
  induction l as [ | m l IH]; intros o; [reflexivity | ]. cbn [fold_left filter]. rewrite <- IH. unfold is_pedal at 1.
  destruct (predicates_sections (m_type m)) as (_ & _ & _ & _ & _ & Q & _). rewrite Q. destruct (pedal_section (m_type m)); [ | reflexivity].
  cbn [map fold_left]. destruct (placement (m_position m)); reflexivity.
Qed.

Lemma placement_written d : placed (write_placement d) = written_placement d.
Proof.
  unfold write_placement, written_placement, last_placement. cbn [fold_left]. rewrite <- last_placements_map. f_equal. destruct (d_placement d); reflexivity.
Qed.

Lemma placement_shown d : match write_placement d with
   | Some p => placementMap_toApi p = written_placement d /\ written_placement d <> api_Placement_unspecified
   | None => written_placement d = api_Placement_unspecified
   end.
Proof. rewrite <- placement_written. destruct (write_placement d) as [[ | ] | ]; [split; [reflexivity | discriminate] | split; [reflexivity | discriminate] | reflexivity]. Qed.

Definition offset_of (tick t : Z) : option Q :=
  if t - tick =? 0 then None else Some (stored DivisionsValue (inject_Z (t - tick))).

Lemma offset_writes tick t : is_int (t - tick) ->
  exists o, (if t - tick =? 0 then Ok None else omap Some (decimal_value DivisionsValue (inject_Z (t - tick)))) = Ok o /\
    match o with Some q => (q == inject_Z (t - tick))%Q /\ t <> tick | None => t = tick end.
Proof.
  intros [A B]. destruct (Z.eqb_spec (t - tick) 0) as [E | N].
  - exists None. split; [reflexivity | lia].
  - destruct (MeasureSync.element_integer DivisionsValue (t - tick)) as (q & Q1 & Q2); [exact I | lia | ].
    unfold MeasureWriter.element_value in Q1. unfold decimal_value. rewrite Q1. exists (Some q). split; [reflexivity | ]. split; [exact Q2 | lia].
Qed.

Lemma staff_written staff : 0 <= staff < 2 ^ 31 - 1 -> ir_value (Integers.construct PositiveInteger (staff + 1)) = staff + 1.
Proof.
  intros H. assert (X : staff + 1 <? 1 = false) by (apply Z.ltb_ge; lia). assert (Y : int_max <? staff + 1 = false) by (apply Z.ltb_ge; unfold int_max; lia).
  change (Integers.clamp 1 int_max (staff + 1) = staff + 1). unfold Integers.clamp. rewrite X, Y. reflexivity.
Qed.

Lemma nothing_segments d : nothing_to_write d <-> segments d as_word = [].
Proof.
  unfold nothing_to_write, segments. change (fun m => is_dynamic m || is_pedal m) with shown_mark. split.
  - intros (-> & -> & -> & -> & -> & -> & -> & ->). reflexivity.
  - intros H. repeat (apply app_eq_nil in H; let X := fresh "X" in destruct H as [X H]).
    apply map_eq_nil in X, X0, X1, X2, X3, X4, X5. unfold as_word in H. destruct (d_words d); [ | discriminate H]. repeat split; assumption.
Qed.

Lemma written_nothing tick staff d : numbers_ok tick staff d -> nothing_to_write d -> write_direction tick staff d = Ok None.
Proof.
  intros N E. unfold write_direction. pose proof N as (_ & _ & T & _). rewrite (as_int_in _ T). cbn [obind].
  destruct (offset_writes tick (d_tick d) T) as (o & O & _). rewrite O. cbn [obind].
  rewrite (types_write tick staff d N), (proj1 (nothing_segments d) E); [reflexivity | ]. unfold beats_only. destruct E as [-> _]. constructor.
Qed.

Lemma written_direction tick staff d : numbers_ok tick staff d -> beats_only d -> ~ nothing_to_write d ->
  exists o, write_direction tick staff d = Ok (Some (mkXDirection (write_placement d) (segments d as_word) o
      (if d_isStaffValueSpecified d || negb (staff =? 0) then Some (staff + 1) else None))) /\
    match o with Some q => (q == inject_Z (d_tick d - tick))%Q /\ d_tick d <> tick | None => d_tick d = tick end.
Proof.
  intros N B E. unfold write_direction. pose proof N as (_ & _ & T & S & _). rewrite (as_int_in _ T). cbn [obind].
  destruct (offset_writes tick (d_tick d) T) as (o & O & P). rewrite O. cbn [obind]. exists o. split; [ | exact P].
  rewrite (types_write tick staff d N B). cbn [obind]. rewrite (staff_written staff S).
  destruct (segments d as_word) eqn:L; [destruct (E (proj2 (nothing_segments d) L)) | reflexivity].
Qed.

Lemma file_written tick staff d : numbers_ok tick staff d -> beats_only d -> ~ nothing_to_write d ->
  exists x, write_direction tick staff d = Ok (Some x) /\ direction_written tick staff d (stream_direction x).
Proof.
  intros N B E. destruct (written_direction tick staff d N B E) as (o & O & P). eexists. split; [exact O | ].
  unfold direction_written, stream_direction. cbn [f_types f_placement f_offset f_staff dx_placement dx_types dx_offset dx_staff].
  split; [apply (types_are_written tick staff), N | ]. split; [apply placement_shown | ]. split; [exact P | reflexivity].
Qed.

(** ** Read back *)

Lemma types_reread tick staff d : numbers_ok tick staff d -> Forall2 type_read (map stream_type (segments d as_word)) (segments d as_read).
Proof.
  intros _. unfold segments. rewrite !map_app, !map_map.
  assert (K : forall {A} (g : A -> list echild) (h : A -> xtype) l, (forall a, type_read (g a) (h a)) -> Forall2 type_read (map g l) (map h l)).
  { clear. intros A g h l H. induction l; cbn [map]; constructor; auto. }
  repeat (apply Forall2_app; [apply K | ]).
  - intros m. unfold tmark. destruct (is_pedal m); [apply (read_pedal _ []) | apply (read_dynamics [xdyn m]); discriminate].
  - intros w. apply (read_wedge _ []).
  - intros w. apply (read_wedge _ []).
  - intros s. apply (read_octave _ []).
  - intros o. apply (read_octave _ []).
  - intros s. apply (read_bracket _ []).
  - intros t. apply (read_metronome_type _ _ []). apply (read_per_minute (Some _) _ _).
  - unfold as_word, as_read. destruct (d_words d) as [ | w l]; [constructor | ]. constructor; [ | constructor]. cbn [stream_type]. rewrite map_map.
    change (map (fun x => EWords (mkXWords (xs_text (xword x)) (xs_position (xword x)) (file_font (xs_font (xword x))) (xs_decoration (xword x)))) (w :: l))
      with (map (fun x => EWords (fword x)) (w :: l)). rewrite <- map_map. apply read_words. discriminate.
Qed.

Lemma flat_maps {A B C} (g : A -> B) (k : B -> list C) l : flat_map k (map g l) = flat_map (fun x => k (g x)) l.
Proof. induction l as [ | x l IH]; [reflexivity | ]. cbn [map flat_map]. rewrite IH. reflexivity. Qed.
Lemma flat_none {A C} (k : A -> list C) l : (forall x, k x = []) -> flat_map k l = [].
Proof. intros H. induction l as [ | x l IH]; [reflexivity | ]. cbn [flat_map]. rewrite H, IH. reflexivity. Qed.
Lemma flat_each {A C} (k : A -> list C) (h : A -> C) (P : A -> Prop) l : Forall P l -> (forall x, P x -> k x = [h x]) -> flat_map k l = map h l.
Proof. intros F H. induction F as [ | x l X _ IH]; [reflexivity | ]. cbn [flat_map map]. rewrite (H x X), IH. reflexivity. Qed.
Lemma flat_every {A C} (k : A -> list C) (h : A -> C) l : (forall x, k x = [h x]) -> flat_map k l = map h l.
Proof. intros H. induction l as [ | x l IH]; [reflexivity | ]. cbn [flat_map map]. rewrite H, IH. reflexivity. Qed.

Lemma collect {C} (k : xtype -> list C) d : flat_map k (segments d as_read) =
  flat_map (fun m => k (tmark m)) (filter shown_mark (d_marks d)) ++ flat_map (fun w => k (TWedge (xstop w))) (d_wedgeStops d) ++
  flat_map (fun w => k (TWedge (xstart w))) (d_wedgeStarts d) ++ flat_map (fun s => k (TOctaveShift (write_ottavaStop s))) (d_ottavaStops d) ++
  flat_map (fun o => k (TOctaveShift (xott o))) (d_ottavaStarts d) ++ flat_map (fun s => k (TBracket (write_bracketStart s))) (d_bracketStarts d) ++
  flat_map (fun t => k (TMetronome (xtempo t))) (d_tempos d) ++ match d_words d with [] => [] | l => k (TWords (map fword l)) end.
Proof.
  unfold segments. rewrite !flat_map_app, !flat_maps. do 7 f_equal. unfold as_read. destruct (d_words d); [reflexivity | ].
  cbn [flat_map]. apply app_nil_r.
Qed.

Lemma no_words {C} (l : list WordsData) : match l with [] => [] | _ => [] end = @nil C.
Proof. destruct l; reflexivity. Qed.

Lemma mark_none {C} (k : xtype -> list C) l : (forall p, k (TPedal p) = []) -> (forall y, k (TDynamics y) = []) -> flat_map (fun m => k (tmark m)) l = [].
Proof. intros A B. apply flat_none. intros m. unfold tmark. destruct (is_pedal m); auto. Qed.

Lemma back_metronomes d : flat_map metronomes_in (segments d as_read) = map xtempo (d_tempos d).
Proof.
  rewrite collect, mark_none by reflexivity. rewrite !flat_none by reflexivity. cbn [metronomes_in app].
  rewrite (flat_every _ xtempo) by reflexivity. rewrite no_words. apply app_nil_r.
Qed.

Lemma tempo_back t : is_int (b_beats (te_beats t)) -> getTempoData (xtempo t) = Ok (kept_tempo t).
Proof.
  intros I. unfold getTempoData, xtempo. cbn [me_relation me_second me_unit me_dots me_perMinute].
  rewrite (proj2 (stringToInt_success _ _) (conj I eq_refl)). cbn [omap obind]. rewrite duration_kept.
  assert (E : Z.of_nat (Z.to_nat (b_dots (te_beats t))) = Z.max 0 (b_dots (te_beats t))) by lia. rewrite E. reflexivity.
Qed.

Lemma back_marks t p d : Forall (fun m => position_ok storable (m_position m)) (d_marks d) ->
  flat_map (marks_in t p) (segments d as_read) = kept_direction_marks t (placed p) (d_marks d).
Proof.
  intros M. rewrite collect.
  rewrite (flat_none (fun w => marks_in t p (TWedge (xstop w)))) by reflexivity. rewrite (flat_none (fun w => marks_in t p (TWedge (xstart w)))) by reflexivity.
  rewrite (flat_none (fun s => marks_in t p (TOctaveShift (write_ottavaStop s)))) by reflexivity.
  rewrite (flat_none (fun s => marks_in t p (TOctaveShift (xott s)))) by reflexivity.
  rewrite (flat_none (fun s => marks_in t p (TBracket (write_bracketStart s)))) by reflexivity.
  rewrite (flat_none (fun s => marks_in t p (TMetronome (xtempo s)))) by reflexivity. cbn [app marks_in]. rewrite no_words, app_nil_r.
  unfold kept_direction_marks. change (fun m => is_dynamic m || is_pedal m) with shown_mark.
  assert (F : Forall (fun m => position_ok storable (m_position m) /\ shown_mark m = true) (filter shown_mark (d_marks d))).
  { rewrite Forall_forall in *. intros m I. apply filter_In in I as [I J]. split; [exact (M m I) | exact J]. }
  apply (flat_each _ _ _ _ F). intros m [P S]. unfold tmark, kept_direction_mark. destruct (is_pedal m) eqn:E.
  - cbn [marks_in]. unfold xped. cbn [xl_position xl_type]. rewrite xp_shown. unfold is_pedal in E. destruct (pedal_types _ E) as [-> | ->]; reflexivity.
  - cbn [marks_in map]. unfold shown_mark in S. rewrite E, orb_false_r in S. destruct (own_dynamic m S P) as [_ W]. rewrite W. reflexivity.
Qed.

Lemma back_wedgeStarts d : flat_map wedgeStarts_in (segments d as_read) = map kept_wedgeStart (d_wedgeStarts d).
Proof.
  rewrite collect, mark_none by reflexivity.
  rewrite (flat_none (fun w => wedgeStarts_in (TWedge (xstop w)))) by reflexivity.
  rewrite (flat_none (fun s => wedgeStarts_in (TOctaveShift (write_ottavaStop s)))) by reflexivity.
  rewrite (flat_none (fun s => wedgeStarts_in (TOctaveShift (xott s)))) by reflexivity.
  rewrite (flat_none (fun s => wedgeStarts_in (TBracket (write_bracketStart s)))) by reflexivity.
  rewrite (flat_none (fun s => wedgeStarts_in (TMetronome (xtempo s)))) by reflexivity. cbn [app]. cbn [wedgeStarts_in]. rewrite no_words, app_nil_r.
  apply flat_every. intros w. unfold kept_wedgeStart. cbn [wedgeStarts_in xstart xw_type xw_number xw_spread xw_lineType xw_dash xw_space xw_position].
  rewrite xl_shown, xp_shown. cbn [number_shown]. destruct (ws_type w); reflexivity.
Qed.

Lemma start_not_stop w : wedgeStops_in (TWedge (xstart w)) = [].
Proof. unfold wedgeStops_in, xstart. cbn [xw_type]. destruct (ws_type w); reflexivity. Qed.

Lemma back_wedgeStops d : flat_map wedgeStops_in (segments d as_read) = map kept_wedgeStop (d_wedgeStops d).
Proof.
  rewrite collect, mark_none by reflexivity.
  rewrite (flat_none (fun w => wedgeStops_in (TWedge (xstart w)))) by exact start_not_stop.
  rewrite (flat_none (fun s => wedgeStops_in (TOctaveShift (write_ottavaStop s)))) by reflexivity.
  rewrite (flat_none (fun s => wedgeStops_in (TOctaveShift (xott s)))) by reflexivity.
  rewrite (flat_none (fun s => wedgeStops_in (TBracket (write_bracketStart s)))) by reflexivity.
  rewrite (flat_none (fun s => wedgeStops_in (TMetronome (xtempo s)))) by reflexivity. cbn [app]. cbn [wedgeStops_in]. rewrite no_words, app_nil_r.
  apply flat_every. intros w. unfold kept_wedgeStop, xstop. cbn [xw_type xw_number xw_spread xw_position]. rewrite xp_shown. reflexivity.
Qed.

Lemma back_ottavaStarts tick d : flat_map (ottavaStarts_in tick) (segments d as_read) = map (kept_ottavaStart tick) (d_ottavaStarts d).
Proof.
  rewrite collect, mark_none by reflexivity.
  rewrite (flat_none (fun w => ottavaStarts_in tick (TWedge (xstop w)))) by reflexivity.
  rewrite (flat_none (fun w => ottavaStarts_in tick (TWedge (xstart w)))) by reflexivity.
  rewrite (flat_none (fun s => ottavaStarts_in tick (TOctaveShift (write_ottavaStop s)))) by reflexivity.
  rewrite (flat_none (fun s => ottavaStarts_in tick (TBracket (write_bracketStart s)))) by reflexivity.
  rewrite (flat_none (fun s => ottavaStarts_in tick (TMetronome (xtempo s)))) by reflexivity. cbn [app]. cbn [ottavaStarts_in]. rewrite no_words, app_nil_r.
  apply flat_every. intros o. unfold kept_ottavaStart, xott. cbn [xo_type xo_number xo_size xo_dash xo_space xo_position xo_font number_shown].
  destruct (os_type o); reflexivity.
Qed.

Lemma ottava_not_stop tick o : ottavaStops_in tick (TOctaveShift (xott o)) = [].
Proof. unfold ottavaStops_in, xott. cbn [xo_type]. destruct (os_type o); reflexivity. Qed.

Lemma back_ottavaStops tick d : flat_map (ottavaStops_in tick) (segments d as_read) = map (fun _ => kept_ottavaStop tick) (d_ottavaStops d).
Proof.
  rewrite collect, mark_none by reflexivity.
  rewrite (flat_none (fun w => ottavaStops_in tick (TWedge (xstop w)))) by reflexivity.
  rewrite (flat_none (fun w => ottavaStops_in tick (TWedge (xstart w)))) by reflexivity.
  rewrite (flat_none (fun s => ottavaStops_in tick (TOctaveShift (xott s)))) by apply ottava_not_stop.
  rewrite (flat_none (fun s => ottavaStops_in tick (TBracket (write_bracketStart s)))) by reflexivity.
  rewrite (flat_none (fun s => ottavaStops_in tick (TMetronome (xtempo s)))) by reflexivity. cbn [app]. cbn [ottavaStops_in]. rewrite no_words, app_nil_r.
  apply flat_every. intros o. reflexivity.
Qed.

Lemma back_bracketStarts tick d : flat_map (bracketStarts_in tick) (segments d as_read) = map (kept_bracketStart tick) (d_bracketStarts d).
Proof.
  rewrite collect, mark_none by reflexivity.
  rewrite (flat_none (fun w => bracketStarts_in tick (TWedge (xstop w)))) by reflexivity.
  rewrite (flat_none (fun w => bracketStarts_in tick (TWedge (xstart w)))) by reflexivity.
  rewrite (flat_none (fun s => bracketStarts_in tick (TOctaveShift (write_ottavaStop s)))) by reflexivity.
  rewrite (flat_none (fun s => bracketStarts_in tick (TOctaveShift (xott s)))) by reflexivity.
  rewrite (flat_none (fun s => bracketStarts_in tick (TMetronome (xtempo s)))) by reflexivity. cbn [app]. cbn [bracketStarts_in]. rewrite no_words, app_nil_r.
  apply flat_every. intros s. unfold kept_bracketStart, write_bracketStart. cbn [xb_type xb_number xb_position xb_color xb_lineType xb_dash xb_space].
  rewrite number_written. assert (E : number_shown 1 (if ss_number s <=? 0 then None else Some (Z.min 6 (ss_number s))) = Z.max 1 (Z.min 6 (ss_number s))).
  { unfold number_shown. destruct (Z.leb_spec (ss_number s) 0); lia. }
  rewrite E. reflexivity.
Qed.

Lemma back_none {C} (k : xtype -> list C) d :
  (forall p, k (TPedal p) = []) -> (forall y, k (TDynamics y) = []) -> (forall w, k (TWedge w) = []) -> (forall w, k (TOctaveShift w) = []) ->
  (forall w, k (TBracket (write_bracketStart w)) = []) -> (forall w, k (TMetronome w) = []) -> (forall w, k (TWords w) = []) ->
  flat_map k (segments d as_read) = [].
Proof.
  intros A B E F G H J. rewrite collect, mark_none by assumption. rewrite !flat_none by auto. cbn [app]. destruct (d_words d); auto.
Qed.

Lemma back_words d : Forall (fun w => position_ok storable (wo_position w) /\ font_ok (wo_font w)) (d_words d) ->
  flat_map words_in (segments d as_read) = map kept_words (d_words d).
Proof.
  intros W. rewrite collect, mark_none by reflexivity. rewrite !flat_none by reflexivity. cbn [app words_in].
  assert (E : match d_words d with [] => [] | l => map (fun w => mkWords (xs_text w) (position_shown (xs_position w))
       (font_shown (xs_font w) (xs_decoration w)) false black_on_nothing) (map fword l) end = map (fun w => mkWords (xs_text (fword w)) (position_shown (xs_position (fword w)))
       (font_shown (xs_font (fword w)) (xs_decoration (fword w))) false black_on_nothing) (d_words d)).
  { destruct (d_words d); [reflexivity | ]. rewrite map_map. reflexivity. }
  rewrite E. clear E. apply map_ext_in. intros w I. rewrite Forall_forall in W. destruct (W w I) as [P F]. unfold fword, kept_words.
  cbn [xs_text xs_position xs_font xs_decoration]. rewrite xp_shown, (font_back _ F). reflexivity.
Qed.

Lemma offset_back tick t o : is_int tick -> is_int t -> is_int (t - tick) ->
  match o with Some q => (q == inject_Z (t - tick))%Q /\ t <> tick | None => t = tick end -> MeasureReader.direction_tick o tick = Ok t.
Proof.
  intros A B C O. destruct o as [q | ]; cbn [MeasureReader.direction_tick]; [ | rewrite O; reflexivity]. destruct O as [O _].
  rewrite (round_half_ext _ _ O), round_half_Z, (as_int_in _ C). cbn [obind]. replace (tick + (t - tick)) with t by lia. apply as_int_in, B.
Qed.

Lemma back tick staff d : numbers_ok tick staff d -> beats_only d -> ~ nothing_to_write d ->
  direction_back tick staff d = Ok (Some (kept_direction tick staff d)).
Proof.
  intros N B E. unfold direction_back. destruct (written_direction tick staff d N B E) as (o & O & P). rewrite O. cbn [obind].
  pose proof N as (T1 & T2 & T3 & _ & M & _ & _ & _ & WO & TE).
  assert (R := direction_reads tick (stream_direction (mkXDirection (write_placement d) (segments d as_word) o
      (if d_isStaffValueSpecified d || negb (staff =? 0) then Some (staff + 1) else None))) (segments d as_read) (d_tick d)).
  unfold stream_direction in *. cbn [f_types f_placement f_offset f_staff dx_placement dx_types dx_offset dx_staff] in *.
  rewrite R; [ | apply (types_reread tick staff), N | apply (offset_back tick _ o T1 T2 T3 P)]. clear R.
  rewrite back_metronomes.
  assert (Q : outcomes getTempoData (map xtempo (d_tempos d)) = Ok (map kept_tempo (d_tempos d))).
  { clear - TE. induction TE as [ | t l I _ IH]; [reflexivity | ]. cbn [map outcomes]. rewrite (tempo_back t I). cbn [obind]. rewrite IH. reflexivity. }
  rewrite Q. clear Q. cbn [omap obind]. unfold read_as, kept_direction.
  rewrite (back_marks _ _ _ M), back_wedgeStarts, back_wedgeStops, back_ottavaStarts, back_ottavaStops, back_bracketStarts, (back_words _ WO).
  rewrite (back_none (bracketStops_in tick)), (back_none segnos_in), (back_none codas_in), (back_none rehearsals_in) by (intros; reflexivity).
  rewrite placement_written.
  destruct (d_isStaffValueSpecified d || negb (staff =? 0)); reflexivity.
Qed.

Lemma back_nothing tick staff d : numbers_ok tick staff d -> nothing_to_write d -> direction_back tick staff d = Ok None.
Proof. intros N E. unfold direction_back. rewrite (written_nothing tick staff d N E). reflexivity. Qed.

(** ** Tempos that cannot be written *)

Lemma throws tick staff d : numbers_ok tick staff d -> ~ beats_only d -> write_direction tick staff d = Throw.
Proof.
  intros N B. unfold write_direction. pose proof N as (_ & _ & T & _). rewrite (as_int_in _ T). cbn [obind].
  destruct (offset_writes tick (d_tick d) T) as (o & O & _). rewrite O. cbn [obind]. rewrite (all_but_tempos d tick staff N).
  assert (E : outcomes write_tempo (d_tempos d) = Throw).
  { assert (X : Exists (fun t => te_type t <> Tempo_beatsPerMinute) (d_tempos d)).
    { apply Exists_Forall_neg; [ | exact B]. intros t. destruct (te_type t); [right | left | right | right]; congruence. }
    apply Exists_exists in X as (t & I & X). apply (outcomes_throw _ _ t I).
    - unfold write_tempo. destruct (te_type t); congruence.
    - intros y _. unfold write_tempo. destruct (te_type y); discriminate. }
  rewrite E. reflexivity.
Qed.
