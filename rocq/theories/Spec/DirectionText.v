(** What a <direction> says in MusicXML, and what comes back of a direction that is written
    and read. *)
From Coq Require Import List Ascii Bool String ZArith QArith.
From Verif Require Import Model.Base Model.Text Model.Strings Model.LongDouble Model.Integers Model.Decimals
  Model.EnumLookup Model.CoreEnums Model.ApiEnums Model.ConverterTables Model.MarkData Model.CustomEnums Model.Color
  Model.NumberOrWord Model.Notations Model.Directions Spec.Numerals Spec.MarkGroups Spec.Attachments Spec.NoteReading.
Import ListNotations.
Local Open Scope Z_scope.

(** ** Written and read back *)

(** The coordinates, and the horizontal alignment or not. *)
Definition kept_coordinates (halign : bool) (place : api_Placement) (p : PositionData) : PositionData :=
  mkPosition (option_map (stored TenthsValue) (defaultX p)) (option_map (stored TenthsValue) (defaultY p))
    (option_map (stored TenthsValue) (relativeX p)) (option_map (stored TenthsValue) (relativeY p))
    (if halign then horizontalAlignment p else api_HorizontalAlignment_unspecified) api_VerticalAlignment_unspecified place.

(** The type of the line, if the element has one, and its dashes. *)
Definition kept_line (type : bool) (l : LineData) : LineData :=
  mkLine (if type then lineType l else api_LineType_unspecified) api_LineHook_unspecified None
    (option_map (stored TenthsValue) (dashLength l)) (option_map (stored TenthsValue) (spaceLength l)).

Definition black_on_nothing : ColorData := mkColorData 255 255 255 false 255.
Definition plain_font : FontData :=
  mkFont Size_unspecified (-1) api_CssSize_unspecified api_FontStyle_unspecified api_FontWeight_unspecified [] 0 0 0.
Definition plain_print : PrintData := mkPrint api_Bool_unspecified plain_font false black_on_nothing.
Definition no_position : PositionData :=
  mkPosition None None None None api_HorizontalAlignment_unspecified api_VerticalAlignment_unspecified api_Placement_unspecified.
Definition no_line : LineData := mkLine api_LineType_unspecified api_LineHook_unspecified None None None.

(** The names of the families are joined with commas: the pieces between the commas come
    back, without a last one that is empty. *)
Fixpoint between_commas (t : str) : list str :=
  match t with
  | [] => [[]]
  | c :: r =>
      match between_commas r with
      | a :: l => if Ascii.eqb c "," then [] :: a :: l else (c :: a) :: l
      | [] => []
      end
  end.
Definition without_last_empty (l : list str) : list str := match rev l with [] :: r => rev r | _ => l end.
Definition kept_families (l : list str) : list str :=
  map token_of (without_last_empty (flat_map between_commas (map token_of l))).

(** No more than three lines. *)
Definition kept_lines (n : Z) : Z := Z.max 0 (Z.min 3 n).

Definition kept_css (c : api_CssSize) : api_CssSize := match c with api_CssSize_unspecified => api_CssSize_medium | c => c end.

Definition kept_font (f : FontData) : FontData :=
  mkFont (sizeType f)
    (match sizeType f with Size_point => stored Decimal (sizePoint f) | _ => -1 end)
    (match sizeType f with Size_css => kept_css (sizeCss f) | _ => api_CssSize_unspecified end)
    (fontStyle f) (fontWeight f) (kept_families (fontFamily f))
    (kept_lines (underline f)) (kept_lines (overline f)) (kept_lines (lineThrough f)).

(** Number level, spread (but for what is stored) and colour. *)
Definition kept_wedgeStart (w : WedgeStart) : WedgeStart :=
  mkWedgeStart (-1) (match ws_type w with api_WedgeType_unspecified => api_WedgeType_crescendo | t => t end)
    (option_map (stored TenthsValue) (ws_spread w)) (kept_line true (ws_line w))
    (kept_coordinates false api_Placement_unspecified (ws_position w)) black_on_nothing.
Definition kept_wedgeStop (w : WedgeStop) : WedgeStop :=
  mkWedgeStop (-1) (kept_coordinates false api_Placement_unspecified (wp_position w)) (option_map (stored TenthsValue) (wp_spread w)).

(** [tick]: where the element is in the measure, before its offset. *)
Definition kept_ottavaStart (tick : Z) (o : OttavaStart) : OttavaStart :=
  mkOttavaStart (mkSpannerStart (-1) tick no_position plain_print (kept_line false (ss_line (os_start o))))
    (match os_type o with Ottava_unspecified => Ottava_8va | t => t end).
Definition kept_ottavaStop (tick : Z) : SpannerStop := mkSpannerStop (-1) tick no_position.
Definition kept_bracketStart (tick : Z) (s : SpannerStart) : SpannerStart :=
  mkSpannerStart (Z.max 1 (Z.min 6 (ss_number s))) tick no_position plain_print no_line.

Definition kept_words (w : WordsData) : WordsData :=
  mkWords (wo_text w) (kept_coordinates true api_Placement_unspecified (wo_position w)) (kept_font (wo_font w)) false black_on_nothing.

Definition no_beats : BeatsPerMinute := mkBeats api_DurationName_unspecified (-1) (-1).
Definition no_modulation : MetricModulation :=
  mkModulation api_DurationName_unspecified (-1) api_DurationName_unspecified (-1) no_beats.
Definition tempo_at (type : TempoType) (b : BeatsPerMinute) (text : str) : TempoData :=
  mkTempo 0 api_Bool_unspecified plain_print no_position type b no_modulation text no_beats.
Definition kept_tempo (t : TempoData) : TempoData :=
  tempo_at Tempo_beatsPerMinute
    (mkBeats (kept_duration (b_duration (te_beats t))) (Z.max 0 (b_dots (te_beats t))) (b_beats (te_beats t))) [].

(** The placement of the direction, unless a pedal mark has one: the last counts. *)
Definition is_pedal (m : MarkData) : bool := pedal_section (m_type m).
Definition is_dynamic (m : MarkData) : bool := dynamics_section (m_type m).
Definition last_placement (l : list api_Placement) : api_Placement :=
  fold_left (fun old p => match p with api_Placement_unspecified => old | p => p end) l api_Placement_unspecified.
Definition written_placement (d : DirectionData) : api_Placement :=
  last_placement (d_placement d :: map (fun m => placement (m_position m)) (filter is_pedal (d_marks d))).

(** Marks that are neither dynamics nor pedal marks are lost. *)
Definition kept_direction_mark (tick : Z) (place : api_Placement) (m : MarkData) : MarkData :=
  if is_pedal m then mkMark (m_type m) [] tick 0 (kept_coordinates true place (m_position m)) else kept_mark tick m.
Definition kept_direction_marks (tick : Z) (place : api_Placement) (l : list MarkData) : list MarkData :=
  map (kept_direction_mark tick place) (filter (fun m => is_dynamic m || is_pedal m) l).

(** All of it: bracket stops, segnos, codas and rehearsal marks are lost. *)
Definition kept_direction (tick staff : Z) (d : DirectionData) : DirectionData :=
  mkDirection (d_tick d) (written_placement d) (-1) (d_isStaffValueSpecified d || negb (staff =? 0))
    (map kept_tempo (d_tempos d)) (kept_direction_marks (d_tick d) (written_placement d) (d_marks d))
    (map kept_wedgeStart (d_wedgeStarts d)) (map kept_wedgeStop (d_wedgeStops d))
    (map (kept_ottavaStart tick) (d_ottavaStarts d)) (map (fun _ => kept_ottavaStop tick) (d_ottavaStops d))
    (map (kept_bracketStart tick) (d_bracketStarts d)) [] (map kept_words (d_words d)) [] [] [].

(** Nothing in it is written. *)
Definition nothing_to_write (d : DirectionData) : Prop :=
  d_tempos d = [] /\ filter (fun m => is_dynamic m || is_pedal m) (d_marks d) = [] /\ d_wedgeStarts d = [] /\ d_wedgeStops d = [] /\
  d_ottavaStarts d = [] /\ d_ottavaStops d = [] /\ d_bracketStarts d = [] /\ d_words d = [].

(** Numbers that can be stored. *)
Definition line_ok (l : LineData) : Prop := every storable (dashLength l) /\ every storable (spaceLength l).
Definition font_ok (f : FontData) : Prop := sizeType f = Size_point -> storable (sizePoint f).
Definition numbers_ok (tick staff : Z) (d : DirectionData) : Prop :=
  is_int tick /\ is_int (d_tick d) /\ is_int (d_tick d - tick) /\ 0 <= staff < 2 ^ 31 - 1 /\
  Forall (fun m => position_ok storable (m_position m)) (d_marks d) /\
  Forall (fun w => position_ok storable (ws_position w) /\ every storable (ws_spread w) /\ line_ok (ws_line w)) (d_wedgeStarts d) /\
  Forall (fun w => position_ok storable (wp_position w) /\ every storable (wp_spread w)) (d_wedgeStops d) /\
  Forall (fun o => line_ok (ss_line (os_start o))) (d_ottavaStarts d) /\
  Forall (fun w => position_ok storable (wo_position w) /\ font_ok (wo_font w)) (d_words d) /\
  Forall (fun t => is_int (b_beats (te_beats t))) (d_tempos d).

(** Tempos of the only kind that is written. *)
Definition beats_only (d : DirectionData) : Prop := Forall (fun t => te_type t = Tempo_beatsPerMinute) (d_tempos d).

(** *** Directions that come back as they were; numbers are compared as numbers *)

Definition same_line (l m : LineData) : Prop :=
  lineType l = lineType m /\ lineHook l = lineHook m /\ same_coordinate (endLength l) (endLength m) /\
  same_coordinate (dashLength l) (dashLength m) /\ same_coordinate (spaceLength l) (spaceLength m).
Definition same_font (f g : FontData) : Prop :=
  sizeType f = sizeType g /\ (sizePoint f == sizePoint g)%Q /\ sizeCss f = sizeCss g /\ fontStyle f = fontStyle g /\ fontWeight f = fontWeight g /\
  fontFamily f = fontFamily g /\ underline f = underline g /\ overline f = overline g /\ lineThrough f = lineThrough g.
Definition same_mark (m n : MarkData) : Prop :=
  m_type m = m_type n /\ m_name m = m_name n /\ m_tick m = m_tick n /\ m_print m = m_print n /\ same_position (m_position m) (m_position n).
Definition same_wedgeStart (v w : WedgeStart) : Prop :=
  ws_number v = ws_number w /\ ws_type v = ws_type w /\ same_coordinate (ws_spread v) (ws_spread w) /\ same_line (ws_line v) (ws_line w) /\
  same_position (ws_position v) (ws_position w) /\ ws_color v = ws_color w.
Definition same_wedgeStop (v w : WedgeStop) : Prop :=
  wp_number v = wp_number w /\ same_position (wp_position v) (wp_position w) /\ same_coordinate (wp_spread v) (wp_spread w).
Definition same_ottavaStart (v w : OttavaStart) : Prop :=
  os_type v = os_type w /\ ss_number (os_start v) = ss_number (os_start w) /\ ss_tick (os_start v) = ss_tick (os_start w) /\
  ss_position (os_start v) = ss_position (os_start w) /\ ss_print (os_start v) = ss_print (os_start w) /\
  same_line (ss_line (os_start v)) (ss_line (os_start w)).
Definition same_words (v w : WordsData) : Prop :=
  wo_text v = wo_text w /\ same_position (wo_position v) (wo_position w) /\ same_font (wo_font v) (wo_font w) /\
  wo_isColorSpecified v = wo_isColorSpecified w /\ wo_color v = wo_color w.
Definition same_direction (d e : DirectionData) : Prop :=
  d_tick d = d_tick e /\ d_placement d = d_placement e /\ d_voice d = d_voice e /\ d_isStaffValueSpecified d = d_isStaffValueSpecified e /\
  d_tempos d = d_tempos e /\ Forall2 same_mark (d_marks d) (d_marks e) /\ Forall2 same_wedgeStart (d_wedgeStarts d) (d_wedgeStarts e) /\
  Forall2 same_wedgeStop (d_wedgeStops d) (d_wedgeStops e) /\ Forall2 same_ottavaStart (d_ottavaStarts d) (d_ottavaStarts e) /\
  d_ottavaStops d = d_ottavaStops e /\ d_bracketStarts d = d_bracketStarts e /\ d_bracketStops d = d_bracketStops e /\
  Forall2 same_words (d_words d) (d_words e) /\ d_segnos d = d_segnos e /\ d_codas d = d_codas e /\ d_rehearsals d = d_rehearsals e.

(** The format has room for all of it. *)
Definition exact (t : decimal_type) (x : Q) : Prop := storable x /\ (stored t x == x)%Q.
Definition coordinates_fit (p : PositionData) : Prop :=
  every (exact TenthsValue) (defaultX p) /\ every (exact TenthsValue) (defaultY p) /\ every (exact TenthsValue) (relativeX p) /\
  every (exact TenthsValue) (relativeY p).
Definition line_fits (l : LineData) : Prop :=
  lineHook l = api_LineHook_unspecified /\ endLength l = None /\ every (exact TenthsValue) (dashLength l) /\ every (exact TenthsValue) (spaceLength l).
Definition font_fits (f : FontData) : Prop :=
  match sizeType f with
  | Size_unspecified => (sizePoint f == -1)%Q /\ sizeCss f = api_CssSize_unspecified
  | Size_css => (sizePoint f == -1)%Q /\ sizeCss f <> api_CssSize_unspecified
  | Size_point => exact Decimal (sizePoint f) /\ sizeCss f = api_CssSize_unspecified
  end /\ (fontFamily f = [] \/ family_ok (fontFamily f)) /\ 0 <= underline f <= 3 /\ 0 <= overline f <= 3 /\ 0 <= lineThrough f <= 3.
Definition mark_fits (tick : Z) (place : api_Placement) (m : MarkData) : Prop :=
  m_tick m = tick /\ m_print m = 0 /\ coordinates_fit (m_position m) /\
  ((m_type m = api_MarkType_pedal \/ m_type m = api_MarkType_damp) /\ m_name m = [] /\
     verticalAlignment (m_position m) = api_VerticalAlignment_unspecified /\ placement (m_position m) = place \/
   is_dynamic m = true /\
     (m_type m <> api_MarkType_otherDynamics -> m_name m = api_MarkType_name (m_type m)) /\
     (m_type m = api_MarkType_otherDynamics -> dynamic_called (m_name m) = None /\ m_name m <> lit "other-dynamics")).
Definition direction_fits (tick staff : Z) (d : DirectionData) : Prop :=
  is_int tick /\ is_int (d_tick d) /\ is_int (d_tick d - tick) /\ 0 <= staff < 2 ^ 31 - 1 /\ ~ nothing_to_write d /\
  d_voice d = -1 /\ (d_isStaffValueSpecified d = false -> staff = 0) /\
  Forall (fun t => t = tempo_at Tempo_beatsPerMinute (te_beats t) [] /\ b_duration (te_beats t) <> api_DurationName_unspecified /\
                   0 <= b_dots (te_beats t) /\ is_int (b_beats (te_beats t))) (d_tempos d) /\
  Forall (mark_fits (d_tick d) (d_placement d)) (d_marks d) /\
  Forall (fun w => ws_number w = -1 /\ ws_type w <> api_WedgeType_unspecified /\ every (exact TenthsValue) (ws_spread w) /\ line_fits (ws_line w) /\
                   coordinates_fit (ws_position w) /\ horizontalAlignment (ws_position w) = api_HorizontalAlignment_unspecified /\
                   verticalAlignment (ws_position w) = api_VerticalAlignment_unspecified /\ placement (ws_position w) = api_Placement_unspecified /\
                   ws_color w = black_on_nothing) (d_wedgeStarts d) /\
  Forall (fun w => wp_number w = -1 /\ every (exact TenthsValue) (wp_spread w) /\
                   coordinates_fit (wp_position w) /\ horizontalAlignment (wp_position w) = api_HorizontalAlignment_unspecified /\
                   verticalAlignment (wp_position w) = api_VerticalAlignment_unspecified /\ placement (wp_position w) = api_Placement_unspecified)
    (d_wedgeStops d) /\
  Forall (fun o => os_type o <> Ottava_unspecified /\ ss_number (os_start o) = -1 /\ ss_tick (os_start o) = tick /\
                   ss_position (os_start o) = no_position /\ ss_print (os_start o) = plain_print /\
                   lineType (ss_line (os_start o)) = api_LineType_unspecified /\ line_fits (ss_line (os_start o))) (d_ottavaStarts d) /\
  Forall (fun s => s = mkSpannerStop (-1) tick no_position) (d_ottavaStops d) /\
  Forall (fun s => s = mkSpannerStart (ss_number s) tick no_position plain_print no_line /\ 1 <= ss_number s <= 6) (d_bracketStarts d) /\
  Forall (fun w => coordinates_fit (wo_position w) /\ verticalAlignment (wo_position w) = api_VerticalAlignment_unspecified /\
                   placement (wo_position w) = api_Placement_unspecified /\ font_fits (wo_font w) /\ wo_isColorSpecified w = false /\
                   wo_color w = black_on_nothing) (d_words d) /\
  d_bracketStops d = [] /\ d_segnos d = [] /\ d_codas d = [] /\ d_rehearsals d = [].

(** ** The elements *)

(** The beats of a metronome: a note value with its dots. *)
Definition beat (v : option NoteTypeValue) (dots : nat) : list mchild := MBeatUnit v :: repeat MBeatUnitDot dots.
Definition beat_value (v : option NoteTypeValue) : NoteTypeValue := match v with Some v => v | None => NoteTypeValue_eighth end.

(** The contents of <metronome>: (beat-unit, beat-unit-dot*, (per-minute | beat-unit,
    beat-unit-dot* )) | (metronome-note+, (metronome-relation, metronome-note)?). One that has
    no contents is not refused. *)
Inductive metronome_read : list mchild -> xmetronome -> Prop :=
| read_nothing : metronome_read [] (mkXMetronome false NoteTypeValue_eighth 0 false [] NoteTypeValue_eighth 0)
| read_per_minute v n t : metronome_read (beat v n ++ [MPerMinute t]) (mkXMetronome false (beat_value v) n false t NoteTypeValue_eighth 0)
| read_modulation v n w m :
    metronome_read (beat v n ++ beat w m) (mkXMetronome false (beat_value v) n true [] (beat_value w) m)
| read_notes n : metronome_read (repeat MNote (S n)) (mkXMetronome true NoteTypeValue_eighth 0 false [] NoteTypeValue_eighth 0)
| read_relation n :
    metronome_read (repeat MNote (S n) ++ [MRelation; MNote]) (mkXMetronome true NoteTypeValue_eighth 0 false [] NoteTypeValue_eighth 0).

(** The contents of <direction-type>: one or more of rehearsal, segno, words, coda, dynamics
    or percussion; or one other element. What follows that is not looked at. An element of an
    unknown name is taken for an empty rehearsal mark. *)
Inductive type_read : list echild -> xtype -> Prop :=
| read_rehearsals l : l <> [] -> type_read (map ERehearsal l) (TRehearsal l)
| read_segnos l : l <> [] -> type_read (map ESegno l) (TSegno l)
| read_words l : l <> [] -> type_read (map EWords l) (TWords l)
| read_codas l : l <> [] -> type_read (map ECoda l) (TCoda l)
| read_dynamics l : l <> [] -> type_read (map EDynamics l) (TDynamics l)
| read_percussion n : type_read (repeat EPercussion (S n)) TOther
| read_wedge w r : type_read (EWedge w :: r) (TWedge w)
| read_bracket b r : type_read (EBracket b :: r) (TBracket b)
| read_pedal p r : type_read (EPedal p :: r) (TPedal p)
| read_octave o r : type_read (EOctaveShift o :: r) (TOctaveShift o)
| read_metronome_type c m r : metronome_read c m -> type_read (EMetronome c :: r) (TMetronome m)
| read_damp_all r : type_read (EDampAll :: r) TDampAll
| read_other r : type_read (EOther :: r) TOther
| read_unknown r : type_read (EUnknown :: r) (TRehearsal [mkXRehearsal [] (mkXPosition None None None None None None None)]).

(** Contents that make the document unreadable: none; elements of two kinds where many of one
    are allowed; a metronome of a beat and nothing else. *)
Definition repeatable (a : echild) : bool :=
  match a with ERehearsal _ | ESegno _ | EWords _ | ECoda _ | EDynamics _ | EPercussion => true | _ => false end.
Definition same_kind (a b : echild) : bool :=
  match a, b with
  | ERehearsal _, ERehearsal _ | ESegno _, ESegno _ | EWords _, EWords _ | ECoda _, ECoda _ | EDynamics _, EDynamics _ | EPercussion, EPercussion => true
  | _, _ => false
  end.
Definition refused (c : list echild) : Prop :=
  c = [] \/ (exists a r b, c = a :: r /\ repeatable a = true /\ In b r /\ same_kind a b = false) \/
  (exists v n r, c = EMetronome (beat v n) :: r).

Definition placed (o : option AboveBelow) : api_Placement :=
  match o with Some AboveBelow_above => api_Placement_above | Some AboveBelow_below => api_Placement_below | None => api_Placement_unspecified end.

Definition color_shown (o : option color) : ColorData :=
  match o with
  | Some c => match myColorType c with
              | ARGB => mkColorData (getRed c) (getGreen c) (getBlue c) true (getAlpha c)
              | RGB => mkColorData (getRed c) (getGreen c) (getBlue c) false 255
              end
  | None => black_on_nothing
  end.

(** The position attributes, as the interface has them. *)
Definition position_shown (x : xposition) : PositionData :=
  mkPosition (x_defaultX x) (x_defaultY x) (x_relativeX x) (x_relativeY x)
    (match x_halign x with
     | Some LeftCenterRight_left => api_HorizontalAlignment_left | Some LeftCenterRight_center => api_HorizontalAlignment_center
     | Some LeftCenterRight_right => api_HorizontalAlignment_right | None => api_HorizontalAlignment_unspecified
     end)
    (match x_valign x with
     | Some Valign_top => api_VerticalAlignment_top | Some Valign_middle => api_VerticalAlignment_middle
     | Some Valign_bottom => api_VerticalAlignment_bottom | Some Valign_baseline => api_VerticalAlignment_baseline
     | None => api_VerticalAlignment_unspecified
     end)
    (placed (Notations.x_placement x)).

(** A dynamic marking: the one of that name, or another with its text. *)
Definition dynamic_shown (t : Z) (e : xmark (custom DynamicsEnum)) : MarkData :=
  match myEnum (xm_choice e) with
  | DynamicsEnum_otherDynamics => mkMark api_MarkType_otherDynamics (myCustomValue (xm_choice e)) t 0 (position_shown (xm_position e))
  | v => mkMark (match dynamic_called (DynamicsEnum_toString v) with Some m => m | None => api_MarkType_otherDynamics end)
           (DynamicsEnum_toString v) t 0 (position_shown (xm_position e))
  end.

(** What is written: the children of each direction-type, in order. *)
Definition coordinates_written (p : PositionData) (x : xposition) : Prop :=
  x_defaultX x = option_map (stored TenthsValue) (defaultX p) /\ x_defaultY x = option_map (stored TenthsValue) (defaultY p) /\
  x_relativeX x = option_map (stored TenthsValue) (relativeX p) /\ x_relativeY x = option_map (stored TenthsValue) (relativeY p).
Definition halign_written (p : PositionData) (x : xposition) : Prop :=
  match x_halign x with
  | Some h => halignMap_toApi h = horizontalAlignment p /\ horizontalAlignment p <> api_HorizontalAlignment_unspecified
  | None => horizontalAlignment p = api_HorizontalAlignment_unspecified
  end.
Definition at_position (halign : bool) (p : PositionData) (x : xposition) : Prop :=
  coordinates_written p x /\ (if halign then halign_written p x else x_halign x = None) /\ x_valign x = None /\ Notations.x_placement x = None.

Definition pedal_written (m : MarkData) (c : list echild) : Prop :=
  exists x, c = [EPedal (mkXPedal (match m_type m with api_MarkType_pedal => StartStopChangeContinue_start | _ => StartStopChangeContinue_stop end)
                          (Some YesNo_no) (Some YesNo_yes) x)] /\ at_position true (m_position m) x.
Definition dynamic_written (m : MarkData) (c : list echild) : Prop := exists x, c = [EDynamics x] /\ dynamic_shown 0 x = kept_mark 0 m.
Definition mark_written (m : MarkData) (c : list echild) : Prop := if is_pedal m then pedal_written m c else dynamic_written m c.

Definition wedgeStop_written (w : WedgeStop) (c : list echild) : Prop :=
  exists x, c = [EWedge (mkXWedge WedgeType_stop None None (option_map (stored TenthsValue) (wp_spread w)) None None x)] /\
    at_position false (wp_position w) x.
Definition line_written (type : bool) (l : LineData) (t : option LineType) (dash space : option Q) : Prop :=
  dash = option_map (stored TenthsValue) (dashLength l) /\ space = option_map (stored TenthsValue) (spaceLength l) /\
  (if type then
     match t with
     | Some t => lineTypeMap_toApi t = lineType l /\ lineType l <> api_LineType_unspecified
     | None => lineType l = api_LineType_unspecified
     end
   else t = None).
Definition wedgeStart_written (w : WedgeStart) (c : list echild) : Prop :=
  exists type t dash space x,
    c = [EWedge (mkXWedge type None t (option_map (stored TenthsValue) (ws_spread w)) dash space x)] /\ at_position false (ws_position w) x /\
    (match ws_type w with
     | api_WedgeType_unspecified | api_WedgeType_crescendo => type = WedgeType_crescendo
     | _ => type = WedgeType_diminuendo
     end) /\ line_written true (ws_line w) t dash space.

Definition no_xposition : xposition := mkXPosition None None None None None None None.
Definition no_xfont : xfont := mkXFont None None None None.
Definition ottavaStop_written (_ : SpannerStop) (c : list echild) : Prop :=
  c = [EOctaveShift (mkXOctave UpDownStopContinue_stop None None None None no_xposition no_xfont)].
Definition ottavaStart_written (o : OttavaStart) (c : list echild) : Prop :=
  exists dash space, line_written false (ss_line (os_start o)) None dash space /\
    c = [EOctaveShift (mkXOctave (match os_type o with Ottava_8vb | Ottava_15mb => UpDownStopContinue_down | _ => UpDownStopContinue_up end) None
           (Some (match os_type o with Ottava_15ma | Ottava_15mb => 15 | _ => 8 end)) dash space no_xposition no_xfont)].
Definition bracketStart_written (s : SpannerStart) (c : list echild) : Prop :=
  c = [EBracket (mkXBracket StartStopContinue_start (if ss_number s <=? 0 then None else Some (Z.min 6 (ss_number s)))
         LineEnd_down None None None None no_xposition None)].
Definition tempo_written (t : TempoData) (c : list echild) : Prop :=
  exists v, durationMap_toApi v = kept_duration (b_duration (te_beats t)) /\
    c = [EMetronome (beat (Some v) (Z.to_nat (b_dots (te_beats t))) ++ [MPerMinute (print_int (b_beats (te_beats t)))])].
Definition font_written (f : FontData) (x : xfont) (e : xdecoration) : Prop :=
  xf_family x = (match fontFamily f with [] => None | l => Some (kept_families l) end) /\
  (match xf_style x with
   | Some s => fontStyleMap_toApi s = fontStyle f /\ fontStyle f <> api_FontStyle_unspecified
   | None => fontStyle f = api_FontStyle_unspecified
   end) /\
  (match xf_weight x with
   | Some s => fontWeightMap_toApi s = fontWeight f /\ fontWeight f <> api_FontWeight_unspecified
   | None => fontWeight f = api_FontWeight_unspecified
   end) /\
  (match sizeType f, xf_size x with
   | Size_unspecified, None => True
   | Size_css, Some (Word v) => cssMap_toApi v = kept_css (sizeCss f)
   | Size_point, Some (Number p) => Decimals.getValue p = stored Decimal (sizePoint f)
   | _, _ => False
   end) /\
  e = mkXDecoration (if underline f <=? 0 then None else Some (Z.min 3 (underline f)))
        (if overline f <=? 0 then None else Some (Z.min 3 (overline f)))
        (if lineThrough f <=? 0 then None else Some (Z.min 3 (lineThrough f))).
Definition word_written (w : WordsData) (c : echild) : Prop :=
  exists x f e, c = EWords (mkXWords (wo_text w) x f e) /\ at_position true (wo_position w) x /\ font_written (wo_font w) f e.
Definition words_written (l : list WordsData) (c : list (list echild)) : Prop :=
  match l with [] => c = [] | _ => exists q, c = [q] /\ Forall2 word_written l q end.

Definition types_written (d : DirectionData) (l : list (list echild)) : Prop :=
  exists marks stops starts ostops ostarts brackets tempos words,
    l = marks ++ stops ++ starts ++ ostops ++ ostarts ++ brackets ++ tempos ++ words /\
    Forall2 mark_written (filter (fun m => is_dynamic m || is_pedal m) (d_marks d)) marks /\
    Forall2 wedgeStop_written (d_wedgeStops d) stops /\ Forall2 wedgeStart_written (d_wedgeStarts d) starts /\
    Forall2 ottavaStop_written (d_ottavaStops d) ostops /\ Forall2 ottavaStart_written (d_ottavaStarts d) ostarts /\
    Forall2 bracketStart_written (d_bracketStarts d) brackets /\ Forall2 tempo_written (d_tempos d) tempos /\
    words_written (d_words d) words.

Definition direction_written (tick staff : Z) (d : DirectionData) (f : fdirection) : Prop :=
  types_written d (f_types f) /\
  (match f_placement f with
   | Some p => placementMap_toApi p = written_placement d /\ written_placement d <> api_Placement_unspecified
   | None => written_placement d = api_Placement_unspecified
   end) /\
  (match f_offset f with
   | Some q => (q == inject_Z (d_tick d - tick))%Q /\ d_tick d <> tick
   | None => d_tick d = tick
   end) /\
  f_staff f = (if d_isStaffValueSpecified d || negb (staff =? 0) then Some (staff + 1) else None).

(** ** Any direction *)

Definition number_shown (none : Z) (n : option Z) : Z := match n with Some v => v | None => none end.
Definition line_shown (t : option LineType) (dash space : option Q) : LineData :=
  mkLine (match t with
          | Some LineType_solid => api_LineType_solid | Some LineType_dashed => api_LineType_dashed
          | Some LineType_dotted => api_LineType_dotted | Some LineType_wavy => api_LineType_wavy
          | None => api_LineType_unspecified
          end) api_LineHook_unspecified None dash space.

Definition font_shown (x : xfont) (e : xdecoration) : FontData :=
  mkFont (match xf_size x with None => Size_unspecified | Some (Word _) => Size_css | Some (Number _) => Size_point end)
    (match xf_size x with Some (Number p) => Decimals.getValue p | _ => -1 end)
    (match xf_size x with Some (Word v) => cssMap_toApi v | _ => api_CssSize_unspecified end)
    (match xf_style x with
     | Some FontStyle_normal => api_FontStyle_normal | Some FontStyle_italic => api_FontStyle_italic | None => api_FontStyle_unspecified
     end)
    (match xf_weight x with
     | Some FontWeight_normal => api_FontWeight_normal | Some FontWeight_bold => api_FontWeight_bold | None => api_FontWeight_unspecified
     end)
    (match xf_family x with Some l => l | None => [] end)
    (number_shown 0 (xd_underline e)) (number_shown 0 (xd_overline e)) (number_shown 0 (xd_lineThrough e)).

(** What each direction-type adds, kind by kind. [tick]: where the element is, before its
    offset; [t]: with it. *)
Definition marks_in (t : Z) (place : option AboveBelow) (x : xtype) : list MarkData :=
  match x with
  | TDynamics l => map (dynamic_shown t) l
  | TPedal p =>
      let at_ m := let q := position_shown (xl_position p) in
        mkMark m [] t 0 (mkPosition (defaultX q) (defaultY q) (relativeX q) (relativeY q) (horizontalAlignment q) (verticalAlignment q) (placed place)) in
      match xl_type p with
      | StartStopChangeContinue_start => [at_ api_MarkType_pedal]
      | StartStopChangeContinue_stop => [at_ api_MarkType_damp]
      | _ => []
      end
  | _ => []
  end.
(** A wedge that goes on is taken for one that starts. *)
Definition wedgeStarts_in (x : xtype) : list WedgeStart :=
  match x with
  | TWedge w =>
      let start t := [mkWedgeStart (number_shown (-1) (xw_number w)) t (xw_spread w) (line_shown (xw_lineType w) (xw_dash w) (xw_space w))
                        (position_shown (xw_position w)) black_on_nothing] in
      match xw_type w with
      | WedgeType_crescendo => start api_WedgeType_crescendo
      | WedgeType_diminuendo => start api_WedgeType_diminuendo
      | WedgeType_continue_ => start api_WedgeType_unspecified
      | WedgeType_stop => []
      end
  | _ => []
  end.
Definition wedgeStops_in (x : xtype) : list WedgeStop :=
  match x with
  | TWedge w =>
      match xw_type w with
      | WedgeType_stop => [mkWedgeStop (number_shown (-1) (xw_number w)) (position_shown (xw_position w)) (xw_spread w)]
      | _ => []
      end
  | _ => []
  end.
Definition ottavaStarts_in (tick : Z) (x : xtype) : list OttavaStart :=
  match x with
  | TOctaveShift o =>
      let large := 8 <? number_shown 8 (xo_size o) in
      let start t := [mkOttavaStart (mkSpannerStart (number_shown (-1) (xo_number o)) tick (position_shown (xo_position o))
                        (mkPrint api_Bool_unspecified (font_shown (xo_font o) (mkXDecoration None None None)) false black_on_nothing)
                        (line_shown None (xo_dash o) (xo_space o))) t] in
      match xo_type o with
      | UpDownStopContinue_up => start (if large then Ottava_15ma else Ottava_8va)
      | UpDownStopContinue_down => start (if large then Ottava_15mb else Ottava_8vb)
      | _ => []
      end
  | _ => []
  end.
Definition ottavaStops_in (tick : Z) (x : xtype) : list SpannerStop :=
  match x with
  | TOctaveShift o =>
      match xo_type o with
      | UpDownStopContinue_stop => [mkSpannerStop (number_shown (-1) (xo_number o)) tick (position_shown (xo_position o))]
      | _ => []
      end
  | _ => []
  end.
Definition bracketStarts_in (tick : Z) (x : xtype) : list SpannerStart :=
  match x with
  | TBracket b =>
      match xb_type b with
      | StartStopContinue_start =>
          [mkSpannerStart (number_shown 1 (xb_number b)) tick (position_shown (xb_position b))
             (mkPrint api_Bool_unspecified plain_font (match xb_color b with Some _ => true | None => false end) (color_shown (xb_color b)))
             (line_shown (xb_lineType b) (xb_dash b) (xb_space b))]
      | _ => []
      end
  | _ => []
  end.
Definition bracketStops_in (tick : Z) (x : xtype) : list SpannerStop :=
  match x with
  | TBracket b =>
      match xb_type b with
      | StartStopContinue_stop => [mkSpannerStop (number_shown 1 (xb_number b)) tick (position_shown (xb_position b))]
      | _ => []
      end
  | _ => []
  end.
Definition words_in (x : xtype) : list WordsData :=
  match x with
  | TWords l => map (fun w => mkWords (xs_text w) (position_shown (xs_position w)) (font_shown (xs_font w) (xs_decoration w)) false black_on_nothing) l
  | _ => []
  end.
Definition sign_shown (s : xsign) : SignData := mkSign (position_shown (xg_position s)) false (color_shown (xg_color s)).
Definition segnos_in (x : xtype) : list SignData := match x with TSegno l => map sign_shown l | _ => [] end.
Definition codas_in (x : xtype) : list SignData := match x with TCoda l => map sign_shown l | _ => [] end.
(** Damp-all is taken for an empty rehearsal mark. *)
Definition rehearsals_in (x : xtype) : list RehearsalData :=
  match x with
  | TRehearsal l => map (fun r => mkRehearsal (xr_text r) (position_shown (xr_position r)) false black_on_nothing plain_font) l
  | TDampAll => [mkRehearsal [] no_position false black_on_nothing plain_font]
  | _ => []
  end.
Definition metronomes_in (x : xtype) : list xmetronome := match x with TMetronome m => [m] | _ => [] end.

(** A metronome of beats per minute if the text is a number; of a text otherwise; a metric
    modulation is dropped. *)
Definition tempo_said (m : xmetronome) (t : TempoData) : Prop :=
  let b n := mkBeats (durationMap_toApi (me_unit m)) (Z.of_nat (me_dots m)) n in
  if me_second m then t = tempo_at Tempo_unspecified no_beats []
  else
    (forall n, canonical_int (me_perMinute m) n -> is_int n -> t = tempo_at Tempo_beatsPerMinute (b n) []) /\
    ((forall n, canonical_int (me_perMinute m) n -> ~ is_int n) -> t = tempo_at Tempo_tempoText (b (-1)) (me_perMinute m)).

(** No number too large for an int at the start of the text. *)
Definition legible (m : xmetronome) : Prop :=
  me_relation m = false -> me_second m = false -> forall n, starts_with_int (c_str (me_perMinute m)) n -> is_int n.

(** The tick: the offset rounded, halves down. *)
Definition offset_by (o : option Q) (tick t : Z) : Prop :=
  match o with
  | None => t = tick
  | Some q => exists n, (q - (1 # 2) <= inject_Z n)%Q /\ (inject_Z n < q + (1 # 2))%Q /\ is_int n /\ t = tick + n /\ is_int t
  end.

Definition direction_said (tick : Z) (place : option AboveBelow) (types : list xtype) (offset : option Q) (staff : option Z) (d : DirectionData) : Prop :=
  offset_by offset tick (d_tick d) /\ d_placement d = placed place /\ d_voice d = -1 /\
  d_isStaffValueSpecified d = (match staff with Some _ => true | None => false end) /\
  Forall2 tempo_said (flat_map metronomes_in types) (d_tempos d) /\
  d_marks d = flat_map (marks_in (d_tick d) place) types /\
  d_wedgeStarts d = flat_map wedgeStarts_in types /\ d_wedgeStops d = flat_map wedgeStops_in types /\
  d_ottavaStarts d = flat_map (ottavaStarts_in tick) types /\ d_ottavaStops d = flat_map (ottavaStops_in tick) types /\
  d_bracketStarts d = flat_map (bracketStarts_in tick) types /\ d_bracketStops d = flat_map (bracketStops_in tick) types /\
  d_words d = flat_map words_in types /\ d_segnos d = flat_map segnos_in types /\ d_codas d = flat_map codas_in types /\
  d_rehearsals d = flat_map rehearsals_in types.
