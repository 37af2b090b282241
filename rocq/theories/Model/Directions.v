(** The contents of a <direction>: impl/DirectionWriter.cpp on the writing side;
    core/elements/Direction.cpp and Metronome.cpp, impl/DirectionReader.cpp and
    MetronomeReader.cpp on the reading side; the functions for fonts, lines, colours and
    spanners that they use. The chords of a direction are the subject of C45, the order of
    the children of <direction> of C39, the text of numbers and words that of C03, C04,
    C09, C14 and C58. *)
From Coq Require Import List Ascii Bool String ZArith QArith.
From Verif Require Import Model.Base Model.Text Model.Strings Model.LongDouble Model.Integers Model.Decimals Model.Ticks
  Model.EnumLookup Model.CoreEnums Model.ApiEnums Model.ConverterTables Model.MarkData Model.CustomEnums Model.Color
  Model.NumberOrWord Model.Notations Model.ChordSymbols.
From Verif Require Model.NoteContent Model.MeasureReader.
Import ListNotations.
Open Scope Z_scope.

(** ** Fonts *)

(** enum class FontSizeType, include/mx/api/FontData.h:19-24. *)
Inductive FontSizeType := Size_unspecified | Size_css | Size_point.

(** struct FontData, FontData.h:55-87. *)
Record FontData := mkFont {
  sizeType : FontSizeType; sizePoint : Q; sizeCss : api_CssSize; fontStyle : api_FontStyle; fontWeight : api_FontWeight;
  fontFamily : list str; underline : Z; overline : Z; lineThrough : Z }.

(** FontData(), FontData.h:74-86. *)
Definition noFont : FontData :=
  mkFont Size_unspecified (-1) api_CssSize_unspecified api_FontStyle_unspecified api_FontWeight_unspecified [] 0 0 0.

(** The font attributes of an element: each hasX flag with its X. *)
Record xfont := mkXFont {
  xf_family : option (list str); xf_style : option FontStyle; xf_size : option (number_or CssFontSize); xf_weight : option FontWeight }.
Definition noXFont : xfont := mkXFont None None None None.

(** Those of the text decoration. *)
Record xdecoration := mkXDecoration { xd_underline : option Z; xd_overline : option Z; xd_lineThrough : option Z }.
Definition noXDecoration : xdecoration := mkXDecoration None None None.

(** setAttributesFromFontSize, impl/FontFunctions.h:213-237. *)
Definition write_size (f : FontData) : outcome (option (number_or CssFontSize)) :=
  match sizeType f with
  | Size_unspecified => Ok None
  | Size_css => Ok (Some (Word (cssMap_toCore (sizeCss f))))
  | Size_point => omap (fun p => Some (Number p)) (Decimals.construct Decimal (sizePoint f))
  end.

(** setAttributesFromFontData, FontFunctions.h:164-210,239-279, for attributes that have a
    font. *)
Definition write_font (f : FontData) : outcome xfont :=
  obind (write_size f) (fun size =>
  Ok (mkXFont
    (match fontFamily f with [] => None | l => Some (map token_of l) end)
    (match fontStyle f with api_FontStyle_unspecified => None | s => Some (fontStyleMap_toCore s) end)
    size
    (match fontWeight f with api_FontWeight_unspecified => None | w => Some (fontWeightMap_toCore w) end))).

(** The three counts, FontFunctions.h:247-278: written if positive; NumberOfLines clamps. *)
Definition lines_attribute (n : Z) : option Z :=
  if 0 <? n then Some (ir_value (Integers.construct NumberOfLines n)) else None.

Definition write_decoration (f : FontData) : xdecoration :=
  mkXDecoration (lines_attribute (underline f)) (lines_attribute (overline f)) (lines_attribute (lineThrough f)).

(** getFontSize, FontFunctions.h:85-113. *)
Definition read_size (s : option (number_or CssFontSize)) : FontSizeType * Q * api_CssSize :=
  match s with
  | None => (Size_unspecified, -1 # 1, api_CssSize_unspecified)%Q
  | Some (Word v) => (Size_css, -1 # 1, cssMap_toApi v)%Q
  | Some (Number p) => (Size_point, Decimals.getValue p, api_CssSize_unspecified)
  end.

(** getFontData, FontFunctions.h:39-82,116-141. *)
Definition getFontData (x : xfont) (e : xdecoration) : FontData :=
  let '(st, po, cs) := read_size (xf_size x) in
  mkFont st po cs
    (match xf_style x with Some s => fontStyleMap_toApi s | None => api_FontStyle_unspecified end)
    (match xf_weight x with Some w => fontWeightMap_toApi w | None => api_FontWeight_unspecified end)
    (match xf_family x with Some l => l | None => [] end)
    (match xd_underline e with Some n => n | None => 0 end)
    (match xd_overline e with Some n => n | None => 0 end)
    (match xd_lineThrough e with Some n => n | None => 0 end).

(** ** Colours *)

(** struct ColorData, include/mx/api/ColorData.h:13-32. *)
Record ColorData := mkColorData { red : Z; green : Z; blue : Z; isAlphaSpecified : bool; alpha : Z }.
Definition noColor : ColorData := mkColorData 255 255 255 false 255.

(** getColor, impl/PrintFunctions.h:37-60. *)
Definition getColor (c : option color) : ColorData :=
  match c with
  | None => noColor
  | Some c =>
      mkColorData (getRed c) (getGreen c) (getBlue c)
        (match myColorType c with ARGB => true | RGB => false end)
        (match myColorType c with ARGB => getAlpha c | RGB => 255 end)
  end.

(** struct PrintData, include/mx/api/PrintData.h:16-32; an unspecified colour keeps its
    value. *)
Record PrintData := mkPrint { printObject : api_Bool; printFont : FontData; isColorSpecified : bool; printColor : ColorData }.
Definition noPrint : PrintData := mkPrint api_Bool_unspecified noFont false noColor.

(** getPrintData, PrintFunctions.h:63-80: for brackets (a colour, no font) and octave
    shifts (a font, no colour); neither has print-object. *)
Definition getPrintData (x : xfont) (c : option color) : PrintData :=
  mkPrint api_Bool_unspecified (getFontData x noXDecoration)
    (match c with Some _ => true | None => false end) (getColor c).

(** ** Lines *)

Definition noLine : LineData := mkLine api_LineType_unspecified api_LineHook_unspecified None None None.

(** getLineData, impl/LineFunctions.h:32-67, for attributes with a line type or not, with
    dashes, and, as all have it here, without line-stop and stop-length: a bracket's are
    called lineEnd and endLength. *)
Definition getLineData (t : option LineType) (dash space : option Q) : LineData :=
  mkLine (match t with Some t => lineTypeMap_toApi t | None => api_LineType_unspecified end) api_LineHook_unspecified None dash space.

(** ** The data of the interface *)

(** include/mx/api/WedgeData.h:17-62. A spread with its flag is an option. *)
Record WedgeStart := mkWedgeStart {
  ws_number : Z; ws_type : api_WedgeType; ws_spread : option Q; ws_line : LineData; ws_position : PositionData; ws_color : ColorData }.
Record WedgeStop := mkWedgeStop { wp_number : Z; wp_position : PositionData; wp_spread : option Q }.

(** include/mx/api/SpannerData.h:18-50. *)
Record SpannerStart := mkSpannerStart {
  ss_number : Z; ss_tick : Z; ss_position : PositionData; ss_print : PrintData; ss_line : LineData }.
Record SpannerStop := mkSpannerStop { sp_number : Z; sp_tick : Z; sp_position : PositionData }.

(** include/mx/api/OttavaData.h:12-34. *)
Inductive OttavaType := Ottava_unspecified | Ottava_8va | Ottava_8vb | Ottava_15ma | Ottava_15mb.
Record OttavaStart := mkOttavaStart { os_start : SpannerStart; os_type : OttavaType }.

(** include/mx/api/WordsData.h:16-34, RehearsalData.h:15-35, SegnoData.h:15-29,
    CodaData.h:15-29. *)
Record WordsData := mkWords { wo_text : str; wo_position : PositionData; wo_font : FontData; wo_isColorSpecified : bool; wo_color : ColorData }.
Record RehearsalData := mkRehearsal {
  re_text : str; re_position : PositionData; re_isColorSpecified : bool; re_color : ColorData; re_font : FontData }.
Record SignData := mkSign { si_position : PositionData; si_isColorSpecified : bool; si_color : ColorData }.

(** include/mx/api/TempoData.h:14-79. TempoData{} sets all to zero but for what the
    constructors of the members say. *)
Inductive TempoType := Tempo_unspecified | Tempo_beatsPerMinute | Tempo_metricModulation | Tempo_tempoText.
Record BeatsPerMinute := mkBeats { b_duration : api_DurationName; b_dots : Z; b_beats : Z }.
Definition noBeats : BeatsPerMinute := mkBeats api_DurationName_unspecified (-1) (-1).
Record MetricModulation := mkModulation {
  mm_left : api_DurationName; mm_leftDots : Z; mm_right : api_DurationName; mm_rightDots : Z; mm_playback : BeatsPerMinute }.
Definition noModulation : MetricModulation :=
  mkModulation api_DurationName_unspecified (-1) api_DurationName_unspecified (-1) noBeats.
Record TempoData := mkTempo {
  te_tick : Z; te_isParenthetical : api_Bool; te_print : PrintData; te_position : PositionData; te_type : TempoType;
  te_beats : BeatsPerMinute; te_modulation : MetricModulation; te_text : str; te_textPlayback : BeatsPerMinute }.
Definition noTempo : TempoData :=
  mkTempo 0 api_Bool_unspecified noPrint noPosition Tempo_unspecified noBeats noModulation [] noBeats.

(** struct DirectionData, include/mx/api/DirectionData.h:30-92, without the chords. *)
Record DirectionData := mkDirection {
  d_tick : Z; d_placement : api_Placement; d_voice : Z; d_isStaffValueSpecified : bool;
  d_tempos : list TempoData; d_marks : list MarkData;
  d_wedgeStarts : list WedgeStart; d_wedgeStops : list WedgeStop;
  d_ottavaStarts : list OttavaStart; d_ottavaStops : list SpannerStop;
  d_bracketStarts : list SpannerStart; d_bracketStops : list SpannerStop;
  d_words : list WordsData; d_segnos : list SignData; d_codas : list SignData; d_rehearsals : list RehearsalData }.

(** ** The elements *)

(** Wedge, WedgeAttributes.h:19-52; niente is left out: it is neither set nor read. *)
Record xwedge := mkXWedge {
  xw_type : WedgeType; xw_number : option Z; xw_lineType : option LineType; xw_spread : option Q;
  xw_dash : option Q; xw_space : option Q; xw_position : xposition }.

(** OctaveShift, OctaveShiftAttributes.h:20-58. *)
Record xoctave := mkXOctave {
  xo_type : UpDownStopContinue; xo_number : option Z; xo_size : option Z; xo_dash : option Q; xo_space : option Q;
  xo_position : xposition; xo_font : xfont }.

(** Bracket, BracketAttributes.h:25-64. *)
Record xbracket := mkXBracket {
  xb_type : StartStopContinue; xb_number : option Z; xb_lineEnd : LineEnd; xb_endLength : option Q; xb_lineType : option LineType;
  xb_dash : option Q; xb_space : option Q; xb_position : xposition; xb_color : option color }.

(** Pedal, PedalAttributes.h:20-55; its font is left out: it is neither set nor read. *)
Record xpedal := mkXPedal {
  xl_type : StartStopChangeContinue; xl_line : option YesNo; xl_sign : option YesNo; xl_position : xposition }.

(** Words, WordsAttributes.h:22-72, and Rehearsal, RehearsalAttributes.h, of which less is
    read. The attributes that are neither set nor read are left out. *)
Record xwords := mkXWords { xs_text : str; xs_position : xposition; xs_font : xfont; xs_decoration : xdecoration }.
Record xrehearsal := mkXRehearsal { xr_text : str; xr_position : xposition }.

(** Segno and Coda, core/EmptyPrintObjectStyleAlignAttributes.h:20-56. *)
Record xsign := mkXSign { xg_position : xposition; xg_color : option color }.

(** Metronome with its BeatUnitPerOrNoteRelationNoteChoice, BeatUnitPer and
    PerMinuteOrBeatUnitChoice. The notes of the relation are left out. *)
Record xmetronome := mkXMetronome {
  me_relation : bool; me_unit : NoteTypeValue; me_dots : nat; me_second : bool; me_perMinute : str;
  me_unit2 : NoteTypeValue; me_dots2 : nat }.

(** Metronome(), and the constructors BeatUnitPerOrNoteRelationNoteChoice.cpp:15-19,
    PerMinuteOrBeatUnitChoice.cpp:15-19, BeatUnit.cpp:13-15, BeatUnitGroup.cpp:15-18,
    PerMinute.cpp:13-16. *)
Definition newMetronome : xmetronome := mkXMetronome false NoteTypeValue_eighth 0 false [] NoteTypeValue_eighth 0.

(** DirectionType with its choice: what the choice is of. [TDampAll] and [TOther] hold the
    rehearsal mark that every DirectionType is made with (DirectionType.cpp:35-58);
    [TOther]: a choice whose parse function does nothing. *)
Inductive xtype :=
| TRehearsal (l : list xrehearsal) | TSegno (l : list xsign) | TWords (l : list xwords) | TCoda (l : list xsign)
| TWedge (w : xwedge) | TDynamics (l : list (xmark (custom DynamicsEnum))) | TBracket (b : xbracket) | TPedal (p : xpedal)
| TMetronome (m : xmetronome) | TOctaveShift (o : xoctave) | TDampAll | TOther.

(** Rehearsal(): the empty text and no attributes, Rehearsal.cpp:14-17. *)
Definition newRehearsal : xrehearsal := mkXRehearsal [] noXPosition.

(** Direction: the placement, the direction-types, offset and staff. *)
Record xdirection := mkXDirection { dx_placement : option AboveBelow; dx_types : list xtype; dx_offset : option Q; dx_staff : option Z }.

(** ** Writing: DirectionWriter::getDirectionLikeThings *)

(** PedalAttributes.h, WordsAttributes.h. *)
Definition halign_declares := mkDeclares true false false.
(** WedgeAttributes.h, OctaveShiftAttributes.h, BracketAttributes.h. *)
Definition nothing_declares := mkDeclares false false false.

(** DirectionWriter.cpp:112-157: one mark. [Ok []]: a mark of another kind. *)
Definition write_pedal (m : MarkData) : outcome xpedal :=
  omap (mkXPedal (match m_type m with api_MarkType_damp => StartStopChangeContinue_stop | _ => StartStopChangeContinue_start end)
          (Some YesNo_no) (Some YesNo_yes))
    (setAttributesFromPositionData halign_declares (m_position m)).

Definition write_mark (m : MarkData) : outcome (list xtype) :=
  obind (if isMarkDynamic (m_type m) then omap (fun x => [TDynamics [x]]) (getDynamics m) else Ok []) (fun a =>
  obind (if isMarkPedal (m_type m) then omap (fun x => [TPedal x]) (write_pedal m) else Ok []) (fun b =>
  Ok (a ++ b))).

(** DirectionWriter.cpp:89-93,135-140: the placement of the direction, then that of each
    pedal mark that has one. *)
Definition write_placement (d : DirectionData) : option AboveBelow :=
  fold_left (fun old m =>
      if isMarkPedal (m_type m) then
        match placement (m_position m) with api_Placement_unspecified => old | p => Some (placementMap_toCore p) end
      else old)
    (d_marks d)
    (match d_placement d with api_Placement_unspecified => None | p => Some (placementMap_toCore p) end).

(** DirectionWriter.cpp:159-175. *)
Definition write_wedgeStop (w : WedgeStop) : outcome xwedge :=
  obind (option_value TenthsValue (wp_spread w)) (fun spread =>
  obind (setAttributesFromPositionData nothing_declares (wp_position w)) (fun p =>
  Ok (mkXWedge WedgeType_stop None None spread None None p))).

(** DirectionWriter.cpp:177-202; WedgeAttributes.cpp:13-36: a wedge is made as a
    crescendo. There is no attribute for the colour. *)
Definition write_wedgeStart (w : WedgeStart) : outcome xwedge :=
  obind (option_value TenthsValue (ws_spread w)) (fun spread =>
  obind (setAttributesFromPositionData nothing_declares (ws_position w)) (fun p =>
  obind (option_value TenthsValue (dashLength (ws_line w))) (fun dash =>
  obind (option_value TenthsValue (spaceLength (ws_line w))) (fun space =>
  Ok (mkXWedge (match ws_type w with api_WedgeType_unspecified => WedgeType_crescendo | t => wedgeMap_toCore t end) None
        (match lineType (ws_line w) with api_LineType_unspecified => None | t => Some (lineTypeMap_toCore t) end)
        spread dash space p))))).

(** DirectionWriter.cpp:204-213. *)
Definition write_ottavaStop (_ : SpannerStop) : xoctave :=
  mkXOctave UpDownStopContinue_stop None None None None noXPosition noXFont.

(** DirectionWriter.cpp:215-256; OctaveShiftAttributes.cpp:13-40: an octave shift is made as
    one up, of size 8. *)
Definition write_ottavaStart (o : OttavaStart) : outcome xoctave :=
  obind (option_value TenthsValue (dashLength (ss_line (os_start o)))) (fun dash =>
  obind (option_value TenthsValue (spaceLength (ss_line (os_start o)))) (fun space =>
  let (type, size) :=
    match os_type o with
    | Ottava_15ma => (UpDownStopContinue_up, 15)
    | Ottava_15mb => (UpDownStopContinue_down, 15)
    | Ottava_8va => (UpDownStopContinue_up, 8)
    | Ottava_8vb => (UpDownStopContinue_down, 8)
    | Ottava_unspecified => (UpDownStopContinue_up, 8)
    end in
  Ok (mkXOctave type None (Some (ir_value (Integers.construct PositiveInteger size))) dash space noXPosition noXFont))).

(** DirectionWriter.cpp:258-266, setAttributesFromSpannerStart, impl/SpannerFunctions.h:52-66;
    BracketAttributes.cpp:13-38: a bracket is made as one that starts, with its end down. *)
Definition write_bracketStart (s : SpannerStart) : xbracket :=
  mkXBracket StartStopContinue_start (number_attribute (ss_number s)) LineEnd_down None None None None noXPosition None.

(** DirectionWriter.cpp:268-300. *)
Definition write_tempo (t : TempoData) : outcome xmetronome :=
  match te_type t with
  | Tempo_beatsPerMinute =>
      Ok (mkXMetronome false (durationMap_toCore (b_duration (te_beats t))) (Z.to_nat (b_dots (te_beats t))) false
            (print_int (b_beats (te_beats t))) (me_unit2 newMetronome) (me_dots2 newMetronome))
  | _ => Throw
  end.

(** DirectionWriter.cpp:310-330. There is no attribute for the colour. *)
Definition write_word (w : WordsData) : outcome xwords :=
  obind (setAttributesFromPositionData halign_declares (wo_position w)) (fun p =>
  obind (write_font (wo_font w)) (fun f =>
  Ok (mkXWords (wo_text w) p f (write_decoration (wo_font w))))).

(** DirectionWriter.cpp:112-334: the direction-types in the order they are added;
    addDirectionType, :354-364, takes the place of the one the Direction is made with. *)
Definition write_types (d : DirectionData) : outcome (list xtype) :=
  obind (omap (@List.concat xtype) (outcomes write_mark (d_marks d))) (fun marks =>
  obind (outcomes write_wedgeStop (d_wedgeStops d)) (fun wedgeStops =>
  obind (outcomes write_wedgeStart (d_wedgeStarts d)) (fun wedgeStarts =>
  obind (outcomes write_ottavaStart (d_ottavaStarts d)) (fun ottavaStarts =>
  obind (outcomes write_tempo (d_tempos d)) (fun tempos =>
  obind (outcomes write_word (d_words d)) (fun words =>
  Ok (marks ++ map TWedge wedgeStops ++ map TWedge wedgeStarts ++ map TOctaveShift (map write_ottavaStop (d_ottavaStops d)) ++
      map TOctaveShift ottavaStarts ++ map TBracket (map write_bracketStart (d_bracketStarts d)) ++ map TMetronome tempos ++
      match words with [] => [] | l => [TWords l] end))))))).

(** DirectionWriter.cpp:81-110,336-342: the element, if anything has been added. [tick] and
    [staff] are the cursor's. *)
Definition write_direction (tick staff : Z) (d : DirectionData) : outcome (option xdirection) :=
  obind (as_int (d_tick d - tick)) (fun offset =>
  obind (if offset =? 0 then Ok None else omap Some (decimal_value DivisionsValue (inject_Z offset))) (fun o =>
  obind (write_types d) (fun types =>
  Ok (match types with
      | [] => None
      | l => Some (mkXDirection (write_placement d) l o
               (if d_isStaffValueSpecified d || negb (staff =? 0)
                then Some (ir_value (Integers.construct PositiveInteger (staff + 1))) else None))
      end)))).

(** ** In the file *)

(** A child of <metronome>: a beat-unit, whose text may be no note type, and so on. *)
Inductive mchild := MBeatUnit (v : option NoteTypeValue) | MBeatUnitDot | MPerMinute (t : str) | MNote | MRelation | MOther.

(** A child of <direction-type>. [EOther]: harp-pedals, damp, eyeglasses, string-mute,
    scordatura, image, principal-voice, accordion-registration, other-direction and
    dashes. *)
Inductive echild :=
| ERehearsal (r : xrehearsal) | ESegno (s : xsign) | EWords (w : xwords) | ECoda (s : xsign) | EWedge (w : xwedge)
| EDynamics (d : xmark (custom DynamicsEnum)) | EBracket (b : xbracket) | EPedal (p : xpedal) | EMetronome (l : list mchild)
| EOctaveShift (o : xoctave) | EDampAll | EPercussion | EOther | EUnknown.

(** BeatUnitGroup::streamContents, BeatUnitGroup.cpp:45-55. *)
Definition stream_unit (v : NoteTypeValue) (dots : nat) : list mchild := MBeatUnit (Some v) :: repeat MBeatUnitDot dots.

(** Metronome::streamContents, Metronome.cpp:54-61, with BeatUnitPer and
    PerMinuteOrBeatUnitChoice; a relation as it is made has one note. *)
Definition stream_metronome (m : xmetronome) : list mchild :=
  if me_relation m then [MNote]
  else stream_unit (me_unit m) (me_dots m) ++ (if me_second m then stream_unit (me_unit2 m) (me_dots2 m) else [MPerMinute (me_perMinute m)]).

(** The families of a font go through the text of the attribute. *)
Definition file_font (f : xfont) : xfont :=
  mkXFont (option_map (fun l => NoteContent.family_parse (NoteContent.family_text l)) (xf_family f)) (xf_style f) (xf_size f) (xf_weight f).

(** DirectionType::streamContents, DirectionType.cpp:95-330. *)
Definition stream_type (t : xtype) : list echild :=
  match t with
  | TRehearsal l => map ERehearsal l
  | TSegno l => map ESegno l
  | TWords l => map (fun w => EWords (mkXWords (xs_text w) (xs_position w) (file_font (xs_font w)) (xs_decoration w))) l
  | TCoda l => map ECoda l
  | TWedge w => [EWedge w]
  | TDynamics l => map EDynamics l
  | TBracket b => [EBracket b]
  | TPedal p => [EPedal p]
  | TMetronome m => [EMetronome (stream_metronome m)]
  | TOctaveShift o => [EOctaveShift (mkXOctave (xo_type o) (xo_number o) (xo_size o) (xo_dash o) (xo_space o) (xo_position o) (file_font (xo_font o)))]
  | TDampAll => [EDampAll]
  | TOther => [EOther]
  end.

(** importGroup for a BeatUnitGroup, FromXElement.cpp:185-211, up to the place it leaves the
    iterator before (the callers step on): the unit and the number of dots. A beat-unit that
    cannot be read leaves the old value; the only dot there is gets replaced
    (FromXElement.h:155-197). *)
Fixpoint dots_run (l : list mchild) : nat * list mchild :=
  match l with
  | MBeatUnitDot :: r => let (n, rest) := dots_run r in (Datatypes.S n, rest)
  | _ => (O, l)
  end.

Definition import_unit (v : NoteTypeValue) (dots : nat) (l : list mchild) : NoteTypeValue * nat * list mchild :=
  let '(v', r) := match l with MBeatUnit (Some w) :: r => (w, r) | MBeatUnit None :: r => (v, r) | _ => (v, l) end in
  let (n, rest) := dots_run r in
  (v', match n with O => dots | _ => if (dots =? 1)%nat then n else (dots + n)%nat end, rest).

(** The run of notes of a relation with what may follow it, Metronome.cpp:146-203. *)
Fixpoint notes_run (l : list mchild) : list mchild :=
  match l with MNote :: r => notes_run r | _ => l end.
Definition import_relation (l : list mchild) : list mchild :=
  match notes_run l with
  | MRelation :: MNote :: r => r
  | MRelation :: r => r
  | r => r
  end.

(** Metronome::fromXElementImpl, Metronome.cpp:105-212: whether it succeeded. The fuel is
    the number of children, which is enough. *)
Fixpoint read_metronome (fuel : nat) (l : list mchild) (m : xmetronome) : bool * xmetronome :=
  match fuel, l with
  | Datatypes.S fuel, (MBeatUnit _ | MBeatUnitDot) :: _ =>
      let '(v, n, r) := import_unit (me_unit m) (me_dots m) l in
      let m' := mkXMetronome false v n (me_second m) (me_perMinute m) (me_unit2 m) (me_dots2 m) in
      match r with
      | [] => (false, m')
      | (MBeatUnit _ | MBeatUnitDot) :: _ =>
          let '(v2, n2, r2) := import_unit (me_unit2 m) (me_dots2 m) r in
          read_metronome fuel r2 (mkXMetronome false v n true (me_perMinute m) v2 n2)
      | MPerMinute t :: r2 => read_metronome fuel r2 (mkXMetronome false v n false t (me_unit2 m) (me_dots2 m))
      | _ => read_metronome fuel r m'
      end
  | Datatypes.S fuel, MNote :: _ =>
      read_metronome fuel (import_relation l)
        (mkXMetronome true (me_unit m) (me_dots m) (me_second m) (me_perMinute m) (me_unit2 m) (me_dots2 m))
  | Datatypes.S fuel, _ :: r => read_metronome fuel r m
  | _, _ => (true, m)
  end.

(** The loop over a collection of elements of one name in Direction::createDirectionType,
    Direction.cpp:536-765: it fails at an element of another name. *)
Fixpoint all_of {A} (f : echild -> option A) (l : list echild) : bool * list A :=
  match l with
  | [] => (true, [])
  | c :: r => match f c with Some a => let (ok, q) := all_of f r in (ok, a :: q) | None => (false, []) end
  end.

(** Direction::createDirectionType, Direction.cpp:413-770: whether it succeeded. Of the
    other kinds only the first child counts. *)
Definition createDirectionType (l : list echild) : bool * xtype :=
  match l with
  | [] => (false, TRehearsal [newRehearsal])
  | EWedge w :: _ => (true, TWedge w)
  | EBracket b :: _ => (true, TBracket b)
  | EPedal p :: _ => (true, TPedal p)
  | EMetronome c :: _ => let (ok, m) := read_metronome (List.length c) c newMetronome in (ok, TMetronome m)
  | EOctaveShift o :: _ => (true, TOctaveShift o)
  | EDampAll :: _ => (true, TDampAll)
  | EOther :: _ => (true, TOther)
  | ERehearsal _ :: _ => let (ok, q) := all_of (fun c => match c with ERehearsal x => Some x | _ => None end) l in (ok, TRehearsal q)
  | ESegno _ :: _ => let (ok, q) := all_of (fun c => match c with ESegno x => Some x | _ => None end) l in (ok, TSegno q)
  | EWords _ :: _ => let (ok, q) := all_of (fun c => match c with EWords x => Some x | _ => None end) l in (ok, TWords q)
  | ECoda _ :: _ => let (ok, q) := all_of (fun c => match c with ECoda x => Some x | _ => None end) l in (ok, TCoda q)
  | EDynamics _ :: _ => let (ok, q) := all_of (fun c => match c with EDynamics x => Some x | _ => None end) l in (ok, TDynamics q)
  | EPercussion :: _ => let (ok, _) := all_of (fun c => match c with EPercussion => Some tt | _ => None end) l in (ok, TOther)
  | EUnknown :: _ => (true, TRehearsal [newRehearsal])
  end.

(** The direction-types of a <direction>, in order (C39). One that fails makes the reading
    of the document throw (DocumentManager.cpp:95-100). *)
Definition read_types (l : list (list echild)) : outcome (list xtype) :=
  outcomes (fun c => let (ok, t) := createDirectionType c in if ok then Ok t else Throw) l.

(** What is in the file. *)
Record fdirection := mkFile { f_placement : option AboveBelow; f_types : list (list echild); f_offset : option Q; f_staff : option Z }.
Definition stream_direction (x : xdirection) : fdirection :=
  mkFile (dx_placement x) (map stream_type (dx_types x)) (dx_offset x) (dx_staff x).

(** ** Reading: DirectionReader::getDirectionData *)

(** DirectionReader.cpp:104-115: initializeData. *)
Definition new_direction (tick : Z) (staff : bool) (p : api_Placement) : DirectionData :=
  mkDirection tick p (-1) staff [] [] [] [] [] [] [] [] [] [] [] [].

(** parseRehearsal, parseSegno, parseCoda, parseWords, DirectionReader.cpp:317-384;
    rehearsals and words have no colour. *)
Definition parseRehearsal (x : xrehearsal) : RehearsalData := mkRehearsal (xr_text x) (getPositionData (xr_position x)) false noColor noFont.
Definition parseSign (x : xsign) : SignData := mkSign (getPositionData (xg_position x)) false (getColor (xg_color x)).
Definition parseWord (x : xwords) : WordsData :=
  mkWords (xs_text x) (getPositionData (xs_position x)) (getFontData (xs_font x) (xs_decoration x)) false noColor.

Definition number_or_none (n : option Z) : Z := match n with Some v => v | None => -1 end.

(** parseWedge, DirectionReader.cpp:387-438. *)
Definition parseWedgeStop (x : xwedge) : WedgeStop :=
  mkWedgeStop (number_or_none (xw_number x)) (getPositionData (xw_position x)) (xw_spread x).
Definition parseWedgeStart (x : xwedge) : WedgeStart :=
  mkWedgeStart (number_or_none (xw_number x)) (wedgeMap_toApi (xw_type x)) (xw_spread x)
    (getLineData (xw_lineType x) (xw_dash x) (xw_space x)) (getPositionData (xw_position x)) noColor.

(** checkNumber without asking hasNumber, DirectionReader.cpp:486,495: NumberLevel() is 1. *)
Definition bracket_number (x : xbracket) : Z := match xb_number x with Some n => n | None => ir_value (Integers.construct_default NumberLevel) end.

(** parseBracket, DirectionReader.cpp:477-504. *)
Definition parseBracketStop (tick : Z) (x : xbracket) : SpannerStop :=
  mkSpannerStop (bracket_number x) tick (getPositionData (xb_position x)).
Definition parseBracketStart (tick : Z) (x : xbracket) : SpannerStart :=
  mkSpannerStart (bracket_number x) tick (getPositionData (xb_position x)) (getPrintData noXFont (xb_color x))
    (getLineData (xb_lineType x) (xb_dash x) (xb_space x)).

(** parsePedal, DirectionReader.cpp:507-538: the mark, at tick 0, with the placement of the
    direction. *)
Definition pedal_placement (p : option AboveBelow) : api_Placement :=
  match p with
  | Some AboveBelow_above => api_Placement_above
  | Some _ => api_Placement_below
  | None => api_Placement_unspecified
  end.
Definition parsePedal (p : option AboveBelow) (x : xpedal) : option MarkData :=
  let mark (t : api_MarkType) :=
    let q := getPositionData (xl_position x) in
    mkMark t (mark_name t) 0 0
      (mkPosition (defaultX q) (defaultY q) (relativeX q) (relativeY q) (horizontalAlignment q) (verticalAlignment q) (pedal_placement p)) in
  match xl_type x with
  | StartStopChangeContinue_start => Some (mark api_MarkType_pedal)
  | StartStopChangeContinue_stop => Some (mark api_MarkType_damp)
  | _ => None
  end.

(** MetronomeReader::getTempoData, MetronomeReader.cpp:37-121. *)
Definition getTempoData (x : xmetronome) : outcome TempoData :=
  if me_relation x then Throw
  else if me_second x then Ok noTempo
  else
    omap (fun o =>
        let unit := durationMap_toApi (me_unit x) in
        let dots := Z.of_nat (me_dots x) in
        match o with
        | Some n => mkTempo 0 api_Bool_unspecified noPrint noPosition Tempo_beatsPerMinute (mkBeats unit dots n) noModulation [] noBeats
        | None => mkTempo 0 api_Bool_unspecified noPrint noPosition Tempo_tempoText (mkBeats unit dots (-1)) noModulation (me_perMinute x) noBeats
        end)
      (stringToInt (me_perMinute x)).

(** parseOctaveShift, DirectionReader.cpp:549-598, with getSpannerStart and getSpannerStop,
    SpannerFunctions.h:21-47. *)
Definition parseOttavaStop (tick : Z) (x : xoctave) : SpannerStop :=
  mkSpannerStop (number_or_none (xo_number x)) tick (getPositionData (xo_position x)).
Definition parseOttavaStart (tick : Z) (x : xoctave) : OttavaStart :=
  let amount := match xo_size x with Some n => n | None => 8 end in
  let isUp := match xo_type x with UpDownStopContinue_up => true | _ => false end in
  mkOttavaStart
    (mkSpannerStart (number_or_none (xo_number x)) tick (getPositionData (xo_position x)) (getPrintData (xo_font x) None)
       (getLineData None (xo_dash x) (xo_space x)))
    (if isUp then if 8 <? amount then Ottava_15ma else Ottava_8va
     else if 8 <? amount then Ottava_15mb else Ottava_8vb).

(** parseDirectionType, DirectionReader.cpp:200-314. [tick]: the cursor's; [p]: the
    placement attribute of the direction. *)
Definition parseDirectionType (tick : Z) (p : option AboveBelow) (d : DirectionData) (t : xtype) : outcome DirectionData :=
  let (tk, pl, vo, sp, te, ma, ws, wp, os, op, bs, bp, wo, se, co, re) := d in
  match t with
  | TRehearsal l => Ok (mkDirection tk pl vo sp te ma ws wp os op bs bp wo se co (re ++ map parseRehearsal l))
  | TSegno l => Ok (mkDirection tk pl vo sp te ma ws wp os op bs bp wo (se ++ map parseSign l) co re)
  | TWords l => Ok (mkDirection tk pl vo sp te ma ws wp os op bs bp (wo ++ map parseWord l) se co re)
  | TCoda l => Ok (mkDirection tk pl vo sp te ma ws wp os op bs bp wo se (co ++ map parseSign l) re)
  | TWedge w =>
      match xw_type w with
      | WedgeType_stop => Ok (mkDirection tk pl vo sp te ma ws (wp ++ [parseWedgeStop w]) os op bs bp wo se co re)
      | _ => Ok (mkDirection tk pl vo sp te ma (ws ++ [parseWedgeStart w]) wp os op bs bp wo se co re)
      end
  | TDynamics l => Ok (mkDirection tk pl vo sp te (ma ++ map (parseDynamics tick) l) ws wp os op bs bp wo se co re)
  | TBracket b =>
      match xb_type b with
      | StartStopContinue_stop => Ok (mkDirection tk pl vo sp te ma ws wp os op bs (bp ++ [parseBracketStop tick b]) wo se co re)
      | StartStopContinue_start => Ok (mkDirection tk pl vo sp te ma ws wp os op (bs ++ [parseBracketStart tick b]) bp wo se co re)
      | _ => Ok d
      end
  | TPedal q =>
      match parsePedal p q with
      | Some m => Ok (mkDirection tk (pedal_placement p) vo sp te (ma ++ [m]) ws wp os op bs bp wo se co re)
      | None => Ok d
      end
  | TMetronome m => omap (fun t => mkDirection tk pl vo sp (te ++ [t]) ma ws wp os op bs bp wo se co re) (getTempoData m)
  | TOctaveShift o =>
      match xo_type o with
      | UpDownStopContinue_continue_ => Ok d
      | UpDownStopContinue_stop => Ok (mkDirection tk pl vo sp te ma ws wp os (op ++ [parseOttavaStop tick o]) bs bp wo se co re)
      | _ => Ok (mkDirection tk pl vo sp te ma ws wp (os ++ [parseOttavaStart tick o]) op bs bp wo se co re)
      end
  | TDampAll => Ok (mkDirection tk pl vo sp te ma ws wp os op bs bp wo se co (re ++ map parseRehearsal [newRehearsal]))
  | TOther => Ok d
  end.

Fixpoint parseValues (tick : Z) (p : option AboveBelow) (l : list xtype) (d : DirectionData) : outcome DirectionData :=
  match l with
  | [] => Ok d
  | t :: r => obind (parseDirectionType tick p d t) (parseValues tick p r)
  end.

(** fixTimes, DirectionReader.cpp:182-188. *)
Definition fixTimes (d : DirectionData) : DirectionData :=
  let (tk, pl, vo, sp, te, ma, ws, wp, os, op, bs, bp, wo, se, co, re) := d in
  mkDirection tk pl vo sp te (map (fun m => mkMark (m_type m) (m_name m) tk (m_print m) (m_position m)) ma) ws wp os op bs bp wo se co re.

(** getDirectionData, DirectionReader.cpp:90-101, with updateTimeForOffset, :118-138, and
    parsePlacement, :141-157. [tick]: the cursor's. *)
Definition getDirectionData (tick : Z) (x : xdirection) : outcome DirectionData :=
  obind (MeasureReader.direction_tick (dx_offset x) tick) (fun t =>
  omap fixTimes
    (parseValues tick (dx_placement x) (dx_types x)
       (new_direction t (match dx_staff x with Some _ => true | None => false end)
          (match dx_placement x with Some p => placementMap_toApi p | None => api_Placement_unspecified end)))).

Definition read_direction (tick : Z) (f : fdirection) : outcome DirectionData :=
  obind (read_types (f_types f)) (fun types => getDirectionData tick (mkXDirection (f_placement f) types (f_offset f) (f_staff f))).

(** Written to a file and read back, with the cursor of the writer and that of the reader at
    the same tick. *)
Definition direction_back (tick staff : Z) (d : DirectionData) : outcome (option DirectionData) :=
  obind (write_direction tick staff d) (fun o =>
    match o with None => Ok None | Some x => omap Some (read_direction tick (stream_direction x)) end).
