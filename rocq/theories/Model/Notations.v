(** The <notations> of a note: impl/NotationsWriter.cpp, DynamicsWriter.cpp and the tie
    part of NoteWriter.cpp on the writing side, NoteFunctions::parseNotations with
    CurveFunctions.h, TupletReader.cpp, ArticulationsFunctions.cpp,
    OrnamentsFunctions.cpp, TechnicalFunctions.cpp, DynamicsReader.cpp,
    FermataFunctions.cpp, ArpeggiateFunctions.cpp, NonArpeggiateFunctions.cpp and
    AccidentalMarkFunctions.cpp on the reading side.
    Elements are handed from the writer to the reader as values: their text is the
    subject of C04, C09, C14, C15 and C49. *)
From Coq Require Import List Bool String ZArith QArith.
From Verif Require Import Model.Base Model.Text Model.LongDouble Model.Integers Model.Decimals Model.Ticks Model.EnumLookup
  Model.CoreEnums Model.ApiEnums Model.ConverterTables Model.MarkData Model.CustomEnums.
Import ListNotations.
Open Scope Z_scope.

(** ** Positions *)

(** class PositionData, include/mx/api/PositionData.h:94-130. A coordinate with its
    "is specified" flag is an option; the number in an unspecified coordinate is left out. *)
Record PositionData := mkPosition {
  defaultX : option Q; defaultY : option Q; relativeX : option Q; relativeY : option Q;
  horizontalAlignment : api_HorizontalAlignment;
  verticalAlignment : api_VerticalAlignment;
  placement : api_Placement }.

(** PositionData{}. *)
Definition noPosition : PositionData :=
  mkPosition None None None None api_HorizontalAlignment_unspecified api_VerticalAlignment_unspecified api_Placement_unspecified.

(** The position attributes of an element: each hasX flag with its X. *)
Record xposition := mkXPosition {
  x_defaultX : option Q; x_defaultY : option Q; x_relativeX : option Q; x_relativeY : option Q;
  x_halign : option LeftCenterRight; x_valign : option Valign; x_placement : option AboveBelow }.

Definition noXPosition : xposition := mkXPosition None None None None None None None.

(** Which of the optional position attributes the attribute struct of an element
    declares: core/elements/XAttributes.h. All of them declare the four coordinates. *)
Record declares := mkDeclares { has_halign : bool; has_valign : bool; has_placement : bool }.

(** DynamicsAttributes.h. *)
Definition dynamics_declares := mkDeclares true true true.
(** FermataAttributes.h. *)
Definition fermata_declares := mkDeclares false false false.
(** SlurAttributes.h, TiedAttributes.h, TupletAttributes.h, EmptyPlacementAttributes.h,
    StrongAccentAttributes.h, BreathMarkAttributes.h, EmptyLineAttributes.h,
    EmptyTrillSoundAttributes.h, WavyLineAttributes.h, TremoloAttributes.h,
    HarmonicAttributes.h, OtherOrnamentAttributes.h, OtherArticulationAttributes.h,
    OtherTechnicalAttributes.h and the like. *)
Definition placement_declares := mkDeclares false false true.

(** The number an attribute or element of the decimal type [t] holds after setValue. *)
Definition decimal_value (t : decimal_type) (x : Q) : outcome Q := omap Decimals.getValue (Decimals.construct t x).

Definition option_value (t : decimal_type) (x : option Q) : outcome (option Q) :=
  match x with None => Ok None | Some v => omap Some (decimal_value t v) end.

(** setAttributesFromPositionData, impl/PositionFunctions.h:121-201. *)
Definition setAttributesFromPositionData (d : declares) (p : PositionData) : outcome xposition :=
  obind (option_value TenthsValue (defaultX p)) (fun dx =>
  obind (option_value TenthsValue (defaultY p)) (fun dy =>
  obind (option_value TenthsValue (relativeX p)) (fun rx =>
  obind (option_value TenthsValue (relativeY p)) (fun ry =>
  Ok (mkXPosition dx dy rx ry
       (if has_halign d then
          match horizontalAlignment p with
          | api_HorizontalAlignment_unspecified => None
          | h => Some (halignMap_toCore h)
          end
        else None)
       (if has_valign d then
          match verticalAlignment p with
          | api_VerticalAlignment_unspecified => None
          | v => Some (valignMap_toCore v)
          end
        else None)
       (if has_placement d then
          match placement p with
          | api_Placement_unspecified => None
          | v => Some (placementMap_toCore v)
          end
        else None)))))).

(** getPositionData, impl/PositionFunctions.h:40-99. *)
Definition getPositionData (x : xposition) : PositionData :=
  mkPosition (x_defaultX x) (x_defaultY x) (x_relativeX x) (x_relativeY x)
    (match x_halign x with Some h => halignMap_toApi h | None => api_HorizontalAlignment_unspecified end)
    (match x_valign x with Some v => valignMap_toApi v | None => api_VerticalAlignment_unspecified end)
    (match x_placement x with Some p => placementMap_toApi p | None => api_Placement_unspecified end).

(** ** Curves *)

(** enum class CurveType, CurveOrientation, include/mx/api/CurveData.h:43-55. *)
Inductive CurveType := Curve_unspecified | Curve_slur | Curve_tie.
Inductive CurveOrientation := Orientation_unspecified | Orientation_overhand | Orientation_underhand.

(** CurvePoints, CurveData.h:57-99. *)
Record CurvePoints := mkPoints {
  positionData : PositionData; bezierX : option Q; bezierY : option Q; bezierOffset : option Z }.

(** LineData, include/mx/api/LineData.h:32-64. *)
Record LineData := mkLine {
  lineType : api_LineType; lineHook : api_LineHook;
  endLength : option Q; dashLength : option Q; spaceLength : option Q }.

(** CurveStart, CurveContinue, CurveStop, CurveData.h:101-166. The colour is left as a
    number: it is written and read as it is. *)
Record CurveStart := mkCurveStart {
  cs_type : CurveType; cs_number : Z; cs_points : CurvePoints; cs_orientation : CurveOrientation;
  cs_placement : api_Placement; cs_line : LineData; cs_color : option Z }.
Record CurveContinue := mkCurveContinue {
  cc_type : CurveType; cc_number : Z; cc_points : CurvePoints;
  bezierX2 : option Q; bezierY2 : option Q; bezierOffset2 : option Q }.
Record CurveStop := mkCurveStop { cp_type : CurveType; cp_number : Z; cp_points : CurvePoints }.

(** Tied and Slur with TiedAttributes, SlurAttributes: core/elements/TiedAttributes.h,
    SlurAttributes.h, which have the same members. *)
Record xcurve := mkXCurve {
  xc_slur : bool; xc_kind : StartStopContinue; xc_number : option Z; xc_lineType : option LineType;
  xc_dashLength : option Q; xc_spaceLength : option Q; xc_position : xposition;
  xc_orientation : option OverUnder;
  xc_bezierOffset : option Q; xc_bezierOffset2 : option Q;
  xc_bezierX : option Q; xc_bezierY : option Q; xc_bezierX2 : option Q; xc_bezierY2 : option Q;
  xc_color : option Z }.

(** makeTied(), makeSlur(): the type is start, nothing else is set. *)
Definition default_curve (slur : bool) : xcurve :=
  mkXCurve slur StartStopContinue_start None None None None noXPosition None None None None None None None None.

(** "if( inCurve.numberLevel > 0 ) ... lookForAndSetNumber": NumberLevel clamps. *)
Definition number_attribute (n : Z) : option Z :=
  if 0 <? n then Some (ir_value (Integers.construct NumberLevel n)) else None.

(** The integer offset as the DivisionsValue. *)
Definition offset_attribute (o : option Z) : outcome (option Q) :=
  option_value DivisionsValue (option_map inject_Z o).

(** writeAttributesFromCurveStart, CurveFunctions.h:156-201, with
    setAttributesFromLineData, LineFunctions.h:96-126: the attributes have no line-stop
    and no stop-length, so the hook and the end length are dropped. The placement of
    the curve itself is not used. *)
Definition writeAttributesFromCurveStart (slur : bool) (c : CurveStart) : outcome xcurve :=
  obind (setAttributesFromPositionData placement_declares (positionData (cs_points c))) (fun p =>
  obind (option_value TenthsValue (dashLength (cs_line c))) (fun dl =>
  obind (option_value TenthsValue (spaceLength (cs_line c))) (fun sl =>
  obind (offset_attribute (bezierOffset (cs_points c))) (fun bo =>
  obind (option_value TenthsValue (bezierX (cs_points c))) (fun bx =>
  obind (option_value TenthsValue (bezierY (cs_points c))) (fun by_ =>
  Ok (mkXCurve slur StartStopContinue_start (number_attribute (cs_number c))
       (match lineType (cs_line c) with api_LineType_unspecified => None | l => Some (lineTypeMap_toCore l) end)
       dl sl p
       (match cs_orientation c with
        | Orientation_unspecified => None
        | Orientation_overhand => Some OverUnder_over
        | _ => Some OverUnder_under
        end)
       bo None bx by_ None None (cs_color c)))))))).

(** writeAttributesFromCurveContinue, CurveFunctions.h:203-250. *)
Definition writeAttributesFromCurveContinue (slur : bool) (c : CurveContinue) : outcome xcurve :=
  obind (setAttributesFromPositionData placement_declares (positionData (cc_points c))) (fun p =>
  obind (offset_attribute (bezierOffset (cc_points c))) (fun bo =>
  obind (option_value TenthsValue (bezierX (cc_points c))) (fun bx =>
  obind (option_value TenthsValue (bezierY (cc_points c))) (fun by_ =>
  obind (option_value TenthsValue (bezierX2 c)) (fun bx2 =>
  obind (option_value TenthsValue (bezierY2 c)) (fun by2 =>
  obind (option_value DivisionsValue (bezierOffset2 c)) (fun bo2 =>
  Ok (mkXCurve slur StartStopContinue_continue_ (number_attribute (cc_number c)) None None None p None
       bo bo2 bx by_ bx2 by2 None)))))))).

(** writeAttributesFromCurveStop, CurveFunctions.h:252-280. *)
Definition writeAttributesFromCurveStop (slur : bool) (c : CurveStop) : outcome xcurve :=
  obind (setAttributesFromPositionData placement_declares (positionData (cp_points c))) (fun p =>
  obind (offset_attribute (bezierOffset (cp_points c))) (fun bo =>
  obind (option_value TenthsValue (bezierX (cp_points c))) (fun bx =>
  obind (option_value TenthsValue (bezierY (cp_points c))) (fun by_ =>
  Ok (mkXCurve slur StartStopContinue_stop (number_attribute (cp_number c)) None None None p None
       bo None bx by_ None None None))))).

(** NotationsWriter.cpp:106-168, each loop: a tie becomes <tied>, a slur <slur>; for any
    other type the choice is left as it was made, a <tied> with its defaults. *)
Definition write_curve {A} (type : A -> CurveType) (write : bool -> A -> outcome xcurve) (c : A) : outcome xcurve :=
  match type c with
  | Curve_tie => write false c
  | Curve_slur => write true c
  | Curve_unspecified => Ok (default_curve false)
  end.

(** "if( inAttributes.hasNumber ) ... else -1", CurveFunctions.h:78-85. *)
Definition curve_number (x : xcurve) : Z := match xc_number x with Some n => n | None => -1 end.

(** slurOrTie.getElementName() == "slur". *)
Definition curve_type (x : xcurve) : CurveType := if xc_slur x then Curve_slur else Curve_tie.

(** static_cast<int>( std::ceil( ... - 0.5 ) ), CurveFunctions.h:39. *)
Definition offset_read (o : option Q) : outcome (option Z) :=
  match o with None => Ok None | Some q => omap Some (as_int (round_half q)) end.

(** parseCurvePoints, CurveFunctions.h:18-44. *)
Definition parseCurvePoints (x : xcurve) : outcome CurvePoints :=
  obind (offset_read (xc_bezierOffset x)) (fun bo =>
  Ok (mkPoints (getPositionData (xc_position x)) (xc_bezierX x) (xc_bezierY x) bo)).

(** parseCurveStart, CurveFunctions.h:71-103. *)
Definition parseCurveStart (x : xcurve) : outcome CurveStart :=
  obind (parseCurvePoints x) (fun p =>
  Ok (mkCurveStart (curve_type x) (curve_number x) p
       (match xc_orientation x with
        | None => Orientation_unspecified
        | Some OverUnder_over => Orientation_overhand
        | Some _ => Orientation_underhand
        end)
       api_Placement_unspecified
       (mkLine (match xc_lineType x with Some l => lineTypeMap_toApi l | None => api_LineType_unspecified end)
          api_LineHook_unspecified None (xc_dashLength x) (xc_spaceLength x))
       (xc_color x))).

(** parseCurveContinue, CurveFunctions.h:105-139. *)
Definition parseCurveContinue (x : xcurve) : outcome CurveContinue :=
  obind (parseCurvePoints x) (fun p =>
  Ok (mkCurveContinue (curve_type x) (curve_number x) p (xc_bezierX2 x) (xc_bezierY2 x) (xc_bezierOffset2 x))).

(** parseCurveStop, CurveFunctions.h:141-153. *)
Definition parseCurveStop (x : xcurve) : outcome CurveStop :=
  obind (parseCurvePoints x) (fun p => Ok (mkCurveStop (curve_type x) (curve_number x) p)).

(** ** Tuplets *)

(** TupletStart, TupletStop, include/mx/api/TupletData.h:21-86. *)
Record TupletStart := mkTupletStart {
  ts_number : Z; ts_position : PositionData;
  actualNumber : Z; actualDurationName : api_DurationName; actualDots : Z;
  normalNumber : Z; normalDurationName : api_DurationName; normalDots : Z;
  showActualNumber : api_Bool; showNormalNumber : api_Bool; bracket : api_Bool }.
Record TupletStop := mkTupletStop { tp_number : Z; tp_position : PositionData }.

(** Tuplet with TupletActual, TupletNormal and TupletAttributes. *)
Record xportion := mkXPortion { xp_number : option Z; xp_type : option NoteTypeValue; xp_dots : nat }.
Record xtuplet := mkXTuplet {
  xt_stop : bool; xt_number : option Z; xt_bracket : option YesNo; xt_show : option ShowTuplet;
  xt_position : xposition; xt_actual : option xportion; xt_normal : option xportion }.

(** NotationsWriter.cpp:171-184. *)
Definition write_tupletStop (t : TupletStop) : xtuplet :=
  mkXTuplet true (number_attribute (tp_number t)) None None noXPosition None None.

(** NotationsWriter.cpp:186-251. *)
Definition write_tupletStart (t : TupletStart) : xtuplet :=
  mkXTuplet false (number_attribute (ts_number t))
    (match bracket t with api_Bool_unspecified => None | b => Some (boolMap_toCore b) end)
    (match showActualNumber t with
     | api_Bool_unspecified => None
     | api_Bool_yes => match showNormalNumber t with api_Bool_yes => Some ShowTuplet_both | _ => Some ShowTuplet_actual end
     | api_Bool_no => Some ShowTuplet_none
     end)
    noXPosition
    (Some (mkXPortion (Some (ir_value (Integers.construct NonNegativeInteger (actualNumber t))))
             (Some (durationMap_toCore (actualDurationName t))) (Z.to_nat (actualDots t))))
    (Some (mkXPortion (Some (ir_value (Integers.construct NonNegativeInteger (normalNumber t))))
             (Some (durationMap_toCore (normalDurationName t))) (Z.to_nat (normalDots t)))).

(** What the tuplet reader asks of the note: its time modification (actual and normal
    notes, normal type and dots) and its type. *)
Record note_context := mkNoteContext {
  nc_timeModification : option (Z * Z * option (NoteTypeValue * nat)); nc_type : option NoteTypeValue }.

(** TupletReader::guessActualFromNote, TupletReader.cpp:161-184. *)
Definition guessActualFromNote (n : note_context) (t : TupletStart) : TupletStart :=
  let '(mkTupletStart nu po an ad ao nn nd no sa sn br) := t in
  match nc_timeModification n with
  | None => t
  | Some (_, normal, Some (ty, dots)) => mkTupletStart nu po an (durationMap_toApi ty) (Z.of_nat dots) normal nd no sa sn br
  | Some (_, normal, None) =>
      match nc_type n with
      | Some ty => mkTupletStart nu po an (durationMap_toApi ty) ao normal nd no sa sn br
      | None => mkTupletStart nu po an ad ao normal nd no sa sn br
      end
  end.

(** TupletReader::guessNormalFromNote, TupletReader.cpp:135-158. *)
Definition guessNormalFromNote (n : note_context) (t : TupletStart) : TupletStart :=
  let '(mkTupletStart nu po an ad ao nn nd no sa sn br) := t in
  match nc_timeModification n with
  | None => t
  | Some (actual, _, Some (ty, dots)) => mkTupletStart nu po actual ad ao nn (durationMap_toApi ty) (Z.of_nat dots) sa sn br
  | Some (actual, _, None) =>
      match nc_type n with
      | Some ty => mkTupletStart nu po actual ad ao nn (durationMap_toApi ty) no sa sn br
      | None => mkTupletStart nu po actual ad ao nn nd no sa sn br
      end
  end.

(** One of the two portions, TupletReader.cpp:86-105 and :112-131. *)
Definition portion_number (p : xportion) (old : Z) : Z := match xp_number p with Some n => n | None => old end.
Definition portion_type (p : xportion) (old : api_DurationName) : api_DurationName :=
  match xp_type p with Some ty => durationMap_toApi ty | None => old end.
Definition portion_dots (p : xportion) (old : Z) : Z := match xp_dots p with O => old | d => Z.of_nat d end.

(** TupletReader::parseTuplet, TupletReader.cpp:34-139. *)
Definition parseTuplet (n : note_context) (x : xtuplet) : TupletStart + TupletStop :=
  let number := match xt_number x with Some v => v | None => -1 end in
  let position := getPositionData (xt_position x) in
  if xt_stop x then inr (mkTupletStop number position)
  else
    let show := match xt_show x with
                | None => (api_Bool_unspecified, api_Bool_unspecified)
                | Some ShowTuplet_none => (api_Bool_no, api_Bool_no)
                | Some ShowTuplet_both => (api_Bool_yes, api_Bool_yes)
                | Some ShowTuplet_actual => (api_Bool_yes, api_Bool_no)
                end in
    let t0 := mkTupletStart number position (-1) api_DurationName_unspecified (-1) (-1) api_DurationName_unspecified (-1)
                (fst show) (snd show)
                (match xt_bracket x with Some b => boolMap_toApi b | None => api_Bool_unspecified end) in
    let t1 := match xt_actual x with
              | Some p => let '(mkTupletStart nu po an ad ao nn nd no sa sn br) := t0 in
                          mkTupletStart nu po (portion_number p an) (portion_type p ad) (portion_dots p ao) nn nd no sa sn br
              | None => guessActualFromNote n t0
              end in
    inl (match xt_normal x with
         | Some p => let '(mkTupletStart nu po an ad ao nn nd no sa sn br) := t1 in
                     mkTupletStart nu po an ad ao (portion_number p nn) (portion_type p nd) (portion_dots p no) sa sn br
         | None => guessNormalFromNote n t1
         end).

(** ** Marks *)

(** MarkData, include/mx/api/MarkData.h. The print data is left as a number, 0 being
    PrintData{}. *)
Record MarkData := mkMark {
  m_type : api_MarkType; m_name : str; m_tick : Z; m_print : Z; m_position : PositionData }.

(** One element of a mark: what it is, its text, the attribute values. *)
Record xmark (A : Type) := mkXMark { xm_choice : A; xm_value : str; xm_position : xposition; xm_print : Z }.
Arguments mkXMark {A}. Arguments xm_choice {A}. Arguments xm_value {A}. Arguments xm_position {A}. Arguments xm_print {A}.

(** The element whose attributes addArticulation sets, NotationsWriter.cpp:413-516. *)
Definition articulation_element (m : api_MarkType) : option ArticulationsChoice :=
  match m with
  | api_MarkType_accent => Some ArticulationsChoice_accent
  | api_MarkType_strongAccent => Some ArticulationsChoice_strongAccent
  | api_MarkType_staccato => Some ArticulationsChoice_staccato
  | api_MarkType_tenuto => Some ArticulationsChoice_tenuto
  | api_MarkType_detachedLegato => Some ArticulationsChoice_detachedLegato
  | api_MarkType_staccatissimo => Some ArticulationsChoice_staccatissimo
  | api_MarkType_spiccato => Some ArticulationsChoice_spiccato
  | api_MarkType_scoop => Some ArticulationsChoice_scoop
  | api_MarkType_plop => Some ArticulationsChoice_plop
  | api_MarkType_doit => Some ArticulationsChoice_doit
  | api_MarkType_falloff => Some ArticulationsChoice_falloff
  | api_MarkType_breathMark => Some ArticulationsChoice_breathMark
  | api_MarkType_caesura => Some ArticulationsChoice_caesura
  | api_MarkType_stress => Some ArticulationsChoice_stress
  | api_MarkType_unstress => Some ArticulationsChoice_unstress
  | api_MarkType_customAccentTenuto => Some ArticulationsChoice_otherArticulation
  | api_MarkType_otherArticulation => Some ArticulationsChoice_otherArticulation
  | _ => None
  end.

(** The position goes to one of the elements that the choice object holds; it is seen if
    that is the element chosen. *)
Definition position_of {A} (value : A -> Z) (choice : A) (target : option A) (m : MarkData) : outcome xposition :=
  match target with
  | Some e => obind (setAttributesFromPositionData placement_declares (m_position m)) (fun p =>
                Ok (if value e =? value choice then p else noXPosition))
  | None => Ok noXPosition
  end.

(** NotationsWriter::addArticulation, NotationsWriter.cpp:400-517. *)
Definition addArticulation (m : MarkData) : outcome (list (xmark ArticulationsChoice)) :=
  if negb (Converter_isArticulation (m_type m)) && negb (isMarkCustom (m_type m)) then Ok []
  else
    let choice := articulationsMap_toCore (m_type m) in
    obind (position_of ArticulationsChoice_value choice (articulation_element (m_type m)) m) (fun p =>
      Ok [mkXMark choice
            (if isMarkCustom (m_type m) then getCustomMarkName (m_type m)
             else match m_type m with api_MarkType_otherArticulation => m_name m | _ => [] end)
            p 0]).

(** The element whose attributes addOrnament sets, NotationsWriter.cpp:532-624. *)
Definition ornament_element (m : api_MarkType) : option OrnamentsChoice :=
  match m with
  | api_MarkType_trillMark => Some OrnamentsChoice_trillMark
  | api_MarkType_turn => Some OrnamentsChoice_turn
  | api_MarkType_delayedTurn => Some OrnamentsChoice_delayedTurn
  | api_MarkType_invertedTurn => Some OrnamentsChoice_invertedTurn
  | api_MarkType_delayedInvertedTurn => Some OrnamentsChoice_delayedInvertedTurn
  | api_MarkType_verticalTurn => Some OrnamentsChoice_verticalTurn
  | api_MarkType_shake => Some OrnamentsChoice_shake
  | api_MarkType_wavyLine => Some OrnamentsChoice_wavyLine
  | api_MarkType_mordent => Some OrnamentsChoice_mordent
  | api_MarkType_invertedMordent => Some OrnamentsChoice_invertedMordent
  | api_MarkType_schleifer => Some OrnamentsChoice_schleifer
  | api_MarkType_unknownOrnament => Some OrnamentsChoice_otherOrnament
  | api_MarkType_otherOrnament => Some OrnamentsChoice_otherOrnament
  | _ => if isMarkTremolo m then Some OrnamentsChoice_tremolo else None
  end.

(** An ornament element: the mark with the tremolo's type attribute and slashes. *)
Record xornament := mkXOrnament { xo_mark : xmark OrnamentsChoice; xo_type : StartStopSingle; xo_slashes : Z }.

(** NotationsWriter::addOrnament, NotationsWriter.cpp:520-625. *)
Definition addOrnament (m : MarkData) : outcome (list xornament) :=
  if negb (isMarkOrnament (m_type m)) then Ok []
  else
    let choice := if isMarkTremolo (m_type m) then OrnamentsChoice_tremolo else ornamentsMap_toCore (m_type m) in
    obind (position_of OrnamentsChoice_value choice (ornament_element (m_type m)) m) (fun p =>
      Ok [mkXOrnament
            (mkXMark choice
               (match m_type m with api_MarkType_unknownOrnament | api_MarkType_otherOrnament => m_name m | _ => [] end) p 0)
            StartStopSingle_single
            (if isMarkTremolo (m_type m) then ir_value (Integers.construct TremoloMarks (numTremoloSlashes (m_type m))) else 0)]).

(** The element whose attributes addTechnical sets, NotationsWriter.cpp:639-722. *)
Definition technical_element (m : api_MarkType) : option TechnicalChoice :=
  match m with
  | api_MarkType_upBow => Some TechnicalChoice_upBow
  | api_MarkType_downBow => Some TechnicalChoice_downBow
  | api_MarkType_harmonic => Some TechnicalChoice_harmonic
  | api_MarkType_openString => Some TechnicalChoice_openString
  | api_MarkType_thumbPosition => Some TechnicalChoice_thumbPosition
  | api_MarkType_doubleTongue => Some TechnicalChoice_doubleTongue
  | api_MarkType_tripleTongue => Some TechnicalChoice_tripleTongue
  | api_MarkType_stopped => Some TechnicalChoice_stopped
  | api_MarkType_snapPizzicato => Some TechnicalChoice_snapPizzicato
  | api_MarkType_heel => Some TechnicalChoice_heel
  | api_MarkType_toe => Some TechnicalChoice_toe
  | api_MarkType_fingernails => Some TechnicalChoice_fingernails
  | api_MarkType_unknownTechnical => Some TechnicalChoice_otherTechnical
  | api_MarkType_otherTechnical => Some TechnicalChoice_otherTechnical
  | _ => None
  end.

(** NotationsWriter::addTechnical, NotationsWriter.cpp:627-723. *)
Definition addTechnical (m : MarkData) : outcome (list (xmark TechnicalChoice)) :=
  if negb (isMarkTechnical (m_type m)) then Ok []
  else
    let choice := technicalMarkMap_toCore (m_type m) in
    obind (position_of TechnicalChoice_value choice (technical_element (m_type m)) m) (fun p =>
      Ok [mkXMark choice
            (match m_type m with api_MarkType_unknownTechnical | api_MarkType_otherTechnical => m_name m | _ => [] end) p 0]).

(** DynamicsWriter::getDynamics, DynamicsWriter.cpp:37-55. *)
Definition getDynamics (m : MarkData) : outcome (xmark (custom DynamicsEnum)) :=
  let value := dynamicsMap_toCore (m_type m) in
  let v0 := setValue_enum isOther_DynamicsValue (construct_enum isOther_DynamicsValue DynamicsEnum_mf) value in
  let v := if isOther_DynamicsValue value && negb (str_eqb (m_name m) [])
           then setValue_text isOther_DynamicsValue DynamicsEnum_otherDynamics tryParse_DynamicsEnum v0 (m_name m) else v0 in
  obind (setAttributesFromPositionData dynamics_declares (m_position m)) (fun p => Ok (mkXMark v [] p (m_print m))).

(** The shape and the type attribute of a fermata, NotationsWriter.cpp:287-355; a fresh
    Fermata is normal and has no type. *)
Definition fermata_value (m : api_MarkType) : FermataShape * option UprightInverted :=
  match m with
  | api_MarkType_fermata => (FermataShape_emptystring, None)
  | api_MarkType_fermataNormal => (FermataShape_normal, None)
  | api_MarkType_fermataAngled => (FermataShape_angled, None)
  | api_MarkType_fermataSquare => (FermataShape_square, None)
  | api_MarkType_fermataUpright => (FermataShape_emptystring, Some UprightInverted_upright)
  | api_MarkType_fermataNormalUpright => (FermataShape_normal, Some UprightInverted_upright)
  | api_MarkType_fermataAngledUpright => (FermataShape_angled, Some UprightInverted_upright)
  | api_MarkType_fermataSquareUpright => (FermataShape_square, Some UprightInverted_upright)
  | api_MarkType_fermataInverted => (FermataShape_emptystring, Some UprightInverted_inverted)
  | api_MarkType_fermataNormalInverted => (FermataShape_normal, Some UprightInverted_inverted)
  | api_MarkType_fermataAngledInverted => (FermataShape_angled, Some UprightInverted_inverted)
  | api_MarkType_fermataSquareInverted => (FermataShape_square, Some UprightInverted_inverted)
  | _ => (FermataShape_normal, None)
  end.

Definition xfermata := xmark (FermataShape * option UprightInverted).

Definition write_fermata (m : MarkData) : outcome xfermata :=
  obind (setAttributesFromPositionData fermata_declares (m_position m)) (fun p =>
    Ok (mkXMark (fermata_value (m_type m)) [] p (m_print m))).

(** ** The notations element *)

(** NotationsChoice, core/elements/NotationsChoice.h. *)
Inductive notation :=
| XCurve (c : xcurve)
| XTuplet (t : xtuplet)
| XOrnaments (l : list xornament) (accidentals : list (xmark AccidentalValue))
| XTechnical (l : list (xmark TechnicalChoice))
| XArticulations (l : list (xmark ArticulationsChoice))
| XDynamics (d : xmark (custom DynamicsEnum))
| XFermata (f : xfermata)
| XArpeggiate (direction : option UpDown) (p : xposition) (print : Z)
| XNonArpeggiate (p : xposition) (print : Z)
| XAccidentalMark (a : xmark AccidentalValue)
| XOther. (* glissando, slide, other-notation *)

(** NoteAttachmentData, include/mx/api/NoteAttachmentData.h. *)
Record NoteAttachmentData := mkAttachments {
  marks : list MarkData;
  curveStarts : list CurveStart; curveContinuations : list CurveContinue; curveStops : list CurveStop;
  tupletStarts : list TupletStart; tupletStops : list TupletStop }.

Definition noAttachments : NoteAttachmentData := mkAttachments [] [] [] [] [] [].

Fixpoint each {A B} (f : A -> outcome B) (l : list A) : outcome (list B) :=
  match l with
  | [] => Ok []
  | x :: r => obind (f x) (fun y => obind (each f r) (fun ys => Ok (y :: ys)))
  end.

(** The loop over the marks, NotationsWriter.cpp:255-356: a mark that is technical is
    not also looked at as a dynamic or fermata. *)
Definition own_notation (m : MarkData) : outcome (list notation) :=
  if isMarkTechnical (m_type m) then Ok []
  else if isMarkDynamic (m_type m) then omap (fun d => [XDynamics d]) (getDynamics m)
  else if isMarkFermata (m_type m) then omap (fun f => [XFermata f]) (write_fermata m)
  else Ok [].

Definition articulations_of (m : MarkData) : outcome (list (xmark ArticulationsChoice)) :=
  if isMarkArticulation (m_type m) || isMarkCustom (m_type m) then addArticulation m else Ok [].
Definition ornaments_of (m : MarkData) : outcome (list xornament) :=
  if isMarkOrnament (m_type m) then addOrnament m else Ok [].
Definition technicals_of (m : MarkData) : outcome (list (xmark TechnicalChoice)) :=
  if isMarkTechnical (m_type m) then addTechnical m else Ok [].

(** NotationsWriter::getNotations, NotationsWriter.cpp:96-374. *)
Definition getNotations (a : NoteAttachmentData) : outcome (list notation) :=
  obind (each (write_curve cp_type writeAttributesFromCurveStop) (curveStops a)) (fun stops =>
  obind (each (write_curve cc_type writeAttributesFromCurveContinue) (curveContinuations a)) (fun continues =>
  obind (each (write_curve cs_type writeAttributesFromCurveStart) (curveStarts a)) (fun starts =>
  obind (each own_notation (marks a)) (fun own =>
  obind (each articulations_of (marks a)) (fun articulations =>
  obind (each ornaments_of (marks a)) (fun ornaments =>
  obind (each technicals_of (marks a)) (fun technicals =>
  Ok (map XCurve stops ++ map XCurve continues ++ map XCurve starts ++
      map (fun t => XTuplet (write_tupletStop t)) (tupletStops a) ++
      map (fun t => XTuplet (write_tupletStart t)) (tupletStarts a) ++
      List.concat own ++
      match List.concat articulations with [] => [] | l => [XArticulations l] end ++
      match List.concat ornaments with [] => [] | l => [XOrnaments l []] end ++
      match List.concat technicals with [] => [] | l => [XTechnical l] end)))))))).

(** NoteWriter.cpp:219-272, addTie: the notations of a note that already has some are
    the first ones, and are added to the set once more. [ns_copies] is how many times
    the set holds the shared object [ns_front]. *)
Record tie_notations := mkTieNotations { ns_front : list notation; ns_copies : nat }.

Definition addTie (isStart : bool) (s : tie_notations) : tie_notations :=
  let d := default_curve false in
  let '(mkXCurve sl _ nu lt dl sp po ori bo bo2 bx by_ bx2 by2 co) := d in
  let tied := mkXCurve sl (if isStart then StartStopContinue_start else StartStopContinue_stop) nu lt dl sp po ori bo bo2 bx by_ bx2 by2 co in
  mkTieNotations (ns_front s ++ [XCurve tied]) (S (ns_copies s)).

(** The set of notations of a note, NoteWriter.cpp:77-96,274-330: [ties] says that the
    note is a normal or a grace note, whose tie flags are looked at. *)
Definition write_notations_set (ties isTieStop isTieStart : bool) (a : NoteAttachmentData) : outcome (list (list notation)) :=
  let s0 := mkTieNotations [] O in
  let s1 := if ties && isTieStop then addTie false s0 else s0 in
  let s2 := if ties && isTieStart then addTie true s1 else s1 in
  obind (getNotations a) (fun n =>
    Ok (repeat (ns_front s2) (ns_copies s2) ++ match n with [] => [] | _ => [n] end)).

(** ** Reading marks *)

(** parseMarkDataAttributes, MarkDataFunctions.h:17-22: position and print data. *)

(** ArticulationsFunctions::parseArticulation, ArticulationsFunctions.cpp:58-168: the name. *)
Definition articulation_name (x : xmark ArticulationsChoice) : str :=
  match xm_choice x with
  | ArticulationsChoice_accent => lit "accent"
  | ArticulationsChoice_strongAccent => lit "strong-accent"
  | ArticulationsChoice_staccato => lit "staccato"
  | ArticulationsChoice_tenuto => lit "tenuto"
  | ArticulationsChoice_detachedLegato => lit "detached-legato"
  | ArticulationsChoice_staccatissimo => lit "staccatissimo"
  | ArticulationsChoice_spiccato => lit "spiccato"
  | ArticulationsChoice_scoop => lit "scoop"
  | ArticulationsChoice_plop => lit "plop"
  | ArticulationsChoice_doit => lit "doit"
  | ArticulationsChoice_falloff => lit "falloff"
  | ArticulationsChoice_breathMark => lit "breath-mark"
  | ArticulationsChoice_caesura => lit "caesura"
  | ArticulationsChoice_stress => lit "stress"
  | ArticulationsChoice_unstress => lit "unstress"
  | ArticulationsChoice_otherArticulation => xm_value x
  end.

(** ArticulationsFunctions::parseArticulations, ArticulationsFunctions.cpp:42-168. *)
Definition parseArticulation (tick : Z) (x : xmark ArticulationsChoice) : MarkData :=
  let name := articulation_name x in
  mkMark
    (match xm_choice x with
     | ArticulationsChoice_otherArticulation =>
         match getMarkTypeFromCustomString name with
         | api_MarkType_customErrorUnknown => articulationsMap_toApi (xm_choice x)
         | t => t
         end
     | c => articulationsMap_toApi c
     end)
    name tick (xm_print x) (getPositionData (xm_position x)).

(** AccidentalMarkFunctions::parseAccidentalMark, AccidentalMarkFunctions.cpp:24-38. *)
Definition parseAccidentalMark (tick : Z) (x : xmark AccidentalValue) : MarkData :=
  mkMark (accidentalMarkMap_toApi (xm_choice x)) (AccidentalValue_toString (xm_choice x)) tick 0 (getPositionData (xm_position x)).

(** OrnamentsFunctions::parseOrnament, OrnamentsFunctions.cpp:75-208. *)
Definition parseOrnament (tick : Z) (x : xornament) : MarkData :=
  let m := xo_mark x in
  let plain name := mkMark (ornamentsMap_toApi (xm_choice m)) name tick (xm_print m) (getPositionData (xm_position m)) in
  match xm_choice m with
  | OrnamentsChoice_trillMark => plain (lit "trill-mark")
  | OrnamentsChoice_turn => plain (lit "turn")
  | OrnamentsChoice_delayedTurn => plain (lit "delayed-turn")
  | OrnamentsChoice_invertedTurn => plain (lit "inverted-turn")
  | OrnamentsChoice_delayedInvertedTurn => plain (lit "delayed-inverted-turn")
  | OrnamentsChoice_verticalTurn => plain (lit "vertical-turn")
  | OrnamentsChoice_shake => plain (lit "shake")
  | OrnamentsChoice_wavyLine => plain (lit "wavy-line")
  | OrnamentsChoice_mordent => plain (lit "mordent")
  | OrnamentsChoice_invertedMordent => plain (lit "inverted-mordent")
  | OrnamentsChoice_schleifer => plain (lit "schleifer")
  | OrnamentsChoice_tremolo =>
      match xo_type x with
      | StartStopSingle_single =>
          mkMark (match xo_slashes x with
                  | 0 => api_MarkType_tremoloSingleThree
                  | 1 => api_MarkType_tremoloSingleOne
                  | 2 => api_MarkType_tremoloSingleTwo
                  | 3 => api_MarkType_tremoloSingleThree
                  | 4 => api_MarkType_tremoloSingleFour
                  | 5 => api_MarkType_tremoloSingleFive
                  | _ => ornamentsMap_toApi (xm_choice m)
                  end)
            (lit "tremolo") tick (xm_print m) (getPositionData (xm_position m))
      | _ => mkMark api_MarkType_unknownOrnament (lit "this tremolo is not a mark") tick 0 noPosition
      end
  | OrnamentsChoice_otherOrnament =>
      plain (if str_eqb (xm_value m) [] then lit "other-ornament" else xm_value m)
  end.

(** OrnamentsFunctions::parseOrnaments, OrnamentsFunctions.cpp:35-72. *)
Definition parseOrnaments (tick : Z) (l : list xornament) (accidentals : list (xmark AccidentalValue)) : list MarkData :=
  filter (fun m => match m_type m with api_MarkType_unknownOrnament => false | _ => true end) (map (parseOrnament tick) l) ++
  map (parseAccidentalMark tick) accidentals.

(** The names, and which elements are no marks, TechnicalFunctions.cpp:77-178. *)
Definition technical_name (x : xmark TechnicalChoice) : option str :=
  match xm_choice x with
  | TechnicalChoice_upBow => Some (lit "up-bow")
  | TechnicalChoice_downBow => Some (lit "down-bow")
  | TechnicalChoice_harmonic => Some (lit "harmonic")
  | TechnicalChoice_openString => Some (lit "open-string")
  | TechnicalChoice_thumbPosition => Some (lit "thumb-position")
  | TechnicalChoice_pluck => Some (lit "pluck")
  | TechnicalChoice_doubleTongue => Some (lit "double-tongue")
  | TechnicalChoice_tripleTongue => Some (lit "triple-tongue")
  | TechnicalChoice_stopped => Some (lit "stopped")
  | TechnicalChoice_snapPizzicato => Some (lit "snap-pizzicato")
  | TechnicalChoice_heel => Some (lit "heel")
  | TechnicalChoice_toe => Some (lit "toe")
  | TechnicalChoice_fingernails => Some (lit "fingernails")
  | TechnicalChoice_otherTechnical => Some (xm_value x)
  | _ => None
  end.

(** TechnicalFunctions::parseTechnicalMarks, TechnicalFunctions.cpp:47-74. *)
Definition parseTechnical (tick : Z) (x : xmark TechnicalChoice) : list MarkData :=
  let t := technicalMarkMap_toApi (xm_choice x) in
  if (api_MarkType_value t =? api_MarkType_value api_MarkType_unspecified) &&
     negb (TechnicalChoice_value (xm_choice x) =? TechnicalChoice_value TechnicalChoice_otherTechnical)
  then []
  else match technical_name x with
       | Some name => [mkMark t name tick (xm_print x) (getPositionData (xm_position x))]
       | None => []
       end.

(** DynamicsReader::parseDynamics, DynamicsReader.cpp:22-33. *)
Definition parseDynamics (tick : Z) (x : xmark (custom DynamicsEnum)) : MarkData :=
  mkMark (dynamicsMap_toApi (CustomEnums.getValue (xm_choice x)))
    (getValueString isOther_DynamicsValue DynamicsEnum_toString (xm_choice x)) tick 0 (getPositionData (xm_position x)).

(** FermataFunctions::parseFermata, FermataFunctions.cpp:22-103. The attributes are
    handed to parseMarkDataAttributes as the pointer, in which getPositionData and
    getPrintData find no fields. *)
Definition parseFermata (tick : Z) (x : xfermata) : MarkData :=
  let t := match xm_choice x with
           | (FermataShape_emptystring, None) => api_MarkType_fermata
           | (FermataShape_emptystring, Some UprightInverted_upright) => api_MarkType_fermataUpright
           | (FermataShape_emptystring, Some UprightInverted_inverted) => api_MarkType_fermataInverted
           | (FermataShape_normal, None) => api_MarkType_fermataNormal
           | (FermataShape_normal, Some UprightInverted_upright) => api_MarkType_fermataNormalUpright
           | (FermataShape_normal, Some UprightInverted_inverted) => api_MarkType_fermataNormalInverted
           | (FermataShape_angled, None) => api_MarkType_fermataAngled
           | (FermataShape_angled, Some UprightInverted_upright) => api_MarkType_fermataAngledUpright
           | (FermataShape_angled, Some UprightInverted_inverted) => api_MarkType_fermataAngledInverted
           | (FermataShape_square, None) => api_MarkType_fermataSquare
           | (FermataShape_square, Some UprightInverted_upright) => api_MarkType_fermataSquareUpright
           | (FermataShape_square, Some UprightInverted_inverted) => api_MarkType_fermataSquareInverted
           end in
  mkMark t (mark_name t) tick 0 noPosition.

(** ArpeggiateFunctions::parseArpeggiate, ArpeggiateFunctions.cpp:22-45; the attributes
    are not read for the same reason. *)
Definition parseArpeggiate (tick : Z) (direction : option UpDown) : MarkData :=
  let t := match direction with
           | None => api_MarkType_arpeggiate
           | Some UpDown_up => api_MarkType_arpeggiateUp
           | Some UpDown_down => api_MarkType_arpeggiateDown
           end in
  mkMark t (mark_name t) tick 0 noPosition.

(** NonArpeggiateFunctions::parseNonArpeggiate, NonArpeggiateFunctions.cpp:21-28. *)
Definition parseNonArpeggiate (tick : Z) : MarkData :=
  mkMark api_MarkType_nonArpeggiate (mark_name api_MarkType_nonArpeggiate) tick 0 noPosition.

(** ** Reading the notations *)

Definition addMarks (l : list MarkData) (a : NoteAttachmentData) : NoteAttachmentData :=
  mkAttachments (marks a ++ l) (curveStarts a) (curveContinuations a) (curveStops a) (tupletStarts a) (tupletStops a).

(** parseCurve, CurveFunctions.h:282-305. *)
Definition parseCurve (x : xcurve) (a : NoteAttachmentData) : outcome NoteAttachmentData :=
  match xc_kind x with
  | StartStopContinue_start => obind (parseCurveStart x) (fun c =>
      Ok (mkAttachments (marks a) (curveStarts a ++ [c]) (curveContinuations a) (curveStops a) (tupletStarts a) (tupletStops a)))
  | StartStopContinue_continue_ => obind (parseCurveContinue x) (fun c =>
      Ok (mkAttachments (marks a) (curveStarts a) (curveContinuations a ++ [c]) (curveStops a) (tupletStarts a) (tupletStops a)))
  | StartStopContinue_stop => obind (parseCurveStop x) (fun c =>
      Ok (mkAttachments (marks a) (curveStarts a) (curveContinuations a) (curveStops a ++ [c]) (tupletStarts a) (tupletStops a)))
  end.

(** One case of the switch in NoteFunctions::parseNotations, NoteFunctions.cpp:261-342. *)
Definition parseNotation (tick : Z) (n : note_context) (x : notation) (a : NoteAttachmentData) : outcome NoteAttachmentData :=
  match x with
  | XCurve c => parseCurve c a
  | XTuplet t =>
      Ok (match parseTuplet n t with
          | inl s => mkAttachments (marks a) (curveStarts a) (curveContinuations a) (curveStops a) (tupletStarts a ++ [s]) (tupletStops a)
          | inr s => mkAttachments (marks a) (curveStarts a) (curveContinuations a) (curveStops a) (tupletStarts a) (tupletStops a ++ [s])
          end)
  | XOrnaments l am => Ok (addMarks (parseOrnaments tick l am) a)
  | XTechnical l => Ok (addMarks (flat_map (parseTechnical tick) l) a)
  | XArticulations l => Ok (addMarks (map (parseArticulation tick) l) a)
  | XDynamics d => Ok (addMarks [parseDynamics tick d] a)
  | XFermata f => Ok (addMarks [parseFermata tick f] a)
  | XArpeggiate d _ _ => Ok (addMarks [parseArpeggiate tick d] a)
  | XNonArpeggiate _ _ => Ok (addMarks [parseNonArpeggiate tick] a)
  | XAccidentalMark m => Ok (addMarks [parseAccidentalMark tick m] a)
  | XOther => Ok a
  end.

(** NoteFunctions::parseNotations, NoteFunctions.cpp:251-348: every choice of every
    notations element, in order. *)
Fixpoint parse_choices (tick : Z) (n : note_context) (l : list notation) (a : NoteAttachmentData) : outcome NoteAttachmentData :=
  match l with
  | [] => Ok a
  | x :: r => obind (parseNotation tick n x a) (parse_choices tick n r)
  end.

Definition parseNotations (tick : Z) (n : note_context) (s : list (list notation)) : outcome NoteAttachmentData :=
  parse_choices tick n (List.concat s) noAttachments.
