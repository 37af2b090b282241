(** The data classes of the API: their members, and what their operator== compares.
    Read off include/mx/api/*.h, class by class; the lines are cited with each class. *)
From Coq Require Import List String.
Import ListNotations.
Local Open Scope string_scope.

Inductive api_class :=
| c_AppearanceData
| c_BarlineData
| c_Extension
| c_ChordData
| c_ClefData
| c_CodaData
| c_ColorData
| c_CurvePoints
| c_CurveStart
| c_CurveContinue
| c_CurveStop
| c_DefaultsData
| c_DirectionData
| c_DurationData
| c_SupportedItem
| c_MiscellaneousField
| c_EncodingDate
| c_EncodingData
| c_FontData
| c_KeyComponent
| c_KeyData
| c_LayoutData
| c_LeftRight
| c_LineData
| c_LyricData
| c_MarginsData
| c_MarkData
| c_MeasureData
| c_MeasureLocation
| c_MiscData
| c_NoteAttachmentData
| c_NoteData
| c_OttavaStart
| c_PageData
| c_PageLayoutData
| c_PageMarginsData
| c_PageTextData
| c_MidiData
| c_InstrumentData
| c_PartData
| c_PartGroupData
| c_PitchData
| c_PositionData
| c_PrintData
| c_RehearsalData
| c_ScoreData
| c_SegnoData
| c_SizeData
| c_SpannerStart
| c_SpannerStop
| c_StaffData
| c_SystemData
| c_SystemLayoutData
| c_BeatsPerMinute
| c_MetricModulation
| c_TempoText
| c_TempoData
| c_TimeSignatureData
| c_TransposeData
| c_TupletStart
| c_TupletStop
| c_VoiceData
| c_WedgeStart
| c_WedgeStop
| c_WordsData.

(** The types of members: int, bool, uint8_t and the enumerations; std::string; double
    and long double; a class; std::vector; std::optional; std::map with int keys. *)
Inductive kind :=
| KInt
| KText
| KNumber
| KClass (c : api_class)
| KVector (k : kind)
| KOptional (k : kind)
| KMap (k : kind).

(** The members of each class. *)
Definition members (c : api_class) : list (string * kind) :=
  match c with
  (* AppearanceData.h:49-51 *)
  | c_AppearanceData =>
      [("appearanceType", KInt);
       ("appearanceSubType", KText);
       ("value", KNumber)]
  (* BarlineData.h:42-47 *)
  | c_BarlineData =>
      [("tickTimePosition", KInt);
       ("barlineType", KInt);
       ("endingType", KInt);
       ("endingNumber", KInt);
       ("repeat", KInt);
       ("location", KInt)]
  (* ChordData.h:89-92 *)
  | c_Extension =>
      [("extensionType", KInt);
       ("extensionAlter", KInt);
       ("extensionNumber", KInt);
       ("printObject", KInt)]
  (* ChordData.h:146-155 *)
  | c_ChordData =>
      [("root", KInt);
       ("rootAlter", KInt);
       ("chordKind", KInt);
       ("text", KText);
       ("useSymbols", KInt);
       ("bass", KInt);
       ("bassAlter", KInt);
       ("extensions", (KVector (KClass c_Extension)));
       ("miscData", (KVector (KClass c_MiscData)));
       ("positionData", (KClass c_PositionData))]
  (* ClefData.h:44-48 *)
  | c_ClefData =>
      [("symbol", KInt);
       ("line", KInt);
       ("octaveChange", KInt);
       ("tickTimePosition", KInt);
       ("location", KInt)]
  (* CodaData.h:18-20 *)
  | c_CodaData =>
      [("positionData", (KClass c_PositionData));
       ("isColorSpecified", KInt);
       ("colorData", (KClass c_ColorData))]
  (* ColorData.h:15-19 *)
  | c_ColorData =>
      [("red", KInt);
       ("green", KInt);
       ("blue", KInt);
       ("isAlphaSpecified", KInt);
       ("alpha", KInt)]
  (* CurveData.h:65-74 *)
  | c_CurvePoints =>
      [("positionData", (KClass c_PositionData));
       ("isBezierXSpecified", KInt);
       ("bezierX", KNumber);
       ("isBezierYSpecified", KInt);
       ("bezierY", KNumber);
       ("isBezierOffsetSpecified", KInt);
       ("bezierOffset", KInt)]
  (* CurveData.h:102-109 *)
  | c_CurveStart =>
      [("curveType", KInt);
       ("numberLevel", KInt);
       ("curvePoints", (KClass c_CurvePoints));
       ("curveOrientation", KInt);
       ("placement", KInt);
       ("lineData", (KClass c_LineData));
       ("isColorSpecified", KInt);
       ("colorData", (KClass c_ColorData))]
  (* CurveData.h:128-136 *)
  | c_CurveContinue =>
      [("curveType", KInt);
       ("numberLevel", KInt);
       ("curvePoints", (KClass c_CurvePoints));
       ("isBezierX2Specified", KInt);
       ("bezierX2", KNumber);
       ("isBezierY2Specified", KInt);
       ("bezierY2", KNumber);
       ("isBezierOffset2Specified", KInt);
       ("bezierOffset2", KNumber)]
  (* CurveData.h:156-158 *)
  | c_CurveStop =>
      [("curveType", KInt);
       ("numberLevel", KInt);
       ("curvePoints", (KClass c_CurvePoints))]
  (* DefaultsData.h:62-111 *)
  | c_DefaultsData =>
      [("scalingMillimeters", KNumber);
       ("scalingTenths", KNumber);
       ("pageLayout", (KClass c_PageLayoutData));
       ("systemLayout", (KClass c_SystemLayoutData));
       ("appearance", (KVector (KClass c_AppearanceData)));
       ("measureNumbering", KInt)]
  (* DirectionData.h:32-70 *)
  | c_DirectionData =>
      [("tickTimePosition", KInt);
       ("placement", KInt);
       ("voice", KInt);
       ("isStaffValueSpecified", KInt);
       ("tempos", (KVector (KClass c_TempoData)));
       ("marks", (KVector (KClass c_MarkData)));
       ("wedgeStarts", (KVector (KClass c_WedgeStart)));
       ("wedgeStops", (KVector (KClass c_WedgeStop)));
       ("ottavaStarts", (KVector (KClass c_OttavaStart)));
       ("ottavaStops", (KVector (KClass c_SpannerStop)));
       ("bracketStarts", (KVector (KClass c_SpannerStart)));
       ("bracketStops", (KVector (KClass c_SpannerStop)));
       ("words", (KVector (KClass c_WordsData)));
       ("chords", (KVector (KClass c_ChordData)));
       ("segnos", (KVector (KClass c_SegnoData)));
       ("codas", (KVector (KClass c_CodaData)));
       ("rehearsals", (KVector (KClass c_RehearsalData)))]
  (* DurationData.h:69-76 *)
  | c_DurationData =>
      [("durationName", KInt);
       ("durationDots", KInt);
       ("durationTimeTicks", KInt);
       ("isTied", KInt);
       ("timeModificationActualNotes", KInt);
       ("timeModificationNormalNotes", KInt);
       ("timeModificationNormalType", KInt);
       ("timeModificationNormalTypeDots", KInt)]
  (* EncodingData.h:19-22 *)
  | c_SupportedItem =>
      [("elementName", KText);
       ("attributeName", KText);
       ("specificValue", KText);
       ("isSupported", KInt)]
  (* EncodingData.h:37-38 *)
  | c_MiscellaneousField =>
      [("key", KText);
       ("value", KText)]
  (* EncodingData.h:51-53 *)
  | c_EncodingDate =>
      [("year", KInt);
       ("month", KInt);
       ("day", KInt)]
  (* EncodingData.h:61-66 *)
  | c_EncodingData =>
      [("encodingDate", (KClass c_EncodingDate));
       ("encoder", KText);
       ("encodingDescription", KText);
       ("software", (KVector KText));
       ("supportedItems", (KVector (KClass c_SupportedItem)));
       ("miscelaneousFields", (KVector (KClass c_MiscellaneousField)))]
  (* FontData.h:62-73 *)
  | c_FontData =>
      [("sizeType", KInt);
       ("sizePoint", KNumber);
       ("sizeCss", KInt);
       ("style", KInt);
       ("weight", KInt);
       ("fontFamily", (KVector KText));
       ("underline", KInt);
       ("overline", KInt);
       ("lineThrough", KInt)]
  (* KeyComponent.h:19-29 *)
  | c_KeyComponent =>
      [("step", KInt);
       ("alter", KInt);
       ("cents", KNumber);
       ("accidental", KInt)]
  (* KeyData.h:50-78 *)
  | c_KeyData =>
      [("fifths", KInt);
       ("cancel", KInt);
       ("mode", KInt);
       ("tickTimePosition", KInt);
       ("staffIndex", KInt);
       ("nonTraditional", (KVector (KClass c_KeyComponent)))]
  (* LayoutData.h:30-34 *)
  | c_LayoutData =>
      [("system", (KClass c_SystemData));
       ("page", (KClass c_PageData))]
  (* LeftRight.h:24-27 *)
  | c_LeftRight =>
      [("left", KNumber);
       ("right", KNumber)]
  (* LineData.h:34-41 *)
  | c_LineData =>
      [("lineType", KInt);
       ("lineHook", KInt);
       ("isStopLengthSpecified", KInt);
       ("endLength", KNumber);
       ("isDashLengthSpecified", KInt);
       ("dashLength", KNumber);
       ("isSpaceLengthSpecified", KInt);
       ("spaceLength", KNumber)]
  (* LyricData.h:18-18 *)
  | c_LyricData =>
      [("text", KText)]
  (* MarginsData.h:21-24 *)
  | c_MarginsData =>
      [("left", KNumber);
       ("right", KNumber);
       ("top", KNumber);
       ("bottom", KNumber)]
  (* MarkData.h:212-216 *)
  | c_MarkData =>
      [("markType", KInt);
       ("name", KText);
       ("tickTimePosition", KInt);
       ("printData", (KClass c_PrintData));
       ("positionData", (KClass c_PositionData))]
  (* MeasureData.h:30-90 *)
  | c_MeasureData =>
      [("staves", (KVector (KClass c_StaffData)));
       ("timeSignature", (KClass c_TimeSignatureData));
       ("number", KText);
       ("measureNumbering", KInt);
       ("multiMeasureRest", KInt);
       ("implicit", KInt);
       ("nonControlling", KInt);
       ("width", KNumber);
       ("keys", (KVector (KClass c_KeyData)));
       ("barlines", (KVector (KClass c_BarlineData)))]
  (* MeasureLocation.h:21-23 *)
  | c_MeasureLocation =>
      [("partIndex", KInt);
       ("staffIndex", KInt);
       ("measureIndex", KInt)]
  (* MiscData.h:18-19 *)
  | c_MiscData =>
      [("name", KText);
       ("data", KText)]
  (* NoteAttachmentData.h:18-23 *)
  | c_NoteAttachmentData =>
      [("marks", (KVector (KClass c_MarkData)));
       ("curveStarts", (KVector (KClass c_CurveStart)));
       ("curveContinuations", (KVector (KClass c_CurveContinue)));
       ("curveStops", (KVector (KClass c_CurveStop)));
       ("tupletStarts", (KVector (KClass c_TupletStart)));
       ("tupletStops", (KVector (KClass c_TupletStop)))]
  (* NoteData.h:82-128 *)
  | c_NoteData =>
      [("isRest", KInt);
       ("isMeasureRest", KInt);
       ("isUnpitched", KInt);
       ("isDisplayStepOctaveSpecified", KInt);
       ("isChord", KInt);
       ("isTieStart", KInt);
       ("isTieStop", KInt);
       ("noteType", KInt);
       ("notehead", KInt);
       ("pitchData", (KClass c_PitchData));
       ("userRequestedVoiceNumber", KInt);
       ("stem", KInt);
       ("tickTimePosition", KInt);
       ("durationData", (KClass c_DurationData));
       ("beams", (KVector KInt));
       ("positionData", (KClass c_PositionData));
       ("printData", (KClass c_PrintData));
       ("noteAttachmentData", (KClass c_NoteAttachmentData));
       ("miscData", (KVector KText))]
  (* OttavaData.h:24-25 *)
  | c_OttavaStart =>
      [("spannerStart", (KClass c_SpannerStart));
       ("ottavaType", KInt)]
  (* PageData.h:38-46 *)
  | c_PageData =>
      [("newPage", KInt);
       ("pageLayoutData", (KClass c_PageLayoutData));
       ("pageNumber", (KOptional KText))]
  (* PageLayoutData.h:25-28 *)
  | c_PageLayoutData =>
      [("size", (KOptional (KClass c_SizeData)));
       ("margins", (KClass c_PageMarginsData))]
  (* PageMarginsData.h:25-28 *)
  | c_PageMarginsData =>
      [("odd", (KOptional (KClass c_MarginsData)));
       ("even", (KOptional (KClass c_MarginsData)))]
  (* PageTextData.h:24-28 *)
  | c_PageTextData =>
      [("text", KText);
       ("pageNumber", KInt);
       ("positionData", (KClass c_PositionData));
       ("fontData", (KClass c_FontData));
       ("description", KText)]
  (* PartData.h:28-55 *)
  | c_MidiData =>
      [("virtualLibrary", KText);
       ("virtualName", KText);
       ("device", KText);
       ("name", KText);
       ("bank", KInt);
       ("channel", KInt);
       ("program", KInt);
       ("unpitched", KInt);
       ("volume", KNumber);
       ("isVolumeSpecified", KInt);
       ("pan", KNumber);
       ("isPanSpecified", KInt);
       ("elevation", KNumber);
       ("isElevationSpecified", KInt)]
  (* PartData.h:79-84 *)
  | c_InstrumentData =>
      [("uniqueId", KText);
       ("name", KText);
       ("abbreviation", KText);
       ("soundID", KInt);
       ("soloOrEnsemble", KInt);
       ("midiData", (KClass c_MidiData))]
  (* PartData.h:101-137 *)
  | c_PartData =>
      [("uniqueId", KText);
       ("name", KText);
       ("abbreviation", KText);
       ("displayName", KText);
       ("displayNamePrintData", (KClass c_PrintData));
       ("displayNamePositionData", (KClass c_PositionData));
       ("displayAbbreviation", KText);
       ("displayAbbreviationPrintData", (KClass c_PrintData));
       ("displayAbbreviationPositionData", (KClass c_PositionData));
       ("instrumentData", (KClass c_InstrumentData));
       ("transposition", (KOptional (KClass c_TransposeData)));
       ("measures", (KVector (KClass c_MeasureData)))]
  (* PartGroupData.h:42-56 *)
  | c_PartGroupData =>
      [("firstPartIndex", KInt);
       ("lastPartIndex", KInt);
       ("name", KText);
       ("displayName", KText);
       ("abbreviation", KText);
       ("displayAbbreviation", KText);
       ("bracketType", KInt);
       ("number", KInt)]
  (* PitchData.h:99-129 *)
  | c_PitchData =>
      [("step", KInt);
       ("alter", KInt);
       ("cents", KNumber);
       ("accidental", KInt);
       ("isAccidentalParenthetical", KInt);
       ("isAccidentalCautionary", KInt);
       ("isAccidentalEditorial", KInt);
       ("isAccidentalBracketed", KInt);
       ("octave", KInt)]
  (* PositionData.h:100-110 *)
  | c_PositionData =>
      [("defaultX", KNumber);
       ("isDefaultXSpecified", KInt);
       ("defaultY", KNumber);
       ("isDefaultYSpecified", KInt);
       ("relativeX", KNumber);
       ("isRelativeXSpecified", KInt);
       ("relativeY", KNumber);
       ("isRelativeYSpecified", KInt);
       ("placement", KInt);
       ("verticalAlignment", KInt);
       ("horizontalAlignmnet", KInt)]
  (* PrintData.h:18-21 *)
  | c_PrintData =>
      [("printObject", KInt);
       ("fontData", (KClass c_FontData));
       ("isColorSpecified", KInt);
       ("color", (KClass c_ColorData))]
  (* RehearsalData.h:18-22 *)
  | c_RehearsalData =>
      [("text", KText);
       ("positionData", (KClass c_PositionData));
       ("isColorSpecified", KInt);
       ("colorData", (KClass c_ColorData));
       ("fontData", (KClass c_FontData))]
  (* ScoreData.h:34-61 *)
  | c_ScoreData =>
      [("musicXmlVersion", KInt);
       ("musicXmlType", KText);
       ("workTitle", KText);
       ("workNumber", KText);
       ("movementTitle", KText);
       ("movementNumber", KText);
       ("composer", KText);
       ("lyricist", KText);
       ("arranger", KText);
       ("publisher", KText);
       ("copyright", KText);
       ("encoding", (KClass c_EncodingData));
       ("pageTextItems", (KVector (KClass c_PageTextData)));
       ("defaults", (KClass c_DefaultsData));
       ("parts", (KVector (KClass c_PartData)));
       ("partGroups", (KVector (KClass c_PartGroupData)));
       ("ticksPerQuarter", KInt);
       ("layout", (KMap (KClass c_LayoutData)))]
  (* SegnoData.h:18-20 *)
  | c_SegnoData =>
      [("positionData", (KClass c_PositionData));
       ("isColorSpecified", KInt);
       ("colorData", (KClass c_ColorData))]
  (* SizeData.h:24-27 *)
  | c_SizeData =>
      [("height", KNumber);
       ("width", KNumber)]
  (* SpannerData.h:20-24 *)
  | c_SpannerStart =>
      [("numberLevel", KInt);
       ("tickTimePosition", KInt);
       ("positionData", (KClass c_PositionData));
       ("printData", (KClass c_PrintData));
       ("lineData", (KClass c_LineData))]
  (* SpannerData.h:39-41 *)
  | c_SpannerStop =>
      [("numberLevel", KInt);
       ("tickTimePosition", KInt);
       ("positionData", (KClass c_PositionData))]
  (* StaffData.h:21-29 *)
  | c_StaffData =>
      [("clefs", (KVector (KClass c_ClefData)));
       ("keys", (KVector (KClass c_KeyData)));
       ("directions", (KVector (KClass c_DirectionData)));
       ("voices", (KMap (KClass c_VoiceData)))]
  (* SystemData.h:33-36 *)
  | c_SystemData =>
      [("newSystem", KInt);
       ("layout", (KClass c_SystemLayoutData))]
  (* SystemLayoutData.h:25-34 *)
  | c_SystemLayoutData =>
      [("margins", (KOptional (KClass c_LeftRight)));
       ("systemDistance", (KOptional KNumber));
       ("topSystemDistance", (KOptional KNumber));
       ("staffDistance", (KOptional KNumber))]
  (* TempoData.h:24-26 *)
  | c_BeatsPerMinute =>
      [("durationName", KInt);
       ("dots", KInt);
       ("beatsPerMinute", KInt)]
  (* TempoData.h:39-43 *)
  | c_MetricModulation =>
      [("leftDurationName", KInt);
       ("leftDots", KInt);
       ("rightDurationName", KInt);
       ("rightDots", KInt);
       ("playbackBeatsPerMinute", (KClass c_BeatsPerMinute))]
  (* TempoData.h:58-59 *)
  | c_TempoText =>
      [("tempoText", KText);
       ("playbackBeatsPerMinute", (KClass c_BeatsPerMinute))]
  (* TempoData.h:65-78 *)
  | c_TempoData =>
      [("tickTime", KInt);
       ("isParenthetical", KInt);
       ("printData", (KClass c_PrintData));
       ("positionData", (KClass c_PositionData));
       ("tempoType", KInt);
       ("beatsPerMinute", (KClass c_BeatsPerMinute));
       ("metricModulation", (KClass c_MetricModulation));
       ("tempoText", (KClass c_TempoText))]
  (* TimeSignatureData.h:27-40 *)
  | c_TimeSignatureData =>
      [("symbol", KInt);
       ("beats", KInt);
       ("beatType", KInt);
       ("isImplicit", KInt);
       ("display", KInt)]
  (* TransposeData.h:66-69 *)
  | c_TransposeData =>
      [("chromatic", KInt);
       ("diatonic", KInt)]
  (* TupletData.h:27-48 *)
  | c_TupletStart =>
      [("numberLevel", KInt);
       ("positionData", (KClass c_PositionData));
       ("actualNumber", KInt);
       ("actualDurationName", KInt);
       ("actualDots", KInt);
       ("normalNumber", KInt);
       ("normalDurationName", KInt);
       ("normalDots", KInt);
       ("showActualNumber", KInt);
       ("showNormalNumber", KInt);
       ("bracket", KInt)]
  (* TupletData.h:72-74 *)
  | c_TupletStop =>
      [("numberLevel", KInt);
       ("positionData", (KClass c_PositionData))]
  (* VoiceData.h:19-19 *)
  | c_VoiceData =>
      [("notes", (KVector (KClass c_NoteData)))]
  (* WedgeData.h:25-31 *)
  | c_WedgeStart =>
      [("numberLevel", KInt);
       ("wedgeType", KInt);
       ("isSpreadSpecified", KInt);
       ("spread", KNumber);
       ("lineData", (KClass c_LineData));
       ("positionData", (KClass c_PositionData));
       ("colorData", (KClass c_ColorData))]
  (* WedgeData.h:48-51 *)
  | c_WedgeStop =>
      [("numberLevel", KInt);
       ("positionData", (KClass c_PositionData));
       ("isSpreadSpecified", KInt);
       ("spread", KNumber)]
  (* WordsData.h:19-23 *)
  | c_WordsData =>
      [("text", KText);
       ("positionData", (KClass c_PositionData));
       ("fontData", (KClass c_FontData));
       ("isColorSpecified", KInt);
       ("colorData", (KClass c_ColorData))]
  end.

(** How a member is compared: by operator== (MXAPI_EQUALS_MEMBER and the comparisons
    written out in FontData.h:97, StaffData.h:57 and VoiceData.h:24), or by the distance
    of its numbers (MXAPI_DOUBLES_EQUALS_MEMBER). *)
Inductive comparison := Exactly | Nearly.

(** The members that operator== of each class compares. *)
Definition compared (c : api_class) : list (string * comparison) :=
  match c with
  (* AppearanceData.h:54-58 *)
  | c_AppearanceData =>
      [("appearanceType", Exactly);
       ("appearanceSubType", Exactly);
       ("value", Exactly)]
  (* BarlineData.h:60-67 *)
  | c_BarlineData =>
      [("tickTimePosition", Exactly);
       ("barlineType", Exactly);
       ("endingType", Exactly);
       ("endingNumber", Exactly);
       ("repeat", Exactly);
       ("location", Exactly)]
  (* ChordData.h:132-137 *)
  | c_Extension =>
      [("extensionType", Exactly);
       ("extensionAlter", Exactly);
       ("extensionNumber", Exactly);
       ("printObject", Exactly)]
  (* ChordData.h:158-169 *)
  | c_ChordData =>
      [("root", Exactly);
       ("rootAlter", Exactly);
       ("chordKind", Exactly);
       ("text", Exactly);
       ("useSymbols", Exactly);
       ("bass", Exactly);
       ("bassAlter", Exactly);
       ("extensions", Exactly);
       ("miscData", Exactly);
       ("positionData", Exactly)]
  (* ClefData.h:70-77 *)
  | c_ClefData =>
      [("symbol", Exactly);
       ("line", Exactly);
       ("octaveChange", Exactly);
       ("tickTimePosition", Exactly);
       ("location", Exactly)]
  (* CodaData.h:30-34 *)
  | c_CodaData =>
      [("positionData", Exactly);
       ("isColorSpecified", Exactly);
       ("colorData", Exactly)]
  (* ColorData.h:33-39 *)
  | c_ColorData =>
      [("red", Exactly);
       ("green", Exactly);
       ("blue", Exactly);
       ("isAlphaSpecified", Exactly);
       ("alpha", Exactly)]
  (* CurveData.h:169-177 *)
  | c_CurvePoints =>
      [("positionData", Exactly);
       ("isBezierXSpecified", Exactly);
       ("bezierX", Exactly);
       ("isBezierYSpecified", Exactly);
       ("bezierY", Exactly);
       ("isBezierOffsetSpecified", Exactly);
       ("bezierOffset", Exactly)]
  (* CurveData.h:180-189 *)
  | c_CurveStart =>
      [("curveType", Exactly);
       ("numberLevel", Exactly);
       ("curvePoints", Exactly);
       ("curveOrientation", Exactly);
       ("placement", Exactly);
       ("lineData", Exactly);
       ("isColorSpecified", Exactly);
       ("colorData", Exactly)]
  (* CurveData.h:192-202 *)
  | c_CurveContinue =>
      [("curveType", Exactly);
       ("numberLevel", Exactly);
       ("curvePoints", Exactly);
       ("isBezierX2Specified", Exactly);
       ("bezierX2", Exactly);
       ("isBezierY2Specified", Exactly);
       ("bezierY2", Exactly);
       ("isBezierOffset2Specified", Exactly);
       ("bezierOffset2", Exactly)]
  (* CurveData.h:205-209 *)
  | c_CurveStop =>
      [("curveType", Exactly);
       ("numberLevel", Exactly);
       ("curvePoints", Exactly)]
  (* DefaultsData.h:125-130 *)
  | c_DefaultsData =>
      [("pageLayout", Exactly);
       ("systemLayout", Exactly);
       ("appearance", Exactly);
       ("measureNumbering", Exactly)]
  (* DirectionData.h:108-125 *)
  | c_DirectionData =>
      [("tickTimePosition", Exactly);
       ("placement", Exactly);
       ("voice", Exactly);
       ("isStaffValueSpecified", Exactly);
       ("tempos", Exactly);
       ("marks", Exactly);
       ("wedgeStarts", Exactly);
       ("wedgeStops", Exactly);
       ("ottavaStarts", Exactly);
       ("ottavaStops", Exactly);
       ("bracketStarts", Exactly);
       ("bracketStops", Exactly);
       ("words", Exactly);
       ("chords", Exactly);
       ("segnos", Exactly);
       ("codas", Exactly)]
  (* DurationData.h:79-88 *)
  | c_DurationData =>
      [("durationName", Exactly);
       ("durationDots", Exactly);
       ("durationTimeTicks", Exactly);
       ("isTied", Exactly);
       ("timeModificationActualNotes", Exactly);
       ("timeModificationNormalNotes", Exactly);
       ("timeModificationNormalType", Exactly);
       ("timeModificationNormalTypeDots", Exactly)]
  (* EncodingData.h:69-74 *)
  | c_SupportedItem =>
      [("elementName", Exactly);
       ("attributeName", Exactly);
       ("specificValue", Exactly);
       ("isSupported", Exactly)]
  (* EncodingData.h:77-80 *)
  | c_MiscellaneousField =>
      [("key", Exactly);
       ("value", Exactly)]
  (* EncodingData.h:83-87 *)
  | c_EncodingDate =>
      [("year", Exactly);
       ("month", Exactly);
       ("day", Exactly)]
  (* EncodingData.h:90-97 *)
  | c_EncodingData =>
      [("encodingDate", Exactly);
       ("encoder", Exactly);
       ("encodingDescription", Exactly);
       ("software", Exactly);
       ("supportedItems", Exactly);
       ("miscelaneousFields", Exactly)]
  (* FontData.h:91-105 *)
  | c_FontData =>
      [("sizeType", Exactly);
       ("sizePoint", Exactly);
       ("sizeCss", Exactly);
       ("style", Exactly);
       ("weight", Exactly);
       ("fontFamily", Exactly);
       ("underline", Exactly);
       ("overline", Exactly);
       ("lineThrough", Exactly)]
  (* KeyComponent.h:51-56 *)
  | c_KeyComponent =>
      [("step", Exactly);
       ("alter", Exactly);
       ("cents", Exactly);
       ("accidental", Exactly)]
  (* KeyData.h:92-99 *)
  | c_KeyData =>
      [("fifths", Exactly);
       ("cancel", Exactly);
       ("mode", Exactly);
       ("tickTimePosition", Exactly);
       ("staffIndex", Exactly);
       ("nonTraditional", Exactly)]
  (* LayoutData.h:73-76 *)
  | c_LayoutData =>
      [("system", Exactly);
       ("page", Exactly)]
  (* LeftRight.h:43-46 *)
  | c_LeftRight =>
      [("left", Exactly);
       ("right", Exactly)]
  (* LineData.h:64-73 *)
  | c_LineData =>
      [("lineType", Exactly);
       ("lineHook", Exactly);
       ("isStopLengthSpecified", Exactly);
       ("endLength", Exactly);
       ("isDashLengthSpecified", Exactly);
       ("dashLength", Exactly);
       ("isSpaceLengthSpecified", Exactly);
       ("spaceLength", Exactly)]
  (* LyricData.h:21-22 *)
  | c_LyricData =>
      []
  (* MarginsData.h:42-47 *)
  | c_MarginsData =>
      [("left", Exactly);
       ("right", Exactly);
       ("top", Exactly);
       ("bottom", Exactly)]
  (* MarkData.h:223-229 *)
  | c_MarkData =>
      [("markType", Exactly);
       ("name", Exactly);
       ("tickTimePosition", Exactly);
       ("printData", Exactly);
       ("positionData", Exactly)]
  (* MeasureData.h:106-117 *)
  | c_MeasureData =>
      [("staves", Exactly);
       ("timeSignature", Exactly);
       ("number", Exactly);
       ("measureNumbering", Exactly);
       ("multiMeasureRest", Exactly);
       ("implicit", Exactly);
       ("nonControlling", Exactly);
       ("width", Exactly);
       ("keys", Exactly);
       ("barlines", Exactly)]
  (* MeasureLocation.h:29-33 *)
  | c_MeasureLocation =>
      [("partIndex", Exactly);
       ("staffIndex", Exactly);
       ("measureIndex", Exactly)]
  (* MiscData.h:22-25 *)
  | c_MiscData =>
      [("name", Exactly);
       ("data", Exactly)]
  (* NoteAttachmentData.h:28-37 *)
  | c_NoteAttachmentData =>
      [("marks", Exactly);
       ("curveStarts", Exactly);
       ("curveContinuations", Exactly);
       ("curveStops", Exactly);
       ("tupletStarts", Exactly);
       ("tupletStops", Exactly)]
  (* NoteData.h:132-151 *)
  | c_NoteData =>
      [("isRest", Exactly);
       ("isMeasureRest", Exactly);
       ("isUnpitched", Exactly);
       ("isDisplayStepOctaveSpecified", Exactly);
       ("isChord", Exactly);
       ("isTieStart", Exactly);
       ("isTieStop", Exactly);
       ("noteType", Exactly);
       ("pitchData", Exactly);
       ("userRequestedVoiceNumber", Exactly);
       ("stem", Exactly);
       ("tickTimePosition", Exactly);
       ("durationData", Exactly);
       ("beams", Exactly);
       ("positionData", Exactly);
       ("printData", Exactly);
       ("noteAttachmentData", Exactly);
       ("miscData", Exactly)]
  (* OttavaData.h:37-40 *)
  | c_OttavaStart =>
      [("spannerStart", Exactly);
       ("ottavaType", Exactly)]
  (* PageData.h:55-59 *)
  | c_PageData =>
      [("newPage", Exactly);
       ("pageLayoutData", Exactly);
       ("pageNumber", Exactly)]
  (* PageLayoutData.h:43-46 *)
  | c_PageLayoutData =>
      [("size", Exactly);
       ("margins", Exactly)]
  (* PageMarginsData.h:51-54 *)
  | c_PageMarginsData =>
      [("odd", Exactly);
       ("even", Exactly)]
  (* PageTextData.h:31-37 *)
  | c_PageTextData =>
      [("text", Exactly);
       ("pageNumber", Exactly);
       ("positionData", Exactly);
       ("fontData", Exactly);
       ("description", Exactly)]
  (* PartData.h:179-194 *)
  | c_MidiData =>
      [("virtualLibrary", Exactly);
       ("virtualName", Exactly);
       ("device", Exactly);
       ("name", Exactly);
       ("bank", Exactly);
       ("channel", Exactly);
       ("program", Exactly);
       ("unpitched", Exactly);
       ("volume", Exactly);
       ("isVolumeSpecified", Exactly);
       ("pan", Exactly);
       ("isPanSpecified", Exactly);
       ("elevation", Exactly);
       ("isElevationSpecified", Exactly)]
  (* PartData.h:197-204 *)
  | c_InstrumentData =>
      [("uniqueId", Exactly);
       ("name", Exactly);
       ("abbreviation", Exactly);
       ("soundID", Exactly);
       ("soloOrEnsemble", Exactly);
       ("midiData", Exactly)]
  (* PartData.h:207-220 *)
  | c_PartData =>
      [("uniqueId", Exactly);
       ("name", Exactly);
       ("abbreviation", Exactly);
       ("displayName", Exactly);
       ("displayNamePrintData", Exactly);
       ("displayNamePositionData", Exactly);
       ("displayAbbreviation", Exactly);
       ("displayAbbreviationPrintData", Exactly);
       ("displayAbbreviationPositionData", Exactly);
       ("instrumentData", Exactly);
       ("transposition", Exactly);
       ("measures", Exactly)]
  (* PartGroupData.h:68-75 *)
  | c_PartGroupData =>
      [("firstPartIndex", Exactly);
       ("lastPartIndex", Exactly);
       ("name", Exactly);
       ("displayName", Exactly);
       ("abbreviation", Exactly);
       ("displayAbbreviation", Exactly)]
  (* PitchData.h:140-150 *)
  | c_PitchData =>
      [("step", Exactly);
       ("alter", Exactly);
       ("cents", Nearly);
       ("accidental", Exactly);
       ("isAccidentalParenthetical", Exactly);
       ("isAccidentalCautionary", Exactly);
       ("isAccidentalEditorial", Exactly);
       ("isAccidentalBracketed", Exactly);
       ("octave", Exactly)]
  (* PositionData.h:130-142 *)
  | c_PositionData =>
      [("defaultX", Nearly);
       ("isDefaultXSpecified", Exactly);
       ("defaultY", Nearly);
       ("isDefaultYSpecified", Exactly);
       ("relativeX", Nearly);
       ("isRelativeXSpecified", Exactly);
       ("relativeY", Nearly);
       ("isRelativeYSpecified", Exactly);
       ("placement", Exactly);
       ("verticalAlignment", Exactly);
       ("horizontalAlignmnet", Exactly)]
  (* PrintData.h:33-38 *)
  | c_PrintData =>
      [("printObject", Exactly);
       ("fontData", Exactly);
       ("isColorSpecified", Exactly);
       ("color", Exactly)]
  (* RehearsalData.h:37-43 *)
  | c_RehearsalData =>
      [("text", Exactly);
       ("positionData", Exactly);
       ("isColorSpecified", Exactly);
       ("colorData", Exactly);
       ("fontData", Exactly)]
  (* ScoreData.h:73-92 *)
  | c_ScoreData =>
      [("musicXmlVersion", Exactly);
       ("musicXmlType", Exactly);
       ("workTitle", Exactly);
       ("workNumber", Exactly);
       ("movementTitle", Exactly);
       ("movementNumber", Exactly);
       ("composer", Exactly);
       ("lyricist", Exactly);
       ("arranger", Exactly);
       ("publisher", Exactly);
       ("copyright", Exactly);
       ("encoding", Exactly);
       ("pageTextItems", Exactly);
       ("defaults", Exactly);
       ("parts", Exactly);
       ("partGroups", Exactly);
       ("ticksPerQuarter", Exactly);
       ("layout", Exactly)]
  (* SegnoData.h:30-34 *)
  | c_SegnoData =>
      [("positionData", Exactly);
       ("isColorSpecified", Exactly);
       ("colorData", Exactly)]
  (* SizeData.h:43-46 *)
  | c_SizeData =>
      [("height", Exactly);
       ("width", Exactly)]
  (* SpannerData.h:52-58 *)
  | c_SpannerStart =>
      [("numberLevel", Exactly);
       ("tickTimePosition", Exactly);
       ("positionData", Exactly);
       ("printData", Exactly);
       ("lineData", Exactly)]
  (* SpannerData.h:61-65 *)
  | c_SpannerStop =>
      [("numberLevel", Exactly);
       ("tickTimePosition", Exactly);
       ("positionData", Exactly)]
  (* StaffData.h:55-64 *)
  | c_StaffData =>
      [("clefs", Exactly);
       ("keys", Exactly);
       ("voices", Exactly);
       ("directions", Exactly)]
  (* SystemData.h:57-60 *)
  | c_SystemData =>
      [("newSystem", Exactly);
       ("layout", Exactly)]
  (* SystemLayoutData.h:54-59 *)
  | c_SystemLayoutData =>
      [("margins", Exactly);
       ("systemDistance", Exactly);
       ("topSystemDistance", Exactly);
       ("staffDistance", Exactly)]
  (* TempoData.h:81-85 *)
  | c_BeatsPerMinute =>
      [("durationName", Exactly);
       ("dots", Exactly);
       ("beatsPerMinute", Exactly)]
  (* TempoData.h:88-94 *)
  | c_MetricModulation =>
      [("leftDurationName", Exactly);
       ("leftDots", Exactly);
       ("rightDurationName", Exactly);
       ("rightDots", Exactly);
       ("playbackBeatsPerMinute", Exactly)]
  (* TempoData.h:97-100 *)
  | c_TempoText =>
      [("tempoText", Exactly);
       ("playbackBeatsPerMinute", Exactly)]
  (* TempoData.h:103-112 *)
  | c_TempoData =>
      [("tickTime", Exactly);
       ("isParenthetical", Exactly);
       ("printData", Exactly);
       ("positionData", Exactly);
       ("tempoType", Exactly);
       ("beatsPerMinute", Exactly);
       ("metricModulation", Exactly);
       ("tempoText", Exactly)]
  (* TimeSignatureData.h:60-66 *)
  | c_TimeSignatureData =>
      [("symbol", Exactly);
       ("beats", Exactly);
       ("beatType", Exactly);
       ("isImplicit", Exactly);
       ("display", Exactly)]
  (* TransposeData.h:76-79 *)
  | c_TransposeData =>
      [("chromatic", Exactly);
       ("diatonic", Exactly)]
  (* TupletData.h:84-96 *)
  | c_TupletStart =>
      [("numberLevel", Exactly);
       ("positionData", Exactly);
       ("actualNumber", Exactly);
       ("actualDurationName", Exactly);
       ("actualDots", Exactly);
       ("normalNumber", Exactly);
       ("normalDurationName", Exactly);
       ("normalDots", Exactly);
       ("showActualNumber", Exactly);
       ("showNormalNumber", Exactly);
       ("bracket", Exactly)]
  (* TupletData.h:99-102 *)
  | c_TupletStop =>
      [("numberLevel", Exactly);
       ("positionData", Exactly)]
  (* VoiceData.h:22-25 *)
  | c_VoiceData =>
      [("notes", Exactly)]
  (* WedgeData.h:63-71 *)
  | c_WedgeStart =>
      [("numberLevel", Exactly);
       ("wedgeType", Exactly);
       ("isSpreadSpecified", Exactly);
       ("spread", Exactly);
       ("lineData", Exactly);
       ("positionData", Exactly);
       ("colorData", Exactly)]
  (* WedgeData.h:74-79 *)
  | c_WedgeStop =>
      [("numberLevel", Exactly);
       ("positionData", Exactly);
       ("isSpreadSpecified", Exactly);
       ("spread", Exactly)]
  (* WordsData.h:36-41 *)
  | c_WordsData =>
      [("positionData", Exactly);
       ("fontData", Exactly);
       ("isColorSpecified", Exactly);
       ("colorData", Exactly)]
  end.
