(** What core/elements/*.cpp read the text of an element as, and what they write
    for it (fromXElementImpl and streamContents of the elements that hold a value
    instead of children).  Their success is that of the attributes: whatever the
    text is, none of them refuses it. *)
From Coq Require Import List Ascii String ZArith QArith Bool.
From Verif Require Import Model.Base Model.Text Model.Strings Model.Date Model.Integers Model.Decimals Model.NumberOrWord
  Model.EnumLookup Model.CoreEnums Model.CustomEnums Model.PlaybackSound.
Import ListNotations.
Open Scope list_scope.

(** The type of myValue, with the number it holds before the text is read. *)
Inductive text_type :=
| OfString
| OfMode
| OfSound
| OfAccidental
| OfDate
| OfInteger
| OfIntegerOrEmpty
| OfRange (t : int_type) (start : Z)
| OfNumber (d : decimal_type) (start : Q)
| OfEnum (again : str -> str).

(** Accidental::fromXElementImpl, Accidental.cpp:90-104. *)
Definition parse_accidental (t : str) : AccidentalValue :=
  if str_eqb t (lit "double-flat") then parse_AccidentalValue (lit "flat-flat") else parse_AccidentalValue t.

(** The characters written for an element that was read from the text [t]. A text is
    written escaped (toStream, XsString.cpp:49-80); the text of a mode is not
    (Enums.cpp:2336-2344). Integer: Integers.cpp:37-59, new with 0. Date: new with
    1900-01-01 (Date.cpp), parse leaves it if the text is no date. *)
Definition rewrite_text (ty : text_type) (t : str) : outcome str :=
  match ty with
  | OfString => Ok (escape t)
  | OfMode => Ok (getValueString isOther_ModeValue ModeEnum_toString
                    (setValue_text isOther_ModeValue ModeEnum_other tryParse_ModeEnum (construct_enum isOther_ModeValue ModeEnum_major) t))
  | OfSound => omap PlaybackSoundToString (PlaybackSoundFromString t)
  | OfAccidental => Ok (AccidentalValue_toString (parse_accidental t))
  | OfDate => Ok (printDate (fst (parseDate defaultDate t)))
  | OfInteger => Ok (print_int (match parse_int t with Some n => n | None => 0%Z end))
  | OfIntegerOrEmpty => Ok (IntegerOrEmpty_toString (IntegerOrEmpty_parse IntegerOrEmpty_new t))
  | OfRange ty start => Ok (print_range (fst (parse_range (Integers.construct ty start) t)))
  | OfNumber d start => obind (Decimals.construct d start) (fun p => omap (fun r => toString (snd r)) (parse d p t))
  | OfEnum again => Ok (again t)
  end.

(** The element names (streamName) and the types of their values; cited are
    streamContents and fromXElementImpl, both in core/elements. *)
Definition element_texts : list (str * text_type) :=
  [
    (* Accidental.cpp:54-60,90-104 *)
    (lit "accidental", OfAccidental);
    (* AccidentalMark.cpp:54-60,90-96 *)
    (lit "accidental-mark", OfEnum (fun t => AccidentalValue_toString (parse_AccidentalValue t)));
    (* AccidentalText.cpp:54-60,90-96 *)
    (lit "accidental-text", OfEnum (fun t => AccidentalValue_toString (parse_AccidentalValue t)));
    (* AccordionMiddle.cpp:48-54,69-75 *)
    (lit "accordion-middle", OfRange AccordionMiddleValue 0);
    (* ActualNotes.cpp:48-54,69-75 *)
    (lit "actual-notes", OfRange NonNegativeInteger 0);
    (* Alter.cpp:48-54,69-75 *)
    (lit "alter", OfNumber Semitones (default_value Semitones));
    (* ArrowDirection.cpp:48-54,69-74 *)
    (lit "arrow-direction", OfEnum (fun t => ArrowDirectionEnum_toString (parse_ArrowDirectionEnum t)));
    (* ArrowStyle.cpp:48-54,69-74 *)
    (lit "arrow-style", OfEnum (fun t => ArrowStyleEnum_toString (parse_ArrowStyleEnum t)));
    (* BarStyle.cpp:54-60,90-96 *)
    (lit "bar-style", OfEnum (fun t => BarStyleEnum_toString (parse_BarStyleEnum t)));
    (* BassAlter.cpp:54-60,90-96 *)
    (lit "bass-alter", OfNumber Semitones (default_value Semitones));
    (* BassStep.cpp:54-60,90-96 *)
    (lit "bass-step", OfEnum (fun t => StepEnum_toString (parse_StepEnum t)));
    (* Beam.cpp:54-60,90-96 *)
    (lit "beam", OfEnum (fun t => BeamValue_toString (parse_BeamValue t)));
    (* BeatType.cpp:48-54,69-75 *)
    (lit "beat-type", OfString);
    (* BeatUnit.cpp:48-54,69-74 *)
    (lit "beat-unit", OfEnum (fun t => NoteTypeValue_toString (parse_NoteTypeValue t)));
    (* Beater.cpp:54-60,90-96 *)
    (lit "beater", OfEnum (fun t => BeaterValue_toString (parse_BeaterValue t)));
    (* Beats.cpp:48-54,69-75 *)
    (lit "beats", OfString);
    (* BendAlter.cpp:48-54,69-75 *)
    (lit "bend-alter", OfNumber Semitones (default_value Semitones));
    (* BottomMargin.cpp:48-54,69-75 *)
    (lit "bottom-margin", OfNumber TenthsValue (default_value TenthsValue));
    (* BreathMark.cpp:54-60,90-96 *)
    (lit "breath-mark", OfEnum (fun t => BreathMarkValue_toString (parse_BreathMarkValue t)));
    (* Cancel.cpp:54-60,90-96 *)
    (lit "cancel", OfRange FifthsValue 0);
    (* Capo.cpp:48-54,69-75 *)
    (lit "capo", OfRange NonNegativeInteger 0);
    (* Chromatic.cpp:48-54,69-75 *)
    (lit "chromatic", OfNumber Semitones (default_value Semitones));
    (* CircularArrow.cpp:48-54,69-74 *)
    (lit "circular-arrow", OfEnum (fun t => CircularArrowEnum_toString (parse_CircularArrowEnum t)));
    (* ClefOctaveChange.cpp:48-54,69-75 *)
    (lit "clef-octave-change", OfInteger);
    (* Creator.cpp:54-60,90-96 *)
    (lit "creator", OfString);
    (* CreditType.cpp:48-54,69-74 *)
    (lit "credit-type", OfString);
    (* CreditWords.cpp:54-60,90-96 *)
    (lit "credit-words", OfString);
    (* DegreeAlter.cpp:54-60,90-96 *)
    (lit "degree-alter", OfNumber Semitones (default_value Semitones));
    (* DegreeType.cpp:54-60,90-96 *)
    (lit "degree-type", OfEnum (fun t => DegreeTypeValue_toString (parse_DegreeTypeValue t)));
    (* DegreeValue.cpp:54-60,90-96 *)
    (lit "degree-value", OfRange PositiveInteger 0);
    (* Diatonic.cpp:48-54,69-75 *)
    (lit "diatonic", OfInteger);
    (* Directive.cpp:50-57,87-93 *)
    (lit "directive", OfString);
    (* DisplayOctave.cpp:48-54,69-75 *)
    (lit "display-octave", OfRange OctaveValue 0);
    (* DisplayStep.cpp:48-54,69-74 *)
    (lit "display-step", OfEnum (fun t => StepEnum_toString (parse_StepEnum t)));
    (* DisplayText.cpp:54-60,90-96 *)
    (lit "display-text", OfString);
    (* Distance.cpp:54-60,90-96 *)
    (lit "distance", OfNumber TenthsValue (default_value TenthsValue));
    (* Divisions.cpp:48-54,69-74 *)
    (lit "divisions", OfNumber PositiveDivisionsValue (default_value PositiveDivisionsValue));
    (* Duration.cpp:48-54,69-75 *)
    (lit "duration", OfNumber PositiveDivisionsValue 1);
    (* Effect.cpp:48-54,69-74 *)
    (lit "effect", OfEnum (fun t => EffectEnum_toString (parse_EffectEnum t)));
    (* Elevation.cpp:48-54,69-75 *)
    (lit "elevation", OfNumber RotationDegrees (default_value RotationDegrees));
    (* Elision.cpp:54-60,90-96 *)
    (lit "elision", OfString);
    (* Encoder.cpp:54-60,90-96 *)
    (lit "encoder", OfString);
    (* EncodingDate.cpp:48-54,69-75 *)
    (lit "encoding-date", OfDate);
    (* EncodingDescription.cpp:48-54,69-75 *)
    (lit "encoding-description", OfString);
    (* Ending.cpp:54-60,90-96 *)
    (lit "ending", OfString);
    (* Ensemble.cpp:48-54,69-75 *)
    (lit "ensemble", OfIntegerOrEmpty);
    (* Feature.cpp:54-60,90-96 *)
    (lit "feature", OfString);
    (* Fermata.cpp:54-60,90-96 *)
    (lit "fermata", OfEnum (fun t => FermataShape_toString (parse_FermataShape t)));
    (* Fifths.cpp:48-54,69-75 *)
    (lit "fifths", OfRange FifthsValue 0);
    (* FigureNumber.cpp:54-60,90-96 *)
    (lit "figure-number", OfString);
    (* Fingering.cpp:54-60,90-96 *)
    (lit "fingering", OfString);
    (* FirstFret.cpp:54-60,90-96 *)
    (lit "first-fret", OfRange PositiveInteger 0);
    (* Footnote.cpp:54-60,90-96 *)
    (lit "footnote", OfString);
    (* FrameFrets.cpp:48-54,69-75 *)
    (lit "frame-frets", OfRange PositiveInteger 0);
    (* FrameStrings.cpp:48-54,69-75 *)
    (lit "frame-strings", OfRange PositiveInteger 0);
    (* Fret.cpp:54-60,90-96 *)
    (lit "fret", OfRange NonNegativeInteger 0);
    (* Function.cpp:54-60,90-96 *)
    (lit "function", OfString);
    (* Glass.cpp:48-54,69-74 *)
    (lit "glass", OfEnum (fun t => GlassEnum_toString (parse_GlassEnum t)));
    (* Glissando.cpp:54-60,90-96 *)
    (lit "glissando", OfString);
    (* Group.cpp:48-54,69-75 *)
    (lit "group", OfString);
    (* GroupAbbreviation.cpp:54-60,90-96 *)
    (lit "group-abbreviation", OfString);
    (* GroupBarline.cpp:54-60,90-96 *)
    (lit "group-barline", OfEnum (fun t => GroupBarlineValue_toString (parse_GroupBarlineValue t)));
    (* GroupName.cpp:54-60,90-96 *)
    (lit "group-name", OfString);
    (* GroupSymbol.cpp:54-60,90-96 *)
    (lit "group-symbol", OfEnum (fun t => GroupSymbolValue_toString (parse_GroupSymbolValue t)));
    (* HammerOn.cpp:54-60,90-96 *)
    (lit "hammer-on", OfString);
    (* Handbell.cpp:54-60,90-96 *)
    (lit "handbell", OfEnum (fun t => HandbellValue_toString (parse_HandbellValue t)));
    (* HoleClosed.cpp:54-60,90-96 *)
    (lit "hole-closed", OfEnum (fun t => HoleClosedValue_toString (parse_HoleClosedValue t)));
    (* HoleShape.cpp:48-54,69-75 *)
    (lit "hole-shape", OfString);
    (* HoleType.cpp:48-54,69-75 *)
    (lit "hole-type", OfString);
    (* InstrumentAbbreviation.cpp:48-54,69-75 *)
    (lit "instrument-abbreviation", OfString);
    (* InstrumentName.cpp:48-54,69-75 *)
    (lit "instrument-name", OfString);
    (* InstrumentSound.cpp:48-54,69-75 *)
    (lit "instrument-sound", OfSound);
    (* Instruments.cpp:48-54,69-75 *)
    (lit "instruments", OfRange NonNegativeInteger 0);
    (* Inversion.cpp:54-60,90-96 *)
    (lit "inversion", OfRange NonNegativeInteger 0);
    (* Ipa.cpp:48-54,69-75 *)
    (lit "ipa", OfString);
    (* KeyAccidental.cpp:48-54,69-74 *)
    (lit "key-accidental", OfEnum (fun t => AccidentalValue_toString (parse_AccidentalValue t)));
    (* KeyAlter.cpp:48-54,69-75 *)
    (lit "key-alter", OfNumber Semitones (default_value Semitones));
    (* KeyOctave.cpp:54-60,90-96 *)
    (lit "key-octave", OfRange OctaveValue 0);
    (* KeyStep.cpp:48-54,69-75 *)
    (lit "key-step", OfEnum (fun t => StepEnum_toString (parse_StepEnum t)));
    (* Kind.cpp:54-60,90-96 *)
    (lit "kind", OfEnum (fun t => KindValue_toString (parse_KindValue t)));
    (* LeftMargin.cpp:48-54,69-75 *)
    (lit "left-margin", OfNumber TenthsValue (default_value TenthsValue));
    (* Level.cpp:54-60,90-96 *)
    (lit "level", OfString);
    (* Line.cpp:48-54,69-75 *)
    (lit "line", OfRange StaffLine 0);
    (* LineWidth.cpp:54-60,90-96 *)
    (lit "line-width", OfNumber TenthsValue (default_value TenthsValue));
    (* MeasureDistance.cpp:48-54,69-75 *)
    (lit "measure-distance", OfNumber TenthsValue (default_value TenthsValue));
    (* MeasureNumbering.cpp:54-60,90-96 *)
    (lit "measure-numbering", OfEnum (fun t => MeasureNumberingValue_toString (parse_MeasureNumberingValue t)));
    (* MeasureRepeat.cpp:54-60,90-96 *)
    (lit "measure-repeat", OfIntegerOrEmpty);
    (* Membrane.cpp:48-54,69-75 *)
    (lit "membrane", OfEnum (fun t => MembraneEnum_toString (parse_MembraneEnum t)));
    (* Metal.cpp:48-54,69-74 *)
    (lit "metal", OfEnum (fun t => MetalEnum_toString (parse_MetalEnum t)));
    (* MetronomeBeam.cpp:54-60,90-96 *)
    (lit "metronome-beam", OfEnum (fun t => BeamValue_toString (parse_BeamValue t)));
    (* MetronomeRelation.cpp:48-54,69-74 *)
    (lit "metronome-relation", OfString);
    (* MetronomeType.cpp:48-54,69-74 *)
    (lit "metronome-type", OfEnum (fun t => NoteTypeValue_toString (parse_NoteTypeValue t)));
    (* MidiBank.cpp:48-54,69-75 *)
    (lit "midi-bank", OfRange Midi16384 0);
    (* MidiChannel.cpp:48-54,69-75 *)
    (lit "midi-channel", OfRange Midi16 0);
    (* MidiDevice.cpp:54-60,90-96 *)
    (lit "midi-device", OfString);
    (* MidiName.cpp:48-54,69-75 *)
    (lit "midi-name", OfString);
    (* MidiProgram.cpp:48-54,69-75 *)
    (lit "midi-program", OfRange Midi128 0);
    (* MidiUnpitched.cpp:48-54,69-75 *)
    (lit "midi-unpitched", OfRange Midi128 0);
    (* Millimeters.cpp:48-54,69-75 *)
    (lit "millimeters", OfNumber MillimetersValue (default_value MillimetersValue));
    (* MiscellaneousField.cpp:54-60,90-96 *)
    (lit "miscellaneous-field", OfString);
    (* Mode.cpp:48-54,69-75 *)
    (lit "mode", OfMode);
    (* MovementNumber.cpp:48-54,69-75 *)
    (lit "movement-number", OfString);
    (* MovementTitle.cpp:48-54,69-75 *)
    (lit "movement-title", OfString);
    (* MultipleRest.cpp:54-60,90-96 *)
    (lit "multiple-rest", OfIntegerOrEmpty);
    (* Mute.cpp:48-54,69-74 *)
    (lit "mute", OfEnum (fun t => MuteEnum_toString (parse_MuteEnum t)));
    (* NormalNotes.cpp:48-54,69-75 *)
    (lit "normal-notes", OfRange NonNegativeInteger 0);
    (* NormalType.cpp:48-54,69-74 *)
    (lit "normal-type", OfEnum (fun t => NoteTypeValue_toString (parse_NoteTypeValue t)));
    (* NoteSize.cpp:54-60,90-96 *)
    (lit "note-size", OfNumber NonNegativeDecimal (default_value NonNegativeDecimal));
    (* Notehead.cpp:54-60,90-96 *)
    (lit "notehead", OfEnum (fun t => NoteheadValue_toString (parse_NoteheadValue t)));
    (* Octave.cpp:48-54,69-75 *)
    (lit "octave", OfRange OctaveValue 0);
    (* OctaveChange.cpp:48-54,69-74 *)
    (lit "octave-change", OfInteger);
    (* Offset.cpp:54-60,90-96 *)
    (lit "offset", OfNumber DivisionsValue (default_value DivisionsValue));
    (* OtherAppearance.cpp:54-60,90-96 *)
    (lit "other-appearance", OfString);
    (* OtherArticulation.cpp:54-60,90-96 *)
    (lit "other-articulation", OfString);
    (* OtherDirection.cpp:54-60,90-96 *)
    (lit "other-direction", OfString);
    (* OtherNotation.cpp:54-60,90-96 *)
    (lit "other-notation", OfString);
    (* OtherOrnament.cpp:54-60,90-96 *)
    (lit "other-ornament", OfString);
    (* OtherPercussion.cpp:48-54,69-75 *)
    (lit "other-percussion", OfString);
    (* OtherPlay.cpp:54-60,90-96 *)
    (lit "other-play", OfString);
    (* OtherTechnical.cpp:54-60,90-96 *)
    (lit "other-technical", OfString);
    (* PageHeight.cpp:48-54,69-75 *)
    (lit "page-height", OfNumber TenthsValue (default_value TenthsValue));
    (* PageWidth.cpp:48-54,69-75 *)
    (lit "page-width", OfNumber TenthsValue (default_value TenthsValue));
    (* Pan.cpp:48-54,69-75 *)
    (lit "pan", OfNumber RotationDegrees (default_value RotationDegrees));
    (* PartAbbreviation.cpp:54-60,90-96 *)
    (lit "part-abbreviation", OfString);
    (* PartName.cpp:54-60,90-96 *)
    (lit "part-name", OfString);
    (* PartSymbol.cpp:54-60,90-96 *)
    (lit "part-symbol", OfEnum (fun t => GroupSymbolValue_toString (parse_GroupSymbolValue t)));
    (* PedalAlter.cpp:48-54,69-75 *)
    (lit "pedal-alter", OfNumber Semitones (default_value Semitones));
    (* PedalStep.cpp:48-54,69-74 *)
    (lit "pedal-step", OfEnum (fun t => StepEnum_toString (parse_StepEnum t)));
    (* PerMinute.cpp:54-60,90-96 *)
    (lit "per-minute", OfString);
    (* Pitched.cpp:48-54,69-75 *)
    (lit "pitched", OfEnum (fun t => PitchedEnum_toString (parse_PitchedEnum t)));
    (* Pluck.cpp:54-60,90-96 *)
    (lit "pluck", OfString);
    (* Prefix.cpp:54-60,90-96 *)
    (lit "prefix", OfString);
    (* PrincipalVoice.cpp:54-60,90-96 *)
    (lit "principal-voice", OfString);
    (* PullOff.cpp:54-60,90-96 *)
    (lit "pull-off", OfString);
    (* Rehearsal.cpp:54-60,90-96 *)
    (lit "rehearsal", OfString);
    (* Relation.cpp:54-60,90-96 *)
    (lit "relation", OfString);
    (* RightMargin.cpp:48-54,69-75 *)
    (lit "right-margin", OfNumber TenthsValue (default_value TenthsValue));
    (* Rights.cpp:54-60,90-96 *)
    (lit "rights", OfString);
    (* RootAlter.cpp:54-60,90-96 *)
    (lit "root-alter", OfNumber Semitones (default_value Semitones));
    (* RootStep.cpp:54-60,90-96 *)
    (lit "root-step", OfEnum (fun t => StepEnum_toString (parse_StepEnum t)));
    (* SemiPitched.cpp:48-54,69-74 *)
    (lit "semi-pitched", OfEnum (fun t => SemiPitchedEnum_toString (parse_SemiPitchedEnum t)));
    (* SenzaMisura.cpp:48-54,69-75 *)
    (lit "senza-misura", OfString);
    (* Sign.cpp:48-54,69-74 *)
    (lit "sign", OfEnum (fun t => ClefSign_toString (parse_ClefSign t)));
    (* SlashType.cpp:48-54,69-74 *)
    (lit "slash-type", OfEnum (fun t => NoteTypeValue_toString (parse_NoteTypeValue t)));
    (* Slide.cpp:54-60,90-96 *)
    (lit "slide", OfString);
    (* Software.cpp:48-54,69-75 *)
    (lit "software", OfString);
    (* Source.cpp:48-54,69-75 *)
    (lit "source", OfString);
    (* Staff.cpp:48-54,69-75 *)
    (lit "staff", OfRange PositiveInteger 0);
    (* StaffDistance.cpp:48-54,69-75 *)
    (lit "staff-distance", OfNumber TenthsValue (default_value TenthsValue));
    (* StaffLines.cpp:48-54,69-75 *)
    (lit "staff-lines", OfRange NonNegativeInteger 0);
    (* StaffSize.cpp:48-54,69-75 *)
    (lit "staff-size", OfNumber NonNegativeDecimal (default_value NonNegativeDecimal));
    (* StaffType.cpp:48-54,69-75 *)
    (lit "staff-type", OfEnum (fun t => StaffTypeEnum_toString (parse_StaffTypeEnum t)));
    (* Staves.cpp:48-54,69-75 *)
    (lit "staves", OfRange NonNegativeInteger 0);
    (* Stem.cpp:54-60,90-96 *)
    (lit "stem", OfEnum (fun t => StemValue_toString (parse_StemValue t)));
    (* Step.cpp:48-54,69-74 *)
    (lit "step", OfEnum (fun t => StepEnum_toString (parse_StepEnum t)));
    (* StickLocation.cpp:48-54,69-74 *)
    (lit "stick-location", OfEnum (fun t => StickLocationEnum_toString (parse_StickLocationEnum t)));
    (* StickMaterial.cpp:48-54,69-74 *)
    (lit "stick-material", OfEnum (fun t => StickMaterialEnum_toString (parse_StickMaterialEnum t)));
    (* StickType.cpp:48-54,69-74 *)
    (lit "stick-type", OfEnum (fun t => StickTypeEnum_toString (parse_StickTypeEnum t)));
    (* String.cpp:54-60,90-96 *)
    (lit "string", OfRange StringNumber 0);
    (* Suffix.cpp:54-60,90-96 *)
    (lit "suffix", OfString);
    (* Syllabic.cpp:48-54,69-75 *)
    (lit "syllabic", OfEnum (fun t => SyllabicEnum_toString (parse_SyllabicEnum t)));
    (* SystemDistance.cpp:48-54,69-75 *)
    (lit "system-distance", OfNumber TenthsValue (default_value TenthsValue));
    (* Tap.cpp:54-60,90-96 *)
    (lit "tap", OfString);
    (* Tenths.cpp:48-54,69-75 *)
    (lit "tenths", OfNumber TenthsValue (default_value TenthsValue));
    (* Text.cpp:54-60,90-96 *)
    (lit "text", OfString);
    (* TimeRelation.cpp:48-54,69-74 *)
    (lit "time-relation", OfEnum (fun t => TimeRelationEnum_toString (parse_TimeRelationEnum t)));
    (* TopMargin.cpp:48-54,69-75 *)
    (lit "top-margin", OfNumber TenthsValue (default_value TenthsValue));
    (* TopSystemDistance.cpp:48-54,69-75 *)
    (lit "top-system-distance", OfNumber TenthsValue (default_value TenthsValue));
    (* Tremolo.cpp:54-60,90-96 *)
    (lit "tremolo", OfRange TremoloMarks 3);
    (* TuningAlter.cpp:48-54,69-75 *)
    (lit "tuning-alter", OfNumber Semitones (default_value Semitones));
    (* TuningOctave.cpp:48-54,69-75 *)
    (lit "tuning-octave", OfRange OctaveValue 0);
    (* TuningStep.cpp:48-54,69-74 *)
    (lit "tuning-step", OfEnum (fun t => StepEnum_toString (parse_StepEnum t)));
    (* TupletNumber.cpp:54-60,90-96 *)
    (lit "tuplet-number", OfRange NonNegativeInteger 0);
    (* TupletType.cpp:54-60,90-96 *)
    (lit "tuplet-type", OfEnum (fun t => NoteTypeValue_toString (parse_NoteTypeValue t)));
    (* Type.cpp:54-60,90-96 *)
    (lit "type", OfEnum (fun t => NoteTypeValue_toString (parse_NoteTypeValue t)));
    (* VirtualLibrary.cpp:48-54,69-75 *)
    (lit "virtual-library", OfString);
    (* VirtualName.cpp:48-54,69-75 *)
    (lit "virtual-name", OfString);
    (* Voice.cpp:48-54,69-75 *)
    (lit "voice", OfString);
    (* Volume.cpp:48-54,69-74 *)
    (lit "volume", OfNumber Percent (default_value Percent));
    (* WithBar.cpp:54-60,90-96 *)
    (lit "with-bar", OfString);
    (* Wood.cpp:48-54,69-75 *)
    (lit "wood", OfEnum (fun t => WoodEnum_toString (parse_WoodEnum t)));
    (* Words.cpp:54-60,90-96 *)
    (lit "words", OfString);
    (* WorkNumber.cpp:48-54,69-75 *)
    (lit "work-number", OfString);
    (* WorkTitle.cpp:48-54,69-75 *)
    (lit "work-title", OfString)
  ].
