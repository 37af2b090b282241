(* C15: every enumeration value survives a text round trip. *)
From Coq Require Import Ascii String List.
From Verif Require Import Model.Base Model.Text Model.EnumLookup Model.CoreEnums Model.BuiltinEnums Model.PlaybackSound
  Spec.TextEnum Spec.SchemaTexts Spec.SoundTexts Proofs.EnumProofs Proofs.EnumTables Proofs.PlaybackSoundProofs.
Import ListNotations.

Theorem C15_AboveBelow :
  text_enum AboveBelow_members AboveBelow_toString tryParse_AboveBelow parse_AboveBelow
    schema_above_below AboveBelow_above.
Proof. exact AboveBelow_text. Qed.
Print Assumptions C15_AboveBelow.

Theorem C15_AccidentalValue :
  text_enum AccidentalValue_members AccidentalValue_toString tryParse_AccidentalValue parse_AccidentalValue
    schema_accidental_value AccidentalValue_sharp.
Proof. exact AccidentalValue_text. Qed.
Print Assumptions C15_AccidentalValue.

Theorem C15_ArrowDirectionEnum :
  text_enum ArrowDirectionEnum_members ArrowDirectionEnum_toString tryParse_ArrowDirectionEnum parse_ArrowDirectionEnum
    schema_arrow_direction ArrowDirectionEnum_left.
Proof. exact ArrowDirectionEnum_text. Qed.
Print Assumptions C15_ArrowDirectionEnum.

Theorem C15_ArrowStyleEnum :
  text_enum ArrowStyleEnum_members ArrowStyleEnum_toString tryParse_ArrowStyleEnum parse_ArrowStyleEnum
    schema_arrow_style ArrowStyleEnum_single.
Proof. exact ArrowStyleEnum_text. Qed.
Print Assumptions C15_ArrowStyleEnum.

Theorem C15_BackwardForward :
  text_enum BackwardForward_members BackwardForward_toString tryParse_BackwardForward parse_BackwardForward
    schema_backward_forward BackwardForward_backward.
Proof. exact BackwardForward_text. Qed.
Print Assumptions C15_BackwardForward.

Theorem C15_BarStyleEnum :
  text_enum BarStyleEnum_members BarStyleEnum_toString tryParse_BarStyleEnum parse_BarStyleEnum
    schema_bar_style BarStyleEnum_regular.
Proof. exact BarStyleEnum_text. Qed.
Print Assumptions C15_BarStyleEnum.

Theorem C15_BeamValue :
  text_enum BeamValue_members BeamValue_toString tryParse_BeamValue parse_BeamValue
    schema_beam_value BeamValue_begin.
Proof. exact BeamValue_text. Qed.
Print Assumptions C15_BeamValue.

Theorem C15_BeaterValue :
  text_enum BeaterValue_members BeaterValue_toString tryParse_BeaterValue parse_BeaterValue
    schema_beater_value BeaterValue_bow.
Proof. exact BeaterValue_text. Qed.
Print Assumptions C15_BeaterValue.

Theorem C15_BreathMarkValue :
  text_enum BreathMarkValue_members BreathMarkValue_toString tryParse_BreathMarkValue parse_BreathMarkValue
    schema_breath_mark_value BreathMarkValue_emptystring.
Proof. exact BreathMarkValue_text. Qed.
Print Assumptions C15_BreathMarkValue.

Theorem C15_CancelLocation :
  text_enum CancelLocation_members CancelLocation_toString tryParse_CancelLocation parse_CancelLocation
    schema_cancel_location CancelLocation_left.
Proof. exact CancelLocation_text. Qed.
Print Assumptions C15_CancelLocation.

Theorem C15_CircularArrowEnum :
  text_enum CircularArrowEnum_members CircularArrowEnum_toString tryParse_CircularArrowEnum parse_CircularArrowEnum
    schema_circular_arrow CircularArrowEnum_clockwise.
Proof. exact CircularArrowEnum_text. Qed.
Print Assumptions C15_CircularArrowEnum.

Theorem C15_ClefSign :
  text_enum ClefSign_members ClefSign_toString tryParse_ClefSign parse_ClefSign
    schema_clef_sign ClefSign_g.
Proof. exact ClefSign_text. Qed.
Print Assumptions C15_ClefSign.

Theorem C15_CssFontSize :
  text_enum CssFontSize_members CssFontSize_toString tryParse_CssFontSize parse_CssFontSize
    schema_css_font_size CssFontSize_xxSmall.
Proof. exact CssFontSize_text. Qed.
Print Assumptions C15_CssFontSize.

Theorem C15_DegreeSymbolValue :
  text_enum DegreeSymbolValue_members DegreeSymbolValue_toString tryParse_DegreeSymbolValue parse_DegreeSymbolValue
    schema_degree_symbol_value DegreeSymbolValue_major.
Proof. exact DegreeSymbolValue_text. Qed.
Print Assumptions C15_DegreeSymbolValue.

Theorem C15_DegreeTypeValue :
  text_enum DegreeTypeValue_members DegreeTypeValue_toString tryParse_DegreeTypeValue parse_DegreeTypeValue
    schema_degree_type_value DegreeTypeValue_add.
Proof. exact DegreeTypeValue_text. Qed.
Print Assumptions C15_DegreeTypeValue.

Theorem C15_DistanceTypeEnum :
  text_enum DistanceTypeEnum_members DistanceTypeEnum_toString tryParse_DistanceTypeEnum parse_DistanceTypeEnum
    schema_distance_type DistanceTypeEnum_beam.
Proof. exact DistanceTypeEnum_text. Qed.
Print Assumptions C15_DistanceTypeEnum.

Theorem C15_DynamicsEnum :
  text_enum DynamicsEnum_members DynamicsEnum_toString tryParse_DynamicsEnum parse_DynamicsEnum
    schema_dynamics DynamicsEnum_mf.
Proof. exact DynamicsEnum_text. Qed.
Print Assumptions C15_DynamicsEnum.

Theorem C15_EffectEnum :
  text_enum EffectEnum_members EffectEnum_toString tryParse_EffectEnum parse_EffectEnum
    schema_effect EffectEnum_anvil.
Proof. exact EffectEnum_text. Qed.
Print Assumptions C15_EffectEnum.

Theorem C15_EnclosureShape :
  text_enum EnclosureShape_members EnclosureShape_toString tryParse_EnclosureShape parse_EnclosureShape
    schema_enclosure_shape EnclosureShape_rectangle.
Proof. exact EnclosureShape_text. Qed.
Print Assumptions C15_EnclosureShape.

Theorem C15_Fan :
  text_enum Fan_members Fan_toString tryParse_Fan parse_Fan
    schema_fan Fan_accel.
Proof. exact Fan_text. Qed.
Print Assumptions C15_Fan.

Theorem C15_FermataShape :
  text_enum FermataShape_members FermataShape_toString tryParse_FermataShape parse_FermataShape
    schema_fermata_shape FermataShape_normal.
Proof. exact FermataShape_text. Qed.
Print Assumptions C15_FermataShape.

Theorem C15_FontStyle :
  text_enum FontStyle_members FontStyle_toString tryParse_FontStyle parse_FontStyle
    schema_font_style FontStyle_normal.
Proof. exact FontStyle_text. Qed.
Print Assumptions C15_FontStyle.

Theorem C15_FontWeight :
  text_enum FontWeight_members FontWeight_toString tryParse_FontWeight parse_FontWeight
    schema_font_weight FontWeight_normal.
Proof. exact FontWeight_text. Qed.
Print Assumptions C15_FontWeight.

Theorem C15_GlassEnum :
  text_enum GlassEnum_members GlassEnum_toString tryParse_GlassEnum parse_GlassEnum
    schema_glass GlassEnum_windChimes.
Proof. exact GlassEnum_text. Qed.
Print Assumptions C15_GlassEnum.

Theorem C15_GroupBarlineValue :
  text_enum GroupBarlineValue_members GroupBarlineValue_toString tryParse_GroupBarlineValue parse_GroupBarlineValue
    schema_group_barline_value GroupBarlineValue_yes.
Proof. exact GroupBarlineValue_text. Qed.
Print Assumptions C15_GroupBarlineValue.

Theorem C15_GroupSymbolValue :
  text_enum GroupSymbolValue_members GroupSymbolValue_toString tryParse_GroupSymbolValue parse_GroupSymbolValue
    schema_group_symbol_value GroupSymbolValue_none.
Proof. exact GroupSymbolValue_text. Qed.
Print Assumptions C15_GroupSymbolValue.

Theorem C15_HandbellValue :
  text_enum HandbellValue_members HandbellValue_toString tryParse_HandbellValue parse_HandbellValue
    schema_handbell_value HandbellValue_damp.
Proof. exact HandbellValue_text. Qed.
Print Assumptions C15_HandbellValue.

Theorem C15_HarmonyType :
  text_enum HarmonyType_members HarmonyType_toString tryParse_HarmonyType parse_HarmonyType
    schema_harmony_type HarmonyType_explicit_.
Proof. exact HarmonyType_text. Qed.
Print Assumptions C15_HarmonyType.

Theorem C15_HoleClosedLocation :
  text_enum HoleClosedLocation_members HoleClosedLocation_toString tryParse_HoleClosedLocation parse_HoleClosedLocation
    schema_hole_closed_location HoleClosedLocation_right.
Proof. exact HoleClosedLocation_text. Qed.
Print Assumptions C15_HoleClosedLocation.

Theorem C15_HoleClosedValue :
  text_enum HoleClosedValue_members HoleClosedValue_toString tryParse_HoleClosedValue parse_HoleClosedValue
    schema_hole_closed_value HoleClosedValue_yes.
Proof. exact HoleClosedValue_text. Qed.
Print Assumptions C15_HoleClosedValue.

Theorem C15_KindValue :
  text_enum KindValue_members KindValue_toString tryParse_KindValue parse_KindValue
    schema_kind_value KindValue_major.
Proof. exact KindValue_text. Qed.
Print Assumptions C15_KindValue.

Theorem C15_LeftCenterRight :
  text_enum LeftCenterRight_members LeftCenterRight_toString tryParse_LeftCenterRight parse_LeftCenterRight
    schema_left_center_right LeftCenterRight_left.
Proof. exact LeftCenterRight_text. Qed.
Print Assumptions C15_LeftCenterRight.

Theorem C15_LeftRight :
  text_enum LeftRight_members LeftRight_toString tryParse_LeftRight parse_LeftRight
    schema_left_right LeftRight_left.
Proof. exact LeftRight_text. Qed.
Print Assumptions C15_LeftRight.

Theorem C15_LineEnd :
  text_enum LineEnd_members LineEnd_toString tryParse_LineEnd parse_LineEnd
    schema_line_end LineEnd_up.
Proof. exact LineEnd_text. Qed.
Print Assumptions C15_LineEnd.

Theorem C15_LineShape :
  text_enum LineShape_members LineShape_toString tryParse_LineShape parse_LineShape
    schema_line_shape LineShape_straight.
Proof. exact LineShape_text. Qed.
Print Assumptions C15_LineShape.

Theorem C15_LineType :
  text_enum LineType_members LineType_toString tryParse_LineType parse_LineType
    schema_line_type LineType_solid.
Proof. exact LineType_text. Qed.
Print Assumptions C15_LineType.

Theorem C15_LineWidthTypeEnum :
  text_enum LineWidthTypeEnum_members LineWidthTypeEnum_toString tryParse_LineWidthTypeEnum parse_LineWidthTypeEnum
    schema_line_width_type LineWidthTypeEnum_beam.
Proof. exact LineWidthTypeEnum_text. Qed.
Print Assumptions C15_LineWidthTypeEnum.

Theorem C15_MarginType :
  text_enum MarginType_members MarginType_toString tryParse_MarginType parse_MarginType
    schema_margin_type MarginType_odd.
Proof. exact MarginType_text. Qed.
Print Assumptions C15_MarginType.

Theorem C15_MeasureNumberingValue :
  text_enum MeasureNumberingValue_members MeasureNumberingValue_toString tryParse_MeasureNumberingValue parse_MeasureNumberingValue
    schema_measure_numbering_value MeasureNumberingValue_none.
Proof. exact MeasureNumberingValue_text. Qed.
Print Assumptions C15_MeasureNumberingValue.

Theorem C15_MembraneEnum :
  text_enum MembraneEnum_members MembraneEnum_toString tryParse_MembraneEnum parse_MembraneEnum
    schema_membrane MembraneEnum_bassDrum.
Proof. exact MembraneEnum_text. Qed.
Print Assumptions C15_MembraneEnum.

Theorem C15_MetalEnum :
  text_enum MetalEnum_members MetalEnum_toString tryParse_MetalEnum parse_MetalEnum
    schema_metal MetalEnum_almglocken.
Proof. exact MetalEnum_text. Qed.
Print Assumptions C15_MetalEnum.

Theorem C15_ModeEnum :
  text_enum ModeEnum_members ModeEnum_toString tryParse_ModeEnum parse_ModeEnum
    schema_mode ModeEnum_major.
Proof. exact ModeEnum_text. Qed.
Print Assumptions C15_ModeEnum.

Theorem C15_MuteEnum :
  text_enum MuteEnum_members MuteEnum_toString tryParse_MuteEnum parse_MuteEnum
    schema_mute MuteEnum_on.
Proof. exact MuteEnum_text. Qed.
Print Assumptions C15_MuteEnum.

Theorem C15_NoteSizeType :
  text_enum NoteSizeType_members NoteSizeType_toString tryParse_NoteSizeType parse_NoteSizeType
    schema_note_size_type NoteSizeType_cue.
Proof. exact NoteSizeType_text. Qed.
Print Assumptions C15_NoteSizeType.

Theorem C15_NoteTypeValue :
  text_enum NoteTypeValue_members NoteTypeValue_toString tryParse_NoteTypeValue parse_NoteTypeValue
    schema_note_type_value NoteTypeValue_oneThousandTwentyFourth.
Proof. exact NoteTypeValue_text. Qed.
Print Assumptions C15_NoteTypeValue.

Theorem C15_NoteheadValue :
  text_enum NoteheadValue_members NoteheadValue_toString tryParse_NoteheadValue parse_NoteheadValue
    schema_notehead_value NoteheadValue_slash.
Proof. exact NoteheadValue_text. Qed.
Print Assumptions C15_NoteheadValue.

Theorem C15_OnOff :
  text_enum OnOff_members OnOff_toString tryParse_OnOff parse_OnOff
    schema_on_off OnOff_on.
Proof. exact OnOff_text. Qed.
Print Assumptions C15_OnOff.

Theorem C15_OverUnder :
  text_enum OverUnder_members OverUnder_toString tryParse_OverUnder parse_OverUnder
    schema_over_under OverUnder_over.
Proof. exact OverUnder_text. Qed.
Print Assumptions C15_OverUnder.

Theorem C15_PitchedEnum :
  text_enum PitchedEnum_members PitchedEnum_toString tryParse_PitchedEnum parse_PitchedEnum
    schema_pitched PitchedEnum_chimes.
Proof. exact PitchedEnum_text. Qed.
Print Assumptions C15_PitchedEnum.

Theorem C15_PrincipalVoiceSymbol :
  text_enum PrincipalVoiceSymbol_members PrincipalVoiceSymbol_toString tryParse_PrincipalVoiceSymbol parse_PrincipalVoiceSymbol
    schema_principal_voice_symbol PrincipalVoiceSymbol_hauptstimme.
Proof. exact PrincipalVoiceSymbol_text. Qed.
Print Assumptions C15_PrincipalVoiceSymbol.

Theorem C15_RightLeftMiddle :
  text_enum RightLeftMiddle_members RightLeftMiddle_toString tryParse_RightLeftMiddle parse_RightLeftMiddle
    schema_right_left_middle RightLeftMiddle_right.
Proof. exact RightLeftMiddle_text. Qed.
Print Assumptions C15_RightLeftMiddle.

Theorem C15_SemiPitchedEnum :
  text_enum SemiPitchedEnum_members SemiPitchedEnum_toString tryParse_SemiPitchedEnum parse_SemiPitchedEnum
    schema_semi_pitched SemiPitchedEnum_high.
Proof. exact SemiPitchedEnum_text. Qed.
Print Assumptions C15_SemiPitchedEnum.

Theorem C15_ShowFrets :
  text_enum ShowFrets_members ShowFrets_toString tryParse_ShowFrets parse_ShowFrets
    schema_show_frets ShowFrets_numbers.
Proof. exact ShowFrets_text. Qed.
Print Assumptions C15_ShowFrets.

Theorem C15_ShowTuplet :
  text_enum ShowTuplet_members ShowTuplet_toString tryParse_ShowTuplet parse_ShowTuplet
    schema_show_tuplet ShowTuplet_actual.
Proof. exact ShowTuplet_text. Qed.
Print Assumptions C15_ShowTuplet.

Theorem C15_StaffTypeEnum :
  text_enum StaffTypeEnum_members StaffTypeEnum_toString tryParse_StaffTypeEnum parse_StaffTypeEnum
    schema_staff_type StaffTypeEnum_ossia.
Proof. exact StaffTypeEnum_text. Qed.
Print Assumptions C15_StaffTypeEnum.

Theorem C15_StartNote :
  text_enum StartNote_members StartNote_toString tryParse_StartNote parse_StartNote
    schema_start_note StartNote_upper.
Proof. exact StartNote_text. Qed.
Print Assumptions C15_StartNote.

Theorem C15_StartStop :
  text_enum StartStop_members StartStop_toString tryParse_StartStop parse_StartStop
    schema_start_stop StartStop_start.
Proof. exact StartStop_text. Qed.
Print Assumptions C15_StartStop.

Theorem C15_StartStopChangeContinue :
  text_enum StartStopChangeContinue_members StartStopChangeContinue_toString tryParse_StartStopChangeContinue parse_StartStopChangeContinue
    schema_start_stop_change_continue StartStopChangeContinue_start.
Proof. exact StartStopChangeContinue_text. Qed.
Print Assumptions C15_StartStopChangeContinue.

Theorem C15_StartStopContinue :
  text_enum StartStopContinue_members StartStopContinue_toString tryParse_StartStopContinue parse_StartStopContinue
    schema_start_stop_continue StartStopContinue_start.
Proof. exact StartStopContinue_text. Qed.
Print Assumptions C15_StartStopContinue.

Theorem C15_StartStopDiscontinue :
  text_enum StartStopDiscontinue_members StartStopDiscontinue_toString tryParse_StartStopDiscontinue parse_StartStopDiscontinue
    schema_start_stop_discontinue StartStopDiscontinue_start.
Proof. exact StartStopDiscontinue_text. Qed.
Print Assumptions C15_StartStopDiscontinue.

Theorem C15_StartStopSingle :
  text_enum StartStopSingle_members StartStopSingle_toString tryParse_StartStopSingle parse_StartStopSingle
    schema_start_stop_single StartStopSingle_start.
Proof. exact StartStopSingle_text. Qed.
Print Assumptions C15_StartStopSingle.

Theorem C15_StemValue :
  text_enum StemValue_members StemValue_toString tryParse_StemValue parse_StemValue
    schema_stem_value StemValue_down.
Proof. exact StemValue_text. Qed.
Print Assumptions C15_StemValue.

Theorem C15_StepEnum :
  text_enum StepEnum_members StepEnum_toString tryParse_StepEnum parse_StepEnum
    schema_step StepEnum_a.
Proof. exact StepEnum_text. Qed.
Print Assumptions C15_StepEnum.

Theorem C15_StickLocationEnum :
  text_enum StickLocationEnum_members StickLocationEnum_toString tryParse_StickLocationEnum parse_StickLocationEnum
    schema_stick_location StickLocationEnum_center.
Proof. exact StickLocationEnum_text. Qed.
Print Assumptions C15_StickLocationEnum.

Theorem C15_StickMaterialEnum :
  text_enum StickMaterialEnum_members StickMaterialEnum_toString tryParse_StickMaterialEnum parse_StickMaterialEnum
    schema_stick_material StickMaterialEnum_soft.
Proof. exact StickMaterialEnum_text. Qed.
Print Assumptions C15_StickMaterialEnum.

Theorem C15_StickTypeEnum :
  text_enum StickTypeEnum_members StickTypeEnum_toString tryParse_StickTypeEnum parse_StickTypeEnum
    schema_stick_type StickTypeEnum_bassDrum.
Proof. exact StickTypeEnum_text. Qed.
Print Assumptions C15_StickTypeEnum.

Theorem C15_SyllabicEnum :
  text_enum SyllabicEnum_members SyllabicEnum_toString tryParse_SyllabicEnum parse_SyllabicEnum
    schema_syllabic SyllabicEnum_single.
Proof. exact SyllabicEnum_text. Qed.
Print Assumptions C15_SyllabicEnum.

Theorem C15_SymbolSize :
  text_enum SymbolSize_members SymbolSize_toString tryParse_SymbolSize parse_SymbolSize
    schema_symbol_size SymbolSize_full.
Proof. exact SymbolSize_text. Qed.
Print Assumptions C15_SymbolSize.

Theorem C15_TextDirection :
  text_enum TextDirection_members TextDirection_toString tryParse_TextDirection parse_TextDirection
    schema_text_direction TextDirection_ltr.
Proof. exact TextDirection_text. Qed.
Print Assumptions C15_TextDirection.

Theorem C15_TimeRelationEnum :
  text_enum TimeRelationEnum_members TimeRelationEnum_toString tryParse_TimeRelationEnum parse_TimeRelationEnum
    schema_time_relation TimeRelationEnum_parentheses.
Proof. exact TimeRelationEnum_text. Qed.
Print Assumptions C15_TimeRelationEnum.

Theorem C15_TimeSeparator :
  text_enum TimeSeparator_members TimeSeparator_toString tryParse_TimeSeparator parse_TimeSeparator
    schema_time_separator TimeSeparator_none.
Proof. exact TimeSeparator_text. Qed.
Print Assumptions C15_TimeSeparator.

Theorem C15_TimeSymbol :
  text_enum TimeSymbol_members TimeSymbol_toString tryParse_TimeSymbol parse_TimeSymbol
    schema_time_symbol TimeSymbol_common.
Proof. exact TimeSymbol_text. Qed.
Print Assumptions C15_TimeSymbol.

Theorem C15_TipDirection :
  text_enum TipDirection_members TipDirection_toString tryParse_TipDirection parse_TipDirection
    schema_tip_direction TipDirection_up.
Proof. exact TipDirection_text. Qed.
Print Assumptions C15_TipDirection.

Theorem C15_TopBottom :
  text_enum TopBottom_members TopBottom_toString tryParse_TopBottom parse_TopBottom
    schema_top_bottom TopBottom_top.
Proof. exact TopBottom_text. Qed.
Print Assumptions C15_TopBottom.

Theorem C15_TrillStep :
  text_enum TrillStep_members TrillStep_toString tryParse_TrillStep parse_TrillStep
    schema_trill_step TrillStep_whole.
Proof. exact TrillStep_text. Qed.
Print Assumptions C15_TrillStep.

Theorem C15_TwoNoteTurn :
  text_enum TwoNoteTurn_members TwoNoteTurn_toString tryParse_TwoNoteTurn parse_TwoNoteTurn
    schema_two_note_turn TwoNoteTurn_whole.
Proof. exact TwoNoteTurn_text. Qed.
Print Assumptions C15_TwoNoteTurn.

Theorem C15_UpDown :
  text_enum UpDown_members UpDown_toString tryParse_UpDown parse_UpDown
    schema_up_down UpDown_up.
Proof. exact UpDown_text. Qed.
Print Assumptions C15_UpDown.

Theorem C15_UpDownStopContinue :
  text_enum UpDownStopContinue_members UpDownStopContinue_toString tryParse_UpDownStopContinue parse_UpDownStopContinue
    schema_up_down_stop_continue UpDownStopContinue_up.
Proof. exact UpDownStopContinue_text. Qed.
Print Assumptions C15_UpDownStopContinue.

Theorem C15_UprightInverted :
  text_enum UprightInverted_members UprightInverted_toString tryParse_UprightInverted parse_UprightInverted
    schema_upright_inverted UprightInverted_upright.
Proof. exact UprightInverted_text. Qed.
Print Assumptions C15_UprightInverted.

Theorem C15_Valign :
  text_enum Valign_members Valign_toString tryParse_Valign parse_Valign
    schema_valign Valign_top.
Proof. exact Valign_text. Qed.
Print Assumptions C15_Valign.

Theorem C15_ValignImage :
  text_enum ValignImage_members ValignImage_toString tryParse_ValignImage parse_ValignImage
    schema_valign_image ValignImage_top.
Proof. exact ValignImage_text. Qed.
Print Assumptions C15_ValignImage.

Theorem C15_WedgeType :
  text_enum WedgeType_members WedgeType_toString tryParse_WedgeType parse_WedgeType
    schema_wedge_type WedgeType_crescendo.
Proof. exact WedgeType_text. Qed.
Print Assumptions C15_WedgeType.

Theorem C15_Winged :
  text_enum Winged_members Winged_toString tryParse_Winged parse_Winged
    schema_winged Winged_none.
Proof. exact Winged_text. Qed.
Print Assumptions C15_Winged.

Theorem C15_WoodEnum :
  text_enum WoodEnum_members WoodEnum_toString tryParse_WoodEnum parse_WoodEnum
    schema_wood WoodEnum_boardClapper.
Proof. exact WoodEnum_text. Qed.
Print Assumptions C15_WoodEnum.

Theorem C15_YesNo :
  text_enum YesNo_members YesNo_toString tryParse_YesNo parse_YesNo
    schema_yes_no YesNo_yes.
Proof. exact YesNo_text. Qed.
Print Assumptions C15_YesNo.

Theorem C15_XlinkType :
  text_enum_total XlinkType_members XlinkType_toString parse_XlinkType
    schema_XlinkType XlinkType_simple.
Proof. exact XlinkType_text. Qed.
Print Assumptions C15_XlinkType.

Theorem C15_XmlSpace :
  text_enum_total XmlSpace_members XmlSpace_toString parse_XmlSpace
    schema_XmlSpace XmlSpace_default_.
Proof. exact XmlSpace_text. Qed.
Print Assumptions C15_XmlSpace.

Theorem C15_XlinkActuate :
  text_enum_total XlinkActuate_members XlinkActuate_toString parse_XlinkActuate
    schema_XlinkActuate XlinkActuate_onLoad.
Proof. exact XlinkActuate_text. Qed.
Print Assumptions C15_XlinkActuate.

Theorem C15_XlinkShow :
  text_enum_total XlinkShow_members XlinkShow_toString parse_XlinkShow
    schema_XlinkShow XlinkShow_new_.
Proof. exact XlinkShow_text. Qed.
Print Assumptions C15_XlinkShow.

Theorem C15_PlaybackSound :
  (forall v, In v PlaybackSound_members) /\
  map PlaybackSoundToString PlaybackSound_members = standard_sounds /\
  (forall v, PlaybackSoundFromString (PlaybackSoundToString v) = Ok v) /\
  (forall v w, PlaybackSoundToString v = PlaybackSoundToString w -> v = w) /\
  (forall s v, PlaybackSoundFromString s = Ok v -> s = PlaybackSoundToString v) /\
  (forall s, ~ In s standard_sounds -> PlaybackSoundFromString s = Throw).
Proof. exact PlaybackSound_total. Qed.
Print Assumptions C15_PlaybackSound.

(** A text that is not a standard sound exists, so the last part is not empty. *)
Example C15_PlaybackSound_case :
  PlaybackSoundFromString (lit "brass.kazoo") = Throw /\
  PlaybackSoundFromString (lit "wind.flutes.kaval") = Ok PlaybackSound_windFlutesKaval.
Proof. split; vm_compute; reflexivity. Qed.

(** A text outside an enumeration, and one inside. *)
Example C15_enum_case :
  tryParse_AccidentalValue (lit "sharp-sharp") = Some AccidentalValue_sharpSharp /\
  tryParse_AccidentalValue (lit "Sharp") = None /\
  parse_AccidentalValue (lit "Sharp") = AccidentalValue_sharp.
Proof. repeat split; vm_compute; reflexivity. Qed.

