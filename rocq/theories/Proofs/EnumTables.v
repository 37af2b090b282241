(* Each enumeration of core/Enums prints and parses its schema texts. *)
From Verif Require Import Model.Text Model.EnumLookup Model.CoreEnums Model.BuiltinEnums
  Spec.TextEnum Spec.SchemaTexts Proofs.EnumProofs.

Lemma AboveBelow_text :
  text_enum AboveBelow_members AboveBelow_toString tryParse_AboveBelow parse_AboveBelow
    schema_above_below AboveBelow_above.
Proof. enum_text. Qed.

Lemma AccidentalValue_text :
  text_enum AccidentalValue_members AccidentalValue_toString tryParse_AccidentalValue parse_AccidentalValue
    schema_accidental_value AccidentalValue_sharp.
Proof. enum_text. Qed.

Lemma ArrowDirectionEnum_text :
  text_enum ArrowDirectionEnum_members ArrowDirectionEnum_toString tryParse_ArrowDirectionEnum parse_ArrowDirectionEnum
    schema_arrow_direction ArrowDirectionEnum_left.
Proof. enum_text. Qed.

Lemma ArrowStyleEnum_text :
  text_enum ArrowStyleEnum_members ArrowStyleEnum_toString tryParse_ArrowStyleEnum parse_ArrowStyleEnum
    schema_arrow_style ArrowStyleEnum_single.
Proof. enum_text. Qed.

Lemma BackwardForward_text :
  text_enum BackwardForward_members BackwardForward_toString tryParse_BackwardForward parse_BackwardForward
    schema_backward_forward BackwardForward_backward.
Proof. enum_text. Qed.

Lemma BarStyleEnum_text :
  text_enum BarStyleEnum_members BarStyleEnum_toString tryParse_BarStyleEnum parse_BarStyleEnum
    schema_bar_style BarStyleEnum_regular.
Proof. enum_text. Qed.

Lemma BeamValue_text :
  text_enum BeamValue_members BeamValue_toString tryParse_BeamValue parse_BeamValue
    schema_beam_value BeamValue_begin.
Proof. enum_text. Qed.

Lemma BeaterValue_text :
  text_enum BeaterValue_members BeaterValue_toString tryParse_BeaterValue parse_BeaterValue
    schema_beater_value BeaterValue_bow.
Proof. enum_text. Qed.

Lemma BreathMarkValue_text :
  text_enum BreathMarkValue_members BreathMarkValue_toString tryParse_BreathMarkValue parse_BreathMarkValue
    schema_breath_mark_value BreathMarkValue_emptystring.
Proof. enum_text. Qed.

Lemma CancelLocation_text :
  text_enum CancelLocation_members CancelLocation_toString tryParse_CancelLocation parse_CancelLocation
    schema_cancel_location CancelLocation_left.
Proof. enum_text. Qed.

Lemma CircularArrowEnum_text :
  text_enum CircularArrowEnum_members CircularArrowEnum_toString tryParse_CircularArrowEnum parse_CircularArrowEnum
    schema_circular_arrow CircularArrowEnum_clockwise.
Proof. enum_text. Qed.

Lemma ClefSign_text :
  text_enum ClefSign_members ClefSign_toString tryParse_ClefSign parse_ClefSign
    schema_clef_sign ClefSign_g.
Proof. enum_text. Qed.

Lemma CssFontSize_text :
  text_enum CssFontSize_members CssFontSize_toString tryParse_CssFontSize parse_CssFontSize
    schema_css_font_size CssFontSize_xxSmall.
Proof. enum_text. Qed.

Lemma DegreeSymbolValue_text :
  text_enum DegreeSymbolValue_members DegreeSymbolValue_toString tryParse_DegreeSymbolValue parse_DegreeSymbolValue
    schema_degree_symbol_value DegreeSymbolValue_major.
Proof. enum_text. Qed.

Lemma DegreeTypeValue_text :
  text_enum DegreeTypeValue_members DegreeTypeValue_toString tryParse_DegreeTypeValue parse_DegreeTypeValue
    schema_degree_type_value DegreeTypeValue_add.
Proof. enum_text. Qed.

Lemma DistanceTypeEnum_text :
  text_enum DistanceTypeEnum_members DistanceTypeEnum_toString tryParse_DistanceTypeEnum parse_DistanceTypeEnum
    schema_distance_type DistanceTypeEnum_beam.
Proof. enum_text. Qed.

Lemma DynamicsEnum_text :
  text_enum DynamicsEnum_members DynamicsEnum_toString tryParse_DynamicsEnum parse_DynamicsEnum
    schema_dynamics DynamicsEnum_mf.
Proof. enum_text. Qed.

Lemma EffectEnum_text :
  text_enum EffectEnum_members EffectEnum_toString tryParse_EffectEnum parse_EffectEnum
    schema_effect EffectEnum_anvil.
Proof. enum_text. Qed.

Lemma EnclosureShape_text :
  text_enum EnclosureShape_members EnclosureShape_toString tryParse_EnclosureShape parse_EnclosureShape
    schema_enclosure_shape EnclosureShape_rectangle.
Proof. enum_text. Qed.

Lemma Fan_text :
  text_enum Fan_members Fan_toString tryParse_Fan parse_Fan
    schema_fan Fan_accel.
Proof. enum_text. Qed.

Lemma FermataShape_text :
  text_enum FermataShape_members FermataShape_toString tryParse_FermataShape parse_FermataShape
    schema_fermata_shape FermataShape_normal.
Proof. enum_text. Qed.

Lemma FontStyle_text :
  text_enum FontStyle_members FontStyle_toString tryParse_FontStyle parse_FontStyle
    schema_font_style FontStyle_normal.
Proof. enum_text. Qed.

Lemma FontWeight_text :
  text_enum FontWeight_members FontWeight_toString tryParse_FontWeight parse_FontWeight
    schema_font_weight FontWeight_normal.
Proof. enum_text. Qed.

Lemma GlassEnum_text :
  text_enum GlassEnum_members GlassEnum_toString tryParse_GlassEnum parse_GlassEnum
    schema_glass GlassEnum_windChimes.
Proof. enum_text. Qed.

Lemma GroupBarlineValue_text :
  text_enum GroupBarlineValue_members GroupBarlineValue_toString tryParse_GroupBarlineValue parse_GroupBarlineValue
    schema_group_barline_value GroupBarlineValue_yes.
Proof. enum_text. Qed.

Lemma GroupSymbolValue_text :
  text_enum GroupSymbolValue_members GroupSymbolValue_toString tryParse_GroupSymbolValue parse_GroupSymbolValue
    schema_group_symbol_value GroupSymbolValue_none.
Proof. enum_text. Qed.

Lemma HandbellValue_text :
  text_enum HandbellValue_members HandbellValue_toString tryParse_HandbellValue parse_HandbellValue
    schema_handbell_value HandbellValue_damp.
Proof. enum_text. Qed.

Lemma HarmonyType_text :
  text_enum HarmonyType_members HarmonyType_toString tryParse_HarmonyType parse_HarmonyType
    schema_harmony_type HarmonyType_explicit_.
Proof. enum_text. Qed.

Lemma HoleClosedLocation_text :
  text_enum HoleClosedLocation_members HoleClosedLocation_toString tryParse_HoleClosedLocation parse_HoleClosedLocation
    schema_hole_closed_location HoleClosedLocation_right.
Proof. enum_text. Qed.

Lemma HoleClosedValue_text :
  text_enum HoleClosedValue_members HoleClosedValue_toString tryParse_HoleClosedValue parse_HoleClosedValue
    schema_hole_closed_value HoleClosedValue_yes.
Proof. enum_text. Qed.

Lemma KindValue_text :
  text_enum KindValue_members KindValue_toString tryParse_KindValue parse_KindValue
    schema_kind_value KindValue_major.
Proof. enum_text. Qed.

Lemma LeftCenterRight_text :
  text_enum LeftCenterRight_members LeftCenterRight_toString tryParse_LeftCenterRight parse_LeftCenterRight
    schema_left_center_right LeftCenterRight_left.
Proof. enum_text. Qed.

Lemma LeftRight_text :
  text_enum LeftRight_members LeftRight_toString tryParse_LeftRight parse_LeftRight
    schema_left_right LeftRight_left.
Proof. enum_text. Qed.

Lemma LineEnd_text :
  text_enum LineEnd_members LineEnd_toString tryParse_LineEnd parse_LineEnd
    schema_line_end LineEnd_up.
Proof. enum_text. Qed.

Lemma LineShape_text :
  text_enum LineShape_members LineShape_toString tryParse_LineShape parse_LineShape
    schema_line_shape LineShape_straight.
Proof. enum_text. Qed.

Lemma LineType_text :
  text_enum LineType_members LineType_toString tryParse_LineType parse_LineType
    schema_line_type LineType_solid.
Proof. enum_text. Qed.

Lemma LineWidthTypeEnum_text :
  text_enum LineWidthTypeEnum_members LineWidthTypeEnum_toString tryParse_LineWidthTypeEnum parse_LineWidthTypeEnum
    schema_line_width_type LineWidthTypeEnum_beam.
Proof. enum_text. Qed.

Lemma MarginType_text :
  text_enum MarginType_members MarginType_toString tryParse_MarginType parse_MarginType
    schema_margin_type MarginType_odd.
Proof. enum_text. Qed.

Lemma MeasureNumberingValue_text :
  text_enum MeasureNumberingValue_members MeasureNumberingValue_toString tryParse_MeasureNumberingValue parse_MeasureNumberingValue
    schema_measure_numbering_value MeasureNumberingValue_none.
Proof. enum_text. Qed.

Lemma MembraneEnum_text :
  text_enum MembraneEnum_members MembraneEnum_toString tryParse_MembraneEnum parse_MembraneEnum
    schema_membrane MembraneEnum_bassDrum.
Proof. enum_text. Qed.

Lemma MetalEnum_text :
  text_enum MetalEnum_members MetalEnum_toString tryParse_MetalEnum parse_MetalEnum
    schema_metal MetalEnum_almglocken.
Proof. enum_text. Qed.

Lemma ModeEnum_text :
  text_enum ModeEnum_members ModeEnum_toString tryParse_ModeEnum parse_ModeEnum
    schema_mode ModeEnum_major.
Proof. enum_text. Qed.

Lemma MuteEnum_text :
  text_enum MuteEnum_members MuteEnum_toString tryParse_MuteEnum parse_MuteEnum
    schema_mute MuteEnum_on.
Proof. enum_text. Qed.

Lemma NoteSizeType_text :
  text_enum NoteSizeType_members NoteSizeType_toString tryParse_NoteSizeType parse_NoteSizeType
    schema_note_size_type NoteSizeType_cue.
Proof. enum_text. Qed.

Lemma NoteTypeValue_text :
  text_enum NoteTypeValue_members NoteTypeValue_toString tryParse_NoteTypeValue parse_NoteTypeValue
    schema_note_type_value NoteTypeValue_oneThousandTwentyFourth.
Proof. enum_text. Qed.

Lemma NoteheadValue_text :
  text_enum NoteheadValue_members NoteheadValue_toString tryParse_NoteheadValue parse_NoteheadValue
    schema_notehead_value NoteheadValue_slash.
Proof. enum_text. Qed.

Lemma OnOff_text :
  text_enum OnOff_members OnOff_toString tryParse_OnOff parse_OnOff
    schema_on_off OnOff_on.
Proof. enum_text. Qed.

Lemma OverUnder_text :
  text_enum OverUnder_members OverUnder_toString tryParse_OverUnder parse_OverUnder
    schema_over_under OverUnder_over.
Proof. enum_text. Qed.

Lemma PitchedEnum_text :
  text_enum PitchedEnum_members PitchedEnum_toString tryParse_PitchedEnum parse_PitchedEnum
    schema_pitched PitchedEnum_chimes.
Proof. enum_text. Qed.

Lemma PrincipalVoiceSymbol_text :
  text_enum PrincipalVoiceSymbol_members PrincipalVoiceSymbol_toString tryParse_PrincipalVoiceSymbol parse_PrincipalVoiceSymbol
    schema_principal_voice_symbol PrincipalVoiceSymbol_hauptstimme.
Proof. enum_text. Qed.

Lemma RightLeftMiddle_text :
  text_enum RightLeftMiddle_members RightLeftMiddle_toString tryParse_RightLeftMiddle parse_RightLeftMiddle
    schema_right_left_middle RightLeftMiddle_right.
Proof. enum_text. Qed.

Lemma SemiPitchedEnum_text :
  text_enum SemiPitchedEnum_members SemiPitchedEnum_toString tryParse_SemiPitchedEnum parse_SemiPitchedEnum
    schema_semi_pitched SemiPitchedEnum_high.
Proof. enum_text. Qed.

Lemma ShowFrets_text :
  text_enum ShowFrets_members ShowFrets_toString tryParse_ShowFrets parse_ShowFrets
    schema_show_frets ShowFrets_numbers.
Proof. enum_text. Qed.

Lemma ShowTuplet_text :
  text_enum ShowTuplet_members ShowTuplet_toString tryParse_ShowTuplet parse_ShowTuplet
    schema_show_tuplet ShowTuplet_actual.
Proof. enum_text. Qed.

Lemma StaffTypeEnum_text :
  text_enum StaffTypeEnum_members StaffTypeEnum_toString tryParse_StaffTypeEnum parse_StaffTypeEnum
    schema_staff_type StaffTypeEnum_ossia.
Proof. enum_text. Qed.

Lemma StartNote_text :
  text_enum StartNote_members StartNote_toString tryParse_StartNote parse_StartNote
    schema_start_note StartNote_upper.
Proof. enum_text. Qed.

Lemma StartStop_text :
  text_enum StartStop_members StartStop_toString tryParse_StartStop parse_StartStop
    schema_start_stop StartStop_start.
Proof. enum_text. Qed.

Lemma StartStopChangeContinue_text :
  text_enum StartStopChangeContinue_members StartStopChangeContinue_toString tryParse_StartStopChangeContinue parse_StartStopChangeContinue
    schema_start_stop_change_continue StartStopChangeContinue_start.
Proof. enum_text. Qed.

Lemma StartStopContinue_text :
  text_enum StartStopContinue_members StartStopContinue_toString tryParse_StartStopContinue parse_StartStopContinue
    schema_start_stop_continue StartStopContinue_start.
Proof. enum_text. Qed.

Lemma StartStopDiscontinue_text :
  text_enum StartStopDiscontinue_members StartStopDiscontinue_toString tryParse_StartStopDiscontinue parse_StartStopDiscontinue
    schema_start_stop_discontinue StartStopDiscontinue_start.
Proof. enum_text. Qed.

Lemma StartStopSingle_text :
  text_enum StartStopSingle_members StartStopSingle_toString tryParse_StartStopSingle parse_StartStopSingle
    schema_start_stop_single StartStopSingle_start.
Proof. enum_text. Qed.

Lemma StemValue_text :
  text_enum StemValue_members StemValue_toString tryParse_StemValue parse_StemValue
    schema_stem_value StemValue_down.
Proof. enum_text. Qed.

Lemma StepEnum_text :
  text_enum StepEnum_members StepEnum_toString tryParse_StepEnum parse_StepEnum
    schema_step StepEnum_a.
Proof. enum_text. Qed.

Lemma StickLocationEnum_text :
  text_enum StickLocationEnum_members StickLocationEnum_toString tryParse_StickLocationEnum parse_StickLocationEnum
    schema_stick_location StickLocationEnum_center.
Proof. enum_text. Qed.

Lemma StickMaterialEnum_text :
  text_enum StickMaterialEnum_members StickMaterialEnum_toString tryParse_StickMaterialEnum parse_StickMaterialEnum
    schema_stick_material StickMaterialEnum_soft.
Proof. enum_text. Qed.

Lemma StickTypeEnum_text :
  text_enum StickTypeEnum_members StickTypeEnum_toString tryParse_StickTypeEnum parse_StickTypeEnum
    schema_stick_type StickTypeEnum_bassDrum.
Proof. enum_text. Qed.

Lemma SyllabicEnum_text :
  text_enum SyllabicEnum_members SyllabicEnum_toString tryParse_SyllabicEnum parse_SyllabicEnum
    schema_syllabic SyllabicEnum_single.
Proof. enum_text. Qed.

Lemma SymbolSize_text :
  text_enum SymbolSize_members SymbolSize_toString tryParse_SymbolSize parse_SymbolSize
    schema_symbol_size SymbolSize_full.
Proof. enum_text. Qed.

Lemma TextDirection_text :
  text_enum TextDirection_members TextDirection_toString tryParse_TextDirection parse_TextDirection
    schema_text_direction TextDirection_ltr.
Proof. enum_text. Qed.

Lemma TimeRelationEnum_text :
  text_enum TimeRelationEnum_members TimeRelationEnum_toString tryParse_TimeRelationEnum parse_TimeRelationEnum
    schema_time_relation TimeRelationEnum_parentheses.
Proof. enum_text. Qed.

Lemma TimeSeparator_text :
  text_enum TimeSeparator_members TimeSeparator_toString tryParse_TimeSeparator parse_TimeSeparator
    schema_time_separator TimeSeparator_none.
Proof. enum_text. Qed.

Lemma TimeSymbol_text :
  text_enum TimeSymbol_members TimeSymbol_toString tryParse_TimeSymbol parse_TimeSymbol
    schema_time_symbol TimeSymbol_common.
Proof. enum_text. Qed.

Lemma TipDirection_text :
  text_enum TipDirection_members TipDirection_toString tryParse_TipDirection parse_TipDirection
    schema_tip_direction TipDirection_up.
Proof. enum_text. Qed.

Lemma TopBottom_text :
  text_enum TopBottom_members TopBottom_toString tryParse_TopBottom parse_TopBottom
    schema_top_bottom TopBottom_top.
Proof. enum_text. Qed.

Lemma TrillStep_text :
  text_enum TrillStep_members TrillStep_toString tryParse_TrillStep parse_TrillStep
    schema_trill_step TrillStep_whole.
Proof. enum_text. Qed.

Lemma TwoNoteTurn_text :
  text_enum TwoNoteTurn_members TwoNoteTurn_toString tryParse_TwoNoteTurn parse_TwoNoteTurn
    schema_two_note_turn TwoNoteTurn_whole.
Proof. enum_text. Qed.

Lemma UpDown_text :
  text_enum UpDown_members UpDown_toString tryParse_UpDown parse_UpDown
    schema_up_down UpDown_up.
Proof. enum_text. Qed.

Lemma UpDownStopContinue_text :
  text_enum UpDownStopContinue_members UpDownStopContinue_toString tryParse_UpDownStopContinue parse_UpDownStopContinue
    schema_up_down_stop_continue UpDownStopContinue_up.
Proof. enum_text. Qed.

Lemma UprightInverted_text :
  text_enum UprightInverted_members UprightInverted_toString tryParse_UprightInverted parse_UprightInverted
    schema_upright_inverted UprightInverted_upright.
Proof. enum_text. Qed.

Lemma Valign_text :
  text_enum Valign_members Valign_toString tryParse_Valign parse_Valign
    schema_valign Valign_top.
Proof. enum_text. Qed.

Lemma ValignImage_text :
  text_enum ValignImage_members ValignImage_toString tryParse_ValignImage parse_ValignImage
    schema_valign_image ValignImage_top.
Proof. enum_text. Qed.

Lemma WedgeType_text :
  text_enum WedgeType_members WedgeType_toString tryParse_WedgeType parse_WedgeType
    schema_wedge_type WedgeType_crescendo.
Proof. enum_text. Qed.

Lemma Winged_text :
  text_enum Winged_members Winged_toString tryParse_Winged parse_Winged
    schema_winged Winged_none.
Proof. enum_text. Qed.

Lemma WoodEnum_text :
  text_enum WoodEnum_members WoodEnum_toString tryParse_WoodEnum parse_WoodEnum
    schema_wood WoodEnum_boardClapper.
Proof. enum_text. Qed.

Lemma YesNo_text :
  text_enum YesNo_members YesNo_toString tryParse_YesNo parse_YesNo
    schema_yes_no YesNo_yes.
Proof. enum_text. Qed.

Lemma XlinkType_text :
  text_enum_total XlinkType_members XlinkType_toString parse_XlinkType
    schema_XlinkType XlinkType_simple.
Proof. enum_text. Qed.

Lemma XmlSpace_text :
  text_enum_total XmlSpace_members XmlSpace_toString parse_XmlSpace
    schema_XmlSpace XmlSpace_default_.
Proof. enum_text. Qed.

Lemma XlinkActuate_text :
  text_enum_total XlinkActuate_members XlinkActuate_toString parse_XlinkActuate
    schema_XlinkActuate XlinkActuate_onLoad.
Proof. enum_text. Qed.

Lemma XlinkShow_text :
  text_enum_total XlinkShow_members XlinkShow_toString parse_XlinkShow
    schema_XlinkShow XlinkShow_new_.
Proof. enum_text. Qed.
