(* The conversion tables of impl/Converter.cpp lose nothing but what is listed. *)
From Coq Require Import Ascii String List Bool ZArith.
From Verif Require Import Model.Text Model.EnumLookup Model.CoreEnums Model.ApiEnums Model.ConverterTables
  Model.MarkData Spec.Conversion Spec.MarkGroups Proofs.ConversionProofs.
Import ListNotations.

Lemma StepEnum_numbered : numbered StepEnum_members StepEnum_value.
Proof. number_all. Qed.

Lemma api_Step_numbered : numbered api_Step_members api_Step_value.
Proof. number_all. Qed.

Lemma stepMap_converts :
  converts stepMap_toApi stepMap_toCore StepEnum_toString api_Step_name (lit "")
    []
    everything StepEnum_c
    []
    [(api_Step_unspecified, StepEnum_c)].
Proof. convert_check StepEnum_numbered api_Step_numbered. Qed.

Lemma NoteTypeValue_numbered : numbered NoteTypeValue_members NoteTypeValue_value.
Proof. number_all. Qed.

Lemma api_DurationName_numbered : numbered api_DurationName_members api_DurationName_value.
Proof. number_all. Qed.

Lemma durationMap_converts :
  converts durationMap_toApi durationMap_toCore NoteTypeValue_toString api_DurationName_name (lit "")
    [(lit "long", lit "longa"); (lit "16th", lit "dur16th"); (lit "32nd", lit "dur32nd"); (lit "64th", lit "dur64th"); (lit "128th", lit "dur128th"); (lit "256th", lit "dur256th"); (lit "512th", lit "dur512th"); (lit "1024th", lit "dur1024th")]
    everything NoteTypeValue_maxima
    []
    [(api_DurationName_unspecified, NoteTypeValue_maxima)].
Proof. convert_check NoteTypeValue_numbered api_DurationName_numbered. Qed.

Lemma NoteheadValue_numbered : numbered NoteheadValue_members NoteheadValue_value.
Proof. number_all. Qed.

Lemma api_Notehead_numbered : numbered api_Notehead_members api_Notehead_value.
Proof. number_all. Qed.

Lemma noteheadMap_converts :
  converts noteheadMap_toApi noteheadMap_toCore NoteheadValue_toString api_Notehead_name (lit "")
    []
    everything NoteheadValue_slash
    [(NoteheadValue_faUp, api_Notehead_none)]
    [(api_Notehead_faUp, NoteheadValue_none)].
Proof. convert_check NoteheadValue_numbered api_Notehead_numbered. Qed.

Lemma noteheadMap_loses : ~ converts_all noteheadMap_toApi noteheadMap_toCore NoteheadValue_toString api_Notehead_name (lit "") [].
Proof.
  intro H. destruct (H NoteheadValue_faUp api_Notehead_faUp) as [H1 _]; [left; vm_compute; reflexivity |].
  vm_compute in H1. discriminate H1.
Qed.

Lemma BeamValue_numbered : numbered BeamValue_members BeamValue_value.
Proof. number_all. Qed.

Lemma api_Beam_numbered : numbered api_Beam_members api_Beam_value.
Proof. number_all. Qed.

Lemma beamMap_converts :
  converts beamMap_toApi beamMap_toCore BeamValue_toString api_Beam_name (lit "")
    [(lit "continue", lit "extend"); (lit "forward hook", lit "forwardBroken"); (lit "backward hook", lit "backwardBroken")]
    everything BeamValue_begin
    []
    [(api_Beam_unspecified, BeamValue_begin)].
Proof. convert_check BeamValue_numbered api_Beam_numbered. Qed.

Lemma AccidentalValue_numbered : numbered AccidentalValue_members AccidentalValue_value.
Proof. number_all. Qed.

Lemma api_Accidental_numbered : numbered api_Accidental_members api_Accidental_value.
Proof. number_all. Qed.

Lemma accidentalMap_converts :
  converts accidentalMap_toApi accidentalMap_toCore AccidentalValue_toString api_Accidental_name (lit "")
    []
    everything AccidentalValue_sharp
    [(AccidentalValue_sharpSharp, api_Accidental_none)]
    [(api_Accidental_none, AccidentalValue_natural); (api_Accidental_sharpSharp, AccidentalValue_natural)].
Proof. convert_check AccidentalValue_numbered api_Accidental_numbered. Qed.

Lemma accidentalMap_loses : ~ converts_all accidentalMap_toApi accidentalMap_toCore AccidentalValue_toString api_Accidental_name (lit "") [].
Proof.
  intro H. destruct (H AccidentalValue_sharpSharp api_Accidental_sharpSharp) as [H1 _]; [left; vm_compute; reflexivity |].
  vm_compute in H1. discriminate H1.
Qed.

Lemma ClefSign_numbered : numbered ClefSign_members ClefSign_value.
Proof. number_all. Qed.

Lemma api_ClefSymbol_numbered : numbered api_ClefSymbol_members api_ClefSymbol_value.
Proof. number_all. Qed.

Lemma clefMap_converts :
  converts clefMap_toApi clefMap_toCore ClefSign_toString api_ClefSymbol_name (lit "")
    []
    everything ClefSign_c
    []
    [].
Proof. convert_check ClefSign_numbered api_ClefSymbol_numbered. Qed.

Lemma AboveBelow_numbered : numbered AboveBelow_members AboveBelow_value.
Proof. number_all. Qed.

Lemma api_Placement_numbered : numbered api_Placement_members api_Placement_value.
Proof. number_all. Qed.

Lemma placementMap_converts :
  converts placementMap_toApi placementMap_toCore AboveBelow_toString api_Placement_name (lit "")
    []
    everything AboveBelow_above
    []
    [(api_Placement_unspecified, AboveBelow_below)].
Proof. convert_check AboveBelow_numbered api_Placement_numbered. Qed.

Lemma YesNo_numbered : numbered YesNo_members YesNo_value.
Proof. number_all. Qed.

Lemma api_Bool_numbered : numbered api_Bool_members api_Bool_value.
Proof. number_all. Qed.

Lemma boolMap_converts :
  converts boolMap_toApi boolMap_toCore YesNo_toString api_Bool_name (lit "")
    []
    everything YesNo_yes
    []
    [(api_Bool_unspecified, YesNo_no)].
Proof. convert_check YesNo_numbered api_Bool_numbered. Qed.

Lemma Valign_numbered : numbered Valign_members Valign_value.
Proof. number_all. Qed.

Lemma api_VerticalAlignment_numbered : numbered api_VerticalAlignment_members api_VerticalAlignment_value.
Proof. number_all. Qed.

Lemma valignMap_converts :
  converts valignMap_toApi valignMap_toCore Valign_toString api_VerticalAlignment_name (lit "")
    []
    everything Valign_baseline
    []
    [(api_VerticalAlignment_unspecified, Valign_baseline)].
Proof. convert_check Valign_numbered api_VerticalAlignment_numbered. Qed.

Lemma LeftCenterRight_numbered : numbered LeftCenterRight_members LeftCenterRight_value.
Proof. number_all. Qed.

Lemma api_HorizontalAlignment_numbered : numbered api_HorizontalAlignment_members api_HorizontalAlignment_value.
Proof. number_all. Qed.

Lemma halignMap_converts :
  converts halignMap_toApi halignMap_toCore LeftCenterRight_toString api_HorizontalAlignment_name (lit "")
    []
    everything LeftCenterRight_left
    []
    [(api_HorizontalAlignment_unspecified, LeftCenterRight_left)].
Proof. convert_check LeftCenterRight_numbered api_HorizontalAlignment_numbered. Qed.

Lemma CssFontSize_numbered : numbered CssFontSize_members CssFontSize_value.
Proof. number_all. Qed.

Lemma api_CssSize_numbered : numbered api_CssSize_members api_CssSize_value.
Proof. number_all. Qed.

Lemma cssMap_converts :
  converts cssMap_toApi cssMap_toCore CssFontSize_toString api_CssSize_name (lit "")
    []
    everything CssFontSize_xxSmall
    []
    [(api_CssSize_unspecified, CssFontSize_medium)].
Proof. convert_check CssFontSize_numbered api_CssSize_numbered. Qed.

Lemma ArticulationsChoice_numbered : numbered ArticulationsChoice_members ArticulationsChoice_value.
Proof. number_all. Qed.

Lemma api_MarkType_numbered : numbered api_MarkType_members api_MarkType_value.
Proof. number_all. Qed.

Lemma articulationsMap_converts :
  converts articulationsMap_toApi articulationsMap_toCore ArticulationsChoice_name api_MarkType_name (lit "")
    []
    isMarkArticulation ArticulationsChoice_otherArticulation
    []
    [].
Proof. convert_check ArticulationsChoice_numbered api_MarkType_numbered. Qed.

Lemma DynamicsEnum_numbered : numbered DynamicsEnum_members DynamicsEnum_value.
Proof. number_all. Qed.

Lemma dynamicsMap_converts :
  converts dynamicsMap_toApi dynamicsMap_toCore DynamicsEnum_toString api_MarkType_name (lit "")
    []
    isMarkDynamic DynamicsEnum_otherDynamics
    []
    [].
Proof. convert_check DynamicsEnum_numbered api_MarkType_numbered. Qed.

Lemma OrnamentsChoice_numbered : numbered OrnamentsChoice_members OrnamentsChoice_value.
Proof. number_all. Qed.

Lemma ornamentsMap_converts :
  converts ornamentsMap_toApi ornamentsMap_toCore OrnamentsChoice_name api_MarkType_name (lit "")
    [(lit "tremolo", lit "tremoloSingleThree")]
    isMarkOrnament OrnamentsChoice_otherOrnament
    []
    [(api_MarkType_tremoloSingleOne, OrnamentsChoice_otherOrnament); (api_MarkType_tremoloSingleTwo, OrnamentsChoice_otherOrnament); (api_MarkType_tremoloSingleFour, OrnamentsChoice_otherOrnament); (api_MarkType_tremoloSingleFive, OrnamentsChoice_otherOrnament); (api_MarkType_unknownOrnament, OrnamentsChoice_otherOrnament)].
Proof. convert_check OrnamentsChoice_numbered api_MarkType_numbered. Qed.

Lemma accidentalMarkMap_converts :
  converts accidentalMarkMap_toApi accidentalMarkMap_toCore AccidentalValue_toString api_MarkType_name (lit "accidentalMark")
    []
    isAccidentalMark AccidentalValue_natural
    []
    [].
Proof. convert_check AccidentalValue_numbered api_MarkType_numbered. Qed.

Lemma FontStyle_numbered : numbered FontStyle_members FontStyle_value.
Proof. number_all. Qed.

Lemma api_FontStyle_numbered : numbered api_FontStyle_members api_FontStyle_value.
Proof. number_all. Qed.

Lemma fontStyleMap_converts :
  converts fontStyleMap_toApi fontStyleMap_toCore FontStyle_toString api_FontStyle_name (lit "")
    []
    everything FontStyle_normal
    []
    [(api_FontStyle_unspecified, FontStyle_normal)].
Proof. convert_check FontStyle_numbered api_FontStyle_numbered. Qed.

Lemma FontWeight_numbered : numbered FontWeight_members FontWeight_value.
Proof. number_all. Qed.

Lemma api_FontWeight_numbered : numbered api_FontWeight_members api_FontWeight_value.
Proof. number_all. Qed.

Lemma fontWeightMap_converts :
  converts fontWeightMap_toApi fontWeightMap_toCore FontWeight_toString api_FontWeight_name (lit "")
    []
    everything FontWeight_normal
    []
    [(api_FontWeight_unspecified, FontWeight_normal)].
Proof. convert_check FontWeight_numbered api_FontWeight_numbered. Qed.

Lemma MeasureNumberingValue_numbered : numbered MeasureNumberingValue_members MeasureNumberingValue_value.
Proof. number_all. Qed.

Lemma api_MeasureNumbering_numbered : numbered api_MeasureNumbering_members api_MeasureNumbering_value.
Proof. number_all. Qed.

Lemma measureNumberingMap_converts :
  converts measureNumberingMap_toApi measureNumberingMap_toCore MeasureNumberingValue_toString api_MeasureNumbering_name (lit "")
    []
    everything MeasureNumberingValue_measure
    []
    [(api_MeasureNumbering_unspecified, MeasureNumberingValue_none)].
Proof. convert_check MeasureNumberingValue_numbered api_MeasureNumbering_numbered. Qed.

Lemma TechnicalChoice_numbered : numbered TechnicalChoice_members TechnicalChoice_value.
Proof. number_all. Qed.

Lemma technicalMarkMap_converts :
  converts technicalMarkMap_toApi technicalMarkMap_toCore TechnicalChoice_name api_MarkType_name (lit "")
    [(lit "fingernails", lit "unspecified")]
    isMarkTechnicalOrUnspecified TechnicalChoice_otherTechnical
    [(TechnicalChoice_fingering, api_MarkType_unspecified); (TechnicalChoice_pluck, api_MarkType_unspecified); (TechnicalChoice_fret, api_MarkType_unspecified); (TechnicalChoice_string_, api_MarkType_unspecified); (TechnicalChoice_hammerOn, api_MarkType_unspecified); (TechnicalChoice_pullOff, api_MarkType_unspecified); (TechnicalChoice_bend, api_MarkType_unspecified); (TechnicalChoice_tap, api_MarkType_unspecified); (TechnicalChoice_hole, api_MarkType_unspecified); (TechnicalChoice_arrow, api_MarkType_unspecified); (TechnicalChoice_handbell, api_MarkType_unspecified)]
    [(api_MarkType_fingernails, TechnicalChoice_otherTechnical)].
Proof. convert_check TechnicalChoice_numbered api_MarkType_numbered. Qed.

Lemma technicalMarkMap_loses : ~ converts_all technicalMarkMap_toApi technicalMarkMap_toCore TechnicalChoice_name api_MarkType_name (lit "") [].
Proof.
  intro H. destruct (H TechnicalChoice_fingernails api_MarkType_fingernails) as [H1 _]; [left; vm_compute; reflexivity |].
  vm_compute in H1. discriminate H1.
Qed.

Lemma StemValue_numbered : numbered StemValue_members StemValue_value.
Proof. number_all. Qed.

Lemma api_Stem_numbered : numbered api_Stem_members api_Stem_value.
Proof. number_all. Qed.

Lemma stemMap_converts :
  converts stemMap_toApi stemMap_toCore StemValue_toString api_Stem_name (lit "")
    [(lit "double", lit "both")]
    everything StemValue_up
    []
    [(api_Stem_unspecified, StemValue_up)].
Proof. convert_check StemValue_numbered api_Stem_numbered. Qed.

Lemma LineType_numbered : numbered LineType_members LineType_value.
Proof. number_all. Qed.

Lemma api_LineType_numbered : numbered api_LineType_members api_LineType_value.
Proof. number_all. Qed.

Lemma lineTypeMap_converts :
  converts lineTypeMap_toApi lineTypeMap_toCore LineType_toString api_LineType_name (lit "")
    []
    everything LineType_dashed
    []
    [(api_LineType_unspecified, LineType_solid)].
Proof. convert_check LineType_numbered api_LineType_numbered. Qed.

Lemma WedgeType_numbered : numbered WedgeType_members WedgeType_value.
Proof. number_all. Qed.

Lemma api_WedgeType_numbered : numbered api_WedgeType_members api_WedgeType_value.
Proof. number_all. Qed.

Lemma wedgeMap_converts :
  converts wedgeMap_toApi wedgeMap_toCore WedgeType_toString api_WedgeType_name (lit "")
    [(lit "continue", lit "unspecified")]
    everything WedgeType_crescendo
    [(WedgeType_stop, api_WedgeType_unspecified)]
    [].
Proof. convert_check WedgeType_numbered api_WedgeType_numbered. Qed.

Lemma BarStyleEnum_numbered : numbered BarStyleEnum_members BarStyleEnum_value.
Proof. number_all. Qed.

Lemma api_BarlineType_numbered : numbered api_BarlineType_members api_BarlineType_value.
Proof. number_all. Qed.

Lemma barlineMap_converts :
  converts barlineMap_toApi barlineMap_toCore BarStyleEnum_toString api_BarlineType_name (lit "")
    [(lit "regular", lit "normal"); (lit "tick", lit "unsupported"); (lit "short", lit "unsupported")]
    everything BarStyleEnum_regular
    [(BarStyleEnum_short_, api_BarlineType_unsupported)]
    [(api_BarlineType_unspecified, BarStyleEnum_regular)].
Proof. convert_check BarStyleEnum_numbered api_BarlineType_numbered. Qed.

Lemma LineEnd_numbered : numbered LineEnd_members LineEnd_value.
Proof. number_all. Qed.

Lemma api_LineHook_numbered : numbered api_LineHook_members api_LineHook_value.
Proof. number_all. Qed.

Lemma lineStopMap_converts :
  converts lineStopMap_toApi lineStopMap_toCore LineEnd_toString api_LineHook_name (lit "")
    []
    everything LineEnd_arrow
    []
    [(api_LineHook_unspecified, LineEnd_none)].
Proof. convert_check LineEnd_numbered api_LineHook_numbered. Qed.

Lemma GroupSymbolValue_numbered : numbered GroupSymbolValue_members GroupSymbolValue_value.
Proof. number_all. Qed.

Lemma api_BracketType_numbered : numbered api_BracketType_members api_BracketType_value.
Proof. number_all. Qed.

Lemma bracketMap_converts :
  converts bracketMap_toApi bracketMap_toCore GroupSymbolValue_toString api_BracketType_name (lit "")
    []
    everything GroupSymbolValue_brace
    []
    [(api_BracketType_unspecified, GroupSymbolValue_none)].
Proof. convert_check GroupSymbolValue_numbered api_BracketType_numbered. Qed.

Lemma RightLeftMiddle_numbered : numbered RightLeftMiddle_members RightLeftMiddle_value.
Proof. number_all. Qed.

Lemma barlinePlacementMap_converts :
  converts barlinePlacementMap_toApi barlinePlacementMap_toCore RightLeftMiddle_toString api_HorizontalAlignment_name (lit "")
    [(lit "middle", lit "center")]
    everything RightLeftMiddle_right
    []
    [(api_HorizontalAlignment_unspecified, RightLeftMiddle_right)].
Proof. convert_check RightLeftMiddle_numbered api_HorizontalAlignment_numbered. Qed.

Lemma FermataShape_numbered : numbered FermataShape_members FermataShape_value.
Proof. number_all. Qed.

Lemma fermataMap_converts :
  converts fermataMap_toApi fermataMap_toCore FermataShape_toString api_MarkType_name (lit "fermata")
    [(lit "", lit "fermata")]
    isPlainFermata FermataShape_emptystring
    []
    [].
Proof. convert_check FermataShape_numbered api_MarkType_numbered. Qed.

Lemma KindValue_numbered : numbered KindValue_members KindValue_value.
Proof. number_all. Qed.

Lemma api_ChordKind_numbered : numbered api_ChordKind_members api_ChordKind_value.
Proof. number_all. Qed.

Lemma kindMap_converts :
  converts kindMap_toApi kindMap_toCore KindValue_toString api_ChordKind_name (lit "")
    []
    everything KindValue_major
    []
    [(api_ChordKind_unspecified, KindValue_none)].
Proof. convert_check KindValue_numbered api_ChordKind_numbered. Qed.

Lemma endingMap_named :
  (forall a, a <> api_EndingType_none ->
     bare (StartStopDiscontinue_toString (endingMap_toCore a)) = bare (api_EndingType_name a)) /\
  endingMap_toCore api_EndingType_none = StartStopDiscontinue_start.
Proof.
  split; [| vm_compute; reflexivity].
  intros a Ha. destruct a; try (exfalso; apply Ha; reflexivity); vm_compute; reflexivity.
Qed.
