(* C16: API and core enumerations convert without loss. *)
From Coq Require Import Ascii String List Bool ZArith.
From Verif Require Import Model.Base Model.Text Model.EnumLookup Model.CoreEnums Model.ApiEnums Model.ConverterTables
  Model.PlaybackSound Model.SoundID Model.InstrumentTable Model.MarkData
  Spec.Conversion Spec.MarkGroups Spec.SoundTexts Proofs.ConversionTables Proofs.InstrumentProofs Proofs.MapProofs.
Import ListNotations.

Theorem C16_stepMap :
  converts stepMap_toApi stepMap_toCore StepEnum_toString api_Step_name (lit "")
    []
    everything StepEnum_c
    []
    [(api_Step_unspecified, StepEnum_c)].
Proof. exact stepMap_converts. Qed.
Print Assumptions C16_stepMap.

Theorem C16_durationMap :
  converts durationMap_toApi durationMap_toCore NoteTypeValue_toString api_DurationName_name (lit "")
    [(lit "long", lit "longa"); (lit "16th", lit "dur16th"); (lit "32nd", lit "dur32nd"); (lit "64th", lit "dur64th"); (lit "128th", lit "dur128th"); (lit "256th", lit "dur256th"); (lit "512th", lit "dur512th"); (lit "1024th", lit "dur1024th")]
    everything NoteTypeValue_maxima
    []
    [(api_DurationName_unspecified, NoteTypeValue_maxima)].
Proof. exact durationMap_converts. Qed.
Print Assumptions C16_durationMap.

Theorem C16_noteheadMap_partial :
  converts noteheadMap_toApi noteheadMap_toCore NoteheadValue_toString api_Notehead_name (lit "")
    []
    everything NoteheadValue_slash
    [(NoteheadValue_faUp, api_Notehead_none)]
    [(api_Notehead_faUp, NoteheadValue_none)].
Proof. exact noteheadMap_converts. Qed.
Print Assumptions C16_noteheadMap_partial.

Definition C16_noteheadMap_claim : Prop :=
  converts_all noteheadMap_toApi noteheadMap_toCore NoteheadValue_toString api_Notehead_name (lit "") [].

(** Finding: faUp does not survive. *)
Theorem C16_noteheadMap_refuted : ~ C16_noteheadMap_claim.
Proof. exact noteheadMap_loses. Qed.
Print Assumptions C16_noteheadMap_refuted.

Theorem C16_beamMap :
  converts beamMap_toApi beamMap_toCore BeamValue_toString api_Beam_name (lit "")
    [(lit "continue", lit "extend"); (lit "forward hook", lit "forwardBroken"); (lit "backward hook", lit "backwardBroken")]
    everything BeamValue_begin
    []
    [(api_Beam_unspecified, BeamValue_begin)].
Proof. exact beamMap_converts. Qed.
Print Assumptions C16_beamMap.

Theorem C16_accidentalMap_partial :
  converts accidentalMap_toApi accidentalMap_toCore AccidentalValue_toString api_Accidental_name (lit "")
    []
    everything AccidentalValue_sharp
    [(AccidentalValue_sharpSharp, api_Accidental_none)]
    [(api_Accidental_none, AccidentalValue_natural); (api_Accidental_sharpSharp, AccidentalValue_natural)].
Proof. exact accidentalMap_converts. Qed.
Print Assumptions C16_accidentalMap_partial.

Definition C16_accidentalMap_claim : Prop :=
  converts_all accidentalMap_toApi accidentalMap_toCore AccidentalValue_toString api_Accidental_name (lit "") [].

(** Finding: sharpSharp does not survive. *)
Theorem C16_accidentalMap_refuted : ~ C16_accidentalMap_claim.
Proof. exact accidentalMap_loses. Qed.
Print Assumptions C16_accidentalMap_refuted.

Theorem C16_clefMap :
  converts clefMap_toApi clefMap_toCore ClefSign_toString api_ClefSymbol_name (lit "")
    []
    everything ClefSign_c
    []
    [].
Proof. exact clefMap_converts. Qed.
Print Assumptions C16_clefMap.

Theorem C16_placementMap :
  converts placementMap_toApi placementMap_toCore AboveBelow_toString api_Placement_name (lit "")
    []
    everything AboveBelow_above
    []
    [(api_Placement_unspecified, AboveBelow_below)].
Proof. exact placementMap_converts. Qed.
Print Assumptions C16_placementMap.

Theorem C16_boolMap :
  converts boolMap_toApi boolMap_toCore YesNo_toString api_Bool_name (lit "")
    []
    everything YesNo_yes
    []
    [(api_Bool_unspecified, YesNo_no)].
Proof. exact boolMap_converts. Qed.
Print Assumptions C16_boolMap.

Theorem C16_valignMap :
  converts valignMap_toApi valignMap_toCore Valign_toString api_VerticalAlignment_name (lit "")
    []
    everything Valign_baseline
    []
    [(api_VerticalAlignment_unspecified, Valign_baseline)].
Proof. exact valignMap_converts. Qed.
Print Assumptions C16_valignMap.

Theorem C16_halignMap :
  converts halignMap_toApi halignMap_toCore LeftCenterRight_toString api_HorizontalAlignment_name (lit "")
    []
    everything LeftCenterRight_left
    []
    [(api_HorizontalAlignment_unspecified, LeftCenterRight_left)].
Proof. exact halignMap_converts. Qed.
Print Assumptions C16_halignMap.

Theorem C16_cssMap :
  converts cssMap_toApi cssMap_toCore CssFontSize_toString api_CssSize_name (lit "")
    []
    everything CssFontSize_xxSmall
    []
    [(api_CssSize_unspecified, CssFontSize_medium)].
Proof. exact cssMap_converts. Qed.
Print Assumptions C16_cssMap.

Theorem C16_articulationsMap :
  converts articulationsMap_toApi articulationsMap_toCore ArticulationsChoice_name api_MarkType_name (lit "")
    []
    isMarkArticulation ArticulationsChoice_otherArticulation
    []
    [].
Proof. exact articulationsMap_converts. Qed.
Print Assumptions C16_articulationsMap.

Theorem C16_dynamicsMap :
  converts dynamicsMap_toApi dynamicsMap_toCore DynamicsEnum_toString api_MarkType_name (lit "")
    []
    isMarkDynamic DynamicsEnum_otherDynamics
    []
    [].
Proof. exact dynamicsMap_converts. Qed.
Print Assumptions C16_dynamicsMap.

Theorem C16_ornamentsMap :
  converts ornamentsMap_toApi ornamentsMap_toCore OrnamentsChoice_name api_MarkType_name (lit "")
    [(lit "tremolo", lit "tremoloSingleThree")]
    isMarkOrnament OrnamentsChoice_otherOrnament
    []
    [(api_MarkType_tremoloSingleOne, OrnamentsChoice_otherOrnament); (api_MarkType_tremoloSingleTwo, OrnamentsChoice_otherOrnament); (api_MarkType_tremoloSingleFour, OrnamentsChoice_otherOrnament); (api_MarkType_tremoloSingleFive, OrnamentsChoice_otherOrnament); (api_MarkType_unknownOrnament, OrnamentsChoice_otherOrnament)].
Proof. exact ornamentsMap_converts. Qed.
Print Assumptions C16_ornamentsMap.

Theorem C16_accidentalMarkMap :
  converts accidentalMarkMap_toApi accidentalMarkMap_toCore AccidentalValue_toString api_MarkType_name (lit "accidentalMark")
    []
    isAccidentalMark AccidentalValue_natural
    []
    [].
Proof. exact accidentalMarkMap_converts. Qed.
Print Assumptions C16_accidentalMarkMap.

Theorem C16_fontStyleMap :
  converts fontStyleMap_toApi fontStyleMap_toCore FontStyle_toString api_FontStyle_name (lit "")
    []
    everything FontStyle_normal
    []
    [(api_FontStyle_unspecified, FontStyle_normal)].
Proof. exact fontStyleMap_converts. Qed.
Print Assumptions C16_fontStyleMap.

Theorem C16_fontWeightMap :
  converts fontWeightMap_toApi fontWeightMap_toCore FontWeight_toString api_FontWeight_name (lit "")
    []
    everything FontWeight_normal
    []
    [(api_FontWeight_unspecified, FontWeight_normal)].
Proof. exact fontWeightMap_converts. Qed.
Print Assumptions C16_fontWeightMap.

Theorem C16_measureNumberingMap :
  converts measureNumberingMap_toApi measureNumberingMap_toCore MeasureNumberingValue_toString api_MeasureNumbering_name (lit "")
    []
    everything MeasureNumberingValue_measure
    []
    [(api_MeasureNumbering_unspecified, MeasureNumberingValue_none)].
Proof. exact measureNumberingMap_converts. Qed.
Print Assumptions C16_measureNumberingMap.

Theorem C16_technicalMarkMap_partial :
  converts technicalMarkMap_toApi technicalMarkMap_toCore TechnicalChoice_name api_MarkType_name (lit "")
    [(lit "fingernails", lit "unspecified")]
    isMarkTechnicalOrUnspecified TechnicalChoice_otherTechnical
    [(TechnicalChoice_fingering, api_MarkType_unspecified); (TechnicalChoice_pluck, api_MarkType_unspecified); (TechnicalChoice_fret, api_MarkType_unspecified); (TechnicalChoice_string_, api_MarkType_unspecified); (TechnicalChoice_hammerOn, api_MarkType_unspecified); (TechnicalChoice_pullOff, api_MarkType_unspecified); (TechnicalChoice_bend, api_MarkType_unspecified); (TechnicalChoice_tap, api_MarkType_unspecified); (TechnicalChoice_hole, api_MarkType_unspecified); (TechnicalChoice_arrow, api_MarkType_unspecified); (TechnicalChoice_handbell, api_MarkType_unspecified)]
    [(api_MarkType_fingernails, TechnicalChoice_otherTechnical)].
Proof. exact technicalMarkMap_converts. Qed.
Print Assumptions C16_technicalMarkMap_partial.

Definition C16_technicalMarkMap_claim : Prop :=
  converts_all technicalMarkMap_toApi technicalMarkMap_toCore TechnicalChoice_name api_MarkType_name (lit "") [].

(** Finding: fingernails does not survive. *)
Theorem C16_technicalMarkMap_refuted : ~ C16_technicalMarkMap_claim.
Proof. exact technicalMarkMap_loses. Qed.
Print Assumptions C16_technicalMarkMap_refuted.

Theorem C16_stemMap :
  converts stemMap_toApi stemMap_toCore StemValue_toString api_Stem_name (lit "")
    [(lit "double", lit "both")]
    everything StemValue_up
    []
    [(api_Stem_unspecified, StemValue_up)].
Proof. exact stemMap_converts. Qed.
Print Assumptions C16_stemMap.

Theorem C16_lineTypeMap :
  converts lineTypeMap_toApi lineTypeMap_toCore LineType_toString api_LineType_name (lit "")
    []
    everything LineType_dashed
    []
    [(api_LineType_unspecified, LineType_solid)].
Proof. exact lineTypeMap_converts. Qed.
Print Assumptions C16_lineTypeMap.

Theorem C16_wedgeMap :
  converts wedgeMap_toApi wedgeMap_toCore WedgeType_toString api_WedgeType_name (lit "")
    [(lit "continue", lit "unspecified")]
    everything WedgeType_crescendo
    [(WedgeType_stop, api_WedgeType_unspecified)]
    [].
Proof. exact wedgeMap_converts. Qed.
Print Assumptions C16_wedgeMap.

Theorem C16_barlineMap :
  converts barlineMap_toApi barlineMap_toCore BarStyleEnum_toString api_BarlineType_name (lit "")
    [(lit "regular", lit "normal"); (lit "tick", lit "unsupported"); (lit "short", lit "unsupported")]
    everything BarStyleEnum_regular
    [(BarStyleEnum_short_, api_BarlineType_unsupported)]
    [(api_BarlineType_unspecified, BarStyleEnum_regular)].
Proof. exact barlineMap_converts. Qed.
Print Assumptions C16_barlineMap.

Theorem C16_lineStopMap :
  converts lineStopMap_toApi lineStopMap_toCore LineEnd_toString api_LineHook_name (lit "")
    []
    everything LineEnd_arrow
    []
    [(api_LineHook_unspecified, LineEnd_none)].
Proof. exact lineStopMap_converts. Qed.
Print Assumptions C16_lineStopMap.

Theorem C16_bracketMap :
  converts bracketMap_toApi bracketMap_toCore GroupSymbolValue_toString api_BracketType_name (lit "")
    []
    everything GroupSymbolValue_brace
    []
    [(api_BracketType_unspecified, GroupSymbolValue_none)].
Proof. exact bracketMap_converts. Qed.
Print Assumptions C16_bracketMap.

Theorem C16_barlinePlacementMap :
  converts barlinePlacementMap_toApi barlinePlacementMap_toCore RightLeftMiddle_toString api_HorizontalAlignment_name (lit "")
    [(lit "middle", lit "center")]
    everything RightLeftMiddle_right
    []
    [(api_HorizontalAlignment_unspecified, RightLeftMiddle_right)].
Proof. exact barlinePlacementMap_converts. Qed.
Print Assumptions C16_barlinePlacementMap.

Theorem C16_fermataMap :
  converts fermataMap_toApi fermataMap_toCore FermataShape_toString api_MarkType_name (lit "fermata")
    [(lit "", lit "fermata")]
    isPlainFermata FermataShape_emptystring
    []
    [].
Proof. exact fermataMap_converts. Qed.
Print Assumptions C16_fermataMap.

Theorem C16_kindMap :
  converts kindMap_toApi kindMap_toCore KindValue_toString api_ChordKind_name (lit "")
    []
    everything KindValue_major
    []
    [(api_ChordKind_unspecified, KindValue_none)].
Proof. exact kindMap_converts. Qed.
Print Assumptions C16_kindMap.

(** Endings are only translated towards MusicXML here. *)
Theorem C16_endingMap :
  (forall a, a <> api_EndingType_none ->
     bare (StartStopDiscontinue_toString (endingMap_toCore a)) = bare (api_EndingType_name a)) /\
  endingMap_toCore api_EndingType_none = StartStopDiscontinue_start.
Proof. exact endingMap_named. Qed.
Print Assumptions C16_endingMap.

Theorem C16_instrumentMap :
  converts instrumentMap_toApi instrumentMap_toCore PlaybackSoundToString api_SoundID_name (lit "") []
    everything PlaybackSound_keyboardPiano
    []
    [(api_SoundID_unspecified, PlaybackSound_keyboardPiano);
     (api_SoundID_errorBadString, PlaybackSound_keyboardPiano)].
Proof. exact instrumentMap_converts. Qed.
Print Assumptions C16_instrumentMap.

(** The text form of the API sounds. *)
Theorem C16_sound_texts : forall s,
  (In s standard_sounds -> SoundIDToString (SoundIDFromString s) = s) /\
  (~ In s standard_sounds -> SoundIDFromString s = api_SoundID_errorBadString).
Proof. exact (fun s => conj (sound_text_roundtrip s) (sound_text_other s)). Qed.
Print Assumptions C16_sound_texts.

Theorem C16_sound_values : forall a,
  (a <> api_SoundID_unspecified -> SoundIDFromString (SoundIDToString a) = a) /\
  (a = api_SoundID_unspecified -> SoundIDFromString (SoundIDToString a) = api_SoundID_errorBadString).
Proof.
  exact (fun a => conj (sound_roundtrip a)
    (fun E => eq_trans (f_equal (fun x => SoundIDFromString (SoundIDToString x)) E) sound_unspecified)).
Qed.
Print Assumptions C16_sound_values.

(** The tables in general, for any keys and any rows. An entry is in force if it is the
    first of its key; a core value is converted by the entry of its key that is in force. *)
Theorem C16_first_entry : forall (C A : Type) (key : C -> Z) (rows : list (C * A)) d c,
  findApiItem key (std_map key rows) d c =
  match find (fun r => Z.eqb (key (fst r)) (key c)) rows with Some r => snd r | None => d end.
Proof. exact (@first_entry). Qed.
Print Assumptions C16_first_entry.

(** An API value is converted by the entry in force for it with the smallest key. *)
Theorem C16_smallest_entry : forall (C A : Type) (key : C -> Z) (val : A -> Z) (rows : list (C * A)) d a,
  (exists r, In r rows /\ find (fun x => Z.eqb (key (fst x)) (key (fst r))) rows = Some r /\ val (snd r) = val a /\
     findCoreItem val (std_map key rows) d a = fst r /\
     forall r', In r' rows -> find (fun x => Z.eqb (key (fst x)) (key (fst r'))) rows = Some r' ->
       val (snd r') = val a -> (key (fst r) <= key (fst r'))%Z) \/
  ((forall r, In r rows -> find (fun x => Z.eqb (key (fst x)) (key (fst r))) rows = Some r -> val (snd r) <> val a) /\
   findCoreItem val (std_map key rows) d a = d).
Proof. exact (@smallest_entry). Qed.
Print Assumptions C16_smallest_entry.

(** Some concrete rows, in both directions. *)
Example C16_cases :
  durationMap_toCore api_DurationName_dur16th = NoteTypeValue_sixteenth /\
  durationMap_toApi NoteTypeValue_long_ = api_DurationName_longa /\
  accidentalMap_toApi AccidentalValue_sharpSharp = api_Accidental_none /\
  barlineMap_toCore api_BarlineType_unsupported = BarStyleEnum_tick /\
  instrumentMap_toApi PlaybackSound_windFlutesKaval = api_SoundID_windFlutesKaval.
Proof. repeat split; vm_compute; reflexivity. Qed.
