(* The conversion tables of impl/Converter.cpp and the functions that use them.
   Rows are in source order; [std_map] sorts them as std::map does. *)
From Coq Require Import Ascii String List ZArith.
From Verif Require Import Model.Text Model.EnumLookup.
Import ListNotations.
Open Scope Z_scope.

From Verif Require Import Model.CoreEnums Model.ApiEnums.

(* the numeric value of a core::StepEnum: Enums.h:1581-1590 *)
Definition StepEnum_value (v : StepEnum) : Z :=
  match v with
  | StepEnum_a => 0
  | StepEnum_b => 1
  | StepEnum_c => 2
  | StepEnum_d => 3
  | StepEnum_e => 4
  | StepEnum_f => 5
  | StepEnum_g => 6
  end.

(** Sourcecode/private/mx/impl/Converter.cpp:17-26 *)
Definition stepMap_rows : list (StepEnum * api_Step) :=
  [ (StepEnum_c, api_Step_c);
    (StepEnum_d, api_Step_d);
    (StepEnum_e, api_Step_e);
    (StepEnum_f, api_Step_f);
    (StepEnum_g, api_Step_g);
    (StepEnum_a, api_Step_a);
    (StepEnum_b, api_Step_b) ].

Definition stepMap : list (StepEnum * api_Step) := std_map StepEnum_value stepMap_rows.

(** Converter.cpp:1352-1360: convert( core::StepEnum ) *)
Definition stepMap_toApi (value : StepEnum) : api_Step :=
  findApiItem StepEnum_value stepMap api_Step_c value.

(** Converter.cpp:1363-1378: convert( api::Step ) *)
Definition stepMap_toCore (value : api_Step) : StepEnum :=
  findCoreItem api_Step_value stepMap StepEnum_c value.

(* the numeric value of a core::NoteTypeValue: Enums.h:1188-1204 *)
Definition NoteTypeValue_value (v : NoteTypeValue) : Z :=
  match v with
  | NoteTypeValue_oneThousandTwentyFourth => 0
  | NoteTypeValue_fiveHundredTwelfth => 1
  | NoteTypeValue_twoHundredFifthySixth => 2
  | NoteTypeValue_oneHundredTwentyEighth => 3
  | NoteTypeValue_sixtyFourth => 4
  | NoteTypeValue_thirtySecond => 5
  | NoteTypeValue_sixteenth => 6
  | NoteTypeValue_eighth => 7
  | NoteTypeValue_quarter => 8
  | NoteTypeValue_half => 9
  | NoteTypeValue_whole => 10
  | NoteTypeValue_breve => 11
  | NoteTypeValue_long_ => 12
  | NoteTypeValue_maxima => 13
  end.

(** Sourcecode/private/mx/impl/Converter.cpp:28-44 *)
Definition durationMap_rows : list (NoteTypeValue * api_DurationName) :=
  [ (NoteTypeValue_maxima, api_DurationName_maxima);
    (NoteTypeValue_long_, api_DurationName_longa);
    (NoteTypeValue_breve, api_DurationName_breve);
    (NoteTypeValue_whole, api_DurationName_whole);
    (NoteTypeValue_half, api_DurationName_half);
    (NoteTypeValue_quarter, api_DurationName_quarter);
    (NoteTypeValue_eighth, api_DurationName_eighth);
    (NoteTypeValue_sixteenth, api_DurationName_dur16th);
    (NoteTypeValue_thirtySecond, api_DurationName_dur32nd);
    (NoteTypeValue_sixtyFourth, api_DurationName_dur64th);
    (NoteTypeValue_oneHundredTwentyEighth, api_DurationName_dur128th);
    (NoteTypeValue_twoHundredFifthySixth, api_DurationName_dur256th);
    (NoteTypeValue_fiveHundredTwelfth, api_DurationName_dur512th);
    (NoteTypeValue_oneThousandTwentyFourth, api_DurationName_dur1024th) ].

Definition durationMap : list (NoteTypeValue * api_DurationName) := std_map NoteTypeValue_value durationMap_rows.

(** Converter.cpp:1381-1389: convert( core::NoteTypeValue ) *)
Definition durationMap_toApi (value : NoteTypeValue) : api_DurationName :=
  findApiItem NoteTypeValue_value durationMap api_DurationName_unspecified value.

(** Converter.cpp:1392-1407: convert( api::DurationName ) *)
Definition durationMap_toCore (value : api_DurationName) : NoteTypeValue :=
  findCoreItem api_DurationName_value durationMap NoteTypeValue_maxima value.

(* the numeric value of a core::NoteheadValue: Enums.h:1225-1253 *)
Definition NoteheadValue_value (v : NoteheadValue) : Z :=
  match v with
  | NoteheadValue_slash => 0
  | NoteheadValue_triangle => 1
  | NoteheadValue_diamond => 2
  | NoteheadValue_square => 3
  | NoteheadValue_cross => 4
  | NoteheadValue_x => 5
  | NoteheadValue_circleX => 6
  | NoteheadValue_invertedTriangle => 7
  | NoteheadValue_arrowDown => 8
  | NoteheadValue_arrowUp => 9
  | NoteheadValue_slashed => 10
  | NoteheadValue_backSlashed => 11
  | NoteheadValue_normal => 12
  | NoteheadValue_cluster => 13
  | NoteheadValue_circleDot => 14
  | NoteheadValue_leftTriangle => 15
  | NoteheadValue_rectangle => 16
  | NoteheadValue_none => 17
  | NoteheadValue_do_ => 18
  | NoteheadValue_re => 19
  | NoteheadValue_mi => 20
  | NoteheadValue_fa => 21
  | NoteheadValue_faUp => 22
  | NoteheadValue_so => 23
  | NoteheadValue_la => 24
  | NoteheadValue_ti => 25
  end.

(** Sourcecode/private/mx/impl/Converter.cpp:46-73 *)
Definition noteheadMap_rows : list (NoteheadValue * api_Notehead) :=
  [ (NoteheadValue_slash, api_Notehead_slash);
    (NoteheadValue_triangle, api_Notehead_triangle);
    (NoteheadValue_diamond, api_Notehead_diamond);
    (NoteheadValue_square, api_Notehead_square);
    (NoteheadValue_cross, api_Notehead_cross);
    (NoteheadValue_x, api_Notehead_x);
    (NoteheadValue_circleX, api_Notehead_circleX);
    (NoteheadValue_invertedTriangle, api_Notehead_invertedTriangle);
    (NoteheadValue_arrowDown, api_Notehead_arrowDown);
    (NoteheadValue_arrowUp, api_Notehead_arrowUp);
    (NoteheadValue_slashed, api_Notehead_slashed);
    (NoteheadValue_backSlashed, api_Notehead_backSlashed);
    (NoteheadValue_normal, api_Notehead_normal);
    (NoteheadValue_cluster, api_Notehead_cluster);
    (NoteheadValue_circleDot, api_Notehead_circleDot);
    (NoteheadValue_leftTriangle, api_Notehead_leftTriangle);
    (NoteheadValue_rectangle, api_Notehead_rectangle);
    (NoteheadValue_none, api_Notehead_none);
    (NoteheadValue_do_, api_Notehead_do_);
    (NoteheadValue_re, api_Notehead_re);
    (NoteheadValue_mi, api_Notehead_mi);
    (NoteheadValue_fa, api_Notehead_fa);
    (NoteheadValue_la, api_Notehead_la);
    (NoteheadValue_so, api_Notehead_so);
    (NoteheadValue_ti, api_Notehead_ti) ].

Definition noteheadMap : list (NoteheadValue * api_Notehead) := std_map NoteheadValue_value noteheadMap_rows.

(** Converter.cpp:1410-1418: convert( core::NoteheadValue ) *)
Definition noteheadMap_toApi (value : NoteheadValue) : api_Notehead :=
  findApiItem NoteheadValue_value noteheadMap api_Notehead_none value.

(** Converter.cpp:1421-1436: convert( api::Notehead ) *)
Definition noteheadMap_toCore (value : api_Notehead) : NoteheadValue :=
  findCoreItem api_Notehead_value noteheadMap NoteheadValue_none value.

(* the numeric value of a core::BeamValue: Enums.h:193-200 *)
Definition BeamValue_value (v : BeamValue) : Z :=
  match v with
  | BeamValue_begin => 0
  | BeamValue_continue_ => 1
  | BeamValue_end => 2
  | BeamValue_forwardHook => 3
  | BeamValue_backwardHook => 4
  end.

(** Sourcecode/private/mx/impl/Converter.cpp:75-82 *)
Definition beamMap_rows : list (BeamValue * api_Beam) :=
  [ (BeamValue_begin, api_Beam_begin);
    (BeamValue_end, api_Beam_end);
    (BeamValue_continue_, api_Beam_extend);
    (BeamValue_forwardHook, api_Beam_forwardBroken);
    (BeamValue_backwardHook, api_Beam_backwardBroken) ].

Definition beamMap : list (BeamValue * api_Beam) := std_map BeamValue_value beamMap_rows.

(** Converter.cpp:1457-1465: convert( core::BeamValue ) *)
Definition beamMap_toApi (value : BeamValue) : api_Beam :=
  findApiItem BeamValue_value beamMap api_Beam_unspecified value.

(** Converter.cpp:1439-1454: convert( api::Beam ) *)
Definition beamMap_toCore (value : api_Beam) : BeamValue :=
  findCoreItem api_Beam_value beamMap BeamValue_begin value.

(* the numeric value of a core::AccidentalValue: Enums.h:46-82 *)
Definition AccidentalValue_value (v : AccidentalValue) : Z :=
  match v with
  | AccidentalValue_sharp => 0
  | AccidentalValue_natural => 1
  | AccidentalValue_flat => 2
  | AccidentalValue_doubleSharp => 3
  | AccidentalValue_sharpSharp => 4
  | AccidentalValue_flatFlat => 5
  | AccidentalValue_naturalSharp => 6
  | AccidentalValue_naturalFlat => 7
  | AccidentalValue_quarterFlat => 8
  | AccidentalValue_quarterSharp => 9
  | AccidentalValue_threeQuartersFlat => 10
  | AccidentalValue_threeQuartersSharp => 11
  | AccidentalValue_sharpDown => 12
  | AccidentalValue_sharpUp => 13
  | AccidentalValue_naturalDown => 14
  | AccidentalValue_naturalUp => 15
  | AccidentalValue_flatDown => 16
  | AccidentalValue_flatUp => 17
  | AccidentalValue_tripleSharp => 18
  | AccidentalValue_tripleFlat => 19
  | AccidentalValue_slashQuarterSharp => 20
  | AccidentalValue_slashSharp => 21
  | AccidentalValue_slashFlat => 22
  | AccidentalValue_doubleSlashFlat => 23
  | AccidentalValue_sharp1 => 24
  | AccidentalValue_sharp2 => 25
  | AccidentalValue_sharp3 => 26
  | AccidentalValue_sharp5 => 27
  | AccidentalValue_flat1 => 28
  | AccidentalValue_flat2 => 29
  | AccidentalValue_flat3 => 30
  | AccidentalValue_flat4 => 31
  | AccidentalValue_sori => 32
  | AccidentalValue_koron => 33
  end.

(** Sourcecode/private/mx/impl/Converter.cpp:85-120 *)
Definition accidentalMap_rows : list (AccidentalValue * api_Accidental) :=
  [ (AccidentalValue_sharp, api_Accidental_sharp);
    (AccidentalValue_natural, api_Accidental_natural);
    (AccidentalValue_flat, api_Accidental_flat);
    (AccidentalValue_doubleSharp, api_Accidental_doubleSharp);
    (AccidentalValue_flatFlat, api_Accidental_flatFlat);
    (AccidentalValue_naturalSharp, api_Accidental_naturalSharp);
    (AccidentalValue_naturalFlat, api_Accidental_naturalFlat);
    (AccidentalValue_quarterFlat, api_Accidental_quarterFlat);
    (AccidentalValue_quarterSharp, api_Accidental_quarterSharp);
    (AccidentalValue_threeQuartersFlat, api_Accidental_threeQuartersFlat);
    (AccidentalValue_threeQuartersSharp, api_Accidental_threeQuartersSharp);
    (AccidentalValue_sharpDown, api_Accidental_sharpDown);
    (AccidentalValue_sharpUp, api_Accidental_sharpUp);
    (AccidentalValue_naturalDown, api_Accidental_naturalDown);
    (AccidentalValue_naturalUp, api_Accidental_naturalUp);
    (AccidentalValue_flatDown, api_Accidental_flatDown);
    (AccidentalValue_flatUp, api_Accidental_flatUp);
    (AccidentalValue_tripleSharp, api_Accidental_tripleSharp);
    (AccidentalValue_tripleFlat, api_Accidental_tripleFlat);
    (AccidentalValue_slashQuarterSharp, api_Accidental_slashQuarterSharp);
    (AccidentalValue_slashSharp, api_Accidental_slashSharp);
    (AccidentalValue_slashFlat, api_Accidental_slashFlat);
    (AccidentalValue_doubleSlashFlat, api_Accidental_doubleSlashFlat);
    (AccidentalValue_sharp1, api_Accidental_sharp1);
    (AccidentalValue_sharp2, api_Accidental_sharp2);
    (AccidentalValue_sharp3, api_Accidental_sharp3);
    (AccidentalValue_sharp5, api_Accidental_sharp5);
    (AccidentalValue_flat1, api_Accidental_flat1);
    (AccidentalValue_flat2, api_Accidental_flat2);
    (AccidentalValue_flat3, api_Accidental_flat3);
    (AccidentalValue_flat4, api_Accidental_flat4);
    (AccidentalValue_sori, api_Accidental_sori);
    (AccidentalValue_koron, api_Accidental_koron) ].

Definition accidentalMap : list (AccidentalValue * api_Accidental) := std_map AccidentalValue_value accidentalMap_rows.

(** Converter.cpp:1468-1476: convert( core::AccidentalValue ) *)
Definition accidentalMap_toApi (value : AccidentalValue) : api_Accidental :=
  findApiItem AccidentalValue_value accidentalMap api_Accidental_none value.

(** Converter.cpp:1479-1494: convert( api::Accidental ) *)
Definition accidentalMap_toCore (value : api_Accidental) : AccidentalValue :=
  findCoreItem api_Accidental_value accidentalMap AccidentalValue_natural value.

(* the numeric value of a core::ClefSign: Enums.h:302-311 *)
Definition ClefSign_value (v : ClefSign) : Z :=
  match v with
  | ClefSign_g => 0
  | ClefSign_f => 1
  | ClefSign_c => 2
  | ClefSign_percussion => 3
  | ClefSign_tab => 4
  | ClefSign_jianpu => 5
  | ClefSign_none => 6
  end.

(** Sourcecode/private/mx/impl/Converter.cpp:123-132 *)
Definition clefMap_rows : list (ClefSign * api_ClefSymbol) :=
  [ (ClefSign_c, api_ClefSymbol_c);
    (ClefSign_f, api_ClefSymbol_f);
    (ClefSign_g, api_ClefSymbol_g);
    (ClefSign_jianpu, api_ClefSymbol_jianpu);
    (ClefSign_none, api_ClefSymbol_none);
    (ClefSign_percussion, api_ClefSymbol_percussion);
    (ClefSign_tab, api_ClefSymbol_tab) ].

Definition clefMap : list (ClefSign * api_ClefSymbol) := std_map ClefSign_value clefMap_rows.

(** Converter.cpp:1502-1505: convert( core::ClefSign ) *)
Definition clefMap_toApi (value : ClefSign) : api_ClefSymbol :=
  findApiItem ClefSign_value clefMap api_ClefSymbol_none value.

(** Converter.cpp:1496-1499: convert( api::ClefSymbol ) *)
Definition clefMap_toCore (value : api_ClefSymbol) : ClefSign :=
  findCoreItem api_ClefSymbol_value clefMap ClefSign_g value.

(* the numeric value of a core::AboveBelow: Enums.h:22-26 *)
Definition AboveBelow_value (v : AboveBelow) : Z :=
  match v with
  | AboveBelow_above => 0
  | AboveBelow_below => 1
  end.

(** Sourcecode/private/mx/impl/Converter.cpp:135-139 *)
Definition placementMap_rows : list (AboveBelow * api_Placement) :=
  [ (AboveBelow_above, api_Placement_above);
    (AboveBelow_below, api_Placement_below) ].

Definition placementMap : list (AboveBelow * api_Placement) := std_map AboveBelow_value placementMap_rows.

(** Converter.cpp:1508-1511: convert( core::AboveBelow ) *)
Definition placementMap_toApi (value : AboveBelow) : api_Placement :=
  findApiItem AboveBelow_value placementMap api_Placement_unspecified value.

(** Converter.cpp:1514-1517: convert( api::Placement ) *)
Definition placementMap_toCore (value : api_Placement) : AboveBelow :=
  findCoreItem api_Placement_value placementMap AboveBelow_below value.

(* the numeric value of a core::YesNo: Enums.h:2034-2038 *)
Definition YesNo_value (v : YesNo) : Z :=
  match v with
  | YesNo_yes => 0
  | YesNo_no => 1
  end.

(** Sourcecode/private/mx/impl/Converter.cpp:142-146 *)
Definition boolMap_rows : list (YesNo * api_Bool) :=
  [ (YesNo_yes, api_Bool_yes);
    (YesNo_no, api_Bool_no) ].

Definition boolMap : list (YesNo * api_Bool) := std_map YesNo_value boolMap_rows.

(** Converter.cpp:1520-1523: convert( core::YesNo ) *)
Definition boolMap_toApi (value : YesNo) : api_Bool :=
  findApiItem YesNo_value boolMap api_Bool_unspecified value.

(** Converter.cpp:1526-1529: convert( api::Bool ) *)
Definition boolMap_toCore (value : api_Bool) : YesNo :=
  findCoreItem api_Bool_value boolMap YesNo_no value.

(* the numeric value of a core::Valign: Enums.h:1924-1930 *)
Definition Valign_value (v : Valign) : Z :=
  match v with
  | Valign_top => 0
  | Valign_middle => 1
  | Valign_bottom => 2
  | Valign_baseline => 3
  end.

(** Sourcecode/private/mx/impl/Converter.cpp:149-155 *)
Definition valignMap_rows : list (Valign * api_VerticalAlignment) :=
  [ (Valign_baseline, api_VerticalAlignment_baseline);
    (Valign_bottom, api_VerticalAlignment_bottom);
    (Valign_middle, api_VerticalAlignment_middle);
    (Valign_top, api_VerticalAlignment_top) ].

Definition valignMap : list (Valign * api_VerticalAlignment) := std_map Valign_value valignMap_rows.

(** Converter.cpp:1532-1535: convert( core::Valign ) *)
Definition valignMap_toApi (value : Valign) : api_VerticalAlignment :=
  findApiItem Valign_value valignMap api_VerticalAlignment_unspecified value.

(** Converter.cpp:1538-1541: convert( api::VerticalAlignment ) *)
Definition valignMap_toCore (value : api_VerticalAlignment) : Valign :=
  findCoreItem api_VerticalAlignment_value valignMap Valign_baseline value.

(* the numeric value of a core::LeftCenterRight: Enums.h:841-846 *)
Definition LeftCenterRight_value (v : LeftCenterRight) : Z :=
  match v with
  | LeftCenterRight_left => 0
  | LeftCenterRight_center => 1
  | LeftCenterRight_right => 2
  end.

(** Sourcecode/private/mx/impl/Converter.cpp:158-163 *)
Definition halignMap_rows : list (LeftCenterRight * api_HorizontalAlignment) :=
  [ (LeftCenterRight_left, api_HorizontalAlignment_left);
    (LeftCenterRight_center, api_HorizontalAlignment_center);
    (LeftCenterRight_right, api_HorizontalAlignment_right) ].

Definition halignMap : list (LeftCenterRight * api_HorizontalAlignment) := std_map LeftCenterRight_value halignMap_rows.

(** Converter.cpp:1544-1547: convert( core::LeftCenterRight ) *)
Definition halignMap_toApi (value : LeftCenterRight) : api_HorizontalAlignment :=
  findApiItem LeftCenterRight_value halignMap api_HorizontalAlignment_unspecified value.

(** Converter.cpp:1550-1553: convert( api::HorizontalAlignment ) *)
Definition halignMap_toCore (value : api_HorizontalAlignment) : LeftCenterRight :=
  findCoreItem api_HorizontalAlignment_value halignMap LeftCenterRight_left value.

(* the numeric value of a core::CssFontSize: Enums.h:324-333 *)
Definition CssFontSize_value (v : CssFontSize) : Z :=
  match v with
  | CssFontSize_xxSmall => 0
  | CssFontSize_xSmall => 1
  | CssFontSize_small => 2
  | CssFontSize_medium => 3
  | CssFontSize_large => 4
  | CssFontSize_xLarge => 5
  | CssFontSize_xxLarge => 6
  end.

(** Sourcecode/private/mx/impl/Converter.cpp:166-175 *)
Definition cssMap_rows : list (CssFontSize * api_CssSize) :=
  [ (CssFontSize_xxSmall, api_CssSize_xxSmall);
    (CssFontSize_xSmall, api_CssSize_xSmall);
    (CssFontSize_small, api_CssSize_small);
    (CssFontSize_medium, api_CssSize_medium);
    (CssFontSize_large, api_CssSize_large);
    (CssFontSize_xLarge, api_CssSize_xLarge);
    (CssFontSize_xxLarge, api_CssSize_xxLarge) ].

Definition cssMap : list (CssFontSize * api_CssSize) := std_map CssFontSize_value cssMap_rows.

(** Converter.cpp:1562-1565: convert( core::CssFontSize ) *)
Definition cssMap_toApi (value : CssFontSize) : api_CssSize :=
  findApiItem CssFontSize_value cssMap api_CssSize_unspecified value.

(** Converter.cpp:1556-1559: convert( api::CssSize ) *)
Definition cssMap_toCore (value : api_CssSize) : CssFontSize :=
  findCoreItem api_CssSize_value cssMap CssFontSize_medium value.

(** Sourcecode/private/mx/impl/Converter.cpp:178-196 *)
Definition articulationsMap_rows : list (ArticulationsChoice * api_MarkType) :=
  [ (ArticulationsChoice_accent, api_MarkType_accent);
    (ArticulationsChoice_strongAccent, api_MarkType_strongAccent);
    (ArticulationsChoice_staccato, api_MarkType_staccato);
    (ArticulationsChoice_tenuto, api_MarkType_tenuto);
    (ArticulationsChoice_detachedLegato, api_MarkType_detachedLegato);
    (ArticulationsChoice_staccatissimo, api_MarkType_staccatissimo);
    (ArticulationsChoice_spiccato, api_MarkType_spiccato);
    (ArticulationsChoice_scoop, api_MarkType_scoop);
    (ArticulationsChoice_plop, api_MarkType_plop);
    (ArticulationsChoice_doit, api_MarkType_doit);
    (ArticulationsChoice_falloff, api_MarkType_falloff);
    (ArticulationsChoice_breathMark, api_MarkType_breathMark);
    (ArticulationsChoice_caesura, api_MarkType_caesura);
    (ArticulationsChoice_stress, api_MarkType_stress);
    (ArticulationsChoice_unstress, api_MarkType_unstress);
    (ArticulationsChoice_otherArticulation, api_MarkType_otherArticulation) ].

Definition articulationsMap : list (ArticulationsChoice * api_MarkType) := std_map ArticulationsChoice_value articulationsMap_rows.

(** Converter.cpp:1598-1601: convertArticulation( core::ArticulationsChoice::Choice ) *)
Definition articulationsMap_toApi (value : ArticulationsChoice) : api_MarkType :=
  findApiItem ArticulationsChoice_value articulationsMap api_MarkType_unspecified value.

(** Converter.cpp:1592-1595: convertArticulation( api::MarkType ) *)
Definition articulationsMap_toCore (value : api_MarkType) : ArticulationsChoice :=
  findCoreItem api_MarkType_value articulationsMap ArticulationsChoice_otherArticulation value.

(* the numeric value of a core::DynamicsEnum: Enums.h:436-462 *)
Definition DynamicsEnum_value (v : DynamicsEnum) : Z :=
  match v with
  | DynamicsEnum_p => 0
  | DynamicsEnum_pp => 1
  | DynamicsEnum_ppp => 2
  | DynamicsEnum_pppp => 3
  | DynamicsEnum_ppppp => 4
  | DynamicsEnum_pppppp => 5
  | DynamicsEnum_f => 6
  | DynamicsEnum_ff => 7
  | DynamicsEnum_fff => 8
  | DynamicsEnum_ffff => 9
  | DynamicsEnum_fffff => 10
  | DynamicsEnum_ffffff => 11
  | DynamicsEnum_mp => 12
  | DynamicsEnum_mf => 13
  | DynamicsEnum_sf => 14
  | DynamicsEnum_sfp => 15
  | DynamicsEnum_sfpp => 16
  | DynamicsEnum_fp => 17
  | DynamicsEnum_rf => 18
  | DynamicsEnum_rfz => 19
  | DynamicsEnum_sfz => 20
  | DynamicsEnum_sffz => 21
  | DynamicsEnum_fz => 22
  | DynamicsEnum_otherDynamics => 23
  end.

(** Sourcecode/private/mx/impl/Converter.cpp:199-225 *)
Definition dynamicsMap_rows : list (DynamicsEnum * api_MarkType) :=
  [ (DynamicsEnum_p, api_MarkType_p);
    (DynamicsEnum_pp, api_MarkType_pp);
    (DynamicsEnum_ppp, api_MarkType_ppp);
    (DynamicsEnum_pppp, api_MarkType_pppp);
    (DynamicsEnum_ppppp, api_MarkType_ppppp);
    (DynamicsEnum_pppppp, api_MarkType_pppppp);
    (DynamicsEnum_f, api_MarkType_f);
    (DynamicsEnum_ff, api_MarkType_ff);
    (DynamicsEnum_fff, api_MarkType_fff);
    (DynamicsEnum_ffff, api_MarkType_ffff);
    (DynamicsEnum_fffff, api_MarkType_fffff);
    (DynamicsEnum_ffffff, api_MarkType_ffffff);
    (DynamicsEnum_mp, api_MarkType_mp);
    (DynamicsEnum_mf, api_MarkType_mf);
    (DynamicsEnum_sf, api_MarkType_sf);
    (DynamicsEnum_sfp, api_MarkType_sfp);
    (DynamicsEnum_sfpp, api_MarkType_sfpp);
    (DynamicsEnum_fp, api_MarkType_fp);
    (DynamicsEnum_rf, api_MarkType_rf);
    (DynamicsEnum_rfz, api_MarkType_rfz);
    (DynamicsEnum_sfz, api_MarkType_sfz);
    (DynamicsEnum_sffz, api_MarkType_sffz);
    (DynamicsEnum_fz, api_MarkType_fz);
    (DynamicsEnum_otherDynamics, api_MarkType_otherDynamics) ].

Definition dynamicsMap : list (DynamicsEnum * api_MarkType) := std_map DynamicsEnum_value dynamicsMap_rows.

(** Converter.cpp:1631-1634: convertDynamic( core::DynamicsEnum ) *)
Definition dynamicsMap_toApi (value : DynamicsEnum) : api_MarkType :=
  findApiItem DynamicsEnum_value dynamicsMap api_MarkType_unspecified value.

(** Converter.cpp:1625-1628: convertDynamic( api::MarkType ) *)
Definition dynamicsMap_toCore (value : api_MarkType) : DynamicsEnum :=
  findCoreItem api_MarkType_value dynamicsMap DynamicsEnum_otherDynamics value.

(** Sourcecode/private/mx/impl/Converter.cpp:228-243 *)
Definition ornamentsMap_rows : list (OrnamentsChoice * api_MarkType) :=
  [ (OrnamentsChoice_trillMark, api_MarkType_trillMark);
    (OrnamentsChoice_turn, api_MarkType_turn);
    (OrnamentsChoice_delayedTurn, api_MarkType_delayedTurn);
    (OrnamentsChoice_invertedTurn, api_MarkType_invertedTurn);
    (OrnamentsChoice_delayedInvertedTurn, api_MarkType_delayedInvertedTurn);
    (OrnamentsChoice_verticalTurn, api_MarkType_verticalTurn);
    (OrnamentsChoice_shake, api_MarkType_shake);
    (OrnamentsChoice_wavyLine, api_MarkType_wavyLine);
    (OrnamentsChoice_mordent, api_MarkType_mordent);
    (OrnamentsChoice_invertedMordent, api_MarkType_invertedMordent);
    (OrnamentsChoice_schleifer, api_MarkType_schleifer);
    (OrnamentsChoice_tremolo, api_MarkType_tremoloSingleThree);
    (OrnamentsChoice_otherOrnament, api_MarkType_otherOrnament) ].

Definition ornamentsMap : list (OrnamentsChoice * api_MarkType) := std_map OrnamentsChoice_value ornamentsMap_rows.

(** Converter.cpp:1643-1646: convertOrnament( core::OrnamentsChoice::Choice ) *)
Definition ornamentsMap_toApi (value : OrnamentsChoice) : api_MarkType :=
  findApiItem OrnamentsChoice_value ornamentsMap api_MarkType_unspecified value.

(** Converter.cpp:1637-1640: convertOrnament( api::MarkType ) *)
Definition ornamentsMap_toCore (value : api_MarkType) : OrnamentsChoice :=
  findCoreItem api_MarkType_value ornamentsMap OrnamentsChoice_otherOrnament value.

(** Sourcecode/private/mx/impl/Converter.cpp:246-282 *)
Definition accidentalMarkMap_rows : list (AccidentalValue * api_MarkType) :=
  [ (AccidentalValue_sharp, api_MarkType_accidentalMarkSharp);
    (AccidentalValue_natural, api_MarkType_accidentalMarkNatural);
    (AccidentalValue_flat, api_MarkType_accidentalMarkFlat);
    (AccidentalValue_doubleSharp, api_MarkType_accidentalMarkDoubleSharp);
    (AccidentalValue_sharpSharp, api_MarkType_accidentalMarkSharpSharp);
    (AccidentalValue_flatFlat, api_MarkType_accidentalMarkFlatFlat);
    (AccidentalValue_naturalSharp, api_MarkType_accidentalMarkNaturalSharp);
    (AccidentalValue_naturalFlat, api_MarkType_accidentalMarkNaturalFlat);
    (AccidentalValue_quarterFlat, api_MarkType_accidentalMarkQuarterFlat);
    (AccidentalValue_quarterSharp, api_MarkType_accidentalMarkQuarterSharp);
    (AccidentalValue_threeQuartersFlat, api_MarkType_accidentalMarkThreeQuartersFlat);
    (AccidentalValue_threeQuartersSharp, api_MarkType_accidentalMarkThreeQuartersSharp);
    (AccidentalValue_sharpDown, api_MarkType_accidentalMarkSharpDown);
    (AccidentalValue_sharpUp, api_MarkType_accidentalMarkSharpUp);
    (AccidentalValue_naturalDown, api_MarkType_accidentalMarkNaturalDown);
    (AccidentalValue_naturalUp, api_MarkType_accidentalMarkNaturalUp);
    (AccidentalValue_flatDown, api_MarkType_accidentalMarkFlatDown);
    (AccidentalValue_flatUp, api_MarkType_accidentalMarkFlatUp);
    (AccidentalValue_tripleSharp, api_MarkType_accidentalMarkTripleSharp);
    (AccidentalValue_tripleFlat, api_MarkType_accidentalMarkTripleFlat);
    (AccidentalValue_slashQuarterSharp, api_MarkType_accidentalMarkSlashQuarterSharp);
    (AccidentalValue_slashSharp, api_MarkType_accidentalMarkSlashSharp);
    (AccidentalValue_slashFlat, api_MarkType_accidentalMarkSlashFlat);
    (AccidentalValue_doubleSlashFlat, api_MarkType_accidentalMarkDoubleSlashFlat);
    (AccidentalValue_sharp1, api_MarkType_accidentalMarkSharp1);
    (AccidentalValue_sharp2, api_MarkType_accidentalMarkSharp2);
    (AccidentalValue_sharp3, api_MarkType_accidentalMarkSharp3);
    (AccidentalValue_sharp5, api_MarkType_accidentalMarkSharp5);
    (AccidentalValue_flat1, api_MarkType_accidentalMarkFlat1);
    (AccidentalValue_flat2, api_MarkType_accidentalMarkFlat2);
    (AccidentalValue_flat3, api_MarkType_accidentalMarkFlat3);
    (AccidentalValue_flat4, api_MarkType_accidentalMarkFlat4);
    (AccidentalValue_sori, api_MarkType_accidentalMarkSori);
    (AccidentalValue_koron, api_MarkType_accidentalMarkKoron) ].

Definition accidentalMarkMap : list (AccidentalValue * api_MarkType) := std_map AccidentalValue_value accidentalMarkMap_rows.

(** Converter.cpp:1655-1658: convertAccidentalMark( core::AccidentalValue ) *)
Definition accidentalMarkMap_toApi (value : AccidentalValue) : api_MarkType :=
  findApiItem AccidentalValue_value accidentalMarkMap api_MarkType_unspecified value.

(** Converter.cpp:1649-1652: convertAccidentalMark( api::MarkType ) *)
Definition accidentalMarkMap_toCore (value : api_MarkType) : AccidentalValue :=
  findCoreItem api_MarkType_value accidentalMarkMap AccidentalValue_natural value.

(* the numeric value of a core::FontStyle: Enums.h:584-588 *)
Definition FontStyle_value (v : FontStyle) : Z :=
  match v with
  | FontStyle_normal => 0
  | FontStyle_italic => 1
  end.

(** Sourcecode/private/mx/impl/Converter.cpp:285-289 *)
Definition fontStyleMap_rows : list (FontStyle * api_FontStyle) :=
  [ (FontStyle_normal, api_FontStyle_normal);
    (FontStyle_italic, api_FontStyle_italic) ].

Definition fontStyleMap : list (FontStyle * api_FontStyle) := std_map FontStyle_value fontStyleMap_rows.

(** Converter.cpp:1574-1577: convert( core::FontStyle ) *)
Definition fontStyleMap_toApi (value : FontStyle) : api_FontStyle :=
  findApiItem FontStyle_value fontStyleMap api_FontStyle_unspecified value.

(** Converter.cpp:1568-1571: convert( api::FontStyle ) *)
Definition fontStyleMap_toCore (value : api_FontStyle) : FontStyle :=
  findCoreItem api_FontStyle_value fontStyleMap FontStyle_normal value.

(* the numeric value of a core::FontWeight: Enums.h:600-604 *)
Definition FontWeight_value (v : FontWeight) : Z :=
  match v with
  | FontWeight_normal => 0
  | FontWeight_bold => 1
  end.

(** Sourcecode/private/mx/impl/Converter.cpp:292-296 *)
Definition fontWeightMap_rows : list (FontWeight * api_FontWeight) :=
  [ (FontWeight_normal, api_FontWeight_normal);
    (FontWeight_bold, api_FontWeight_bold) ].

Definition fontWeightMap : list (FontWeight * api_FontWeight) := std_map FontWeight_value fontWeightMap_rows.

(** Converter.cpp:1586-1589: convert( core::FontWeight ) *)
Definition fontWeightMap_toApi (value : FontWeight) : api_FontWeight :=
  findApiItem FontWeight_value fontWeightMap api_FontWeight_unspecified value.

(** Converter.cpp:1580-1583: convert( api::FontWeight ) *)
Definition fontWeightMap_toCore (value : api_FontWeight) : FontWeight :=
  findCoreItem api_FontWeight_value fontWeightMap FontWeight_normal value.

(* the numeric value of a core::MeasureNumberingValue: Enums.h:1006-1011 *)
Definition MeasureNumberingValue_value (v : MeasureNumberingValue) : Z :=
  match v with
  | MeasureNumberingValue_none => 0
  | MeasureNumberingValue_measure => 1
  | MeasureNumberingValue_system => 2
  end.

(** Sourcecode/private/mx/impl/Converter.cpp:299-304 *)
Definition measureNumberingMap_rows : list (MeasureNumberingValue * api_MeasureNumbering) :=
  [ (MeasureNumberingValue_measure, api_MeasureNumbering_measure);
    (MeasureNumberingValue_none, api_MeasureNumbering_none);
    (MeasureNumberingValue_system, api_MeasureNumbering_system) ].

Definition measureNumberingMap : list (MeasureNumberingValue * api_MeasureNumbering) := std_map MeasureNumberingValue_value measureNumberingMap_rows.

(** Converter.cpp:1679-1682: convertMeasureNumbering( core::MeasureNumberingValue ) *)
Definition measureNumberingMap_toApi (value : MeasureNumberingValue) : api_MeasureNumbering :=
  findApiItem MeasureNumberingValue_value measureNumberingMap api_MeasureNumbering_unspecified value.

(** Converter.cpp:1673-1676: convertMeasureNumbering( api::MeasureNumbering ) *)
Definition measureNumberingMap_toCore (value : api_MeasureNumbering) : MeasureNumberingValue :=
  findCoreItem api_MeasureNumbering_value measureNumberingMap MeasureNumberingValue_none value.

(** Sourcecode/private/mx/impl/Converter.cpp:307-334 *)
Definition technicalMarkMap_rows : list (TechnicalChoice * api_MarkType) :=
  [ (TechnicalChoice_upBow, api_MarkType_upBow);
    (TechnicalChoice_downBow, api_MarkType_downBow);
    (TechnicalChoice_harmonic, api_MarkType_harmonic);
    (TechnicalChoice_openString, api_MarkType_openString);
    (TechnicalChoice_thumbPosition, api_MarkType_thumbPosition);
    (TechnicalChoice_doubleTongue, api_MarkType_doubleTongue);
    (TechnicalChoice_tripleTongue, api_MarkType_tripleTongue);
    (TechnicalChoice_stopped, api_MarkType_stopped);
    (TechnicalChoice_snapPizzicato, api_MarkType_snapPizzicato);
    (TechnicalChoice_heel, api_MarkType_heel);
    (TechnicalChoice_toe, api_MarkType_toe);
    (TechnicalChoice_fingernails, api_MarkType_unspecified);
    (TechnicalChoice_otherTechnical, api_MarkType_otherTechnical) ].

Definition technicalMarkMap : list (TechnicalChoice * api_MarkType) := std_map TechnicalChoice_value technicalMarkMap_rows.

(** Converter.cpp:1667-1670: convertTechnicalMark( core::TechnicalChoice::Choice ) *)
Definition technicalMarkMap_toApi (value : TechnicalChoice) : api_MarkType :=
  findApiItem TechnicalChoice_value technicalMarkMap api_MarkType_unspecified value.

(** Converter.cpp:1661-1664: convertTechnicalMark( api::MarkType ) *)
Definition technicalMarkMap_toCore (value : api_MarkType) : TechnicalChoice :=
  findCoreItem api_MarkType_value technicalMarkMap TechnicalChoice_otherTechnical value.

(* the numeric value of a core::StemValue: Enums.h:1562-1568 *)
Definition StemValue_value (v : StemValue) : Z :=
  match v with
  | StemValue_down => 0
  | StemValue_up => 1
  | StemValue_double_ => 2
  | StemValue_none => 3
  end.

(** Sourcecode/private/mx/impl/Converter.cpp:337-343 *)
Definition stemMap_rows : list (StemValue * api_Stem) :=
  [ (StemValue_up, api_Stem_up);
    (StemValue_down, api_Stem_down);
    (StemValue_none, api_Stem_none);
    (StemValue_double_, api_Stem_both) ].

Definition stemMap : list (StemValue * api_Stem) := std_map StemValue_value stemMap_rows.

(** Converter.cpp:1691-1694: convert( core::StemValue ) *)
Definition stemMap_toApi (value : StemValue) : api_Stem :=
  findApiItem StemValue_value stemMap api_Stem_unspecified value.

(** Converter.cpp:1685-1688: convert( api::Stem ) *)
Definition stemMap_toCore (value : api_Stem) : StemValue :=
  findCoreItem api_Stem_value stemMap StemValue_up value.

(* the numeric value of a core::LineType: Enums.h:911-917 *)
Definition LineType_value (v : LineType) : Z :=
  match v with
  | LineType_solid => 0
  | LineType_dashed => 1
  | LineType_dotted => 2
  | LineType_wavy => 3
  end.

(** Sourcecode/private/mx/impl/Converter.cpp:346-352 *)
Definition lineTypeMap_rows : list (LineType * api_LineType) :=
  [ (LineType_dashed, api_LineType_dashed);
    (LineType_dotted, api_LineType_dotted);
    (LineType_solid, api_LineType_solid);
    (LineType_wavy, api_LineType_wavy) ].

Definition lineTypeMap : list (LineType * api_LineType) := std_map LineType_value lineTypeMap_rows.

(** Converter.cpp:1703-1706: convert( core::LineType ) *)
Definition lineTypeMap_toApi (value : LineType) : api_LineType :=
  findApiItem LineType_value lineTypeMap api_LineType_unspecified value.

(** Converter.cpp:1697-1700: convert( api::LineType ) *)
Definition lineTypeMap_toCore (value : api_LineType) : LineType :=
  findCoreItem api_LineType_value lineTypeMap LineType_solid value.

(* the numeric value of a core::WedgeType: Enums.h:1963-1969 *)
Definition WedgeType_value (v : WedgeType) : Z :=
  match v with
  | WedgeType_crescendo => 0
  | WedgeType_diminuendo => 1
  | WedgeType_stop => 2
  | WedgeType_continue_ => 3
  end.

(** Sourcecode/private/mx/impl/Converter.cpp:355-359 *)
Definition wedgeMap_rows : list (WedgeType * api_WedgeType) :=
  [ (WedgeType_crescendo, api_WedgeType_crescendo);
    (WedgeType_diminuendo, api_WedgeType_diminuendo) ].

Definition wedgeMap : list (WedgeType * api_WedgeType) := std_map WedgeType_value wedgeMap_rows.

(** Converter.cpp:1715-1718: convert( core::WedgeType ) *)
Definition wedgeMap_toApi (value : WedgeType) : api_WedgeType :=
  findApiItem WedgeType_value wedgeMap api_WedgeType_unspecified value.

(** Converter.cpp:1709-1712: convert( api::WedgeType ) *)
Definition wedgeMap_toCore (value : api_WedgeType) : WedgeType :=
  findCoreItem api_WedgeType_value wedgeMap WedgeType_continue_ value.

(* the numeric value of a core::BarStyleEnum: Enums.h:167-180 *)
Definition BarStyleEnum_value (v : BarStyleEnum) : Z :=
  match v with
  | BarStyleEnum_regular => 0
  | BarStyleEnum_dotted => 1
  | BarStyleEnum_dashed => 2
  | BarStyleEnum_heavy => 3
  | BarStyleEnum_lightLight => 4
  | BarStyleEnum_lightHeavy => 5
  | BarStyleEnum_heavyLight => 6
  | BarStyleEnum_heavyHeavy => 7
  | BarStyleEnum_tick => 8
  | BarStyleEnum_short_ => 9
  | BarStyleEnum_none => 10
  end.

(** Sourcecode/private/mx/impl/Converter.cpp:362-375 *)
Definition barlineMap_rows : list (BarStyleEnum * api_BarlineType) :=
  [ (BarStyleEnum_regular, api_BarlineType_normal);
    (BarStyleEnum_dotted, api_BarlineType_dotted);
    (BarStyleEnum_dashed, api_BarlineType_dashed);
    (BarStyleEnum_heavy, api_BarlineType_heavy);
    (BarStyleEnum_lightLight, api_BarlineType_lightLight);
    (BarStyleEnum_lightHeavy, api_BarlineType_lightHeavy);
    (BarStyleEnum_heavyLight, api_BarlineType_heavyLight);
    (BarStyleEnum_heavyHeavy, api_BarlineType_heavyHeavy);
    (BarStyleEnum_tick, api_BarlineType_unsupported);
    (BarStyleEnum_short_, api_BarlineType_unsupported);
    (BarStyleEnum_none, api_BarlineType_none) ].

Definition barlineMap : list (BarStyleEnum * api_BarlineType) := std_map BarStyleEnum_value barlineMap_rows.

(** Converter.cpp:1734-1737: convert( core::BarStyleEnum ) *)
Definition barlineMap_toApi (value : BarStyleEnum) : api_BarlineType :=
  findApiItem BarStyleEnum_value barlineMap api_BarlineType_unsupported value.

(** Converter.cpp:1722-1725: convert( api::BarlineType ) *)
Definition barlineMap_toCore (value : api_BarlineType) : BarStyleEnum :=
  findCoreItem api_BarlineType_value barlineMap BarStyleEnum_regular value.

(* the numeric value of a core::LineEnd: Enums.h:876-883 *)
Definition LineEnd_value (v : LineEnd) : Z :=
  match v with
  | LineEnd_up => 0
  | LineEnd_down => 1
  | LineEnd_both => 2
  | LineEnd_arrow => 3
  | LineEnd_none => 4
  end.

(** Sourcecode/private/mx/impl/Converter.cpp:378-385 *)
Definition lineStopMap_rows : list (LineEnd * api_LineHook) :=
  [ (LineEnd_arrow, api_LineHook_arrow);
    (LineEnd_both, api_LineHook_both);
    (LineEnd_down, api_LineHook_down);
    (LineEnd_up, api_LineHook_up);
    (LineEnd_none, api_LineHook_none) ].

Definition lineStopMap : list (LineEnd * api_LineHook) := std_map LineEnd_value lineStopMap_rows.

(** Converter.cpp:1758-1761: convert( core::LineEnd ) *)
Definition lineStopMap_toApi (value : LineEnd) : api_LineHook :=
  findApiItem LineEnd_value lineStopMap api_LineHook_unspecified value.

(** Converter.cpp:1752-1755: convert( api::LineHook ) *)
Definition lineStopMap_toCore (value : api_LineHook) : LineEnd :=
  findCoreItem api_LineHook_value lineStopMap LineEnd_none value.

(* the numeric value of a core::GroupSymbolValue: Enums.h:649-656 *)
Definition GroupSymbolValue_value (v : GroupSymbolValue) : Z :=
  match v with
  | GroupSymbolValue_none => 0
  | GroupSymbolValue_brace => 1
  | GroupSymbolValue_line => 2
  | GroupSymbolValue_bracket => 3
  | GroupSymbolValue_square => 4
  end.

(** Sourcecode/private/mx/impl/Converter.cpp:388-395 *)
Definition bracketMap_rows : list (GroupSymbolValue * api_BracketType) :=
  [ (GroupSymbolValue_brace, api_BracketType_brace);
    (GroupSymbolValue_bracket, api_BracketType_bracket);
    (GroupSymbolValue_line, api_BracketType_line);
    (GroupSymbolValue_none, api_BracketType_none);
    (GroupSymbolValue_square, api_BracketType_square) ].

Definition bracketMap : list (GroupSymbolValue * api_BracketType) := std_map GroupSymbolValue_value bracketMap_rows.

(** Converter.cpp:1770-1773: convert( core::GroupSymbolValue ) *)
Definition bracketMap_toApi (value : GroupSymbolValue) : api_BracketType :=
  findApiItem GroupSymbolValue_value bracketMap api_BracketType_unspecified value.

(** Converter.cpp:1764-1767: convert( api::BracketType ) *)
Definition bracketMap_toCore (value : api_BracketType) : GroupSymbolValue :=
  findCoreItem api_BracketType_value bracketMap GroupSymbolValue_none value.

(* the numeric value of a core::RightLeftMiddle: Enums.h:1342-1347 *)
Definition RightLeftMiddle_value (v : RightLeftMiddle) : Z :=
  match v with
  | RightLeftMiddle_right => 0
  | RightLeftMiddle_left => 1
  | RightLeftMiddle_middle => 2
  end.

(** Sourcecode/private/mx/impl/Converter.cpp:398-403 *)
Definition barlinePlacementMap_rows : list (RightLeftMiddle * api_HorizontalAlignment) :=
  [ (RightLeftMiddle_right, api_HorizontalAlignment_right);
    (RightLeftMiddle_left, api_HorizontalAlignment_left);
    (RightLeftMiddle_middle, api_HorizontalAlignment_center) ].

Definition barlinePlacementMap : list (RightLeftMiddle * api_HorizontalAlignment) := std_map RightLeftMiddle_value barlinePlacementMap_rows.

(** Converter.cpp:1746-1749: convertBarlinePlacement( core::RightLeftMiddle ) *)
Definition barlinePlacementMap_toApi (value : RightLeftMiddle) : api_HorizontalAlignment :=
  findApiItem RightLeftMiddle_value barlinePlacementMap api_HorizontalAlignment_unspecified value.

(** Converter.cpp:1740-1743: convertBarlinePlacement( api::HorizontalAlignment ) *)
Definition barlinePlacementMap_toCore (value : api_HorizontalAlignment) : RightLeftMiddle :=
  findCoreItem api_HorizontalAlignment_value barlinePlacementMap RightLeftMiddle_right value.

(* the numeric value of a core::StartStopDiscontinue: Enums.h:1527-1532 *)
Definition StartStopDiscontinue_value (v : StartStopDiscontinue) : Z :=
  match v with
  | StartStopDiscontinue_start => 0
  | StartStopDiscontinue_stop => 1
  | StartStopDiscontinue_discontinue => 2
  end.

(** Sourcecode/private/mx/impl/Converter.cpp:406-411 *)
Definition endingMap_rows : list (StartStopDiscontinue * api_EndingType) :=
  [ (StartStopDiscontinue_start, api_EndingType_start);
    (StartStopDiscontinue_stop, api_EndingType_stop);
    (StartStopDiscontinue_discontinue, api_EndingType_discontinue) ].

Definition endingMap : list (StartStopDiscontinue * api_EndingType) := std_map StartStopDiscontinue_value endingMap_rows.

(** Converter.cpp:1728-1731: convert( api::EndingType ) *)
Definition endingMap_toCore (value : api_EndingType) : StartStopDiscontinue :=
  findCoreItem api_EndingType_value endingMap StartStopDiscontinue_start value.

(* the numeric value of a core::FermataShape: Enums.h:566-572 *)
Definition FermataShape_value (v : FermataShape) : Z :=
  match v with
  | FermataShape_normal => 0
  | FermataShape_angled => 1
  | FermataShape_square => 2
  | FermataShape_emptystring => 3
  end.

(** Sourcecode/private/mx/impl/Converter.cpp:414-420 *)
Definition fermataMap_rows : list (FermataShape * api_MarkType) :=
  [ (FermataShape_normal, api_MarkType_fermataNormal);
    (FermataShape_angled, api_MarkType_fermataAngled);
    (FermataShape_square, api_MarkType_fermataSquare);
    (FermataShape_emptystring, api_MarkType_fermata) ].

Definition fermataMap : list (FermataShape * api_MarkType) := std_map FermataShape_value fermataMap_rows.

(** Converter.cpp:1782-1785: convertFermata( core::FermataShape ) *)
Definition fermataMap_toApi (value : FermataShape) : api_MarkType :=
  findApiItem FermataShape_value fermataMap api_MarkType_unspecified value.

(** Converter.cpp:1776-1779: convertFermata( api::MarkType ) *)
Definition fermataMap_toCore (value : api_MarkType) : FermataShape :=
  findCoreItem api_MarkType_value fermataMap FermataShape_emptystring value.

(* the numeric value of a core::KindValue: Enums.h:793-828 *)
Definition KindValue_value (v : KindValue) : Z :=
  match v with
  | KindValue_major => 0
  | KindValue_minor => 1
  | KindValue_augmented => 2
  | KindValue_diminished => 3
  | KindValue_dominant => 4
  | KindValue_majorSeventh => 5
  | KindValue_minorSeventh => 6
  | KindValue_diminishedSeventh => 7
  | KindValue_augmentedSeventh => 8
  | KindValue_halfDiminished => 9
  | KindValue_majorMinor => 10
  | KindValue_majorSixth => 11
  | KindValue_minorSixth => 12
  | KindValue_dominantNinth => 13
  | KindValue_majorNinth => 14
  | KindValue_minorNinth => 15
  | KindValue_dominant11th => 16
  | KindValue_major11th => 17
  | KindValue_minor11th => 18
  | KindValue_dominant13th => 19
  | KindValue_major13th => 20
  | KindValue_minor13th => 21
  | KindValue_suspendedSecond => 22
  | KindValue_suspendedFourth => 23
  | KindValue_neapolitan => 24
  | KindValue_italian => 25
  | KindValue_french => 26
  | KindValue_german => 27
  | KindValue_pedal => 28
  | KindValue_power => 29
  | KindValue_tristan => 30
  | KindValue_other => 31
  | KindValue_none => 32
  end.

(** Sourcecode/private/mx/impl/Converter.cpp:1314-1349 *)
Definition kindMap_rows : list (KindValue * api_ChordKind) :=
  [ (KindValue_major, api_ChordKind_major);
    (KindValue_minor, api_ChordKind_minor);
    (KindValue_augmented, api_ChordKind_augmented);
    (KindValue_diminished, api_ChordKind_diminished);
    (KindValue_dominant, api_ChordKind_dominant);
    (KindValue_majorSeventh, api_ChordKind_majorSeventh);
    (KindValue_minorSeventh, api_ChordKind_minorSeventh);
    (KindValue_diminishedSeventh, api_ChordKind_diminishedSeventh);
    (KindValue_augmentedSeventh, api_ChordKind_augmentedSeventh);
    (KindValue_halfDiminished, api_ChordKind_halfDiminished);
    (KindValue_majorMinor, api_ChordKind_majorMinor);
    (KindValue_majorSixth, api_ChordKind_majorSixth);
    (KindValue_minorSixth, api_ChordKind_minorSixth);
    (KindValue_dominantNinth, api_ChordKind_dominantNinth);
    (KindValue_majorNinth, api_ChordKind_majorNinth);
    (KindValue_minorNinth, api_ChordKind_minorNinth);
    (KindValue_dominant11th, api_ChordKind_dominant11Th);
    (KindValue_major11th, api_ChordKind_major11Th);
    (KindValue_minor11th, api_ChordKind_minor11Th);
    (KindValue_dominant13th, api_ChordKind_dominant13Th);
    (KindValue_major13th, api_ChordKind_major13Th);
    (KindValue_minor13th, api_ChordKind_minor13Th);
    (KindValue_suspendedSecond, api_ChordKind_suspendedSecond);
    (KindValue_suspendedFourth, api_ChordKind_suspendedFourth);
    (KindValue_neapolitan, api_ChordKind_neapolitan);
    (KindValue_italian, api_ChordKind_italian);
    (KindValue_french, api_ChordKind_french);
    (KindValue_german, api_ChordKind_german);
    (KindValue_pedal, api_ChordKind_pedal);
    (KindValue_power, api_ChordKind_power);
    (KindValue_tristan, api_ChordKind_tristan);
    (KindValue_other, api_ChordKind_other);
    (KindValue_none, api_ChordKind_none) ].

Definition kindMap : list (KindValue * api_ChordKind) := std_map KindValue_value kindMap_rows.

(** Converter.cpp:1806-1809: convert( core::KindValue ) *)
Definition kindMap_toApi (value : KindValue) : api_ChordKind :=
  findApiItem KindValue_value kindMap api_ChordKind_unspecified value.

(** Converter.cpp:1800-1803: convert( api::ChordKind ) *)
Definition kindMap_toCore (value : api_ChordKind) : KindValue :=
  findCoreItem api_ChordKind_value kindMap KindValue_none value.
