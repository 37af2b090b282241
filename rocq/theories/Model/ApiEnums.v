(* The enumerations of the public API (include/mx/api) that impl/Converter
   translates, and the three Choice enumerations of core/elements.
   [X_value] is the numeric value of an enumerator, [X_name] its identifier. *)
From Coq Require Import Ascii String List ZArith.
From Verif Require Import Model.Text Model.EnumLookup.
Import ListNotations.
Open Scope Z_scope.

(** Sourcecode/include/mx/api/PitchData.h:13-23 *)
Inductive api_Step : Set :=
  | api_Step_c | api_Step_d | api_Step_e | api_Step_f | api_Step_g
  | api_Step_a | api_Step_b | api_Step_unspecified.

Definition api_Step_members : list api_Step :=
  [ api_Step_c; api_Step_d; api_Step_e; api_Step_f;
    api_Step_g; api_Step_a; api_Step_b; api_Step_unspecified ].

Definition api_Step_value (v : api_Step) : Z :=
  match v with
  | api_Step_c => 0
  | api_Step_d => 1
  | api_Step_e => 2
  | api_Step_f => 3
  | api_Step_g => 4
  | api_Step_a => 5
  | api_Step_b => 6
  | api_Step_unspecified => -1
  end.

Definition api_Step_name (v : api_Step) : str :=
  match v with
  | api_Step_c => lit "c"
  | api_Step_d => lit "d"
  | api_Step_e => lit "e"
  | api_Step_f => lit "f"
  | api_Step_g => lit "g"
  | api_Step_a => lit "a"
  | api_Step_b => lit "b"
  | api_Step_unspecified => lit "unspecified"
  end.

(** Sourcecode/include/mx/api/DurationData.h:16-33 *)
Inductive api_DurationName : Set :=
  | api_DurationName_unspecified | api_DurationName_maxima | api_DurationName_longa | api_DurationName_breve | api_DurationName_whole
  | api_DurationName_half | api_DurationName_quarter | api_DurationName_eighth | api_DurationName_dur16th | api_DurationName_dur32nd
  | api_DurationName_dur64th | api_DurationName_dur128th | api_DurationName_dur256th | api_DurationName_dur512th | api_DurationName_dur1024th.

Definition api_DurationName_members : list api_DurationName :=
  [ api_DurationName_unspecified; api_DurationName_maxima; api_DurationName_longa; api_DurationName_breve;
    api_DurationName_whole; api_DurationName_half; api_DurationName_quarter; api_DurationName_eighth;
    api_DurationName_dur16th; api_DurationName_dur32nd; api_DurationName_dur64th; api_DurationName_dur128th;
    api_DurationName_dur256th; api_DurationName_dur512th; api_DurationName_dur1024th ].

Definition api_DurationName_value (v : api_DurationName) : Z :=
  match v with
  | api_DurationName_unspecified => 0
  | api_DurationName_maxima => 1
  | api_DurationName_longa => 2
  | api_DurationName_breve => 3
  | api_DurationName_whole => 4
  | api_DurationName_half => 5
  | api_DurationName_quarter => 6
  | api_DurationName_eighth => 7
  | api_DurationName_dur16th => 8
  | api_DurationName_dur32nd => 9
  | api_DurationName_dur64th => 10
  | api_DurationName_dur128th => 11
  | api_DurationName_dur256th => 12
  | api_DurationName_dur512th => 13
  | api_DurationName_dur1024th => 14
  end.

Definition api_DurationName_name (v : api_DurationName) : str :=
  match v with
  | api_DurationName_unspecified => lit "unspecified"
  | api_DurationName_maxima => lit "maxima"
  | api_DurationName_longa => lit "longa"
  | api_DurationName_breve => lit "breve"
  | api_DurationName_whole => lit "whole"
  | api_DurationName_half => lit "half"
  | api_DurationName_quarter => lit "quarter"
  | api_DurationName_eighth => lit "eighth"
  | api_DurationName_dur16th => lit "dur16th"
  | api_DurationName_dur32nd => lit "dur32nd"
  | api_DurationName_dur64th => lit "dur64th"
  | api_DurationName_dur128th => lit "dur128th"
  | api_DurationName_dur256th => lit "dur256th"
  | api_DurationName_dur512th => lit "dur512th"
  | api_DurationName_dur1024th => lit "dur1024th"
  end.

(** Sourcecode/include/mx/api/NoteData.h:27-55 *)
Inductive api_Notehead : Set :=
  | api_Notehead_slash | api_Notehead_triangle | api_Notehead_diamond | api_Notehead_square | api_Notehead_cross
  | api_Notehead_x | api_Notehead_circleX | api_Notehead_invertedTriangle | api_Notehead_arrowDown | api_Notehead_arrowUp
  | api_Notehead_slashed | api_Notehead_backSlashed | api_Notehead_normal | api_Notehead_cluster | api_Notehead_circleDot
  | api_Notehead_leftTriangle | api_Notehead_rectangle | api_Notehead_none | api_Notehead_do_ | api_Notehead_re
  | api_Notehead_mi | api_Notehead_fa | api_Notehead_faUp | api_Notehead_so | api_Notehead_la
  | api_Notehead_ti.

Definition api_Notehead_members : list api_Notehead :=
  [ api_Notehead_slash; api_Notehead_triangle; api_Notehead_diamond; api_Notehead_square;
    api_Notehead_cross; api_Notehead_x; api_Notehead_circleX; api_Notehead_invertedTriangle;
    api_Notehead_arrowDown; api_Notehead_arrowUp; api_Notehead_slashed; api_Notehead_backSlashed;
    api_Notehead_normal; api_Notehead_cluster; api_Notehead_circleDot; api_Notehead_leftTriangle;
    api_Notehead_rectangle; api_Notehead_none; api_Notehead_do_; api_Notehead_re;
    api_Notehead_mi; api_Notehead_fa; api_Notehead_faUp; api_Notehead_so;
    api_Notehead_la; api_Notehead_ti ].

Definition api_Notehead_value (v : api_Notehead) : Z :=
  match v with
  | api_Notehead_slash => 0
  | api_Notehead_triangle => 1
  | api_Notehead_diamond => 2
  | api_Notehead_square => 3
  | api_Notehead_cross => 4
  | api_Notehead_x => 5
  | api_Notehead_circleX => 6
  | api_Notehead_invertedTriangle => 7
  | api_Notehead_arrowDown => 8
  | api_Notehead_arrowUp => 9
  | api_Notehead_slashed => 10
  | api_Notehead_backSlashed => 11
  | api_Notehead_normal => 12
  | api_Notehead_cluster => 13
  | api_Notehead_circleDot => 14
  | api_Notehead_leftTriangle => 15
  | api_Notehead_rectangle => 16
  | api_Notehead_none => 17
  | api_Notehead_do_ => 18
  | api_Notehead_re => 19
  | api_Notehead_mi => 20
  | api_Notehead_fa => 21
  | api_Notehead_faUp => 22
  | api_Notehead_so => 23
  | api_Notehead_la => 24
  | api_Notehead_ti => 25
  end.

Definition api_Notehead_name (v : api_Notehead) : str :=
  match v with
  | api_Notehead_slash => lit "slash"
  | api_Notehead_triangle => lit "triangle"
  | api_Notehead_diamond => lit "diamond"
  | api_Notehead_square => lit "square"
  | api_Notehead_cross => lit "cross"
  | api_Notehead_x => lit "x"
  | api_Notehead_circleX => lit "circleX"
  | api_Notehead_invertedTriangle => lit "invertedTriangle"
  | api_Notehead_arrowDown => lit "arrowDown"
  | api_Notehead_arrowUp => lit "arrowUp"
  | api_Notehead_slashed => lit "slashed"
  | api_Notehead_backSlashed => lit "backSlashed"
  | api_Notehead_normal => lit "normal"
  | api_Notehead_cluster => lit "cluster"
  | api_Notehead_circleDot => lit "circleDot"
  | api_Notehead_leftTriangle => lit "leftTriangle"
  | api_Notehead_rectangle => lit "rectangle"
  | api_Notehead_none => lit "none"
  | api_Notehead_do_ => lit "do_"
  | api_Notehead_re => lit "re"
  | api_Notehead_mi => lit "mi"
  | api_Notehead_fa => lit "fa"
  | api_Notehead_faUp => lit "faUp"
  | api_Notehead_so => lit "so"
  | api_Notehead_la => lit "la"
  | api_Notehead_ti => lit "ti"
  end.

(** Sourcecode/include/mx/api/NoteData.h:57-65 *)
Inductive api_Beam : Set :=
  | api_Beam_unspecified | api_Beam_begin | api_Beam_end | api_Beam_extend | api_Beam_forwardBroken
  | api_Beam_backwardBroken.

Definition api_Beam_members : list api_Beam :=
  [ api_Beam_unspecified; api_Beam_begin; api_Beam_end; api_Beam_extend;
    api_Beam_forwardBroken; api_Beam_backwardBroken ].

Definition api_Beam_value (v : api_Beam) : Z :=
  match v with
  | api_Beam_unspecified => 0
  | api_Beam_begin => 1
  | api_Beam_end => 2
  | api_Beam_extend => 3
  | api_Beam_forwardBroken => 4
  | api_Beam_backwardBroken => 5
  end.

Definition api_Beam_name (v : api_Beam) : str :=
  match v with
  | api_Beam_unspecified => lit "unspecified"
  | api_Beam_begin => lit "begin"
  | api_Beam_end => lit "end"
  | api_Beam_extend => lit "extend"
  | api_Beam_forwardBroken => lit "forwardBroken"
  | api_Beam_backwardBroken => lit "backwardBroken"
  end.

(** Sourcecode/include/mx/api/PitchData.h:25-65 *)
Inductive api_Accidental : Set :=
  | api_Accidental_none | api_Accidental_sharp | api_Accidental_natural | api_Accidental_flat | api_Accidental_doubleSharp
  | api_Accidental_sharpSharp | api_Accidental_flatFlat | api_Accidental_naturalSharp | api_Accidental_naturalFlat | api_Accidental_quarterFlat
  | api_Accidental_quarterSharp | api_Accidental_threeQuartersFlat | api_Accidental_threeQuartersSharp | api_Accidental_sharpDown | api_Accidental_sharpUp
  | api_Accidental_naturalDown | api_Accidental_naturalUp | api_Accidental_flatDown | api_Accidental_flatUp | api_Accidental_tripleSharp
  | api_Accidental_tripleFlat | api_Accidental_slashQuarterSharp | api_Accidental_slashSharp | api_Accidental_slashFlat | api_Accidental_doubleSlashFlat
  | api_Accidental_sharp1 | api_Accidental_sharp2 | api_Accidental_sharp3 | api_Accidental_sharp5 | api_Accidental_flat1
  | api_Accidental_flat2 | api_Accidental_flat3 | api_Accidental_flat4 | api_Accidental_sori | api_Accidental_koron.

Definition api_Accidental_members : list api_Accidental :=
  [ api_Accidental_none; api_Accidental_sharp; api_Accidental_natural; api_Accidental_flat;
    api_Accidental_doubleSharp; api_Accidental_sharpSharp; api_Accidental_flatFlat; api_Accidental_naturalSharp;
    api_Accidental_naturalFlat; api_Accidental_quarterFlat; api_Accidental_quarterSharp; api_Accidental_threeQuartersFlat;
    api_Accidental_threeQuartersSharp; api_Accidental_sharpDown; api_Accidental_sharpUp; api_Accidental_naturalDown;
    api_Accidental_naturalUp; api_Accidental_flatDown; api_Accidental_flatUp; api_Accidental_tripleSharp;
    api_Accidental_tripleFlat; api_Accidental_slashQuarterSharp; api_Accidental_slashSharp; api_Accidental_slashFlat;
    api_Accidental_doubleSlashFlat; api_Accidental_sharp1; api_Accidental_sharp2; api_Accidental_sharp3;
    api_Accidental_sharp5; api_Accidental_flat1; api_Accidental_flat2; api_Accidental_flat3;
    api_Accidental_flat4; api_Accidental_sori; api_Accidental_koron ].

Definition api_Accidental_value (v : api_Accidental) : Z :=
  match v with
  | api_Accidental_none => 0
  | api_Accidental_sharp => 1
  | api_Accidental_natural => 2
  | api_Accidental_flat => 3
  | api_Accidental_doubleSharp => 4
  | api_Accidental_sharpSharp => 5
  | api_Accidental_flatFlat => 6
  | api_Accidental_naturalSharp => 7
  | api_Accidental_naturalFlat => 8
  | api_Accidental_quarterFlat => 9
  | api_Accidental_quarterSharp => 10
  | api_Accidental_threeQuartersFlat => 11
  | api_Accidental_threeQuartersSharp => 12
  | api_Accidental_sharpDown => 13
  | api_Accidental_sharpUp => 14
  | api_Accidental_naturalDown => 15
  | api_Accidental_naturalUp => 16
  | api_Accidental_flatDown => 17
  | api_Accidental_flatUp => 18
  | api_Accidental_tripleSharp => 19
  | api_Accidental_tripleFlat => 20
  | api_Accidental_slashQuarterSharp => 21
  | api_Accidental_slashSharp => 22
  | api_Accidental_slashFlat => 23
  | api_Accidental_doubleSlashFlat => 24
  | api_Accidental_sharp1 => 25
  | api_Accidental_sharp2 => 26
  | api_Accidental_sharp3 => 27
  | api_Accidental_sharp5 => 28
  | api_Accidental_flat1 => 29
  | api_Accidental_flat2 => 30
  | api_Accidental_flat3 => 31
  | api_Accidental_flat4 => 32
  | api_Accidental_sori => 33
  | api_Accidental_koron => 34
  end.

Definition api_Accidental_name (v : api_Accidental) : str :=
  match v with
  | api_Accidental_none => lit "none"
  | api_Accidental_sharp => lit "sharp"
  | api_Accidental_natural => lit "natural"
  | api_Accidental_flat => lit "flat"
  | api_Accidental_doubleSharp => lit "doubleSharp"
  | api_Accidental_sharpSharp => lit "sharpSharp"
  | api_Accidental_flatFlat => lit "flatFlat"
  | api_Accidental_naturalSharp => lit "naturalSharp"
  | api_Accidental_naturalFlat => lit "naturalFlat"
  | api_Accidental_quarterFlat => lit "quarterFlat"
  | api_Accidental_quarterSharp => lit "quarterSharp"
  | api_Accidental_threeQuartersFlat => lit "threeQuartersFlat"
  | api_Accidental_threeQuartersSharp => lit "threeQuartersSharp"
  | api_Accidental_sharpDown => lit "sharpDown"
  | api_Accidental_sharpUp => lit "sharpUp"
  | api_Accidental_naturalDown => lit "naturalDown"
  | api_Accidental_naturalUp => lit "naturalUp"
  | api_Accidental_flatDown => lit "flatDown"
  | api_Accidental_flatUp => lit "flatUp"
  | api_Accidental_tripleSharp => lit "tripleSharp"
  | api_Accidental_tripleFlat => lit "tripleFlat"
  | api_Accidental_slashQuarterSharp => lit "slashQuarterSharp"
  | api_Accidental_slashSharp => lit "slashSharp"
  | api_Accidental_slashFlat => lit "slashFlat"
  | api_Accidental_doubleSlashFlat => lit "doubleSlashFlat"
  | api_Accidental_sharp1 => lit "sharp1"
  | api_Accidental_sharp2 => lit "sharp2"
  | api_Accidental_sharp3 => lit "sharp3"
  | api_Accidental_sharp5 => lit "sharp5"
  | api_Accidental_flat1 => lit "flat1"
  | api_Accidental_flat2 => lit "flat2"
  | api_Accidental_flat3 => lit "flat3"
  | api_Accidental_flat4 => lit "flat4"
  | api_Accidental_sori => lit "sori"
  | api_Accidental_koron => lit "koron"
  end.

(** Sourcecode/include/mx/api/ClefData.h:13-22 *)
Inductive api_ClefSymbol : Set :=
  | api_ClefSymbol_none | api_ClefSymbol_g | api_ClefSymbol_f | api_ClefSymbol_c | api_ClefSymbol_percussion
  | api_ClefSymbol_tab | api_ClefSymbol_jianpu.

Definition api_ClefSymbol_members : list api_ClefSymbol :=
  [ api_ClefSymbol_none; api_ClefSymbol_g; api_ClefSymbol_f; api_ClefSymbol_c;
    api_ClefSymbol_percussion; api_ClefSymbol_tab; api_ClefSymbol_jianpu ].

Definition api_ClefSymbol_value (v : api_ClefSymbol) : Z :=
  match v with
  | api_ClefSymbol_none => 0
  | api_ClefSymbol_g => 1
  | api_ClefSymbol_f => 2
  | api_ClefSymbol_c => 3
  | api_ClefSymbol_percussion => 4
  | api_ClefSymbol_tab => 5
  | api_ClefSymbol_jianpu => 6
  end.

Definition api_ClefSymbol_name (v : api_ClefSymbol) : str :=
  match v with
  | api_ClefSymbol_none => lit "none"
  | api_ClefSymbol_g => lit "g"
  | api_ClefSymbol_f => lit "f"
  | api_ClefSymbol_c => lit "c"
  | api_ClefSymbol_percussion => lit "percussion"
  | api_ClefSymbol_tab => lit "tab"
  | api_ClefSymbol_jianpu => lit "jianpu"
  end.

(** Sourcecode/include/mx/api/ApiCommon.h:38-43 *)
Inductive api_Placement : Set :=
  | api_Placement_unspecified | api_Placement_above | api_Placement_below.

Definition api_Placement_members : list api_Placement :=
  [ api_Placement_unspecified; api_Placement_above; api_Placement_below ].

Definition api_Placement_value (v : api_Placement) : Z :=
  match v with
  | api_Placement_unspecified => 0
  | api_Placement_above => 1
  | api_Placement_below => 2
  end.

Definition api_Placement_name (v : api_Placement) : str :=
  match v with
  | api_Placement_unspecified => lit "unspecified"
  | api_Placement_above => lit "above"
  | api_Placement_below => lit "below"
  end.

(** Sourcecode/include/mx/api/ApiCommon.h:27-32 *)
Inductive api_Bool : Set :=
  | api_Bool_unspecified | api_Bool_yes | api_Bool_no.

Definition api_Bool_members : list api_Bool :=
  [ api_Bool_unspecified; api_Bool_yes; api_Bool_no ].

Definition api_Bool_value (v : api_Bool) : Z :=
  match v with
  | api_Bool_unspecified => 0
  | api_Bool_yes => 1
  | api_Bool_no => 2
  end.

Definition api_Bool_name (v : api_Bool) : str :=
  match v with
  | api_Bool_unspecified => lit "unspecified"
  | api_Bool_yes => lit "yes"
  | api_Bool_no => lit "no"
  end.

(** Sourcecode/include/mx/api/PositionData.h:77-84 *)
Inductive api_VerticalAlignment : Set :=
  | api_VerticalAlignment_unspecified | api_VerticalAlignment_top | api_VerticalAlignment_middle | api_VerticalAlignment_bottom | api_VerticalAlignment_baseline.

Definition api_VerticalAlignment_members : list api_VerticalAlignment :=
  [ api_VerticalAlignment_unspecified; api_VerticalAlignment_top; api_VerticalAlignment_middle; api_VerticalAlignment_bottom;
    api_VerticalAlignment_baseline ].

Definition api_VerticalAlignment_value (v : api_VerticalAlignment) : Z :=
  match v with
  | api_VerticalAlignment_unspecified => 0
  | api_VerticalAlignment_top => 1
  | api_VerticalAlignment_middle => 2
  | api_VerticalAlignment_bottom => 3
  | api_VerticalAlignment_baseline => 4
  end.

Definition api_VerticalAlignment_name (v : api_VerticalAlignment) : str :=
  match v with
  | api_VerticalAlignment_unspecified => lit "unspecified"
  | api_VerticalAlignment_top => lit "top"
  | api_VerticalAlignment_middle => lit "middle"
  | api_VerticalAlignment_bottom => lit "bottom"
  | api_VerticalAlignment_baseline => lit "baseline"
  end.

(** Sourcecode/include/mx/api/PositionData.h:86-92 *)
Inductive api_HorizontalAlignment : Set :=
  | api_HorizontalAlignment_unspecified | api_HorizontalAlignment_left | api_HorizontalAlignment_center | api_HorizontalAlignment_right.

Definition api_HorizontalAlignment_members : list api_HorizontalAlignment :=
  [ api_HorizontalAlignment_unspecified; api_HorizontalAlignment_left; api_HorizontalAlignment_center; api_HorizontalAlignment_right ].

Definition api_HorizontalAlignment_value (v : api_HorizontalAlignment) : Z :=
  match v with
  | api_HorizontalAlignment_unspecified => 0
  | api_HorizontalAlignment_left => 1
  | api_HorizontalAlignment_center => 2
  | api_HorizontalAlignment_right => 3
  end.

Definition api_HorizontalAlignment_name (v : api_HorizontalAlignment) : str :=
  match v with
  | api_HorizontalAlignment_unspecified => lit "unspecified"
  | api_HorizontalAlignment_left => lit "left"
  | api_HorizontalAlignment_center => lit "center"
  | api_HorizontalAlignment_right => lit "right"
  end.

(** Sourcecode/include/mx/api/FontData.h:27-37 *)
Inductive api_CssSize : Set :=
  | api_CssSize_unspecified | api_CssSize_xxSmall | api_CssSize_xSmall | api_CssSize_small | api_CssSize_medium
  | api_CssSize_large | api_CssSize_xLarge | api_CssSize_xxLarge.

Definition api_CssSize_members : list api_CssSize :=
  [ api_CssSize_unspecified; api_CssSize_xxSmall; api_CssSize_xSmall; api_CssSize_small;
    api_CssSize_medium; api_CssSize_large; api_CssSize_xLarge; api_CssSize_xxLarge ].

Definition api_CssSize_value (v : api_CssSize) : Z :=
  match v with
  | api_CssSize_unspecified => 0
  | api_CssSize_xxSmall => 1
  | api_CssSize_xSmall => 2
  | api_CssSize_small => 3
  | api_CssSize_medium => 4
  | api_CssSize_large => 5
  | api_CssSize_xLarge => 6
  | api_CssSize_xxLarge => 7
  end.

Definition api_CssSize_name (v : api_CssSize) : str :=
  match v with
  | api_CssSize_unspecified => lit "unspecified"
  | api_CssSize_xxSmall => lit "xxSmall"
  | api_CssSize_xSmall => lit "xSmall"
  | api_CssSize_small => lit "small"
  | api_CssSize_medium => lit "medium"
  | api_CssSize_large => lit "large"
  | api_CssSize_xLarge => lit "xLarge"
  | api_CssSize_xxLarge => lit "xxLarge"
  end.

(** Sourcecode/include/mx/api/MarkData.h:16-190 *)
Inductive api_MarkType : Set :=
  | api_MarkType_unspecified | api_MarkType_accent | api_MarkType_strongAccent | api_MarkType_staccato | api_MarkType_tenuto
  | api_MarkType_detachedLegato | api_MarkType_staccatissimo | api_MarkType_spiccato | api_MarkType_scoop | api_MarkType_plop
  | api_MarkType_doit | api_MarkType_falloff | api_MarkType_breathMark | api_MarkType_caesura | api_MarkType_stress
  | api_MarkType_unstress | api_MarkType_otherArticulation | api_MarkType_p | api_MarkType_pp | api_MarkType_ppp
  | api_MarkType_pppp | api_MarkType_ppppp | api_MarkType_pppppp | api_MarkType_f | api_MarkType_ff
  | api_MarkType_fff | api_MarkType_ffff | api_MarkType_fffff | api_MarkType_ffffff | api_MarkType_mp
  | api_MarkType_mf | api_MarkType_sf | api_MarkType_sfp | api_MarkType_sfpp | api_MarkType_fp
  | api_MarkType_rf | api_MarkType_rfz | api_MarkType_sfz | api_MarkType_sffz | api_MarkType_fz
  | api_MarkType_otherDynamics | api_MarkType_unknownDynamics | api_MarkType_trillMark | api_MarkType_turn | api_MarkType_delayedTurn
  | api_MarkType_invertedTurn | api_MarkType_delayedInvertedTurn | api_MarkType_verticalTurn | api_MarkType_shake | api_MarkType_wavyLine
  | api_MarkType_mordent | api_MarkType_invertedMordent | api_MarkType_schleifer | api_MarkType_tremoloSingleOne | api_MarkType_tremoloSingleTwo
  | api_MarkType_tremoloSingleThree | api_MarkType_tremoloSingleFour | api_MarkType_tremoloSingleFive | api_MarkType_otherOrnament | api_MarkType_unknownOrnament
  | api_MarkType_accidentalMarkSharp | api_MarkType_accidentalMarkNatural | api_MarkType_accidentalMarkFlat | api_MarkType_accidentalMarkDoubleSharp | api_MarkType_accidentalMarkSharpSharp
  | api_MarkType_accidentalMarkFlatFlat | api_MarkType_accidentalMarkNaturalSharp | api_MarkType_accidentalMarkNaturalFlat | api_MarkType_accidentalMarkQuarterFlat | api_MarkType_accidentalMarkQuarterSharp
  | api_MarkType_accidentalMarkThreeQuartersFlat | api_MarkType_accidentalMarkThreeQuartersSharp | api_MarkType_accidentalMarkSharpDown | api_MarkType_accidentalMarkSharpUp | api_MarkType_accidentalMarkNaturalDown
  | api_MarkType_accidentalMarkNaturalUp | api_MarkType_accidentalMarkFlatDown | api_MarkType_accidentalMarkFlatUp | api_MarkType_accidentalMarkTripleSharp | api_MarkType_accidentalMarkTripleFlat
  | api_MarkType_accidentalMarkSlashQuarterSharp | api_MarkType_accidentalMarkSlashSharp | api_MarkType_accidentalMarkSlashFlat | api_MarkType_accidentalMarkDoubleSlashFlat | api_MarkType_accidentalMarkSharp1
  | api_MarkType_accidentalMarkSharp2 | api_MarkType_accidentalMarkSharp3 | api_MarkType_accidentalMarkSharp5 | api_MarkType_accidentalMarkFlat1 | api_MarkType_accidentalMarkFlat2
  | api_MarkType_accidentalMarkFlat3 | api_MarkType_accidentalMarkFlat4 | api_MarkType_accidentalMarkSori | api_MarkType_accidentalMarkKoron | api_MarkType_accidentalUnknown
  | api_MarkType_upBow | api_MarkType_downBow | api_MarkType_harmonic | api_MarkType_openString | api_MarkType_thumbPosition
  | api_MarkType_doubleTongue | api_MarkType_tripleTongue | api_MarkType_stopped | api_MarkType_snapPizzicato | api_MarkType_heel
  | api_MarkType_toe | api_MarkType_fingernails | api_MarkType_otherTechnical | api_MarkType_unknownTechnical | api_MarkType_fermata
  | api_MarkType_fermataNormal | api_MarkType_fermataAngled | api_MarkType_fermataSquare | api_MarkType_fermataUpright | api_MarkType_fermataNormalUpright
  | api_MarkType_fermataAngledUpright | api_MarkType_fermataSquareUpright | api_MarkType_fermataInverted | api_MarkType_fermataNormalInverted | api_MarkType_fermataAngledInverted
  | api_MarkType_fermataSquareInverted | api_MarkType_unknownFermata | api_MarkType_pedal | api_MarkType_damp | api_MarkType_arpeggiate
  | api_MarkType_arpeggiateDown | api_MarkType_arpeggiateUp | api_MarkType_nonArpeggiate | api_MarkType_customErrorUnknown | api_MarkType_customAccentTenuto.

Definition api_MarkType_members : list api_MarkType :=
  [ api_MarkType_unspecified; api_MarkType_accent; api_MarkType_strongAccent; api_MarkType_staccato;
    api_MarkType_tenuto; api_MarkType_detachedLegato; api_MarkType_staccatissimo; api_MarkType_spiccato;
    api_MarkType_scoop; api_MarkType_plop; api_MarkType_doit; api_MarkType_falloff;
    api_MarkType_breathMark; api_MarkType_caesura; api_MarkType_stress; api_MarkType_unstress;
    api_MarkType_otherArticulation; api_MarkType_p; api_MarkType_pp; api_MarkType_ppp;
    api_MarkType_pppp; api_MarkType_ppppp; api_MarkType_pppppp; api_MarkType_f;
    api_MarkType_ff; api_MarkType_fff; api_MarkType_ffff; api_MarkType_fffff;
    api_MarkType_ffffff; api_MarkType_mp; api_MarkType_mf; api_MarkType_sf;
    api_MarkType_sfp; api_MarkType_sfpp; api_MarkType_fp; api_MarkType_rf;
    api_MarkType_rfz; api_MarkType_sfz; api_MarkType_sffz; api_MarkType_fz;
    api_MarkType_otherDynamics; api_MarkType_unknownDynamics; api_MarkType_trillMark; api_MarkType_turn;
    api_MarkType_delayedTurn; api_MarkType_invertedTurn; api_MarkType_delayedInvertedTurn; api_MarkType_verticalTurn;
    api_MarkType_shake; api_MarkType_wavyLine; api_MarkType_mordent; api_MarkType_invertedMordent;
    api_MarkType_schleifer; api_MarkType_tremoloSingleOne; api_MarkType_tremoloSingleTwo; api_MarkType_tremoloSingleThree;
    api_MarkType_tremoloSingleFour; api_MarkType_tremoloSingleFive; api_MarkType_otherOrnament; api_MarkType_unknownOrnament;
    api_MarkType_accidentalMarkSharp; api_MarkType_accidentalMarkNatural; api_MarkType_accidentalMarkFlat; api_MarkType_accidentalMarkDoubleSharp;
    api_MarkType_accidentalMarkSharpSharp; api_MarkType_accidentalMarkFlatFlat; api_MarkType_accidentalMarkNaturalSharp; api_MarkType_accidentalMarkNaturalFlat;
    api_MarkType_accidentalMarkQuarterFlat; api_MarkType_accidentalMarkQuarterSharp; api_MarkType_accidentalMarkThreeQuartersFlat; api_MarkType_accidentalMarkThreeQuartersSharp;
    api_MarkType_accidentalMarkSharpDown; api_MarkType_accidentalMarkSharpUp; api_MarkType_accidentalMarkNaturalDown; api_MarkType_accidentalMarkNaturalUp;
    api_MarkType_accidentalMarkFlatDown; api_MarkType_accidentalMarkFlatUp; api_MarkType_accidentalMarkTripleSharp; api_MarkType_accidentalMarkTripleFlat;
    api_MarkType_accidentalMarkSlashQuarterSharp; api_MarkType_accidentalMarkSlashSharp; api_MarkType_accidentalMarkSlashFlat; api_MarkType_accidentalMarkDoubleSlashFlat;
    api_MarkType_accidentalMarkSharp1; api_MarkType_accidentalMarkSharp2; api_MarkType_accidentalMarkSharp3; api_MarkType_accidentalMarkSharp5;
    api_MarkType_accidentalMarkFlat1; api_MarkType_accidentalMarkFlat2; api_MarkType_accidentalMarkFlat3; api_MarkType_accidentalMarkFlat4;
    api_MarkType_accidentalMarkSori; api_MarkType_accidentalMarkKoron; api_MarkType_accidentalUnknown; api_MarkType_upBow;
    api_MarkType_downBow; api_MarkType_harmonic; api_MarkType_openString; api_MarkType_thumbPosition;
    api_MarkType_doubleTongue; api_MarkType_tripleTongue; api_MarkType_stopped; api_MarkType_snapPizzicato;
    api_MarkType_heel; api_MarkType_toe; api_MarkType_fingernails; api_MarkType_otherTechnical;
    api_MarkType_unknownTechnical; api_MarkType_fermata; api_MarkType_fermataNormal; api_MarkType_fermataAngled;
    api_MarkType_fermataSquare; api_MarkType_fermataUpright; api_MarkType_fermataNormalUpright; api_MarkType_fermataAngledUpright;
    api_MarkType_fermataSquareUpright; api_MarkType_fermataInverted; api_MarkType_fermataNormalInverted; api_MarkType_fermataAngledInverted;
    api_MarkType_fermataSquareInverted; api_MarkType_unknownFermata; api_MarkType_pedal; api_MarkType_damp;
    api_MarkType_arpeggiate; api_MarkType_arpeggiateDown; api_MarkType_arpeggiateUp; api_MarkType_nonArpeggiate;
    api_MarkType_customErrorUnknown; api_MarkType_customAccentTenuto ].

Definition api_MarkType_value (v : api_MarkType) : Z :=
  match v with
  | api_MarkType_unspecified => 0
  | api_MarkType_accent => 1
  | api_MarkType_strongAccent => 2
  | api_MarkType_staccato => 3
  | api_MarkType_tenuto => 4
  | api_MarkType_detachedLegato => 5
  | api_MarkType_staccatissimo => 6
  | api_MarkType_spiccato => 7
  | api_MarkType_scoop => 8
  | api_MarkType_plop => 9
  | api_MarkType_doit => 10
  | api_MarkType_falloff => 11
  | api_MarkType_breathMark => 12
  | api_MarkType_caesura => 13
  | api_MarkType_stress => 14
  | api_MarkType_unstress => 15
  | api_MarkType_otherArticulation => 16
  | api_MarkType_p => 17
  | api_MarkType_pp => 18
  | api_MarkType_ppp => 19
  | api_MarkType_pppp => 20
  | api_MarkType_ppppp => 21
  | api_MarkType_pppppp => 22
  | api_MarkType_f => 23
  | api_MarkType_ff => 24
  | api_MarkType_fff => 25
  | api_MarkType_ffff => 26
  | api_MarkType_fffff => 27
  | api_MarkType_ffffff => 28
  | api_MarkType_mp => 29
  | api_MarkType_mf => 30
  | api_MarkType_sf => 31
  | api_MarkType_sfp => 32
  | api_MarkType_sfpp => 33
  | api_MarkType_fp => 34
  | api_MarkType_rf => 35
  | api_MarkType_rfz => 36
  | api_MarkType_sfz => 37
  | api_MarkType_sffz => 38
  | api_MarkType_fz => 39
  | api_MarkType_otherDynamics => 40
  | api_MarkType_unknownDynamics => 41
  | api_MarkType_trillMark => 42
  | api_MarkType_turn => 43
  | api_MarkType_delayedTurn => 44
  | api_MarkType_invertedTurn => 45
  | api_MarkType_delayedInvertedTurn => 46
  | api_MarkType_verticalTurn => 47
  | api_MarkType_shake => 48
  | api_MarkType_wavyLine => 49
  | api_MarkType_mordent => 50
  | api_MarkType_invertedMordent => 51
  | api_MarkType_schleifer => 52
  | api_MarkType_tremoloSingleOne => 53
  | api_MarkType_tremoloSingleTwo => 54
  | api_MarkType_tremoloSingleThree => 55
  | api_MarkType_tremoloSingleFour => 56
  | api_MarkType_tremoloSingleFive => 57
  | api_MarkType_otherOrnament => 58
  | api_MarkType_unknownOrnament => 59
  | api_MarkType_accidentalMarkSharp => 60
  | api_MarkType_accidentalMarkNatural => 61
  | api_MarkType_accidentalMarkFlat => 62
  | api_MarkType_accidentalMarkDoubleSharp => 63
  | api_MarkType_accidentalMarkSharpSharp => 64
  | api_MarkType_accidentalMarkFlatFlat => 65
  | api_MarkType_accidentalMarkNaturalSharp => 66
  | api_MarkType_accidentalMarkNaturalFlat => 67
  | api_MarkType_accidentalMarkQuarterFlat => 68
  | api_MarkType_accidentalMarkQuarterSharp => 69
  | api_MarkType_accidentalMarkThreeQuartersFlat => 70
  | api_MarkType_accidentalMarkThreeQuartersSharp => 71
  | api_MarkType_accidentalMarkSharpDown => 72
  | api_MarkType_accidentalMarkSharpUp => 73
  | api_MarkType_accidentalMarkNaturalDown => 74
  | api_MarkType_accidentalMarkNaturalUp => 75
  | api_MarkType_accidentalMarkFlatDown => 76
  | api_MarkType_accidentalMarkFlatUp => 77
  | api_MarkType_accidentalMarkTripleSharp => 78
  | api_MarkType_accidentalMarkTripleFlat => 79
  | api_MarkType_accidentalMarkSlashQuarterSharp => 80
  | api_MarkType_accidentalMarkSlashSharp => 81
  | api_MarkType_accidentalMarkSlashFlat => 82
  | api_MarkType_accidentalMarkDoubleSlashFlat => 83
  | api_MarkType_accidentalMarkSharp1 => 84
  | api_MarkType_accidentalMarkSharp2 => 85
  | api_MarkType_accidentalMarkSharp3 => 86
  | api_MarkType_accidentalMarkSharp5 => 87
  | api_MarkType_accidentalMarkFlat1 => 88
  | api_MarkType_accidentalMarkFlat2 => 89
  | api_MarkType_accidentalMarkFlat3 => 90
  | api_MarkType_accidentalMarkFlat4 => 91
  | api_MarkType_accidentalMarkSori => 92
  | api_MarkType_accidentalMarkKoron => 93
  | api_MarkType_accidentalUnknown => 94
  | api_MarkType_upBow => 95
  | api_MarkType_downBow => 96
  | api_MarkType_harmonic => 97
  | api_MarkType_openString => 98
  | api_MarkType_thumbPosition => 99
  | api_MarkType_doubleTongue => 100
  | api_MarkType_tripleTongue => 101
  | api_MarkType_stopped => 102
  | api_MarkType_snapPizzicato => 103
  | api_MarkType_heel => 104
  | api_MarkType_toe => 105
  | api_MarkType_fingernails => 106
  | api_MarkType_otherTechnical => 107
  | api_MarkType_unknownTechnical => 108
  | api_MarkType_fermata => 109
  | api_MarkType_fermataNormal => 110
  | api_MarkType_fermataAngled => 111
  | api_MarkType_fermataSquare => 112
  | api_MarkType_fermataUpright => 113
  | api_MarkType_fermataNormalUpright => 114
  | api_MarkType_fermataAngledUpright => 115
  | api_MarkType_fermataSquareUpright => 116
  | api_MarkType_fermataInverted => 117
  | api_MarkType_fermataNormalInverted => 118
  | api_MarkType_fermataAngledInverted => 119
  | api_MarkType_fermataSquareInverted => 120
  | api_MarkType_unknownFermata => 121
  | api_MarkType_pedal => 122
  | api_MarkType_damp => 123
  | api_MarkType_arpeggiate => 124
  | api_MarkType_arpeggiateDown => 125
  | api_MarkType_arpeggiateUp => 126
  | api_MarkType_nonArpeggiate => 127
  | api_MarkType_customErrorUnknown => 128
  | api_MarkType_customAccentTenuto => 129
  end.

Definition api_MarkType_name (v : api_MarkType) : str :=
  match v with
  | api_MarkType_unspecified => lit "unspecified"
  | api_MarkType_accent => lit "accent"
  | api_MarkType_strongAccent => lit "strongAccent"
  | api_MarkType_staccato => lit "staccato"
  | api_MarkType_tenuto => lit "tenuto"
  | api_MarkType_detachedLegato => lit "detachedLegato"
  | api_MarkType_staccatissimo => lit "staccatissimo"
  | api_MarkType_spiccato => lit "spiccato"
  | api_MarkType_scoop => lit "scoop"
  | api_MarkType_plop => lit "plop"
  | api_MarkType_doit => lit "doit"
  | api_MarkType_falloff => lit "falloff"
  | api_MarkType_breathMark => lit "breathMark"
  | api_MarkType_caesura => lit "caesura"
  | api_MarkType_stress => lit "stress"
  | api_MarkType_unstress => lit "unstress"
  | api_MarkType_otherArticulation => lit "otherArticulation"
  | api_MarkType_p => lit "p"
  | api_MarkType_pp => lit "pp"
  | api_MarkType_ppp => lit "ppp"
  | api_MarkType_pppp => lit "pppp"
  | api_MarkType_ppppp => lit "ppppp"
  | api_MarkType_pppppp => lit "pppppp"
  | api_MarkType_f => lit "f"
  | api_MarkType_ff => lit "ff"
  | api_MarkType_fff => lit "fff"
  | api_MarkType_ffff => lit "ffff"
  | api_MarkType_fffff => lit "fffff"
  | api_MarkType_ffffff => lit "ffffff"
  | api_MarkType_mp => lit "mp"
  | api_MarkType_mf => lit "mf"
  | api_MarkType_sf => lit "sf"
  | api_MarkType_sfp => lit "sfp"
  | api_MarkType_sfpp => lit "sfpp"
  | api_MarkType_fp => lit "fp"
  | api_MarkType_rf => lit "rf"
  | api_MarkType_rfz => lit "rfz"
  | api_MarkType_sfz => lit "sfz"
  | api_MarkType_sffz => lit "sffz"
  | api_MarkType_fz => lit "fz"
  | api_MarkType_otherDynamics => lit "otherDynamics"
  | api_MarkType_unknownDynamics => lit "unknownDynamics"
  | api_MarkType_trillMark => lit "trillMark"
  | api_MarkType_turn => lit "turn"
  | api_MarkType_delayedTurn => lit "delayedTurn"
  | api_MarkType_invertedTurn => lit "invertedTurn"
  | api_MarkType_delayedInvertedTurn => lit "delayedInvertedTurn"
  | api_MarkType_verticalTurn => lit "verticalTurn"
  | api_MarkType_shake => lit "shake"
  | api_MarkType_wavyLine => lit "wavyLine"
  | api_MarkType_mordent => lit "mordent"
  | api_MarkType_invertedMordent => lit "invertedMordent"
  | api_MarkType_schleifer => lit "schleifer"
  | api_MarkType_tremoloSingleOne => lit "tremoloSingleOne"
  | api_MarkType_tremoloSingleTwo => lit "tremoloSingleTwo"
  | api_MarkType_tremoloSingleThree => lit "tremoloSingleThree"
  | api_MarkType_tremoloSingleFour => lit "tremoloSingleFour"
  | api_MarkType_tremoloSingleFive => lit "tremoloSingleFive"
  | api_MarkType_otherOrnament => lit "otherOrnament"
  | api_MarkType_unknownOrnament => lit "unknownOrnament"
  | api_MarkType_accidentalMarkSharp => lit "accidentalMarkSharp"
  | api_MarkType_accidentalMarkNatural => lit "accidentalMarkNatural"
  | api_MarkType_accidentalMarkFlat => lit "accidentalMarkFlat"
  | api_MarkType_accidentalMarkDoubleSharp => lit "accidentalMarkDoubleSharp"
  | api_MarkType_accidentalMarkSharpSharp => lit "accidentalMarkSharpSharp"
  | api_MarkType_accidentalMarkFlatFlat => lit "accidentalMarkFlatFlat"
  | api_MarkType_accidentalMarkNaturalSharp => lit "accidentalMarkNaturalSharp"
  | api_MarkType_accidentalMarkNaturalFlat => lit "accidentalMarkNaturalFlat"
  | api_MarkType_accidentalMarkQuarterFlat => lit "accidentalMarkQuarterFlat"
  | api_MarkType_accidentalMarkQuarterSharp => lit "accidentalMarkQuarterSharp"
  | api_MarkType_accidentalMarkThreeQuartersFlat => lit "accidentalMarkThreeQuartersFlat"
  | api_MarkType_accidentalMarkThreeQuartersSharp => lit "accidentalMarkThreeQuartersSharp"
  | api_MarkType_accidentalMarkSharpDown => lit "accidentalMarkSharpDown"
  | api_MarkType_accidentalMarkSharpUp => lit "accidentalMarkSharpUp"
  | api_MarkType_accidentalMarkNaturalDown => lit "accidentalMarkNaturalDown"
  | api_MarkType_accidentalMarkNaturalUp => lit "accidentalMarkNaturalUp"
  | api_MarkType_accidentalMarkFlatDown => lit "accidentalMarkFlatDown"
  | api_MarkType_accidentalMarkFlatUp => lit "accidentalMarkFlatUp"
  | api_MarkType_accidentalMarkTripleSharp => lit "accidentalMarkTripleSharp"
  | api_MarkType_accidentalMarkTripleFlat => lit "accidentalMarkTripleFlat"
  | api_MarkType_accidentalMarkSlashQuarterSharp => lit "accidentalMarkSlashQuarterSharp"
  | api_MarkType_accidentalMarkSlashSharp => lit "accidentalMarkSlashSharp"
  | api_MarkType_accidentalMarkSlashFlat => lit "accidentalMarkSlashFlat"
  | api_MarkType_accidentalMarkDoubleSlashFlat => lit "accidentalMarkDoubleSlashFlat"
  | api_MarkType_accidentalMarkSharp1 => lit "accidentalMarkSharp1"
  | api_MarkType_accidentalMarkSharp2 => lit "accidentalMarkSharp2"
  | api_MarkType_accidentalMarkSharp3 => lit "accidentalMarkSharp3"
  | api_MarkType_accidentalMarkSharp5 => lit "accidentalMarkSharp5"
  | api_MarkType_accidentalMarkFlat1 => lit "accidentalMarkFlat1"
  | api_MarkType_accidentalMarkFlat2 => lit "accidentalMarkFlat2"
  | api_MarkType_accidentalMarkFlat3 => lit "accidentalMarkFlat3"
  | api_MarkType_accidentalMarkFlat4 => lit "accidentalMarkFlat4"
  | api_MarkType_accidentalMarkSori => lit "accidentalMarkSori"
  | api_MarkType_accidentalMarkKoron => lit "accidentalMarkKoron"
  | api_MarkType_accidentalUnknown => lit "accidentalUnknown"
  | api_MarkType_upBow => lit "upBow"
  | api_MarkType_downBow => lit "downBow"
  | api_MarkType_harmonic => lit "harmonic"
  | api_MarkType_openString => lit "openString"
  | api_MarkType_thumbPosition => lit "thumbPosition"
  | api_MarkType_doubleTongue => lit "doubleTongue"
  | api_MarkType_tripleTongue => lit "tripleTongue"
  | api_MarkType_stopped => lit "stopped"
  | api_MarkType_snapPizzicato => lit "snapPizzicato"
  | api_MarkType_heel => lit "heel"
  | api_MarkType_toe => lit "toe"
  | api_MarkType_fingernails => lit "fingernails"
  | api_MarkType_otherTechnical => lit "otherTechnical"
  | api_MarkType_unknownTechnical => lit "unknownTechnical"
  | api_MarkType_fermata => lit "fermata"
  | api_MarkType_fermataNormal => lit "fermataNormal"
  | api_MarkType_fermataAngled => lit "fermataAngled"
  | api_MarkType_fermataSquare => lit "fermataSquare"
  | api_MarkType_fermataUpright => lit "fermataUpright"
  | api_MarkType_fermataNormalUpright => lit "fermataNormalUpright"
  | api_MarkType_fermataAngledUpright => lit "fermataAngledUpright"
  | api_MarkType_fermataSquareUpright => lit "fermataSquareUpright"
  | api_MarkType_fermataInverted => lit "fermataInverted"
  | api_MarkType_fermataNormalInverted => lit "fermataNormalInverted"
  | api_MarkType_fermataAngledInverted => lit "fermataAngledInverted"
  | api_MarkType_fermataSquareInverted => lit "fermataSquareInverted"
  | api_MarkType_unknownFermata => lit "unknownFermata"
  | api_MarkType_pedal => lit "pedal"
  | api_MarkType_damp => lit "damp"
  | api_MarkType_arpeggiate => lit "arpeggiate"
  | api_MarkType_arpeggiateDown => lit "arpeggiateDown"
  | api_MarkType_arpeggiateUp => lit "arpeggiateUp"
  | api_MarkType_nonArpeggiate => lit "nonArpeggiate"
  | api_MarkType_customErrorUnknown => lit "customErrorUnknown"
  | api_MarkType_customAccentTenuto => lit "customAccentTenuto"
  end.

(** Sourcecode/include/mx/api/FontData.h:40-45 *)
Inductive api_FontStyle : Set :=
  | api_FontStyle_unspecified | api_FontStyle_normal | api_FontStyle_italic.

Definition api_FontStyle_members : list api_FontStyle :=
  [ api_FontStyle_unspecified; api_FontStyle_normal; api_FontStyle_italic ].

Definition api_FontStyle_value (v : api_FontStyle) : Z :=
  match v with
  | api_FontStyle_unspecified => 0
  | api_FontStyle_normal => 1
  | api_FontStyle_italic => 2
  end.

Definition api_FontStyle_name (v : api_FontStyle) : str :=
  match v with
  | api_FontStyle_unspecified => lit "unspecified"
  | api_FontStyle_normal => lit "normal"
  | api_FontStyle_italic => lit "italic"
  end.

(** Sourcecode/include/mx/api/FontData.h:48-53 *)
Inductive api_FontWeight : Set :=
  | api_FontWeight_unspecified | api_FontWeight_normal | api_FontWeight_bold.

Definition api_FontWeight_members : list api_FontWeight :=
  [ api_FontWeight_unspecified; api_FontWeight_normal; api_FontWeight_bold ].

Definition api_FontWeight_value (v : api_FontWeight) : Z :=
  match v with
  | api_FontWeight_unspecified => 0
  | api_FontWeight_normal => 1
  | api_FontWeight_bold => 2
  end.

Definition api_FontWeight_name (v : api_FontWeight) : str :=
  match v with
  | api_FontWeight_unspecified => lit "unspecified"
  | api_FontWeight_normal => lit "normal"
  | api_FontWeight_bold => lit "bold"
  end.

(** Sourcecode/include/mx/api/ApiCommon.h:45-51 *)
Inductive api_MeasureNumbering : Set :=
  | api_MeasureNumbering_unspecified | api_MeasureNumbering_none | api_MeasureNumbering_measure | api_MeasureNumbering_system.

Definition api_MeasureNumbering_members : list api_MeasureNumbering :=
  [ api_MeasureNumbering_unspecified; api_MeasureNumbering_none; api_MeasureNumbering_measure; api_MeasureNumbering_system ].

Definition api_MeasureNumbering_value (v : api_MeasureNumbering) : Z :=
  match v with
  | api_MeasureNumbering_unspecified => 0
  | api_MeasureNumbering_none => 1
  | api_MeasureNumbering_measure => 2
  | api_MeasureNumbering_system => 3
  end.

Definition api_MeasureNumbering_name (v : api_MeasureNumbering) : str :=
  match v with
  | api_MeasureNumbering_unspecified => lit "unspecified"
  | api_MeasureNumbering_none => lit "none"
  | api_MeasureNumbering_measure => lit "measure"
  | api_MeasureNumbering_system => lit "system"
  end.

(** Sourcecode/include/mx/api/NoteData.h:67-74 *)
Inductive api_Stem : Set :=
  | api_Stem_unspecified | api_Stem_up | api_Stem_down | api_Stem_none | api_Stem_both.

Definition api_Stem_members : list api_Stem :=
  [ api_Stem_unspecified; api_Stem_up; api_Stem_down; api_Stem_none;
    api_Stem_both ].

Definition api_Stem_value (v : api_Stem) : Z :=
  match v with
  | api_Stem_unspecified => 0
  | api_Stem_up => 1
  | api_Stem_down => 2
  | api_Stem_none => 3
  | api_Stem_both => 4
  end.

Definition api_Stem_name (v : api_Stem) : str :=
  match v with
  | api_Stem_unspecified => lit "unspecified"
  | api_Stem_up => lit "up"
  | api_Stem_down => lit "down"
  | api_Stem_none => lit "none"
  | api_Stem_both => lit "both"
  end.

(** Sourcecode/include/mx/api/LineData.h:13-20 *)
Inductive api_LineType : Set :=
  | api_LineType_unspecified | api_LineType_solid | api_LineType_dashed | api_LineType_dotted | api_LineType_wavy.

Definition api_LineType_members : list api_LineType :=
  [ api_LineType_unspecified; api_LineType_solid; api_LineType_dashed; api_LineType_dotted;
    api_LineType_wavy ].

Definition api_LineType_value (v : api_LineType) : Z :=
  match v with
  | api_LineType_unspecified => 0
  | api_LineType_solid => 1
  | api_LineType_dashed => 2
  | api_LineType_dotted => 3
  | api_LineType_wavy => 4
  end.

Definition api_LineType_name (v : api_LineType) : str :=
  match v with
  | api_LineType_unspecified => lit "unspecified"
  | api_LineType_solid => lit "solid"
  | api_LineType_dashed => lit "dashed"
  | api_LineType_dotted => lit "dotted"
  | api_LineType_wavy => lit "wavy"
  end.

(** Sourcecode/include/mx/api/WedgeData.h:16-21 *)
Inductive api_WedgeType : Set :=
  | api_WedgeType_unspecified | api_WedgeType_crescendo | api_WedgeType_diminuendo.

Definition api_WedgeType_members : list api_WedgeType :=
  [ api_WedgeType_unspecified; api_WedgeType_crescendo; api_WedgeType_diminuendo ].

Definition api_WedgeType_value (v : api_WedgeType) : Z :=
  match v with
  | api_WedgeType_unspecified => 0
  | api_WedgeType_crescendo => 1
  | api_WedgeType_diminuendo => 2
  end.

Definition api_WedgeType_name (v : api_WedgeType) : str :=
  match v with
  | api_WedgeType_unspecified => lit "unspecified"
  | api_WedgeType_crescendo => lit "crescendo"
  | api_WedgeType_diminuendo => lit "diminuendo"
  end.

(** Sourcecode/include/mx/api/BarlineData.h:15-28 *)
Inductive api_BarlineType : Set :=
  | api_BarlineType_unspecified | api_BarlineType_unsupported | api_BarlineType_none | api_BarlineType_normal | api_BarlineType_lightLight
  | api_BarlineType_lightHeavy | api_BarlineType_heavyLight | api_BarlineType_dotted | api_BarlineType_dashed | api_BarlineType_heavy
  | api_BarlineType_heavyHeavy.

Definition api_BarlineType_members : list api_BarlineType :=
  [ api_BarlineType_unspecified; api_BarlineType_unsupported; api_BarlineType_none; api_BarlineType_normal;
    api_BarlineType_lightLight; api_BarlineType_lightHeavy; api_BarlineType_heavyLight; api_BarlineType_dotted;
    api_BarlineType_dashed; api_BarlineType_heavy; api_BarlineType_heavyHeavy ].

Definition api_BarlineType_value (v : api_BarlineType) : Z :=
  match v with
  | api_BarlineType_unspecified => 0
  | api_BarlineType_unsupported => 1
  | api_BarlineType_none => 2
  | api_BarlineType_normal => 3
  | api_BarlineType_lightLight => 4
  | api_BarlineType_lightHeavy => 5
  | api_BarlineType_heavyLight => 6
  | api_BarlineType_dotted => 7
  | api_BarlineType_dashed => 8
  | api_BarlineType_heavy => 9
  | api_BarlineType_heavyHeavy => 10
  end.

Definition api_BarlineType_name (v : api_BarlineType) : str :=
  match v with
  | api_BarlineType_unspecified => lit "unspecified"
  | api_BarlineType_unsupported => lit "unsupported"
  | api_BarlineType_none => lit "none"
  | api_BarlineType_normal => lit "normal"
  | api_BarlineType_lightLight => lit "lightLight"
  | api_BarlineType_lightHeavy => lit "lightHeavy"
  | api_BarlineType_heavyLight => lit "heavyLight"
  | api_BarlineType_dotted => lit "dotted"
  | api_BarlineType_dashed => lit "dashed"
  | api_BarlineType_heavy => lit "heavy"
  | api_BarlineType_heavyHeavy => lit "heavyHeavy"
  end.

(** Sourcecode/include/mx/api/LineData.h:22-30 *)
Inductive api_LineHook : Set :=
  | api_LineHook_unspecified | api_LineHook_down | api_LineHook_up | api_LineHook_both | api_LineHook_arrow
  | api_LineHook_none.

Definition api_LineHook_members : list api_LineHook :=
  [ api_LineHook_unspecified; api_LineHook_down; api_LineHook_up; api_LineHook_both;
    api_LineHook_arrow; api_LineHook_none ].

Definition api_LineHook_value (v : api_LineHook) : Z :=
  match v with
  | api_LineHook_unspecified => 0
  | api_LineHook_down => 1
  | api_LineHook_up => 2
  | api_LineHook_both => 3
  | api_LineHook_arrow => 4
  | api_LineHook_none => 5
  end.

Definition api_LineHook_name (v : api_LineHook) : str :=
  match v with
  | api_LineHook_unspecified => lit "unspecified"
  | api_LineHook_down => lit "down"
  | api_LineHook_up => lit "up"
  | api_LineHook_both => lit "both"
  | api_LineHook_arrow => lit "arrow"
  | api_LineHook_none => lit "none"
  end.

(** Sourcecode/include/mx/api/PartGroupData.h:14-22 *)
Inductive api_BracketType : Set :=
  | api_BracketType_unspecified | api_BracketType_none | api_BracketType_brace | api_BracketType_line | api_BracketType_bracket
  | api_BracketType_square.

Definition api_BracketType_members : list api_BracketType :=
  [ api_BracketType_unspecified; api_BracketType_none; api_BracketType_brace; api_BracketType_line;
    api_BracketType_bracket; api_BracketType_square ].

Definition api_BracketType_value (v : api_BracketType) : Z :=
  match v with
  | api_BracketType_unspecified => 0
  | api_BracketType_none => 1
  | api_BracketType_brace => 2
  | api_BracketType_line => 3
  | api_BracketType_bracket => 4
  | api_BracketType_square => 5
  end.

Definition api_BracketType_name (v : api_BracketType) : str :=
  match v with
  | api_BracketType_unspecified => lit "unspecified"
  | api_BracketType_none => lit "none"
  | api_BracketType_brace => lit "brace"
  | api_BracketType_line => lit "line"
  | api_BracketType_bracket => lit "bracket"
  | api_BracketType_square => lit "square"
  end.

(** Sourcecode/include/mx/api/BarlineData.h:30-36 *)
Inductive api_EndingType : Set :=
  | api_EndingType_none | api_EndingType_start | api_EndingType_stop | api_EndingType_discontinue.

Definition api_EndingType_members : list api_EndingType :=
  [ api_EndingType_none; api_EndingType_start; api_EndingType_stop; api_EndingType_discontinue ].

Definition api_EndingType_value (v : api_EndingType) : Z :=
  match v with
  | api_EndingType_none => 0
  | api_EndingType_start => 1
  | api_EndingType_stop => 2
  | api_EndingType_discontinue => 3
  end.

Definition api_EndingType_name (v : api_EndingType) : str :=
  match v with
  | api_EndingType_none => lit "none"
  | api_EndingType_start => lit "start"
  | api_EndingType_stop => lit "stop"
  | api_EndingType_discontinue => lit "discontinue"
  end.

(** Sourcecode/include/mx/api/ChordData.h:16-52 *)
Inductive api_ChordKind : Set :=
  | api_ChordKind_unspecified | api_ChordKind_major | api_ChordKind_minor | api_ChordKind_augmented | api_ChordKind_diminished
  | api_ChordKind_dominant | api_ChordKind_majorSeventh | api_ChordKind_minorSeventh | api_ChordKind_diminishedSeventh | api_ChordKind_augmentedSeventh
  | api_ChordKind_halfDiminished | api_ChordKind_majorMinor | api_ChordKind_majorSixth | api_ChordKind_minorSixth | api_ChordKind_dominantNinth
  | api_ChordKind_majorNinth | api_ChordKind_minorNinth | api_ChordKind_dominant11Th | api_ChordKind_major11Th | api_ChordKind_minor11Th
  | api_ChordKind_dominant13Th | api_ChordKind_major13Th | api_ChordKind_minor13Th | api_ChordKind_suspendedSecond | api_ChordKind_suspendedFourth
  | api_ChordKind_neapolitan | api_ChordKind_italian | api_ChordKind_french | api_ChordKind_german | api_ChordKind_pedal
  | api_ChordKind_power | api_ChordKind_tristan | api_ChordKind_other | api_ChordKind_none.

Definition api_ChordKind_members : list api_ChordKind :=
  [ api_ChordKind_unspecified; api_ChordKind_major; api_ChordKind_minor; api_ChordKind_augmented;
    api_ChordKind_diminished; api_ChordKind_dominant; api_ChordKind_majorSeventh; api_ChordKind_minorSeventh;
    api_ChordKind_diminishedSeventh; api_ChordKind_augmentedSeventh; api_ChordKind_halfDiminished; api_ChordKind_majorMinor;
    api_ChordKind_majorSixth; api_ChordKind_minorSixth; api_ChordKind_dominantNinth; api_ChordKind_majorNinth;
    api_ChordKind_minorNinth; api_ChordKind_dominant11Th; api_ChordKind_major11Th; api_ChordKind_minor11Th;
    api_ChordKind_dominant13Th; api_ChordKind_major13Th; api_ChordKind_minor13Th; api_ChordKind_suspendedSecond;
    api_ChordKind_suspendedFourth; api_ChordKind_neapolitan; api_ChordKind_italian; api_ChordKind_french;
    api_ChordKind_german; api_ChordKind_pedal; api_ChordKind_power; api_ChordKind_tristan;
    api_ChordKind_other; api_ChordKind_none ].

Definition api_ChordKind_value (v : api_ChordKind) : Z :=
  match v with
  | api_ChordKind_unspecified => 0
  | api_ChordKind_major => 1
  | api_ChordKind_minor => 2
  | api_ChordKind_augmented => 3
  | api_ChordKind_diminished => 4
  | api_ChordKind_dominant => 5
  | api_ChordKind_majorSeventh => 6
  | api_ChordKind_minorSeventh => 7
  | api_ChordKind_diminishedSeventh => 8
  | api_ChordKind_augmentedSeventh => 9
  | api_ChordKind_halfDiminished => 10
  | api_ChordKind_majorMinor => 11
  | api_ChordKind_majorSixth => 12
  | api_ChordKind_minorSixth => 13
  | api_ChordKind_dominantNinth => 14
  | api_ChordKind_majorNinth => 15
  | api_ChordKind_minorNinth => 16
  | api_ChordKind_dominant11Th => 17
  | api_ChordKind_major11Th => 18
  | api_ChordKind_minor11Th => 19
  | api_ChordKind_dominant13Th => 20
  | api_ChordKind_major13Th => 21
  | api_ChordKind_minor13Th => 22
  | api_ChordKind_suspendedSecond => 23
  | api_ChordKind_suspendedFourth => 24
  | api_ChordKind_neapolitan => 25
  | api_ChordKind_italian => 26
  | api_ChordKind_french => 27
  | api_ChordKind_german => 28
  | api_ChordKind_pedal => 29
  | api_ChordKind_power => 30
  | api_ChordKind_tristan => 31
  | api_ChordKind_other => 32
  | api_ChordKind_none => 33
  end.

Definition api_ChordKind_name (v : api_ChordKind) : str :=
  match v with
  | api_ChordKind_unspecified => lit "unspecified"
  | api_ChordKind_major => lit "major"
  | api_ChordKind_minor => lit "minor"
  | api_ChordKind_augmented => lit "augmented"
  | api_ChordKind_diminished => lit "diminished"
  | api_ChordKind_dominant => lit "dominant"
  | api_ChordKind_majorSeventh => lit "majorSeventh"
  | api_ChordKind_minorSeventh => lit "minorSeventh"
  | api_ChordKind_diminishedSeventh => lit "diminishedSeventh"
  | api_ChordKind_augmentedSeventh => lit "augmentedSeventh"
  | api_ChordKind_halfDiminished => lit "halfDiminished"
  | api_ChordKind_majorMinor => lit "majorMinor"
  | api_ChordKind_majorSixth => lit "majorSixth"
  | api_ChordKind_minorSixth => lit "minorSixth"
  | api_ChordKind_dominantNinth => lit "dominantNinth"
  | api_ChordKind_majorNinth => lit "majorNinth"
  | api_ChordKind_minorNinth => lit "minorNinth"
  | api_ChordKind_dominant11Th => lit "dominant11Th"
  | api_ChordKind_major11Th => lit "major11Th"
  | api_ChordKind_minor11Th => lit "minor11Th"
  | api_ChordKind_dominant13Th => lit "dominant13Th"
  | api_ChordKind_major13Th => lit "major13Th"
  | api_ChordKind_minor13Th => lit "minor13Th"
  | api_ChordKind_suspendedSecond => lit "suspendedSecond"
  | api_ChordKind_suspendedFourth => lit "suspendedFourth"
  | api_ChordKind_neapolitan => lit "neapolitan"
  | api_ChordKind_italian => lit "italian"
  | api_ChordKind_french => lit "french"
  | api_ChordKind_german => lit "german"
  | api_ChordKind_pedal => lit "pedal"
  | api_ChordKind_power => lit "power"
  | api_ChordKind_tristan => lit "tristan"
  | api_ChordKind_other => lit "other"
  | api_ChordKind_none => lit "none"
  end.

(** Sourcecode/private/mx/core/elements/ArticulationsChoice.h:42-60 *)
Inductive ArticulationsChoice : Set :=
  | ArticulationsChoice_accent | ArticulationsChoice_strongAccent | ArticulationsChoice_staccato | ArticulationsChoice_tenuto | ArticulationsChoice_detachedLegato
  | ArticulationsChoice_staccatissimo | ArticulationsChoice_spiccato | ArticulationsChoice_scoop | ArticulationsChoice_plop | ArticulationsChoice_doit
  | ArticulationsChoice_falloff | ArticulationsChoice_breathMark | ArticulationsChoice_caesura | ArticulationsChoice_stress | ArticulationsChoice_unstress
  | ArticulationsChoice_otherArticulation.

Definition ArticulationsChoice_members : list ArticulationsChoice :=
  [ ArticulationsChoice_accent; ArticulationsChoice_strongAccent; ArticulationsChoice_staccato; ArticulationsChoice_tenuto;
    ArticulationsChoice_detachedLegato; ArticulationsChoice_staccatissimo; ArticulationsChoice_spiccato; ArticulationsChoice_scoop;
    ArticulationsChoice_plop; ArticulationsChoice_doit; ArticulationsChoice_falloff; ArticulationsChoice_breathMark;
    ArticulationsChoice_caesura; ArticulationsChoice_stress; ArticulationsChoice_unstress; ArticulationsChoice_otherArticulation ].

Definition ArticulationsChoice_value (v : ArticulationsChoice) : Z :=
  match v with
  | ArticulationsChoice_accent => 1
  | ArticulationsChoice_strongAccent => 2
  | ArticulationsChoice_staccato => 3
  | ArticulationsChoice_tenuto => 4
  | ArticulationsChoice_detachedLegato => 5
  | ArticulationsChoice_staccatissimo => 6
  | ArticulationsChoice_spiccato => 7
  | ArticulationsChoice_scoop => 8
  | ArticulationsChoice_plop => 9
  | ArticulationsChoice_doit => 10
  | ArticulationsChoice_falloff => 11
  | ArticulationsChoice_breathMark => 12
  | ArticulationsChoice_caesura => 13
  | ArticulationsChoice_stress => 14
  | ArticulationsChoice_unstress => 15
  | ArticulationsChoice_otherArticulation => 16
  end.

Definition ArticulationsChoice_name (v : ArticulationsChoice) : str :=
  match v with
  | ArticulationsChoice_accent => lit "accent"
  | ArticulationsChoice_strongAccent => lit "strongAccent"
  | ArticulationsChoice_staccato => lit "staccato"
  | ArticulationsChoice_tenuto => lit "tenuto"
  | ArticulationsChoice_detachedLegato => lit "detachedLegato"
  | ArticulationsChoice_staccatissimo => lit "staccatissimo"
  | ArticulationsChoice_spiccato => lit "spiccato"
  | ArticulationsChoice_scoop => lit "scoop"
  | ArticulationsChoice_plop => lit "plop"
  | ArticulationsChoice_doit => lit "doit"
  | ArticulationsChoice_falloff => lit "falloff"
  | ArticulationsChoice_breathMark => lit "breathMark"
  | ArticulationsChoice_caesura => lit "caesura"
  | ArticulationsChoice_stress => lit "stress"
  | ArticulationsChoice_unstress => lit "unstress"
  | ArticulationsChoice_otherArticulation => lit "otherArticulation"
  end.

(** Sourcecode/private/mx/core/elements/OrnamentsChoice.h:39-54 *)
Inductive OrnamentsChoice : Set :=
  | OrnamentsChoice_trillMark | OrnamentsChoice_turn | OrnamentsChoice_delayedTurn | OrnamentsChoice_invertedTurn | OrnamentsChoice_delayedInvertedTurn
  | OrnamentsChoice_verticalTurn | OrnamentsChoice_shake | OrnamentsChoice_wavyLine | OrnamentsChoice_mordent | OrnamentsChoice_invertedMordent
  | OrnamentsChoice_schleifer | OrnamentsChoice_tremolo | OrnamentsChoice_otherOrnament.

Definition OrnamentsChoice_members : list OrnamentsChoice :=
  [ OrnamentsChoice_trillMark; OrnamentsChoice_turn; OrnamentsChoice_delayedTurn; OrnamentsChoice_invertedTurn;
    OrnamentsChoice_delayedInvertedTurn; OrnamentsChoice_verticalTurn; OrnamentsChoice_shake; OrnamentsChoice_wavyLine;
    OrnamentsChoice_mordent; OrnamentsChoice_invertedMordent; OrnamentsChoice_schleifer; OrnamentsChoice_tremolo;
    OrnamentsChoice_otherOrnament ].

Definition OrnamentsChoice_value (v : OrnamentsChoice) : Z :=
  match v with
  | OrnamentsChoice_trillMark => 1
  | OrnamentsChoice_turn => 2
  | OrnamentsChoice_delayedTurn => 3
  | OrnamentsChoice_invertedTurn => 4
  | OrnamentsChoice_delayedInvertedTurn => 5
  | OrnamentsChoice_verticalTurn => 6
  | OrnamentsChoice_shake => 7
  | OrnamentsChoice_wavyLine => 8
  | OrnamentsChoice_mordent => 9
  | OrnamentsChoice_invertedMordent => 10
  | OrnamentsChoice_schleifer => 11
  | OrnamentsChoice_tremolo => 12
  | OrnamentsChoice_otherOrnament => 13
  end.

Definition OrnamentsChoice_name (v : OrnamentsChoice) : str :=
  match v with
  | OrnamentsChoice_trillMark => lit "trillMark"
  | OrnamentsChoice_turn => lit "turn"
  | OrnamentsChoice_delayedTurn => lit "delayedTurn"
  | OrnamentsChoice_invertedTurn => lit "invertedTurn"
  | OrnamentsChoice_delayedInvertedTurn => lit "delayedInvertedTurn"
  | OrnamentsChoice_verticalTurn => lit "verticalTurn"
  | OrnamentsChoice_shake => lit "shake"
  | OrnamentsChoice_wavyLine => lit "wavyLine"
  | OrnamentsChoice_mordent => lit "mordent"
  | OrnamentsChoice_invertedMordent => lit "invertedMordent"
  | OrnamentsChoice_schleifer => lit "schleifer"
  | OrnamentsChoice_tremolo => lit "tremolo"
  | OrnamentsChoice_otherOrnament => lit "otherOrnament"
  end.

(** Sourcecode/private/mx/core/elements/TechnicalChoice.h:50-76 *)
Inductive TechnicalChoice : Set :=
  | TechnicalChoice_upBow | TechnicalChoice_downBow | TechnicalChoice_harmonic | TechnicalChoice_openString | TechnicalChoice_thumbPosition
  | TechnicalChoice_fingering | TechnicalChoice_pluck | TechnicalChoice_doubleTongue | TechnicalChoice_tripleTongue | TechnicalChoice_stopped
  | TechnicalChoice_snapPizzicato | TechnicalChoice_fret | TechnicalChoice_string_ | TechnicalChoice_hammerOn | TechnicalChoice_pullOff
  | TechnicalChoice_bend | TechnicalChoice_tap | TechnicalChoice_heel | TechnicalChoice_toe | TechnicalChoice_fingernails
  | TechnicalChoice_hole | TechnicalChoice_arrow | TechnicalChoice_handbell | TechnicalChoice_otherTechnical.

Definition TechnicalChoice_members : list TechnicalChoice :=
  [ TechnicalChoice_upBow; TechnicalChoice_downBow; TechnicalChoice_harmonic; TechnicalChoice_openString;
    TechnicalChoice_thumbPosition; TechnicalChoice_fingering; TechnicalChoice_pluck; TechnicalChoice_doubleTongue;
    TechnicalChoice_tripleTongue; TechnicalChoice_stopped; TechnicalChoice_snapPizzicato; TechnicalChoice_fret;
    TechnicalChoice_string_; TechnicalChoice_hammerOn; TechnicalChoice_pullOff; TechnicalChoice_bend;
    TechnicalChoice_tap; TechnicalChoice_heel; TechnicalChoice_toe; TechnicalChoice_fingernails;
    TechnicalChoice_hole; TechnicalChoice_arrow; TechnicalChoice_handbell; TechnicalChoice_otherTechnical ].

Definition TechnicalChoice_value (v : TechnicalChoice) : Z :=
  match v with
  | TechnicalChoice_upBow => 1
  | TechnicalChoice_downBow => 2
  | TechnicalChoice_harmonic => 3
  | TechnicalChoice_openString => 4
  | TechnicalChoice_thumbPosition => 5
  | TechnicalChoice_fingering => 6
  | TechnicalChoice_pluck => 7
  | TechnicalChoice_doubleTongue => 8
  | TechnicalChoice_tripleTongue => 9
  | TechnicalChoice_stopped => 10
  | TechnicalChoice_snapPizzicato => 11
  | TechnicalChoice_fret => 12
  | TechnicalChoice_string_ => 13
  | TechnicalChoice_hammerOn => 14
  | TechnicalChoice_pullOff => 15
  | TechnicalChoice_bend => 16
  | TechnicalChoice_tap => 17
  | TechnicalChoice_heel => 18
  | TechnicalChoice_toe => 19
  | TechnicalChoice_fingernails => 20
  | TechnicalChoice_hole => 21
  | TechnicalChoice_arrow => 22
  | TechnicalChoice_handbell => 23
  | TechnicalChoice_otherTechnical => 24
  end.

Definition TechnicalChoice_name (v : TechnicalChoice) : str :=
  match v with
  | TechnicalChoice_upBow => lit "upBow"
  | TechnicalChoice_downBow => lit "downBow"
  | TechnicalChoice_harmonic => lit "harmonic"
  | TechnicalChoice_openString => lit "openString"
  | TechnicalChoice_thumbPosition => lit "thumbPosition"
  | TechnicalChoice_fingering => lit "fingering"
  | TechnicalChoice_pluck => lit "pluck"
  | TechnicalChoice_doubleTongue => lit "doubleTongue"
  | TechnicalChoice_tripleTongue => lit "tripleTongue"
  | TechnicalChoice_stopped => lit "stopped"
  | TechnicalChoice_snapPizzicato => lit "snapPizzicato"
  | TechnicalChoice_fret => lit "fret"
  | TechnicalChoice_string_ => lit "string_"
  | TechnicalChoice_hammerOn => lit "hammerOn"
  | TechnicalChoice_pullOff => lit "pullOff"
  | TechnicalChoice_bend => lit "bend"
  | TechnicalChoice_tap => lit "tap"
  | TechnicalChoice_heel => lit "heel"
  | TechnicalChoice_toe => lit "toe"
  | TechnicalChoice_fingernails => lit "fingernails"
  | TechnicalChoice_hole => lit "hole"
  | TechnicalChoice_arrow => lit "arrow"
  | TechnicalChoice_handbell => lit "handbell"
  | TechnicalChoice_otherTechnical => lit "otherTechnical"
  end.
