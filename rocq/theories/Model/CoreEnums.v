(* The MusicXML enumerations of mx::core: core/Enums.h and core/Enums.cpp.
   One section per enumeration.  [X_chain] is the if/else-if chain of
   tryParseX in source order; [X_members] lists the enumerators in the
   order of their declaration.  Comments give the lines of Enums.h (the
   declaration) and Enums.cpp (the functions).  The section was transcribed
   row by row from the source text. *)
From Coq Require Import Ascii String List ZArith.
From Verif Require Import Model.Text Model.EnumLookup.
Import ListNotations.

(** Sourcecode/private/mx/core/Enums.h:22-26, Sourcecode/private/mx/core/Enums.cpp:15-50 *)
Inductive AboveBelow : Set :=
  | AboveBelow_above | AboveBelow_below.

Definition AboveBelow_members : list AboveBelow :=
  [ AboveBelow_above; AboveBelow_below ].

(* Enums.cpp:15: tryParseAboveBelow, the chain of comparisons *)
Definition AboveBelow_chain : list (str * AboveBelow) :=
  [ (lit "above", AboveBelow_above); (lit "below", AboveBelow_below) ].

Definition tryParse_AboveBelow (value : str) : option AboveBelow := lookup_text AboveBelow_chain value.

(* parseAboveBelow: opt.value_or( AboveBelow::above ) *)
Definition parse_AboveBelow (value : str) : AboveBelow :=
  value_or (tryParse_AboveBelow value) AboveBelow_above.

(* toString( const AboveBelow value ), the switch *)
Definition AboveBelow_toString (value : AboveBelow) : str :=
  match value with
  | AboveBelow_above => lit "above"
  | AboveBelow_below => lit "below"
  end.

(** Sourcecode/private/mx/core/Enums.h:46-82, Sourcecode/private/mx/core/Enums.cpp:51-150 *)
Inductive AccidentalValue : Set :=
  | AccidentalValue_sharp | AccidentalValue_natural | AccidentalValue_flat | AccidentalValue_doubleSharp | AccidentalValue_sharpSharp
  | AccidentalValue_flatFlat | AccidentalValue_naturalSharp | AccidentalValue_naturalFlat | AccidentalValue_quarterFlat | AccidentalValue_quarterSharp
  | AccidentalValue_threeQuartersFlat | AccidentalValue_threeQuartersSharp | AccidentalValue_sharpDown | AccidentalValue_sharpUp | AccidentalValue_naturalDown
  | AccidentalValue_naturalUp | AccidentalValue_flatDown | AccidentalValue_flatUp | AccidentalValue_tripleSharp | AccidentalValue_tripleFlat
  | AccidentalValue_slashQuarterSharp | AccidentalValue_slashSharp | AccidentalValue_slashFlat | AccidentalValue_doubleSlashFlat | AccidentalValue_sharp1
  | AccidentalValue_sharp2 | AccidentalValue_sharp3 | AccidentalValue_sharp5 | AccidentalValue_flat1 | AccidentalValue_flat2
  | AccidentalValue_flat3 | AccidentalValue_flat4 | AccidentalValue_sori | AccidentalValue_koron.

Definition AccidentalValue_members : list AccidentalValue :=
  [ AccidentalValue_sharp; AccidentalValue_natural; AccidentalValue_flat; AccidentalValue_doubleSharp;
    AccidentalValue_sharpSharp; AccidentalValue_flatFlat; AccidentalValue_naturalSharp; AccidentalValue_naturalFlat;
    AccidentalValue_quarterFlat; AccidentalValue_quarterSharp; AccidentalValue_threeQuartersFlat; AccidentalValue_threeQuartersSharp;
    AccidentalValue_sharpDown; AccidentalValue_sharpUp; AccidentalValue_naturalDown; AccidentalValue_naturalUp;
    AccidentalValue_flatDown; AccidentalValue_flatUp; AccidentalValue_tripleSharp; AccidentalValue_tripleFlat;
    AccidentalValue_slashQuarterSharp; AccidentalValue_slashSharp; AccidentalValue_slashFlat; AccidentalValue_doubleSlashFlat;
    AccidentalValue_sharp1; AccidentalValue_sharp2; AccidentalValue_sharp3; AccidentalValue_sharp5;
    AccidentalValue_flat1; AccidentalValue_flat2; AccidentalValue_flat3; AccidentalValue_flat4;
    AccidentalValue_sori; AccidentalValue_koron ].

(* Enums.cpp:51: tryParseAccidentalValue, the chain of comparisons *)
Definition AccidentalValue_chain : list (str * AccidentalValue) :=
  [ (lit "sharp", AccidentalValue_sharp); (lit "natural", AccidentalValue_natural);
    (lit "flat", AccidentalValue_flat); (lit "double-sharp", AccidentalValue_doubleSharp);
    (lit "sharp-sharp", AccidentalValue_sharpSharp); (lit "flat-flat", AccidentalValue_flatFlat);
    (lit "natural-sharp", AccidentalValue_naturalSharp); (lit "natural-flat", AccidentalValue_naturalFlat);
    (lit "quarter-flat", AccidentalValue_quarterFlat); (lit "quarter-sharp", AccidentalValue_quarterSharp);
    (lit "three-quarters-flat", AccidentalValue_threeQuartersFlat); (lit "three-quarters-sharp", AccidentalValue_threeQuartersSharp);
    (lit "sharp-down", AccidentalValue_sharpDown); (lit "sharp-up", AccidentalValue_sharpUp);
    (lit "natural-down", AccidentalValue_naturalDown); (lit "natural-up", AccidentalValue_naturalUp);
    (lit "flat-down", AccidentalValue_flatDown); (lit "flat-up", AccidentalValue_flatUp);
    (lit "triple-sharp", AccidentalValue_tripleSharp); (lit "triple-flat", AccidentalValue_tripleFlat);
    (lit "slash-quarter-sharp", AccidentalValue_slashQuarterSharp); (lit "slash-sharp", AccidentalValue_slashSharp);
    (lit "slash-flat", AccidentalValue_slashFlat); (lit "double-slash-flat", AccidentalValue_doubleSlashFlat);
    (lit "sharp-1", AccidentalValue_sharp1); (lit "sharp-2", AccidentalValue_sharp2);
    (lit "sharp-3", AccidentalValue_sharp3); (lit "sharp-5", AccidentalValue_sharp5);
    (lit "flat-1", AccidentalValue_flat1); (lit "flat-2", AccidentalValue_flat2);
    (lit "flat-3", AccidentalValue_flat3); (lit "flat-4", AccidentalValue_flat4);
    (lit "sori", AccidentalValue_sori); (lit "koron", AccidentalValue_koron) ].

Definition tryParse_AccidentalValue (value : str) : option AccidentalValue := lookup_text AccidentalValue_chain value.

(* parseAccidentalValue: opt.value_or( AccidentalValue::sharp ) *)
Definition parse_AccidentalValue (value : str) : AccidentalValue :=
  value_or (tryParse_AccidentalValue value) AccidentalValue_sharp.

(* toString( const AccidentalValue value ), the switch *)
Definition AccidentalValue_toString (value : AccidentalValue) : str :=
  match value with
  | AccidentalValue_sharp => lit "sharp"
  | AccidentalValue_natural => lit "natural"
  | AccidentalValue_flat => lit "flat"
  | AccidentalValue_doubleSharp => lit "double-sharp"
  | AccidentalValue_sharpSharp => lit "sharp-sharp"
  | AccidentalValue_flatFlat => lit "flat-flat"
  | AccidentalValue_naturalSharp => lit "natural-sharp"
  | AccidentalValue_naturalFlat => lit "natural-flat"
  | AccidentalValue_quarterFlat => lit "quarter-flat"
  | AccidentalValue_quarterSharp => lit "quarter-sharp"
  | AccidentalValue_threeQuartersFlat => lit "three-quarters-flat"
  | AccidentalValue_threeQuartersSharp => lit "three-quarters-sharp"
  | AccidentalValue_sharpDown => lit "sharp-down"
  | AccidentalValue_sharpUp => lit "sharp-up"
  | AccidentalValue_naturalDown => lit "natural-down"
  | AccidentalValue_naturalUp => lit "natural-up"
  | AccidentalValue_flatDown => lit "flat-down"
  | AccidentalValue_flatUp => lit "flat-up"
  | AccidentalValue_tripleSharp => lit "triple-sharp"
  | AccidentalValue_tripleFlat => lit "triple-flat"
  | AccidentalValue_slashQuarterSharp => lit "slash-quarter-sharp"
  | AccidentalValue_slashSharp => lit "slash-sharp"
  | AccidentalValue_slashFlat => lit "slash-flat"
  | AccidentalValue_doubleSlashFlat => lit "double-slash-flat"
  | AccidentalValue_sharp1 => lit "sharp-1"
  | AccidentalValue_sharp2 => lit "sharp-2"
  | AccidentalValue_sharp3 => lit "sharp-3"
  | AccidentalValue_sharp5 => lit "sharp-5"
  | AccidentalValue_flat1 => lit "flat-1"
  | AccidentalValue_flat2 => lit "flat-2"
  | AccidentalValue_flat3 => lit "flat-3"
  | AccidentalValue_flat4 => lit "flat-4"
  | AccidentalValue_sori => lit "sori"
  | AccidentalValue_koron => lit "koron"
  end.

(** Sourcecode/private/mx/core/Enums.h:95-110, Sourcecode/private/mx/core/Enums.cpp:151-208 *)
Inductive ArrowDirectionEnum : Set :=
  | ArrowDirectionEnum_left | ArrowDirectionEnum_up | ArrowDirectionEnum_right | ArrowDirectionEnum_down | ArrowDirectionEnum_northwest
  | ArrowDirectionEnum_northeast | ArrowDirectionEnum_southeast | ArrowDirectionEnum_southwest | ArrowDirectionEnum_leftRight | ArrowDirectionEnum_upDown
  | ArrowDirectionEnum_northwestSoutheast | ArrowDirectionEnum_northeastSouthwest | ArrowDirectionEnum_other.

Definition ArrowDirectionEnum_members : list ArrowDirectionEnum :=
  [ ArrowDirectionEnum_left; ArrowDirectionEnum_up; ArrowDirectionEnum_right; ArrowDirectionEnum_down;
    ArrowDirectionEnum_northwest; ArrowDirectionEnum_northeast; ArrowDirectionEnum_southeast; ArrowDirectionEnum_southwest;
    ArrowDirectionEnum_leftRight; ArrowDirectionEnum_upDown; ArrowDirectionEnum_northwestSoutheast; ArrowDirectionEnum_northeastSouthwest;
    ArrowDirectionEnum_other ].

(* Enums.cpp:151: tryParseArrowDirectionEnum, the chain of comparisons *)
Definition ArrowDirectionEnum_chain : list (str * ArrowDirectionEnum) :=
  [ (lit "left", ArrowDirectionEnum_left); (lit "up", ArrowDirectionEnum_up);
    (lit "right", ArrowDirectionEnum_right); (lit "down", ArrowDirectionEnum_down);
    (lit "northwest", ArrowDirectionEnum_northwest); (lit "northeast", ArrowDirectionEnum_northeast);
    (lit "southeast", ArrowDirectionEnum_southeast); (lit "southwest", ArrowDirectionEnum_southwest);
    (lit "left right", ArrowDirectionEnum_leftRight); (lit "up down", ArrowDirectionEnum_upDown);
    (lit "northwest southeast", ArrowDirectionEnum_northwestSoutheast); (lit "northeast southwest", ArrowDirectionEnum_northeastSouthwest);
    (lit "other", ArrowDirectionEnum_other) ].

Definition tryParse_ArrowDirectionEnum (value : str) : option ArrowDirectionEnum := lookup_text ArrowDirectionEnum_chain value.

(* parseArrowDirectionEnum: opt.value_or( ArrowDirectionEnum::left ) *)
Definition parse_ArrowDirectionEnum (value : str) : ArrowDirectionEnum :=
  value_or (tryParse_ArrowDirectionEnum value) ArrowDirectionEnum_left.

(* toString( const ArrowDirectionEnum value ), the switch *)
Definition ArrowDirectionEnum_toString (value : ArrowDirectionEnum) : str :=
  match value with
  | ArrowDirectionEnum_left => lit "left"
  | ArrowDirectionEnum_up => lit "up"
  | ArrowDirectionEnum_right => lit "right"
  | ArrowDirectionEnum_down => lit "down"
  | ArrowDirectionEnum_northwest => lit "northwest"
  | ArrowDirectionEnum_northeast => lit "northeast"
  | ArrowDirectionEnum_southeast => lit "southeast"
  | ArrowDirectionEnum_southwest => lit "southwest"
  | ArrowDirectionEnum_leftRight => lit "left right"
  | ArrowDirectionEnum_upDown => lit "up down"
  | ArrowDirectionEnum_northwestSoutheast => lit "northwest southeast"
  | ArrowDirectionEnum_northeastSouthwest => lit "northeast southwest"
  | ArrowDirectionEnum_other => lit "other"
  end.

(** Sourcecode/private/mx/core/Enums.h:126-135, Sourcecode/private/mx/core/Enums.cpp:209-254 *)
Inductive ArrowStyleEnum : Set :=
  | ArrowStyleEnum_single | ArrowStyleEnum_double_ | ArrowStyleEnum_filled | ArrowStyleEnum_hollow | ArrowStyleEnum_paired
  | ArrowStyleEnum_combined | ArrowStyleEnum_other.

Definition ArrowStyleEnum_members : list ArrowStyleEnum :=
  [ ArrowStyleEnum_single; ArrowStyleEnum_double_; ArrowStyleEnum_filled; ArrowStyleEnum_hollow;
    ArrowStyleEnum_paired; ArrowStyleEnum_combined; ArrowStyleEnum_other ].

(* Enums.cpp:209: tryParseArrowStyleEnum, the chain of comparisons *)
Definition ArrowStyleEnum_chain : list (str * ArrowStyleEnum) :=
  [ (lit "single", ArrowStyleEnum_single); (lit "double", ArrowStyleEnum_double_);
    (lit "filled", ArrowStyleEnum_filled); (lit "hollow", ArrowStyleEnum_hollow);
    (lit "paired", ArrowStyleEnum_paired); (lit "combined", ArrowStyleEnum_combined);
    (lit "other", ArrowStyleEnum_other) ].

Definition tryParse_ArrowStyleEnum (value : str) : option ArrowStyleEnum := lookup_text ArrowStyleEnum_chain value.

(* parseArrowStyleEnum: opt.value_or( ArrowStyleEnum::single ) *)
Definition parse_ArrowStyleEnum (value : str) : ArrowStyleEnum :=
  value_or (tryParse_ArrowStyleEnum value) ArrowStyleEnum_single.

(* toString( const ArrowStyleEnum value ), the switch *)
Definition ArrowStyleEnum_toString (value : ArrowStyleEnum) : str :=
  match value with
  | ArrowStyleEnum_single => lit "single"
  | ArrowStyleEnum_double_ => lit "double"
  | ArrowStyleEnum_filled => lit "filled"
  | ArrowStyleEnum_hollow => lit "hollow"
  | ArrowStyleEnum_paired => lit "paired"
  | ArrowStyleEnum_combined => lit "combined"
  | ArrowStyleEnum_other => lit "other"
  end.

(** Sourcecode/private/mx/core/Enums.h:148-152, Sourcecode/private/mx/core/Enums.cpp:255-290 *)
Inductive BackwardForward : Set :=
  | BackwardForward_backward | BackwardForward_forward.

Definition BackwardForward_members : list BackwardForward :=
  [ BackwardForward_backward; BackwardForward_forward ].

(* Enums.cpp:255: tryParseBackwardForward, the chain of comparisons *)
Definition BackwardForward_chain : list (str * BackwardForward) :=
  [ (lit "backward", BackwardForward_backward); (lit "forward", BackwardForward_forward) ].

Definition tryParse_BackwardForward (value : str) : option BackwardForward := lookup_text BackwardForward_chain value.

(* parseBackwardForward: opt.value_or( BackwardForward::backward ) *)
Definition parse_BackwardForward (value : str) : BackwardForward :=
  value_or (tryParse_BackwardForward value) BackwardForward_backward.

(* toString( const BackwardForward value ), the switch *)
Definition BackwardForward_toString (value : BackwardForward) : str :=
  match value with
  | BackwardForward_backward => lit "backward"
  | BackwardForward_forward => lit "forward"
  end.

(** Sourcecode/private/mx/core/Enums.h:167-180, Sourcecode/private/mx/core/Enums.cpp:291-344 *)
Inductive BarStyleEnum : Set :=
  | BarStyleEnum_regular | BarStyleEnum_dotted | BarStyleEnum_dashed | BarStyleEnum_heavy | BarStyleEnum_lightLight
  | BarStyleEnum_lightHeavy | BarStyleEnum_heavyLight | BarStyleEnum_heavyHeavy | BarStyleEnum_tick | BarStyleEnum_short_
  | BarStyleEnum_none.

Definition BarStyleEnum_members : list BarStyleEnum :=
  [ BarStyleEnum_regular; BarStyleEnum_dotted; BarStyleEnum_dashed; BarStyleEnum_heavy;
    BarStyleEnum_lightLight; BarStyleEnum_lightHeavy; BarStyleEnum_heavyLight; BarStyleEnum_heavyHeavy;
    BarStyleEnum_tick; BarStyleEnum_short_; BarStyleEnum_none ].

(* Enums.cpp:291: tryParseBarStyleEnum, the chain of comparisons *)
Definition BarStyleEnum_chain : list (str * BarStyleEnum) :=
  [ (lit "regular", BarStyleEnum_regular); (lit "dotted", BarStyleEnum_dotted);
    (lit "dashed", BarStyleEnum_dashed); (lit "heavy", BarStyleEnum_heavy);
    (lit "light-light", BarStyleEnum_lightLight); (lit "light-heavy", BarStyleEnum_lightHeavy);
    (lit "heavy-light", BarStyleEnum_heavyLight); (lit "heavy-heavy", BarStyleEnum_heavyHeavy);
    (lit "tick", BarStyleEnum_tick); (lit "short", BarStyleEnum_short_);
    (lit "none", BarStyleEnum_none) ].

Definition tryParse_BarStyleEnum (value : str) : option BarStyleEnum := lookup_text BarStyleEnum_chain value.

(* parseBarStyleEnum: opt.value_or( BarStyleEnum::regular ) *)
Definition parse_BarStyleEnum (value : str) : BarStyleEnum :=
  value_or (tryParse_BarStyleEnum value) BarStyleEnum_regular.

(* toString( const BarStyleEnum value ), the switch *)
Definition BarStyleEnum_toString (value : BarStyleEnum) : str :=
  match value with
  | BarStyleEnum_regular => lit "regular"
  | BarStyleEnum_dotted => lit "dotted"
  | BarStyleEnum_dashed => lit "dashed"
  | BarStyleEnum_heavy => lit "heavy"
  | BarStyleEnum_lightLight => lit "light-light"
  | BarStyleEnum_lightHeavy => lit "light-heavy"
  | BarStyleEnum_heavyLight => lit "heavy-light"
  | BarStyleEnum_heavyHeavy => lit "heavy-heavy"
  | BarStyleEnum_tick => lit "tick"
  | BarStyleEnum_short_ => lit "short"
  | BarStyleEnum_none => lit "none"
  end.

(** Sourcecode/private/mx/core/Enums.h:193-200, Sourcecode/private/mx/core/Enums.cpp:345-386 *)
Inductive BeamValue : Set :=
  | BeamValue_begin | BeamValue_continue_ | BeamValue_end | BeamValue_forwardHook | BeamValue_backwardHook.

Definition BeamValue_members : list BeamValue :=
  [ BeamValue_begin; BeamValue_continue_; BeamValue_end; BeamValue_forwardHook;
    BeamValue_backwardHook ].

(* Enums.cpp:345: tryParseBeamValue, the chain of comparisons *)
Definition BeamValue_chain : list (str * BeamValue) :=
  [ (lit "begin", BeamValue_begin); (lit "continue", BeamValue_continue_);
    (lit "end", BeamValue_end); (lit "forward hook", BeamValue_forwardHook);
    (lit "backward hook", BeamValue_backwardHook) ].

Definition tryParse_BeamValue (value : str) : option BeamValue := lookup_text BeamValue_chain value.

(* parseBeamValue: opt.value_or( BeamValue::begin ) *)
Definition parse_BeamValue (value : str) : BeamValue :=
  value_or (tryParse_BeamValue value) BeamValue_begin.

(* toString( const BeamValue value ), the switch *)
Definition BeamValue_toString (value : BeamValue) : str :=
  match value with
  | BeamValue_begin => lit "begin"
  | BeamValue_continue_ => lit "continue"
  | BeamValue_end => lit "end"
  | BeamValue_forwardHook => lit "forward hook"
  | BeamValue_backwardHook => lit "backward hook"
  end.

(** Sourcecode/private/mx/core/Enums.h:214-233, Sourcecode/private/mx/core/Enums.cpp:387-452 *)
Inductive BeaterValue : Set :=
  | BeaterValue_bow | BeaterValue_chimeHammer | BeaterValue_coin | BeaterValue_finger | BeaterValue_fingernail
  | BeaterValue_fist | BeaterValue_guiroScraper | BeaterValue_hammer | BeaterValue_hand | BeaterValue_jazzStick
  | BeaterValue_knittingNeedle | BeaterValue_metalHammer | BeaterValue_snareStick | BeaterValue_spoonMallet | BeaterValue_triangleBeater
  | BeaterValue_triangleBeaterPlain | BeaterValue_wireBrush.

Definition BeaterValue_members : list BeaterValue :=
  [ BeaterValue_bow; BeaterValue_chimeHammer; BeaterValue_coin; BeaterValue_finger;
    BeaterValue_fingernail; BeaterValue_fist; BeaterValue_guiroScraper; BeaterValue_hammer;
    BeaterValue_hand; BeaterValue_jazzStick; BeaterValue_knittingNeedle; BeaterValue_metalHammer;
    BeaterValue_snareStick; BeaterValue_spoonMallet; BeaterValue_triangleBeater; BeaterValue_triangleBeaterPlain;
    BeaterValue_wireBrush ].

(* Enums.cpp:387: tryParseBeaterValue, the chain of comparisons *)
Definition BeaterValue_chain : list (str * BeaterValue) :=
  [ (lit "bow", BeaterValue_bow); (lit "chime hammer", BeaterValue_chimeHammer);
    (lit "coin", BeaterValue_coin); (lit "finger", BeaterValue_finger);
    (lit "fingernail", BeaterValue_fingernail); (lit "fist", BeaterValue_fist);
    (lit "guiro scraper", BeaterValue_guiroScraper); (lit "hammer", BeaterValue_hammer);
    (lit "hand", BeaterValue_hand); (lit "jazz stick", BeaterValue_jazzStick);
    (lit "knitting needle", BeaterValue_knittingNeedle); (lit "metal hammer", BeaterValue_metalHammer);
    (lit "snare stick", BeaterValue_snareStick); (lit "spoon mallet", BeaterValue_spoonMallet);
    (lit "triangle beater", BeaterValue_triangleBeater); (lit "triangle beater plain", BeaterValue_triangleBeaterPlain);
    (lit "wire brush", BeaterValue_wireBrush) ].

Definition tryParse_BeaterValue (value : str) : option BeaterValue := lookup_text BeaterValue_chain value.

(* parseBeaterValue: opt.value_or( BeaterValue::bow ) *)
Definition parse_BeaterValue (value : str) : BeaterValue :=
  value_or (tryParse_BeaterValue value) BeaterValue_bow.

(* toString( const BeaterValue value ), the switch *)
Definition BeaterValue_toString (value : BeaterValue) : str :=
  match value with
  | BeaterValue_bow => lit "bow"
  | BeaterValue_chimeHammer => lit "chime hammer"
  | BeaterValue_coin => lit "coin"
  | BeaterValue_finger => lit "finger"
  | BeaterValue_fingernail => lit "fingernail"
  | BeaterValue_fist => lit "fist"
  | BeaterValue_guiroScraper => lit "guiro scraper"
  | BeaterValue_hammer => lit "hammer"
  | BeaterValue_hand => lit "hand"
  | BeaterValue_jazzStick => lit "jazz stick"
  | BeaterValue_knittingNeedle => lit "knitting needle"
  | BeaterValue_metalHammer => lit "metal hammer"
  | BeaterValue_snareStick => lit "snare stick"
  | BeaterValue_spoonMallet => lit "spoon mallet"
  | BeaterValue_triangleBeater => lit "triangle beater"
  | BeaterValue_triangleBeaterPlain => lit "triangle beater plain"
  | BeaterValue_wireBrush => lit "wire brush"
  end.

(** Sourcecode/private/mx/core/Enums.h:245-250, Sourcecode/private/mx/core/Enums.cpp:453-490 *)
Inductive BreathMarkValue : Set :=
  | BreathMarkValue_emptystring | BreathMarkValue_comma | BreathMarkValue_tick.

Definition BreathMarkValue_members : list BreathMarkValue :=
  [ BreathMarkValue_emptystring; BreathMarkValue_comma; BreathMarkValue_tick ].

(* Enums.cpp:453: tryParseBreathMarkValue, the chain of comparisons *)
Definition BreathMarkValue_chain : list (str * BreathMarkValue) :=
  [ (lit "", BreathMarkValue_emptystring); (lit "comma", BreathMarkValue_comma);
    (lit "tick", BreathMarkValue_tick) ].

Definition tryParse_BreathMarkValue (value : str) : option BreathMarkValue := lookup_text BreathMarkValue_chain value.

(* parseBreathMarkValue: opt.value_or( BreathMarkValue::emptystring ) *)
Definition parse_BreathMarkValue (value : str) : BreathMarkValue :=
  value_or (tryParse_BreathMarkValue value) BreathMarkValue_emptystring.

(* toString( const BreathMarkValue value ), the switch *)
Definition BreathMarkValue_toString (value : BreathMarkValue) : str :=
  match value with
  | BreathMarkValue_emptystring => lit ""
  | BreathMarkValue_comma => lit "comma"
  | BreathMarkValue_tick => lit "tick"
  end.

(** Sourcecode/private/mx/core/Enums.h:265-270, Sourcecode/private/mx/core/Enums.cpp:491-528 *)
Inductive CancelLocation : Set :=
  | CancelLocation_left | CancelLocation_right | CancelLocation_beforeBarline.

Definition CancelLocation_members : list CancelLocation :=
  [ CancelLocation_left; CancelLocation_right; CancelLocation_beforeBarline ].

(* Enums.cpp:491: tryParseCancelLocation, the chain of comparisons *)
Definition CancelLocation_chain : list (str * CancelLocation) :=
  [ (lit "left", CancelLocation_left); (lit "right", CancelLocation_right);
    (lit "before-barline", CancelLocation_beforeBarline) ].

Definition tryParse_CancelLocation (value : str) : option CancelLocation := lookup_text CancelLocation_chain value.

(* parseCancelLocation: opt.value_or( CancelLocation::left ) *)
Definition parse_CancelLocation (value : str) : CancelLocation :=
  value_or (tryParse_CancelLocation value) CancelLocation_left.

(* toString( const CancelLocation value ), the switch *)
Definition CancelLocation_toString (value : CancelLocation) : str :=
  match value with
  | CancelLocation_left => lit "left"
  | CancelLocation_right => lit "right"
  | CancelLocation_beforeBarline => lit "before-barline"
  end.

(** Sourcecode/private/mx/core/Enums.h:283-287, Sourcecode/private/mx/core/Enums.cpp:529-564 *)
Inductive CircularArrowEnum : Set :=
  | CircularArrowEnum_clockwise | CircularArrowEnum_anticlockwise.

Definition CircularArrowEnum_members : list CircularArrowEnum :=
  [ CircularArrowEnum_clockwise; CircularArrowEnum_anticlockwise ].

(* Enums.cpp:529: tryParseCircularArrowEnum, the chain of comparisons *)
Definition CircularArrowEnum_chain : list (str * CircularArrowEnum) :=
  [ (lit "clockwise", CircularArrowEnum_clockwise); (lit "anticlockwise", CircularArrowEnum_anticlockwise) ].

Definition tryParse_CircularArrowEnum (value : str) : option CircularArrowEnum := lookup_text CircularArrowEnum_chain value.

(* parseCircularArrowEnum: opt.value_or( CircularArrowEnum::clockwise ) *)
Definition parse_CircularArrowEnum (value : str) : CircularArrowEnum :=
  value_or (tryParse_CircularArrowEnum value) CircularArrowEnum_clockwise.

(* toString( const CircularArrowEnum value ), the switch *)
Definition CircularArrowEnum_toString (value : CircularArrowEnum) : str :=
  match value with
  | CircularArrowEnum_clockwise => lit "clockwise"
  | CircularArrowEnum_anticlockwise => lit "anticlockwise"
  end.

(** Sourcecode/private/mx/core/Enums.h:302-311, Sourcecode/private/mx/core/Enums.cpp:565-610 *)
Inductive ClefSign : Set :=
  | ClefSign_g | ClefSign_f | ClefSign_c | ClefSign_percussion | ClefSign_tab
  | ClefSign_jianpu | ClefSign_none.

Definition ClefSign_members : list ClefSign :=
  [ ClefSign_g; ClefSign_f; ClefSign_c; ClefSign_percussion;
    ClefSign_tab; ClefSign_jianpu; ClefSign_none ].

(* Enums.cpp:565: tryParseClefSign, the chain of comparisons *)
Definition ClefSign_chain : list (str * ClefSign) :=
  [ (lit "G", ClefSign_g); (lit "F", ClefSign_f);
    (lit "C", ClefSign_c); (lit "percussion", ClefSign_percussion);
    (lit "TAB", ClefSign_tab); (lit "jianpu", ClefSign_jianpu);
    (lit "none", ClefSign_none) ].

Definition tryParse_ClefSign (value : str) : option ClefSign := lookup_text ClefSign_chain value.

(* parseClefSign: opt.value_or( ClefSign::g ) *)
Definition parse_ClefSign (value : str) : ClefSign :=
  value_or (tryParse_ClefSign value) ClefSign_g.

(* toString( const ClefSign value ), the switch *)
Definition ClefSign_toString (value : ClefSign) : str :=
  match value with
  | ClefSign_g => lit "G"
  | ClefSign_f => lit "F"
  | ClefSign_c => lit "C"
  | ClefSign_percussion => lit "percussion"
  | ClefSign_tab => lit "TAB"
  | ClefSign_jianpu => lit "jianpu"
  | ClefSign_none => lit "none"
  end.

(** Sourcecode/private/mx/core/Enums.h:324-333, Sourcecode/private/mx/core/Enums.cpp:611-656 *)
Inductive CssFontSize : Set :=
  | CssFontSize_xxSmall | CssFontSize_xSmall | CssFontSize_small | CssFontSize_medium | CssFontSize_large
  | CssFontSize_xLarge | CssFontSize_xxLarge.

Definition CssFontSize_members : list CssFontSize :=
  [ CssFontSize_xxSmall; CssFontSize_xSmall; CssFontSize_small; CssFontSize_medium;
    CssFontSize_large; CssFontSize_xLarge; CssFontSize_xxLarge ].

(* Enums.cpp:611: tryParseCssFontSize, the chain of comparisons *)
Definition CssFontSize_chain : list (str * CssFontSize) :=
  [ (lit "xx-small", CssFontSize_xxSmall); (lit "x-small", CssFontSize_xSmall);
    (lit "small", CssFontSize_small); (lit "medium", CssFontSize_medium);
    (lit "large", CssFontSize_large); (lit "x-large", CssFontSize_xLarge);
    (lit "xx-large", CssFontSize_xxLarge) ].

Definition tryParse_CssFontSize (value : str) : option CssFontSize := lookup_text CssFontSize_chain value.

(* parseCssFontSize: opt.value_or( CssFontSize::xxSmall ) *)
Definition parse_CssFontSize (value : str) : CssFontSize :=
  value_or (tryParse_CssFontSize value) CssFontSize_xxSmall.

(* toString( const CssFontSize value ), the switch *)
Definition CssFontSize_toString (value : CssFontSize) : str :=
  match value with
  | CssFontSize_xxSmall => lit "xx-small"
  | CssFontSize_xSmall => lit "x-small"
  | CssFontSize_small => lit "small"
  | CssFontSize_medium => lit "medium"
  | CssFontSize_large => lit "large"
  | CssFontSize_xLarge => lit "x-large"
  | CssFontSize_xxLarge => lit "xx-large"
  end.

(** Sourcecode/private/mx/core/Enums.h:346-353, Sourcecode/private/mx/core/Enums.cpp:657-698 *)
Inductive DegreeSymbolValue : Set :=
  | DegreeSymbolValue_major | DegreeSymbolValue_minor | DegreeSymbolValue_augmented | DegreeSymbolValue_diminished | DegreeSymbolValue_halfDiminished.

Definition DegreeSymbolValue_members : list DegreeSymbolValue :=
  [ DegreeSymbolValue_major; DegreeSymbolValue_minor; DegreeSymbolValue_augmented; DegreeSymbolValue_diminished;
    DegreeSymbolValue_halfDiminished ].

(* Enums.cpp:657: tryParseDegreeSymbolValue, the chain of comparisons *)
Definition DegreeSymbolValue_chain : list (str * DegreeSymbolValue) :=
  [ (lit "major", DegreeSymbolValue_major); (lit "minor", DegreeSymbolValue_minor);
    (lit "augmented", DegreeSymbolValue_augmented); (lit "diminished", DegreeSymbolValue_diminished);
    (lit "half-diminished", DegreeSymbolValue_halfDiminished) ].

Definition tryParse_DegreeSymbolValue (value : str) : option DegreeSymbolValue := lookup_text DegreeSymbolValue_chain value.

(* parseDegreeSymbolValue: opt.value_or( DegreeSymbolValue::major ) *)
Definition parse_DegreeSymbolValue (value : str) : DegreeSymbolValue :=
  value_or (tryParse_DegreeSymbolValue value) DegreeSymbolValue_major.

(* toString( const DegreeSymbolValue value ), the switch *)
Definition DegreeSymbolValue_toString (value : DegreeSymbolValue) : str :=
  match value with
  | DegreeSymbolValue_major => lit "major"
  | DegreeSymbolValue_minor => lit "minor"
  | DegreeSymbolValue_augmented => lit "augmented"
  | DegreeSymbolValue_diminished => lit "diminished"
  | DegreeSymbolValue_halfDiminished => lit "half-diminished"
  end.

(** Sourcecode/private/mx/core/Enums.h:366-371, Sourcecode/private/mx/core/Enums.cpp:699-736 *)
Inductive DegreeTypeValue : Set :=
  | DegreeTypeValue_add | DegreeTypeValue_alter | DegreeTypeValue_subtract.

Definition DegreeTypeValue_members : list DegreeTypeValue :=
  [ DegreeTypeValue_add; DegreeTypeValue_alter; DegreeTypeValue_subtract ].

(* Enums.cpp:699: tryParseDegreeTypeValue, the chain of comparisons *)
Definition DegreeTypeValue_chain : list (str * DegreeTypeValue) :=
  [ (lit "add", DegreeTypeValue_add); (lit "alter", DegreeTypeValue_alter);
    (lit "subtract", DegreeTypeValue_subtract) ].

Definition tryParse_DegreeTypeValue (value : str) : option DegreeTypeValue := lookup_text DegreeTypeValue_chain value.

(* parseDegreeTypeValue: opt.value_or( DegreeTypeValue::add ) *)
Definition parse_DegreeTypeValue (value : str) : DegreeTypeValue :=
  value_or (tryParse_DegreeTypeValue value) DegreeTypeValue_add.

(* toString( const DegreeTypeValue value ), the switch *)
Definition DegreeTypeValue_toString (value : DegreeTypeValue) : str :=
  match value with
  | DegreeTypeValue_add => lit "add"
  | DegreeTypeValue_alter => lit "alter"
  | DegreeTypeValue_subtract => lit "subtract"
  end.

(** Sourcecode/private/mx/core/Enums.h:386-391, Sourcecode/private/mx/core/Enums.cpp:737-856 *)
Inductive DistanceTypeEnum : Set :=
  | DistanceTypeEnum_beam | DistanceTypeEnum_hyphen | DistanceTypeEnum_other.

Definition DistanceTypeEnum_members : list DistanceTypeEnum :=
  [ DistanceTypeEnum_beam; DistanceTypeEnum_hyphen; DistanceTypeEnum_other ].

(* Enums.cpp:737: tryParseDistanceTypeEnum, the chain of comparisons *)
Definition DistanceTypeEnum_chain : list (str * DistanceTypeEnum) :=
  [ (lit "beam", DistanceTypeEnum_beam); (lit "hyphen", DistanceTypeEnum_hyphen);
    (lit "other", DistanceTypeEnum_other) ].

Definition tryParse_DistanceTypeEnum (value : str) : option DistanceTypeEnum := lookup_text DistanceTypeEnum_chain value.

(* parseDistanceTypeEnum: opt.value_or( DistanceTypeEnum::beam ) *)
Definition parse_DistanceTypeEnum (value : str) : DistanceTypeEnum :=
  value_or (tryParse_DistanceTypeEnum value) DistanceTypeEnum_beam.

(* toString( const DistanceTypeEnum value ), the switch and its default *)
Definition DistanceTypeEnum_toString (value : DistanceTypeEnum) : str :=
  match value with
  | DistanceTypeEnum_beam => lit "beam"
  | DistanceTypeEnum_hyphen => lit "hyphen"
  | _ => lit "other"
  end.

(** Sourcecode/private/mx/core/Enums.h:436-462, Sourcecode/private/mx/core/Enums.cpp:857-1018 *)
Inductive DynamicsEnum : Set :=
  | DynamicsEnum_p | DynamicsEnum_pp | DynamicsEnum_ppp | DynamicsEnum_pppp | DynamicsEnum_ppppp
  | DynamicsEnum_pppppp | DynamicsEnum_f | DynamicsEnum_ff | DynamicsEnum_fff | DynamicsEnum_ffff
  | DynamicsEnum_fffff | DynamicsEnum_ffffff | DynamicsEnum_mp | DynamicsEnum_mf | DynamicsEnum_sf
  | DynamicsEnum_sfp | DynamicsEnum_sfpp | DynamicsEnum_fp | DynamicsEnum_rf | DynamicsEnum_rfz
  | DynamicsEnum_sfz | DynamicsEnum_sffz | DynamicsEnum_fz | DynamicsEnum_otherDynamics.

Definition DynamicsEnum_members : list DynamicsEnum :=
  [ DynamicsEnum_p; DynamicsEnum_pp; DynamicsEnum_ppp; DynamicsEnum_pppp;
    DynamicsEnum_ppppp; DynamicsEnum_pppppp; DynamicsEnum_f; DynamicsEnum_ff;
    DynamicsEnum_fff; DynamicsEnum_ffff; DynamicsEnum_fffff; DynamicsEnum_ffffff;
    DynamicsEnum_mp; DynamicsEnum_mf; DynamicsEnum_sf; DynamicsEnum_sfp;
    DynamicsEnum_sfpp; DynamicsEnum_fp; DynamicsEnum_rf; DynamicsEnum_rfz;
    DynamicsEnum_sfz; DynamicsEnum_sffz; DynamicsEnum_fz; DynamicsEnum_otherDynamics ].

(* Enums.cpp:857: tryParseDynamicsEnum, the chain of comparisons *)
Definition DynamicsEnum_chain : list (str * DynamicsEnum) :=
  [ (lit "p", DynamicsEnum_p); (lit "pp", DynamicsEnum_pp);
    (lit "ppp", DynamicsEnum_ppp); (lit "pppp", DynamicsEnum_pppp);
    (lit "ppppp", DynamicsEnum_ppppp); (lit "pppppp", DynamicsEnum_pppppp);
    (lit "f", DynamicsEnum_f); (lit "ff", DynamicsEnum_ff);
    (lit "fff", DynamicsEnum_fff); (lit "ffff", DynamicsEnum_ffff);
    (lit "fffff", DynamicsEnum_fffff); (lit "ffffff", DynamicsEnum_ffffff);
    (lit "mp", DynamicsEnum_mp); (lit "mf", DynamicsEnum_mf);
    (lit "sf", DynamicsEnum_sf); (lit "sfp", DynamicsEnum_sfp);
    (lit "sfpp", DynamicsEnum_sfpp); (lit "fp", DynamicsEnum_fp);
    (lit "rf", DynamicsEnum_rf); (lit "rfz", DynamicsEnum_rfz);
    (lit "sfz", DynamicsEnum_sfz); (lit "sffz", DynamicsEnum_sffz);
    (lit "fz", DynamicsEnum_fz); (lit "other-dynamics", DynamicsEnum_otherDynamics) ].

Definition tryParse_DynamicsEnum (value : str) : option DynamicsEnum := lookup_text DynamicsEnum_chain value.

(* parseDynamicsEnum: opt.value_or( DynamicsEnum::mf ) *)
Definition parse_DynamicsEnum (value : str) : DynamicsEnum :=
  value_or (tryParse_DynamicsEnum value) DynamicsEnum_mf.

(* toString( const DynamicsEnum value ), the switch and its default *)
Definition DynamicsEnum_toString (value : DynamicsEnum) : str :=
  match value with
  | DynamicsEnum_p => lit "p"
  | DynamicsEnum_pp => lit "pp"
  | DynamicsEnum_ppp => lit "ppp"
  | DynamicsEnum_pppp => lit "pppp"
  | DynamicsEnum_ppppp => lit "ppppp"
  | DynamicsEnum_pppppp => lit "pppppp"
  | DynamicsEnum_f => lit "f"
  | DynamicsEnum_ff => lit "ff"
  | DynamicsEnum_fff => lit "fff"
  | DynamicsEnum_ffff => lit "ffff"
  | DynamicsEnum_fffff => lit "fffff"
  | DynamicsEnum_ffffff => lit "ffffff"
  | DynamicsEnum_mp => lit "mp"
  | DynamicsEnum_mf => lit "mf"
  | DynamicsEnum_sf => lit "sf"
  | DynamicsEnum_sfp => lit "sfp"
  | DynamicsEnum_sfpp => lit "sfpp"
  | DynamicsEnum_fp => lit "fp"
  | DynamicsEnum_rf => lit "rf"
  | DynamicsEnum_rfz => lit "rfz"
  | DynamicsEnum_sfz => lit "sfz"
  | DynamicsEnum_sffz => lit "sffz"
  | DynamicsEnum_fz => lit "fz"
  | _ => lit "other-dynamics"
  end.

(** Sourcecode/private/mx/core/Enums.h:495-511, Sourcecode/private/mx/core/Enums.cpp:1019-1078 *)
Inductive EffectEnum : Set :=
  | EffectEnum_anvil | EffectEnum_autoHorn | EffectEnum_birdWhistle | EffectEnum_cannon | EffectEnum_duckCall
  | EffectEnum_gunShot | EffectEnum_klaxonHorn | EffectEnum_lionsRoar | EffectEnum_policeWhistle | EffectEnum_siren
  | EffectEnum_slideWhistle | EffectEnum_thunderSheet | EffectEnum_windMachine | EffectEnum_windWhistle.

Definition EffectEnum_members : list EffectEnum :=
  [ EffectEnum_anvil; EffectEnum_autoHorn; EffectEnum_birdWhistle; EffectEnum_cannon;
    EffectEnum_duckCall; EffectEnum_gunShot; EffectEnum_klaxonHorn; EffectEnum_lionsRoar;
    EffectEnum_policeWhistle; EffectEnum_siren; EffectEnum_slideWhistle; EffectEnum_thunderSheet;
    EffectEnum_windMachine; EffectEnum_windWhistle ].

(* Enums.cpp:1019: tryParseEffectEnum, the chain of comparisons *)
Definition EffectEnum_chain : list (str * EffectEnum) :=
  [ (lit "anvil", EffectEnum_anvil); (lit "auto horn", EffectEnum_autoHorn);
    (lit "bird whistle", EffectEnum_birdWhistle); (lit "cannon", EffectEnum_cannon);
    (lit "duck call", EffectEnum_duckCall); (lit "gun shot", EffectEnum_gunShot);
    (lit "klaxon horn", EffectEnum_klaxonHorn); (lit "lions roar", EffectEnum_lionsRoar);
    (lit "police whistle", EffectEnum_policeWhistle); (lit "siren", EffectEnum_siren);
    (lit "slide whistle", EffectEnum_slideWhistle); (lit "thunder sheet", EffectEnum_thunderSheet);
    (lit "wind machine", EffectEnum_windMachine); (lit "wind whistle", EffectEnum_windWhistle) ].

Definition tryParse_EffectEnum (value : str) : option EffectEnum := lookup_text EffectEnum_chain value.

(* parseEffectEnum: opt.value_or( EffectEnum::anvil ) *)
Definition parse_EffectEnum (value : str) : EffectEnum :=
  value_or (tryParse_EffectEnum value) EffectEnum_anvil.

(* toString( const EffectEnum value ), the switch *)
Definition EffectEnum_toString (value : EffectEnum) : str :=
  match value with
  | EffectEnum_anvil => lit "anvil"
  | EffectEnum_autoHorn => lit "auto horn"
  | EffectEnum_birdWhistle => lit "bird whistle"
  | EffectEnum_cannon => lit "cannon"
  | EffectEnum_duckCall => lit "duck call"
  | EffectEnum_gunShot => lit "gun shot"
  | EffectEnum_klaxonHorn => lit "klaxon horn"
  | EffectEnum_lionsRoar => lit "lions roar"
  | EffectEnum_policeWhistle => lit "police whistle"
  | EffectEnum_siren => lit "siren"
  | EffectEnum_slideWhistle => lit "slide whistle"
  | EffectEnum_thunderSheet => lit "thunder sheet"
  | EffectEnum_windMachine => lit "wind machine"
  | EffectEnum_windWhistle => lit "wind whistle"
  end.

(** Sourcecode/private/mx/core/Enums.h:525-535, Sourcecode/private/mx/core/Enums.cpp:1079-1126 *)
Inductive EnclosureShape : Set :=
  | EnclosureShape_rectangle | EnclosureShape_square | EnclosureShape_oval | EnclosureShape_circle | EnclosureShape_bracket
  | EnclosureShape_triangle | EnclosureShape_diamond | EnclosureShape_none.

Definition EnclosureShape_members : list EnclosureShape :=
  [ EnclosureShape_rectangle; EnclosureShape_square; EnclosureShape_oval; EnclosureShape_circle;
    EnclosureShape_bracket; EnclosureShape_triangle; EnclosureShape_diamond; EnclosureShape_none ].

(* Enums.cpp:1079: tryParseEnclosureShape, the chain of comparisons *)
Definition EnclosureShape_chain : list (str * EnclosureShape) :=
  [ (lit "rectangle", EnclosureShape_rectangle); (lit "square", EnclosureShape_square);
    (lit "oval", EnclosureShape_oval); (lit "circle", EnclosureShape_circle);
    (lit "bracket", EnclosureShape_bracket); (lit "triangle", EnclosureShape_triangle);
    (lit "diamond", EnclosureShape_diamond); (lit "none", EnclosureShape_none) ].

Definition tryParse_EnclosureShape (value : str) : option EnclosureShape := lookup_text EnclosureShape_chain value.

(* parseEnclosureShape: opt.value_or( EnclosureShape::rectangle ) *)
Definition parse_EnclosureShape (value : str) : EnclosureShape :=
  value_or (tryParse_EnclosureShape value) EnclosureShape_rectangle.

(* toString( const EnclosureShape value ), the switch *)
Definition EnclosureShape_toString (value : EnclosureShape) : str :=
  match value with
  | EnclosureShape_rectangle => lit "rectangle"
  | EnclosureShape_square => lit "square"
  | EnclosureShape_oval => lit "oval"
  | EnclosureShape_circle => lit "circle"
  | EnclosureShape_bracket => lit "bracket"
  | EnclosureShape_triangle => lit "triangle"
  | EnclosureShape_diamond => lit "diamond"
  | EnclosureShape_none => lit "none"
  end.

(** Sourcecode/private/mx/core/Enums.h:548-553, Sourcecode/private/mx/core/Enums.cpp:1127-1164 *)
Inductive Fan : Set :=
  | Fan_accel | Fan_rit | Fan_none.

Definition Fan_members : list Fan :=
  [ Fan_accel; Fan_rit; Fan_none ].

(* Enums.cpp:1127: tryParseFan, the chain of comparisons *)
Definition Fan_chain : list (str * Fan) :=
  [ (lit "accel", Fan_accel); (lit "rit", Fan_rit);
    (lit "none", Fan_none) ].

Definition tryParse_Fan (value : str) : option Fan := lookup_text Fan_chain value.

(* parseFan: opt.value_or( Fan::accel ) *)
Definition parse_Fan (value : str) : Fan :=
  value_or (tryParse_Fan value) Fan_accel.

(* toString( const Fan value ), the switch *)
Definition Fan_toString (value : Fan) : str :=
  match value with
  | Fan_accel => lit "accel"
  | Fan_rit => lit "rit"
  | Fan_none => lit "none"
  end.

(** Sourcecode/private/mx/core/Enums.h:566-572, Sourcecode/private/mx/core/Enums.cpp:1165-1204 *)
Inductive FermataShape : Set :=
  | FermataShape_normal | FermataShape_angled | FermataShape_square | FermataShape_emptystring.

Definition FermataShape_members : list FermataShape :=
  [ FermataShape_normal; FermataShape_angled; FermataShape_square; FermataShape_emptystring ].

(* Enums.cpp:1165: tryParseFermataShape, the chain of comparisons *)
Definition FermataShape_chain : list (str * FermataShape) :=
  [ (lit "normal", FermataShape_normal); (lit "angled", FermataShape_angled);
    (lit "square", FermataShape_square); (lit "", FermataShape_emptystring) ].

Definition tryParse_FermataShape (value : str) : option FermataShape := lookup_text FermataShape_chain value.

(* parseFermataShape: opt.value_or( FermataShape::normal ) *)
Definition parse_FermataShape (value : str) : FermataShape :=
  value_or (tryParse_FermataShape value) FermataShape_normal.

(* toString( const FermataShape value ), the switch *)
Definition FermataShape_toString (value : FermataShape) : str :=
  match value with
  | FermataShape_normal => lit "normal"
  | FermataShape_angled => lit "angled"
  | FermataShape_square => lit "square"
  | FermataShape_emptystring => lit ""
  end.

(** Sourcecode/private/mx/core/Enums.h:584-588, Sourcecode/private/mx/core/Enums.cpp:1205-1240 *)
Inductive FontStyle : Set :=
  | FontStyle_normal | FontStyle_italic.

Definition FontStyle_members : list FontStyle :=
  [ FontStyle_normal; FontStyle_italic ].

(* Enums.cpp:1205: tryParseFontStyle, the chain of comparisons *)
Definition FontStyle_chain : list (str * FontStyle) :=
  [ (lit "normal", FontStyle_normal); (lit "italic", FontStyle_italic) ].

Definition tryParse_FontStyle (value : str) : option FontStyle := lookup_text FontStyle_chain value.

(* parseFontStyle: opt.value_or( FontStyle::normal ) *)
Definition parse_FontStyle (value : str) : FontStyle :=
  value_or (tryParse_FontStyle value) FontStyle_normal.

(* toString( const FontStyle value ), the switch *)
Definition FontStyle_toString (value : FontStyle) : str :=
  match value with
  | FontStyle_normal => lit "normal"
  | FontStyle_italic => lit "italic"
  end.

(** Sourcecode/private/mx/core/Enums.h:600-604, Sourcecode/private/mx/core/Enums.cpp:1241-1276 *)
Inductive FontWeight : Set :=
  | FontWeight_normal | FontWeight_bold.

Definition FontWeight_members : list FontWeight :=
  [ FontWeight_normal; FontWeight_bold ].

(* Enums.cpp:1241: tryParseFontWeight, the chain of comparisons *)
Definition FontWeight_chain : list (str * FontWeight) :=
  [ (lit "normal", FontWeight_normal); (lit "bold", FontWeight_bold) ].

Definition tryParse_FontWeight (value : str) : option FontWeight := lookup_text FontWeight_chain value.

(* parseFontWeight: opt.value_or( FontWeight::normal ) *)
Definition parse_FontWeight (value : str) : FontWeight :=
  value_or (tryParse_FontWeight value) FontWeight_normal.

(* toString( const FontWeight value ), the switch *)
Definition FontWeight_toString (value : FontWeight) : str :=
  match value with
  | FontWeight_normal => lit "normal"
  | FontWeight_bold => lit "bold"
  end.

(** Sourcecode/private/mx/core/Enums.h:616-619, Sourcecode/private/mx/core/Enums.cpp:1277-1310 *)
Inductive GlassEnum : Set :=
  | GlassEnum_windChimes.

Definition GlassEnum_members : list GlassEnum :=
  [ GlassEnum_windChimes ].

(* Enums.cpp:1277: tryParseGlassEnum, the chain of comparisons *)
Definition GlassEnum_chain : list (str * GlassEnum) :=
  [ (lit "wind chimes", GlassEnum_windChimes) ].

Definition tryParse_GlassEnum (value : str) : option GlassEnum := lookup_text GlassEnum_chain value.

(* parseGlassEnum: opt.value_or( GlassEnum::windChimes ) *)
Definition parse_GlassEnum (value : str) : GlassEnum :=
  value_or (tryParse_GlassEnum value) GlassEnum_windChimes.

(* toString( const GlassEnum value ), the switch *)
Definition GlassEnum_toString (value : GlassEnum) : str :=
  match value with
  | GlassEnum_windChimes => lit "wind chimes"
  end.

(** Sourcecode/private/mx/core/Enums.h:631-636, Sourcecode/private/mx/core/Enums.cpp:1311-1348 *)
Inductive GroupBarlineValue : Set :=
  | GroupBarlineValue_yes | GroupBarlineValue_no | GroupBarlineValue_mensurstrich.

Definition GroupBarlineValue_members : list GroupBarlineValue :=
  [ GroupBarlineValue_yes; GroupBarlineValue_no; GroupBarlineValue_mensurstrich ].

(* Enums.cpp:1311: tryParseGroupBarlineValue, the chain of comparisons *)
Definition GroupBarlineValue_chain : list (str * GroupBarlineValue) :=
  [ (lit "yes", GroupBarlineValue_yes); (lit "no", GroupBarlineValue_no);
    (lit "Mensurstrich", GroupBarlineValue_mensurstrich) ].

Definition tryParse_GroupBarlineValue (value : str) : option GroupBarlineValue := lookup_text GroupBarlineValue_chain value.

(* parseGroupBarlineValue: opt.value_or( GroupBarlineValue::yes ) *)
Definition parse_GroupBarlineValue (value : str) : GroupBarlineValue :=
  value_or (tryParse_GroupBarlineValue value) GroupBarlineValue_yes.

(* toString( const GroupBarlineValue value ), the switch *)
Definition GroupBarlineValue_toString (value : GroupBarlineValue) : str :=
  match value with
  | GroupBarlineValue_yes => lit "yes"
  | GroupBarlineValue_no => lit "no"
  | GroupBarlineValue_mensurstrich => lit "Mensurstrich"
  end.

(** Sourcecode/private/mx/core/Enums.h:649-656, Sourcecode/private/mx/core/Enums.cpp:1349-1390 *)
Inductive GroupSymbolValue : Set :=
  | GroupSymbolValue_none | GroupSymbolValue_brace | GroupSymbolValue_line | GroupSymbolValue_bracket | GroupSymbolValue_square.

Definition GroupSymbolValue_members : list GroupSymbolValue :=
  [ GroupSymbolValue_none; GroupSymbolValue_brace; GroupSymbolValue_line; GroupSymbolValue_bracket;
    GroupSymbolValue_square ].

(* Enums.cpp:1349: tryParseGroupSymbolValue, the chain of comparisons *)
Definition GroupSymbolValue_chain : list (str * GroupSymbolValue) :=
  [ (lit "none", GroupSymbolValue_none); (lit "brace", GroupSymbolValue_brace);
    (lit "line", GroupSymbolValue_line); (lit "bracket", GroupSymbolValue_bracket);
    (lit "square", GroupSymbolValue_square) ].

Definition tryParse_GroupSymbolValue (value : str) : option GroupSymbolValue := lookup_text GroupSymbolValue_chain value.

(* parseGroupSymbolValue: opt.value_or( GroupSymbolValue::none ) *)
Definition parse_GroupSymbolValue (value : str) : GroupSymbolValue :=
  value_or (tryParse_GroupSymbolValue value) GroupSymbolValue_none.

(* toString( const GroupSymbolValue value ), the switch *)
Definition GroupSymbolValue_toString (value : GroupSymbolValue) : str :=
  match value with
  | GroupSymbolValue_none => lit "none"
  | GroupSymbolValue_brace => lit "brace"
  | GroupSymbolValue_line => lit "line"
  | GroupSymbolValue_bracket => lit "bracket"
  | GroupSymbolValue_square => lit "square"
  end.

(** Sourcecode/private/mx/core/Enums.h:668-681, Sourcecode/private/mx/core/Enums.cpp:1391-1444 *)
Inductive HandbellValue : Set :=
  | HandbellValue_damp | HandbellValue_echo | HandbellValue_gyro | HandbellValue_handMartellato | HandbellValue_malletLift
  | HandbellValue_malletTable | HandbellValue_martellato | HandbellValue_martellatoLift | HandbellValue_mutedMartellato | HandbellValue_pluckLift
  | HandbellValue_swing.

Definition HandbellValue_members : list HandbellValue :=
  [ HandbellValue_damp; HandbellValue_echo; HandbellValue_gyro; HandbellValue_handMartellato;
    HandbellValue_malletLift; HandbellValue_malletTable; HandbellValue_martellato; HandbellValue_martellatoLift;
    HandbellValue_mutedMartellato; HandbellValue_pluckLift; HandbellValue_swing ].

(* Enums.cpp:1391: tryParseHandbellValue, the chain of comparisons *)
Definition HandbellValue_chain : list (str * HandbellValue) :=
  [ (lit "damp", HandbellValue_damp); (lit "echo", HandbellValue_echo);
    (lit "gyro", HandbellValue_gyro); (lit "hand martellato", HandbellValue_handMartellato);
    (lit "mallet lift", HandbellValue_malletLift); (lit "mallet table", HandbellValue_malletTable);
    (lit "martellato", HandbellValue_martellato); (lit "martellato lift", HandbellValue_martellatoLift);
    (lit "muted martellato", HandbellValue_mutedMartellato); (lit "pluck lift", HandbellValue_pluckLift);
    (lit "swing", HandbellValue_swing) ].

Definition tryParse_HandbellValue (value : str) : option HandbellValue := lookup_text HandbellValue_chain value.

(* parseHandbellValue: opt.value_or( HandbellValue::damp ) *)
Definition parse_HandbellValue (value : str) : HandbellValue :=
  value_or (tryParse_HandbellValue value) HandbellValue_damp.

(* toString( const HandbellValue value ), the switch *)
Definition HandbellValue_toString (value : HandbellValue) : str :=
  match value with
  | HandbellValue_damp => lit "damp"
  | HandbellValue_echo => lit "echo"
  | HandbellValue_gyro => lit "gyro"
  | HandbellValue_handMartellato => lit "hand martellato"
  | HandbellValue_malletLift => lit "mallet lift"
  | HandbellValue_malletTable => lit "mallet table"
  | HandbellValue_martellato => lit "martellato"
  | HandbellValue_martellatoLift => lit "martellato lift"
  | HandbellValue_mutedMartellato => lit "muted martellato"
  | HandbellValue_pluckLift => lit "pluck lift"
  | HandbellValue_swing => lit "swing"
  end.

(** Sourcecode/private/mx/core/Enums.h:695-700, Sourcecode/private/mx/core/Enums.cpp:1445-1482 *)
Inductive HarmonyType : Set :=
  | HarmonyType_explicit_ | HarmonyType_implied | HarmonyType_alternate.

Definition HarmonyType_members : list HarmonyType :=
  [ HarmonyType_explicit_; HarmonyType_implied; HarmonyType_alternate ].

(* Enums.cpp:1445: tryParseHarmonyType, the chain of comparisons *)
Definition HarmonyType_chain : list (str * HarmonyType) :=
  [ (lit "explicit", HarmonyType_explicit_); (lit "implied", HarmonyType_implied);
    (lit "alternate", HarmonyType_alternate) ].

Definition tryParse_HarmonyType (value : str) : option HarmonyType := lookup_text HarmonyType_chain value.

(* parseHarmonyType: opt.value_or( HarmonyType::explicit_ ) *)
Definition parse_HarmonyType (value : str) : HarmonyType :=
  value_or (tryParse_HarmonyType value) HarmonyType_explicit_.

(* toString( const HarmonyType value ), the switch *)
Definition HarmonyType_toString (value : HarmonyType) : str :=
  match value with
  | HarmonyType_explicit_ => lit "explicit"
  | HarmonyType_implied => lit "implied"
  | HarmonyType_alternate => lit "alternate"
  end.

(** Sourcecode/private/mx/core/Enums.h:713-719, Sourcecode/private/mx/core/Enums.cpp:1483-1522 *)
Inductive HoleClosedLocation : Set :=
  | HoleClosedLocation_right | HoleClosedLocation_bottom | HoleClosedLocation_left | HoleClosedLocation_top.

Definition HoleClosedLocation_members : list HoleClosedLocation :=
  [ HoleClosedLocation_right; HoleClosedLocation_bottom; HoleClosedLocation_left; HoleClosedLocation_top ].

(* Enums.cpp:1483: tryParseHoleClosedLocation, the chain of comparisons *)
Definition HoleClosedLocation_chain : list (str * HoleClosedLocation) :=
  [ (lit "right", HoleClosedLocation_right); (lit "bottom", HoleClosedLocation_bottom);
    (lit "left", HoleClosedLocation_left); (lit "top", HoleClosedLocation_top) ].

Definition tryParse_HoleClosedLocation (value : str) : option HoleClosedLocation := lookup_text HoleClosedLocation_chain value.

(* parseHoleClosedLocation: opt.value_or( HoleClosedLocation::right ) *)
Definition parse_HoleClosedLocation (value : str) : HoleClosedLocation :=
  value_or (tryParse_HoleClosedLocation value) HoleClosedLocation_right.

(* toString( const HoleClosedLocation value ), the switch *)
Definition HoleClosedLocation_toString (value : HoleClosedLocation) : str :=
  match value with
  | HoleClosedLocation_right => lit "right"
  | HoleClosedLocation_bottom => lit "bottom"
  | HoleClosedLocation_left => lit "left"
  | HoleClosedLocation_top => lit "top"
  end.

(** Sourcecode/private/mx/core/Enums.h:731-736, Sourcecode/private/mx/core/Enums.cpp:1523-1560 *)
Inductive HoleClosedValue : Set :=
  | HoleClosedValue_yes | HoleClosedValue_no | HoleClosedValue_half.

Definition HoleClosedValue_members : list HoleClosedValue :=
  [ HoleClosedValue_yes; HoleClosedValue_no; HoleClosedValue_half ].

(* Enums.cpp:1523: tryParseHoleClosedValue, the chain of comparisons *)
Definition HoleClosedValue_chain : list (str * HoleClosedValue) :=
  [ (lit "yes", HoleClosedValue_yes); (lit "no", HoleClosedValue_no);
    (lit "half", HoleClosedValue_half) ].

Definition tryParse_HoleClosedValue (value : str) : option HoleClosedValue := lookup_text HoleClosedValue_chain value.

(* parseHoleClosedValue: opt.value_or( HoleClosedValue::yes ) *)
Definition parse_HoleClosedValue (value : str) : HoleClosedValue :=
  value_or (tryParse_HoleClosedValue value) HoleClosedValue_yes.

(* toString( const HoleClosedValue value ), the switch *)
Definition HoleClosedValue_toString (value : HoleClosedValue) : str :=
  match value with
  | HoleClosedValue_yes => lit "yes"
  | HoleClosedValue_no => lit "no"
  | HoleClosedValue_half => lit "half"
  end.

(** Sourcecode/private/mx/core/Enums.h:793-828, Sourcecode/private/mx/core/Enums.cpp:1561-1658 *)
Inductive KindValue : Set :=
  | KindValue_major | KindValue_minor | KindValue_augmented | KindValue_diminished | KindValue_dominant
  | KindValue_majorSeventh | KindValue_minorSeventh | KindValue_diminishedSeventh | KindValue_augmentedSeventh | KindValue_halfDiminished
  | KindValue_majorMinor | KindValue_majorSixth | KindValue_minorSixth | KindValue_dominantNinth | KindValue_majorNinth
  | KindValue_minorNinth | KindValue_dominant11th | KindValue_major11th | KindValue_minor11th | KindValue_dominant13th
  | KindValue_major13th | KindValue_minor13th | KindValue_suspendedSecond | KindValue_suspendedFourth | KindValue_neapolitan
  | KindValue_italian | KindValue_french | KindValue_german | KindValue_pedal | KindValue_power
  | KindValue_tristan | KindValue_other | KindValue_none.

Definition KindValue_members : list KindValue :=
  [ KindValue_major; KindValue_minor; KindValue_augmented; KindValue_diminished;
    KindValue_dominant; KindValue_majorSeventh; KindValue_minorSeventh; KindValue_diminishedSeventh;
    KindValue_augmentedSeventh; KindValue_halfDiminished; KindValue_majorMinor; KindValue_majorSixth;
    KindValue_minorSixth; KindValue_dominantNinth; KindValue_majorNinth; KindValue_minorNinth;
    KindValue_dominant11th; KindValue_major11th; KindValue_minor11th; KindValue_dominant13th;
    KindValue_major13th; KindValue_minor13th; KindValue_suspendedSecond; KindValue_suspendedFourth;
    KindValue_neapolitan; KindValue_italian; KindValue_french; KindValue_german;
    KindValue_pedal; KindValue_power; KindValue_tristan; KindValue_other;
    KindValue_none ].

(* Enums.cpp:1561: tryParseKindValue, the chain of comparisons *)
Definition KindValue_chain : list (str * KindValue) :=
  [ (lit "major", KindValue_major); (lit "minor", KindValue_minor);
    (lit "augmented", KindValue_augmented); (lit "diminished", KindValue_diminished);
    (lit "dominant", KindValue_dominant); (lit "major-seventh", KindValue_majorSeventh);
    (lit "minor-seventh", KindValue_minorSeventh); (lit "diminished-seventh", KindValue_diminishedSeventh);
    (lit "augmented-seventh", KindValue_augmentedSeventh); (lit "half-diminished", KindValue_halfDiminished);
    (lit "major-minor", KindValue_majorMinor); (lit "major-sixth", KindValue_majorSixth);
    (lit "minor-sixth", KindValue_minorSixth); (lit "dominant-ninth", KindValue_dominantNinth);
    (lit "major-ninth", KindValue_majorNinth); (lit "minor-ninth", KindValue_minorNinth);
    (lit "dominant-11th", KindValue_dominant11th); (lit "major-11th", KindValue_major11th);
    (lit "minor-11th", KindValue_minor11th); (lit "dominant-13th", KindValue_dominant13th);
    (lit "major-13th", KindValue_major13th); (lit "minor-13th", KindValue_minor13th);
    (lit "suspended-second", KindValue_suspendedSecond); (lit "suspended-fourth", KindValue_suspendedFourth);
    (lit "Neapolitan", KindValue_neapolitan); (lit "Italian", KindValue_italian);
    (lit "French", KindValue_french); (lit "German", KindValue_german);
    (lit "pedal", KindValue_pedal); (lit "power", KindValue_power);
    (lit "Tristan", KindValue_tristan); (lit "other", KindValue_other);
    (lit "none", KindValue_none) ].

Definition tryParse_KindValue (value : str) : option KindValue := lookup_text KindValue_chain value.

(* parseKindValue: opt.value_or( KindValue::major ) *)
Definition parse_KindValue (value : str) : KindValue :=
  value_or (tryParse_KindValue value) KindValue_major.

(* toString( const KindValue value ), the switch *)
Definition KindValue_toString (value : KindValue) : str :=
  match value with
  | KindValue_major => lit "major"
  | KindValue_minor => lit "minor"
  | KindValue_augmented => lit "augmented"
  | KindValue_diminished => lit "diminished"
  | KindValue_dominant => lit "dominant"
  | KindValue_majorSeventh => lit "major-seventh"
  | KindValue_minorSeventh => lit "minor-seventh"
  | KindValue_diminishedSeventh => lit "diminished-seventh"
  | KindValue_augmentedSeventh => lit "augmented-seventh"
  | KindValue_halfDiminished => lit "half-diminished"
  | KindValue_majorMinor => lit "major-minor"
  | KindValue_majorSixth => lit "major-sixth"
  | KindValue_minorSixth => lit "minor-sixth"
  | KindValue_dominantNinth => lit "dominant-ninth"
  | KindValue_majorNinth => lit "major-ninth"
  | KindValue_minorNinth => lit "minor-ninth"
  | KindValue_dominant11th => lit "dominant-11th"
  | KindValue_major11th => lit "major-11th"
  | KindValue_minor11th => lit "minor-11th"
  | KindValue_dominant13th => lit "dominant-13th"
  | KindValue_major13th => lit "major-13th"
  | KindValue_minor13th => lit "minor-13th"
  | KindValue_suspendedSecond => lit "suspended-second"
  | KindValue_suspendedFourth => lit "suspended-fourth"
  | KindValue_neapolitan => lit "Neapolitan"
  | KindValue_italian => lit "Italian"
  | KindValue_french => lit "French"
  | KindValue_german => lit "German"
  | KindValue_pedal => lit "pedal"
  | KindValue_power => lit "power"
  | KindValue_tristan => lit "Tristan"
  | KindValue_other => lit "other"
  | KindValue_none => lit "none"
  end.

(** Sourcecode/private/mx/core/Enums.h:841-846, Sourcecode/private/mx/core/Enums.cpp:1659-1696 *)
Inductive LeftCenterRight : Set :=
  | LeftCenterRight_left | LeftCenterRight_center | LeftCenterRight_right.

Definition LeftCenterRight_members : list LeftCenterRight :=
  [ LeftCenterRight_left; LeftCenterRight_center; LeftCenterRight_right ].

(* Enums.cpp:1659: tryParseLeftCenterRight, the chain of comparisons *)
Definition LeftCenterRight_chain : list (str * LeftCenterRight) :=
  [ (lit "left", LeftCenterRight_left); (lit "center", LeftCenterRight_center);
    (lit "right", LeftCenterRight_right) ].

Definition tryParse_LeftCenterRight (value : str) : option LeftCenterRight := lookup_text LeftCenterRight_chain value.

(* parseLeftCenterRight: opt.value_or( LeftCenterRight::left ) *)
Definition parse_LeftCenterRight (value : str) : LeftCenterRight :=
  value_or (tryParse_LeftCenterRight value) LeftCenterRight_left.

(* toString( const LeftCenterRight value ), the switch *)
Definition LeftCenterRight_toString (value : LeftCenterRight) : str :=
  match value with
  | LeftCenterRight_left => lit "left"
  | LeftCenterRight_center => lit "center"
  | LeftCenterRight_right => lit "right"
  end.

(** Sourcecode/private/mx/core/Enums.h:859-863, Sourcecode/private/mx/core/Enums.cpp:1697-1732 *)
Inductive LeftRight : Set :=
  | LeftRight_left | LeftRight_right.

Definition LeftRight_members : list LeftRight :=
  [ LeftRight_left; LeftRight_right ].

(* Enums.cpp:1697: tryParseLeftRight, the chain of comparisons *)
Definition LeftRight_chain : list (str * LeftRight) :=
  [ (lit "left", LeftRight_left); (lit "right", LeftRight_right) ].

Definition tryParse_LeftRight (value : str) : option LeftRight := lookup_text LeftRight_chain value.

(* parseLeftRight: opt.value_or( LeftRight::left ) *)
Definition parse_LeftRight (value : str) : LeftRight :=
  value_or (tryParse_LeftRight value) LeftRight_left.

(* toString( const LeftRight value ), the switch *)
Definition LeftRight_toString (value : LeftRight) : str :=
  match value with
  | LeftRight_left => lit "left"
  | LeftRight_right => lit "right"
  end.

(** Sourcecode/private/mx/core/Enums.h:876-883, Sourcecode/private/mx/core/Enums.cpp:1733-1774 *)
Inductive LineEnd : Set :=
  | LineEnd_up | LineEnd_down | LineEnd_both | LineEnd_arrow | LineEnd_none.

Definition LineEnd_members : list LineEnd :=
  [ LineEnd_up; LineEnd_down; LineEnd_both; LineEnd_arrow;
    LineEnd_none ].

(* Enums.cpp:1733: tryParseLineEnd, the chain of comparisons *)
Definition LineEnd_chain : list (str * LineEnd) :=
  [ (lit "up", LineEnd_up); (lit "down", LineEnd_down);
    (lit "both", LineEnd_both); (lit "arrow", LineEnd_arrow);
    (lit "none", LineEnd_none) ].

Definition tryParse_LineEnd (value : str) : option LineEnd := lookup_text LineEnd_chain value.

(* parseLineEnd: opt.value_or( LineEnd::up ) *)
Definition parse_LineEnd (value : str) : LineEnd :=
  value_or (tryParse_LineEnd value) LineEnd_up.

(* toString( const LineEnd value ), the switch *)
Definition LineEnd_toString (value : LineEnd) : str :=
  match value with
  | LineEnd_up => lit "up"
  | LineEnd_down => lit "down"
  | LineEnd_both => lit "both"
  | LineEnd_arrow => lit "arrow"
  | LineEnd_none => lit "none"
  end.

(** Sourcecode/private/mx/core/Enums.h:895-899, Sourcecode/private/mx/core/Enums.cpp:1775-1810 *)
Inductive LineShape : Set :=
  | LineShape_straight | LineShape_curved.

Definition LineShape_members : list LineShape :=
  [ LineShape_straight; LineShape_curved ].

(* Enums.cpp:1775: tryParseLineShape, the chain of comparisons *)
Definition LineShape_chain : list (str * LineShape) :=
  [ (lit "straight", LineShape_straight); (lit "curved", LineShape_curved) ].

Definition tryParse_LineShape (value : str) : option LineShape := lookup_text LineShape_chain value.

(* parseLineShape: opt.value_or( LineShape::straight ) *)
Definition parse_LineShape (value : str) : LineShape :=
  value_or (tryParse_LineShape value) LineShape_straight.

(* toString( const LineShape value ), the switch *)
Definition LineShape_toString (value : LineShape) : str :=
  match value with
  | LineShape_straight => lit "straight"
  | LineShape_curved => lit "curved"
  end.

(** Sourcecode/private/mx/core/Enums.h:911-917, Sourcecode/private/mx/core/Enums.cpp:1811-1850 *)
Inductive LineType : Set :=
  | LineType_solid | LineType_dashed | LineType_dotted | LineType_wavy.

Definition LineType_members : list LineType :=
  [ LineType_solid; LineType_dashed; LineType_dotted; LineType_wavy ].

(* Enums.cpp:1811: tryParseLineType, the chain of comparisons *)
Definition LineType_chain : list (str * LineType) :=
  [ (lit "solid", LineType_solid); (lit "dashed", LineType_dashed);
    (lit "dotted", LineType_dotted); (lit "wavy", LineType_wavy) ].

Definition tryParse_LineType (value : str) : option LineType := lookup_text LineType_chain value.

(* parseLineType: opt.value_or( LineType::solid ) *)
Definition parse_LineType (value : str) : LineType :=
  value_or (tryParse_LineType value) LineType_solid.

(* toString( const LineType value ), the switch *)
Definition LineType_toString (value : LineType) : str :=
  match value with
  | LineType_solid => lit "solid"
  | LineType_dashed => lit "dashed"
  | LineType_dotted => lit "dotted"
  | LineType_wavy => lit "wavy"
  end.

(** Sourcecode/private/mx/core/Enums.h:934-956, Sourcecode/private/mx/core/Enums.cpp:1851-2004 *)
Inductive LineWidthTypeEnum : Set :=
  | LineWidthTypeEnum_beam | LineWidthTypeEnum_bracket | LineWidthTypeEnum_dashes | LineWidthTypeEnum_enclosure | LineWidthTypeEnum_ending
  | LineWidthTypeEnum_extend | LineWidthTypeEnum_heavyBarline | LineWidthTypeEnum_leger | LineWidthTypeEnum_lightBarline | LineWidthTypeEnum_octaveShift
  | LineWidthTypeEnum_pedal | LineWidthTypeEnum_slurMiddle | LineWidthTypeEnum_slurTip | LineWidthTypeEnum_staff | LineWidthTypeEnum_stem
  | LineWidthTypeEnum_tieMiddle | LineWidthTypeEnum_tieTip | LineWidthTypeEnum_tupletBracket | LineWidthTypeEnum_wedge | LineWidthTypeEnum_other.

Definition LineWidthTypeEnum_members : list LineWidthTypeEnum :=
  [ LineWidthTypeEnum_beam; LineWidthTypeEnum_bracket; LineWidthTypeEnum_dashes; LineWidthTypeEnum_enclosure;
    LineWidthTypeEnum_ending; LineWidthTypeEnum_extend; LineWidthTypeEnum_heavyBarline; LineWidthTypeEnum_leger;
    LineWidthTypeEnum_lightBarline; LineWidthTypeEnum_octaveShift; LineWidthTypeEnum_pedal; LineWidthTypeEnum_slurMiddle;
    LineWidthTypeEnum_slurTip; LineWidthTypeEnum_staff; LineWidthTypeEnum_stem; LineWidthTypeEnum_tieMiddle;
    LineWidthTypeEnum_tieTip; LineWidthTypeEnum_tupletBracket; LineWidthTypeEnum_wedge; LineWidthTypeEnum_other ].

(* Enums.cpp:1851: tryParseLineWidthTypeEnum, the chain of comparisons *)
Definition LineWidthTypeEnum_chain : list (str * LineWidthTypeEnum) :=
  [ (lit "beam", LineWidthTypeEnum_beam); (lit "bracket", LineWidthTypeEnum_bracket);
    (lit "dashes", LineWidthTypeEnum_dashes); (lit "enclosure", LineWidthTypeEnum_enclosure);
    (lit "ending", LineWidthTypeEnum_ending); (lit "extend", LineWidthTypeEnum_extend);
    (lit "heavy barline", LineWidthTypeEnum_heavyBarline); (lit "leger", LineWidthTypeEnum_leger);
    (lit "light barline", LineWidthTypeEnum_lightBarline); (lit "octave shift", LineWidthTypeEnum_octaveShift);
    (lit "pedal", LineWidthTypeEnum_pedal); (lit "slur middle", LineWidthTypeEnum_slurMiddle);
    (lit "slur tip", LineWidthTypeEnum_slurTip); (lit "staff", LineWidthTypeEnum_staff);
    (lit "stem", LineWidthTypeEnum_stem); (lit "tie middle", LineWidthTypeEnum_tieMiddle);
    (lit "tie tip", LineWidthTypeEnum_tieTip); (lit "tuplet bracket", LineWidthTypeEnum_tupletBracket);
    (lit "wedge", LineWidthTypeEnum_wedge); (lit "other", LineWidthTypeEnum_other) ].

Definition tryParse_LineWidthTypeEnum (value : str) : option LineWidthTypeEnum := lookup_text LineWidthTypeEnum_chain value.

(* parseLineWidthTypeEnum: opt.value_or( LineWidthTypeEnum::beam ) *)
Definition parse_LineWidthTypeEnum (value : str) : LineWidthTypeEnum :=
  value_or (tryParse_LineWidthTypeEnum value) LineWidthTypeEnum_beam.

(* toString( const LineWidthTypeEnum value ), the switch and its default *)
Definition LineWidthTypeEnum_toString (value : LineWidthTypeEnum) : str :=
  match value with
  | LineWidthTypeEnum_beam => lit "beam"
  | LineWidthTypeEnum_bracket => lit "bracket"
  | LineWidthTypeEnum_dashes => lit "dashes"
  | LineWidthTypeEnum_enclosure => lit "enclosure"
  | LineWidthTypeEnum_ending => lit "ending"
  | LineWidthTypeEnum_extend => lit "extend"
  | LineWidthTypeEnum_heavyBarline => lit "heavy barline"
  | LineWidthTypeEnum_leger => lit "leger"
  | LineWidthTypeEnum_lightBarline => lit "light barline"
  | LineWidthTypeEnum_octaveShift => lit "octave shift"
  | LineWidthTypeEnum_pedal => lit "pedal"
  | LineWidthTypeEnum_slurMiddle => lit "slur middle"
  | LineWidthTypeEnum_slurTip => lit "slur tip"
  | LineWidthTypeEnum_staff => lit "staff"
  | LineWidthTypeEnum_stem => lit "stem"
  | LineWidthTypeEnum_tieMiddle => lit "tie middle"
  | LineWidthTypeEnum_tieTip => lit "tie tip"
  | LineWidthTypeEnum_tupletBracket => lit "tuplet bracket"
  | LineWidthTypeEnum_wedge => lit "wedge"
  | _ => lit "other"
  end.

(** Sourcecode/private/mx/core/Enums.h:988-993, Sourcecode/private/mx/core/Enums.cpp:2005-2042 *)
Inductive MarginType : Set :=
  | MarginType_odd | MarginType_even | MarginType_both.

Definition MarginType_members : list MarginType :=
  [ MarginType_odd; MarginType_even; MarginType_both ].

(* Enums.cpp:2005: tryParseMarginType, the chain of comparisons *)
Definition MarginType_chain : list (str * MarginType) :=
  [ (lit "odd", MarginType_odd); (lit "even", MarginType_even);
    (lit "both", MarginType_both) ].

Definition tryParse_MarginType (value : str) : option MarginType := lookup_text MarginType_chain value.

(* parseMarginType: opt.value_or( MarginType::odd ) *)
Definition parse_MarginType (value : str) : MarginType :=
  value_or (tryParse_MarginType value) MarginType_odd.

(* toString( const MarginType value ), the switch *)
Definition MarginType_toString (value : MarginType) : str :=
  match value with
  | MarginType_odd => lit "odd"
  | MarginType_even => lit "even"
  | MarginType_both => lit "both"
  end.

(** Sourcecode/private/mx/core/Enums.h:1006-1011, Sourcecode/private/mx/core/Enums.cpp:2043-2080 *)
Inductive MeasureNumberingValue : Set :=
  | MeasureNumberingValue_none | MeasureNumberingValue_measure | MeasureNumberingValue_system.

Definition MeasureNumberingValue_members : list MeasureNumberingValue :=
  [ MeasureNumberingValue_none; MeasureNumberingValue_measure; MeasureNumberingValue_system ].

(* Enums.cpp:2043: tryParseMeasureNumberingValue, the chain of comparisons *)
Definition MeasureNumberingValue_chain : list (str * MeasureNumberingValue) :=
  [ (lit "none", MeasureNumberingValue_none); (lit "measure", MeasureNumberingValue_measure);
    (lit "system", MeasureNumberingValue_system) ].

Definition tryParse_MeasureNumberingValue (value : str) : option MeasureNumberingValue := lookup_text MeasureNumberingValue_chain value.

(* parseMeasureNumberingValue: opt.value_or( MeasureNumberingValue::none ) *)
Definition parse_MeasureNumberingValue (value : str) : MeasureNumberingValue :=
  value_or (tryParse_MeasureNumberingValue value) MeasureNumberingValue_none.

(* toString( const MeasureNumberingValue value ), the switch *)
Definition MeasureNumberingValue_toString (value : MeasureNumberingValue) : str :=
  match value with
  | MeasureNumberingValue_none => lit "none"
  | MeasureNumberingValue_measure => lit "measure"
  | MeasureNumberingValue_system => lit "system"
  end.

(** Sourcecode/private/mx/core/Enums.h:1024-1038, Sourcecode/private/mx/core/Enums.cpp:2081-2136 *)
Inductive MembraneEnum : Set :=
  | MembraneEnum_bassDrum | MembraneEnum_bassDrumOnSide | MembraneEnum_bongos | MembraneEnum_congaDrum | MembraneEnum_gobletDrum
  | MembraneEnum_militaryDrum | MembraneEnum_snareDrum | MembraneEnum_snareDrumSnaresOff | MembraneEnum_tambourine | MembraneEnum_tenorDrum
  | MembraneEnum_timbales | MembraneEnum_tomtom.

Definition MembraneEnum_members : list MembraneEnum :=
  [ MembraneEnum_bassDrum; MembraneEnum_bassDrumOnSide; MembraneEnum_bongos; MembraneEnum_congaDrum;
    MembraneEnum_gobletDrum; MembraneEnum_militaryDrum; MembraneEnum_snareDrum; MembraneEnum_snareDrumSnaresOff;
    MembraneEnum_tambourine; MembraneEnum_tenorDrum; MembraneEnum_timbales; MembraneEnum_tomtom ].

(* Enums.cpp:2081: tryParseMembraneEnum, the chain of comparisons *)
Definition MembraneEnum_chain : list (str * MembraneEnum) :=
  [ (lit "bass drum", MembraneEnum_bassDrum); (lit "bass drum on side", MembraneEnum_bassDrumOnSide);
    (lit "bongos", MembraneEnum_bongos); (lit "conga drum", MembraneEnum_congaDrum);
    (lit "goblet drum", MembraneEnum_gobletDrum); (lit "military drum", MembraneEnum_militaryDrum);
    (lit "snare drum", MembraneEnum_snareDrum); (lit "snare drum snares off", MembraneEnum_snareDrumSnaresOff);
    (lit "tambourine", MembraneEnum_tambourine); (lit "tenor drum", MembraneEnum_tenorDrum);
    (lit "timbales", MembraneEnum_timbales); (lit "tomtom", MembraneEnum_tomtom) ].

Definition tryParse_MembraneEnum (value : str) : option MembraneEnum := lookup_text MembraneEnum_chain value.

(* parseMembraneEnum: opt.value_or( MembraneEnum::bassDrum ) *)
Definition parse_MembraneEnum (value : str) : MembraneEnum :=
  value_or (tryParse_MembraneEnum value) MembraneEnum_bassDrum.

(* toString( const MembraneEnum value ), the switch *)
Definition MembraneEnum_toString (value : MembraneEnum) : str :=
  match value with
  | MembraneEnum_bassDrum => lit "bass drum"
  | MembraneEnum_bassDrumOnSide => lit "bass drum on side"
  | MembraneEnum_bongos => lit "bongos"
  | MembraneEnum_congaDrum => lit "conga drum"
  | MembraneEnum_gobletDrum => lit "goblet drum"
  | MembraneEnum_militaryDrum => lit "military drum"
  | MembraneEnum_snareDrum => lit "snare drum"
  | MembraneEnum_snareDrumSnaresOff => lit "snare drum snares off"
  | MembraneEnum_tambourine => lit "tambourine"
  | MembraneEnum_tenorDrum => lit "tenor drum"
  | MembraneEnum_timbales => lit "timbales"
  | MembraneEnum_tomtom => lit "tomtom"
  end.

(** Sourcecode/private/mx/core/Enums.h:1052-1077, Sourcecode/private/mx/core/Enums.cpp:2137-2214 *)
Inductive MetalEnum : Set :=
  | MetalEnum_almglocken | MetalEnum_bell | MetalEnum_bellPlate | MetalEnum_brakeDrum | MetalEnum_chineseCymbal
  | MetalEnum_cowbell | MetalEnum_crashCymbals | MetalEnum_crotale | MetalEnum_cymbalTongs | MetalEnum_domedGong
  | MetalEnum_fingerCymbals | MetalEnum_flexatone | MetalEnum_gong | MetalEnum_hiHat | MetalEnum_highHatCymbals
  | MetalEnum_handbell | MetalEnum_sistrum | MetalEnum_sizzleCymbal | MetalEnum_sleighBells | MetalEnum_suspendedCymbal
  | MetalEnum_tamTam | MetalEnum_triangle | MetalEnum_vietnameseHat.

Definition MetalEnum_members : list MetalEnum :=
  [ MetalEnum_almglocken; MetalEnum_bell; MetalEnum_bellPlate; MetalEnum_brakeDrum;
    MetalEnum_chineseCymbal; MetalEnum_cowbell; MetalEnum_crashCymbals; MetalEnum_crotale;
    MetalEnum_cymbalTongs; MetalEnum_domedGong; MetalEnum_fingerCymbals; MetalEnum_flexatone;
    MetalEnum_gong; MetalEnum_hiHat; MetalEnum_highHatCymbals; MetalEnum_handbell;
    MetalEnum_sistrum; MetalEnum_sizzleCymbal; MetalEnum_sleighBells; MetalEnum_suspendedCymbal;
    MetalEnum_tamTam; MetalEnum_triangle; MetalEnum_vietnameseHat ].

(* Enums.cpp:2137: tryParseMetalEnum, the chain of comparisons *)
Definition MetalEnum_chain : list (str * MetalEnum) :=
  [ (lit "almglocken", MetalEnum_almglocken); (lit "bell", MetalEnum_bell);
    (lit "bell plate", MetalEnum_bellPlate); (lit "brake drum", MetalEnum_brakeDrum);
    (lit "Chinese cymbal", MetalEnum_chineseCymbal); (lit "cowbell", MetalEnum_cowbell);
    (lit "crash cymbals", MetalEnum_crashCymbals); (lit "crotale", MetalEnum_crotale);
    (lit "cymbal tongs", MetalEnum_cymbalTongs); (lit "domed gong", MetalEnum_domedGong);
    (lit "finger cymbals", MetalEnum_fingerCymbals); (lit "flexatone", MetalEnum_flexatone);
    (lit "gong", MetalEnum_gong); (lit "hi-hat", MetalEnum_hiHat);
    (lit "high-hat cymbals", MetalEnum_highHatCymbals); (lit "handbell", MetalEnum_handbell);
    (lit "sistrum", MetalEnum_sistrum); (lit "sizzle cymbal", MetalEnum_sizzleCymbal);
    (lit "sleigh bells", MetalEnum_sleighBells); (lit "suspended cymbal", MetalEnum_suspendedCymbal);
    (lit "tam tam", MetalEnum_tamTam); (lit "triangle", MetalEnum_triangle);
    (lit "Vietnamese hat", MetalEnum_vietnameseHat) ].

Definition tryParse_MetalEnum (value : str) : option MetalEnum := lookup_text MetalEnum_chain value.

(* parseMetalEnum: opt.value_or( MetalEnum::almglocken ) *)
Definition parse_MetalEnum (value : str) : MetalEnum :=
  value_or (tryParse_MetalEnum value) MetalEnum_almglocken.

(* toString( const MetalEnum value ), the switch *)
Definition MetalEnum_toString (value : MetalEnum) : str :=
  match value with
  | MetalEnum_almglocken => lit "almglocken"
  | MetalEnum_bell => lit "bell"
  | MetalEnum_bellPlate => lit "bell plate"
  | MetalEnum_brakeDrum => lit "brake drum"
  | MetalEnum_chineseCymbal => lit "Chinese cymbal"
  | MetalEnum_cowbell => lit "cowbell"
  | MetalEnum_crashCymbals => lit "crash cymbals"
  | MetalEnum_crotale => lit "crotale"
  | MetalEnum_cymbalTongs => lit "cymbal tongs"
  | MetalEnum_domedGong => lit "domed gong"
  | MetalEnum_fingerCymbals => lit "finger cymbals"
  | MetalEnum_flexatone => lit "flexatone"
  | MetalEnum_gong => lit "gong"
  | MetalEnum_hiHat => lit "hi-hat"
  | MetalEnum_highHatCymbals => lit "high-hat cymbals"
  | MetalEnum_handbell => lit "handbell"
  | MetalEnum_sistrum => lit "sistrum"
  | MetalEnum_sizzleCymbal => lit "sizzle cymbal"
  | MetalEnum_sleighBells => lit "sleigh bells"
  | MetalEnum_suspendedCymbal => lit "suspended cymbal"
  | MetalEnum_tamTam => lit "tam tam"
  | MetalEnum_triangle => lit "triangle"
  | MetalEnum_vietnameseHat => lit "Vietnamese hat"
  end.

(** Sourcecode/private/mx/core/Enums.h:1091-1104, Sourcecode/private/mx/core/Enums.cpp:2215-2350 *)
Inductive ModeEnum : Set :=
  | ModeEnum_major | ModeEnum_minor | ModeEnum_dorian | ModeEnum_phrygian | ModeEnum_lydian
  | ModeEnum_mixolydian | ModeEnum_aeolian | ModeEnum_ionian | ModeEnum_locrian | ModeEnum_none
  | ModeEnum_other.

Definition ModeEnum_members : list ModeEnum :=
  [ ModeEnum_major; ModeEnum_minor; ModeEnum_dorian; ModeEnum_phrygian;
    ModeEnum_lydian; ModeEnum_mixolydian; ModeEnum_aeolian; ModeEnum_ionian;
    ModeEnum_locrian; ModeEnum_none; ModeEnum_other ].

(* Enums.cpp:2215: tryParseModeEnum, the chain of comparisons *)
Definition ModeEnum_chain : list (str * ModeEnum) :=
  [ (lit "major", ModeEnum_major); (lit "minor", ModeEnum_minor);
    (lit "dorian", ModeEnum_dorian); (lit "phrygian", ModeEnum_phrygian);
    (lit "lydian", ModeEnum_lydian); (lit "mixolydian", ModeEnum_mixolydian);
    (lit "aeolian", ModeEnum_aeolian); (lit "ionian", ModeEnum_ionian);
    (lit "locrian", ModeEnum_locrian); (lit "none", ModeEnum_none);
    (lit "other", ModeEnum_other) ].

Definition tryParse_ModeEnum (value : str) : option ModeEnum := lookup_text ModeEnum_chain value.

(* parseModeEnum: opt.value_or( ModeEnum::major ) *)
Definition parse_ModeEnum (value : str) : ModeEnum :=
  value_or (tryParse_ModeEnum value) ModeEnum_major.

(* toString( const ModeEnum value ), the switch and its default *)
Definition ModeEnum_toString (value : ModeEnum) : str :=
  match value with
  | ModeEnum_major => lit "major"
  | ModeEnum_minor => lit "minor"
  | ModeEnum_dorian => lit "dorian"
  | ModeEnum_phrygian => lit "phrygian"
  | ModeEnum_lydian => lit "lydian"
  | ModeEnum_mixolydian => lit "mixolydian"
  | ModeEnum_aeolian => lit "aeolian"
  | ModeEnum_ionian => lit "ionian"
  | ModeEnum_locrian => lit "locrian"
  | ModeEnum_none => lit "none"
  | _ => lit "other"
  end.

(** Sourcecode/private/mx/core/Enums.h:1138-1155, Sourcecode/private/mx/core/Enums.cpp:2351-2412 *)
Inductive MuteEnum : Set :=
  | MuteEnum_on | MuteEnum_off | MuteEnum_straight | MuteEnum_cup | MuteEnum_harmonNoStem
  | MuteEnum_harmonStem | MuteEnum_bucket | MuteEnum_plunger | MuteEnum_hat | MuteEnum_solotone
  | MuteEnum_practice | MuteEnum_stopMute | MuteEnum_stopHand | MuteEnum_echo | MuteEnum_palm.

Definition MuteEnum_members : list MuteEnum :=
  [ MuteEnum_on; MuteEnum_off; MuteEnum_straight; MuteEnum_cup;
    MuteEnum_harmonNoStem; MuteEnum_harmonStem; MuteEnum_bucket; MuteEnum_plunger;
    MuteEnum_hat; MuteEnum_solotone; MuteEnum_practice; MuteEnum_stopMute;
    MuteEnum_stopHand; MuteEnum_echo; MuteEnum_palm ].

(* Enums.cpp:2351: tryParseMuteEnum, the chain of comparisons *)
Definition MuteEnum_chain : list (str * MuteEnum) :=
  [ (lit "on", MuteEnum_on); (lit "off", MuteEnum_off);
    (lit "straight", MuteEnum_straight); (lit "cup", MuteEnum_cup);
    (lit "harmon-no-stem", MuteEnum_harmonNoStem); (lit "harmon-stem", MuteEnum_harmonStem);
    (lit "bucket", MuteEnum_bucket); (lit "plunger", MuteEnum_plunger);
    (lit "hat", MuteEnum_hat); (lit "solotone", MuteEnum_solotone);
    (lit "practice", MuteEnum_practice); (lit "stop-mute", MuteEnum_stopMute);
    (lit "stop-hand", MuteEnum_stopHand); (lit "echo", MuteEnum_echo);
    (lit "palm", MuteEnum_palm) ].

Definition tryParse_MuteEnum (value : str) : option MuteEnum := lookup_text MuteEnum_chain value.

(* parseMuteEnum: opt.value_or( MuteEnum::on ) *)
Definition parse_MuteEnum (value : str) : MuteEnum :=
  value_or (tryParse_MuteEnum value) MuteEnum_on.

(* toString( const MuteEnum value ), the switch *)
Definition MuteEnum_toString (value : MuteEnum) : str :=
  match value with
  | MuteEnum_on => lit "on"
  | MuteEnum_off => lit "off"
  | MuteEnum_straight => lit "straight"
  | MuteEnum_cup => lit "cup"
  | MuteEnum_harmonNoStem => lit "harmon-no-stem"
  | MuteEnum_harmonStem => lit "harmon-stem"
  | MuteEnum_bucket => lit "bucket"
  | MuteEnum_plunger => lit "plunger"
  | MuteEnum_hat => lit "hat"
  | MuteEnum_solotone => lit "solotone"
  | MuteEnum_practice => lit "practice"
  | MuteEnum_stopMute => lit "stop-mute"
  | MuteEnum_stopHand => lit "stop-hand"
  | MuteEnum_echo => lit "echo"
  | MuteEnum_palm => lit "palm"
  end.

(** Sourcecode/private/mx/core/Enums.h:1170-1175, Sourcecode/private/mx/core/Enums.cpp:2413-2450 *)
Inductive NoteSizeType : Set :=
  | NoteSizeType_cue | NoteSizeType_grace | NoteSizeType_large.

Definition NoteSizeType_members : list NoteSizeType :=
  [ NoteSizeType_cue; NoteSizeType_grace; NoteSizeType_large ].

(* Enums.cpp:2413: tryParseNoteSizeType, the chain of comparisons *)
Definition NoteSizeType_chain : list (str * NoteSizeType) :=
  [ (lit "cue", NoteSizeType_cue); (lit "grace", NoteSizeType_grace);
    (lit "large", NoteSizeType_large) ].

Definition tryParse_NoteSizeType (value : str) : option NoteSizeType := lookup_text NoteSizeType_chain value.

(* parseNoteSizeType: opt.value_or( NoteSizeType::cue ) *)
Definition parse_NoteSizeType (value : str) : NoteSizeType :=
  value_or (tryParse_NoteSizeType value) NoteSizeType_cue.

(* toString( const NoteSizeType value ), the switch *)
Definition NoteSizeType_toString (value : NoteSizeType) : str :=
  match value with
  | NoteSizeType_cue => lit "cue"
  | NoteSizeType_grace => lit "grace"
  | NoteSizeType_large => lit "large"
  end.

(** Sourcecode/private/mx/core/Enums.h:1188-1204, Sourcecode/private/mx/core/Enums.cpp:2451-2510 *)
Inductive NoteTypeValue : Set :=
  | NoteTypeValue_oneThousandTwentyFourth | NoteTypeValue_fiveHundredTwelfth | NoteTypeValue_twoHundredFifthySixth | NoteTypeValue_oneHundredTwentyEighth | NoteTypeValue_sixtyFourth
  | NoteTypeValue_thirtySecond | NoteTypeValue_sixteenth | NoteTypeValue_eighth | NoteTypeValue_quarter | NoteTypeValue_half
  | NoteTypeValue_whole | NoteTypeValue_breve | NoteTypeValue_long_ | NoteTypeValue_maxima.

Definition NoteTypeValue_members : list NoteTypeValue :=
  [ NoteTypeValue_oneThousandTwentyFourth; NoteTypeValue_fiveHundredTwelfth; NoteTypeValue_twoHundredFifthySixth; NoteTypeValue_oneHundredTwentyEighth;
    NoteTypeValue_sixtyFourth; NoteTypeValue_thirtySecond; NoteTypeValue_sixteenth; NoteTypeValue_eighth;
    NoteTypeValue_quarter; NoteTypeValue_half; NoteTypeValue_whole; NoteTypeValue_breve;
    NoteTypeValue_long_; NoteTypeValue_maxima ].

(* Enums.cpp:2451: tryParseNoteTypeValue, the chain of comparisons *)
Definition NoteTypeValue_chain : list (str * NoteTypeValue) :=
  [ (lit "1024th", NoteTypeValue_oneThousandTwentyFourth); (lit "512th", NoteTypeValue_fiveHundredTwelfth);
    (lit "256th", NoteTypeValue_twoHundredFifthySixth); (lit "128th", NoteTypeValue_oneHundredTwentyEighth);
    (lit "64th", NoteTypeValue_sixtyFourth); (lit "32nd", NoteTypeValue_thirtySecond);
    (lit "16th", NoteTypeValue_sixteenth); (lit "eighth", NoteTypeValue_eighth);
    (lit "quarter", NoteTypeValue_quarter); (lit "half", NoteTypeValue_half);
    (lit "whole", NoteTypeValue_whole); (lit "breve", NoteTypeValue_breve);
    (lit "long", NoteTypeValue_long_); (lit "maxima", NoteTypeValue_maxima) ].

Definition tryParse_NoteTypeValue (value : str) : option NoteTypeValue := lookup_text NoteTypeValue_chain value.

(* parseNoteTypeValue: opt.value_or( NoteTypeValue::oneThousandTwentyFourth ) *)
Definition parse_NoteTypeValue (value : str) : NoteTypeValue :=
  value_or (tryParse_NoteTypeValue value) NoteTypeValue_oneThousandTwentyFourth.

(* toString( const NoteTypeValue value ), the switch *)
Definition NoteTypeValue_toString (value : NoteTypeValue) : str :=
  match value with
  | NoteTypeValue_oneThousandTwentyFourth => lit "1024th"
  | NoteTypeValue_fiveHundredTwelfth => lit "512th"
  | NoteTypeValue_twoHundredFifthySixth => lit "256th"
  | NoteTypeValue_oneHundredTwentyEighth => lit "128th"
  | NoteTypeValue_sixtyFourth => lit "64th"
  | NoteTypeValue_thirtySecond => lit "32nd"
  | NoteTypeValue_sixteenth => lit "16th"
  | NoteTypeValue_eighth => lit "eighth"
  | NoteTypeValue_quarter => lit "quarter"
  | NoteTypeValue_half => lit "half"
  | NoteTypeValue_whole => lit "whole"
  | NoteTypeValue_breve => lit "breve"
  | NoteTypeValue_long_ => lit "long"
  | NoteTypeValue_maxima => lit "maxima"
  end.

(** Sourcecode/private/mx/core/Enums.h:1225-1253, Sourcecode/private/mx/core/Enums.cpp:2511-2594 *)
Inductive NoteheadValue : Set :=
  | NoteheadValue_slash | NoteheadValue_triangle | NoteheadValue_diamond | NoteheadValue_square | NoteheadValue_cross
  | NoteheadValue_x | NoteheadValue_circleX | NoteheadValue_invertedTriangle | NoteheadValue_arrowDown | NoteheadValue_arrowUp
  | NoteheadValue_slashed | NoteheadValue_backSlashed | NoteheadValue_normal | NoteheadValue_cluster | NoteheadValue_circleDot
  | NoteheadValue_leftTriangle | NoteheadValue_rectangle | NoteheadValue_none | NoteheadValue_do_ | NoteheadValue_re
  | NoteheadValue_mi | NoteheadValue_fa | NoteheadValue_faUp | NoteheadValue_so | NoteheadValue_la
  | NoteheadValue_ti.

Definition NoteheadValue_members : list NoteheadValue :=
  [ NoteheadValue_slash; NoteheadValue_triangle; NoteheadValue_diamond; NoteheadValue_square;
    NoteheadValue_cross; NoteheadValue_x; NoteheadValue_circleX; NoteheadValue_invertedTriangle;
    NoteheadValue_arrowDown; NoteheadValue_arrowUp; NoteheadValue_slashed; NoteheadValue_backSlashed;
    NoteheadValue_normal; NoteheadValue_cluster; NoteheadValue_circleDot; NoteheadValue_leftTriangle;
    NoteheadValue_rectangle; NoteheadValue_none; NoteheadValue_do_; NoteheadValue_re;
    NoteheadValue_mi; NoteheadValue_fa; NoteheadValue_faUp; NoteheadValue_so;
    NoteheadValue_la; NoteheadValue_ti ].

(* Enums.cpp:2511: tryParseNoteheadValue, the chain of comparisons *)
Definition NoteheadValue_chain : list (str * NoteheadValue) :=
  [ (lit "slash", NoteheadValue_slash); (lit "triangle", NoteheadValue_triangle);
    (lit "diamond", NoteheadValue_diamond); (lit "square", NoteheadValue_square);
    (lit "cross", NoteheadValue_cross); (lit "x", NoteheadValue_x);
    (lit "circle-x", NoteheadValue_circleX); (lit "inverted triangle", NoteheadValue_invertedTriangle);
    (lit "arrow down", NoteheadValue_arrowDown); (lit "arrow up", NoteheadValue_arrowUp);
    (lit "slashed", NoteheadValue_slashed); (lit "back slashed", NoteheadValue_backSlashed);
    (lit "normal", NoteheadValue_normal); (lit "cluster", NoteheadValue_cluster);
    (lit "circle dot", NoteheadValue_circleDot); (lit "left triangle", NoteheadValue_leftTriangle);
    (lit "rectangle", NoteheadValue_rectangle); (lit "none", NoteheadValue_none);
    (lit "do", NoteheadValue_do_); (lit "re", NoteheadValue_re);
    (lit "mi", NoteheadValue_mi); (lit "fa", NoteheadValue_fa);
    (lit "fa up", NoteheadValue_faUp); (lit "so", NoteheadValue_so);
    (lit "la", NoteheadValue_la); (lit "ti", NoteheadValue_ti) ].

Definition tryParse_NoteheadValue (value : str) : option NoteheadValue := lookup_text NoteheadValue_chain value.

(* parseNoteheadValue: opt.value_or( NoteheadValue::slash ) *)
Definition parse_NoteheadValue (value : str) : NoteheadValue :=
  value_or (tryParse_NoteheadValue value) NoteheadValue_slash.

(* toString( const NoteheadValue value ), the switch *)
Definition NoteheadValue_toString (value : NoteheadValue) : str :=
  match value with
  | NoteheadValue_slash => lit "slash"
  | NoteheadValue_triangle => lit "triangle"
  | NoteheadValue_diamond => lit "diamond"
  | NoteheadValue_square => lit "square"
  | NoteheadValue_cross => lit "cross"
  | NoteheadValue_x => lit "x"
  | NoteheadValue_circleX => lit "circle-x"
  | NoteheadValue_invertedTriangle => lit "inverted triangle"
  | NoteheadValue_arrowDown => lit "arrow down"
  | NoteheadValue_arrowUp => lit "arrow up"
  | NoteheadValue_slashed => lit "slashed"
  | NoteheadValue_backSlashed => lit "back slashed"
  | NoteheadValue_normal => lit "normal"
  | NoteheadValue_cluster => lit "cluster"
  | NoteheadValue_circleDot => lit "circle dot"
  | NoteheadValue_leftTriangle => lit "left triangle"
  | NoteheadValue_rectangle => lit "rectangle"
  | NoteheadValue_none => lit "none"
  | NoteheadValue_do_ => lit "do"
  | NoteheadValue_re => lit "re"
  | NoteheadValue_mi => lit "mi"
  | NoteheadValue_fa => lit "fa"
  | NoteheadValue_faUp => lit "fa up"
  | NoteheadValue_so => lit "so"
  | NoteheadValue_la => lit "la"
  | NoteheadValue_ti => lit "ti"
  end.

(** Sourcecode/private/mx/core/Enums.h:1265-1269, Sourcecode/private/mx/core/Enums.cpp:2595-2630 *)
Inductive OnOff : Set :=
  | OnOff_on | OnOff_off.

Definition OnOff_members : list OnOff :=
  [ OnOff_on; OnOff_off ].

(* Enums.cpp:2595: tryParseOnOff, the chain of comparisons *)
Definition OnOff_chain : list (str * OnOff) :=
  [ (lit "on", OnOff_on); (lit "off", OnOff_off) ].

Definition tryParse_OnOff (value : str) : option OnOff := lookup_text OnOff_chain value.

(* parseOnOff: opt.value_or( OnOff::on ) *)
Definition parse_OnOff (value : str) : OnOff :=
  value_or (tryParse_OnOff value) OnOff_on.

(* toString( const OnOff value ), the switch *)
Definition OnOff_toString (value : OnOff) : str :=
  match value with
  | OnOff_on => lit "on"
  | OnOff_off => lit "off"
  end.

(** Sourcecode/private/mx/core/Enums.h:1282-1286, Sourcecode/private/mx/core/Enums.cpp:2631-2666 *)
Inductive OverUnder : Set :=
  | OverUnder_over | OverUnder_under.

Definition OverUnder_members : list OverUnder :=
  [ OverUnder_over; OverUnder_under ].

(* Enums.cpp:2631: tryParseOverUnder, the chain of comparisons *)
Definition OverUnder_chain : list (str * OverUnder) :=
  [ (lit "over", OverUnder_over); (lit "under", OverUnder_under) ].

Definition tryParse_OverUnder (value : str) : option OverUnder := lookup_text OverUnder_chain value.

(* parseOverUnder: opt.value_or( OverUnder::over ) *)
Definition parse_OverUnder (value : str) : OverUnder :=
  value_or (tryParse_OverUnder value) OverUnder_over.

(* toString( const OverUnder value ), the switch *)
Definition OverUnder_toString (value : OverUnder) : str :=
  match value with
  | OverUnder_over => lit "over"
  | OverUnder_under => lit "under"
  end.

(** Sourcecode/private/mx/core/Enums.h:1300-1309, Sourcecode/private/mx/core/Enums.cpp:2667-2712 *)
Inductive PitchedEnum : Set :=
  | PitchedEnum_chimes | PitchedEnum_glockenspiel | PitchedEnum_mallet | PitchedEnum_marimba | PitchedEnum_tubularChimes
  | PitchedEnum_vibraphone | PitchedEnum_xylophone.

Definition PitchedEnum_members : list PitchedEnum :=
  [ PitchedEnum_chimes; PitchedEnum_glockenspiel; PitchedEnum_mallet; PitchedEnum_marimba;
    PitchedEnum_tubularChimes; PitchedEnum_vibraphone; PitchedEnum_xylophone ].

(* Enums.cpp:2667: tryParsePitchedEnum, the chain of comparisons *)
Definition PitchedEnum_chain : list (str * PitchedEnum) :=
  [ (lit "chimes", PitchedEnum_chimes); (lit "glockenspiel", PitchedEnum_glockenspiel);
    (lit "mallet", PitchedEnum_mallet); (lit "marimba", PitchedEnum_marimba);
    (lit "tubular chimes", PitchedEnum_tubularChimes); (lit "vibraphone", PitchedEnum_vibraphone);
    (lit "xylophone", PitchedEnum_xylophone) ].

Definition tryParse_PitchedEnum (value : str) : option PitchedEnum := lookup_text PitchedEnum_chain value.

(* parsePitchedEnum: opt.value_or( PitchedEnum::chimes ) *)
Definition parse_PitchedEnum (value : str) : PitchedEnum :=
  value_or (tryParse_PitchedEnum value) PitchedEnum_chimes.

(* toString( const PitchedEnum value ), the switch *)
Definition PitchedEnum_toString (value : PitchedEnum) : str :=
  match value with
  | PitchedEnum_chimes => lit "chimes"
  | PitchedEnum_glockenspiel => lit "glockenspiel"
  | PitchedEnum_mallet => lit "mallet"
  | PitchedEnum_marimba => lit "marimba"
  | PitchedEnum_tubularChimes => lit "tubular chimes"
  | PitchedEnum_vibraphone => lit "vibraphone"
  | PitchedEnum_xylophone => lit "xylophone"
  end.

(** Sourcecode/private/mx/core/Enums.h:1324-1330, Sourcecode/private/mx/core/Enums.cpp:2713-2752 *)
Inductive PrincipalVoiceSymbol : Set :=
  | PrincipalVoiceSymbol_hauptstimme | PrincipalVoiceSymbol_nebenstimme | PrincipalVoiceSymbol_plain | PrincipalVoiceSymbol_none.

Definition PrincipalVoiceSymbol_members : list PrincipalVoiceSymbol :=
  [ PrincipalVoiceSymbol_hauptstimme; PrincipalVoiceSymbol_nebenstimme; PrincipalVoiceSymbol_plain; PrincipalVoiceSymbol_none ].

(* Enums.cpp:2713: tryParsePrincipalVoiceSymbol, the chain of comparisons *)
Definition PrincipalVoiceSymbol_chain : list (str * PrincipalVoiceSymbol) :=
  [ (lit "Hauptstimme", PrincipalVoiceSymbol_hauptstimme); (lit "Nebenstimme", PrincipalVoiceSymbol_nebenstimme);
    (lit "plain", PrincipalVoiceSymbol_plain); (lit "none", PrincipalVoiceSymbol_none) ].

Definition tryParse_PrincipalVoiceSymbol (value : str) : option PrincipalVoiceSymbol := lookup_text PrincipalVoiceSymbol_chain value.

(* parsePrincipalVoiceSymbol: opt.value_or( PrincipalVoiceSymbol::hauptstimme ) *)
Definition parse_PrincipalVoiceSymbol (value : str) : PrincipalVoiceSymbol :=
  value_or (tryParse_PrincipalVoiceSymbol value) PrincipalVoiceSymbol_hauptstimme.

(* toString( const PrincipalVoiceSymbol value ), the switch *)
Definition PrincipalVoiceSymbol_toString (value : PrincipalVoiceSymbol) : str :=
  match value with
  | PrincipalVoiceSymbol_hauptstimme => lit "Hauptstimme"
  | PrincipalVoiceSymbol_nebenstimme => lit "Nebenstimme"
  | PrincipalVoiceSymbol_plain => lit "plain"
  | PrincipalVoiceSymbol_none => lit "none"
  end.

(** Sourcecode/private/mx/core/Enums.h:1342-1347, Sourcecode/private/mx/core/Enums.cpp:2753-2790 *)
Inductive RightLeftMiddle : Set :=
  | RightLeftMiddle_right | RightLeftMiddle_left | RightLeftMiddle_middle.

Definition RightLeftMiddle_members : list RightLeftMiddle :=
  [ RightLeftMiddle_right; RightLeftMiddle_left; RightLeftMiddle_middle ].

(* Enums.cpp:2753: tryParseRightLeftMiddle, the chain of comparisons *)
Definition RightLeftMiddle_chain : list (str * RightLeftMiddle) :=
  [ (lit "right", RightLeftMiddle_right); (lit "left", RightLeftMiddle_left);
    (lit "middle", RightLeftMiddle_middle) ].

Definition tryParse_RightLeftMiddle (value : str) : option RightLeftMiddle := lookup_text RightLeftMiddle_chain value.

(* parseRightLeftMiddle: opt.value_or( RightLeftMiddle::right ) *)
Definition parse_RightLeftMiddle (value : str) : RightLeftMiddle :=
  value_or (tryParse_RightLeftMiddle value) RightLeftMiddle_right.

(* toString( const RightLeftMiddle value ), the switch *)
Definition RightLeftMiddle_toString (value : RightLeftMiddle) : str :=
  match value with
  | RightLeftMiddle_right => lit "right"
  | RightLeftMiddle_left => lit "left"
  | RightLeftMiddle_middle => lit "middle"
  end.

(** Sourcecode/private/mx/core/Enums.h:1360-1368, Sourcecode/private/mx/core/Enums.cpp:2791-2834 *)
Inductive SemiPitchedEnum : Set :=
  | SemiPitchedEnum_high | SemiPitchedEnum_mediumHigh | SemiPitchedEnum_medium | SemiPitchedEnum_mediumLow | SemiPitchedEnum_low
  | SemiPitchedEnum_veryLow.

Definition SemiPitchedEnum_members : list SemiPitchedEnum :=
  [ SemiPitchedEnum_high; SemiPitchedEnum_mediumHigh; SemiPitchedEnum_medium; SemiPitchedEnum_mediumLow;
    SemiPitchedEnum_low; SemiPitchedEnum_veryLow ].

(* Enums.cpp:2791: tryParseSemiPitchedEnum, the chain of comparisons *)
Definition SemiPitchedEnum_chain : list (str * SemiPitchedEnum) :=
  [ (lit "high", SemiPitchedEnum_high); (lit "medium-high", SemiPitchedEnum_mediumHigh);
    (lit "medium", SemiPitchedEnum_medium); (lit "medium-low", SemiPitchedEnum_mediumLow);
    (lit "low", SemiPitchedEnum_low); (lit "very-low", SemiPitchedEnum_veryLow) ].

Definition tryParse_SemiPitchedEnum (value : str) : option SemiPitchedEnum := lookup_text SemiPitchedEnum_chain value.

(* parseSemiPitchedEnum: opt.value_or( SemiPitchedEnum::high ) *)
Definition parse_SemiPitchedEnum (value : str) : SemiPitchedEnum :=
  value_or (tryParse_SemiPitchedEnum value) SemiPitchedEnum_high.

(* toString( const SemiPitchedEnum value ), the switch *)
Definition SemiPitchedEnum_toString (value : SemiPitchedEnum) : str :=
  match value with
  | SemiPitchedEnum_high => lit "high"
  | SemiPitchedEnum_mediumHigh => lit "medium-high"
  | SemiPitchedEnum_medium => lit "medium"
  | SemiPitchedEnum_mediumLow => lit "medium-low"
  | SemiPitchedEnum_low => lit "low"
  | SemiPitchedEnum_veryLow => lit "very-low"
  end.

(** Sourcecode/private/mx/core/Enums.h:1381-1385, Sourcecode/private/mx/core/Enums.cpp:2835-2870 *)
Inductive ShowFrets : Set :=
  | ShowFrets_numbers | ShowFrets_letters.

Definition ShowFrets_members : list ShowFrets :=
  [ ShowFrets_numbers; ShowFrets_letters ].

(* Enums.cpp:2835: tryParseShowFrets, the chain of comparisons *)
Definition ShowFrets_chain : list (str * ShowFrets) :=
  [ (lit "numbers", ShowFrets_numbers); (lit "letters", ShowFrets_letters) ].

Definition tryParse_ShowFrets (value : str) : option ShowFrets := lookup_text ShowFrets_chain value.

(* parseShowFrets: opt.value_or( ShowFrets::numbers ) *)
Definition parse_ShowFrets (value : str) : ShowFrets :=
  value_or (tryParse_ShowFrets value) ShowFrets_numbers.

(* toString( const ShowFrets value ), the switch *)
Definition ShowFrets_toString (value : ShowFrets) : str :=
  match value with
  | ShowFrets_numbers => lit "numbers"
  | ShowFrets_letters => lit "letters"
  end.

(** Sourcecode/private/mx/core/Enums.h:1398-1403, Sourcecode/private/mx/core/Enums.cpp:2871-2908 *)
Inductive ShowTuplet : Set :=
  | ShowTuplet_actual | ShowTuplet_both | ShowTuplet_none.

Definition ShowTuplet_members : list ShowTuplet :=
  [ ShowTuplet_actual; ShowTuplet_both; ShowTuplet_none ].

(* Enums.cpp:2871: tryParseShowTuplet, the chain of comparisons *)
Definition ShowTuplet_chain : list (str * ShowTuplet) :=
  [ (lit "actual", ShowTuplet_actual); (lit "both", ShowTuplet_both);
    (lit "none", ShowTuplet_none) ].

Definition tryParse_ShowTuplet (value : str) : option ShowTuplet := lookup_text ShowTuplet_chain value.

(* parseShowTuplet: opt.value_or( ShowTuplet::actual ) *)
Definition parse_ShowTuplet (value : str) : ShowTuplet :=
  value_or (tryParse_ShowTuplet value) ShowTuplet_actual.

(* toString( const ShowTuplet value ), the switch *)
Definition ShowTuplet_toString (value : ShowTuplet) : str :=
  match value with
  | ShowTuplet_actual => lit "actual"
  | ShowTuplet_both => lit "both"
  | ShowTuplet_none => lit "none"
  end.

(** Sourcecode/private/mx/core/Enums.h:1417-1424, Sourcecode/private/mx/core/Enums.cpp:2909-2950 *)
Inductive StaffTypeEnum : Set :=
  | StaffTypeEnum_ossia | StaffTypeEnum_cue | StaffTypeEnum_editorial | StaffTypeEnum_regular | StaffTypeEnum_alternate.

Definition StaffTypeEnum_members : list StaffTypeEnum :=
  [ StaffTypeEnum_ossia; StaffTypeEnum_cue; StaffTypeEnum_editorial; StaffTypeEnum_regular;
    StaffTypeEnum_alternate ].

(* Enums.cpp:2909: tryParseStaffTypeEnum, the chain of comparisons *)
Definition StaffTypeEnum_chain : list (str * StaffTypeEnum) :=
  [ (lit "ossia", StaffTypeEnum_ossia); (lit "cue", StaffTypeEnum_cue);
    (lit "editorial", StaffTypeEnum_editorial); (lit "regular", StaffTypeEnum_regular);
    (lit "alternate", StaffTypeEnum_alternate) ].

Definition tryParse_StaffTypeEnum (value : str) : option StaffTypeEnum := lookup_text StaffTypeEnum_chain value.

(* parseStaffTypeEnum: opt.value_or( StaffTypeEnum::ossia ) *)
Definition parse_StaffTypeEnum (value : str) : StaffTypeEnum :=
  value_or (tryParse_StaffTypeEnum value) StaffTypeEnum_ossia.

(* toString( const StaffTypeEnum value ), the switch *)
Definition StaffTypeEnum_toString (value : StaffTypeEnum) : str :=
  match value with
  | StaffTypeEnum_ossia => lit "ossia"
  | StaffTypeEnum_cue => lit "cue"
  | StaffTypeEnum_editorial => lit "editorial"
  | StaffTypeEnum_regular => lit "regular"
  | StaffTypeEnum_alternate => lit "alternate"
  end.

(** Sourcecode/private/mx/core/Enums.h:1437-1442, Sourcecode/private/mx/core/Enums.cpp:2951-2988 *)
Inductive StartNote : Set :=
  | StartNote_upper | StartNote_main | StartNote_below.

Definition StartNote_members : list StartNote :=
  [ StartNote_upper; StartNote_main; StartNote_below ].

(* Enums.cpp:2951: tryParseStartNote, the chain of comparisons *)
Definition StartNote_chain : list (str * StartNote) :=
  [ (lit "upper", StartNote_upper); (lit "main", StartNote_main);
    (lit "below", StartNote_below) ].

Definition tryParse_StartNote (value : str) : option StartNote := lookup_text StartNote_chain value.

(* parseStartNote: opt.value_or( StartNote::upper ) *)
Definition parse_StartNote (value : str) : StartNote :=
  value_or (tryParse_StartNote value) StartNote_upper.

(* toString( const StartNote value ), the switch *)
Definition StartNote_toString (value : StartNote) : str :=
  match value with
  | StartNote_upper => lit "upper"
  | StartNote_main => lit "main"
  | StartNote_below => lit "below"
  end.

(** Sourcecode/private/mx/core/Enums.h:1462-1466, Sourcecode/private/mx/core/Enums.cpp:2989-3024 *)
Inductive StartStop : Set :=
  | StartStop_start | StartStop_stop.

Definition StartStop_members : list StartStop :=
  [ StartStop_start; StartStop_stop ].

(* Enums.cpp:2989: tryParseStartStop, the chain of comparisons *)
Definition StartStop_chain : list (str * StartStop) :=
  [ (lit "start", StartStop_start); (lit "stop", StartStop_stop) ].

Definition tryParse_StartStop (value : str) : option StartStop := lookup_text StartStop_chain value.

(* parseStartStop: opt.value_or( StartStop::start ) *)
Definition parse_StartStop (value : str) : StartStop :=
  value_or (tryParse_StartStop value) StartStop_start.

(* toString( const StartStop value ), the switch *)
Definition StartStop_toString (value : StartStop) : str :=
  match value with
  | StartStop_start => lit "start"
  | StartStop_stop => lit "stop"
  end.

(** Sourcecode/private/mx/core/Enums.h:1478-1484, Sourcecode/private/mx/core/Enums.cpp:3025-3064 *)
Inductive StartStopChangeContinue : Set :=
  | StartStopChangeContinue_start | StartStopChangeContinue_stop | StartStopChangeContinue_change | StartStopChangeContinue_continue_.

Definition StartStopChangeContinue_members : list StartStopChangeContinue :=
  [ StartStopChangeContinue_start; StartStopChangeContinue_stop; StartStopChangeContinue_change; StartStopChangeContinue_continue_ ].

(* Enums.cpp:3025: tryParseStartStopChangeContinue, the chain of comparisons *)
Definition StartStopChangeContinue_chain : list (str * StartStopChangeContinue) :=
  [ (lit "start", StartStopChangeContinue_start); (lit "stop", StartStopChangeContinue_stop);
    (lit "change", StartStopChangeContinue_change); (lit "continue", StartStopChangeContinue_continue_) ].

Definition tryParse_StartStopChangeContinue (value : str) : option StartStopChangeContinue := lookup_text StartStopChangeContinue_chain value.

(* parseStartStopChangeContinue: opt.value_or( StartStopChangeContinue::start ) *)
Definition parse_StartStopChangeContinue (value : str) : StartStopChangeContinue :=
  value_or (tryParse_StartStopChangeContinue value) StartStopChangeContinue_start.

(* toString( const StartStopChangeContinue value ), the switch *)
Definition StartStopChangeContinue_toString (value : StartStopChangeContinue) : str :=
  match value with
  | StartStopChangeContinue_start => lit "start"
  | StartStopChangeContinue_stop => lit "stop"
  | StartStopChangeContinue_change => lit "change"
  | StartStopChangeContinue_continue_ => lit "continue"
  end.

(** Sourcecode/private/mx/core/Enums.h:1505-1510, Sourcecode/private/mx/core/Enums.cpp:3065-3102 *)
Inductive StartStopContinue : Set :=
  | StartStopContinue_start | StartStopContinue_stop | StartStopContinue_continue_.

Definition StartStopContinue_members : list StartStopContinue :=
  [ StartStopContinue_start; StartStopContinue_stop; StartStopContinue_continue_ ].

(* Enums.cpp:3065: tryParseStartStopContinue, the chain of comparisons *)
Definition StartStopContinue_chain : list (str * StartStopContinue) :=
  [ (lit "start", StartStopContinue_start); (lit "stop", StartStopContinue_stop);
    (lit "continue", StartStopContinue_continue_) ].

Definition tryParse_StartStopContinue (value : str) : option StartStopContinue := lookup_text StartStopContinue_chain value.

(* parseStartStopContinue: opt.value_or( StartStopContinue::start ) *)
Definition parse_StartStopContinue (value : str) : StartStopContinue :=
  value_or (tryParse_StartStopContinue value) StartStopContinue_start.

(* toString( const StartStopContinue value ), the switch *)
Definition StartStopContinue_toString (value : StartStopContinue) : str :=
  match value with
  | StartStopContinue_start => lit "start"
  | StartStopContinue_stop => lit "stop"
  | StartStopContinue_continue_ => lit "continue"
  end.

(** Sourcecode/private/mx/core/Enums.h:1527-1532, Sourcecode/private/mx/core/Enums.cpp:3103-3140 *)
Inductive StartStopDiscontinue : Set :=
  | StartStopDiscontinue_start | StartStopDiscontinue_stop | StartStopDiscontinue_discontinue.

Definition StartStopDiscontinue_members : list StartStopDiscontinue :=
  [ StartStopDiscontinue_start; StartStopDiscontinue_stop; StartStopDiscontinue_discontinue ].

(* Enums.cpp:3103: tryParseStartStopDiscontinue, the chain of comparisons *)
Definition StartStopDiscontinue_chain : list (str * StartStopDiscontinue) :=
  [ (lit "start", StartStopDiscontinue_start); (lit "stop", StartStopDiscontinue_stop);
    (lit "discontinue", StartStopDiscontinue_discontinue) ].

Definition tryParse_StartStopDiscontinue (value : str) : option StartStopDiscontinue := lookup_text StartStopDiscontinue_chain value.

(* parseStartStopDiscontinue: opt.value_or( StartStopDiscontinue::start ) *)
Definition parse_StartStopDiscontinue (value : str) : StartStopDiscontinue :=
  value_or (tryParse_StartStopDiscontinue value) StartStopDiscontinue_start.

(* toString( const StartStopDiscontinue value ), the switch *)
Definition StartStopDiscontinue_toString (value : StartStopDiscontinue) : str :=
  match value with
  | StartStopDiscontinue_start => lit "start"
  | StartStopDiscontinue_stop => lit "stop"
  | StartStopDiscontinue_discontinue => lit "discontinue"
  end.

(** Sourcecode/private/mx/core/Enums.h:1545-1550, Sourcecode/private/mx/core/Enums.cpp:3141-3178 *)
Inductive StartStopSingle : Set :=
  | StartStopSingle_start | StartStopSingle_stop | StartStopSingle_single.

Definition StartStopSingle_members : list StartStopSingle :=
  [ StartStopSingle_start; StartStopSingle_stop; StartStopSingle_single ].

(* Enums.cpp:3141: tryParseStartStopSingle, the chain of comparisons *)
Definition StartStopSingle_chain : list (str * StartStopSingle) :=
  [ (lit "start", StartStopSingle_start); (lit "stop", StartStopSingle_stop);
    (lit "single", StartStopSingle_single) ].

Definition tryParse_StartStopSingle (value : str) : option StartStopSingle := lookup_text StartStopSingle_chain value.

(* parseStartStopSingle: opt.value_or( StartStopSingle::start ) *)
Definition parse_StartStopSingle (value : str) : StartStopSingle :=
  value_or (tryParse_StartStopSingle value) StartStopSingle_start.

(* toString( const StartStopSingle value ), the switch *)
Definition StartStopSingle_toString (value : StartStopSingle) : str :=
  match value with
  | StartStopSingle_start => lit "start"
  | StartStopSingle_stop => lit "stop"
  | StartStopSingle_single => lit "single"
  end.

(** Sourcecode/private/mx/core/Enums.h:1562-1568, Sourcecode/private/mx/core/Enums.cpp:3179-3218 *)
Inductive StemValue : Set :=
  | StemValue_down | StemValue_up | StemValue_double_ | StemValue_none.

Definition StemValue_members : list StemValue :=
  [ StemValue_down; StemValue_up; StemValue_double_; StemValue_none ].

(* Enums.cpp:3179: tryParseStemValue, the chain of comparisons *)
Definition StemValue_chain : list (str * StemValue) :=
  [ (lit "down", StemValue_down); (lit "up", StemValue_up);
    (lit "double", StemValue_double_); (lit "none", StemValue_none) ].

Definition tryParse_StemValue (value : str) : option StemValue := lookup_text StemValue_chain value.

(* parseStemValue: opt.value_or( StemValue::down ) *)
Definition parse_StemValue (value : str) : StemValue :=
  value_or (tryParse_StemValue value) StemValue_down.

(* toString( const StemValue value ), the switch *)
Definition StemValue_toString (value : StemValue) : str :=
  match value with
  | StemValue_down => lit "down"
  | StemValue_up => lit "up"
  | StemValue_double_ => lit "double"
  | StemValue_none => lit "none"
  end.

(** Sourcecode/private/mx/core/Enums.h:1581-1590, Sourcecode/private/mx/core/Enums.cpp:3219-3264 *)
Inductive StepEnum : Set :=
  | StepEnum_a | StepEnum_b | StepEnum_c | StepEnum_d | StepEnum_e
  | StepEnum_f | StepEnum_g.

Definition StepEnum_members : list StepEnum :=
  [ StepEnum_a; StepEnum_b; StepEnum_c; StepEnum_d;
    StepEnum_e; StepEnum_f; StepEnum_g ].

(* Enums.cpp:3219: tryParseStepEnum, the chain of comparisons *)
Definition StepEnum_chain : list (str * StepEnum) :=
  [ (lit "A", StepEnum_a); (lit "B", StepEnum_b);
    (lit "C", StepEnum_c); (lit "D", StepEnum_d);
    (lit "E", StepEnum_e); (lit "F", StepEnum_f);
    (lit "G", StepEnum_g) ].

Definition tryParse_StepEnum (value : str) : option StepEnum := lookup_text StepEnum_chain value.

(* parseStepEnum: opt.value_or( StepEnum::a ) *)
Definition parse_StepEnum (value : str) : StepEnum :=
  value_or (tryParse_StepEnum value) StepEnum_a.

(* toString( const StepEnum value ), the switch *)
Definition StepEnum_toString (value : StepEnum) : str :=
  match value with
  | StepEnum_a => lit "A"
  | StepEnum_b => lit "B"
  | StepEnum_c => lit "C"
  | StepEnum_d => lit "D"
  | StepEnum_e => lit "E"
  | StepEnum_f => lit "F"
  | StepEnum_g => lit "G"
  end.

(** Sourcecode/private/mx/core/Enums.h:1603-1609, Sourcecode/private/mx/core/Enums.cpp:3265-3304 *)
Inductive StickLocationEnum : Set :=
  | StickLocationEnum_center | StickLocationEnum_rim | StickLocationEnum_cymbalBell | StickLocationEnum_cymbalEdge.

Definition StickLocationEnum_members : list StickLocationEnum :=
  [ StickLocationEnum_center; StickLocationEnum_rim; StickLocationEnum_cymbalBell; StickLocationEnum_cymbalEdge ].

(* Enums.cpp:3265: tryParseStickLocationEnum, the chain of comparisons *)
Definition StickLocationEnum_chain : list (str * StickLocationEnum) :=
  [ (lit "center", StickLocationEnum_center); (lit "rim", StickLocationEnum_rim);
    (lit "cymbal bell", StickLocationEnum_cymbalBell); (lit "cymbal edge", StickLocationEnum_cymbalEdge) ].

Definition tryParse_StickLocationEnum (value : str) : option StickLocationEnum := lookup_text StickLocationEnum_chain value.

(* parseStickLocationEnum: opt.value_or( StickLocationEnum::center ) *)
Definition parse_StickLocationEnum (value : str) : StickLocationEnum :=
  value_or (tryParse_StickLocationEnum value) StickLocationEnum_center.

(* toString( const StickLocationEnum value ), the switch *)
Definition StickLocationEnum_toString (value : StickLocationEnum) : str :=
  match value with
  | StickLocationEnum_center => lit "center"
  | StickLocationEnum_rim => lit "rim"
  | StickLocationEnum_cymbalBell => lit "cymbal bell"
  | StickLocationEnum_cymbalEdge => lit "cymbal edge"
  end.

(** Sourcecode/private/mx/core/Enums.h:1621-1628, Sourcecode/private/mx/core/Enums.cpp:3305-3346 *)
Inductive StickMaterialEnum : Set :=
  | StickMaterialEnum_soft | StickMaterialEnum_medium | StickMaterialEnum_hard | StickMaterialEnum_shaded | StickMaterialEnum_x.

Definition StickMaterialEnum_members : list StickMaterialEnum :=
  [ StickMaterialEnum_soft; StickMaterialEnum_medium; StickMaterialEnum_hard; StickMaterialEnum_shaded;
    StickMaterialEnum_x ].

(* Enums.cpp:3305: tryParseStickMaterialEnum, the chain of comparisons *)
Definition StickMaterialEnum_chain : list (str * StickMaterialEnum) :=
  [ (lit "soft", StickMaterialEnum_soft); (lit "medium", StickMaterialEnum_medium);
    (lit "hard", StickMaterialEnum_hard); (lit "shaded", StickMaterialEnum_shaded);
    (lit "x", StickMaterialEnum_x) ].

Definition tryParse_StickMaterialEnum (value : str) : option StickMaterialEnum := lookup_text StickMaterialEnum_chain value.

(* parseStickMaterialEnum: opt.value_or( StickMaterialEnum::soft ) *)
Definition parse_StickMaterialEnum (value : str) : StickMaterialEnum :=
  value_or (tryParse_StickMaterialEnum value) StickMaterialEnum_soft.

(* toString( const StickMaterialEnum value ), the switch *)
Definition StickMaterialEnum_toString (value : StickMaterialEnum) : str :=
  match value with
  | StickMaterialEnum_soft => lit "soft"
  | StickMaterialEnum_medium => lit "medium"
  | StickMaterialEnum_hard => lit "hard"
  | StickMaterialEnum_shaded => lit "shaded"
  | StickMaterialEnum_x => lit "x"
  end.

(** Sourcecode/private/mx/core/Enums.h:1641-1648, Sourcecode/private/mx/core/Enums.cpp:3347-3388 *)
Inductive StickTypeEnum : Set :=
  | StickTypeEnum_bassDrum | StickTypeEnum_doubleBassDrum | StickTypeEnum_timpani | StickTypeEnum_xylophone | StickTypeEnum_yarn.

Definition StickTypeEnum_members : list StickTypeEnum :=
  [ StickTypeEnum_bassDrum; StickTypeEnum_doubleBassDrum; StickTypeEnum_timpani; StickTypeEnum_xylophone;
    StickTypeEnum_yarn ].

(* Enums.cpp:3347: tryParseStickTypeEnum, the chain of comparisons *)
Definition StickTypeEnum_chain : list (str * StickTypeEnum) :=
  [ (lit "bass drum", StickTypeEnum_bassDrum); (lit "double bass drum", StickTypeEnum_doubleBassDrum);
    (lit "timpani", StickTypeEnum_timpani); (lit "xylophone", StickTypeEnum_xylophone);
    (lit "yarn", StickTypeEnum_yarn) ].

Definition tryParse_StickTypeEnum (value : str) : option StickTypeEnum := lookup_text StickTypeEnum_chain value.

(* parseStickTypeEnum: opt.value_or( StickTypeEnum::bassDrum ) *)
Definition parse_StickTypeEnum (value : str) : StickTypeEnum :=
  value_or (tryParse_StickTypeEnum value) StickTypeEnum_bassDrum.

(* toString( const StickTypeEnum value ), the switch *)
Definition StickTypeEnum_toString (value : StickTypeEnum) : str :=
  match value with
  | StickTypeEnum_bassDrum => lit "bass drum"
  | StickTypeEnum_doubleBassDrum => lit "double bass drum"
  | StickTypeEnum_timpani => lit "timpani"
  | StickTypeEnum_xylophone => lit "xylophone"
  | StickTypeEnum_yarn => lit "yarn"
  end.

(** Sourcecode/private/mx/core/Enums.h:1662-1668, Sourcecode/private/mx/core/Enums.cpp:3389-3428 *)
Inductive SyllabicEnum : Set :=
  | SyllabicEnum_single | SyllabicEnum_begin | SyllabicEnum_end | SyllabicEnum_middle.

Definition SyllabicEnum_members : list SyllabicEnum :=
  [ SyllabicEnum_single; SyllabicEnum_begin; SyllabicEnum_end; SyllabicEnum_middle ].

(* Enums.cpp:3389: tryParseSyllabicEnum, the chain of comparisons *)
Definition SyllabicEnum_chain : list (str * SyllabicEnum) :=
  [ (lit "single", SyllabicEnum_single); (lit "begin", SyllabicEnum_begin);
    (lit "end", SyllabicEnum_end); (lit "middle", SyllabicEnum_middle) ].

Definition tryParse_SyllabicEnum (value : str) : option SyllabicEnum := lookup_text SyllabicEnum_chain value.

(* parseSyllabicEnum: opt.value_or( SyllabicEnum::single ) *)
Definition parse_SyllabicEnum (value : str) : SyllabicEnum :=
  value_or (tryParse_SyllabicEnum value) SyllabicEnum_single.

(* toString( const SyllabicEnum value ), the switch *)
Definition SyllabicEnum_toString (value : SyllabicEnum) : str :=
  match value with
  | SyllabicEnum_single => lit "single"
  | SyllabicEnum_begin => lit "begin"
  | SyllabicEnum_end => lit "end"
  | SyllabicEnum_middle => lit "middle"
  end.

(** Sourcecode/private/mx/core/Enums.h:1681-1686, Sourcecode/private/mx/core/Enums.cpp:3429-3466 *)
Inductive SymbolSize : Set :=
  | SymbolSize_full | SymbolSize_cue | SymbolSize_large.

Definition SymbolSize_members : list SymbolSize :=
  [ SymbolSize_full; SymbolSize_cue; SymbolSize_large ].

(* Enums.cpp:3429: tryParseSymbolSize, the chain of comparisons *)
Definition SymbolSize_chain : list (str * SymbolSize) :=
  [ (lit "full", SymbolSize_full); (lit "cue", SymbolSize_cue);
    (lit "large", SymbolSize_large) ].

Definition tryParse_SymbolSize (value : str) : option SymbolSize := lookup_text SymbolSize_chain value.

(* parseSymbolSize: opt.value_or( SymbolSize::full ) *)
Definition parse_SymbolSize (value : str) : SymbolSize :=
  value_or (tryParse_SymbolSize value) SymbolSize_full.

(* toString( const SymbolSize value ), the switch *)
Definition SymbolSize_toString (value : SymbolSize) : str :=
  match value with
  | SymbolSize_full => lit "full"
  | SymbolSize_cue => lit "cue"
  | SymbolSize_large => lit "large"
  end.

(** Sourcecode/private/mx/core/Enums.h:1704-1710, Sourcecode/private/mx/core/Enums.cpp:3467-3506 *)
Inductive TextDirection : Set :=
  | TextDirection_ltr | TextDirection_rtl | TextDirection_lro | TextDirection_rlo.

Definition TextDirection_members : list TextDirection :=
  [ TextDirection_ltr; TextDirection_rtl; TextDirection_lro; TextDirection_rlo ].

(* Enums.cpp:3467: tryParseTextDirection, the chain of comparisons *)
Definition TextDirection_chain : list (str * TextDirection) :=
  [ (lit "ltr", TextDirection_ltr); (lit "rtl", TextDirection_rtl);
    (lit "lro", TextDirection_lro); (lit "rlo", TextDirection_rlo) ].

Definition tryParse_TextDirection (value : str) : option TextDirection := lookup_text TextDirection_chain value.

(* parseTextDirection: opt.value_or( TextDirection::ltr ) *)
Definition parse_TextDirection (value : str) : TextDirection :=
  value_or (tryParse_TextDirection value) TextDirection_ltr.

(* toString( const TextDirection value ), the switch *)
Definition TextDirection_toString (value : TextDirection) : str :=
  match value with
  | TextDirection_ltr => lit "ltr"
  | TextDirection_rtl => lit "rtl"
  | TextDirection_lro => lit "lro"
  | TextDirection_rlo => lit "rlo"
  end.

(** Sourcecode/private/mx/core/Enums.h:1723-1731, Sourcecode/private/mx/core/Enums.cpp:3507-3550 *)
Inductive TimeRelationEnum : Set :=
  | TimeRelationEnum_parentheses | TimeRelationEnum_bracket | TimeRelationEnum_equals | TimeRelationEnum_slash | TimeRelationEnum_space
  | TimeRelationEnum_hyphen.

Definition TimeRelationEnum_members : list TimeRelationEnum :=
  [ TimeRelationEnum_parentheses; TimeRelationEnum_bracket; TimeRelationEnum_equals; TimeRelationEnum_slash;
    TimeRelationEnum_space; TimeRelationEnum_hyphen ].

(* Enums.cpp:3507: tryParseTimeRelationEnum, the chain of comparisons *)
Definition TimeRelationEnum_chain : list (str * TimeRelationEnum) :=
  [ (lit "parentheses", TimeRelationEnum_parentheses); (lit "bracket", TimeRelationEnum_bracket);
    (lit "equals", TimeRelationEnum_equals); (lit "slash", TimeRelationEnum_slash);
    (lit "space", TimeRelationEnum_space); (lit "hyphen", TimeRelationEnum_hyphen) ].

Definition tryParse_TimeRelationEnum (value : str) : option TimeRelationEnum := lookup_text TimeRelationEnum_chain value.

(* parseTimeRelationEnum: opt.value_or( TimeRelationEnum::parentheses ) *)
Definition parse_TimeRelationEnum (value : str) : TimeRelationEnum :=
  value_or (tryParse_TimeRelationEnum value) TimeRelationEnum_parentheses.

(* toString( const TimeRelationEnum value ), the switch *)
Definition TimeRelationEnum_toString (value : TimeRelationEnum) : str :=
  match value with
  | TimeRelationEnum_parentheses => lit "parentheses"
  | TimeRelationEnum_bracket => lit "bracket"
  | TimeRelationEnum_equals => lit "equals"
  | TimeRelationEnum_slash => lit "slash"
  | TimeRelationEnum_space => lit "space"
  | TimeRelationEnum_hyphen => lit "hyphen"
  end.

(** Sourcecode/private/mx/core/Enums.h:1749-1756, Sourcecode/private/mx/core/Enums.cpp:3551-3592 *)
Inductive TimeSeparator : Set :=
  | TimeSeparator_none | TimeSeparator_horizontal | TimeSeparator_diagonal | TimeSeparator_vertical | TimeSeparator_adjacent.

Definition TimeSeparator_members : list TimeSeparator :=
  [ TimeSeparator_none; TimeSeparator_horizontal; TimeSeparator_diagonal; TimeSeparator_vertical;
    TimeSeparator_adjacent ].

(* Enums.cpp:3551: tryParseTimeSeparator, the chain of comparisons *)
Definition TimeSeparator_chain : list (str * TimeSeparator) :=
  [ (lit "none", TimeSeparator_none); (lit "horizontal", TimeSeparator_horizontal);
    (lit "diagonal", TimeSeparator_diagonal); (lit "vertical", TimeSeparator_vertical);
    (lit "adjacent", TimeSeparator_adjacent) ].

Definition tryParse_TimeSeparator (value : str) : option TimeSeparator := lookup_text TimeSeparator_chain value.

(* parseTimeSeparator: opt.value_or( TimeSeparator::none ) *)
Definition parse_TimeSeparator (value : str) : TimeSeparator :=
  value_or (tryParse_TimeSeparator value) TimeSeparator_none.

(* toString( const TimeSeparator value ), the switch *)
Definition TimeSeparator_toString (value : TimeSeparator) : str :=
  match value with
  | TimeSeparator_none => lit "none"
  | TimeSeparator_horizontal => lit "horizontal"
  | TimeSeparator_diagonal => lit "diagonal"
  | TimeSeparator_vertical => lit "vertical"
  | TimeSeparator_adjacent => lit "adjacent"
  end.

(** Sourcecode/private/mx/core/Enums.h:1774-1782, Sourcecode/private/mx/core/Enums.cpp:3593-3636 *)
Inductive TimeSymbol : Set :=
  | TimeSymbol_common | TimeSymbol_cut | TimeSymbol_singleNumber | TimeSymbol_note | TimeSymbol_dottedNote
  | TimeSymbol_normal.

Definition TimeSymbol_members : list TimeSymbol :=
  [ TimeSymbol_common; TimeSymbol_cut; TimeSymbol_singleNumber; TimeSymbol_note;
    TimeSymbol_dottedNote; TimeSymbol_normal ].

(* Enums.cpp:3593: tryParseTimeSymbol, the chain of comparisons *)
Definition TimeSymbol_chain : list (str * TimeSymbol) :=
  [ (lit "common", TimeSymbol_common); (lit "cut", TimeSymbol_cut);
    (lit "single-number", TimeSymbol_singleNumber); (lit "note", TimeSymbol_note);
    (lit "dotted-note", TimeSymbol_dottedNote); (lit "normal", TimeSymbol_normal) ].

Definition tryParse_TimeSymbol (value : str) : option TimeSymbol := lookup_text TimeSymbol_chain value.

(* parseTimeSymbol: opt.value_or( TimeSymbol::common ) *)
Definition parse_TimeSymbol (value : str) : TimeSymbol :=
  value_or (tryParse_TimeSymbol value) TimeSymbol_common.

(* toString( const TimeSymbol value ), the switch *)
Definition TimeSymbol_toString (value : TimeSymbol) : str :=
  match value with
  | TimeSymbol_common => lit "common"
  | TimeSymbol_cut => lit "cut"
  | TimeSymbol_singleNumber => lit "single-number"
  | TimeSymbol_note => lit "note"
  | TimeSymbol_dottedNote => lit "dotted-note"
  | TimeSymbol_normal => lit "normal"
  end.

(** Sourcecode/private/mx/core/Enums.h:1795-1805, Sourcecode/private/mx/core/Enums.cpp:3637-3684 *)
Inductive TipDirection : Set :=
  | TipDirection_up | TipDirection_down | TipDirection_left | TipDirection_right | TipDirection_northwest
  | TipDirection_northeast | TipDirection_southeast | TipDirection_southwest.

Definition TipDirection_members : list TipDirection :=
  [ TipDirection_up; TipDirection_down; TipDirection_left; TipDirection_right;
    TipDirection_northwest; TipDirection_northeast; TipDirection_southeast; TipDirection_southwest ].

(* Enums.cpp:3637: tryParseTipDirection, the chain of comparisons *)
Definition TipDirection_chain : list (str * TipDirection) :=
  [ (lit "up", TipDirection_up); (lit "down", TipDirection_down);
    (lit "left", TipDirection_left); (lit "right", TipDirection_right);
    (lit "northwest", TipDirection_northwest); (lit "northeast", TipDirection_northeast);
    (lit "southeast", TipDirection_southeast); (lit "southwest", TipDirection_southwest) ].

Definition tryParse_TipDirection (value : str) : option TipDirection := lookup_text TipDirection_chain value.

(* parseTipDirection: opt.value_or( TipDirection::up ) *)
Definition parse_TipDirection (value : str) : TipDirection :=
  value_or (tryParse_TipDirection value) TipDirection_up.

(* toString( const TipDirection value ), the switch *)
Definition TipDirection_toString (value : TipDirection) : str :=
  match value with
  | TipDirection_up => lit "up"
  | TipDirection_down => lit "down"
  | TipDirection_left => lit "left"
  | TipDirection_right => lit "right"
  | TipDirection_northwest => lit "northwest"
  | TipDirection_northeast => lit "northeast"
  | TipDirection_southeast => lit "southeast"
  | TipDirection_southwest => lit "southwest"
  end.

(** Sourcecode/private/mx/core/Enums.h:1818-1822, Sourcecode/private/mx/core/Enums.cpp:3685-3720 *)
Inductive TopBottom : Set :=
  | TopBottom_top | TopBottom_bottom.

Definition TopBottom_members : list TopBottom :=
  [ TopBottom_top; TopBottom_bottom ].

(* Enums.cpp:3685: tryParseTopBottom, the chain of comparisons *)
Definition TopBottom_chain : list (str * TopBottom) :=
  [ (lit "top", TopBottom_top); (lit "bottom", TopBottom_bottom) ].

Definition tryParse_TopBottom (value : str) : option TopBottom := lookup_text TopBottom_chain value.

(* parseTopBottom: opt.value_or( TopBottom::top ) *)
Definition parse_TopBottom (value : str) : TopBottom :=
  value_or (tryParse_TopBottom value) TopBottom_top.

(* toString( const TopBottom value ), the switch *)
Definition TopBottom_toString (value : TopBottom) : str :=
  match value with
  | TopBottom_top => lit "top"
  | TopBottom_bottom => lit "bottom"
  end.

(** Sourcecode/private/mx/core/Enums.h:1835-1840, Sourcecode/private/mx/core/Enums.cpp:3721-3758 *)
Inductive TrillStep : Set :=
  | TrillStep_whole | TrillStep_half | TrillStep_unison.

Definition TrillStep_members : list TrillStep :=
  [ TrillStep_whole; TrillStep_half; TrillStep_unison ].

(* Enums.cpp:3721: tryParseTrillStep, the chain of comparisons *)
Definition TrillStep_chain : list (str * TrillStep) :=
  [ (lit "whole", TrillStep_whole); (lit "half", TrillStep_half);
    (lit "unison", TrillStep_unison) ].

Definition tryParse_TrillStep (value : str) : option TrillStep := lookup_text TrillStep_chain value.

(* parseTrillStep: opt.value_or( TrillStep::whole ) *)
Definition parse_TrillStep (value : str) : TrillStep :=
  value_or (tryParse_TrillStep value) TrillStep_whole.

(* toString( const TrillStep value ), the switch *)
Definition TrillStep_toString (value : TrillStep) : str :=
  match value with
  | TrillStep_whole => lit "whole"
  | TrillStep_half => lit "half"
  | TrillStep_unison => lit "unison"
  end.

(** Sourcecode/private/mx/core/Enums.h:1853-1858, Sourcecode/private/mx/core/Enums.cpp:3759-3796 *)
Inductive TwoNoteTurn : Set :=
  | TwoNoteTurn_whole | TwoNoteTurn_half | TwoNoteTurn_none.

Definition TwoNoteTurn_members : list TwoNoteTurn :=
  [ TwoNoteTurn_whole; TwoNoteTurn_half; TwoNoteTurn_none ].

(* Enums.cpp:3759: tryParseTwoNoteTurn, the chain of comparisons *)
Definition TwoNoteTurn_chain : list (str * TwoNoteTurn) :=
  [ (lit "whole", TwoNoteTurn_whole); (lit "half", TwoNoteTurn_half);
    (lit "none", TwoNoteTurn_none) ].

Definition tryParse_TwoNoteTurn (value : str) : option TwoNoteTurn := lookup_text TwoNoteTurn_chain value.

(* parseTwoNoteTurn: opt.value_or( TwoNoteTurn::whole ) *)
Definition parse_TwoNoteTurn (value : str) : TwoNoteTurn :=
  value_or (tryParse_TwoNoteTurn value) TwoNoteTurn_whole.

(* toString( const TwoNoteTurn value ), the switch *)
Definition TwoNoteTurn_toString (value : TwoNoteTurn) : str :=
  match value with
  | TwoNoteTurn_whole => lit "whole"
  | TwoNoteTurn_half => lit "half"
  | TwoNoteTurn_none => lit "none"
  end.

(** Sourcecode/private/mx/core/Enums.h:1871-1875, Sourcecode/private/mx/core/Enums.cpp:3797-3832 *)
Inductive UpDown : Set :=
  | UpDown_up | UpDown_down.

Definition UpDown_members : list UpDown :=
  [ UpDown_up; UpDown_down ].

(* Enums.cpp:3797: tryParseUpDown, the chain of comparisons *)
Definition UpDown_chain : list (str * UpDown) :=
  [ (lit "up", UpDown_up); (lit "down", UpDown_down) ].

Definition tryParse_UpDown (value : str) : option UpDown := lookup_text UpDown_chain value.

(* parseUpDown: opt.value_or( UpDown::up ) *)
Definition parse_UpDown (value : str) : UpDown :=
  value_or (tryParse_UpDown value) UpDown_up.

(* toString( const UpDown value ), the switch *)
Definition UpDown_toString (value : UpDown) : str :=
  match value with
  | UpDown_up => lit "up"
  | UpDown_down => lit "down"
  end.

(** Sourcecode/private/mx/core/Enums.h:1888-1894, Sourcecode/private/mx/core/Enums.cpp:3833-3872 *)
Inductive UpDownStopContinue : Set :=
  | UpDownStopContinue_up | UpDownStopContinue_down | UpDownStopContinue_stop | UpDownStopContinue_continue_.

Definition UpDownStopContinue_members : list UpDownStopContinue :=
  [ UpDownStopContinue_up; UpDownStopContinue_down; UpDownStopContinue_stop; UpDownStopContinue_continue_ ].

(* Enums.cpp:3833: tryParseUpDownStopContinue, the chain of comparisons *)
Definition UpDownStopContinue_chain : list (str * UpDownStopContinue) :=
  [ (lit "up", UpDownStopContinue_up); (lit "down", UpDownStopContinue_down);
    (lit "stop", UpDownStopContinue_stop); (lit "continue", UpDownStopContinue_continue_) ].

Definition tryParse_UpDownStopContinue (value : str) : option UpDownStopContinue := lookup_text UpDownStopContinue_chain value.

(* parseUpDownStopContinue: opt.value_or( UpDownStopContinue::up ) *)
Definition parse_UpDownStopContinue (value : str) : UpDownStopContinue :=
  value_or (tryParse_UpDownStopContinue value) UpDownStopContinue_up.

(* toString( const UpDownStopContinue value ), the switch *)
Definition UpDownStopContinue_toString (value : UpDownStopContinue) : str :=
  match value with
  | UpDownStopContinue_up => lit "up"
  | UpDownStopContinue_down => lit "down"
  | UpDownStopContinue_stop => lit "stop"
  | UpDownStopContinue_continue_ => lit "continue"
  end.

(** Sourcecode/private/mx/core/Enums.h:1907-1911, Sourcecode/private/mx/core/Enums.cpp:3873-3908 *)
Inductive UprightInverted : Set :=
  | UprightInverted_upright | UprightInverted_inverted.

Definition UprightInverted_members : list UprightInverted :=
  [ UprightInverted_upright; UprightInverted_inverted ].

(* Enums.cpp:3873: tryParseUprightInverted, the chain of comparisons *)
Definition UprightInverted_chain : list (str * UprightInverted) :=
  [ (lit "upright", UprightInverted_upright); (lit "inverted", UprightInverted_inverted) ].

Definition tryParse_UprightInverted (value : str) : option UprightInverted := lookup_text UprightInverted_chain value.

(* parseUprightInverted: opt.value_or( UprightInverted::upright ) *)
Definition parse_UprightInverted (value : str) : UprightInverted :=
  value_or (tryParse_UprightInverted value) UprightInverted_upright.

(* toString( const UprightInverted value ), the switch *)
Definition UprightInverted_toString (value : UprightInverted) : str :=
  match value with
  | UprightInverted_upright => lit "upright"
  | UprightInverted_inverted => lit "inverted"
  end.

(** Sourcecode/private/mx/core/Enums.h:1924-1930, Sourcecode/private/mx/core/Enums.cpp:3909-3948 *)
Inductive Valign : Set :=
  | Valign_top | Valign_middle | Valign_bottom | Valign_baseline.

Definition Valign_members : list Valign :=
  [ Valign_top; Valign_middle; Valign_bottom; Valign_baseline ].

(* Enums.cpp:3909: tryParseValign, the chain of comparisons *)
Definition Valign_chain : list (str * Valign) :=
  [ (lit "top", Valign_top); (lit "middle", Valign_middle);
    (lit "bottom", Valign_bottom); (lit "baseline", Valign_baseline) ].

Definition tryParse_Valign (value : str) : option Valign := lookup_text Valign_chain value.

(* parseValign: opt.value_or( Valign::top ) *)
Definition parse_Valign (value : str) : Valign :=
  value_or (tryParse_Valign value) Valign_top.

(* toString( const Valign value ), the switch *)
Definition Valign_toString (value : Valign) : str :=
  match value with
  | Valign_top => lit "top"
  | Valign_middle => lit "middle"
  | Valign_bottom => lit "bottom"
  | Valign_baseline => lit "baseline"
  end.

(** Sourcecode/private/mx/core/Enums.h:1943-1948, Sourcecode/private/mx/core/Enums.cpp:3949-3986 *)
Inductive ValignImage : Set :=
  | ValignImage_top | ValignImage_middle | ValignImage_bottom.

Definition ValignImage_members : list ValignImage :=
  [ ValignImage_top; ValignImage_middle; ValignImage_bottom ].

(* Enums.cpp:3949: tryParseValignImage, the chain of comparisons *)
Definition ValignImage_chain : list (str * ValignImage) :=
  [ (lit "top", ValignImage_top); (lit "middle", ValignImage_middle);
    (lit "bottom", ValignImage_bottom) ].

Definition tryParse_ValignImage (value : str) : option ValignImage := lookup_text ValignImage_chain value.

(* parseValignImage: opt.value_or( ValignImage::top ) *)
Definition parse_ValignImage (value : str) : ValignImage :=
  value_or (tryParse_ValignImage value) ValignImage_top.

(* toString( const ValignImage value ), the switch *)
Definition ValignImage_toString (value : ValignImage) : str :=
  match value with
  | ValignImage_top => lit "top"
  | ValignImage_middle => lit "middle"
  | ValignImage_bottom => lit "bottom"
  end.

(** Sourcecode/private/mx/core/Enums.h:1963-1969, Sourcecode/private/mx/core/Enums.cpp:3987-4026 *)
Inductive WedgeType : Set :=
  | WedgeType_crescendo | WedgeType_diminuendo | WedgeType_stop | WedgeType_continue_.

Definition WedgeType_members : list WedgeType :=
  [ WedgeType_crescendo; WedgeType_diminuendo; WedgeType_stop; WedgeType_continue_ ].

(* Enums.cpp:3987: tryParseWedgeType, the chain of comparisons *)
Definition WedgeType_chain : list (str * WedgeType) :=
  [ (lit "crescendo", WedgeType_crescendo); (lit "diminuendo", WedgeType_diminuendo);
    (lit "stop", WedgeType_stop); (lit "continue", WedgeType_continue_) ].

Definition tryParse_WedgeType (value : str) : option WedgeType := lookup_text WedgeType_chain value.

(* parseWedgeType: opt.value_or( WedgeType::crescendo ) *)
Definition parse_WedgeType (value : str) : WedgeType :=
  value_or (tryParse_WedgeType value) WedgeType_crescendo.

(* toString( const WedgeType value ), the switch *)
Definition WedgeType_toString (value : WedgeType) : str :=
  match value with
  | WedgeType_crescendo => lit "crescendo"
  | WedgeType_diminuendo => lit "diminuendo"
  | WedgeType_stop => lit "stop"
  | WedgeType_continue_ => lit "continue"
  end.

(** Sourcecode/private/mx/core/Enums.h:1984-1991, Sourcecode/private/mx/core/Enums.cpp:4027-4068 *)
Inductive Winged : Set :=
  | Winged_none | Winged_straight | Winged_curved | Winged_doubleStraight | Winged_doubleCurved.

Definition Winged_members : list Winged :=
  [ Winged_none; Winged_straight; Winged_curved; Winged_doubleStraight;
    Winged_doubleCurved ].

(* Enums.cpp:4027: tryParseWinged, the chain of comparisons *)
Definition Winged_chain : list (str * Winged) :=
  [ (lit "none", Winged_none); (lit "straight", Winged_straight);
    (lit "curved", Winged_curved); (lit "double-straight", Winged_doubleStraight);
    (lit "double-curved", Winged_doubleCurved) ].

Definition tryParse_Winged (value : str) : option Winged := lookup_text Winged_chain value.

(* parseWinged: opt.value_or( Winged::none ) *)
Definition parse_Winged (value : str) : Winged :=
  value_or (tryParse_Winged value) Winged_none.

(* toString( const Winged value ), the switch *)
Definition Winged_toString (value : Winged) : str :=
  match value with
  | Winged_none => lit "none"
  | Winged_straight => lit "straight"
  | Winged_curved => lit "curved"
  | Winged_doubleStraight => lit "double-straight"
  | Winged_doubleCurved => lit "double-curved"
  end.

(** Sourcecode/private/mx/core/Enums.h:2005-2021, Sourcecode/private/mx/core/Enums.cpp:4069-4128 *)
Inductive WoodEnum : Set :=
  | WoodEnum_boardClapper | WoodEnum_cabasa | WoodEnum_castanets | WoodEnum_claves | WoodEnum_guiro
  | WoodEnum_logDrum | WoodEnum_maraca | WoodEnum_maracas | WoodEnum_ratchet | WoodEnum_sandpaperBlocks
  | WoodEnum_slitDrum | WoodEnum_templeBlock | WoodEnum_vibraslap | WoodEnum_woodBlock.

Definition WoodEnum_members : list WoodEnum :=
  [ WoodEnum_boardClapper; WoodEnum_cabasa; WoodEnum_castanets; WoodEnum_claves;
    WoodEnum_guiro; WoodEnum_logDrum; WoodEnum_maraca; WoodEnum_maracas;
    WoodEnum_ratchet; WoodEnum_sandpaperBlocks; WoodEnum_slitDrum; WoodEnum_templeBlock;
    WoodEnum_vibraslap; WoodEnum_woodBlock ].

(* Enums.cpp:4069: tryParseWoodEnum, the chain of comparisons *)
Definition WoodEnum_chain : list (str * WoodEnum) :=
  [ (lit "board clapper", WoodEnum_boardClapper); (lit "cabasa", WoodEnum_cabasa);
    (lit "castanets", WoodEnum_castanets); (lit "claves", WoodEnum_claves);
    (lit "guiro", WoodEnum_guiro); (lit "log drum", WoodEnum_logDrum);
    (lit "maraca", WoodEnum_maraca); (lit "maracas", WoodEnum_maracas);
    (lit "ratchet", WoodEnum_ratchet); (lit "sandpaper blocks", WoodEnum_sandpaperBlocks);
    (lit "slit drum", WoodEnum_slitDrum); (lit "temple block", WoodEnum_templeBlock);
    (lit "vibraslap", WoodEnum_vibraslap); (lit "wood block", WoodEnum_woodBlock) ].

Definition tryParse_WoodEnum (value : str) : option WoodEnum := lookup_text WoodEnum_chain value.

(* parseWoodEnum: opt.value_or( WoodEnum::boardClapper ) *)
Definition parse_WoodEnum (value : str) : WoodEnum :=
  value_or (tryParse_WoodEnum value) WoodEnum_boardClapper.

(* toString( const WoodEnum value ), the switch *)
Definition WoodEnum_toString (value : WoodEnum) : str :=
  match value with
  | WoodEnum_boardClapper => lit "board clapper"
  | WoodEnum_cabasa => lit "cabasa"
  | WoodEnum_castanets => lit "castanets"
  | WoodEnum_claves => lit "claves"
  | WoodEnum_guiro => lit "guiro"
  | WoodEnum_logDrum => lit "log drum"
  | WoodEnum_maraca => lit "maraca"
  | WoodEnum_maracas => lit "maracas"
  | WoodEnum_ratchet => lit "ratchet"
  | WoodEnum_sandpaperBlocks => lit "sandpaper blocks"
  | WoodEnum_slitDrum => lit "slit drum"
  | WoodEnum_templeBlock => lit "temple block"
  | WoodEnum_vibraslap => lit "vibraslap"
  | WoodEnum_woodBlock => lit "wood block"
  end.

(** Sourcecode/private/mx/core/Enums.h:2034-2038, Sourcecode/private/mx/core/Enums.cpp:4129-4166 *)
Inductive YesNo : Set :=
  | YesNo_yes | YesNo_no.

Definition YesNo_members : list YesNo :=
  [ YesNo_yes; YesNo_no ].

(* Enums.cpp:4129: tryParseYesNo, the chain of comparisons *)
Definition YesNo_chain : list (str * YesNo) :=
  [ (lit "yes", YesNo_yes); (lit "no", YesNo_no) ].

Definition tryParse_YesNo (value : str) : option YesNo := lookup_text YesNo_chain value.

(* parseYesNo: opt.value_or( YesNo::yes ) *)
Definition parse_YesNo (value : str) : YesNo :=
  value_or (tryParse_YesNo value) YesNo_yes.

(* toString( const YesNo value ), the switch *)
Definition YesNo_toString (value : YesNo) : str :=
  match value with
  | YesNo_yes => lit "yes"
  | YesNo_no => lit "no"
  end.

