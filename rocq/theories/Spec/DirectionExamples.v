(** Directions for the examples and the counterexamples of C59. *)
From Coq Require Import List Ascii Bool String ZArith QArith.
From Verif Require Import Model.Base Model.Text Model.EnumLookup Model.CoreEnums Model.ApiEnums Model.MarkData
  Model.NumberOrWord Model.Notations Model.Directions Spec.Attachments Spec.DirectionText.
Import ListNotations.
Local Open Scope Z_scope.

(** quarter = 120, mf, a pedal, a crescendo, 8va, a bracket and two words, all above, four
    ticks after the cursor, on the second staff. *)
Definition ten_left : PositionData :=
  mkPosition (Some (-10 # 1)%Q) None None None api_HorizontalAlignment_unspecified api_VerticalAlignment_unspecified api_Placement_unspecified.
Definition dolce : FontData :=
  mkFont Size_point 12 api_CssSize_unspecified api_FontStyle_italic api_FontWeight_bold [lit "Times"; lit "serif"] 1 0 0.
Definition full_direction : DirectionData :=
  mkDirection 100 api_Placement_above (-1) true
    [tempo_at Tempo_beatsPerMinute (mkBeats api_DurationName_quarter 1 120) []]
    [mkMark api_MarkType_mf (lit "mf") 100 0 ten_left;
     mkMark api_MarkType_pedal [] 100 0
       (mkPosition None None None None api_HorizontalAlignment_left api_VerticalAlignment_unspecified api_Placement_above)]
    [mkWedgeStart (-1) api_WedgeType_crescendo (Some (15 # 1)%Q) (mkLine api_LineType_dashed api_LineHook_unspecified None (Some (3 # 1)%Q) None)
       ten_left black_on_nothing]
    [mkWedgeStop (-1) ten_left None]
    [mkOttavaStart (mkSpannerStart (-1) 96 no_position plain_print no_line) Ottava_8va]
    [mkSpannerStop (-1) 96 no_position]
    [mkSpannerStart 2 96 no_position plain_print no_line]
    []
    [mkWords (lit "dolce") ten_left dolce false black_on_nothing; mkWords (lit "poco") no_position plain_font false black_on_nothing]
    [] [] [].

(** Words and a segno. *)
Definition segno_direction : DirectionData :=
  mkDirection 0 api_Placement_above (-1) false [] [] [] [] [] [] [] []
    [mkWords (lit "D.S.") no_position plain_font false black_on_nothing] [mkSign no_position false black_on_nothing] [] [].

(** Only a segno. *)
Definition lone_segno : DirectionData :=
  mkDirection 0 api_Placement_above (-1) false [] [] [] [] [] [] [] [] [] [mkSign no_position false black_on_nothing] [] [].

(** A metric modulation. *)
Definition modulation_direction : DirectionData :=
  mkDirection 0 api_Placement_above (-1) false [tempo_at Tempo_metricModulation no_beats []] [] [] [] [] [] [] [] [] [] [] [].

(** In a file: words, a wedge and quarter. = 96, half a division before; and a metronome that
    says something else. *)
Definition file_position : xposition := mkXPosition (Some (5 # 1)%Q) None None None None None None.
Definition file_words : xwords := mkXWords (lit "Allegro") file_position no_xfont (mkXDecoration None None None).
Definition file_direction (metronome : list mchild) : fdirection :=
  mkFile (Some AboveBelow_below)
    [[EWords file_words; EWords file_words]; [EWedge (mkXWedge WedgeType_continue_ (Some 2) None None None None no_xposition)];
     [EDampAll]; [EUnknown]; [EMetronome metronome]]
    (Some (-1 # 2)%Q) (Some 1).
Definition per_minute (t : str) : list mchild := beat (Some NoteTypeValue_quarter) 1 ++ [MPerMinute t].
Definition two_beats : list mchild := beat (Some NoteTypeValue_quarter) 1 ++ beat (Some NoteTypeValue_half) 0.

(** What is in it. *)
Definition file_types (m : xmetronome) : list xtype :=
  [TWords [file_words; file_words]; TWedge (mkXWedge WedgeType_continue_ (Some 2) None None None None no_xposition); TDampAll;
   TRehearsal [mkXRehearsal [] (mkXPosition None None None None None None None)]; TMetronome m].
