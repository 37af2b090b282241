(* The texts the MusicXML schema allows, taken from Documents/musicxml.xsd
   (not from the C++ code), in the order of the schema.  The last part lists
   the values that are not an enumeration in the schema: the dynamics element
   names, and the texts that the schema documents for distance-type,
   line-width-type and mode. *)
From Coq Require Import Ascii String List.
From Verif Require Import Model.Text.
Import ListNotations.

(** musicxml.xsd:28, simpleType above-below *)
Definition schema_above_below : list str :=
  [ lit "above"; lit "below" ].

(** musicxml.xsd:1219, simpleType accidental-value *)
Definition schema_accidental_value : list str :=
  [ lit "sharp"; lit "natural"; lit "flat"; lit "double-sharp";
    lit "sharp-sharp"; lit "flat-flat"; lit "natural-sharp"; lit "natural-flat";
    lit "quarter-flat"; lit "quarter-sharp"; lit "three-quarters-flat"; lit "three-quarters-sharp";
    lit "sharp-down"; lit "sharp-up"; lit "natural-down"; lit "natural-up";
    lit "flat-down"; lit "flat-up"; lit "triple-sharp"; lit "triple-flat";
    lit "slash-quarter-sharp"; lit "slash-sharp"; lit "slash-flat"; lit "double-slash-flat";
    lit "sharp-1"; lit "sharp-2"; lit "sharp-3"; lit "sharp-5";
    lit "flat-1"; lit "flat-2"; lit "flat-3"; lit "flat-4";
    lit "sori"; lit "koron" ].

(** musicxml.xsd:1261, simpleType arrow-direction *)
Definition schema_arrow_direction : list str :=
  [ lit "left"; lit "up"; lit "right"; lit "down";
    lit "northwest"; lit "northeast"; lit "southeast"; lit "southwest";
    lit "left right"; lit "up down"; lit "northwest southeast"; lit "northeast southwest";
    lit "other" ].

(** musicxml.xsd:1282, simpleType arrow-style *)
Definition schema_arrow_style : list str :=
  [ lit "single"; lit "double"; lit "filled"; lit "hollow";
    lit "paired"; lit "combined"; lit "other" ].

(** musicxml.xsd:687, simpleType backward-forward *)
Definition schema_backward_forward : list str :=
  [ lit "backward"; lit "forward" ].

(** musicxml.xsd:697, simpleType bar-style *)
Definition schema_bar_style : list str :=
  [ lit "regular"; lit "dotted"; lit "dashed"; lit "heavy";
    lit "light-light"; lit "light-heavy"; lit "heavy-light"; lit "heavy-heavy";
    lit "tick"; lit "short"; lit "none" ].

(** musicxml.xsd:1297, simpleType beam-value *)
Definition schema_beam_value : list str :=
  [ lit "begin"; lit "continue"; lit "end"; lit "forward hook";
    lit "backward hook" ].

(** musicxml.xsd:772, simpleType beater-value *)
Definition schema_beater_value : list str :=
  [ lit "bow"; lit "chime hammer"; lit "coin"; lit "finger";
    lit "fingernail"; lit "fist"; lit "guiro scraper"; lit "hammer";
    lit "hand"; lit "jazz stick"; lit "knitting needle"; lit "metal hammer";
    lit "snare stick"; lit "spoon mallet"; lit "triangle beater"; lit "triangle beater plain";
    lit "wire brush" ].

(** musicxml.xsd:1310, simpleType breath-mark-value *)
Definition schema_breath_mark_value : list str :=
  [ lit ""; lit "comma"; lit "tick" ].

(** musicxml.xsd:567, simpleType cancel-location *)
Definition schema_cancel_location : list str :=
  [ lit "left"; lit "right"; lit "before-barline" ].

(** musicxml.xsd:1321, simpleType circular-arrow *)
Definition schema_circular_arrow : list str :=
  [ lit "clockwise"; lit "anticlockwise" ].

(** musicxml.xsd:578, simpleType clef-sign *)
Definition schema_clef_sign : list str :=
  [ lit "G"; lit "F"; lit "C"; lit "percussion";
    lit "TAB"; lit "jianpu"; lit "none" ].

(** musicxml.xsd:70, simpleType css-font-size *)
Definition schema_css_font_size : list str :=
  [ lit "xx-small"; lit "x-small"; lit "small"; lit "medium";
    lit "large"; lit "x-large"; lit "xx-large" ].

(** musicxml.xsd:797, simpleType degree-symbol-value *)
Definition schema_degree_symbol_value : list str :=
  [ lit "major"; lit "minor"; lit "augmented"; lit "diminished";
    lit "half-diminished" ].

(** musicxml.xsd:810, simpleType degree-type-value *)
Definition schema_degree_type_value : list str :=
  [ lit "add"; lit "alter"; lit "subtract" ].

(** musicxml.xsd:821, simpleType effect *)
Definition schema_effect : list str :=
  [ lit "anvil"; lit "auto horn"; lit "bird whistle"; lit "cannon";
    lit "duck call"; lit "gun shot"; lit "klaxon horn"; lit "lions roar";
    lit "police whistle"; lit "siren"; lit "slide whistle"; lit "thunder sheet";
    lit "wind machine"; lit "wind whistle" ].

(** musicxml.xsd:92, simpleType enclosure-shape *)
Definition schema_enclosure_shape : list str :=
  [ lit "rectangle"; lit "square"; lit "oval"; lit "circle";
    lit "bracket"; lit "triangle"; lit "diamond"; lit "none" ].

(** musicxml.xsd:1331, simpleType fan *)
Definition schema_fan : list str :=
  [ lit "accel"; lit "rit"; lit "none" ].

(** musicxml.xsd:108, simpleType fermata-shape *)
Definition schema_fermata_shape : list str :=
  [ lit "normal"; lit "angled"; lit "square"; lit "" ].

(** musicxml.xsd:127, simpleType font-style *)
Definition schema_font_style : list str :=
  [ lit "normal"; lit "italic" ].

(** musicxml.xsd:137, simpleType font-weight *)
Definition schema_font_weight : list str :=
  [ lit "normal"; lit "bold" ].

(** musicxml.xsd:843, simpleType glass *)
Definition schema_glass : list str :=
  [ lit "wind chimes" ].

(** musicxml.xsd:1522, simpleType group-barline-value *)
Definition schema_group_barline_value : list str :=
  [ lit "yes"; lit "no"; lit "Mensurstrich" ].

(** musicxml.xsd:1533, simpleType group-symbol-value *)
Definition schema_group_symbol_value : list str :=
  [ lit "none"; lit "brace"; lit "line"; lit "bracket";
    lit "square" ].

(** musicxml.xsd:1342, simpleType handbell-value *)
Definition schema_handbell_value : list str :=
  [ lit "damp"; lit "echo"; lit "gyro"; lit "hand martellato";
    lit "mallet lift"; lit "mallet table"; lit "martellato"; lit "martellato lift";
    lit "muted martellato"; lit "pluck lift"; lit "swing" ].

(** musicxml.xsd:852, simpleType harmony-type *)
Definition schema_harmony_type : list str :=
  [ lit "explicit"; lit "implied"; lit "alternate" ].

(** musicxml.xsd:1361, simpleType hole-closed-location *)
Definition schema_hole_closed_location : list str :=
  [ lit "right"; lit "bottom"; lit "left"; lit "top" ].

(** musicxml.xsd:1373, simpleType hole-closed-value *)
Definition schema_hole_closed_value : list str :=
  [ lit "yes"; lit "no"; lit "half" ].

(** musicxml.xsd:863, simpleType kind-value *)
Definition schema_kind_value : list str :=
  [ lit "major"; lit "minor"; lit "augmented"; lit "diminished";
    lit "dominant"; lit "major-seventh"; lit "minor-seventh"; lit "diminished-seventh";
    lit "augmented-seventh"; lit "half-diminished"; lit "major-minor"; lit "major-sixth";
    lit "minor-sixth"; lit "dominant-ninth"; lit "major-ninth"; lit "minor-ninth";
    lit "dominant-11th"; lit "major-11th"; lit "minor-11th"; lit "dominant-13th";
    lit "major-13th"; lit "minor-13th"; lit "suspended-second"; lit "suspended-fourth";
    lit "Neapolitan"; lit "Italian"; lit "French"; lit "German";
    lit "pedal"; lit "power"; lit "Tristan"; lit "other";
    lit "none" ].

(** musicxml.xsd:147, simpleType left-center-right *)
Definition schema_left_center_right : list str :=
  [ lit "left"; lit "center"; lit "right" ].

(** musicxml.xsd:158, simpleType left-right *)
Definition schema_left_right : list str :=
  [ lit "left"; lit "right" ].

(** musicxml.xsd:947, simpleType line-end *)
Definition schema_line_end : list str :=
  [ lit "up"; lit "down"; lit "both"; lit "arrow";
    lit "none" ].

(** musicxml.xsd:168, simpleType line-shape *)
Definition schema_line_shape : list str :=
  [ lit "straight"; lit "curved" ].

(** musicxml.xsd:178, simpleType line-type *)
Definition schema_line_type : list str :=
  [ lit "solid"; lit "dashed"; lit "dotted"; lit "wavy" ].

(** musicxml.xsd:1188, simpleType margin-type *)
Definition schema_margin_type : list str :=
  [ lit "odd"; lit "even"; lit "both" ].

(** musicxml.xsd:960, simpleType measure-numbering-value *)
Definition schema_measure_numbering_value : list str :=
  [ lit "none"; lit "measure"; lit "system" ].

(** musicxml.xsd:971, simpleType membrane *)
Definition schema_membrane : list str :=
  [ lit "bass drum"; lit "bass drum on side"; lit "bongos"; lit "conga drum";
    lit "goblet drum"; lit "military drum"; lit "snare drum"; lit "snare drum snares off";
    lit "tambourine"; lit "tenor drum"; lit "timbales"; lit "tomtom" ].

(** musicxml.xsd:991, simpleType metal *)
Definition schema_metal : list str :=
  [ lit "almglocken"; lit "bell"; lit "bell plate"; lit "brake drum";
    lit "Chinese cymbal"; lit "cowbell"; lit "crash cymbals"; lit "crotale";
    lit "cymbal tongs"; lit "domed gong"; lit "finger cymbals"; lit "flexatone";
    lit "gong"; lit "hi-hat"; lit "high-hat cymbals"; lit "handbell";
    lit "sistrum"; lit "sizzle cymbal"; lit "sleigh bells"; lit "suspended cymbal";
    lit "tam tam"; lit "triangle"; lit "Vietnamese hat" ].

(** musicxml.xsd:220, simpleType mute *)
Definition schema_mute : list str :=
  [ lit "on"; lit "off"; lit "straight"; lit "cup";
    lit "harmon-no-stem"; lit "harmon-stem"; lit "bucket"; lit "plunger";
    lit "hat"; lit "solotone"; lit "practice"; lit "stop-mute";
    lit "stop-hand"; lit "echo"; lit "palm" ].

(** musicxml.xsd:1206, simpleType note-size-type *)
Definition schema_note_size_type : list str :=
  [ lit "cue"; lit "grace"; lit "large" ].

(** musicxml.xsd:1384, simpleType note-type-value *)
Definition schema_note_type_value : list str :=
  [ lit "1024th"; lit "512th"; lit "256th"; lit "128th";
    lit "64th"; lit "32nd"; lit "16th"; lit "eighth";
    lit "quarter"; lit "half"; lit "whole"; lit "breve";
    lit "long"; lit "maxima" ].

(** musicxml.xsd:1406, simpleType notehead-value *)
Definition schema_notehead_value : list str :=
  [ lit "slash"; lit "triangle"; lit "diamond"; lit "square";
    lit "cross"; lit "x"; lit "circle-x"; lit "inverted triangle";
    lit "arrow down"; lit "arrow up"; lit "slashed"; lit "back slashed";
    lit "normal"; lit "cluster"; lit "circle dot"; lit "left triangle";
    lit "rectangle"; lit "none"; lit "do"; lit "re";
    lit "mi"; lit "fa"; lit "fa up"; lit "so";
    lit "la"; lit "ti" ].

(** musicxml.xsd:1022, simpleType on-off *)
Definition schema_on_off : list str :=
  [ lit "on"; lit "off" ].

(** musicxml.xsd:285, simpleType over-under *)
Definition schema_over_under : list str :=
  [ lit "over"; lit "under" ].

(** musicxml.xsd:1032, simpleType pitched *)
Definition schema_pitched : list str :=
  [ lit "chimes"; lit "glockenspiel"; lit "mallet"; lit "marimba";
    lit "tubular chimes"; lit "vibraphone"; lit "xylophone" ].

(** musicxml.xsd:1047, simpleType principal-voice-symbol *)
Definition schema_principal_voice_symbol : list str :=
  [ lit "Hauptstimme"; lit "Nebenstimme"; lit "plain"; lit "none" ].

(** musicxml.xsd:725, simpleType right-left-middle *)
Definition schema_right_left_middle : list str :=
  [ lit "right"; lit "left"; lit "middle" ].

(** musicxml.xsd:346, simpleType semi-pitched *)
Definition schema_semi_pitched : list str :=
  [ lit "high"; lit "medium-high"; lit "medium"; lit "medium-low";
    lit "low"; lit "very-low" ].

(** musicxml.xsd:607, simpleType show-frets *)
Definition schema_show_frets : list str :=
  [ lit "numbers"; lit "letters" ].

(** musicxml.xsd:1460, simpleType show-tuplet *)
Definition schema_show_tuplet : list str :=
  [ lit "actual"; lit "both"; lit "none" ].

(** musicxml.xsd:631, simpleType staff-type *)
Definition schema_staff_type : list str :=
  [ lit "ossia"; lit "cue"; lit "editorial"; lit "regular";
    lit "alternate" ].

(** musicxml.xsd:360, simpleType start-note *)
Definition schema_start_note : list str :=
  [ lit "upper"; lit "main"; lit "below" ].

(** musicxml.xsd:371, simpleType start-stop *)
Definition schema_start_stop : list str :=
  [ lit "start"; lit "stop" ].

(** musicxml.xsd:1059, simpleType start-stop-change-continue *)
Definition schema_start_stop_change_continue : list str :=
  [ lit "start"; lit "stop"; lit "change"; lit "continue" ].

(** musicxml.xsd:383, simpleType start-stop-continue *)
Definition schema_start_stop_continue : list str :=
  [ lit "start"; lit "stop"; lit "continue" ].

(** musicxml.xsd:736, simpleType start-stop-discontinue *)
Definition schema_start_stop_discontinue : list str :=
  [ lit "start"; lit "stop"; lit "discontinue" ].

(** musicxml.xsd:396, simpleType start-stop-single *)
Definition schema_start_stop_single : list str :=
  [ lit "start"; lit "stop"; lit "single" ].

(** musicxml.xsd:1471, simpleType stem-value *)
Definition schema_stem_value : list str :=
  [ lit "down"; lit "up"; lit "double"; lit "none" ].

(** musicxml.xsd:1483, simpleType step *)
Definition schema_step : list str :=
  [ lit "A"; lit "B"; lit "C"; lit "D";
    lit "E"; lit "F"; lit "G" ].

(** musicxml.xsd:1087, simpleType stick-location *)
Definition schema_stick_location : list str :=
  [ lit "center"; lit "rim"; lit "cymbal bell"; lit "cymbal edge" ].

(** musicxml.xsd:1099, simpleType stick-material *)
Definition schema_stick_material : list str :=
  [ lit "soft"; lit "medium"; lit "hard"; lit "shaded";
    lit "x" ].

(** musicxml.xsd:1112, simpleType stick-type *)
Definition schema_stick_type : list str :=
  [ lit "bass drum"; lit "double bass drum"; lit "timpani"; lit "xylophone";
    lit "yarn" ].

(** musicxml.xsd:1498, simpleType syllabic *)
Definition schema_syllabic : list str :=
  [ lit "single"; lit "begin"; lit "end"; lit "middle" ].

(** musicxml.xsd:414, simpleType symbol-size *)
Definition schema_symbol_size : list str :=
  [ lit "full"; lit "cue"; lit "large" ].

(** musicxml.xsd:434, simpleType text-direction *)
Definition schema_text_direction : list str :=
  [ lit "ltr"; lit "rtl"; lit "lro"; lit "rlo" ].

(** musicxml.xsd:644, simpleType time-relation *)
Definition schema_time_relation : list str :=
  [ lit "parentheses"; lit "bracket"; lit "equals"; lit "slash";
    lit "space"; lit "hyphen" ].

(** musicxml.xsd:658, simpleType time-separator *)
Definition schema_time_separator : list str :=
  [ lit "none"; lit "horizontal"; lit "diagonal"; lit "vertical";
    lit "adjacent" ].

(** musicxml.xsd:671, simpleType time-symbol *)
Definition schema_time_symbol : list str :=
  [ lit "common"; lit "cut"; lit "single-number"; lit "note";
    lit "dotted-note"; lit "normal" ].

(** musicxml.xsd:1071, simpleType tip-direction *)
Definition schema_tip_direction : list str :=
  [ lit "up"; lit "down"; lit "left"; lit "right";
    lit "northwest"; lit "northeast"; lit "southeast"; lit "southwest" ].

(** musicxml.xsd:455, simpleType top-bottom *)
Definition schema_top_bottom : list str :=
  [ lit "top"; lit "bottom" ].

(** musicxml.xsd:474, simpleType trill-step *)
Definition schema_trill_step : list str :=
  [ lit "whole"; lit "half"; lit "unison" ].

(** musicxml.xsd:485, simpleType two-note-turn *)
Definition schema_two_note_turn : list str :=
  [ lit "whole"; lit "half"; lit "none" ].

(** musicxml.xsd:496, simpleType up-down *)
Definition schema_up_down : list str :=
  [ lit "up"; lit "down" ].

(** musicxml.xsd:1126, simpleType up-down-stop-continue *)
Definition schema_up_down_stop_continue : list str :=
  [ lit "up"; lit "down"; lit "stop"; lit "continue" ].

(** musicxml.xsd:506, simpleType upright-inverted *)
Definition schema_upright_inverted : list str :=
  [ lit "upright"; lit "inverted" ].

(** musicxml.xsd:516, simpleType valign *)
Definition schema_valign : list str :=
  [ lit "top"; lit "middle"; lit "bottom"; lit "baseline" ].

(** musicxml.xsd:528, simpleType valign-image *)
Definition schema_valign_image : list str :=
  [ lit "top"; lit "middle"; lit "bottom" ].

(** musicxml.xsd:1138, simpleType wedge-type *)
Definition schema_wedge_type : list str :=
  [ lit "crescendo"; lit "diminuendo"; lit "stop"; lit "continue" ].

(** musicxml.xsd:747, simpleType winged *)
Definition schema_winged : list str :=
  [ lit "none"; lit "straight"; lit "curved"; lit "double-straight";
    lit "double-curved" ].

(** musicxml.xsd:1150, simpleType wood *)
Definition schema_wood : list str :=
  [ lit "board clapper"; lit "cabasa"; lit "castanets"; lit "claves";
    lit "guiro"; lit "log drum"; lit "maraca"; lit "maracas";
    lit "ratchet"; lit "sandpaper blocks"; lit "slit drum"; lit "temple block";
    lit "vibraslap"; lit "wood block" ].

(** musicxml.xsd:539, simpleType yes-no *)
Definition schema_yes_no : list str :=
  [ lit "yes"; lit "no" ].

(** musicxml.xsd:1991, complexType dynamics: the names of its child elements *)
Definition schema_dynamics : list str :=
  [ lit "p"; lit "pp"; lit "ppp"; lit "pppp"; lit "ppppp"; lit "pppppp"; lit "f"; lit "ff";
    lit "fff"; lit "ffff"; lit "fffff"; lit "ffffff"; lit "mp"; lit "mf"; lit "sf"; lit "sfp";
    lit "sfpp"; lit "fp"; lit "rf"; lit "rfz"; lit "sfz"; lit "sffz"; lit "fz"; lit "other-dynamics" ].

(** musicxml.xsd:1174, the texts its annotation lists, and the text the library prints for its catch-all *)
Definition schema_distance_type : list str :=
  [ lit "beam"; lit "hyphen"; lit "other" ].

(** musicxml.xsd:1181, the texts its annotation lists, and the text the library prints for its catch-all *)
Definition schema_line_width_type : list str :=
  [ lit "beam"; lit "bracket"; lit "dashes"; lit "enclosure";
    lit "ending"; lit "extend"; lit "heavy barline"; lit "leger";
    lit "light barline"; lit "octave shift"; lit "pedal"; lit "slur middle";
    lit "slur tip"; lit "staff"; lit "stem"; lit "tie middle";
    lit "tie tip"; lit "tuplet bracket"; lit "wedge"; lit "other" ].

(** musicxml.xsd:600, the texts its annotation lists, and the text the library prints for its catch-all *)
Definition schema_mode : list str :=
  [ lit "major"; lit "minor"; lit "dorian"; lit "phrygian";
    lit "lydian"; lit "mixolydian"; lit "aeolian"; lit "ionian";
    lit "locrian"; lit "none"; lit "other" ].

(** the W3C XLink 1.0 and XML 1.0 recommendations *)
Definition schema_XlinkType : list str :=
  [ lit "simple"; lit "extended"; lit "title"; lit "resource"; lit "locator"; lit "arc" ].

(** the W3C XLink 1.0 and XML 1.0 recommendations *)
Definition schema_XmlSpace : list str :=
  [ lit "default"; lit "preserve" ].

(** the W3C XLink 1.0 and XML 1.0 recommendations *)
Definition schema_XlinkActuate : list str :=
  [ lit "onLoad"; lit "onRequest"; lit "other"; lit "none" ].

(** the W3C XLink 1.0 and XML 1.0 recommendations *)
Definition schema_XlinkShow : list str :=
  [ lit "new"; lit "replace"; lit "embed"; lit "other"; lit "none" ].

