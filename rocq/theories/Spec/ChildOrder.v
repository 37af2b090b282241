(** The order of the children of an element: what the schema, Documents/musicxml.xsd, lays
    down for the elements whose children form a sequence. Each comment gives the line of the
    type in that file. *)
From Coq Require Import List String Ascii ZArith Bool.
From Verif Require Import Model.Base Model.Text.
Import ListNotations.

(** Names in the order given; [Some n]: at most [n] times, [None]: any number of times. *)
Definition order := list (str * option nat).

Inductive in_order : order -> list str -> Prop :=
| in_order_end : in_order [] []
| in_order_next : forall name bound n rest names,
    match bound with Some b => (n <= b)%nat | None => True end ->
    in_order rest names ->
    in_order ((name, bound) :: rest) (repeat name n ++ names).

Local Open Scope string_scope.
Definition sequence (name : string) (l : list (string * option nat)) : str * order := (lit name, map (fun p => (lit (fst p), snd p)) l).
Definition any := @None nat.
Definition upto (n : nat) := Some n.
Arguments upto n%nat.

Definition schema_order : list (str * order) := [
  (* accord, line 2693 *)
  sequence "accord" [("tuning-step", upto 1); ("tuning-alter", upto 1); ("tuning-octave", upto 1)];
  (* accordion-registration, line 2701 *)
  sequence "accordion-registration" [("accordion-high", upto 1); ("accordion-middle", upto 1); ("accordion-low", upto 1)];
  (* appearance, line 3506 *)
  sequence "appearance" [("line-width", any); ("note-size", any); ("distance", any); ("other-appearance", any)];
  (* backup, line 3808 *)
  sequence "backup" [("duration", upto 1); ("footnote", upto 1); ("level", upto 1)];
  (* barline, line 2641 *)
  sequence "barline" [("bar-style", upto 1); ("footnote", upto 1); ("level", upto 1); ("wavy-line", upto 1); ("segno", upto 1); ("coda", upto 1); ("fermata", upto 2); ("ending", upto 1); ("repeat", upto 1)];
  (* bass, line 2733 *)
  sequence "bass" [("bass-step", upto 1); ("bass-alter", upto 1)];
  (* beat-repeat, line 2370 *)
  sequence "beat-repeat" [("slash-type", upto 1); ("slash-dot", any)];
  (* clef, line 2393 *)
  sequence "clef" [("sign", upto 1); ("line", upto 1); ("clef-octave-change", upto 1)];
  (* defaults, line 4775 *)
  sequence "defaults" [("scaling", upto 1); ("page-layout", upto 1); ("system-layout", upto 1); ("staff-layout", any); ("appearance", upto 1); ("music-font", upto 1); ("word-font", upto 1); ("lyric-font", any); ("lyric-language", any)];
  (* degree, line 2804 *)
  sequence "degree" [("degree-value", upto 1); ("degree-alter", upto 1); ("degree-type", upto 1)];
  (* direction, line 2855 *)
  sequence "direction" [("direction-type", any); ("offset", upto 1); ("footnote", upto 1); ("level", upto 1); ("voice", upto 1); ("staff", upto 1); ("sound", upto 1)];
  (* figure, line 3901 *)
  sequence "figure" [("prefix", upto 1); ("figure-number", upto 1); ("suffix", upto 1); ("extend", upto 1)];
  (* figured-bass, line 3925 *)
  sequence "figured-bass" [("figure", any); ("duration", upto 1); ("footnote", upto 1); ("level", upto 1)];
  (* forward, line 3941 *)
  sequence "forward" [("duration", upto 1); ("footnote", upto 1); ("level", upto 1); ("voice", upto 1); ("staff", upto 1)];
  (* frame, line 2953 *)
  sequence "frame" [("frame-strings", upto 1); ("frame-frets", upto 1); ("first-fret", upto 1); ("frame-note", any)];
  (* frame-note, line 2980 *)
  sequence "frame-note" [("string", upto 1); ("fret", upto 1); ("fingering", upto 1); ("barre", upto 1)];
  (* grouping, line 2992 *)
  sequence "grouping" [("feature", any)];
  (* harp-pedals, line 3028 *)
  sequence "harp-pedals" [("pedal-tuning", any)];
  (* hole, line 4054 *)
  sequence "hole" [("hole-type", upto 1); ("hole-closed", upto 1); ("hole-shape", upto 1)];
  (* identification, line 3444 *)
  sequence "identification" [("creator", any); ("rights", any); ("encoding", upto 1); ("source", upto 1); ("relation", any); ("miscellaneous", upto 1)];
  (* measure-layout, line 3540 *)
  sequence "measure-layout" [("measure-distance", upto 1)];
  (* metronome-note, line 3139 *)
  sequence "metronome-note" [("metronome-type", upto 1); ("metronome-dot", any); ("metronome-beam", any); ("metronome-tuplet", upto 1)];
  (* midi-instrument, line 2157 *)
  sequence "midi-instrument" [("midi-channel", upto 1); ("midi-name", upto 1); ("midi-bank", upto 1); ("midi-program", upto 1); ("midi-unpitched", upto 1); ("volume", upto 1); ("pan", upto 1); ("elevation", upto 1)];
  (* miscellaneous, line 3474 *)
  sequence "miscellaneous" [("miscellaneous-field", any)];
  (* page-layout, line 3575 *)
  sequence "page-layout" [("page-height", upto 1); ("page-width", upto 1); ("page-margins", upto 2)];
  (* page-margins, line 3588 *)
  sequence "page-margins" [("left-margin", upto 1); ("right-margin", upto 1); ("top-margin", upto 1); ("bottom-margin", upto 1)];
  (* part-group, line 4856 *)
  sequence "part-group" [("group-name", upto 1); ("group-name-display", upto 1); ("group-abbreviation", upto 1); ("group-abbreviation-display", upto 1); ("group-symbol", upto 1); ("group-barline", upto 1); ("group-time", upto 1); ("footnote", upto 1); ("level", upto 1)];
  (* pedal-tuning, line 3216 *)
  sequence "pedal-tuning" [("pedal-step", upto 1); ("pedal-alter", upto 1)];
  (* pitch, line 4377 *)
  sequence "pitch" [("step", upto 1); ("alter", upto 1); ("octave", upto 1)];
  (* print, line 3279 *)
  sequence "print" [("page-layout", upto 1); ("system-layout", upto 1); ("staff-layout", any); ("measure-layout", upto 1); ("measure-numbering", upto 1); ("part-name-display", upto 1); ("part-abbreviation-display", upto 1)];
  (* attributes, line 2286 *)
  sequence "attributes" [("footnote", upto 1); ("level", upto 1); ("divisions", upto 1); ("key", any); ("time", any); ("staves", upto 1); ("part-symbol", upto 1); ("instruments", upto 1); ("clef", any); ("staff-details", any); ("transpose", any); ("directive", any); ("measure-style", any)];
  (* root, line 3295 *)
  sequence "root" [("root-step", upto 1); ("root-alter", upto 1)];
  (* scaling, line 3596 *)
  sequence "scaling" [("millimeters", upto 1); ("tenths", upto 1)];
  (* scordatura, line 3330 *)
  sequence "scordatura" [("accord", any)];
  (* slash, line 2528 *)
  sequence "slash" [("slash-type", upto 1); ("slash-dot", any)];
  (* staff-details, line 2538 *)
  sequence "staff-details" [("staff-type", upto 1); ("staff-lines", upto 1); ("staff-tuning", any); ("capo", upto 1); ("staff-size", upto 1)];
  (* staff-layout, line 3606 *)
  sequence "staff-layout" [("staff-distance", upto 1)];
  (* staff-tuning, line 2567 *)
  sequence "staff-tuning" [("tuning-step", upto 1); ("tuning-alter", upto 1); ("tuning-octave", upto 1)];
  (* stick, line 3396 *)
  sequence "stick" [("stick-type", upto 1); ("stick-material", upto 1)];
  (* system-dividers, line 3616 *)
  sequence "system-dividers" [("left-divider", upto 1); ("right-divider", upto 1)];
  (* system-layout, line 3628 *)
  sequence "system-layout" [("system-margins", upto 1); ("system-distance", upto 1); ("top-system-distance", upto 1); ("system-dividers", upto 1)];
  (* system-margins, line 3642 *)
  sequence "system-margins" [("left-margin", upto 1); ("right-margin", upto 1)];
  (* transpose, line 2599 *)
  sequence "transpose" [("diatonic", upto 1); ("chromatic", upto 1); ("octave-change", upto 1); ("double", upto 1)];
  (* tuplet, line 4661 *)
  sequence "tuplet" [("tuplet-actual", upto 1); ("tuplet-normal", upto 1)];
  (* tuplet-portion, line 4711 *)
  sequence "tuplet-actual" [("tuplet-number", upto 1); ("tuplet-type", upto 1); ("tuplet-dot", any)];
  (* tuplet-portion, line 4711 *)
  sequence "tuplet-normal" [("tuplet-number", upto 1); ("tuplet-type", upto 1); ("tuplet-dot", any)];
  (* virtual-instrument, line 4978 *)
  sequence "virtual-instrument" [("virtual-library", upto 1); ("virtual-name", upto 1)];
  (* work, line 4996 *)
  sequence "work" [("work-number", upto 1); ("work-title", upto 1); ("opus", upto 1)]
].
