(* The attributes MusicXML gives each element, from /repo/Documents/musicxml.xsd
   with the attribute groups and the extended types written out: for each
   element its attributes, whether each is required, and the type of its value.
   The elements inside dynamics, which are one class in the code, are left
   out. *)

From Coq Require Import String List Bool.
Import ListNotations.
Open Scope string_scope.

(* One attribute: name, required, type. *)
Record schemaAttribute := mkSchema { sa_name : string; sa_required : bool; sa_type : string }.

Definition schema : list (list string * list schemaAttribute) :=
  [(["accent"; "accidental-mark"; "arrow"; "breath-mark"; "caesura"; "detached-legato"; "dot";
     "double-tongue"; "down-bow"; "fingernails"; "handbell"; "hole"; "open-string";
     "other-articulation"; "other-ornament"; "other-technical"; "pluck"; "schleifer";
     "snap-pizzicato"; "spiccato"; "staccatissimo"; "staccato"; "stopped"; "stress"; "string";
     "tap"; "tenuto"; "thumb-position"; "triple-tongue"; "unstress"; "up-bow"; "with-bar"],
    [mkSchema "color" false "color";
     mkSchema "default-x" false "tenths";
     mkSchema "default-y" false "tenths";
     mkSchema "font-family" false "comma-separated-text";
     mkSchema "font-size" false "font-size";
     mkSchema "font-style" false "font-style";
     mkSchema "font-weight" false "font-weight";
     mkSchema "placement" false "above-below";
     mkSchema "relative-x" false "tenths";
     mkSchema "relative-y" false "tenths"]);
   (["accidental"],
    [mkSchema "bracket" false "yes-no";
     mkSchema "cautionary" false "yes-no";
     mkSchema "color" false "color";
     mkSchema "default-x" false "tenths";
     mkSchema "default-y" false "tenths";
     mkSchema "editorial" false "yes-no";
     mkSchema "font-family" false "comma-separated-text";
     mkSchema "font-size" false "font-size";
     mkSchema "font-style" false "font-style";
     mkSchema "font-weight" false "font-weight";
     mkSchema "parentheses" false "yes-no";
     mkSchema "relative-x" false "tenths";
     mkSchema "relative-y" false "tenths";
     mkSchema "size" false "symbol-size"]);
   (["accidental-text"; "credit-words"; "display-text"; "footnote"; "rehearsal"; "words"],
    [mkSchema "color" false "color";
     mkSchema "default-x" false "tenths";
     mkSchema "default-y" false "tenths";
     mkSchema "dir" false "text-direction";
     mkSchema "enclosure" false "enclosure-shape";
     mkSchema "font-family" false "comma-separated-text";
     mkSchema "font-size" false "font-size";
     mkSchema "font-style" false "font-style";
     mkSchema "font-weight" false "font-weight";
     mkSchema "halign" false "left-center-right";
     mkSchema "justify" false "left-center-right";
     mkSchema "letter-spacing" false "number-or-normal";
     mkSchema "line-height" false "number-or-normal";
     mkSchema "line-through" false "number-of-lines";
     mkSchema "overline" false "number-of-lines";
     mkSchema "relative-x" false "tenths";
     mkSchema "relative-y" false "tenths";
     mkSchema "rotation" false "rotation-degrees";
     mkSchema "underline" false "number-of-lines";
     mkSchema "valign" false "valign";
     mkSchema "xml:lang" false "xml:lang";
     mkSchema "xml:space" false "xml:space"]);
   (["accord"],
    [mkSchema "string" false "string-number"]);
   (["accordion-high"; "accordion-low"; "accordion-middle"; "actual-notes"; "alter";
     "appearance"; "arrow-direction"; "arrow-style"; "articulations"; "artificial";
     "attributes"; "backup"; "base-pitch"; "bass"; "beat-type"; "beat-unit"; "beat-unit-dot";
     "beats"; "bend-alter"; "bottom-margin"; "capo"; "chord"; "chromatic"; "circular-arrow";
     "clef-octave-change"; "credit-type"; "cue"; "defaults"; "diatonic"; "direction-type";
     "display-octave"; "display-step"; "divisions"; "double"; "duration"; "effect";
     "elevation"; "encoding"; "encoding-date"; "encoding-description"; "end-line";
     "end-paragraph"; "ensemble"; "fifths"; "figure"; "forward"; "frame-frets"; "frame-note";
     "frame-strings"; "glass"; "group"; "group-time"; "hole-shape"; "hole-type"; "humming";
     "identification"; "instrument-abbreviation"; "instrument-name"; "instrument-sound";
     "instruments"; "ipa"; "key-accidental"; "key-alter"; "key-step"; "laughing";
     "left-margin"; "line"; "measure-distance"; "measure-layout"; "membrane"; "metal";
     "metronome-dot"; "metronome-note"; "metronome-relation"; "metronome-type"; "midi-bank";
     "midi-channel"; "midi-name"; "midi-program"; "midi-unpitched"; "millimeters";
     "miscellaneous"; "mode"; "movement-number"; "movement-title"; "mute"; "natural";
     "normal-dot"; "normal-notes"; "normal-type"; "notehead-text"; "octave"; "octave-change";
     "ornaments"; "other-percussion"; "page-height"; "page-layout"; "page-width"; "pan";
     "part-list"; "pedal-alter"; "pedal-step"; "pedal-tuning"; "pitch"; "pitched"; "pre-bend";
     "release"; "right-margin"; "root"; "scaling"; "scordatura"; "semi-pitched";
     "senza-misura"; "sign"; "slash-dot"; "slash-type"; "software"; "solo"; "sounding-pitch";
     "source"; "staff"; "staff-distance"; "staff-lines"; "staff-size"; "staff-type"; "staves";
     "step"; "stick-location"; "stick-material"; "stick-type"; "syllabic"; "system-distance";
     "system-dividers"; "system-layout"; "system-margins"; "technical"; "tenths";
     "time-modification"; "time-relation"; "timpani"; "top-margin"; "top-system-distance";
     "touching-pitch"; "tuning-alter"; "tuning-octave"; "tuning-step"; "tuplet-actual";
     "tuplet-normal"; "unpitched"; "virtual-instrument"; "virtual-library"; "virtual-name";
     "voice"; "volume"; "wood"; "work"; "work-number"; "work-title"],
    []);
   (["accordion-registration"; "coda"; "damp"; "damp-all"; "eyeglasses"; "harp-pedals";
     "measure-numbering"; "segno"],
    [mkSchema "color" false "color";
     mkSchema "default-x" false "tenths";
     mkSchema "default-y" false "tenths";
     mkSchema "font-family" false "comma-separated-text";
     mkSchema "font-size" false "font-size";
     mkSchema "font-style" false "font-style";
     mkSchema "font-weight" false "font-weight";
     mkSchema "halign" false "left-center-right";
     mkSchema "relative-x" false "tenths";
     mkSchema "relative-y" false "tenths";
     mkSchema "valign" false "valign"]);
   (["arpeggiate"],
    [mkSchema "color" false "color";
     mkSchema "default-x" false "tenths";
     mkSchema "default-y" false "tenths";
     mkSchema "direction" false "up-down";
     mkSchema "number" false "number-level";
     mkSchema "placement" false "above-below";
     mkSchema "relative-x" false "tenths";
     mkSchema "relative-y" false "tenths"]);
   (["bar-style"; "group-barline"],
    [mkSchema "color" false "color"]);
   (["barline"],
    [mkSchema "coda" false "xs:token";
     mkSchema "divisions" false "divisions";
     mkSchema "location" false "right-left-middle";
     mkSchema "segno" false "xs:token"]);
   (["barre"],
    [mkSchema "color" false "color";
     mkSchema "type" true "start-stop"]);
   (["bass-alter"; "root-alter"],
    [mkSchema "color" false "color";
     mkSchema "default-x" false "tenths";
     mkSchema "default-y" false "tenths";
     mkSchema "font-family" false "comma-separated-text";
     mkSchema "font-size" false "font-size";
     mkSchema "font-style" false "font-style";
     mkSchema "font-weight" false "font-weight";
     mkSchema "location" false "left-right";
     mkSchema "print-object" false "yes-no";
     mkSchema "relative-x" false "tenths";
     mkSchema "relative-y" false "tenths"]);
   (["bass-step"; "degree-type"; "root-step"],
    [mkSchema "color" false "color";
     mkSchema "default-x" false "tenths";
     mkSchema "default-y" false "tenths";
     mkSchema "font-family" false "comma-separated-text";
     mkSchema "font-size" false "font-size";
     mkSchema "font-style" false "font-style";
     mkSchema "font-weight" false "font-weight";
     mkSchema "relative-x" false "tenths";
     mkSchema "relative-y" false "tenths";
     mkSchema "text" false "xs:token"]);
   (["beam"],
    [mkSchema "color" false "color";
     mkSchema "fan" false "fan";
     mkSchema "number" false "beam-level";
     mkSchema "repeater" false "yes-no"]);
   (["beat-repeat"],
    [mkSchema "slashes" false "xs:positiveInteger";
     mkSchema "type" true "start-stop";
     mkSchema "use-dots" false "yes-no"]);
   (["beater"; "stick"],
    [mkSchema "tip" false "tip-direction"]);
   (["bend"],
    [mkSchema "accelerate" false "yes-no";
     mkSchema "beats" false "trill-beats";
     mkSchema "color" false "color";
     mkSchema "default-x" false "tenths";
     mkSchema "default-y" false "tenths";
     mkSchema "first-beat" false "percent";
     mkSchema "font-family" false "comma-separated-text";
     mkSchema "font-size" false "font-size";
     mkSchema "font-style" false "font-style";
     mkSchema "font-weight" false "font-weight";
     mkSchema "last-beat" false "percent";
     mkSchema "relative-x" false "tenths";
     mkSchema "relative-y" false "tenths"]);
   (["bookmark"],
    [mkSchema "element" false "xs:NMTOKEN";
     mkSchema "id" true "xs:ID";
     mkSchema "name" false "xs:token";
     mkSchema "position" false "xs:positiveInteger"]);
   (["bracket"],
    [mkSchema "color" false "color";
     mkSchema "dash-length" false "tenths";
     mkSchema "default-x" false "tenths";
     mkSchema "default-y" false "tenths";
     mkSchema "end-length" false "tenths";
     mkSchema "line-end" true "line-end";
     mkSchema "line-type" false "line-type";
     mkSchema "number" false "number-level";
     mkSchema "relative-x" false "tenths";
     mkSchema "relative-y" false "tenths";
     mkSchema "space-length" false "tenths";
     mkSchema "type" true "start-stop-continue"]);
   (["cancel"],
    [mkSchema "location" false "cancel-location"]);
   (["clef"],
    [mkSchema "additional" false "yes-no";
     mkSchema "after-barline" false "yes-no";
     mkSchema "color" false "color";
     mkSchema "default-x" false "tenths";
     mkSchema "default-y" false "tenths";
     mkSchema "font-family" false "comma-separated-text";
     mkSchema "font-size" false "font-size";
     mkSchema "font-style" false "font-style";
     mkSchema "font-weight" false "font-weight";
     mkSchema "number" false "staff-number";
     mkSchema "print-object" false "yes-no";
     mkSchema "relative-x" false "tenths";
     mkSchema "relative-y" false "tenths";
     mkSchema "size" false "symbol-size"]);
   (["creator"; "encoder"; "feature"; "relation"; "rights"],
    [mkSchema "type" false "xs:token"]);
   (["credit"],
    [mkSchema "page" false "xs:positiveInteger"]);
   (["credit-image"; "image"],
    [mkSchema "default-x" false "tenths";
     mkSchema "default-y" false "tenths";
     mkSchema "halign" false "left-center-right";
     mkSchema "relative-x" false "tenths";
     mkSchema "relative-y" false "tenths";
     mkSchema "source" true "xs:anyURI";
     mkSchema "type" true "xs:token";
     mkSchema "valign" false "valign-image"]);
   (["dashes"],
    [mkSchema "color" false "color";
     mkSchema "dash-length" false "tenths";
     mkSchema "default-x" false "tenths";
     mkSchema "default-y" false "tenths";
     mkSchema "number" false "number-level";
     mkSchema "relative-x" false "tenths";
     mkSchema "relative-y" false "tenths";
     mkSchema "space-length" false "tenths";
     mkSchema "type" true "start-stop-continue"]);
   (["degree"; "group-abbreviation-display"; "group-name-display"; "notations";
     "part-abbreviation-display"; "part-name-display"],
    [mkSchema "print-object" false "yes-no"]);
   (["degree-alter"],
    [mkSchema "color" false "color";
     mkSchema "default-x" false "tenths";
     mkSchema "default-y" false "tenths";
     mkSchema "font-family" false "comma-separated-text";
     mkSchema "font-size" false "font-size";
     mkSchema "font-style" false "font-style";
     mkSchema "font-weight" false "font-weight";
     mkSchema "plus-minus" false "yes-no";
     mkSchema "relative-x" false "tenths";
     mkSchema "relative-y" false "tenths"]);
   (["degree-value"],
    [mkSchema "color" false "color";
     mkSchema "default-x" false "tenths";
     mkSchema "default-y" false "tenths";
     mkSchema "font-family" false "comma-separated-text";
     mkSchema "font-size" false "font-size";
     mkSchema "font-style" false "font-style";
     mkSchema "font-weight" false "font-weight";
     mkSchema "relative-x" false "tenths";
     mkSchema "relative-y" false "tenths";
     mkSchema "symbol" false "degree-symbol-value";
     mkSchema "text" false "xs:token"]);
   (["delayed-inverted-turn"; "delayed-turn"; "inverted-turn"; "turn"],
    [mkSchema "accelerate" false "yes-no";
     mkSchema "beats" false "trill-beats";
     mkSchema "color" false "color";
     mkSchema "default-x" false "tenths";
     mkSchema "default-y" false "tenths";
     mkSchema "font-family" false "comma-separated-text";
     mkSchema "font-size" false "font-size";
     mkSchema "font-style" false "font-style";
     mkSchema "font-weight" false "font-weight";
     mkSchema "last-beat" false "percent";
     mkSchema "placement" false "above-below";
     mkSchema "relative-x" false "tenths";
     mkSchema "relative-y" false "tenths";
     mkSchema "second-beat" false "percent";
     mkSchema "slash" false "yes-no";
     mkSchema "start-note" false "start-note";
     mkSchema "trill-step" false "trill-step";
     mkSchema "two-note-turn" false "two-note-turn"]);
   (["direction"],
    [mkSchema "directive" false "yes-no";
     mkSchema "placement" false "above-below"]);
   (["directive"],
    [mkSchema "color" false "color";
     mkSchema "default-x" false "tenths";
     mkSchema "default-y" false "tenths";
     mkSchema "font-family" false "comma-separated-text";
     mkSchema "font-size" false "font-size";
     mkSchema "font-style" false "font-style";
     mkSchema "font-weight" false "font-weight";
     mkSchema "relative-x" false "tenths";
     mkSchema "relative-y" false "tenths";
     mkSchema "xml:lang" false "xml:lang"]);
   (["distance"],
    [mkSchema "type" true "distance-type"]);
   (["doit"; "falloff"; "plop"; "scoop"],
    [mkSchema "color" false "color";
     mkSchema "dash-length" false "tenths";
     mkSchema "default-x" false "tenths";
     mkSchema "default-y" false "tenths";
     mkSchema "font-family" false "comma-separated-text";
     mkSchema "font-size" false "font-size";
     mkSchema "font-style" false "font-style";
     mkSchema "font-weight" false "font-weight";
     mkSchema "line-shape" false "line-shape";
     mkSchema "line-type" false "line-type";
     mkSchema "placement" false "above-below";
     mkSchema "relative-x" false "tenths";
     mkSchema "relative-y" false "tenths";
     mkSchema "space-length" false "tenths"]);
   (["dynamics"],
    [mkSchema "color" false "color";
     mkSchema "default-x" false "tenths";
     mkSchema "default-y" false "tenths";
     mkSchema "enclosure" false "enclosure-shape";
     mkSchema "font-family" false "comma-separated-text";
     mkSchema "font-size" false "font-size";
     mkSchema "font-style" false "font-style";
     mkSchema "font-weight" false "font-weight";
     mkSchema "halign" false "left-center-right";
     mkSchema "line-through" false "number-of-lines";
     mkSchema "overline" false "number-of-lines";
     mkSchema "placement" false "above-below";
     mkSchema "relative-x" false "tenths";
     mkSchema "relative-y" false "tenths";
     mkSchema "underline" false "number-of-lines";
     mkSchema "valign" false "valign"]);
   (["elision"; "text"],
    [mkSchema "color" false "color";
     mkSchema "dir" false "text-direction";
     mkSchema "font-family" false "comma-separated-text";
     mkSchema "font-size" false "font-size";
     mkSchema "font-style" false "font-style";
     mkSchema "font-weight" false "font-weight";
     mkSchema "letter-spacing" false "number-or-normal";
     mkSchema "line-through" false "number-of-lines";
     mkSchema "overline" false "number-of-lines";
     mkSchema "rotation" false "rotation-degrees";
     mkSchema "underline" false "number-of-lines";
     mkSchema "xml:lang" false "xml:lang"]);
   (["ending"],
    [mkSchema "color" false "color";
     mkSchema "default-x" false "tenths";
     mkSchema "default-y" false "tenths";
     mkSchema "end-length" false "tenths";
     mkSchema "font-family" false "comma-separated-text";
     mkSchema "font-size" false "font-size";
     mkSchema "font-style" false "font-style";
     mkSchema "font-weight" false "font-weight";
     mkSchema "number" true "ending-number";
     mkSchema "print-object" false "yes-no";
     mkSchema "relative-x" false "tenths";
     mkSchema "relative-y" false "tenths";
     mkSchema "text-x" false "tenths";
     mkSchema "text-y" false "tenths";
     mkSchema "type" true "start-stop-discontinue"]);
   (["extend"],
    [mkSchema "color" false "color";
     mkSchema "default-x" false "tenths";
     mkSchema "default-y" false "tenths";
     mkSchema "font-family" false "comma-separated-text";
     mkSchema "font-size" false "font-size";
     mkSchema "font-style" false "font-style";
     mkSchema "font-weight" false "font-weight";
     mkSchema "relative-x" false "tenths";
     mkSchema "relative-y" false "tenths";
     mkSchema "type" false "start-stop-continue"]);
   (["fermata"],
    [mkSchema "color" false "color";
     mkSchema "default-x" false "tenths";
     mkSchema "default-y" false "tenths";
     mkSchema "font-family" false "comma-separated-text";
     mkSchema "font-size" false "font-size";
     mkSchema "font-style" false "font-style";
     mkSchema "font-weight" false "font-weight";
     mkSchema "relative-x" false "tenths";
     mkSchema "relative-y" false "tenths";
     mkSchema "type" false "upright-inverted"]);
   (["figure-number"; "function"; "inversion"; "prefix"; "suffix"],
    [mkSchema "color" false "color";
     mkSchema "default-x" false "tenths";
     mkSchema "default-y" false "tenths";
     mkSchema "font-family" false "comma-separated-text";
     mkSchema "font-size" false "font-size";
     mkSchema "font-style" false "font-style";
     mkSchema "font-weight" false "font-weight";
     mkSchema "relative-x" false "tenths";
     mkSchema "relative-y" false "tenths"]);
   (["figured-bass"],
    [mkSchema "color" false "color";
     mkSchema "default-x" false "tenths";
     mkSchema "default-y" false "tenths";
     mkSchema "font-family" false "comma-separated-text";
     mkSchema "font-size" false "font-size";
     mkSchema "font-style" false "font-style";
     mkSchema "font-weight" false "font-weight";
     mkSchema "parentheses" false "yes-no";
     mkSchema "print-dot" false "yes-no";
     mkSchema "print-lyric" false "yes-no";
     mkSchema "print-object" false "yes-no";
     mkSchema "print-spacing" false "yes-no";
     mkSchema "relative-x" false "tenths";
     mkSchema "relative-y" false "tenths"]);
   (["fingering"],
    [mkSchema "alternate" false "yes-no";
     mkSchema "color" false "color";
     mkSchema "default-x" false "tenths";
     mkSchema "default-y" false "tenths";
     mkSchema "font-family" false "comma-separated-text";
     mkSchema "font-size" false "font-size";
     mkSchema "font-style" false "font-style";
     mkSchema "font-weight" false "font-weight";
     mkSchema "placement" false "above-below";
     mkSchema "relative-x" false "tenths";
     mkSchema "relative-y" false "tenths";
     mkSchema "substitution" false "yes-no"]);
   (["first-fret"],
    [mkSchema "location" false "left-right";
     mkSchema "text" false "xs:token"]);
   (["frame"],
    [mkSchema "color" false "color";
     mkSchema "default-x" false "tenths";
     mkSchema "default-y" false "tenths";
     mkSchema "halign" false "left-center-right";
     mkSchema "height" false "tenths";
     mkSchema "relative-x" false "tenths";
     mkSchema "relative-y" false "tenths";
     mkSchema "unplayed" false "xs:token";
     mkSchema "valign" false "valign-image";
     mkSchema "width" false "tenths"]);
   (["fret"; "tuplet-dot"; "tuplet-number"; "tuplet-type"],
    [mkSchema "color" false "color";
     mkSchema "font-family" false "comma-separated-text";
     mkSchema "font-size" false "font-size";
     mkSchema "font-style" false "font-style";
     mkSchema "font-weight" false "font-weight"]);
   (["glissando"],
    [mkSchema "color" false "color";
     mkSchema "dash-length" false "tenths";
     mkSchema "default-x" false "tenths";
     mkSchema "default-y" false "tenths";
     mkSchema "font-family" false "comma-separated-text";
     mkSchema "font-size" false "font-size";
     mkSchema "font-style" false "font-style";
     mkSchema "font-weight" false "font-weight";
     mkSchema "line-type" false "line-type";
     mkSchema "number" false "number-level";
     mkSchema "relative-x" false "tenths";
     mkSchema "relative-y" false "tenths";
     mkSchema "space-length" false "tenths";
     mkSchema "type" true "start-stop"]);
   (["grace"],
    [mkSchema "make-time" false "divisions";
     mkSchema "slash" false "yes-no";
     mkSchema "steal-time-following" false "percent";
     mkSchema "steal-time-previous" false "percent"]);
   (["group-abbreviation"; "group-name"],
    [mkSchema "color" false "color";
     mkSchema "default-x" false "tenths";
     mkSchema "default-y" false "tenths";
     mkSchema "font-family" false "comma-separated-text";
     mkSchema "font-size" false "font-size";
     mkSchema "font-style" false "font-style";
     mkSchema "font-weight" false "font-weight";
     mkSchema "justify" false "left-center-right";
     mkSchema "relative-x" false "tenths";
     mkSchema "relative-y" false "tenths"]);
   (["group-symbol"; "stem"],
    [mkSchema "color" false "color";
     mkSchema "default-x" false "tenths";
     mkSchema "default-y" false "tenths";
     mkSchema "relative-x" false "tenths";
     mkSchema "relative-y" false "tenths"]);
   (["grouping"],
    [mkSchema "member-of" false "xs:token";
     mkSchema "number" false "xs:token";
     mkSchema "type" true "start-stop-single"]);
   (["hammer-on"; "pull-off"],
    [mkSchema "color" false "color";
     mkSchema "default-x" false "tenths";
     mkSchema "default-y" false "tenths";
     mkSchema "font-family" false "comma-separated-text";
     mkSchema "font-size" false "font-size";
     mkSchema "font-style" false "font-style";
     mkSchema "font-weight" false "font-weight";
     mkSchema "number" false "number-level";
     mkSchema "placement" false "above-below";
     mkSchema "relative-x" false "tenths";
     mkSchema "relative-y" false "tenths";
     mkSchema "type" true "start-stop"]);
   (["harmonic"],
    [mkSchema "color" false "color";
     mkSchema "default-x" false "tenths";
     mkSchema "default-y" false "tenths";
     mkSchema "font-family" false "comma-separated-text";
     mkSchema "font-size" false "font-size";
     mkSchema "font-style" false "font-style";
     mkSchema "font-weight" false "font-weight";
     mkSchema "placement" false "above-below";
     mkSchema "print-object" false "yes-no";
     mkSchema "relative-x" false "tenths";
     mkSchema "relative-y" false "tenths"]);
   (["harmony"],
    [mkSchema "color" false "color";
     mkSchema "default-x" false "tenths";
     mkSchema "default-y" false "tenths";
     mkSchema "font-family" false "comma-separated-text";
     mkSchema "font-size" false "font-size";
     mkSchema "font-style" false "font-style";
     mkSchema "font-weight" false "font-weight";
     mkSchema "placement" false "above-below";
     mkSchema "print-frame" false "yes-no";
     mkSchema "print-object" false "yes-no";
     mkSchema "relative-x" false "tenths";
     mkSchema "relative-y" false "tenths";
     mkSchema "type" false "harmony-type"]);
   (["heel"; "toe"],
    [mkSchema "color" false "color";
     mkSchema "default-x" false "tenths";
     mkSchema "default-y" false "tenths";
     mkSchema "font-family" false "comma-separated-text";
     mkSchema "font-size" false "font-size";
     mkSchema "font-style" false "font-style";
     mkSchema "font-weight" false "font-weight";
     mkSchema "placement" false "above-below";
     mkSchema "relative-x" false "tenths";
     mkSchema "relative-y" false "tenths";
     mkSchema "substitution" false "yes-no"]);
   (["hole-closed"],
    [mkSchema "location" false "hole-closed-location"]);
   (["instrument"; "midi-instrument"; "part"],
    [mkSchema "id" true "xs:IDREF"]);
   (["interchangeable"],
    [mkSchema "separator" false "time-separator";
     mkSchema "symbol" false "time-symbol"]);
   (["inverted-mordent"; "mordent"],
    [mkSchema "accelerate" false "yes-no";
     mkSchema "approach" false "above-below";
     mkSchema "beats" false "trill-beats";
     mkSchema "color" false "color";
     mkSchema "default-x" false "tenths";
     mkSchema "default-y" false "tenths";
     mkSchema "departure" false "above-below";
     mkSchema "font-family" false "comma-separated-text";
     mkSchema "font-size" false "font-size";
     mkSchema "font-style" false "font-style";
     mkSchema "font-weight" false "font-weight";
     mkSchema "last-beat" false "percent";
     mkSchema "long" false "yes-no";
     mkSchema "placement" false "above-below";
     mkSchema "relative-x" false "tenths";
     mkSchema "relative-y" false "tenths";
     mkSchema "second-beat" false "percent";
     mkSchema "start-note" false "start-note";
     mkSchema "trill-step" false "trill-step";
     mkSchema "two-note-turn" false "two-note-turn"]);
   (["key"],
    [mkSchema "color" false "color";
     mkSchema "default-x" false "tenths";
     mkSchema "default-y" false "tenths";
     mkSchema "font-family" false "comma-separated-text";
     mkSchema "font-size" false "font-size";
     mkSchema "font-style" false "font-style";
     mkSchema "font-weight" false "font-weight";
     mkSchema "number" false "staff-number";
     mkSchema "print-object" false "yes-no";
     mkSchema "relative-x" false "tenths";
     mkSchema "relative-y" false "tenths"]);
   (["key-octave"],
    [mkSchema "cancel" false "yes-no";
     mkSchema "number" true "xs:positiveInteger"]);
   (["kind"],
    [mkSchema "bracket-degrees" false "yes-no";
     mkSchema "color" false "color";
     mkSchema "default-x" false "tenths";
     mkSchema "default-y" false "tenths";
     mkSchema "font-family" false "comma-separated-text";
     mkSchema "font-size" false "font-size";
     mkSchema "font-style" false "font-style";
     mkSchema "font-weight" false "font-weight";
     mkSchema "halign" false "left-center-right";
     mkSchema "parentheses-degrees" false "yes-no";
     mkSchema "relative-x" false "tenths";
     mkSchema "relative-y" false "tenths";
     mkSchema "stack-degrees" false "yes-no";
     mkSchema "text" false "xs:token";
     mkSchema "use-symbols" false "yes-no";
     mkSchema "valign" false "valign"]);
   (["left-divider"; "other-direction"; "right-divider"],
    [mkSchema "color" false "color";
     mkSchema "default-x" false "tenths";
     mkSchema "default-y" false "tenths";
     mkSchema "font-family" false "comma-separated-text";
     mkSchema "font-size" false "font-size";
     mkSchema "font-style" false "font-style";
     mkSchema "font-weight" false "font-weight";
     mkSchema "halign" false "left-center-right";
     mkSchema "print-object" false "yes-no";
     mkSchema "relative-x" false "tenths";
     mkSchema "relative-y" false "tenths";
     mkSchema "valign" false "valign"]);
   (["level"],
    [mkSchema "bracket" false "yes-no";
     mkSchema "parentheses" false "yes-no";
     mkSchema "reference" false "yes-no";
     mkSchema "size" false "symbol-size"]);
   (["line-width"],
    [mkSchema "type" true "line-width-type"]);
   (["link"],
    [mkSchema "default-x" false "tenths";
     mkSchema "default-y" false "tenths";
     mkSchema "element" false "xs:NMTOKEN";
     mkSchema "name" false "xs:token";
     mkSchema "position" false "xs:positiveInteger";
     mkSchema "relative-x" false "tenths";
     mkSchema "relative-y" false "tenths";
     mkSchema "xlink:actuate" false "xlink:actuate";
     mkSchema "xlink:href" true "xlink:href";
     mkSchema "xlink:role" false "xlink:role";
     mkSchema "xlink:show" false "xlink:show";
     mkSchema "xlink:title" false "xlink:title";
     mkSchema "xlink:type" false "xlink:type"]);
   (["lyric"],
    [mkSchema "color" false "color";
     mkSchema "default-x" false "tenths";
     mkSchema "default-y" false "tenths";
     mkSchema "justify" false "left-center-right";
     mkSchema "name" false "xs:token";
     mkSchema "number" false "xs:NMTOKEN";
     mkSchema "placement" false "above-below";
     mkSchema "print-object" false "yes-no";
     mkSchema "relative-x" false "tenths";
     mkSchema "relative-y" false "tenths"]);
   (["lyric-font"],
    [mkSchema "font-family" false "comma-separated-text";
     mkSchema "font-size" false "font-size";
     mkSchema "font-style" false "font-style";
     mkSchema "font-weight" false "font-weight";
     mkSchema "name" false "xs:token";
     mkSchema "number" false "xs:NMTOKEN"]);
   (["lyric-language"],
    [mkSchema "name" false "xs:token";
     mkSchema "number" false "xs:NMTOKEN";
     mkSchema "xml:lang" true "xml:lang"]);
   (["measure"],
    [mkSchema "implicit" false "yes-no";
     mkSchema "non-controlling" false "yes-no";
     mkSchema "number" true "xs:token";
     mkSchema "width" false "tenths"]);
   (["measure-repeat"],
    [mkSchema "slashes" false "xs:positiveInteger";
     mkSchema "type" true "start-stop"]);
   (["measure-style"],
    [mkSchema "color" false "color";
     mkSchema "font-family" false "comma-separated-text";
     mkSchema "font-size" false "font-size";
     mkSchema "font-style" false "font-style";
     mkSchema "font-weight" false "font-weight";
     mkSchema "number" false "staff-number"]);
   (["metronome"],
    [mkSchema "color" false "color";
     mkSchema "default-x" false "tenths";
     mkSchema "default-y" false "tenths";
     mkSchema "font-family" false "comma-separated-text";
     mkSchema "font-size" false "font-size";
     mkSchema "font-style" false "font-style";
     mkSchema "font-weight" false "font-weight";
     mkSchema "halign" false "left-center-right";
     mkSchema "justify" false "left-center-right";
     mkSchema "parentheses" false "yes-no";
     mkSchema "relative-x" false "tenths";
     mkSchema "relative-y" false "tenths";
     mkSchema "valign" false "valign"]);
   (["metronome-beam"],
    [mkSchema "number" false "beam-level"]);
   (["metronome-tuplet"],
    [mkSchema "bracket" false "yes-no";
     mkSchema "show-number" false "show-tuplet";
     mkSchema "type" true "start-stop"]);
   (["midi-device"],
    [mkSchema "id" false "xs:IDREF";
     mkSchema "port" false "midi-16"]);
   (["miscellaneous-field"],
    [mkSchema "name" true "xs:token"]);
   (["multiple-rest"],
    [mkSchema "use-symbols" false "yes-no"]);
   (["music-font"; "per-minute"; "word-font"],
    [mkSchema "font-family" false "comma-separated-text";
     mkSchema "font-size" false "font-size";
     mkSchema "font-style" false "font-style";
     mkSchema "font-weight" false "font-weight"]);
   (["non-arpeggiate"],
    [mkSchema "color" false "color";
     mkSchema "default-x" false "tenths";
     mkSchema "default-y" false "tenths";
     mkSchema "number" false "number-level";
     mkSchema "placement" false "above-below";
     mkSchema "relative-x" false "tenths";
     mkSchema "relative-y" false "tenths";
     mkSchema "type" true "top-bottom"]);
   (["note"],
    [mkSchema "attack" false "divisions";
     mkSchema "color" false "color";
     mkSchema "default-x" false "tenths";
     mkSchema "default-y" false "tenths";
     mkSchema "dynamics" false "non-negative-decimal";
     mkSchema "end-dynamics" false "non-negative-decimal";
     mkSchema "font-family" false "comma-separated-text";
     mkSchema "font-size" false "font-size";
     mkSchema "font-style" false "font-style";
     mkSchema "font-weight" false "font-weight";
     mkSchema "pizzicato" false "yes-no";
     mkSchema "print-dot" false "yes-no";
     mkSchema "print-lyric" false "yes-no";
     mkSchema "print-object" false "yes-no";
     mkSchema "print-spacing" false "yes-no";
     mkSchema "relative-x" false "tenths";
     mkSchema "relative-y" false "tenths";
     mkSchema "release" false "divisions";
     mkSchema "time-only" false "time-only"]);
   (["note-size"],
    [mkSchema "type" true "note-size-type"]);
   (["notehead"],
    [mkSchema "color" false "color";
     mkSchema "filled" false "yes-no";
     mkSchema "font-family" false "comma-separated-text";
     mkSchema "font-size" false "font-size";
     mkSchema "font-style" false "font-style";
     mkSchema "font-weight" false "font-weight";
     mkSchema "parentheses" false "yes-no"]);
   (["octave-shift"],
    [mkSchema "color" false "color";
     mkSchema "dash-length" false "tenths";
     mkSchema "default-x" false "tenths";
     mkSchema "default-y" false "tenths";
     mkSchema "font-family" false "comma-separated-text";
     mkSchema "font-size" false "font-size";
     mkSchema "font-style" false "font-style";
     mkSchema "font-weight" false "font-weight";
     mkSchema "number" false "number-level";
     mkSchema "relative-x" false "tenths";
     mkSchema "relative-y" false "tenths";
     mkSchema "size" false "xs:positiveInteger";
     mkSchema "space-length" false "tenths";
     mkSchema "type" true "up-down-stop-continue"]);
   (["offset"],
    [mkSchema "sound" false "yes-no"]);
   (["opus"],
    [mkSchema "xlink:actuate" false "xlink:actuate";
     mkSchema "xlink:href" true "xlink:href";
     mkSchema "xlink:role" false "xlink:role";
     mkSchema "xlink:show" false "xlink:show";
     mkSchema "xlink:title" false "xlink:title";
     mkSchema "xlink:type" false "xlink:type"]);
   (["other-appearance"; "other-play"],
    [mkSchema "type" true "xs:token"]);
   (["other-notation"],
    [mkSchema "color" false "color";
     mkSchema "default-x" false "tenths";
     mkSchema "default-y" false "tenths";
     mkSchema "font-family" false "comma-separated-text";
     mkSchema "font-size" false "font-size";
     mkSchema "font-style" false "font-style";
     mkSchema "font-weight" false "font-weight";
     mkSchema "number" false "number-level";
     mkSchema "placement" false "above-below";
     mkSchema "print-object" false "yes-no";
     mkSchema "relative-x" false "tenths";
     mkSchema "relative-y" false "tenths";
     mkSchema "type" true "start-stop-single"]);
   (["page-margins"],
    [mkSchema "type" false "margin-type"]);
   (["part-abbreviation"; "part-name"],
    [mkSchema "color" false "color";
     mkSchema "default-x" false "tenths";
     mkSchema "default-y" false "tenths";
     mkSchema "font-family" false "comma-separated-text";
     mkSchema "font-size" false "font-size";
     mkSchema "font-style" false "font-style";
     mkSchema "font-weight" false "font-weight";
     mkSchema "justify" false "left-center-right";
     mkSchema "print-object" false "yes-no";
     mkSchema "relative-x" false "tenths";
     mkSchema "relative-y" false "tenths"]);
   (["part-group"],
    [mkSchema "number" false "xs:token";
     mkSchema "type" true "start-stop"]);
   (["part-symbol"],
    [mkSchema "bottom-staff" false "staff-number";
     mkSchema "color" false "color";
     mkSchema "default-x" false "tenths";
     mkSchema "default-y" false "tenths";
     mkSchema "relative-x" false "tenths";
     mkSchema "relative-y" false "tenths";
     mkSchema "top-staff" false "staff-number"]);
   (["pedal"],
    [mkSchema "color" false "color";
     mkSchema "default-x" false "tenths";
     mkSchema "default-y" false "tenths";
     mkSchema "font-family" false "comma-separated-text";
     mkSchema "font-size" false "font-size";
     mkSchema "font-style" false "font-style";
     mkSchema "font-weight" false "font-weight";
     mkSchema "halign" false "left-center-right";
     mkSchema "line" false "yes-no";
     mkSchema "relative-x" false "tenths";
     mkSchema "relative-y" false "tenths";
     mkSchema "sign" false "yes-no";
     mkSchema "type" true "start-stop-change-continue";
     mkSchema "valign" false "valign"]);
   (["percussion"],
    [mkSchema "color" false "color";
     mkSchema "default-x" false "tenths";
     mkSchema "default-y" false "tenths";
     mkSchema "enclosure" false "enclosure-shape";
     mkSchema "font-family" false "comma-separated-text";
     mkSchema "font-size" false "font-size";
     mkSchema "font-style" false "font-style";
     mkSchema "font-weight" false "font-weight";
     mkSchema "halign" false "left-center-right";
     mkSchema "relative-x" false "tenths";
     mkSchema "relative-y" false "tenths";
     mkSchema "valign" false "valign"]);
   (["play"],
    [mkSchema "id" false "xs:IDREF"]);
   (["principal-voice"],
    [mkSchema "color" false "color";
     mkSchema "default-x" false "tenths";
     mkSchema "default-y" false "tenths";
     mkSchema "font-family" false "comma-separated-text";
     mkSchema "font-size" false "font-size";
     mkSchema "font-style" false "font-style";
     mkSchema "font-weight" false "font-weight";
     mkSchema "halign" false "left-center-right";
     mkSchema "relative-x" false "tenths";
     mkSchema "relative-y" false "tenths";
     mkSchema "symbol" true "principal-voice-symbol";
     mkSchema "type" true "start-stop";
     mkSchema "valign" false "valign"]);
   (["print"],
    [mkSchema "blank-page" false "xs:positiveInteger";
     mkSchema "new-page" false "yes-no";
     mkSchema "new-system" false "yes-no";
     mkSchema "page-number" false "xs:token";
     mkSchema "staff-spacing" false "tenths"]);
   (["repeat"],
    [mkSchema "direction" true "backward-forward";
     mkSchema "times" false "xs:nonNegativeInteger";
     mkSchema "winged" false "winged"]);
   (["rest"],
    [mkSchema "measure" false "yes-no"]);
   (["score-instrument"; "score-part"],
    [mkSchema "id" true "xs:ID"]);
   (["score-partwise"; "score-timewise"],
    [mkSchema "version" false "xs:token"]);
   (["shake"; "trill-mark"; "vertical-turn"],
    [mkSchema "accelerate" false "yes-no";
     mkSchema "beats" false "trill-beats";
     mkSchema "color" false "color";
     mkSchema "default-x" false "tenths";
     mkSchema "default-y" false "tenths";
     mkSchema "font-family" false "comma-separated-text";
     mkSchema "font-size" false "font-size";
     mkSchema "font-style" false "font-style";
     mkSchema "font-weight" false "font-weight";
     mkSchema "last-beat" false "percent";
     mkSchema "placement" false "above-below";
     mkSchema "relative-x" false "tenths";
     mkSchema "relative-y" false "tenths";
     mkSchema "second-beat" false "percent";
     mkSchema "start-note" false "start-note";
     mkSchema "trill-step" false "trill-step";
     mkSchema "two-note-turn" false "two-note-turn"]);
   (["slash"],
    [mkSchema "type" true "start-stop";
     mkSchema "use-dots" false "yes-no";
     mkSchema "use-stems" false "yes-no"]);
   (["slide"],
    [mkSchema "accelerate" false "yes-no";
     mkSchema "beats" false "trill-beats";
     mkSchema "color" false "color";
     mkSchema "dash-length" false "tenths";
     mkSchema "default-x" false "tenths";
     mkSchema "default-y" false "tenths";
     mkSchema "first-beat" false "percent";
     mkSchema "font-family" false "comma-separated-text";
     mkSchema "font-size" false "font-size";
     mkSchema "font-style" false "font-style";
     mkSchema "font-weight" false "font-weight";
     mkSchema "last-beat" false "percent";
     mkSchema "line-type" false "line-type";
     mkSchema "number" false "number-level";
     mkSchema "relative-x" false "tenths";
     mkSchema "relative-y" false "tenths";
     mkSchema "space-length" false "tenths";
     mkSchema "type" true "start-stop"]);
   (["slur"; "tied"],
    [mkSchema "bezier-offset" false "divisions";
     mkSchema "bezier-offset2" false "divisions";
     mkSchema "bezier-x" false "tenths";
     mkSchema "bezier-x2" false "tenths";
     mkSchema "bezier-y" false "tenths";
     mkSchema "bezier-y2" false "tenths";
     mkSchema "color" false "color";
     mkSchema "dash-length" false "tenths";
     mkSchema "default-x" false "tenths";
     mkSchema "default-y" false "tenths";
     mkSchema "line-type" false "line-type";
     mkSchema "number" false "number-level";
     mkSchema "orientation" false "over-under";
     mkSchema "placement" false "above-below";
     mkSchema "relative-x" false "tenths";
     mkSchema "relative-y" false "tenths";
     mkSchema "space-length" false "tenths";
     mkSchema "type" true "start-stop-continue"]);
   (["sound"],
    [mkSchema "coda" false "xs:token";
     mkSchema "dacapo" false "yes-no";
     mkSchema "dalsegno" false "xs:token";
     mkSchema "damper-pedal" false "yes-no-number";
     mkSchema "divisions" false "divisions";
     mkSchema "dynamics" false "non-negative-decimal";
     mkSchema "elevation" false "rotation-degrees";
     mkSchema "fine" false "xs:token";
     mkSchema "forward-repeat" false "yes-no";
     mkSchema "pan" false "rotation-degrees";
     mkSchema "pizzicato" false "yes-no";
     mkSchema "segno" false "xs:token";
     mkSchema "soft-pedal" false "yes-no-number";
     mkSchema "sostenuto-pedal" false "yes-no-number";
     mkSchema "tempo" false "non-negative-decimal";
     mkSchema "time-only" false "time-only";
     mkSchema "tocoda" false "xs:token"]);
   (["staff-details"],
    [mkSchema "number" false "staff-number";
     mkSchema "print-object" false "yes-no";
     mkSchema "print-spacing" false "yes-no";
     mkSchema "show-frets" false "show-frets"]);
   (["staff-layout"; "transpose"],
    [mkSchema "number" false "staff-number"]);
   (["staff-tuning"],
    [mkSchema "line" false "staff-line"]);
   (["string-mute"],
    [mkSchema "color" false "color";
     mkSchema "default-x" false "tenths";
     mkSchema "default-y" false "tenths";
     mkSchema "font-family" false "comma-separated-text";
     mkSchema "font-size" false "font-size";
     mkSchema "font-style" false "font-style";
     mkSchema "font-weight" false "font-weight";
     mkSchema "halign" false "left-center-right";
     mkSchema "relative-x" false "tenths";
     mkSchema "relative-y" false "tenths";
     mkSchema "type" true "on-off";
     mkSchema "valign" false "valign"]);
   (["strong-accent"],
    [mkSchema "color" false "color";
     mkSchema "default-x" false "tenths";
     mkSchema "default-y" false "tenths";
     mkSchema "font-family" false "comma-separated-text";
     mkSchema "font-size" false "font-size";
     mkSchema "font-style" false "font-style";
     mkSchema "font-weight" false "font-weight";
     mkSchema "placement" false "above-below";
     mkSchema "relative-x" false "tenths";
     mkSchema "relative-y" false "tenths";
     mkSchema "type" false "up-down"]);
   (["supports"],
    [mkSchema "attribute" false "xs:NMTOKEN";
     mkSchema "element" true "xs:NMTOKEN";
     mkSchema "type" true "yes-no";
     mkSchema "value" false "xs:token"]);
   (["tie"],
    [mkSchema "time-only" false "time-only";
     mkSchema "type" true "start-stop"]);
   (["time"],
    [mkSchema "color" false "color";
     mkSchema "default-x" false "tenths";
     mkSchema "default-y" false "tenths";
     mkSchema "font-family" false "comma-separated-text";
     mkSchema "font-size" false "font-size";
     mkSchema "font-style" false "font-style";
     mkSchema "font-weight" false "font-weight";
     mkSchema "halign" false "left-center-right";
     mkSchema "number" false "staff-number";
     mkSchema "print-object" false "yes-no";
     mkSchema "relative-x" false "tenths";
     mkSchema "relative-y" false "tenths";
     mkSchema "separator" false "time-separator";
     mkSchema "symbol" false "time-symbol";
     mkSchema "valign" false "valign"]);
   (["tremolo"],
    [mkSchema "color" false "color";
     mkSchema "default-x" false "tenths";
     mkSchema "default-y" false "tenths";
     mkSchema "font-family" false "comma-separated-text";
     mkSchema "font-size" false "font-size";
     mkSchema "font-style" false "font-style";
     mkSchema "font-weight" false "font-weight";
     mkSchema "placement" false "above-below";
     mkSchema "relative-x" false "tenths";
     mkSchema "relative-y" false "tenths";
     mkSchema "type" false "start-stop-single"]);
   (["tuplet"],
    [mkSchema "bracket" false "yes-no";
     mkSchema "default-x" false "tenths";
     mkSchema "default-y" false "tenths";
     mkSchema "line-shape" false "line-shape";
     mkSchema "number" false "number-level";
     mkSchema "placement" false "above-below";
     mkSchema "relative-x" false "tenths";
     mkSchema "relative-y" false "tenths";
     mkSchema "show-number" false "show-tuplet";
     mkSchema "show-type" false "show-tuplet";
     mkSchema "type" true "start-stop"]);
   (["type"],
    [mkSchema "size" false "symbol-size"]);
   (["wavy-line"],
    [mkSchema "accelerate" false "yes-no";
     mkSchema "beats" false "trill-beats";
     mkSchema "color" false "color";
     mkSchema "default-x" false "tenths";
     mkSchema "default-y" false "tenths";
     mkSchema "last-beat" false "percent";
     mkSchema "number" false "number-level";
     mkSchema "placement" false "above-below";
     mkSchema "relative-x" false "tenths";
     mkSchema "relative-y" false "tenths";
     mkSchema "second-beat" false "percent";
     mkSchema "start-note" false "start-note";
     mkSchema "trill-step" false "trill-step";
     mkSchema "two-note-turn" false "two-note-turn";
     mkSchema "type" true "start-stop-continue"]);
   (["wedge"],
    [mkSchema "color" false "color";
     mkSchema "dash-length" false "tenths";
     mkSchema "default-x" false "tenths";
     mkSchema "default-y" false "tenths";
     mkSchema "line-type" false "line-type";
     mkSchema "niente" false "yes-no";
     mkSchema "number" false "number-level";
     mkSchema "relative-x" false "tenths";
     mkSchema "relative-y" false "tenths";
     mkSchema "space-length" false "tenths";
     mkSchema "spread" false "tenths";
     mkSchema "type" true "wedge-type"])].

(* The attributes of the element of that name. *)
Definition schema_of (element : string) : list schemaAttribute :=
  match find (fun p => existsb (String.eqb element) (fst p)) schema with
  | Some p => snd p
  | None => []
  end.

Definition allowed (element name : string) : bool :=
  existsb (fun a => String.eqb (sa_name a) name) (schema_of element).

(* The class that stands in the code for each type of the schema. *)
Definition class_of_type : list (string * string) :=
  [("above-below", "AboveBelow");
   ("backward-forward", "BackwardForward");
   ("beam-level", "BeamLevel");
   ("cancel-location", "CancelLocation");
   ("color", "Color");
   ("comma-separated-text", "CommaSeparatedText");
   ("degree-symbol-value", "DegreeSymbolValue");
   ("distance-type", "DistanceType");
   ("divisions", "DivisionsValue");
   ("enclosure-shape", "EnclosureShape");
   ("ending-number", "EndingNumber");
   ("fan", "Fan");
   ("font-size", "FontSize");
   ("font-style", "FontStyle");
   ("font-weight", "FontWeight");
   ("harmony-type", "HarmonyType");
   ("hole-closed-location", "HoleClosedLocation");
   ("left-center-right", "LeftCenterRight");
   ("left-right", "LeftRight");
   ("line-end", "LineEnd");
   ("line-shape", "LineShape");
   ("line-type", "LineType");
   ("line-width-type", "LineWidthType");
   ("margin-type", "MarginType");
   ("midi-16", "Midi16");
   ("non-negative-decimal", "NonNegativeDecimal");
   ("note-size-type", "NoteSizeType");
   ("number-level", "NumberLevel");
   ("number-of-lines", "NumberOfLines");
   ("number-or-normal", "NumberOrNormal");
   ("on-off", "OnOff");
   ("over-under", "OverUnder");
   ("percent", "Percent");
   ("principal-voice-symbol", "PrincipalVoiceSymbol");
   ("right-left-middle", "RightLeftMiddle");
   ("rotation-degrees", "RotationDegrees");
   ("show-frets", "ShowFrets");
   ("show-tuplet", "ShowTuplet");
   ("staff-line", "StaffLine");
   ("staff-number", "StaffNumber");
   ("start-note", "StartNote");
   ("start-stop", "StartStop");
   ("start-stop-change-continue", "StartStopChangeContinue");
   ("start-stop-continue", "StartStopContinue");
   ("start-stop-discontinue", "StartStopDiscontinue");
   ("start-stop-single", "StartStopSingle");
   ("string-number", "StringNumber");
   ("symbol-size", "SymbolSize");
   ("tenths", "TenthsValue");
   ("time-only", "TimeOnly");
   ("time-separator", "TimeSeparator");
   ("time-symbol", "TimeSymbol");
   ("tip-direction", "TipDirection");
   ("top-bottom", "TopBottom");
   ("trill-beats", "TrillBeats");
   ("trill-step", "TrillStep");
   ("two-note-turn", "TwoNoteTurn");
   ("up-down", "UpDown");
   ("up-down-stop-continue", "UpDownStopContinue");
   ("upright-inverted", "UprightInverted");
   ("valign", "Valign");
   ("valign-image", "ValignImage");
   ("wedge-type", "WedgeType");
   ("winged", "Winged");
   ("xlink:actuate", "XlinkActuate");
   ("xlink:href", "XlinkHref");
   ("xlink:role", "XlinkRole");
   ("xlink:show", "XlinkShow");
   ("xlink:title", "XlinkTitle");
   ("xml:lang", "XmlLang");
   ("xml:space", "XmlSpace");
   ("xs:ID", "XsID");
   ("xs:IDREF", "XsIDREF");
   ("xs:NMTOKEN", "XsNMToken");
   ("xs:anyURI", "XsAnyUri");
   ("xs:nonNegativeInteger", "NonNegativeInteger");
   ("xs:positiveInteger", "PositiveInteger");
   ("xs:token", "XsToken");
   ("yes-no", "YesNo");
   ("yes-no-number", "YesNoNumber")].

Definition class_of (type : string) : option string :=
  option_map snd (find (fun p => String.eqb (fst p) type) class_of_type).

(* The types of the schema whose values are compared with what they are read as:
   the enumerations, whole numbers, colours, and the numbers that can also be
   words.  Texts, decimal numbers and lists are not. *)
Definition checked_types : list string :=
  ["above-below"; "backward-forward"; "beam-level"; "cancel-location"; "color";
   "degree-symbol-value"; "enclosure-shape"; "fan"; "font-size"; "font-style"; "font-weight";
   "harmony-type"; "hole-closed-location"; "left-center-right"; "left-right"; "line-end";
   "line-shape"; "line-type"; "margin-type"; "midi-16"; "note-size-type"; "number-level";
   "number-of-lines"; "number-or-normal"; "on-off"; "over-under"; "principal-voice-symbol";
   "right-left-middle"; "show-frets"; "show-tuplet"; "staff-line"; "staff-number";
   "start-note"; "start-stop"; "start-stop-change-continue"; "start-stop-continue";
   "start-stop-discontinue"; "start-stop-single"; "string-number"; "symbol-size";
   "time-separator"; "time-symbol"; "tip-direction"; "top-bottom"; "trill-step";
   "two-note-turn"; "up-down"; "up-down-stop-continue"; "upright-inverted"; "valign";
   "valign-image"; "wedge-type"; "winged"; "xlink:actuate"; "xlink:show"; "xml:space";
   "xs:nonNegativeInteger"; "xs:positiveInteger"; "yes-no"; "yes-no-number"].

(* The attributes of the schema an element does not keep: they are passed over
   when it is read. *)
Definition lost_attributes : list (list string * list string) :=
  [(["accent"; "accidental"; "accidental-mark"; "arpeggiate"; "barre"; "bass-alter";
     "bass-step"; "beam"; "breath-mark"; "caesura"; "dashes"; "degree-alter"; "degree-type";
     "degree-value"; "delayed-inverted-turn"; "delayed-turn"; "detached-legato"; "directive";
     "doit"; "dot"; "double-tongue"; "down-bow"; "ending"; "extend"; "falloff";
     "figure-number"; "fingering"; "fingernails"; "fret"; "function"; "glissando";
     "group-abbreviation"; "group-name"; "group-symbol"; "hammer-on"; "handbell"; "inversion";
     "inverted-turn"; "non-arpeggiate"; "octave-shift"; "open-string"; "other-articulation";
     "other-notation"; "other-ornament"; "other-technical"; "part-abbreviation";
     "part-symbol"; "plop"; "pluck"; "prefix"; "pull-off"; "root-alter"; "root-step";
     "schleifer"; "scoop"; "shake"; "slide"; "snap-pizzicato"; "spiccato"; "staccatissimo";
     "staccato"; "stem"; "stopped"; "stress"; "suffix"; "tap"; "tenuto"; "thumb-position";
     "tremolo"; "trill-mark"; "triple-tongue"; "tuplet-dot"; "tuplet-number"; "tuplet-type";
     "turn"; "unstress"; "up-bow"; "vertical-turn"; "wavy-line"; "wedge"; "with-bar"],
    ["color"]);
   (["accidental-text"; "display-text"; "footnote"; "rehearsal"; "words"],
    ["color"; "dir"; "valign"]);
   (["credit-image"; "image"],
    ["valign"]);
   (["credit-words"],
    ["dir"]);
   (["elision"; "text"],
    ["color"; "dir"]);
   (["hole-closed"],
    ["location"]);
   (["kind"; "measure-numbering"; "other-direction"; "pedal"; "principal-voice"; "string-mute"],
    ["color"; "valign"]);
   (["link"; "opus"],
    ["xlink:actuate"; "xlink:href"; "xlink:role"; "xlink:show"; "xlink:title"; "xlink:type"]);
   (["play"],
    ["id"]);
   (["tied"],
    ["bezier-offset2"; "bezier-x2"; "bezier-y2"])].

Definition lost (element name : string) : bool :=
  existsb (fun p => existsb (String.eqb element) (fst p) && existsb (String.eqb name) (snd p))
    lost_attributes.

(* The elements whose required address, xlink:href, is among them. *)
Definition unreadable : list string := ["link"; "opus"].

(* The attributes that are written twice. *)
Definition doubled (element name : string) : bool :=
  existsb (String.eqb element) ["doit"; "falloff"; "plop"; "scoop"]
  && String.eqb name "dash-length".

(* The names an element knows beside those of the schema, and the names they are
   written back as. *)
Definition also_known : list (string * list (string * string)) :=
  [("accidental-text", [("lang", "xml:lang"); ("space", "xml:space")]);
   ("coda", [("print-object", "print-object")]);
   ("credit-words", [("lang", "xml:lang"); ("space", "xml:space")]);
   ("damp", [("print-object", "print-object")]);
   ("damp-all", [("print-object", "print-object")]);
   ("directive", [("lang", "xml:lang")]);
   ("display-text", [("lang", "xml:lang"); ("space", "xml:space")]);
   ("elision", [("lang", "xml:lang")]);
   ("eyeglasses", [("print-object", "print-object")]);
   ("footnote", [("lang", "xml:lang"); ("space", "xml:space")]);
   ("link", [("href", "xlink:href"); ("role", "xlink:role"); ("title", "xlink:title"); ("show", "xlink:show"); ("actuate", "xlink:actuate")]);
   ("lyric-language", [("lang", "xml:lang")]);
   ("opus", [("href", "xlink:href"); ("role", "xlink:role"); ("title", "xlink:title"); ("show", "xlink:show"); ("actuate", "xlink:actuate")]);
   ("rehearsal", [("lang", "xml:lang"); ("space", "xml:space")]);
   ("segno", [("print-object", "print-object")]);
   ("text", [("lang", "xml:lang")]);
   ("tied", [("bezier-offset-2", "bezier-offset2"); ("bezier-x-2", "bezier-x2"); ("bezier-y-2", "bezier-y2")]);
   ("words", [("lang", "xml:lang"); ("space", "xml:space")])].

Definition alias (element name : string) : bool :=
  existsb (fun p => String.eqb element (fst p) && existsb (String.eqb name) (map fst (snd p)))
    also_known.

(* The attributes of an element in a file: name and value. *)
Definition given := list (string * string).

Definition names (attrs : given) : list string := map fst attrs.

(* Attributes as the schema has them for an element: no name twice, each one
   allowed, the required ones present, and each value one that its type takes as
   it stands, whatever the type held before.  [takes class old text] is the text
   of a value of that class after being given [text]. *)
Definition conforms (takes : string -> string -> string -> string) (element : string)
  (attrs : given) : Prop :=
  NoDup (names attrs) /\
  (forall n v, In (n, v) attrs ->
     exists a, In a (schema_of element) /\ sa_name a = n /\
               forall c old, class_of (sa_type a) = Some c -> takes c old v = v) /\
  (forall a, In a (schema_of element) -> sa_required a = true -> In (sa_name a) (names attrs)).

(* What an element keeps of its attributes. *)
Definition kept (element : string) (attrs : given) : given :=
  filter (fun a => negb (lost element (fst a))) attrs.

(* How often an attribute occurs. *)
Definition times (name : string) (attrs : given) : nat :=
  length (filter (fun a => String.eqb (fst a) name) attrs).

(* The value of the attribute of that name, the last one if it is repeated. *)
Fixpoint last_of (name : string) (attrs : given) : option string :=
  match attrs with
  | [] => None
  | (n, v) :: rest =>
      match last_of name rest with
      | Some w => Some w
      | None => if String.eqb n name then Some v else None
      end
  end.
