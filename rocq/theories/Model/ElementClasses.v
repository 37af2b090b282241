(** The children that the classes of core/elements read in fromXElementImpl and write in
    streamContents. Made from the sources by a script; each comment gives the file, the
    lines of fromXElementImpl and those of streamContents. *)
From Coq Require Import List String Ascii ZArith Bool PeanoNat.
From Verif Require Import Model.Base Model.Text Model.ElementReading.
Import ListNotations.
Local Open Scope string_scope.

Definition element_classes : list element_class := [
  (* Accord.cpp:139-163, 50-64 *)
  class "accord" [one "tuning-step"; one "tuning-alter"; one "tuning-octave"]
    ["tuning-step"; "tuning-alter"; "tuning-octave"];
  (* AccordionRegistration.cpp:174-188, 52-75 *)
  class "accordion-registration" [one "accordion-high"; one "accordion-middle"; one "accordion-low"]
    ["accordion-high"; "accordion-middle"; "accordion-low"];
  (* Appearance.cpp:244-258, 53-81 *)
  class "appearance" [many "line-width"; many "note-size"; many "distance"; many "other-appearance"]
    ["line-width"; "note-size"; "distance"; "other-appearance"];
  (* Backup.cpp:91-104, 46-58 *)
  class "backup" [one "duration"; editorial]
    ["duration"; "footnote"; "level"];
  (* Barline.cpp:361-380, 72-120 *)
  class "barline" [one "bar-style"; editorial; one "wavy-line"; one "segno"; one "coda"; many "fermata"; one "ending"; one "repeat"]
    ["bar-style"; "footnote"; "level"; "wavy-line"; "segno"; "coda"; "fermata"; "ending"; "repeat"];
  (* Bass.cpp:104-121, 47-59 *)
  class "bass" [one "bass-step"; one "bass-alter"]
    ["bass-step"; "bass-alter"];
  (* BeatRepeat.cpp:125-143, 47-62 *)
  class "beat-repeat" [one "slash-type"; many "slash-dot"]
    ["slash-type"; "slash-dot"];
  (* Clef.cpp:155-174, 51-68 *)
  class "clef" [one "sign"; one "line"; one "clef-octave-change"]
    ["sign"; "line"; "clef-octave-change"];
  (* Defaults.cpp:319-336, 66-113 *)
  class "defaults" [one "scaling"; layout; one "appearance"; one "music-font"; one "word-font"; many "lyric-font"; many "lyric-language"]
    ["scaling"; "page-layout"; "system-layout"; "staff-layout"; "appearance"; "music-font"; "word-font"; "lyric-font"; "lyric-language"];
  (* Degree.cpp:123-152, 49-60 *)
  class "degree" [one "degree-value"; one "degree-alter"; one "degree-type"]
    ["degree-value"; "degree-alter"; "degree-type"];
  (* Direction.cpp:319-336 with importDirectionTypeSet, :339-384, a loop of its own to the
     effect of importElementSet, and EditorialVoiceDirectionGroup, FromXElement.cpp:132-153; 131-161 *)
  class "direction" [Many (lit "direction-type") (lit "direction-type") 1 true; one "offset"; editorial_voice; one "staff"; one "sound"]
    ["direction-type"; "offset"; "footnote"; "level"; "voice"; "staff"; "sound"];
  (* Figure.cpp:197-211, 54-86 *)
  class "figure" [one "prefix"; one "figure-number"; one "suffix"; one "extend"]
    ["prefix"; "figure-number"; "suffix"; "extend"];
  (* FiguredBass.cpp:179-193, 52-72 *)
  class "figured-bass" [many_from 1 "figure"; one "duration"; editorial]
    ["figure"; "duration"; "footnote"; "level"];
  (* Forward.cpp:126-140, 49-66 *)
  class "forward" [one "duration"; editorial_voice; one "staff"]
    ["duration"; "footnote"; "level"; "voice"; "staff"];
  (* Frame.cpp:192-217, 54-73 *)
  class "frame" [one "frame-strings"; one "frame-frets"; one "first-fret"; many_from 1 "frame-note"]
    ["frame-strings"; "frame-frets"; "first-fret"; "frame-note"];
  (* FrameNote.cpp:158-182, 52-71 *)
  class "frame-note" [one "string"; one "fret"; one "fingering"; one "barre"]
    ["string"; "fret"; "fingering"; "barre"];
  (* Grouping.cpp:120-132, 45-62 *)
  class "grouping" [many "feature"]
    ["feature"];
  (* HarpPedals.cpp:119-131, 47-57 *)
  class "harp-pedals" [many_from 1 "pedal-tuning"]
    ["pedal-tuning"];
  (* Hole.cpp:155-174, 51-68 *)
  class "hole" [one "hole-type"; one "hole-closed"; one "hole-shape"]
    ["hole-type"; "hole-closed"; "hole-shape"];
  (* Identification.cpp:308-324, 62-104 *)
  class "identification" [many "creator"; many "rights"; one "encoding"; one "source"; many "relation"; one "miscellaneous"]
    ["creator"; "rights"; "encoding"; "source"; "relation"; "miscellaneous"];
  (* MeasureLayout.cpp:89-100, 45-59 *)
  class "measure-layout" [one "measure-distance"]
    ["measure-distance"];
  (* MetronomeNote.cpp:198-217, 51-73 *)
  class "metronome-note" [one "metronome-type"; many "metronome-dot"; many "metronome-beam"; one "metronome-tuplet"]
    ["metronome-type"; "metronome-dot"; "metronome-beam"; "metronome-tuplet"];
  (* MidiInstrument.cpp:360-379, 74-126 *)
  class "midi-instrument" [one "midi-channel"; one "midi-name"; one "midi-bank"; one "midi-program"; one "midi-unpitched"; one "volume"; one "pan"; one "elevation"]
    ["midi-channel"; "midi-name"; "midi-bank"; "midi-program"; "midi-unpitched"; "volume"; "pan"; "elevation"];
  (* Miscellaneous.cpp:104-115, 44-61 *)
  class "miscellaneous" [many "miscellaneous-field"]
    ["miscellaneous-field"];
  (* PageLayout.cpp:138-161, 48-62 *)
  class "page-layout" [one "page-height"; one "page-width"; many "page-margins"]
    ["page-height"; "page-width"; "page-margins"];
  (* PageMargins.cpp:142-177, 51-64 *)
  class "page-margins" [one "left-margin"; one "right-margin"; one "top-margin"; one "bottom-margin"]
    ["left-margin"; "right-margin"; "top-margin"; "bottom-margin"];
  (* PartGroup.cpp:347-366, 73-125 *)
  class "part-group" [one "group-name"; one "group-name-display"; one "group-abbreviation"; one "group-abbreviation-display"; one "group-symbol"; one "group-barline"; one "group-time"; editorial]
    ["group-name"; "group-name-display"; "group-abbreviation"; "group-abbreviation-display"; "group-symbol"; "group-barline"; "group-time"; "footnote"; "level"];
  (* PedalTuning.cpp:88-110, 46-55 *)
  class "pedal-tuning" [one "pedal-step"; one "pedal-alter"]
    ["pedal-step"; "pedal-alter"];
  (* Pitch.cpp:123-148, 49-63 *)
  class "pitch" [one "step"; one "alter"; one "octave"]
    ["step"; "alter"; "octave"];
  (* Print.cpp:239-255, 61-98 *)
  class "print" [layout; one "measure-layout"; one "measure-numbering"; one "part-name-display"; one "part-abbreviation-display"]
    ["page-layout"; "system-layout"; "staff-layout"; "measure-layout"; "measure-numbering"; "part-name-display"; "part-abbreviation-display"];
  (* Properties.cpp:561-597, 83-155 *)
  class "attributes" [one_on "footnote"; one_on "level"; one "divisions"; many_stop "key"; many_stop "time"; one "staves"; one "part-symbol"; one "instruments"; many_stop "clef"; many_stop "staff-details"; many_stop "transpose"; many_stop "directive"; many_stop "measure-style"]
    ["footnote"; "level"; "divisions"; "key"; "time"; "staves"; "part-symbol"; "instruments"; "clef"; "staff-details"; "transpose"; "directive"; "measure-style"];
  (* Root.cpp:104-121, 47-59 *)
  class "root" [one "root-step"; one "root-alter"]
    ["root-step"; "root-alter"];
  (* Scaling.cpp:88-110, 46-55 *)
  class "scaling" [one "millimeters"; one "tenths"]
    ["millimeters"; "tenths"];
  (* Scordatura.cpp:103-114, 46-56 *)
  class "scordatura" [many_from 1 "accord"]
    ["accord"];
  (* Slash.cpp:125-143, 47-62 *)
  class "slash" [one "slash-type"; many "slash-dot"]
    ["slash-type"; "slash-dot"];
  (* StaffDetails.cpp:254-270, 61-98 *)
  class "staff-details" [one "staff-type"; one "staff-lines"; many "staff-tuning"; one "capo"; one "staff-size"]
    ["staff-type"; "staff-lines"; "staff-tuning"; "capo"; "staff-size"];
  (* StaffLayout.cpp:104-116, 46-59 *)
  class "staff-layout" [one "staff-distance"]
    ["staff-distance"];
  (* StaffTuning.cpp:139-163, 50-64 *)
  class "staff-tuning" [one "tuning-step"; one "tuning-alter"; one "tuning-octave"]
    ["tuning-step"; "tuning-alter"; "tuning-octave"];
  (* Stick.cpp:104-127, 47-56 *)
  class "stick" [one "stick-type"; one "stick-material"]
    ["stick-type"; "stick-material"];
  (* SystemDividers.cpp:88-110, 46-55 *)
  class "system-dividers" [one "left-divider"; one "right-divider"]
    ["left-divider"; "right-divider"];
  (* SystemLayout.cpp:196-210, 57-85 *)
  class "system-layout" [one "system-margins"; one "system-distance"; one "top-system-distance"; one "system-dividers"]
    ["system-margins"; "system-distance"; "top-system-distance"; "system-dividers"];
  (* SystemMargins.cpp:88-110, 46-55 *)
  class "system-margins" [one "left-margin"; one "right-margin"]
    ["left-margin"; "right-margin"];
  (* Transpose.cpp:190-210, 54-76 *)
  class "transpose" [one "diatonic"; one "chromatic"; one "octave-change"; one "double"]
    ["diatonic"; "chromatic"; "octave-change"; "double"];
  (* Tuplet.cpp:139-152, 49-67 *)
  class "tuplet" [one "tuplet-actual"; one "tuplet-normal"]
    ["tuplet-actual"; "tuplet-normal"];
  (* TupletActual.cpp:174-187, 50-77 *)
  class "tuplet-actual" [one "tuplet-number"; one "tuplet-type"; many "tuplet-dot"]
    ["tuplet-number"; "tuplet-type"; "tuplet-dot"];
  (* TupletNormal.cpp:174-187, 50-77 *)
  class "tuplet-normal" [one "tuplet-number"; one "tuplet-type"; many "tuplet-dot"]
    ["tuplet-number"; "tuplet-type"; "tuplet-dot"];
  (* VirtualInstrument.cpp:123-135, 48-66 *)
  class "virtual-instrument" [one "virtual-library"; one "virtual-name"]
    ["virtual-library"; "virtual-name"];
  (* Work.cpp:158-171, 51-74 *)
  class "work" [one "work-number"; one "work-title"; one "opus"]
    ["work-number"; "work-title"; "opus"]
].
