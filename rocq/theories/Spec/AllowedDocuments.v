(** What it means that a document is one that MusicXML allows, and that a document has been
    written again as it was. The schema is Documents/musicxml.xsd; numbers in comments are its lines. *)
From Coq Require Import List String Ascii Bool Permutation.
From Verif Require Import Model.Base Model.Text Model.ElementReading Model.ElementGroups Model.Attributes Model.Documents
  Spec.XmlText Spec.SchemaElementTexts Spec.ChildOrder Spec.SchemaAttributes Spec.ContentModels Spec.MoreContents Spec.ScoreContents Spec.NoteContents.
Import ListNotations.
Local Open Scope list_scope.
Local Open Scope string_scope.

(** The elements that have neither a text nor children. *)
Definition empty_elements : list string :=
  [
   "accent"; "accordion-high"; "accordion-low"; "arpeggiate"; "artificial"; "barre"; "base-pitch";
   "beat-unit-dot"; "bookmark"; "bracket"; "caesura"; "chord"; "coda"; "credit-image"; "cue"; "damp";
   "damp-all"; "dashes"; "delayed-inverted-turn"; "delayed-turn"; "detached-legato"; "doit"; "dot"; "double";
   "double-tongue"; "down-bow"; "end-line"; "end-paragraph"; "extend"; "eyeglasses"; "falloff"; "fingernails";
   "grace"; "group-time"; "heel"; "humming"; "image"; "instrument"; "inverted-mordent"; "inverted-turn";
   "laughing"; "left-divider"; "link"; "lyric-font"; "lyric-language"; "metronome-dot"; "mordent";
   "music-font"; "natural"; "non-arpeggiate"; "normal-dot"; "octave-shift"; "open-string"; "opus"; "pedal";
   "plop"; "pre-bend"; "release"; "repeat"; "right-divider"; "schleifer"; "scoop"; "segno"; "shake";
   "slash-dot"; "slur"; "snap-pizzicato"; "solo"; "sounding-pitch"; "spiccato"; "staccatissimo"; "staccato";
   "stopped"; "stress"; "string-mute"; "strong-accent"; "supports"; "tenuto"; "thumb-position"; "tie"; "tied";
   "timpani"; "toe"; "touching-pitch"; "trill-mark"; "triple-tongue"; "tuplet-dot"; "turn"; "unstress";
   "up-bow"; "vertical-turn"; "wavy-line"; "wedge"; "word-font"].

(** The children an element of [schema_order] must have. *)
Definition required_children : list (string * list string) :=
  [
   (* 2693 *) ("accord", ["tuning-step"; "tuning-octave"]);
   (* 3808 *) ("backup", ["duration"]);
   (* 2733 *) ("bass", ["bass-step"]);
   (* 2393 *) ("clef", ["sign"]);
   (* 2804 *) ("degree", ["degree-value"; "degree-alter"; "degree-type"]);
   (* 3925 *) ("figured-bass", ["figure"]);
   (* 3941 *) ("forward", ["duration"]);
   (* 2953 *) ("frame", ["frame-strings"; "frame-frets"; "frame-note"]);
   (* 2980 *) ("frame-note", ["string"; "fret"]);
   (* 3028 *) ("harp-pedals", ["pedal-tuning"]);
   (* 4054 *) ("hole", ["hole-closed"]);
   (* 3139 *) ("metronome-note", ["metronome-type"]);
   (* 3588 *) ("page-margins", ["left-margin"; "right-margin"; "top-margin"; "bottom-margin"]);
   (* 3216 *) ("pedal-tuning", ["pedal-step"; "pedal-alter"]);
   (* 4377 *) ("pitch", ["step"; "octave"]);
   (* 3295 *) ("root", ["root-step"]);
   (* 3596 *) ("scaling", ["millimeters"; "tenths"]);
   (* 3330 *) ("scordatura", ["accord"]);
   (* 2567 *) ("staff-tuning", ["tuning-step"; "tuning-octave"]);
   (* 3396 *) ("stick", ["stick-type"; "stick-material"]);
   (* 3616 *) ("system-dividers", ["left-divider"; "right-divider"]);
   (* 3642 *) ("system-margins", ["left-margin"; "right-margin"]);
   (* 2599 *) ("transpose", ["chromatic"])].
(** And those it must have if it has a certain other one: the element, the one and the other. *)
Definition needed_children : list (string * (string * string)) :=
  [(* page-layout *) ("page-layout", ("page-height", "page-width")); ("page-layout", ("page-width", "page-height"));
   (* the group slash *) ("slash", ("slash-dot", "slash-type")); ("beat-repeat", ("slash-dot", "slash-type"))].

(** The other elements with children. In a score written by measures, a measure has parts and a part
    has the music. *)
Definition schema_contents (timewise : bool) : list (string * content) := [
  ("articulations", articulations_content); ("technical", technical_content); ("notations", notations_content);
  ("arrow", arrow_content); ("bend", bend_content); ("harmonic", harmonic_content); ("time", time_content);
  ("interchangeable", interchangeable_content); ("key", key_content); ("harmony", harmony_content); ("credit", credit_content);
  ("lyric", lyric_content); ("metronome", metronome_content); ("time-modification", time_modification_content);
  ("measure-style", measure_style_content); ("rest", display_content); ("unpitched", display_content);
  ("part", if timewise then music_content else part_content);
  ("measure", if timewise then timewise_measure_content else music_content);
  ("score-partwise", score_content "part"); ("score-timewise", score_content "measure"); ("part-list", part_list_content);
  ("direction", direction_content); ("direction-type", direction_type_content); ("part-name-display", name_display_content);
  ("part-abbreviation-display", name_display_content); ("group-name-display", name_display_content);
  ("group-abbreviation-display", name_display_content); ("note", note_content); ("score-part", score_part_content);
  ("score-instrument", score_instrument_content); ("encoding", encoding_content); ("ornaments", ornaments_content);
  ("sound", sound_content); ("metronome-tuplet", time_modification_content); ("notehead-text", notehead_text_content);
  ("percussion", percussion_content); ("play", play_content)].

(** The children of them that come back (C61, C63, C64 and C66): all that the schema allows unless
    the comment says what is left out. *)
Definition kept_contents (timewise : bool) : list (string * content) := [
  ("articulations", articulations_content); ("technical", technical_content);
  (* without other-notation *)
  ("notations", Sequence [Optional (Element "footnote"); Optional (Element "level");
     Many (one_of ["tied"; "slur"; "tuplet"; "glissando"; "slide"; "ornaments"; "technical"; "articulations"; "dynamics"; "fermata";
                   "arpeggiate"; "non-arpeggiate"; "accidental-mark"])]);
  (* not a circular one *)
  ("arrow", Sequence [Element "arrow-direction"; Optional (Element "arrow-style")]);
  ("bend", bend_content); ("harmonic", harmonic_content); ("time", time_content);
  (* with one time signature *)
  ("interchangeable", Sequence [Optional (Element "time-relation"); time_signature_content]);
  (* with fifths or steps *)
  ("key", Sequence [Choice [traditional_key_content; Some_of non_traditional_key_content]; Many (Element "key-octave")]);
  ("harmony", harmony_content);
  (* without links and bookmarks between the words *)
  ("credit", Sequence [Many (Element "credit-type"); Many (Element "link"); Many (Element "bookmark");
     Choice [Element "credit-image"; Some_of (Element "credit-words")]]);
  (* without a second syllabic, an end of a line after a word of another kind, and editorial marks *)
  ("lyric", Choice [Sequence [Optional (Element "syllabic"); Element "text"; Many (Sequence [Optional (Element "elision"); Element "text"]);
                              Optional (Element "extend"); Optional (Element "end-line"); Optional (Element "end-paragraph")];
                    Element "extend"; Element "laughing"; Element "humming"]);
  (* with at most one note after the relation *)
  ("metronome", Choice [metronome_marks_content;
     Sequence [Some_of (Element "metronome-note"); Optional (Sequence [Element "metronome-relation"; Element "metronome-note"])]]);
  ("time-modification", time_modification_content);
  ("measure-style", measure_style_content); ("rest", display_content); ("unpitched", display_content);
  ("part", if timewise then music_content else part_content);
  ("measure", if timewise then timewise_measure_content else music_content);
  ("score-partwise", score_content "part"); ("score-timewise", score_content "measure"); ("part-list", part_list_content);
  ("direction", direction_content); ("direction-type", direction_type_content); ("part-name-display", name_display_content);
  ("part-abbreviation-display", name_display_content); ("group-name-display", name_display_content);
  ("group-abbreviation-display", name_display_content); ("note", note_content); ("score-part", score_part_content);
  ("score-instrument", score_instrument_content); ("encoding", encoding_content);
  (* with the marks after the ornaments *)
  ("ornaments", Optional (Sequence [Some_of (one_of ornament_names); Many (Element "accidental-mark")]));
  (* with one midi instrument, or nothing *)
  ("sound", Choice [Sequence []; Sequence [Optional (Element "midi-device"); Element "midi-instrument"; Optional (Element "play")]]);
  (* without a normal type *)
  ("metronome-tuplet", Sequence [Element "actual-notes"; Element "normal-notes"])].

(** A text that is the same characters in XML, in quotation marks too. *)
Definition plain (t : str) : Prop := ~ In "<"%char t /\ ~ In ">"%char t /\ ~ In "&"%char t /\ ~ In """"%char t.

(** Attributes the schema allows, and if [kept] such that come back (C62). *)
Definition attributes_allowed (takes : taking) (kept : bool) (n : string) (attrs : list attribute) : Prop :=
  SchemaAttributes.conforms takes n attrs /\
  (kept = true -> ~ In n unreadable /\ forall m v, In (m, v) attrs -> lost n m = false /\ doubled n m = false /\ plain (lit v)).

(** A dynamic mark, and one that comes back (C63). *)
Definition dynamic_mark (kept : bool) (t : xml) : Prop :=
  match t with
  | Xml n attrs text children => attrs = [] /\ children = [] /\
      ((In n standard_dynamics /\ text = []) \/
       (n = "other-dynamics" /\ (kept = true -> plain text /\ ~ In text (map lit (standard_dynamics ++ ["other-dynamics"])))))
  end.

(** An element the schema allows, and if [kept] one all of which comes back. *)
Inductive allowed (takes : taking) (kept timewise : bool) : xml -> Prop :=
| allowed_text n attrs text k : attributes_allowed takes kept n attrs ->
    In (lit n, k) schema_element_texts -> admits k text -> (kept = true -> held (lit n) k text) -> allowed takes kept timewise (Xml n attrs text [])
| allowed_empty n attrs : attributes_allowed takes kept n attrs -> In n empty_elements -> allowed takes kept timewise (Xml n attrs [] [])
| allowed_dynamics attrs children : attributes_allowed takes kept "dynamics" attrs -> Forall (dynamic_mark kept) children ->
    (kept = true -> List.length children = 1) -> allowed takes kept timewise (Xml "dynamics" attrs [] children)
| allowed_sequence n attrs children o : attributes_allowed takes kept n attrs ->
    n <> "direction" -> In (lit n, o) schema_order -> in_order o (map (fun t => lit (xml_name t)) children) ->
    (forall r c, In (n, r) required_children -> In c r -> In c (map xml_name children)) ->
    (forall c d, In (n, (c, d)) needed_children -> In c (map xml_name children) -> In d (map xml_name children)) ->
    Forall (allowed takes kept timewise) children -> allowed takes kept timewise (Xml n attrs [] children)
| allowed_content n attrs children c : attributes_allowed takes kept n attrs ->
    In (n, c) ((if kept then kept_contents else schema_contents) timewise) ->
    ContentModels.conforms c (map (fun t => (lit (xml_name t), t)) children) ->
    Forall (allowed takes kept timewise) children -> allowed takes kept timewise (Xml n attrs [] children).

Definition allowed_document (takes : taking) (kept : bool) (t : xml) : Prop :=
  (xml_name t = "score-partwise" /\ allowed takes kept false t) \/ (xml_name t = "score-timewise" /\ allowed takes kept true t).

(** [w] is an attribute as it is written for the attribute [a]: between quotation marks. *)
Definition attribute_written (w a : attribute) : Prop :=
  fst w = fst a /\ chardata (lit (snd w)) (lit (snd a)) /\ ~ In """"%char (lit (snd w)).

(** The characters [w] are an XML text that says what the text [t] of the element [n] does. *)
Definition text_written (n : string) (w t : str) : Prop :=
  exists u, chardata w u /\ (u = t \/ exists k, In (lit n, k) schema_element_texts /\ says k t u).

(** [document_written w t]: [w] is the document [t], with the same elements in the same places, the
    same attributes in any order, and the same texts. *)
Inductive document_written : xml -> xml -> Prop :=
| element_written n attrs attrs' order text text' children children' :
    Permutation order attrs -> Forall2 attribute_written attrs' order -> text_written n text' text ->
    Forall2 document_written children' children ->
    document_written (Xml n attrs' text' children') (Xml n attrs text children).

(** ** Examples. *)
(** Types of attributes that take any text and write it as it is. *)
Definition as_it_stands : taking := fun _ _ v => v.
Definition a_text (n : string) (x : string) : xml := Xml n [] (lit x) [].
Definition with_children (n : string) (children : list xml) : xml := Xml n [] [] children.
Definition a_document (name : string) (music : list xml) : xml :=
  with_children "score-partwise"
    [with_children "part-list" [Xml "score-part" [("id", "P1")] [] [a_text "part-name" name]];
     Xml "part" [("id", "P1")] [] [Xml "measure" [("number", "1")] [] music]].
Definition some_music : list xml :=
  [Xml "direction" [("placement", "below")] [] [with_children "direction-type" [with_children "dynamics" [with_children "pp" []]]];
   with_children "note"
     [with_children "pitch" [a_text "step" "C"; a_text "octave" "2"]; a_text "duration" " +040.50"; a_text "type" "quarter";
      with_children "notations"
        [with_children "technical" [with_children "arrow" [a_text "arrow-direction" "up"; a_text "arrow-style" "single"]];
         with_children "articulations" [Xml "staccato" [] [] []]]];
   with_children "note" [with_children "chord" []; with_children "rest" []; a_text "duration" " +040.50"]].
Definition some_music_written : list xml :=
  [Xml "direction" [("placement", "below")] [] [with_children "direction-type" [with_children "dynamics" [with_children "pp" []]]];
   with_children "note"
     [with_children "pitch" [a_text "step" "C"; a_text "octave" "2"]; a_text "duration" "40.5"; a_text "type" "quarter";
      with_children "notations"
        [with_children "technical" [with_children "arrow" [a_text "arrow-direction" "up"; a_text "arrow-style" "single"]];
         with_children "articulations" [Xml "staccato" [] [] []]]];
   with_children "note" [with_children "chord" []; with_children "rest" []; a_text "duration" "40.5"]].
Definition a_link : list xml := [Xml "link" [("xlink:href", "a")] [] []].
