(** How many elements a set of children may have. *)
From Coq Require Import List String Ascii ZArith Bool.
From Verif Require Import Model.Base Model.Text Model.ElementSets.
Import ListNotations.
Open Scope Z_scope.

(** The bounds stated in the headers of the classes, core/elements/*.h, comments
    "minOccurs = .., maxOccurs = .."; where a header has no comment or one that
    contradicts the schema, those of Documents/musicxml.xsd. None: unbounded. *)
Definition declared_bounds : list ((string * string) * (Z * option Z)) :=
 [
  (("Appearance"%string, "LineWidth"%string), (0, None)); (* Appearance.h:38 *)
  (("Appearance"%string, "NoteSize"%string), (0, None)); (* Appearance.h:45 *)
  (("Appearance"%string, "Distance"%string), (0, None)); (* Appearance.h:52 *)
  (("Appearance"%string, "OtherAppearance"%string), (0, None)); (* Appearance.h:59 *)
  (("Articulations"%string, "ArticulationsChoice"%string), (0, None)); (* Articulations.h:35 *)
  (("Barline"%string, "Fermata"%string), (0, Some 2)); (* Barline.h:74 *)
  (("BeatRepeat"%string, "SlashDot"%string), (0, None)); (* BeatRepeat.h:44 *)
  (("BeatUnitGroup"%string, "BeatUnitDot"%string), (0, None)); (* BeatUnitGroup.h:40 *)
  (("Credit"%string, "CreditType"%string), (0, None)); (* Credit.h:47 *)
  (("Credit"%string, "Link"%string), (0, None)); (* Credit.h:54 *)
  (("Credit"%string, "Bookmark"%string), (0, None)); (* Credit.h:61 *)
  (("CreditChoice"%string, "CreditWordsGroup"%string), (0, None)); (* CreditChoice.h:54 *)
  (("CreditWordsGroup"%string, "Link"%string), (0, None)); (* CreditWordsGroup.h:37 *)
  (("CreditWordsGroup"%string, "Bookmark"%string), (0, None)); (* CreditWordsGroup.h:44 *)
  (("Defaults"%string, "LyricFont"%string), (0, None)); (* Defaults.h:69 *)
  (("Defaults"%string, "LyricLanguage"%string), (0, None)); (* Defaults.h:76 *)
  (("Direction"%string, "DirectionType"%string), (1, None)); (* Direction.h:48 *)
  (("DirectionType"%string, "Rehearsal"%string), (1, None)); (* DirectionType.h:83 *)
  (("DirectionType"%string, "Segno"%string), (1, None)); (* DirectionType.h:90 *)
  (("DirectionType"%string, "Words"%string), (1, None)); (* DirectionType.h:97 *)
  (("DirectionType"%string, "Coda"%string), (1, None)); (* DirectionType.h:104 *)
  (("DirectionType"%string, "Dynamics"%string), (1, None)); (* DirectionType.h:115 *)
  (("DirectionType"%string, "Percussion"%string), (1, None)); (* DirectionType.h:178 *)
  (("Encoding"%string, "EncodingChoice"%string), (0, None)); (* Encoding.h:35 *)
  (("FiguredBass"%string, "Figure"%string), (1, None)); (* FiguredBass.h:41 *)
  (("Frame"%string, "FrameNote"%string), (1, None)); (* Frame.h:56 *)
  (("GraceNoteGroup"%string, "Tie"%string), (0, Some 2)); (* GraceNoteGroup.h:45 *)
  (("GroupAbbreviationDisplay"%string, "DisplayTextOrAccidentalText"%string), (0, None)); (* GroupAbbreviationDisplay.h:44 *)
  (("GroupNameDisplay"%string, "DisplayTextOrAccidentalText"%string), (0, None)); (* GroupNameDisplay.h:40 *)
  (("Grouping"%string, "Feature"%string), (0, None)); (* Grouping.h:39 *)
  (("Harmony"%string, "HarmonyChordGroup"%string), (1, None)); (* Harmony.h:43 *)
  (("HarmonyChordGroup"%string, "Degree"%string), (0, None)); (* HarmonyChordGroup.h:71 *)
  (("HarpPedals"%string, "PedalTuning"%string), (1, None)); (* HarpPedals.h:39 *)
  (("Identification"%string, "Creator"%string), (0, None)); (* Identification.h:40 *)
  (("Identification"%string, "Rights"%string), (0, None)); (* Identification.h:47 *)
  (("Identification"%string, "Relation"%string), (0, None)); (* Identification.h:66 *)
  (("Key"%string, "KeyOctave"%string), (0, None)); (* musicxml.xsd, complexType key: key-octave *)
  (("KeyChoice"%string, "NonTraditionalKey"%string), (0, None)); (* musicxml.xsd, complexType key: group non-traditional-key *)
  (("LayoutGroup"%string, "StaffLayout"%string), (0, None)); (* LayoutGroup.h:49 *)
  (("MetronomeNote"%string, "MetronomeDot"%string), (0, None)); (* MetronomeNote.h:42 *)
  (("MetronomeNote"%string, "MetronomeBeam"%string), (0, None)); (* MetronomeNote.h:49 *)
  (("Miscellaneous"%string, "MiscellaneousField"%string), (0, None)); (* Miscellaneous.h:35 *)
  (("MusicDataGroup"%string, "MusicDataChoice"%string), (0, None)); (* MusicDataGroup.h:35 *)
  (("NormalNoteGroup"%string, "Tie"%string), (0, Some 2)); (* NormalNoteGroup.h:45 *)
  (("NormalTypeNormalDotGroup"%string, "NormalDot"%string), (0, None)); (* NormalTypeNormalDotGroup.h:40 *)
  (("Notations"%string, "NotationsChoice"%string), (0, None)); (* Notations.h:44 *)
  (("Note"%string, "Dot"%string), (0, None)); (* Note.h:79 *)
  (("Note"%string, "Beam"%string), (0, Some 8)); (* Note.h:122 *)
  (("Note"%string, "Notations"%string), (0, None)); (* Note.h:129 *)
  (("Note"%string, "Lyric"%string), (0, None)); (* Note.h:136 *)
  (("NoteRelationNote"%string, "MetronomeNote"%string), (1, None)); (* NoteRelationNote.h:36 *)
  (("NoteheadText"%string, "NoteheadTextChoice"%string), (1, None)); (* NoteheadText.h:37 *)
  (("Ornaments"%string, "OrnamentsChoice"%string), (0, None)); (* Ornaments.h:36 *)
  (("Ornaments"%string, "AccidentalMark"%string), (0, None)); (* Ornaments.h:44 *)
  (("PageLayout"%string, "PageMargins"%string), (0, Some 2)); (* PageLayout.h:45 *)
  (("PartAbbreviationDisplay"%string, "DisplayTextOrAccidentalText"%string), (0, None)); (* PartAbbreviationDisplay.h:39 *)
  (("PartList"%string, "PartGroup"%string), (0, None)); (* PartList.h:37 *)
  (("PartList"%string, "PartGroupOrScorePart"%string), (0, None)); (* PartList.h:48 *)
  (("PartNameDisplay"%string, "DisplayTextOrAccidentalText"%string), (0, None)); (* PartNameDisplay.h:39 *)
  (("PartwisePart"%string, "PartwiseMeasure"%string), (1, None)); (* musicxml.xsd, score-partwise: <xs:element name="measure" maxOccurs="unbounded">; the header says 0 *)
  (("Properties"%string, "Key"%string), (0, None)); (* Properties.h:56 *)
  (("Properties"%string, "Time"%string), (0, None)); (* Properties.h:63 *)
  (("Properties"%string, "Clef"%string), (0, None)); (* Properties.h:88 *)
  (("Properties"%string, "StaffDetails"%string), (0, None)); (* Properties.h:95 *)
  (("Properties"%string, "Transpose"%string), (0, None)); (* Properties.h:102 *)
  (("Properties"%string, "Directive"%string), (0, None)); (* Properties.h:109 *)
  (("Properties"%string, "MeasureStyle"%string), (0, None)); (* Properties.h:116 *)
  (("Scordatura"%string, "Accord"%string), (1, None)); (* Scordatura.h:35 *)
  (("ScoreHeaderGroup"%string, "Credit"%string), (0, None)); (* ScoreHeaderGroup.h:71 *)
  (("ScorePart"%string, "Group"%string), (0, None)); (* ScorePart.h:79 *)
  (("ScorePart"%string, "ScoreInstrument"%string), (0, None)); (* ScorePart.h:86 *)
  (("ScorePart"%string, "MidiDeviceInstrumentGroup"%string), (0, None)); (* ScorePart.h:93 *)
  (("ScorePartwise"%string, "PartwisePart"%string), (1, None)); (* ScorePartwise.h:44 *)
  (("ScoreTimewise"%string, "TimewiseMeasure"%string), (1, None)); (* ScoreTimewise.h:44 *)
  (("Slash"%string, "SlashDot"%string), (0, None)); (* Slash.h:44 *)
  (("StaffDetails"%string, "StaffTuning"%string), (0, None)); (* StaffDetails.h:55 *)
  (("SyllabicTextGroup"%string, "ElisionSyllabicTextGroup"%string), (0, None)); (* SyllabicTextGroup.h:48 *)
  (("Technical"%string, "TechnicalChoice"%string), (0, None)); (* Technical.h:35 *)
  (("TimeChoice"%string, "TimeSignatureGroup"%string), (1, None)); (* TimeChoice.h:44 *)
  (("TimeModificationNormalTypeNormalDot"%string, "NormalDot"%string), (0, None)); (* TimeModificationNormalTypeNormalDot.h:40 *)
  (("TimewiseMeasure"%string, "TimewisePart"%string), (1, None)); (* TimewiseMeasure.h:39 *)
  (("TupletActual"%string, "TupletDot"%string), (0, None)); (* TupletActual.h:49 *)
  (("TupletNormal"%string, "TupletDot"%string), (0, None)) (* TupletNormal.h:49 *)
 ].

Definition bounds_of (e : element_set) : option (Z * option Z) :=
  option_map snd (find (fun r => str_eqb (lit (fst (fst r))) (es_class e) && str_eqb (lit (snd (fst r))) (es_name e)) declared_bounds).

(** A list has as many elements as allowed. *)
Definition within {A} (b : Z * option Z) (l : list A) : Prop :=
  fst b <= Z.of_nat (List.length l) /\ match snd b with Some n => Z.of_nat (List.length l) <= n | None => True end.

(** Three sets whose functions may leave too few elements. *)
Definition unguarded (e : element_set) : Prop :=
  In (es_class e, es_name e)
    [(lit "NoteheadText", lit "NoteheadTextChoice"); (lit "TimeChoice", lit "TimeSignatureGroup"); (lit "TimewiseMeasure", lit "TimewisePart")]%string.

(** What a call has to do with the list of elements: [b] are the bounds. *)
Inductive effect {A} (b : Z * option Z) : set_call A -> list (member A) -> list (member A) -> Prop :=
| effect_null l : effect b (Add None) l l
| effect_added a l : (match snd b with Some n => Z.of_nat (List.length l) < n | None => True end) -> effect b (Add (Some a)) l (l ++ [Given a])
| effect_full a l n : snd b = Some n -> Z.of_nat (List.length l) = n -> effect b (Add (Some a)) l l
| effect_removed i l x r : List.length l = i -> fst b < Z.of_nat (List.length (l ++ x :: r)) -> effect b (Remove i) (l ++ x :: r) (l ++ r)
| effect_last i l : (i < List.length l)%nat -> Z.of_nat (List.length l) = fst b -> effect b (Remove i) l l
| effect_end i l : (List.length l <= i)%nat -> effect b (Remove i) l l
| effect_cleared l m : Forall (fun x => x = Made) m -> Z.of_nat (List.length m) = fst b -> effect b Clear l m.
