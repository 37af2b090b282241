# A Rocq model of webern/mx

## Layout

* `rocq/theories/Model/*.v`: the model. Each definition cites the file and lines of `/repo` it follows
  and names its simplifications. No proofs.
* `rocq/theories/Spec/*.v`: small specifications written without the model's helpers
  (calendar day numbers, decimal numerals, MusicXML timing replay, an XML grammar, abstract maps, ...).
* `rocq/theories/Proofs/*.v`: lemmas, and the data of the counter-examples (`*Findings.v`).
* `rocq/theories/Props/Cnn_*.v`: the theorems of property Cnn, each closed by `exact`, followed by an
  `Example` that meets its hypotheses and by `Print Assumptions`.
* `properties.jsonl`: the properties in words. `MANIFEST.json`: which theorems belong to which.
* `seeded/LOG.jsonl`: edits to the model that a realistic bug would make, and which theorems failed.

Only Coq 8.16.1 and its standard library are used. No axioms are declared.

## Conventions

* `int` is a `Z`; where overflow matters the model checks the range and returns a distinct `UB` outcome.
* Text is `list ascii` (one `char` per item). `std::string` bytes above 127 are ordinary characters.
* Exceptions are `None`/`Throw`; undefined behaviour is its own outcome and never a value.
* A property that is false of the code is not weakened silently: there is a `..._refuted` theorem with a
  concrete counter-example and a `..._partial` theorem for the largest part that does hold, and often a
  theorem that states exactly what the code does in all cases. Such a property has the status "partial".
* Recursion that the code does with loops over input is structural, or uses fuel with a theorem that the
  fuel suffices (the XML parser of C53, the scheduler of C21).

## Plan per property

| id | modelled | proof |
|----|----------|-------|
| C01 | `Integer::parse`, `IntRange`, the range types | invariant over operation lists; clamp is the nearest bound |
| C02 | `Integer::parse/toStream` | numeral parser/printer round trip; acceptance characterised by a grammar |
| C03 | `PreciseDecimal`, `Decimal`, `DecimalRange` over `long double` | invariant over operation lists |
| C04 | `PreciseDecimal::setValue/toStream` | nearest multiple; numeral round trip; carry counter-example |
| C05 | `Date` | invariant over operation lists |
| C06 | `Date::addDays/addMonths/addYears` | day numbers by cumulative sums; induction on n |
| C07 | `Date` comparison | agreement with day numbers |
| C08 | `getDayOfWeek` | reduction modulo 400 years and a finite check, lifted |
| C09 | `Date::parse/toStream` | numeral lemmas |
| C10 | `Color` | finite check on channels lifted to all, string case analysis |
| C11 | `CommaSeparatedPositiveIntegers` | sorted-set invariant, split/join lemmas |
| C12 | `trim`, `reduce`, `XsToken` | word-list specification |
| C13 | `onlyAllow`, `XsID` | induction on the text |
| C14 | `XsString::toStream`, `streamAttribute` | unescape is a left inverse; refutation for quotes in attributes |
| C15 | all enums, generated from `Enums.cpp` by a script | finite checks lifted; rejection by case analysis |
| C16 | `Converter` tables, generated by a script | finite checks lifted |
| C17 | `LcmGcd` | divisibility theory of `Z` |
| C18 | `Cursor::convertDurationToGlobalTickScale`, `findMaxDivisionsPerQuarter` | exact rational arithmetic |
| C19-C22 | `DocumentManager` as a state machine and as threads of lock-protected steps | refinement to a finite map, invariants over histories, linearisability |
| C23 | `ScoreConversions` | list lemmas (transpose), refutation for ragged parts |
| C24-C27 | `MeasureWriter`/`MeasureReader` note path | replay specification, induction over voices and notes |
| C28-C32 | directions, clefs, keys, barlines, time, numbers | as above, refutations where data is dropped |
| C33 | part groups | stack invariant |
| C34 | `ScoreData::sort` | Permutation and Sorted for any sort meeting the standard's contract |
| C35-C37 | transposition, alter, dots | integer/rational arithmetic |
| C38 | 83 element sets, generated | invariants over operation lists |
| C39 | 48 element classes, generated, with `importElementSet` | induction over children in order, then over any children |
| C40 | processing instructions in `ElementInterface`, pugixml's parser and printer | XML print/scan round trip over trees of any depth |
| C41, C42 | `MarkData` predicates, notations writer and reader | finite partition; list lemmas |
| C43 | `DirectionWriter::createHarmonyElements`, `Harmony` classes, `DirectionReader::parseHarmony` | record round trip, fold over children |
| C44 | `LayoutFunctions`, `Defaults`, `PageLayout`, ... | record round trips, exact result for all values |
| C45 | `EncodingFunctions` | record round trip |
| C46 | `stringToInt` | numeral lemmas |
| C47 | all `operator==` of the API classes, generated | reflection on a universal value type, refutations |
| C48 | `MeasureLocation` | unsigned arithmetic modulo 2^64 |
| C49 | enum-or-free-text attribute classes | history invariant, case analysis on texts |
| C50 | `NotationsWriter`, the curve, tuplet, mark functions, and their readers | list lemmas per kind of attachment |
| C51 | `ScoreData` and `PartData` size queries | sums and maxima over lists |
| C52 | `ScoreWriter`/`ScoreReader` header, `PageTextFunctions` | list lemmas |
| C53 | pugixml's parser and printer, `toStream` | an independent grammar of XML; parser follows any derivation |
| C54 | layout map of `ScoreWriter`/`PartReader` | ordered maps |
| C55 | as C53 | a prefix of a derivation is no derivation |
| C56 | `NoteWriter`, `Note`, `NoteChoice`, `NoteReader`, `NoteFunctions` | round trip; children in any order; acceptance |
| C57 | `PartWriter::getScorePart`, `ScorePart` and its elements, `PartReader`, `ScoreReader::reconcileParts` | round trip; fold over children; list lemmas |
| C58 | `FontSize`, `NumberOrNormal`, `PositiveIntegerOrEmpty`, `YesNoNumber` | history invariant; text round trip; exact acceptance |
| C59 | contents of directions: `DirectionWriter`, `DynamicsWriter`, `SpannerFunctions`, `FontFunctions`, `MetronomeReader`, `DirectionReader` | record round trips per kind of content |
| C60 | contents of clefs and keys: `writeClef`, `writeKey`, `importClef`, `parseProperties`, `Clef`, `Key`, `ClefData` | invariant over the children read so far, for any list of children; record round trips |
| C61 | children with alternatives and groups: `fromXElementImpl` and `streamContents` of thirteen elements, `importGroup`, over an iterator that must not pass the end | the content models of the schema as an inductive relation; inversion to the general shape of the children, induction over the repeated parts, loop invariants over any children |
| C62 | attributes of all elements: `fromXElementImpl`, `hasValues`, `toStream` of 175 attribute classes, `parseAttribute`, `streamAttribute`; which class an element uses | the schema's attribute tables against the classes' tables by computation, lifted over every list of attributes by induction; loops as filters |
| C63 | `fromXElementImpl` and `streamContents` of metronome, time-modification, measure-style, percussion, play, rest, unpitched, dynamics and their groups and choices; whether each child can be read is an argument | the child loops of C61 with a success flag; exact results for each shape of children, induction over dots and notes |
| C64 | `fromXElementImpl` and `streamContents` of both kinds of score and their header, of parts, measures, part-list, direction, direction-type and the name displays, `importGroup`; whether each child can be read is an argument | the child loops of C61 with a success flag; for scores, measures, part-list and direction-type the exact result for every list of children by induction, from which the schema's lists follow |
| C65 | the value of `fromXElementImpl` and `streamContents` of the 184 elements that hold a text, as a table of element name and type of value; the types are the models of C01-C11, C22 and C49 | the schema's table of the same elements with its kinds of text; a relation `fits` between a row of one and of the other, shown for all rows by computation; the claims by cases on `fits` for every text |
| C66 | the loops over the children of note, score-part, score-instrument, encoding, ornaments and sound with the loops inside them (ties, editorial members, sets, midi groups), the `good` of each child as a parameter, and what is written from the object | induction on the children with a relation `Loop` for the moving iterator; content models inverted to the shapes of their lists; exact results for lists of any children where the code gives them; loops end by an argument on the children left |
| C67 | the pieces of C59, C61-C66 put together: an element tree, for each name its class (attributes, text type or the functions that read and write its children), a recursive reading that hands the outcome of each child to its parent, and what is then written | induction on the tree; the schema as an inductive predicate `allowed` (attributes of C62, texts of C65, contents of C61, C63, C64, C66, sequences of C59); the tables are checked by computation to cover every name; the kept contents are proved to lie within those of the schema |
| C68 | The pipeline createFromStream, writeToStream: parsing (C53), classes (C67), putting out, parsing and saving again. Model/Files.v | Composition: the tree a file spells is read as the generic element (C53), which comes back (C67); character data determines the escaped text, so what is put out is the stream of an element that C53 says is written and read; induction over the tree and the number of repetitions |
| C69 | The loops over parts and measures of the writers and readers, the number of staves and the divisions found again. Model/Scores.v | Each measure comes back by C24, C28-C32 and C48; what a written measure tells the reader (divisions, staves, transposition) is an invariant of the writer; induction over measures and parts; parts with their names by C57. Examples for parts without measures |
| C70 | The get functions with MX_LOCK and MX_JIT_ALLOCATE as single memory accesses, threads that take turns at any of them and choose their calls by the answers so far. Model/OnDemand.v, Spec/Sharing.v | An invariant says where each thread can be and which mutex it has, kept by every step; the rest follows from it. The set functions, which do not lock: a run with a race and one that loses a child. One thread alone: refinement of calls made one after another |
| C71 | The names of the enumerations of DocumentSpec.cpp and their parsing, the case-insensitive functions of utility/Parse.h with `std::tolower` undefined outside its domain, DocumentHeader. Model/DocumentSpecs.v, Spec/CaseText.v | Pairs of characters by computation over all 256 of each, lifted to texts of any length by induction; the search by induction on the text; the names by cases |

## Trusted base

* Coq's kernel, including its `vm_compute` conversion, and coqchk as run by `vcheck`.
* **Axioms.** `Print Assumptions` follows every theorem in `Props/`; each prints
  "Closed under the global context". No theorem rests on an axiom, not even on the standard library's.
  The libraries loaded contain some (`vcheck` lists seven of `Coq.ssr.ssrunder.Under_rel`, which
  `Coq.micromega.ZifyBool` brings in through ssreflect: fields of a sealed module of the standard
  library); no theorem depends on them.
* **The reading of `/repo`** recorded in the comments of the model, and the scripts' transcription of
  tables (enumerations, converter tables, element classes, `operator==`): the generated `.v` files are
  committed and are what is proved about.
* **Compiler and library.** The C++ standard's meaning of the code, and of the library functions used:
  `std::sort` is *any* function meeting the standard's contract; `std::map`, `std::set` are sorted
  association lists; `std::stringstream` output of integers and fixed decimals is the numeral;
  `std::mutex` is a lock with interleaving semantics (no relaxed memory: all shared state is accessed
  under the lock).
* **`long double`** is x87 extended: a 64-bit significand, round to nearest even, but with unbounded
  exponent (no overflow, no subnormals, no NaN except in C47). `double` members of API data are
  rationals; where `double` matters (C47) it is said.

### What is modelled

| model file | source files it cites |
|------------|-----------------------|
| Alter | Alter.cpp, Converter.cpp, KeyAlter.cpp, MeasureReader.cpp, NoteReader.cpp, NoteWriter.cpp, PropertiesWriter.cpp |
| ApiClasses | AppearanceData.h, BarlineData.h, ChordData.h, ClefData.h, CodaData.h, ColorData.h, CurveData.h, DefaultsData.h, DirectionData.h, DurationData.h, EncodingData.h, FontData.h, KeyComponent.h, KeyData.h and 36 more |
| ApiEnums | ApiCommon.h, ArticulationsChoice.h, BarlineData.h, ChordData.h, ClefData.h, DurationData.h, FontData.h, LineData.h, MarkData.h, NoteData.h, OrnamentsChoice.h, PartGroupData.h, PitchData.h, PositionData.h and 2 more |
| AttributeClasses | AccidentalAttributes.cpp, AccidentalMarkAttributes.cpp, AccidentalTextAttributes.cpp, AccordAttributes.cpp, AccordionRegistrationAttributes.cpp, ArpeggiateAttributes.cpp, ArrowAttributes.cpp, BarStyleAttributes.cpp, BarlineAttributes.cpp, BarreAttributes.cpp, BassAlterAttributes.cpp, BassStepAttributes.cpp, BeamAttributes.cpp, BeatRepeatAttributes.cpp and 161 more |
| Attributes | AttributesInterface.h, ElementInterface.cpp, FromXElement.cpp, FromXElement.h, HoleClosed.cpp, Play.cpp, Slur.cpp, SlurAttributes.cpp, WordsAttributes.cpp |
| Base | (shared definitions) |
| BuiltinEnums | EnumsBuiltin.cpp, EnumsBuiltin.h |
| ChordSymbols | ChordData.h, Degree.h, DirectionReader.cpp, DirectionWriter.cpp, Harmony.cpp, Harmony.h, HarmonyAttributes.h, HarmonyChordGroup.cpp, HarmonyChordGroup.h, ProcessingInstruction.cpp, Round.h |
| ClefsKeys | Clef.cpp, Clef.h, ClefData.cpp, ClefData.h, ClefOctaveChange.cpp, Enums.cpp, Key.cpp, KeyChoice.cpp, KeyComponent.h, KeyData.h, Line.cpp, MeasureReader.cpp, Mode.cpp, NonTraditionalKey.cpp and 3 more |
| Color | Color.cpp, Color.h, Integers.h |
| CommaInts | CommaSeparatedPositiveIntegers.cpp, CommaSeparatedPositiveIntegers.h |
| Conversions | Document.cpp, Document.h, PartGroupOrScorePart.h, PartwiseMeasure.cpp, PartwiseMeasure.h, PartwisePart.h, ScoreConversions.cpp, TimewiseMeasure.cpp, TimewiseMeasure.h, TimewisePart.cpp, TimewisePart.h, XsID.cpp |
| ConverterTables | Converter.cpp, Enums.h |
| CoreEnums | Enums.cpp, Enums.h |
| CustomEnums | Enums.cpp |
| Date | Date.cpp, Date.h |
| Decimals | Decimals.cpp, Decimals.h |
| Directions | BeatUnit.cpp, BeatUnitGroup.cpp, BeatUnitPerOrNoteRelationNoteChoice.cpp, BracketAttributes.cpp, BracketAttributes.h, CodaData.h, ColorData.h, Direction.cpp, DirectionData.h, DirectionReader.cpp, DirectionType.cpp, DirectionWriter.cpp, DocumentManager.cpp, EmptyPrintObjectStyleAlignAttributes.h and 27 more |
| DocumentManager | DocumentManager.cpp |
| DocumentSpecs | DocumentHeader.cpp, DocumentHeader.h, DocumentSpec.cpp, DocumentSpec.h, Parse.h |
| Documents | Chord.cpp, Document.cpp, PartwiseMeasure.cpp, PartwisePart.cpp, TimewiseMeasure.cpp, TimewisePart.cpp |
| Dots | DurationData.h, NoteWriter.cpp |
| ElementChoices | BeatUnitGroup.cpp, BeatUnitPer.cpp, BeatUnitPerOrNoteRelationNoteChoice.cpp, DisplayStepOctaveGroup.cpp, Dynamics.cpp, FromXElement.cpp, FromXElement.h, MeasureStyle.cpp, MeasureStyleChoice.cpp, Metronome.cpp, MetronomeRelationGroup.cpp, NormalTypeNormalDotGroup.cpp, NoteRelationNote.cpp, PerMinuteOrBeatUnitChoice.cpp and 6 more |
| ElementClasses | Accord.cpp, AccordionRegistration.cpp, Appearance.cpp, Backup.cpp, Barline.cpp, Bass.cpp, BeatRepeat.cpp, Clef.cpp, Defaults.cpp, Degree.cpp, Direction.cpp, Figure.cpp, FiguredBass.cpp, Forward.cpp and 35 more |
| ElementGroups | Arrow.cpp, ArrowGroup.cpp, Articulations.cpp, ArticulationsChoice.cpp, Bend.cpp, BendChoice.cpp, Credit.cpp, CreditChoice.cpp, CreditWordsGroup.cpp, EditorialGroup.cpp, ElisionSyllabicGroup.cpp, ElisionSyllabicTextGroup.cpp, FromXElement.cpp, FromXElement.h and 22 more |
| ElementReading | EditorialGroup.cpp, EditorialVoiceGroup.cpp, ElementInterface.cpp, FromXElement.cpp, FromXElement.h, LayoutGroup.cpp, MetronomeTuplet.cpp, NoteRelationNote.cpp, Ornaments.cpp, PugiElement.cpp, PugiElementIterImpl.cpp, Sound.cpp, TimeModificationNormalTypeNormalDot.cpp |
| ElementSets | Appearance.cpp, Articulations.cpp, Barline.cpp, BeatRepeat.cpp, BeatUnitGroup.cpp, Credit.cpp, CreditChoice.cpp, CreditWordsGroup.cpp, Defaults.cpp, Direction.cpp, DirectionType.cpp, Encoding.cpp, FiguredBass.cpp, Frame.cpp and 41 more |
| ElementTexts | Accidental.cpp, AccidentalMark.cpp, AccidentalText.cpp, AccordionMiddle.cpp, ActualNotes.cpp, Alter.cpp, ArrowDirection.cpp, ArrowStyle.cpp, BarStyle.cpp, BassAlter.cpp, BassStep.cpp, Beam.cpp, BeatType.cpp, BeatUnit.cpp and 174 more |
| EnumLookup | Converter.cpp, Converter.h, EnumWithString.h, Enums.cpp, EnumsBuiltin.cpp |
| Equality | ApiCommon.h, ApiEquality.h, LayoutData.h, StaffData.h |
| Files | Document.cpp, DocumentManager.cpp, ElementInterface.cpp |
| InstrumentTable | Converter.cpp, SoundID.cpp |
| Integers | Integers.cpp, Integers.h |
| Layout | Appearance.h, AppearanceData.h, Defaults.h, DefaultsData.h, FromXElement.cpp, LayoutData.h, LayoutFunctions.cpp, LayoutFunctions.h, LayoutGroup.h, LeftRight.h, MarginsData.h, MeasureWriter.cpp, PageData.h, PageLayout.cpp and 14 more |
| LongDouble | Decimals.h |
| MarkData | Converter.cpp, MarkData.cpp, MarkData.h |
| MeasureReader | DirectionReader.cpp, MeasureReader.cpp, NoteFunctions.cpp, NoteReader.cpp, PartReader.cpp, PartWriter.cpp, TimeReader.cpp |
| MeasureTypes | BarlineData.h, ClefData.h, DirectionData.h, KeyData.h, MeasureData.h, MusicDataChoice.h, Note.h, NoteData.h, Properties.h, StaffData.h, TempoData.h, TimeSignatureData.h |
| MeasureWriter | ApiCommon.h, Cursor.h, DirectionWriter.cpp, EndingAttributes.cpp, MeasureCursor.h, MeasureWriter.cpp, MeasureWriter.h, NoteWriter.cpp, Properties.cpp, PropertiesWriter.cpp |
| Notations | AccidentalMarkFunctions.cpp, ArpeggiateFunctions.cpp, ArticulationsFunctions.cpp, BreathMarkAttributes.h, CurveData.h, CurveFunctions.h, DynamicsAttributes.h, DynamicsReader.cpp, DynamicsWriter.cpp, EmptyLineAttributes.h, EmptyPlacementAttributes.h, EmptyTrillSoundAttributes.h, FermataAttributes.h, FermataFunctions.cpp and 26 more |
| NoteContent | ApiCommon.h, CommaSeparatedText.cpp, CueNoteGroup.cpp, DurationData.cpp, DurationData.h, FullNoteGroup.cpp, FullNoteTypeChoice.cpp, GraceNoteGroup.cpp, NormalNoteGroup.cpp, NormalTypeNormalDotGroup.cpp, Note.cpp, Note.h, NoteAttributes.h, NoteChoice.cpp and 10 more |
| NoteElements | CueNoteGroup.cpp, EditorialVoiceGroup.cpp, Encoding.cpp, EncodingChoice.cpp, FromXElement.cpp, FromXElement.h, FullNoteGroup.cpp, FullNoteTypeChoice.cpp, GraceNoteGroup.cpp, MidiDeviceInstrumentGroup.cpp, NormalNoteGroup.cpp, Note.cpp, NoteChoice.cpp, Ornaments.cpp and 5 more |
| NumberOrWord | FontSize.cpp, NumberOrNormal.cpp, PositiveIntegerOrEmpty.cpp, YesNoNumber.cpp |
| OnDemand | FullNoteGroup.cpp, FullNoteTypeChoice.cpp, JitAllocate.h, Lock.h, MusicDataChoice.cpp, Note.cpp, PartwiseMeasure.cpp |
| PartGroups | PartGroupData.h, ScoreReader.cpp, ScoreWriter.cpp |
| PartInfo | DisplayTextOrAccidentalText.cpp, DocumentManager.cpp, FromXElement.cpp, FromXElement.h, MidiDeviceInstrumentGroup.cpp, MidiInstrument.cpp, PartAbbreviationDisplay.cpp, PartData.h, PartList.cpp, PartNameDisplay.cpp, PartReader.cpp, PartWriter.cpp, ScoreInstrument.cpp, ScorePart.cpp and 7 more |
| PlaybackSound | EnumWithString.h, PlaybackSound.h |
| PugiText | PugiDoc.cpp, pugixml.cpp |
| ScoreData | MeasureLocation.cpp, MeasureLocation.h, PartData.h, ScoreData.cpp, ScoreData.h |
| ScoreElements | Direction.cpp, DirectionType.cpp, DisplayTextOrAccidentalText.cpp, EditorialVoiceDirectionGroup.cpp, FromXElement.cpp, GroupAbbreviationDisplay.cpp, GroupNameDisplay.cpp, MusicDataChoice.cpp, MusicDataGroup.cpp, PartAbbreviationDisplay.cpp, PartGroupOrScorePart.cpp, PartList.cpp, PartNameDisplay.cpp, PartwiseMeasure.cpp and 6 more |
| ScoreHeader | EncodingData.h, EncodingFunctions.cpp, PageTextData.h, PageTextFunctions.cpp, ScoreData.h, ScoreReader.cpp, ScoreWriter.cpp |
| Scores | MeasureAttributes.cpp, MeasureData.h, PartData.h, PartReader.cpp, PartReader.h, PartWriter.cpp, PartwisePart.cpp, ScoreReader.cpp, ScoreWriter.cpp |
| SoundID | SoundID.h |
| Strings | AttributesInterface.h, StringToInt.h, StringUtils.h, XsID.cpp, XsString.cpp, XsToken.cpp |
| Text | CommaSeparatedPositiveIntegers.cpp, Date.cpp, Integers.cpp, Integers.h, StringUtils.h |
| Ticks | Cursor.cpp, LcmGcd.cpp, MeasureReader.cpp, PartReader.cpp, ScoreReader.cpp |
| Transpose | Chromatic.cpp, Converter.cpp, Diatonic.cpp, MeasureReader.cpp, MeasureWriter.cpp, OctaveChange.cpp, PartReader.cpp, Transpose.cpp, Transpose.h, TransposeData.h |
| XmlStream | Document.cpp, ElementInterface.cpp, Parse.h, ProcessingInstruction.cpp, PugiDoc.cpp, PugiElement.cpp, pugixml.cpp |

### What is not modelled, or only in part

* Element values are handed from the API writers to the API readers as values; that their text comes
  back is C02, C04, C10, C14, C15 and C53, proved separately and not composed into one theorem.
  (C40, C53, C55 do go through the text.)
* Core element classes: the ones with a choice or nested groups that no API function uses (`Credit`
  beyond its words, `Lyric`, `FrameNote`, `Bend`, `HarmonMute`, ... ) are not modelled; the plain
  sequences are (C38, C39), and `Note`, `Harmony`, `ScorePart`, `PartList`, `Direction`, `Clef`, `Key` contents are in C43, C56, C57, C59, C60, and thirteen elements with alternatives or groups of children in C61.
  Attribute classes are modelled in C62 as the lists of names they read, require and write; their values are texts of
  the attribute's type, whose reading and printing is an argument of the theorems there.
* `getDocument` hands out a shared pointer; it is treated as a value.
* Files and streams: opening, reading and writing of files either works or throws. Encodings other than
  UTF-8 and pugixml's detection of them are not modelled.
* Opaque contents (carried as abstract values): in C24-C29 what a note, direction, clef or key says
  beyond time, staff, voice (their contents are C43, C50, C56, C59, ...); in C43 footnote, level, frame;
  in C56 level, instrument, notehead-text, notations, lyric, play; in C57 identification, part groups.
* Left out: `MX_DEBUG_THROW` (off in release builds), colour and font of print data in C56, attributes of
  midi-device and the number of an ensemble in C57, positions and fonts of page texts in C52.
* In C47 enumerations and booleans are integers and number differences are not rounded.
* An uninitialised member (bracketType in C33) is `None`, so that no value is assumed for it.

## Results and findings

What each property became. "Refuted" facts are defects or losses in `/repo`, each with a theorem
`Cnn_..._refuted` that exhibits it.

* **C01** (proved; 5 theorems) Bounded integer values never leave their range. All sixteen IntRange types, any history of constructor/setValue/parse.
* **C02** (proved; 4 theorems) Integer text round trip and all-or-nothing parsing. parse accepts exactly the decimal integers that fit; print/parse round trip; failure leaves the value.
* **C03** (partial; 9 theorems) Bounded decimal values never leave their range. False as stated: a positive number below half a millionth is stored as 0 in the types that exclude 0 (C03_positive_types_refuted). Proved: every other type stays in range through any history; positive types stay positive when no number in (0, 0.0000006) is given; six-decimal numbers up to 2^44 stored exactly; clamping, definedness, parse. long double modelled as 64-bit-significand floats.
* **C04** (partial; 10 theorems) Decimal rounding and text round trip. 'Nearest' is false in a sliver just below half a unit (0.4999999 is used for a half), and few-digit configurations can carry past their digits; both refuted. Proved: error below 0.5000002 units (up to 11 decimals), exact text, print/parse and getValue/setValue round trips for every reachable Decimal. C04_wide_refuted: with 19 decimals the error can be 0.74 units; C04_wide_partial: for any number of decimals it is below 0.5000002 units plus 5 * 2^-65.
* **C05** (proved; 6 theorems) Calendar dates are always valid. Invariant by induction over all operation histories.
* **C06** (proved; 7 theorems) Date arithmetic agrees with the proleptic Gregorian calendar. Against the proleptic Gregorian day number.
* **C07** (proved; 2 theorems) Dates are totally ordered by time. All six operators against the day number.
* **C08** (proved; 2 theorems) Weekday of a date is correct. Weekday against the day number and step by step.
* **C09** (proved; 4 theorems) Date text round trip. Exact acceptance, round trips in both directions.
* **C10** (proved; 8 theorems) Color text round trip. Any constructor and history; exact acceptance of the two text forms.
* **C11** (proved; 5 theorems) Comma-separated positive integers. Any history with int arguments; exact meaning of any comma-separated list of ints, with ignored characters strewn in.
* **C12** (proved; 4 theorems) Token white-space normalisation. For every string, against an independent definition of its words.
* **C13** (partial; 6 theorems) Identifiers are always legal XML IDs. Characters, non-emptiness, no leading digit, fixed points proved for every string. The NCName claim is refuted for texts starting with '-' or '.' (C13_ncname_refuted) and proved for all others (C13_ncname_partial).
* **C14** (partial; 8 theorems) Text content survives XML escaping. Escaping proved exact for every text. Refuted: a carriage return does not survive XML line-end handling, and attribute values with double quotes break the tag; the remaining cases are proved (_partial theorems).
* **C15** (proved; 90 theorems) Every enumeration value survives a text round trip. All 85 enumerations of core/Enums, the four of core/EnumsBuiltin and the 886 playback sounds: every value is in the list, prints as the text at its place in the schema (musicxml.xsd, read independently of the code), parses back, and every other text is rejected or becomes the stated fall-back.
* **C16** (partial; 37 theorems) API and core enumerations convert without loss. All 30 tables of Converter.cpp and the text form of SoundID, both directions, with names compared against the MusicXML texts. Refuted for three tables (theorems _refuted): the notehead fa-up, the accidental sharp-sharp and the technical mark fingernails are in both enumerations but missing from (or wrong in) their table; the _partial theorems say that everything else survives. The values without counterpart and their fall-backs are listed in each statement.
* **C17** (proved; 8 theorems) Least common multiple / greatest common divisor of divisions. gcd/lcm of lists and pairs against divisibility, including the int bounds.
* **C18** (proved; 7 theorems) Tick rescaling is exact for the score's ticks-per-quarter. Exact rational arithmetic; scale is the lcm, conversion exact, quarter lengths, sums and order kept.
* **C19** (proved; 2 theorems) Document ids are never reused or confused. Sequential histories (ids are exactly 1,2,3,...) and every concurrent schedule. Exhausting 2^31-1 ids is undefined behaviour in the code and a crash in the model.
* **C20** (partial; 11 theorems) Documents are isolated. Non-interference, neutral answers, destroyed-forever and refinement to a map are proved for every history. Refuted: getData rewrites a timewise document (loses processing instructions, measure parts that are not listed); proved for partwise and for regular timewise documents.
* **C21** (proved; 5 theorems) DocumentManager behaves like a simple map under concurrency. Linearizability by linearization points for any number of threads, programs and schedules, over step-by-step code with a mutex; plus absence of deadlock.
* **C22** (partial; 3 theorems) A failing getData leaves the document as it was. Refuted for timewise documents, which are left converted to partwise; what is left is characterised, and the claim is proved for partwise documents.
* **C23** (partial; 13 theorems) Partwise to timewise conversion loses nothing. Music, parts and header come back for every rectangular score, the whole score when parts follow the part list, agree on measure attributes and carry no processing instructions; timewise to partwise and back is exact. Refuted: measure attributes of all but the last listed part are lost (C23_lossless_refuted), and a short listed part is read out of bounds (C23_in_bounds_refuted; exact condition proved).
* **C24** (partial; 4 theorems) Note timing survives writing and reading a measure. Proved for measures whose notes are in order (Spec/RoundTrip.v staff_in_order), one measure at a time and for whole parts; for all others no note is lost or moved in time. The full claim is refuted: a voice that starts where the one before ends is joined to it (also: overlapping notes of a voice are split into two voices). Contents of notes other than time, type, chord, staff and voice are opaque values; the text step is C04.
* **C25** (partial; 2 theorems) Reading never produces negative or out-of-order time. Proved for notes, clefs, keys and barlines of every measure content, and for directions without a negative offset; a negative offset gives a negative tick (refuted).
* **C26** (partial; 2 theorems) Written measures are self-consistent. Proved when only grace notes take no time and the notes of a chord have equal lengths; refuted in general (unequal lengths in a chord shift what follows). Durations of zero are stored as 0.000001.
* **C27** (proved; 2 theorems) Voice numbers survive or are repaired. For every measure that can be read: the voices are the runs of note elements between backups, numbered as asked or from 0.
* **C28** (partial; 5 theorems) Directions are never lost and keep their time. Proved as equality for supported contents; in general each direction comes back at its tick and staff as at most two (contents, chord symbols). Refuted in full: rehearsal marks, segnos, codas, ends of brackets and other marks are not written. Tempos other than beats per minute make the writer throw. Placement and voice of directions are not modelled.
* **C29** (partial; 6 theorems) Clef and key changes are never lost. Clefs are never lost and keep their ticks if these are 0 or those of first-voice notes; keys at the start and at notes come back. Keys anywhere: none is made up or doubled, the staves' own all come back, and of the measure's a first part, all of it if no more keys than staves come after the start. Refuted in full: clefs between notes move, of several measure keys after the last note all but one are lost, staff keys become measure keys.
* **C30** (partial; 4 theorems) Barlines and repeats survive writing and reading. Proved for barlines with a plain type, a side and a positive ending number; what other barlines become is proved too; the unrestricted claim is refuted.
* **C31** (partial; 7 theorems) Time signatures are inherited until changed. Writing and reading is fully covered. Reading uses only the first <time> of a measure and only plain numbers, so the two unrestricted claims are refuted.
* **C32** (partial; 4 theorems) Measure numbers survive writing and reading. Proved for number texts without superfluous white space, and what is read is given for all texts; refuted for others.
* **C33** (partial; 10 theorems) Part groups survive writing and reading. Refuted only for an unspecified bracket (reading leaves bracketType uninitialised) and numbers below -1; names, numbers, brackets and ranges of all other groups with distinct numbers, or properly nested with the same number, survive, for every sort std::sort may be; also the order of the result, of the stops and that it is determined. displayName and both abbreviations are lost.
* **C34** (partial; 6 theorems) Sorting a score only reorders simultaneous-free data. Sorted and a rearrangement for every sort the standard allows std::sort to be. The claim about ties is refuted, since std::sort may turn chord notes around; proved if no two clefs, directions or notes of a voice share a tick. Keys and barlines are not sorted.
* **C35** (partial; 7 theorems) Transposition survives writing and reading. Chromatic always survives; exact condition for diatonic proved for all ints; the full claim is refuted (diatonic 0 or just whole octaves is guessed on reading), as are two overflow cases.
* **C36** (partial; 7 theorems) Pitch alteration survives writing and reading. Sounding pitch kept to six decimals; semitone/cents split kept when the signs agree (kept). Any text that is a number is read as that alteration (C36_read_partial), any other as none. Refuted for opposite signs. Missing: beyond 100000 semitones or 1000000 cents.
* **C37** (partial; 7 theorems) Dotted durations have the musical length. applyDots computes base*(2^(n+1)-1): refuted and shown wrong for every n > 0; findNormalNameAndDots proved right for undotted, wrong for singly dotted lengths.
* **C38** (partial; 6 theorems) Element sets respect their cardinality. Proved for 83 sets of child elements (all classes whose add/remove/clear follow the common pattern): any sequence of calls keeps the number of elements within the documented bounds for 80 of them, calls change exactly what they should, order is kept. Refuted for NoteheadText choices, TimeChoice groups and TimewiseMeasure parts, whose remove or clear goes below the minimum. Reading (importElementSet) bypasses the maximum.
* **C39** (partial; 15 theorems) Reading a run of repeated child elements keeps all of them in order. Proved: importing a run of any length (exact result and cursor); for 48 element classes (all whose children form a plain sequence) children in schema order, with any processing instructions among them, are all kept in order, written in schema order and read back; for any children reading never fails and nothing is made up, read twice or turned around. Refuted: alternating ornaments and accidental marks lose a mark; metronome notes after a metronome-relation replace those before it; normal-type of a metronome-tuplet and offset of a sound are never read. Not modelled: classes with choices (note, notations, lyric, credit, part-list ...).
* **C40** (partial; 10 theorems) Processing instructions survive. Proved for all elements of any depth with writable names, values and texts: written, parsed and re-read by the modelled toStream, pugixml and fromXElement, every instruction comes back at its element with name and data, in a stated order, and arranged elements come back exactly. Refuted: order of sibling/child instructions, child flag of instructions at childless elements, data with '?>' or a leading blank, instructions inside text or empty elements are not read.
* **C41** (partial; 8 theorems) Mark classification is a partition. Families are a partition and the API predicates agree with it (finding: isMarkOrnament includes unknownOrnament). Refuted that every mark is read back: accidental marks, arpeggios, pedals are never written. Proved for the five written families and the custom mark.
* **C42** (proved; 2 theorems) Fermata kinds survive writing and reading. Kinds and order of all fermatas survive for every note attachment data; C42_written says what each written fermata carries. Position and print data of fermatas are lost (outside the claim, visible in the theorem).
* **C43** (partial; 12 theorems) Chord symbols survive writing and reading. The claim is refuted (C43_symbols_refuted): an unspecified kind becomes none, an unspecified root c, an alteration without a bass is lost, the text loses superfluous blanks. C43_symbols_partial proves it for chords without these; C43_back gives every member of what comes back of any chords; misc data spread to all chords and the position of the first replaces the others' (refutations). C43_children, C43_no_chord, C43_kind_missing and C43_document cover documents of other programs. The text of the element values is the subject of C03, C04, C14, C15; footnote, level and frame content are left out.
* **C44** (partial; 8 theorems) Page layout survives writing and reading. Model/Layout.v models LayoutFunctions.{h,cpp}. Refuted: margins without a page size come back with size 0, a top system distance brings margins of 0, negative page margins become 0, other appearances become distances of 0. Proved: the exact result for all defaults (C44_defaults_partial), the claim for plain defaults (C44_plain_partial), the elements written (C44_written), and what is read of any page layout.
* **C45** (partial; 6 theorems) Encoding information survives writing and reading. Refuted: a date that does not exist is written as the nearest one if its year, month or day happens to be possible (|| for &&). Everything else, valid dates and hopeless dates as claimed; token white space is collapsed.
* **C46** (partial; 5 theorems) Strict string to int conversion. Success is characterised exactly. Rejection fails with undefined behaviour (atoi overflow) on texts that start with a number outside int (C46_rejects_refuted); all others are proved rejected.
* **C47** (partial; 10 theorems) Equality on API values is an equivalence relation and respects all data. == is agreement in everything but six classes' overlooked members (words' and lyrics' texts, noteheads, rehearsals, scaling, group brackets and numbers) and positions and cents up to 1e-8: proved for all values of all 59 classes; symmetric; reflexive without NaN; transitive for up to seven decimals. Reflexivity with NaN, transitivity, and 'equal values are written alike' are refuted. Differences of numbers are not rounded in the model.
* **C48** (partial; 3 theorems) Measure location lookups never go out of bounds. Refuted: an empty score or part makes isValid throw, an empty measure makes every staff valid (size() - 1 wraps around). Proved exactly for scores without empty parts or measures, and what happens with them.
* **C49** (partial; 16 theorems) Attributes that hold a listed value or a free text keep the text. Refuted: the texts 'other' and 'other-dynamics' are recognised as the catch-all value and lose their text (read back empty). Proved for every other text and every history of setters.
* **C50** (partial; 12 theorems) Note attachments survive writing and reading. Refuted as stated (arpeggios lost). Proved: exactly what is kept for every attachment data, and the precision of the numbers. Reading tuplets is proved for any tuplet element (C50_tuplet_read, C50_tuplet_stop_read). C50_tuplet_numbers_refuted: a tuplet that spells out only one of tuplet-actual and tuplet-normal gets the wrong numbers, because the fallback for the missing actual notes sets the normal number and the fallback for the missing normal notes sets the actual number (TupletReader.cpp:135-184); C50_tuplet_half says what is reported then; C50_tuplet_numbers_partial covers the tuplets that spell out both or neither.
* **C51** (proved; 5 theorems) Size queries agree with the data. About all scores whose vectors have at most 2^31-1 elements; the sum of staves that does not fit an int is undefined behaviour and stated as such.
* **C52** (partial; 7 theorems) Titles, people and page texts survive writing and reading. Refuted: arranger and publisher are never written, and read as the lyricist. All other fields survive; what is read from any list of creators is proved exactly. Position and font of page texts are not modelled.
* **C53** (partial; 25 theorems) Every written document is read back as the same elements, attributes and texts. Proved: the modelled parser terminates without undefined behaviour on every text and reads every spelling in an independent XML grammar as the tree it denotes; the modelled writer and mx's toStream spell their trees, so written documents of any size and depth are read back the same. Refuted (hence partial): attribute values with a double quote throw, tabs become blanks, blank texts vanish, carriage returns become line feeds.
* **C54** (partial; 6 theorems) New systems, new pages and layout changes survive writing and reading. Refuted: staff distances of prints are never written. Proved: the exact layout map read back for any map and any number of measures, the claim without the lost parts, the prints written, and the map read from any document.
* **C55** (proved; 7 theorems) A file that ends too early is never taken for a score. Every cut of every document of the XML grammar in Spec/XmlGrammar; for written files, elements without instructions of their own after the root (their trailing instructions may be lost).
* **C56** (partial; 21 theorems) What is said of a note survives writing and reading. Refuted in full: display step and octave of rests and unpitched notes, accidental flags, a ninth beam, printObject, the user's normal type, unspecified values and commas in misc data do not come back. Proved: exactly what is written, the order and completeness of the elements, the whole note returned by write-then-read under stated conditions, and what is reported for any list of elements in any order.
* **C57** (partial; 24 theorems) Names and instruments of parts survive writing and reading; each part keeps its own music. Refuted in full: the sound or id of an instrument of which nothing else is known, MIDI name and unpitched note, channel/bank/program 0, display abbreviation, print data and positions do not come back; a MIDI-only instrument without id gets a score-instrument id that its midi-instrument does not refer to; parts with equal or empty ids share the first part's music; damaged score-parts after the first are accepted. Proved: exactly what is written and returned for every part, order and completeness of the elements, what is reported for any part list, and that parts with different ids come back in order, each with its own music.
* **C58** (partial; 19 theorems) A value that is a number or a word is one of them, and is read back as it was written. Four kinds of values, every text and every history. Font sizes and pedals: text, round trip, last call and defaults are proved in full. False for line-height/letter-spacing and for positive-integer-or-empty: a text that is neither a number nor the word is not refused; the value silently becomes a number (the number it had before, 0 or 1 after "normal" or empty), NumberOrNormal.cpp:57-71, PositiveIntegerOrEmpty.cpp:57-71; the exact behaviour is proved. Numbers of magnitude 2^64 or more are left out of the text theorems (C03 says what a Decimal does with them).
* **C59** (partial; 11 theorems) What a direction says survives writing and reading. Writing, reading and the round trip are proved for every direction whose numbers can be stored: what is written (order and contents), what is reported of any direction of a file, and exactly what comes back. The full claim is false (C59_back_refuted): segnos, codas, rehearsal marks, bracket stops and the voice are never written; wedge numbers and colours, words colour, the print data, positions and lines of brackets and the positions and numbers of octave shifts are lost; a bracket without number comes back as number 1; an octave shift or wedge of unspecified type comes back as 8va or crescendo; font families with commas are split; underline and its like are clamped to 3. Writing throws for any tempo but beats per minute, although reading produces such tempos: a file with a metric modulation or a per-minute text such as "ca. 96" can be loaded but not saved (C59_unwritable); a metronome made of notes cannot be loaded at all. damp-all and unknown elements are reported as an empty rehearsal mark; a wedge of type continue as a wedge start. Brackets and octave shifts carry the tick of the cursor without the offset. C59_back_partial: directions that say no more than what is written come back equal.
* **C60** (partial; 18 theorems) Clefs and keys survive writing and reading. Writing, reading (any children in any order) and the round trip are proved. The full claims are false. C60_clef_back_refuted: the barline location of a clef is never written and a negative line comes back as the usual line of its sign. C60_key_back_refuted: keys made of components lose their staff and time; an unspecified step comes back as C, a double sharp of the form sharp-sharp as natural; the mode "unsupported" is never written nor reported, because the test for it repeats the test for minor, so dorian and the like are reported as unspecified. C60_clef_names_refuted: the soprano and mezzo-soprano clefs of the API are one line too low (C on line 0 and 1 for 1 and 2), so that a soprano clef of a file is reported as mezzo-soprano. When reading a key, a row of components replaces the one before it if that is a single component and is added to it otherwise. What remains true is proved as the _partial theorems; the components are limited to 100000 semitones and 1000000 cents.
* **C61** (partial; 37 theorems) An element with alternatives or groups of children, read and written again, has the same children. Proved in full for articulations, technical, bend, harmonic, time and harmony. The full claim is false of the others. C61_notations_refuted: the reader looks for "other-notations", the schema and the writer say "other-notation", and the file is refused. C61_arrow_refuted: a circular-arrow is refused, because every child goes on to be read as an arrow-direction group. C61_notehead_text_refuted: the texts are read from the parent element, so their contents are lost. C61_interchangeable_refuted: of several pairs of beats and beat-type the last is kept. C61_key_refuted: a key of octaves only is written with a fifths of 0. C61_credit_refuted: links and bookmarks between words are read from the parent element. C61_lyric_refuted: the syllabic after an elision is lost; an end-line after an extend, laughing or humming replaces it by an empty text; a footnote or level makes the file refused. What remains true of each is proved as _partial, with the names (credit, notehead-text) or for the lists of children without these cases. The children of an arrow are read once for each child (C61_arrow_partial says how often). A credit with an unknown child after its links and bookmarks is accepted, with empty words (C61_credit_unfinished). Left out: attributes, whether the children themselves can be read, processing instructions between children.
* **C62** (partial; 15 theorems) An element's attributes, read and written again, are the ones the schema allows. All attributes of every element of the schema are in the model (175 attribute classes, the table of which element uses which, all against the schema's own tables). False as stated (C62_back_refuted): about eighty elements lose color (beam, stem, ending, wedge, accent, ...); words, rehearsal, display-text, accidental-text and footnote lose dir and valign as well; kind, pedal, measure-numbering, other-direction, principal-voice and string-mute lose color and valign; image and credit-image lose valign, credit-words dir, elision and text color and dir; hole-closed and play never read their attributes; link and opus look for href where the schema has xlink:href, so every valid one is refused (C62_links_refused); tied reads bezier-x-2 for bezier-x2; bracket does not require type and line-end and writes defaults of its own (C62_required_refuted, C62_bracket); doit, falloff, plop and scoop write dash-length twice, which is not well-formed XML (C62_times); coda, damp, damp-all, eyeglasses and segno take a print-object the schema does not have, and lang and space are taken for xml:lang and xml:space (C62_other_names). Proved for every list of attributes: what comes back and what does not (C62_kept), how often it is written, that values of checked types that do not print as they were are refused and others taken (C62_checked, C62_accepted, C62_value), that unknown attributes are dropped (C62_unknown), and that nothing else is written (C62_nothing_else, C62_written_allowed). How a text becomes a value of each type is an argument here; it is C02, C10, C14, C53, C58.
* **C63** (partial; 28 theorems) Metronomes, time modifications, measure styles, percussion, play, rests and dynamics, read and written again, have the same children. Proved in full for measure-style, rest and unpitched, and for time-modification what comes back. False of the others. C63_metronome_refuted: of several metronome-notes after a metronome-relation only the first stays there; the others are written before the relation, and when one note was before it that note is lost (C63_metronome_relation). C63_metronome_bad_refuted: a per-minute that cannot be read is not noticed. C63_time_modification_bad_refuted: a normal-type overwrites the failure of the actual-notes and normal-notes before it. C63_time_modification_required_refuted: both required children may be missing. percussion and play are always refused, because the element itself is handed to the code that looks for the children's names (C63_percussion_refused, C63_play_refused). dynamics: an empty one is refused although the schema allows it, only the first child is kept, an other-dynamics with the text of a standard one turns into it, and an unknown child turns into an other-dynamics (C63_dynamics_*). A metronome without a beat-unit or metronome-note is accepted and gets an empty beat-unit and per-minute (C63_metronome_unknown). What remains true of each is proved as _partial. Left out: attributes, white space, processing instructions between children.
* **C64** (partial; 28 theorems) Scores, parts, measures, part lists, directions and name displays, read and written again, have the same children. Whatever the schema allows comes back, for every one of these elements (C64_music, C64_part, C64_timewise_measure, C64_score_partwise, C64_score_timewise, C64_part_list, C64_direction, C64_direction_type, C64_name_display). Not true is what is refused. C64_part_list_bad_refuted: after the first score-part a child that cannot be read is not noticed, and a child of another name is written as a part-group that is in no file (C64_part_list_bad_partial gives the exact result). C64_score_required_refuted: a score with no children is accepted, and written with a part-list and a part that are in no file. C64_part_empty, C64_direction_untyped: the same of a part without measures and a direction without direction-type. C64_direction_type_single, C64_direction_type_other: what follows a child that comes alone is dropped, and a first child of another name turns into a rehearsal. C64_direction_any: which children of a direction are read whatever they are, and what is written: a direction-type or an offset right after a footnote, a level or a voice is lost, and a second run of direction-types replaces a first run of one. C64_music_exact: children of a measure that the schema does not have are passed over. Left out: attributes, white space, processing instructions between children.
* **C65** (partial; 8 theorems) An element's text, read and written again, says the same. Refuted in full: an instrument-sound that is not among the standard sounds makes reading throw; the mode "other" and modes with markup characters are not written as they were (the text of a mode is not escaped); integers outside 32 bits become 0 (octave-change, diatonic and others); more than six decimals are rounded (tenths). Proved for all 184 elements for the texts the program can hold. Findings: unfit texts are never refused but replaced by the first word of the list, the nearest number, a default or 1900-01-01; "double-flat" becomes "flat-flat"; accordion-middle accepts 0 where the schema has 1 to 3; the smallest positive divisions or durations are written as 0, and that is read as 0.000001, so writing twice is not stable. other-dynamics, the one other element of the schema with a text, is in C63. Dates are modelled for the years 1 to 9999 and without time zones.
* **C66** (partial; 20 theorems) Notes, score-parts, score-instruments, encodings, ornaments and sounds, read and written again, have the same children. Proved: notes, score-parts, score-instruments and encodings that the schema allows come back in their order; notes, encodings, ornaments and sounds exactly for lists of any further children; what is refused; the loops of notes and score-parts end inside the children. False of the code and shown so: a sound gets a midi-instrument whenever it has a device or a play, because the pointer is asked instead of the flag (Sound.cpp:59), its offset is lost and its groups are merged into one; accidental marks in ornaments are moved behind all ornaments, and a later run replaces a single mark; a score-part without part-name is accepted and gets an empty one; whether the duration of a note could be read is not looked at. An unknown child of an encoding is refused but leaves an encoding-date behind. Left out: attributes (C62), texts (C65), comments between the children. Of more than two ties the first two are kept (C66_note_ties).
* **C67** (partial; 4 theorems) A whole document, read and written again, is the same document. Proved: every document made of attributes, texts and contents that come back (the kept ones of C61 to C66), of any size and depth, is accepted and written with the same elements in the same places, the same attributes and values in some order, and texts that say the same; these documents are proved to lie within those the schema allows. The full claim is false (C67_document_refuted): for instance a link with an href is refused. What a document must avoid is exactly what the specification of the kept ones says: the attributes lost, doubled or unreadable (C62), values with markup or quotation marks (they are written unescaped), numbers beyond what is held (C65), and the contents listed in kept_contents (C61, C63, C64, C66). Left out: comments, processing instructions, white space between elements, the XML declaration and document type, and reading the characters of the file into elements and back (C57).
* **C68** (partial; 10 theorems) A whole MusicXML file, loaded and written, is the same score document. Proved: every file whose document keeps to what comes back (the kept documents of C67) and whose characters XML can hold (no carriage returns in texts, no tabs, line ends or quotation marks in attribute values, no text of white space only) is accepted, in whatever way it is spelled, and written as XML that spells the same document; so again any number of times, and from the first time on character for character the same (C68_settled_partial, C68_forever_partial); cut off anywhere it is refused or taken for what it was. The full claim is false (C68_file_refuted): a file with a link is refused. C68_comment_refuted: of a text with a comment in it the rest is lost. Not modelled here (C68_scope says which files): processing instructions (C40) and encodings other than UTF-8. C68_spelling: what is written depends on the document only, not on its spelling. C68_total: on any characters at all the outcome is defined.
* **C69** (partial; 12 theorems) A whole score survives writing and reading back. Partial because of the code: a part without measures comes back with one empty measure (C69_no_measures), and a score of nothing but such parts comes back with 0 ticks per quarter (C69_only_empty), so C69_measures_refuted. C69_music_partial: scores whose measures meet the conditions of C24, C28-C32 come back exactly, but that notes ask for the voice they are in; C69_same_partial: exactly, if they ask already; C69_again_partial: a second time changes nothing; C69_score_partial with names and instruments. C69_notes and C69_score_notes: for every score with measures no part, measure, staff, note or transposition is lost. Part groups (C33), the header (C52) and layout (C54) are left out here. The staff of a forward element is not modelled in the count of staves. For files of others: C69_staves_found (the number of staves), C69_parts_read (all parts and measures; a part without divisions begins with the last ones of the parts before it), C69_transposition_read (only what is said at the start of the first measure is read).
* **C70** (proved; 10 theorems) Elements that make their children on demand can be read by several threads. Proved in full for the const functions, for any number of threads and any schedule (C70_no_race, C70_same_child, C70_kept, C70_own, C70_asked, C70_goes_on, C70_short). Beyond the claim: it is not true when a set function is called meanwhile, since those do not lock (Note.cpp:185-191 and the like): C70_set_refuted gives a data race, C70_set_lost_refuted a child that was set and is lost. C70_alone: a single thread gets from all functions, the set functions too, what calls made one after another give. The model interleaves single memory accesses; that a program without data races behaves so is the C++ memory model, and is trusted.
* **C71** (partial; 14 theorems) Kinds of documents keep their names, and texts are compared and found without regard to case. Refuted: breaks are missing in the switches, so timewise is written timewiseerror, 3.0 as 3.0error, dtd as dtdxsderror and xsd as xsderror, and none but partwise, 3.0 and xsd is read back, the last two only because they are the defaults (DocumentSpec.cpp:14-110); parseSpecificationType takes xsd for dtd (:119-122); std::tolower is called with negative numbers for characters beyond ASCII, which is undefined (utility/Parse.h:18); an empty text is not found in an empty one. Proved: exact comparison of ASCII texts, what is read from any ASCII text, the search for any texts, the head of a document after any history.

## Testing the theorems

`seeded/LOG.jsonl` has one line per edit of a model definition made in a scratch copy: a wrong boundary,
a swapped argument, a dropped case, an order turned round. `theorems_failed` are the lemmas that no longer
compile, `property_files_failed` the property files that depend on them. An edit that survived led to the
theorems under `tightened`, or is marked as one that changes nothing observable.
