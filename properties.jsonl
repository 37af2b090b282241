{"id": "C01", "title": "Bounded integer values never leave their range", "statement": "Whatever is done to a value of a bounded MusicXML integer type (beam-level, midi-16, octave, staff-number, ...) through its constructors, setValue and parse, getValue returns a number inside the type's documented range; an in-range request is stored exactly and an out-of-range request is stored as the nearest bound.", "quantifier": "every bounded integer type, every 32-bit initial value, every sequence of setValue/parse calls with any 32-bit number or any text", "why_tests_cant": "a test can only sample numbers and short call sequences; the claim is about all 2^32 values, all strings and histories of any length", "anchors": ["Sourcecode/private/mx/core/Integers.h", "Sourcecode/private/mx/core/Integers.cpp: IntRange::setValue, Integer::parse, toStream"]}
{"id": "C02", "title": "Integer text round trip and all-or-nothing parsing", "statement": "Printing an integer value and parsing the text gives back the same value; parsing a text that is not an optionally signed decimal number surrounded by nothing but leading/trailing white space, or that does not fit an int, reports failure and leaves the stored value as it was.", "quantifier": "every 32-bit integer; every character string", "why_tests_cant": "the set of strings is infinite and the interesting ones (overflow by one, trailing junk, sign only) are rarely sampled", "anchors": ["Sourcecode/private/mx/core/Integers.cpp: Integer::parse, toStream, toString"]}
{"id": "C03", "title": "Bounded decimal values never leave their range", "statement": "Values of the bounded decimal types (percent, positive-divisions, non-negative-decimal, rotation-degrees, trill-beats, positive-decimal) stay inside their documented range after any sequence of constructor, setValue and parse calls, and an in-range number that is a multiple of 10^-6 is stored exactly.", "quantifier": "every bounded decimal type, every representable number, every history of calls", "why_tests_cant": "infinitely many decimals and histories; exclusive bounds and carry at the sixth digit are corner cases tests miss", "anchors": ["Sourcecode/private/mx/core/Decimals.h", "Sourcecode/private/mx/core/Decimals.cpp: PreciseDecimal, DecimalRange"]}
{"id": "C04", "title": "Decimal rounding and text round trip", "statement": "A decimal is stored as the nearest number with at most its configured digits and printed without trailing zeros, never in exponent notation; printing and re-parsing gives back the same stored number.", "quantifier": "every number whose integer part fits the configured digits, every digit configuration 1..19", "why_tests_cant": "rounding carries and leading zeros in the fraction occur at isolated points of an infinite domain", "anchors": ["Sourcecode/private/mx/core/Decimals.cpp: PreciseDecimal::setValue, toStream, Decimal::parse"]}
{"id": "C05", "title": "Calendar dates are always valid", "statement": "After any sequence of constructor, setYear, setMonth, setDay, setValue, parse, addDays, addMonths and addYears calls, a date's year is 1..9999, its month 1..12 and its day a real day of that month in the Gregorian calendar.", "quantifier": "every initial value, every sequence of operations, every 32-bit argument", "why_tests_cant": "histories are unbounded and the failures sit at month ends, leap days and the ends of the range", "anchors": ["Sourcecode/private/mx/core/Date.h", "Sourcecode/private/mx/core/Date.cpp"]}
{"id": "C06", "title": "Date arithmetic agrees with the proleptic Gregorian calendar", "statement": "addDays(n) yields the date whose day number is n larger, clamped to 0001-01-01 .. 9999-12-31; addDays(n) then addDays(-n) is the identity when no clamping happened; addMonths and addYears move by whole months/years and only change the day when the target month is too short.", "quantifier": "every valid date and every int n", "why_tests_cant": "3.6 million dates times 2^32 offsets cannot be enumerated", "anchors": ["Sourcecode/private/mx/core/Date.cpp: addDays, addMonths, addYears, daysInMonth, isLeapYear"]}
{"id": "C07", "title": "Dates are totally ordered by time", "statement": "The comparison operators on dates form a strict total order and date1 < date2 holds exactly when date1's day number is smaller; equality is equality of year, month and day.", "quantifier": "every pair and triple of valid dates", "why_tests_cant": "transitivity and totality range over all triples", "anchors": ["Sourcecode/private/mx/core/Date.cpp: operator<, operator==, operator>"]}
{"id": "C08", "title": "Weekday of a date is correct", "statement": "getDayOfWeek returns 1 for Sunday .. 7 for Saturday consistently with the Gregorian calendar: consecutive days have consecutive weekdays (anchored at a known date).", "quantifier": "every valid date from year 1 to 9999", "why_tests_cant": "all 3.65 million dates; a test samples a handful", "anchors": ["Sourcecode/private/mx/core/Date.cpp: getDayOfWeek"]}
{"id": "C09", "title": "Date text round trip", "statement": "Printing a valid date as yyyy-mm-dd and parsing it gives the same date; parse accepts exactly the ten-character texts of valid dates and otherwise leaves the date unchanged.", "quantifier": "every valid date, every string", "why_tests_cant": "infinitely many strings, including wrong separators, signs, and impossible days", "anchors": ["Sourcecode/private/mx/core/Date.cpp: parse, toStream, isDateStringValid"]}
{"id": "C10", "title": "Color text round trip", "statement": "A color printed as #RRGGBB or #AARRGGBB parses back to the same type and channels; a text that is not of that form leaves the color unchanged; channels stay within 0..255.", "quantifier": "every color value, every string", "why_tests_cant": "2^32 colors and infinitely many strings", "anchors": ["Sourcecode/private/mx/core/Color.h", "Sourcecode/private/mx/core/Color.cpp"]}
{"id": "C11", "title": "Comma-separated positive integers", "statement": "An ending-number list keeps a duplicate-free ascending set of positive integers, prints it comma separated and re-parses it to the same set; no operation can put a non-positive number in it.", "quantifier": "every finite set of positive ints, every string, every operation history", "why_tests_cant": "unbounded sets and strings", "anchors": ["Sourcecode/private/mx/core/CommaSeparatedPositiveIntegers.cpp"]}
{"id": "C12", "title": "Token white-space normalisation", "statement": "A token value never starts or ends with white space nor contains two adjacent white-space characters or any white space other than a space; normalising is idempotent and never changes the sequence of non-space words.", "quantifier": "every string", "why_tests_cant": "infinitely many strings with arbitrary white-space runs", "anchors": ["Sourcecode/private/mx/core/XsToken.cpp", "Sourcecode/private/mx/core/StringUtils.h: trim, reduce"]}
{"id": "C13", "title": "Identifiers are always legal XML IDs", "statement": "Whatever text is assigned to an ID, the stored ID is non-empty, uses only NCName ASCII characters and does not start with a digit; a text that already satisfies this is stored unchanged. The stored ID is a legal XML NCName.", "quantifier": "every string", "why_tests_cant": "infinitely many strings", "anchors": ["Sourcecode/private/mx/core/XsID.cpp", "Sourcecode/private/mx/core/StringUtils.h: onlyAllow"]}
{"id": "C14", "title": "Text content survives XML escaping", "statement": "The escaped form of any text contains no raw '<' or '>' and every '&' starts one of the three predefined references, and un-escaping it gives back the original text; hence element text can never break the markup. An attribute value is protected in the same way.", "quantifier": "every string, used as element text or attribute value", "why_tests_cant": "infinitely many strings; injection-like inputs are not in example files", "anchors": ["Sourcecode/private/mx/core/XsString.cpp: toStream", "Sourcecode/private/mx/core/AttributesInterface.h: streamAttribute"]}
{"id": "C15", "title": "Every enumeration value survives a text round trip", "statement": "For each MusicXML enumeration, parsing the printed text of a value gives that value back, distinct values print differently, and a text that is not the print of any value is rejected (or mapped to the documented default).", "quantifier": "every enumeration in the library, every value, every string", "why_tests_cant": "tests cover some values of some of the ninety enumerations; rejection ranges over all strings", "anchors": ["Sourcecode/private/mx/core/Enums.h", "Sourcecode/private/mx/core/Enums.cpp", "Sourcecode/private/mx/core/PlaybackSound.h"]}
{"id": "C16", "title": "API and core enumerations convert without loss", "statement": "Converting an API value to its MusicXML counterpart and back is the identity for every value that has a counterpart, and so is core-to-API-to-core; values without a counterpart map to the documented fall-back.", "quantifier": "every conversion table, every enumerator on both sides", "why_tests_cant": "the tables are long and hand written; a single wrong row is invisible unless every row is checked in both directions", "anchors": ["Sourcecode/private/mx/impl/Converter.h", "Sourcecode/private/mx/impl/Converter.cpp"]}
{"id": "C17", "title": "Least common multiple / greatest common divisor of divisions", "statement": "The lcm and gcd helpers return the mathematical lcm/gcd of the numbers (up to sign) when the result fits an int; the lcm of a set of divisions is divisible by each of them and divides every other common multiple; empty and zero inputs behave as documented.", "quantifier": "every pair of ints and every finite set of ints", "why_tests_cant": "number-theoretic claim over all inputs and unbounded set sizes", "anchors": ["Sourcecode/private/mx/impl/LcmGcd.cpp", "Sourcecode/private/mx/impl/ScoreReader.cpp"]}
{"id": "C18", "title": "Tick rescaling is exact for the score's ticks-per-quarter", "statement": "When durations are rescaled from a measure's divisions to the score-wide ticks per quarter (the lcm of all divisions), a whole number d of divisions becomes exactly d*ticksPerQuarter/divisions ticks; therefore sums of durations, orderings and coincidences of onset times are preserved.", "quantifier": "every non-empty set of positive divisions, every duration", "why_tests_cant": "rounding hides scaling errors on the few divisions that test files use", "anchors": ["Sourcecode/private/mx/impl/Cursor.cpp: convertDurationToGlobalTickScale", "Sourcecode/private/mx/impl/ScoreReader.cpp: findMaxDivisionsPerQuarter", "Sourcecode/private/mx/utility/Round.h: roundTo"]}
{"id": "C19", "title": "Document ids are never reused or confused", "statement": "Each create call returns an id different from every id returned before, also across destroys and failed creates; ids and unique ids only grow.", "quantifier": "every history of create/destroy/read/write calls from any number of threads", "why_tests_cant": "unbounded histories and interleavings", "anchors": ["Sourcecode/private/mx/api/DocumentManager.cpp"]}
{"id": "C20", "title": "Documents are isolated", "statement": "Operations on one document id never change what can be observed of another id; getData and the write functions do not change the document; operations on an unknown or destroyed id have no effect and return the documented neutral value.", "quantifier": "every history of calls, every pair of ids", "why_tests_cant": "unbounded histories; the interesting ones mix destroyed and live ids", "anchors": ["Sourcecode/private/mx/api/DocumentManager.cpp"]}
{"id": "C21", "title": "DocumentManager behaves like a simple map under concurrency", "statement": "Any interleaving of calls made by several threads gives the same results as some sequential order of those calls on a map from ids to documents, consistent with the order in which the calls were made.", "quantifier": "every number of threads, every program per thread, every schedule", "why_tests_cant": "schedules cannot be enumerated by tests", "anchors": ["Sourcecode/private/mx/api/DocumentManager.cpp: LOCK_DOCUMENT_MANAGER"]}
{"id": "C22", "title": "A failing getData leaves the document as it was", "statement": "If reading a document fails with an exception, the stored document is observably unchanged (in particular a timewise document stays timewise).", "quantifier": "every stored document, every reader failure", "why_tests_cant": "requires failure injection in the middle of a call", "anchors": ["Sourcecode/private/mx/api/DocumentManager.cpp: getData"]}
{"id": "C23", "title": "Partwise to timewise conversion loses nothing", "statement": "Converting a partwise document to timewise and back gives the original parts, measures and contents when all parts are listed in the part list and have equally many measures; conversion never reads outside a part's measures.", "quantifier": "every number of parts and measures, every contents, every part list", "why_tests_cant": "unbounded sizes; the ragged and unlisted cases are not in example files", "anchors": ["Sourcecode/private/mx/core/ScoreConversions.cpp", "Sourcecode/private/mx/core/Document.cpp: convertContents"]}
{"id": "C24", "title": "Note timing survives writing and reading a measure", "statement": "Writing a measure to MusicXML and reading it back yields, for every staff and voice, the same sequence of notes with the same start ticks, durations, grace/cue/normal type and chord grouping.", "quantifier": "every measure: any number of staves, voices and notes, any gaps, chords and grace notes, any start ticks and durations", "why_tests_cant": "the space of measures is unbounded and errors need particular combinations of backups, chords and voices", "anchors": ["Sourcecode/private/mx/impl/MeasureWriter.cpp", "Sourcecode/private/mx/impl/NoteWriter.cpp", "Sourcecode/private/mx/impl/MeasureReader.cpp", "Sourcecode/private/mx/impl/NoteFunctions.cpp", "Sourcecode/private/mx/impl/Cursor.cpp"]}
{"id": "C25", "title": "Reading never produces negative or out-of-order time", "statement": "Whatever sequence of notes, backups, forwards and attributes a measure contains, every tick position read is non-negative, a backup never moves before the start of the measure, and notes of one voice between two backups have non-decreasing start ticks.", "quantifier": "every MusicXML measure content", "why_tests_cant": "arbitrary input files, unbounded length", "anchors": ["Sourcecode/private/mx/impl/MeasureReader.cpp: parseMusicDataChoice, parseBackup, parseForward, parseNote, addNoteToOutput"]}
{"id": "C26", "title": "Written measures are self-consistent", "statement": "In a written measure the notes, forwards and backups position every note at its start tick when replayed by the MusicXML timing rules, no backup goes before the start of the measure, and every note given is written exactly once and in order.", "quantifier": "every measure", "why_tests_cant": "needs all combinations of voices, gaps and overlaps", "anchors": ["Sourcecode/private/mx/impl/MeasureWriter.cpp: writeVoices, writeForwardOrBackupIfNeeded, advanceCursorIfNeeded"]}
{"id": "C27", "title": "Voice numbers survive or are repaired", "statement": "After reading a measure, if every voice has one consistent positive voice number distinct from the others these numbers are used; otherwise voices are renumbered 0..n-1 in order; in both cases no note is lost, duplicated or reordered.", "quantifier": "every staff with any number of voices and notes", "why_tests_cant": "unbounded collections of voices and numbers", "anchors": ["Sourcecode/private/mx/impl/MeasureReader.cpp: consolidateVoicesForAllStaves"]}
{"id": "C28", "title": "Directions are never lost and keep their time", "statement": "Every direction attached to a staff is written exactly once, in tick order, and is read back at its own tick on its own staff.", "quantifier": "every measure with any number of directions, notes and voices", "why_tests_cant": "the flush logic depends on note/direction interleavings", "anchors": ["Sourcecode/private/mx/impl/MeasureWriter.cpp: writeDirections", "Sourcecode/private/mx/impl/DirectionWriter.cpp", "Sourcecode/private/mx/impl/DirectionReader.cpp"]}
{"id": "C29", "title": "Clef and key changes are never lost", "statement": "Every clef and key change given for a measure is written exactly once and read back at its tick.", "quantifier": "every measure with any number of clefs, keys and notes", "why_tests_cant": "the pending-iterator logic depends on interleavings", "anchors": ["Sourcecode/private/mx/impl/MeasureWriter.cpp: writeMeasureGlobals, writeVoices", "Sourcecode/private/mx/impl/PropertiesWriter.cpp", "Sourcecode/private/mx/impl/MeasureReader.cpp"]}
{"id": "C30", "title": "Barlines and repeats survive writing and reading", "statement": "Every barline's type, ending, repeat flag and side survive a write and read of the measure.", "quantifier": "every list of barlines", "why_tests_cant": "combinations of position, location, ending and repeat", "anchors": ["Sourcecode/private/mx/impl/MeasureWriter.cpp: writeBarlines", "Sourcecode/private/mx/impl/MeasureReader.cpp: parseBarline"]}
{"id": "C31", "title": "Time signatures are inherited until changed", "statement": "After reading, each measure carries the time signature most recently given in that part (4/4 before any), flagged implicit exactly when the measure itself does not state one; writing and reading a part preserves this.", "quantifier": "every number of measures, every placement of time changes", "why_tests_cant": "inheritance chains of any length", "anchors": ["Sourcecode/private/mx/impl/TimeReader.cpp", "Sourcecode/private/mx/impl/MeasureReader.cpp", "Sourcecode/private/mx/impl/PartReader.cpp", "Sourcecode/private/mx/impl/MeasureWriter.cpp"]}
{"id": "C32", "title": "Measure numbers survive writing and reading", "statement": "A measure's number text read back equals the written one, where the empty text stands for the default numbering (index+1).", "quantifier": "every measure index and number text", "why_tests_cant": "all indices and texts", "anchors": ["Sourcecode/private/mx/impl/MeasureWriter.cpp: writeMeasureGlobals", "Sourcecode/private/mx/impl/MeasureReader.cpp"]}
{"id": "C33", "title": "Part groups survive writing and reading", "statement": "Every well-formed set of part groups (distinct numbers while open, proper or overlapping) is read back with the same first part, last part, number, name and bracket.", "quantifier": "every number of parts and groups, nested or overlapping", "why_tests_cant": "unbounded combinations of starts and stops", "anchors": ["Sourcecode/private/mx/impl/ScoreReader.cpp: part group handling", "Sourcecode/private/mx/impl/ScoreWriter.cpp: part group handling"]}
{"id": "C34", "title": "Sorting a score only reorders simultaneous-free data", "statement": "ScoreData::sort leaves every voice's notes, every staff's clefs and directions in non-decreasing tick order, and is a permutation: nothing is lost or duplicated; the relative order of notes at the same tick (chord members, grace notes) is kept.", "quantifier": "every score", "why_tests_cant": "depends on the sort algorithm's treatment of ties", "anchors": ["Sourcecode/private/mx/api/ScoreData.cpp: sort"]}
{"id": "C35", "title": "Transposition survives writing and reading", "statement": "A part's transposition (chromatic and diatonic interval) written to MusicXML and read back is unchanged, for intervals of any number of octaves up or down.", "quantifier": "every pair of ints chromatic, diatonic", "why_tests_cant": "two unbounded integers with mixed signs", "anchors": ["Sourcecode/private/mx/impl/Converter.cpp: convertToTranspose, convertToTransposeData"]}
{"id": "C36", "title": "Pitch alteration survives writing and reading", "statement": "Semitones and cents written as a MusicXML alter value and read back are unchanged up to the stored precision; the sounding pitch (semitones + cents/100) is always preserved.", "quantifier": "every semitone count and cents value", "why_tests_cant": "continuous domain; sign and truncation corner cases", "anchors": ["Sourcecode/private/mx/impl/Converter.cpp: convertToAlter, convertToSemitonesAndCents", "Sourcecode/private/mx/impl/NoteWriter.cpp"]}
{"id": "C37", "title": "Dotted durations have the musical length", "statement": "A note value with n dots lasts base*(2-2^-n); the dot arithmetic offered by the API computes this.", "quantifier": "every base duration and number of dots", "why_tests_cant": "all n", "anchors": ["Sourcecode/include/mx/api/DurationData.h: applyDots", "Sourcecode/private/mx/impl/NoteWriter.cpp: findNormalNameAndDots"]}
{"id": "C38", "title": "Element sets respect their cardinality", "statement": "For every element class holding a set of children with minimum 1 (or a maximum), no sequence of add/remove/clear calls ever makes the set violate the bounds, and additions keep order.", "quantifier": "every such class, every history of calls", "why_tests_cant": "histories are unbounded and there are hundreds of classes", "anchors": ["Sourcecode/private/mx/core/elements/*.cpp add*/remove*/clear*Set", "e.g. Sourcecode/private/mx/core/elements/PartwisePart.cpp"]}
{"id": "C39", "title": "Reading a run of repeated child elements keeps all of them in order", "statement": "Importing consecutive repeated child elements yields exactly these children in document order (replacing only the default placeholder), and leaves the cursor on the last one so that no element is skipped or read twice.", "quantifier": "every number of repetitions, every surrounding content", "why_tests_cant": "iterator arithmetic over unbounded sequences", "anchors": ["Sourcecode/private/mx/core/FromXElement.h: importElementSet, checkSetGroupMemberSetAndIncrementIter", "Sourcecode/private/mx/core/FromXElement.cpp: importGroup"]}
{"id": "C40", "title": "Processing instructions survive", "statement": "Processing instructions attached to an element are written and re-read attached to the same element with name, data and order.", "quantifier": "every list of processing instructions on every element", "why_tests_cant": "unbounded lists, positions and self-closing elements", "anchors": ["Sourcecode/private/mx/core/ElementInterface.cpp: toStream, fromXElement", "Sourcecode/private/mx/core/ProcessingInstruction.cpp"]}
{"id": "C41", "title": "Mark classification is a partition", "statement": "Every mark type belongs to exactly one family (articulation, dynamic, ornament, technical, fermata, pedal, accidental mark, arpeggio, custom, unspecified), and the writer puts each mark into the element family the reader takes it from.", "quantifier": "every mark type", "why_tests_cant": "tests sample a few marks", "anchors": ["Sourcecode/private/mx/api/MarkData.cpp", "Sourcecode/private/mx/impl/NotationsWriter.cpp", "Sourcecode/private/mx/impl/Converter.cpp"]}
{"id": "C42", "title": "Fermata kinds survive writing and reading", "statement": "Each of the twelve fermata kinds is read back as itself.", "quantifier": "every fermata mark, with every position data", "why_tests_cant": "a cross product of shapes and types", "anchors": ["Sourcecode/private/mx/impl/NotationsWriter.cpp: getNotations", "Sourcecode/private/mx/impl/FermataFunctions.cpp: parseFermata"]}
{"id": "C43", "title": "Chord symbols survive writing and reading", "statement": "A chord symbol's root, alter, kind, text, bass, symbols flag and list of degree alterations survive a write and read.", "quantifier": "every list of chord symbols with any number of extensions", "why_tests_cant": "unbounded lists of degrees", "anchors": ["Sourcecode/private/mx/impl/DirectionWriter.cpp: createHarmonyElements", "Sourcecode/private/mx/impl/DirectionReader.cpp: parseHarmony"]}
{"id": "C44", "title": "Page layout survives writing and reading", "statement": "Page size, even/odd margins, system margins and distances written to the defaults of a score are read back unchanged; absent ones stay absent.", "quantifier": "every combination of present/absent values", "why_tests_cant": "combinations of optional values", "anchors": ["Sourcecode/private/mx/impl/LayoutFunctions.cpp"]}
{"id": "C45", "title": "Encoding information survives writing and reading", "statement": "Encoder, encoding date, description, software list, supports list survive writing and reading; an invalid date is not written.", "quantifier": "every encoding data, any number of software/supports entries", "why_tests_cant": "unbounded lists; partly invalid dates", "anchors": ["Sourcecode/private/mx/impl/EncodingFunctions.cpp"]}
{"id": "C46", "title": "Strict string to int conversion", "statement": "stringToInt succeeds exactly on the canonical decimal representations of ints (no plus sign, no leading zeros, no blanks) and returns that number.", "quantifier": "every string", "why_tests_cant": "infinitely many strings", "anchors": ["Sourcecode/private/mx/utility/StringToInt.h: stringToInt"]}
{"id": "C47", "title": "Equality on API values is an equivalence relation and respects all data", "statement": "operator== on the API data types is reflexive, symmetric and transitive, and two equal values are written to the same MusicXML.", "quantifier": "every pair/triple of values", "why_tests_cant": "triples of values; epsilon comparisons", "anchors": ["Sourcecode/include/mx/api/ApiCommon.h: areSame", "Sourcecode/include/mx/api/ApiEquality.h", "Sourcecode/include/mx/api/*.h MXAPI_EQUALS_*"]}
{"id": "C48", "title": "Measure location lookups never go out of bounds", "statement": "MeasureLocation validity answers true exactly when the part, measure (and staff, voice) indices address existing data of the score.", "quantifier": "every score shape and every index values", "why_tests_cant": "unsigned underflow on empty containers", "anchors": ["Sourcecode/private/mx/api/MeasureLocation.cpp"]}
{"id": "C49", "title": "Attributes that hold a listed value or a free text keep the text", "statement": "For distance types, dynamics, line width types and modes: a text that is set is the text that is written and read back, a listed value is recognised in its text, and a free text never survives a later change to a listed value.", "quantifier": "every text and every history of setter calls", "why_tests_cant": "infinitely many texts and histories", "anchors": ["Sourcecode/private/mx/core/Enums.cpp: DistanceType, DynamicsValue, LineWidthType, ModeValue"]}
{"id": "C50", "title": "Note attachments survive writing and reading", "statement": "The marks, slurs, ties and tuplets attached to a note are read back, in their order, with their numbers, positions, names and kinds; numbers come back to six decimals.", "quantifier": "every attachment data: any number of marks, curves and tuplets with any positions", "why_tests_cant": "unbounded lists; every combination of kinds and optional positions", "anchors": ["Sourcecode/private/mx/impl/NotationsWriter.cpp: getNotations", "Sourcecode/private/mx/impl/NoteFunctions.cpp: parseNotations", "Sourcecode/private/mx/impl/TupletReader.cpp", "Sourcecode/private/mx/impl/CurveFunctions.h", "Sourcecode/private/mx/impl/PositionFunctions.h"]}
{"id": "C51", "title": "Size queries agree with the data", "statement": "getNumMeasures is the number of measures of the longest part, getNumStaves the number of staves of a part's measure with the most staves, getNumStavesPerSystem the sum of that over the parts, getMaxVoice the largest voice number of a part, and findPart yields the first part with the id, or none if there is none.", "quantifier": "every score that fits in memory, every id", "why_tests_cant": "scores of any shape, with parts of different lengths and measures with different numbers of staves", "anchors": ["Sourcecode/private/mx/api/ScoreData.cpp: getNumMeasures, getNumStavesPerSystem, findPart", "Sourcecode/include/mx/api/PartData.h: getNumStaves, getMaxVoice"]}
{"id": "C52", "title": "Titles, people and page texts survive writing and reading", "statement": "The MusicXML version, the work and movement titles and numbers, composer, lyricist, arranger, publisher, copyright and the page texts (text, page number, description) of a score are read back as they were written; from any file the first composer, or else the last untyped creator, is the composer.", "quantifier": "every header and every list of page texts; every list of creators and rights in a file", "why_tests_cant": "texts and lists of any length, with any combination of empty fields", "anchors": ["Sourcecode/private/mx/impl/ScoreWriter.cpp: getScorePartwise", "Sourcecode/private/mx/impl/ScoreReader.cpp: getScoreData", "Sourcecode/private/mx/impl/PageTextFunctions.cpp"]}
{"id": "C53", "title": "Every written document is read back as the same elements, attributes and texts", "statement": "A document written to a stream is well-formed XML; loading it gives the same elements with the same names, attributes and texts in the same order, whatever the spelling of layout, quotes, references and comments; reading any text ends and never leaves the text.", "quantifier": "every tree of elements of any size and depth with any attribute values and texts; every text handed to the reader", "why_tests_cant": "trees of any depth, texts with any characters, every spelling of a document", "anchors": ["Sourcecode/private/mx/core/ElementInterface.cpp: toStream", "Sourcecode/private/mx/core/Document.cpp: toXDoc, fromXDoc", "Sourcecode/private/mx/ezxml/src/private/private/PugiDoc.cpp: loadStream, saveStream", "Sourcecode/private/mx/ezxml/src/private/private/pugixml.cpp: xml_parser, node_output"]}
{"id": "C54", "title": "New systems, new pages and layout changes survive writing and reading", "statement": "The entries of a score's layout (new system, system margins and distances, new page, page size and margins, page number) that belong to a measure of the score come back at the same measure, and no measure gains one; from any document the layout of a measure is what the last of its prints in the first part say.", "quantifier": "every layout map, every number of measures and every other contents of the measures; every document", "why_tests_cant": "maps of any size with any combination of present and absent values at any measures", "anchors": ["Sourcecode/private/mx/impl/MeasureWriter.cpp: writeSystemInfo, writePageInfo", "Sourcecode/private/mx/impl/ScoreWriter.cpp: isSystemInfo, findPageLayoutData", "Sourcecode/private/mx/impl/ScoreReader.cpp: scanForSystemInfo, scanForPageInfo", "Sourcecode/include/mx/api/LayoutData.h"]}
{"id": "C55", "title": "A file that ends too early is never taken for a score", "statement": "If a written file is cut off at any byte, loading what is left either fails or yields the complete score; a text in which an element is not closed, is closed under another name, or that has no element at all, is refused, whatever else it contains.", "quantifier": "every document, every point at which it may be cut; every text with an unclosed or wrongly closed element", "why_tests_cant": "documents of any size and depth and every crash point of the writing", "anchors": ["Sourcecode/private/mx/ezxml/src/private/private/pugixml.cpp: xml_parser", "Sourcecode/private/mx/ezxml/src/private/private/PugiDoc.cpp: loadStream", "Sourcecode/private/mx/core/Document.cpp: fromXDoc"]}
{"id": "C56", "title": "What is said of a note survives writing and reading", "statement": "Kind of note (normal, grace, cue), rest, unpitched or pitched, step, alter, octave, accidental, duration name, dots, time modification, ticks, beams, stem, notehead, staff, voice, chord membership, tie flags and misc data of a note come back as they were written; the elements of a note are written in the order of the format; from any note of a file the pitch, length, accidental and time modification it says are the ones reported, and a note whose required elements are missing is refused.", "quantifier": "every note of the API; every list of elements a note of a file may contain, in any order", "why_tests_cant": "all combinations of some thirty values, and note elements in any order and number", "anchors": ["Sourcecode/private/mx/impl/NoteWriter.cpp: getNote", "Sourcecode/private/mx/impl/NoteReader.cpp", "Sourcecode/private/mx/impl/NoteFunctions.cpp: parseNote", "Sourcecode/private/mx/core/elements/Note.cpp: streamContents, fromXElementImpl", "Sourcecode/private/mx/core/elements/NoteChoice.cpp", "Sourcecode/private/mx/core/elements/TimeModification.cpp", "Sourcecode/private/mx/api/PitchData.cpp"]}
{"id": "C57", "title": "Names and instruments of parts survive writing and reading; each part keeps its own music", "statement": "The id, name, abbreviation, display texts and instrument (id, name, abbreviation, sound, solo or ensemble, virtual instrument, MIDI device, bank, channel, program, volume, pan, elevation) of a part come back as they were written, in the order of the format; the MIDI instrument refers to the instrument of the part; the parts of a score come back in order, each with its own music; of any part list each score-part is reported with the music of the part that has its id.", "quantifier": "every part of the API, every list of parts, every part list and list of parts of a file", "why_tests_cant": "all combinations of some thirty values, lists of any length with any ids, elements in any order", "anchors": ["Sourcecode/private/mx/impl/PartWriter.cpp: getScorePart", "Sourcecode/private/mx/impl/PartReader.cpp: parseScorePart, extractDisplayText", "Sourcecode/private/mx/impl/ScoreReader.cpp: reconcileParts, findPartwisePart", "Sourcecode/private/mx/impl/ScoreWriter.cpp: addScorePart, addPartwisePart", "Sourcecode/private/mx/core/elements/ScorePart.cpp", "Sourcecode/private/mx/core/elements/ScoreInstrument.cpp", "Sourcecode/private/mx/core/elements/MidiInstrument.cpp", "Sourcecode/private/mx/core/elements/PartList.cpp", "Sourcecode/include/mx/api/PartData.h"]}
{"id": "C58", "title": "A value that is a number or a word is one of them, and is read back as it was written", "statement": "For font sizes (a number or a CSS size), the pedals of a sound (yes, no or a number), line heights and letter spacings (a number or normal), and multiple rests, measure repeats and ensembles (a positive integer or nothing): a number is understood as a number, a word as the word, any other text is refused and changes nothing; the last call decides what the value is; what is written is read back into any other object as the same value.", "quantifier": "every text and every history of setter and parser calls", "why_tests_cant": "infinitely many texts and histories", "anchors": ["Sourcecode/private/mx/core/FontSize.cpp", "Sourcecode/private/mx/core/YesNoNumber.cpp", "Sourcecode/private/mx/core/NumberOrNormal.cpp", "Sourcecode/private/mx/core/PositiveIntegerOrEmpty.cpp"]}
{"id": "C59", "title": "What a direction says survives writing and reading", "statement": "Dynamics, pedal marks, wedges, octave shifts, brackets, tempos and words of a direction, with their positions, lines and fonts, and its placement, tick and staff, come back as they were written, in their order; any direction of a file, with any number of direction-types of any kinds, is reported for exactly what it says; what the format does not allow is refused; a direction that was read can be written.", "quantifier": "every direction of the API at every tick and staff; every direction of a file", "why_tests_cant": "lists of any length of a dozen kinds of content with any numbers, texts and positions", "anchors": ["Sourcecode/private/mx/impl/DirectionWriter.cpp: getDirectionLikeThings", "Sourcecode/private/mx/impl/DirectionReader.cpp: getDirectionData", "Sourcecode/private/mx/impl/MetronomeReader.cpp", "Sourcecode/private/mx/impl/SpannerFunctions.h", "Sourcecode/private/mx/impl/FontFunctions.h", "Sourcecode/private/mx/impl/LineFunctions.h", "Sourcecode/private/mx/core/elements/Direction.cpp: createDirectionType", "Sourcecode/private/mx/core/elements/Metronome.cpp: fromXElementImpl", "Sourcecode/include/mx/api/DirectionData.h"]}
{"id": "C60", "title": "Clefs and keys survive writing and reading", "statement": "The sign, line, octave change, time, staff and barline location of a clef, and the fifths, cancelled fifths, mode, staff, time and non-traditional components of a key, come back as they were written; any clef or key of a file, with its children in any order and number, is reported for what it says; the clefs the API sets and tests by name are the ones musicians call so; the text of a clef tells clefs apart.", "quantifier": "every clef and key of the API; every list of children of a clef or key of a file, with any texts", "why_tests_cant": "unbounded numbers, texts and lists of children in any order", "anchors": ["Sourcecode/private/mx/impl/PropertiesWriter.cpp: writeClef, writeKey", "Sourcecode/private/mx/impl/MeasureReader.cpp: importClef, parseProperties", "Sourcecode/private/mx/core/elements/Clef.cpp", "Sourcecode/private/mx/core/elements/Key.cpp: importTraditionalKey, importNonTraditionalKey", "Sourcecode/private/mx/core/elements/KeyChoice.cpp", "Sourcecode/private/mx/api/ClefData.cpp", "Sourcecode/include/mx/api/KeyData.h", "Sourcecode/include/mx/api/KeyComponent.h"]}
{"id": "C61", "title": "An element with alternatives or groups of children, read and written again, has the same children", "statement": "The children of articulations, technical, notations, notehead-text, arrow, bend, harmonic, time, interchangeable, key, harmony, credit and lyric elements, in any combination the MusicXML schema allows, are written again under the same names, in the same order and each from what that child said; an element the schema does not allow is refused where the reader says so; whatever the children are, reading ends and touches nothing outside them.", "quantifier": "every list of children that the content model of the schema allows, with any contents; for the last claim every list of children", "why_tests_cant": "content models with repetition and alternatives allow infinitely many lists of children", "anchors": ["Sourcecode/private/mx/core/elements/Articulations.cpp", "Sourcecode/private/mx/core/elements/Technical.cpp", "Sourcecode/private/mx/core/elements/Notations.cpp", "Sourcecode/private/mx/core/elements/NoteheadText.cpp", "Sourcecode/private/mx/core/elements/Arrow.cpp", "Sourcecode/private/mx/core/elements/ArrowGroup.cpp", "Sourcecode/private/mx/core/elements/Bend.cpp", "Sourcecode/private/mx/core/elements/Harmonic.cpp", "Sourcecode/private/mx/core/elements/Time.cpp", "Sourcecode/private/mx/core/elements/Interchangeable.cpp", "Sourcecode/private/mx/core/elements/Key.cpp", "Sourcecode/private/mx/core/elements/Harmony.cpp", "Sourcecode/private/mx/core/elements/Credit.cpp", "Sourcecode/private/mx/core/elements/Lyric.cpp", "Sourcecode/private/mx/core/FromXElement.cpp: importGroup", "Documents/musicxml.xsd"]}
{"id": "C62", "title": "An element's attributes, read and written again, are the ones the schema allows", "statement": "For every element of MusicXML, the attributes that the schema allows on it are written again with the same names and values after being read, each once, and nothing is added that was not read; an element that lacks a required attribute is refused; values the schema's type does not admit are refused; attributes the schema does not have do not get into the output.", "quantifier": "every element of the schema, every list of attributes with any names and values", "why_tests_cant": "there are hundreds of elements with up to forty attributes each and any text as a value; each class repeats the list of names four times by hand", "anchors": ["Sourcecode/private/mx/core/FromXElement.h: parseAttribute", "Sourcecode/private/mx/core/FromXElement.cpp: parseAttribute", "Sourcecode/private/mx/core/AttributesInterface.h: streamAttribute", "Sourcecode/private/mx/core/elements/EmptyLineAttributes.cpp", "Sourcecode/private/mx/core/elements/BracketAttributes.cpp", "Sourcecode/private/mx/core/elements/LinkAttributes.cpp", "Sourcecode/private/mx/core/elements/TiedAttributes.cpp", "Sourcecode/private/mx/core/elements/WordsAttributes.cpp", "Documents/musicxml.xsd"]}
{"id": "C63", "title": "Metronomes, time modifications, measure styles, percussion, play, rests and dynamics, read and written again, have the same children", "statement": "The children of metronome, time-modification, measure-style, percussion, play, rest, unpitched and dynamics elements, in any combination the MusicXML schema allows, are written again under the same names, in the same order and each from what that child said; a child that cannot be read, or one the element requires and does not have, makes the file refused; and whatever the children are, reading them ends without touching anything beyond them.", "quantifier": "every list of children that the content model of the schema allows, with any contents, readable or not; for the last claim every list of children", "why_tests_cant": "content models with repetition and alternatives allow infinitely many lists of children, and each child may fail on its own", "anchors": ["Sourcecode/private/mx/core/elements/Metronome.cpp: fromXElementImpl", "Sourcecode/private/mx/core/elements/NoteRelationNote.cpp", "Sourcecode/private/mx/core/elements/BeatUnitGroup.cpp", "Sourcecode/private/mx/core/elements/TimeModification.cpp", "Sourcecode/private/mx/core/elements/MeasureStyle.cpp", "Sourcecode/private/mx/core/elements/MeasureStyleChoice.cpp", "Sourcecode/private/mx/core/elements/Percussion.cpp", "Sourcecode/private/mx/core/elements/PercussionChoice.cpp", "Sourcecode/private/mx/core/elements/Play.cpp", "Sourcecode/private/mx/core/elements/Rest.cpp", "Sourcecode/private/mx/core/elements/Unpitched.cpp", "Sourcecode/private/mx/core/elements/Dynamics.cpp", "Sourcecode/private/mx/core/FromXElement.cpp: importGroup"]}
{"id": "C64", "title": "Scores, parts, measures, part lists, directions and name displays, read and written again, have the same children", "statement": "The children of score-partwise, score-timewise, part, measure, part-list, direction, direction-type and the name display elements, in any combination the MusicXML schema allows, are written again under the same names, in the same order and each from what that child said; a child that cannot be read, or one the element requires and does not have, makes the file refused; and whatever the children are, reading them ends without touching anything beyond them.", "quantifier": "every list of children that the content model of the schema allows, with any contents, readable or not; for the last claim every list of children", "why_tests_cant": "a score has any number of parts, measures and things in measures, and each child may fail on its own", "anchors": ["Sourcecode/private/mx/core/elements/ScorePartwise.cpp", "Sourcecode/private/mx/core/elements/ScoreTimewise.cpp", "Sourcecode/private/mx/core/elements/ScoreHeaderGroup.cpp", "Sourcecode/private/mx/core/elements/PartwisePart.cpp", "Sourcecode/private/mx/core/elements/PartwiseMeasure.cpp", "Sourcecode/private/mx/core/elements/TimewiseMeasure.cpp", "Sourcecode/private/mx/core/elements/TimewisePart.cpp", "Sourcecode/private/mx/core/elements/MusicDataGroup.cpp", "Sourcecode/private/mx/core/elements/MusicDataChoice.cpp", "Sourcecode/private/mx/core/elements/PartList.cpp", "Sourcecode/private/mx/core/elements/PartGroupOrScorePart.cpp", "Sourcecode/private/mx/core/elements/Direction.cpp", "Sourcecode/private/mx/core/elements/DirectionType.cpp", "Sourcecode/private/mx/core/elements/PartNameDisplay.cpp", "Sourcecode/private/mx/core/elements/GroupNameDisplay.cpp", "Documents/musicxml.xsd"]}
{"id": "C65", "title": "An element's text, read and written again, says the same", "statement": "For every MusicXML element that holds a text instead of children, a text that the schema allows there is accepted and written again so that it says the same: any text character for character with markup escaped, a word of a list as that word, a number as the same number, a date as the same date; a text the schema does not allow is replaced by a definite one that it does; reading no text throws or is undefined; and a file written once is written the same the next time.", "quantifier": "every element of the schema with a text, every text", "why_tests_cant": "184 elements and any text in each; every class names its type by hand, and bounds and defaults matter only for rare numbers", "anchors": ["Sourcecode/private/mx/core/elements/Accidental.cpp", "Sourcecode/private/mx/core/elements/Tenths.cpp", "Sourcecode/private/mx/core/elements/InstrumentSound.cpp", "Sourcecode/private/mx/core/elements/Mode.cpp", "Sourcecode/private/mx/core/elements/Divisions.cpp", "Sourcecode/private/mx/core/elements/AccordionMiddle.cpp", "Sourcecode/private/mx/core/Enums.cpp: ModeValue", "Sourcecode/private/mx/core/Integers.h", "Sourcecode/private/mx/core/Decimals.h", "Sourcecode/private/mx/core/Date.cpp", "Sourcecode/private/mx/core/XsString.cpp", "Documents/musicxml.xsd"]}
{"id": "C66", "title": "Notes, score-parts, score-instruments, encodings, ornaments and sounds, read and written again, have the same children", "statement": "The children of note, score-part, score-instrument, encoding, ornaments and sound elements, in any combination the MusicXML schema allows, are written again under the same names, in the same order and each from what that child said; a child that cannot be read, or one the element requires and does not have, makes the file refused; and whatever the children are, reading them ends without touching anything beyond them.", "quantifier": "every list of children that the content model of the schema allows, with any contents, readable or not; for exact results and for the last claim also lists of children the schema does not allow", "why_tests_cant": "a note has three kinds of beginnings and sixteen members in any combination and number; loops inside the loop move the same iterator", "anchors": ["Sourcecode/private/mx/core/elements/Note.cpp: fromXElementImpl, parseNoteChoice, parseFullNoteGroup, parseEditorialVoiceGroup", "Sourcecode/private/mx/core/elements/NoteChoice.cpp", "Sourcecode/private/mx/core/elements/NormalNoteGroup.cpp", "Sourcecode/private/mx/core/elements/GraceNoteGroup.cpp", "Sourcecode/private/mx/core/elements/CueNoteGroup.cpp", "Sourcecode/private/mx/core/elements/FullNoteGroup.cpp", "Sourcecode/private/mx/core/elements/ScorePart.cpp", "Sourcecode/private/mx/core/elements/ScoreInstrument.cpp", "Sourcecode/private/mx/core/elements/Encoding.cpp", "Sourcecode/private/mx/core/elements/Ornaments.cpp", "Sourcecode/private/mx/core/elements/Sound.cpp", "Documents/musicxml.xsd"]}
{"id": "C67", "title": "A whole document, read and written again, is the same document", "statement": "A MusicXML document that the schema allows, read into the core classes and written again, is accepted and has the same elements in the same places at every depth, each with the same attributes and values and with a text that says the same.", "quantifier": "every document the schema allows, with any number of parts, measures and elements, nested to any depth, and any attribute values and texts", "why_tests_cant": "documents are unbounded in size and depth, and every element inside a document can be lost or damaged by the class of any of its ancestors", "anchors": ["Sourcecode/private/mx/core/Document.cpp: fromXDoc", "Sourcecode/private/mx/core/ElementInterface.cpp: fromXElement, toStream", "Sourcecode/private/mx/core/elements/ScorePartwise.cpp", "Sourcecode/private/mx/core/elements/ScoreTimewise.cpp", "Sourcecode/private/mx/core/elements/Note.cpp", "Sourcecode/private/mx/core/elements/Chord.cpp", "Sourcecode/private/mx/core/elements/Dynamics.cpp", "Documents/musicxml.xsd"]}
{"id": "C68", "title": "A whole MusicXML file, loaded and written, is the same score document", "statement": "A file with a MusicXML document, whatever the way its characters spell it (comments, white space, quotation marks, character references), is accepted by createFromStream, and what writeToStream writes for it is XML that spells the same document: the same elements in the same places, the same attributes, texts that say the same, with the declaration and document type of its kind of score. This holds again for the written file, any number of times. A file cut off anywhere is refused, unless only blanks and comments were missing.", "quantifier": "every text of a file, every document of any size and depth, every number of repetitions, every place at which the file is cut", "why_tests_cant": "files are unbounded in length, depth and spelling, and the claim composes a parser, some 350 element classes and a writer; tests compare a few files after sorting and normalising them", "anchors": ["Sourcecode/private/mx/api/DocumentManager.cpp: createFromStream, writeToStream", "Sourcecode/private/mx/core/Document.cpp: fromXDoc, toXDoc, toStream", "Sourcecode/private/mx/core/ElementInterface.cpp: fromXElement, toStream", "Sourcecode/private/mx/ezxml/src/private/private/PugiDoc.cpp: loadStream, saveStream"]}
{"id": "C69", "title": "A whole score survives writing and reading back", "statement": "A ScoreData, made into a document and read back, has the same ticks per quarter and the same parts in the same order, each with its name and instrument, its transposition and its measures in order, each measure with its staves, notes, directions, clefs, keys, barlines, time signature and number. Doing so a second time changes nothing.", "quantifier": "every score: any number of parts, measures, staves, voices and notes, any ticks per quarter", "why_tests_cant": "the number of staves and the ticks per quarter are worked out again from what is found anywhere in the file, so that any measure of any part can upset all others; scores are unbounded", "anchors": ["Sourcecode/private/mx/impl/ScoreWriter.cpp: getScorePartwise", "Sourcecode/private/mx/impl/PartWriter.cpp: writeMeasures", "Sourcecode/private/mx/impl/PartReader.cpp: parseMeasures, calculateNumStaves", "Sourcecode/private/mx/impl/ScoreReader.cpp: getScoreData, findMaxDivisionsPerQuarter", "Sourcecode/private/mx/impl/MeasureWriter.cpp", "Sourcecode/private/mx/impl/MeasureReader.cpp"]}
{"id": "C70", "title": "Elements that make their children on demand can be read by several threads", "statement": "Notes, measures and the other elements that make their children and attributes only when asked for may be used through their const functions by any number of threads at once: there is no data race and no deadlock, every caller gets the same child and never a null pointer, a child that is there is never replaced, no two members share one, and none is made that nobody asked for.", "quantifier": "every number of threads, every sequence of calls of each (each may depend on earlier answers), every schedule, every initial contents", "why_tests_cant": "schedules cannot be enumerated by tests, and a race seldom shows", "anchors": ["Sourcecode/private/mx/utility/JitAllocate.h:MX_JIT_ALLOCATE", "Sourcecode/private/mx/utility/Lock.h:MX_LOCK", "Sourcecode/private/mx/core/elements/Note.cpp:getNoteChoice", "Sourcecode/private/mx/core/elements/MusicDataChoice.cpp:getNote", "Sourcecode/private/mx/core/elements/FullNoteGroup.cpp:getFullNoteTypeChoice", "Sourcecode/private/mx/core/elements/FullNoteTypeChoice.cpp:getPitch", "Sourcecode/private/mx/core/elements/PartwiseMeasure.cpp:getAttributes"]}
{"id": "C71", "title": "Kinds of documents keep their names, and texts are compared and found without regard to case", "statement": "The kind of a document (partwise, timewise), the MusicXML version and the type of specification, written as a text and parsed, are the same again; parsing takes no notice of upper and lower case and takes any text that is no such name as the default. Two texts compare as equal exactly when they differ in the case of letters only, and the search for a text in another returns the first place where it is. The head a document header writes is the XML declaration and document type of the type set last.", "quantifier": "every text, every value of the three enumerations, every history of a header", "why_tests_cant": "texts are unbounded; the tests never print these enumerations", "anchors": ["Sourcecode/private/mx/core/DocumentSpec.cpp: toStream, parseDocumentChoice, parseMusicXmlVersion, parseSpecificationType", "Sourcecode/private/mx/core/DocumentHeader.cpp: DocumentHeader::toStream, setDocumentType", "Sourcecode/private/mx/utility/Parse.h: compareCaseInsensitive, findCaseInsensitive, containsCaseInsensitive"]}
