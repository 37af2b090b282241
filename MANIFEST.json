{
 "claims": [
  {
   "property": "C01",
   "status": "proved",
   "theorems": [
    "C01_value_always_within",
    "C01_default_constructor",
    "C01_stores_nearest",
    "C01_in_range_exact",
    "C01_parse"
   ],
   "note": "All sixteen IntRange types, any history of constructor/setValue/parse."
  },
  {
   "property": "C02",
   "status": "proved",
   "theorems": [
    "C02_parse_accepts_exactly",
    "C02_print_parse",
    "C02_print_form",
    "C02_object_roundtrip"
   ],
   "note": "parse accepts exactly the decimal integers that fit; print/parse round trip; failure leaves the value."
  },
  {
   "property": "C03",
   "status": "partial",
   "theorems": [
    "C03_positive_types_refuted",
    "C03_range_partial",
    "C03_positive_partial",
    "C03_exact_partial",
    "C03_below",
    "C03_below_positive",
    "C03_above",
    "C03_defined",
    "C03_parse"
   ],
   "note": "False as stated: a positive number below half a millionth is stored as 0 in the types that exclude 0 (C03_positive_types_refuted). Proved: every other type stays in range through any history; positive types stay positive when no number in (0, 0.0000006) is given; six-decimal numbers up to 2^44 stored exactly; clamping, definedness, parse. long double modelled as 64-bit-significand floats."
  },
  {
   "property": "C04",
   "status": "partial",
   "theorems": [
    "C04_nearest_refuted",
    "C04_nearest_partial",
    "C04_digits_partial",
    "C04_wide_refuted",
    "C04_wide_partial",
    "C04_digits_refuted",
    "C04_text",
    "C04_roundtrip",
    "C04_value_roundtrip",
    "C04_too_large"
   ],
   "note": "'Nearest' is false in a sliver just below half a unit (0.4999999 is used for a half), and few-digit configurations can carry past their digits; both refuted. Proved: error below 0.5000002 units (up to 11 decimals), exact text, print/parse and getValue/setValue round trips for every reachable Decimal. C04_wide_refuted: with 19 decimals the error can be 0.74 units; C04_wide_partial: for any number of decimals it is below 0.5000002 units plus 5 * 2^-65."
  },
  {
   "property": "C05",
   "status": "proved",
   "theorems": [
    "C05_history_valid",
    "C05_text_constructor_valid",
    "C05_constructor",
    "C05_setValue",
    "C05_setters",
    "C05_history_defined"
   ],
   "note": "Invariant by induction over all operation histories."
  },
  {
   "property": "C06",
   "status": "proved",
   "theorems": [
    "C06_calendar",
    "C06_day_number_injective",
    "C06_addDays",
    "C06_addDays_inverse",
    "C06_addMonths",
    "C06_addYears",
    "C06_leap_and_length"
   ],
   "note": "Against the proleptic Gregorian day number."
  },
  {
   "property": "C07",
   "status": "proved",
   "theorems": [
    "C07_operators",
    "C07_strict_total_order"
   ],
   "note": "All six operators against the day number."
  },
  {
   "property": "C08",
   "status": "proved",
   "theorems": [
    "C08_weekday",
    "C08_next_day"
   ],
   "note": "Weekday against the day number and step by step."
  },
  {
   "property": "C09",
   "status": "proved",
   "theorems": [
    "C09_print_form",
    "C09_print_parse",
    "C09_parse_accepts_exactly",
    "C09_parse_print"
   ],
   "note": "Exact acceptance, round trips in both directions."
  },
  {
   "property": "C10",
   "status": "proved",
   "theorems": [
    "C10_channels_in_range",
    "C10_print_form",
    "C10_print_parse",
    "C10_parse_accepts",
    "C10_parse_rejects",
    "C10_constructors",
    "C10_from_text",
    "C10_setters"
   ],
   "note": "Any constructor and history; exact acceptance of the two text forms."
  },
  {
   "property": "C11",
   "status": "proved",
   "theorems": [
    "C11_history",
    "C11_setValues",
    "C11_print_form",
    "C11_print_parse",
    "C11_parse_list"
   ],
   "note": "Any history with int arguments; exact meaning of any comma-separated list of ints, with ignored characters strewn in."
  },
  {
   "property": "C12",
   "status": "proved",
   "theorems": [
    "C12_only_single_inner_blanks",
    "C12_idempotent",
    "C12_words",
    "C12_words_kept"
   ],
   "note": "For every string, against an independent definition of its words."
  },
  {
   "property": "C13",
   "status": "partial",
   "theorems": [
    "C13_id_characters",
    "C13_good_ids_unchanged",
    "C13_stored_text",
    "C13_ncname_partial",
    "C13_ncname_refuted",
    "C13_default"
   ],
   "note": "Characters, non-emptiness, no leading digit, fixed points proved for every string. The NCName claim is refuted for texts starting with '-' or '.' (C13_ncname_refuted) and proved for all others (C13_ncname_partial)."
  },
  {
   "property": "C14",
   "status": "partial",
   "theorems": [
    "C14_escape_denotes",
    "C14_no_markup",
    "C14_injective",
    "C14_text_survives_partial",
    "C14_text_survives_refuted",
    "C14_attribute_partial",
    "C14_attribute_refuted",
    "C14_attribute_absent"
   ],
   "note": "Escaping proved exact for every text. Refuted: a carriage return does not survive XML line-end handling, and attribute values with double quotes break the tag; the remaining cases are proved (_partial theorems)."
  },
  {
   "property": "C15",
   "status": "proved",
   "theorems": [
    "C15_AboveBelow",
    "C15_AccidentalValue",
    "C15_ArrowDirectionEnum",
    "C15_ArrowStyleEnum",
    "C15_BackwardForward",
    "C15_BarStyleEnum",
    "C15_BeamValue",
    "C15_BeaterValue",
    "C15_BreathMarkValue",
    "C15_CancelLocation",
    "C15_CircularArrowEnum",
    "C15_ClefSign",
    "C15_CssFontSize",
    "C15_DegreeSymbolValue",
    "C15_DegreeTypeValue",
    "C15_DistanceTypeEnum",
    "C15_DynamicsEnum",
    "C15_EffectEnum",
    "C15_EnclosureShape",
    "C15_Fan",
    "C15_FermataShape",
    "C15_FontStyle",
    "C15_FontWeight",
    "C15_GlassEnum",
    "C15_GroupBarlineValue",
    "C15_GroupSymbolValue",
    "C15_HandbellValue",
    "C15_HarmonyType",
    "C15_HoleClosedLocation",
    "C15_HoleClosedValue",
    "C15_KindValue",
    "C15_LeftCenterRight",
    "C15_LeftRight",
    "C15_LineEnd",
    "C15_LineShape",
    "C15_LineType",
    "C15_LineWidthTypeEnum",
    "C15_MarginType",
    "C15_MeasureNumberingValue",
    "C15_MembraneEnum",
    "C15_MetalEnum",
    "C15_ModeEnum",
    "C15_MuteEnum",
    "C15_NoteSizeType",
    "C15_NoteTypeValue",
    "C15_NoteheadValue",
    "C15_OnOff",
    "C15_OverUnder",
    "C15_PitchedEnum",
    "C15_PrincipalVoiceSymbol",
    "C15_RightLeftMiddle",
    "C15_SemiPitchedEnum",
    "C15_ShowFrets",
    "C15_ShowTuplet",
    "C15_StaffTypeEnum",
    "C15_StartNote",
    "C15_StartStop",
    "C15_StartStopChangeContinue",
    "C15_StartStopContinue",
    "C15_StartStopDiscontinue",
    "C15_StartStopSingle",
    "C15_StemValue",
    "C15_StepEnum",
    "C15_StickLocationEnum",
    "C15_StickMaterialEnum",
    "C15_StickTypeEnum",
    "C15_SyllabicEnum",
    "C15_SymbolSize",
    "C15_TextDirection",
    "C15_TimeRelationEnum",
    "C15_TimeSeparator",
    "C15_TimeSymbol",
    "C15_TipDirection",
    "C15_TopBottom",
    "C15_TrillStep",
    "C15_TwoNoteTurn",
    "C15_UpDown",
    "C15_UpDownStopContinue",
    "C15_UprightInverted",
    "C15_Valign",
    "C15_ValignImage",
    "C15_WedgeType",
    "C15_Winged",
    "C15_WoodEnum",
    "C15_YesNo",
    "C15_XlinkType",
    "C15_XmlSpace",
    "C15_XlinkActuate",
    "C15_XlinkShow",
    "C15_PlaybackSound"
   ],
   "note": "All 85 enumerations of core/Enums, the four of core/EnumsBuiltin and the 886 playback sounds: every value is in the list, prints as the text at its place in the schema (musicxml.xsd, read independently of the code), parses back, and every other text is rejected or becomes the stated fall-back."
  },
  {
   "property": "C16",
   "status": "partial",
   "theorems": [
    "C16_stepMap",
    "C16_durationMap",
    "C16_noteheadMap_partial",
    "C16_noteheadMap_refuted",
    "C16_beamMap",
    "C16_accidentalMap_partial",
    "C16_accidentalMap_refuted",
    "C16_clefMap",
    "C16_placementMap",
    "C16_boolMap",
    "C16_valignMap",
    "C16_halignMap",
    "C16_cssMap",
    "C16_articulationsMap",
    "C16_dynamicsMap",
    "C16_ornamentsMap",
    "C16_accidentalMarkMap",
    "C16_fontStyleMap",
    "C16_fontWeightMap",
    "C16_measureNumberingMap",
    "C16_technicalMarkMap_partial",
    "C16_technicalMarkMap_refuted",
    "C16_stemMap",
    "C16_lineTypeMap",
    "C16_wedgeMap",
    "C16_barlineMap",
    "C16_lineStopMap",
    "C16_bracketMap",
    "C16_barlinePlacementMap",
    "C16_fermataMap",
    "C16_kindMap",
    "C16_endingMap",
    "C16_instrumentMap",
    "C16_sound_texts",
    "C16_sound_values",
    "C16_first_entry",
    "C16_smallest_entry"
   ],
   "note": "All 30 tables of Converter.cpp and the text form of SoundID, both directions, with names compared against the MusicXML texts. Refuted for three tables (theorems _refuted): the notehead fa-up, the accidental sharp-sharp and the technical mark fingernails are in both enumerations but missing from (or wrong in) their table; the _partial theorems say that everything else survives. The values without counterpart and their fall-backs are listed in each statement."
  },
  {
   "property": "C17",
   "status": "proved",
   "theorems": [
    "C17_gcd_pair",
    "C17_gcd_list",
    "C17_gcd_small",
    "C17_lcm_pair",
    "C17_lcm_set",
    "C17_lcm_exists",
    "C17_lcm_zero",
    "C17_lcm_empty"
   ],
   "note": "gcd/lcm of lists and pairs against divisibility, including the int bounds."
  },
  {
   "property": "C18",
   "status": "proved",
   "theorems": [
    "C18_scale_is_lcm",
    "C18_divisions_in_effect",
    "C18_exact",
    "C18_same_quarters",
    "C18_sums_and_order",
    "C18_nearest",
    "C18_no_divisions"
   ],
   "note": "Exact rational arithmetic; scale is the lcm, conversion exact, quarter lengths, sums and order kept."
  },
  {
   "property": "C19",
   "status": "proved",
   "theorems": [
    "C19_ids_count_up",
    "C19_ids_distinct_concurrently"
   ],
   "note": "Sequential histories (ids are exactly 1,2,3,...) and every concurrent schedule. Exhausting 2^31-1 ids is undefined behaviour in the code and a crash in the model."
  },
  {
   "property": "C20",
   "status": "partial",
   "theorems": [
    "C20_other_documents",
    "C20_noninterference",
    "C20_writing_changes_nothing",
    "C20_reading_partwise_partial",
    "C20_reading_timewise_partial",
    "C20_reading_changes_nothing_refuted",
    "C20_unknown_id",
    "C20_destroyed_forever",
    "C20_document_stays",
    "C20_is_a_map",
    "C20_starts_empty"
   ],
   "note": "Non-interference, neutral answers, destroyed-forever and refinement to a map are proved for every history. Refuted: getData rewrites a timewise document (loses processing instructions, measure parts that are not listed); proved for partwise and for regular timewise documents."
  },
  {
   "property": "C21",
   "status": "proved",
   "theorems": [
    "C21_linearizable",
    "C21_real_time",
    "C21_crash",
    "C21_no_deadlock",
    "C21_code_alone"
   ],
   "note": "Linearizability by linearization points for any number of threads, programs and schedules, over step-by-step code with a mutex; plus absence of deadlock."
  },
  {
   "property": "C22",
   "status": "partial",
   "theorems": [
    "C22_partwise_partial",
    "C22_what_is_left_partial",
    "C22_failure_is_harmless_refuted"
   ],
   "note": "Refuted for timewise documents, which are left converted to partwise; what is left is characterised, and the claim is proved for partwise documents."
  },
  {
   "property": "C23",
   "status": "partial",
   "theorems": [
    "C23_round_trip_partial",
    "C23_round_trip_exact_partial",
    "C23_timewise_contents",
    "C23_partwise_contents",
    "C23_timewise_round_trip",
    "C23_timewise_round_trip_exact",
    "C23_out_of_bounds_iff_partial",
    "C23_no_exception",
    "C23_partwise_gaps",
    "C23_timewise_gaps",
    "C23_documents",
    "C23_in_bounds_refuted",
    "C23_lossless_refuted"
   ],
   "note": "Music, parts and header come back for every rectangular score, the whole score when parts follow the part list, agree on measure attributes and carry no processing instructions; timewise to partwise and back is exact. Refuted: measure attributes of all but the last listed part are lost (C23_lossless_refuted), and a short listed part is read out of bounds (C23_in_bounds_refuted; exact condition proved)."
  },
  {
   "property": "C24",
   "status": "partial",
   "theorems": [
    "C24_same_notes_partial",
    "C24_part_partial",
    "C24_no_note_lost_partial",
    "C24_same_notes_refuted"
   ],
   "note": "Proved for measures whose notes are in order (Spec/RoundTrip.v staff_in_order), one measure at a time and for whole parts; for all others no note is lost or moved in time. The full claim is refuted: a voice that starts where the one before ends is joined to it (also: overlapping notes of a voice are split into two voices). Contents of notes other than time, type, chord, staff and voice are opaque values; the text step is C04."
  },
  {
   "property": "C25",
   "status": "partial",
   "theorems": [
    "C25_never_negative_partial",
    "C25_never_negative_refuted"
   ],
   "note": "Proved for notes, clefs, keys and barlines of every measure content, and for directions without a negative offset; a negative offset gives a negative tick (refuted)."
  },
  {
   "property": "C26",
   "status": "partial",
   "theorems": [
    "C26_consistent_partial",
    "C26_consistent_refuted"
   ],
   "note": "Proved when only grace notes take no time and the notes of a chord have equal lengths; refuted in general (unequal lengths in a chord shift what follows). Durations of zero are stored as 0.000001."
  },
  {
   "property": "C27",
   "status": "proved",
   "theorems": [
    "C27_reading",
    "C27_renumbering"
   ],
   "note": "For every measure that can be read: the voices are the runs of note elements between backups, numbered as asked or from 0."
  },
  {
   "property": "C28",
   "status": "partial",
   "theorems": [
    "C28_same_directions_partial",
    "C28_in_general_partial",
    "C28_reading",
    "C28_tempos",
    "C28_same_directions_refuted"
   ],
   "note": "Proved as equality for supported contents; in general each direction comes back at its tick and staff as at most two (contents, chord symbols). Refuted in full: rehearsal marks, segnos, codas, ends of brackets and other marks are not written. Tempos other than beats per minute make the writer throw. Placement and voice of directions are not modelled."
  },
  {
   "property": "C29",
   "status": "partial",
   "theorems": [
    "C29_same_clefs_partial",
    "C29_same_keys_partial",
    "C29_later_keys_partial",
    "C29_any_keys_partial",
    "C29_same_clefs_refuted",
    "C29_same_keys_refuted"
   ],
   "note": "Clefs are never lost and keep their ticks if these are 0 or those of first-voice notes; keys at the start and at notes come back. Keys anywhere: none is made up or doubled, the staves' own all come back, and of the measure's a first part, all of it if no more keys than staves come after the start. Refuted in full: clefs between notes move, of several measure keys after the last note all but one are lost, staff keys become measure keys."
  },
  {
   "property": "C30",
   "status": "partial",
   "theorems": [
    "C30_barlines_survive_partial",
    "C30_all_barlines_partial",
    "C30_written",
    "C30_barlines_survive_refuted"
   ],
   "note": "Proved for barlines with a plain type, a side and a positive ending number; what other barlines become is proved too; the unrestricted claim is refuted."
  },
  {
   "property": "C31",
   "status": "partial",
   "theorems": [
    "C31_reading_partial",
    "C31_states_unique",
    "C31_writing",
    "C31_writing_preserves",
    "C31_written",
    "C31_most_recent_refuted",
    "C31_implicit_when_not_given_refuted"
   ],
   "note": "Writing and reading is fully covered. Reading uses only the first <time> of a measure and only plain numbers, so the two unrestricted claims are refuted."
  },
  {
   "property": "C32",
   "status": "partial",
   "theorems": [
    "C32_number_survives_partial",
    "C32_text_survives_partial",
    "C32_in_general_partial",
    "C32_number_survives_refuted"
   ],
   "note": "Proved for number texts without superfluous white space, and what is read is given for all texts; refuted for others."
  },
  {
   "property": "C33",
   "status": "partial",
   "theorems": [
    "C33_groups_partial",
    "C33_in_general_partial",
    "C33_distinct",
    "C33_determined",
    "C33_stops",
    "C33_parts",
    "C33_written",
    "C33_bad_number",
    "C33_read",
    "C33_groups_refuted"
   ],
   "note": "Refuted only for an unspecified bracket (reading leaves bracketType uninitialised) and numbers below -1; names, numbers, brackets and ranges of all other groups with distinct numbers, or properly nested with the same number, survive, for every sort std::sort may be; also the order of the result, of the stops and that it is determined. displayName and both abbreviations are lost."
  },
  {
   "property": "C34",
   "status": "partial",
   "theorems": [
    "C34_sorted_partial",
    "C34_stable_partial",
    "C34_determined",
    "C34_unmoved",
    "C34_sorts",
    "C34_sort_refuted"
   ],
   "note": "Sorted and a rearrangement for every sort the standard allows std::sort to be. The claim about ties is refuted, since std::sort may turn chord notes around; proved if no two clefs, directions or notes of a voice share a tick. Keys and barlines are not sorted."
  },
  {
   "property": "C35",
   "status": "partial",
   "theorems": [
    "C35_claim_refuted",
    "C35_roundtrip_partial",
    "C35_roundtrip_exactly",
    "C35_no_transposition",
    "C35_octaves",
    "C35_usual_unique",
    "C35_reading"
   ],
   "note": "Chromatic always survives; exact condition for diatonic proved for all ints; the full claim is refuted (diatonic 0 or just whole octaves is guessed on reading), as are two overflow cases."
  },
  {
   "property": "C36",
   "status": "partial",
   "theorems": [
    "C36_claim_refuted",
    "C36_kept_partial",
    "C36_key_kept_partial",
    "C36_whole",
    "C36_absent",
    "C36_read_partial",
    "C36_read_other"
   ],
   "note": "Sounding pitch kept to six decimals; semitone/cents split kept when the signs agree (kept). Any text that is a number is read as that alteration (C36_read_partial), any other as none. Refuted for opposite signs. Missing: beyond 100000 semitones or 1000000 cents."
  },
  {
   "property": "C37",
   "status": "partial",
   "theorems": [
    "C37_dotted_length",
    "C37_claim_refuted",
    "C37_computed_partial",
    "C37_never_right",
    "C37_no_dots_partial",
    "C37_normal_undotted_partial",
    "C37_normal_dotted_wrong"
   ],
   "note": "applyDots computes base*(2^(n+1)-1): refuted and shown wrong for every n > 0; findNormalNameAndDots proved right for undotted, wrong for singly dotted lengths."
  },
  {
   "property": "C38",
   "status": "partial",
   "theorems": [
    "C38_within_bounds_partial",
    "C38_calls_partial",
    "C38_order",
    "C38_new",
    "C38_covered",
    "C38_within_bounds_refuted"
   ],
   "note": "Proved for 83 sets of child elements (all classes whose add/remove/clear follow the common pattern): any sequence of calls keeps the number of elements within the documented bounds for 80 of them, calls change exactly what they should, order is kept. Refuted for NoteheadText choices, TimeChoice groups and TimewiseMeasure parts, whose remove or clear goes below the minimum. Reading (importElementSet) bypasses the maximum."
  },
  {
   "property": "C39",
   "status": "partial",
   "theorems": [
    "C39_run",
    "C39_no_run",
    "C39_in_order",
    "C39_covered",
    "C39_never_fails",
    "C39_nothing_twice",
    "C39_instructions",
    "C39_written",
    "C39_round_trip",
    "C39_ornaments_refuted",
    "C39_ornaments_partial",
    "C39_metronome_refuted",
    "C39_metronome_twice",
    "C39_metronome_tuplet_lost",
    "C39_sound_offset_lost"
   ],
   "note": "Proved: importing a run of any length (exact result and cursor); for 48 element classes (all whose children form a plain sequence) children in schema order, with any processing instructions among them, are all kept in order, written in schema order and read back; for any children reading never fails and nothing is made up, read twice or turned around. Refuted: alternating ornaments and accidental marks lose a mark; metronome notes after a metronome-relation replace those before it; normal-type of a metronome-tuplet and offset of a sound are never read. Not modelled: classes with choices (note, notations, lyric, credit, part-list ...)."
  },
  {
   "property": "C40",
   "status": "partial",
   "theorems": [
    "C40_order_refuted",
    "C40_position_refuted",
    "C40_data_refuted",
    "C40_inside_refuted",
    "C40_reread_partial",
    "C40_kept_partial",
    "C40_arranged_partial",
    "C40_second_round",
    "C40_any_spelling_partial",
    "C40_made"
   ],
   "note": "Proved for all elements of any depth with writable names, values and texts: written, parsed and re-read by the modelled toStream, pugixml and fromXElement, every instruction comes back at its element with name and data, in a stated order, and arranged elements come back exactly. Refuted: order of sibling/child instructions, child flag of instructions at childless elements, data with '?>' or a leading blank, instructions inside text or empty elements are not read."
  },
  {
   "property": "C41",
   "status": "partial",
   "theorems": [
    "C41_partition",
    "C41_predicates",
    "C41_exclusive",
    "C41_tremolo_slashes",
    "C41_custom_names",
    "C41_custom_unknown",
    "C41_refuted",
    "C41_family_partial"
   ],
   "note": "Families are a partition and the API predicates agree with it (finding: isMarkOrnament includes unknownOrnament). Refuted that every mark is read back: accidental marks, arpeggios, pedals are never written. Proved for the five written families and the custom mark."
  },
  {
   "property": "C42",
   "status": "proved",
   "theorems": [
    "C42_kinds",
    "C42_written"
   ],
   "note": "Kinds and order of all fermatas survive for every note attachment data; C42_written says what each written fermata carries. Position and print data of fermatas are lost (outside the claim, visible in the theorem)."
  },
  {
   "property": "C43",
   "status": "partial",
   "theorems": [
    "C43_symbols_refuted",
    "C43_symbols_partial",
    "C43_back",
    "C43_written",
    "C43_direction",
    "C43_misc_refuted",
    "C43_placement_refuted",
    "C43_children",
    "C43_no_chord",
    "C43_kind_missing",
    "C43_document",
    "C43_alter_values"
   ],
   "note": "The claim is refuted (C43_symbols_refuted): an unspecified kind becomes none, an unspecified root c, an alteration without a bass is lost, the text loses superfluous blanks. C43_symbols_partial proves it for chords without these; C43_back gives every member of what comes back of any chords; misc data spread to all chords and the position of the first replaces the others' (refutations). C43_children, C43_no_chord, C43_kind_missing and C43_document cover documents of other programs. The text of the element values is the subject of C03, C04, C14, C15; footnote, level and frame content are left out."
  },
  {
   "property": "C44",
   "status": "partial",
   "theorems": [
    "C44_refuted",
    "C44_defaults_partial",
    "C44_plain_partial",
    "C44_numbers",
    "C44_written",
    "C44_page_read",
    "C44_other_text",
    "C44_staff_read"
   ],
   "note": "Model/Layout.v models LayoutFunctions.{h,cpp}. Refuted: margins without a page size come back with size 0, a top system distance brings margins of 0, negative page margins become 0, other appearances become distances of 0. Proved: the exact result for all defaults (C44_defaults_partial), the claim for plain defaults (C44_plain_partial), the elements written (C44_written), and what is read of any page layout."
  },
  {
   "property": "C45",
   "status": "partial",
   "theorems": [
    "C45_encoding_partial",
    "C45_date_partial",
    "C45_in_general_partial",
    "C45_read",
    "C45_presence",
    "C45_encoding_refuted"
   ],
   "note": "Refuted: a date that does not exist is written as the nearest one if its year, month or day happens to be possible (|| for &&). Everything else, valid dates and hopeless dates as claimed; token white space is collapsed."
  },
  {
   "property": "C46",
   "status": "partial",
   "theorems": [
    "C46_succeeds_exactly",
    "C46_print_read",
    "C46_rejects_partial",
    "C46_short_defined",
    "C46_rejects_refuted"
   ],
   "note": "Success is characterised exactly. Rejection fails with undefined behaviour (atoi overflow) on texts that start with a number outside int (C46_rejects_refuted); all others are proved rejected."
  },
  {
   "property": "C47",
   "status": "partial",
   "theorems": [
    "C47_equal",
    "C47_symmetric",
    "C47_identical",
    "C47_reflexive_partial",
    "C47_reflexive_refuted",
    "C47_transitive_partial",
    "C47_transitive_refuted",
    "C47_distinguishes_refuted",
    "C47_words",
    "C47_written_refuted"
   ],
   "note": "== is agreement in everything but six classes' overlooked members (words' and lyrics' texts, noteheads, rehearsals, scaling, group brackets and numbers) and positions and cents up to 1e-8: proved for all values of all 59 classes; symmetric; reflexive without NaN; transitive for up to seven decimals. Reflexivity with NaN, transitivity, and 'equal values are written alike' are refuted. Differences of numbers are not rounded in the model."
  },
  {
   "property": "C48",
   "status": "partial",
   "theorems": [
    "C48_valid_partial",
    "C48_empty",
    "C48_valid_refuted"
   ],
   "note": "Refuted: an empty score or part makes isValid throw, an empty measure makes every staff valid (size() - 1 wraps around). Proved exactly for scores without empty parts or measures, and what happens with them."
  },
  {
   "property": "C49",
   "status": "partial",
   "theorems": [
    "C49_DistanceType_refuted",
    "C49_DistanceType_partial",
    "C49_DistanceType_setters",
    "C49_DistanceType_of_value",
    "C49_DynamicsValue_refuted",
    "C49_DynamicsValue_partial",
    "C49_DynamicsValue_setters",
    "C49_DynamicsValue_of_value",
    "C49_LineWidthType_refuted",
    "C49_LineWidthType_partial",
    "C49_LineWidthType_setters",
    "C49_LineWidthType_of_value",
    "C49_ModeValue_refuted",
    "C49_ModeValue_partial",
    "C49_ModeValue_setters",
    "C49_ModeValue_of_value"
   ],
   "note": "Refuted: the texts 'other' and 'other-dynamics' are recognised as the catch-all value and lose their text (read back empty). Proved for every other text and every history of setters."
  },
  {
   "property": "C50",
   "status": "partial",
   "theorems": [
    "C50_refuted",
    "C50_attachments_partial",
    "C50_numbers",
    "C50_tuplet_read",
    "C50_tuplet_numbers_refuted",
    "C50_tuplet_numbers_partial",
    "C50_tuplet_half",
    "C50_tuplet_stop_read",
    "C50_ornaments_read",
    "C50_articulations_read",
    "C50_technicals_read",
    "C50_own_marks_read"
   ],
   "note": "Refuted as stated (arpeggios lost). Proved: exactly what is kept for every attachment data, and the precision of the numbers. Reading tuplets is proved for any tuplet element (C50_tuplet_read, C50_tuplet_stop_read). C50_tuplet_numbers_refuted: a tuplet that spells out only one of tuplet-actual and tuplet-normal gets the wrong numbers, because the fallback for the missing actual notes sets the normal number and the fallback for the missing normal notes sets the actual number (TupletReader.cpp:135-184); C50_tuplet_half says what is reported then; C50_tuplet_numbers_partial covers the tuplets that spell out both or neither."
  },
  {
   "property": "C51",
   "status": "proved",
   "theorems": [
    "C51_measures",
    "C51_staves",
    "C51_system",
    "C51_voice",
    "C51_find"
   ],
   "note": "About all scores whose vectors have at most 2^31-1 elements; the sum of staves that does not fit an int is undefined behaviour and stated as such."
  },
  {
   "property": "C52",
   "status": "partial",
   "theorems": [
    "C52_header_partial",
    "C52_people",
    "C52_credits_written",
    "C52_credits_read",
    "C52_titles_written",
    "C52_people_written",
    "C52_header_refuted"
   ],
   "note": "Refuted: arranger and publisher are never written, and read as the lyricist. All other fields survive; what is read from any list of creators is proved exactly. Position and font of page texts are not modelled."
  },
  {
   "property": "C53",
   "status": "partial",
   "theorems": [
    "C53_reread_refuted",
    "C53_value_refuted",
    "C53_text_refuted",
    "C53_reader_total",
    "C53_total",
    "C53_read",
    "C53_unambiguous",
    "C53_mark",
    "C53_load_undeclared",
    "C53_load_declared",
    "C53_load_version",
    "C53_load_standalone",
    "C53_load_encoding",
    "C53_load_empty_version",
    "C53_load_other_case",
    "C53_same_name",
    "C53_saved",
    "C53_saved_undeclared",
    "C53_stream_partial",
    "C53_written_partial",
    "C53_document_partial",
    "C53_reread_partial",
    "C53_other_root",
    "C53_first_text",
    "C53_sections"
   ],
   "note": "Proved: the modelled parser terminates without undefined behaviour on every text and reads every spelling in an independent XML grammar as the tree it denotes; the modelled writer and mx's toStream spell their trees, so written documents of any size and depth are read back the same. Refuted (hence partial): attribute values with a double quote throw, tabs become blanks, blank texts vanish, carriage returns become line feeds."
  },
  {
   "property": "C54",
   "status": "partial",
   "theorems": [
    "C54_refuted",
    "C54_layout_partial",
    "C54_plain_partial",
    "C54_written",
    "C54_read",
    "C54_read_empty"
   ],
   "note": "Refuted: staff distances of prints are never written. Proved: the exact layout map read back for any map and any number of measures, the claim without the lost parts, the prints written, and the map read from any document."
  },
  {
   "property": "C55",
   "status": "proved",
   "theorems": [
    "C55_inside",
    "C55_anywhere",
    "C55_written",
    "C55_no_element",
    "C55_not_closed",
    "C55_wrong_end",
    "C55_stray_end"
   ],
   "note": "Every cut of every document of the XML grammar in Spec/XmlGrammar; for written files, elements without instructions of their own after the root (their trailing instructions may be lost)."
  },
  {
   "property": "C56",
   "status": "partial",
   "theorems": [
    "C56_content_refuted",
    "C56_content_partial",
    "C56_back",
    "C56_each_refuted",
    "C56_written",
    "C56_normal_note",
    "C56_order",
    "C56_children",
    "C56_any_order",
    "C56_accepted",
    "C56_time",
    "C56_time_children",
    "C56_document",
    "C56_beams_unnumbered",
    "C56_beams_numbered",
    "C56_beams_refuted",
    "C56_show",
    "C56_hide",
    "C56_ties",
    "C56_time_order",
    "C56_new"
   ],
   "note": "Refuted in full: display step and octave of rests and unpitched notes, accidental flags, a ninth beam, printObject, the user's normal type, unspecified values and commas in misc data do not come back. Proved: exactly what is written, the order and completeness of the elements, the whole note returned by write-then-read under stated conditions, and what is reported for any list of elements in any order."
  },
  {
   "property": "C57",
   "status": "partial",
   "theorems": [
    "C57_part_refuted",
    "C57_part_partial",
    "C57_back",
    "C57_each_refuted",
    "C57_written",
    "C57_new",
    "C57_ids_refuted",
    "C57_ids_partial",
    "C57_order",
    "C57_children",
    "C57_document",
    "C57_display_refuted",
    "C57_accepted",
    "C57_accepted_refuted",
    "C57_parts_refuted",
    "C57_parts_partial",
    "C57_parts_kept",
    "C57_parts_any",
    "C57_file",
    "C57_no_parts",
    "C57_no_music",
    "C57_empty_score",
    "C57_empty_written",
    "C57_twice"
   ],
   "note": "Refuted in full: the sound or id of an instrument of which nothing else is known, MIDI name and unpitched note, channel/bank/program 0, display abbreviation, print data and positions do not come back; a MIDI-only instrument without id gets a score-instrument id that its midi-instrument does not refer to; parts with equal or empty ids share the first part's music; damaged score-parts after the first are accepted. Proved: exactly what is written and returned for every part, order and completeness of the elements, what is reported for any part list, and that parts with different ids come back in order, each with its own music."
  },
  {
   "property": "C58",
   "status": "partial",
   "theorems": [
    "C58_font_size_text",
    "C58_font_size_roundtrip",
    "C58_font_size_last",
    "C58_font_size_new",
    "C58_yes_no_number_text",
    "C58_yes_no_number_roundtrip",
    "C58_yes_no_number_last",
    "C58_yes_no_number_new",
    "C58_numbers_are_decimals",
    "C58_number_or_normal_refused_refuted",
    "C58_number_or_normal_text_partial",
    "C58_number_or_normal_roundtrip",
    "C58_number_or_normal_last",
    "C58_number_or_normal_new",
    "C58_integer_or_empty_refused_refuted",
    "C58_integer_or_empty_text_partial",
    "C58_integer_or_empty_roundtrip",
    "C58_integer_or_empty_last",
    "C58_integer_or_empty_new"
   ],
   "note": "Four kinds of values, every text and every history. Font sizes and pedals: text, round trip, last call and defaults are proved in full. False for line-height/letter-spacing and for positive-integer-or-empty: a text that is neither a number nor the word is not refused; the value silently becomes a number (the number it had before, 0 or 1 after \"normal\" or empty), NumberOrNormal.cpp:57-71, PositiveIntegerOrEmpty.cpp:57-71; the exact behaviour is proved. Numbers of magnitude 2^64 or more are left out of the text theorems (C03 says what a Decimal does with them)."
  },
  {
   "property": "C59",
   "status": "partial",
   "theorems": [
    "C59_written",
    "C59_written_nothing",
    "C59_write_throws",
    "C59_read",
    "C59_read_notes",
    "C59_refused",
    "C59_back",
    "C59_back_refuted",
    "C59_back_partial",
    "C59_unwritable",
    "C59_never_written"
   ],
   "note": "Writing, reading and the round trip are proved for every direction whose numbers can be stored: what is written (order and contents), what is reported of any direction of a file, and exactly what comes back. The full claim is false (C59_back_refuted): segnos, codas, rehearsal marks, bracket stops and the voice are never written; wedge numbers and colours, words colour, the print data, positions and lines of brackets and the positions and numbers of octave shifts are lost; a bracket without number comes back as number 1; an octave shift or wedge of unspecified type comes back as 8va or crescendo; font families with commas are split; underline and its like are clamped to 3. Writing throws for any tempo but beats per minute, although reading produces such tempos: a file with a metric modulation or a per-minute text such as \"ca. 96\" can be loaded but not saved (C59_unwritable); a metronome made of notes cannot be loaded at all. damp-all and unknown elements are reported as an empty rehearsal mark; a wedge of type continue as a wedge start. Brackets and octave shifts carry the tick of the cursor without the offset. C59_back_partial: directions that say no more than what is written come back equal."
  },
  {
   "property": "C60",
   "status": "partial",
   "theorems": [
    "C60_new",
    "C60_clef_written",
    "C60_clef_read",
    "C60_clef_back",
    "C60_clef_back_refuted",
    "C60_clef_back_partial",
    "C60_clef_named",
    "C60_clef_names_refuted",
    "C60_clef_names_partial",
    "C60_clef_text_form",
    "C60_clef_text",
    "C60_key_written",
    "C60_key_read",
    "C60_key_read_components",
    "C60_key_back",
    "C60_key_back_components",
    "C60_key_back_refuted",
    "C60_key_back_partial"
   ],
   "note": "Writing, reading (any children in any order) and the round trip are proved. The full claims are false. C60_clef_back_refuted: the barline location of a clef is never written and a negative line comes back as the usual line of its sign. C60_key_back_refuted: keys made of components lose their staff and time; an unspecified step comes back as C, a double sharp of the form sharp-sharp as natural; the mode \"unsupported\" is never written nor reported, because the test for it repeats the test for minor, so dorian and the like are reported as unspecified. C60_clef_names_refuted: the soprano and mezzo-soprano clefs of the API are one line too low (C on line 0 and 1 for 1 and 2), so that a soprano clef of a file is reported as mezzo-soprano. When reading a key, a row of components replaces the one before it if that is a single component and is added to it otherwise. What remains true is proved as the _partial theorems; the components are limited to 100000 semitones and 1000000 cents."
  },
  {
   "property": "C61",
   "status": "partial",
   "theorems": [
    "C61_articulations",
    "C61_articulations_refused",
    "C61_technical",
    "C61_technical_refused",
    "C61_bend",
    "C61_harmonic",
    "C61_time",
    "C61_harmony",
    "C61_bend_exact",
    "C61_harmonic_exact",
    "C61_interchangeable_exact",
    "C61_harmony_refused",
    "C61_notations_refuted",
    "C61_notations_partial",
    "C61_notations_refused",
    "C61_arrow_refuted",
    "C61_arrow_partial",
    "C61_arrow_refused",
    "C61_notehead_text_refuted",
    "C61_notehead_text_partial",
    "C61_interchangeable_refuted",
    "C61_interchangeable_partial",
    "C61_key_refuted",
    "C61_key_partial",
    "C61_key_octaves",
    "C61_credit_refuted",
    "C61_credit_names",
    "C61_credit_exact",
    "C61_credit_partial",
    "C61_credit_refused",
    "C61_credit_unfinished",
    "C61_lyric_refuted",
    "C61_lyric_extend_refuted",
    "C61_lyric_partial",
    "C61_lyric_word_partial",
    "C61_lyric_refused",
    "C61_ends"
   ],
   "note": "Proved in full for articulations, technical, bend, harmonic, time and harmony. The full claim is false of the others. C61_notations_refuted: the reader looks for \"other-notations\", the schema and the writer say \"other-notation\", and the file is refused. C61_arrow_refuted: a circular-arrow is refused, because every child goes on to be read as an arrow-direction group. C61_notehead_text_refuted: the texts are read from the parent element, so their contents are lost. C61_interchangeable_refuted: of several pairs of beats and beat-type the last is kept. C61_key_refuted: a key of octaves only is written with a fifths of 0. C61_credit_refuted: links and bookmarks between words are read from the parent element. C61_lyric_refuted: the syllabic after an elision is lost; an end-line after an extend, laughing or humming replaces it by an empty text; a footnote or level makes the file refused. What remains true of each is proved as _partial, with the names (credit, notehead-text) or for the lists of children without these cases. The children of an arrow are read once for each child (C61_arrow_partial says how often). A credit with an unknown child after its links and bookmarks is accepted, with empty words (C61_credit_unfinished). Left out: attributes, whether the children themselves can be read, processing instructions between children."
  },
  {
   "property": "C62",
   "status": "partial",
   "theorems": [
    "C62_back_refuted",
    "C62_back_partial",
    "C62_kept",
    "C62_times",
    "C62_links_refused",
    "C62_required_refuted",
    "C62_bracket",
    "C62_required_partial",
    "C62_unknown",
    "C62_accepted",
    "C62_checked",
    "C62_value",
    "C62_nothing_else",
    "C62_written_allowed",
    "C62_other_names"
   ],
   "note": "All attributes of every element of the schema are in the model (175 attribute classes, the table of which element uses which, all against the schema's own tables). False as stated (C62_back_refuted): about eighty elements lose color (beam, stem, ending, wedge, accent, ...); words, rehearsal, display-text, accidental-text and footnote lose dir and valign as well; kind, pedal, measure-numbering, other-direction, principal-voice and string-mute lose color and valign; image and credit-image lose valign, credit-words dir, elision and text color and dir; hole-closed and play never read their attributes; link and opus look for href where the schema has xlink:href, so every valid one is refused (C62_links_refused); tied reads bezier-x-2 for bezier-x2; bracket does not require type and line-end and writes defaults of its own (C62_required_refuted, C62_bracket); doit, falloff, plop and scoop write dash-length twice, which is not well-formed XML (C62_times); coda, damp, damp-all, eyeglasses and segno take a print-object the schema does not have, and lang and space are taken for xml:lang and xml:space (C62_other_names). Proved for every list of attributes: what comes back and what does not (C62_kept), how often it is written, that values of checked types that do not print as they were are refused and others taken (C62_checked, C62_accepted, C62_value), that unknown attributes are dropped (C62_unknown), and that nothing else is written (C62_nothing_else, C62_written_allowed). How a text becomes a value of each type is an argument here; it is C02, C10, C14, C53, C58."
  },
  {
   "property": "C63",
   "status": "partial",
   "theorems": [
    "C63_metronome_refuted",
    "C63_metronome_partial",
    "C63_metronome_relation",
    "C63_metronome_relation_alone",
    "C63_metronome_refused",
    "C63_metronome_unknown",
    "C63_metronome_bad_refuted",
    "C63_metronome_bad_partial",
    "C63_time_modification",
    "C63_time_modification_bad_refuted",
    "C63_time_modification_bad_partial",
    "C63_time_modification_required_refuted",
    "C63_measure_style",
    "C63_measure_style_refused",
    "C63_percussion_refused",
    "C63_play_refused",
    "C63_percussion_left",
    "C63_play_left",
    "C63_display",
    "C63_display_bad",
    "C63_display_alone",
    "C63_dynamics_refuted",
    "C63_dynamics_empty_refused",
    "C63_dynamics_partial",
    "C63_other_dynamics_partial",
    "C63_dynamics_text_standard",
    "C63_dynamics_unknown",
    "C63_ends"
   ],
   "note": "Proved in full for measure-style, rest and unpitched, and for time-modification what comes back. False of the others. C63_metronome_refuted: of several metronome-notes after a metronome-relation only the first stays there; the others are written before the relation, and when one note was before it that note is lost (C63_metronome_relation). C63_metronome_bad_refuted: a per-minute that cannot be read is not noticed. C63_time_modification_bad_refuted: a normal-type overwrites the failure of the actual-notes and normal-notes before it. C63_time_modification_required_refuted: both required children may be missing. percussion and play are always refused, because the element itself is handed to the code that looks for the children's names (C63_percussion_refused, C63_play_refused). dynamics: an empty one is refused although the schema allows it, only the first child is kept, an other-dynamics with the text of a standard one turns into it, and an unknown child turns into an other-dynamics (C63_dynamics_*). A metronome without a beat-unit or metronome-note is accepted and gets an empty beat-unit and per-minute (C63_metronome_unknown). What remains true of each is proved as _partial. Left out: attributes, white space, processing instructions between children."
  },
  {
   "property": "C64",
   "status": "partial",
   "theorems": [
    "C64_music",
    "C64_music_exact",
    "C64_part",
    "C64_part_refused",
    "C64_part_empty",
    "C64_timewise_measure",
    "C64_timewise_measure_refused",
    "C64_score_partwise",
    "C64_score_partwise_exact",
    "C64_score_timewise",
    "C64_score_timewise_exact",
    "C64_score_required_refuted",
    "C64_part_list",
    "C64_part_list_required",
    "C64_part_list_bad_refuted",
    "C64_part_list_bad_partial",
    "C64_direction",
    "C64_direction_bad",
    "C64_direction_untyped",
    "C64_direction_type",
    "C64_direction_type_empty",
    "C64_direction_type_single",
    "C64_direction_type_multiple",
    "C64_direction_type_other",
    "C64_name_display",
    "C64_name_display_refused",
    "C64_ends",
    "C64_direction_any"
   ],
   "note": "Whatever the schema allows comes back, for every one of these elements (C64_music, C64_part, C64_timewise_measure, C64_score_partwise, C64_score_timewise, C64_part_list, C64_direction, C64_direction_type, C64_name_display). Not true is what is refused. C64_part_list_bad_refuted: after the first score-part a child that cannot be read is not noticed, and a child of another name is written as a part-group that is in no file (C64_part_list_bad_partial gives the exact result). C64_score_required_refuted: a score with no children is accepted, and written with a part-list and a part that are in no file. C64_part_empty, C64_direction_untyped: the same of a part without measures and a direction without direction-type. C64_direction_type_single, C64_direction_type_other: what follows a child that comes alone is dropped, and a first child of another name turns into a rehearsal. C64_direction_any: which children of a direction are read whatever they are, and what is written: a direction-type or an offset right after a footnote, a level or a voice is lost, and a second run of direction-types replaces a first run of one. C64_music_exact: children of a measure that the schema does not have are passed over. Left out: attributes, white space, processing instructions between children."
  },
  {
   "property": "C65",
   "status": "partial",
   "theorems": [
    "C65_elements",
    "C65_back_refuted",
    "C65_back_partial",
    "C65_shortest",
    "C65_unfit",
    "C65_outcome",
    "C65_again_refuted",
    "C65_again_partial"
   ],
   "note": "Refuted in full: an instrument-sound that is not among the standard sounds makes reading throw; the mode \"other\" and modes with markup characters are not written as they were (the text of a mode is not escaped); integers outside 32 bits become 0 (octave-change, diatonic and others); more than six decimals are rounded (tenths). Proved for all 184 elements for the texts the program can hold. Findings: unfit texts are never refused but replaced by the first word of the list, the nearest number, a default or 1900-01-01; \"double-flat\" becomes \"flat-flat\"; accordion-middle accepts 0 where the schema has 1 to 3; the smallest positive divisions or durations are written as 0, and that is read as 0.000001, so writing twice is not stable. other-dynamics, the one other element of the schema with a text, is in C63. Dates are modelled for the years 1 to 9999 and without time zones."
  },
  {
   "property": "C66",
   "status": "partial",
   "theorems": [
    "C66_note",
    "C66_note_exact",
    "C66_note_required",
    "C66_note_ties",
    "C66_unread_refuted",
    "C66_score_part",
    "C66_score_part_exact",
    "C66_part_name_refuted",
    "C66_score_instrument",
    "C66_score_instrument_refused",
    "C66_encoding",
    "C66_encoding_refused",
    "C66_encoding_exact",
    "C66_ornaments_refuted",
    "C66_ornaments_partial",
    "C66_ornaments_exact",
    "C66_sound_refuted",
    "C66_sound_partial",
    "C66_sound_exact",
    "C66_ends"
   ],
   "note": "Proved: notes, score-parts, score-instruments and encodings that the schema allows come back in their order; notes, encodings, ornaments and sounds exactly for lists of any further children; what is refused; the loops of notes and score-parts end inside the children. False of the code and shown so: a sound gets a midi-instrument whenever it has a device or a play, because the pointer is asked instead of the flag (Sound.cpp:59), its offset is lost and its groups are merged into one; accidental marks in ornaments are moved behind all ornaments, and a later run replaces a single mark; a score-part without part-name is accepted and gets an empty one; whether the duration of a note could be read is not looked at. An unknown child of an encoding is refused but leaves an encoding-date behind. Left out: attributes (C62), texts (C65), comments between the children. Of more than two ties the first two are kept (C66_note_ties)."
  },
  {
   "property": "C67",
   "status": "partial",
   "theorems": [
    "C67_document_refuted",
    "C67_document_partial",
    "C67_element_partial",
    "C67_kept_allowed"
   ],
   "note": "Proved: every document made of attributes, texts and contents that come back (the kept ones of C61 to C66), of any size and depth, is accepted and written with the same elements in the same places, the same attributes and values in some order, and texts that say the same; these documents are proved to lie within those the schema allows. The full claim is false (C67_document_refuted): for instance a link with an href is refused. What a document must avoid is exactly what the specification of the kept ones says: the attributes lost, doubled or unreadable (C62), values with markup or quotation marks (they are written unescaped), numbers beyond what is held (C65), and the contents listed in kept_contents (C61, C63, C64, C66). Left out: comments, processing instructions, white space between elements, the XML declaration and document type, and reading the characters of the file into elements and back (C57)."
  },
  {
   "property": "C68",
   "status": "partial",
   "theorems": [
    "C68_file_refuted",
    "C68_file_partial",
    "C68_history_partial",
    "C68_settled_partial",
    "C68_forever_partial",
    "C68_scope",
    "C68_spelling",
    "C68_total",
    "C68_cut",
    "C68_comment_refuted"
   ],
   "note": "Proved: every file whose document keeps to what comes back (the kept documents of C67) and whose characters XML can hold (no carriage returns in texts, no tabs, line ends or quotation marks in attribute values, no text of white space only) is accepted, in whatever way it is spelled, and written as XML that spells the same document; so again any number of times, and from the first time on character for character the same (C68_settled_partial, C68_forever_partial); cut off anywhere it is refused or taken for what it was. The full claim is false (C68_file_refuted): a file with a link is refused. C68_comment_refuted: of a text with a comment in it the rest is lost. Not modelled here (C68_scope says which files): processing instructions (C40) and encodings other than UTF-8. C68_spelling: what is written depends on the document only, not on its spelling. C68_total: on any characters at all the outcome is defined."
  },
  {
   "property": "C69",
   "status": "partial",
   "theorems": [
    "C69_measures_refuted",
    "C69_no_measures",
    "C69_only_empty",
    "C69_music_partial",
    "C69_same_partial",
    "C69_again_partial",
    "C69_score_partial",
    "C69_notes",
    "C69_score_notes",
    "C69_staves_found",
    "C69_parts_read",
    "C69_transposition_read"
   ],
   "note": "Partial because of the code: a part without measures comes back with one empty measure (C69_no_measures), and a score of nothing but such parts comes back with 0 ticks per quarter (C69_only_empty), so C69_measures_refuted. C69_music_partial: scores whose measures meet the conditions of C24, C28-C32 come back exactly, but that notes ask for the voice they are in; C69_same_partial: exactly, if they ask already; C69_again_partial: a second time changes nothing; C69_score_partial with names and instruments. C69_notes and C69_score_notes: for every score with measures no part, measure, staff, note or transposition is lost. Part groups (C33), the header (C52) and layout (C54) are left out here. The staff of a forward element is not modelled in the count of staves. For files of others: C69_staves_found (the number of staves), C69_parts_read (all parts and measures; a part without divisions begins with the last ones of the parts before it), C69_transposition_read (only what is said at the start of the first measure is read)."
  },
  {
   "property": "C70",
   "status": "proved",
   "theorems": [
    "C70_no_race",
    "C70_same_child",
    "C70_kept",
    "C70_own",
    "C70_asked",
    "C70_goes_on",
    "C70_short",
    "C70_set_refuted",
    "C70_set_lost_refuted",
    "C70_alone"
   ],
   "note": "Proved in full for the const functions, for any number of threads and any schedule (C70_no_race, C70_same_child, C70_kept, C70_own, C70_asked, C70_goes_on, C70_short). Beyond the claim: it is not true when a set function is called meanwhile, since those do not lock (Note.cpp:185-191 and the like): C70_set_refuted gives a data race, C70_set_lost_refuted a child that was set and is lost. C70_alone: a single thread gets from all functions, the set functions too, what calls made one after another give. The model interleaves single memory accesses; that a program without data races behaves so is the C++ memory model, and is trusted."
  },
  {
   "property": "C71",
   "status": "partial",
   "theorems": [
    "C71_names_refuted",
    "C71_texts_refuted",
    "C71_names_partial",
    "C71_compare_partial",
    "C71_compare_refuted",
    "C71_compare_undefined",
    "C71_choice_read",
    "C71_version_read",
    "C71_specification_read",
    "C71_xsd_refuted",
    "C71_find",
    "C71_find_empty_refuted",
    "C71_header",
    "C71_new_header"
   ],
   "note": "Refuted: breaks are missing in the switches, so timewise is written timewiseerror, 3.0 as 3.0error, dtd as dtdxsderror and xsd as xsderror, and none but partwise, 3.0 and xsd is read back, the last two only because they are the defaults (DocumentSpec.cpp:14-110); parseSpecificationType takes xsd for dtd (:119-122); std::tolower is called with negative numbers for characters beyond ASCII, which is undefined (utility/Parse.h:18); an empty text is not found in an empty one. Proved: exact comparison of ASCII texts, what is read from any ASCII text, the search for any texts, the head of a document after any history."
  }
 ]
}