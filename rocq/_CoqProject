-Q theories Verif
theories/Model/Text.v
theories/Model/Integers.v
theories/Spec/Numerals.v
theories/Proofs/Tac.v
theories/Proofs/TextProofs.v
theories/Spec/Ranges.v
theories/Proofs/IntegersProofs.v
theories/Props/C01_IntRange.v
theories/Props/C02_IntText.v
theories/Model/Base.v
theories/Model/Date.v
theories/Spec/Calendar.v
theories/Spec/DateText.v
theories/Proofs/DateProofs.v
theories/Proofs/DateProofs2.v
theories/Proofs/DateProofs3.v
theories/Props/C05_DateValid.v
theories/Props/C06_DateArithmetic.v
theories/Props/C07_DateOrder.v
theories/Props/C08_Weekday.v
theories/Props/C09_DateText.v
theories/Model/Strings.v
theories/Spec/XmlText.v
theories/Proofs/StringsProofs.v
theories/Props/C12_Token.v
theories/Props/C13_Ids.v
theories/Props/C14_XmlEscape.v
theories/Props/C46_StringToInt.v
theories/Model/Color.v
theories/Spec/ColorText.v
theories/Proofs/ColorProofs.v
theories/Props/C10_Color.v
theories/Model/CommaInts.v
theories/Spec/CommaText.v
theories/Proofs/CommaProofs.v
theories/Props/C11_CommaInts.v
theories/Model/Ticks.v
theories/Proofs/TicksProofs.v
theories/Spec/Rounding.v
theories/Spec/Divides.v
theories/Props/C17_LcmGcd.v
theories/Props/C18_TickScale.v
theories/Spec/Scores.v
theories/Proofs/ConversionsProofs.v
theories/Model/Conversions.v
theories/Proofs/ConversionsMore.v
theories/Props/C23_Conversions.v
theories/Model/DocumentManager.v
theories/Spec/Documents.v
theories/Spec/Linearizable.v
theories/Proofs/DocumentManagerProofs.v
theories/Proofs/DocumentManagerProofs2.v
theories/Proofs/DocumentManagerConc.v
theories/Props/C19_Ids.v
theories/Props/C20_Isolation.v
theories/Props/C21_Linearizable.v
theories/Props/C22_FailingRead.v
theories/Model/LongDouble.v
theories/Model/Decimals.v
theories/Spec/DecimalText.v
theories/Proofs/LongDoubleProofs.v
theories/Proofs/DecimalsProofs.v
theories/Proofs/DecimalsText.v
theories/Proofs/DecimalUnique.v
theories/Proofs/DecimalsStore.v
theories/Proofs/DecimalsRange.v
theories/Proofs/DecimalsWide.v
theories/Props/C03_BoundedDecimals.v
theories/Props/C04_DecimalText.v
theories/Model/Transpose.v
theories/Model/Alter.v
theories/Model/Dots.v
theories/Spec/Intervals.v
theories/Proofs/TransposeProofs.v
theories/Proofs/AlterProofs.v
theories/Proofs/AlterReading.v
theories/Proofs/DotsProofs.v
theories/Props/C35_Transposition.v
theories/Props/C36_Alter.v
theories/Props/C37_Dots.v
theories/Model/EnumLookup.v
theories/Model/CoreEnums.v
theories/Model/BuiltinEnums.v
theories/Model/PlaybackSound.v
theories/Model/CustomEnums.v
theories/Spec/SchemaTexts.v
theories/Spec/SchemaElementTexts.v
theories/Spec/SoundTexts.v
theories/Spec/TextEnum.v
theories/Proofs/EnumProofs.v
theories/Proofs/EnumTables.v
theories/Proofs/CustomEnumsProofs.v
theories/Proofs/PlaybackSoundProofs.v
theories/Props/C15_Enums.v
theories/Props/C49_CustomText.v
theories/Model/ApiEnums.v
theories/Model/SoundID.v
theories/Model/ConverterTables.v
theories/Model/InstrumentTable.v
theories/Model/MarkData.v
theories/Spec/Conversion.v
theories/Spec/MarkGroups.v
theories/Proofs/ConversionProofs.v
theories/Proofs/ConversionTables.v
theories/Proofs/InstrumentProofs.v
theories/Proofs/MapProofs.v
theories/Props/C16_Conversions.v
theories/Model/MeasureTypes.v
theories/Model/MeasureWriter.v
theories/Model/MeasureReader.v
theories/Spec/Measures.v
theories/Proofs/MeasureSync.v
theories/Spec/Voices.v
theories/Proofs/MeasureReadProofs.v
theories/Props/C25_Time.v
theories/Props/C27_Voices.v
theories/Spec/TimeSignatures.v
theories/Proofs/MeasureTimes.v
theories/Props/C30_Barlines.v
theories/Props/C31_Time.v
theories/Props/C32_Numbers.v
theories/Spec/RoundTrip.v
theories/Proofs/MeasureBack.v
theories/Proofs/Meets.v
theories/Props/C24_Notes.v
theories/Spec/Directions.v
theories/Proofs/DirectionsBack.v
theories/Props/C28_Directions.v
theories/Spec/Changes.v
theories/Proofs/ChangesBack.v
theories/Proofs/KeysAny.v
theories/Props/C29_Changes.v
theories/Spec/Replay.v
theories/Proofs/ReplayProofs.v
theories/Props/C26_Replay.v
theories/Model/Notations.v
theories/Spec/Attachments.v
theories/Proofs/NotationsProofs.v
theories/Spec/TupletText.v
theories/Proofs/TupletReading.v
theories/Proofs/StoredProofs.v
theories/Proofs/MarksProofs.v
theories/Props/C41_Marks.v
theories/Props/C42_Fermata.v
theories/Spec/MarksRead.v
theories/Proofs/MarksReadProofs.v
theories/Props/C50_Attachments.v
theories/Model/ScoreData.v
theories/Spec/Sorting.v
theories/Proofs/SortProofs.v
theories/Props/C34_Sort.v
theories/Props/C48_Location.v
theories/Props/C51_Sizes.v
theories/Model/PartGroups.v
theories/Spec/Groups.v
theories/Proofs/GroupProofs.v
theories/Proofs/GroupReads.v
theories/Props/C33_PartGroups.v
theories/Model/ScoreHeader.v
theories/Spec/Headers.v
theories/Proofs/HeaderProofs.v
theories/Props/C45_Encoding.v
theories/Props/C52_Header.v
theories/Spec/Written.v
theories/Proofs/WrittenProofs.v
theories/Model/ElementSets.v
theories/Spec/Cardinality.v
theories/Proofs/SetProofs.v
theories/Props/C38_ElementSets.v
theories/Model/ElementReading.v
theories/Model/ElementClasses.v
theories/Spec/ChildOrder.v
theories/Spec/Children.v
theories/Proofs/ReadingPlain.v
theories/Proofs/ReadingOrder.v
theories/Proofs/ReadingSub.v
theories/Proofs/ReadingProofs.v
theories/Proofs/ReadingFaults.v
theories/Props/C39_Children.v
theories/Model/PugiText.v
theories/Spec/XmlGrammar.v
theories/Proofs/PugiProofs.v
theories/Proofs/PugiReads.v
theories/Spec/XmlTrees.v
theories/Proofs/PugiWrites.v
theories/Model/XmlStream.v
theories/Spec/Instructions.v
theories/Proofs/StreamWrites.v
theories/Proofs/StreamReads.v
theories/Proofs/StreamExamples.v
theories/Props/C40_Instructions.v
theories/Props/C53_Documents.v
theories/Spec/StreamCases.v
theories/Model/Layout.v
theories/Spec/Layouts.v
theories/Proofs/LayoutProofs.v
theories/Props/C44_Layout.v
theories/Props/C54_Prints.v
theories/Spec/XmlCuts.v
theories/Proofs/PugiCuts.v
theories/Proofs/StreamCuts.v
theories/Proofs/CutExamples.v
theories/Props/C55_Truncated.v
theories/Model/ApiClasses.v
theories/Model/Equality.v
theories/Spec/Agreement.v
theories/Spec/DefaultsValue.v
theories/Proofs/EqualityProofs.v
theories/Proofs/EqualityExamples.v
theories/Props/C47_Equality.v
theories/Spec/FixedText.v
theories/Proofs/FixedProofs.v
theories/Model/ChordSymbols.v
theories/Spec/ChordReading.v
theories/Proofs/ChordProofs.v
theories/Props/C43_ChordSymbols.v
theories/Model/NoteContent.v
theories/Spec/NoteReading.v
theories/Proofs/NoteProofs.v
theories/Proofs/NoteChildren.v
theories/Proofs/NoteBack.v
theories/Proofs/NoteDocument.v
theories/Proofs/NoteFindings.v
theories/Props/C56_NoteContent.v
theories/Model/PartInfo.v
theories/Spec/PartReading.v
theories/Proofs/PartProofs.v
theories/Proofs/PartBack.v
theories/Proofs/PartFindings.v
theories/Props/C57_PartInfo.v
theories/Model/NumberOrWord.v
theories/Model/Directions.v
theories/Spec/DirectionText.v
theories/Spec/DirectionExamples.v
theories/Proofs/DirectionProofs.v
theories/Proofs/DirectionBack.v
theories/Proofs/DirectionFits.v
theories/Props/C59_Directions.v
theories/Model/ClefsKeys.v
theories/Spec/ClefKeyText.v
theories/Proofs/ClefKeyProofs.v
theories/Proofs/KeyBack.v
theories/Spec/ClefKeyExamples.v
theories/Props/C60_ClefsKeys.v
theories/Spec/NumberOrWordText.v
theories/Proofs/NumberOrWordProofs.v
theories/Proofs/ElementTextProofs.v
theories/Proofs/ElementTextBack.v
theories/Proofs/ElementTextExamples.v
theories/Props/C65_ElementTexts.v
theories/Props/C66_NoteElements.v
theories/Props/C58_NumberOrWord.v
theories/Model/ElementGroups.v
theories/Model/ElementTexts.v
theories/Spec/ContentModels.v
theories/Spec/ChildrenExamples.v
theories/Proofs/GroupLoops.v
theories/Proofs/ChildrenProofs.v
theories/Proofs/GroupRuns.v
theories/Proofs/CreditHarmony.v
theories/Proofs/LyricReading.v
theories/Proofs/GroupEnds.v
theories/Proofs/GroupExampleProofs.v
theories/Props/C61_ElementChildren.v
theories/Model/Attributes.v
theories/Model/AttributeClasses.v
theories/Spec/SchemaAttributes.v
theories/Spec/AttributeExamples.v
theories/Proofs/AttributeLoops.v
theories/Proofs/AttributeProofs.v
theories/Proofs/AttributeFindings.v
theories/Props/C62_Attributes.v
theories/Model/ElementChoices.v
theories/Model/ScoreElements.v
theories/Model/NoteElements.v
theories/Spec/MoreContents.v
theories/Spec/ScoreContents.v
theories/Spec/NoteContents.v
theories/Proofs/ChoiceProofs.v
theories/Proofs/MoreChildrenProofs.v
theories/Proofs/ScoreElementProofs.v
theories/Proofs/ScoreChildrenProofs.v
theories/Proofs/MemberProofs.v
theories/Proofs/NoteElementProofs.v
theories/Proofs/NoteReading.v
theories/Proofs/DirectionChildrenProofs.v
theories/Proofs/DirectionAny.v
theories/Props/C63_MoreChildren.v
theories/Props/C64_Scores.v
theories/Model/Documents.v
theories/Spec/AllowedDocuments.v
theories/Proofs/DocumentChildren.v
theories/Proofs/DocumentClasses.v
theories/Proofs/DocumentProofs.v
theories/Proofs/DocumentExamples.v
theories/Props/C67_Documents.v
theories/Proofs/AnyChildrenProofs.v
theories/Model/Files.v
theories/Spec/WholeFiles.v
theories/Proofs/FileProofs.v
theories/Proofs/FileAgain.v
theories/Proofs/FileEnds.v
theories/Proofs/FileSpelling.v
theories/Proofs/FileSettled.v
theories/Proofs/FileExamples.v
theories/Props/C68_Files.v
theories/Model/Scores.v
theories/Spec/WholeScores.v
theories/Proofs/ScoreWrites.v
theories/Proofs/ScoreBack.v
theories/Proofs/ScoreAgain.v
theories/Proofs/ScoreReads.v
theories/Props/C69_Scores.v
theories/Model/OnDemand.v
theories/Spec/Sharing.v
theories/Proofs/OnDemandProofs.v
theories/Props/C70_OnDemand.v
theories/Model/DocumentSpecs.v
theories/Spec/CaseText.v
theories/Proofs/DocumentSpecProofs.v
theories/Props/C71_DocumentSpecs.v
