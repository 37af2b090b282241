(** The sets of children of the element classes, core/elements/*.cpp: constructor,
    add, remove and clear functions of each class that has such a set. *)
From Coq Require Import List String Ascii ZArith Bool PeanoNat.
From Verif Require Import Model.Base Model.Text.
Import ListNotations.
Open Scope nat_scope.

(** What the functions of one set do. [es_initial]: how many default elements the
    constructor puts into it; [es_limit]: add does nothing if that many are there
    (if( mySet.size() < limit )); [es_floor]: remove does nothing unless there are more
    (if( mySet.size() > floor )); [es_refill]: how many default elements clear leaves. *)
Record element_set := mkSet {
  es_class : str;
  es_name : str;
  es_initial : nat;
  es_limit : option nat;
  es_floor : nat;
  es_refill : nat
}.

(** A member of a set: one handed to add, or a default one made by the class. *)
Inductive member (A : Type) := Given (a : A) | Made.
Arguments Given {A}.
Arguments Made {A}.

(** The calls. [Add None]: a null pointer. [Remove i]: the iterator begin() + i; past the
    last element, the iterator cend(). Iterators into other containers are undefined
    behaviour and left out. *)
Inductive set_call (A : Type) := Add (x : option A) | Remove (i : nat) | Clear.
Arguments Add {A}.
Arguments Remove {A}.
Arguments Clear {A}.

(** vector::erase of the element at i. *)
Fixpoint erase {A} (i : nat) (l : list A) : list A :=
  match l, i with
  | [], _ => []
  | _ :: r, O => r
  | x :: r, S j => x :: erase j r
  end.

(** The constructor. *)
Definition constructed {A} (e : element_set) : list (member A) := repeat Made (es_initial e).

(** add, e.g. PartwisePart.cpp:88-94, Note.cpp addBeam with a limit; remove, e.g.
    PartwisePart.cpp:97-106; clear, e.g. PartwisePart.cpp:109-113. *)
Definition call {A} (e : element_set) (c : set_call A) (l : list (member A)) : list (member A) :=
  match c with
  | Add None => l
  | Add (Some a) =>
      match es_limit e with
      | Some n => if List.length l <? n then l ++ [Given a] else l
      | None => l ++ [Given a]
      end
  | Remove i =>
      if List.length l <=? i then l
      else if es_floor e <? List.length l then erase i l else l
  | Clear => repeat Made (es_refill e)
  end.

(** All calls on a newly made object. *)
Definition after_calls {A} (e : element_set) (cs : list (set_call A)) : list (member A) :=
  fold_left (fun l c => call e c l) cs (constructed e).

Definition element_sets : list element_set :=
 [
  (* Appearance.cpp:17 (constructor), 99-105, 90-96, 108-111 *)
  mkSet (lit "Appearance"%string) (lit "LineWidth"%string) 0 None 0 0;
  (* Appearance.cpp:17 (constructor), 139-145, 130-136, 148-151 *)
  mkSet (lit "Appearance"%string) (lit "NoteSize"%string) 0 None 0 0;
  (* Appearance.cpp:17 (constructor), 179-185, 170-176, 188-191 *)
  mkSet (lit "Appearance"%string) (lit "Distance"%string) 0 None 0 0;
  (* Appearance.cpp:17 (constructor), 219-225, 210-216, 228-231 *)
  mkSet (lit "Appearance"%string) (lit "OtherAppearance"%string) 0 None 0 0;
  (* Articulations.cpp:14 (constructor), 69-75, 78-84, 87-90 *)
  mkSet (lit "Articulations"%string) (lit "ArticulationsChoice"%string) 0 None 0 0;
  (* Barline.cpp:21 (constructor), 279-288, 267-276, 291-294 *)
  mkSet (lit "Barline"%string) (lit "Fermata"%string) 0 (Some 2) 0 0;
  (* BeatRepeat.cpp:15 (constructor), 110-116, 101-107, 119-122 *)
  mkSet (lit "BeatRepeat"%string) (lit "SlashDot"%string) 0 None 0 0;
  (* BeatUnitGroup.cpp:15 (constructor), 79-85, 88-94, 97-100 *)
  mkSet (lit "BeatUnitGroup"%string) (lit "BeatUnitDot"%string) 0 None 0 0;
  (* Credit.cpp:20 (constructor), 109-115, 100-106, 118-121 *)
  mkSet (lit "Credit"%string) (lit "CreditType"%string) 0 None 0 0;
  (* Credit.cpp:20 (constructor), 149-155, 140-146, 158-161 *)
  mkSet (lit "Credit"%string) (lit "Link"%string) 0 None 0 0;
  (* Credit.cpp:20 (constructor), 189-195, 180-186, 198-201 *)
  mkSet (lit "Credit"%string) (lit "Bookmark"%string) 0 None 0 0;
  (* CreditChoice.cpp:18 (constructor), 138-144, 129-135, 147-150 *)
  mkSet (lit "CreditChoice"%string) (lit "CreditWordsGroup"%string) 0 None 0 0;
  (* CreditWordsGroup.cpp:16 (constructor), 84-90, 93-99, 102-105 *)
  mkSet (lit "CreditWordsGroup"%string) (lit "Link"%string) 0 None 0 0;
  (* CreditWordsGroup.cpp:16 (constructor), 124-130, 133-139, 142-145 *)
  mkSet (lit "CreditWordsGroup"%string) (lit "Bookmark"%string) 0 None 0 0;
  (* Defaults.cpp:20 (constructor), 254-260, 245-251, 263-266 *)
  mkSet (lit "Defaults"%string) (lit "LyricFont"%string) 0 None 0 0;
  (* Defaults.cpp:20 (constructor), 294-300, 285-291, 303-306 *)
  mkSet (lit "Defaults"%string) (lit "LyricLanguage"%string) 0 None 0 0;
  (* Direction.cpp:91 (constructor), 185-191, 194-203, 206-210 *)
  mkSet (lit "Direction"%string) (lit "DirectionType"%string) 1 None 1 1;
  (* DirectionType.cpp:35 (constructor), 292-298, 280-289, 301-308 *)
  mkSet (lit "DirectionType"%string) (lit "Rehearsal"%string) 1 None 1 1;
  (* DirectionType.cpp:35 (constructor), 339-345, 327-336, 348-355 *)
  mkSet (lit "DirectionType"%string) (lit "Segno"%string) 1 None 1 1;
  (* DirectionType.cpp:35 (constructor), 386-392, 374-383, 395-402 *)
  mkSet (lit "DirectionType"%string) (lit "Words"%string) 1 None 1 1;
  (* DirectionType.cpp:35 (constructor), 433-439, 421-430, 442-449 *)
  mkSet (lit "DirectionType"%string) (lit "Coda"%string) 1 None 1 1;
  (* DirectionType.cpp:35 (constructor), 495-501, 483-492, 504-511 *)
  mkSet (lit "DirectionType"%string) (lit "Dynamics"%string) 1 None 1 1;
  (* DirectionType.cpp:35 (constructor), 752-758, 740-749, 761-768 *)
  mkSet (lit "DirectionType"%string) (lit "Percussion"%string) 1 None 1 1;
  (* Encoding.cpp:14 (constructor), 80-86, 71-77, 89-92 *)
  mkSet (lit "Encoding"%string) (lit "EncodingChoice"%string) 0 None 0 0;
  (* FiguredBass.cpp:16 (constructor), 108-114, 96-105, 117-124 *)
  mkSet (lit "FiguredBass"%string) (lit "Figure"%string) 1 None 1 1;
  (* Frame.cpp:17 (constructor), 166-172, 154-163, 175-179 *)
  mkSet (lit "Frame"%string) (lit "FrameNote"%string) 1 None 1 1;
  (* GraceNoteGroup.cpp:16 (constructor), 98-107, 110-116, 119-122 *)
  mkSet (lit "GraceNoteGroup"%string) (lit "Tie"%string) 0 (Some 2) 0 0;
  (* GroupAbbreviationDisplay.cpp:14 (constructor), 83-89, 92-98, 101-104 *)
  mkSet (lit "GroupAbbreviationDisplay"%string) (lit "DisplayTextOrAccidentalText"%string) 0 None 0 0;
  (* GroupNameDisplay.cpp:14 (constructor), 83-89, 92-98, 101-104 *)
  mkSet (lit "GroupNameDisplay"%string) (lit "DisplayTextOrAccidentalText"%string) 0 None 0 0;
  (* Grouping.cpp:14 (constructor), 95-101, 86-92, 104-107 *)
  mkSet (lit "Grouping"%string) (lit "Feature"%string) 0 None 0 0;
  (* Harmony.cpp:24 (constructor), 118-124, 127-136, 139-143 *)
  mkSet (lit "Harmony"%string) (lit "HarmonyChordGroup"%string) 1 None 1 1;
  (* HarmonyChordGroup.cpp:19 (constructor), 208-214, 217-223, 226-229 *)
  mkSet (lit "HarmonyChordGroup"%string) (lit "Degree"%string) 0 None 0 0;
  (* HarpPedals.cpp:14 (constructor), 93-99, 81-90, 102-106 *)
  mkSet (lit "HarpPedals"%string) (lit "PedalTuning"%string) 1 None 1 1;
  (* Identification.cpp:19 (constructor), 122-128, 113-119, 131-134 *)
  mkSet (lit "Identification"%string) (lit "Creator"%string) 0 None 0 0;
  (* Identification.cpp:19 (constructor), 162-168, 153-159, 171-174 *)
  mkSet (lit "Identification"%string) (lit "Rights"%string) 0 None 0 0;
  (* Identification.cpp:19 (constructor), 256-262, 247-253, 265-268 *)
  mkSet (lit "Identification"%string) (lit "Relation"%string) 0 None 0 0;
  (* Key.cpp:23 (constructor), 134-140, 125-131, 143-146 *)
  mkSet (lit "Key"%string) (lit "KeyOctave"%string) 0 None 0 0;
  (* KeyChoice.cpp:15 (constructor), 118-124, 109-115, 127-130 *)
  mkSet (lit "KeyChoice"%string) (lit "NonTraditionalKey"%string) 0 None 0 0;
  (* LayoutGroup.cpp:16 (constructor), 159-165, 168-174, 177-180 *)
  mkSet (lit "LayoutGroup"%string) (lit "StaffLayout"%string) 0 None 0 0;
  (* MetronomeNote.cpp:17 (constructor), 106-112, 97-103, 115-118 *)
  mkSet (lit "MetronomeNote"%string) (lit "MetronomeDot"%string) 0 None 0 0;
  (* MetronomeNote.cpp:17 (constructor), 146-152, 137-143, 155-158 *)
  mkSet (lit "MetronomeNote"%string) (lit "MetronomeBeam"%string) 0 None 0 0;
  (* Miscellaneous.cpp:14 (constructor), 79-85, 70-76, 88-91 *)
  mkSet (lit "Miscellaneous"%string) (lit "MiscellaneousField"%string) 0 None 0 0;
  (* MusicDataGroup.cpp:14 (constructor), 65-71, 74-80, 83-86 *)
  mkSet (lit "MusicDataGroup"%string) (lit "MusicDataChoice"%string) 0 None 0 0;
  (* NormalNoteGroup.cpp:16 (constructor), 97-106, 109-115, 118-121 *)
  mkSet (lit "NormalNoteGroup"%string) (lit "Tie"%string) 0 (Some 2) 0 0;
  (* NormalTypeNormalDotGroup.cpp:15 (constructor), 88-94, 79-85, 97-100 *)
  mkSet (lit "NormalTypeNormalDotGroup"%string) (lit "NormalDot"%string) 0 None 0 0;
  (* Notations.cpp:31 (constructor), 124-130, 133-139, 142-145 *)
  mkSet (lit "Notations"%string) (lit "NotationsChoice"%string) 0 None 0 0;
  (* Note.cpp:43 (constructor), 301-307, 292-298, 310-313 *)
  mkSet (lit "Note"%string) (lit "Dot"%string) 0 None 0 0;
  (* Note.cpp:43 (constructor), 515-524, 506-512, 527-530 *)
  mkSet (lit "Note"%string) (lit "Beam"%string) 0 (Some 8) 0 0;
  (* Note.cpp:43 (constructor), 558-564, 549-555, 567-570 *)
  mkSet (lit "Note"%string) (lit "Notations"%string) 0 None 0 0;
  (* Note.cpp:43 (constructor), 598-604, 589-595, 607-610 *)
  mkSet (lit "Note"%string) (lit "Lyric"%string) 0 None 0 0;
  (* NoteRelationNote.cpp:15 (constructor), 76-82, 85-94, 97-101 *)
  mkSet (lit "NoteRelationNote"%string) (lit "MetronomeNote"%string) 1 None 1 1;
  (* NoteheadText.cpp:16 (constructor), 76-82, 67-73, 85-89 *)
  mkSet (lit "NoteheadText"%string) (lit "NoteheadTextChoice"%string) 1 None 0 1;
  (* Ornaments.cpp:16 (constructor), 80-86, 71-77, 89-92 *)
  mkSet (lit "Ornaments"%string) (lit "OrnamentsChoice"%string) 0 None 0 0;
  (* Ornaments.cpp:16 (constructor), 120-126, 111-117, 129-132 *)
  mkSet (lit "Ornaments"%string) (lit "AccidentalMark"%string) 0 None 0 0;
  (* PageLayout.cpp:16 (constructor), 110-119, 101-107, 122-125 *)
  mkSet (lit "PageLayout"%string) (lit "PageMargins"%string) 0 (Some 2) 0 0;
  (* PartAbbreviationDisplay.cpp:14 (constructor), 86-92, 95-101, 104-107 *)
  mkSet (lit "PartAbbreviationDisplay"%string) (lit "DisplayTextOrAccidentalText"%string) 0 None 0 0;
  (* PartList.cpp:16 (constructor), 74-80, 83-89, 92-95 *)
  mkSet (lit "PartList"%string) (lit "PartGroup"%string) 0 None 0 0;
  (* PartList.cpp:16 (constructor), 129-135, 138-144, 147-150 *)
  mkSet (lit "PartList"%string) (lit "PartGroupOrScorePart"%string) 0 None 0 0;
  (* PartNameDisplay.cpp:14 (constructor), 86-92, 95-101, 104-107 *)
  mkSet (lit "PartNameDisplay"%string) (lit "DisplayTextOrAccidentalText"%string) 0 None 0 0;
  (* PartwisePart.cpp:14 (constructor), 88-94, 97-106, 109-113 *)
  mkSet (lit "PartwisePart"%string) (lit "PartwiseMeasure"%string) 1 None 1 1;
  (* Properties.cpp:27 (constructor), 215-221, 206-212, 224-227 *)
  mkSet (lit "Properties"%string) (lit "Key"%string) 0 None 0 0;
  (* Properties.cpp:27 (constructor), 255-261, 246-252, 264-267 *)
  mkSet (lit "Properties"%string) (lit "Time"%string) 0 None 0 0;
  (* Properties.cpp:27 (constructor), 376-382, 367-373, 385-388 *)
  mkSet (lit "Properties"%string) (lit "Clef"%string) 0 None 0 0;
  (* Properties.cpp:27 (constructor), 416-422, 407-413, 425-428 *)
  mkSet (lit "Properties"%string) (lit "StaffDetails"%string) 0 None 0 0;
  (* Properties.cpp:27 (constructor), 456-462, 447-453, 465-468 *)
  mkSet (lit "Properties"%string) (lit "Transpose"%string) 0 None 0 0;
  (* Properties.cpp:27 (constructor), 496-502, 487-493, 505-508 *)
  mkSet (lit "Properties"%string) (lit "Directive"%string) 0 None 0 0;
  (* Properties.cpp:27 (constructor), 536-542, 527-533, 545-548 *)
  mkSet (lit "Properties"%string) (lit "MeasureStyle"%string) 0 None 0 0;
  (* Scordatura.cpp:14 (constructor), 77-83, 65-74, 86-90 *)
  mkSet (lit "Scordatura"%string) (lit "Accord"%string) 1 None 1 1;
  (* ScoreHeaderGroup.cpp:20 (constructor), 268-274, 277-283, 286-289 *)
  mkSet (lit "ScoreHeaderGroup"%string) (lit "Credit"%string) 0 None 0 0;
  (* ScorePart.cpp:23 (constructor), 266-272, 257-263, 275-278 *)
  mkSet (lit "ScorePart"%string) (lit "Group"%string) 0 None 0 0;
  (* ScorePart.cpp:23 (constructor), 306-312, 297-303, 315-318 *)
  mkSet (lit "ScorePart"%string) (lit "ScoreInstrument"%string) 0 None 0 0;
  (* ScorePart.cpp:23 (constructor), 337-343, 346-352, 355-358 *)
  mkSet (lit "ScorePart"%string) (lit "MidiDeviceInstrumentGroup"%string) 0 None 0 0;
  (* ScorePartwise.cpp:15 (constructor), 112-118, 100-109, 121-125 *)
  mkSet (lit "ScorePartwise"%string) (lit "PartwisePart"%string) 1 None 1 1;
  (* ScoreTimewise.cpp:17 (constructor), 114-120, 102-111, 123-127 *)
  mkSet (lit "ScoreTimewise"%string) (lit "TimewiseMeasure"%string) 1 None 1 1;
  (* Slash.cpp:15 (constructor), 110-116, 101-107, 119-122 *)
  mkSet (lit "Slash"%string) (lit "SlashDot"%string) 0 None 0 0;
  (* StaffDetails.cpp:18 (constructor), 185-191, 176-182, 194-197 *)
  mkSet (lit "StaffDetails"%string) (lit "StaffTuning"%string) 0 None 0 0;
  (* SyllabicTextGroup.cpp:17 (constructor), 123-129, 132-138, 141-144 *)
  mkSet (lit "SyllabicTextGroup"%string) (lit "ElisionSyllabicTextGroup"%string) 0 None 0 0;
  (* Technical.cpp:38 (constructor), 93-99, 102-108, 111-114 *)
  mkSet (lit "Technical"%string) (lit "TechnicalChoice"%string) 0 None 0 0;
  (* TimeChoice.cpp:18 (constructor), 102-108, 93-99, 111-115 *)
  mkSet (lit "TimeChoice"%string) (lit "TimeSignatureGroup"%string) 1 None 0 1;
  (* TimeModificationNormalTypeNormalDot.cpp:15 (constructor), 88-94, 79-85, 97-100 *)
  mkSet (lit "TimeModificationNormalTypeNormalDot"%string) (lit "NormalDot"%string) 0 None 0 0;
  (* TimewiseMeasure.cpp:14 (constructor), 88-94, 97-103, 106-109 *)
  mkSet (lit "TimewiseMeasure"%string) (lit "TimewisePart"%string) 1 None 0 0;
  (* TupletActual.cpp:16 (constructor), 149-155, 140-146, 158-161 *)
  mkSet (lit "TupletActual"%string) (lit "TupletDot"%string) 0 None 0 0;
  (* TupletNormal.cpp:16 (constructor), 149-155, 140-146, 158-161 *)
  mkSet (lit "TupletNormal"%string) (lit "TupletDot"%string) 0 None 0 0
 ].
