(** The content of a note: NoteWriter::getNote on the writing side, core::Note with its
    note choice and core::TimeModification in between, NoteReader and
    NoteFunctions::parseNote on the reading side, and api::PitchData.
    The values of the elements are handed from the writer to the reader without their
    text (C03, C04, C14, C15), but for the alter element (C36) and the list of font
    families that carries the misc data. The time, the chord, the staff and the voice of
    a note are the subject of C24-C27, its notations of C50; colour and font of the print
    data are left out: the writer writes neither. *)
From Coq Require Import List Ascii Bool String ZArith QArith Qabs.
From Verif Require Import Model.Base Model.Text Model.Strings Model.LongDouble Model.Integers Model.Decimals Model.Ticks Model.EnumLookup
  Model.CoreEnums Model.ApiEnums Model.ConverterTables Model.Alter Model.Dots Model.MeasureTypes Model.CommaInts Model.Equality Model.Notations.
Import ListNotations.
Local Open Scope Z_scope.

(** ** The API data *)

(** struct PitchData, include/mx/api/PitchData.h:68-137. *)
Record PitchData := mkPitch {
  step : api_Step; alter : Z; cents : Q; accidental : api_Accidental;
  isAccidentalParenthetical : bool; isAccidentalCautionary : bool; isAccidentalEditorial : bool; isAccidentalBracketed : bool;
  octave : Z }.

(** PitchData{}, api/PitchData.cpp:11-15, include/mx/api/PitchData.h:73-97. *)
Definition newPitch : PitchData := mkPitch api_Step_c 0 0 api_Accidental_none false false false false 4.

(** struct DurationData, include/mx/api/DurationData.h:65-77. *)
Record DurationData := mkDuration {
  durationName : api_DurationName; durationDots : Z; durationTimeTicks : Z; isTied : bool;
  timeModificationActualNotes : Z; timeModificationNormalNotes : Z;
  timeModificationNormalType : api_DurationName; timeModificationNormalTypeDots : Z }.

(** DurationData{}, api/DurationData.cpp:11-22. *)
Definition newDuration : DurationData :=
  mkDuration api_DurationName_unspecified 0 1 false 1 1 api_DurationName_unspecified 0.

(** class NoteData, include/mx/api/NoteData.h:76-129, without isChord,
    userRequestedVoiceNumber, tickTimePosition and noteAttachmentData (see above). Of the
    print data, printObject. *)
Record NoteContent := mkContent {
  isRest : bool; isMeasureRest : bool; isUnpitched : bool; isDisplayStepOctaveSpecified : bool;
  isTieStart : bool; isTieStop : bool; noteType : note_type; notehead : api_Notehead; pitchData : PitchData;
  stem : api_Stem; durationData : DurationData; beams : list api_Beam; notePosition : PositionData;
  printObject : api_Bool; miscData : list str }.

(** NoteData{}, api/NoteData.cpp:11-32. *)
Definition newContent : NoteContent :=
  mkContent false false false false false false NormalNote api_Notehead_normal newPitch api_Stem_unspecified newDuration []
    noPosition api_Bool_unspecified [].

(** PitchData::showAccidental, api/PitchData.cpp:17-30. *)
Definition showAccidental (p : PitchData) : PitchData :=
  mkPitch (step p) (alter p) (cents p)
    (if alter p =? -3 then api_Accidental_tripleFlat
     else if alter p =? -2 then api_Accidental_flatFlat
     else if alter p =? -1 then api_Accidental_flat
     else if alter p =? 0 then api_Accidental_natural
     else if alter p =? 1 then api_Accidental_sharp
     else if alter p =? 2 then api_Accidental_doubleSharp
     else if alter p =? 3 then api_Accidental_tripleSharp
     else api_Accidental_none)
    (isAccidentalParenthetical p) (isAccidentalCautionary p) (isAccidentalEditorial p) (isAccidentalBracketed p) (octave p).

(** PitchData::hideAccidental, api/PitchData.cpp:33-40. *)
Definition hideAccidental (p : PitchData) : PitchData :=
  mkPitch (step p) (alter p) (cents p) api_Accidental_none false false false false (octave p).

(** What the writer asks of the other notes of the voice: where they are, how long they
    last and which tuplets start and stop there. *)
Record sibling := mkSibling { sb_tick : Z; sb_ticks : Z; sb_starts : list TupletStart; sb_stops : list TupletStop }.

(** ** The element *)

(** core::Pitch: the step, the text of the alter element if it is there, the octave;
    core::Unpitched and core::Rest: the display step and octave, if they are there, and
    the measure attribute. *)
Inductive full_type :=
| FPitch (s : StepEnum) (a : option str) (o : Z)
| FUnpitched (d : option (StepEnum * Z))
| FRest (measure : option YesNo) (d : option (StepEnum * Z)).

(** core::NormalNoteGroup, GraceNoteGroup, CueNoteGroup: chord, what sounds, the duration
    (not of grace notes) and the ties (not of cue notes). *)
Record note_group := mkNoteGroup { ng_chord : bool; ng_full : full_type; ng_duration : Q; ng_ties : list StartStop }.

(** core::NoteChoice: which of the three groups counts. *)
Record note_choice := mkChoice { nc_kind : note_type; nc_normal : note_group; nc_grace : note_group; nc_cue : note_group }.

(** Footnote: its text and the list of font families. *)
Record xfootnote := mkFootnote { fn_value : str; fn_family : option (list str) }.

Record xaccidental := mkAccidental {
  ac_value : AccidentalValue; ac_parentheses : option YesNo; ac_cautionary : option YesNo; ac_editorial : option YesNo;
  ac_bracket : option YesNo }.

(** core::TimeModification: actual and normal notes; normal type with the number of dots. *)
Record xtime := mkXTime { tm_actual : Z; tm_normal : Z; tm_group : option (NoteTypeValue * nat) }.

(** core::Note, core/elements/Note.h. The contents of level, instrument, notehead-text,
    notations, lyric and play are opaque. *)
Record xnote := mkXNote {
  x_position : xposition; x_printObject : option YesNo; x_choice : note_choice; x_instrument : option Z;
  x_footnote : option xfootnote; x_level : option Z; x_voice : option str;
  x_type : option NoteTypeValue; x_dots : nat; x_accidental : option xaccidental; x_time : option xtime;
  x_stem : option StemValue; x_notehead : option NoteheadValue; x_noteheadText : option Z; x_staff : option Z;
  x_beams : list (option Z * BeamValue); x_notations : list Z; x_lyrics : list Z; x_play : option Z }.

(** NoteChoice, the groups, Duration and Pitch as they are made: core/elements/NoteChoice.cpp,
    FullNoteTypeChoice.cpp:16-21, Step.cpp:13-15, Octave.cpp:13-15. *)
Definition new_group : note_group := mkNoteGroup false (FPitch StepEnum_a None 0) 1 [].
Definition new_choice : note_choice := mkChoice NormalNote new_group new_group new_group.

(** makeNote(), core/elements/Note.cpp:43-69. *)
Definition new_xnote : xnote :=
  mkXNote noXPosition None new_choice None None None None None 0 None None None None None None [] [] [] None.

Definition group_of (c : note_choice) : note_group :=
  match nc_kind c with NormalNote => nc_normal c | GraceNote => nc_grace c | CueNote => nc_cue c end.

(** setChoice and the group of that choice changed to [g]. *)
Definition set_group (k : note_type) (g : note_group) (c : note_choice) : note_choice :=
  match k with
  | NormalNote => mkChoice k g (nc_grace c) (nc_cue c)
  | GraceNote => mkChoice k (nc_normal c) g (nc_cue c)
  | CueNote => mkChoice k (nc_normal c) (nc_grace c) g
  end.

(** ** Writing *)

(** NoteWriter::setFullNoteTypeChoice, NoteWriter.cpp:336-381. The display step and octave
    are set in the unpitched group, for rests too, but its presence flag never is: they
    are not written. *)
Definition write_full (n : NoteContent) : outcome full_type :=
  if isRest n then Ok (FRest (if isMeasureRest n then Some YesNo_yes else None) None)
  else if isUnpitched n then Ok (FUnpitched None)
  else
    omap (fun a => FPitch (stepMap_toCore (step (pitchData n))) a (ir_value (Integers.construct OctaveValue (octave (pitchData n)))))
      (writeAlter (alter (pitchData n)) (cents (pitchData n))).

(** The tie elements, NoteWriter.cpp:221-235 and :300-306, :319-325. *)
Definition write_ties (n : NoteContent) : list StartStop :=
  (if isTieStop n then [StartStop_stop] else []) ++ (if isTieStart n then [StartStop_start] else []).

(** NoteWriter::setNoteChoiceAndFullNoteGroup, NoteWriter.cpp:275-333. [chord]: the chord
    element is written (C26). *)
Definition write_choice (chord : bool) (n : NoteContent) : outcome note_choice :=
  obind (write_full n) (fun full =>
    match noteType n with
    | CueNote =>
        omap (fun d => set_group CueNote (mkNoteGroup chord full d []) new_choice)
          (decimal_value PositiveDivisionsValue (inject_Z (durationTimeTicks (durationData n))))
    | GraceNote => Ok (set_group GraceNote (mkNoteGroup chord full 1 (write_ties n)) new_choice)
    | NormalNote =>
        omap (fun d => set_group NormalNote (mkNoteGroup chord full d (write_ties n)) new_choice)
          (decimal_value PositiveDivisionsValue (inject_Z (durationTimeTicks (durationData n))))
    end).

(** NoteWriter.cpp:451-455: commas become underscores. *)
Definition no_commas (t : str) : str := map (fun c => if Ascii.eqb c "," then "_"%char else c) t.

Definition misc_prefix : str := lit "##misc-data##".

(** NoteWriter::setMiscData, NoteWriter.cpp:436-471. *)
Definition write_misc (l : list str) : option xfootnote :=
  match l with
  | [] => None
  | s :: r => Some (mkFootnote [] (Some (token_of (misc_prefix ++ no_commas s) :: map (fun t => token_of (no_commas t)) r)))
  end.

(** NoteWriter.cpp:104-114. *)
Fixpoint write_beams (i : Z) (l : list api_Beam) : list (option Z * BeamValue) :=
  match l with
  | [] => []
  | b :: r => (Some (ir_value (Integers.construct BeamLevel (i + 1))), beamMap_toCore b) :: write_beams (i + 1) r
  end.

(** siblingNote.noteAttachmentData.tupletStarts.size() == 1. *)
Definition is_one {A} (l : list A) : bool := match l with [_] => true | _ => false end.

(** The search for the start of the tuplet, NoteWriter.cpp:126-142: from the note itself
    back. [Throw]: the index is beyond the notes. *)
Fixpoint start_from (l : list sibling) (i : nat) : outcome (option nat) :=
  match nth_error l i with
  | None => Throw
  | Some s => if is_one (sb_starts s) then Ok (Some i) else match i with O => Ok None | S j => start_from l j end
  end.

Definition find_start (l : list sibling) (i : nat) : outcome (option nat) :=
  match l with [] => Ok None | _ => start_from l i end.

(** The search for its stop, NoteWriter.cpp:149-169. *)
Definition find_stop (l : list sibling) (i : nat) : option sibling := find (fun s => is_one (sb_stops s)) (skipn i l).

(** The names of findNormalNameAndDots, NoteWriter.cpp:497-552. *)
Definition api_name (n : duration_name) : api_DurationName :=
  match n with
  | Maxima => api_DurationName_maxima | Longa => api_DurationName_longa | Breve => api_DurationName_breve
  | Whole => api_DurationName_whole | Half => api_DurationName_half | Quarter => api_DurationName_quarter
  | Eighth => api_DurationName_eighth | Dur16th => api_DurationName_dur16th | Dur32nd => api_DurationName_dur32nd
  | Dur64th => api_DurationName_dur64th | Dur128th => api_DurationName_dur128th | Dur256th => api_DurationName_dur256th
  | Dur512th => api_DurationName_dur512th | Dur1024th => api_DurationName_dur1024th
  end.

(** NoteWriter.cpp:176-201. int arithmetic, whose overflow is undefined. What is thrown
    in debug builds only (MX_DEBUG_THROW) is left out. *)
Definition normal_group (ticksPerQuarter : Z) (s e : sibling) : outcome (option (NoteTypeValue * nat)) :=
  obind (as_int (sb_tick e + sb_ticks e)) (fun stop =>
  obind (as_int (stop - sb_tick s)) (fun distance =>
    match sb_starts s with
    | t :: _ =>
        if (0 <? distance) && negb (normalNumber t =? 0) && negb (actualNumber t =? 0) then
          Ok (option_map (fun p => (durationMap_toCore (api_name (fst p)), snd p))
                (findNormalNameAndDots ticksPerQuarter (ld (inject_Z distance / inject_Z (normalNumber t)))))
        else Ok None
    | [] => Ok None
    end)).

(** NoteWriter.cpp:116-211. timeModificationNormalType and its dots are not written. *)
Definition write_time (ticksPerQuarter : Z) (l : list sibling) (i : nat) (d : DurationData) : outcome (option xtime) :=
  if (0 <? timeModificationNormalNotes d) && (0 <? timeModificationActualNotes d)
     && ((1 <? timeModificationNormalNotes d) || (1 <? timeModificationActualNotes d)) then
    obind (find_start l i) (fun s =>
      omap (fun g => Some (mkXTime (ir_value (Integers.construct NonNegativeInteger (timeModificationActualNotes d)))
                             (ir_value (Integers.construct NonNegativeInteger (timeModificationNormalNotes d))) g))
        (match s with
         | None => Ok None
         | Some j =>
             match nth_error l j, find_stop l j with
             | Some a, Some b => normal_group ticksPerQuarter a b
             | _, _ => Ok None
             end
         end))
  else Ok None.

(** NoteAttributes.h has neither halign, valign nor placement. *)
Definition note_declares := mkDeclares false false false.

(** NoteWriter::getNote, NoteWriter.cpp:78-215, with setDurationNameAndDots (:401-413),
    setNotehead (:415-422), setStemDirection (:424-433). [chord], [staff] and [voice]: what
    C26 and C27 say of them. printData is not written, nor are the four flags of the
    accidental. *)
Definition write_note (ticksPerQuarter : Z) (chord : bool) (staff : option Z) (voice : option str) (l : list sibling) (i : nat)
    (n : NoteContent) : outcome xnote :=
  obind (write_choice chord n) (fun c =>
  obind (setAttributesFromPositionData note_declares (notePosition n)) (fun p =>
  obind (write_time ticksPerQuarter l i (durationData n)) (fun t =>
  Ok (mkXNote p None c None (write_misc (miscData n)) None voice
       (if negb (isRest n) || negb (isMeasureRest n) then Some (durationMap_toCore (durationName (durationData n))) else None)
       (Z.to_nat (durationDots (durationData n)))
       (match accidental (pitchData n) with
        | api_Accidental_none => None
        | a => Some (mkAccidental (accidentalMap_toCore a) None None None None)
        end)
       t
       (match stem n with api_Stem_unspecified => None | s => Some (stemMap_toCore s) end)
       (match notehead n with api_Notehead_normal => None | h => Some (noteheadMap_toCore h) end)
       None staff (write_beams 0 (beams n)) [] [] None)))).

(** ** The children of the element *)

(** core/CommaSeparatedText.cpp:83-98: the values, joined by commas. *)
Fixpoint family_text (l : list str) : str :=
  match l with
  | [] => []
  | [t] => t
  | t :: r => t ++ ","%char :: family_text r
  end.

(** std::getline( iss, token, ',' ) to the end of the text: the pieces between the
    commas; a last piece is one only if it is not empty. *)
Definition pieces (t : str) : list str :=
  match rev (split_comma t) with [] :: r => rev r | _ => split_comma t end.

(** CommaSeparatedText::parse, core/CommaSeparatedText.cpp:35-45. *)
Definition family_parse (t : str) : list str := map token_of (pieces t).

Inductive nchild :=
| CGrace | CCue | CChord | CFull (f : full_type) | CDuration (d : Q) | CTie (t : StartStop)
| CInstrument (i : Z) | CFootnote (v : str) (family : option str) | CLevel (i : Z) | CVoice (t : str)
| CType (t : NoteTypeValue) | CDot | CAccidental (a : xaccidental) | CTime (t : xtime) | CStem (s : StemValue)
| CNotehead (h : NoteheadValue) | CNoteheadText (i : Z) | CStaff (i : Z) | CBeam (b : option Z * BeamValue)
| CNotations (i : Z) | CLyric (i : Z) | CPlay (i : Z) | CUnknown.

Definition one {A} (f : A -> nchild) (o : option A) : list nchild := match o with Some v => [f v] | None => [] end.

(** NoteChoice.cpp:48-66, GraceNoteGroup.cpp:47-59, CueNoteGroup.cpp:47-56,
    NormalNoteGroup.cpp:47-58, FullNoteGroup.cpp:46-56. *)
Definition stream_choice (c : note_choice) : list nchild :=
  let g := group_of c in
  let full := (if ng_chord g then [CChord] else []) ++ [CFull (ng_full g)] in
  match nc_kind c with
  | GraceNote => CGrace :: full ++ map CTie (ng_ties g)
  | CueNote => CCue :: full ++ [CDuration (ng_duration g)]
  | NormalNote => full ++ CDuration (ng_duration g) :: map CTie (ng_ties g)
  end.

(** Note::streamContents, core/elements/Note.cpp:97-175. *)
Definition stream_note (x : xnote) : list nchild :=
  stream_choice (x_choice x) ++ one CInstrument (x_instrument x) ++
  one (fun f => CFootnote (fn_value f) (option_map family_text (fn_family f))) (x_footnote x) ++ one CLevel (x_level x) ++
  one CVoice (x_voice x) ++ one CType (x_type x) ++ repeat CDot (x_dots x) ++ one CAccidental (x_accidental x) ++
  one CTime (x_time x) ++ one CStem (x_stem x) ++ one CNotehead (x_notehead x) ++ one CNoteheadText (x_noteheadText x) ++
  one CStaff (x_staff x) ++ map CBeam (x_beams x) ++ map CNotations (x_notations x) ++ map CLyric (x_lyrics x) ++
  one CPlay (x_play x).

(** Note::parseFullNoteGroup, core/elements/Note.cpp:901-951: None is a failure. *)
Definition parse_full (g : note_group) (l : list nchild) : option (note_group * list nchild) :=
  let (g1, l1) := match l with
                  | CChord :: r => (mkNoteGroup true (ng_full g) (ng_duration g) (ng_ties g), r)
                  | _ => (g, l)
                  end in
  match l1 with
  | CFull f :: r => Some (mkNoteGroup (ng_chord g1) f (ng_duration g1) (ng_ties g1), r)
  | _ => None
  end.

(** Note.cpp:846-864: the duration, which is required. *)
Definition parse_duration (g : note_group) (l : list nchild) : option (note_group * list nchild) :=
  match l with
  | CDuration d :: r => Some (mkNoteGroup (ng_chord g) (ng_full g) d (ng_ties g), r)
  | _ => None
  end.

(** Note.cpp:873-890: the ties. *)
Fixpoint parse_ties (g : note_group) (l : list nchild) : note_group * list nchild :=
  match l with
  | CTie t :: r => parse_ties (mkNoteGroup (ng_chord g) (ng_full g) (ng_duration g) (ng_ties g ++ [t])) r
  | _ => (g, l)
  end.

(** Note::parseNoteChoice, core/elements/Note.cpp:810-898. *)
Definition parse_choice (c : note_choice) (l : list nchild) : option (note_choice * list nchild) :=
  match l with
  | CGrace :: r =>
      match parse_full (nc_grace c) r with
      | Some (g, r1) => let (g2, r2) := parse_ties g r1 in Some (set_group GraceNote g2 c, r2)
      | None => None
      end
  | CCue :: r =>
      match parse_full (nc_cue c) r with
      | Some (g, r1) =>
          match parse_duration g r1 with Some (g2, r2) => Some (set_group CueNote g2 c, r2) | None => None end
      | None => None
      end
  | _ =>
      match parse_full (nc_normal c) l with
      | Some (g, r1) =>
          match parse_duration g r1 with
          | Some (g2, r2) => let (g3, r3) := parse_ties g2 r2 in Some (set_group NormalNote g3 c, r3)
          | None => None
          end
      | None => None
      end
  end.

Definition set_choice (v : note_choice) (x : xnote) : xnote :=
  mkXNote (x_position x) (x_printObject x) v (x_instrument x) (x_footnote x) (x_level x) (x_voice x) (x_type x) (x_dots x) (x_accidental x) (x_time x) (x_stem x) (x_notehead x) (x_noteheadText x) (x_staff x) (x_beams x) (x_notations x) (x_lyrics x) (x_play x).
Definition set_instrument (v : Z) (x : xnote) : xnote :=
  mkXNote (x_position x) (x_printObject x) (x_choice x) (Some v) (x_footnote x) (x_level x) (x_voice x) (x_type x) (x_dots x) (x_accidental x) (x_time x) (x_stem x) (x_notehead x) (x_noteheadText x) (x_staff x) (x_beams x) (x_notations x) (x_lyrics x) (x_play x).
Definition set_footnote (v : xfootnote) (x : xnote) : xnote :=
  mkXNote (x_position x) (x_printObject x) (x_choice x) (x_instrument x) (Some v) (x_level x) (x_voice x) (x_type x) (x_dots x) (x_accidental x) (x_time x) (x_stem x) (x_notehead x) (x_noteheadText x) (x_staff x) (x_beams x) (x_notations x) (x_lyrics x) (x_play x).
Definition set_level (v : Z) (x : xnote) : xnote :=
  mkXNote (x_position x) (x_printObject x) (x_choice x) (x_instrument x) (x_footnote x) (Some v) (x_voice x) (x_type x) (x_dots x) (x_accidental x) (x_time x) (x_stem x) (x_notehead x) (x_noteheadText x) (x_staff x) (x_beams x) (x_notations x) (x_lyrics x) (x_play x).
Definition set_voice (v : str) (x : xnote) : xnote :=
  mkXNote (x_position x) (x_printObject x) (x_choice x) (x_instrument x) (x_footnote x) (x_level x) (Some v) (x_type x) (x_dots x) (x_accidental x) (x_time x) (x_stem x) (x_notehead x) (x_noteheadText x) (x_staff x) (x_beams x) (x_notations x) (x_lyrics x) (x_play x).
Definition set_type (v : NoteTypeValue) (x : xnote) : xnote :=
  mkXNote (x_position x) (x_printObject x) (x_choice x) (x_instrument x) (x_footnote x) (x_level x) (x_voice x) (Some v) (x_dots x) (x_accidental x) (x_time x) (x_stem x) (x_notehead x) (x_noteheadText x) (x_staff x) (x_beams x) (x_notations x) (x_lyrics x) (x_play x).
Definition set_dots  (x : xnote) : xnote :=
  mkXNote (x_position x) (x_printObject x) (x_choice x) (x_instrument x) (x_footnote x) (x_level x) (x_voice x) (x_type x) (S (x_dots x)) (x_accidental x) (x_time x) (x_stem x) (x_notehead x) (x_noteheadText x) (x_staff x) (x_beams x) (x_notations x) (x_lyrics x) (x_play x).
Definition set_accidental (v : xaccidental) (x : xnote) : xnote :=
  mkXNote (x_position x) (x_printObject x) (x_choice x) (x_instrument x) (x_footnote x) (x_level x) (x_voice x) (x_type x) (x_dots x) (Some v) (x_time x) (x_stem x) (x_notehead x) (x_noteheadText x) (x_staff x) (x_beams x) (x_notations x) (x_lyrics x) (x_play x).
Definition set_time (v : xtime) (x : xnote) : xnote :=
  mkXNote (x_position x) (x_printObject x) (x_choice x) (x_instrument x) (x_footnote x) (x_level x) (x_voice x) (x_type x) (x_dots x) (x_accidental x) (Some v) (x_stem x) (x_notehead x) (x_noteheadText x) (x_staff x) (x_beams x) (x_notations x) (x_lyrics x) (x_play x).
Definition set_stem (v : StemValue) (x : xnote) : xnote :=
  mkXNote (x_position x) (x_printObject x) (x_choice x) (x_instrument x) (x_footnote x) (x_level x) (x_voice x) (x_type x) (x_dots x) (x_accidental x) (x_time x) (Some v) (x_notehead x) (x_noteheadText x) (x_staff x) (x_beams x) (x_notations x) (x_lyrics x) (x_play x).
Definition set_notehead (v : NoteheadValue) (x : xnote) : xnote :=
  mkXNote (x_position x) (x_printObject x) (x_choice x) (x_instrument x) (x_footnote x) (x_level x) (x_voice x) (x_type x) (x_dots x) (x_accidental x) (x_time x) (x_stem x) (Some v) (x_noteheadText x) (x_staff x) (x_beams x) (x_notations x) (x_lyrics x) (x_play x).
Definition set_noteheadText (v : Z) (x : xnote) : xnote :=
  mkXNote (x_position x) (x_printObject x) (x_choice x) (x_instrument x) (x_footnote x) (x_level x) (x_voice x) (x_type x) (x_dots x) (x_accidental x) (x_time x) (x_stem x) (x_notehead x) (Some v) (x_staff x) (x_beams x) (x_notations x) (x_lyrics x) (x_play x).
Definition set_staff (v : Z) (x : xnote) : xnote :=
  mkXNote (x_position x) (x_printObject x) (x_choice x) (x_instrument x) (x_footnote x) (x_level x) (x_voice x) (x_type x) (x_dots x) (x_accidental x) (x_time x) (x_stem x) (x_notehead x) (x_noteheadText x) (Some v) (x_beams x) (x_notations x) (x_lyrics x) (x_play x).
Definition set_beams (v : option Z * BeamValue) (x : xnote) : xnote :=
  mkXNote (x_position x) (x_printObject x) (x_choice x) (x_instrument x) (x_footnote x) (x_level x) (x_voice x) (x_type x) (x_dots x) (x_accidental x) (x_time x) (x_stem x) (x_notehead x) (x_noteheadText x) (x_staff x) (x_beams x ++ [v]) (x_notations x) (x_lyrics x) (x_play x).
Definition set_notations (v : Z) (x : xnote) : xnote :=
  mkXNote (x_position x) (x_printObject x) (x_choice x) (x_instrument x) (x_footnote x) (x_level x) (x_voice x) (x_type x) (x_dots x) (x_accidental x) (x_time x) (x_stem x) (x_notehead x) (x_noteheadText x) (x_staff x) (x_beams x) (x_notations x ++ [v]) (x_lyrics x) (x_play x).
Definition set_lyrics (v : Z) (x : xnote) : xnote :=
  mkXNote (x_position x) (x_printObject x) (x_choice x) (x_instrument x) (x_footnote x) (x_level x) (x_voice x) (x_type x) (x_dots x) (x_accidental x) (x_time x) (x_stem x) (x_notehead x) (x_noteheadText x) (x_staff x) (x_beams x) (x_notations x) (x_lyrics x ++ [v]) (x_play x).
Definition set_play (v : Z) (x : xnote) : xnote :=
  mkXNote (x_position x) (x_printObject x) (x_choice x) (x_instrument x) (x_footnote x) (x_level x) (x_voice x) (x_type x) (x_dots x) (x_accidental x) (x_time x) (x_stem x) (x_notehead x) (x_noteheadText x) (x_staff x) (x_beams x) (x_notations x) (x_lyrics x) (Some v).

(** One child that is not part of the note choice, Note.cpp:676-797; the first of several
    dots, beams, notations or lyrics replaces one that is there: none is. The elements of
    the editorial group are taken one by one: parseEditorialVoiceGroup (Note.cpp:954-985)
    takes the neighbouring ones in one go, with the same effect. *)
Definition read_child (c : nchild) (x : xnote) : option xnote :=
  match c with
  | CInstrument i => Some (set_instrument i x)
  | CFootnote v f => Some (set_footnote (mkFootnote v (option_map family_parse f)) x)
  | CLevel i => Some (set_level i x)
  | CVoice t => Some (set_voice t x)
  | CType t => Some (set_type t x)
  | CDot => Some (set_dots x)
  | CAccidental a => Some (set_accidental a x)
  | CTime t => Some (set_time t x)
  | CStem s => Some (set_stem s x)
  | CNotehead h => Some (set_notehead h x)
  | CNoteheadText i => Some (set_noteheadText i x)
  | CStaff i => Some (set_staff i x)
  | CBeam b => Some (set_beams b x)
  | CNotations i => Some (set_notations i x)
  | CLyric i => Some (set_lyrics i x)
  | CPlay i => Some (set_play i x)
  | _ => None
  end.

(** The loop of Note::fromXElementImpl, core/elements/Note.cpp:652-809. Each round takes at
    least one child: their number is enough fuel. *)
Fixpoint read_children (fuel : nat) (l : list nchild) (found : bool) (x : xnote) : option xnote :=
  match fuel, l with
  | _, [] => if found then Some x else None
  | O, _ => None
  | S f, c :: r =>
      match c with
      | CFull _ | CChord | CGrace | CCue =>
          match parse_choice (x_choice x) l with
          | Some (ch, rest) => read_children f rest true (set_choice ch x)
          | None => None
          end
      | _ => match read_child c x with Some y => read_children f r found y | None => None end
      end
  end.

(** [p], [o]: the attributes. *)
Definition read_note (p : xposition) (o : option YesNo) (l : list nchild) : option xnote :=
  read_children (List.length l) l false
    (mkXNote p o new_choice None None None None None 0 None None None None None None [] [] [] None).

(** The children of a time modification, core/elements/TimeModification.cpp:125-161; other
    children are passed over. NonNegativeInteger{} is 0, NormalType{} an eighth. *)
Inductive tchild := TActual (n : Z) | TNormal (n : Z) | TType (t : NoteTypeValue) | TDot | TOther.

Definition read_time_child (x : xtime) (c : tchild) : xtime :=
  match c with
  | TActual n => mkXTime n (tm_normal x) (tm_group x)
  | TNormal n => mkXTime (tm_actual x) n (tm_group x)
  | TType t => mkXTime (tm_actual x) (tm_normal x) (Some (t, match tm_group x with Some (_, d) => d | None => O end))
  | TDot => mkXTime (tm_actual x) (tm_normal x)
              (Some (match tm_group x with Some (t, d) => (t, S d) | None => (NoteTypeValue_eighth, 1%nat) end))
  | TOther => x
  end.

Definition read_time (l : list tchild) : xtime := fold_left read_time_child l (mkXTime 0 0 None).

(** TimeModification.cpp:49-63, NormalTypeNormalDotGroup.cpp:45-55. *)
Definition stream_time (x : xtime) : list tchild :=
  TActual (tm_actual x) :: TNormal (tm_normal x) ::
  match tm_group x with Some (t, d) => TType t :: repeat TDot d | None => [] end.

(** ** Reading *)

(** std::map<int, BeamValue>: an association list in the order of the keys. *)
Fixpoint map_set (k : Z) (v : BeamValue) (m : list (Z * BeamValue)) : list (Z * BeamValue) :=
  match m with
  | [] => [(k, v)]
  | (j, w) :: r => if k <? j then (k, v) :: m else if k =? j then (k, v) :: r else (j, w) :: map_set k v r
  end.

Definition map_has (k : Z) (m : list (Z * BeamValue)) : bool := existsb (fun p => fst p =? k) m.

(** The loop of NoteReader::setBeams, NoteReader.cpp:287-311. *)
Fixpoint beam_map (calculated : Z) (l : list (option Z * BeamValue)) (m : list (Z * BeamValue)) : list (Z * BeamValue) :=
  match l with
  | [] => m
  | (number, v) :: r =>
      let key := match number with
                 | Some n => if map_has n m then calculated else n
                 | None => calculated
                 end in
      beam_map (calculated + 1) r (map_set key v m)
  end.

(** NoteReader.cpp:281-319. *)
Definition read_beams (l : list (option Z * BeamValue)) : list BeamValue := map snd (beam_map 0 l []).

Definition is_yes (o : option YesNo) : bool := match o with Some YesNo_yes => true | _ => false end.

(** NoteReader::setTie, NoteReader.cpp:403-417. *)
Definition is_start (t : StartStop) : bool := match t with StartStop_start => true | _ => false end.
Definition is_stop (t : StartStop) : bool := match t with StartStop_stop => true | _ => false end.

(** areSame, ApiCommon.h:19-22. *)
Definition areSame (a b : Q) : bool := negb (Qle_bool epsilon (Qabs (ld (a - b)))).

(** NoteFunctions::deriveNoteTypeFromDurationValue, NoteFunctions.cpp:211-268: in this
    order, without 256th, breve, longa and maxima. *)
Definition names_derived : list duration_name :=
  [Quarter; Half; Whole; Eighth; Dur16th; Dur32nd; Dur64th; Dur128th; Dur512th; Dur1024th].

Definition deriveNoteType (global : Z) (d : Q) : api_DurationName :=
  match find (fun n => areSame d (ld (dur_quarters n * inject_Z global))) names_derived with
  | Some n => api_name n
  | None => api_DurationName_unspecified
  end.

(** NoteReader::getDurationValue, NoteReader.cpp:134-165. *)
Definition duration_value (x : xnote) : Q :=
  match nc_kind (x_choice x) with GraceNote => 0 | _ => ng_duration (group_of (x_choice x)) end.

(** NoteReader::setDurationType, NoteReader.cpp:267-274, with the initial maxima (:73). *)
Definition duration_type (x : xnote) : NoteTypeValue := match x_type x with Some t => t | None => NoteTypeValue_maxima end.

(** NoteReader::setTimeModification, NoteReader.cpp:322-347: actual, normal, type, dots. *)
Definition reader_time (x : xnote) : Z * Z * NoteTypeValue * nat :=
  match x_time x with
  | None => (1, 1, NoteTypeValue_maxima, 0%nat)
  | Some t =>
      match tm_group t with
      | Some (ty, d) => (tm_actual t, tm_normal t, ty, d)
      | None => (tm_actual t, tm_normal t, duration_type x, 0%nat)
      end
  end.

(** NoteFunctions.cpp:156-186: the duration data of the note. *)
Definition read_duration (global current : Z) (x : xnote) : outcome DurationData :=
  let '(actual, normal, ty, dots) := reader_time x in
  let specified := (0 <? Z.of_nat dots) && negb (NoteTypeValue_value ty =? NoteTypeValue_value (duration_type x)) in
  omap (fun ticks =>
    mkDuration
      (match x_type x with Some t => durationMap_toApi t | None => deriveNoteType global (duration_value x) end)
      (Z.of_nat (x_dots x)) ticks false actual normal
      (if specified then durationMap_toApi ty else api_DurationName_unspecified) (if specified then Z.of_nat dots else 0))
    (convertDuration global current (duration_value x)).

(** NoteReader::setRestPitchUnpitchedItems, NoteReader.cpp:168-232: step, alter, cents and
    octave; those of a rest or an unpitched note without display are c, 0, 0 and 4. *)
Definition reader_pitch (f : full_type) : outcome (StepEnum * Z * Q * Z) :=
  match f with
  | FRest _ (Some (s, o)) | FUnpitched (Some (s, o)) => Ok (s, 0, 0%Q, o)
  | FRest _ None | FUnpitched None => Ok (StepEnum_c, 0, 0%Q, 4)
  | FPitch s a o => omap (fun p => (s, fst p, snd p, o)) (readAlter a)
  end.

(** NoteFunctions.cpp:127-143. *)
Definition read_pitch (x : xnote) : outcome PitchData :=
  omap (fun r : StepEnum * Z * Q * Z =>
    let '(s, a, c, o) := r in
    match x_accidental x with
    | None => mkPitch (stepMap_toApi s) a c api_Accidental_none false false false false o
    | Some ac => mkPitch (stepMap_toApi s) a c (accidentalMap_toApi (ac_value ac)) (is_yes (ac_parentheses ac))
                   (is_yes (ac_cautionary ac)) (is_yes (ac_editorial ac)) (is_yes (ac_bracket ac)) o
    end)
    (reader_pitch (ng_full (group_of (x_choice x)))).

(** NoteFunctions::parseMiscData, NoteFunctions.cpp:350-398. *)
Definition parse_misc (o : option xfootnote) : list str :=
  match o with
  | Some (mkFootnote [] (Some (t :: r))) =>
      if str_eqb (firstn 13 t) misc_prefix then skipn 13 t :: r else []
  | _ => []
  end.

Definition is_rest (f : full_type) : bool := match f with FRest _ _ => true | _ => false end.
Definition is_measure_rest (f : full_type) : bool := match f with FRest m _ => is_yes m | _ => false end.
Definition is_unpitched (f : full_type) : bool := match f with FUnpitched _ => true | _ => false end.
Definition has_display (f : full_type) : bool :=
  match f with FRest _ (Some _) | FUnpitched (Some _) => true | _ => false end.

(** NoteFunctions::parseNote, NoteFunctions.cpp:81-208, with NoteReader. [global] and
    [current]: the ticks per quarter of the score and the divisions in force. *)
Definition parse_note (global current : Z) (x : xnote) : outcome NoteContent :=
  let c := x_choice x in
  let full := ng_full (group_of c) in
  let ties := match nc_kind c with CueNote => [] | _ => ng_ties (group_of c) end in
  obind (read_pitch x) (fun pitch =>
  obind (read_duration global current x) (fun d =>
  Ok (mkContent (is_rest full) (is_measure_rest full) (is_unpitched full) (has_display full)
       (existsb is_start ties) (existsb is_stop ties) (nc_kind c)
       (noteheadMap_toApi (match x_notehead x with Some h => h | None => NoteheadValue_normal end))
       pitch (match x_stem x with Some s => stemMap_toApi s | None => api_Stem_unspecified end) d
       (map beamMap_toApi (read_beams (x_beams x))) (getPositionData (x_position x))
       (match x_printObject x with Some b => boolMap_toApi b | None => api_Bool_unspecified end)
       (parse_misc (x_footnote x))))).

(** A note written into its element and read back from the children of it. *)
Definition note_back (ticks : Z) (chord : bool) (staff : option Z) (voice : option str) (l : list sibling) (i : nat)
    (n : NoteContent) : outcome (option NoteContent) :=
  obind (write_note ticks chord staff voice l i n) (fun x =>
    match read_note (x_position x) (x_printObject x) (stream_note x) with
    | Some y => omap Some (parse_note ticks ticks y)
    | None => Ok None
    end).
