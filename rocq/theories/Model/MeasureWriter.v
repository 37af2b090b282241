(** impl/MeasureWriter.cpp with impl/PropertiesWriter.cpp, impl/DirectionWriter.cpp and
    the parts of impl/NoteWriter.cpp about time, type, chords, staff and voice. *)
From Coq Require Import List ZArith QArith Bool.
From Verif Require Import Model.Base Model.Text Model.Strings Model.Ticks Model.Decimals Model.CoreEnums Model.ApiEnums
  Model.ConverterTables Model.MarkData Model.MeasureTypes.
Import ListNotations.
Open Scope Z_scope.

(** What the writer knows besides the measure: MeasureCursor (impl/MeasureCursor.h,
    impl/Cursor.h) and ScoreWriter. [wc_prints]: the number of <print> elements that
    writeSystemInfo and writePageInfo add (:271-371), whose contents are left out;
    [wc_transposition]: the transposition of the part if it has one in use. *)
Record wctx := mkWctx {
  wc_numStaves : Z;
  wc_ticksPerQuarter : Z;
  wc_measureIndex : Z;
  wc_isFirst : bool;
  wc_prints : nat;
  wc_transposition : option Z
}.

(** The state: the cursor, isChordActive of myPreviousCursor, the Properties being
    collected, the iterators (as what they still have before them). *)
Record wstate := mkW {
  w_tick : Z;
  w_staff : Z;
  w_voice : Z;
  w_chord : bool;
  w_previousChord : bool;
  w_props : properties;
  w_measureKeys : list KeyData;
  w_clefs : list ClefData;
  w_staffKeys : list KeyData;
  w_directions : list DirectionData
}.

Definition set_tick (t : Z) (s : wstate) : wstate :=
  mkW t (w_staff s) (w_voice s) (w_chord s) (w_previousChord s) (w_props s) (w_measureKeys s) (w_clefs s) (w_staffKeys s) (w_directions s).
Definition set_voice (v : Z) (s : wstate) : wstate :=
  mkW (w_tick s) (w_staff s) v (w_chord s) (w_previousChord s) (w_props s) (w_measureKeys s) (w_clefs s) (w_staffKeys s) (w_directions s).
Definition set_chord (c : bool) (s : wstate) : wstate :=
  mkW (w_tick s) (w_staff s) (w_voice s) c (w_previousChord s) (w_props s) (w_measureKeys s) (w_clefs s) (w_staffKeys s) (w_directions s).
Definition set_previous (s : wstate) : wstate :=
  mkW (w_tick s) (w_staff s) (w_voice s) (w_chord s) (w_chord s) (w_props s) (w_measureKeys s) (w_clefs s) (w_staffKeys s) (w_directions s).
Definition set_props (p : properties) (s : wstate) : wstate :=
  mkW (w_tick s) (w_staff s) (w_voice s) (w_chord s) (w_previousChord s) p (w_measureKeys s) (w_clefs s) (w_staffKeys s) (w_directions s).
Definition set_measureKeys (k : list KeyData) (s : wstate) : wstate :=
  mkW (w_tick s) (w_staff s) (w_voice s) (w_chord s) (w_previousChord s) (w_props s) k (w_clefs s) (w_staffKeys s) (w_directions s).
Definition set_clefs (c : list ClefData) (s : wstate) : wstate :=
  mkW (w_tick s) (w_staff s) (w_voice s) (w_chord s) (w_previousChord s) (w_props s) (w_measureKeys s) c (w_staffKeys s) (w_directions s).
Definition set_staffKeys (k : list KeyData) (s : wstate) : wstate :=
  mkW (w_tick s) (w_staff s) (w_voice s) (w_chord s) (w_previousChord s) (w_props s) (w_measureKeys s) (w_clefs s) k (w_directions s).
Definition set_directions (d : list DirectionData) (s : wstate) : wstate :=
  mkW (w_tick s) (w_staff s) (w_voice s) (w_chord s) (w_previousChord s) (w_props s) (w_measureKeys s) (w_clefs s) (w_staffKeys s) d.

(** A writing step: the elements added to the measure and the new state. *)
Definition W := wstate -> outcome (list music_data * wstate).

Definition w_done : W := fun s => Ok ([], s).
Definition w_set (f : wstate -> wstate) : W := fun s => Ok ([], f s).
Definition w_add (l : list music_data) : W := fun s => Ok (l, s).
Definition w_then (a b : W) : W :=
  fun s => obind (a s) (fun r => obind (b (snd r)) (fun q => Ok (fst r ++ fst q, snd q))).

Declare Scope w_scope.
Notation "a ;; b" := (w_then a b) (at level 61, right associativity) : w_scope.
Open Scope w_scope.

(** The value an element holds after setValue( XValue{ static_cast<DecimalType>( n ) } ). *)
Definition element_value (t : decimal_type) (n : Z) : outcome Q :=
  omap getValue (construct t (inject_Z n)).

(** Properties::hasContents, core/elements/Properties.cpp: nothing has been set. *)
Definition isPropertiesEmpty (p : properties) : bool :=
  match p with mkProps None [] [] None [] [] => true | _ => false end.

(** PropertiesWriter::flushBuffer, PropertiesWriter.cpp:119-129. *)
Definition flushBuffer : W := fun s =>
  Ok (if isPropertiesEmpty (w_props s) then [] else [MProperties (w_props s)], set_props empty_props s).

(** staffIndex >= 0: hasNumber, number = staffIndex + 1, PropertiesWriter.cpp:157-161,
    263-267. StaffNumber is at least 1. *)
Definition number_of (staffIndex : Z) : option Z := if 0 <=? staffIndex then Some (staffIndex + 1) else None.

(** PropertiesWriter::writeKey, PropertiesWriter.cpp:151-173. *)
Definition writeKey (staffIndex : Z) (k : KeyData) (s : wstate) : wstate :=
  let p := w_props s in
  set_props (mkProps (p_divisions p) (p_keys p ++ [mkXKey (number_of staffIndex) (k_custom k) (k_rest k)])
               (p_times p) (p_staves p) (p_clefs p) (p_transpose p)) s.

(** PropertiesWriter::writeClef, PropertiesWriter.cpp:259-284. *)
Definition writeClef (staffIndex : Z) (c : ClefData) (s : wstate) : wstate :=
  let p := w_props s in
  set_props (mkProps (p_divisions p) (p_keys p) (p_times p) (p_staves p)
               (p_clefs p ++ [mkXClef (number_of staffIndex) (c_rest c)]) (p_transpose p)) s.

(** PropertiesWriter::writeTime, PropertiesWriter.cpp:220-249. *)
Definition time_element (t : TimeSignatureData) : xtime :=
  mkXTime (Some (print_int (ts_beats t), print_int (ts_beatType t)))
    (match ts_symbol t with SymbolUnspecified => None | y => Some (Some y) end)
    (match ts_display t with BoolUnspecified => None | BoolYes => Some true | BoolNo => Some false end).

(** DirectionWriter::getDirectionLikeThings, DirectionWriter.cpp:112-334: the
    direction-types in the order they are added. *)
Definition mark_types (m : api_MarkType * Z) : list direction_type :=
  (if isMarkDynamic (fst m) then [DtDynamics (fst m) (snd m)] else []) ++
  (if isMarkPedal (fst m) then
     [if api_MarkType_value (fst m) =? api_MarkType_value api_MarkType_damp then DtPedalStop (snd m) else DtPedalStart (snd m)]
   else []).

Definition tempo_types (l : list TempoData) : outcome (list direction_type) :=
  fold_right (fun t r => obind r (fun ts => if t_bpm t then Ok (DtMetronome (t_rest t) :: ts) else Throw)) (Ok []) l.

Definition direction_types (d : DirectionData) : outcome (list direction_type) :=
  obind (tempo_types (d_tempos d)) (fun tempos =>
    Ok (flat_map mark_types (d_marks d) ++ map DtWedgeStop (d_wedgeStops d) ++ map DtWedgeStart (d_wedgeStarts d) ++
        map DtOttavaStop (d_ottavaStops d) ++ map DtOttavaStart (d_ottavaStarts d) ++ map DtBracketStart (d_bracketStarts d) ++
        tempos ++ match d_words d with [] => [] | w => [DtWords w] end)).

(** DirectionWriter::getDirectionLikeThings, DirectionWriter.cpp:81-110,336-351 and
    createHarmonyElements, :367-390: at most one <direction> and one <harmony>. *)
Definition direction_elements (d : DirectionData) (s : wstate) : outcome (list music_data) :=
  obind (as_int (d_tick d - w_tick s)) (fun offset =>
    obind (if offset =? 0 then Ok None else omap Some (element_value DivisionsValue offset)) (fun off =>
      obind (direction_types d) (fun types =>
        Ok (match types with
            | [] => []
            | _ => [MDirection (mkXDirection off
                      (if d_staffSpecified d || negb (w_staff s =? 0) then Some (w_staff s + 1) else None) types)]
            end ++
            match d_chords d with
            | [] => []
            | cs => [MHarmony (mkXHarmony off (if d_staffSpecified d then Some (w_staff s + 1) else None) cs)]
            end)))).

(** MeasureWriter::writeDirection, MeasureWriter.cpp:712-728. *)
Definition writeDirection (d : DirectionData) : W :=
  flushBuffer ;; fun s => obind (direction_elements d s) (fun l => Ok (l, s)).

(** The loops of writeDirections, MeasureWriter.cpp:671-675,681-684,701-705: as long as
    [p] holds of the next one. *)
Fixpoint write_directions_while (p : DirectionData -> bool) (ds : list DirectionData) : W :=
  match ds with
  | d :: r => if p d then writeDirection d ;; w_set (set_directions r) ;; write_directions_while p r else w_done
  | [] => w_done
  end.

(** The iterator into the notes: at the end, or at a note with its neighbours. *)
Inductive note_position := NotesEnd | AtNote (previous : option NoteData) (n : NoteData) (next : option NoteData).

(** MeasureWriter::writeDirections, MeasureWriter.cpp:649-709. *)
Definition writeDirections (pos : note_position) : W := fun s =>
  match w_directions s, pos with
  | [], _ => Ok ([], s)
  | ds, NotesEnd => write_directions_while (fun _ => true) ds s
  | ds, AtNote None n (Some _) => write_directions_while (fun d => d_tick d <=? Z.max 0 (n_tick n)) ds s
  | ds, AtNote previous n next =>
      let same := match previous with Some q => n_tick n =? n_tick q | None => false end in
      let lastOfChord := match next with Some q => n_chord n && negb (n_tick n =? n_tick q) | None => false end in
      if n_chord n && negb lastOfChord && same then Ok ([], s)
      else obind (as_int (w_tick s + Z.max 0 (n_dur n)))
             (fun noteEnd => write_directions_while (fun d => d_tick d <? noteEnd) ds s)
  end.

(** MeasureWriter::backup, MeasureWriter.cpp:564-591. *)
Definition backup (inTicks : Z) : W := fun s =>
  if w_tick s <? 0 then Throw
  else
    let proposed := w_tick s - inTicks in
    let safe := if proposed <? 0 then inTicks + proposed else inTicks in
    if safe <? 0 then Throw
    else if safe =? 0 then Ok ([], s)
    else obind (element_value PositiveDivisionsValue safe) (fun v => Ok ([MBackup v], set_tick (w_tick s - safe) s)).

(** MeasureWriter::forward, MeasureWriter.cpp:594-602. *)
Definition forward (ticks : Z) : W := fun s =>
  obind (element_value PositiveDivisionsValue ticks) (fun v =>
    obind (as_int (w_tick s + ticks)) (fun t => Ok ([MForward v], set_tick t s))).

(** MeasureWriter::writeForwardOrBackupIfNeeded, MeasureWriter.cpp:543-561. *)
Definition writeForwardOrBackupIfNeeded (n : NoteData) : W :=
  flushBuffer ;; fun s =>
    if n_tick n <? 0 then Ok ([], s)
    else obind (as_int (n_tick n - w_tick s)) (fun difference =>
           if difference <? 0 then backup (-1 * difference) s
           else if 0 <? difference then forward difference s
           else Ok ([], s)).

(** MeasureWriter::isAdvanceNeeded, MeasureWriter.cpp:605-628. *)
Definition isAdvanceNeeded (n : NoteData) (next : option NoteData) : bool :=
  if n_chord n then match next with None => true | Some q => negb (n_tick q =? n_tick n) end else true.

(** MeasureWriter::advanceCursorIfNeeded, MeasureWriter.cpp:631-646, and :497 (both
    set myPreviousCursor). *)
Definition advanceCursorIfNeeded (n : NoteData) (next : option NoteData) : W := fun s =>
  if isAdvanceNeeded n next then
    obind (as_int (Z.max (w_tick s) 0 + Z.max (n_dur n) 0)) (fun t => Ok ([], set_previous (set_tick t s)))
  else Ok ([], set_previous s).

(** NoteWriter::getNote as far as modelled: setNoteChoiceAndFullNoteGroup,
    NoteWriter.cpp:270-335, and setStaffAndVoice, :384-399. PositiveInteger and the
    duration values clamp. *)
Definition note_element (c : wctx) (n : NoteData) (isStartOfChord : bool) (s : wstate) : outcome xnote :=
  obind (match n_type n with
         | GraceNote => Ok 0%Q
         | _ => element_value PositiveDivisionsValue (n_dur n)
         end) (fun d =>
    Ok (mkXNote (n_type n) d (w_chord s && w_previousChord s && negb isStartOfChord)
          (if (1 <? wc_numStaves c) && (0 <=? w_staff s) then Some (w_staff s + 1) else None)
          (if 0 <=? w_voice s then Some (print_int (w_voice s + 1)) else None)
          (n_rest n))).

(** The measure's key changes: at most one per note, MeasureWriter.cpp:454-461. *)
Definition writeMeasureKey (s : wstate) : wstate :=
  match w_measureKeys s with
  | k :: r => if k_tick k <=? w_tick s then set_measureKeys r (writeKey (-1) k s) else s
  | [] => s
  end.

(** MeasureWriter.cpp:463-467. *)
Fixpoint writeClefsUntil (l : list ClefData) (s : wstate) : wstate :=
  match l with
  | c :: r => if c_tick c <=? w_tick s then writeClefsUntil r (set_clefs r (writeClef (w_staff s) c s)) else s
  | [] => s
  end.

(** MeasureWriter.cpp:469-472. *)
Fixpoint writeStaffKeysUntil (l : list KeyData) (s : wstate) : wstate :=
  match l with
  | k :: r => if k_tick k <=? w_tick s then writeStaffKeysUntil r (set_staffKeys r (writeKey (w_staff s) k s)) else s
  | [] => s
  end.

(** The notes of a voice, MeasureWriter.cpp:413-500. [previous] is the note before, and
    [previousChordTick] is previousChordTickPosition. *)
Fixpoint write_notes (c : wctx) (previous : option NoteData) (previousChordTick : Z) (notes : list NoteData) : W :=
  match notes with
  | [] => w_done
  | n :: rest =>
      let next := match rest with q :: _ => Some q | [] => None end in
      w_set (set_chord (n_chord n)) ;; writeForwardOrBackupIfNeeded n ;;
      fun s =>
        let isStartOfChord :=
          n_chord n && (match previous with None => true | Some _ => negb (w_tick s =? previousChordTick) end) in
        let chordTick := if n_chord n then w_tick s else previousChordTick in
        (w_set writeMeasureKey ;; w_set (fun s => writeClefsUntil (w_clefs s) s) ;;
         w_set (fun s => writeStaffKeysUntil (w_staffKeys s) s) ;; flushBuffer ;;
         writeDirections (AtNote previous n next) ;;
         (fun s => obind (note_element c n isStartOfChord s) (fun x => Ok ([MNote x], s))) ;;
         advanceCursorIfNeeded n next ;;
         write_notes c (Some n) chordTick rest) s
  end.

(** The call before the notes, MeasureWriter.cpp:406-409: noteIter is at the begin. *)
Definition first_position (notes : list NoteData) : note_position :=
  match notes with [] => NotesEnd | n :: rest => AtNote None n (match rest with q :: _ => Some q | [] => None end) end.

(** One voice, MeasureWriter.cpp:396-504. *)
Definition write_voice (c : wctx) (v : Z * list NoteData) : W :=
  w_set (set_voice (fst v)) ;; writeDirections (first_position (snd v)) ;;
  write_notes c None (-2) (snd v) ;; writeDirections NotesEnd.

Fixpoint write_voice_list (c : wctx) (vs : list (Z * list NoteData)) : W :=
  match vs with [] => w_done | v :: r => write_voice c v ;; write_voice_list c r end.

(** The clefs at the start are written with the measure's globals,
    MeasureWriter.cpp:388-390. *)
Fixpoint skip_leading_clefs (l : list ClefData) : list ClefData :=
  match l with c :: r => if c_tick c =? 0 then skip_leading_clefs r else l | [] => [] end.

(** What is left after the voices, MeasureWriter.cpp:511-538: all clefs and staff keys,
    one of the measure's keys. *)
Definition write_remaining : W := fun s =>
  match w_clefs s, w_measureKeys s, w_staffKeys s with
  | [], [], [] => Ok ([], s)
  | clefs, mkeys, skeys =>
      let s1 := fold_left (fun s c => writeClef (w_staff s) c s) clefs (set_clefs [] s) in
      let s2 := match mkeys with
                | k :: r => if k_tick k =? 0 then s1 else set_measureKeys r (writeKey (-1) k s1)
                | [] => s1
                end in
      let s3 := fold_left (fun s k => writeKey (w_staff s) k s) skeys (set_staffKeys [] s2) in
      flushBuffer s3
  end.

(** MeasureWriter::writeVoices, MeasureWriter.cpp:386-540. *)
Definition writeVoices (c : wctx) (st : StaffData) : W :=
  w_set (set_clefs (skip_leading_clefs (s_clefs st))) ;; w_set (set_staffKeys (s_keys st)) ;;
  w_set (set_directions (s_directions st)) ;;
  write_voice_list c (s_voices st) ;; writeDirections NotesEnd ;; write_remaining.

(** nextStaff, MeasureWriter.h:96-109. *)
Definition next_staff (s : wstate) : wstate :=
  mkW (w_tick s) (w_staff s + 1) (w_voice s) (w_chord s) (w_previousChord s) (w_props s) (w_measureKeys s) (w_clefs s) (w_staffKeys s) (w_directions s).

Fixpoint write_staves (c : wctx) (sts : list StaffData) : W :=
  match sts with [] => w_done | st :: r => writeVoices c st ;; w_set next_staff ;; write_staves c r end.

(** MeasureWriter::writeStaves, MeasureWriter.cpp:374-383: the cursor is put to 0 and
    copied to myPreviousCursor first. *)
Definition writeStaves (c : wctx) (sts : list StaffData) : W :=
  w_set (fun s => set_previous (mkW 0 0 0 (w_chord s) (w_previousChord s) (w_props s) (w_measureKeys s) (w_clefs s) (w_staffKeys s) (w_directions s))) ;;
  write_staves c sts.

(** One barline, MeasureWriter.cpp:735-786. The number of an ending is "1" unless set
    (core/elements/EndingAttributes.cpp:14). *)
Definition is_bar (a b : api_BarlineType) : bool := api_BarlineType_value a =? api_BarlineType_value b.
Definition is_align (a b : api_HorizontalAlignment) : bool := api_HorizontalAlignment_value a =? api_HorizontalAlignment_value b.

Definition barline_element (b : BarlineData) : xbarline :=
  mkXBarline
    (if is_bar (b_type b) api_BarlineType_unspecified || is_bar (b_type b) api_BarlineType_unsupported then None
     else Some (barlineMap_toCore (b_type b)))
    (match b_ending b with
     | api_EndingType_none => None
     | e => Some (endingMap_toCore e, [if 0 <? b_number b then b_number b else 1])
     end)
    (if b_repeat b then Some (is_align (b_location b) api_HorizontalAlignment_left || (b_tick b =? 0)) else None)
    (Some (if negb (is_align (b_location b) api_HorizontalAlignment_unspecified) then barlinePlacementMap_toCore (b_location b)
           else if b_tick b =? 0 then barlinePlacementMap_toCore api_HorizontalAlignment_left
           else barlinePlacementMap_toCore api_HorizontalAlignment_right)).

(** MeasureWriter::writeBarlines, MeasureWriter.cpp:731-791: the elements, and the
    barlines left. *)
Fixpoint writeBarlines (t : Z) (l : list BarlineData) : list music_data * list BarlineData :=
  match l with
  | b :: r => if b_tick b <=? t then let (x, y) := writeBarlines t r in (MBarline (barline_element b) :: x, y) else ([], l)
  | [] => ([], [])
  end.

(** The clefs at tick 0 of each staff, MeasureWriter.cpp:228-245. *)
Fixpoint leading_clefs (l : list ClefData) : list ClefData :=
  match l with c :: r => if c_tick c =? 0 then c :: leading_clefs r else [] | [] => [] end.

Fixpoint write_leading_clefs (c : wctx) (counter : Z) (sts : list StaffData) (s : wstate) : wstate :=
  match sts with
  | st :: r =>
      write_leading_clefs c (counter + 1) r
        (fold_left (fun s x => writeClef (if 1 <? wc_numStaves c then counter else -1) x s) (leading_clefs (s_clefs st)) s)
  | [] => s
  end.

(** The measure's keys at tick 0, MeasureWriter.cpp:251-255. *)
Fixpoint write_leading_keys (l : list KeyData) (s : wstate) : wstate :=
  match l with
  | k :: r => if k_tick k =? 0 then write_leading_keys r (set_measureKeys r (writeKey (k_staff k) k s)) else s
  | [] => s
  end.

(** The properties of writeMeasureGlobals, MeasureWriter.cpp:213-267. *)
Definition set_divisions_staves (d : Q) (n : option Z) (s : wstate) : wstate :=
  let p := w_props s in set_props (mkProps (Some d) (p_keys p) (p_times p) n (p_clefs p) (p_transpose p)) s.

Definition add_time (t : xtime) (s : wstate) : wstate :=
  let p := w_props s in set_props (mkProps (p_divisions p) (p_keys p) (p_times p ++ [t]) (p_staves p) (p_clefs p) (p_transpose p)) s.

Definition add_transpose (t : Z) (s : wstate) : wstate :=
  let p := w_props s in set_props (mkProps (p_divisions p) (p_keys p) (p_times p) (p_staves p) (p_clefs p) (p_transpose p ++ [t])) s.

Definition writeProperties (c : wctx) (m : MeasureData) : W :=
  (fun s =>
     if wc_isFirst c then
       obind (element_value PositiveDivisionsValue (wc_ticksPerQuarter c)) (fun d =>
         Ok ([], set_divisions_staves d
                   (if 1 <? Z.of_nat (List.length (m_staves m)) then Some (Z.of_nat (List.length (m_staves m))) else None) s))
     else Ok ([], s)) ;;
  w_set (fun s => if ts_implicit (m_time m) then s else add_time (time_element (m_time m)) s) ;;
  w_set (write_leading_clefs c 0 (m_staves m)) ;;
  w_set (fun s => write_leading_keys (w_measureKeys s) s) ;;
  w_set (fun s => if (wc_measureIndex c =? 0) && (w_tick s =? 0)
                  then match wc_transposition c with Some t => add_transpose t s | None => s end else s).

(** The cursor after reset(), with the iterators at the beginning. *)
Definition initial_wstate (m : MeasureData) : wstate := mkW 0 0 0 false false empty_props (m_keys m) [] [] [].

(** TICK_TIME_INFINITY, ApiCommon.h. *)
Definition TICK_TIME_INFINITY : Z := int_max.

(** MeasureWriter::getPartwiseMeasure and writeMeasureGlobals,
    MeasureWriter.cpp:155-268. *)
Definition write_data (c : wctx) (m : MeasureData) : outcome (list music_data) :=
  let (bars, rest) := writeBarlines 0 (m_barlines m) in
  omap (fun r => bars ++ fst r ++ fst (writeBarlines TICK_TIME_INFINITY rest))
    ((w_add (repeat MPrint (wc_prints c)) ;; writeProperties c m ;; writeStaves c (m_staves m) ;; flushBuffer) (initial_wstate m)).

Definition write_measure (c : wctx) (m : MeasureData) : outcome xmeasure :=
  omap (mkXMeasure (token_of (match m_number m with [] => print_int (wc_measureIndex c + 1) | t => t end))
                   (match m_implicit m with BoolUnspecified => None | BoolYes => Some true | BoolNo => Some false end))
       (write_data c m).
