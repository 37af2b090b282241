(** impl/MeasureReader.cpp with impl/TimeReader.cpp, the time and contents of
    impl/DirectionReader.cpp, the parts of impl/NoteReader.cpp and
    impl/NoteFunctions.cpp about time, type, chords, staff and voice; the loops over
    the measures in impl/PartReader.cpp and impl/PartWriter.cpp. *)
From Coq Require Import List ZArith QArith Bool.
From Verif Require Import Model.Base Model.Text Model.Strings Model.Ticks Model.Decimals Model.CoreEnums Model.ApiEnums
  Model.ConverterTables Model.MeasureTypes Model.MeasureWriter.
Import ListNotations.
Open Scope Z_scope.

(** What the reader starts from: the cursors given to MeasureReader. [rc_time]: the
    time signature of previousMeasureCursor. *)
Record rctx := mkRctx {
  rc_numStaves : nat;
  rc_global : Z;         (* getGlobalTicksPerQuarter() *)
  rc_current : Z;        (* ticksPerQuarter at the start of the measure *)
  rc_measureIndex : Z;
  rc_time : TimeSignatureData
}.

(** myCurrentCursor and what has been put into myOutMeasureData. *)
Record rstate := mkR {
  r_current : Z;
  r_tick : Z;
  r_voice : Z;
  r_backup : bool;       (* isBackupInProgress *)
  r_staves : list StaffData;
  r_keys : list KeyData;
  r_barlines : list BarlineData;
  r_transpose : option Z
}.

Definition r_at (tick voice : Z) (inBackup : bool) (r : rstate) : rstate :=
  mkR (r_current r) tick voice inBackup (r_staves r) (r_keys r) (r_barlines r) (r_transpose r).
Definition r_set_current (c : Z) (r : rstate) : rstate :=
  mkR c (r_tick r) (r_voice r) (r_backup r) (r_staves r) (r_keys r) (r_barlines r) (r_transpose r).
Definition r_set_staves (l : list StaffData) (r : rstate) : rstate :=
  mkR (r_current r) (r_tick r) (r_voice r) (r_backup r) l (r_keys r) (r_barlines r) (r_transpose r).
Definition r_add_key (k : KeyData) (r : rstate) : rstate :=
  mkR (r_current r) (r_tick r) (r_voice r) (r_backup r) (r_staves r) (r_keys r ++ [k]) (r_barlines r) (r_transpose r).
Definition r_add_barline (b : BarlineData) (r : rstate) : rstate :=
  mkR (r_current r) (r_tick r) (r_voice r) (r_backup r) (r_staves r) (r_keys r) (r_barlines r ++ [b]) (r_transpose r).
Definition r_set_transpose (t : option Z) (r : rstate) : rstate :=
  mkR (r_current r) (r_tick r) (r_voice r) (r_backup r) (r_staves r) (r_keys r) (r_barlines r) t.

(** staves.at( i ) changed by [f]; [Throw] is the MX_ASSERT or the exception of at. *)
Fixpoint update_nth {A} (i : nat) (f : A -> A) (l : list A) : option (list A) :=
  match i, l with
  | O, x :: r => Some (f x :: r)
  | S j, x :: r => match update_nth j f r with Some r' => Some (x :: r') | None => None end
  | _, [] => None
  end.

Definition update_staff (i : Z) (f : StaffData -> StaffData) (l : list StaffData) : outcome (list StaffData) :=
  if i <? 0 then Throw
  else match update_nth (Z.to_nat i) f l with Some l' => Ok l' | None => Throw end.

(** std::map<int, VoiceData>: emplace_back into the entry for [k], which is made if
    there is none. MeasureReader::insertNoteData, MeasureReader.cpp:776-781. *)
Fixpoint voice_add (k : Z) (n : NoteData) (vs : list (Z * list NoteData)) : list (Z * list NoteData) :=
  match vs with
  | [] => [(k, [n])]
  | (j, l) :: r => if k <? j then (k, [n]) :: vs else if k =? j then (j, l ++ [n]) :: r else (j, l) :: voice_add k n r
  end.

Definition add_note (voice : Z) (n : NoteData) (st : StaffData) : StaffData :=
  mkStaff (s_clefs st) (s_keys st) (s_directions st) (voice_add voice n (s_voices st)).
Definition add_direction (d : DirectionData) (st : StaffData) : StaffData :=
  mkStaff (s_clefs st) (s_keys st) (s_directions st ++ [d]) (s_voices st).
Definition add_clef (c : ClefData) (st : StaffData) : StaffData :=
  mkStaff (s_clefs st ++ [c]) (s_keys st) (s_directions st) (s_voices st).

(** NoteReader: getDurationValue (NoteReader.cpp:134-165), getStaffNumber (:239-246),
    getVoiceNumber (:249-259). *)
Definition note_duration (x : xnote) : Q := match xn_type x with GraceNote => 0 | _ => xn_duration x end.

Definition note_voice (x : xnote) : outcome Z :=
  match xn_voice x with
  | None => Ok (-1)
  | Some t => omap (fun o => match o with Some v => v | None => -1 end) (stringToInt t)
  end.

(** MeasureReader::parseNote, MeasureReader.cpp:321-359, with NoteFunctions::parseNote,
    NoteFunctions.cpp:81-147. [next]: the next note of the measure has <chord/>. *)
Definition parseNote (c : rctx) (x : xnote) (next : bool) (r : rstate) : outcome rstate :=
  obind (note_voice x) (fun voice =>
    obind (convertDuration (rc_global c) (r_current r) (note_duration x)) (fun ticks =>
      let staff := match xn_staff x with Some k => Z.max (k - 1) 0 | None => 0 end in
      let isChord := xn_chord x || next in
      obind (if negb isChord || negb next then as_int (r_tick r + ticks) else Ok (r_tick r)) (fun t =>
        obind (update_staff staff (add_note (r_voice r) (mkNote (r_tick r) ticks isChord (xn_type x) voice (xn_rest x)))
                 (r_staves r)) (fun staves =>
          Ok (r_set_staves staves (r_at t (r_voice r) false r)))))).

(** MeasureReader::parseBackup, MeasureReader.cpp:362-378. *)
Definition parseBackup (c : rctx) (d : Q) (r : rstate) : outcome rstate :=
  obind (if r_backup r then Ok (r_voice r) else as_int (r_voice r + 1)) (fun voice =>
    obind (convertDuration (rc_global c) (r_current r) d) (fun amount =>
      obind (as_int (-1 * amount)) (fun minus =>
        obind (as_int (r_tick r + minus)) (fun t =>
          if t <? 0 then obind (as_int (t * -1)) (fun problem => Ok (r_at (t + problem) voice true r))
          else Ok (r_at t voice true r))))).

(** MeasureReader::parseForward, MeasureReader.cpp:381-385. *)
Definition parseForward (c : rctx) (d : Q) (r : rstate) : outcome rstate :=
  obind (convertDuration (rc_global c) (r_current r) d) (fun amount =>
    obind (as_int (r_tick r + amount)) (fun t => Ok (r_at t (r_voice r) false r))).

(** DirectionReader::updateTimeForOffset, DirectionReader.cpp:120-138. *)
Definition direction_tick (offset : option Q) (tick : Z) : outcome Z :=
  match offset with
  | None => Ok tick
  | Some q => obind (as_int (round_half q)) (fun o => as_int (tick + o))
  end.

(** DirectionReader::parseDirectionType and the parse functions it calls,
    DirectionReader.cpp:200-600. Simplified: the contents are opaque; a metronome is
    taken to be one of beats per minute (the reader makes a text of others);
    damp-all, which the reader takes for a rehearsal, is like the types it ignores. *)
Definition empty_direction (tick : Z) (specified : bool) : DirectionData :=
  mkDirection tick specified [] [] [] [] [] [] [] [] [] [] [] [] [].

Definition parseDirectionType (d : DirectionData) (t : direction_type) : DirectionData :=
  let (tk, sp, te, ma, ws, we, os, oe, bs, be, wo, ch, se, co, re) := d in
  match t with
  | DtDynamics m r => mkDirection tk sp te (ma ++ [(m, r)]) ws we os oe bs be wo ch se co re
  | DtPedalStart r => mkDirection tk sp te (ma ++ [(api_MarkType_pedal, r)]) ws we os oe bs be wo ch se co re
  | DtPedalStop r => mkDirection tk sp te (ma ++ [(api_MarkType_damp, r)]) ws we os oe bs be wo ch se co re
  | DtWedgeStart r => mkDirection tk sp te ma (ws ++ [r]) we os oe bs be wo ch se co re
  | DtWedgeStop r => mkDirection tk sp te ma ws (we ++ [r]) os oe bs be wo ch se co re
  | DtOttavaStart r => mkDirection tk sp te ma ws we (os ++ [r]) oe bs be wo ch se co re
  | DtOttavaStop r => mkDirection tk sp te ma ws we os (oe ++ [r]) bs be wo ch se co re
  | DtBracketStart r => mkDirection tk sp te ma ws we os oe (bs ++ [r]) be wo ch se co re
  | DtBracketStop r => mkDirection tk sp te ma ws we os oe bs (be ++ [r]) wo ch se co re
  | DtMetronome r => mkDirection tk sp (te ++ [mkTempo true r]) ma ws we os oe bs be wo ch se co re
  | DtWords l => mkDirection tk sp te ma ws we os oe bs be (wo ++ l) ch se co re
  | DtSegno l => mkDirection tk sp te ma ws we os oe bs be wo ch (se ++ l) co re
  | DtCoda l => mkDirection tk sp te ma ws we os oe bs be wo ch se (co ++ l) re
  | DtRehearsal l => mkDirection tk sp te ma ws we os oe bs be wo ch se co (re ++ l)
  | DtPedalOther | DtOttavaContinue | DtBracketContinue | DtOther => d
  end.

Definition set_chords (l : list Z) (d : DirectionData) : DirectionData :=
  let (tk, sp, te, ma, ws, we, os, oe, bs, be, wo, _, se, co, re) := d in
  mkDirection tk sp te ma ws we os oe bs be wo l se co re.

(** parseDirectionImpl, MeasureReader.cpp:390-423: [contents] fills in the direction. *)
Definition parseDirectionImpl (offset : option Q) (staff : option Z) (contents : DirectionData -> DirectionData) (r : rstate) : outcome rstate :=
  obind (direction_tick offset (r_tick r)) (fun t =>
    let index := match staff with Some k => k - 1 | None => 0 end in
    let sane := (0 <=? index) && (index <? Z.of_nat (List.length (r_staves r))) in
    let specified := match staff with Some _ => sane | None => false end in
    obind (update_staff (if specified then index else 0) (add_direction (contents (empty_direction t specified))) (r_staves r))
      (fun staves => Ok (r_set_staves staves (r_at (r_tick r) (r_voice r) false r)))).

(** The keys of parseProperties, MeasureReader.cpp:458-534; the default staffIndex is
    -1 and the default tick 0. *)
Definition parseKey (c : rctx) (tick : Z) (k : xkey) : KeyData :=
  if xk_custom k then mkKey 0 (-1) true (xk_rest k)
  else mkKey tick
         (match xk_number k with
          | Some n => if Z.of_nat (rc_numStaves c) - 1 <? n - 1 then -1 else n - 1
          | None => -1
          end) false (xk_rest k).

(** MeasureReader::importClef, insertClef, MeasureReader.cpp:684-791. *)
Definition importClef (k : xclef) (r : rstate) : outcome rstate :=
  obind (update_staff (match xc_number k with Some n => n - 1 | None => 0 end) (add_clef (mkClef (r_tick r) (xc_rest k))) (r_staves r))
    (fun staves => Ok (r_set_staves staves r)).

Fixpoint importClefs (l : list xclef) (r : rstate) : outcome rstate :=
  match l with [] => Ok r | k :: rest => obind (importClef k r) (importClefs rest) end.

(** MeasureReader::parseProperties, MeasureReader.cpp:432-547, and the use of its result,
    :167-171 (isFirstMeasureInPart is true for each measure, see PartReader). *)
Definition parseProperties (c : rctx) (p : properties) (r : rstate) : outcome rstate :=
  obind (match p_divisions p with None => Ok (r_current r) | Some d => as_int (round_half d) end) (fun current =>
    let r1 := r_set_current current (r_at (r_tick r) (r_voice r) false r) in
    let r2 := fold_left (fun r k => r_add_key (parseKey c (r_tick r) k) r) (p_keys p) r1 in
    obind (importClefs (p_clefs p) r2) (fun r3 =>
      Ok (match p_transpose p with
          | t :: _ => if (rc_measureIndex c =? 0) && (r_tick r3 =? 0) then r_set_transpose (Some t) r3 else r3
          | [] => r3
          end))).

(** MeasureReader::parseBarline, MeasureReader.cpp:574-643. *)
Definition parseBarline (x : xbarline) (r : rstate) : rstate :=
  let location := match xb_location x with Some l => barlinePlacementMap_toApi l | None => api_HorizontalAlignment_unspecified end in
  r_add_barline
    (mkBarline (if is_align location api_HorizontalAlignment_right then TICK_TIME_INFINITY else r_tick r)
       (match xb_style x with Some s => barlineMap_toApi s | None => api_BarlineType_unspecified end)
       (match xb_ending x with
        | None => api_EndingType_none
        | Some (StartStopDiscontinue_start, _) => api_EndingType_start
        | Some (StartStopDiscontinue_stop, _) => api_EndingType_stop
        | Some (StartStopDiscontinue_discontinue, _) => api_EndingType_discontinue
        end)
       (match xb_ending x with Some (_, n :: _) => n | _ => 0 end)
       (match xb_repeat x with Some _ => true | None => false end)
       location)
    (r_at (r_tick r) (r_voice r) false r).

(** MeasureReader::parseMusicDataChoice, MeasureReader.cpp:217-318. *)
Definition parseMusicDataChoice (c : rctx) (x : music_data) (next : bool) (r : rstate) : outcome rstate :=
  match x with
  | MNote n => parseNote c n next r
  | MBackup d => parseBackup c d r
  | MForward d => parseForward c d r
  | MDirection d => parseDirectionImpl (xd_offset d) (xd_staff d) (fold_left parseDirectionType (xd_types d)) r
  | MHarmony h => parseDirectionImpl (xh_offset h) (xh_staff h) (set_chords (xh_chords h)) r
  | MProperties p => parseProperties c p r
  | MBarline b => Ok (parseBarline b r)
  | MPrint | MOther => Ok (r_at (r_tick r) (r_voice r) false r)
  end.

(** The look ahead of getMeasureData, MeasureReader.cpp:148-165: whether the next note
    among [rest] has <chord/>; [follow] if there is none (false at the end of the
    measure). *)
Fixpoint next_chord (rest : list music_data) (follow : bool) : bool :=
  match rest with
  | [] => follow
  | MNote x :: _ => xn_chord x
  | _ :: r => next_chord r follow
  end.

Fixpoint read_items (c : rctx) (items : list music_data) (follow : bool) (r : rstate) : outcome rstate :=
  match items with
  | [] => Ok r
  | x :: rest => obind (parseMusicDataChoice c x (next_chord rest follow) r) (read_items c rest follow)
  end.

(** isUserRequestedVoiceNumberConsistent, getUserRequestedVoiceNumber,
    MeasureReader.cpp:836-858,882-890. *)
Definition voice_consistent (v : list NoteData) : bool :=
  match v with
  | [] => true
  | n :: _ => (1 <=? n_voice n) && forallb (fun m => n_voice m =? n_voice n) v
  end.

Definition voice_number (v : list NoteData) : Z := match v with [] => -1 | n :: _ => n_voice n end.

(** isUserRequestedVoiceNumberConsistentAccrossAllVoices, MeasureReader.cpp:861-879;
    [seen] is the set of the numbers. *)
Fixpoint voices_consistent (seen : list Z) (vs : list (Z * list NoteData)) : bool :=
  match vs with
  | [] => true
  | (_, v) :: r =>
      voice_consistent v && negb (existsb (Z.eqb (voice_number v)) seen) && voices_consistent (voice_number v :: seen) r
  end.

(** newVoiceData[k] = v. *)
Fixpoint voice_set (k : Z) (v : list NoteData) (vs : list (Z * list NoteData)) : list (Z * list NoteData) :=
  match vs with
  | [] => [(k, v)]
  | (j, l) :: r => if k <? j then (k, v) :: vs else if k =? j then (j, v) :: r else (j, l) :: voice_set k v r
  end.

(** takeUserRequestedVoiceNumbers, MeasureReader.cpp:809-820. *)
Fixpoint takeUserRequestedVoiceNumbers (vs new : list (Z * list NoteData)) : outcome (list (Z * list NoteData)) :=
  match vs with
  | [] => Ok new
  | (_, v) :: r => if 1 <=? voice_number v then takeUserRequestedVoiceNumbers r (voice_set (voice_number v - 1) v new) else Throw
  end.

(** collapseVoicesAutomatically, MeasureReader.cpp:823-833. *)
Fixpoint collapseVoicesAutomatically (index : Z) (vs new : list (Z * list NoteData)) : list (Z * list NoteData) :=
  match vs with
  | [] => new
  | (_, v) :: r => collapseVoicesAutomatically (index + 1) r (voice_set index v new)
  end.

(** consolidateVoicesForAllStaves, MeasureReader.cpp:793-806. *)
Definition consolidate_staff (st : StaffData) : outcome StaffData :=
  omap (mkStaff (s_clefs st) (s_keys st) (s_directions st))
    (if voices_consistent [] (s_voices st) then takeUserRequestedVoiceNumbers (s_voices st) []
     else Ok (collapseVoicesAutomatically 0 (s_voices st) [])).

Fixpoint consolidate_staves (l : list StaffData) : outcome (list StaffData) :=
  match l with
  | [] => Ok []
  | st :: r => obind (consolidate_staff st) (fun st' => obind (consolidate_staves r) (fun r' => Ok (st' :: r')))
  end.

(** TimeReader::initialize, parseTime, parseTimeSignatureGroup, TimeReader.cpp:52-145:
    the first <time> of the first <attributes> that has one. *)
Fixpoint find_time (items : list music_data) : option xtime :=
  match items with
  | [] => None
  | MProperties p :: r => match p_times p with t :: _ => Some t | [] => find_time r end
  | _ :: r => find_time r
  end.

Definition parseTime (t : xtime) : outcome (option TimeSignatureData) :=
  match xt_beats t with
  | None => Ok None
  | Some (beats, beatType) =>
      obind (stringToInt beats) (fun b =>
        match b with
        | None => Ok None
        | Some b =>
            obind (stringToInt beatType) (fun bt =>
              match bt with
              | None => Ok None
              | Some bt =>
                  Ok (Some (mkTime b bt
                        (match xt_symbol t with Some (Some y) => y | _ => SymbolUnspecified end)
                        (match xt_print t with Some true => BoolYes | Some false => BoolNo | None => BoolUnspecified end)
                        false))
              end)
        end)
  end.

(** MeasureReader::parseTimeSignature, MeasureReader.cpp:191-213. *)
Definition set_implicit (t : TimeSignatureData) : TimeSignatureData :=
  mkTime (ts_beats t) (ts_beatType t) (ts_symbol t) (ts_display t) true.

Definition parseTimeSignature (c : rctx) (items : list music_data) : outcome TimeSignatureData :=
  obind (match find_time items with None => Ok None | Some t => parseTime t end) (fun o =>
    Ok (match o with
        | Some t => t
        | None => set_implicit (if 0 <? rc_measureIndex c then rc_time c else default_time)
        end)).

Definition empty_staff : StaffData := mkStaff [] [] [] [].

Definition initial_rstate (c : rctx) : rstate :=
  mkR (rc_current c) 0 0 false (repeat empty_staff (rc_numStaves c)) [] [] None.

(** MeasureReader::getMeasureData, MeasureReader.cpp:110-182: the measure, the
    transposition and the final ticksPerQuarter. *)
Definition read_measure (c : rctx) (x : xmeasure) : outcome (MeasureData * option Z * Z) :=
  obind (parseTimeSignature c (xm_data x)) (fun time =>
    obind (read_items c (xm_data x) false (initial_rstate c)) (fun r =>
      obind (consolidate_staves (r_staves r)) (fun staves =>
        Ok (mkMeasure staves time
              (if str_eqb (xm_number x) (print_int (rc_measureIndex c + 1)) then [] else xm_number x)
              (match xm_implicit x with Some true => BoolYes | Some false => BoolNo | None => BoolUnspecified end)
              (r_keys r) (r_barlines r),
            r_transpose r, r_current r)))).

(** The loop of PartReader::getPartData, PartReader.cpp:96-116. *)
Fixpoint read_measures (c : rctx) (l : list xmeasure) : outcome (list MeasureData) :=
  match l with
  | [] => Ok []
  | x :: r =>
      obind (read_measure c x) (fun q =>
        let m := fst (fst q) in
        obind (read_measures (mkRctx (rc_numStaves c) (rc_global c) (snd q) (rc_measureIndex c + 1) (m_time m)) r)
          (fun ms => Ok (m :: ms)))
  end.

(** The loop of PartWriter::writeMeasures, PartWriter.cpp:265-288. [prints i]: the
    <print> elements of the measure with index i. *)
Fixpoint write_measures (prints : Z -> nat) (c : wctx) (l : list MeasureData) : outcome (list xmeasure) :=
  match l with
  | [] => Ok []
  | m :: r =>
      obind (write_measure c m) (fun x =>
        let i := wc_measureIndex c + 1 in
        obind (write_measures prints (mkWctx (wc_numStaves c) (wc_ticksPerQuarter c) i false (prints i) (wc_transposition c)) r)
          (fun xs => Ok (x :: xs)))
  end.
