(** What a note is in MusicXML and what becomes of its content when it is written and
    read back. *)
From Coq Require Import List Ascii Bool String ZArith QArith Sorted Permutation.
From Verif Require Import Model.Base Model.Text Model.Strings Model.LongDouble Model.Integers Model.Decimals Model.EnumLookup
  Model.CoreEnums Model.ApiEnums Model.ConverterTables Model.Ticks Model.Dots Model.Alter Model.MeasureTypes Model.Notations Model.NoteContent
  Spec.Intervals Spec.Attachments.
Import ListNotations.
Local Open Scope Z_scope.

(** ** Written and read back *)

Definition an_int (z : Z) : Prop := - 2 ^ 31 <= z < 2 ^ 31.

(** A step, a note name, a beam that is not specified is written as the letter c, as a
    maxima, as the begin of a beam; two sharps side by side as a natural; the upper fa
    as no notehead. *)
Definition step_kept (s : api_Step) := match s with api_Step_unspecified => api_Step_c | _ => s end.
Definition name_kept (n : api_DurationName) := match n with api_DurationName_unspecified => api_DurationName_maxima | _ => n end.
Definition beam_kept (b : api_Beam) := match b with api_Beam_unspecified => api_Beam_begin | _ => b end.
Definition accidental_kept (a : api_Accidental) := match a with api_Accidental_sharpSharp => api_Accidental_natural | _ => a end.
Definition notehead_kept (h : api_Notehead) := match h with api_Notehead_faUp => api_Notehead_none | _ => h end.

(** Of more than eight beams the eighth is lost. *)
Definition beams_kept (l : list api_Beam) : list api_Beam :=
  map beam_kept (firstn 7 l ++ (if (8 <? List.length l)%nat then skipn 8 l else skipn 7 l)).

(** Misc data: commas become underscores, white space is squeezed, and a last text that is
    empty is lost. *)
Definition misc_text (t : str) : str := map (fun c => if Ascii.eqb c "," then "_"%char else c) t.
Definition misc_kept (l : list str) : list str :=
  match l with
  | [] => []
  | s :: r =>
      skipn 13 (token_of (lit "##misc-data##" ++ misc_text s)) ::
      let r' := map (fun t => token_of (misc_text t)) r in
      match rev r' with [] :: x => rev x | _ => r' end
  end.

(** The tuplet that the note with the index [i] belongs to starts at [s] and stops at
    [e]: the nearest notes at which exactly one does. *)
Definition one_start (s : sibling) : Prop := List.length (sb_starts s) = 1%nat.
Definition one_stop (s : sibling) : Prop := List.length (sb_stops s) = 1%nat.

Definition tuplet_around (l : list sibling) (i : nat) (s e : sibling) : Prop :=
  exists j m, (j <= i)%nat /\ (j <= m)%nat /\ nth_error l j = Some s /\ nth_error l m = Some e /\ one_start s /\ one_stop e /\
    (forall k x, (j < k <= i)%nat -> nth_error l k = Some x -> ~ one_start x) /\
    (forall k x, (j <= k < m)%nat -> nth_error l k = Some x -> ~ one_stop x).

(** How long it is, in ticks. *)
Definition tuplet_length (s e : sibling) : Z := sb_tick e + sb_ticks e - sb_tick s.

(** The normal note of the tuplet: its length divided by the normal number, as a name and
    dots (which C37 is about). *)
Definition normal_note (ticks : Z) (s e : sibling) : option (duration_name * nat) :=
  match sb_starts s with
  | [t] =>
      if (0 <? tuplet_length s e) && negb (normalNumber t =? 0) && negb (actualNumber t =? 0)
      then findNormalNameAndDots ticks (ld (inject_Z (tuplet_length s e) / inject_Z (normalNumber t)))
      else None
  | _ => None
  end.

Definition normal_says (ticks : Z) (l : list sibling) (i : nat) (g : option (duration_name * nat)) : Prop :=
  (forall s e, tuplet_around l i s e -> g = normal_note ticks s e) /\ ((forall s e, ~ tuplet_around l i s e) -> g = None).

(** A ratio is written if both numbers are positive and they are not both 1. *)
Definition ratio (d : DurationData) : bool :=
  (0 <? timeModificationActualNotes d) && (0 <? timeModificationNormalNotes d) &&
  negb ((timeModificationActualNotes d =? 1) && (timeModificationNormalNotes d =? 1)).

(** The name of a note by its length. *)
Definition name_of (n : duration_name) : api_DurationName :=
  match n with
  | Maxima => api_DurationName_maxima | Longa => api_DurationName_longa | Breve => api_DurationName_breve
  | Whole => api_DurationName_whole | Half => api_DurationName_half | Quarter => api_DurationName_quarter
  | Eighth => api_DurationName_eighth | Dur16th => api_DurationName_dur16th | Dur32nd => api_DurationName_dur32nd
  | Dur64th => api_DurationName_dur64th | Dur128th => api_DurationName_dur128th | Dur256th => api_DurationName_dur256th
  | Dur512th => api_DurationName_dur512th | Dur1024th => api_DurationName_dur1024th
  end.

(** The name of the measure rest that is so many ticks long. *)
Definition rest_name (ticks n : Z) (name : api_DurationName) : Prop :=
  (exists d, In d [Quarter; Half; Whole; Eighth; Dur16th; Dur32nd; Dur64th; Dur128th; Dur512th; Dur1024th] /\
     (inject_Z n == dur_quarters d * inject_Z ticks)%Q /\ name = name_of d) \/
  ((forall d, In d [Quarter; Half; Whole; Eighth; Dur16th; Dur32nd; Dur64th; Dur128th; Dur512th; Dur1024th] ->
     ~ (inject_Z n == dur_quarters d * inject_Z ticks)%Q) /\ name = api_DurationName_unspecified).

Definition measure_rest (n : NoteContent) : bool := isRest n && isMeasureRest n.
Definition pitched (n : NoteContent) : bool := negb (isRest n) && negb (isUnpitched n).

Definition pitch_back (n : NoteContent) (q : PitchData) : Prop :=
  let p := pitchData n in
  (if pitched n
   then step q = step_kept (step p) /\ octave q = Z.max 0 (Z.min 9 (octave p)) /\ kept (alter p) (cents p) (Ok (alter q, cents q))
   else step q = api_Step_c /\ octave q = 4 /\ alter q = 0 /\ cents q = 0%Q) /\
  accidental q = accidental_kept (accidental p) /\
  isAccidentalParenthetical q = false /\ isAccidentalCautionary q = false /\ isAccidentalEditorial q = false /\
  isAccidentalBracketed q = false.

(** The length of a note in ticks: at least 0; that of a grace note is 0. *)
Definition ticks_kept (n : NoteContent) : Z :=
  match noteType n with GraceNote => 0 | _ => Z.max 0 (durationTimeTicks (durationData n)) end.

Definition duration_back (ticks : Z) (l : list sibling) (i : nat) (n : NoteContent) (e : DurationData) : Prop :=
  let d := durationData n in
  (if measure_rest n then rest_name ticks (ticks_kept n) (durationName e) else durationName e = name_kept (durationName d)) /\
  durationDots e = Z.max 0 (durationDots d) /\ durationTimeTicks e = ticks_kept n /\ isTied e = false /\
  timeModificationActualNotes e = (if ratio d then timeModificationActualNotes d else 1) /\
  timeModificationNormalNotes e = (if ratio d then timeModificationNormalNotes d else 1) /\
  exists g, normal_says ticks l i g /\
    let own := if measure_rest n then api_DurationName_maxima else name_kept (durationName d) in
    (forall m k, ratio d = true -> g = Some (m, S k) -> name_of m <> own ->
       timeModificationNormalType e = name_of m /\ timeModificationNormalTypeDots e = Z.of_nat (S k)) /\
    (ratio d = false \/ g = None \/ (exists m, g = Some (m, O)) \/ (exists m k, g = Some (m, k) /\ name_of m = own) ->
       timeModificationNormalType e = api_DurationName_unspecified /\ timeModificationNormalTypeDots e = 0).

Definition is_cue (t : note_type) : bool := match t with CueNote => true | _ => false end.

(** All that comes back of a note. *)
Definition content_back (ticks : Z) (l : list sibling) (i : nat) (n m : NoteContent) : Prop :=
  isRest m = isRest n /\ isMeasureRest m = measure_rest n /\ isUnpitched m = (negb (isRest n) && isUnpitched n)%bool /\
  isDisplayStepOctaveSpecified m = false /\
  isTieStart m = (negb (is_cue (noteType n)) && isTieStart n)%bool /\ isTieStop m = (negb (is_cue (noteType n)) && isTieStop n)%bool /\
  noteType m = noteType n /\ notehead m = notehead_kept (notehead n) /\ pitch_back n (pitchData m) /\ stem m = stem n /\
  duration_back ticks l i n (durationData m) /\ beams m = beams_kept (beams n) /\
  notePosition m = kept_position false false (notePosition n) /\ printObject m = api_Bool_unspecified /\
  miscData m = misc_kept (miscData n).

(** The values that the members can hold. *)
Definition sibling_ok (s : sibling) : Prop := 0 <= sb_tick s /\ 0 <= sb_ticks s /\ sb_tick s + sb_ticks s < 2 ^ 31.

Definition content_ok (n : NoteContent) : Prop :=
  Z.abs (alter (pitchData n)) <= 100000 /\ (Qabs.Qabs (cents (pitchData n)) <= 1000000)%Q /\
  an_int (durationTimeTicks (durationData n)) /\ an_int (timeModificationActualNotes (durationData n)) /\
  an_int (timeModificationNormalNotes (durationData n)) /\ position_ok storable (notePosition n).

(** The property speaks of this. *)
Definition same_pitch (p q : PitchData) : Prop :=
  step p = step q /\ alter p = alter q /\ (Qabs.Qabs (cents p - cents q) <= 1 # 10000)%Q /\ accidental p = accidental q /\
  isAccidentalParenthetical p = isAccidentalParenthetical q /\ isAccidentalCautionary p = isAccidentalCautionary q /\
  isAccidentalEditorial p = isAccidentalEditorial q /\ isAccidentalBracketed p = isAccidentalBracketed q /\ octave p = octave q.

Definition same_coordinate (x y : option Q) : Prop :=
  match x, y with Some p, Some q => (p == q)%Q | None, None => True | _, _ => False end.

Definition same_position (p q : PositionData) : Prop :=
  same_coordinate (defaultX p) (defaultX q) /\ same_coordinate (defaultY p) (defaultY q) /\
  same_coordinate (relativeX p) (relativeX q) /\ same_coordinate (relativeY p) (relativeY q) /\
  horizontalAlignment p = horizontalAlignment q /\ verticalAlignment p = verticalAlignment q /\ placement p = placement q.

Definition same_content (m n : NoteContent) : Prop :=
  isRest m = isRest n /\ isMeasureRest m = isMeasureRest n /\ isUnpitched m = isUnpitched n /\
  isDisplayStepOctaveSpecified m = isDisplayStepOctaveSpecified n /\ isTieStart m = isTieStart n /\ isTieStop m = isTieStop n /\
  noteType m = noteType n /\ notehead m = notehead n /\ same_pitch (pitchData m) (pitchData n) /\ stem m = stem n /\
  durationData m = durationData n /\ beams m = beams n /\ same_position (notePosition m) (notePosition n) /\ printObject m = printObject n /\
  miscData m = miscData n.

(** Notes of which all is kept. *)
Definition clean (t : str) : Prop := token_of t = t /\ ~ In ","%char t.

Definition plain_pitch (n : NoteContent) : Prop :=
  let p := pitchData n in
  (if pitched n
   then step p <> api_Step_unspecified /\ 0 <= octave p <= 9 /\ (0 <= inject_Z (alter p) * cents p)%Q /\
        (Qabs.Qabs (cents p) <= 999999 # 10000)%Q
   else step p = api_Step_c /\ octave p = 4 /\ alter p = 0 /\ (cents p == 0)%Q) /\
  accidental p <> api_Accidental_sharpSharp /\
  isAccidentalParenthetical p = false /\ isAccidentalCautionary p = false /\ isAccidentalEditorial p = false /\
  isAccidentalBracketed p = false.

Definition plain_duration (n : NoteContent) : Prop :=
  let d := durationData n in
  measure_rest n = false /\ durationName d <> api_DurationName_unspecified /\ 0 <= durationDots d /\
  (match noteType n with GraceNote => durationTimeTicks d = 0 | _ => 0 <= durationTimeTicks d end) /\ isTied d = false /\
  1 <= timeModificationActualNotes d /\ 1 <= timeModificationNormalNotes d /\
  timeModificationNormalType d = api_DurationName_unspecified /\ timeModificationNormalTypeDots d = 0.

(** The normal note of the tuplet around it has no dots. *)
Definition undotted_tuplet (ticks : Z) (l : list sibling) (i : nat) : Prop := forall m k, ~ normal_says ticks l i (Some (m, S k)).

Definition plain (n : NoteContent) : Prop :=
  isMeasureRest n = false /\ (isRest n = true -> isUnpitched n = false) /\ isDisplayStepOctaveSpecified n = false /\
  (noteType n = CueNote -> isTieStart n = false /\ isTieStop n = false) /\ notehead n <> api_Notehead_faUp /\
  plain_pitch n /\ plain_duration n /\ ~ In api_Beam_unspecified (beams n) /\ (List.length (beams n) <= 8)%nat /\
  same_position (kept_position false false (notePosition n)) (notePosition n) /\ printObject n = api_Bool_unspecified /\
  Forall clean (miscData n) /\ (forall l t, miscData n = l ++ [t] -> l <> [] -> t <> []).

(** ** The element *)

(** The place of a child in the sequence of the schema. *)
Definition rank (c : nchild) : nat :=
  match c with
  | CGrace | CCue => 0 | CChord => 1 | CFull _ => 2 | CDuration _ => 3 | CTie _ => 4 | CInstrument _ => 5
  | CFootnote _ _ => 6 | CLevel _ => 7 | CVoice _ => 8 | CType _ => 9 | CDot => 10 | CAccidental _ => 11 | CTime _ => 12
  | CStem _ => 13 | CNotehead _ => 14 | CNoteheadText _ => 15 | CStaff _ => 16 | CBeam _ => 17 | CNotations _ => 18
  | CLyric _ => 19 | CPlay _ => 20 | CUnknown => 21
  end.

(** Children that may follow the choice. *)
Definition follows (c : nchild) : bool := ((5 <=? rank c) && (rank c <=? 20))%nat.

(** The groups that are not chosen are as they are made. *)
Definition only_choice (k : note_type) (g : note_group) : note_choice :=
  match k with
  | NormalNote => mkChoice NormalNote g new_group new_group
  | GraceNote => mkChoice GraceNote new_group g new_group
  | CueNote => mkChoice CueNote new_group new_group g
  end.

(** What a group of this kind can say: grace notes have no duration, cue notes no ties. *)
Definition group_ok (k : note_type) (g : note_group) : Prop :=
  match k with NormalNote => True | GraceNote => ng_duration g = ng_duration new_group | CueNote => ng_ties g = [] end.

(** The children in the order of the schema. *)
Definition choice_children (k : note_type) (g : note_group) : list nchild :=
  match k with NormalNote => [] | GraceNote => [CGrace] | CueNote => [CCue] end ++
  (if ng_chord g then [CChord] else []) ++ [CFull (ng_full g)] ++
  match k with GraceNote => [] | _ => [CDuration (ng_duration g)] end ++
  match k with CueNote => [] | _ => map CTie (ng_ties g) end.

(** All the values of one kind of child, and the last one. *)
Definition select {A} (f : nchild -> option A) (l : list nchild) : list A :=
  flat_map (fun c => match f c with Some v => [v] | None => [] end) l.
Definition last_one {A} (l : list A) : option A := match rev l with x :: _ => Some x | [] => None end.

(** The note that the choice [c] and the children [l] say, in whatever order they stand:
    of several that may stand once, the last counts. *)
Definition collected (p : xposition) (o : option YesNo) (c : note_choice) (l : list nchild) : xnote :=
  mkXNote p o c
    (last_one (select (fun c => match c with CInstrument v => Some v | _ => None end) l))
    (last_one (select (fun c => match c with CFootnote v f => Some (mkFootnote v (option_map family_parse f)) | _ => None end) l))
    (last_one (select (fun c => match c with CLevel v => Some v | _ => None end) l))
    (last_one (select (fun c => match c with CVoice v => Some v | _ => None end) l))
    (last_one (select (fun c => match c with CType v => Some v | _ => None end) l))
    (List.length (select (fun c => match c with CDot => Some tt | _ => None end) l))
    (last_one (select (fun c => match c with CAccidental v => Some v | _ => None end) l))
    (last_one (select (fun c => match c with CTime v => Some v | _ => None end) l))
    (last_one (select (fun c => match c with CStem v => Some v | _ => None end) l))
    (last_one (select (fun c => match c with CNotehead v => Some v | _ => None end) l))
    (last_one (select (fun c => match c with CNoteheadText v => Some v | _ => None end) l))
    (last_one (select (fun c => match c with CStaff v => Some v | _ => None end) l))
    (select (fun c => match c with CBeam v => Some v | _ => None end) l)
    (select (fun c => match c with CNotations v => Some v | _ => None end) l)
    (select (fun c => match c with CLyric v => Some v | _ => None end) l)
    (last_one (select (fun c => match c with CPlay v => Some v | _ => None end) l)).

(** Lists of texts that survive as a list with commas. *)
Definition family_ok (l : list str) : Prop := Forall clean l /\ (forall r t, l = r ++ [t] -> t <> []).

Definition xnote_ok (x : xnote) : Prop :=
  (exists k g, x_choice x = only_choice k g /\ group_ok k g) /\
  every (fun f => every family_ok (fn_family f)) (x_footnote x).

(** ** Documents of other programs *)

(** The letter of a step. *)
Definition letter_of (s : StepEnum) : api_Step :=
  match s with
  | StepEnum_a => api_Step_a | StepEnum_b => api_Step_b | StepEnum_c => api_Step_c | StepEnum_d => api_Step_d
  | StepEnum_e => api_Step_e | StepEnum_f => api_Step_f | StepEnum_g => api_Step_g
  end.

(** Accidentals in semitones. *)
Definition accidental_semitones (a : api_Accidental) : option Z :=
  match a with
  | api_Accidental_tripleFlat => Some (-3) | api_Accidental_flatFlat => Some (-2) | api_Accidental_flat => Some (-1)
  | api_Accidental_natural => Some 0 | api_Accidental_sharp => Some 1 | api_Accidental_doubleSharp => Some 2
  | api_Accidental_tripleSharp => Some 3 | _ => None
  end.

(** The sequences of children that are a note: at least one choice, the rest in any
    order. *)
Inductive sequence : bool -> list nchild -> Prop :=
| seq_none : sequence false []
| seq_child b c l : follows c = true -> sequence b l -> sequence b (c :: l)
| seq_choice b k g l : group_ok k g -> sequence b l -> sequence true (choice_children k g ++ l).

(** The group that counts. *)
Definition chosen (c : note_choice) : note_group :=
  match nc_kind c with NormalNote => nc_normal c | GraceNote => nc_grace c | CueNote => nc_cue c end.

(** The pitch: letter, semitones, cents and octave. Of a rest or an unpitched note, where
    it is displayed. *)
Definition document_pitch (f : full_type) (p : PitchData) : Prop :=
  match f with
  | FPitch s a o => step p = letter_of s /\ octave p = o /\ readAlter a = Ok (alter p, cents p)
  | FUnpitched (Some (s, o)) | FRest _ (Some (s, o)) => step p = letter_of s /\ octave p = o /\ alter p = 0 /\ cents p = 0%Q
  | FUnpitched None | FRest _ None => step p = api_Step_c /\ octave p = 4 /\ alter p = 0 /\ cents p = 0%Q
  end.

Definition document_accidental (o : option xaccidental) (p : PitchData) : Prop :=
  match o with
  | None => accidental p = api_Accidental_none /\ isAccidentalParenthetical p = false /\ isAccidentalCautionary p = false /\
            isAccidentalEditorial p = false /\ isAccidentalBracketed p = false
  | Some a => accidental p = accidentalMap_toApi (ac_value a) /\
      (isAccidentalParenthetical p = true <-> ac_parentheses a = Some YesNo_yes) /\
      (isAccidentalCautionary p = true <-> ac_cautionary a = Some YesNo_yes) /\
      (isAccidentalEditorial p = true <-> ac_editorial a = Some YesNo_yes) /\
      (isAccidentalBracketed p = true <-> ac_bracket a = Some YesNo_yes)
  end.

(** The length, the name (by the length if there is no type), the dots and the ratio. The
    normal note of the ratio counts only if it has dots and is not the note itself. *)
Definition document_duration (global current : Z) (x : xnote) (d : DurationData) : Prop :=
  let length := match nc_kind (x_choice x) with GraceNote => 0%Q | _ => ng_duration (chosen (x_choice x)) end in
  convertDuration global current length = Ok (durationTimeTicks d) /\
  durationName d = match x_type x with Some t => durationMap_toApi t | None => deriveNoteType global length end /\
  durationDots d = Z.of_nat (x_dots x) /\ isTied d = false /\
  match x_time x with
  | None => timeModificationActualNotes d = 1 /\ timeModificationNormalNotes d = 1 /\
            timeModificationNormalType d = api_DurationName_unspecified /\ timeModificationNormalTypeDots d = 0
  | Some t => timeModificationActualNotes d = tm_actual t /\ timeModificationNormalNotes d = tm_normal t /\
      ((forall ty k, tm_group t = Some (ty, S k) -> ty <> match x_type x with Some y => y | None => NoteTypeValue_maxima end ->
         timeModificationNormalType d = durationMap_toApi ty /\ timeModificationNormalTypeDots d = Z.of_nat (S k)) /\
       (tm_group t = None \/ (exists ty, tm_group t = Some (ty, O)) \/
        (exists ty k, tm_group t = Some (ty, k) /\ ty = match x_type x with Some y => y | None => NoteTypeValue_maxima end) ->
         timeModificationNormalType d = api_DurationName_unspecified /\ timeModificationNormalTypeDots d = 0))
  end.

(** What is read of the note of any document. *)
Definition document_says (global current : Z) (x : xnote) (m : NoteContent) : Prop :=
  let f := ng_full (chosen (x_choice x)) in
  let ties := ng_ties (chosen (x_choice x)) in
  (isRest m = true <-> exists a d, f = FRest a d) /\ (isMeasureRest m = true <-> exists d, f = FRest (Some YesNo_yes) d) /\
  (isUnpitched m = true <-> exists d, f = FUnpitched d) /\
  (isDisplayStepOctaveSpecified m = true <-> exists s o, f = FUnpitched (Some (s, o)) \/ exists a, f = FRest a (Some (s, o))) /\
  (isTieStart m = true <-> nc_kind (x_choice x) <> CueNote /\ In StartStop_start ties) /\
  (isTieStop m = true <-> nc_kind (x_choice x) <> CueNote /\ In StartStop_stop ties) /\
  noteType m = nc_kind (x_choice x) /\
  notehead m = (match x_notehead x with None => api_Notehead_normal | Some h => noteheadMap_toApi h end) /\
  document_pitch f (pitchData m) /\ document_accidental (x_accidental x) (pitchData m) /\
  stem m = (match x_stem x with None => api_Stem_unspecified | Some s => stemMap_toApi s end) /\
  document_duration global current x (durationData m) /\
  beams m = map beamMap_toApi (read_beams (x_beams x)) /\ notePosition m = getPositionData (x_position x) /\
  printObject m = (match x_printObject x with None => api_Bool_unspecified | Some b => boolMap_toApi b end) /\
  (forall u r, x_footnote x = Some (mkFootnote [] (Some ((lit "##misc-data##" ++ u) :: r))) -> miscData m = u :: r) /\
  ((forall u r, x_footnote x <> Some (mkFootnote [] (Some ((lit "##misc-data##" ++ u) :: r)))) -> miscData m = []).

(** What the children of a time modification say. *)
Definition time_said (l : list tchild) : xtime :=
  let types := flat_map (fun c => match c with TType t => [t] | _ => [] end) l in
  let dots := List.length (flat_map (fun c => match c with TDot => [tt] | _ => [] end) l) in
  mkXTime (match last_one (flat_map (fun c => match c with TActual n => [n] | _ => [] end) l) with Some n => n | None => 0 end)
    (match last_one (flat_map (fun c => match c with TNormal n => [n] | _ => [] end) l) with Some n => n | None => 0 end)
    (match last_one types, dots with
     | Some t, d => Some (t, d)
     | None, O => None
     | None, d => Some (NoteTypeValue_eighth, d)
     end).

(** The place of the children of a time modification in the format. *)
Definition time_rank (c : tchild) : nat := match c with TActual _ => 0 | TNormal _ => 1 | TType _ => 2 | TDot => 3 | TOther => 4 end.
