(* C56: the content of a note. *)
From Coq Require Import List Ascii String Bool ZArith QArith Qabs Sorted Permutation.
From Verif Require Import Model.Base Model.Text Model.Strings Model.LongDouble Model.Integers Model.Decimals Model.EnumLookup Model.CoreEnums Model.ApiEnums
  Model.ConverterTables Model.Ticks Model.Alter Model.Dots Model.MeasureTypes.
From Verif Require Import Model.Notations Model.NoteContent Spec.Intervals Spec.Attachments Spec.NoteReading Proofs.NoteProofs Proofs.NoteChildren
  Proofs.NoteBack Proofs.NoteDocument Proofs.NoteFindings.
Import ListNotations.
Open Scope Z_scope.

(** The property: the content of a note survives a write and a read. It is false: the
    note as it is made, whose name is not specified, becomes a maxima (and C56_back says
    what else changes). *)
Definition C56_claim : Prop :=
  forall ticks chord staff voice l i n, 0 < ticks < 2 ^ 31 -> (l = [] \/ (i < List.length l)%nat) -> Forall sibling_ok l -> content_ok n ->
  exists m, note_back ticks chord staff voice l i n = Ok (Some m) /\ same_content m n.

Theorem C56_content_refuted : ~ C56_claim.
Proof. exact content_refuted. Qed.
Print Assumptions C56_content_refuted.

(** It holds of plain notes, outside of tuplets whose normal note has dots. *)
Theorem C56_content_partial : forall ticks chord staff voice l i n,
  0 < ticks < 2 ^ 31 -> (l = [] \/ (i < List.length l)%nat) -> Forall sibling_ok l -> content_ok n -> plain n -> undotted_tuplet ticks l i ->
  exists m, note_back ticks chord staff voice l i n = Ok (Some m) /\ same_content m n.
Proof. exact plain_back. Qed.
Print Assumptions C56_content_partial.

(** An e flat, a quarter tone lower, tied, in a triplet of eighths that starts with it. *)
Example C56_meets :
  let n := mkContent false false false false true false NormalNote api_Notehead_diamond
             (mkPitch api_Step_e (-1) (-50) api_Accidental_flat false false false false 5) api_Stem_up
             (mkDuration api_DurationName_eighth 1 8 false 3 2 api_DurationName_unspecified 0) [api_Beam_begin]
             (mkPosition (Some (-5 # 2)) None None None api_HorizontalAlignment_unspecified api_VerticalAlignment_unspecified api_Placement_unspecified)
             api_Bool_unspecified [lit "a b"; lit "c"] in
  let t := mkTupletStart 1 noPosition 3 api_DurationName_eighth 0 2 api_DurationName_eighth 0 api_Bool_unspecified api_Bool_unspecified api_Bool_unspecified in
  let l := [mkSibling 0 8 [t] []; mkSibling 8 8 [] []; mkSibling 16 8 [] [mkTupletStop 1 noPosition]] in
  Forall sibling_ok l /\ content_ok n /\ plain n /\ undotted_tuplet 24 l 0 /\ normal_says 24 l 0 (Some (Eighth, 0%nat)).
Proof. exact plain_example. Qed.

(** What comes back of any note, to the last member. *)
Theorem C56_back : forall ticks chord staff voice l i n,
  0 < ticks < 2 ^ 31 -> (l = [] \/ (i < List.length l)%nat) -> Forall sibling_ok l -> content_ok n ->
  exists m, note_back ticks chord staff voice l i n = Ok (Some m) /\ content_back ticks l i n m.
Proof. exact note_returns. Qed.
Print Assumptions C56_back.

(** The note as it is made. *)
Example C56_back_meets : content_ok newContent /\ ~ plain newContent /\ measure_rest newContent = false.
Proof. exact new_example. Qed.

(** It is a pitched note that lasts one tick, tied to nothing. *)
Example C56_new_note :
  (isRest newContent, isMeasureRest newContent, isUnpitched newContent, isDisplayStepOctaveSpecified newContent) = (false, false, false, false) /\
  (isTieStart newContent, isTieStop newContent, isTied (durationData newContent)) = (false, false, false) /\
  (step (pitchData newContent), octave (pitchData newContent)) = (api_Step_c, 4) /\
  (accidental (pitchData newContent), isAccidentalParenthetical (pitchData newContent), isAccidentalCautionary (pitchData newContent)) =
    (api_Accidental_none, false, false) /\
  (isAccidentalEditorial (pitchData newContent), isAccidentalBracketed (pitchData newContent)) = (false, false) /\
  (durationTimeTicks (durationData newContent), timeModificationActualNotes (durationData newContent)) = (1, 1).
Proof. repeat split. Qed.

(** Not even one of these always comes back: the display position of a rest, the flags of
    an accidental, the beams (the eighth of nine is lost), the name of a measure rest, the
    normal note that the caller sets, the ties of a cue note, whether the note is printed. *)
Definition C56_kept {X} (field : NoteContent -> X) : Prop :=
  forall n m, content_ok n -> note_back 4 false None None [] 0 n = Ok (Some m) -> field m = field n.

Theorem C56_each_refuted :
  ~ C56_kept isDisplayStepOctaveSpecified /\ ~ C56_kept (fun n => isAccidentalParenthetical (pitchData n)) /\ ~ C56_kept beams /\
  ~ (forall n m, content_ok n -> measure_rest n = true -> durationName (durationData n) <> api_DurationName_unspecified ->
       note_back 4 false None None [] 0 n = Ok (Some m) -> durationName (durationData m) = durationName (durationData n)) /\
  ~ C56_kept (fun n => timeModificationNormalType (durationData n)) /\ ~ C56_kept isTieStart /\ ~ C56_kept printObject.
Proof. exact each_lost. Qed.
Print Assumptions C56_each_refuted.

(** The element that is written: the chord, the staff and the voice are as asked for, one
    choice is made, and nothing else is there. *)
Theorem C56_written : forall ticks chord staff voice l i n,
  0 < ticks < 2 ^ 31 -> (l = [] \/ (i < List.length l)%nat) -> Forall sibling_ok l -> content_ok n ->
  exists x g, write_note ticks chord staff voice l i n = Ok x /\ x_choice x = only_choice (noteType n) g /\ group_ok (noteType n) g /\
    ng_chord g = chord /\ x_staff x = staff /\ x_voice x = voice /\ x_printObject x = None /\
    x_instrument x = None /\ x_level x = None /\ x_noteheadText x = None /\ x_notations x = [] /\ x_lyrics x = [] /\ x_play x = None.
Proof. exact element_written. Qed.
Print Assumptions C56_written.

(** The normal note of a tuplet whose normal notes are undotted: its name, without dots. *)
Theorem C56_normal_note : forall ticks s e t d, 0 < ticks < 2 ^ 31 -> sb_starts s = [t] -> 0 < normalNumber t -> actualNumber t <> 0 ->
  (inject_Z (tuplet_length s e) == inject_Z (normalNumber t) * (dur_quarters d * inject_Z ticks))%Q ->
  normal_note ticks s e = Some (d, 0%nat).
Proof. exact normal_exact. Qed.
Print Assumptions C56_normal_note.

(** ** The element *)

(** The children come in the order of the schema. *)
Theorem C56_order : forall x, StronglySorted le (map rank (stream_note x)).
Proof. exact (fun x => proj1 (stream_ranked x)). Qed.
Print Assumptions C56_order.

(** What is written into the element is read back from it. *)
Theorem C56_children : forall x, xnote_ok x -> read_note (x_position x) (x_printObject x) (stream_note x) = Some x.
Proof. exact note_children_back. Qed.
Print Assumptions C56_children.

(** A cue note of a chord with two dots and two beams. *)
Example C56_children_meets :
  let x := mkXNote noXPosition (Some YesNo_no) (only_choice CueNote (mkNoteGroup true (FPitch StepEnum_b (Some (lit "-1")) 3) 6 []))
             (Some 1) (Some (mkFootnote (lit "fn") (Some [lit "Times"; lit "New Roman"]))) None (Some (lit "1")) (Some NoteTypeValue_quarter) 2
             (Some (mkAccidental AccidentalValue_flat (Some YesNo_yes) None None None)) None (Some StemValue_up) None None (Some 2)
             [(Some 1, BeamValue_begin); (Some 2, BeamValue_begin)] [3] [] None in
  xnote_ok x /\ List.length (stream_note x) = 16%nat.
Proof. exact children_example. Qed.

(** The children that are not of the choice may stand anywhere around it; of several that
    may stand once the last counts. *)
Theorem C56_any_order : forall p o k g before after, group_ok k g -> forallb follows before = true -> forallb follows after = true ->
  read_note p o (before ++ choice_children k g ++ after) = Some (collected p o (only_choice k g) (before ++ after)).
Proof. exact any_order. Qed.
Print Assumptions C56_any_order.

Example C56_any_order_meets :
  group_ok GraceNote (mkNoteGroup false (FRest None None) 1 [StartStop_start]) /\ forallb follows [CStaff 2; CDot; CVoice (lit "3")] = true /\
  forallb follows [CType NoteTypeValue_half; CDot; CType NoteTypeValue_eighth] = true /\
  x_type (collected noXPosition None new_choice [CType NoteTypeValue_half; CDot; CType NoteTypeValue_eighth]) = Some NoteTypeValue_eighth.
Proof. exact any_order_example. Qed.

(** Exactly those children are accepted that consist of at least one choice and of other
    children of a note. *)
Theorem C56_accepted : forall p o l, (exists x, read_note p o l = Some x) <-> sequence true l.
Proof. exact accepted_iff. Qed.
Print Assumptions C56_accepted.

Example C56_accepted_meets :
  sequence true [CVoice (lit "1"); CFull (FPitch StepEnum_c None 4); CDuration 4; CTie StartStop_stop; CDot] /\
  ~ sequence true [CFull (FPitch StepEnum_c None 4); CTie StartStop_stop] /\ ~ sequence true [CVoice (lit "1")].
Proof. exact accepted_example. Qed.

(** Time modifications: written and read back, and what any children say. *)
Theorem C56_time : forall x, read_time (stream_time x) = x.
Proof. exact time_back. Qed.
Print Assumptions C56_time.

Theorem C56_time_children : forall l, read_time l = time_said l.
Proof. exact time_any. Qed.
Print Assumptions C56_time_children.

Example C56_time_meets : time_said [TDot; TNormal 2; TOther; TActual 3; TDot; TActual 5] = mkXTime 5 2 (Some (NoteTypeValue_eighth, 2%nat)).
Proof. reflexivity. Qed.

(** ** Documents of other programs *)

(** What is read of any note, to the last member. *)
Theorem C56_document : forall global current x m, parse_note global current x = Ok m -> document_says global current x m.
Proof. exact document_read. Qed.
Print Assumptions C56_document.

(** A rest in the middle of the staff, which is to be seen, with a ratio whose normal note
    is a dotted quarter. *)
Example C56_document_meets :
  exists m, parse_note 24 24 (mkXNote noXPosition (Some YesNo_yes) (only_choice NormalNote (mkNoteGroup false (FRest None (Some (StepEnum_b, 4))) 12 []))
    None (Some (mkFootnote [] (Some [lit "##misc-data##x"; lit "y"]))) None None (Some NoteTypeValue_eighth) 0 None
    (Some (mkXTime 3 2 (Some (NoteTypeValue_quarter, 1%nat)))) None None None None [] [] [] None) = Ok m /\
    step (pitchData m) = api_Step_b /\ durationTimeTicks (durationData m) = 12 /\
    timeModificationNormalType (durationData m) = api_DurationName_quarter /\ miscData m = [lit "x"; lit "y"].
Proof. exact document_example. Qed.

(** Beams without numbers keep their order. *)
Theorem C56_beams_unnumbered : forall l, read_beams (map (fun v => (None, v)) l) = l.
Proof. exact plain_order. Qed.
Print Assumptions C56_beams_unnumbered.

(** Beams with different numbers come in the order of their numbers. *)
Theorem C56_beams_numbered : forall l, NoDup (map fst l) ->
  exists r, Permutation l r /\ StronglySorted Z.lt (map fst r) /\ read_beams (map (fun b => (Some (fst b), snd b)) l) = map snd r.
Proof. exact numbered_order. Qed.
Print Assumptions C56_beams_numbered.

Example C56_beams_meets : NoDup (map fst [(3, BeamValue_end); (1, BeamValue_begin)]) /\
  read_beams (map (fun b => (Some (fst b), snd b)) [(3, BeamValue_end); (1, BeamValue_begin)]) = [BeamValue_begin; BeamValue_end].
Proof. exact beams_example. Qed.

(** Not every beam is read when only some have numbers. *)
Definition C56_beams_claim : Prop := forall l, List.length (read_beams l) = List.length l.

Theorem C56_beams_refuted : ~ C56_beams_claim.
Proof. exact beams_refuted. Qed.
Print Assumptions C56_beams_refuted.

(** ** Accidentals *)

(** showAccidental shows the accidental of the alteration, if there is one, and changes
    nothing else. *)
Theorem C56_show : forall p, showAccidental p = mkPitch (step p) (alter p) (cents p) (accidental (showAccidental p)) (isAccidentalParenthetical p)
    (isAccidentalCautionary p) (isAccidentalEditorial p) (isAccidentalBracketed p) (octave p) /\
  (Z.abs (alter p) <= 3 -> accidental_semitones (accidental (showAccidental p)) = Some (alter p)) /\
  (3 < Z.abs (alter p) -> accidental (showAccidental p) = api_Accidental_none).
Proof. exact shown. Qed.
Print Assumptions C56_show.

(** hideAccidental takes the accidental and its flags away, the pitch stays. *)
Theorem C56_hide : forall p, let q := hideAccidental p in
  step q = step p /\ alter q = alter p /\ cents q = cents p /\ octave q = octave p /\ accidental q = api_Accidental_none /\
  isAccidentalParenthetical q = false /\ isAccidentalCautionary q = false /\ isAccidentalEditorial q = false /\ isAccidentalBracketed q = false.
Proof. exact hidden. Qed.
Print Assumptions C56_hide.

(** The ties of a note: the one that ends first, then the one that starts. *)
Theorem C56_ties : forall ticks chord staff voice l i n,
  0 < ticks < 2 ^ 31 -> (l = [] \/ (i < List.length l)%nat) -> Forall sibling_ok l -> content_ok n -> noteType n <> CueNote ->
  exists x, write_note ticks chord staff voice l i n = Ok x /\
    flat_map (fun c => match c with CTie t => [t] | _ => [] end) (stream_note x) =
    (if isTieStop n then [StartStop_stop] else []) ++ (if isTieStart n then [StartStop_start] else []).
Proof. exact ties_written. Qed.
Print Assumptions C56_ties.

(** The children of a time modification are in the order of the format. *)
Theorem C56_time_order : forall x, StronglySorted le (map time_rank (stream_time x)).
Proof. exact time_ordered. Qed.
Print Assumptions C56_time_order.

(** A note about which nothing is said is a c in the fourth octave that lasts one tick. *)
Theorem C56_new : forall ticks l i, l = [] ->
  exists d, omap stream_note (write_note ticks false None None l i newContent) =
    Ok [CFull (FPitch StepEnum_c None 4); CDuration d; CType NoteTypeValue_maxima] /\ (d == 1)%Q.
Proof. exact new_note. Qed.
Print Assumptions C56_new.
