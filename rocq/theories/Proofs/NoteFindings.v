(** Counterexamples and examples about the content of notes. *)
From Coq Require Import List Ascii Bool String ZArith QArith Qabs Lia Lqa Sorted Permutation.
From Verif Require Import Model.Base Model.Text Model.Strings Model.LongDouble Model.Integers Model.Decimals Model.Ticks Model.EnumLookup
  Model.CoreEnums Model.ApiEnums Model.ConverterTables Model.Alter.
From Verif Require Import Model.Dots Model.MeasureTypes Model.Notations Model.NoteContent Spec.Intervals Spec.Attachments Spec.NoteReading
  Proofs.NoteProofs Proofs.NoteChildren Proofs.NoteBack Proofs.NoteDocument.
Import ListNotations.
Open Scope Z_scope.
Open Scope list_scope.

Lemma new_ok : content_ok newContent.
Proof. unfold content_ok, an_int. cbn. repeat split; try lia; discriminate. Qed.

Lemma new_example : content_ok newContent /\ ~ plain newContent /\ measure_rest newContent = false.
Proof.
  split; [exact new_ok | ]. split; [ | reflexivity].
  intros (_ & _ & _ & _ & _ & _ & (_ & H & _) & _). apply H. reflexivity.
Qed.

Lemma content_refuted : ~ (forall ticks chord staff voice l i n, 0 < ticks < 2 ^ 31 -> (l = [] \/ (i < List.length l)%nat) -> Forall sibling_ok l -> content_ok n ->
  exists m, note_back ticks chord staff voice l i n = Ok (Some m) /\ same_content m n).
Proof.
  intros H. destruct (H 4 false None None [] 0%nat newContent ltac:(lia) (or_introl eq_refl) (Forall_nil _) new_ok) as (m & E & S).
  destruct (note_returns 4 false None None [] 0%nat newContent ltac:(lia) (or_introl eq_refl) (Forall_nil _) new_ok) as (m' & E' & B).
  rewrite E in E'. injection E' as <-.
  destruct S as (_ & _ & _ & _ & _ & _ & _ & _ & _ & _ & S & _). destruct B as (_ & _ & _ & _ & _ & _ & _ & _ & _ & _ & (B & _) & _).
  rewrite S in B. discriminate B.
Qed.

Lemma back_of n : content_ok n -> exists m, note_back 4 false None None [] 0 n = Ok (Some m) /\ content_back 4 [] 0 n m.
Proof. intros H. apply note_returns; [lia | left; reflexivity | constructor | exact H]. Qed.

Definition note_with rest measure display tie ty beams print p d : NoteContent :=
  mkContent rest measure false display tie false ty api_Notehead_normal p api_Stem_unspecified d beams noPosition print [].

Lemma with_ok a b c e f g h p d : p = newPitch \/ p = mkPitch api_Step_c 0 0 api_Accidental_natural true false false false 4 ->
  durationTimeTicks d = 4 -> timeModificationActualNotes d = 3 -> timeModificationNormalNotes d = 2 -> content_ok (note_with a b c e f g h p d).
Proof.
  intros P D1 D2 D3. unfold content_ok, note_with, an_int. cbn [pitchData durationData notePosition]. rewrite D1, D2, D3.
  destruct P as [-> | ->]; cbn; repeat split; try lia; discriminate.
Qed.

Definition some_duration (name normal : api_DurationName) : DurationData := mkDuration name 0 4 false 3 2 normal 0.
Definition a_duration := some_duration api_DurationName_breve api_DurationName_quarter.

Lemma each_lost :
  ~ (forall n m, content_ok n -> note_back 4 false None None [] 0 n = Ok (Some m) -> isDisplayStepOctaveSpecified m = isDisplayStepOctaveSpecified n) /\
  ~ (forall n m, content_ok n -> note_back 4 false None None [] 0 n = Ok (Some m) -> isAccidentalParenthetical (pitchData m) = isAccidentalParenthetical (pitchData n)) /\
  ~ (forall n m, content_ok n -> note_back 4 false None None [] 0 n = Ok (Some m) -> beams m = beams n) /\
  ~ (forall n m, content_ok n -> measure_rest n = true -> durationName (durationData n) <> api_DurationName_unspecified ->
       note_back 4 false None None [] 0 n = Ok (Some m) -> durationName (durationData m) = durationName (durationData n)) /\
  ~ (forall n m, content_ok n -> note_back 4 false None None [] 0 n = Ok (Some m) -> timeModificationNormalType (durationData m) = timeModificationNormalType (durationData n)) /\
  ~ (forall n m, content_ok n -> note_back 4 false None None [] 0 n = Ok (Some m) -> isTieStart m = isTieStart n) /\
  ~ (forall n m, content_ok n -> note_back 4 false None None [] 0 n = Ok (Some m) -> printObject m = printObject n).
Proof.
  pose (pp := mkPitch api_Step_c 0 0 api_Accidental_natural true false false false 4).
  split. { intros H. pose (n := note_with true false true false NormalNote [] api_Bool_unspecified newPitch a_duration).
    assert (OK : content_ok n) by (apply with_ok; [left | | | ]; reflexivity). destruct (back_of n OK) as (m & E & B). specialize (H n m OK E).
    destruct B as (_ & _ & _ & B & _). rewrite B in H. discriminate H. }
  split. { intros H. pose (n := note_with false false false false NormalNote [] api_Bool_unspecified pp a_duration).
    assert (OK : content_ok n) by (apply with_ok; [right | | | ]; reflexivity). destruct (back_of n OK) as (m & E & B). specialize (H n m OK E).
    destruct B as (_ & _ & _ & _ & _ & _ & _ & _ & (_ & _ & B & _) & _). rewrite B in H. discriminate H. }
  split. { intros H. pose (n := note_with false false false false NormalNote (repeat api_Beam_begin 9) api_Bool_unspecified newPitch a_duration).
    assert (OK : content_ok n) by (apply with_ok; [left | | | ]; reflexivity). destruct (back_of n OK) as (m & E & B). specialize (H n m OK E).
    destruct B as (_ & _ & _ & _ & _ & _ & _ & _ & _ & _ & _ & B & _). rewrite B in H. discriminate H. }
  split. { intros H. pose (n := note_with true true false false NormalNote [] api_Bool_unspecified newPitch a_duration).
    assert (OK : content_ok n) by (apply with_ok; [left | | | ]; reflexivity). destruct (back_of n OK) as (m & E & B).
    specialize (H n m OK eq_refl ltac:(discriminate) E).
    destruct B as (_ & _ & _ & _ & _ & _ & _ & _ & _ & _ & (B & _) & _). rewrite H in B. cbn in B. destruct B as [(d & I & _ & N) | [_ N]]; [ | discriminate N].
    cbn [In] in I. repeat (destruct I as [<- | I]; [discriminate N | ]). exact I. }
  split. { intros H. pose (n := note_with false false false false NormalNote [] api_Bool_unspecified newPitch a_duration).
    assert (OK : content_ok n) by (apply with_ok; [left | | | ]; reflexivity). destruct (back_of n OK) as (m & E & B). specialize (H n m OK E).
    destruct B as (_ & _ & _ & _ & _ & _ & _ & _ & _ & _ & (_ & _ & _ & _ & _ & _ & g & (_ & G) & _ & B) & _).
    destruct B as [B _]; [ | rewrite B in H; discriminate H]. right. left. apply G. intros s e (j & k & _ & _ & N & _). destruct j; discriminate N. }
  split. { intros H. pose (n := note_with false false false true CueNote [] api_Bool_unspecified newPitch a_duration).
    assert (OK : content_ok n) by (apply with_ok; [left | | | ]; reflexivity). destruct (back_of n OK) as (m & E & B). specialize (H n m OK E).
    destruct B as (_ & _ & _ & _ & B & _). rewrite B in H. discriminate H. }
  intros H. pose (n := note_with false false false false NormalNote [] api_Bool_no newPitch a_duration).
  assert (OK : content_ok n) by (apply with_ok; [left | | | ]; reflexivity). destruct (back_of n OK) as (m & E & B). specialize (H n m OK E).
  destruct B as (_ & _ & _ & _ & _ & _ & _ & _ & _ & _ & _ & _ & _ & B & _). rewrite B in H. discriminate H.
Qed.

Definition a_triplet := mkTupletStart 1 noPosition 3 api_DurationName_eighth 0 2 api_DurationName_eighth 0 api_Bool_unspecified api_Bool_unspecified api_Bool_unspecified.

Lemma plain_example :
  let n := mkContent false false false false true false NormalNote api_Notehead_diamond
             (mkPitch api_Step_e (-1) (-50) api_Accidental_flat false false false false 5) api_Stem_up
             (mkDuration api_DurationName_eighth 1 8 false 3 2 api_DurationName_unspecified 0) [api_Beam_begin]
             (mkPosition (Some (-5 # 2)) None None None api_HorizontalAlignment_unspecified api_VerticalAlignment_unspecified api_Placement_unspecified)
             api_Bool_unspecified [lit "a b"; lit "c"] in
  let t := mkTupletStart 1 noPosition 3 api_DurationName_eighth 0 2 api_DurationName_eighth 0 api_Bool_unspecified api_Bool_unspecified api_Bool_unspecified in
  let l := [mkSibling 0 8 [t] []; mkSibling 8 8 [] []; mkSibling 16 8 [] [mkTupletStop 1 noPosition]] in
  Forall sibling_ok l /\ content_ok n /\ plain n /\ undotted_tuplet 24 l 0 /\ normal_says 24 l 0 (Some (Eighth, 0%nat)).
Proof.
  cbv zeta. set (l := [mkSibling 0 8 [a_triplet] []; mkSibling 8 8 [] []; mkSibling 16 8 [] [mkTupletStop 1 noPosition]]).
  assert (F : Forall sibling_ok l) by (repeat constructor; cbn; lia).
  assert (A : tuplet_around l 0 (mkSibling 0 8 [a_triplet] []) (mkSibling 16 8 [] [mkTupletStop 1 noPosition])).
  { exists 0%nat, 2%nat. split; [lia | ]. split; [lia | ]. split; [reflexivity | ]. split; [reflexivity | ]. split; [reflexivity | ]. split; [reflexivity | ]. split; [intros; lia | ].
    intros [|[|k]] x K E; [injection E as <-; discriminate | injection E as <-; discriminate | lia]. }
  assert (N : normal_note 24 (mkSibling 0 8 [a_triplet] []) (mkSibling 16 8 [] [mkTupletStop 1 noPosition]) = Some (Eighth, 0%nat)).
  { apply (normal_exact 24 _ _ a_triplet); [lia | reflexivity | reflexivity | discriminate | reflexivity]. }
  assert (G : forall g, normal_says 24 l 0 g -> g = Some (Eighth, 0%nat)).
  { intros g [G _]. rewrite (G _ _ A). exact N. }
  split; [exact F | ]. split.
  { unfold content_ok, an_int. cbn [pitchData durationData notePosition alter cents durationTimeTicks timeModificationActualNotes timeModificationNormalNotes].
    split; [lia | ]. split; [vm_compute; discriminate | ]. split; [lia | ]. split; [lia | ]. split; [lia | ].
    split; [ | repeat split]. split; [exists (-5)%Z, (-1)%Z; split; reflexivity | split; reflexivity]. }
  split.
  { unfold plain. cbn [isMeasureRest isRest isUnpitched isDisplayStepOctaveSpecified noteType isTieStart isTieStop notehead pitchData durationData beams notePosition printObject miscData].
    split; [reflexivity | ]. split; [discriminate | ]. split; [reflexivity | ]. split; [discriminate | ]. split; [discriminate | ].
    split. { unfold plain_pitch. cbn. repeat split; try discriminate; try lia. }
    split. { unfold plain_duration. cbn. repeat split; try discriminate; try lia. }
    split; [intros [H | []]; discriminate H | ]. split; [cbn; lia | ]. split; [ | split; [reflexivity | split]].
    - unfold same_position. repeat split; vm_compute; reflexivity.
    - repeat constructor; try (vm_compute; reflexivity); cbn; intros H; repeat (destruct H as [H | H]; [discriminate H | ]); exact H.
    - intros r t E Nr Et. subst t. destruct r as [|a [|b r]]; [contradiction | injection E as _ E; discriminate E | destruct r; discriminate E]. }
  split; [intros m k S; apply G in S; discriminate S | ].
  split; [intros s e A'; destruct (around_unique _ _ _ _ _ _ A A') as [<- <-]; symmetry; exact N | intros X; destruct (X _ _ A)].
Qed.

Lemma children_example :
  let x := mkXNote noXPosition (Some YesNo_no) (only_choice CueNote (mkNoteGroup true (FPitch StepEnum_b (Some (lit "-1")) 3) 6 []))
             (Some 1) (Some (mkFootnote (lit "fn") (Some [lit "Times"; lit "New Roman"]))) None (Some (lit "1")) (Some NoteTypeValue_quarter) 2
             (Some (mkAccidental AccidentalValue_flat (Some YesNo_yes) None None None)) None (Some StemValue_up) None None (Some 2)
             [(Some 1, BeamValue_begin); (Some 2, BeamValue_begin)] [3] [] None in
  xnote_ok x /\ List.length (stream_note x) = 16%nat.
Proof.
  cbv zeta. split; [ | reflexivity]. split.
  - exists CueNote. eexists. split; reflexivity.
  - cbn [x_footnote every fn_family]. split.
    + repeat constructor; try (vm_compute; reflexivity); cbn; intros H; repeat (destruct H as [H | H]; [discriminate H | ]); exact H.
    + intros r t E Et. subst t. destruct r as [|a [|b r]]; [discriminate E | discriminate E | destruct r; discriminate E].
Qed.

Lemma any_order_example :
  group_ok GraceNote (mkNoteGroup false (FRest None None) 1 [StartStop_start]) /\ forallb follows [CStaff 2; CDot; CVoice (lit "3")] = true /\
  forallb follows [CType NoteTypeValue_half; CDot; CType NoteTypeValue_eighth] = true /\
  x_type (collected noXPosition None new_choice [CType NoteTypeValue_half; CDot; CType NoteTypeValue_eighth]) = Some NoteTypeValue_eighth.
Proof. repeat split; reflexivity. Qed.

Lemma accepted_example :
  sequence true [CVoice (lit "1"); CFull (FPitch StepEnum_c None 4); CDuration 4; CTie StartStop_stop; CDot] /\
  ~ sequence true [CFull (FPitch StepEnum_c None 4); CTie StartStop_stop] /\ ~ sequence true [CVoice (lit "1")].
Proof.
  split; [ | split].
  - constructor; [reflexivity | ].
    refine (seq_choice false NormalNote (mkNoteGroup false (FPitch StepEnum_c None 4) 4 [StartStop_stop]) [CDot] I _).
    constructor; [reflexivity | constructor].
  - intros S. apply (accepted_iff noXPosition None) in S. destruct S as [x E]. discriminate E.
  - intros S. apply (accepted_iff noXPosition None) in S. destruct S as [x E]. discriminate E.
Qed.

Lemma document_example :
  exists m, parse_note 24 24 (mkXNote noXPosition (Some YesNo_yes) (only_choice NormalNote (mkNoteGroup false (FRest None (Some (StepEnum_b, 4))) 12 []))
    None (Some (mkFootnote [] (Some [lit "##misc-data##x"; lit "y"]))) None None (Some NoteTypeValue_eighth) 0 None
    (Some (mkXTime 3 2 (Some (NoteTypeValue_quarter, 1%nat)))) None None None None [] [] [] None) = Ok m /\
    step (pitchData m) = api_Step_b /\ durationTimeTicks (durationData m) = 12 /\
    timeModificationNormalType (durationData m) = api_DurationName_quarter /\ miscData m = [lit "x"; lit "y"].
Proof. eexists. split; [vm_compute; reflexivity | ]. repeat split; reflexivity. Qed.

Lemma plain_order l : read_beams (map (fun v => (None, v)) l) = l.
Proof. unfold read_beams. apply (unnumbered_beams l 0 [] []); reflexivity. Qed.

Lemma numbered_order l : NoDup (map fst l) ->
  exists r, Permutation l r /\ StronglySorted Z.lt (map fst r) /\ read_beams (map (fun b => (Some (fst b), snd b)) l) = map snd r.
Proof.
  intros N. unfold read_beams. destruct (numbered_beams l 0 [] N ltac:(constructor)) as [P S].
  eexists. split; [exact P | ]. split; [exact S | reflexivity].
Qed.

Lemma beams_example : NoDup (map fst [(3, BeamValue_end); (1, BeamValue_begin)]) /\
  read_beams (map (fun b => (Some (fst b), snd b)) [(3, BeamValue_end); (1, BeamValue_begin)]) = [BeamValue_begin; BeamValue_end].
Proof.
  split; [ | reflexivity]. constructor; [intros [H | []]; discriminate H | ]. constructor; [intros [] | constructor].
Qed.

Lemma beams_refuted : ~ (forall l, List.length (read_beams l) = List.length l).
Proof. intros H. specialize (H [(Some 1, BeamValue_begin); (None, BeamValue_end)]). discriminate H. Qed.

Lemma hidden p : let q := hideAccidental p in
  step q = step p /\ alter q = alter p /\ cents q = cents p /\ octave q = octave p /\ accidental q = api_Accidental_none /\
  isAccidentalParenthetical q = false /\ isAccidentalCautionary q = false /\ isAccidentalEditorial q = false /\ isAccidentalBracketed q = false.
Proof. repeat split; reflexivity. Qed.
