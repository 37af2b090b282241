(** Proofs about the notes of any document, and about notes of which all comes back. *)
From Coq Require Import List Ascii Bool String ZArith QArith Qabs Lia Lqa Sorted.
From Verif Require Import Model.Base Model.Text Model.Strings Model.LongDouble Model.Integers Model.Decimals Model.Ticks Model.EnumLookup
  Model.CoreEnums Model.ApiEnums Model.ConverterTables Model.Alter.
From Verif Require Import Proofs.TextProofs Proofs.StringsProofs.
From Verif Require Import Model.Dots Model.MeasureTypes Model.Equality Model.Notations Model.NoteContent Spec.Intervals Spec.Attachments Spec.NoteReading
  Proofs.NoteProofs Proofs.NoteChildren Proofs.NoteBack.
Import ListNotations.
Open Scope Z_scope.
Open Scope list_scope.

Lemma yes_iff o : is_yes o = true <-> o = Some YesNo_yes.
Proof. destruct o as [[]|]; cbn; split; intros H; try reflexivity; discriminate H. Qed.

Lemma letter_api s : stepMap_toApi s = letter_of s.
Proof. destruct s; reflexivity. Qed.

Lemma types_equal a b : (NoteTypeValue_value a =? NoteTypeValue_value b) = true <-> a = b.
Proof. destruct a, b; vm_compute; split; intros H; try reflexivity; discriminate H. Qed.

Lemma tie_iff (f : StartStop -> bool) v k ts : (forall t, f t = true <-> t = v) ->
  existsb f (match k with CueNote => [] | _ => ts end) = true <-> k <> CueNote /\ In v ts.
Proof.
  intros H. assert (E : existsb f ts = true <-> In v ts).
  { rewrite existsb_exists. split; [intros (t & I & T); apply H in T; subst t; exact I | intros I; exists v; split; [exact I | apply H; reflexivity]]. }
  destruct k; cbn [existsb]; rewrite ?E.
  - split; [intros X; split; [discriminate | exact X] | tauto].
  - split; [discriminate | intros [X _]; contradiction].
  - split; [intros X; split; [discriminate | exact X] | tauto].
Qed.

Lemma prefix_iff t : str_eqb (firstn 13 t) misc_prefix = true <-> exists u, t = lit "##misc-data##" ++ u.
Proof.
  rewrite str_eqb_eq. split.
  - intros E. exists (skipn 13 t). rewrite <- (firstn_skipn 13 t) at 1. rewrite E. reflexivity.
  - intros (u & ->). reflexivity.
Qed.

Lemma document_read global current x m : parse_note global current x = Ok m -> document_says global current x m.
Proof.
  unfold parse_note. intros E. change (group_of (x_choice x)) with (chosen (x_choice x)) in E. cbv zeta in E.
  destruct (read_pitch x) as [pd| |] eqn:P; cbn [obind] in E; try discriminate E.
  destruct (read_duration global current x) as [dd| |] eqn:D; cbn [obind] in E; try discriminate E. injection E as <-.
  unfold document_says.
  cbn [isRest isMeasureRest isUnpitched isDisplayStepOctaveSpecified isTieStart isTieStop noteType notehead pitchData stem durationData beams notePosition printObject miscData].
  cbv zeta. set (f := ng_full (chosen (x_choice x))) in *.
  split. { destruct f; cbn [is_rest]; split; intros H; try discriminate H; try reflexivity; [destruct H as (? & ? & H); discriminate H | destruct H as (? & ? & H); discriminate H | eexists _, _; reflexivity]. }
  split. { destruct f as [s a o|d|me d]; cbn [is_measure_rest]; try (split; [discriminate | intros (? & H); discriminate H]).
           rewrite yes_iff. split; [intros ->; eexists; reflexivity | intros (? & H); injection H as -> _; reflexivity]. }
  split. { destruct f; cbn [is_unpitched]; split; intros H; try discriminate H; try reflexivity; [destruct H as (? & H); discriminate H | eexists; reflexivity | destruct H as (? & H); discriminate H]. }
  split. { destruct f as [s a o|[[s o]|]|me [[s o]|]]; cbn [has_display]; split; intros H; try discriminate H; try reflexivity;
             try (destruct H as (? & ? & [H | [? H]]); discriminate H); exists s, o; [left; reflexivity | right; exists me; reflexivity]. }
  split. { apply tie_iff. intros []; cbn; split; intros H; try reflexivity; discriminate H. }
  split. { apply tie_iff. intros []; cbn; split; intros H; try reflexivity; discriminate H. }
  split; [reflexivity | ].
  split; [destruct (x_notehead x); reflexivity | ].
  assert (Pi : exists s a c o, reader_pitch f = Ok (s, a, c, o) /\ step pd = letter_of s /\ octave pd = o /\ alter pd = a /\ cents pd = c /\ document_accidental (x_accidental x) pd).
  { unfold read_pitch in P. change (group_of (x_choice x)) with (chosen (x_choice x)) in P. fold f in P.
    destruct (reader_pitch f) as [[[[s a] c] o]| |] eqn:R; cbn [omap obind] in P; try discriminate P.
    exists s, a, c, o. split; [reflexivity | ]. destruct (x_accidental x) as [ac|]; injection P as <-;
      cbn [step alter cents accidental octave isAccidentalParenthetical isAccidentalCautionary isAccidentalEditorial isAccidentalBracketed document_accidental];
      (split; [apply letter_api | ]); (split; [reflexivity | ]); (split; [reflexivity | ]); (split; [reflexivity | ]); (split; [reflexivity | ]).
    - rewrite !yes_iff. tauto.
    - tauto. }
  destruct Pi as (s & a & c & o & R & S1 & S2 & S3 & S4 & S5).
  split. { unfold document_pitch. destruct f as [s' a' o'|[[s' o']|]|me [[s' o']|]]; cbn [reader_pitch] in R;
             try (injection R as <- <- <- <-; rewrite S1, S2, S3, S4; repeat split; reflexivity).
           destruct (readAlter a') as [[y z]| |] eqn:Ra; cbn [omap obind fst snd] in R; try discriminate R. injection R as <- <- <- <-.
           rewrite S1, S2, S3, S4. repeat split; reflexivity. }
  split; [exact S5 | ].
  split; [reflexivity | ].
  split.
  { unfold document_duration. cbv zeta. unfold read_duration, reader_time in D.
    assert (V : duration_value x = match nc_kind (x_choice x) with GraceNote => 0%Q | _ => ng_duration (chosen (x_choice x)) end) by reflexivity.
    rewrite V in D. set (len := match nc_kind (x_choice x) with GraceNote => 0%Q | _ => ng_duration (chosen (x_choice x)) end) in *.
    unfold duration_type in D. set (own := match x_type x with Some t => t | None => NoteTypeValue_maxima end) in *.
    destruct (x_time x) as [[ac no [[ty dots]|]]|]; cbn [tm_actual tm_normal tm_group] in *;
      destruct (convertDuration global current len) as [ticks| |]; cbn [omap obind] in D; try discriminate D; injection D as <-;
      cbn [durationName durationDots durationTimeTicks isTied timeModificationActualNotes timeModificationNormalNotes timeModificationNormalType timeModificationNormalTypeDots];
      (split; [reflexivity | ]); (split; [reflexivity | ]); (split; [reflexivity | ]); (split; [reflexivity | ]).
    - split; [reflexivity | ]. split; [reflexivity | ]. split.
      + intros ty' k G N. injection G as <- ->. destruct (NoteTypeValue_value ty =? NoteTypeValue_value own) eqn:Q; [exfalso; apply N, types_equal, Q | ].
        assert ((0 <? Z.of_nat (S k)) = true) as -> by (apply Z.ltb_lt; lia). cbn [negb andb]. split; reflexivity.
      + intros [G | [[ty' G] | (ty' & k & G & N)]]; try discriminate G.
        * injection G as <- ->. cbn. split; reflexivity.
        * injection G as <- <-. apply types_equal in N. rewrite N. cbn [negb]. rewrite andb_false_r. split; reflexivity.
    - split; [reflexivity | ]. split; [reflexivity | ]. split; [intros ty k G; discriminate G | ]. intros _. cbn. split; reflexivity.
    - cbn. repeat split; reflexivity. }
  split; [reflexivity | ]. split; [reflexivity | ]. split; [reflexivity | ].
  split.
  - intros u r ->. cbn [parse_misc]. assert (Q : str_eqb (firstn 13 (lit "##misc-data##" ++ u)) misc_prefix = true) by (apply prefix_iff; exists u; reflexivity).
    rewrite Q. reflexivity.
  - intros N. unfold parse_misc. destruct (x_footnote x) as [[[|c' v] [[|t r]|]]|]; try reflexivity.
    destruct (str_eqb (firstn 13 t) misc_prefix) eqn:Q; [ | reflexivity]. apply prefix_iff in Q as (u & ->). exfalso. exact (N u r eq_refl).
Qed.

(** ** Time modification *)

Definition got {A} (l : list A) (o : A) : A := match last_one l with Some v => v | None => o end.

Lemma got_cons {A} (v : A) l o : got (v :: l) o = got l v.
Proof. unfold got. rewrite last_one_cons. destruct (last_one l); reflexivity. Qed.

Lemma time_from l : forall a n g,
  fold_left read_time_child l (mkXTime a n g) =
  mkXTime (got (flat_map (fun c => match c with TActual n => [n] | _ => [] end) l) a)
    (got (flat_map (fun c => match c with TNormal n => [n] | _ => [] end) l) n)
    (match last_one (flat_map (fun c => match c with TType t => [t] | _ => [] end) l),
           List.length (flat_map (fun c => match c with TDot => [tt] | _ => [] end) l), g with
     | Some t, d, Some (_, e) => Some (t, (e + d)%nat)
     | Some t, d, None => Some (t, d)
     | None, d, Some (t, e) => Some (t, (e + d)%nat)
     | None, O, None => None
     | None, d, None => Some (NoteTypeValue_eighth, d)
     end).
Proof.
  induction l as [|c l IH]; intros a n g; cbn [fold_left].
  - destruct g as [[t e]|]; cbn; rewrite ?Nat.add_0_r; reflexivity.
  - destruct c; cbn [read_time_child tm_actual tm_normal tm_group]; rewrite IH; cbn [flat_map app]; rewrite ?got_cons; try reflexivity.
    + rewrite last_one_cons. set (L := last_one _). set (D := List.length _).
      destruct L, D, g as [[? ?]|]; cbn [Nat.add]; rewrite ?Nat.add_0_r; reflexivity.
    + cbn [List.length]. set (L := last_one _). set (D := List.length _).
      destruct L, D, g as [[? ?]|]; cbn [Nat.add]; rewrite ?Nat.add_succ_r, ?Nat.add_0_r; reflexivity.
Qed.

Lemma time_any l : read_time l = time_said l.
Proof.
  unfold read_time, time_said. rewrite time_from. unfold got. cbv zeta. f_equal.
  destruct (last_one _); [reflexivity | ]. destruct (List.length _); reflexivity.
Qed.

(** ** Notes of which all comes back *)

Lemma plain_beams l : ~ In api_Beam_unspecified l -> (List.length l <= 8)%nat -> beams_kept l = l.
Proof.
  intros N L. unfold beams_kept. destruct (Nat.ltb_spec 8 (List.length l)); [lia | ]. rewrite firstn_skipn.
  clear - N. induction l as [|b l IH]; [reflexivity | ]. cbn [map]. rewrite IH; [ | intros I; apply N; right; exact I].
  f_equal. destruct b; try reflexivity. exfalso. apply N. left. reflexivity.
Qed.

Lemma plain_back ticks chord staff voice l i n :
  0 < ticks < 2 ^ 31 -> (l = [] \/ (i < List.length l)%nat) -> Forall sibling_ok l -> content_ok n -> plain n -> undotted_tuplet ticks l i ->
  exists m, note_back ticks chord staff voice l i n = Ok (Some m) /\ same_content m n.
Proof.
  intros T L F OK P U. destruct (note_returns ticks chord staff voice l i n T L F OK) as (m & E & B). exists m. split; [exact E | ].
  destruct P as (P1 & P2 & P3 & P4 & P5 & P6 & P7 & P8 & P9 & P10 & P11 & P12 & P13).
  destruct B as (B1 & B2 & B3 & B4 & B5 & B6 & B7 & B8 & B9 & B10 & B11 & B12 & B13 & B14 & B15).
  unfold same_content.
  split; [exact B1 | ]. split; [rewrite B2; unfold measure_rest; rewrite P1, andb_false_r; reflexivity | ].
  split; [rewrite B3; destruct (isRest n); [rewrite P2 by reflexivity | ]; reflexivity | ].
  split; [congruence | ].
  split; [rewrite B5; destruct (noteType n); [reflexivity | cbn; symmetry; apply P4; reflexivity | reflexivity] | ].
  split; [rewrite B6; destruct (noteType n); [reflexivity | cbn; symmetry; apply P4; reflexivity | reflexivity] | ].
  split; [exact B7 | ]. split; [rewrite B8; destruct (notehead n); try reflexivity; contradiction | ].
  split.
  { destruct B9 as (C1 & C2 & C3 & C4 & C5 & C6). destruct P6 as (Q1 & Q2 & Q3 & Q4 & Q5 & Q6). unfold same_pitch.
    destruct (pitched n).
    - destruct C1 as (D1 & D2 & s' & c' & D3 & _ & _ & _ & D4 & _). injection D3 as D5 D6. destruct Q1 as (R1 & R2 & R3 & R4).
      destruct (D4 R3 R4) as [D7 D8].
      split; [rewrite D1; destruct (step (pitchData n)); try reflexivity; contradiction | ].
      split; [congruence | ]. split; [rewrite D6; clear - D8; lra | ].
      split; [rewrite C2; destruct (accidental (pitchData n)); try reflexivity; contradiction | ].
      split; [congruence | ]. split; [congruence | ]. split; [congruence | ]. split; [congruence | ]. rewrite D2. clear - R2. lia.
    - destruct C1 as (D1 & D2 & D3 & D4). destruct Q1 as (R1 & R2 & R3 & R4).
      split; [congruence | ]. split; [congruence | ].
      split. { rewrite D4. assert (X : (0 - cents (pitchData n) == 0)%Q) by (clear - R4; lra). rewrite X. vm_compute. discriminate. }
      split; [rewrite C2; destruct (accidental (pitchData n)); try reflexivity; contradiction | ].
      split; [congruence | ]. split; [congruence | ]. split; [congruence | ]. split; [congruence | ]. congruence. }
  split; [exact B10 | ].
  split.
  { destruct B11 as (C1 & C2 & C3 & C4 & C5 & C6 & g & G1 & _ & G2). destruct P7 as (Q1 & Q2 & Q3 & Q4 & Q5 & Q6 & Q7 & Q8 & Q9).
    rewrite Q1 in C1.
    assert (G : timeModificationNormalType (durationData m) = api_DurationName_unspecified /\ timeModificationNormalTypeDots (durationData m) = 0).
    { apply G2. destruct g as [[m' [|k]]|]; [right; right; left; exists m'; reflexivity | destruct (U m' k G1) | right; left; reflexivity]. }
    destruct G as [G3 G4].
    assert (N1 : durationName (durationData m) = durationName (durationData n)) by (rewrite C1; destruct (durationName (durationData n)); try reflexivity; contradiction).
    assert (N2 : durationDots (durationData m) = durationDots (durationData n)) by (rewrite C2; clear - Q3; lia).
    assert (N3 : durationTimeTicks (durationData m) = durationTimeTicks (durationData n)) by (rewrite C3; unfold ticks_kept; clear - Q4; destruct (noteType n); lia).
    assert (N4 : timeModificationActualNotes (durationData m) = timeModificationActualNotes (durationData n) /\ timeModificationNormalNotes (durationData m) = timeModificationNormalNotes (durationData n)).
    { rewrite C5, C6. destruct (ratio (durationData n)) eqn:R; [split; reflexivity | ]. unfold ratio in R.
      destruct (Z.ltb_spec 0 (timeModificationActualNotes (durationData n))) as [H | H]; [ | exfalso; clear - Q6 H; lia].
      destruct (Z.ltb_spec 0 (timeModificationNormalNotes (durationData n))) as [H' | H']; [ | exfalso; clear - Q7 H'; lia]. cbn [andb] in R. apply negb_false_iff, andb_prop in R as [R1 R2].
      apply Z.eqb_eq in R1, R2. split; congruence. }
    destruct N4 as [N4 N5]. clear - N1 N2 N3 N4 N5 C4 Q5 G3 G4 Q8 Q9.
    destruct (durationData m) as [a1 a2 a3 a4 a5 a6 a7 a8], (durationData n) as [b1 b2 b3 b4 b5 b6 b7 b8].
    cbn [durationName durationDots durationTimeTicks isTied timeModificationActualNotes timeModificationNormalNotes timeModificationNormalType timeModificationNormalTypeDots] in *.
    subst. reflexivity. }
  split; [rewrite B12; apply plain_beams; assumption | ]. split; [rewrite B13; exact P10 | ]. split; [congruence | ].
  rewrite B15. apply clean_misc; assumption.
Qed.

(** ** Accidentals *)

Lemma shown p : showAccidental p = mkPitch (step p) (alter p) (cents p) (accidental (showAccidental p)) (isAccidentalParenthetical p)
    (isAccidentalCautionary p) (isAccidentalEditorial p) (isAccidentalBracketed p) (octave p) /\
  (Z.abs (alter p) <= 3 -> accidental_semitones (accidental (showAccidental p)) = Some (alter p)) /\
  (3 < Z.abs (alter p) -> accidental (showAccidental p) = api_Accidental_none).
Proof.
  split; [reflexivity | ]. unfold showAccidental. cbn [accidental].
  destruct (Z.eqb_spec (alter p) (-3)) as [-> | ]; [split; intros H; [reflexivity | lia] | ].
  destruct (Z.eqb_spec (alter p) (-2)) as [-> | ]; [split; intros H; [reflexivity | lia] | ].
  destruct (Z.eqb_spec (alter p) (-1)) as [-> | ]; [split; intros H; [reflexivity | lia] | ].
  destruct (Z.eqb_spec (alter p) 0) as [-> | ]; [split; intros H; [reflexivity | lia] | ].
  destruct (Z.eqb_spec (alter p) 1) as [-> | ]; [split; intros H; [reflexivity | lia] | ].
  destruct (Z.eqb_spec (alter p) 2) as [-> | ]; [split; intros H; [reflexivity | lia] | ].
  destruct (Z.eqb_spec (alter p) 3) as [-> | ]; [split; intros H; [reflexivity | lia] | ].
  split; intros H; [lia | reflexivity].
Qed.

(** ** The element that is written *)

Lemma element_written ticks chord staff voice l i n :
  0 < ticks < 2 ^ 31 -> (l = [] \/ (i < List.length l)%nat) -> Forall sibling_ok l -> content_ok n ->
  exists x g, write_note ticks chord staff voice l i n = Ok x /\ x_choice x = only_choice (noteType n) g /\ group_ok (noteType n) g /\
    ng_chord g = chord /\ x_staff x = staff /\ x_voice x = voice /\ x_printObject x = None /\
    x_instrument x = None /\ x_level x = None /\ x_noteheadText x = None /\ x_notations x = [] /\ x_lyrics x = [] /\ x_play x = None.
Proof.
  intros T L F OK. pose proof OK as (_ & _ & _ & A & N & P).
  destruct (choice_written chord n OK) as (f & q & F1 & C1 & C2 & _).
  destruct (time_written ticks l i (durationData n) L F A N) as (g & G1 & G2).
  destruct (NotationsProofs.position_ok_back note_declares _ P eq_refl) as (p & P1 & P2).
  unfold write_note. rewrite C1. cbn [obind]. rewrite P1. cbn [obind]. rewrite G2. cbn [obind].
  eexists _, _. split; [reflexivity | ]. split; [reflexivity | ]. split; [exact C2 | ]. repeat split; reflexivity.
Qed.

(** ** The normal note of a tuplet *)

Lemma normal_exact ticks s e t d : 0 < ticks < 2 ^ 31 -> sb_starts s = [t] -> 0 < normalNumber t -> actualNumber t <> 0 ->
  (inject_Z (tuplet_length s e) == inject_Z (normalNumber t) * (dur_quarters d * inject_Z ticks))%Q ->
  normal_note ticks s e = Some (d, 0%nat).
Proof.
  intros T S N A E. unfold normal_note. rewrite S.
  assert (X : (inject_Z (tuplet_length s e) / inject_Z (normalNumber t) == dur_quarters d * inject_Z ticks)%Q).
  { rewrite E. field. intros Z. change 0%Q with (inject_Z 0) in Z. apply (proj1 (inject_Z_injective _ _)) in Z. lia. }
  assert (M : (1 <= inject_Z ticks)%Q) by (change 1%Q with (inject_Z 1); rewrite <- Zle_Qle; lia).
  assert (N1 : (1 <= inject_Z (normalNumber t))%Q) by (change 1%Q with (inject_Z 1); rewrite <- Zle_Qle; lia).
  assert (P : 0 < tuplet_length s e).
  { rewrite Zlt_Qlt, E. change (inject_Z 0) with 0%Q. pose proof (dur_positive d) as D.
    apply Qmult_lt_0_compat; [lra | ]. apply Qmult_lt_0_compat; lra. }
  apply Z.ltb_lt in P. rewrite P. destruct (Z.eqb_spec (normalNumber t) 0); [lia | ]. destruct (Z.eqb_spec (actualNumber t) 0); [contradiction | ].
  cbn [negb andb]. apply DotsProofs.find_undotted; [lia | ].
  rewrite (DotsProofs.ld_eq _ _ X), (DotsProofs.ld_eq _ _ (dur_exact d ticks)).
  rewrite DotsProofs.ld_scaled; [symmetry; apply dur_exact | ].
  pose proof (dur_bound d). assert (16384 * 2 ^ 31 < 2 ^ 64)%Z by reflexivity. nia.
Qed.

(** ** Ties, time modifications and the note as it is made *)

Lemma ties_none l : forallb follows l = true -> flat_map (fun c => match c with CTie t => [t] | _ => [] end) l = [].
Proof.
  induction l as [ | c l IH]; intros H; [reflexivity | ]. cbn [forallb] in H. apply andb_true_iff in H. destruct H as [H1 H2]. cbn [flat_map]. rewrite (IH H2).
  destruct c; first [reflexivity | discriminate H1].
Qed.

Lemma ties_written ticks chord staff voice l i n :
  0 < ticks < 2 ^ 31 -> (l = [] \/ (i < List.length l)%nat) -> Forall sibling_ok l -> content_ok n -> noteType n <> CueNote ->
  exists x, write_note ticks chord staff voice l i n = Ok x /\
    flat_map (fun c => match c with CTie t => [t] | _ => [] end) (stream_note x) =
    (if isTieStop n then [StartStop_stop] else []) ++ (if isTieStart n then [StartStop_start] else []).
Proof.
  intros T L F OK K. pose proof OK as (_ & _ & _ & A & N & P).
  destruct (choice_written chord n OK) as (f & q & F1 & C1 & C2 & _).
  destruct (time_written ticks l i (durationData n) L F A N) as (g & G1 & G2).
  destruct (NotationsProofs.position_ok_back note_declares _ P eq_refl) as (p & P1 & P2).
  unfold write_note. rewrite C1. cbn [obind]. rewrite P1. cbn [obind]. rewrite G2. cbn [obind].
  eexists. split; [reflexivity | ].
  match goal with |- flat_map _ (stream_note ?x) = _ => change (stream_note x) with (stream_choice (x_choice x) ++ others x); pose proof (ties_none _ (others_follow x)) as O end.
  rewrite flat_map_app, O, app_nil_r. clear O. cbn [x_choice].
  assert (M : forall k, flat_map (fun c => match c with CTie t => [t] | _ => [] end) (map CTie k) = k) by (induction k as [ | t k IH]; [reflexivity | cbn; rewrite IH; reflexivity]).
  unfold stream_choice. rewrite only_kind, only_group. cbn [ng_chord ng_full ng_duration ng_ties].
  destruct (noteType n); [ | contradiction K; reflexivity | ]; destruct chord; cbn [app flat_map]; rewrite M; reflexivity.
Qed.

Lemma time_ordered x : StronglySorted le (map time_rank (stream_time x)).
Proof.
  unfold stream_time. cbn [map time_rank].
  assert (R : forall d, Forall (le 3) (map time_rank (repeat TDot d)) /\ StronglySorted le (map time_rank (repeat TDot d))).
  { induction d as [ | d [I1 I2]]; [split; constructor | ]. cbn. split; constructor; try assumption. lia. }
  destruct (tm_group x) as [[t d] | ].
  - destruct (R d) as [R1 R2]. cbn [map time_rank]. constructor; [constructor; [constructor; [exact R2 | ] | ] | ].
    + eapply Forall_impl; [ | exact R1]. cbn. lia.
    + constructor; [lia | ]. eapply Forall_impl; [ | exact R1]. cbn. lia.
    + constructor; [lia | ]. constructor; [lia | ]. eapply Forall_impl; [ | exact R1]. cbn. lia.
  - repeat constructor.
Qed.

Lemma new_note ticks l i : l = [] ->
  exists d, omap stream_note (write_note ticks false None None l i newContent) =
    Ok [CFull (FPitch StepEnum_c None 4); CDuration d; CType NoteTypeValue_maxima] /\ (d == 1)%Q.
Proof. intros ->. eexists. split; [vm_compute; reflexivity | reflexivity]. Qed.
