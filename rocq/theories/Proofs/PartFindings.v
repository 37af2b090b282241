(** What of the parts is lost. *)
From Coq Require Import List Ascii Bool String ZArith QArith Lia Sorted Arith.
From Verif Require Import Model.Base Model.Text Model.Strings Model.Integers Model.Decimals Model.EnumLookup Model.CoreEnums Model.ApiEnums
  Model.SoundID Model.PlaybackSound Model.InstrumentTable Model.Ticks Model.MeasureTypes Model.Notations Model.PartInfo
  Spec.XmlText Spec.Numerals Spec.Attachments Spec.PartReading Proofs.LayoutProofs Proofs.PartProofs Proofs.PartBack.
Import ListNotations.
Local Open Scope Z_scope.

(** ** Examples *)

Definition viola : PartInfo :=
  mkPart (lit "P1") (lit "Viola") (lit "Vla.") (lit "Viola I") api_Bool_unspecified noPosition (lit "Viola I") api_Bool_unspecified noPosition
    (mkInstrument (lit "P1-I1") (lit "Viola") (lit "Vla.") api_SoundID_stringsViola Solo
       (mkMidi (lit "General MIDI") (lit "Viola") (lit "Port 1") [] 1 3 42 (-1) 80 true (-90) true 0 false)).

Lemma viola_fits : part_fits viola.
Proof.
  assert (S80 : storable 80) by (apply (storable_int 80); lia).
  assert (S90 : storable (-90)) by (apply (storable_int (-90)); lia).
  unfold part_fits. cbv zeta. cbn [viola instrumentData midiData uniqueId displayAbbreviation displayName displayNamePrintObject displayNamePosition
    displayAbbreviationPrintObject displayAbbreviationPosition midiName unpitched bank channel program isVolumeSpecified volume isPanSpecified pan
    isElevationSpecified elevation soundID instrumentId].
  split; [vm_compute; reflexivity | ]. split; [right; reflexivity | ].
  split; [reflexivity | split; [reflexivity | split; [reflexivity | split; [reflexivity | split; [reflexivity | split; [reflexivity | ]]]]]].
  split; [right; lia | split; [right; lia | split; [right; lia | ]]].
  split; [split; [exact S80 | vm_compute; reflexivity] | ]. split; [split; [exact S90 | vm_compute; reflexivity] | ]. split; [reflexivity | ].
  split; [discriminate | ]. split; [intros _; vm_compute; reflexivity | ].
  intros K. exfalso. apply K. left. discriminate.
Qed.

(** ** Defaults *)

Lemma default_back next : 0 <= next < 2 ^ 31 - 1 ->
  exists x, getScorePart next newPart = Ok (x, next) /\ stream_part x = [PName [] (Some YesNo_no)] /\
    part_back next newPart = Ok (mkPart (lit "ID") [] [] [] api_Bool_unspecified noPosition [] api_Bool_unspecified noPosition newInstrument) /\
    newInstrument = mkInstrument [] [] [] api_SoundID_unspecified SoloUnspecified (mkMidi [] [] [] [] (-1) (-1) (-1) (-1) 0 false 0 false 0 false) /\
    newPart = mkPart [] [] [] [] api_Bool_unspecified noPosition [] api_Bool_unspecified noPosition newInstrument.
Proof.
  intros N. eexists. split; [vm_compute; reflexivity | ]. split; [reflexivity | ]. split; [vm_compute; reflexivity | ].
  split; reflexivity.
Qed.

Lemma no_part_read {A} (a0 : A) l music : ~ Exists is_part l -> music <> [] ->
  fst (read_part_list l) = false /\ parts_said (file_music music) [LPart (Some (lit "ID")) [PName [] None]] (read_parts a0 l music).
Proof.
  intros E N. assert (K : fst (read_part_list l) = false /\ snd (read_part_list l) = [new_part]).
  { induction l as [ | x l IH]; [split; reflexivity | ]. assert (E' : ~ Exists is_part l) by (intros X; apply E; right; exact X). destruct (IH E') as [K1 K2].
    destruct x as [ok | id c | ]; cbn [read_part_list fst snd]; [rewrite K1, K2, andb_false_r; split; reflexivity | | split; assumption].
    contradiction E. left. exact I. }
  destruct K as [K1 K2]. split; [exact K1 | ]. unfold read_parts. rewrite K2, (music_read _ _ N).
  exact (rest_said (file_music music) [LPart (Some (lit "ID")) [PName [] None]]).
Qed.

Lemma no_music_read {A} (a0 : A) l : Exists is_part l -> parts_said [(lit "ID", a0)] l (read_parts a0 l []).
Proof. intros E. unfold read_parts. rewrite (list_parts _ E). exact (rest_said [(lit "ID", a0)] l). Qed.

Lemma empty_score {A} (a0 : A) next : exists p, parts_back a0 next [] = Ok [(p, a0)] /\ uniqueId p = lit "ID" /\ name p = [].
Proof. eexists. split; [vm_compute; reflexivity | ]. split; reflexivity. Qed.

Lemma empty_written {A} (a0 : A) next : exists x, write_parts a0 next [] = Ok ([x], [(lit "ID", a0)]) /\ sp_id x = lit "ID" /\ stream_part x = [PName [] None].
Proof. eexists. split; [reflexivity | ]. split; reflexivity. Qed.

(** ** Elements that are there twice *)

(** A field that each child may change. *)
Lemma field_fold {A} (g : xpart -> A) (u : A -> pchild -> A) :
  (forall n x, g (add_identification n x) = u (g x) (PIdentification n)) -> (forall t o x, g (add_name t o x) = u (g x) (PName t o)) ->
  (forall d x, g (add_nameDisplay d x) = u (g x) (PNameDisplay d)) -> (forall t o x, g (add_abbreviation t o x) = u (g x) (PAbbreviation t o)) ->
  (forall d x, g (add_abbreviationDisplay d x) = u (g x) (PAbbreviationDisplay d)) -> (forall b t x, g (add_group b t x) = u (g x) (PGroup t)) ->
  (forall b i c x, g (add_instrument b (read_instrument i c) x) = u (g x) (PInstrument i c)) ->
  (forall m x, g (add_midi m x) = g x) -> (forall a t, u a (PDevice t) = a) -> (forall a i c, u a (PMidi i c) = a) -> (forall a, u a POther = a) ->
  forall l p x, g (read_part_children p l x) = fold_left u l (g x).
Proof.
  intros H1 H2 H3 H4 H5 H6 H7 H8 H9 H10 H11 l.
  induction l as [ | c r IH1 IH2] using pairs_ind; intros p x; [reflexivity | ].
  destruct c; cbn [read_part_children fold_left]; try (rewrite IH1; first [rewrite H1 | rewrite H2 | rewrite H3 | rewrite H4 | rewrite H5 | rewrite H6 | rewrite H7]; reflexivity).
  - rewrite H9. destruct r as [ | d s]; [cbn; apply H8 | ].
    specialize (IH2 d s eq_refl). destruct d; try (rewrite IH1, H8; reflexivity).
    rewrite IH2, H8. cbn [fold_left]. rewrite H10. reflexivity.
  - rewrite IH1, H8, H10. reflexivity.
  - rewrite IH1, H11. reflexivity.
Qed.

Lemma over_latest {C} (h : C -> option YesNo) l : forall o, fold_left (fun a c => over (h c) a) l o = match latest h l with Some a => Some a | None => o end.
Proof.
  induction l as [ | c l IH]; intros o; [reflexivity | ]. cbn [fold_left latest]. rewrite IH. destruct (latest h l); [reflexivity | ].
  unfold over. destruct (h c); reflexivity.
Qed.

Definition abbreviate (a : option (str * option YesNo)) (c : pchild) : option (str * option YesNo) :=
  match c with PAbbreviation t o => Some (t, over o (match a with Some q => snd q | None => None end)) | _ => a end.

Lemma abbreviate_latest l : forall a, fold_left abbreviate l a =
  match latest (fun c => match c with PAbbreviation t _ => Some t | _ => None end) l with
  | Some t => Some (t, match latest (fun c => match c with PAbbreviation _ o => o | _ => None end) l with
                       | Some v => Some v | None => match a with Some q => snd q | None => None end end)
  | None => a end.
Proof.
  induction l as [ | c l IH]; intros a; [reflexivity | ]. cbn [fold_left latest]. rewrite IH.
  set (T := latest (fun c => match c with PAbbreviation t _ => Some t | _ => None end) l).
  set (O := latest (fun c => match c with PAbbreviation _ o => o | _ => None end) l).
  assert (N : T = None -> O = None).
  { subst T O. clear IH. induction l as [ | d l IH]; [reflexivity | ]. cbn [latest].
    destruct (latest (fun c => match c with PAbbreviation t _ => Some t | _ => None end) l); [intros H; discriminate H | ].
    rewrite (IH eq_refl). destruct d; try reflexivity. intros H; discriminate H. }
  destruct T as [t | ].
  - destruct O; [reflexivity | ]. destruct c; try reflexivity.
  - rewrite (N eq_refl). destruct c; try reflexivity.
Qed.

Lemma twice_read id l :
  sp_namePrint (read_part id l) = latest (fun c => match c with PName _ o => o | _ => None end) l /\
  sp_abbreviation (read_part id l) =
    option_map (fun t => (t, latest (fun c => match c with PAbbreviation _ o => o | _ => None end) l))
      (latest (fun c => match c with PAbbreviation t _ => Some t | _ => None end) l).
Proof.
  split; unfold read_part.
  - rewrite (field_fold sp_namePrint (fun a c => over (match c with PName _ o => o | _ => None end) a)); try reflexivity.
    rewrite (over_latest (fun c => match c with PName _ o => o | _ => None end)). cbn [sp_namePrint].
    destruct (latest (fun c => match c with PName _ o => o | _ => None end) l); reflexivity.
  - rewrite (field_fold sp_abbreviation abbreviate); try reflexivity. rewrite abbreviate_latest. cbn [sp_abbreviation].
    match goal with |- match ?u with _ => _ end = _ => destruct u; [ | reflexivity] end. cbn [option_map].
    match goal with |- Some (_, match ?u with _ => _ end) = _ => destruct u; reflexivity end.
Qed.

(** ** Losses *)

Definition only_sound : PartInfo :=
  mkPart (lit "P1") (lit "Viola") [] [] api_Bool_unspecified noPosition [] api_Bool_unspecified noPosition
    (mkInstrument [] [] [] api_SoundID_stringsViola SoloUnspecified newMidi).
Definition only_id : PartInfo :=
  mkPart (lit "P1") (lit "Viola") [] [] api_Bool_unspecified noPosition [] api_Bool_unspecified noPosition
    (mkInstrument (lit "P1-I1") [] [] api_SoundID_unspecified SoloUnspecified newMidi).
Definition with_midi (m : MidiData) : PartInfo :=
  mkPart (lit "P1") (lit "Viola") [] [] api_Bool_unspecified noPosition [] api_Bool_unspecified noPosition
    (mkInstrument [] [] [] api_SoundID_unspecified SoloUnspecified m).
Definition on_channel (n : Z) (called : str) (note : Z) : MidiData := mkMidi [] [] [] called (-1) n (-1) note 0 false 0 false 0 false.
Definition abbreviated_part : PartInfo :=
  mkPart (lit "P1") (lit "Clarinet in B flat") [] (lit "Clarinet in Bb") api_Bool_yes noPosition (lit "Bb Cl.") api_Bool_unspecified noPosition newInstrument.
Definition at_right : PositionData :=
  mkPosition (Some 5%Q) None None None api_HorizontalAlignment_unspecified api_VerticalAlignment_unspecified api_Placement_unspecified.
Definition placed_part : PartInfo :=
  mkPart (lit "P1") (lit "Viola") [] (lit "Viola") api_Bool_unspecified at_right [] api_Bool_unspecified noPosition newInstrument.

(** Every loss of one part. *)
Definition C57_part_claim : Prop := forall next p, part_sound next p -> exists q, part_back next p = Ok q /\ same_part p q.

Lemma plain_sound m : isVolumeSpecified m = false -> isPanSpecified m = false -> isElevationSpecified m = false ->
  forall p, midiData (instrumentData p) = m -> part_sound 1 p.
Proof. intros E1 E2 E3 p E. unfold part_sound. cbv zeta. rewrite E. split; [rewrite E1; discriminate | split; [rewrite E2; discriminate | split; [rewrite E3; discriminate | lia]]]. Qed.

Lemma part_refuted : ~ C57_part_claim.
Proof.
  intros C. destruct (C 1 only_sound) as (q & E & S); [apply (plain_sound newMidi); reflexivity | ].
  vm_compute in E. injection E as <-. destruct S as (_ & _ & _ & _ & _ & _ & _ & _ & _ & (_ & _ & _ & S & _)). discriminate S.
Qed.

Lemma each_refuted :
  (exists p q, part_sound 1 p /\ part_back 1 p = Ok q /\ soundID (instrumentData p) <> soundID (instrumentData q) /\ soundID (instrumentData q) = api_SoundID_unspecified) /\
  (exists p q, part_sound 1 p /\ part_back 1 p = Ok q /\ an_id (instrumentId (instrumentData p)) /\ instrumentId (instrumentData q) = []) /\
  (exists p q, part_sound 1 p /\ part_back 1 p = Ok q /\ midiName (midiData (instrumentData p)) <> [] /\ midiName (midiData (instrumentData q)) = []) /\
  (exists p q, part_sound 1 p /\ part_back 1 p = Ok q /\ unpitched (midiData (instrumentData p)) = 36 /\ unpitched (midiData (instrumentData q)) = -1) /\
  (exists p q, part_sound 1 p /\ part_back 1 p = Ok q /\ channel (midiData (instrumentData p)) = 0 /\ channel (midiData (instrumentData q)) = 1) /\
  (exists p q, part_sound 1 p /\ part_back 1 p = Ok q /\ displayAbbreviation p = lit "Bb Cl." /\ displayAbbreviation q = lit "Clarinet in Bb") /\
  (exists p q, part_sound 1 p /\ part_back 1 p = Ok q /\ displayNamePrintObject p = api_Bool_yes /\ displayNamePrintObject q = api_Bool_unspecified) /\
  (exists p q, part_sound 1 p /\ part_back 1 p = Ok q /\ defaultX (displayNamePosition p) = Some 5%Q /\ defaultX (displayNamePosition q) = None).
Proof.
  split; [ | split; [ | split; [ | split; [ | split; [ | split; [ | split]]]]]].
  - exists only_sound. eexists. split; [apply (plain_sound newMidi); reflexivity | ]. split; [vm_compute; reflexivity | ]. split; [discriminate | reflexivity].
  - exists only_id. eexists. split; [apply (plain_sound newMidi); reflexivity | ]. split; [vm_compute; reflexivity | ]. split; vm_compute; reflexivity.
  - exists (with_midi (on_channel 1 (lit "Drums") 36)). eexists. split; [apply (plain_sound (on_channel 1 (lit "Drums") 36)); reflexivity | ]. split; [vm_compute; reflexivity | ].
    split; [discriminate | reflexivity].
  - exists (with_midi (on_channel 1 (lit "Drums") 36)). eexists. split; [apply (plain_sound (on_channel 1 (lit "Drums") 36)); reflexivity | ]. split; [vm_compute; reflexivity | ].
    split; reflexivity.
  - exists (with_midi (on_channel 0 [] (-1))). eexists. split; [apply (plain_sound (on_channel 0 [] (-1))); reflexivity | ]. split; [vm_compute; reflexivity | ]. split; reflexivity.
  - exists abbreviated_part. eexists. split; [apply (plain_sound newMidi); reflexivity | ]. split; [vm_compute; reflexivity | ]. split; reflexivity.
  - exists abbreviated_part. eexists. split; [apply (plain_sound newMidi); reflexivity | ]. split; [vm_compute; reflexivity | ]. split; reflexivity.
  - exists placed_part. eexists. split; [apply (plain_sound newMidi); reflexivity | ]. split; [vm_compute; reflexivity | ]. split; reflexivity.
Qed.

(** The MIDI instrument of a part belongs to an instrument of the part. *)
Definition C57_ids_claim : Prop := forall next p x n, part_sound next p -> getScorePart next p = Ok (x, n) ->
  Forall (fun g => match mg_instrument g with Some m => In (mi_id m) (map si_id (sp_instruments x)) | None => True end) (sp_midi x).

Lemma ids_refuted : ~ C57_ids_claim.
Proof.
  intros C. specialize (C 7 (with_midi (on_channel 1 [] (-1)))).
  assert (S : part_sound 7 (with_midi (on_channel 1 [] (-1)))).
  { split; [discriminate | split; [discriminate | split; [discriminate | lia]]]. }
  eassert (E : getScorePart 7 (with_midi (on_channel 1 [] (-1))) = Ok (_, _)) by (vm_compute; reflexivity).
  specialize (C _ _ S E). cbn [sp_midi] in C. inversion C as [ | ? ? K _]; subst. cbn in K. destruct K as [K | []]. discriminate K.
Qed.

Lemma ids_named next p x n : part_sound next p -> getScorePart next p = Ok (x, n) ->
  instrument_said (instrumentData p) \/ instrumentId (instrumentData p) <> [] ->
  Forall (fun g => match mg_instrument g with Some m => In (mi_id m) (map si_id (sp_instruments x)) | None => True end) (sp_midi x).
Proof.
  intros S E H. destruct (part_written next p S) as (iid & n' & E' & A & K & _). rewrite E in E'. injection E' as -> _.
  unfold part_element. cbv zeta. cbn [sp_midi sp_instruments]. destruct (adds_midi _) eqn:M; [ | constructor]. rewrite orb_true_r.
  constructor; [ | constructor]. cbn [mg_instrument]. destruct (has_midi_instrument _) eqn:HM; [ | exact I]. left. cbn.
  apply has_midi_iff in HM. destruct K as [K _]; [right; left; exact HM | ]. apply K. exact H.
Qed.

(** ** Files *)

Definition damaged : list lchild :=
  [LPart (Some (lit "P1")) []; LPart None [PInstrument None []]].

Definition C57_accepted_claim : Prop := forall l, fst (read_part_list l) = true ->
  forall id c, In (LPart id c) l -> part_well id c /\ exists t o, In (PName t o) c.

Lemma accepted_refuted : ~ C57_accepted_claim /\
  (exists l id c, fst (read_part_list l) = true /\ In (LPart id c) l /\ ~ part_well id c) /\
  (exists l id c, fst (read_part_list l) = true /\ In (LPart id c) l /\ forall t o, ~ In (PName t o) c).
Proof.
  split; [ | split].
  - intros C. destruct (C damaged eq_refl (Some (lit "P1")) []) as [_ (t & o & I)]; [left; reflexivity | destruct I].
  - exists damaged, None, [PInstrument None []]. split; [reflexivity | ]. split; [right; left; reflexivity | ]. intros [W _]. apply W. reflexivity.
  - exists damaged, (Some (lit "P1")), []. split; [reflexivity | ]. split; [left; reflexivity | ]. intros t o [].
Qed.

Definition sharp_name : list pchild :=
  [PName (lit "Horn in F sharp") None; PNameDisplay [DText (lit "Horn in F"); DAccidental AccidentalValue_sharp]].
Definition flat_name : list pchild :=
  [PName (lit "Clarinet in B flat") None; PNameDisplay [DText (lit "Clarinet in B"); DAccidental AccidentalValue_flat]].

Lemma display_refuted :
  displayName (parseScorePart (read_part (Some (lit "P1")) flat_name)) = lit "Clarinet in Bb" /\
  displayName (parseScorePart (read_part (Some (lit "P1")) sharp_name)) = lit "Horn in F" /\
  (exists c, displayAbbreviation (parseScorePart (read_part (Some (lit "P1")) c)) = lit "Viola" /\
     In (PAbbreviationDisplay [DText (lit "Vla.")]) c /\ In (PNameDisplay [DText (lit "Viola")]) c).
Proof.
  split; [reflexivity | split; [reflexivity | ]]. exists [PName [] None; PNameDisplay [DText (lit "Viola")]; PAbbreviationDisplay [DText (lit "Vla.")]].
  split; [reflexivity | ]. split; [right; right; left; reflexivity | right; left; reflexivity].
Qed.

Definition named (t : string) : PartInfo :=
  mkPart [] (lit t) [] [] api_Bool_unspecified noPosition [] api_Bool_unspecified noPosition newInstrument.
Definition identified (i t : string) : PartInfo :=
  mkPart (lit i) (lit t) [] [] api_Bool_unspecified noPosition [] api_Bool_unspecified noPosition newInstrument.

Definition C57_parts_claim : Prop := forall (A : Type) (a0 : A) next l, parts_sound next l -> exists s, parts_back a0 next l = Ok s /\ map snd s = map snd l.

Lemma named_sound t n : 0 <= n < 2 ^ 31 - 1 -> part_sound n (named t).
Proof. intros N. split; [discriminate | split; [discriminate | split; [discriminate | exact N]]]. Qed.

Lemma parts_refuted : ~ C57_parts_claim /\
  (exists l : list (PartInfo * Z), parts_sound 1 l /\ exists s, parts_back 0 1 l = Ok s /\ map snd l = [10; 20] /\ map snd s = [10; 10]) /\
  (exists s, parts_back 0 1 ([] : list (PartInfo * Z)) = Ok s /\ List.length s = 1%nat).
Proof.
  assert (S : parts_sound 1 [(named "Flute", 10); (named "Oboe", 20)]).
  { split; [lia | ]. split; [vm_compute; reflexivity | ]. constructor; [exists 1; apply named_sound; lia | ]. constructor; [exists 1; apply named_sound; lia | constructor]. }
  split; [ | split].
  - intros C. destruct (C Z 0 1 [] ) as (s & E & M); [split; [lia | split; [vm_compute; reflexivity | constructor]] | ]. vm_compute in E. injection E as <-. discriminate M.
  - exists [(named "Flute", 10); (named "Oboe", 20)]. split; [exact S | ]. eexists. split; [vm_compute; reflexivity | ]. split; reflexivity.
  - eexists. split; [vm_compute; reflexivity | reflexivity].
Qed.
