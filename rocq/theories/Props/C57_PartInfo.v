(** C57: Names and instruments of parts survive writing and reading; each part keeps its own
    music. *)
From Coq Require Import List Ascii Bool String ZArith QArith Lia Sorted.
From Verif Require Import Model.Base Model.Text Model.Strings Model.Integers Model.Decimals Model.EnumLookup Model.CoreEnums Model.ApiEnums
  Model.SoundID Model.PlaybackSound Model.InstrumentTable Model.MeasureTypes Model.Notations Model.PartInfo
  Spec.XmlText Spec.Attachments Spec.PartReading Proofs.PartProofs Proofs.PartBack Proofs.PartFindings.
Import ListNotations.
Local Open Scope Z_scope.

(** Whatever a part says of itself comes back: not so. *)
Theorem C57_part_refuted : ~ (forall next p, part_sound next p -> exists q, part_back next p = Ok q /\ same_part p q).
Proof. exact part_refuted. Qed.
Print Assumptions C57_part_refuted.

(** A part for which the format has a place comes back as it was. *)
Theorem C57_part_partial : forall next p, 0 <= next < 2 ^ 31 - 1 -> part_fits p -> exists q, part_back next p = Ok q /\ same_part p q.
Proof. exact part_fits_back. Qed.
Print Assumptions C57_part_partial.

Example C57_part_ex : part_fits viola /\ exists q, part_back 1 viola = Ok q /\ name q = lit "Viola" /\ channel (midiData (instrumentData q)) = 3 /\
  soundID (instrumentData q) = api_SoundID_stringsViola.
Proof. split; [exact viola_fits | ]. eexists. split; [vm_compute; reflexivity | ]. repeat split. Qed.

(** Of every part, this comes back and nothing else. *)
Theorem C57_back : forall next p, part_sound next p -> exists q, part_back next p = Ok q /\ part_returned next p q.
Proof. exact part_back_exactly. Qed.
Print Assumptions C57_back.

Example C57_back_ex : part_sound 1 only_sound /\ part_sound 1 viola.
Proof. split; [apply (plain_sound newMidi); reflexivity | apply fits_sound; [lia | exact viola_fits]]. Qed.

(** What is lost: the sound and the id of an instrument of which nothing else is known, the
    name and the note of the MIDI instrument, the channel 0, the display abbreviation, print
    data and positions. *)
Theorem C57_each_refuted :
  (exists p q, part_sound 1 p /\ part_back 1 p = Ok q /\ soundID (instrumentData p) <> soundID (instrumentData q) /\ soundID (instrumentData q) = api_SoundID_unspecified) /\
  (exists p q, part_sound 1 p /\ part_back 1 p = Ok q /\ an_id (instrumentId (instrumentData p)) /\ instrumentId (instrumentData q) = []) /\
  (exists p q, part_sound 1 p /\ part_back 1 p = Ok q /\ midiName (midiData (instrumentData p)) <> [] /\ midiName (midiData (instrumentData q)) = []) /\
  (exists p q, part_sound 1 p /\ part_back 1 p = Ok q /\ unpitched (midiData (instrumentData p)) = 36 /\ unpitched (midiData (instrumentData q)) = -1) /\
  (exists p q, part_sound 1 p /\ part_back 1 p = Ok q /\ channel (midiData (instrumentData p)) = 0 /\ channel (midiData (instrumentData q)) = 1) /\
  (exists p q, part_sound 1 p /\ part_back 1 p = Ok q /\ displayAbbreviation p = lit "Bb Cl." /\ displayAbbreviation q = lit "Clarinet in Bb") /\
  (exists p q, part_sound 1 p /\ part_back 1 p = Ok q /\ displayNamePrintObject p = api_Bool_yes /\ displayNamePrintObject q = api_Bool_unspecified) /\
  (exists p q, part_sound 1 p /\ part_back 1 p = Ok q /\ defaultX (displayNamePosition p) = Some 5%Q /\ defaultX (displayNamePosition q) = None).
Proof. exact each_refuted. Qed.
Print Assumptions C57_each_refuted.

(** The elements a part is written as, and the number of the next instrument without an id. *)
Theorem C57_written : forall next p, part_sound next p ->
  exists x n iid, getScorePart next p = Ok (x, n) /\ sp_id x = id_kept (uniqueId p) /\ part_elements iid p (stream_part x) /\
    (instrument_said (instrumentData p) \/ midi_said (midiData (instrumentData p)) \/ device_said (midiData (instrumentData p)) ->
       instrument_id next (instrumentData p) iid) /\
    next_number next p n.
Proof. exact elements_written. Qed.
Print Assumptions C57_written.

(** A part about which nothing is said. *)
Theorem C57_new : forall next, 0 <= next < 2 ^ 31 - 1 ->
  exists x, getScorePart next newPart = Ok (x, next) /\ stream_part x = [PName [] (Some YesNo_no)] /\
    part_back next newPart = Ok (mkPart (lit "ID") [] [] [] api_Bool_unspecified noPosition [] api_Bool_unspecified noPosition newInstrument) /\
    newInstrument = mkInstrument [] [] [] api_SoundID_unspecified SoloUnspecified (mkMidi [] [] [] [] (-1) (-1) (-1) (-1) 0 false 0 false 0 false) /\
    newPart = mkPart [] [] [] [] api_Bool_unspecified noPosition [] api_Bool_unspecified noPosition newInstrument.
Proof. exact default_back. Qed.
Print Assumptions C57_new.

(** The MIDI instrument belongs to an instrument of the part, unless that has no id and only
    MIDI data are known. *)
Theorem C57_ids_refuted : ~ (forall next p x n, part_sound next p -> getScorePart next p = Ok (x, n) ->
  Forall (fun g => match mg_instrument g with Some m => In (mi_id m) (map si_id (sp_instruments x)) | None => True end) (sp_midi x)).
Proof. exact ids_refuted. Qed.
Print Assumptions C57_ids_refuted.

Theorem C57_ids_partial : forall next p x n, part_sound next p -> getScorePart next p = Ok (x, n) ->
  instrument_said (instrumentData p) \/ instrumentId (instrumentData p) <> [] ->
  Forall (fun g => match mg_instrument g with Some m => In (mi_id m) (map si_id (sp_instruments x)) | None => True end) (sp_midi x).
Proof. exact ids_named. Qed.
Print Assumptions C57_ids_partial.

Example C57_ids_ex : part_sound 1 viola /\ exists x n, getScorePart 1 viola = Ok (x, n) /\ map si_id (sp_instruments x) = [lit "P1-I1"] /\
  map (fun g => option_map mi_id (mg_instrument g)) (sp_midi x) = [Some (lit "P1-I1")].
Proof. split; [apply fits_sound; [lia | exact viola_fits] | ]. do 2 eexists. split; [vm_compute; reflexivity | ]. split; reflexivity. Qed.

(** The children of every score-part are in the order of the format. *)
Theorem C57_order : forall x, in_order part_rank (stream_part x) /\
  Forall (fun c => match c with PInstrument _ e => strictly instrument_rank e | PMidi _ e => strictly midi_rank e | _ => True end) (stream_part x).
Proof. exact (fun x => conj (part_in_order x) (children_in_order x)). Qed.
Print Assumptions C57_order.

(** A score-part is read from its children as it was. *)
Theorem C57_children : forall x, whole_part x -> read_part (Some (sp_id x)) (stream_part x) = x.
Proof. exact part_read. Qed.
Print Assumptions C57_children.

Example C57_children_ex : exists x, whole_part x /\ List.length (sp_instruments x) = 2%nat /\ List.length (sp_midi x) = 2%nat.
Proof.
  exists (mkXPart (lit "P1") [4; 5] (lit "Percussion") None (Some [DisplayText (lit "Perc.")]) None None [lit "score"; lit "parts"]
    [mkXInstrument (lit "I1") (lit "Drum") None None (Some ChoiceSolo) None; mkXInstrument (lit "I2") (lit "Bell") None None None None]
    [mkMidiGroup (Some (lit "Port")) (Some (mkXMidi (lit "I1") (Some 10) None None None (Some 36) None None None));
     mkMidiGroup None (Some (mkXMidi (lit "I2") (Some 10) None None None (Some 57) None None None))]).
  split; [ | split; reflexivity]. split; [vm_compute; reflexivity | ]. split; [repeat constructor | ]. split; [repeat constructor | ].
  split; [left; discriminate | ]. split; [exact I | ]. split; [right; discriminate | ]. split; exact I.
Qed.

(** What is reported of any score-part. *)
Theorem C57_document : forall id l, part_says id l (parseScorePart (read_part id l)).
Proof. exact part_document. Qed.
Print Assumptions C57_document.

(** A sharp in a display name is dropped, and the display abbreviation of a file is not read. *)
Theorem C57_display_refuted :
  displayName (parseScorePart (read_part (Some (lit "P1")) flat_name)) = lit "Clarinet in Bb" /\
  displayName (parseScorePart (read_part (Some (lit "P1")) sharp_name)) = lit "Horn in F" /\
  (exists c, displayAbbreviation (parseScorePart (read_part (Some (lit "P1")) c)) = lit "Viola" /\
     In (PAbbreviationDisplay [DText (lit "Vla.")]) c /\ In (PNameDisplay [DText (lit "Viola")]) c).
Proof. exact display_refuted. Qed.
Print Assumptions C57_display_refuted.

(** A part list is accepted if its first score-part, and the groups before it, are good. *)
Theorem C57_accepted : forall l, fst (read_part_list l) = true <->
  exists before id c after, l = before ++ LPart id c :: after /\ Forall (fun x => x = LGroup true \/ x = LOther) before /\ part_well id c.
Proof. exact file_accepted. Qed.
Print Assumptions C57_accepted.

Example C57_accepted_ex : fst (read_part_list [LGroup true; LPart (Some (lit "P1")) flat_name]) = true /\ fst (read_part_list [LGroup true]) = false.
Proof. split; reflexivity. Qed.

(** The others may be damaged, and none needs a name. *)
Theorem C57_accepted_refuted :
  ~ (forall l, fst (read_part_list l) = true -> forall id c, In (LPart id c) l -> part_well id c /\ exists t o, In (PName t o) c) /\
  (exists l id c, fst (read_part_list l) = true /\ In (LPart id c) l /\ ~ part_well id c) /\
  (exists l id c, fst (read_part_list l) = true /\ In (LPart id c) l /\ forall t o, ~ In (PName t o) c).
Proof. exact accepted_refuted. Qed.
Print Assumptions C57_accepted_refuted.

(** Each part keeps its own music: not so. *)
Theorem C57_parts_refuted :
  ~ (forall (A : Type) (a0 : A) next l, parts_sound next l -> exists s, parts_back a0 next l = Ok s /\ map snd s = map snd l) /\
  (exists l : list (PartInfo * Z), parts_sound 1 l /\ exists s, parts_back 0 1 l = Ok s /\ map snd l = [10; 20] /\ map snd s = [10; 10]) /\
  (exists s, parts_back 0 1 ([] : list (PartInfo * Z)) = Ok s /\ List.length s = 1%nat).
Proof. exact parts_refuted. Qed.
Print Assumptions C57_parts_refuted.

(** Parts whose ids are written differently: every part comes back, in its place, with its own
    music. *)
Theorem C57_parts_partial : forall (A : Type) (a0 : A) next l, l <> [] -> parts_sound next l -> NoDup (written_ids l) ->
  exists s, parts_back a0 next l = Ok s /\ parts_returned (music_written l) next l s /\ map snd s = map snd l.
Proof. exact (fun A => @parts_back_own A). Qed.
Print Assumptions C57_parts_partial.

Example C57_parts_ex : parts_sound 1 [(identified "P1" "Flute", 10); (identified "P2" "Oboe", 20)] /\
  NoDup (written_ids [(identified "P1" "Flute", 10); (identified "P2" "Oboe", 20)]).
Proof.
  split.
  - split; [lia | ]. split; [vm_compute; reflexivity | ]. constructor; [exists 1; apply (plain_sound newMidi); reflexivity | ].
    constructor; [exists 1; apply (plain_sound newMidi); reflexivity | constructor].
  - vm_compute. constructor; [intros [H | []]; discriminate H | ]. constructor; [intros [] | constructor].
Qed.

(** If nothing of them is lost either, the whole list comes back. *)
Theorem C57_parts_kept : forall (A : Type) (a0 : A) next l, l <> [] -> 0 <= next -> next + Z.of_nat (List.length l) < 2 ^ 31 ->
  Forall (fun q => part_fits (fst q)) l -> NoDup (map (fun q => uniqueId (fst q)) l) ->
  exists s, parts_back a0 next l = Ok s /\ Forall2 (fun q r => same_part (fst q) (fst r) /\ snd q = snd r) l s.
Proof. exact (fun A => @parts_kept A). Qed.
Print Assumptions C57_parts_kept.

Example C57_parts_kept_ex : Forall (fun q : PartInfo * Z => part_fits (fst q)) [(viola, 10)] /\ NoDup (map (fun q => uniqueId (fst q)) [(viola, 10)]).
Proof. split; [constructor; [exact viola_fits | constructor] | constructor; [intros [] | constructor]]. Qed.

(** All others: each part comes back with the music of the first part whose id is written like
    its own. *)
Theorem C57_parts_any : forall (A : Type) (a0 : A) next l, l <> [] -> parts_sound next l ->
  exists s, parts_back a0 next l = Ok s /\ parts_returned (music_written l) next l s.
Proof. exact (fun A => @parts_back_any A). Qed.
Print Assumptions C57_parts_any.

(** Any file: the score-parts in turn, each with the music of the first part with its id;
    those without music are left out. *)
Theorem C57_file : forall (A : Type) (a0 : A) l music, Exists is_part l -> music <> [] -> parts_said (file_music music) l (read_parts a0 l music).
Proof. exact (fun A => @file_parts A). Qed.
Print Assumptions C57_file.

Example C57_file_ex :
  map snd (read_parts 0 [LGroup true; LPart (Some (lit "P2")) flat_name; LPart (Some (lit "P9")) []; LPart (Some (lit "P1")) sharp_name]
    [(Some (lit "P1"), 1); (Some (lit "P2"), 2)]) = [2; 1].
Proof. reflexivity. Qed.

(** A file without score-parts, or without music: there is one part called ID. *)
Theorem C57_no_parts : forall (A : Type) (a0 : A) l music, ~ Exists is_part l -> music <> [] ->
  fst (read_part_list l) = false /\ parts_said (file_music music) [LPart (Some (lit "ID")) [PName [] None]] (read_parts a0 l music).
Proof. exact (fun A => @no_part_read A). Qed.
Print Assumptions C57_no_parts.

Theorem C57_no_music : forall (A : Type) (a0 : A) l, Exists is_part l -> parts_said [(lit "ID", a0)] l (read_parts a0 l []).
Proof. exact (fun A => @no_music_read A). Qed.
Print Assumptions C57_no_music.

Theorem C57_empty_score : forall (A : Type) (a0 : A) next, exists p, parts_back a0 next [] = Ok [(p, a0)] /\ uniqueId p = lit "ID" /\ name p = [].
Proof. exact (fun A => @empty_score A). Qed.
Print Assumptions C57_empty_score.

(** It is written with one part, so that the file is well-formed MusicXML. *)
Theorem C57_empty_written : forall (A : Type) (a0 : A) next,
  exists x, write_parts a0 next [] = Ok ([x], [(lit "ID", a0)]) /\ sp_id x = lit "ID" /\ stream_part x = [PName [] None].
Proof. exact (fun A => @empty_written A). Qed.
Print Assumptions C57_empty_written.

(** A name or abbreviation that is there twice: the last text counts, and the last print-object
    attribute that is given, though it belongs to another element. *)
Theorem C57_twice : forall id l,
  sp_namePrint (read_part id l) = latest (fun c => match c with PName _ o => o | _ => None end) l /\
  sp_abbreviation (read_part id l) =
    option_map (fun t => (t, latest (fun c => match c with PAbbreviation _ o => o | _ => None end) l))
      (latest (fun c => match c with PAbbreviation t _ => Some t | _ => None end) l).
Proof. exact twice_read. Qed.
Print Assumptions C57_twice.

Example C57_twice_ex :
  sp_abbreviation (read_part None [PAbbreviation (lit "Fl.") (Some YesNo_no); PName (lit "Flute") None; PAbbreviation (lit "Flt.") None]) =
    Some (lit "Flt.", Some YesNo_no).
Proof. reflexivity. Qed.
