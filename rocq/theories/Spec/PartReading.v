(** What a part is called and which instrument plays it, in MusicXML, and what comes back of it
    when it is written and read. *)
From Coq Require Import List Ascii Bool String ZArith QArith Sorted.
From Verif Require Import Model.Base Model.Text Model.Strings Model.Integers Model.Decimals Model.EnumLookup Model.CoreEnums Model.ApiEnums
  Model.SoundID Model.PlaybackSound Model.InstrumentTable Model.MeasureTypes Model.Notations Model.PartInfo
  Spec.XmlText Spec.Attachments.
Import ListNotations.
Local Open Scope Z_scope.

(** ** Ids *)

(** The id a text becomes: C13 says which one that is. *)
Definition id_kept (t : str) : str := match id_of t with Ok u => u | _ => t end.

(** A text that is kept as an id. *)
Definition an_id (t : str) : Prop := id_of t = Ok t.

(** ** Written and read back *)

(** A bank, channel or program: negative numbers mean that there is none. *)
Definition number_kept (most n : Z) : Z := if n <? 0 then -1 else Z.max 1 (Z.min most n).

Definition sound_kept (s : api_SoundID) : api_SoundID :=
  match s with api_SoundID_errorBadString => api_SoundID_unspecified | _ => s end.

(** The name and the unpitched note of the MIDI data are lost. *)
Definition midi_kept (m : MidiData) : MidiData :=
  mkMidi (virtualLibrary m) (virtualName m) (device m) [] (number_kept 16384 (bank m)) (number_kept 16 (channel m))
    (number_kept 128 (program m)) (-1)
    (if isVolumeSpecified m then stored Percent (volume m) else 0) (isVolumeSpecified m)
    (if isPanSpecified m then stored RotationDegrees (pan m) else 0) (isPanSpecified m)
    (if isElevationSpecified m then stored RotationDegrees (elevation m) else 0) (isElevationSpecified m).

(** Something is said of the MIDI instrument; of its device; of the instrument. *)
Definition midi_said (m : MidiData) : Prop :=
  0 <= bank m \/ 0 <= channel m \/ 0 <= program m \/ isVolumeSpecified m = true \/ isPanSpecified m = true \/ isElevationSpecified m = true.
Definition device_said (m : MidiData) : Prop := device m <> [].
Definition instrument_said (i : InstrumentData) : Prop :=
  instrumentName i <> [] \/ instrumentAbbreviation i <> [] \/ soloOrEnsemble i <> SoloUnspecified \/
  virtualName (midiData i) <> [] \/ virtualLibrary (midiData i) <> [].

(** The id of the instrument that is written: one without an id of its own is called ID, or, if
    only MIDI data are known, by the next number of the document manager. *)
Definition instrument_id (next : Z) (i : InstrumentData) (id : str) : Prop :=
  (instrument_said i \/ instrumentId i <> [] -> id = id_kept (instrumentId i)) /\
  (~ instrument_said i -> instrumentId i = [] -> id = lit "ID" ++ print_int next).

Definition instrument_back (next : Z) (i j : InstrumentData) : Prop :=
  (instrument_said i \/ midi_said (midiData i) \/ device_said (midiData i) ->
     instrument_id next i (instrumentId j) /\ instrumentName j = instrumentName i /\
     instrumentAbbreviation j = instrumentAbbreviation i /\ soundID j = sound_kept (soundID i) /\ soloOrEnsemble j = soloOrEnsemble i) /\
  (~ instrument_said i -> ~ midi_said (midiData i) -> ~ device_said (midiData i) ->
     instrumentId j = [] /\ instrumentName j = [] /\ instrumentAbbreviation j = [] /\ soundID j = api_SoundID_unspecified /\
     soloOrEnsemble j = SoloUnspecified) /\
  midiData j = midi_kept (midiData i).

(** All that comes back of a part: the display abbreviation is the display name if there is
    one; print data and positions are lost. *)
Definition part_returned (next : Z) (p q : PartInfo) : Prop :=
  uniqueId q = id_kept (uniqueId p) /\ name q = name p /\ abbreviation q = abbreviation p /\ displayName q = displayName p /\
  displayAbbreviation q = (match displayAbbreviation p with [] => [] | _ => displayName p end) /\
  displayNamePrintObject q = api_Bool_unspecified /\ displayNamePosition q = noPosition /\
  displayAbbreviationPrintObject q = api_Bool_unspecified /\ displayAbbreviationPosition q = noPosition /\
  instrument_back next (instrumentData p) (instrumentData q).

(** Numbers that can be stored; the counter of the document manager has not run out. *)
Definition part_sound (next : Z) (p : PartInfo) : Prop :=
  let m := midiData (instrumentData p) in
  (isVolumeSpecified m = true -> storable (volume m)) /\ (isPanSpecified m = true -> storable (pan m)) /\
  (isElevationSpecified m = true -> storable (elevation m)) /\ 0 <= next < 2 ^ 31 - 1.

(** A part of which nothing is lost. *)
Definition within (most n : Z) : Prop := n = -1 \/ 1 <= n <= most.
Definition number_fits (t : decimal_type) (specified : bool) (x : Q) : Prop :=
  if specified then storable x /\ (stored t x == x)%Q else (x == 0)%Q.
Definition part_fits (p : PartInfo) : Prop :=
  let i := instrumentData p in
  let m := midiData i in
  an_id (uniqueId p) /\ (displayAbbreviation p = [] \/ displayAbbreviation p = displayName p) /\
  displayNamePrintObject p = api_Bool_unspecified /\ displayNamePosition p = noPosition /\
  displayAbbreviationPrintObject p = api_Bool_unspecified /\ displayAbbreviationPosition p = noPosition /\
  midiName m = [] /\ unpitched m = -1 /\ within 16384 (bank m) /\ within 16 (channel m) /\ within 128 (program m) /\
  number_fits Percent (isVolumeSpecified m) (volume m) /\ number_fits RotationDegrees (isPanSpecified m) (pan m) /\
  number_fits RotationDegrees (isElevationSpecified m) (elevation m) /\ soundID i <> api_SoundID_errorBadString /\
  (instrument_said i \/ midi_said m \/ device_said m -> an_id (instrumentId i)) /\
  (~ instrument_said i -> ~ midi_said m -> ~ device_said m -> instrumentId i = [] /\ soundID i = api_SoundID_unspecified).

(** The same part; the numbers are compared as numbers. *)
Definition same_midi (m n : MidiData) : Prop :=
  virtualLibrary m = virtualLibrary n /\ virtualName m = virtualName n /\ device m = device n /\ midiName m = midiName n /\
  bank m = bank n /\ channel m = channel n /\ program m = program n /\ unpitched m = unpitched n /\
  isVolumeSpecified m = isVolumeSpecified n /\ isPanSpecified m = isPanSpecified n /\ isElevationSpecified m = isElevationSpecified n /\
  (volume m == volume n)%Q /\ (pan m == pan n)%Q /\ (elevation m == elevation n)%Q.
Definition same_instrument (i j : InstrumentData) : Prop :=
  instrumentId i = instrumentId j /\ instrumentName i = instrumentName j /\ instrumentAbbreviation i = instrumentAbbreviation j /\
  soundID i = soundID j /\ soloOrEnsemble i = soloOrEnsemble j /\ same_midi (midiData i) (midiData j).
Definition same_part (p q : PartInfo) : Prop :=
  uniqueId p = uniqueId q /\ name p = name q /\ abbreviation p = abbreviation q /\ displayName p = displayName q /\
  displayNamePrintObject p = displayNamePrintObject q /\ displayNamePosition p = displayNamePosition q /\
  displayAbbreviation p = displayAbbreviation q /\ displayAbbreviationPrintObject p = displayAbbreviationPrintObject q /\
  displayAbbreviationPosition p = displayAbbreviationPosition q /\ same_instrument (instrumentData p) (instrumentData q).

(** ** The children of the elements, in the order of the format *)

Definition part_rank (c : pchild) : Z :=
  match c with
  | PIdentification _ => 0 | PName _ _ => 1 | PNameDisplay _ => 2 | PAbbreviation _ _ => 3 | PAbbreviationDisplay _ => 4 | PGroup _ => 5
  | PInstrument _ _ => 6 | PDevice _ | PMidi _ _ => 7 | POther => 8
  end.
Definition instrument_rank (c : ichild) : Z :=
  match c with
  | IName _ => 0 | IAbbreviation _ => 1 | ISound _ => 2 | ISolo | IEnsemble => 3 | IVirtual _ => 4 | IOther => 5
  end.
Definition midi_rank (c : mchild) : Z :=
  match c with
  | MChannel _ => 0 | MName _ => 1 | MBank _ => 2 | MProgram _ => 3 | MUnpitched _ => 4 | MVolume _ => 5 | MPan _ => 6
  | MElevation _ => 7 | MOther => 8
  end.
Definition in_order {C} (rank : C -> Z) (l : list C) : Prop := StronglySorted (fun a b => rank a <= rank b) l.
Definition strictly {C} (rank : C -> Z) (l : list C) : Prop := StronglySorted (fun a b => rank a < rank b) l.

(** The elements a part is written as. [iid]: the id of the instrument. *)
Definition said {C} (t : str) (c : C) : list C := match t with [] => [] | _ => [c] end.
Definition part_elements (iid : str) (p : PartInfo) (l : list pchild) : Prop :=
  let i := instrumentData p in
  let m := midiData i in
  exists instruments devices midis,
    l = [PName (name p) (Some YesNo_no)] ++ said (displayName p) (PNameDisplay [DText (displayName p)]) ++
        said (abbreviation p) (PAbbreviation (abbreviation p) (Some YesNo_no)) ++
        said (displayAbbreviation p) (PAbbreviationDisplay [DText (displayAbbreviation p)]) ++ instruments ++ devices ++ midis /\
    (instrument_said i \/ midi_said m \/ device_said m -> exists c, instruments = [PInstrument (Some iid) c] /\ strictly instrument_rank c /\
       In (IName (instrumentName i)) c /\
       (forall t, In (IAbbreviation t) c <-> t = instrumentAbbreviation i /\ t <> []) /\
       (forall s, In (ISound s) c <-> instrumentMap_toApi s = soundID i /\ soundID i <> api_SoundID_unspecified) /\
       (In ISolo c <-> soloOrEnsemble i = Solo) /\ (In IEnsemble c <-> soloOrEnsemble i = Ensemble) /\
       (forall v, In (IVirtual v) c <-> v = said (virtualLibrary m) (VLibrary (virtualLibrary m)) ++ said (virtualName m) (VName (virtualName m)) /\ v <> []) /\
       ~ In IOther c) /\
    (~ instrument_said i -> ~ midi_said m -> ~ device_said m -> instruments = []) /\
    devices = said (device m) (PDevice (device m)) /\
    (midi_said m -> exists c, midis = [PMidi (Some (id_kept (instrumentId i))) c] /\ strictly midi_rank c /\
       (forall n, In (MChannel n) c <-> 0 <= channel m /\ n = number_kept 16 (channel m)) /\
       (forall n, In (MBank n) c <-> 0 <= bank m /\ n = number_kept 16384 (bank m)) /\
       (forall n, In (MProgram n) c <-> 0 <= program m /\ n = number_kept 128 (program m)) /\
       (forall x, In (MVolume x) c <-> isVolumeSpecified m = true /\ x = stored Percent (volume m)) /\
       (forall x, In (MPan x) c <-> isPanSpecified m = true /\ x = stored RotationDegrees (pan m)) /\
       (forall x, In (MElevation x) c <-> isElevationSpecified m = true /\ x = stored RotationDegrees (elevation m)) /\
       (forall t, ~ In (MName t) c) /\ (forall n, ~ In (MUnpitched n) c) /\ ~ In MOther c) /\
    (~ midi_said m -> midis = []).

(** Elements that the children give back: the ids are ids, and no group of a device alone is
    followed by one of an instrument alone; none is empty. *)
Fixpoint groups_apart (l : list midi_group) : Prop :=
  match l with
  | [] => True
  | g :: r =>
      (mg_device g <> None \/ mg_instrument g <> None) /\
      match mg_instrument g, r with
      | None, h :: _ => mg_device h <> None
      | _, _ => True
      end /\ groups_apart r
  end.
Definition whole_part (x : xpart) : Prop :=
  an_id (sp_id x) /\ Forall (fun i => an_id (si_id i)) (sp_instruments x) /\
  Forall (fun g => match mg_instrument g with Some m => an_id (mi_id m) | None => True end) (sp_midi x) /\ groups_apart (sp_midi x).

(** ** Any score-part *)

(** The last child that says so. *)
Fixpoint latest {C A} (f : C -> option A) (l : list C) : option A :=
  match l with
  | [] => None
  | c :: r => match latest f r with Some a => Some a | None => f c end
  end.

(** What is shown of a display element: a flat as the letter b, other accidentals not at all. *)
Definition shown_text (c : dchild) : str :=
  match c with DText t => t | DAccidental AccidentalValue_flat => lit "b" | _ => [] end.
Definition name_shown (c : pchild) : str := match c with PNameDisplay l => List.concat (map shown_text l) | _ => [] end.
Definition names_abbreviation (c : pchild) : Prop := match c with PAbbreviationDisplay _ => True | _ => False end.

(** The instruments of a file, one list for those next to each other. *)
Definition starts_with_instrument (l : list pchild) : bool := match l with PInstrument _ _ :: _ => true | _ => false end.
Fixpoint instrument_runs (l : list pchild) : list (list (option str * list ichild)) :=
  match l with
  | [] => []
  | c :: r =>
      match c with
      | PInstrument id e =>
          match instrument_runs r with
          | run :: rs => if starts_with_instrument r then ((id, e) :: run) :: rs else [(id, e)] :: run :: rs
          | [] => [[(id, e)]]
          end
      | _ => instrument_runs r
      end
  end.

(** A list that is alone so far is replaced if it has one instrument only. *)
Definition join_runs {A} (set run : list A) : list A := if (List.length set =? 1)%nat then run else set ++ run.
Definition instruments_kept (l : list pchild) : list (option str * list ichild) := fold_left join_runs (instrument_runs l) [].

(** The first MIDI device and the first MIDI instrument that belong together. *)
Fixpoint first_midi (l : list pchild) : option str * option (list mchild) :=
  match l with
  | [] => (None, None)
  | PDevice t :: PMidi _ c :: _ => (Some t, Some c)
  | PDevice t :: _ => (Some t, None)
  | PMidi _ c :: _ => (None, Some c)
  | _ :: r => first_midi r
  end.

Definition text_or_empty (o : option str) : str := match o with Some t => t | None => [] end.
Definition number_or_none (o : option Z) : Z := match o with Some n => n | None => -1 end.
Definition value_or_zero (o : option Q) : Q := match o with Some x => x | None => 0%Q end.
Definition there {A} (o : option A) : bool := match o with Some _ => true | None => false end.

Definition virtuals (c : ichild) : list vchild := match c with IVirtual l => l | _ => [] end.

Definition midi_said_by (v : list vchild) (g : option str * option (list mchild)) (m : MidiData) : Prop :=
  let c := match snd g with Some c => c | None => [] end in
  virtualLibrary m = text_or_empty (latest (fun x => match x with VLibrary t => Some t | _ => None end) v) /\
  virtualName m = text_or_empty (latest (fun x => match x with VName t => Some t | _ => None end) v) /\
  device m = text_or_empty (fst g) /\
  midiName m = text_or_empty (latest (fun x => match x with MName t => Some t | _ => None end) c) /\
  bank m = number_or_none (latest (fun x => match x with MBank n => Some n | _ => None end) c) /\
  channel m = number_or_none (latest (fun x => match x with MChannel n => Some n | _ => None end) c) /\
  program m = number_or_none (latest (fun x => match x with MProgram n => Some n | _ => None end) c) /\
  unpitched m = number_or_none (latest (fun x => match x with MUnpitched n => Some n | _ => None end) c) /\
  let vol := latest (fun x => match x with MVolume q => Some q | _ => None end) c in
  let pn := latest (fun x => match x with MPan q => Some q | _ => None end) c in
  let el := latest (fun x => match x with MElevation q => Some q | _ => None end) c in
  volume m = value_or_zero vol /\ isVolumeSpecified m = there vol /\ pan m = value_or_zero pn /\ isPanSpecified m = there pn /\
  elevation m = value_or_zero el /\ isElevationSpecified m = there el.

Definition instrument_said_by (o : option (option str * list ichild)) (i : InstrumentData) : Prop :=
  let c := match o with Some q => snd q | None => [] end in
  instrumentId i = (match o with Some (Some t, _) => id_kept t | Some (None, _) => lit "ID" | None => [] end) /\
  instrumentName i = text_or_empty (latest (fun x => match x with IName t => Some t | _ => None end) c) /\
  instrumentAbbreviation i = text_or_empty (latest (fun x => match x with IAbbreviation t => Some t | _ => None end) c) /\
  soundID i = (match latest (fun x => match x with ISound s => Some s | _ => None end) c with
               | Some s => instrumentMap_toApi s | None => api_SoundID_unspecified end) /\
  soloOrEnsemble i = (match latest (fun x => match x with ISolo => Some Solo | IEnsemble => Some Ensemble | _ => None end) c with
                      | Some s => s | None => SoloUnspecified end).

(** What is reported of a score-part with the id [id] and the children [l]. *)
Definition part_says (id : option str) (l : list pchild) (p : PartInfo) : Prop :=
  let first := hd_error (instruments_kept l) in
  uniqueId p = (match id with Some t => id_kept t | None => lit "ID" end) /\
  name p = text_or_empty (latest (fun x => match x with PName t _ => Some t | _ => None end) l) /\
  abbreviation p = text_or_empty (latest (fun x => match x with PAbbreviation t _ => Some t | _ => None end) l) /\
  displayName p = List.concat (map name_shown l) /\
  (Exists names_abbreviation l -> displayAbbreviation p = List.concat (map name_shown l)) /\
  (~ Exists names_abbreviation l -> displayAbbreviation p = []) /\
  displayNamePrintObject p = api_Bool_unspecified /\ displayNamePosition p = noPosition /\
  displayAbbreviationPrintObject p = api_Bool_unspecified /\ displayAbbreviationPosition p = noPosition /\
  instrument_said_by first (instrumentData p) /\
  midi_said_by (List.concat (map virtuals (match first with Some q => snd q | None => [] end))) (first_midi l) (midiData (instrumentData p)).

(** A score-part is read well if it, its instruments and its MIDI instruments have ids, each
    instrument has a name, and the display elements have texts and accidentals only. *)
Definition part_well (id : option str) (l : list pchild) : Prop :=
  id <> None /\
  Forall (fun c => match c with
                   | PNameDisplay d | PAbbreviationDisplay d => ~ In DOther d
                   | PInstrument i e => i <> None /\ exists t, In (IName t) e
                   | PMidi i _ => i <> None
                   | _ => True
                   end) l.

(** ** All parts *)

(** The music of a part is that of the first part with its id. *)
Inductive music_of {A} (id : str) : list (str * A) -> A -> Prop :=
| music_here a r : music_of id ((id, a) :: r) a
| music_later j b r a : j <> id -> music_of id r a -> music_of id ((j, b) :: r) a.

(** The score-parts in turn, those without music left out. *)
Inductive parts_said {A} (music : list (str * A)) : list lchild -> list (PartInfo * A) -> Prop :=
| parts_end : parts_said music [] []
| parts_group b l r : parts_said music l r -> parts_said music (LGroup b :: l) r
| parts_other l r : parts_said music l r -> parts_said music (LOther :: l) r
| parts_part id c l p a r :
    part_says id c p -> music_of (uniqueId p) music a -> parts_said music l r -> parts_said music (LPart id c :: l) ((p, a) :: r)
| parts_silent id c l p r :
    part_says id c p -> (forall a, ~ music_of (uniqueId p) music a) -> parts_said music l r -> parts_said music (LPart id c :: l) r.

Definition is_part (c : lchild) : Prop := match c with LPart _ _ => True | _ => False end.

(** The ids of the parts of a score as they are written. *)
Definition written_ids {A} (l : list (PartInfo * A)) : list str := map (fun q => id_kept (uniqueId (fst q))) l.

(** The music of a file, and the names of its parts. *)
Definition file_music {A} (l : list (option str * A)) : list (str * A) :=
  map (fun q => (match fst q with Some t => id_kept t | None => lit "ID" end, snd q)) l.

(** ** All parts, written and read back *)

(** An instrument of which only MIDI data are known, without an id. *)
Definition unnamed (i : InstrumentData) : Prop :=
  ~ instrument_said i /\ instrumentId i = [] /\ (midi_said (midiData i) \/ device_said (midiData i)).

Definition next_number (next : Z) (p : PartInfo) (n : Z) : Prop :=
  (unnamed (instrumentData p) -> n = next + 1) /\ (~ unnamed (instrumentData p) -> n = next).

(** Each part as it comes back, with the music of the first part whose id is written like its
    own. *)
Inductive parts_returned {A} (music : list (str * A)) : Z -> list (PartInfo * A) -> list (PartInfo * A) -> Prop :=
| returned_end next : parts_returned music next [] []
| returned_part next n p a q b r s :
    part_returned next p q -> music_of (id_kept (uniqueId p)) music b -> next_number next p n -> parts_returned music n r s ->
    parts_returned music next ((p, a) :: r) ((q, b) :: s).

Definition music_written {A} (l : list (PartInfo * A)) : list (str * A) := combine (written_ids l) (map snd l).

Definition parts_sound {A} (next : Z) (l : list (PartInfo * A)) : Prop :=
  0 <= next /\ next + Z.of_nat (List.length l) < 2 ^ 31 /\ Forall (fun q => exists n, part_sound n (fst q)) l.
