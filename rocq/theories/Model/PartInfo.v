(** What a part says of itself: its id, its names and its instrument. PartWriter::getScorePart
    on the writing side, core::ScorePart and the elements in it in between,
    PartReader::parseScorePart on the reading side; and which music belongs to which part:
    ScoreWriter, core::PartList and ScoreReader::reconcileParts. The values of the elements are
    handed from the writer to the reader without their text (C02, C04, C14, C15). *)
From Coq Require Import List Ascii Bool String ZArith QArith.
From Verif Require Import Model.Base Model.Text Model.Strings Model.Integers Model.Decimals Model.EnumLookup Model.CoreEnums Model.ApiEnums
  Model.SoundID Model.PlaybackSound Model.InstrumentTable Model.ConverterTables Model.Ticks Model.MeasureTypes Model.Notations.
Import ListNotations.
Local Open Scope Z_scope.

(** ** The API data *)

(** enum class SoloOrEnsemble, include/mx/api/PartData.h:19-24. *)
Inductive SoloOrEnsemble := SoloUnspecified | Solo | Ensemble.

(** struct MidiData, PartData.h:26-75. *)
Record MidiData := mkMidi {
  virtualLibrary : str; virtualName : str; device : str; midiName : str; bank : Z; channel : Z; program : Z; unpitched : Z;
  volume : Q; isVolumeSpecified : bool; pan : Q; isPanSpecified : bool; elevation : Q; isElevationSpecified : bool }.

(** MidiData::MidiData, PartData.h:56-74. *)
Definition newMidi : MidiData := mkMidi [] [] [] [] (-1) (-1) (-1) (-1) 0 false 0 false 0 false.

(** struct InstrumentData, PartData.h:77-97. *)
Record InstrumentData := mkInstrument {
  instrumentId : str; instrumentName : str; instrumentAbbreviation : str; soundID : api_SoundID; soloOrEnsemble : SoloOrEnsemble;
  midiData : MidiData }.

Definition newInstrument : InstrumentData := mkInstrument [] [] [] api_SoundID_unspecified SoloUnspecified newMidi.

(** class PartData, PartData.h:99-138, without the transposition (C35) and the measures, and
    of the print data printObject only: neither print data nor position is written or read. *)
Record PartInfo := mkPart {
  uniqueId : str; name : str; abbreviation : str; displayName : str; displayNamePrintObject : api_Bool;
  displayNamePosition : PositionData; displayAbbreviation : str; displayAbbreviationPrintObject : api_Bool;
  displayAbbreviationPosition : PositionData; instrumentData : InstrumentData }.

Definition newPart : PartInfo := mkPart [] [] [] [] api_Bool_unspecified noPosition [] api_Bool_unspecified noPosition newInstrument.

(** ** The elements *)

(** core::DisplayTextOrAccidentalText. *)
Inductive display_item := DisplayText (t : str) | AccidentalText (v : AccidentalValue).

(** core::MidiInstrument. *)
Record xmidi := mkXMidi {
  mi_id : str; mi_channel : option Z; mi_name : option str; mi_bank : option Z; mi_program : option Z; mi_unpitched : option Z;
  mi_volume : option Q; mi_pan : option Q; mi_elevation : option Q }.

(** core::MidiDeviceInstrumentGroup. The attributes of midi-device are left out: they are
    neither written nor read by the API. *)
Record midi_group := mkMidiGroup { mg_device : option str; mg_instrument : option xmidi }.

(** core::VirtualInstrument: library and name. *)
Record xvirtual := mkVirtual { vi_library : option str; vi_name : option str }.

(** core::SoloOrEnsembleChoice; the number in the ensemble element, which is neither written
    nor read by the API, is left out. *)
Inductive xsolo := ChoiceSolo | ChoiceEnsemble.

(** core::ScoreInstrument. *)
Record xinstrument := mkXInstrument {
  si_id : str; si_name : str; si_abbreviation : option str; si_sound : option PlaybackSound; si_solo : option xsolo;
  si_virtual : option xvirtual }.

(** core::ScorePart. What each identification element contains is opaque. *)
Record xpart := mkXPart {
  sp_id : str; sp_identification : list Z; sp_name : str; sp_namePrint : option YesNo; sp_nameDisplay : option (list display_item);
  sp_abbreviation : option (str * option YesNo); sp_abbreviationDisplay : option (list display_item); sp_groups : list str;
  sp_instruments : list xinstrument; sp_midi : list midi_group }.

(** As they are made: ScorePart.cpp:22-38, MidiInstrument.cpp:21-39,
    XsID.cpp:12-16. *)
Definition new_midi : xmidi := mkXMidi id_default None None None None None None None None.
Definition new_part : xpart := mkXPart id_default [] [] None None None None [] [] [].

(** ** Writing *)

Definition non_empty (t : str) : bool := match t with [] => false | _ => true end.
Definition when_non_empty (t : str) : option str := match t with [] => None | _ => Some t end.

(** api::SoundID is written unless it is unspecified or errorBadString, PartWriter.cpp:143-148. *)
Definition write_sound (s : api_SoundID) : option PlaybackSound :=
  match s with
  | api_SoundID_unspecified | api_SoundID_errorBadString => None
  | _ => Some (instrumentMap_toCore s)
  end.

(** PartWriter.cpp:117-124. *)
Definition write_solo (s : SoloOrEnsemble) : option xsolo :=
  match s with SoloUnspecified => None | Solo => Some ChoiceSolo | Ensemble => Some ChoiceEnsemble end.

(** PartWriter.cpp:126-141. *)
Definition write_virtual (m : MidiData) : option xvirtual :=
  if non_empty (virtualName m) || non_empty (virtualLibrary m)
  then Some (mkVirtual (when_non_empty (virtualLibrary m)) (when_non_empty (virtualName m)))
  else None.

(** addScoreInstrument, PartWriter.cpp:102-141: not because of the sound. *)
Definition adds_instrument (i : InstrumentData) : bool :=
  non_empty (instrumentName i) || non_empty (instrumentAbbreviation i) ||
  match soloOrEnsemble i with SoloUnspecified => false | _ => true end ||
  non_empty (virtualName (midiData i)) || non_empty (virtualLibrary (midiData i)).

(** midiGroup->setHasMidiInstrument( true ), PartWriter.cpp:166-207. *)
Definition has_midi_instrument (m : MidiData) : bool :=
  (0 <=? bank m) || (0 <=? channel m) || (0 <=? program m) || isElevationSpecified m || isPanSpecified m || isVolumeSpecified m.

(** addMidiElement, PartWriter.cpp:155-207. *)
Definition adds_midi (m : MidiData) : bool := non_empty (device m) || has_midi_instrument m.

Definition write_int (t : int_type) (v : Z) : option Z := if 0 <=? v then Some (ir_value (Integers.construct t v)) else None.
Definition write_number (t : decimal_type) (specified : bool) (v : Q) : outcome (option Q) :=
  if specified then omap Some (decimal_value t v) else Ok None.

(** PartWriter.cpp:157-207. The name and the unpitched number are not written. *)
Definition write_midi (id : str) (m : MidiData) : outcome xmidi :=
  obind (write_number RotationDegrees (isElevationSpecified m) (elevation m)) (fun e =>
  obind (write_number RotationDegrees (isPanSpecified m) (pan m)) (fun p =>
  obind (write_number Percent (isVolumeSpecified m) (volume m)) (fun v =>
  Ok (mkXMidi id (write_int Midi16 (channel m)) None (write_int Midi16384 (bank m)) (write_int Midi128 (program m)) None v p e)))).

(** PartWriter::getScorePart, PartWriter.cpp:69-230. [next]: the next unique id of the
    DocumentManager (DocumentManager.cpp:239-245), whose overflow is undefined. *)
Definition getScorePart (next : Z) (p : PartInfo) : outcome (xpart * Z) :=
  let i := instrumentData p in
  let m := midiData i in
  obind (id_of (uniqueId p)) (fun pid =>
  obind (id_of (instrumentId i)) (fun iid =>
  let fresh := adds_midi m && negb (adds_instrument i) && negb (non_empty (instrumentId i)) in
  obind (if fresh then obind (id_of (lit "ID" ++ print_int next)) (fun t => omap (fun n => (t, n)) (as_int (next + 1)))
         else Ok (iid, next)) (fun q =>
  let instrument := mkXInstrument (fst q) (instrumentName i) (when_non_empty (instrumentAbbreviation i)) (write_sound (soundID i))
                      (write_solo (soloOrEnsemble i)) (write_virtual m) in
  obind (write_midi iid m) (fun xm =>
  Ok (mkXPart pid [] (name p) (Some YesNo_no)
        (option_map (fun t => [DisplayText t]) (when_non_empty (displayName p)))
        (option_map (fun t => (t, Some YesNo_no)) (when_non_empty (abbreviation p)))
        (option_map (fun t => [DisplayText t]) (when_non_empty (displayAbbreviation p)))
        []
        (if adds_instrument i || adds_midi m then [instrument] else [])
        (if adds_midi m
         then [mkMidiGroup (when_non_empty (device m)) (if has_midi_instrument m then Some xm else None)]
         else []),
      snd q))))).

(** ** The children of the elements *)

Inductive dchild := DText (t : str) | DAccidental (v : AccidentalValue) | DOther.
Inductive vchild := VLibrary (t : str) | VName (t : str) | VOther.
Inductive ichild :=
| IName (t : str) | IAbbreviation (t : str) | ISound (s : PlaybackSound) | ISolo | IEnsemble | IVirtual (l : list vchild) | IOther.
Inductive mchild :=
| MChannel (n : Z) | MName (t : str) | MBank (n : Z) | MProgram (n : Z) | MUnpitched (n : Z) | MVolume (x : Q) | MPan (x : Q)
| MElevation (x : Q) | MOther.
(** The first argument of PInstrument and PMidi: the id attribute; the second of PName and
    PAbbreviation: the print-object attribute. *)
Inductive pchild :=
| PIdentification (n : Z) | PName (t : str) (o : option YesNo) | PNameDisplay (l : list dchild) | PAbbreviation (t : str) (o : option YesNo)
| PAbbreviationDisplay (l : list dchild) | PGroup (t : str) | PInstrument (id : option str) (l : list ichild) | PDevice (t : str)
| PMidi (id : option str) (l : list mchild) | POther.

Definition given {A C} (f : A -> C) (o : option A) : list C := match o with Some v => [f v] | None => [] end.

(** PartNameDisplay.cpp:44-62, PartAbbreviationDisplay.cpp:44-62,
    DisplayTextOrAccidentalText.cpp:54-75. *)
Definition stream_display (d : display_item) : dchild := match d with DisplayText t => DText t | AccidentalText v => DAccidental v end.

(** VirtualInstrument.cpp:46-64. *)
Definition stream_virtual (x : xvirtual) : list vchild := given VLibrary (vi_library x) ++ given VName (vi_name x).

(** ScoreInstrument.cpp:59-87, SoloOrEnsembleChoice.cpp:44-63. *)
Definition stream_instrument (x : xinstrument) : list ichild :=
  [IName (si_name x)] ++ given IAbbreviation (si_abbreviation x) ++ given ISound (si_sound x) ++
  given (fun s => match s with ChoiceSolo => ISolo | ChoiceEnsemble => IEnsemble end) (si_solo x) ++
  given (fun v => IVirtual (stream_virtual v)) (si_virtual x).

(** MidiInstrument.cpp:74-126. *)
Definition stream_midi (x : xmidi) : list mchild :=
  given MChannel (mi_channel x) ++ given MName (mi_name x) ++ given MBank (mi_bank x) ++ given MProgram (mi_program x) ++
  given MUnpitched (mi_unpitched x) ++ given MVolume (mi_volume x) ++ given MPan (mi_pan x) ++ given MElevation (mi_elevation x).

(** MidiDeviceInstrumentGroup.cpp:47-70. *)
Definition stream_group (g : midi_group) : list pchild :=
  given PDevice (mg_device g) ++ given (fun x => PMidi (Some (mi_id x)) (stream_midi x)) (mg_instrument g).

(** ScorePart::streamContents, ScorePart.cpp:65-108. *)
Definition stream_part (x : xpart) : list pchild :=
  map PIdentification (sp_identification x) ++ [PName (sp_name x) (sp_namePrint x)] ++
  given (fun l => PNameDisplay (map stream_display l)) (sp_nameDisplay x) ++
  given (fun q => PAbbreviation (fst q) (snd q)) (sp_abbreviation x) ++
  given (fun l => PAbbreviationDisplay (map stream_display l)) (sp_abbreviationDisplay x) ++
  map PGroup (sp_groups x) ++
  map (fun i => PInstrument (Some (si_id i)) (stream_instrument i)) (sp_instruments x) ++
  flat_map stream_group (sp_midi x).

(** An id attribute: XsID::setValue (C13, which says that it always ends with an id); it is
    required, and missing it is a failure: ScorePartAttributes.cpp:35-56. *)
Definition read_id (o : option str) : str :=
  match o with Some t => match id_of t with Ok u => u | _ => id_default end | None => id_default end.
Definition is_given {A} (o : option A) : bool := match o with Some _ => true | None => false end.

(** PartNameDisplay.cpp:118-131, DisplayTextOrAccidentalText.cpp:117-122. *)
Definition read_display (c : dchild) : display_item :=
  match c with DText t => DisplayText t | DAccidental v => AccidentalText v | DOther => DisplayText [] end.
Definition display_ok (c : dchild) : bool := match c with DOther => false | _ => true end.

(** VirtualInstrument.cpp:125-138. *)
Definition read_virtual_child (x : xvirtual) (c : vchild) : xvirtual :=
  match c with
  | VLibrary t => mkVirtual (Some t) (vi_name x)
  | VName t => mkVirtual (vi_library x) (Some t)
  | VOther => x
  end.

(** ScoreInstrument.cpp:216-253: a child of it. A second virtual-instrument is read into the
    first. *)
Definition read_instrument_child (x : xinstrument) (c : ichild) : xinstrument :=
  match c with
  | IName t => mkXInstrument (si_id x) t (si_abbreviation x) (si_sound x) (si_solo x) (si_virtual x)
  | IAbbreviation t => mkXInstrument (si_id x) (si_name x) (Some t) (si_sound x) (si_solo x) (si_virtual x)
  | ISound s => mkXInstrument (si_id x) (si_name x) (si_abbreviation x) (Some s) (si_solo x) (si_virtual x)
  | ISolo => mkXInstrument (si_id x) (si_name x) (si_abbreviation x) (si_sound x) (Some ChoiceSolo) (si_virtual x)
  | IEnsemble => mkXInstrument (si_id x) (si_name x) (si_abbreviation x) (si_sound x) (Some ChoiceEnsemble) (si_virtual x)
  | IVirtual l =>
      mkXInstrument (si_id x) (si_name x) (si_abbreviation x) (si_sound x) (si_solo x)
        (Some (fold_left read_virtual_child l (match si_virtual x with Some v => v | None => mkVirtual None None end)))
  | IOther => x
  end.

Definition read_instrument (id : option str) (l : list ichild) : xinstrument :=
  fold_left read_instrument_child l (mkXInstrument (read_id id) [] None None None None).

(** Its answer: the id and the instrument-name are required. *)
Definition instrument_ok (id : option str) (l : list ichild) : bool :=
  is_given id && existsb (fun c => match c with IName _ => true | _ => false end) l.

(** MidiInstrument.cpp:328-347. *)
Definition read_midi_child (x : xmidi) (c : mchild) : xmidi :=
  match c with
  | MChannel n => mkXMidi (mi_id x) (Some n) (mi_name x) (mi_bank x) (mi_program x) (mi_unpitched x) (mi_volume x) (mi_pan x) (mi_elevation x)
  | MName t => mkXMidi (mi_id x) (mi_channel x) (Some t) (mi_bank x) (mi_program x) (mi_unpitched x) (mi_volume x) (mi_pan x) (mi_elevation x)
  | MBank n => mkXMidi (mi_id x) (mi_channel x) (mi_name x) (Some n) (mi_program x) (mi_unpitched x) (mi_volume x) (mi_pan x) (mi_elevation x)
  | MProgram n => mkXMidi (mi_id x) (mi_channel x) (mi_name x) (mi_bank x) (Some n) (mi_unpitched x) (mi_volume x) (mi_pan x) (mi_elevation x)
  | MUnpitched n => mkXMidi (mi_id x) (mi_channel x) (mi_name x) (mi_bank x) (mi_program x) (Some n) (mi_volume x) (mi_pan x) (mi_elevation x)
  | MVolume q => mkXMidi (mi_id x) (mi_channel x) (mi_name x) (mi_bank x) (mi_program x) (mi_unpitched x) (Some q) (mi_pan x) (mi_elevation x)
  | MPan q => mkXMidi (mi_id x) (mi_channel x) (mi_name x) (mi_bank x) (mi_program x) (mi_unpitched x) (mi_volume x) (Some q) (mi_elevation x)
  | MElevation q => mkXMidi (mi_id x) (mi_channel x) (mi_name x) (mi_bank x) (mi_program x) (mi_unpitched x) (mi_volume x) (mi_pan x) (Some q)
  | MOther => x
  end.

Definition read_midi (id : option str) (l : list mchild) : xmidi :=
  fold_left read_midi_child l (mkXMidi (read_id id) None None None None None None None None).

(** An attribute that a second element of the name does not have keeps its value. *)
Definition over (new old : option YesNo) : option YesNo := match new with Some v => Some v | None => old end.

Definition add_name (t : str) (o : option YesNo) (x : xpart) : xpart :=
  mkXPart (sp_id x) (sp_identification x) t (over o (sp_namePrint x)) (sp_nameDisplay x) (sp_abbreviation x) (sp_abbreviationDisplay x)
    (sp_groups x) (sp_instruments x) (sp_midi x).
Definition add_identification (n : Z) (x : xpart) : xpart :=
  mkXPart (sp_id x) (sp_identification x ++ [n]) (sp_name x) (sp_namePrint x) (sp_nameDisplay x) (sp_abbreviation x)
    (sp_abbreviationDisplay x) (sp_groups x) (sp_instruments x) (sp_midi x).
Definition displayed (o : option (list display_item)) (l : list dchild) : option (list display_item) :=
  Some (match o with Some d => d | None => [] end ++ map read_display l).
Definition add_nameDisplay (l : list dchild) (x : xpart) : xpart :=
  mkXPart (sp_id x) (sp_identification x) (sp_name x) (sp_namePrint x) (displayed (sp_nameDisplay x) l) (sp_abbreviation x)
    (sp_abbreviationDisplay x) (sp_groups x) (sp_instruments x) (sp_midi x).
Definition add_abbreviation (t : str) (o : option YesNo) (x : xpart) : xpart :=
  mkXPart (sp_id x) (sp_identification x) (sp_name x) (sp_namePrint x) (sp_nameDisplay x)
    (Some (t, over o (match sp_abbreviation x with Some q => snd q | None => None end)))
    (sp_abbreviationDisplay x) (sp_groups x) (sp_instruments x) (sp_midi x).
Definition add_abbreviationDisplay (l : list dchild) (x : xpart) : xpart :=
  mkXPart (sp_id x) (sp_identification x) (sp_name x) (sp_namePrint x) (sp_nameDisplay x) (sp_abbreviation x)
    (displayed (sp_abbreviationDisplay x) l) (sp_groups x) (sp_instruments x) (sp_midi x).

(** importElementSet, FromXElement.h:61-95: the first element of a run takes the place of the
    only one there is; [run]: it is not the first. *)
Definition add_run {A} (run : bool) (a : A) (l : list A) : list A := if negb run && (List.length l =? 1)%nat then [a] else l ++ [a].

Definition add_group (run : bool) (t : str) (x : xpart) : xpart :=
  mkXPart (sp_id x) (sp_identification x) (sp_name x) (sp_namePrint x) (sp_nameDisplay x) (sp_abbreviation x) (sp_abbreviationDisplay x)
    (add_run run t (sp_groups x)) (sp_instruments x) (sp_midi x).
Definition add_instrument (run : bool) (i : xinstrument) (x : xpart) : xpart :=
  mkXPart (sp_id x) (sp_identification x) (sp_name x) (sp_namePrint x) (sp_nameDisplay x) (sp_abbreviation x) (sp_abbreviationDisplay x)
    (sp_groups x) (add_run run i (sp_instruments x)) (sp_midi x).
Definition add_midi (g : midi_group) (x : xpart) : xpart :=
  mkXPart (sp_id x) (sp_identification x) (sp_name x) (sp_namePrint x) (sp_nameDisplay x) (sp_abbreviation x) (sp_abbreviationDisplay x)
    (sp_groups x) (sp_instruments x) (sp_midi x ++ [g]).

(** The child before, as far as it matters. *)
Inductive previous := PrevGroup | PrevInstrument | PrevOther.
Definition after_group (p : previous) : bool := match p with PrevGroup => true | _ => false end.
Definition after_instrument (p : previous) : bool := match p with PrevInstrument => true | _ => false end.

(** The loop of ScorePart::fromXElementImpl, ScorePart.cpp:351-361, with
    importMidiDeviceInstrumentGroupSet, :372-418: a midi-device and the midi-instrument right
    after it make one group. importGroup (FromXElement.cpp:422-503) finds nothing there: the
    iterator is at the midi-instrument. *)
Fixpoint read_part_children (p : previous) (l : list pchild) (x : xpart) : xpart :=
  match l with
  | [] => x
  | PIdentification n :: r => read_part_children PrevOther r (add_identification n x)
  | PName t o :: r => read_part_children PrevOther r (add_name t o x)
  | PNameDisplay d :: r => read_part_children PrevOther r (add_nameDisplay d x)
  | PAbbreviation t o :: r => read_part_children PrevOther r (add_abbreviation t o x)
  | PAbbreviationDisplay d :: r => read_part_children PrevOther r (add_abbreviationDisplay d x)
  | PGroup t :: r => read_part_children PrevGroup r (add_group (after_group p) t x)
  | PInstrument id c :: r => read_part_children PrevInstrument r (add_instrument (after_instrument p) (read_instrument id c) x)
  | PDevice t :: PMidi id c :: r => read_part_children PrevOther r (add_midi (mkMidiGroup (Some t) (Some (read_midi id c))) x)
  | PDevice t :: r => read_part_children PrevOther r (add_midi (mkMidiGroup (Some t) None) x)
  | PMidi id c :: r => read_part_children PrevOther r (add_midi (mkMidiGroup None (Some (read_midi id c))) x)
  | POther :: r => read_part_children PrevOther r x
  end.

(** [id]: the id attribute. *)
Definition read_part (id : option str) (l : list pchild) : xpart :=
  read_part_children PrevOther l (mkXPart (read_id id) [] [] None None None None [] [] []).

(** Its answer, ScorePart.cpp:342-369: a missing part-name is only reported. *)
Definition child_ok (c : pchild) : bool :=
  match c with
  | PNameDisplay l | PAbbreviationDisplay l => forallb display_ok l
  | PInstrument id l => instrument_ok id l
  | PMidi id _ => is_given id
  | _ => true
  end.
Definition part_ok (id : option str) (l : list pchild) : bool := is_given id && forallb child_ok l.

(** ** Reading *)

(** PartReader::extractDisplayText, PartReader.cpp:228-251: the second test is for a flat
    again. *)
Definition extract (d : display_item) : str :=
  match d with DisplayText t => t | AccidentalText AccidentalValue_flat => lit "b" | AccidentalText _ => [] end.
Definition extractDisplayText (l : list display_item) : str := flat_map extract l.

Definition or_empty (o : option str) : str := match o with Some t => t | None => [] end.
Definition or_none (o : option Z) : Z := match o with Some n => n | None => -1 end.
Definition or_zero (o : option Q) : Q := match o with Some x => x | None => 0%Q end.

(** PartReader::parseMidiDeviceInstrumentGroup and parseMidiInstrument, PartReader.cpp:306-369,
    with parseVirtualInstrument, :290-302. *)
Definition parse_midi (v : option xvirtual) (g : option midi_group) : MidiData :=
  let i := match g with Some g => match mg_instrument g with Some i => i | None => new_midi end | None => new_midi end in
  mkMidi (match v with Some v => or_empty (vi_library v) | None => [] end) (match v with Some v => or_empty (vi_name v) | None => [] end)
    (match g with Some g => or_empty (mg_device g) | None => [] end) (or_empty (mi_name i))
    (or_none (mi_bank i)) (or_none (mi_channel i)) (or_none (mi_program i)) (or_none (mi_unpitched i))
    (or_zero (mi_volume i)) (is_given (mi_volume i)) (or_zero (mi_pan i)) (is_given (mi_pan i))
    (or_zero (mi_elevation i)) (is_given (mi_elevation i)).

(** PartReader::parseScoreInstrument, PartReader.cpp:254-287. *)
Definition parse_instrument (o : option xinstrument) (g : option midi_group) : InstrumentData :=
  match o with
  | None => mkInstrument [] [] [] api_SoundID_unspecified SoloUnspecified (parse_midi None g)
  | Some i =>
      mkInstrument (si_id i) (si_name i) (or_empty (si_abbreviation i))
        (match si_sound i with Some s => instrumentMap_toApi s | None => api_SoundID_unspecified end)
        (match si_solo i with Some ChoiceSolo => Solo | Some ChoiceEnsemble => Ensemble | None => SoloUnspecified end)
        (parse_midi (si_virtual i) g)
  end.

(** PartReader::parseScorePart, PartReader.cpp:191-225: the display abbreviation is taken from
    the part-name-display. *)
Definition parseScorePart (x : xpart) : PartInfo :=
  let shown := extractDisplayText (match sp_nameDisplay x with Some l => l | None => [] end) in
  mkPart (sp_id x) (sp_name x) (match sp_abbreviation x with Some q => fst q | None => [] end)
    (match sp_nameDisplay x with Some _ => shown | None => [] end) api_Bool_unspecified noPosition
    (match sp_abbreviationDisplay x with Some _ => shown | None => [] end) api_Bool_unspecified noPosition
    (parse_instrument (hd_error (sp_instruments x)) (hd_error (sp_midi x))).

(** A part written and read back from the children of its element. *)
Definition part_back (next : Z) (p : PartInfo) : outcome PartInfo :=
  omap (fun q => parseScorePart (read_part (Some (sp_id (fst q))) (stream_part (fst q)))) (getScorePart next p).

(** ** All parts *)

(** ScoreWriter.cpp:127-145: the parts in turn. [A]: the music of a part. *)
Fixpoint write_all {A} (next : Z) (l : list (PartInfo * A)) : outcome (list xpart * list (str * A)) :=
  match l with
  | [] => Ok ([], [])
  | (p, a) :: r =>
      obind (getScorePart next p) (fun q =>
      obind (id_of (uniqueId p)) (fun id =>
      omap (fun s => (fst q :: fst s, (id, a) :: snd s)) (write_all (snd q) r)))
  end.

(** addScorePart and addPartwisePart, ScoreWriter.cpp:154-222: the first part takes the place
    of the one that core::PartList and core::ScorePartwise are made with (PartList.cpp:16-20,
    ScorePartwise.cpp:15-21), whose music is [a0]. *)
Definition write_parts {A} (a0 : A) (next : Z) (l : list (PartInfo * A)) : outcome (list xpart * list (str * A)) :=
  match l with [] => Ok ([new_part], [(id_default, a0)]) | _ => write_all next l end.

(** A child of the part-list: a part-group, whether it was read well, a score-part, or
    something else. *)
Inductive lchild := LGroup (ok : bool) | LPart (id : option str) (l : list pchild) | LOther.

(** PartList::fromXElementImpl, PartList.cpp:158-210: the score parts, and the answer; those
    after the first are not asked. *)
Fixpoint rest_parts (l : list lchild) : list xpart :=
  match l with
  | [] => []
  | LPart id c :: r => read_part id c :: rest_parts r
  | _ :: r => rest_parts r
  end.
Fixpoint read_part_list (l : list lchild) : bool * list xpart :=
  match l with
  | [] => (false, [new_part])
  | LGroup ok :: r => (ok && fst (read_part_list r), snd (read_part_list r))
  | LOther :: r => read_part_list r
  | LPart id c :: r => (part_ok id c, read_part id c :: rest_parts r)
  end.

(** ScoreReader::findPartwisePart, ScoreReader.cpp:77-98. *)
Definition findPartwisePart {A} (id : str) (l : list (str * A)) : option A :=
  option_map snd (find (fun q => str_eqb (fst q) id) l).

(** reconcileParts and the loop over its parts, ScoreReader.cpp:113-139, 292-300. PartReader
    throws neither for the ids nor for the index: the ids are equal, and the part is in the
    list. *)
Definition reconcile {A} (parts : list xpart) (music : list (str * A)) : list (PartInfo * A) :=
  flat_map (fun x => match findPartwisePart (sp_id x) music with Some a => [(parseScorePart x, a)] | None => [] end) parts.

(** The part attribute and the parts of a document, ScorePartwise.cpp:162-178: the id is read
    like that of a score-part, and the first part takes the place of the one that is made with
    the score. *)
Definition read_music {A} (a0 : A) (l : list (option str * A)) : list (str * A) :=
  match l with [] => [(id_default, a0)] | _ => map (fun q => (read_id (fst q), snd q)) l end.

(** The parts of a document: the children of its part-list, and its parts. *)
Definition read_parts {A} (a0 : A) (l : list lchild) (music : list (option str * A)) : list (PartInfo * A) :=
  reconcile (snd (read_part_list l)) (read_music a0 music).

(** The parts of a score, written and read back; part groups (C33) left out. *)
Definition parts_back {A} (a0 : A) (next : Z) (l : list (PartInfo * A)) : outcome (list (PartInfo * A)) :=
  omap (fun s => read_parts a0 (map (fun x => LPart (Some (sp_id x)) (stream_part x)) (fst s)) (map (fun q => (Some (fst q), snd q)) (snd s)))
    (write_parts a0 next l).
