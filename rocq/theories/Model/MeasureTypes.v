(** The data of a measure: as the API has it, and as the children of a MusicXML
    measure. *)
From Coq Require Import List ZArith QArith Bool.
From Verif Require Import Model.Base Model.Text Model.Decimals Model.CoreEnums Model.ApiEnums.
Import ListNotations.
Open Scope Z_scope.

(** * The API: include/mx/api *)

(** api::NoteType, NoteData.h:20-25. *)
Inductive note_type := NormalNote | CueNote | GraceNote.

(** api::NoteData, NoteData.h:76-129. Simplified: all that is neither time nor type,
    chord or voice is one opaque value [n_rest] which is carried along. *)
Record NoteData := mkNote {
  n_tick : Z;          (* tickTimePosition *)
  n_dur : Z;           (* durationData.durationTimeTicks *)
  n_chord : bool;      (* isChord *)
  n_type : note_type;  (* noteType *)
  n_voice : Z;         (* userRequestedVoiceNumber *)
  n_rest : Z
}.

(** api::ClefData, ClefData.h:37-70, and api::KeyData, KeyData.h:43-88, with their
    symbols left opaque; [k_custom]: nonTraditional is not empty. *)
Record ClefData := mkClef { c_tick : Z; c_rest : Z }.
Record KeyData := mkKey { k_tick : Z; k_staff : Z; k_custom : bool; k_rest : Z }.

(** api::TempoData, TempoData.h: its tempoType is beatsPerMinute or not. *)
Record TempoData := mkTempo { t_bpm : bool; t_rest : Z }.

(** api::DirectionData, DirectionData.h:31-88; the entries of the lists are opaque, the
    marks have their type. Simplified: placement and voice are left out. *)
Record DirectionData := mkDirection {
  d_tick : Z;
  d_staffSpecified : bool;
  d_tempos : list TempoData;
  d_marks : list (api_MarkType * Z);
  d_wedgeStarts : list Z;
  d_wedgeStops : list Z;
  d_ottavaStarts : list Z;
  d_ottavaStops : list Z;
  d_bracketStarts : list Z;
  d_bracketStops : list Z;
  d_words : list Z;
  d_chords : list Z;
  d_segnos : list Z;
  d_codas : list Z;
  d_rehearsals : list Z
}.

(** api::BarlineData, BarlineData.h:38-56. *)
Record BarlineData := mkBarline {
  b_tick : Z;
  b_type : api_BarlineType;
  b_ending : api_EndingType;
  b_number : Z;
  b_repeat : bool;
  b_location : api_HorizontalAlignment
}.

(** api::TimeSignatureData, TimeSignatureData.h:15-58. *)
Inductive time_symbol := SymbolUnspecified | SymbolCommon | SymbolCut.
Inductive api_bool := BoolUnspecified | BoolYes | BoolNo.
Record TimeSignatureData := mkTime {
  ts_beats : Z; ts_beatType : Z; ts_symbol : time_symbol; ts_display : api_bool; ts_implicit : bool }.

(** The default constructor: 4/4, implicit. *)
Definition default_time : TimeSignatureData := mkTime 4 4 SymbolUnspecified BoolUnspecified true.

(** api::StaffData, StaffData.h:20-33; the voices are a std::map: pairs in the order of
    their keys. *)
Record StaffData := mkStaff {
  s_clefs : list ClefData;
  s_keys : list KeyData;
  s_directions : list DirectionData;
  s_voices : list (Z * list NoteData)
}.

(** api::MeasureData, MeasureData.h:22-115. Left out: the fields that are neither
    written nor read (measureNumbering, nonControlling), multiMeasureRest. *)
Record MeasureData := mkMeasure {
  m_staves : list StaffData;
  m_time : TimeSignatureData;
  m_number : str;
  m_implicit : api_bool;
  m_keys : list KeyData;
  m_barlines : list BarlineData
}.

(** * MusicXML: core/elements/MusicDataChoice.h, Note.h, ... *)

(** <note>: the duration (0 for a grace note), <chord/>, <staff>, <voice>. *)
Record xnote := mkXNote {
  xn_type : note_type;
  xn_duration : Q;
  xn_chord : bool;
  xn_staff : option Z;
  xn_voice : option str;
  xn_rest : Z
}.

(** <direction-type>. *)
Inductive direction_type :=
| DtDynamics (m : api_MarkType) (r : Z)   (* as the mark it is converted to and from: C16 *)
| DtPedalStart (r : Z) | DtPedalStop (r : Z) | DtPedalOther
| DtWedgeStop (r : Z) | DtWedgeStart (r : Z)
| DtOttavaStop (r : Z) | DtOttavaStart (r : Z) | DtOttavaContinue
| DtBracketStart (r : Z) | DtBracketStop (r : Z) | DtBracketContinue
| DtMetronome (r : Z)
| DtWords (l : list Z) | DtRehearsal (l : list Z) | DtSegno (l : list Z) | DtCoda (l : list Z)
| DtOther.

(** <direction> and <harmony>: offset, staff, contents. *)
Record xdirection := mkXDirection { xd_offset : option Q; xd_staff : option Z; xd_types : list direction_type }.
Record xharmony := mkXHarmony { xh_offset : option Q; xh_staff : option Z; xh_chords : list Z }.

(** <key>, <clef> with their number attributes, <time>. *)
Record xkey := mkXKey { xk_number : option Z; xk_custom : bool; xk_rest : Z }.
Record xclef := mkXClef { xc_number : option Z; xc_rest : Z }.
(** [None] for the beats: senza misura. A symbol other than common and cut is
    [Some None]. *)
Record xtime := mkXTime { xt_beats : option (str * str); xt_symbol : option (option time_symbol); xt_print : option bool }.

(** <attributes>: core/elements/Properties.h. *)
Record properties := mkProps {
  p_divisions : option Q;
  p_keys : list xkey;
  p_times : list xtime;
  p_staves : option Z;
  p_clefs : list xclef;
  p_transpose : list Z
}.

Definition empty_props : properties := mkProps None [] [] None [] [].

(** <barline>: <bar-style>, <ending> with type and numbers, <repeat> (true: forward),
    location. *)
Record xbarline := mkXBarline {
  xb_style : option BarStyleEnum;
  xb_ending : option (StartStopDiscontinue * list Z);
  xb_repeat : option bool;
  xb_location : option RightLeftMiddle
}.

Inductive music_data :=
| MNote (x : xnote)
| MBackup (d : Q)
| MForward (d : Q)
| MDirection (x : xdirection)
| MHarmony (x : xharmony)
| MProperties (p : properties)
| MBarline (x : xbarline)
| MPrint
| MOther. (* figured-bass, sound, grouping, link, bookmark *)

(** <measure>. *)
Record xmeasure := mkXMeasure { xm_number : str; xm_implicit : option bool; xm_data : list music_data }.
