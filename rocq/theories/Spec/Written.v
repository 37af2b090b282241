(** What is written for time signatures and barlines. *)
From Coq Require Import List ZArith Bool.
From Verif Require Import Model.Base Model.Text Model.CoreEnums Model.ApiEnums Model.MeasureTypes Spec.Numerals.
Import ListNotations.
Open Scope Z_scope.

(** The <barline> elements of a measure, in order. *)
Definition barlines_of (items : list music_data) : list xbarline :=
  flat_map (fun x => match x with MBarline b => [b] | _ => [] end) items.

(** A <time> says exactly what the time signature says: no symbol or print-object if
    none is asked for. *)
Definition written_time (t : TimeSignatureData) (x : xtime) : Prop :=
  xt_beats x = Some (print_int (ts_beats t), print_int (ts_beatType t)) /\
  (ts_symbol t = SymbolUnspecified -> xt_symbol x = None) /\
  (ts_symbol t <> SymbolUnspecified -> xt_symbol x = Some (Some (ts_symbol t))) /\
  (ts_display t = BoolUnspecified <-> xt_print x = None) /\ (ts_display t = BoolYes <-> xt_print x = Some true) /\
  (ts_display t = BoolNo <-> xt_print x = Some false).

(** The bar-style of each type of barline; none for two of them. *)
Definition bar_style (t : api_BarlineType) : option BarStyleEnum :=
  match t with
  | api_BarlineType_unspecified | api_BarlineType_unsupported => None
  | api_BarlineType_normal => Some BarStyleEnum_regular
  | api_BarlineType_lightLight => Some BarStyleEnum_lightLight
  | api_BarlineType_lightHeavy => Some BarStyleEnum_lightHeavy
  | api_BarlineType_heavyLight => Some BarStyleEnum_heavyLight
  | api_BarlineType_heavyHeavy => Some BarStyleEnum_heavyHeavy
  | api_BarlineType_none => Some BarStyleEnum_none
  | api_BarlineType_dashed => Some BarStyleEnum_dashed
  | api_BarlineType_dotted => Some BarStyleEnum_dotted
  | api_BarlineType_heavy => Some BarStyleEnum_heavy
  end.

(** Where a barline is: on the left or the right if nothing is said, by its tick. *)
Definition bar_side (b : BarlineData) : RightLeftMiddle :=
  match b_location b with
  | api_HorizontalAlignment_left => RightLeftMiddle_left
  | api_HorizontalAlignment_center => RightLeftMiddle_middle
  | api_HorizontalAlignment_right => RightLeftMiddle_right
  | api_HorizontalAlignment_unspecified => if b_tick b =? 0 then RightLeftMiddle_left else RightLeftMiddle_right
  end.

(** A <barline> for a barline. A repeat is a forward one on the left side or at the
    start of the measure, and a backward one elsewhere. *)
Definition written_barline (b : BarlineData) (x : xbarline) : Prop :=
  xb_style x = bar_style (b_type b) /\
  match b_ending b with
  | api_EndingType_none => xb_ending x = None
  | api_EndingType_start => xb_ending x = Some (StartStopDiscontinue_start, [Z.max 1 (b_number b)])
  | api_EndingType_stop => xb_ending x = Some (StartStopDiscontinue_stop, [Z.max 1 (b_number b)])
  | api_EndingType_discontinue => xb_ending x = Some (StartStopDiscontinue_discontinue, [Z.max 1 (b_number b)])
  end /\
  (b_repeat b = false -> xb_repeat x = None) /\
  (b_repeat b = true -> b_location b = api_HorizontalAlignment_left \/ b_tick b = 0 -> xb_repeat x = Some true) /\
  (b_repeat b = true -> b_location b <> api_HorizontalAlignment_left -> b_tick b <> 0 -> xb_repeat x = Some false) /\
  xb_location x = Some (bar_side b).

(** Every tempo of every direction of a measure is one in beats per minute. *)
Definition all_beats_per_minute (m : MeasureData) : Prop :=
  forall st d t, In st (m_staves m) -> In d (s_directions st) -> In t (d_tempos d) -> t_bpm t = true.
