(** Time signatures, barlines and measure numbers. *)
From Coq Require Import List ZArith Bool Ascii String.
From Verif Require Import Model.Base Model.Text Model.Strings Model.ApiEnums Model.MeasureTypes Spec.Numerals Spec.XmlText.
Import ListNotations.
Open Scope Z_scope.

(** The <time> elements of a measure, in order. *)
Definition times_of (items : list music_data) : list xtime :=
  flat_map (fun x => match x with MProperties p => p_times p | _ => [] end) items.

(** What a <time> element says if its two numbers are plain decimal integers. *)
Definition says (x : xtime) (t : TimeSignatureData) : Prop :=
  xt_beats x = Some (print_int (ts_beats t), print_int (ts_beatType t)) /\ is_int (ts_beats t) /\ is_int (ts_beatType t) /\
    ts_symbol t = match xt_symbol x with Some (Some y) => y | _ => SymbolUnspecified end /\
    ts_display t = match xt_print x with Some true => BoolYes | Some false => BoolNo | None => BoolUnspecified end /\
    ts_implicit t = false.

(** The time signature a measure states, if any. *)
Definition states (items : list music_data) (o : option TimeSignatureData) : Prop :=
  match o with
  | Some t => exists x rest, times_of items = x :: rest /\ says x t
  | None => match times_of items with x :: _ => ~ exists t, says x t | [] => True end
  end.

Definition implicit (t : TimeSignatureData) : TimeSignatureData :=
  mkTime (ts_beats t) (ts_beatType t) (ts_symbol t) (ts_display t) true.

(** Each measure has the time signature it states, or else, flagged implicit, the one
    most recently stated; [current] is the one at the start. *)
Fixpoint inherit (current : TimeSignatureData) (l : list (option TimeSignatureData)) : list TimeSignatureData :=
  match l with
  | [] => []
  | Some t :: r => t :: inherit t r
  | None :: r => implicit current :: inherit current r
  end.

(** What a measure of the API states. *)
Definition stated (m : MeasureData) : option TimeSignatureData := if ts_implicit (m_time m) then None else Some (m_time m).

(** The number of a measure: the text, or the position from 1 if it is empty. *)
Definition number_text (index : Z) (t : str) : str := match t with [] => print_int (index + 1) | _ => t end.

(** Barlines without their ticks. *)
Definition bar_view (b : BarlineData) : api_BarlineType * api_EndingType * Z * bool * api_HorizontalAlignment :=
  (b_type b, b_ending b, (match b_ending b with api_EndingType_none => 0 | _ => b_number b end), b_repeat b, b_location b).

(** What can be told by MusicXML: a plain type, a side, and a positive number if there
    is an ending. *)
Definition plain_barline (b : BarlineData) : Prop :=
  b_type b <> api_BarlineType_unsupported /\ b_location b <> api_HorizontalAlignment_unspecified /\
  (b_ending b <> api_EndingType_none -> 0 < b_number b).

(** What other barlines become. *)
Definition plain (b : BarlineData) : BarlineData :=
  mkBarline (b_tick b)
    (match b_type b with api_BarlineType_unsupported => api_BarlineType_unspecified | t => t end)
    (b_ending b) (if 0 <? b_number b then b_number b else 1) (b_repeat b)
    (match b_location b with
     | api_HorizontalAlignment_unspecified => if b_tick b =? 0 then api_HorizontalAlignment_left else api_HorizontalAlignment_right
     | l => l
     end).

(** Single words separated by single blanks. *)
Definition tidy (t : str) : Prop := exists l, words t l /\ t = join [" "%char] l.
