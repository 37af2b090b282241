(** Values that are a number or a word: core/FontSize (font-size), core/YesNoNumber (the
    pedals of sound), core/NumberOrNormal (line-height, letter-spacing) and
    core/PositiveIntegerOrEmpty (multiple-rest, measure-repeat, ensemble). *)
From Coq Require Import List Ascii Bool String ZArith QArith.
From Verif Require Import Model.Base Model.Text Model.Decimals Model.Integers Model.EnumLookup Model.CoreEnums.
Import ListNotations.

(** ** FontSize and YesNoNumber: a std::variant *)

Inductive number_or (W : Type) := Number (p : precise) | Word (w : W).
Arguments Number {W} p.
Arguments Word {W} w.

(** getIsDecimal, FontSize.cpp:42-45, YesNoNumber.cpp:47-50. *)
Definition getIsDecimal {W} (x : number_or W) : bool := match x with Number _ => true | Word _ => false end.

(** getIsCssFontSize, FontSize.cpp:47-50, getIsYesNo, YesNoNumber.cpp:42-45. *)
Definition getIsWord {W} (x : number_or W) : bool := match x with Number _ => false | Word _ => true end.

(** getValueDecimal, FontSize.cpp:62-75, YesNoNumber.cpp:78-92: a Decimal made anew if there
    is none. *)
Definition getValueDecimal {W} (x : number_or W) : outcome precise :=
  match x with Number p => Ok p | Word _ => Decimals.construct_default Decimal end.

(** getValueCssFontSize, FontSize.cpp:77-91. *)
Definition getValueCssFontSize (x : number_or CssFontSize) : CssFontSize :=
  match x with Number _ => CssFontSize_xxSmall | Word v => v end.

(** getValueYesNo, YesNoNumber.cpp:62-76. *)
Definition getValueYesNo (x : number_or YesNo) : YesNo := match x with Number _ => YesNo_yes | Word v => v end.

(** A Decimal made anew that parses the text, FontSize.cpp:95-100, YesNoNumber.cpp:102-107:
    the number, or nothing. *)
Definition parse_decimal (t : str) : outcome (option precise) :=
  obind (Decimals.construct_default Decimal) (fun d =>
    omap (fun q : bool * precise => if fst q then Some (snd q) else None) (Decimals.parse Decimal d t)).

(** FontSize::parse, FontSize.cpp:93-108. *)
Definition FontSize_parse (x : number_or CssFontSize) (t : str) : outcome (bool * number_or CssFontSize) :=
  obind (parse_decimal t) (fun o =>
    match o with
    | Some p => Ok (true, Number p)
    | None => match tryParse_CssFontSize t with Some v => Ok (true, Word v) | None => Ok (false, x) end
    end).

(** YesNoNumber::parse, YesNoNumber.cpp:94-109. *)
Definition YesNoNumber_parse (x : number_or YesNo) (t : str) : outcome (bool * number_or YesNo) :=
  match tryParse_YesNo t with
  | Some v => Ok (true, Word v)
  | None => obind (parse_decimal t) (fun o => match o with Some p => Ok (true, Number p) | None => Ok (false, x) end)
  end.

(** The default constructors, FontSize.cpp:16-20, YesNoNumber.cpp:18-22. *)
Definition FontSize_new : outcome (number_or CssFontSize) := omap Number (Decimals.construct_default Decimal).
Definition YesNoNumber_new : outcome (number_or YesNo) := Ok (Word YesNo_yes).

(** toStream, FontSize.cpp:117-128, YesNoNumber.cpp:118-129. *)
Definition FontSize_toString (x : number_or CssFontSize) : str :=
  match x with Number p => Decimals.toString p | Word v => CssFontSize_toString v end.
Definition YesNoNumber_toString (x : number_or YesNo) : str :=
  match x with Number p => Decimals.toString p | Word v => YesNo_toString v end.

(** The calls on an object: setDecimal, setCssFontSize (setYesNo), parse. The constructors
    from a value are the default constructor and the call. *)
Inductive variant_call (W : Type) := SetDecimal (p : precise) | SetWord (w : W) | Parse (t : str).
Arguments SetDecimal {W} p.
Arguments SetWord {W} w.
Arguments Parse {W} t.

Definition variant_run {W} (parse : number_or W -> str -> outcome (bool * number_or W)) (x : number_or W) (c : variant_call W) :
    outcome (number_or W) :=
  match c with SetDecimal p => Ok (Number p) | SetWord w => Ok (Word w) | Parse t => omap snd (parse x t) end.

Fixpoint variant_runs {W} (parse : number_or W -> str -> outcome (bool * number_or W)) (x : number_or W) (l : list (variant_call W)) :
    outcome (number_or W) :=
  match l with [] => Ok x | c :: r => obind (variant_run parse x c) (fun y => variant_runs parse y r) end.

Definition FontSize_history (l : list (variant_call CssFontSize)) : outcome (number_or CssFontSize) :=
  obind FontSize_new (fun x => variant_runs FontSize_parse x l).
Definition YesNoNumber_history (l : list (variant_call YesNo)) : outcome (number_or YesNo) :=
  obind YesNoNumber_new (fun x => variant_runs YesNoNumber_parse x l).

(** ** NumberOrNormal: a number and a flag *)

Record numberOrNormal := mkNumberOrNormal { nn_decimal : precise; nn_isNormal : bool }.

(** NumberOrNormal::impl::impl, NumberOrNormal.cpp:18-21. *)
Definition NumberOrNormal_new : outcome numberOrNormal := omap (fun p => mkNumberOrNormal p true) (Decimals.construct Decimal 0).

(** getIsNormal, getIsNumber, getValueNumber, NumberOrNormal.cpp:35-42,53-56. *)
Definition getIsNormal (x : numberOrNormal) : bool := nn_isNormal x.
Definition getIsNumber (x : numberOrNormal) : bool := negb (nn_isNormal x).
Definition getValueNumber (x : numberOrNormal) : precise := nn_decimal x.

(** parse, NumberOrNormal.cpp:57-71: whether the number could be read is not asked. *)
Definition NumberOrNormal_parse (x : numberOrNormal) (t : str) : outcome numberOrNormal :=
  if str_eqb t (lit "normal") then NumberOrNormal_new
  else omap (fun q : bool * precise => mkNumberOrNormal (snd q) false) (Decimals.parse Decimal (nn_decimal x) t).

Inductive normal_call := SetNormal | SetNumber (p : precise) | ParseNormal (t : str).

(** setValueNormal, setValue, NumberOrNormal.cpp:43-52. *)
Definition normal_run (x : numberOrNormal) (c : normal_call) : outcome numberOrNormal :=
  match c with
  | SetNormal => NumberOrNormal_new
  | SetNumber p => Ok (mkNumberOrNormal p false)
  | ParseNormal t => NumberOrNormal_parse x t
  end.

Fixpoint normal_runs (x : numberOrNormal) (l : list normal_call) : outcome numberOrNormal :=
  match l with [] => Ok x | c :: r => obind (normal_run x c) (fun y => normal_runs y r) end.

Definition NumberOrNormal_history (l : list normal_call) : outcome numberOrNormal :=
  obind NumberOrNormal_new (fun x => normal_runs x l).

(** toStream, NumberOrNormal.cpp:143-154. *)
Definition NumberOrNormal_toString (x : numberOrNormal) : str :=
  if nn_isNormal x then lit "normal" else Decimals.toString (nn_decimal x).

(** The constructor from a text, NumberOrNormal.cpp:28-33. *)
Definition NumberOrNormal_of_text (t : str) : outcome numberOrNormal :=
  obind (Decimals.construct Decimal 0) (fun p => NumberOrNormal_parse (mkNumberOrNormal p false) t).

(** ** PositiveIntegerOrEmpty: the same with an integer and the empty text *)

Record integerOrEmpty := mkIntegerOrEmpty { ie_integer : int_range; ie_isEmpty : bool }.

(** PositiveIntegerOrEmpty::impl::impl, PositiveIntegerOrEmpty.cpp:18-21. *)
Definition IntegerOrEmpty_new : integerOrEmpty := mkIntegerOrEmpty (Integers.construct PositiveInteger 1) true.

(** parse, PositiveIntegerOrEmpty.cpp:57-71. *)
Definition IntegerOrEmpty_parse (x : integerOrEmpty) (t : str) : integerOrEmpty :=
  match t with
  | [] => IntegerOrEmpty_new
  | _ => mkIntegerOrEmpty (fst (parse_range (ie_integer x) t)) false
  end.

Inductive empty_call := SetEmpty | SetInteger (v : Z) | ParseEmpty (t : str).

(** setValueEmpty, setValue, PositiveIntegerOrEmpty.cpp:43-52; the argument of setValue is a
    PositiveInteger made of the number [v]. *)
Definition empty_run (x : integerOrEmpty) (c : empty_call) : integerOrEmpty :=
  match c with
  | SetEmpty => IntegerOrEmpty_new
  | SetInteger v => mkIntegerOrEmpty (Integers.construct PositiveInteger v) false
  | ParseEmpty t => IntegerOrEmpty_parse x t
  end.

Definition IntegerOrEmpty_history (l : list empty_call) : integerOrEmpty := fold_left empty_run l IntegerOrEmpty_new.

(** toStream, PositiveIntegerOrEmpty.cpp:145-156. *)
Definition IntegerOrEmpty_toString (x : integerOrEmpty) : str := if ie_isEmpty x then [] else print_range (ie_integer x).

(** The constructor from a text, PositiveIntegerOrEmpty.cpp:28-33. *)
Definition IntegerOrEmpty_of_text (t : str) : integerOrEmpty :=
  IntegerOrEmpty_parse (mkIntegerOrEmpty (Integers.construct PositiveInteger 1) false) t.
