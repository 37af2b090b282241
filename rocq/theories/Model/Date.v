(** core/Date.h, core/Date.cpp. Date::today (Date.cpp:658-666) reads the clock and
    is not modelled. Copy construction and assignment (:634-656) rebuild the same
    year, month and day and are modelled as using the value itself. *)
From Coq Require Import List Ascii ZArith Bool.
From Verif Require Import Model.Base Model.Text.
Import ListNotations.
Open Scope Z_scope.

(** class Date::impl, core/Date.cpp:546-548. *)
Record date := Date { myYear : Z; myMonth : Z; myDay : Z }.

(** core/Date.cpp:231-242. *)
Definition constrainToRange (v lo hi : Z) : Z :=
  if v <? lo then lo else if hi <? v then hi else v.

(** core/Date.cpp:87-115. C++ % on positive ints is Z.rem. *)
Definition isLeapYear (y : Z) : bool :=
  if (y <? 1) || (9999 <? y) then false
  else if Z.rem y 400 =? 0 then true
  else if Z.rem y 100 =? 0 then false
  else if Z.rem y 4 =? 0 then true
  else false.

(** core/Date.cpp:609-614. *)
Definition MONTHDAYS : list (list Z) :=
  [ [0;31;28;31;30;31;30;31;31;30;31;30;31];
    [0;31;29;31;30;31;30;31;31;30;31;30;31] ].

(** core/Date.cpp:218-228. The subscripts are always in bounds. *)
Definition daysInMonth (m y : Z) : Z :=
  let row := if isLeapYear y then 1%nat else 0%nat in
  nth (Z.to_nat (constrainToRange m 1 12)) (nth row MONTHDAYS []) 0.

(** core/Date.cpp:68-71. *)
Definition setDay (d : date) (v : Z) : date :=
  Date (myYear d) (myMonth d) (constrainToRange v 1 (daysInMonth (myMonth d) (myYear d))).

(** core/Date.cpp:54-58. *)
Definition setYear (d : date) (v : Z) : date :=
  let d' := Date (constrainToRange v 1 9999) (myMonth d) (myDay d) in setDay d' (myDay d').

(** core/Date.cpp:61-65. *)
Definition setMonth (d : date) (v : Z) : date :=
  let d' := Date (myYear d) (constrainToRange v 1 12) (myDay d) in setDay d' (myDay d').

(** core/Date.cpp:308-338. *)
Definition isDateValid (y m d : Z) : bool :=
  if y <? 1 then false
  else if 9999 <? y then false
  else if m <? 1 then false
  else if 12 <? m then false
  else if d <? 1 then false
  else if daysInMonth m y <? d then false
  else true.

(** core/Date.cpp:74-84. *)
Definition setValue (x : date) (y m d : Z) : date * bool :=
  if isDateValid y m d then (setDay (setMonth (setYear x y) m) d, true) else (x, false).

(** Date(), core/Date.cpp:39-43. *)
Definition defaultDate : date := Date 1900 1 1.

(** Date( int, int, int ), core/Date.cpp:29-37. *)
Definition mkDate (y m d : Z) : date := setDay (setMonth (setYear defaultDate y) m) d.

(** core/Date.cpp:185-215: the characters at index 0-3, 5-6 and 8-9 are digits,
    those at 4 and 7 are '-'. *)
Definition isStringFormatValid (t : str) : bool :=
  match t with
  | [c0; c1; c2; c3; c4; c5; c6; c7; c8; c9] =>
      is_digit c0 && is_digit c1 && is_digit c2 && is_digit c3 &&
      Ascii.eqb c4 "-" && is_digit c5 && is_digit c6 && Ascii.eqb c7 "-" &&
      is_digit c8 && is_digit c9
  | _ => false
  end.

(** stringstream( value.substr( pos, len ) ) >> out, with out = -1 before;
    a failed extraction stores 0 (no digits) or the nearest int. *)
Definition parsePart (t : str) (pos len : nat) : Z :=
  match read_int (firstn len (skipn pos t)) with
  | IntOk v _ => v
  | IntOverflow v _ => v
  | IntNone => 0
  end.

(** core/Date.cpp:124-182: parseString with parseStringYear/Month/Day. *)
Definition parseDate (x : date) (t : str) : date * bool :=
  if isStringFormatValid t then
    let y := parsePart t 0 4 in
    let m := parsePart t 5 2 in
    let d := parsePart t 8 2 in
    if ((1 <=? y) && (y <=? 9999)) && ((1 <=? m) && (m <=? 12)) && ((1 <=? d) && (d <=? 31))
    then if d <=? daysInMonth m y then (fst (setValue x y m d), true) else (x, false)
    else (x, false)
  else (x, false).

(** Date( const std::string& ), core/Date.cpp:45-49. *)
Definition dateFromText (t : str) : date := fst (parseDate defaultDate t).

(** core/Date.cpp:264-305: Zeller's congruence; / and % on non-negative ints. *)
Definition getWeekday (x : date) : Z :=
  let day := myDay x in
  let '(month, year) := if myMonth x =? 1 then (13, myYear x - 1) else (myMonth x, myYear x) in
  let '(month, year) := if month =? 2 then (14, year - 1) else (month, year) in
  let q := day in
  let m := month in
  let k := Z.rem year 100 in
  let j := Z.quot year 100 in
  let h := q + Z.quot (13 * (m + 1)) 5 + k + Z.quot k 4 + Z.quot j 4 + 5 * j in
  let h := Z.rem h 7 in
  if h =? 0 then 7 else h.

(** core/Date.cpp:563-596. *)
Definition compareDate (a b : date) : Z :=
  if myYear b <? myYear a then 1
  else if myYear a <? myYear b then -1
  else if myMonth b <? myMonth a then 1
  else if myMonth a <? myMonth b then -1
  else if myDay b <? myDay a then 1
  else if myDay a <? myDay b then -1
  else 0.

(** core/Date.cpp:341-376 and :735-758. *)
Definition date_eq (a b : date) : bool := compareDate a b =? 0.
Definition date_ne (a b : date) : bool := negb (compareDate a b =? 0).
Definition date_gt (a b : date) : bool := 0 <? compareDate a b.
Definition date_ge (a b : date) : bool := 0 <=? compareDate a b.
Definition date_lt (a b : date) : bool := compareDate a b <? 0.
Definition date_le (a b : date) : bool := compareDate a b <=? 0.

(** One iteration of the loop of addDays for days > 0, core/Date.cpp:389-407;
    [None] is "return". *)
Definition stepForward (x : date) : option date :=
  if date_eq x (mkDate 9999 12 31) then None
  else if (myMonth x =? 12) && (myDay x =? 31) then
    Some (setDay (setMonth (setYear x (myYear x + 1)) 1) 1)
  else if myDay x =? daysInMonth (myMonth x) (myYear x) then
    Some (setDay (setMonth x (myMonth x + 1)) 1)
  else Some (setDay x (myDay x + 1)).

(** One iteration for days < 0, core/Date.cpp:414-432. *)
Definition stepBackward (x : date) : option date :=
  if date_eq x (mkDate 1 1 1) then None
  else if (myMonth x =? 1) && (myDay x =? 1) then
    Some (setDay (setMonth (setYear x (myYear x - 1)) 12) 31)
  else if myDay x =? 1 then
    let x' := setMonth x (myMonth x - 1) in
    Some (setDay x' (daysInMonth (myMonth x') (myYear x')))
  else Some (setDay x (myDay x - 1)).

Fixpoint loop (step : date -> option date) (n : nat) (x : date) : date :=
  match n with
  | O => x
  | S n' => match step x with None => x | Some x' => loop step n' x' end
  end.

(** core/Date.cpp:379-435. *)
Definition addDays (x : date) (days : Z) : date :=
  if days =? 0 then x
  else if 0 <? days then loop stepForward (Z.to_nat days) x
  else loop stepBackward (Z.to_nat (- days)) x.

(** core/Date.cpp:438-527. "months *= -1" is undefined for INT_MIN. *)
Definition addMonths (x : date) (months0 : Z) : outcome date :=
  if months0 =? int_min then UB else
  let '(direction, months) := if months0 <? 0 then (-1, - months0) else (1, months0) in
  let day_was := myDay x in
  let new_year := myYear x + direction * Z.quot months 12 in
  let new_month := myMonth x + direction * Z.rem months 12 in
  let '(new_year, x) :=
    if new_month =? 0 then (new_year - 1, setMonth x 12)
    else if new_month <? 0 then (new_year - 1, setMonth x (new_month + 12))
    else if 12 <? new_month then (new_year + 1, setMonth x (Z.rem new_month 12))
    else (new_year, setMonth x new_month) in
  let daysover := day_was - daysInMonth (myMonth x) new_year in
  let x :=
    if 0 <? daysover then
      let x := setYear x new_year in setDay x (daysInMonth (myMonth x) (myYear x))
    else setDay (setYear x new_year) day_was in
  Ok (if new_year <? 1 then setDay (setMonth (setYear x 1) 1) 1
      else if 9999 <? new_year then setDay (setMonth (setYear x 9999) 12) 31
      else setYear x new_year).

(** core/Date.cpp:530-543. getYear() + years is undefined when it overflows. *)
Definition addYears (x : date) (years : Z) : outcome date :=
  let new_year := myYear x + years in
  if negb (in_int new_year) then UB else
  let x :=
    if (myMonth x =? 2) && (myDay x =? 29) && negb (isLeapYear new_year)
    then setMonth (setDay x 1) 3 else x in
  Ok (setYear x new_year).

(** zeroPad, core/Date.cpp:11-19. *)
Definition zeroPad (v : Z) (width : nat) : str :=
  let t := print_int v in repeat "0"%char (width - List.length t) ++ t.

(** toStream, core/Date.cpp:806-814. *)
Definition printDate (x : date) : str :=
  zeroPad (myYear x) 4 ++ ["-"%char] ++ zeroPad (myMonth x) 2 ++ ["-"%char] ++ zeroPad (myDay x) 2.

(** The public operations on a Date object. ++ and -- are addDays( 1 ) and
    addDays( -1 ), core/Date.cpp:759-780. *)
Inductive date_op :=
| DSetYear (v : Z) | DSetMonth (v : Z) | DSetDay (v : Z)
| DSetValue (y m d : Z)
| DParse (t : str)
| DAddDays (n : Z) | DAddMonths (n : Z) | DAddYears (n : Z)
| DIncr | DDecr
| DAssign (y m d : Z) | DAssignText (t : str).

Definition date_step (x : date) (o : date_op) : outcome date :=
  match o with
  | DSetYear v => Ok (setYear x v)
  | DSetMonth v => Ok (setMonth x v)
  | DSetDay v => Ok (setDay x v)
  | DSetValue y m d => Ok (fst (setValue x y m d))
  | DParse t => Ok (fst (parseDate x t))
  | DAddDays n => Ok (addDays x n)
  | DAddMonths n => addMonths x n
  | DAddYears n => addYears x n
  | DIncr => Ok (addDays x 1)
  | DDecr => Ok (addDays x (-1))
  | DAssign y m d => Ok (mkDate y m d)
  | DAssignText t => Ok (dateFromText t)
  end.

Definition run_date (x : date) (os : list date_op) : outcome date :=
  fold_left (fun o op => obind o (fun x => date_step x op)) os (Ok x).
