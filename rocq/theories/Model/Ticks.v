(** impl/LcmGcd.cpp; impl/Cursor.cpp (tick conversion); the divisions part of
    impl/ScoreReader.cpp, impl/PartReader.cpp and impl/MeasureReader.cpp. *)
From Coq Require Import List ZArith QArith Qround Bool.
From Verif Require Import Model.Base Model.Text Model.CommaInts.
Import ListNotations.
Open Scope Z_scope.

(** An int result; undefined when it does not fit. *)
Definition as_int (z : Z) : outcome Z := if in_int z then Ok z else UB.

(** std::abs( int ): undefined for the smallest int. *)
Definition abs_int (a : Z) : outcome Z := as_int (Z.abs a).

(** The loop of greatestCommonDivisor, impl/LcmGcd.cpp:20-26, for non-negative a and
    b. [fuel] bounds the rounds; [UB] if they do not suffice (they do). *)
Fixpoint gcd_loop (fuel : nat) (a b : Z) : outcome Z :=
  match fuel with
  | O => UB
  | S f =>
      if a =? 0 then Ok b
      else let b' := Z.rem b a in
           if b' =? 0 then Ok a else gcd_loop f (Z.rem a b') b'
  end.

(** greatestCommonDivisor( int, int ), impl/LcmGcd.cpp:15-27. *)
Definition greatestCommonDivisor (a b : Z) : outcome Z :=
  obind (abs_int a) (fun a' => obind (abs_int b) (fun b' => gcd_loop (S (Z.to_nat a')) a' b')).

(** The loop over the rest of the list, impl/LcmGcd.cpp:51-62. *)
Fixpoint gcd_rest (zeroEncountered : bool) (gcd : Z) (l : list Z) : outcome Z :=
  match l with
  | [] => Ok gcd
  | x :: r =>
      if (x =? 0) && zeroEncountered then Throw
      else obind (greatestCommonDivisor gcd x) (fun g => gcd_rest (zeroEncountered || (x =? 0)) g r)
  end.

(** greatestCommonDivisor( std::initializer_list<int> ), impl/LcmGcd.cpp:30-66. *)
Definition gcd_list (l : list Z) : outcome Z :=
  match l with
  | [] => Ok 1
  | [x] => obind (abs_int x) (fun g => Ok (if g =? 0 then 1 else g))
  | x :: r => gcd_rest (x =? 0) x r
  end.

(** leastCommonMultiple( int, int ), impl/LcmGcd.cpp:69-80. *)
Definition leastCommonMultiple (a b : Z) : outcome Z :=
  obind (greatestCommonDivisor a b) (fun temp =>
    obind (if temp =? 0 then Ok 0 else as_int (Z.quot a temp * b)) (fun answer =>
      if answer <? 0 then as_int (answer * -1) else Ok answer)).

(** The loop of impl/LcmGcd.cpp:108-115. *)
Fixpoint lcm_rest (answer : Z) (l : list Z) : outcome Z :=
  match l with
  | [] => Ok answer
  | b :: r => if b =? 0 then Throw else obind (leastCommonMultiple answer b) (fun x => lcm_rest x r)
  end.

(** leastCommonMultiple( const std::set<int>& ), impl/LcmGcd.cpp:83-118; the set in
    iteration order. The loop starts at the second member again. *)
Definition lcm_set (s : list Z) : outcome Z :=
  match s with
  | [] => Ok 0
  | [x] => if x =? 0 then Throw else abs_int x
  | a :: b :: r =>
      if (a =? 0) || (b =? 0) then Throw
      else obind (leastCommonMultiple a b) (fun x => lcm_rest x (b :: r))
  end.

(** std::ceil( x - 0.5 ): impl/Cursor.cpp:60,66, impl/ScoreReader.cpp:615,
    impl/MeasureReader.cpp:440. Simplified: exact rationals for long double. For the
    whole numbers of divisions of the theorems the floating point operations are
    exact as well. *)
Definition round_half (x : Q) : Z := Qceiling (x - (1 # 2))%Q.

(** Cursor::convertDurationToGlobalTickScale, impl/Cursor.cpp:56-67; [global] and
    [current] ticks per quarter. Division by zero gives an infinity or NaN, whose
    conversion to int is undefined, like that of a result outside int. *)
Definition convertDuration (global current : Z) (d : Q) : outcome Z :=
  if current =? global then as_int (round_half d)
  else if current =? 0 then UB
  else as_int (round_half (d * (inject_Z global / inject_Z current))%Q).

(** The divisions values of a score, as far as the tick scale is concerned: the
    <divisions> of the <attributes> of each measure of each part, in order. *)
Definition measure_divs := list Q.
Definition part_divs := list measure_divs.
Definition score_divs := list part_divs.

(** ScoreReader::findMaxDivisionsPerQuarter, impl/ScoreReader.cpp:590-624. *)
Definition foundDivisions (s : score_divs) : list Z :=
  fold_left (fun acc d => if 0 <? round_half d then set_insert (round_half d) acc else acc)
            (concat (concat s)) [].

Definition findMaxDivisionsPerQuarter (s : score_divs) : outcome Z := lcm_set (foundDivisions s).

(** The divisions in effect while a measure is read: at its start and after each
    <divisions>. impl/MeasureReader.cpp:437-441 (parseProperties). *)
Fixpoint measure_ticks (c : Z) (m : measure_divs) : list Z * Z :=
  match m with
  | [] => ([c], c)
  | d :: r => let (l, e) := measure_ticks (round_half d) r in (c :: l, e)
  end.

(** PartReader::getPartData, impl/PartReader.cpp:80-120: the value is carried from
    measure to measure. *)
Fixpoint part_ticks (c : Z) (p : part_divs) : list (list Z) * Z :=
  match p with
  | [] => ([], c)
  | m :: r => let (l, e) := measure_ticks c m in
              let (ls, e') := part_ticks e r in (l :: ls, e')
  end.

(** The parts read one after the other, impl/ScoreReader.cpp:291-298: each starts
    with the global value, or with the last value of the part before if positive
    (impl/PartReader.cpp:89-92). *)
Fixpoint score_ticks (global previous : Z) (s : score_divs) : list (list (list Z)) :=
  match s with
  | [] => []
  | p :: r =>
      let (ls, e) := part_ticks (if 0 <? previous then previous else global) p in
      ls :: score_ticks global e r
  end.

Definition read_score_ticks (global : Z) (s : score_divs) : list (list (list Z)) := score_ticks global (-1) s.
