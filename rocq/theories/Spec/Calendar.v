(** The proleptic Gregorian calendar. *)
From Coq Require Import List ZArith.
Import ListNotations.
Open Scope Z_scope.

(** A leap year is divisible by 4 and not by 100, or divisible by 400. *)
Definition leap (y : Z) : Prop := ((4 | y) /\ ~ (100 | y)) \/ (400 | y).

Definition leapb (y : Z) : bool :=
  ((y mod 4 =? 0) && negb (y mod 100 =? 0)) || (y mod 400 =? 0).

(** "Thirty days hath September, April, June and November..." *)
Definition month_length (y m : Z) : Z :=
  match m with
  | 4 | 6 | 9 | 11 => 30
  | 2 => if leapb y then 29 else 28
  | _ => 31
  end.

Definition valid_ymd (y m d : Z) : Prop :=
  1 <= y <= 9999 /\ 1 <= m <= 12 /\ 1 <= d <= month_length y m.

(** Days in the years 1 .. y-1. *)
Definition days_before_year (y : Z) : Z :=
  365 * (y - 1) + (y - 1) / 4 - (y - 1) / 100 + (y - 1) / 400.

(** Days in the months 1 .. m-1 of year y. *)
Definition days_before_month (y m : Z) : Z :=
  fold_right Z.add 0 (map (fun k => month_length y (Z.of_nat k)) (seq 1 (Z.to_nat (m - 1)))).

(** Days since the start of the calendar; 0001-01-01 is day 1. *)
Definition day_number (y m d : Z) : Z := days_before_year y + days_before_month y m + d.
