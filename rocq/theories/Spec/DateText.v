(** Dates as seen through getYear, getMonth and getDay, and their text form. *)
From Coq Require Import List Ascii ZArith.
From Verif Require Import Model.Text Model.Date Spec.Numerals Spec.Calendar.
Import ListNotations.

(** The date exists in the calendar (years 1 to 9999). *)
Definition valid (x : date) : Prop := valid_ymd (myYear x) (myMonth x) (myDay x).

(** Its position on the time line. *)
Definition dayno (x : date) : Z := day_number (myYear x) (myMonth x) (myDay x).

(** Four digits, '-', two digits, '-', two digits. *)
Definition date_text (t : str) (y m d : Z) : Prop :=
  exists a b c,
    t = a ++ ["-"%char] ++ b ++ ["-"%char] ++ c /\
    length a = 4%nat /\ length b = 2%nat /\ length c = 2%nat /\
    numeral a y /\ numeral b m /\ numeral c d.
