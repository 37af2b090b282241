(** Numbers with six decimals. *)
From Coq Require Import List Ascii String ZArith QArith Qabs.
From Verif Require Import Model.Text Spec.Numerals.
Import ListNotations.
Local Open Scope Z_scope.
Local Open Scope list_scope.

(** [six_decimals t x]: t is x rounded to six decimals, all of them written, with a minus
    sign if x is below 0; of two nearest such numbers the one with the even last digit. *)
Definition six_decimals (t : str) (x : Q) : Prop :=
  exists sign ip fp n m,
    t = sign ++ ip ++ "."%char :: fp /\
    ((0 <= x)%Q /\ sign = [] \/ (x < 0)%Q /\ sign = ["-"%char]) /\
    numeral ip n /\ canonical ip /\ numeral fp m /\ List.length fp = 6%nat /\
    (Qabs (inject_Z (n * 1000000 + m) - Qabs x * 1000000) <= 1 # 2)%Q /\
    ((Qabs (inject_Z (n * 1000000 + m) - Qabs x * 1000000) == 1 # 2)%Q -> Z.even (n * 1000000 + m) = true).
