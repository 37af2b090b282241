(** Rounding to whole numbers. *)
From Coq Require Import ZArith QArith.

(** [n] is the whole number nearest to [x]; halves go down. *)
Definition nearest_half_down (x : Q) (n : Z) : Prop :=
  (inject_Z n - (1 # 2) < x /\ x <= inject_Z n + (1 # 2))%Q.
