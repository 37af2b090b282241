(** Greatest common divisors and least common multiples by divisibility. *)
From Coq Require Import List ZArith.
Open Scope Z_scope.

(** [g] is the non-negative greatest common divisor of the members of [l]. *)
Definition is_gcd (l : list Z) (g : Z) : Prop :=
  0 <= g /\ (forall x, In x l -> (g | x)) /\ (forall d, (forall x, In x l -> (d | x)) -> (d | g)).

(** [m] is the non-negative least common multiple of the members of [l]. *)
Definition is_lcm (l : list Z) (m : Z) : Prop :=
  0 <= m /\ (forall x, In x l -> (x | m)) /\ (forall d, (forall x, In x l -> (x | d)) -> (m | d)).

(** Ints other than the smallest one, whose absolute value is not an int. *)
Definition has_abs (z : Z) : Prop := -2147483647 <= z <= 2147483647.

Definition fits (z : Z) : Prop := z <= 2147483647.
