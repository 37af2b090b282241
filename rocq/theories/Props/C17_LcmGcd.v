(** C17: least common multiple / greatest common divisor of divisions. *)
From Verif Require Import Proofs.Tac Model.Base Model.Ticks Spec.Divides Proofs.TicksProofs.
Open Scope Z_scope.

(** gcd of two ints (other than the smallest int, whose absolute value is undefined). *)
Theorem C17_gcd_pair a b : has_abs a -> has_abs b ->
  exists g, greatestCommonDivisor a b = Ok g /\ is_gcd [a; b] g.
Proof. exact (gcd_pair_is a b). Qed.

(** gcd of a list of two or more: the gcd, or an exception with more than one zero. *)
Theorem C17_gcd_list l : Forall has_abs l -> (2 <= List.length l)%nat ->
  ((count_occ Z.eq_dec l 0%Z <= 1)%nat -> exists g, gcd_list l = Ok g /\ is_gcd l g) /\
  ((2 <= count_occ Z.eq_dec l 0%Z)%nat -> gcd_list l = Throw).
Proof. exact (gcd_list_is l). Qed.

(** Of none it is 1; of one its absolute value, 1 for zero. *)
Theorem C17_gcd_small x :
  gcd_list [] = Ok 1 /\ (has_abs x -> gcd_list [x] = Ok (if x =? 0 then 1 else Z.abs x)).
Proof. exact (gcd_list_small x). Qed.

(** lcm of two ints: exact when it fits an int, undefined behaviour otherwise. *)
Theorem C17_lcm_pair a b m : has_abs a -> has_abs b -> is_lcm [a; b] m ->
  (fits m -> leastCommonMultiple a b = Ok m) /\ (~ fits m -> leastCommonMultiple a b = UB).
Proof. exact (lcm_pair_is a b m). Qed.

(** lcm of a non-empty set without zero. *)
Theorem C17_lcm_set s m : s <> [] -> Forall has_abs s -> ~ In 0 s -> is_lcm s m ->
  (fits m -> lcm_set s = Ok m) /\ (~ fits m -> lcm_set s = UB).
Proof. exact (lcm_set_is s m). Qed.

(** Every list has exactly one lcm, so the hypothesis above can always be met. *)
Theorem C17_lcm_exists s : exists m, is_lcm s m /\ forall m', is_lcm s m' -> m' = m.
Proof. exact (ex_intro _ (lcm_all s) (conj (is_lcm_all s) (fun m' H => is_lcm_unique s m' (lcm_all s) H (is_lcm_all s)))). Qed.

(** A zero never gives a result; the empty set gives 0. *)
Theorem C17_lcm_zero s : In 0 s -> Forall has_abs s -> lcm_set s = Throw \/ lcm_set s = UB.
Proof. exact (lcm_set_zero s). Qed.

Theorem C17_lcm_empty : lcm_set [] = Ok 0.
Proof. exact eq_refl. Qed.

Example C17_example :
  lcm_set [4; 6; 10] = Ok 60 /\ gcd_list [-12; 18; 0] = Ok 6 /\ gcd_list [0; 4; 0] = Throw /\
  greatestCommonDivisor (-12) 18 = Ok 6 /\ leastCommonMultiple 50000 50001 = UB /\
  Forall has_abs [4; 6; 10].
Proof.
  do 5 (split; [vm_compute; reflexivity|]). repeat constructor; unfold has_abs; lia.
Qed.

Print Assumptions C17_gcd_pair.
Print Assumptions C17_gcd_list.
Print Assumptions C17_gcd_small.
Print Assumptions C17_lcm_pair.
Print Assumptions C17_lcm_set.
Print Assumptions C17_lcm_exists.
Print Assumptions C17_lcm_zero.
Print Assumptions C17_lcm_empty.
