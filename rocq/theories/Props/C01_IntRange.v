(** C01: bounded integer values never leave their documented range. *)
From Verif Require Import Proofs.Tac Model.Text Model.Integers Spec.Numerals Spec.Ranges Proofs.IntegersProofs.
Open Scope Z_scope.

(** Every history of calls on an object of any of the sixteen types leaves a value
    inside the documented range. *)
Theorem C01_value_always_within t v os : within t (ir_value (run_ops t (construct t v) os)).
Proof. exact (range_invariant t v os). Qed.

(** The default constructor stores the number in range closest to zero, and the
    same holds of histories that start there. *)
Theorem C01_default_constructor t os :
  nearest_within t 0 (ir_value (construct_default t)) /\
  within t (ir_value (run_ops t (construct_default t) os)).
Proof. exact (default_within t os). Qed.

(** The constructor and, after any history, setValue store the closest number in
    range (in particular an in-range number exactly). *)
Theorem C01_stores_nearest t v os w :
  nearest_within t v (ir_value (construct t v)) /\
  nearest_within t w (ir_value (set_value (run_ops t (construct t v) os) w)).
Proof. exact (conj (construct_nearest t v) (set_nearest t v os w)). Qed.

Theorem C01_in_range_exact t v os w :
  within t w -> ir_value (set_value (run_ops t (construct t v) os) w) = w.
Proof. exact (nearest_inside t w _ (set_nearest t v os w)). Qed.

(** parse, after any history: a number stores the closest value in range and
    reports success; any other text changes nothing and reports failure. *)
Theorem C01_parse t v os text :
  let r := run_ops t (construct t v) os in
  (forall n, int_text text n -> is_int n ->
     snd (parse_range r text) = true /\ nearest_within t n (ir_value (fst (parse_range r text)))) /\
  ((forall n, int_text text n -> ~ is_int n) -> parse_range r text = (r, false)).
Proof. exact (parse_range_spec t v os text). Qed.

(** Non-vacuity: an out-of-range request on a real history. *)
Example C01_example :
  ir_value (run_ops BeamLevel (construct_default BeamLevel)
              [OpSet 5; OpParse (lit " 12x"); OpParse (lit " +700 ")]) = 8
  /\ within BeamLevel 8 /\ ~ within BeamLevel 9 /\ nearest_within BeamLevel 700 8.
Proof.
  split; [reflexivity|]. split; [unfold within; simpl; lia|]. split; [unfold within; simpl; lia|].
  split; [unfold within; simpl; lia|]. intros x Hx. unfold within in Hx. simpl in Hx. lia.
Qed.

Print Assumptions C01_value_always_within.
Print Assumptions C01_default_constructor.
Print Assumptions C01_stores_nearest.
Print Assumptions C01_in_range_exact.
Print Assumptions C01_parse.
