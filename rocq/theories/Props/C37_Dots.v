(** C37: dotted durations have the musical length. *)
From Coq Require Import ZArith QArith Qpower.
From Verif Require Import Model.LongDouble Model.Dots Spec.Intervals Proofs.DotsProofs.
Open Scope Q_scope.

(** The musical length is base*(2 - 2^-n). *)
Theorem C37_dotted_length : forall base n, dotted_length base n == base * (2 - Qpower (1 # 2) (Z.of_nat n)).
Proof. exact dotted_closed. Qed.
Print Assumptions C37_dotted_length.

(** The full claim is false. *)
Definition C37_claim : Prop := forall base n, is_ld base -> applyDots base n == dotted_length base n.

Theorem C37_claim_refuted : ~ C37_claim.
Proof. exact applyDots_refuted. Qed.
Print Assumptions C37_claim_refuted.

(** What is computed instead: each dot adds twice, not half, of the one before. *)
Theorem C37_computed_partial : forall m e n, (Z.abs m * (2 ^ Z.of_nat (S n) - 1) < 2 ^ 64)%Z ->
  applyDots (inject_Z m * pow2 e) n == inject_Z m * pow2 e * inject_Z (2 ^ Z.of_nat (S n) - 1).
Proof. exact applyDots_value. Qed.
Print Assumptions C37_computed_partial.

(** So it is wrong for every duration and every number of dots above zero. *)
Theorem C37_never_right : forall m e n, (Z.abs m * (2 ^ Z.of_nat (S n) - 1) < 2 ^ 64)%Z -> (0 < n)%nat ->
  applyDots (inject_Z m * pow2 e) n == dotted_length (inject_Z m * pow2 e) n -> m = 0%Z.
Proof. exact dots_never_right. Qed.
Print Assumptions C37_never_right.

Theorem C37_no_dots_partial : forall base, applyDots base 0 = base /\ dotted_length base 0 == base.
Proof. exact applyDots_none. Qed.
Print Assumptions C37_no_dots_partial.

(** The normal note of a tuplet: an undotted length gets its name; a length with one
    dot gets a dot but the name of half the note (none for the shortest). *)
Theorem C37_normal_undotted_partial : forall t n len, (0 < t <= 2147483647)%Z -> len == dur_quarters n * inject_Z t ->
  findNormalNameAndDots t len = Some (n, 0%nat).
Proof. exact find_undotted. Qed.
Print Assumptions C37_normal_undotted_partial.

Theorem C37_normal_dotted_wrong : forall t n len, (0 < t <= 2147483647)%Z ->
  len == dotted_length (dur_quarters n * inject_Z t) 1 ->
  findNormalNameAndDots t len = match half_of n with Some h => Some (h, 1%nat) | None => None end.
Proof. exact find_one_dot. Qed.
Print Assumptions C37_normal_dotted_wrong.

(** The hypotheses are met: 420 ticks per quarter, a quarter and a dotted quarter. *)
Example C37_example : findNormalNameAndDots 420 420 = Some (Quarter, 0%nat) /\
  dotted_length (dur_quarters Quarter * inject_Z 420) 1 == 630 /\
  findNormalNameAndDots 420 630 = Some (Eighth, 1%nat).
Proof. split; [vm_compute; reflexivity | ]. split; vm_compute; reflexivity. Qed.
