(** C18: tick rescaling is exact for the score's ticks-per-quarter. *)
From Coq Require Import QArith.
From Verif Require Import Proofs.Tac Model.Base Model.Ticks Spec.Divides Spec.Rounding Proofs.TicksProofs.
Open Scope Z_scope.

(** The ticks per quarter of a score are the lcm of its (rounded) divisions. *)
Theorem C18_scale_is_lcm s g : findMaxDivisionsPerQuarter s = Ok g ->
  List.concat (List.concat s) <> [] ->
  (forall d, In d (List.concat (List.concat s)) -> 0 < round_half d <= 2147483647) ->
  is_lcm (map round_half (List.concat (List.concat s))) g.
Proof. exact (score_scale_is_lcm s g). Qed.

(** At every place of every measure of every part, the divisions in effect are
    positive and divide the ticks per quarter. *)
Theorem C18_divisions_in_effect s g : findMaxDivisionsPerQuarter s = Ok g ->
  List.concat (List.concat s) <> [] ->
  (forall d, In d (List.concat (List.concat s)) -> 0 < round_half d <= 2147483647) ->
  0 < g /\ Forall (Forall (Forall (fun c => 0 < c /\ (c | g)))) (read_score_ticks g s).
Proof. exact (score_scale s g). Qed.

(** Then d divisions become exactly d * g / c ticks (if that fits an int). *)
Theorem C18_exact g c d : c <> 0 -> (c | g) ->
  convertDuration g c (inject_Z d) = as_int (d * g / c).
Proof. exact (convert_exact g c d). Qed.

(** The length in quarters, sums, order and coincidence are kept. *)
Theorem C18_same_quarters g c d : 0 < c -> 0 < g -> (c | g) ->
  (inject_Z (d * g / c) / inject_Z g == inject_Z d / inject_Z c)%Q.
Proof. exact (rescale_quarters g c d). Qed.

Theorem C18_sums_and_order g c a b : 0 < c -> 0 < g -> (c | g) ->
  (a + b) * g / c = a * g / c + b * g / c /\ (a < b <-> a * g / c < b * g / c) /\ (a = b <-> a * g / c = b * g / c).
Proof. exact (rescale_facts g c a b). Qed.

(** Fractional durations go to the nearest tick. *)
Theorem C18_nearest g c d r : c <> 0 -> convertDuration g c d = Ok r ->
  nearest_half_down (d * (inject_Z g / inject_Z c)) r /\ -2147483648 <= r <= 2147483647.
Proof. exact (convert_nearest g c d r). Qed.

(** Without any divisions in the score durations stay as they are. *)
Theorem C18_no_divisions s d : List.concat (List.concat s) = [] -> findMaxDivisionsPerQuarter s = Ok 0 /\
  Forall (Forall (Forall (fun c => convertDuration 0 c (inject_Z d) = as_int d))) (read_score_ticks 0 s).
Proof. exact (no_divisions s d). Qed.

Example C18_example :
  let s := [[[4%Q]; []; [6%Q; 10%Q]]; [[]; [4%Q]]] in
  findMaxDivisionsPerQuarter s = Ok 60 /\
  read_score_ticks 60 s = [[[60; 4]; [4]; [4; 6; 10]]; [[10]; [10; 4]]] /\
  convertDuration 60 6 (inject_Z 7) = Ok 70 /\ convertDuration 60 4 (1 # 3) = Ok 5.
Proof. repeat split; vm_compute; reflexivity. Qed.

Print Assumptions C18_scale_is_lcm.
Print Assumptions C18_divisions_in_effect.
Print Assumptions C18_exact.
Print Assumptions C18_same_quarters.
Print Assumptions C18_sums_and_order.
Print Assumptions C18_nearest.
Print Assumptions C18_no_divisions.
