(** C48: is there a measure at this location? *)
From Coq Require Import List ZArith Bool.
From Verif Require Import Model.Base Model.Text Model.Ticks Model.MeasureTypes Model.ScoreData.
From Verif Require Import Spec.Numerals Spec.Sorting.
From Verif Require Import Proofs.SortProofs.
Import ListNotations.
Open Scope Z_scope.

(** The full claim. *)
Definition C48_valid : Prop := forall l s, is_int (l_part l) -> is_int (l_staff l) -> is_int (l_measure l) -> small s ->
  exists b, isValid l s = Ok b /\ (b = true <-> exists_at l s).

(** It holds for scores with parts, parts with measures and measures with staves. *)
Theorem C48_valid_partial l s : is_int (l_part l) -> is_int (l_staff l) -> is_int (l_measure l) -> small s ->
  sd_parts s <> [] -> Forall (fun p => pd_measures p <> [] /\ Forall (fun m => m_staves m <> []) (pd_measures p)) (sd_parts s) ->
  exists b, isValid l s = Ok b /\ (b = true <-> exists_at l s).
Proof. exact (valid_iff l s). Qed.

(** Without parts, or measures in the part, there is an exception; without staves in the
    measure every staff exists. *)
Theorem C48_empty l s : is_int (l_part l) -> is_int (l_staff l) -> is_int (l_measure l) -> 0 <= l_part l -> 0 <= l_staff l -> 0 <= l_measure l ->
  (sd_parts s = [] -> isValid l s = Throw) /\
  (small s -> forall p, nth_error (sd_parts s) (Z.to_nat (l_part l)) = Some p -> pd_measures p = [] -> isValid l s = Throw) /\
  (small s -> forall p m, nth_error (sd_parts s) (Z.to_nat (l_part l)) = Some p -> nth_error (pd_measures p) (Z.to_nat (l_measure l)) = Some m ->
    m_staves m = [] -> isValid l s = Ok true).
Proof. exact (valid_empty l s). Qed.

Example C48_score : ScoreData :=
  let m n := mkMeasure (repeat (mkStaff [] [] [] []) n) default_time [] BoolUnspecified [] [] in
  mkScore [mkPart [] 0 [m 1%nat; m 2%nat]; mkPart [] 0 [m 3%nat; m 3%nat]] 0.

Example C48_holds :
  isValid (mkLocation 0 1 1) C48_score = Ok true /\ isValid (mkLocation 0 1 0) C48_score = Ok false /\
  isValid (mkLocation 1 2 1) C48_score = Ok true /\ isValid (mkLocation 1 2 2) C48_score = Ok false /\
  isValid (mkLocation 2 0 0) C48_score = Ok false /\ isValid (mkLocation 0 (-1) 0) C48_score = Ok false.
Proof. repeat split; vm_compute; reflexivity. Qed.

Example C48_hypotheses : small C48_score /\ sd_parts C48_score <> [] /\
  Forall (fun p => pd_measures p <> [] /\ Forall (fun m => m_staves m <> []) (pd_measures p)) (sd_parts C48_score).
Proof.
  split; [|split; [discriminate|]].
  - split; [vm_compute; discriminate|]. repeat (apply Forall_cons || apply Forall_nil || split); vm_compute; discriminate.
  - repeat (apply Forall_cons || apply Forall_nil || split); discriminate.
Qed.

Theorem C48_valid_refuted : ~ C48_valid.
Proof.
  intros H. destruct (H (mkLocation 0 0 0) (mkScore [] 0)) as (b & E & _); [split; vm_compute; discriminate..| |discriminate E].
  split; [vm_compute; discriminate | apply Forall_nil].
Qed.

Print Assumptions C48_valid_partial.
Print Assumptions C48_empty.
Print Assumptions C48_valid_refuted.
