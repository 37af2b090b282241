(** C51: the numbers of measures, staves and voices, and finding a part. *)
From Coq Require Import String List ZArith Bool.
From Verif Require Import Model.Base Model.Text Model.Ticks Model.MeasureTypes Model.ScoreData.
From Verif Require Import Spec.Numerals Spec.Sorting.
From Verif Require Import Proofs.SortProofs.
Import ListNotations.
Open Scope Z_scope.

(** The measures of the longest part. *)
Theorem C51_measures s : small s -> is_largest (map (fun p => size (pd_measures p)) (sd_parts s)) (getNumMeasures s).
Proof. exact (num_measures s). Qed.

(** The staves of the measure with the most staves. *)
Theorem C51_staves s p : small s -> In p (sd_parts s) -> is_largest (map (fun m => size (m_staves m)) (pd_measures p)) (getNumStaves p).
Proof. exact (num_staves s p). Qed.

(** The staves of all parts together. *)
Theorem C51_system s : let total := fold_right Z.add 0 (map getNumStaves (sd_parts s)) in
  getNumStavesPerSystem s = if total <=? int_max then Ok total else UB.
Proof. exact (staves_per_system s). Qed.

(** The largest number of a voice. *)
Theorem C51_voice p : is_largest (map fst (flat_map s_voices (flat_map m_staves (pd_measures p)))) (getMaxVoice p).
Proof. exact (max_voice p). Qed.

(** The first part with the id, and none only if there is none. *)
Theorem C51_find l id : match findPart l id with
  | Some p => pd_id p = id /\ exists l1 l2, l = l1 ++ p :: l2 /\ ~ In id (map pd_id l1)
  | None => ~ In id (map pd_id l) end.
Proof. exact (find_part l id). Qed.

Example C51_score : ScoreData :=
  let m n := mkMeasure (repeat (mkStaff [] [] [] [(0, []); (3, [])]) n) default_time [] BoolUnspecified [] [] in
  mkScore [mkPart (lit "P1"%string) 0 [m 1%nat; m 2%nat; m 1%nat]; mkPart (lit "P2"%string) 0 [m 3%nat; m 3%nat]] 0.

Example C51_holds :
  getNumMeasures C51_score = 3 /\ getNumStavesPerSystem C51_score = Ok 5 /\ map getMaxVoice (sd_parts C51_score) = [3; 3] /\
  option_map getNumStaves (findPart (sd_parts C51_score) (lit "P2"%string)) = Some 3 /\ findPart (sd_parts C51_score) (lit "P3"%string) = None.
Proof. repeat split; vm_compute; reflexivity. Qed.

Example C51_small : small C51_score.
Proof. split; [vm_compute; discriminate|]. repeat (apply Forall_cons || apply Forall_nil || split); vm_compute; discriminate. Qed.

Print Assumptions C51_measures.
Print Assumptions C51_staves.
Print Assumptions C51_system.
Print Assumptions C51_voice.
Print Assumptions C51_find.
