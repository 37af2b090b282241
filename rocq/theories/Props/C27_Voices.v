(** C27: voice numbers survive or are repaired. *)
From Coq Require Import String List ZArith QArith Bool Sorting.Permutation Sorting.Sorted.
From Verif Require Import Model.Base Model.Text Model.Ticks Model.ApiEnums Model.MeasureTypes Model.MeasureReader Spec.Measures Spec.Voices.
From Verif Require Import Proofs.MeasureReadProofs.
Import ListNotations.
Open Scope Z_scope.

(** Staff [i] of a measure that was read has, as voices, the runs of its note elements
    between backups: each run is one voice with its notes in order, no other voices
    exist, and the numbers are those of [numbered]. *)
Theorem C27_reading c x m transpose current :
  1 <= rc_global c -> 0 <= rc_current c -> Forall item_ok (xm_data x) -> read_measure c x = Ok (m, transpose, current) ->
  Forall2 (fun i st => exists raw, Forall2 (Forall2 taken_from) (runs i (xm_data x)) raw /\ numbered raw (s_voices st))
    (seq 0 (rc_numStaves c)) (m_staves m).
Proof. exact (read_voices c x m transpose current). Qed.

(** The renumbering alone, for any staff. *)
Theorem C27_renumbering st : Forall (fun v => snd v <> []) (s_voices st) ->
  exists vs, consolidate_staff st = Ok (mkStaff (s_clefs st) (s_keys st) (s_directions st) vs) /\ numbered (map snd (s_voices st)) vs.
Proof. exact (consolidate_staff_ok st). Qed.

Example C27_note (v : Z) (rest : Z) : music_data := MNote (mkXNote NormalNote 1 false None (Some (print_int v)) rest).
Example C27_read (items : list music_data) : outcome (list (list (Z * list Z))) :=
  omap (fun q => map (fun st => map (fun v => (fst v, map n_rest (snd v))) (s_voices st)) (m_staves (fst (fst q))))
    (read_measure (mkRctx 1 4 4 0 default_time) (mkXMeasure (lit "1"%string) None items)).

(** Consistent distinct numbers, in any order, are kept. *)
Example C27_reading_kept : C27_read [C27_note 5 60; C27_note 5 61; MBackup 2; C27_note 2 62] = Ok [[(1, [62]); (4, [60; 61])]].
Proof. vm_compute. reflexivity. Qed.

(** A number used by two runs, or two numbers within a run, cause a renumbering. *)
Example C27_reading_repaired :
  C27_read [C27_note 5 60; C27_note 5 61; MBackup 2; C27_note 5 62] = Ok [[(0, [60; 61]); (1, [62])]] /\
  C27_read [C27_note 5 60; C27_note 6 61; MBackup 2; C27_note 3 62] = Ok [[(0, [60; 61]); (1, [62])]].
Proof. split; vm_compute; reflexivity. Qed.

Example C27_renumbering_holds :
  consolidate_staff (mkStaff [] [] [] [(0, [mkNote 0 1 false NormalNote 3 60]); (2, [mkNote 0 1 false NormalNote 1 61])]) =
  Ok (mkStaff [] [] [] [(0, [mkNote 0 1 false NormalNote 1 61]); (2, [mkNote 0 1 false NormalNote 3 60])]).
Proof. vm_compute. reflexivity. Qed.

Print Assumptions C27_reading.
Print Assumptions C27_renumbering.
