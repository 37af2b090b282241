(** C25: reading never produces negative or out-of-order time. *)
From Coq Require Import String List ZArith QArith Bool Sorting.Sorted.
From Verif Require Import Model.Base Model.Text Model.Ticks Model.ApiEnums Model.MeasureTypes Model.MeasureReader Spec.Measures.
From Verif Require Import Proofs.MeasureReadProofs.
Import ListNotations.
Open Scope Z_scope.

(** The full claim: [item_ok] says that durations and divisions are not negative, which
    their types in MusicXML ensure. *)
Definition C25_never_negative : Prop := forall c x m transpose current,
  1 <= rc_global c -> 0 <= rc_current c -> Forall item_ok (xm_data x) -> read_measure c x = Ok (m, transpose, current) ->
  Forall staff_in_time (m_staves m) /\ Forall (fun k => 0 <= k_tick k) (m_keys m) /\ Forall (fun b => 0 <= b_tick b) (m_barlines m) /\
  Forall (fun st => Forall (fun d => 0 <= d_tick d) (s_directions st)) (m_staves m).

(** It holds but for directions and chord symbols with a negative offset. *)
Theorem C25_never_negative_partial c x m transpose current :
  1 <= rc_global c -> 0 <= rc_current c -> Forall item_ok (xm_data x) -> read_measure c x = Ok (m, transpose, current) ->
  Forall staff_in_time (m_staves m) /\ Forall (fun k => 0 <= k_tick k) (m_keys m) /\ Forall (fun b => 0 <= b_tick b) (m_barlines m) /\
  (Forall offset_ok (xm_data x) -> Forall (fun st => Forall (fun d => 0 <= d_tick d) (s_directions st)) (m_staves m)) /\
  0 <= current.
Proof. exact (read_in_time c x m transpose current). Qed.

Example C25_context : rctx := mkRctx 1 4 2 0 default_time.
Example C25_note (d : Q) (chord : bool) : music_data := MNote (mkXNote NormalNote d chord None None 60).

(** Two backups in a row, the second before the start of the measure, then a voice with
    a gap and a chord. *)
Example C25_never_negative_holds :
  exists m current, read_measure C25_context
    (mkXMeasure (lit "1"%string) None [C25_note 2 false; MBackup 1; MBackup 5; MForward 1; C25_note 2 false; C25_note 2 true; C25_note 1 false]) = Ok (m, None, current) /\
  map (fun v => map n_tick (snd v)) (flat_map s_voices (m_staves m)) = [[0]; [2; 2; 6]].
Proof. eexists. eexists. split; vm_compute; reflexivity. Qed.

(** A direction with a negative offset at the start of a measure is read at a negative
    tick. *)
Theorem C25_never_negative_refuted : ~ C25_never_negative.
Proof.
  intros H. pose (x := mkXMeasure (lit "1"%string) None [MDirection (mkXDirection (Some (-3 # 1)%Q) None [])]).
  destruct (read_measure C25_context x) as [[[m tr] cur]| |] eqn:E; [|vm_compute in E; discriminate E|vm_compute in E; discriminate E].
  destruct (H C25_context x m tr cur) as (_ & _ & _ & D); [vm_compute; discriminate|vm_compute; discriminate|repeat constructor|exact E|].
  vm_compute in E. injection E as <- _ _. inversion D as [|? ? D1 _]; subst. inversion D1 as [|? ? D2 _]; subst. apply D2. reflexivity.
Qed.

Print Assumptions C25_never_negative_partial.
Print Assumptions C25_never_negative_refuted.
