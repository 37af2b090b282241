(** C22: a failing getData leaves the document as it was. *)
From Coq Require Import ZArith List.
From Verif Require Import Model.Base Model.Text Model.Conversions Model.DocumentManager Spec.Documents
  Proofs.DocumentManagerProofs Proofs.DocumentManagerProofs2 Props.C19_Ids.
Import ListNotations.
Open Scope Z_scope.

(** The full claim. *)
Definition C22_failure_is_harmless : Prop :=
  forall (A M Hd V PI Input Data Output : Type) (sv : services A M Hd V PI Input Data Output) id s s',
    call sv (GetData id) s = Returns RThrow s' -> forall i, m_find i (dm_docs s') = m_find i (dm_docs s).

(** It holds for partwise documents. *)
Theorem C22_partwise_partial {A M Hd V PI Input Data Output} (sv : services A M Hd V PI Input Data Output) id p s s' :
  m_find id (dm_docs s) = Some (Partwise p) -> call sv (GetData id) s = Returns RThrow s' -> s' = s.
Proof. intros F C. apply (read_only sv _ s RThrow s' C). rewrite F. exact I. Qed.

(** What happens in general: a timewise document is left in its partwise form; the
    other documents are untouched. *)
Theorem C22_what_is_left_partial {A M Hd V PI Input Data Output} (sv : services A M Hd V PI Input Data Output) id s s' :
  call sv (GetData id) s = Returns RThrow s' ->
  (s' = s /\ exists p, m_find id (dm_docs s) = Some (Partwise p)) \/
  (exists t, m_find id (dm_docs s) = Some (Timewise t) /\ m_find id (dm_docs s') = Some (Partwise (timewisePartwise (sv_attrs sv) (sv_music sv) t)) /\
    forall i, i <> id -> m_find i (dm_docs s') = m_find i (dm_docs s)).
Proof. exact (failing_read sv id s s'). Qed.

(** The claim fails: a timewise document whose score cannot be read turns partwise.
    The state is reached by one create call. *)
Theorem C22_failure_is_harmless_refuted : ~ C22_failure_is_harmless /\
  exists s s', calls ex_services [CreateFromInput (-13)] initial = Some ([RId 1], s) /\
    call ex_services (GetData 1) s = Returns RThrow s' /\
    m_find 1 (dm_docs s) = Some (Timewise (ex_timewise (-13))) /\ exists p, m_find 1 (dm_docs s') = Some (Partwise p).
Proof.
  assert (X : exists s s', calls ex_services [CreateFromInput (-13)] initial = Some ([RId 1], s) /\
    call ex_services (GetData 1) s = Returns RThrow s' /\
    m_find 1 (dm_docs s) = Some (Timewise (ex_timewise (-13))) /\ exists p, m_find 1 (dm_docs s') = Some (Partwise p)).
  { eexists. eexists. split; [vm_compute; reflexivity|]. split; [vm_compute; reflexivity|]. split; [vm_compute; reflexivity|].
    eexists. vm_compute. reflexivity. }
  split; [|exact X]. intros H. destruct X as (s & s' & _ & C & F & p & F'). specialize (H _ _ _ _ _ _ _ _ _ _ _ _ C 1). congruence.
Qed.

Print Assumptions C22_partwise_partial.
Print Assumptions C22_what_is_left_partial.
Print Assumptions C22_failure_is_harmless_refuted.
