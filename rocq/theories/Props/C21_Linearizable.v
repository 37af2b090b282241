(** C21: DocumentManager behaves like a simple map under concurrency. *)
From Coq Require Import ZArith List.
From Verif Require Import Model.Base Model.Text Model.Conversions Model.DocumentManager Spec.Linearizable Spec.Documents
  Proofs.DocumentManagerProofs2 Proofs.DocumentManagerConc Props.C19_Ids.
Import ListNotations.
Open Scope Z_scope.

(** For any number of threads, any calls and any schedule: what is seen is
    linearizable with respect to the map of documents, every thread makes its calls in
    its order, and whenever the lock is free the stored documents are those of the
    map. *)
Theorem C21_linearizable {A M Hd V PI Input Data Output} (sv : services A M Hd V PI Input Data Output) prog ts c :
  schedule sv ts (start prog) = Some c -> exists h l,
    linearization (fun e => legal sv empty e l) (map to_point (c_trace c)) h /\
    (forall u, invoked u h ++ t_todo (c_threads c u) = prog u) /\
    (c_owner c = None -> forall i, m_find i (dm_docs (c_state c)) = held l i).
Proof. exact (linearizable sv prog ts c). Qed.

(** Linearizations respect the order of calls: at any time, what a thread has got back
    has taken effect, and what has taken effect has been called. *)
Theorem C21_real_time {A M Hd V PI Input Data Output} (ok : list (op Input Data * result A M Hd V PI Data Output) -> Prop) obs h a b t :
  linearization ok obs h -> h = a ++ b -> exists e c,
    returns (of_thread t a) ++ e = effects (of_thread t a) /\ map fst (effects (of_thread t a)) ++ c = calls_made (of_thread t a).
Proof. intros L E. exact (real_time obs h ok a b t L E). Qed.

(** Interleaving adds no undefined behaviour: a crash comes from a call that is
    undefined after some sequential history. *)
Theorem C21_crash {A M Hd V PI Input Data Output} (sv : services A M Hd V PI Input Data Output) prog ts :
  schedule sv ts (start prog) = None -> exists e l o, legal sv empty e l /\ undefined sv o l.
Proof. exact (crash_explained sv prog ts). Qed.

(** No deadlock: as long as some thread is busy, some busy thread can move. *)
Theorem C21_no_deadlock {A M Hd V PI Input Data Output} (sv : services A M Hd V PI Input Data Output) prog ts c u :
  schedule sv ts (start prog) = Some c -> busy c u -> exists v, busy c v /\ move sv v c <> Blocked.
Proof. exact (no_deadlock sv prog ts c u). Qed.

(** Step by step, alone, each function does what it does as a whole. *)
Theorem C21_code_alone {A M Hd V PI Input Data Output} (sv : services A M Hd V PI Input Data Output) o s :
  finish sv (code sv o) no_locals s = call sv o s.
Proof. exact (code_alone sv o s). Qed.

(** Thread 0 destroys the document that thread 1 reads: both orders happen. *)
Definition C21_prog (u : nat) : list (op Z Z) :=
  match u with O => [CreateFromInput 8; Destroy 1] | 1%nat => [GetData 1] | _ => [] end.
Example C21_example :
  option_map (fun c => returned (c_trace c)) (schedule ex_services (repeat 0 8 ++ [1;0;1;1;1;1;1;0;1;1;1;1;0;0;0;0;0;0])%nat (start C21_prog))
  = Some [(CreateFromInput 8, RId 1); (GetData 1, RData 8); (Destroy 1, RNothing)] /\
  option_map (fun c => returned (c_trace c)) (schedule ex_services (repeat 0 8 ++ [1;0;0;1;1;1;0;0;0;0;0;1;1;1;1;1;1;1;1])%nat (start C21_prog))
  = Some [(CreateFromInput 8, RId 1); (Destroy 1, RNothing); (GetData 1, RData 0)].
Proof. split; vm_compute; reflexivity. Qed.

Print Assumptions C21_linearizable.
Print Assumptions C21_real_time.
Print Assumptions C21_crash.
Print Assumptions C21_no_deadlock.
Print Assumptions C21_code_alone.
