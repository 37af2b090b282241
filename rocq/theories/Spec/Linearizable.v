(** Linearizability with linearization points (Herlihy and Wing): one can put, between
    the call and the return of each operation, a point at which it takes effect, such
    that the operations in the order of these points are a legal sequential history.
    Hence an operation that returned before another was called comes before it. *)
From Coq Require Import List.
Import ListNotations.

Section Lin.
  Context {Op Res : Type}.

  Inductive point := Call (t : nat) (o : Op) | Effect (t : nat) (o : Op) (r : Res) | Ret (t : nat) (o : Op) (r : Res).

  Definition thread_of (p : point) : nat := match p with Call t _ => t | Effect t _ _ => t | Ret t _ _ => t end.

  (** Where a thread is. *)
  Inductive phase := Idle | Called (o : Op) | Took (o : Op) (r : Res).

  (** The points of one thread: call, effect, return, again and again, with the same
      operation and the same result. *)
  Inductive thread_run : list point -> phase -> Prop :=
  | run_nil : thread_run [] Idle
  | run_call t o h : thread_run h Idle -> thread_run (h ++ [Call t o]) (Called o)
  | run_effect t o r h : thread_run h (Called o) -> thread_run (h ++ [Effect t o r]) (Took o r)
  | run_ret t o r h : thread_run h (Took o r) -> thread_run (h ++ [Ret t o r]) Idle.

  Definition of_thread (t : nat) (h : list point) : list point := filter (fun p => Nat.eqb (thread_of p) t) h.

  (** Without the effect points: what can be observed. *)
  Definition observed (h : list point) : list point :=
    filter (fun p => match p with Effect _ _ _ => false | _ => true end) h.

  (** Operations and results in the order of their effects. *)
  Definition effects (h : list point) : list (Op * Res) :=
    flat_map (fun p => match p with Effect _ o r => [(o, r)] | _ => [] end) h.

  (** Returned results, and calls. *)
  Definition returns (h : list point) : list (Op * Res) :=
    flat_map (fun p => match p with Ret _ o r => [(o, r)] | _ => [] end) h.
  Definition calls_made (h : list point) : list Op :=
    flat_map (fun p => match p with Call _ o => [o] | _ => [] end) h.
  (** Calls of thread u. *)
  Definition invoked (u : nat) (h : list point) : list Op :=
    flat_map (fun p => match p with Call t o => if Nat.eqb t u then [o] else [] | _ => [] end) h.

  (** [obs] is linearizable for the sequential histories in [ok]. *)
  Definition linearization (ok : list (Op * Res) -> Prop) (obs h : list point) : Prop :=
    observed h = obs /\ (forall t, exists ph, thread_run (of_thread t h) ph) /\ ok (effects h).
End Lin.
Arguments point : clear implicits.
Arguments phase : clear implicits.
