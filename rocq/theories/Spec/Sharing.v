(** What it means that objects can be shared by threads. *)
From Coq Require Import List Bool PeanoNat.
From Verif Require Import Model.OnDemand.
Import ListNotations.

(** The threads in the order of their steps. *)
Inductive runs : list nat -> state -> state -> Prop :=
| runs_none s : runs [] s s
| runs_more turns s s' i s'' : runs turns s s' -> step i s' = Some s'' -> runs (turns ++ [i]) s s''.

(** The place an access is to, and whether it writes there. *)
Inductive place : Type := Member_of (o m : nat) | Plain_of (o f : nat).
Definition access (a : action) : option (place * bool) :=
  match a with
  | Lock _ | Unlock _ => None
  | Test o m | Copy o m => Some (Member_of o m, false)
  | Make o m | Put o m (Some _) => Some (Member_of o m, true)
  | Put o m None => None
  | Look o f => Some (Plain_of o f, false)
  | Change o f _ => Some (Plain_of o f, true)
  end.

(** A data race: two threads are about to access the same place, and one of them writes. *)
Definition race (s : state) : Prop :=
  exists i j t u a b r r' p x y,
    i <> j /\ nth_error (snd s) i = Some t /\ nth_error (snd s) j = Some u /\ todo t = a :: r /\ todo u = b :: r' /\
    access a = Some (p, x) /\ access b = Some (p, y) /\ (x = true \/ y = true).

(** Threads that call const functions only. *)
Definition is_const (c : call) : Prop := match c with Get _ _ | Has _ _ => True | _ => False end.
Definition only_const (p : list answer -> option call) : Prop := forall h c, p h = Some c -> is_const c.

(** At the start no thread has called anything, and no mutex is taken. *)
Definition fresh_start (w : memory) (programs : list (list answer -> option call)) (s : state) : Prop :=
  s = (w, map starts_with programs) /\ (forall o, lock w o = None).

(** The answer is what is now in the object. *)
Definition holds_now (w : memory) (c : call) (a : answer) : Prop :=
  match c with
  | Get o m => exists x, child w o m = Some x /\ a = Child (Some x)
  | Has o f => a = Value (plain w o f)
  | _ => False
  end.

(** What thread [i] can still do. *)
Definition finished (t : thread) : Prop := todo t = [] /\ calls t (got t) = None.

(** The children are different objects, made before now. *)
Definition own_children (w : memory) : Prop :=
  (forall o m x, child w o m = Some x -> x < next w) /\
  (forall o m o' m' x, child w o m = Some x -> child w o' m' = Some x -> o = o' /\ m = m').

(** Calls and answers one after another. *)
Inductive one_by_one : memory -> list (call * answer) -> memory -> Prop :=
| one_none w : one_by_one w [] w
| one_get w o m x l w' : child w o m = Some x -> one_by_one w l w' -> one_by_one w ((Get o m, Child (Some x)) :: l) w'
| one_make w o m l w' : child w o m = None ->
    one_by_one (mkMemory (lock w) (fun x y => if (x =? o) && (y =? m) then Some (next w) else child w x y) (plain w) (next w + 1)) l w' ->
    one_by_one w ((Get o m, Child (Some (next w))) :: l) w'
| one_has w o f l w' : one_by_one w l w' -> one_by_one w ((Has o f, Value (plain w o f)) :: l) w'
| one_set w o m x l w' : one_by_one (mkMemory (lock w) (fun y z => if (y =? o) && (z =? m) then Some x else child w y z) (plain w) (next w)) l w' ->
    one_by_one w ((Set_child o m (Some x), Nothing) :: l) w'
| one_null w o m l w' : one_by_one w l w' -> one_by_one w ((Set_child o m None, Nothing) :: l) w'
| one_change w o f v l w' : one_by_one (mkMemory (lock w) (child w) (fun y z => if (y =? o) && (z =? f) then v else plain w y z) (next w)) l w' ->
    one_by_one w ((Set_has o f v, Nothing) :: l) w'.

(** ** Examples *)
(** Nothing made yet; both threads ask for the member 3 of the object 0, the first of them then
    for a member of what it gets. *)
Definition nothing_made : memory := mkMemory (fun _ => None) (fun _ _ => None) (fun _ _ => 0) 1.
Definition asks_twice : list answer -> option call :=
  fun h => match h with [] => Some (Get 0 3) | [Child (Some x)] => Some (Get x 7) | _ => None end.
Definition asks_once : list answer -> option call := fun h => match h with [] => Some (Get 0 3) | _ => None end.
Definition sets_once : list answer -> option call := fun h => match h with [] => Some (Set_child 0 3 (Some 9)) | _ => None end.
