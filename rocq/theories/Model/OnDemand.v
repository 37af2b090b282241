(** Elements that make their children only when they are asked for, from several threads:
    Note, PartwiseMeasure, MusicDataChoice, FullNoteGroup and FullNoteTypeChoice.

    The memory of the program is seen one access at a time, and threads take turns at any of
    them. Objects, members and plain members are numbered; a child is the number of an object. *)
From Coq Require Import List Bool PeanoNat.
Import ListNotations.

(** The accesses. utility/Lock.h:15-17 (the std::lock_guard of MX_LOCK and its end),
    utility/JitAllocate.h:7-17 (the test of the member and, if it is null, the new one), the
    return of a copy of the member, the reading of a member that is not mutable, and the two
    assignments of the set functions. *)
Inductive action : Type :=
| Lock (o : nat) | Test (o m : nat) | Make (o m : nat) | Copy (o m : nat) | Unlock (o : nat)
| Look (o f : nat) | Put (o m : nat) (c : option nat) | Change (o f v : nat).

(** The functions called: the get functions of mutable members, other const functions such as
    getHasType, and the set functions. A null pointer is None. *)
Inductive call : Type :=
| Get (o m : nat) | Has (o f : nat) | Set_child (o m : nat) (c : option nat) | Set_has (o f v : nat).

(** Note.cpp:177-182,194-199,211-216,240-245,257-262,326-331,355-360,384-389,413-418,442-447,471-476,623-628,
    PartwiseMeasure.cpp:76-81, MusicDataChoice.cpp:132-341, FullNoteGroup.cpp:86-91,
    FullNoteTypeChoice.cpp:84-89,101-106,118-123. The lock is given back when the copy that is
    returned has been made. Plain members: Note.cpp:228-231,274-277; the set functions:
    Note.cpp:185-191,219-225,234-237. *)
Definition code (c : call) : list action :=
  match c with
  | Get o m => [Lock o; Test o m; Copy o m; Unlock o]
  | Has o f => [Look o f]
  | Set_child o m c => [Put o m c]
  | Set_has o f v => [Change o f v]
  end.

(** What a call returns. *)
Inductive answer : Type := Child (c : option nat) | Value (v : nat) | Nothing.

(** Which thread has the mutex of an object, the children, the plain members, and the number of
    the next object to be made. *)
Record memory := mkMemory { lock : nat -> option nat; child : nat -> nat -> option nat; plain : nat -> nat -> nat; next : nat }.

(** A thread: what it calls next, after the answers it has; the accesses left of the present
    call; the answers. *)
Record thread := mkThread { calls : list answer -> option call; todo : list action; got : list answer }.

Definition state : Type := memory * list thread.

Definition upd {V} (f : nat -> V) (k : nat) (v : V) : nat -> V := fun x => if x =? k then v else f x.
Definition upd2 {V} (f : nat -> nat -> V) (k l : nat) (v : V) : nat -> nat -> V := fun x y => if (x =? k) && (y =? l) then v else f x y.

(** One access of the thread [i]; None: it waits for the mutex. *)
Definition perform (i : nat) (a : action) (w : memory) : option (memory * list action * list answer) :=
  match a with
  | Lock o => match lock w o with None => Some (mkMemory (upd (lock w) o (Some i)) (child w) (plain w) (next w), [], []) | Some _ => None end
  | Test o m => Some (w, match child w o m with None => [Make o m] | Some _ => [] end, [])
  | Make o m => Some (mkMemory (lock w) (upd2 (child w) o m (Some (next w))) (plain w) (S (next w)), [], [])
  | Copy o m => Some (w, [], [Child (child w o m)])
  | Unlock o => Some (mkMemory (upd (lock w) o None) (child w) (plain w) (next w), [], [])
  | Look o f => Some (w, [], [Value (plain w o f)])
  | Put o m c => Some (match c with None => w | Some _ => mkMemory (lock w) (upd2 (child w) o m c) (plain w) (next w) end, [], [Nothing])
  | Change o f v => Some (mkMemory (lock w) (child w) (upd2 (plain w) o f v) (next w), [], [Nothing])
  end.

Fixpoint replace {A} (l : list A) (i : nat) (a : A) : list A :=
  match l, i with
  | [], _ => []
  | _ :: r, O => a :: r
  | b :: r, S i' => b :: replace r i' a
  end.

(** A step of the thread [i]: the next call, or the next access of the present one. *)
Definition step (i : nat) (s : state) : option state :=
  let (w, l) := s in
  match nth_error l i with
  | None => None
  | Some t =>
      match todo t with
      | [] => match calls t (got t) with None => None | Some c => Some (w, replace l i (mkThread (calls t) (code c) (got t))) end
      | a :: r =>
          match perform i a w with
          | None => None
          | Some (w', more, answers) => Some (w', replace l i (mkThread (calls t) (more ++ r) (got t ++ answers)))
          end
      end
  end.

(** A new thread. *)
Definition starts_with (p : list answer -> option call) : thread := mkThread p [] [].
