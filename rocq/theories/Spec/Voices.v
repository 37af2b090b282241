(** Runs of notes between backups, and the numbers of voices. *)
From Coq Require Import List ZArith Bool Sorting.Permutation Sorting.Sorted.
From Verif Require Import Model.Base Model.MeasureTypes Spec.Numerals.
Import ListNotations.
Open Scope Z_scope.

(** The non-empty runs of a list cut at each [None]; [cur] is the run at the start. *)
Definition closed {A} (cur : list A) : list (list A) := match cur with [] => [] | _ => [cur] end.

Fixpoint cut {A} (cur : list A) (l : list (option A)) : list (list A) :=
  match l with
  | [] => closed cur
  | None :: r => closed cur ++ cut [] r
  | Some a :: r => cut (cur ++ [a]) r
  end.

(** The staff (from 0) of a note element. *)
Definition staff_of (x : xnote) : nat := match xn_staff x with Some k => Z.to_nat (k - 1) | None => 0%nat end.

(** The notes of staff [i] of a measure, with [None] for each backup. *)
Definition notes_and_backups (i : nat) (items : list music_data) : list (option xnote) :=
  flat_map (fun x => match x with
                     | MBackup _ => [None]
                     | MNote n => if Nat.eqb (staff_of n) i then [Some n] else []
                     | _ => []
                     end) items.

Definition runs (i : nat) (items : list music_data) : list (list xnote) := cut [] (notes_and_backups i items).

(** The number a note element asks for: that of its <voice>, -1 if it has none or one that
    is not an int in its usual form. *)
Definition voice_asked (x : xnote) (v : Z) : Prop :=
  match xn_voice x with
  | None => v = -1
  | Some t => (canonical_int t v /\ is_int v) \/ (v = -1 /\ forall n, canonical_int t n -> ~ is_int n)
  end.

(** A note of the API holds what the element says. *)
Definition taken_from (x : xnote) (n : NoteData) : Prop :=
  n_type n = xn_type x /\ n_rest n = xn_rest x /\ voice_asked x (n_voice n).

(** All notes of a voice ask for number [k] (from 1). *)
Definition asks (v : list NoteData) (k : Z) : Prop := v <> [] /\ 1 <= k /\ Forall (fun n => n_voice n = k) v.

(** The voices ask for distinct numbers. *)
Definition ask_distinct (vs : list (list NoteData)) (ks : list Z) : Prop := Forall2 asks vs ks /\ NoDup ks.

Definition ascending (vs : list (Z * list NoteData)) : Prop := StronglySorted Z.lt (map fst vs).

(** 0, 1, ... *)
Definition counted (vs : list (list NoteData)) : list (Z * list NoteData) :=
  combine (map Z.of_nat (seq 0 (List.length vs))) vs.

(** What becomes of the runs [vs] of a staff: each keeps its notes; if all of them ask
    for distinct numbers they get those (less 1), else they are numbered from 0. *)
Definition numbered (vs : list (list NoteData)) (out : list (Z * list NoteData)) : Prop :=
  (exists ks, ask_distinct vs ks /\ Permutation out (combine (map Z.pred ks) vs) /\ ascending out) \/
  (~ (exists ks, ask_distinct vs ks) /\ out = counted vs).
