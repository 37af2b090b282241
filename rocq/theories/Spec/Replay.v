(** The timing rules of MusicXML. *)
From Coq Require Import List ZArith QArith Bool.
From Verif Require Import Model.Text Model.MeasureTypes Spec.Measures Spec.Voices.
Import ListNotations.
Open Scope Z_scope.

(** A note starts at the cursor, which then moves by its duration unless it is a grace
    note; but a note with a <chord> starts where the note before started and does not
    move the cursor. <backup> and <forward> move the cursor. [start]: where the note
    before started. The result is each note element with its start; [None] if a backup
    goes before the start of the measure. *)
Fixpoint replay (cursor start : Q) (l : list music_data) : option (list (Q * xnote)) :=
  match l with
  | [] => Some []
  | MNote x :: r =>
      if xn_chord x then option_map (cons (start, x)) (replay cursor start r)
      else option_map (cons (cursor, x)) (replay (match xn_type x with GraceNote => cursor | _ => (cursor + xn_duration x)%Q end) cursor r)
  | MBackup d :: r => if Qle_bool d cursor then replay (cursor - d)%Q start r else None
  | MForward d :: r => replay (cursor + d)%Q start r
  | _ :: r => replay cursor start r
  end.

(** All notes of a measure with their staff (from 0) and voice. *)
Fixpoint all_notes (i : nat) (l : list StaffData) : list (nat * Z * NoteData) :=
  match l with
  | [] => []
  | st :: r => flat_map (fun v => map (fun n => (i, fst v, n)) (snd v)) (s_voices st) ++ all_notes (S i) r
  end.

(** The element stands for the note, and starts when it does. *)
Definition stands_for (a : nat * Z * NoteData) (b : Q * xnote) : Prop :=
  let (iv, n) := a in let (i, v) := iv in let (t, x) := b in
  (t == inject_Z (n_tick n))%Q /\ xn_type x = n_type n /\ xn_rest x = n_rest n /\ staff_of x = i /\ xn_voice x = Some (print_int (v + 1)) /\
  (n_type n <> GraceNote -> (xn_duration x == inject_Z (n_dur n))%Q).

(** Notes take time, grace notes excepted, and the notes of a chord take the same. *)
Definition takes_time (n : NoteData) : Prop := n_type n = GraceNote \/ 1 <= n_dur n.
Definition same_length (a b : NoteData) : Prop := joined a b = true -> n_dur a = n_dur b.

Definition chords_even (st : StaffData) : Prop :=
  Forall (fun v => Forall takes_time (snd v) /\ neighbours same_length (snd v)) (s_voices st).
