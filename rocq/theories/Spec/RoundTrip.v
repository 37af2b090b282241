(** Measures that come back as they were written. *)
From Coq Require Import List ZArith Bool Sorting.Sorted.
From Verif Require Import Model.Base Model.MeasureTypes Model.MeasureWriter Model.MeasureReader Spec.Numerals Spec.Measures Spec.Voices.
Import ListNotations.
Open Scope Z_scope.

(** The writer and the reader are at the same measure of the same part: the number of
    staves, the ticks per quarter note and the index agree, and the measure is the first
    one or an earlier one has already told the reader the divisions. *)
Definition agree (wc : wctx) (rc : rctx) : Prop :=
  wc_numStaves wc = Z.of_nat (rc_numStaves rc) /\ 1 <= wc_numStaves wc <= 2147483647 /\
  wc_ticksPerQuarter wc = rc_global rc /\ 1 <= rc_global rc <= 2147483647 /\
  wc_measureIndex wc = rc_measureIndex rc /\
  (wc_isFirst wc = true \/ rc_current rc = rc_global rc).

(** Values that fit in an int, and tempos that can be written. *)
Definition direction_in_range (d : DirectionData) : Prop :=
  0 <= d_tick d <= 2147483647 /\ Forall (fun t => t_bpm t = true) (d_tempos d).

Definition voice_in_range (v : Z * list NoteData) : Prop :=
  0 <= fst v < 2147483647 /\ Forall note_in_range (snd v).

Definition staff_in_range (st : StaffData) : Prop :=
  Forall voice_in_range (s_voices st) /\ Forall direction_in_range (s_directions st).

Definition measure_in_range (wc : wctx) (m : MeasureData) : Prop :=
  Z.of_nat (List.length (m_staves m)) = wc_numStaves wc /\ Forall staff_in_range (m_staves m) /\
  is_int (ts_beats (m_time m)) /\ is_int (ts_beatType (m_time m)) /\
  Z.of_nat (List.length (flat_map snd (flat_map s_voices (m_staves m)))) <= 2147483647.

(** ** Voices *)

Definition following_of (rest : list NoteData) : option NoteData := match rest with q :: _ => Some q | [] => None end.

(** A note has the chord flag exactly if it shares its chord with a neighbour; [p] is
    the note before. *)
Fixpoint flags_honest (p : option NoteData) (notes : list NoteData) : Prop :=
  match notes with
  | [] => True
  | n :: rest =>
      (n_chord n = true -> (exists q, p = Some q /\ joined q n = true) \/ (exists q, following_of rest = Some q /\ joined n q = true)) /\
      flags_honest (Some n) rest
  end.

(** The notes of a voice follow each other: a note starts where the one before ends or
    later, or belongs to the same chord. *)
Definition follows (a b : NoteData) : Prop := joined a b = true \/ n_tick a + n_dur a <= n_tick b.

Definition voice_in_order (notes : list NoteData) : Prop :=
  notes <> [] /\ neighbours follows notes /\ flags_honest None notes.

Definition voice_start (notes : list NoteData) : Z := match notes with n :: _ => n_tick n | [] => 0 end.
Definition voice_stop (notes : list NoteData) : Z := match rev notes with n :: _ => n_tick n + n_dur n | [] => 0 end.

(** Each further voice of a staff starts before the one before it has ended. *)
Definition goes_back (v w : Z * list NoteData) : Prop := voice_start (snd w) < voice_stop (snd v).

Definition staff_in_order (st : StaffData) : Prop :=
  Forall (fun v => voice_in_order (snd v)) (s_voices st) /\ neighbours goes_back (s_voices st) /\ ascending (s_voices st).

(** The note with another requested voice number. *)
Definition with_voice (k : Z) (n : NoteData) : NoteData := mkNote (n_tick n) (n_dur n) (n_chord n) (n_type n) k (n_rest n).

(** All voices ask for the number they have (counted from 1). *)
Definition asking (vs : list (Z * list NoteData)) : list (Z * list NoteData) :=
  map (fun v => (fst v, map (with_voice (fst v + 1)) (snd v))) vs.

(** A note without its chord flag and requested voice. *)
Definition note_time (n : NoteData) : Z * Z * note_type * Z := (n_tick n, n_dur n, n_type n, n_rest n).

(** Members of a chord are followed, at the same time, by members only. *)
Definition chords_closed (st : StaffData) : Prop := Forall (fun v => neighbours chord_closed (snd v)) (s_voices st).
