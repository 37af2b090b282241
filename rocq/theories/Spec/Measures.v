(** Words for the contents of a measure. *)
From Coq Require Import List ZArith QArith Bool Sorting.Sorted.
From Verif Require Import Model.MeasureTypes.
Import ListNotations.
Open Scope Z_scope.

(** Two neighbours in a voice belong to one chord. *)
Definition joined (a b : NoteData) : bool := n_chord a && n_chord b && (n_tick a =? n_tick b).

(** [P] holds of each two neighbours of a list. *)
Fixpoint neighbours {A} (P : A -> A -> Prop) (l : list A) : Prop :=
  match l with
  | a :: (b :: _) as r => P a b /\ neighbours P r
  | _ => True
  end.

(** Times and lengths that fit in an int with room to spare; grace notes take no
    time. *)
Definition note_in_range (n : NoteData) : Prop :=
  0 <= n_tick n /\ 0 <= n_dur n /\ n_tick n + n_dur n <= 1073741823 /\ (n_type n = GraceNote -> n_dur n = 0).

(** A note flagged as member of a chord is followed, at the same time, by another member
    only. *)
Definition chord_closed (a b : NoteData) : Prop :=
  n_chord a = true -> n_tick a = n_tick b -> n_chord b = true \/ n_dur a = 0.

(** Durations are not negative, as the values of the elements are not. *)
Definition item_ok (x : music_data) : Prop :=
  match x with
  | MNote n => (0 <= xn_duration n)%Q
  | MBackup d | MForward d => (0 <= d)%Q
  | MProperties p => match p_divisions p with Some d => (0 <= d)%Q | None => True end
  | _ => True
  end.

(** The offset of a direction or chord symbol is not negative. *)
Definition offset_ok (x : music_data) : Prop :=
  match x with
  | MDirection d => match xd_offset d with Some q => (0 <= q)%Q | None => True end
  | MHarmony h => match xh_offset h with Some q => (0 <= q)%Q | None => True end
  | _ => True
  end.

(** No note of the staff is before the start of the measure or has a negative length, the
    notes of a voice are in order of time, and no clef is before the start. *)
Definition staff_in_time (st : StaffData) : Prop :=
  Forall (fun v => Forall (fun n => 0 <= n_tick n /\ 0 <= n_dur n) (snd v) /\ StronglySorted Z.le (map n_tick (snd v))) (s_voices st) /\
  Forall (fun c => 0 <= c_tick c) (s_clefs st).
