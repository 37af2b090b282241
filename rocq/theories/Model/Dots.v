(** include/mx/api/DurationData.h: note lengths and dots; NoteWriter::findNormalNameAndDots. *)
From Coq Require Import List ZArith QArith Qabs Bool.
From Verif Require Import Model.LongDouble.
Import ListNotations.
Open Scope Q_scope.

(** DurationName, include/mx/api/DurationData.h:13-33, without unspecified. *)
Inductive duration_name :=
| Maxima | Longa | Breve | Whole | Half | Quarter | Eighth | Dur16th | Dur32nd | Dur64th
| Dur128th | Dur256th | Dur512th | Dur1024th.

(** DUR_QUARTERS_VALUE_*, include/mx/api/DurationData.h:36-49. The divisions are exact. *)
Definition dur_quarters (n : duration_name) : Q :=
  match n with
  | Maxima => 32 | Longa => 16 | Breve => 8 | Whole => 4 | Half => 2 | Quarter => 1
  | Eighth => 1 # 2 | Dur16th => 1 # 4 | Dur32nd => 1 # 8 | Dur64th => 1 # 16
  | Dur128th => 1 # 32 | Dur256th => 1 # 64 | Dur512th => 1 # 128 | Dur1024th => 1 # 256
  end.

(** applyDots, include/mx/api/DurationData.h:51-63. *)
Fixpoint dots_loop (n : nat) (outValue valueToAdd : Q) : Q :=
  match n with
  | O => outValue
  | S m => dots_loop m (ld (outValue + valueToAdd)) (ld (valueToAdd / (1 # 2)))
  end.

Definition applyDots (undotted : Q) (n : nat) : Q := dots_loop n undotted (ld (undotted / (1 # 2))).

(** The lambda equals, impl/NoteWriter.cpp:477-480. *)
Definition ticks_equal (a b : Q) : bool := negb (Qle_bool (dbl (1 # 10000)) (Qabs (ld (a - b)))).

(** The lambda isMatch, impl/NoteWriter.cpp:482-492. *)
Definition dots_match (ticksPerQuarter : Z) (length : Q) (n : duration_name) (dots : nat) : bool :=
  ticks_equal (applyDots (ld (dur_quarters n * inject_Z ticksPerQuarter)) dots) length.

(** The order of the comparisons, impl/NoteWriter.cpp:497-552. *)
Definition names_tried : list duration_name :=
  [Quarter; Eighth; Dur16th; Maxima; Longa; Breve; Whole; Half; Dur32nd; Dur64th; Dur128th;
   Dur256th; Dur512th; Dur1024th].

(** findNormalNameAndDots, impl/NoteWriter.cpp:474-556. *)
Fixpoint find_dots (ticksPerQuarter : Z) (length : Q) (l : list nat) : option (duration_name * nat) :=
  match l with
  | [] => None
  | dots :: r =>
      match find (fun n => dots_match ticksPerQuarter length n dots) names_tried with
      | Some n => Some (n, dots)
      | None => find_dots ticksPerQuarter length r
      end
  end.

Definition findNormalNameAndDots (ticksPerQuarter : Z) (length : Q) : option (duration_name * nat) :=
  find_dots ticksPerQuarter length [0%nat; 1%nat; 2%nat; 3%nat].
