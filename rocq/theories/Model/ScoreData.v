(** api/ScoreData.cpp, api/MeasureLocation.cpp, the counts of include/mx/api/PartData.h. *)
From Coq Require Import List ZArith Bool.
From Verif Require Import Model.Base Model.Text Model.Ticks Model.MeasureTypes.
Import ListNotations.
Open Scope Z_scope.

(** api::PartData, PartData.h:94-177, and api::ScoreData, ScoreData.h:31-78: the measures;
    what else there is, is one opaque value. *)
Record PartData := mkPart { pd_id : str; pd_rest : Z; pd_measures : list MeasureData }.
Record ScoreData := mkScore { sd_parts : list PartData; sd_rest : Z }.

(** std::sort( begin, end, compare ). The standard leaves open which of the possible
    orders results, so a function for it is a parameter; see Spec/Sorting.v. *)
Definition sorter : Type := forall A : Type, (A -> A -> bool) -> list A -> list A.

(** The three comparisons of ScoreData::sort, ScoreData.cpp:72-75,79-82,88-91. *)
Definition clefCompare (l r : ClefData) : bool := c_tick l <? c_tick r.
Definition directionCompare (l r : DirectionData) : bool := d_tick l <? d_tick r.
Definition noteCompare (l r : NoteData) : bool := n_tick l <? n_tick r.

(** ScoreData::sort, ScoreData.cpp:63-98. *)
Definition sort_staff (S : sorter) (st : StaffData) : StaffData :=
  mkStaff (S ClefData clefCompare (s_clefs st)) (s_keys st) (S DirectionData directionCompare (s_directions st))
    (map (fun v => (fst v, S NoteData noteCompare (snd v))) (s_voices st)).

Definition sort_measure (S : sorter) (m : MeasureData) : MeasureData :=
  mkMeasure (map (sort_staff S) (m_staves m)) (m_time m) (m_number m) (m_implicit m) (m_keys m) (m_barlines m).

Definition sort_score (S : sorter) (s : ScoreData) : ScoreData :=
  mkScore (map (fun p => mkPart (pd_id p) (pd_rest p) (map (sort_measure S) (pd_measures p))) (sd_parts s)) (sd_rest s).

(** static_cast<int>( x.size() ): modulo 2^32. *)
Definition int_of_size (n : Z) : Z := (n + 2147483648) mod 4294967296 - 2147483648.
Definition size {A} (l : list A) : Z := Z.of_nat (List.length l).

(** The loop "if( temp > max ) max = temp". *)
Definition larger (temp m : Z) : Z := if m <? temp then temp else m.

(** ScoreData::getNumMeasures, ScoreData.cpp:34-49. *)
Definition getNumMeasures (s : ScoreData) : Z :=
  fold_left (fun m p => larger (int_of_size (size (pd_measures p))) m) (sd_parts s) 0.

(** PartData::getNumStaves, PartData.h:139-153. *)
Definition getNumStaves (p : PartData) : Z :=
  fold_left (fun m x => larger (int_of_size (size (m_staves x))) m) (pd_measures p) 0.

(** ScoreData::getNumStavesPerSystem, ScoreData.cpp:53-63: a sum of ints. *)
Definition getNumStavesPerSystem (s : ScoreData) : outcome Z :=
  fold_left (fun o p => obind o (fun n => as_int (n + getNumStaves p))) (sd_parts s) (Ok 0).

(** PartData::getMaxVoice, PartData.h:155-176. *)
Definition getMaxVoice (p : PartData) : Z :=
  fold_left (fun m x => fold_left (fun m st => fold_left (fun m v => larger (fst v) m) (s_voices st) m) (m_staves x) m)
    (pd_measures p) 0.

(** findPart, ScoreData.cpp:101-110: std::find_if. *)
Definition findPart (l : list PartData) (id : str) : option PartData := find (fun p => str_eqb id (pd_id p)) l.

(** static_cast<size_t>( i ) > n - 1 for i >= 0, with n of type size_t: n - 1 is the
    largest size_t for n = 0. *)
Definition beyond (i n : Z) : bool := (n - 1) mod 2 ^ 64 <? i.

(** std::vector::at. *)
Definition vector_at {A} (l : list A) (i : Z) : outcome A :=
  match nth_error l (Z.to_nat i) with Some x => Ok x | None => Throw end.

(** MeasureLocation, MeasureLocation.h:15-27, and isValid, MeasureLocation.cpp:21-49. *)
Record MeasureLocation := mkLocation { l_part : Z; l_staff : Z; l_measure : Z }.

Definition isValid (l : MeasureLocation) (s : ScoreData) : outcome bool :=
  if (l_part l <? 0) || (l_staff l <? 0) || (l_measure l <? 0) then Ok false
  else if beyond (l_part l) (size (sd_parts s)) then Ok false
  else obind (vector_at (sd_parts s) (l_part l)) (fun p =>
    if beyond (l_measure l) (size (pd_measures p)) then Ok false
    else obind (vector_at (pd_measures p) (l_measure l)) (fun m =>
      Ok (negb (beyond (l_staff l) (size (m_staves m)))))).
