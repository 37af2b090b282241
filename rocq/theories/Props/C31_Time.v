(** C31: time signatures are inherited until changed. *)
From Coq Require Import String List ZArith QArith Bool.
From Verif Require Import Model.Base Model.Text Model.ApiEnums Model.MeasureTypes Model.MeasureWriter Model.MeasureReader.
From Verif Require Import Spec.Numerals Spec.TimeSignatures Spec.Written.
From Verif Require Import Proofs.MeasureTimes Proofs.WrittenProofs.
Import ListNotations.
Open Scope Z_scope.

(** Reading a part: each measure has the time signature it states, or else, flagged
    implicit, the one most recently stated before, 4/4 if there is none. What a measure
    states is its first <time> with plain numbers. *)
Theorem C31_reading_partial c l ms : read_measures c l = Ok ms -> rc_measureIndex c = 0 ->
  exists os, Forall2 (fun x o => states (xm_data x) o) l os /\ map m_time ms = inherit (mkTime 4 4 SymbolUnspecified BoolUnspecified true) os.
Proof. exact (read_times_start c l ms). Qed.

(** What a measure states is unique. *)
Theorem C31_states_unique items o o' : states items o -> states items o' -> o = o'.
Proof. exact (states_unique items o o'). Qed.

(** Writing and reading a part; the numbers are ints. *)
Theorem C31_writing prints wc rc l xs ms :
  write_measures prints wc l = Ok xs -> read_measures rc xs = Ok ms -> rc_measureIndex rc = 0 ->
  Forall (fun m => is_int (ts_beats (m_time m)) /\ is_int (ts_beatType (m_time m))) l ->
  map m_time ms = inherit (mkTime 4 4 SymbolUnspecified BoolUnspecified true) (map stated l).
Proof. exact (part_times_start prints wc rc l xs ms). Qed.

(** So a part whose implicit time signatures are the inherited ones keeps all of them. *)
Theorem C31_writing_preserves prints wc rc l xs ms :
  write_measures prints wc l = Ok xs -> read_measures rc xs = Ok ms -> rc_measureIndex rc = 0 ->
  Forall (fun m => is_int (ts_beats (m_time m)) /\ is_int (ts_beatType (m_time m))) l ->
  map m_time l = inherit (mkTime 4 4 SymbolUnspecified BoolUnspecified true) (map stated l) ->
  map m_time ms = map m_time l.
Proof. exact (part_times_kept prints wc rc l xs ms). Qed.

(** What is written: nothing for an implicit time signature, one <time> with nothing
    added or left out for another. *)
Theorem C31_written wc m x : write_measure wc m = Ok x ->
  (ts_implicit (m_time m) = true -> times_of (xm_data x) = []) /\
  (ts_implicit (m_time m) = false -> exists t, times_of (xm_data x) = [t] /\ written_time (m_time m) t).
Proof. exact (times_written wc m x). Qed.

Example C31_measure (t : TimeSignatureData) : MeasureData :=
  mkMeasure [mkStaff [] [] [] [(0, [mkNote 0 4 false NormalNote 0 60])]] t [] BoolUnspecified [] [].
Example C31_part : list MeasureData :=
  map C31_measure
    [mkTime 4 4 SymbolUnspecified BoolUnspecified true; mkTime 3 8 SymbolUnspecified BoolNo false; mkTime 3 8 SymbolUnspecified BoolNo true;
     mkTime 2 2 SymbolCut BoolYes false; mkTime 2 2 SymbolCut BoolYes true].

Example C31_writing_preserves_holds :
  map m_time C31_part = inherit (mkTime 4 4 SymbolUnspecified BoolUnspecified true) (map stated C31_part) /\
  exists xs ms, write_measures (fun _ => 0%nat) (mkWctx 1 4 0 true 0 None) C31_part = Ok xs /\
    read_measures (mkRctx 1 4 4 0 default_time) xs = Ok ms /\ map m_time ms = map m_time C31_part.
Proof.
  split; [vm_compute; reflexivity|]. eexists. eexists. split; [vm_compute; reflexivity|]. split; vm_compute; reflexivity.
Qed.

(** The full claims about reading. *)
Definition C31_most_recent : Prop := forall c x y m1 m2 e t,
  read_measures c [x; y] = Ok [m1; m2] -> rc_measureIndex c = 0 -> times_of (xm_data y) = [] ->
  (exists l, times_of (xm_data x) = l ++ [e]) -> says e t -> m_time m2 = implicit t.

Definition C31_implicit_when_not_given : Prop := forall c x m transpose current,
  read_measure c x = Ok (m, transpose, current) -> (ts_implicit (m_time m) = true <-> times_of (xm_data x) = []).

Example C31_time (beats beatType : string) : music_data :=
  MProperties (mkProps None [] [mkXTime (Some (lit beats, lit beatType)) None None] None [] []).

(** Of two changes in a measure the first is the one that is kept. *)
Theorem C31_most_recent_refuted : ~ C31_most_recent.
Proof.
  intros H. pose (x := mkXMeasure (lit "1"%string) None [C31_time "3"%string "4"%string; C31_time "2"%string "4"%string]).
  pose (y := mkXMeasure (lit "2"%string) None []).
  destruct (read_measures (mkRctx 1 4 4 0 default_time) [x; y]) as [ms| |] eqn:E; [|vm_compute in E; discriminate E|vm_compute in E; discriminate E].
  destruct ms as [|m1 [|m2 [|? ?]]]; try (vm_compute in E; discriminate E).
  specialize (H (mkRctx 1 4 4 0 default_time) x y m1 m2 (mkXTime (Some (lit "2"%string, lit "4"%string)) None None) (mkTime 2 4 SymbolUnspecified BoolUnspecified false) E eq_refl eq_refl).
  assert (m_time m2 = mkTime 3 4 SymbolUnspecified BoolUnspecified true) as T by (vm_compute in E; injection E as _ <-; vm_compute; reflexivity).
  rewrite T in H. specialize (H (ex_intro _ [mkXTime (Some (lit "3"%string, lit "4"%string)) None None] eq_refl)).
  assert (says (mkXTime (Some (lit "2"%string, lit "4"%string)) None None) (mkTime 2 4 SymbolUnspecified BoolUnspecified false)) as S
    by (repeat split; vm_compute; congruence).
  specialize (H S). vm_compute in H. discriminate H.
Qed.

(** A composite meter as 3+2/8 is not understood, so the measure counts as one without a
    time signature. *)
Theorem C31_implicit_when_not_given_refuted : ~ C31_implicit_when_not_given.
Proof.
  intros H. pose (x := mkXMeasure (lit "1"%string) None [C31_time "3+2"%string "8"%string]).
  destruct (read_measure (mkRctx 1 4 4 0 default_time) x) as [[[m tr] cur]| |] eqn:E; [|vm_compute in E; discriminate E|vm_compute in E; discriminate E].
  specialize (H _ _ _ _ _ E). vm_compute in E. injection E as <- _ _. destruct H as [H _]. specialize (H eq_refl). vm_compute in H. discriminate H.
Qed.

Example C31_written_holds : Forall (fun m => exists x, write_measure (mkWctx 1 4 0 true 0 None) m = Ok x) C31_part.
Proof. repeat constructor; eexists; vm_compute; reflexivity. Qed.

Print Assumptions C31_reading_partial.
Print Assumptions C31_states_unique.
Print Assumptions C31_writing.
Print Assumptions C31_writing_preserves.
Print Assumptions C31_most_recent_refuted.
Print Assumptions C31_implicit_when_not_given_refuted.
Print Assumptions C31_written.
