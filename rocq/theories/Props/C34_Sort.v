(** C34: sorting a score. *)
From Coq Require Import List ZArith Bool Permutation Sorted.
From Verif Require Import Model.Base Model.Text Model.Ticks Model.MeasureTypes Model.ScoreData.
From Verif Require Import Spec.Numerals Spec.Sorting.
From Verif Require Import Proofs.SortProofs.
Import ListNotations.
Open Scope Z_scope.

(** The full claim: whichever of the sorts that the standard allows std::sort is, the
    score is sorted, has the same contents, and things at the same tick are not
    rearranged. *)
Definition C34_sort : Prop := forall S s, allowed S ->
  sorted_score (sort_score S s) /\ rearranged s (sort_score S s) /\ stable s (sort_score S s).

(** Everything but the last always holds. *)
Theorem C34_sorted_partial S s : allowed S -> sorted_score (sort_score S s) /\ rearranged s (sort_score S s).
Proof. exact (sort_sorted S s). Qed.

(** The last holds if no two clefs, directions or notes are at the same tick. *)
Theorem C34_stable_partial S s : allowed S -> distinct s -> stable s (sort_score S s).
Proof. exact (sort_stable S s). Qed.

(** Then the result does not depend on the sort either, *)
Theorem C34_determined S S' s : allowed S -> allowed S' -> distinct s -> sort_score S s = sort_score S' s.
Proof. exact (sort_determined S S' s). Qed.

(** and a sorted score is left as it is. *)
Theorem C34_unmoved S s : allowed S -> distinct s -> sorted_score s -> sort_score S s = s.
Proof. exact (sort_unmoved S s). Qed.

(** There are such sorts; one of them keeps the order of chords, the other does not. *)
Theorem C34_sorts : allowed insertion_sort /\ allowed turning_sort.
Proof. exact (conj insertion_allowed turning_allowed). Qed.

Example C34_score (l : list NoteData) : ScoreData :=
  mkScore [mkPart [] 0 [mkMeasure [mkStaff [mkClef 8 1; mkClef 0 2] [] [] [(0, l)]] default_time [] BoolUnspecified [] []]] 0.

Example C34_note (tick pitch : Z) : NoteData := mkNote tick 4 false NormalNote 0 pitch.

Example C34_distinct : distinct (C34_score [C34_note 4 60; C34_note 0 62]).
Proof. repeat (apply Forall_cons; [|apply Forall_nil]). repeat split; repeat constructor; cbn; intuition discriminate. Qed.

Example C34_holds :
  sort_score turning_sort (C34_score [C34_note 4 60; C34_note 0 62]) =
  mkScore [mkPart [] 0 [mkMeasure [mkStaff [mkClef 0 2; mkClef 8 1] [] [] [(0, [C34_note 0 62; C34_note 4 60])]]
                          default_time [] BoolUnspecified [] []]] 0.
Proof. reflexivity. Qed.

Theorem C34_sort_refuted : ~ C34_sort.
Proof.
  intros H. destruct (H turning_sort (C34_score [C34_note 0 60; C34_note 0 64]) turning_allowed) as (_ & _ & K).
  inversion K as [|? ? ? ? K1 _]; subst. inversion K1 as [|? ? ? ? K2 _]; subst. inversion K2 as [|? ? ? ? K3 _]; subst.
  destruct K3 as (_ & _ & K4). inversion K4 as [|? ? ? ? K5 _]; subst. specialize (K5 0). discriminate K5.
Qed.

Print Assumptions C34_sorted_partial.
Print Assumptions C34_stable_partial.
Print Assumptions C34_determined.
Print Assumptions C34_unmoved.
Print Assumptions C34_sorts.
Print Assumptions C34_sort_refuted.
