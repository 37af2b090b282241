(** C33: part groups survive writing and reading. *)
From Coq Require Import String List ZArith Bool Permutation Sorted.
From Verif Require Import Model.Base Model.Text Model.ApiEnums Model.CoreEnums Model.Strings Model.ScoreData Model.PartGroups.
From Verif Require Import Spec.Sorting Spec.Groups.
From Verif Require Import Proofs.SortProofs Proofs.GroupProofs Proofs.GroupReads.
Import ListNotations.
Open Scope Z_scope.

(** The full claim: groups with distinct numbers while they are open come back with the
    same first and last part, number, name and bracket. *)
Definition C33_groups : Prop := forall S S' count l, allowed S -> allowed S' ->
  Forall (fun g => within count g /\ g_number g <= int_max /\ g_bracket g <> None) l -> distinctly_numbered l ->
  exists x l', write_groups S count l = Ok x /\ read_groups S' x = Ok l' /\ Permutation (map five l') (map five l).

(** It holds for groups with a specified bracket and without a number below -1, even for
    groups with the same number that are properly nested. *)
Theorem C33_groups_partial S S' count l : allowed S -> allowed S' ->
  Forall (fun g => within count g /\ -1 <= g_number g <= int_max /\ g_bracket g <> None /\ g_bracket g <> Some api_BracketType_unspecified) l ->
  ForallOrdPairs distinguishable l ->
  exists x l', write_groups S count l = Ok x /\ read_groups S' x = Ok l' /\ Permutation (map five l') (map five l).
Proof. exact (groups_five S S' count l). Qed.

(** What is kept in general: a bracket that is not specified becomes an indeterminate
    value, a negative number becomes -1, and the other texts are lost. The groups come in
    the order of their first parts and numbers. *)
Theorem C33_in_general_partial S S' count l : allowed S -> allowed S' -> proper_groups count l ->
  exists x l', write_groups S count l = Ok x /\ read_groups S' x = Ok l' /\
    Permutation l' (map kept_group l) /\ StronglySorted group_le l'.
Proof. exact (groups_back S S' count l). Qed.

Theorem C33_distinct l : distinctly_numbered l -> ForallOrdPairs distinguishable l.
Proof. exact (distinct_distinguishable l). Qed.

(** With distinct numbers the result does not depend on how std::sort works. *)
Theorem C33_determined S S' S1 S1' count l : allowed S -> allowed S' -> allowed S1 -> allowed S1' ->
  proper_groups count l -> distinctly_numbered l ->
  obind (write_groups S count l) (read_groups S') = obind (write_groups S1 count l) (read_groups S1').
Proof. exact (groups_determined S S' S1 S1' count l). Qed.

(** The groups that end with the same part are closed in descending order of their
    numbers, and all parts are written. *)
Theorem C33_stops S count l x : allowed S -> write_groups S count l = Ok x -> Sorted stops_descend (pl_after x).
Proof. exact (stops_in_order S count l x). Qed.
Theorem C33_parts S count l x : write_groups S (Datatypes.S count) l = Ok x -> count_parts (pl_after x) = count.
Proof. exact (groups_counted S count l x). Qed.

(** What is written: for each part group there is a group it stands for, with that group's
    number unless it is negative, and its name unless that is empty. *)
Theorem C33_written S count l x : allowed S -> write_groups S count l = Ok x ->
  Forall (fun p => exists g, In g l /\ (start_of g p \/ stop_of g p)) (groups_of x).
Proof. exact (groups_written S count l x). Qed.

(** A file with a start whose number is none is not read. *)
Theorem C33_bad_number S x g t : In g (groups_of x) -> xg_start g = true -> xg_number g = Some t -> stringToInt t = Ok None ->
  forall l, read_groups S x <> Ok l.
Proof. exact (bad_number S x g t). Qed.

(** What is read from any file, whoever wrote it. A start opens a group before the next
    part, with the name, abbreviation, bracket and number it gives. A stop closes the
    latest open group with its number, or the latest one if no open group has it, after
    the previous part; if no group is open it is ignored. What is left open is lost. *)
Theorem C33_read S x : allowed S ->
  (forall l, read_groups S x = Ok l -> exists f, gives 0 [] (items_of x) f /\ Permutation l f /\ StronglySorted group_le l) /\
  (forall f, gives 0 [] (items_of x) f -> exists l, read_groups S x = Ok l /\ Permutation l f /\ StronglySorted group_le l).
Proof. exact (groups_read S x). Qed.

Example C33_odd_file : part_list :=
  mkPartList [mkXGroup false None None None None; mkXGroup true (Some (lit "2"%string)) (Some (lit "a"%string)) (Some (lit "b"%string)) (Some GroupSymbolValue_line);
              mkXGroup true None None None None]
    [ScorePart; PartGroup (mkXGroup false (Some (lit "7"%string)) None None None); ScorePart; PartGroup (mkXGroup false (Some (lit "2"%string)) None None None);
     PartGroup (mkXGroup true None None None None)].
Example C33_odd_read : read_groups insertion_sort C33_odd_file =
  Ok [mkGroup 0 1 [] [] [] [] None (-1); mkGroup 0 2 (lit "a"%string) [] (lit "b"%string) [] (Some api_BracketType_line) 2].
Proof. vm_compute. reflexivity. Qed.

Example C33_group (first last number : Z) (name : string) : PartGroupData :=
  mkGroup first last (lit name) [] [] [] (Some api_BracketType_brace) number.
Example C33_some : list PartGroupData :=
  [C33_group 1 3 2 "strings"; C33_group 0 2 1 ""; C33_group 3 3 1 "bass"; C33_group 0 3 (-1) "all"; C33_group 1 1 (-1) "in"]%string.

Example C33_some_proper : proper_groups 4 C33_some.
Proof.
  split.
  - repeat (apply Forall_cons; [split; [split; [split|]|split]; vm_compute; congruence|]). apply Forall_nil.
  - repeat (apply FOP_cons || apply FOP_nil || apply Forall_cons || apply Forall_nil);
      unfold distinguishable, same_number, apart, inside; vm_compute; intuition congruence.
Qed.

Example C33_holds : obind (write_groups insertion_sort 4 C33_some) (read_groups turning_sort) =
  Ok [C33_group 0 3 (-1) "all"; C33_group 0 2 1 ""; C33_group 1 1 (-1) "in"; C33_group 1 3 2 "strings"; C33_group 3 3 1 "bass"]%string.
Proof. vm_compute. reflexivity. Qed.

Example C33_written_some : exists x, write_groups insertion_sort 4 C33_some = Ok x /\ List.length (groups_of x) = 10%nat.
Proof. eexists. split; vm_compute; reflexivity. Qed.
Example C33_bad_some : stringToInt (lit "a"%string) = Ok None.
Proof. vm_compute. reflexivity. Qed.

Theorem C33_groups_refuted : ~ C33_groups.
Proof.
  intros H. destruct (H insertion_sort insertion_sort 1%nat [mkGroup 0 0 [] [] [] [] (Some api_BracketType_unspecified) 1]) as (x & l' & H1 & H2 & H3);
    try exact insertion_allowed.
  - repeat constructor; cbn; discriminate.
  - repeat constructor.
  - vm_compute in H1. injection H1 as <-. vm_compute in H2. injection H2 as <-. apply Permutation_length_1_inv in H3. discriminate H3.
Qed.

Print Assumptions C33_groups_partial.
Print Assumptions C33_in_general_partial.
Print Assumptions C33_distinct.
Print Assumptions C33_determined.
Print Assumptions C33_stops.
Print Assumptions C33_parts.
Print Assumptions C33_groups_refuted.
Print Assumptions C33_written.
Print Assumptions C33_bad_number.
Print Assumptions C33_read.
