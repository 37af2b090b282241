(* C54: new systems, new pages and the layout from a measure on. *)
From Coq Require Import List Ascii String Bool ZArith QArith.
From Verif Require Import Model.Base Model.Text Model.Strings Model.LongDouble Model.Decimals Model.CoreEnums Model.ApiEnums
  Spec.Attachments Model.Layout Spec.Layouts Proofs.LayoutProofs.
Import ListNotations.
Open Scope Z_scope.

(** The claim: the entries of a score's layout, each for a measure of the score and
    saying something, come back at their measures, with their numbers as they are stored.
    [l] is what else the measures of the first part hold before and after their prints. *)
Definition C54_claim : Prop := forall m l, by_index m ->
  Forall (fun e => 0 <= fst e < Z.of_nat (List.length l) /\ every_in_layout storable (snd e) /\ layout_says (snd e) = true) m ->
  Forall (fun p => no_print (fst p) /\ no_print (snd p)) l ->
  exists xs, writeMeasures m 0 l = Ok xs /\ readLayout [xs] = map (fun e => (fst e, rounded_layout (snd e))) m.

(** Finding: the staff distance of a measure is not written. *)
Theorem C54_refuted : ~ C54_claim.
Proof. exact prints_refuted. Qed.
Print Assumptions C54_refuted.

(** What comes back of any layout, whatever the other parts hold. Entries of no measure
    of the score and entries that say nothing are gone. *)
Theorem C54_layout_partial : forall m l rest, by_index m -> Forall (fun e => every_in_layout storable (snd e)) m ->
  Forall (fun p => no_print (fst p) /\ no_print (snd p)) l ->
  exists xs, writeMeasures m 0 l = Ok xs /\ readLayout (xs :: rest) = kept_layouts (List.length l) m.
Proof. exact prints_back. Qed.
Print Assumptions C54_layout_partial.

(** The claim holds without staff distances, where page margins are not negative and come
    with a page size, and page numbers are tokens. *)
Theorem C54_plain_partial : forall m l rest, by_index m ->
  Forall (fun e => 0 <= fst e < Z.of_nat (List.length l) /\ every_in_layout storable (snd e) /\ plain_layout (snd e)) m ->
  Forall (fun p => no_print (fst p) /\ no_print (snd p)) l ->
  exists xs, writeMeasures m 0 l = Ok xs /\ readLayout (xs :: rest) = map (fun e => (fst e, rounded_layout (snd e))) m.
Proof.
  exact (fun m l rest B P F =>
    match prints_back m l rest B (Forall_impl _ (fun e H => proj1 (proj2 H)) P) F with
    | ex_intro _ xs (conj E R) => ex_intro _ xs (conj E (eq_trans R (plain_layouts_kept _ m P)))
    end).
Qed.
Print Assumptions C54_plain_partial.

(** Each measure is given one print if its entry says something, and none if not;
    everything else it holds stays where it is. *)
Theorem C54_written : forall m l i, (forall k x, find_layout k m = Some x -> every_in_layout storable x) ->
  Forall (fun p => no_print (fst p) /\ no_print (snd p)) l ->
  exists xs, writeMeasures m i l = Ok xs /\ List.length xs = List.length l /\
    (forall n x, nth_error xs n = Some x ->
       exists before prints after, nth_error l n = Some (before, after) /\ x = (before ++ prints) ++ after /\
         measure_prints (find_layout (i + Z.of_nat n) m) prints).
Proof. exact measures_written. Qed.
Print Assumptions C54_written.

(** From any document: the layout of a measure is what the last of its prints in the
    first part that say something say. *)
Theorem C54_read : forall topPart rest,
  by_index (readLayout (topPart :: rest)) /\
  (forall i, find_layout i (readLayout (topPart :: rest)) = match measure_at i topPart with Some measure => layout_in measure | None => None end).
Proof. exact read_any. Qed.
Print Assumptions C54_read.

Theorem C54_read_empty : readLayout [] = [].
Proof. exact eq_refl. Qed.
Print Assumptions C54_read_empty.

(** Three measures; a new system in the second, a new page with a page number and a new
    page size in the third. *)
Example C54_meets :
  let m := [(1, mkLayout (mkSystem api_Bool_yes (mkSystemLayout (Some (mkLeftRight (inject_Z 5) (inject_Z 0))) None None None)) noPage);
            (2, mkLayout noSystem (mkPage api_Bool_yes (mkPageLayout (Some (mkSize (inject_Z 1600) (inject_Z 1200))) noPageMargins) (Some (lit "xii"))))] in
  let l := [([OtherData], []); ([], [OtherData; OtherData]); ([], [])] in
  by_index m /\ Forall (fun e => 0 <= fst e < Z.of_nat (List.length l) /\ every_in_layout storable (snd e) /\ plain_layout (snd e)) m /\
  Forall (fun p => no_print (fst p) /\ no_print (snd p)) l.
Proof.
  split; [ | split].
  - apply by_index_cons. split; [apply by_index_cons; split; constructor | ]. apply Forall_cons; [reflexivity | apply Forall_nil].
  - apply Forall_cons; [ | apply Forall_cons; [ | apply Forall_nil]]; (split; [split; [discriminate | reflexivity] | split]).
    + split; [split; [split; apply storable_int; reflexivity | split; [exact I | split; exact I]] | split; [exact I | split; exact I]].
    + split; [reflexivity | split; [reflexivity | split; [ | exact I]]]. split; [intros _; split; reflexivity | split; exact I].
    + split; [split; [exact I | split; [exact I | split; exact I]] | split; [split; apply storable_int; reflexivity | split; exact I]].
    + split; [reflexivity | split; [reflexivity | split; [ | vm_compute; reflexivity]]]. split; [intros H; discriminate H | split; exact I].
  - apply Forall_cons; [ | apply Forall_cons; [ | apply Forall_cons; [ | apply Forall_nil]]]; cbn [fst snd];
      split; repeat apply Forall_cons; try apply Forall_nil; reflexivity.
Qed.
