(* C42: the kinds of fermata. *)
From Coq Require Import List Ascii String Bool ZArith QArith.
From Verif Require Import Model.Base Model.Text Model.LongDouble Model.EnumLookup Model.ApiEnums Model.MarkData Spec.MarkGroups.
From Verif Require Import Model.Notations Spec.Attachments Proofs.MarksProofs Proofs.TupletReading.
Import ListNotations.
Open Scope Z_scope.

(** Whatever else is attached to the note, the fermatas read back are those written, each
    of its kind and in their order. Finding: their position and print data are gone. *)
Theorem C42_kinds : forall ties isTieStop isTieStart tick ctx a, attachments_ok storable a ->
  exists s b, write_notations_set ties isTieStop isTieStart a = Ok s /\ parseNotations tick ctx s = Ok b /\
    filter is_fermata (marks b) =
    map (fun m => mkMark (m_type m) (fermata_shape (m_type m)) tick 0 noPosition) (filter is_fermata (marks a)).
Proof. exact fermatas_back. Qed.
Print Assumptions C42_kinds.

(** Two fermatas among other marks, one with a position. *)
Example C42_meets :
  let p := mkPosition (Some (-5 # 2)) None None None api_HorizontalAlignment_unspecified api_VerticalAlignment_unspecified api_Placement_below in
  let a := mkAttachments [mkMark api_MarkType_fermataAngledInverted [] 0 0 p; mkMark api_MarkType_p [] 0 0 noPosition;
                          mkMark api_MarkType_fermata [] 0 0 noPosition] [] [] [] [] [] in
  attachments_ok storable a /\ map m_type (filter is_fermata (marks a)) = [api_MarkType_fermataAngledInverted; api_MarkType_fermata].
Proof.
  split; [ | reflexivity].
  split; [ | repeat (split; [constructor | ]); constructor].
  repeat (apply Forall_cons); try apply Forall_nil; (split; [ | split; [ | split]]); try exact I.
  split; [exists (-5)%Z, (-1)%Z; split; reflexivity | split; reflexivity].
Qed.

(** They are written: the element has the coordinates and the print data, but nowhere to put the
    placement and the alignments. *)
Theorem C42_written : forall m, position_ok storable (m_position m) ->
  exists x, write_fermata m = Ok x /\ xm_print x = m_print m /\ getPositionData (xm_position x) = kept_position false false (m_position m).
Proof. exact fermata_written. Qed.
Print Assumptions C42_written.
Example C42_written_meets : position_ok storable (mkPosition (Some (-5 # 2)) None None None api_HorizontalAlignment_unspecified api_VerticalAlignment_unspecified api_Placement_below).
Proof. split; [split; [exists (-5)%Z, (-1)%Z; split; reflexivity | split; reflexivity] | repeat split]. Qed.
