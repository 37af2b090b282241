(* C41: the families of marks. *)
From Coq Require Import List Ascii String Bool ZArith QArith.
From Verif Require Import Model.Base Model.Text Model.LongDouble Model.EnumLookup Model.ApiEnums Model.MarkData Spec.MarkGroups.
From Verif Require Import Model.Notations Spec.Attachments Proofs.MarksProofs.
Import ListNotations.
Open Scope Z_scope.

(** The sections of MarkData.h are a partition of the marks. *)
Theorem C41_partition : forall m, List.length (filter (fun s => s m) sections) = 1%nat.
Proof. exact partition. Qed.
Print Assumptions C41_partition.

(** The predicates of the API say yes exactly for the marks of their section, the marks
    called unknown left out. Finding: isMarkOrnament also says yes for unknownOrnament. *)
Theorem C41_predicates : forall m,
  isMarkArticulation m = articulation_section m /\ isMarkDynamic m = dynamics_section m /\
  isMarkOrnament m = (ornament_section m || match m with api_MarkType_unknownOrnament => true | _ => false end) /\
  isMarkTechnical m = technical_section m /\ isMarkFermata m = fermata_section m /\
  isMarkPedal m = pedal_section m /\ isMarkArpeggiate m = arpeggiate_section m /\
  isMarkNonArpeggiate m = match m with api_MarkType_nonArpeggiate => true | _ => false end /\
  isMarkCustom m = match m with api_MarkType_customAccentTenuto => true | _ => false end /\
  isMarkTremolo m = starts_with (lit "tremolo"%string) (api_MarkType_name m).
Proof. exact predicates_sections. Qed.
Print Assumptions C41_predicates.

(** No mark is in two families. *)
Theorem C41_exclusive : forall m, (List.length (filter (fun f => f m) predicates) <= 1)%nat.
Proof. exact predicates_exclusive. Qed.
Print Assumptions C41_exclusive.

(** A tremolo has the number of slashes in its name. *)
Theorem C41_tremolo_slashes : forall m,
  (isMarkTremolo m = true -> In (api_MarkType_name m, numTremoloSlashes m) tremolo_names) /\ (isMarkTremolo m = false -> numTremoloSlashes m = -1).
Proof. exact tremolo_slashes. Qed.
Print Assumptions C41_tremolo_slashes.

(** A custom mark has a name, from which alone it is found again. *)
Theorem C41_custom_names : forall m,
  getCustomMarkName m = (if isMarkCustom m then custom_accent_tenuto else []) /\ (isMarkCustom m = true -> getMarkTypeFromCustomString (getCustomMarkName m) = m).
Proof. exact custom_names. Qed.
Print Assumptions C41_custom_names.
Theorem C41_custom_unknown : forall name, name <> custom_accent_tenuto -> getMarkTypeFromCustomString name = api_MarkType_customErrorUnknown.
Proof. exact custom_unknown. Qed.
Print Assumptions C41_custom_unknown.

(** Every mark on a note should be read back from the family it was written to. *)
Definition C41_claim : Prop := forall tick ctx m, position_ok storable (m_position m) ->
  exists s a m', write_notations_set true false false (mkAttachments [m] [] [] [] [] []) = Ok s /\ parseNotations tick ctx s = Ok a /\
    marks a = [m'] /\ same_section (m_type m) (m_type m').

(** Finding: accidental marks, arpeggios, pedal marks are never written. *)
Theorem C41_refuted : ~ C41_claim.
Proof.
  exact (fun H => match H 0 (mkNoteContext None None) (mkMark api_MarkType_accidentalMarkSharp [] 0 0 noPosition) (conj I (conj I (conj I I))) with
    | ex_intro _ s (ex_intro _ a (ex_intro _ m' (conj E (conj P (conj M _))))) =>
        ltac:(vm_compute in E; injection E as <-; vm_compute in P; injection P as <-; discriminate M) end).
Qed.
Print Assumptions C41_refuted.

(** The marks of the five written families and the custom mark are, each of them, read
    back as one mark of the same section; the others vanish. Excepted: an articulation
    whose name is the text used for the custom mark. *)
Theorem C41_family_partial : forall ties isTieStop isTieStart tick ctx m, position_ok storable (m_position m) ->
  exists s a, write_notations_set ties isTieStop isTieStart (mkAttachments [m] [] [] [] [] []) = Ok s /\ parseNotations tick ctx s = Ok a /\
    (can_be_written (m_type m) = false -> marks a = []) /\
    (can_be_written (m_type m) = true -> exists m', marks a = [m'] /\ m_tick m' = tick /\
       ((m_type m = api_MarkType_otherArticulation -> m_name m <> markStringCustomAccentTenuto) -> same_section (m_type m) (m_type m'))).
Proof. exact written_family. Qed.
Print Assumptions C41_family_partial.

(** An ornament with a placement meets the hypotheses. *)
Example C41_meets :
  let m := mkMark api_MarkType_delayedInvertedTurn [] 0 0
             (mkPosition None (Some (25 # 2)) None None api_HorizontalAlignment_unspecified api_VerticalAlignment_unspecified api_Placement_above) in
  position_ok storable (m_position m) /\ can_be_written (m_type m) = true.
Proof.
  split; [ | reflexivity]. split; [exact I | ]. split; [ | split; exact I].
  split; [exists 25, (-1)%Z; split; reflexivity | split; reflexivity].
Qed.
