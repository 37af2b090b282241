(* C49: an attribute that holds a listed value or a free text keeps its text. *)
From Coq Require Import Ascii String List.
From Verif Require Import Model.Text Model.EnumLookup Model.CoreEnums Model.CustomEnums
  Spec.TextEnum Spec.SchemaTexts Proofs.EnumTables Proofs.CustomEnumsProofs.
Import ListNotations.

(** The classes that hold an enumerator or a custom text.  A text that is set
    should be the text that is read back. *)

Definition C49_DistanceType_claim : Prop :=
  keeps_text (construct_text isOther_DistanceType DistanceTypeEnum_other tryParse_DistanceTypeEnum)
    (getValueString isOther_DistanceType DistanceTypeEnum_toString).

(** Finding: the text "other" is lost, it reads back as the empty text. *)
Theorem C49_DistanceType_refuted : ~ C49_DistanceType_claim.
Proof.
  exact (keeps_text_refuted isOther_DistanceType DistanceTypeEnum_other _ _ _ _ _ _ DistanceType_other DistanceTypeEnum_text ltac:(discriminate)).
Qed.
Print Assumptions C49_DistanceType_refuted.

(** Every other text is kept. *)
Theorem C49_DistanceType_partial :
  keeps_text_except (construct_text isOther_DistanceType DistanceTypeEnum_other tryParse_DistanceTypeEnum)
    (getValueString isOther_DistanceType DistanceTypeEnum_toString) (lit "other").
Proof. exact (keeps_text_generic isOther_DistanceType DistanceTypeEnum_other _ _ _ _ _ _ DistanceType_other DistanceTypeEnum_text). Qed.
Print Assumptions C49_DistanceType_partial.

(** After any history the last calls of the setters decide what is read. *)
Theorem C49_DistanceType_setters : forall start history,
  setters_ok
    (fun h c => h ++ [SetEnum c]) (fun h s => h ++ [SetText s])
    (fun h => getValue (run_sets isOther_DistanceType DistanceTypeEnum_other tryParse_DistanceTypeEnum start (history ++ h)))
    (fun h => getValueString isOther_DistanceType DistanceTypeEnum_toString
                (run_sets isOther_DistanceType DistanceTypeEnum_other tryParse_DistanceTypeEnum start (history ++ h)))
    DistanceTypeEnum_toString schema_distance_type DistanceTypeEnum_other.
Proof. exact (setters_ok_history isOther_DistanceType DistanceTypeEnum_other _ _ _ _ _ _ DistanceType_other DistanceTypeEnum_text). Qed.
Print Assumptions C49_DistanceType_setters.

Theorem C49_DistanceType_of_value : forall v,
  getValue (construct_enum isOther_DistanceType v) = v /\
  (v <> DistanceTypeEnum_other ->
     getValueString isOther_DistanceType DistanceTypeEnum_toString (construct_enum isOther_DistanceType v) = DistanceTypeEnum_toString v) /\
  (v = DistanceTypeEnum_other ->
     getValueString isOther_DistanceType DistanceTypeEnum_toString (construct_enum isOther_DistanceType v) = []).
Proof. exact (construct_enum_generic isOther_DistanceType DistanceTypeEnum_other _ _ _ _ _ _ DistanceType_other DistanceTypeEnum_text). Qed.
Print Assumptions C49_DistanceType_of_value.

Definition C49_DynamicsValue_claim : Prop :=
  keeps_text (construct_text isOther_DynamicsValue DynamicsEnum_otherDynamics tryParse_DynamicsEnum)
    (getValueString isOther_DynamicsValue DynamicsEnum_toString).

(** Finding: the text "other-dynamics" is lost, it reads back as the empty text. *)
Theorem C49_DynamicsValue_refuted : ~ C49_DynamicsValue_claim.
Proof.
  exact (keeps_text_refuted isOther_DynamicsValue DynamicsEnum_otherDynamics _ _ _ _ _ _ DynamicsValue_other DynamicsEnum_text ltac:(discriminate)).
Qed.
Print Assumptions C49_DynamicsValue_refuted.

(** Every other text is kept. *)
Theorem C49_DynamicsValue_partial :
  keeps_text_except (construct_text isOther_DynamicsValue DynamicsEnum_otherDynamics tryParse_DynamicsEnum)
    (getValueString isOther_DynamicsValue DynamicsEnum_toString) (lit "other-dynamics").
Proof. exact (keeps_text_generic isOther_DynamicsValue DynamicsEnum_otherDynamics _ _ _ _ _ _ DynamicsValue_other DynamicsEnum_text). Qed.
Print Assumptions C49_DynamicsValue_partial.

(** After any history the last calls of the setters decide what is read. *)
Theorem C49_DynamicsValue_setters : forall start history,
  setters_ok
    (fun h c => h ++ [SetEnum c]) (fun h s => h ++ [SetText s])
    (fun h => getValue (run_sets isOther_DynamicsValue DynamicsEnum_otherDynamics tryParse_DynamicsEnum start (history ++ h)))
    (fun h => getValueString isOther_DynamicsValue DynamicsEnum_toString
                (run_sets isOther_DynamicsValue DynamicsEnum_otherDynamics tryParse_DynamicsEnum start (history ++ h)))
    DynamicsEnum_toString schema_dynamics DynamicsEnum_otherDynamics.
Proof. exact (setters_ok_history isOther_DynamicsValue DynamicsEnum_otherDynamics _ _ _ _ _ _ DynamicsValue_other DynamicsEnum_text). Qed.
Print Assumptions C49_DynamicsValue_setters.

Theorem C49_DynamicsValue_of_value : forall v,
  getValue (construct_enum isOther_DynamicsValue v) = v /\
  (v <> DynamicsEnum_otherDynamics ->
     getValueString isOther_DynamicsValue DynamicsEnum_toString (construct_enum isOther_DynamicsValue v) = DynamicsEnum_toString v) /\
  (v = DynamicsEnum_otherDynamics ->
     getValueString isOther_DynamicsValue DynamicsEnum_toString (construct_enum isOther_DynamicsValue v) = []).
Proof. exact (construct_enum_generic isOther_DynamicsValue DynamicsEnum_otherDynamics _ _ _ _ _ _ DynamicsValue_other DynamicsEnum_text). Qed.
Print Assumptions C49_DynamicsValue_of_value.

Definition C49_LineWidthType_claim : Prop :=
  keeps_text (construct_text isOther_LineWidthType LineWidthTypeEnum_other tryParse_LineWidthTypeEnum)
    (getValueString isOther_LineWidthType LineWidthTypeEnum_toString).

(** Finding: the text "other" is lost, it reads back as the empty text. *)
Theorem C49_LineWidthType_refuted : ~ C49_LineWidthType_claim.
Proof.
  exact (keeps_text_refuted isOther_LineWidthType LineWidthTypeEnum_other _ _ _ _ _ _ LineWidthType_other LineWidthTypeEnum_text ltac:(discriminate)).
Qed.
Print Assumptions C49_LineWidthType_refuted.

(** Every other text is kept. *)
Theorem C49_LineWidthType_partial :
  keeps_text_except (construct_text isOther_LineWidthType LineWidthTypeEnum_other tryParse_LineWidthTypeEnum)
    (getValueString isOther_LineWidthType LineWidthTypeEnum_toString) (lit "other").
Proof. exact (keeps_text_generic isOther_LineWidthType LineWidthTypeEnum_other _ _ _ _ _ _ LineWidthType_other LineWidthTypeEnum_text). Qed.
Print Assumptions C49_LineWidthType_partial.

(** After any history the last calls of the setters decide what is read. *)
Theorem C49_LineWidthType_setters : forall start history,
  setters_ok
    (fun h c => h ++ [SetEnum c]) (fun h s => h ++ [SetText s])
    (fun h => getValue (run_sets isOther_LineWidthType LineWidthTypeEnum_other tryParse_LineWidthTypeEnum start (history ++ h)))
    (fun h => getValueString isOther_LineWidthType LineWidthTypeEnum_toString
                (run_sets isOther_LineWidthType LineWidthTypeEnum_other tryParse_LineWidthTypeEnum start (history ++ h)))
    LineWidthTypeEnum_toString schema_line_width_type LineWidthTypeEnum_other.
Proof. exact (setters_ok_history isOther_LineWidthType LineWidthTypeEnum_other _ _ _ _ _ _ LineWidthType_other LineWidthTypeEnum_text). Qed.
Print Assumptions C49_LineWidthType_setters.

Theorem C49_LineWidthType_of_value : forall v,
  getValue (construct_enum isOther_LineWidthType v) = v /\
  (v <> LineWidthTypeEnum_other ->
     getValueString isOther_LineWidthType LineWidthTypeEnum_toString (construct_enum isOther_LineWidthType v) = LineWidthTypeEnum_toString v) /\
  (v = LineWidthTypeEnum_other ->
     getValueString isOther_LineWidthType LineWidthTypeEnum_toString (construct_enum isOther_LineWidthType v) = []).
Proof. exact (construct_enum_generic isOther_LineWidthType LineWidthTypeEnum_other _ _ _ _ _ _ LineWidthType_other LineWidthTypeEnum_text). Qed.
Print Assumptions C49_LineWidthType_of_value.

Definition C49_ModeValue_claim : Prop :=
  keeps_text (construct_text isOther_ModeValue ModeEnum_other tryParse_ModeEnum)
    (getValueString isOther_ModeValue ModeEnum_toString).

(** Finding: the text "other" is lost, it reads back as the empty text. *)
Theorem C49_ModeValue_refuted : ~ C49_ModeValue_claim.
Proof.
  exact (keeps_text_refuted isOther_ModeValue ModeEnum_other _ _ _ _ _ _ ModeValue_other ModeEnum_text ltac:(discriminate)).
Qed.
Print Assumptions C49_ModeValue_refuted.

(** Every other text is kept. *)
Theorem C49_ModeValue_partial :
  keeps_text_except (construct_text isOther_ModeValue ModeEnum_other tryParse_ModeEnum)
    (getValueString isOther_ModeValue ModeEnum_toString) (lit "other").
Proof. exact (keeps_text_generic isOther_ModeValue ModeEnum_other _ _ _ _ _ _ ModeValue_other ModeEnum_text). Qed.
Print Assumptions C49_ModeValue_partial.

(** After any history the last calls of the setters decide what is read. *)
Theorem C49_ModeValue_setters : forall start history,
  setters_ok
    (fun h c => h ++ [SetEnum c]) (fun h s => h ++ [SetText s])
    (fun h => getValue (run_sets isOther_ModeValue ModeEnum_other tryParse_ModeEnum start (history ++ h)))
    (fun h => getValueString isOther_ModeValue ModeEnum_toString
                (run_sets isOther_ModeValue ModeEnum_other tryParse_ModeEnum start (history ++ h)))
    ModeEnum_toString schema_mode ModeEnum_other.
Proof. exact (setters_ok_history isOther_ModeValue ModeEnum_other _ _ _ _ _ _ ModeValue_other ModeEnum_text). Qed.
Print Assumptions C49_ModeValue_setters.

Theorem C49_ModeValue_of_value : forall v,
  getValue (construct_enum isOther_ModeValue v) = v /\
  (v <> ModeEnum_other ->
     getValueString isOther_ModeValue ModeEnum_toString (construct_enum isOther_ModeValue v) = ModeEnum_toString v) /\
  (v = ModeEnum_other ->
     getValueString isOther_ModeValue ModeEnum_toString (construct_enum isOther_ModeValue v) = []).
Proof. exact (construct_enum_generic isOther_ModeValue ModeEnum_other _ _ _ _ _ _ ModeValue_other ModeEnum_text). Qed.
Print Assumptions C49_ModeValue_of_value.

Example C49_custom_case :
  let o := construct_text isOther_DynamicsValue DynamicsEnum_otherDynamics tryParse_DynamicsEnum
             (lit "pfz") in
  getValue o = DynamicsEnum_otherDynamics /\
  getValueString isOther_DynamicsValue DynamicsEnum_toString o = lit "pfz" /\
  ~ In (lit "pfz") schema_dynamics.
Proof.
  repeat split; try (vm_compute; reflexivity).
  vm_compute. intro H. repeat (destruct H as [H | H]; [discriminate H |]). exact H.
Qed.
