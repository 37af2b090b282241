(* The groups of API marks, read off the section comments of the enumeration in
   include/mx/api/MarkData.h:16-170, by the identifiers they start with. *)
From Coq Require Import Ascii String List Bool ZArith.
From Verif Require Import Model.Text Model.EnumLookup Model.ApiEnums Model.MarkData.
Import ListNotations.

Fixpoint starts_with (p s : str) : bool :=
  match p, s with
  | [], _ => true
  | _ :: _, [] => false
  | a :: p', b :: s' => Ascii.eqb a b && starts_with p' s'
  end.

(** The fermatas without a type attribute (MarkData.h: the first four). *)
Definition isPlainFermata (m : api_MarkType) : bool :=
  match m with
  | api_MarkType_fermata | api_MarkType_fermataNormal
  | api_MarkType_fermataAngled | api_MarkType_fermataSquare => true
  | _ => false
  end.

Definition isAccidentalMark (m : api_MarkType) : bool :=
  starts_with (lit "accidentalMark") (api_MarkType_name m).

Definition isMarkTechnicalOrUnspecified (m : api_MarkType) : bool :=
  isMarkTechnical m || match m with api_MarkType_unspecified => true | _ => false end.

(** The sections of the enumeration in MarkData.h, each from its first to its last mark;
    the marks called unknown, which stand for an error, are left out of them. *)
Definition in_section (first last m : api_MarkType) : bool :=
  (Z.leb (api_MarkType_value first) (api_MarkType_value m) && Z.leb (api_MarkType_value m) (api_MarkType_value last))%bool.

Definition articulation_section := in_section api_MarkType_accent api_MarkType_otherArticulation.
Definition dynamics_section := in_section api_MarkType_p api_MarkType_otherDynamics.
Definition ornament_section := in_section api_MarkType_trillMark api_MarkType_otherOrnament.
Definition technical_section := in_section api_MarkType_upBow api_MarkType_otherTechnical.
Definition fermata_section := in_section api_MarkType_fermata api_MarkType_fermataSquareInverted.
Definition pedal_section := in_section api_MarkType_pedal api_MarkType_damp.
Definition arpeggiate_section := in_section api_MarkType_arpeggiate api_MarkType_arpeggiateUp.

(** All sections, now with the marks called unknown. *)
Definition sections : list (api_MarkType -> bool) :=
  [ in_section api_MarkType_unspecified api_MarkType_unspecified;
    in_section api_MarkType_accent api_MarkType_otherArticulation;
    in_section api_MarkType_p api_MarkType_unknownDynamics;
    in_section api_MarkType_trillMark api_MarkType_unknownOrnament;
    in_section api_MarkType_accidentalMarkSharp api_MarkType_accidentalUnknown;
    in_section api_MarkType_upBow api_MarkType_unknownTechnical;
    in_section api_MarkType_fermata api_MarkType_unknownFermata;
    in_section api_MarkType_pedal api_MarkType_damp;
    in_section api_MarkType_arpeggiate api_MarkType_arpeggiateUp;
    in_section api_MarkType_nonArpeggiate api_MarkType_nonArpeggiate;
    in_section api_MarkType_customErrorUnknown api_MarkType_customAccentTenuto ].

Definition same_section (a b : api_MarkType) : Prop := exists s, In s sections /\ s a = true /\ s b = true.

(** The predicates of MarkData.h that name a family. *)
Definition predicates : list (api_MarkType -> bool) :=
  [isMarkArticulation; isMarkDynamic; isMarkOrnament; isMarkTechnical; isMarkFermata; isMarkPedal; isMarkArpeggiate;
   isMarkNonArpeggiate; isMarkCustom].

(** The marks that a note can carry to a file and back. *)
Definition can_be_written (m : api_MarkType) : bool :=
  articulation_section m || dynamics_section m || ornament_section m || technical_section m || fermata_section m ||
  match m with api_MarkType_unknownOrnament | api_MarkType_customAccentTenuto => true | _ => false end.

(** MarkData.h: the tremolo marks and their slashes, and the text that stands for the custom mark. *)
Definition tremolo_names : list (str * Z) :=
  [(lit "tremoloSingleOne", 1%Z); (lit "tremoloSingleTwo", 2%Z); (lit "tremoloSingleThree", 3%Z); (lit "tremoloSingleFour", 4%Z); (lit "tremoloSingleFive", 5%Z)].
Definition custom_accent_tenuto : str := lit "gjhsldjhglskdjhfg".
