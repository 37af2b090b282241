(* Classification of marks: api/MarkData.cpp and impl/Converter.cpp:1604-1622. *)
From Coq Require Import Ascii String List ZArith.
From Verif Require Import Model.Text Model.EnumLookup.
Import ListNotations.
Open Scope Z_scope.

From Verif Require Import Model.CoreEnums Model.ApiEnums Model.ConverterTables.

(** markType == MarkType::a || markType == MarkType::b || ... *)
Definition mark_is (m : api_MarkType) (l : list api_MarkType) : bool :=
  existsb (fun x => api_MarkType_value m =? api_MarkType_value x) l.

(** Sourcecode/private/mx/api/MarkData.cpp:13-40 *)
Definition isMarkDynamic (markType : api_MarkType) : bool :=
  mark_is markType
  [ api_MarkType_p; api_MarkType_p; api_MarkType_pp;
    api_MarkType_ppp; api_MarkType_pppp; api_MarkType_ppppp;
    api_MarkType_pppppp; api_MarkType_f; api_MarkType_ff;
    api_MarkType_fff; api_MarkType_ffff; api_MarkType_fffff;
    api_MarkType_ffffff; api_MarkType_mp; api_MarkType_mf;
    api_MarkType_sf; api_MarkType_sfp; api_MarkType_sfpp;
    api_MarkType_fp; api_MarkType_rf; api_MarkType_rfz;
    api_MarkType_sfz; api_MarkType_sffz; api_MarkType_fz;
    api_MarkType_otherDynamics ].

(** Sourcecode/private/mx/api/MarkData.cpp:42-47 *)
Definition isMarkArpeggiate (markType : api_MarkType) : bool :=
  mark_is markType
  [ api_MarkType_arpeggiate; api_MarkType_arpeggiateDown; api_MarkType_arpeggiateUp ].

(** Sourcecode/private/mx/api/MarkData.cpp:49-67 *)
Definition isMarkArticulation (markType : api_MarkType) : bool :=
  mark_is markType
  [ api_MarkType_accent; api_MarkType_strongAccent; api_MarkType_staccato;
    api_MarkType_tenuto; api_MarkType_detachedLegato; api_MarkType_staccatissimo;
    api_MarkType_spiccato; api_MarkType_scoop; api_MarkType_plop;
    api_MarkType_doit; api_MarkType_falloff; api_MarkType_breathMark;
    api_MarkType_caesura; api_MarkType_stress; api_MarkType_unstress;
    api_MarkType_otherArticulation ].

(** Sourcecode/private/mx/api/MarkData.cpp:70-90 *)
Definition isMarkOrnament (markType : api_MarkType) : bool :=
  mark_is markType
  [ api_MarkType_trillMark; api_MarkType_turn; api_MarkType_delayedTurn;
    api_MarkType_invertedTurn; api_MarkType_delayedInvertedTurn; api_MarkType_verticalTurn;
    api_MarkType_shake; api_MarkType_wavyLine; api_MarkType_mordent;
    api_MarkType_invertedMordent; api_MarkType_schleifer; api_MarkType_tremoloSingleOne;
    api_MarkType_tremoloSingleTwo; api_MarkType_tremoloSingleThree; api_MarkType_tremoloSingleFour;
    api_MarkType_tremoloSingleFive; api_MarkType_otherOrnament; api_MarkType_unknownOrnament ].

(** Sourcecode/private/mx/api/MarkData.cpp:93-107 *)
Definition isMarkFermata (markType : api_MarkType) : bool :=
  mark_is markType
  [ api_MarkType_fermata; api_MarkType_fermataNormal; api_MarkType_fermataAngled;
    api_MarkType_fermataSquare; api_MarkType_fermataUpright; api_MarkType_fermataNormalUpright;
    api_MarkType_fermataAngledUpright; api_MarkType_fermataSquareUpright; api_MarkType_fermataInverted;
    api_MarkType_fermataNormalInverted; api_MarkType_fermataAngledInverted; api_MarkType_fermataSquareInverted ].

(** Sourcecode/private/mx/api/MarkData.cpp:110-113 *)
Definition isMarkNonArpeggiate (markType : api_MarkType) : bool :=
  mark_is markType
  [ api_MarkType_nonArpeggiate ].

(** Sourcecode/private/mx/api/MarkData.cpp:116-120 *)
Definition isMarkPedal (markType : api_MarkType) : bool :=
  mark_is markType
  [ api_MarkType_pedal; api_MarkType_damp ].

(** Sourcecode/private/mx/api/MarkData.cpp:123-138 *)
Definition isMarkTechnical (markType : api_MarkType) : bool :=
  mark_is markType
  [ api_MarkType_upBow; api_MarkType_downBow; api_MarkType_harmonic;
    api_MarkType_openString; api_MarkType_thumbPosition; api_MarkType_doubleTongue;
    api_MarkType_tripleTongue; api_MarkType_stopped; api_MarkType_snapPizzicato;
    api_MarkType_heel; api_MarkType_toe; api_MarkType_fingernails;
    api_MarkType_otherTechnical ].

(** Sourcecode/private/mx/api/MarkData.cpp:141-148 *)
Definition isMarkTremolo (markType : api_MarkType) : bool :=
  mark_is markType
  [ api_MarkType_tremoloSingleOne; api_MarkType_tremoloSingleTwo; api_MarkType_tremoloSingleThree;
    api_MarkType_tremoloSingleFour; api_MarkType_tremoloSingleFive ].

(** Sourcecode/private/mx/api/MarkData.cpp:151-154 *)
Definition isMarkCustom (markType : api_MarkType) : bool :=
  mark_is markType
  [ api_MarkType_customAccentTenuto ].

(** Sourcecode/private/mx/impl/Converter.cpp:1604-1622 *)
Definition Converter_isArticulation (value : api_MarkType) : bool :=
  mark_is value
  [ api_MarkType_accent; api_MarkType_strongAccent; api_MarkType_staccato;
    api_MarkType_tenuto; api_MarkType_detachedLegato; api_MarkType_staccatissimo;
    api_MarkType_spiccato; api_MarkType_scoop; api_MarkType_plop;
    api_MarkType_doit; api_MarkType_falloff; api_MarkType_breathMark;
    api_MarkType_caesura; api_MarkType_stress; api_MarkType_unstress;
    api_MarkType_otherArticulation ].

(** Sourcecode/include/mx/api/MarkData.h: markStringCustomAccentTenuto *)
Definition markStringCustomAccentTenuto : str := lit "gjhsldjhglskdjhfg".

(** MarkData.cpp:157-168 *)
Definition getCustomMarkName (markType : api_MarkType) : str :=
  match markType with
  | api_MarkType_customAccentTenuto => markStringCustomAccentTenuto
  | _ => lit ""
  end.

(** MarkData.cpp:171-178 *)
Definition getMarkTypeFromCustomString (inString : str) : api_MarkType :=
  if str_eqb inString markStringCustomAccentTenuto then api_MarkType_customAccentTenuto
  else api_MarkType_customErrorUnknown.

(** MarkData.cpp:181-209 *)
Definition numTremoloSlashes (markType : api_MarkType) : Z :=
  match markType with
  | api_MarkType_tremoloSingleOne => 1
  | api_MarkType_tremoloSingleTwo => 2
  | api_MarkType_tremoloSingleThree => 3
  | api_MarkType_tremoloSingleFour => 4
  | api_MarkType_tremoloSingleFive => 5
  | _ => -1
  end.

(** MarkData.cpp: the name that the constructors MarkData( MarkType ) and
    MarkData( Placement, MarkType ) give to a mark *)
Definition mark_name (markType : api_MarkType) : str :=
  if isMarkDynamic markType then DynamicsEnum_toString (dynamicsMap_toCore markType)
  else if isMarkArticulation markType then lit "articulation"
  else if isMarkFermata markType then FermataShape_toString (fermataMap_toCore markType)
  else lit "".
