(** C58: attributes that are a number or a word. *)
From Coq Require Import List Ascii Bool String ZArith QArith Qabs.
From Verif Require Import Model.Base Model.Text Model.LongDouble Model.Decimals Model.Integers Model.CoreEnums Model.NumberOrWord
  Spec.Numerals Spec.Ranges Spec.DecimalText Spec.SchemaTexts Spec.NumberOrWordText
  Proofs.NumberOrWordProofs.
Import ListNotations.
Local Open Scope Z_scope.

(** The size of a font, font-size. A text that is a number gives this number (as a Decimal
    holds it), a name of a CSS size gives this size, and any other text is refused and leaves
    the value as it is. *)
Theorem C58_font_size_text x t :
  (forall q, number_text t q -> (Qabs q < inject_Z (2 ^ 64))%Q ->
     FontSize_parse x t = omap (fun p => (true, Number p)) (Decimals.construct Decimal (ld q))) /\
  (forall v, t = CssFontSize_toString v -> FontSize_parse x t = Ok (true, Word v)) /\
  (no_number t -> ~ In t schema_css_font_size -> FontSize_parse x t = Ok (false, x)).
Proof. exact (font_text x t). Qed.

(** What is written of an object with any history is read back, into any object. *)
Theorem C58_font_size_roundtrip l x y : Forall passed l -> FontSize_history l = Ok x ->
  exists z, FontSize_parse y (FontSize_toString x) = Ok (true, z) /\ same_value x z /\ FontSize_toString z = FontSize_toString x.
Proof. exact (font_roundtrip l x y). Qed.

(** After any history the last call decides; the getter of the other kind answers its default. *)
Theorem C58_font_size_last l x : FontSize_history l = Ok x ->
  (forall p, exists y, FontSize_history (l ++ [SetDecimal p]) = Ok y /\
     getIsDecimal y = true /\ getIsWord y = false /\ getValueDecimal y = Ok p /\ getValueCssFontSize y = CssFontSize_xxSmall) /\
  (forall v, exists y, FontSize_history (l ++ [SetWord v]) = Ok y /\
     getIsDecimal y = false /\ getIsWord y = true /\ getValueCssFontSize y = v /\
     exists p, getValueDecimal y = Ok p /\ (amount p == 0)%Q) /\
  (forall t, FontSize_history (l ++ [Parse t]) = omap snd (FontSize_parse x t)).
Proof. exact (font_last l x). Qed.

Theorem C58_font_size_new : exists x, FontSize_history [] = Ok x /\ getIsDecimal x = true /\ getIsWord x = false /\ FontSize_toString x = lit "0".
Proof. exact font_new. Qed.

(** The pedals of sound, yes, no or a number: the same. *)
Theorem C58_yes_no_number_text x t :
  (forall q, number_text t q -> (Qabs q < inject_Z (2 ^ 64))%Q ->
     YesNoNumber_parse x t = omap (fun p => (true, Number p)) (Decimals.construct Decimal (ld q))) /\
  (forall v, t = YesNo_toString v -> YesNoNumber_parse x t = Ok (true, Word v)) /\
  (no_number t -> ~ In t schema_yes_no -> YesNoNumber_parse x t = Ok (false, x)).
Proof. exact (yes_number_text x t). Qed.

Theorem C58_yes_no_number_roundtrip l x y : Forall passed l -> YesNoNumber_history l = Ok x ->
  exists z, YesNoNumber_parse y (YesNoNumber_toString x) = Ok (true, z) /\ same_value x z /\ YesNoNumber_toString z = YesNoNumber_toString x.
Proof. exact (yes_number_roundtrip l x y). Qed.

Theorem C58_yes_no_number_last l x : YesNoNumber_history l = Ok x ->
  (forall p, exists y, YesNoNumber_history (l ++ [SetDecimal p]) = Ok y /\
     getIsDecimal y = true /\ getIsWord y = false /\ getValueDecimal y = Ok p /\ getValueYesNo y = YesNo_yes) /\
  (forall v, exists y, YesNoNumber_history (l ++ [SetWord v]) = Ok y /\
     getIsDecimal y = false /\ getIsWord y = true /\ getValueYesNo y = v /\
     exists p, getValueDecimal y = Ok p /\ (amount p == 0)%Q) /\
  (forall t, YesNoNumber_history (l ++ [Parse t]) = omap snd (YesNoNumber_parse x t)).
Proof. exact (yes_last l x). Qed.

Theorem C58_yes_no_number_new : exists x, YesNoNumber_history [] = Ok x /\ getIsDecimal x = false /\ getIsWord x = true /\ YesNoNumber_toString x = lit "yes".
Proof. exact yes_new. Qed.

(** Every number a FontSize or YesNoNumber holds is one a Decimal can hold, so C03 and C04
    speak of it. *)
Theorem C58_numbers_are_decimals :
  (forall l p, Forall passed l -> FontSize_history l = Ok (Number p) -> reached Decimal p) /\
  (forall l p, Forall passed l -> YesNoNumber_history l = Ok (Number p) -> reached Decimal p).
Proof. exact (conj (fun l p => font_history_ready l (Number p)) (fun l p => yes_history_ready l (Number p))). Qed.

(** line-height and letter-spacing, a number or "normal": a text that is neither should be
    refused and leave the value as it is. It does not. *)
Theorem C58_number_or_normal_refused_refuted :
  ~ (forall l x t, Forall passed_normal l -> NumberOrNormal_history l = Ok x -> no_number t -> t <> lit "normal" -> NumberOrNormal_parse x t = Ok x).
Proof. exact normal_refused_refuted. Qed.

(** What happens: "normal" is understood, a number is, and any other text makes the value the
    number it had before (0 if it was "normal"). *)
Theorem C58_number_or_normal_text_partial l x t : Forall passed_normal l -> NumberOrNormal_history l = Ok x ->
  (t = lit "normal" -> exists y, NumberOrNormal_parse x t = Ok y /\ getIsNormal y = true /\ getIsNumber y = false /\ (amount (getValueNumber y) == 0)%Q) /\
  (forall q, number_text t q -> (Qabs q < inject_Z (2 ^ 64))%Q ->
     NumberOrNormal_parse x t = omap (fun p => mkNumberOrNormal p false) (Decimals.construct Decimal (ld q))) /\
  (no_number t -> t <> lit "normal" -> NumberOrNormal_parse x t = Ok (mkNumberOrNormal (nn_decimal x) false)).
Proof. exact (normal_texts l x t). Qed.

Theorem C58_number_or_normal_roundtrip l x m y :
  Forall passed_normal l -> NumberOrNormal_history l = Ok x -> Forall passed_normal m -> NumberOrNormal_history m = Ok y ->
  exists z, NumberOrNormal_parse y (NumberOrNormal_toString x) = Ok z /\ same_normal x z /\ NumberOrNormal_toString z = NumberOrNormal_toString x.
Proof. exact (normal_roundtrip l x m y). Qed.

Theorem C58_number_or_normal_last l x : NumberOrNormal_history l = Ok x ->
  (forall p, exists y, NumberOrNormal_history (l ++ [SetNumber p]) = Ok y /\ getIsNumber y = true /\ getIsNormal y = false /\ getValueNumber y = p) /\
  (exists y, NumberOrNormal_history (l ++ [SetNormal]) = Ok y /\ getIsNumber y = false /\ getIsNormal y = true /\ (amount (getValueNumber y) == 0)%Q) /\
  (forall t, NumberOrNormal_history (l ++ [ParseNormal t]) = NumberOrNormal_parse x t).
Proof. exact (normal_last l x). Qed.

Theorem C58_number_or_normal_new :
  (exists x, NumberOrNormal_history [] = Ok x /\ getIsNormal x = true /\ NumberOrNormal_toString x = lit "normal") /\
  (forall t, NumberOrNormal_of_text t = NumberOrNormal_history [ParseNormal t]).
Proof. exact (conj normal_new normal_of_text). Qed.

(** multiple-rest, measure-repeat and ensemble, a positive integer or nothing. A text that is
    no integer should be refused. It is not. *)
Theorem C58_integer_or_empty_refused_refuted :
  ~ (forall l t, t <> [] -> (forall n, int_text t n -> ~ is_int n) -> IntegerOrEmpty_parse (IntegerOrEmpty_history l) t = IntegerOrEmpty_history l).
Proof. exact empty_refused_refuted. Qed.

(** What happens: the empty text empties the value, an integer gives the nearest positive
    integer, and any other text makes the value the integer it had before (1 if it was
    empty). *)
Theorem C58_integer_or_empty_text_partial l t : let x := IntegerOrEmpty_history l in
  (t = [] -> IntegerOrEmpty_parse x t = IntegerOrEmpty_history []) /\
  (forall n, int_text t n -> is_int n -> ie_isEmpty (IntegerOrEmpty_parse x t) = false /\
     nearest_within PositiveInteger n (ir_value (ie_integer (IntegerOrEmpty_parse x t)))) /\
  (t <> [] -> (forall n, int_text t n -> ~ is_int n) -> IntegerOrEmpty_parse x t = mkIntegerOrEmpty (ie_integer x) false).
Proof. exact (empty_text l t). Qed.

Theorem C58_integer_or_empty_roundtrip l m :
  IntegerOrEmpty_parse (IntegerOrEmpty_history m) (IntegerOrEmpty_toString (IntegerOrEmpty_history l)) = IntegerOrEmpty_history l.
Proof. exact (empty_roundtrip l m). Qed.

Theorem C58_integer_or_empty_last l : let x := IntegerOrEmpty_history l in
  (forall v, let y := IntegerOrEmpty_history (l ++ [SetInteger v]) in ie_isEmpty y = false /\ nearest_within PositiveInteger v (ir_value (ie_integer y))) /\
  (let y := IntegerOrEmpty_history (l ++ [SetEmpty]) in ie_isEmpty y = true /\ ir_value (ie_integer y) = 1 /\ IntegerOrEmpty_toString y = []) /\
  (forall t, IntegerOrEmpty_history (l ++ [ParseEmpty t]) = IntegerOrEmpty_parse x t).
Proof. exact (empty_last l). Qed.

Theorem C58_integer_or_empty_new :
  (ie_isEmpty (IntegerOrEmpty_history []) = true /\ IntegerOrEmpty_toString (IntegerOrEmpty_history []) = []) /\
  (forall t, IntegerOrEmpty_of_text t = IntegerOrEmpty_history [ParseEmpty t]).
Proof. exact (conj empty_new empty_of_text). Qed.

(** Histories that end in values of both kinds. *)
Example C58_font_example : exists x y,
  FontSize_history [Parse (lit "12.5"); Parse (lit "huge")] = Ok x /\ FontSize_toString x = lit "12.5" /\
  FontSize_history [Parse (lit "12.5"); Parse (lit "xx-large"); Parse (lit "huge")] = Ok y /\ FontSize_toString y = lit "xx-large" /\
  Forall (@passed CssFontSize) [Parse (lit "12.5"); Parse (lit "xx-large"); Parse (lit "huge")].
Proof.
  eexists. eexists. split; [vm_compute; reflexivity | ]. split; [vm_compute; reflexivity | ].
  split; [vm_compute; reflexivity | ]. split; [vm_compute; reflexivity | ]. repeat constructor.
Qed.

Example C58_pedal_example : exists x y,
  YesNoNumber_history [Parse (lit "50")] = Ok x /\ YesNoNumber_toString x = lit "50" /\
  YesNoNumber_history [Parse (lit "50"); SetWord YesNo_no; Parse (lit "maybe")] = Ok y /\ YesNoNumber_toString y = lit "no".
Proof.
  eexists. eexists. split; [vm_compute; reflexivity | ]. split; [vm_compute; reflexivity | ].
  split; [vm_compute; reflexivity | ]. vm_compute. reflexivity.
Qed.

Example C58_normal_example : exists x y,
  NumberOrNormal_history [ParseNormal (lit "1.5")] = Ok x /\ NumberOrNormal_toString x = lit "1.5" /\
  NumberOrNormal_history [ParseNormal (lit "1.5"); SetNormal; ParseNormal (lit "wide")] = Ok y /\ NumberOrNormal_toString y = lit "0".
Proof.
  eexists. eexists. split; [vm_compute; reflexivity | ]. split; [vm_compute; reflexivity | ].
  split; [vm_compute; reflexivity | ]. vm_compute. reflexivity.
Qed.

Example C58_empty_example :
  IntegerOrEmpty_toString (IntegerOrEmpty_history [ParseEmpty (lit "4")]) = lit "4" /\
  IntegerOrEmpty_toString (IntegerOrEmpty_history [ParseEmpty (lit "4"); SetEmpty]) = [] /\
  IntegerOrEmpty_toString (IntegerOrEmpty_history [SetInteger (-3)]) = lit "1".
Proof. split; [ | split]; vm_compute; reflexivity. Qed.

Print Assumptions C58_font_size_text.
Print Assumptions C58_font_size_roundtrip.
Print Assumptions C58_font_size_last.
Print Assumptions C58_font_size_new.
Print Assumptions C58_yes_no_number_text.
Print Assumptions C58_yes_no_number_roundtrip.
Print Assumptions C58_yes_no_number_last.
Print Assumptions C58_yes_no_number_new.
Print Assumptions C58_numbers_are_decimals.
Print Assumptions C58_number_or_normal_refused_refuted.
Print Assumptions C58_number_or_normal_text_partial.
Print Assumptions C58_number_or_normal_roundtrip.
Print Assumptions C58_number_or_normal_last.
Print Assumptions C58_number_or_normal_new.
Print Assumptions C58_integer_or_empty_refused_refuted.
Print Assumptions C58_integer_or_empty_text_partial.
Print Assumptions C58_integer_or_empty_roundtrip.
Print Assumptions C58_integer_or_empty_last.
Print Assumptions C58_integer_or_empty_new.
