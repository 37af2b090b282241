(** The defaults of a score (Model/Layout.v) as a value that is compared
    (Model/Equality.v). *)
From Coq Require Import List Ascii String Bool ZArith QArith.
From Verif Require Import Model.Base Model.Text Model.ApiEnums Model.ApiClasses Model.Equality Model.Layout.
Import ListNotations.
Local Open Scope string_scope.

Definition v_number (q : Q) : value := VNumber (Finite q).
Definition v_optional {A} (f : A -> value) (o : option A) : value :=
  VOptional (match o with Some x => Some (f x) | None => None end).
Definition v_margins (m : MarginsData) : value :=
  VClass c_MarginsData [("left", v_number (left m)); ("right", v_number (right m)); ("top", v_number (top m)); ("bottom", v_number (bottom m))].
Definition v_size (s : SizeData) : value := VClass c_SizeData [("height", v_number (height s)); ("width", v_number (width s))].
Definition v_left_right (m : LeftRight) : value := VClass c_LeftRight [("left", v_number (lr_left m)); ("right", v_number (lr_right m))].
Definition v_page_layout (p : PageLayoutData) : value :=
  VClass c_PageLayoutData
    [("size", v_optional v_size (size p));
     ("margins", VClass c_PageMarginsData [("odd", v_optional v_margins (odd (pageMargins p))); ("even", v_optional v_margins (even (pageMargins p)))])].
Definition v_system_layout (s : SystemLayoutData) : value :=
  VClass c_SystemLayoutData
    [("margins", v_optional v_left_right (systemMargins s)); ("systemDistance", v_optional v_number (systemDistance s));
     ("topSystemDistance", v_optional v_number (topSystemDistance s)); ("staffDistance", v_optional v_number (staffDistance s))].
Definition v_appearance (a : AppearanceData) : value :=
  VClass c_AppearanceData
    [("appearanceType", VInt (match appearanceType a with LineWidth => 0 | NoteSize => 1 | Distance => 2 | OtherAppearance => 3 end));
     ("appearanceSubType", VText (appearanceSubType a)); ("value", v_number (appearanceValue a))].
(** The member measureNumbering, which the writer does not look at, is [n]. *)
Definition v_defaults (n : Z) (d : DefaultsData) : value :=
  VClass c_DefaultsData
    [("scalingMillimeters", v_number (scalingMillimeters d)); ("scalingTenths", v_number (scalingTenths d));
     ("pageLayout", v_page_layout (pageLayout d)); ("systemLayout", v_system_layout (defaultSystemLayout d));
     ("appearance", VVector (map v_appearance (appearance d))); ("measureNumbering", VInt n)].

(** A words direction that says [t], at no position. *)
Definition v_color : value :=
  VClass c_ColorData [("red", VInt 0); ("green", VInt 0); ("blue", VInt 0); ("isAlphaSpecified", VInt 0); ("alpha", VInt 0)].
Definition v_position (x : number) : value :=
  VClass c_PositionData
    [("defaultX", VNumber x); ("isDefaultXSpecified", VInt 1); ("defaultY", v_number 0); ("isDefaultYSpecified", VInt 0);
     ("relativeX", v_number 0); ("isRelativeXSpecified", VInt 0); ("relativeY", v_number 0); ("isRelativeYSpecified", VInt 0);
     ("placement", VInt 0); ("verticalAlignment", VInt 0); ("horizontalAlignmnet", VInt 0)].
Definition v_font : value :=
  VClass c_FontData
    [("sizeType", VInt 0); ("sizePoint", v_number 12); ("sizeCss", VInt 0); ("style", VInt 0); ("weight", VInt 0);
     ("fontFamily", VVector [VText (lit "Arial")]); ("underline", VInt 0); ("overline", VInt 0); ("lineThrough", VInt 0)].
Definition v_words (t : str) : value :=
  VClass c_WordsData
    [("text", VText t); ("positionData", v_position (Finite 3)); ("fontData", v_font); ("isColorSpecified", VInt 0); ("colorData", v_color)].
