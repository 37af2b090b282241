(** What a number-or-word value says, and what texts say it. *)
From Coq Require Import List Ascii String ZArith QArith.
From Verif Require Import Model.Text Model.Decimals Model.NumberOrWord Spec.DecimalText.
Import ListNotations.

(** The same kind and the same number or word. *)
Definition same_value {W} (x y : number_or W) : Prop :=
  match x, y with
  | Number p, Number q => amount p == amount q /\ well_formed q
  | Word v, Word w => v = w
  | _, _ => False
  end.

Definition same_normal (x y : numberOrNormal) : Prop :=
  nn_isNormal x = nn_isNormal y /\ amount (nn_decimal x) == amount (nn_decimal y).

(** The arguments a program can pass: decimals it can have. *)
Definition passed {W} (c : variant_call W) : Prop := match c with SetDecimal p => reached Decimal p | _ => True end.
Definition passed_normal (c : normal_call) : Prop := match c with SetNumber p => reached Decimal p | _ => True end.

(** A text that is no number. *)
Definition no_number (t : str) : Prop := forall x, ~ number_text t x.
