(** The documented ranges of the bounded integer types, transcribed from the
    "Range:" comments of core/Integers.h (not from the constructors). *)
From Coq Require Import ZArith.
From Verif Require Import Model.Integers.
Open Scope Z_scope.

(** Lower and upper bound, [None] where the comment says "None". *)
Definition documented_range (t : int_type) : option Z * option Z :=
  match t with
  | AccordionMiddleValue => (Some 0, Some 3)      (* Integers.h:64 *)
  | BeamLevel => (Some 1, Some 8)                 (* :77 *)
  | Byte => (Some 0, Some 255)                    (* :87 *)
  | FifthsValue => (None, None)                   (* :99 *)
  | Midi128 => (Some 1, Some 128)                 (* :109 *)
  | Midi16 => (Some 1, Some 16)                   (* :119 *)
  | Midi16384 => (Some 1, Some 16384)             (* :129 *)
  | NonNegativeInteger => (Some 0, None)          (* :139 *)
  | NumberLevel => (Some 1, Some 6)               (* :154 *)
  | NumberOfLines => (Some 0, Some 3)             (* :165 *)
  | OctaveValue => (Some 0, Some 9)               (* :176 *)
  | PositiveInteger => (Some 1, None)             (* :186 *)
  | StaffLine => (None, None)                     (* :199 *)
  | StaffNumber => (Some 1, None)                 (* :210 *)
  | StringNumber => (Some 1, None)                (* :221 *)
  | TremoloMarks => (Some 0, Some 8)              (* :232 *)
  end.

(** [v] is an int inside the documented range of [t]. *)
Definition within (t : int_type) (v : Z) : Prop :=
  -2147483648 <= v <= 2147483647 /\
  match fst (documented_range t) with Some lo => lo <= v | None => True end /\
  match snd (documented_range t) with Some hi => v <= hi | None => True end.

(** [r] is the number inside the range of [t] that is closest to [w]. *)
Definition nearest_within (t : int_type) (w r : Z) : Prop :=
  within t r /\ forall x, within t x -> Z.abs (w - r) <= Z.abs (w - x).
