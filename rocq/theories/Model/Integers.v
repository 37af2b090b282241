(** core/Integers.h, core/Integers.cpp: bounded integers. *)
From Coq Require Import List ZArith Bool.
From Verif Require Import Model.Text.
Import ListNotations.
Open Scope Z_scope.

(** Integer::parse, core/Integers.cpp:37-47, without the final setValue: [None]
    is "return false". *)
Definition parse_int (t : str) : option Z :=
  match read_int t with
  | IntOk v rest => match skip_ws rest with [] => Some v | _ => None end
  | _ => None
  end.

(** core/Integers.cpp:67-81. *)
Definition clamp (mn mx v : Z) : Z :=
  if v <? mn then mn else if mx <? v then mx else v.

(** class IntRange, core/Integers.h:45-53. *)
Record int_range := IntRange { ir_min : Z; ir_max : Z; ir_value : Z }.

(** IntRange::IntRange, core/Integers.cpp:83-89. *)
Definition mk_int_range (mn mx v : Z) : int_range := IntRange mn mx (clamp mn mx v).

(** IntRange::setValue, core/Integers.cpp:91-94. *)
Definition set_value (r : int_range) (v : Z) : int_range :=
  IntRange (ir_min r) (ir_max r) (clamp (ir_min r) (ir_max r) v).

(** Integer::parse on an IntRange (setValue is virtual), core/Integers.cpp:37-47. *)
Definition parse_range (r : int_range) (t : str) : int_range * bool :=
  match parse_int t with
  | Some v => (set_value r v, true)
  | None => (r, false)
  end.

(** toStream, core/Integers.cpp:56-59. *)
Definition print_range (r : int_range) : str := print_int (ir_value r).

(** The concrete types, core/Integers.cpp:96-285. *)
Inductive int_type :=
| AccordionMiddleValue | BeamLevel | Byte | FifthsValue | Midi128 | Midi16 | Midi16384
| NonNegativeInteger | NumberLevel | NumberOfLines | OctaveValue | PositiveInteger
| StaffLine | StaffNumber | StringNumber | TremoloMarks.

(** The bounds passed to IntRange by each constructor, core/Integers.cpp:103,115,127,
    139,151,163,175,187,199,211,223,235,247,259,271,283. *)
Definition ctor_bounds (t : int_type) : Z * Z :=
  match t with
  | AccordionMiddleValue => (0, 3)
  | BeamLevel => (1, 8)
  | Byte => (0, 255)
  | FifthsValue => (int_min, int_max)
  | Midi128 => (1, 128)
  | Midi16 => (1, 16)
  | Midi16384 => (1, 16384)
  | NonNegativeInteger => (0, int_max)
  | NumberLevel => (1, 6)
  | NumberOfLines => (0, 3)
  | OctaveValue => (0, 9)
  | PositiveInteger => (1, int_max)
  | StaffLine => (int_min, int_max)
  | StaffNumber => (1, int_max)
  | StringNumber => (1, int_max)
  | TremoloMarks => (0, 8)
  end.

(** T::T(IntType value) for each type [t]. *)
Definition construct (t : int_type) (v : Z) : int_range :=
  mk_int_range (fst (ctor_bounds t)) (snd (ctor_bounds t)) v.

(** T::T(): delegates to T{ 0 }, core/Integers.cpp:96-100 and the like. *)
Definition construct_default (t : int_type) : int_range := construct t 0.

(** A call on an existing object of type [t]. Copy assignment copies all members
    (core/Integers.h:28-30, defaulted), here from a freshly built T{v}. *)
Inductive int_op :=
| OpSet (v : Z)
| OpParse (text : str)
| OpAssign (v : Z).

Definition apply_op (t : int_type) (r : int_range) (o : int_op) : int_range :=
  match o with
  | OpSet v => set_value r v
  | OpParse text => fst (parse_range r text)
  | OpAssign v => construct t v
  end.

Definition run_ops (t : int_type) (r : int_range) (os : list int_op) : int_range :=
  fold_left (apply_op t) os r.
