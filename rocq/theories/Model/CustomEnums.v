(* The four classes of core/Enums.{h,cpp} that hold an enumerator or a custom
   text: DistanceType (Enums.cpp:774-856), DynamicsValue (:936-1018),
   LineWidthType (:1922-2004) and ModeValue (:2268-2350).  The four are the same
   code up to the names of the enumeration, of its catch-all enumerator and of
   its default, so the functions are written once, over those, and instantiated
   four times. *)
From Coq Require Import Ascii String List Bool.
From Verif Require Import Model.Text Model.EnumLookup Model.CoreEnums.
Import ListNotations.

Record custom (A : Type) := { myEnum : A; myCustomValue : str }.
Arguments myEnum {A}. Arguments myCustomValue {A}. Arguments Build_custom {A}.

Section Class.
  Context {A : Type}.
  Variable isOther : A -> bool.            (* == X::other / X::otherDynamics *)
  Variable other : A.                      (* that enumerator *)
  Variable print : A -> str.               (* toString *)
  Variable tryParse : str -> option A.     (* tryParseX *)

  (** Enums.cpp:977-984: setValue( const DynamicsEnum value ) *)
  Definition setValue_enum (c : custom A) (value : A) : custom A :=
    {| myEnum := value;
       myCustomValue :=
         if negb (isOther value) && negb (match myCustomValue c with [] => true | _ => false end)
         then lit "" else myCustomValue c |}.

  (** Enums.cpp:986-998: setValue( const std::string& value ) *)
  Definition setValue_text (c : custom A) (value : str) : custom A :=
    match tryParse value with
    | Some temp => {| myEnum := temp; myCustomValue := lit "" |}
    | None => {| myEnum := myEnum (setValue_enum c other); myCustomValue := value |}
    end.

  (** Enums.cpp:936-941: the constructor from an enumerator *)
  Definition construct_enum (value : A) : custom A :=
    setValue_enum {| myEnum := value; myCustomValue := lit "" |} value.

  (** Enums.cpp:943-948: the constructor from a text *)
  Definition construct_text (value : str) : custom A :=
    setValue_text {| myEnum := other; myCustomValue := value |} value.

  (** Enums.cpp:962-973: getValueString *)
  Definition getValueString (c : custom A) : str :=
    if negb (isOther (myEnum c)) then print (myEnum c) else myCustomValue c.

  (** Enums.cpp:957-960: getValue *)
  Definition getValue (c : custom A) : A := myEnum c.

  (** A history of calls of the two setters. *)
  Inductive set_call :=
  | SetEnum (value : A)
  | SetText (value : str).

  Definition run_set (c : custom A) (call : set_call) : custom A :=
    match call with
    | SetEnum v => setValue_enum c v
    | SetText s => setValue_text c s
    end.

  Definition run_sets (c : custom A) (calls : list set_call) : custom A :=
    fold_left run_set calls c.
End Class.

Arguments SetEnum {A}. Arguments SetText {A}.

Definition isOther_DistanceType (v : DistanceTypeEnum) : bool :=
  match v with DistanceTypeEnum_other => true | _ => false end.
Definition isOther_DynamicsValue (v : DynamicsEnum) : bool :=
  match v with DynamicsEnum_otherDynamics => true | _ => false end.
Definition isOther_LineWidthType (v : LineWidthTypeEnum) : bool :=
  match v with LineWidthTypeEnum_other => true | _ => false end.
Definition isOther_ModeValue (v : ModeEnum) : bool :=
  match v with ModeEnum_other => true | _ => false end.
