(** Outcomes of a modelled call. *)

(** [Ok x]: the call returns [x].  [Throw]: it throws a C++ exception.
    [UB]: it has undefined behaviour (signed overflow, out-of-bounds access, ...). *)
Inductive outcome (A : Type) : Type :=
| Ok (x : A)
| Throw
| UB.
Arguments Ok {A} x.
Arguments Throw {A}.
Arguments UB {A}.

Definition obind {A B} (o : outcome A) (f : A -> outcome B) : outcome B :=
  match o with
  | Ok x => f x
  | Throw => Throw
  | UB => UB
  end.

Definition omap {A B} (f : A -> B) (o : outcome A) : outcome B :=
  obind o (fun x => Ok (f x)).
