(* Ways of naming an element class, and the plainest types, for the examples. *)

From Coq Require Import String List.
From Verif Require Import Model.Attributes Model.AttributeClasses.
Open Scope string_scope.

(* Every type keeps the text it is given. *)
Definition verbatim : taking := fun _ _ x => x.
(* Every member is constructed with an empty text. *)
Definition blank : string -> string := fun _ => "".

(* The element of the C++ class of that name. *)
Definition the_element (c : string) : elementClass :=
  match find (fun e => String.eqb (e_class e) c) elements with
  | Some e => e
  | None => mkElement "" "" None false
  end.
