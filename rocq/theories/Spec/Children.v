(** The children of an element, apart from processing instructions. *)
From Coq Require Import List String Ascii ZArith Bool.
From Verif Require Import Model.Base Model.Text Model.ElementReading.
Import ListNotations.

(** The child elements, with their names. *)
Fixpoint elements {A} (children : list (node A)) : list (str * A) :=
  match children with
  | NElement n a :: r => (n, a) :: elements r
  | NInstruction _ _ :: r => elements r
  | [] => []
  end.

(** The child elements with a name. *)
Fixpoint named {A} (name : str) (children : list (node A)) : list A :=
  match children with
  | NElement n a :: r => if str_eqb n name then a :: named name r else named name r
  | NInstruction _ _ :: r => named name r
  | [] => []
  end.

(** A list with some of the items of another, in the same order and each at most once. *)
Inductive picked {B} : list B -> list B -> Prop :=
| picked_end : picked [] []
| picked_skip : forall x l1 l2, picked l1 l2 -> picked l1 (x :: l2)
| picked_take : forall x l1 l2, picked l1 l2 -> picked (x :: l1) (x :: l2).

(** What has been read, without the elements made by the constructor. *)
Definition given {A} (l : list (option A)) : list A := flat_map (fun o => match o with Some a => [a] | None => [] end) l.

(** Only the child elements. *)
Definition without_instructions {A} (children : list (node A)) : list (node A) := map (fun p => NElement (fst p) (snd p)) (elements children).
