(* What it means for an enumeration to have a faithful text form. *)
From Coq Require Import List.
From Verif Require Import Model.Text.
Import ListNotations.

(** [members] are the values in order of declaration, [texts] the texts the
    standard lists for them, in the standard's order.  Every value is a member
    and prints as the text at its place in the standard; parsing a print gives
    the value back; different values print differently; a text that parses is
    the print of its value; every other text is refused by [try] and turned
    into [fallback] by [parse]. *)
Definition text_enum {A : Type} (members : list A) (print : A -> str)
    (try : str -> option A) (parse : str -> A) (texts : list str) (fallback : A) : Prop :=
  (forall v, In v members) /\
  map print members = texts /\
  (forall v, try (print v) = Some v /\ parse (print v) = v) /\
  (forall v w, print v = print w -> v = w) /\
  (forall s v, try s = Some v -> s = print v) /\
  (forall s, ~ In s texts -> try s = None /\ parse s = fallback).

(** The same for the enumerations that only have a total [parse]. *)
Definition text_enum_total {A : Type} (members : list A) (print : A -> str)
    (parse : str -> A) (texts : list str) (fallback : A) : Prop :=
  (forall v, In v members) /\
  map print members = texts /\
  (forall v, parse (print v) = v) /\
  (forall v w, print v = print w -> v = w) /\
  (forall s, ~ In s texts -> parse s = fallback).

(** An object that holds either a listed value or a free text, with the text it
    is written as: a text that is set is the text that is read back. *)
Definition keeps_text {O : Type} (of_text : str -> O) (text_of : O -> str) : Prop :=
  forall s, text_of (of_text s) = s.

(** The same, but for one reserved text, which is lost. *)
Definition keeps_text_except {O : Type} (of_text : str -> O) (text_of : O -> str)
    (reserved : str) : Prop :=
  (forall s, s <> reserved -> text_of (of_text s) = s) /\
  text_of (of_text reserved) = [].

(** What the last calls of a history of setter calls determine, whatever came
    before them.  [named] says that a value is not the catch-all value [other]. *)
Definition setters_ok {O A : Type} (set_value : O -> A -> O) (set_text : O -> str -> O)
    (value_of : O -> A) (text_of : O -> str)
    (print : A -> str) (texts : list str) (other : A) : Prop :=
  forall o,
    (forall v, value_of (set_value o v) = v) /\
    (forall v, v <> other -> text_of (set_value o v) = print v) /\
    (forall v, v <> other -> text_of (set_value (set_value o v) other) = []) /\
    (forall s, ~ In s texts ->
       value_of (set_text o s) = other /\ text_of (set_text o s) = s /\
       text_of (set_value (set_text o s) other) = s) /\
    (forall v, value_of (set_text o (print v)) = v) /\
    (forall v, v <> other -> text_of (set_text o (print v)) = print v) /\
    text_of (set_text o (print other)) = [].
