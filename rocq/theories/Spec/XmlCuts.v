(** What is outside of the document element, and texts in which an element has been left
    open. *)
From Coq Require Import List Ascii String.
From Verif Require Import Model.Text Model.PugiText Spec.XmlGrammar.
Import ListNotations.
Local Open Scope char_scope.

(** The nodes outside, with or without a declaration before them. *)
Definition outside (l : list xml) (text : str) : Prop :=
  top_spelled l text \/
  exists d l' s r, l = XDeclaration (lit "xml") d [] :: l' /\ declaration_spelled d s /\ top_spelled l' r /\ text = s ++ r.

(** [left_open n text]: a start tag, whole contents, perhaps another start tag, and so on;
    the last element that has been opened is called [n]. *)
Inductive left_open : str -> str -> Prop :=
| open_last n l s w kids c :
    xml_name n -> attributes_spelled l s -> blanks w -> content_spelled kids c ->
    left_open n (lit "<" ++ n ++ s ++ w ++ lit ">" ++ c)
| open_more m l s w kids c n u :
    xml_name m -> attributes_spelled l s -> blanks w -> content_spelled kids c -> left_open n u ->
    left_open n (lit "<" ++ m ++ s ++ w ++ lit ">" ++ c ++ u).

(** The byte order mark of UTF-8. *)
Definition byte_order_mark : str := ["239"; "187"; "191"].
