(** The trees an XML document can hold: what is excluded here has no spelling that denotes
    it, or none that the writer uses. *)
From Coq Require Import List Ascii String ZArith.
From Verif Require Import Model.Text Model.PugiText Spec.XmlGrammar.
Import ListNotations.
Local Open Scope char_scope.

(** Character data: not only white space (that is layout), no carriage return (it is read as
    a line feed), no zero byte. *)
Definition holdable_text (t : str) : Prop := Forall character t /\ ~ In "013" t /\ ~ blanks t.

(** Attribute values: no zero byte. *)
Definition holdable_value (v : str) : Prop := Forall character v.
Definition holdable_attributes (l : list (str * str)) : Prop :=
  Forall (fun a => xml_name (fst a) /\ holdable_value (snd a)) l.

(** The data of a processing instruction: it cannot contain its end, nor begin with a blank. *)
Definition holdable_data (d : str) : Prop :=
  ~ occurs (lit "?>") d /\ Forall character d /\ (forall c r, d = c :: r -> ~ blank c).

(** Nodes and the contents of elements; two texts side by side are one. *)
Inductive holdable : xml -> Prop :=
| holdable_element n l kids :
    xml_name n -> holdable_attributes l -> holdable_content kids -> holdable (XElement n l kids)
| holdable_cdata t : ~ occurs (lit "]]>") t -> Forall character t -> ~ In "013" t -> holdable (XCData t)
| holdable_instruction n d :
    xml_name n -> ~ reserved n -> (forall t, d = Some t -> holdable_data t) -> holdable (XInstruction n d)
with holdable_content : list xml -> Prop :=
| content_none : holdable_content []
| content_text t l :
    holdable_text t -> (forall u r, l <> XText u :: r) -> holdable_content l -> holdable_content (XText t :: l)
| content_node x l : holdable x -> holdable_content l -> holdable_content (x :: l).

(** Outside of the document element: elements, instructions, document type declarations. *)
Inductive holdable_top : xml -> Prop :=
| top_element n l kids : holdable (XElement n l kids) -> holdable_top (XElement n l kids)
| top_instruction n d : holdable (XInstruction n d) -> holdable_top (XInstruction n d)
| top_doctype v : doctype_spelled v -> (forall c s, v = c :: s -> ~ blank c) -> holdable_top (XDoctype v).

(** Documents without the XML declaration, and the declaration, whose values contain no
    question mark. *)
Definition holdable_document (l : list xml) : Prop :=
  Forall holdable_top l /\ exists n a kids, In (XElement n a kids) l.

Definition holdable_declaration (d : xml) : Prop :=
  exists l, d = XDeclaration (lit "xml") l [] /\ l <> [] /\ holdable_attributes l /\ Forall (fun a => ~ In "?" (snd a)) l.
