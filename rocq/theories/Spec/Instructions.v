(** Elements whose text form is XML, the tree that text denotes, and what a reader makes of
    it. *)
From Coq Require Import List Ascii String ZArith Permutation.
From Verif Require Import Model.Base Model.Text Model.PugiText Model.XmlStream Spec.XmlGrammar Spec.XmlTrees.
Import ListNotations.
Local Open Scope char_scope.

(** Attribute values: no double quote, tab or line end. *)
Definition plain_value (v : str) : Prop :=
  Forall character v /\ Forall (fun c => ~ In c ["034"; "009"; "010"; "013"]) v.
Definition plain_attributes (l : list (str * str)) : Prop :=
  Forall (fun a => xml_name (fst a) /\ plain_value (snd a)) l.

(** Instructions: a name that is not reserved, and data that can be written. *)
Definition plain_instruction (p : instruction) : Prop :=
  xml_name (pi_name p) /\ ~ reserved (pi_name p) /\ holdable_data (pi_data p).

(** Elements: at every depth, texts are empty or not only white space, and have no carriage
    return. *)
Fixpoint well_formed (e : core_element) : Prop :=
  match e with
  | CoreElement n l ps body =>
      xml_name n /\ plain_attributes l /\ Forall plain_instruction ps /\
      match body with
      | CoreText t => t = [] \/ holdable_text t
      | CoreChildren kids => (fix all (kids : list core_element) : Prop :=
          match kids with [] => True | k :: r => well_formed k /\ all r end) kids
      end
  end.

(** The tree: instructions of an element with children stand before its children or after
    the element, as they are marked; the others stand after the element. *)
Definition instruction_node (p : instruction) : xml := XInstruction (pi_name p) (Some (pi_data p)).
Fixpoint tree_of (e : core_element) : list xml :=
  match e with
  | CoreElement n l ps (CoreText []) => XElement n l [] :: map instruction_node ps
  | CoreElement n l ps (CoreText t) => XElement n l [XText t] :: map instruction_node ps
  | CoreElement n l ps (CoreChildren []) => XElement n l [] :: map instruction_node ps
  | CoreElement n l ps (CoreChildren kids) =>
      XElement n l (map instruction_node (filter pi_child ps) ++ flat_map tree_of kids)
      :: map instruction_node (filter (fun p => negb (pi_child p)) ps)
  end.

(** What comes back: in an element with children the instructions before the children come
    first, then those after the element; without children they are all after the element.
    An element without children and text is one with an empty text. *)
Definition as_sibling (p : instruction) : instruction := mkInstruction (pi_name p) (pi_data p) false.
Fixpoint settled (e : core_element) : core_element :=
  match e with
  | CoreElement n l ps (CoreText t) => CoreElement n l (map as_sibling ps) (CoreText t)
  | CoreElement n l ps (CoreChildren []) => CoreElement n l (map as_sibling ps) (CoreText [])
  | CoreElement n l ps (CoreChildren kids) =>
      CoreElement n l (filter pi_child ps ++ filter (fun p => negb (pi_child p)) ps) (CoreChildren (map settled kids))
  end.

(** Instructions without their position, and elements that differ in the order and position
    of their instructions only. *)
Definition no_position (p : instruction) : str * str := (pi_name p, pi_data p).
Inductive kept : core_element -> core_element -> Prop :=
| kept_text n l ps ps' t :
    Permutation (map no_position ps) (map no_position ps') ->
    kept (CoreElement n l ps (CoreText t)) (CoreElement n l ps' (CoreText t))
| kept_empty n l ps ps' :
    Permutation (map no_position ps) (map no_position ps') ->
    kept (CoreElement n l ps (CoreChildren [])) (CoreElement n l ps' (CoreText []))
| kept_children n l ps ps' kids kids' :
    Permutation (map no_position ps) (map no_position ps') -> Forall2 kept kids kids' ->
    kept (CoreElement n l ps (CoreChildren kids)) (CoreElement n l ps' (CoreChildren kids')).

(** Elements whose instructions are already arranged like that. *)
Fixpoint arranged (e : core_element) : Prop :=
  match e with
  | CoreElement n l ps (CoreText t) => Forall (fun p => pi_child p = false) ps
  | CoreElement n l ps (CoreChildren kids) =>
      kids <> [] /\
      (exists a b, ps = a ++ b /\ Forall (fun p => pi_child p = true) a /\ Forall (fun p => pi_child p = false) b) /\
      (fix all (kids : list core_element) : Prop := match kids with [] => True | k :: r => arranged k /\ all r end) kids
  end.

(** Documents as written: the declaration, the document type, and the tree of the root, which
    has the name of the choice. *)
Definition element_name (e : core_element) : str := match e with CoreElement n _ _ _ => n end.
Definition choice_name (c : document_choice) : str := match c with Partwise => lit "score-partwise" | Timewise => lit "score-timewise" end.
Definition quoted (t : str) : str := ["034"] ++ t ++ ["034"].
Definition standard_doctype (c : document_choice) : str :=
  choice_name c ++ lit " PUBLIC " ++
  quoted (lit "-//Recordare//DTD MusicXML 3.0 " ++ (match c with Partwise => lit "Partwise" | Timewise => lit "Timewise" end) ++ lit "//EN") ++ lit " " ++
  quoted (lit "http://www.musicxml.org/dtds/" ++ (match c with Partwise => lit "partwise" | Timewise => lit "timewise" end) ++ lit ".dtd").
Definition mx_declaration : list (str * str) :=
  [(lit "version", lit "1.0"); (lit "encoding", lit "UTF-8"); (lit "standalone", lit "no")].
Definition document_tree (c : document_choice) (e : core_element) : list xml :=
  XDeclaration (lit "xml") mx_declaration [] :: XDoctype (standard_doctype c) :: tree_of e.

(** Written to a stream and read from it again. *)
Definition reread (c : document_choice) (e : core_element) : outcome (document_choice * core_element) :=
  obind (write_stream c e) read_stream.

(** Instructions as they are made: an empty name is replaced. *)
Definition given_name (n : str) : str := match n with [] => lit "default-name" | _ => n end.

(** Children whose text does not count: elements and instructions. *)
Definition no_text (x : xml) : Prop := match x with XElement _ _ _ | XInstruction _ _ => True | _ => False end.

(** Letters that differ in case only, and names that do. *)
Definition alike (a b : ascii) : Prop :=
  a = b \/ exists k, (65 <= k <= 90)%Z /\ ((code a = k /\ code b = k + 32) \/ (code b = k /\ code a = k + 32))%Z.
