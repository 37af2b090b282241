(* The xlink and xml:space enumerations: core/EnumsBuiltin.h and .cpp.
   These have no tryParse: parseX falls through to a default. *)
From Coq Require Import Ascii String List ZArith.
From Verif Require Import Model.Text Model.EnumLookup.
Import ListNotations.

(** Sourcecode/private/mx/core/EnumsBuiltin.h:14-22, Sourcecode/private/mx/core/EnumsBuiltin.cpp:83-108 *)
Inductive XlinkType : Set :=
  | XlinkType_simple | XlinkType_extended | XlinkType_title | XlinkType_resource | XlinkType_locator
  | XlinkType_arc.

Definition XlinkType_members : list XlinkType :=
  [ XlinkType_simple; XlinkType_extended; XlinkType_title; XlinkType_resource;
    XlinkType_locator; XlinkType_arc ].

(* parseXlinkType *)
Definition XlinkType_chain : list (str * XlinkType) :=
  [ (lit "simple", XlinkType_simple); (lit "extended", XlinkType_extended);
    (lit "title", XlinkType_title); (lit "resource", XlinkType_resource);
    (lit "locator", XlinkType_locator); (lit "arc", XlinkType_arc) ].

Definition parse_XlinkType (value : str) : XlinkType :=
  value_or (lookup_text XlinkType_chain value) XlinkType_simple.

(* toString *)
Definition XlinkType_toString (value : XlinkType) : str :=
  match value with
  | XlinkType_simple => lit "simple"
  | XlinkType_extended => lit "extended"
  | XlinkType_title => lit "title"
  | XlinkType_resource => lit "resource"
  | XlinkType_locator => lit "locator"
  | XlinkType_arc => lit "arc"
  end.

(** Sourcecode/private/mx/core/EnumsBuiltin.h:29-33, Sourcecode/private/mx/core/EnumsBuiltin.cpp:122-139 *)
Inductive XmlSpace : Set :=
  | XmlSpace_default_ | XmlSpace_preserve.

Definition XmlSpace_members : list XmlSpace :=
  [ XmlSpace_default_; XmlSpace_preserve ].

(* parseXmlSpace *)
Definition XmlSpace_chain : list (str * XmlSpace) :=
  [ (lit "default", XmlSpace_default_); (lit "preserve", XmlSpace_preserve) ].

Definition parse_XmlSpace (value : str) : XmlSpace :=
  value_or (lookup_text XmlSpace_chain value) XmlSpace_default_.

(* toString *)
Definition XmlSpace_toString (value : XmlSpace) : str :=
  match value with
  | XmlSpace_default_ => lit "default"
  | XmlSpace_preserve => lit "preserve"
  end.

(** Sourcecode/private/mx/core/EnumsBuiltin.h:40-46, Sourcecode/private/mx/core/EnumsBuiltin.cpp:11-32 *)
Inductive XlinkActuate : Set :=
  | XlinkActuate_onLoad | XlinkActuate_onRequest | XlinkActuate_other | XlinkActuate_none.

Definition XlinkActuate_members : list XlinkActuate :=
  [ XlinkActuate_onLoad; XlinkActuate_onRequest; XlinkActuate_other; XlinkActuate_none ].

(* parseXlinkActuate *)
Definition XlinkActuate_chain : list (str * XlinkActuate) :=
  [ (lit "onLoad", XlinkActuate_onLoad); (lit "onRequest", XlinkActuate_onRequest);
    (lit "other", XlinkActuate_other); (lit "none", XlinkActuate_none) ].

Definition parse_XlinkActuate (value : str) : XlinkActuate :=
  value_or (lookup_text XlinkActuate_chain value) XlinkActuate_onLoad.

(* toString *)
Definition XlinkActuate_toString (value : XlinkActuate) : str :=
  match value with
  | XlinkActuate_onLoad => lit "onLoad"
  | XlinkActuate_onRequest => lit "onRequest"
  | XlinkActuate_other => lit "other"
  | XlinkActuate_none => lit "none"
  end.

(** Sourcecode/private/mx/core/EnumsBuiltin.h:52-59, Sourcecode/private/mx/core/EnumsBuiltin.cpp:46-69 *)
Inductive XlinkShow : Set :=
  | XlinkShow_new_ | XlinkShow_replace | XlinkShow_embed | XlinkShow_other | XlinkShow_none.

Definition XlinkShow_members : list XlinkShow :=
  [ XlinkShow_new_; XlinkShow_replace; XlinkShow_embed; XlinkShow_other;
    XlinkShow_none ].

(* parseXlinkShow *)
Definition XlinkShow_chain : list (str * XlinkShow) :=
  [ (lit "new", XlinkShow_new_); (lit "replace", XlinkShow_replace);
    (lit "embed", XlinkShow_embed); (lit "other", XlinkShow_other);
    (lit "none", XlinkShow_none) ].

Definition parse_XlinkShow (value : str) : XlinkShow :=
  value_or (lookup_text XlinkShow_chain value) XlinkShow_new_.

(* toString *)
Definition XlinkShow_toString (value : XlinkShow) : str :=
  match value with
  | XlinkShow_new_ => lit "new"
  | XlinkShow_replace => lit "replace"
  | XlinkShow_embed => lit "embed"
  | XlinkShow_other => lit "other"
  | XlinkShow_none => lit "none"
  end.

