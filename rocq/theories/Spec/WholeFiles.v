(** What it means that the characters of a file are a document, and that two documents are the same. *)
From Coq Require Import List String Ascii Bool Permutation.
From Verif Require Import Model.Text Model.PugiText Model.Base Model.XmlStream Model.Attributes Model.Documents Model.Files
  Spec.XmlText Spec.XmlGrammar Spec.XmlTrees Spec.Instructions Spec.SchemaElementTexts.
Import ListNotations.
Local Open Scope list_scope.

(** The tree of an element: its attributes, and its text or its children. *)
Fixpoint element_tree (t : Documents.xml) : PugiText.xml :=
  let 'Xml n attrs text children := t in
  XElement (lit n) (map (fun a => (lit (fst a), lit (snd a))) attrs)
    (match text with [] => [] | _ => [XText text] end ++ map element_tree children).

(** The characters [text] spell a file with the element [t] and nothing else but, perhaps, a
    declaration and a document type; comments and white space may be anywhere. *)
Definition declaration_usual (l : list (str * str)) : Prop :=
  exists v, v <> [] /\ (l = [(lit "version", v)] \/ exists enc r, l = (lit "version", v) :: (lit "encoding", enc) :: r).
Definition file_spelled (t : Documents.xml) (text : str) : Prop :=
  exists declaration doctype, document (declaration ++ doctype ++ [element_tree t]) text /\
    (declaration = [] \/ exists l, declaration = [XDeclaration (lit "xml") l []] /\ declaration_usual l) /\
    (doctype = [] \/ exists v, doctype = [XDoctype v]).

(** One as this library writes it. *)
Definition file_written (c : document_choice) (t : Documents.xml) (text : str) : Prop :=
  document [XDeclaration (lit "xml") mx_declaration []; XDoctype (standard_doctype c); element_tree t] text.

(** The texts and values that XML can hold as they are: no zero byte, no carriage return in a text,
    no tab, line end or quotation mark in a value, and no text of nothing but white space. *)
Inductive characters_fit : Documents.xml -> Prop :=
| fits n attrs text children :
    xml_name (lit n) -> Forall (fun a => xml_name (lit (fst a)) /\ plain_value (lit (snd a))) attrs ->
    text = [] \/ holdable_text text -> Forall characters_fit children ->
    characters_fit (Xml n attrs text children).

(** The same document: the same elements in the same places, the same attributes in any order, and
    texts that are the same or say the same. *)
Inductive same_document : Documents.xml -> Documents.xml -> Prop :=
| same_element n attrs attrs' text text' children children' :
    Permutation attrs' attrs -> (text' = text \/ exists k, In (lit n, k) schema_element_texts /\ says k text text') ->
    Forall2 same_document children' children ->
    same_document (Xml n attrs' text' children') (Xml n attrs text children).

(** [rewritten_times n text text']: after being read and written [n] times, the file [text] is
    [text']. *)
Inductive rewritten_times (takes : taking) (initial : string -> string) : nat -> str -> str -> Prop :=
| times_none text : rewritten_times takes initial O text text
| times_more n text text' text'' : rewrite_file takes initial text = Some (Ok text') -> rewritten_times takes initial n text' text'' ->
    rewritten_times takes initial (S n) text text''.

(** There is a processing instruction with the element, or with one inside it. *)
Inductive has_instruction : core_element -> Prop :=
| instruction_here n l i r b : has_instruction (CoreElement n l (i :: r) b)
| instruction_inside n l i kids k : In k kids -> has_instruction k -> has_instruction (CoreElement n l i (CoreChildren kids)).

(** ** Examples *)
Local Open Scope string_scope.
Local Open Scope list_scope.
(** A file with comments, character references, other quotation marks and white space, and one
    with a comment within a text. *)
Definition around (name : string) : str := lit "<?xml version='1.0'?>
<!-- made by hand --><!DOCTYPE score-partwise>
<score-partwise  version = '3.0' ><part-list><score-part id='P1'>" ++ lit name ++ lit "</score-part></part-list>
 <part id = ""P1""><measure number='1'><note><chord/><!-- one --><rest></rest><duration> +040.50</duration></note></measure></part></score-partwise >
".
Definition a_file : str := around "<!-- two --><part-name>Flute &#38; Oboe</part-name>".
Definition a_commented_file : str := around "<part-name>Flute &#38; <!-- two -->Oboe</part-name>".
Definition written_with (name : string) : str := lit "<?xml version=""1.0"" encoding=""UTF-8"" standalone=""no""?>
<!DOCTYPE score-partwise PUBLIC ""-//Recordare//DTD MusicXML 3.0 Partwise//EN"" ""http://www.musicxml.org/dtds/partwise.dtd"">
<score-partwise version=""3.0"">
  <part-list>
    <score-part id=""P1"">
      <part-name>" ++ lit name ++ lit "</part-name>
    </score-part>
  </part-list>
  <part id=""P1"">
    <measure number=""1"">
      <note>
        <chord />
        <rest />
        <duration>40.5</duration>
      </note>
    </measure>
  </part>
</score-partwise>
".
