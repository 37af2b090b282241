(** Concrete elements and texts for the examples and refutations of C40 and C53. *)
From Coq Require Import List Ascii String.
From Verif Require Import Model.Text Model.PugiText Model.XmlStream.
Import ListNotations.
Local Open Scope string_scope.
Local Open Scope list_scope.

Definition note (ps : list instruction) (t : str) : core_element := CoreElement (lit "words") [(lit "font", lit "a < b & 'c'")] ps (CoreText t).
Definition score (ps : list instruction) (kids : list core_element) : core_element :=
  CoreElement (lit "score-partwise") [(lit "version", lit "3.0")] ps (CoreChildren kids).
Definition pc n d := mkInstruction (lit n) (lit d) true.
Definition ps n d := mkInstruction (lit n) (lit d) false.
Definition example_score : core_element :=
  score [pc "a" "one"; pc "b" ""; ps "c" "x=1 y"]
    [note [ps "d" "two"] (lit "5 < 6 & 7 > 6");
     CoreElement (lit "measure") [] [pc "e" "?"; ps "f" "three"] (CoreChildren [note [] []; CoreElement (lit "rest") [] [ps "g" "4"] (CoreText [])])].
Definition turned : core_element := score [ps "a" "1"; pc "b" "2"] [note [] (lit "t")].
Definition moved : core_element := score [] [note [pc "a" "1"] (lit "t")].
Definition inside_text : str := lit "<score-partwise><words><?a b?>t</words><rest><?c d?></rest></score-partwise>".
Definition with_value (v : str) : core_element := CoreElement (lit "score-partwise") [(lit "version", v)] [] (CoreText []).
Definition with_text (t : str) : core_element := CoreElement (lit "score-partwise") [] [] (CoreText t).
Definition spelled_text : str := lit "<?xml version='1.0'?><!-- c --><a b=' x&#x41;&lt;' ><![CDATA[<]]>1 &gt; &amp; &#65;<!----><c/></a > <?p?>".
Definition spelled_tree : list xml :=
  [XDeclaration (lit "xml") [(lit "version", lit "1.0")] []; XElement (lit "a") [(lit "b", lit " xA<")]
     [XCData (lit "<"); XText (lit "1 > & A"); XElement (lit "c") [] []]; XInstruction (lit "p") None].
