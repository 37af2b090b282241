(** Which texts are XML documents, and the tree each of them denotes: a subset of XML 1.0
    (5th edition), written as a grammar and without reference to any reader.
    Left out: general entities other than the five predefined ones, and doctype
    declarations with an internal subset. White space between tags is layout and denotes
    nothing; nor do comments. *)
From Coq Require Import List Ascii String ZArith.
From Verif Require Import Model.Text Model.PugiText Spec.Numerals Spec.XmlText.
Import ListNotations.
Open Scope Z_scope.
Local Open Scope char_scope.

(** White space (production 3) and names (4, 5); bytes from 128 on are parts of letters in
    UTF-8. *)
Definition blank (c : ascii) : Prop := c = " " \/ c = "009" \/ c = "010" \/ c = "013".
Definition blanks (w : str) : Prop := Forall blank w.
Definition letter_byte (c : ascii) : Prop := letter c \/ c = "_" \/ c = ":" \/ 128 <= code c.
Definition name_byte (c : ascii) : Prop := letter_byte c \/ 48 <= code c <= 57 \/ c = "-" \/ c = ".".
Definition xml_name (n : str) : Prop := exists c r, n = c :: r /\ letter_byte c /\ Forall name_byte r.

(** Characters (2): the zero byte is none. *)
Definition character (c : ascii) : Prop := c <> "000".

(** Names that are reserved: "xml" in any case (17). *)
Definition reserved (n : str) : Prop :=
  exists a b c, n = [a; b; c] /\ (a = "x" \/ a = "X") /\ (b = "m" \/ b = "M") /\ (c = "l" \/ c = "L").

Definition occurs (p s : str) : Prop := exists a b, s = a ++ p ++ b.

(** The bytes of a character in UTF-8 (RFC 3629). *)
Inductive utf8_bytes : Z -> str -> Prop :=
| utf8_1 u a : 0 < u < 128 -> code a = u -> utf8_bytes u [a]
| utf8_2 u a b x y :
    128 <= u < 2048 -> u = 64 * x + y -> 0 <= y < 64 ->
    code a = 192 + x -> code b = 128 + y -> utf8_bytes u [a; b]
| utf8_3 u a b c x y z :
    2048 <= u < 65536 -> u = 4096 * x + 64 * y + z -> 0 <= y < 64 -> 0 <= z < 64 ->
    code a = 224 + x -> code b = 128 + y -> code c = 128 + z -> utf8_bytes u [a; b; c]
| utf8_4 u a b c d x y z w :
    65536 <= u <= 1114111 -> u = 262144 * x + 4096 * y + 64 * z + w -> 0 <= y < 64 -> 0 <= z < 64 -> 0 <= w < 64 ->
    code a = 240 + x -> code b = 128 + y -> code c = 128 + z -> code d = 128 + w -> utf8_bytes u [a; b; c; d].

(** Numerals: [numeral base digit ds u]. *)
Inductive digit_value : Z -> ascii -> Z -> Prop :=
| dv_decimal base c : 48 <= code c <= 57 -> digit_value base c (code c - 48)
| dv_lower c : 97 <= code c <= 102 -> digit_value 16 c (code c - 97 + 10)
| dv_upper c : 65 <= code c <= 70 -> digit_value 16 c (code c - 65 + 10).

Inductive numeral (base : Z) : str -> Z -> Prop :=
| numeral_1 c d : digit_value base c d -> numeral base [c] d
| numeral_more s c u d : numeral base s u -> digit_value base c d -> numeral base (s ++ [c]) (base * u + d).

(** [reference e r]: the reference [r] denotes [e] (66, 68, 4.6). *)
Inductive reference : str -> str -> Prop :=
| ref_lt : reference ["<"] (lit "&lt;")
| ref_gt : reference [">"] (lit "&gt;")
| ref_amp : reference ["&"] (lit "&amp;")
| ref_apos : reference ["'"] (lit "&apos;")
| ref_quot : reference ["034"] (lit "&quot;")
| ref_decimal ds u e : numeral 10 ds u -> utf8_bytes u e -> reference e (lit "&#" ++ ds ++ lit ";")
| ref_hex ds u e : numeral 16 ds u -> utf8_bytes u e -> reference e (lit "&#x" ++ ds ++ lit ";").

(** [text_spelled t s]: the character data [s] denotes the text [t]; line ends are read as
    line feeds (2.11). *)
Inductive text_spelled : str -> str -> Prop :=
| text_end : text_spelled [] []
| text_char c t s : character c -> c <> "<" -> c <> "&" -> c <> "013" -> text_spelled t s -> text_spelled (c :: t) (c :: s)
| text_crlf t s : text_spelled t s -> text_spelled ("010" :: t) ("013" :: "010" :: s)
| text_cr t s : hd_error s <> Some "010" -> text_spelled t s -> text_spelled ("010" :: t) ("013" :: s)
| text_reference e r t s : reference e r -> text_spelled t s -> text_spelled (e ++ t) (r ++ s).

(** [value_spelled quote v s]: the attribute value [v], written between these quotes; white
    space is read as blanks (3.3.3). *)
Inductive value_spelled (quote : ascii) : str -> str -> Prop :=
| value_end : value_spelled quote [] []
| value_char c t s :
    character c -> c <> quote -> c <> "<" -> c <> "&" -> ~ blank c -> value_spelled quote t s -> value_spelled quote (c :: t) (c :: s)
| value_blank c t s :
    c = " " \/ c = "009" \/ c = "010" -> value_spelled quote t s -> value_spelled quote (" " :: t) (c :: s)
| value_crlf t s : value_spelled quote t s -> value_spelled quote (" " :: t) ("013" :: "010" :: s)
| value_cr t s : hd_error s <> Some "010" -> value_spelled quote t s -> value_spelled quote (" " :: t) ("013" :: s)
| value_reference e r t s : reference e r -> value_spelled quote t s -> value_spelled quote (e ++ t) (r ++ s).

(** The attributes of a tag (40, 41). *)
Inductive attributes_spelled : list (str * str) -> str -> Prop :=
| attributes_end : attributes_spelled [] []
| attributes_next n v l w w1 w2 quote s r :
    w <> [] -> blanks w -> xml_name n -> blanks w1 -> blanks w2 -> quote = "034" \/ quote = "'" ->
    value_spelled quote v s -> attributes_spelled l r ->
    attributes_spelled ((n, v) :: l) (w ++ n ++ w1 ++ ["="] ++ w2 ++ [quote] ++ s ++ [quote] ++ r).

(** Nodes (39-44, 16, 18-21), and what is between the tags of an element (43). *)
Inductive node_spelled : xml -> str -> Prop :=
| node_empty n l s w :
    xml_name n -> attributes_spelled l s -> blanks w ->
    node_spelled (XElement n l []) (lit "<" ++ n ++ s ++ w ++ lit "/>")
| node_element n l s w kids c w' :
    xml_name n -> attributes_spelled l s -> blanks w -> content_spelled kids c -> blanks w' ->
    node_spelled (XElement n l kids) (lit "<" ++ n ++ s ++ w ++ lit ">" ++ c ++ lit "</" ++ n ++ w' ++ lit ">")
| node_instruction n :
    xml_name n -> ~ reserved n -> node_spelled (XInstruction n None) (lit "<?" ++ n ++ lit "?>")
| node_instruction_data n w d :
    xml_name n -> ~ reserved n -> w <> [] -> blanks w -> ~ occurs (lit "?>") d -> Forall character d ->
    (forall c r, d = c :: r -> ~ blank c) ->
    node_spelled (XInstruction n (Some d)) (lit "<?" ++ n ++ w ++ d ++ lit "?>")
| node_cdata s :
    ~ occurs (lit "]]>") s -> Forall character s -> node_spelled (XCData (read_line_ends s)) (lit "<![CDATA[" ++ s ++ lit "]]>")
with content_spelled : list xml -> str -> Prop :=
| content_end w : blanks w -> content_spelled [] w
| content_node w x s l r :
    blanks w -> node_spelled x s -> content_spelled l r -> content_spelled (x :: l) (w ++ s ++ r)
| content_comment w s l r :
    blanks w -> ~ occurs (lit "-->") s -> Forall character s -> content_spelled l r ->
    content_spelled l (w ++ lit "<!--" ++ s ++ lit "-->" ++ r)
| content_text t s l r :
    text_spelled t s -> ~ blanks s -> r = [] \/ hd_error r = Some "<" -> content_spelled l r ->
    content_spelled (XText t :: l) (s ++ r).

(** A document type declaration without internal subset (28): quoted texts and other
    characters. *)
Inductive doctype_spelled : str -> Prop :=
| doctype_end : doctype_spelled []
| doctype_char c s : character c -> ~ In c ["<"; ">"; "034"; "'"] -> doctype_spelled s -> doctype_spelled (c :: s)
| doctype_quoted quote p s :
    quote = "034" \/ quote = "'" -> ~ In quote p -> Forall character p -> doctype_spelled s ->
    doctype_spelled ([quote] ++ p ++ [quote] ++ s).

(** What is outside of the document element (27). *)
Inductive top_spelled : list xml -> str -> Prop :=
| top_end w : blanks w -> top_spelled [] w
| top_node w x s l r :
    blanks w -> node_spelled x s ->
    match x with XElement _ _ _ | XInstruction _ _ => True | _ => False end ->
    top_spelled l r -> top_spelled (x :: l) (w ++ s ++ r)
| top_comment w s l r :
    blanks w -> ~ occurs (lit "-->") s -> Forall character s -> top_spelled l r ->
    top_spelled l (w ++ lit "<!--" ++ s ++ lit "-->" ++ r)
| top_doctype w w1 v l r :
    blanks w -> w1 <> [] -> blanks w1 -> doctype_spelled v -> (forall c s, v = c :: s -> ~ blank c) ->
    top_spelled l r -> top_spelled (XDoctype v :: l) (w ++ lit "<!DOCTYPE" ++ w1 ++ v ++ lit ">" ++ r).

(** The declaration (23). *)
Definition declaration_spelled (l : list (str * str)) (s : str) : Prop :=
  exists a w, attributes_spelled l a /\ a <> [] /\ blanks w /\ ~ occurs (lit "?>") (a ++ w) /\ s = lit "<?xml" ++ a ++ w ++ lit "?>".

(** Documents (1, 22): a declaration, if any, and one or more elements (XML allows one)
    with what is around them. *)
Definition document (l : list xml) (text : str) : Prop :=
  (exists x, In x l /\ is_element x = true) /\
  (top_spelled l text \/
   exists d l' s r, l = XDeclaration (lit "xml") d [] :: l' /\ declaration_spelled d s /\ top_spelled l' r /\ text = s ++ r).
