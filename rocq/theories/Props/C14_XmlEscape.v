(** C14: text content survives XML escaping. Element text: everything except a
    carriage return (which XML readers turn into a line feed). Attribute values:
    quotes are not escaped, so the claim fails for them; it holds for values
    without quotes and without tab, line feed or carriage return. *)
From Verif Require Import Proofs.Tac Model.Text Model.Strings Spec.XmlText Proofs.StringsProofs.

(** The escaped text is well-formed character data that denotes the text, and
    denotes nothing else. *)
Theorem C14_escape_denotes t : chardata (escape t) t /\ (forall u, chardata (escape t) u -> u = t).
Proof. exact (conj (escape_chardata t) (fun u H => chardata_functional _ _ _ H (escape_chardata t))). Qed.

(** No markup character is left in it. *)
Theorem C14_no_markup t : ~ In "<"%char (escape t) /\ ~ In ">"%char (escape t).
Proof. exact (chardata_no_markup _ _ (escape_chardata t)). Qed.

(** Different texts have different escaped forms. *)
Theorem C14_injective t u : escape t = escape u -> t = u.
Proof. exact (escape_injective t u). Qed.

(** Through a reader that also normalises line ends. *)
Theorem C14_text_survives_partial t : ~ In "013"%char t -> chardata (read_line_ends (escape t)) t.
Proof. exact (text_survives t). Qed.

Theorem C14_text_survives_refuted : exists t u, chardata (read_line_ends (escape t)) u /\ u <> t.
Proof. exact text_cr_lost. Qed.

(** The attribute is delimited correctly, whatever follows, and denotes its value. *)
Theorem C14_attribute_partial name v rest :
  ~ In dquote v -> ~ In "009"%char v -> ~ In "010"%char v -> ~ In "013"%char v ->
  exists literal,
    stream_attribute name v true ++ rest = lit " " ++ name ++ ["="%char; dquote] ++ literal ++ [dquote] ++ rest /\
    attr_literal (literal ++ [dquote] ++ rest) literal rest /\
    chardata (read_attr_ws (read_line_ends literal)) v.
Proof. exact (attribute_survives name v rest). Qed.

(** A value with a double quote is cut there and the rest spills into the tag. *)
Theorem C14_attribute_refuted : exists name v rest literal rest',
  stream_attribute name v true ++ rest = lit " " ++ name ++ ["="%char; dquote] ++ literal ++ [dquote] ++ rest' /\
  attr_literal (literal ++ [dquote] ++ rest') literal rest' /\
  ~ chardata (read_attr_ws (read_line_ends literal)) v.
Proof. exact attribute_broken. Qed.

(** An attribute that is not present writes nothing. *)
Theorem C14_attribute_absent name v : stream_attribute name v false = [].
Proof. exact (eq_refl _). Qed.

Example C14_example :
  escape (lit "a<b && c>d") = lit "a&lt;b &amp;&amp; c&gt;d" /\
  stream_attribute (lit "id") (lit "a&b") true = lit " id=" ++ [dquote] ++ lit "a&amp;b" ++ [dquote].
Proof. split; reflexivity. Qed.

Print Assumptions C14_escape_denotes.
Print Assumptions C14_no_markup.
Print Assumptions C14_injective.
Print Assumptions C14_text_survives_partial.
Print Assumptions C14_text_survives_refuted.
Print Assumptions C14_attribute_partial.
Print Assumptions C14_attribute_refuted.
Print Assumptions C14_attribute_absent.
