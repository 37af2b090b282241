(** White-space normalised tokens, XML names and XML character data. *)
From Coq Require Import List Ascii String ZArith.
From Verif Require Import Model.Text Spec.Numerals.
Import ListNotations.
Open Scope Z_scope.

(** [words t l]: [l] are the maximal runs of non-white-space characters of [t]. *)
Inductive words : str -> list str -> Prop :=
| words_none w : Forall ws_char w -> words w []
| words_next w a r l :
    Forall ws_char w -> a <> [] -> Forall (fun c => ~ ws_char c) a ->
    match r with c :: _ => ws_char c | [] => True end ->
    words r l -> words (w ++ a ++ r) (a :: l).

(** The words separated by single blanks. *)
Fixpoint join (sep : str) (l : list str) : str :=
  match l with
  | [] => []
  | [a] => a
  | a :: r => a ++ sep ++ join sep r
  end.

(** ASCII part of the XML NCName production: a letter or '_' followed by letters,
    digits, '-', '.' and '_'. *)
Definition letter (c : ascii) : Prop := 65 <= code c <= 90 \/ 97 <= code c <= 122.
Definition name_start (c : ascii) : Prop := letter c \/ c = "_"%char.
Definition name_char (c : ascii) : Prop :=
  name_start c \/ 48 <= code c <= 57 \/ c = "-"%char \/ c = "."%char.
Definition ncname (t : str) : Prop :=
  exists c r, t = c :: r /\ name_start c /\ Forall name_char r.

(** [chardata e t]: the well-formed XML character data [e] denotes the text [t]:
    no markup characters, and each '&' starts one of the three references used. *)
Inductive chardata : str -> str -> Prop :=
| cd_nil : chardata [] []
| cd_char c e t : c <> "<"%char -> c <> ">"%char -> c <> "&"%char -> chardata e t -> chardata (c :: e) (c :: t)
| cd_lt e t : chardata e t -> chardata (lit "&lt;" ++ e) ("<"%char :: t)
| cd_gt e t : chardata e t -> chardata (lit "&gt;" ++ e) (">"%char :: t)
| cd_amp e t : chardata e t -> chardata (lit "&amp;" ++ e) ("&"%char :: t).

(** XML 1.0, 2.11: CR LF and CR are read as LF. *)
Fixpoint read_line_ends (t : str) : str :=
  match t with
  | [] => []
  | c :: r =>
      if Ascii.eqb c "013" then
        "010"%char :: match r with
                      | d :: r' => if Ascii.eqb d "010" then read_line_ends r' else read_line_ends r
                      | [] => []
                      end
      else c :: read_line_ends r
  end.

(** XML 1.0, 3.3.3: white space in an attribute value is read as blanks. *)
Definition read_attr_ws (t : str) : str :=
  map (fun c => if existsb (Ascii.eqb c) ["009"; "010"; "013"]%char then " "%char else c) t.

(** What an XML reader takes as the literal of an attribute that starts here (after
    the opening quote): everything up to the next double quote, and what follows. *)
Definition attr_literal (t : str) (literal rest : str) : Prop :=
  t = literal ++ ["034"%char] ++ rest /\ ~ In "034"%char literal.
