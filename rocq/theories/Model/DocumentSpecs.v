(** core/DocumentSpec.{h,cpp}, core/DocumentHeader.{h,cpp} and utility/Parse.h: the names of the
    kinds of documents, texts compared without regard to case, and the head of a document.
    Characters are those of the "C" locale; char is signed. *)
From Coq Require Import List String Ascii ZArith Bool.
From Verif Require Import Model.Base Model.Text Model.XmlStream.
Import ListNotations.
Local Open Scope list_scope.
Local Open Scope Z_scope.

(** std::tolower( a ) of a char, utility/Parse.h:18. The argument is an int, which has to be the
    value of an unsigned char or EOF (-1, the character 255): other negative ones are undefined. *)
Definition to_lower (c : ascii) : outcome Z :=
  let n := code c in
  if n <? 128 then Ok (if (65 <=? n) && (n <=? 90) then n + 32 else n)
  else if n =? 255 then Ok (-1) else UB.

(** std::equal( b.begin(), b.end(), a.begin(), charCompareCaseInsensitive ), utility/Parse.h:32: it
    stops at the first difference. *)
Fixpoint equal_letters (b a : str) : outcome bool :=
  match b, a with
  | [], _ => Ok true
  | _ :: _, [] => UB
  | x :: b, y :: a => obind (to_lower x) (fun u => obind (to_lower y) (fun v => if u =? v then equal_letters b a else Ok false))
  end.

(** compareCaseInsensitive, utility/Parse.h:28-38. *)
Definition compareCaseInsensitive (a b : str) : outcome bool :=
  if Nat.eqb (List.length a) (List.length b) then equal_letters b a else Ok false.

(** std::toupper( ch, loc ), utility/Parse.h:53, which takes the character as unsigned. *)
Definition to_upper (c : ascii) : Z := let n := code c in if (97 <=? n) && (n <=? 122) then n - 32 else n.

(** Whether the characters of [t] begin those of [s], by my_equal. *)
Fixpoint begins (s t : str) : bool :=
  match t, s with
  | [], _ => true
  | y :: t, x :: s => (to_upper x =? to_upper y) && begins s t
  | _ :: _, [] => false
  end.

(** std::search, utility/Parse.h:65-67: the place of the first, or the end. *)
Fixpoint search (s t : str) : nat :=
  match s with
  | [] => O
  | _ :: r => if begins s t then O else S (search r t)
  end.

(** findCaseInsensitive and containsCaseInsensitive, utility/Parse.h:62-83. Simplification: the cast to
    int is left out (texts of 2^31 characters). *)
Definition findCaseInsensitive (s t : str) : Z :=
  if Nat.eqb (search s t) (List.length s) then -1 else Z.of_nat (search s t).
Definition containsCaseInsensitive (t s : str) : bool := -1 <? findCaseInsensitive s t.

(** The enumerations, DocumentSpec.h:22-56. The kinds of documents are those of XmlStream.v. *)
Inductive version := VersionUnknown | ThreePointZero.
Inductive specification := SpecificationUnknown | Dtd | Xsd.

(** toStream and toString, DocumentSpec.cpp:14-35: there is no break after timewise. *)
Definition choice_text (c : document_choice) : str :=
  match c with Partwise => lit "partwise" | Timewise => lit "timewise" ++ lit "error" end.

(** parseDocumentChoice, DocumentSpec.cpp:38-50, with DocumentSpec.h:28. *)
Definition parse_choice (t : str) : outcome document_choice :=
  obind (compareCaseInsensitive t (lit "partwise")) (fun p =>
    if p then Ok Partwise
    else obind (compareCaseInsensitive t (lit "timewise")) (fun q => Ok (if q then Timewise else Partwise))).

(** DocumentSpec.cpp:53-74: there is no break after the version either. *)
Definition version_text (v : version) : str :=
  match v with VersionUnknown => lit "unknown" | ThreePointZero => lit "3.0" ++ lit "error" end.

(** parseMusicXmlVersion, DocumentSpec.cpp:77-84, with DocumentSpec.h:41. *)
Definition parse_version (t : str) : outcome version :=
  obind (compareCaseInsensitive t (lit "3.0")) (fun p => Ok (if p then ThreePointZero else ThreePointZero)).

(** DocumentSpec.cpp:87-110. *)
Definition specification_text (s : specification) : str :=
  match s with
  | SpecificationUnknown => lit "unknown"
  | Dtd => lit "dtd" ++ lit "xsd" ++ lit "error"
  | Xsd => lit "xsd" ++ lit "error"
  end.

(** parseSpecificationType, DocumentSpec.cpp:113-124, with DocumentSpec.h:53: the second branch says
    dtd too. *)
Definition parse_specification (t : str) : outcome specification :=
  obind (compareCaseInsensitive t (lit "dtd")) (fun p =>
    if p then Ok Dtd
    else obind (compareCaseInsensitive t (lit "xsd")) (fun q => Ok (if q then Dtd else Xsd))).

(** DocumentHeader, DocumentHeader.h:56-95: of the specifications only the type of the document has
    more than one value. The constructors, DocumentHeader.cpp:75-94. *)
Definition new_header : document_choice := Partwise.
Definition header_of (c : document_choice) : document_choice := c.
(** setDocumentType, DocumentHeader.cpp:101-104. *)
Definition set_type (v : document_choice) (h : document_choice) : document_choice := v.
(** stream of the type, DocumentHeader.cpp:11-29. *)
Definition header_type (h : document_choice) : str := match h with Partwise => lit "score-partwise" | Timewise => lit "score-timewise" end.
(** toStream, DocumentHeader.cpp:106-144. *)
Definition header_text (h : document_choice) : str :=
  lit "<?xml version=""" ++ lit "1.0" ++ lit """ encoding=""" ++ lit "UTF-8" ++ lit """ standalone=""no""?>" ++ ["010"%char] ++
  lit "<!DOCTYPE " ++ header_type h ++ lit " PUBLIC ""-//Recordare//DTD MusicXML " ++ lit "3.0" ++ lit " " ++
  match h with Partwise => lit "Partwise" | Timewise => lit "Timewise" end ++
  lit "//EN"" ""http://www.musicxml.org/dtds/" ++ match h with Partwise => lit "partwise" | Timewise => lit "timewise" end ++ lit ".dtd"">".
