(** A whole file: its characters are parsed (PugiText.v), the elements found (XmlStream.v) are read
    into the classes of core/elements and written (Documents.v), and what is written is parsed and
    saved.

    Simplification: a file with processing instructions is not modelled here (XmlStream.v has
    them), nor is one that Documents.v leaves out; the outcome is then [None]. *)
From Coq Require Import List String Ascii Bool.
From Verif Require Import Model.Base Model.Text Model.PugiText Model.XmlStream Model.Attributes Model.Documents.
Import ListNotations.
Local Open Scope list_scope.

(** The elements of XmlStream.v as those of Documents.v. *)
Definition attribute_of (a : str * str) : attribute := (string_of_list_ascii (fst a), string_of_list_ascii (snd a)).
Fixpoint xml_of (e : core_element) : Documents.xml :=
  match e with
  | CoreElement n l _ (CoreText t) => Xml (string_of_list_ascii n) (map attribute_of l) t []
  | CoreElement n l _ (CoreChildren kids) => Xml (string_of_list_ascii n) (map attribute_of l) [] (map xml_of kids)
  end.
Fixpoint without_instructions (e : core_element) : bool :=
  match e with
  | CoreElement _ _ (_ :: _) _ => false
  | CoreElement _ _ [] (CoreText _) => true
  | CoreElement _ _ [] (CoreChildren kids) => forallb without_instructions kids
  end.

(** ElementInterface::toStream, ElementInterface.cpp:28-95, for characters that are put out as they
    are: those of Documents.v are already escaped. Children are written one level deeper, each after
    a line end, and followed by one. Simplification: some classes leave out or add a line end. *)
Definition put_attributes (l : list attribute) : str :=
  flat_map (fun a => lit " " ++ lit (fst a) ++ lit "=""" ++ lit (snd a) ++ lit """") l.
Fixpoint put_out (level : nat) (t : Documents.xml) : str :=
  let 'Xml n attrs text children := t in
  let tag := lit "<" ++ lit n ++ put_attributes attrs in
  stream_indent level ++
  match children with
  | [] => match text with
          | [] => tag ++ lit "/>"
          | _ => tag ++ lit ">" ++ text ++ lit "</" ++ lit n ++ lit ">"
          end
  | _ => tag ++ lit ">" ++ flat_map (fun c => ["010"%char] ++ put_out (S level) c) children ++ ["010"%char] ++
         stream_indent level ++ lit "</" ++ lit n ++ lit ">"
  end.

(** Document::toStream, Document.cpp:109-131. *)
Definition put_document (c : document_choice) (t : Documents.xml) : str :=
  default_xml_declaration ++ ["010"%char] ++ lit "<!DOCTYPE " ++ doctype_of c ++ lit ">" ++ ["010"%char] ++ put_out 0 t.

(** DocumentManager::createFromStream, DocumentManager.cpp:108-125, which throws if the document is
    not accepted, and writeToStream, :164-178, with Document::toXDoc, Document.cpp:134-157. *)
Definition rewrite_file (takes : taking) (initial : string -> string) (text : str) : option (outcome str) :=
  match read_stream text with
  | Throw => Some Throw
  | UB => Some UB
  | Ok (c, e) =>
      if without_instructions e then
        match reread_document takes initial (xml_of e) with
        | Some (true, t) => Some (omap save_document (obind (load_stream (put_document c t)) (set_doctype (doctype_of c))))
        | Some (false, _) => Some Throw
        | None => None
        end
      else None
  end.
