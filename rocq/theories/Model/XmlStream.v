(** Elements with their processing instructions, how they are written as text and how they
    are read from a parsed document (core/ElementInterface.cpp,
    core/ProcessingInstruction.cpp, core/Document.cpp), and what the wrapper around pugixml
    does when it loads and saves (ezxml/src/private/private/PugiDoc.cpp, PugiElement.cpp).
    Simplification: one generic class of element stands for the hundreds of classes in
    core/elements. It has a name, the attributes that are present in the order in which they
    are written, and either a text or child elements; what the classes do with their parts
    is modelled in ElementReading, ElementSets and ElementClasses. *)
From Coq Require Import List Ascii String ZArith.
From Verif Require Import Model.Base Model.Text Model.Strings Model.PugiText.
Import ListNotations.
Local Open Scope char_scope.
Local Open Scope list_scope.

(** ProcessingInstruction, ProcessingInstruction.cpp:17-93. *)
Record instruction := mkInstruction { pi_name : str; pi_data : str; pi_child : bool }.

(** ProcessingInstruction( name, data ), setName, setData: :17-60; an empty name is ignored. *)
Definition make_instruction (name data : str) (child : bool) : instruction :=
  mkInstruction match name with [] => lit "default-name" | _ => name end data child.

(** ProcessingInstruction::toStream, :63-71. *)
Definition stream_instruction (p : instruction) : str := lit "<?" ++ pi_name p ++ lit " " ++ pi_data p ++ lit "?>".

Inductive core_element :=
| CoreElement (name : str) (attributes : list (str * str)) (instructions : list instruction) (body : core_body)
with core_body :=
| CoreText (t : str)
| CoreChildren (l : list core_element).

(** ** Loading and saving *)

(** compareCaseInsensitive, Parse.h:13-37. *)
Definition lower (c : ascii) : ascii := if ((65 <=? code c) && (code c <=? 90))%Z%bool then chr (code c + 32)%Z else c.
Definition same_name (a b : str) : bool := str_eqb (map lower a) (map lower b).

(** xml_node::attribute: the first attribute with exactly this name. *)
Definition find_attribute (name : str) (l : list (str * str)) : option str :=
  option_map snd (find (fun a => str_eqb (fst a) name) l).
Fixpoint set_attribute (name value : str) (l : list (str * str)) : list (str * str) :=
  match l with
  | [] => []
  | (n, v) :: r => if str_eqb n name then (n, value) :: r else (n, v) :: set_attribute name value r
  end.

(** PugiDoc::loadStream, PugiDoc.cpp:105-150: the declaration gets a version and an
    encoding ... *)
Definition standard_attributes : list (str * str) := [(lit "version", lit "1.0"); (lit "encoding", lit "UTF-8")].
Definition complete_attributes (l : list (str * str)) : list (str * str) :=
  match l with
  | [] => standard_attributes
  | a :: _ =>
      let l := if same_name (lit "version") (fst a) then l else (lit "version", lit "1.0") :: l in
      match l with
      | v :: e :: r => if same_name (lit "encoding") (fst e) then l else v :: (lit "encoding", lit "UTF-8") :: e :: r
      | [v] => [v; (lit "encoding", lit "UTF-8")]
      | [] => l
      end
  end.

(** ... and parseXmlDeclarationValues, :479-541, and setEncoding, :275-292, set them: a
    missing or empty version becomes 1.0, the encoding UTF-8 (other encodings are not
    modelled). *)
Definition settle_attributes (l : list (str * str)) : outcome (list (str * str)) :=
  let l := match find_attribute (lit "version") l with
           | Some (_ :: _) => l
           | _ => match l with (n, _) :: r => (n, lit "1.0") :: r | [] => l end
           end in
  match find_attribute (lit "encoding") l with
  | None => Throw
  | Some _ => Ok (set_attribute (lit "encoding") (lit "UTF-8") l)
  end.

Definition load_stream (text : str) : outcome (list xml) :=
  obind (parse_document text) (fun doc =>
    match doc with
    | XDeclaration n l kids :: r =>
        obind (settle_attributes (complete_attributes l)) (fun l => Ok (XDeclaration n l kids :: r))
    | _ => Ok (XDeclaration (lit "xml") standard_attributes [] :: doc)
    end).

(** PugiDoc::setDoctypeValue with setHasDoctypeDeclaration and getDoctypeNode, :397-461,
    543-567. *)
Definition set_doctype (v : str) (doc : list xml) : outcome (list xml) :=
  match doc with
  | (XDeclaration _ _ _ as d) :: XDoctype _ :: r => Ok (d :: XDoctype v :: r)
  | (XDeclaration _ _ _ as d) :: r => Ok (d :: XDoctype v :: r)
  | XDoctype _ :: r => Ok (XDoctype v :: r)
  | _ => Throw
  end.

(** PugiDoc::getRoot, :464-476: the first element, and what follows it. *)
Fixpoint get_root (doc : list xml) : option (xml * list xml) :=
  match doc with
  | [] => None
  | (XElement _ _ _ as x) :: r => Some (x, r)
  | _ :: r => get_root r
  end.

(** xml_text::_data and as_string, pugixml.cpp:6356-6369: the first text among the children. *)
Fixpoint text_of (kids : list xml) : str :=
  match kids with
  | [] => []
  | XText t :: _ | XCData t :: _ => t
  | _ :: r => text_of r
  end.

(** PugiElement::begin and beginWithProcessingInstructions, PugiElement.cpp:217-255. *)
Definition begin_all (kids : list xml) : list xml :=
  match kids with
  | XElement _ _ _ :: _ | XInstruction _ _ :: _ => kids
  | _ => []
  end.
Fixpoint skip_instructions (kids : list xml) : list xml :=
  match kids with
  | XInstruction _ _ :: r => skip_instructions r
  | _ => kids
  end.
Definition begin_elements (kids : list xml) : list xml := skip_instructions (begin_all kids).

(** PugiElement::getType, :48-69. *)
Inductive element_type := TypeText | TypeEmpty | TypeElement.
Definition type_of (kids : list xml) : element_type :=
  match text_of kids with
  | _ :: _ => TypeText
  | [] => match begin_elements kids with [] => TypeEmpty | _ => TypeElement end
  end.

(** ** Writing *)

(** indent, ElementInterface.cpp:103-110. *)
Definition stream_indent (level : nat) : str := List.concat (repeat (lit "   ") level).

(** writeChildProcessingInstructions, writeSiblingProcessingInstructions,
    writeAllProcessingInstructions, :194-254. *)
Definition stream_instructions (level : nat) (l : list instruction) : str :=
  match l with
  | [] => []
  | p :: r => stream_indent level ++ stream_instruction p ++
      flat_map (fun q => ["010"] ++ stream_indent level ++ stream_instruction q) r
  end.

(** streamOpenTag, streamCloseTag, streamSelfCloseTag, :28-59. *)
Definition stream_attributes (l : list (str * str)) : str := flat_map (fun a => stream_attribute (fst a) (snd a) true) l.
Definition open_text (n : str) (l : list (str * str)) : str := lit "<" ++ n ++ stream_attributes l ++ lit ">".
Definition close_text (n : str) : str := lit "</" ++ n ++ lit ">".
Definition self_close_text (n : str) (l : list (str * str)) : str := lit "<" ++ n ++ stream_attributes l ++ lit "/>".

(** toStream, :70-95, with hasContents, streamWithoutProcessingInstructions and
    streamWithProcessingInstructions, :61-67, 257-321. [contents level] is streamContents:
    a text is escaped and stays on the line; children are written one level deeper, each
    after a line end, and followed by one. Simplification: some classes leave out or add a
    line end; line ends between tags are not read.
    The document that is parsed to find out whether there are children is the element
    without its own instructions. *)
Fixpoint to_stream (level : nat) (e : core_element) {struct e} : outcome str :=
  match e with
  | CoreElement n l instructions body =>
      let contents level : outcome (str * bool) :=
        match body with
        | CoreText t => Ok (escape t, true)
        | CoreChildren [] => Ok ([], true)
        | CoreChildren kids =>
            omap (fun s => (s ++ ["010"], false))
              ((fix go (kids : list core_element) : outcome str :=
                  match kids with
                  | [] => Ok []
                  | k :: r => obind (to_stream (S level) k) (fun s => obind (go r) (fun q => Ok (["010"] ++ s ++ q)))
                  end) kids)
        end in
      obind (contents O) (fun c0 =>
      let plain level : outcome str :=
        match fst c0 with
        | [] => Ok (self_close_text n l)
        | _ => omap (fun c => open_text n l ++ fst c ++ (if snd c : bool then [] else stream_indent level) ++ close_text n) (contents level)
        end in
      match instructions with
      | [] => omap (fun s => stream_indent level ++ s) (plain level)
      | _ =>
          obind (plain O) (fun own =>
          obind (load_stream own) (fun doc =>
          match get_root doc with
          | Some (XElement _ _ kids, _) =>
              let hasChildren := match type_of kids with TypeElement => true | _ => false end in
              match fst c0 with
              | [] => Ok (stream_indent level ++ self_close_text n l ++ ["010"] ++ stream_instructions level instructions)
              | _ =>
                  omap (fun c =>
                    stream_indent level ++ open_text n l ++
                    (if hasChildren then stream_instructions (S level) (filter pi_child instructions) else []) ++
                    fst c ++ (if snd c : bool then [] else stream_indent level) ++ close_text n ++ ["010"] ++
                    stream_instructions level (if hasChildren then filter (fun p => negb (pi_child p)) instructions else instructions))
                  (contents level)
              end
          | _ => Throw
          end))
      end)
  end.

(** ** Reading *)

(** The leading instructions among the children, ElementInterface.cpp:135-155. *)
Definition instruction_of (child : bool) (n : str) (v : option str) : instruction :=
  make_instruction n match v with Some d => d | None => [] end child.
Fixpoint leading_instructions (kids : list xml) : outcome (list instruction) :=
  match kids with
  | [] => Ok []
  | XInstruction n v :: r => omap (cons (instruction_of true n v)) (leading_instructions r)
  | XElement _ _ _ :: _ => Ok []
  | _ => Throw
  end.

(** The instructions that follow, :157-165. *)
Fixpoint following_instructions (l : list xml) : list instruction :=
  match l with
  | XInstruction n v :: r => instruction_of false n v :: following_instructions r
  | _ => []
  end.

(** ElementInterface::fromXElement, :119-168, for a generic element: the children are all
    the elements that begin() and the iterator find (instructions are skipped, and any other
    node is an error, PugiElement.cpp:24-38). *)
Fixpoint read_element (x : xml) (following : list xml) {struct x} : outcome core_element :=
  match x with
  | XElement n l kids =>
      let children := fix go (kids : list xml) : outcome (list core_element) :=
        match kids with
        | [] => Ok []
        | XInstruction _ _ :: r => go r
        | (XElement _ _ _ as y) :: r => obind (read_element y r) (fun e => obind (go r) (fun es => Ok (e :: es)))
        | _ => Throw
        end in
      match type_of kids with
      | TypeText => Ok (CoreElement n l (following_instructions following) (CoreText (text_of kids)))
      | TypeEmpty => Ok (CoreElement n l (following_instructions following) (CoreText []))
      | TypeElement =>
          obind (children kids) (fun es =>
          obind (leading_instructions kids) (fun ps =>
          Ok (CoreElement n l (ps ++ following_instructions following) (CoreChildren es))))
      end
  | _ => Throw
  end.

(** ** Documents *)

(** Document::toStream, Document.cpp:109-131, and toXDoc, :134-157, for one of the two
    choices; then saveStream. *)
Inductive document_choice := Partwise | Timewise.
Definition doctype_of (c : document_choice) : str :=
  match c with
  | Partwise => lit "score-partwise PUBLIC ""-//Recordare//DTD MusicXML 3.0 Partwise//EN"" ""http://www.musicxml.org/dtds/partwise.dtd"""
  | Timewise => lit "score-timewise PUBLIC ""-//Recordare//DTD MusicXML 3.0 Timewise//EN"" ""http://www.musicxml.org/dtds/timewise.dtd"""
  end.
Definition default_xml_declaration : str := lit "<?xml version=""1.0"" encoding=""UTF-8"" standalone=""no""?>".
Definition document_stream (c : document_choice) (e : core_element) : outcome str :=
  omap (fun s => default_xml_declaration ++ ["010"] ++ lit "<!DOCTYPE " ++ doctype_of c ++ lit ">" ++ ["010"] ++ s) (to_stream 0 e).
Definition to_xdoc (c : document_choice) (e : core_element) : outcome (list xml) :=
  obind (document_stream c e) (fun s => obind (load_stream s) (set_doctype (doctype_of c))).
Definition write_stream (c : document_choice) (e : core_element) : outcome str := omap save_document (to_xdoc c e).

(** Document::fromXDoc, :160-181, after loadStream: the root's name decides. *)
Definition read_stream (text : str) : outcome (document_choice * core_element) :=
  obind (load_stream text) (fun doc =>
  match get_root doc with
  | Some (XElement n l kids as x, r) =>
      if str_eqb n (lit "score-partwise") then omap (pair Partwise) (read_element x r)
      else if str_eqb n (lit "score-timewise") then omap (pair Timewise) (read_element x r)
      else Throw
  | _ => Throw
  end).
