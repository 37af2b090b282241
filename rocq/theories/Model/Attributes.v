(* How the attributes of an element are read and written: parseAttribute,
   streamAttribute, and the common shape of the classes derived from
   AttributesInterface.  The classes themselves are in AttributeClasses.v.

   Simplification: a member is the text it is written as.  What a member of a
   C++ type makes of a text of the file is an argument of the functions,
   [takes type old text]: the text of the member afterwards, where [old] is its
   text before.  The types themselves are modelled in Decimals.v, Integers.v,
   Color.v, CoreEnums.v and the like. *)

From Coq Require Import String List Bool.
Import ListNotations.
Open Scope string_scope.

(* One call of streamAttribute in toStream: member, attribute name, flag.
   core/AttributesInterface.h:40-56 *)
Record writing := mkWriting { w_member : string; w_name : string; w_flag : string }.

(* One call of parseAttribute in fromXElementImpl: member, flag, attribute name
   and the declared type of the member.  core/FromXElement.h:340-365 *)
Record reading := mkReading
  { r_member : string; r_flag : string; r_name : string; r_type : string }.

(* A class derived from AttributesInterface (core/AttributesInterface.h:23-34):
   the flags its constructor sets, the flags of hasValues, the calls of toStream
   and of fromXElementImpl, and the flags that have to be set at its end. *)
Record attributeClass := mkAttributeClass
  { c_name : string;
    c_initial : list string;
    c_has : list string;
    c_writes : list writing;
    c_reads : list reading;
    c_found : list string }.

(* An element: class, name, attribute class, and whether its fromXElementImpl
   calls the one of its attributes. *)
Record elementClass := mkElement
  { e_class : string; e_name : string; e_attributes : option attributeClass; e_reads : bool }.

Definition mem (s : string) (l : list string) : bool := existsb (String.eqb s) l.

(* An attribute of the file or of the text written: name and value. *)
Definition attribute := (string * string)%type.

(* The members of an attribute class, and isSuccess. *)
Record values := mkValues
  { is_set : string -> bool; value : string -> string; success : bool }.

(* What a type makes of a text, given the text it had before. *)
Definition taking := string -> string -> string -> string.

(* The types whose overload of parseAttribute does not compare the value with
   the text: XsString and what derives from it or is an alias of that,
   core/FromXElement.cpp:565-584, Decimal and what derives from it, :587-606,
   CommaSeparatedText, DistanceType, LineWidthType and
   CommaSeparatedListOfPositiveIntegers, :814-905.  The others compare:
   Integer :609-635 and the rest to :809, and the template for enumerations,
   core/FromXElement.h:340-365. *)
Definition unchecked : list string :=
  ["XsString"; "XsToken"; "XsNMToken"; "XsID"; "XsIDREF"; "XsAnyUri"; "XmlLang";
   "XlinkHref"; "XlinkRole"; "XlinkTitle";
   "TenthsValue"; "DivisionsValue"; "NonNegativeDecimal"; "Percent"; "RotationDegrees";
   "TrillBeats";
   "CommaSeparatedText"; "DistanceType"; "LineWidthType"; "EndingNumber"; "TimeOnly"].

(* parseAttribute: nothing if the name is another; else the flag is set, the
   member takes the text, and in the types that compare the two isSuccess is
   cleared if they differ.  core/FromXElement.h:340-365,
   core/FromXElement.cpp:565-905.  Simplification: the messages are left out. *)
Definition parseAttribute (takes : taking) (r : reading) (a : attribute) (v : values)
  : option values :=
  if negb (String.eqb (fst a) (r_name r)) then None
  else
    let new := takes (r_type r) (value v (r_member r)) (snd a) in
    Some (mkValues
            (fun f => if String.eqb f (r_flag r) then true else is_set v f)
            (fun m => if String.eqb m (r_member r) then new else value v m)
            (if mem (r_type r) unchecked then success v
             else success v && String.eqb (snd a) new)).

(* The body of the loop of fromXElementImpl: the first call that knows the name
   ends it; a name no call knows is passed over.
   For example core/elements/WordsAttributes.cpp:115-138. *)
Fixpoint parseOne (takes : taking) (rs : list reading) (a : attribute) (v : values) : values :=
  match rs with
  | [] => v
  | r :: rest =>
      match parseAttribute takes r a v with
      | Some v' => v'
      | None => parseOne takes rest a v
      end
  end.

(* fromXElementImpl: isSuccess starts true, all attributes of the element are
   passed through the loop, and then each required flag is looked at.
   For example core/elements/SlurAttributes.cpp:100-139.
   [v] are the members after construction. *)
Definition fromXElement (takes : taking) (c : attributeClass) (attrs : list attribute)
  (v : values) : values :=
  let start := mkValues (is_set v) (value v) true in
  let v' := fold_left (fun w a => parseOne takes (c_reads c) a w) attrs start in
  mkValues (is_set v') (value v') (success v' && forallb (is_set v') (c_found c)).

(* The constructor: the flags set, and the text of each member, which is an
   argument.  For example core/elements/SlurAttributes.cpp:13-50. *)
Definition constructed (initial : string -> string) (c : attributeClass) : values :=
  mkValues (fun f => mem f (c_initial c)) initial true.

(* hasValues.  For example core/elements/SlurAttributes.cpp:53-72 *)
Definition hasValues (c : attributeClass) (v : values) : bool :=
  existsb (is_set v) (c_has c).

(* streamAttribute, core/AttributesInterface.h:40-56, as name and value. *)
Definition streamAttribute (w : writing) (v : values) : list attribute :=
  if is_set v (w_flag w) then [(w_name w, value v (w_member w))] else [].

(* toStream.  For example core/elements/SlurAttributes.cpp:74-98 *)
Definition toStream (c : attributeClass) (v : values) : list attribute :=
  if hasValues c v then flat_map (fun w => streamAttribute w v) (c_writes c) else [].

(* An element's attributes after fromXElement, and whether it succeeded as far
   as they are concerned.  For example core/elements/Slur.cpp:60-63; HoleClosed
   and Play do not pass the attributes on, core/elements/HoleClosed.cpp:90-96
   and core/elements/Play.cpp:173-200. *)
Definition readElement (takes : taking) (initial : string -> string) (e : elementClass)
  (attrs : list attribute) : option (attributeClass * values) * bool :=
  match e_attributes e with
  | None => (None, true)
  | Some c =>
      let v := constructed initial c in
      if e_reads e then
        let v' := fromXElement takes c attrs v in (Some (c, v'), success v')
      else (Some (c, v), true)
  end.

(* The attributes in the start tag: hasAttributes, then streamAttributes.
   core/ElementInterface.cpp:28-38 and :50-60, for example
   core/elements/Slur.cpp:19-33 *)
Definition writeElement (s : option (attributeClass * values)) : list attribute :=
  match s with
  | None => []
  | Some (c, v) => if hasValues c v then toStream c v else []
  end.

(* An element read from a file and written again. *)
Definition rewritten (takes : taking) (initial : string -> string) (e : elementClass)
  (attrs : list attribute) : list attribute :=
  writeElement (fst (readElement takes initial e attrs)).

(* Whether reading it succeeds; a file with an element that does not is refused. *)
Definition accepted (takes : taking) (initial : string -> string) (e : elementClass)
  (attrs : list attribute) : bool :=
  snd (readElement takes initial e attrs).
