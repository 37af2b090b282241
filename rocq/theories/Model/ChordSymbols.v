(** Chord symbols: DirectionWriter::createHarmonyElements, core::Harmony with
    HarmonyChordGroup, and the harmony part of DirectionReader.
    The values of the elements and attributes are handed from the writer to the reader
    without their text (C03, C04, C09, C13-C15); processing instructions likewise (C40).
    The editorial elements footnote and level of a harmony and the content of its frame
    are left out: the writer makes none and the reader looks at none. *)
From Coq Require Import List Bool String ZArith QArith Qround.
From Verif Require Import Model.Base Model.Text Model.Strings Model.LongDouble Model.Integers Model.Decimals Model.Ticks Model.EnumLookup
  Model.CoreEnums Model.ApiEnums Model.ConverterTables Model.Notations.
Import ListNotations.
Local Open Scope Z_scope.

(** ** The API data *)

(** include/mx/api/ChordData.h:55-80. *)
Inductive ExtensionType := Ext_add | Ext_remove | Ext_alter.
Inductive ExtensionNumber :=
  Ext_first | Ext_second | Ext_third | Ext_fourth | Ext_fifth | Ext_sixth | Ext_seventh | Ext_ninth | Ext_eleventh | Ext_thirteenth.
Inductive ExtensionAlter := Ext_none | Ext_flat | Ext_sharp | Ext_doubleFlat | Ext_doubleSharp.

(** class Extension, ChordData.h:82-91. *)
Record Extension := mkExtension {
  extensionType : ExtensionType; extensionAlter : ExtensionAlter; extensionNumber : ExtensionNumber; printObject : api_Bool }.

(** class ChordData, ChordData.h:140-156. A MiscData is the pair of its name and its data. *)
Record ChordData := mkChord {
  root : api_Step; rootAlter : Z; chordKind : api_ChordKind; chordText : str; useSymbols : api_Bool;
  bass : api_Step; bassAlter : Z; extensions : list Extension; miscData : list (str * str); chordPosition : PositionData }.

(** getAlterValue, ChordData.h:93-104. *)
Definition getAlterValue (a : ExtensionAlter) : Z :=
  match a with Ext_none => 0 | Ext_flat => -1 | Ext_sharp => 1 | Ext_doubleFlat => -2 | Ext_doubleSharp => 2 end.

(** setAlterValue, ChordData.h:106-128. *)
Definition setAlterValue (alter : Z) : ExtensionAlter :=
  if alter <=? -2 then Ext_doubleFlat
  else if alter =? -1 then Ext_flat
  else if alter =? 0 then Ext_none
  else if alter =? 1 then Ext_sharp
  else Ext_doubleSharp.

(** ** The elements *)

(** core::Degree with DegreeValue, DegreeAlter, DegreeType and the print-object attribute
    (None: absent), core/elements/Degree.h. *)
Record xdegree := mkDegree { dg_value : Z; dg_alter : Q; dg_type : DegreeTypeValue; dg_print : option bool }.

(** core::Root, core::Bass: the step and the alter if it is there. *)
Record xstep := mkXStep { st_step : StepEnum; st_alter : option Q }.

(** core::Kind with the attributes text and use-symbols. *)
Record xkind := mkKind { k_value : KindValue; k_text : option str; k_symbols : option bool }.

(** core::HarmonyChordGroup, core/elements/HarmonyChordGroup.h. [g_function]: the choice
    is function, whose text this is; otherwise the choice is root. *)
Record xgroup := mkGroup {
  g_function : option str; g_root : xstep; g_kind : xkind; g_inversion : option Z; g_bass : option xstep; g_degrees : list xdegree }.

(** core::Harmony, core/elements/Harmony.h: the attributes that are used, the groups,
    frame, offset, staff, and the processing instructions (name and data). *)
Record xharmony := mkHarmony {
  h_position : xposition; h_groups : list xgroup; h_frame : bool; h_offset : option Q; h_staff : option Z;
  h_instructions : list (str * str) }.

(** HarmonyAttributes.h:28-53 has placement but neither halign nor valign. *)
Definition harmony_declares := placement_declares.

(** ** Writing *)

(** DirectionWriter.cpp:427-432,436-443: the step, and the alter unless it is 0. *)
Definition write_step (s : api_Step) (alter : Z) : outcome xstep :=
  omap (mkXStep (stepMap_toCore s))
    (if alter =? 0 then Ok None else omap Some (decimal_value Semitones (inject_Z alter))).

(** DirectionWriter.cpp:469-480: the number of the degree; PositiveInteger keeps it. *)
Definition degree_number (n : ExtensionNumber) : Z :=
  ir_value (Integers.construct PositiveInteger
    match n with
    | Ext_first => 1 | Ext_second => 2 | Ext_third => 3 | Ext_fourth => 4 | Ext_fifth => 5 | Ext_sixth => 6 | Ext_seventh => 7
    | Ext_ninth => 9 | Ext_eleventh => 11 | Ext_thirteenth => 13
    end).

(** DirectionWriter.cpp:482-489. *)
Definition degree_alter (a : ExtensionAlter) : Z :=
  match a with Ext_doubleFlat => -2 | Ext_doubleSharp => 2 | Ext_flat => -1 | Ext_sharp => 1 | Ext_none => 0 end.

(** DirectionWriter.cpp:452-463. *)
Definition degree_type (t : ExtensionType) : DegreeTypeValue :=
  match t with Ext_add => DegreeTypeValue_add | Ext_remove => DegreeTypeValue_subtract | Ext_alter => DegreeTypeValue_alter end.

(** DirectionWriter.cpp:448-492: printObject is not written. *)
Definition write_degree (e : Extension) : outcome xdegree :=
  omap (fun a => mkDegree (degree_number (extensionNumber e)) a (degree_type (extensionType e)) None)
    (decimal_value Semitones (inject_Z (degree_alter (extensionAlter e)))).

Fixpoint outcomes {A B} (f : A -> outcome B) (l : list A) : outcome (list B) :=
  match l with
  | [] => Ok []
  | x :: r => obind (f x) (fun y => omap (cons y) (outcomes f r))
  end.

(** DirectionWriter.cpp:423-492: one chord. *)
Definition write_group (c : ChordData) : outcome xgroup :=
  obind (write_step (match root c with api_Step_unspecified => api_Step_c | s => s end) (rootAlter c)) (fun r =>
  obind (match bass c with api_Step_unspecified => Ok None | s => omap Some (write_step s (bassAlter c)) end) (fun b =>
  obind (outcomes write_degree (extensions c)) (fun ds =>
  Ok (mkGroup None r
        (mkKind (kindMap_toCore (chordKind c))
           (match chordText c with [] => None | t => Some (token_of t) end)
           (match useSymbols c with
            | api_Bool_unspecified => None
            | api_Bool_yes => Some true
            | api_Bool_no => Some false
            end))
        None b ds)))).

(** ProcessingInstruction( name, data ), core/ProcessingInstruction.cpp:27-32,44-50: an
    empty name leaves the default. *)
Definition instruction (m : str * str) : str * str :=
  (match fst m with [] => lit "default-name" | n => n end, snd m).

(** DirectionWriter::createHarmonyElements, DirectionWriter.cpp:367-505. [offset]: the
    argument inOffset; [staff]: the staff index if the direction's staff is specified. *)
Definition createHarmonyElements (offset : Z) (staff : option Z) (chords : list ChordData) : outcome (option xharmony) :=
  match chords with
  | [] => Ok None
  | first :: _ =>
      obind (if offset =? 0 then Ok None else omap Some (decimal_value DivisionsValue (inject_Z offset))) (fun o =>
      obind (setAttributesFromPositionData harmony_declares (chordPosition first)) (fun p =>
      obind (outcomes write_group chords) (fun gs =>
      Ok (Some (mkHarmony p gs false o
        (option_map (fun i => ir_value (Integers.construct PositiveInteger (i + 1))) staff)
        (flat_map (fun c => map instruction (miscData c)) chords))))))
  end.

(** ** The children of the element *)

(** The child elements of <harmony>. *)
Inductive hchild :=
| CRoot (r : xstep)
| CFunction (f : str)
| CKind (k : xkind)
| CInversion (n : Z)
| CBass (b : xstep)
| CDegree (d : xdegree)
| CFrame
| COffset (o : Q)
| CStaff (n : Z).

Definition optional {A B} (f : A -> B) (x : option A) : list B := match x with Some v => [f v] | None => [] end.

(** HarmonyChordGroup::streamContents, HarmonyChordGroup.cpp:56-88. *)
Definition stream_group (g : xgroup) : list hchild :=
  match g_function g with None => [CRoot (g_root g)] | Some f => [CFunction f] end ++
  [CKind (g_kind g)] ++ optional CInversion (g_inversion g) ++ optional CBass (g_bass g) ++ map CDegree (g_degrees g).

(** Harmony::streamContents, Harmony.cpp:64-94. *)
Definition stream_harmony (h : xharmony) : list hchild :=
  flat_map stream_group (h_groups h) ++ (if h_frame h then [CFrame] else []) ++
  optional COffset (h_offset h) ++ optional CStaff (h_staff h).

(** makeHarmonyChordGroup(): HarmonyChordGroup.cpp:19-29: the choice is root; RootStep{} holds
    a, Kind{} none; nothing optional. *)
Definition default_group : xgroup :=
  mkGroup None (mkXStep StepEnum_a None) (mkKind KindValue_none None None) None None [].

(** Harmony::addGroup, Harmony.cpp:338-350, on the set and the flag isFirst. *)
Definition addGroup (g : xgroup) (st : list xgroup * bool) : list xgroup * bool :=
  let (set, isFirst) := st in
  if negb isFirst && Nat.eqb (List.length set) 1 then ([g], true) else (set ++ [g], true).

(** The degrees in front, Harmony.cpp:305-312. *)
Fixpoint take_degrees (l : list hchild) : list xdegree * list hchild :=
  match l with
  | CDegree d :: r => let (ds, rest) := take_degrees r in (d :: ds, rest)
  | _ => ([], l)
  end.

(** Harmony.cpp:288-294, 296-302. *)
Definition take_inversion (l : list hchild) : option Z * list hchild :=
  match l with CInversion n :: r => (Some n, r) | _ => (None, l) end.
Definition take_bass (l : list hchild) : option xstep * list hchild :=
  match l with CBass b :: r => (Some b, r) | _ => (None, l) end.

(** What Harmony::fromXElementImpl has read: the set, isFirstHarmonyChordGroupAdded, the
    frame, offset and staff. *)
Record hreading := mkReading { r_groups : list xgroup * bool; r_frame : bool; r_offset : option Q; r_staff : option Z }.

(** One group, Harmony.cpp:263-321; [None]: "'kind' is a required element and is missing
    aborting". [f]: the text of a function; a root otherwise. *)
Definition read_group (f : option str) (rt : xstep) (l : list hchild) : option (xgroup * list hchild) :=
  match l with
  | CKind k :: l1 =>
      let (inv, l2) := take_inversion l1 in
      let (b, l3) := take_bass l2 in
      let (ds, l4) := take_degrees l3 in
      Some (mkGroup f rt k inv b ds, l4)
  | _ => None
  end.

(** The loop of Harmony::fromXElementImpl, Harmony.cpp:259-327. An early return at the
    end of the children gives what going on with no children gives. [fuel] bounds the
    number of rounds; the number of children is enough. *)
Fixpoint read_children (fuel : nat) (l : list hchild) (st : hreading) : option hreading :=
  match fuel with
  | O => None
  | S n =>
      let group f rt r :=
        match read_group f rt r with
        | Some (g, rest) => read_children n rest (mkReading (addGroup g (r_groups st)) (r_frame st) (r_offset st) (r_staff st))
        | None => None
        end in
      match l with
      | [] => Some st
      | CRoot rt :: r => group None rt r
      | CFunction f :: r => group (Some f) (g_root default_group) r
      | CFrame :: r => read_children n r (mkReading (r_groups st) true (r_offset st) (r_staff st))
      | COffset o :: r => read_children n r (mkReading (r_groups st) (r_frame st) (Some o) (r_staff st))
      | CStaff s :: r => read_children n r (mkReading (r_groups st) (r_frame st) (r_offset st) (Some s))
      | _ :: r => read_children n r st
      end
  end.

(** Harmony::fromXElementImpl, Harmony.cpp:252-336, given the attributes and the
    processing instructions; [None]: it returns false. isChoiceFound is set with the
    first group. *)
Definition read_harmony (p : xposition) (instructions : list (str * str)) (l : list hchild) : option xharmony :=
  match read_children (S (List.length l)) l (mkReading ([default_group], false) false None None) with
  | Some st =>
      if snd (r_groups st)
      then Some (mkHarmony p (fst (r_groups st)) (r_frame st) (r_offset st) (r_staff st) instructions)
      else None
  | None => None
  end.

(** ** Reading *)

(** utility::roundTo<DecimalType, int>, utility/Round.h:11-15: undefined outside int. *)
Definition roundTo (x : Q) : outcome Z := as_int (Qceiling (ld (x - (1 # 2)))).

Definition round_option (x : option Q) : outcome Z := match x with None => Ok 0 | Some v => roundTo v end.

(** DirectionReader.cpp:732-746: None: doAddExtension is false. *)
Definition extension_number (value : Z) : option ExtensionNumber :=
  match value with
  | 1 => Some Ext_first | 2 => Some Ext_second | 3 => Some Ext_third | 4 => Some Ext_fourth | 5 => Some Ext_fifth
  | 6 => Some Ext_sixth | 7 => Some Ext_seventh | 9 => Some Ext_ninth | 11 => Some Ext_eleventh | 13 => Some Ext_thirteenth
  | _ => None
  end.

(** DirectionReader.cpp:703-709. *)
Definition extension_type (t : DegreeTypeValue) : ExtensionType :=
  match t with DegreeTypeValue_alter => Ext_alter | DegreeTypeValue_add => Ext_add | DegreeTypeValue_subtract => Ext_remove end.

(** DirectionReader.cpp:711-730. *)
Definition extension_alter (alter : Z) : ExtensionAlter :=
  if alter <=? -2 then Ext_doubleFlat
  else if alter =? -1 then Ext_flat
  else if alter =? 0 then Ext_none
  else if alter =? 1 then Ext_sharp
  else Ext_doubleSharp.

(** A YesNo attribute as api::Bool, DirectionReader.cpp:675-685,748-758. *)
Definition bool_attribute (x : option bool) : api_Bool :=
  match x with None => api_Bool_unspecified | Some true => api_Bool_yes | Some false => api_Bool_no end.

(** DirectionReader.cpp:692-765: the extensions of one degree. *)
Definition read_degree (d : xdegree) : outcome (list Extension) :=
  obind (roundTo (dg_alter d)) (fun alter =>
  Ok (match extension_number (dg_value d) with
      | Some n => [mkExtension (extension_type (dg_type d)) (extension_alter alter) n (bool_attribute (dg_print d))]
      | None => []
      end)).

(** DirectionReader::parseHarmony, DirectionReader.cpp:658-784. *)
Definition parseHarmony (h : xharmony) (g : xgroup) : outcome ChordData :=
  obind (round_option (st_alter (g_root g))) (fun ra =>
  obind (match g_bass g with None => Ok 0 | Some b => round_option (st_alter b) end) (fun ba =>
  obind (outcomes read_degree (g_degrees g)) (fun es =>
  Ok (mkChord (stepMap_toApi (st_step (g_root g))) ra (kindMap_toApi (k_value (g_kind g)))
        (match k_text (g_kind g) with Some t => t | None => [] end)
        (bool_attribute (k_symbols (g_kind g)))
        (match g_bass g with None => api_Step_unspecified | Some b => stepMap_toApi (st_step b) end) ba
        (List.concat es) (h_instructions h) (getPositionData (h_position h)))))).

(** DirectionReader::parseValues on a harmony, DirectionReader.cpp:169-178: groups with a
    function are passed over. *)
Definition parse_groups (h : xharmony) : outcome (list ChordData) :=
  outcomes (parseHarmony h) (filter (fun g => match g_function g with None => true | Some _ => false end) (h_groups h)).

(** The placement and the staff flag of the direction that is read,
    DirectionReader.cpp:102-117,140-156. *)
Definition direction_placement (h : xharmony) : api_Placement :=
  match x_placement (h_position h) with Some p => placementMap_toApi p | None => api_Placement_unspecified end.
Definition direction_staff_specified (h : xharmony) : bool := match h_staff h with Some _ => true | None => false end.

(** The chords of a direction after it is written and the element is read back. *)
Definition chords_back (offset : Z) (staff : option Z) (chords : list ChordData) : outcome (option (list ChordData)) :=
  obind (createHarmonyElements offset staff chords) (fun w =>
  match w with
  | None => Ok (Some [])
  | Some h =>
      match read_harmony (h_position h) (h_instructions h) (stream_harmony h) with
      | None => Ok None
      | Some h' => omap Some (parse_groups h')
      end
  end).
