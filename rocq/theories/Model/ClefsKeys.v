(** Clefs and keys: include/mx/api/{ClefData,KeyData,KeyComponent}.h, api/ClefData.cpp,
    impl/PropertiesWriter.cpp, impl/MeasureReader.cpp, core/elements/{Clef,Key}.cpp. *)
From Coq Require Import List Ascii Bool String ZArith QArith.
From Verif Require Import Model.Base Model.Text Model.Integers Model.Alter Model.EnumLookup Model.CoreEnums Model.ApiEnums
  Model.ConverterTables Model.CustomEnums.
Import ListNotations.
Local Open Scope Z_scope.

(** ** The data of the interface *)

(** enum class ClefLocation, ClefData.h:26-32. *)
Inductive ClefLocation := Location_unspecified | Location_beforeBarline | Location_afterBarline | Location_midMeasure.

(** class ClefData, ClefData.h:39-70. *)
Record ClefData := mkClef { cf_symbol : api_ClefSymbol; cf_line : Z; cf_octaveChange : Z; cf_tick : Z; cf_location : ClefLocation }.

(** ClefData(), ClefData.cpp:12-20. *)
Definition newClef : ClefData := mkClef api_ClefSymbol_g 2 0 0 Location_unspecified.

(** setTreble, setBass, ... ClefData.cpp:44-97. *)
Inductive clef_name := Treble | Bass | Alto | Tenor | Baritone | Soprano | MezzoSoprano.
Definition set_named (n : clef_name) (c : ClefData) : ClefData :=
  let put s l := mkClef s l 0 (cf_tick c) (cf_location c) in
  match n with
  | Treble => put api_ClefSymbol_g 2
  | Bass => put api_ClefSymbol_f 4
  | Alto => put api_ClefSymbol_c 3
  | Tenor => put api_ClefSymbol_c 4
  | Baritone => put api_ClefSymbol_c 5
  | Soprano => put api_ClefSymbol_c 0
  | MezzoSoprano => put api_ClefSymbol_c 1
  end.

(** isTreble, isBass, ... ClefData.cpp:100-138. *)
Definition is_named (n : clef_name) (c : ClefData) : bool :=
  let has s l := (api_ClefSymbol_value (cf_symbol c) =? api_ClefSymbol_value s) && (cf_line c =? l) && (cf_octaveChange c =? 0) in
  match n with
  | Treble => has api_ClefSymbol_g 2
  | Bass => has api_ClefSymbol_f 4
  | Alto => has api_ClefSymbol_c 3
  | Tenor => has api_ClefSymbol_c 4
  | Baritone => has api_ClefSymbol_c 5
  | Soprano => has api_ClefSymbol_c 0
  | MezzoSoprano => has api_ClefSymbol_c 1
  end.

(** toString, ClefData.cpp:23-41. *)
Definition clef_toString (c : ClefData) : str :=
  lit "Symbol " ++
  match cf_symbol c with
  | api_ClefSymbol_g => lit "G"
  | api_ClefSymbol_f => lit "F"
  | api_ClefSymbol_c => lit "C"
  | api_ClefSymbol_percussion => lit "Percussion"
  | api_ClefSymbol_tab => lit "Tab"
  | api_ClefSymbol_jianpu => lit "Jianpu"
  | api_ClefSymbol_none => lit "None"
  end ++ lit ", Line " ++ print_int (cf_line c) ++ lit ", OctaveChange " ++ print_int (cf_octaveChange c).

(** KeyComponent, KeyComponent.h:16-53; enum class KeyMode, KeyData.h:12-18; KeyData,
    KeyData.h:44-92. *)
Record KeyComponent := mkComponent { kc_step : api_Step; kc_alter : Z; kc_cents : Q; kc_accidental : api_Accidental }.
Inductive KeyMode := Mode_unspecified | Mode_unsupported | Mode_major | Mode_minor.
Record KeyData := mkKeyData {
  ky_fifths : Z; ky_cancel : Z; ky_mode : KeyMode; ky_tick : Z; ky_staff : Z; ky_nonTraditional : list KeyComponent }.
Definition newKey : KeyData := mkKeyData 0 0 Mode_unspecified 0 (-1) [].

(** ** The elements *)

(** A child of <clef>, with its text; [CkOther]: an element of another name. *)
Inductive clef_child := CkSign (t : str) | CkLine (t : str) | CkOctaveChange (t : str) | CkOther.
(** <clef> in a file: the attributes number and after-barline, and the children. *)
Record fclef := mkFClef { fc_number : option Z; fc_afterBarline : option YesNo; fc_children : list clef_child }.

(** Clef, core/elements/Clef.h: the flags with what they tell the presence of. *)
Record xclef := mkXClef {
  xc_number : option Z; xc_afterBarline : option YesNo; xc_sign : ClefSign;
  xc_hasLine : bool; xc_line : int_range; xc_hasChange : bool; xc_change : Z }.
(** Clef(), Clef.cpp:16-23, Sign.cpp:13-15, Line.cpp:13-15, ClefOctaveChange.cpp:13-15. *)
Definition newXClef (number : option Z) (after : option YesNo) : xclef :=
  mkXClef number after ClefSign_g false (Integers.construct_default StaffLine) false 0.

(** A child of <key>. *)
Inductive key_child := KkCancel (t : str) | KkFifths (t : str) | KkMode (t : str) | KkStep (t : str) | KkAlter (t : str)
  | KkAccidental (t : str) | KkOctave | KkOther.
Record fkey := mkFKey { fk_number : option Z; fk_children : list key_child }.

(** NonTraditionalKey, NonTraditionalKey.cpp:17-23. The alteration is kept as its text,
    [None] for a Semitones{}; Alter.v says what is made of it. *)
Record xcomponent := mkXComponent { xk_step : StepEnum; xk_alter : option str; xk_accidental : option AccidentalValue }.
Definition newXComponent : xcomponent := mkXComponent StepEnum_a None None.

(** Key with its KeyChoice and TraditionalKey: Key.cpp:22-26, KeyChoice.cpp:15-19,
    TraditionalKey.cpp:17-25. The key-octaves are left out: they are neither set nor read. *)
Record xkey := mkXKey {
  xk_number : option Z; xk_isNonTraditional : bool; xk_hasCancel : bool; xk_cancel : int_range; xk_fifths : int_range;
  xk_mode : option (custom ModeEnum); xk_components : list xcomponent }.
Definition newXKey (number : option Z) : xkey :=
  mkXKey number false false (Integers.construct FifthsValue 0) (Integers.construct FifthsValue 0) None [].

(** ** Writing *)

(** The number attribute: PropertiesWriter.cpp:157-161,263-267. *)
Definition staff_number (staffIndex : Z) : option Z :=
  if 0 <=? staffIndex then Some (ir_value (Integers.construct StaffNumber (staffIndex + 1))) else None.

(** PropertiesWriter::writeClef, PropertiesWriter.cpp:259-284. *)
Definition write_clef (staffIndex : Z) (c : ClefData) : xclef :=
  mkXClef (staff_number staffIndex) None (clefMap_toCore (cf_symbol c))
    (0 <=? cf_line c) (if 0 <=? cf_line c then Integers.construct StaffLine (cf_line c) else Integers.construct_default StaffLine)
    (negb (cf_octaveChange c =? 0)) (cf_octaveChange c).

(** Clef::streamContents, Clef.cpp:51-68. *)
Definition stream_clef (x : xclef) : fclef :=
  mkFClef (xc_number x) (xc_afterBarline x)
    ([CkSign (ClefSign_toString (xc_sign x))] ++
     (if xc_hasLine x then [CkLine (print_range (xc_line x))] else []) ++
     (if xc_hasChange x then [CkOctaveChange (print_int (xc_change x))] else [])).

(** writeNonTraditionalKey, PropertiesWriter.cpp:175-198, for one component: accidental{} is
    none. *)
Definition write_component (k : KeyComponent) : outcome xcomponent :=
  omap (fun alter =>
      mkXComponent (stepMap_toCore (match kc_step k with api_Step_unspecified => api_Step_c | s => s end)) (Some alter)
        (match kc_accidental k with api_Accidental_none => None | a => Some (accidentalMap_toCore a) end))
    (writeKeyAlter (kc_alter k) (kc_cents k)).

(** core::ModeValue{ mode }, PropertiesWriter.cpp:212-216. *)
Definition mode_value (v : ModeEnum) : custom ModeEnum := construct_enum isOther_ModeValue v.

Fixpoint outcome_map {A B} (f : A -> outcome B) (l : list A) : outcome (list B) :=
  match l with [] => Ok [] | a :: r => obind (f a) (fun b => omap (cons b) (outcome_map f r)) end.

(** PropertiesWriter::writeKey, PropertiesWriter.cpp:149-218. *)
Definition write_key (staffIndex : Z) (k : KeyData) : outcome xkey :=
  let x := newXKey (staff_number staffIndex) in
  match ky_nonTraditional k with
  | [] =>
      Ok (mkXKey (xk_number x) false (negb (ky_cancel k =? 0))
            (if ky_cancel k =? 0 then xk_cancel x else Integers.construct FifthsValue (ky_cancel k))
            (Integers.construct FifthsValue (ky_fifths k))
            (match ky_mode k with
             | Mode_major => Some (mode_value ModeEnum_major)
             | Mode_minor => Some (mode_value ModeEnum_minor)
             | _ => None
             end) [])
  | l => omap (fun cs => mkXKey (xk_number x) true false (xk_cancel x) (xk_fifths x) None cs) (outcome_map write_component l)
  end.

(** NonTraditionalKey::streamContents, NonTraditionalKey.cpp:50-67. *)
Definition stream_component (c : xcomponent) : list key_child :=
  [KkStep (StepEnum_toString (xk_step c)); KkAlter (match xk_alter c with Some t => t | None => lit "0" end)] ++
  match xk_accidental c with Some a => [KkAccidental (AccidentalValue_toString a)] | None => [] end.

(** KeyChoice::streamContents, KeyChoice.cpp:46-73; TraditionalKey.cpp:52-69. *)
Definition stream_key (x : xkey) : fkey :=
  mkFKey (xk_number x)
    (if xk_isNonTraditional x then flat_map stream_component (xk_components x)
     else (if xk_hasCancel x then [KkCancel (print_range (xk_cancel x))] else []) ++ [KkFifths (print_range (xk_fifths x))] ++
          match xk_mode x with Some m => [KkMode (getValueString isOther_ModeValue ModeEnum_toString m)] | None => [] end).

(** ** Reading *)

(** Clef::fromXElementImpl, Clef.cpp:152-173, for one child. *)
Definition read_clef_child (x : xclef) (c : clef_child) : xclef :=
  match c with
  | CkSign t => mkXClef (xc_number x) (xc_afterBarline x) (parse_ClefSign t) (xc_hasLine x) (xc_line x) (xc_hasChange x) (xc_change x)
  | CkLine t => mkXClef (xc_number x) (xc_afterBarline x) (xc_sign x) true (fst (parse_range (xc_line x) t)) (xc_hasChange x) (xc_change x)
  | CkOctaveChange t =>
      mkXClef (xc_number x) (xc_afterBarline x) (xc_sign x) (xc_hasLine x) (xc_line x) true
        (match parse_int t with Some v => v | None => xc_change x end)
  | CkOther => x
  end.
Definition read_xclef (f : fclef) : xclef := fold_left read_clef_child (fc_children f) (newXClef (fc_number f) (fc_afterBarline f)).

(** MeasureReader::importClef, MeasureReader.cpp:684-766: the clef and the index of its staff.
    [tick]: the cursor's. *)
Definition import_clef (tick : Z) (x : xclef) : ClefData * Z :=
  let symbol := clefMap_toApi (xc_sign x) in
  (mkClef symbol
     (if xc_hasLine x then ir_value (xc_line x)
      else match symbol with
           | api_ClefSymbol_g => 2
           | api_ClefSymbol_f => 4
           | api_ClefSymbol_c => 3
           | api_ClefSymbol_jianpu => 1
           | api_ClefSymbol_tab => 1
           | api_ClefSymbol_percussion => 3
           | _ => 3
           end)
     (if xc_hasChange x then xc_change x else 0) tick
     (if tick =? 0 then
        match xc_afterBarline x with
        | Some YesNo_yes => Location_afterBarline
        | Some YesNo_no => Location_beforeBarline
        | None => Location_unspecified
        end
      else Location_midMeasure),
   match xc_number x with Some n => n - 1 | None => 0 end).

Definition read_clef (tick : Z) (f : fclef) : ClefData * Z := import_clef tick (read_xclef f).
Definition clef_back (tick staffIndex : Z) (c : ClefData) : ClefData * Z := read_clef tick (stream_clef (write_clef staffIndex c)).

(** Key::importTraditionalKey, Key.cpp:164-212: a cancel, fifths, mode at the front, each if it
    is there; [None]: none of them. *)
Definition take_cancel (x : xkey) (l : list key_child) : xkey * list key_child :=
  match l with
  | KkCancel t :: r =>
      (mkXKey (xk_number x) false true (fst (parse_range (xk_cancel x) t)) (xk_fifths x) (xk_mode x) (xk_components x), r)
  | _ => (x, l)
  end.
Definition take_fifths (x : xkey) (l : list key_child) : xkey * list key_child :=
  match l with
  | KkFifths t :: r =>
      (mkXKey (xk_number x) false (xk_hasCancel x) (xk_cancel x) (fst (parse_range (xk_fifths x) t)) (xk_mode x) (xk_components x), r)
  | _ => (x, l)
  end.
(** Mode::fromXElementImpl, Mode.cpp:69-75; Mode() holds a ModeValue(), Enums.cpp:2268-2273. *)
Definition take_mode (x : xkey) (l : list key_child) : xkey * list key_child :=
  match l with
  | KkMode t :: r =>
      (mkXKey (xk_number x) false (xk_hasCancel x) (xk_cancel x) (xk_fifths x)
         (Some (setValue_text isOther_ModeValue ModeEnum_other tryParse_ModeEnum
                  (match xk_mode x with Some m => m | None => mode_value ModeEnum_major end) t)) (xk_components x), r)
  | _ => (x, l)
  end.
Definition import_traditional (x : xkey) (l : list key_child) : option (xkey * list key_child) :=
  match l with
  | (KkCancel _ | KkFifths _ | KkMode _) :: _ =>
      let (x1, l1) := take_cancel x l in let (x2, l2) := take_fifths x1 l1 in Some (take_mode x2 l2)
  | _ => None
  end.

(** Key::importNonTraditionalKey, Key.cpp:215-278. One turn of the loop: a component of a step,
    an alter and an accidental at the front, each if it is there. *)
Definition take_component (l : list key_child) : xcomponent * list key_child :=
  let (s, l1) := match l with KkStep t :: r => (parse_StepEnum t, r) | _ => (xk_step newXComponent, l) end in
  let (a, l2) := match l1 with KkAlter t :: r => (Some t, r) | _ => (xk_alter newXComponent, l1) end in
  let (c, l3) := match l2 with KkAccidental t :: r => (Some (parse_AccidentalValue t), r) | _ => (xk_accidental newXComponent, l2) end in
  (mkXComponent s a c, l3).
Definition in_component (l : list key_child) : bool :=
  match l with (KkStep _ | KkAlter _ | KkAccidental _) :: _ => true | _ => false end.
(** The component takes the place of the only one that is there if it is the first of this
    call. *)
Definition add_component (first : bool) (set : list xcomponent) (c : xcomponent) : list xcomponent :=
  if first && (List.length set =? 1)%nat then [c] else set ++ [c].
(** The fuel is the number of children, which is enough. *)
Fixpoint import_components (fuel : nat) (first : bool) (set : list xcomponent) (l : list key_child) : list xcomponent * list key_child :=
  match fuel with
  | O => (set, l)
  | Datatypes.S fuel =>
      if in_component l then
        let (c, r) := take_component l in import_components fuel false (add_component first set c) r
      else (set, l)
  end.

(** Key::fromXElementImpl, Key.cpp:143-161. *)
Fixpoint read_key_children (fuel : nat) (x : xkey) (l : list key_child) : xkey :=
  match fuel, l with
  | Datatypes.S fuel, c :: r =>
      match import_traditional x l with
      | Some (x', rest) => read_key_children fuel x' rest
      | None =>
          if in_component l then
            let (set, rest) := import_components (List.length l) true (xk_components x) l in
            read_key_children fuel
              (mkXKey (xk_number x) true (xk_hasCancel x) (xk_cancel x) (xk_fifths x) (xk_mode x) set) rest
          else read_key_children fuel x r
      end
  | _, _ => x
  end.
Definition read_xkey (f : fkey) : xkey := read_key_children (List.length (fk_children f)) (newXKey (fk_number f)) (fk_children f).

(** MeasureReader::parseProperties, MeasureReader.cpp:466-494: a component of the key. *)
Definition read_component (c : xcomponent) : outcome KeyComponent :=
  omap (fun a =>
      mkComponent (stepMap_toApi (xk_step c)) (fst a) (snd a)
        (match xk_accidental c with Some v => accidentalMap_toApi v | None => api_Accidental_none end))
    (match xk_alter c with Some t => readKeyAlter t | None => Ok (0, 0%Q) end).

(** parseProperties, MeasureReader.cpp:457-534. [tick], [numStaves]: the cursor's. The third
    case of the mode repeats the condition of the second. *)
Definition import_key (tick numStaves : Z) (x : xkey) : outcome KeyData :=
  if xk_isNonTraditional x then omap (mkKeyData 0 0 Mode_unspecified 0 (-1)) (outcome_map read_component (xk_components x))
  else
    Ok (mkKeyData (ir_value (xk_fifths x)) (if xk_hasCancel x then ir_value (xk_cancel x) else 0)
          (match xk_mode x with
           | Some m =>
               match myEnum m with
               | ModeEnum_major => Mode_major
               | ModeEnum_minor => Mode_minor
               | _ => Mode_unspecified
               end
           | None => Mode_unspecified
           end) tick
          (match xk_number x with Some n => if numStaves - 1 <? n - 1 then -1 else n - 1 | None => -1 end) []).

Definition read_key (tick numStaves : Z) (f : fkey) : outcome KeyData := import_key tick numStaves (read_xkey f).
Definition key_back (tick numStaves staffIndex : Z) (k : KeyData) : outcome KeyData :=
  obind (write_key staffIndex k) (fun x => read_key tick numStaves (stream_key x)).
