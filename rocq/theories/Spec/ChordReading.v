(** What a chord symbol is in MusicXML and what becomes of it. *)
From Coq Require Import List Bool String ZArith QArith.
From Verif Require Import Model.Base Model.Text Model.Strings Model.LongDouble Model.Decimals Model.EnumLookup
  Model.CoreEnums Model.ApiEnums Model.Notations Model.ChordSymbols Spec.Attachments.
Import ListNotations.
Local Open Scope Z_scope.

(** ** The elements that say it *)

(** The letter of a step. *)
Definition letter (s : api_Step) : StepEnum :=
  match s with
  | api_Step_a => StepEnum_a | api_Step_b => StepEnum_b | api_Step_c => StepEnum_c | api_Step_d => StepEnum_d
  | api_Step_e => StepEnum_e | api_Step_f => StepEnum_f | api_Step_g => StepEnum_g
  | api_Step_unspecified => StepEnum_c
  end.

(** The ordinal numbers. *)
Definition ordinal (n : ExtensionNumber) : Z :=
  match n with
  | Ext_first => 1 | Ext_second => 2 | Ext_third => 3 | Ext_fourth => 4 | Ext_fifth => 5 | Ext_sixth => 6 | Ext_seventh => 7
  | Ext_ninth => 9 | Ext_eleventh => 11 | Ext_thirteenth => 13
  end.

(** Semitones of an alteration. *)
Definition semitones (a : ExtensionAlter) : Z :=
  match a with Ext_none => 0 | Ext_flat => -1 | Ext_sharp => 1 | Ext_doubleFlat => -2 | Ext_doubleSharp => 2 end.

Definition degree_says (e : Extension) (d : xdegree) : Prop :=
  dg_value d = ordinal (extensionNumber e) /\
  (dg_alter d == inject_Z (semitones (extensionAlter e)))%Q /\
  match extensionType e, dg_type d with
  | Ext_add, DegreeTypeValue_add | Ext_remove, DegreeTypeValue_subtract | Ext_alter, DegreeTypeValue_alter => True
  | _, _ => False
  end /\ dg_print d = None.

(** A step with an alteration of [n] semitones; no alteration is no element. *)
Definition step_says (s : api_Step) (n : Z) (x : xstep) : Prop :=
  st_step x = letter s /\
  match st_alter x with None => n = 0 | Some q => n <> 0 /\ (q == inject_Z n)%Q end.

(** The kinds of chord by their MusicXML texts. *)
Definition kind_text (k : api_ChordKind) : string :=
  match k with
  | api_ChordKind_unspecified | api_ChordKind_none => "none"
  | api_ChordKind_major => "major" | api_ChordKind_minor => "minor"
  | api_ChordKind_augmented => "augmented" | api_ChordKind_diminished => "diminished"
  | api_ChordKind_dominant => "dominant" | api_ChordKind_majorSeventh => "major-seventh"
  | api_ChordKind_minorSeventh => "minor-seventh" | api_ChordKind_diminishedSeventh => "diminished-seventh"
  | api_ChordKind_augmentedSeventh => "augmented-seventh" | api_ChordKind_halfDiminished => "half-diminished"
  | api_ChordKind_majorMinor => "major-minor" | api_ChordKind_majorSixth => "major-sixth"
  | api_ChordKind_minorSixth => "minor-sixth" | api_ChordKind_dominantNinth => "dominant-ninth"
  | api_ChordKind_majorNinth => "major-ninth" | api_ChordKind_minorNinth => "minor-ninth"
  | api_ChordKind_dominant11Th => "dominant-11th" | api_ChordKind_major11Th => "major-11th"
  | api_ChordKind_minor11Th => "minor-11th" | api_ChordKind_dominant13Th => "dominant-13th"
  | api_ChordKind_major13Th => "major-13th" | api_ChordKind_minor13Th => "minor-13th"
  | api_ChordKind_suspendedSecond => "suspended-second" | api_ChordKind_suspendedFourth => "suspended-fourth"
  | api_ChordKind_neapolitan => "Neapolitan" | api_ChordKind_italian => "Italian" | api_ChordKind_french => "French"
  | api_ChordKind_german => "German" | api_ChordKind_pedal => "pedal" | api_ChordKind_power => "power"
  | api_ChordKind_tristan => "Tristan" | api_ChordKind_other => "other"
  end.

(** A group of elements that says what the chord is. *)
Definition group_says (c : ChordData) (g : xgroup) : Prop :=
  g_function g = None /\ step_says (root c) (rootAlter c) (g_root g) /\
  KindValue_toString (k_value (g_kind g)) = lit (kind_text (chordKind c)) /\
  k_text (g_kind g) = (if str_eqb (chordText c) [] then None else Some (token_of (chordText c))) /\
  k_symbols (g_kind g) =
    match useSymbols c with api_Bool_unspecified => None | api_Bool_yes => Some true | api_Bool_no => Some false end /\
  g_inversion g = None /\
  (bass c = api_Step_unspecified -> g_bass g = None) /\
  (bass c <> api_Step_unspecified -> exists x, g_bass g = Some x /\ step_says (bass c) (bassAlter c) x) /\
  Forall2 degree_says (extensions c) (g_degrees g).

(** ** What comes back *)

(** A MiscData as an instruction: a name is needed. *)
Definition named (m : str * str) : str * str := (if str_eqb (fst m) [] then lit "default-name" else fst m, snd m).

(** The chord as it is read back from an element that also says [misc] and [p]. *)
Definition read_back (p : PositionData) (misc : list (str * str)) (c : ChordData) : ChordData :=
  mkChord
    (match root c with api_Step_unspecified => api_Step_c | s => s end) (rootAlter c)
    (match chordKind c with api_ChordKind_unspecified => api_ChordKind_none | k => k end)
    (token_of (chordText c)) (useSymbols c) (bass c)
    (match bass c with api_Step_unspecified => 0 | _ => bassAlter c end)
    (map (fun e => mkExtension (extensionType e) (extensionAlter e) (extensionNumber e) api_Bool_unspecified) (extensions c))
    misc p.

(** The misc data of all the chords. *)
Definition all_misc (l : list ChordData) : list (str * str) := List.concat (map (fun c => map named (miscData c)) l).

(** The values an int and a coordinate can hold. *)
Definition an_int (z : Z) : Prop := - 2 ^ 31 <= z < 2 ^ 31.
Definition chord_ok (c : ChordData) : Prop :=
  an_int (rootAlter c) /\ an_int (bassAlter c) /\ position_ok storable (chordPosition c).

(** What the property speaks of. *)
Definition same_symbol (a b : ChordData) : Prop :=
  root a = root b /\ rootAlter a = rootAlter b /\ chordKind a = chordKind b /\ chordText a = chordText b /\
  bass a = bass b /\ bassAlter a = bassAlter b /\ useSymbols a = useSymbols b /\
  Forall2 (fun x y => extensionType x = extensionType y /\ extensionNumber x = extensionNumber y /\
                      extensionAlter x = extensionAlter y) (extensions a) (extensions b).

(** Chords that say all they need to. *)
Definition complete (c : ChordData) : Prop :=
  root c <> api_Step_unspecified /\ chordKind c <> api_ChordKind_unspecified /\ token_of (chordText c) = chordText c /\
  (bass c = api_Step_unspecified -> bassAlter c = 0).

(** ** Other documents *)

(** A whole number nearest to [x]; halves, and what is closer to a half than a millionth,
    may go to either side. *)
Definition nearest (x : Q) (z : Z) : Prop := (Qabs.Qabs (inject_Z z - x) <= (1 # 2) + (1 # 1000000))%Q.

Definition step_read (x : xstep) (s : api_Step) (n : Z) : Prop :=
  letter s = st_step x /\ s <> api_Step_unspecified /\ match st_alter x with None => n = 0 | Some q => nearest q n end.

(** The alteration nearest to [n] semitones. *)
Definition alteration (n : Z) (a : ExtensionAlter) : Prop := semitones a = Z.max (-2) (Z.min 2 n).

Definition degree_read (d : xdegree) (e : Extension) : Prop :=
  dg_value d = ordinal (extensionNumber e) /\
  (exists n, nearest (dg_alter d) n /\ alteration n (extensionAlter e)) /\
  match extensionType e, dg_type d with
  | Ext_add, DegreeTypeValue_add | Ext_remove, DegreeTypeValue_subtract | Ext_alter, DegreeTypeValue_alter => True
  | _, _ => False
  end /\
  printObject e = match dg_print d with None => api_Bool_unspecified | Some true => api_Bool_yes | Some false => api_Bool_no end.

(** Degrees that the API has a number for. *)
Definition has_ordinal (d : xdegree) : bool := existsb (Z.eqb (dg_value d)) [1; 2; 3; 4; 5; 6; 7; 9; 11; 13].

Definition group_read (h : xharmony) (g : xgroup) (c : ChordData) : Prop :=
  step_read (g_root g) (root c) (rootAlter c) /\
  lit (kind_text (chordKind c)) = KindValue_toString (k_value (g_kind g)) /\ chordKind c <> api_ChordKind_unspecified /\
  chordText c = match k_text (g_kind g) with Some t => t | None => [] end /\
  useSymbols c = match k_symbols (g_kind g) with None => api_Bool_unspecified | Some true => api_Bool_yes | Some false => api_Bool_no end /\
  match g_bass g with
  | None => bass c = api_Step_unspecified /\ bassAlter c = 0
  | Some x => step_read x (bass c) (bassAlter c)
  end /\
  Forall2 degree_read (filter has_ordinal (g_degrees g)) (extensions c) /\
  miscData c = h_instructions h /\ chordPosition c = getPositionData (h_position h).

Definition is_root (g : xgroup) : bool := match g_function g with None => true | Some _ => false end.

(** Alterations that an int can hold. *)
Definition small (q : Q) : Prop := (- inject_Z (2 ^ 31 - 1) <= q)%Q /\ (q <= inject_Z (2 ^ 31 - 1))%Q.
Definition group_small (g : xgroup) : Prop :=
  every small (st_alter (g_root g)) /\ every (fun x => every small (st_alter x)) (g_bass g) /\
  Forall (fun d => small (dg_alter d)) (g_degrees g).

(** The elements of a harmony that stand after its groups. *)
Definition trailing (x : hchild) : bool := match x with CFrame | COffset _ | CStaff _ => true | _ => false end.

(** The children of a group in the order of the schema. *)
Definition group_children (g : xgroup) : list hchild :=
  (match g_function g with Some f => CFunction f | None => CRoot (g_root g) end) :: CKind (g_kind g) ::
  match g_inversion g with Some n => [CInversion n] | None => [] end ++
  match g_bass g with Some b => [CBass b] | None => [] end ++ map CDegree (g_degrees g).

(** A group with a function has no root to speak of: it holds the one it was made with. *)
Definition normal (g : xgroup) : Prop := g_function g <> None -> g_root g = g_root default_group.

(** What stands after the groups: of several, the last. *)
Definition last_offset (l : list hchild) : option Q := fold_left (fun o x => match x with COffset q => Some q | _ => o end) l None.
Definition last_staff (l : list hchild) : option Z := fold_left (fun o x => match x with CStaff q => Some q | _ => o end) l None.
