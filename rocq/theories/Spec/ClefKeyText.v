(** What a <clef> and a <key> say in MusicXML, and what comes back of clefs and keys that are
    written and read. *)
From Coq Require Import List Ascii Bool String ZArith QArith Qabs.
From Verif Require Import Model.Base Model.Text Model.Alter Model.CoreEnums Model.ApiEnums Model.ConverterTables Model.ClefsKeys
  Spec.Numerals Spec.DecimalText Spec.Intervals.
Import ListNotations.
Local Open Scope Z_scope.

(** The last of the list that says something, says [v]. *)
Definition last_said {A B} (says : A -> B -> Prop) (l : list A) (v : option B) : Prop :=
  match v with
  | Some b => exists l1 a l2, l = l1 ++ a :: l2 /\ says a b /\ forall a' b', In a' l2 -> ~ says a' b'
  | None => forall a b, In a l -> ~ says a b
  end.

Definition or_else {A} (o : option A) (d : A) : A := match o with Some a => a | None => d end.

(** A text that is a whole number and fits in an int. *)
Definition says_int (t : str) (n : Z) : Prop := int_text t n /\ is_int n.

(** ** Clefs *)

Definition symbol_text (s : api_ClefSymbol) : str :=
  match s with
  | api_ClefSymbol_g => lit "G"
  | api_ClefSymbol_f => lit "F"
  | api_ClefSymbol_c => lit "C"
  | api_ClefSymbol_percussion => lit "percussion"
  | api_ClefSymbol_tab => lit "TAB"
  | api_ClefSymbol_jianpu => lit "jianpu"
  | api_ClefSymbol_none => lit "none"
  end.

(** The line of a clef that does not say. *)
Definition usual_line (s : api_ClefSymbol) : Z :=
  match s with
  | api_ClefSymbol_g => 2
  | api_ClefSymbol_f => 4
  | api_ClefSymbol_tab | api_ClefSymbol_jianpu => 1
  | api_ClefSymbol_c | api_ClefSymbol_percussion | api_ClefSymbol_none => 3
  end.

(** Staves are counted from 1 in the file and from 0 in the interface. *)
Definition staff_said (number : option Z) (staff : Z) : Prop :=
  (0 <= staff /\ number = Some (staff + 1)) \/ (staff < 0 /\ number = None).

(** The children of a clef that is written: the sign, the line unless it is negative, the change
    of octave unless there is none. *)
Definition clef_written (staff : Z) (c : ClefData) (f : fclef) : Prop :=
  staff_said (fc_number f) staff /\ fc_afterBarline f = None /\
  exists line change, fc_children f = [CkSign (symbol_text (cf_symbol c))] ++ line ++ change /\
    ((cf_line c < 0 /\ line = []) \/ (0 <= cf_line c /\ exists t, canonical_int t (cf_line c) /\ line = [CkLine t])) /\
    ((cf_octaveChange c = 0 /\ change = []) \/
     (cf_octaveChange c <> 0 /\ exists t, canonical_int t (cf_octaveChange c) /\ change = [CkOctaveChange t])).

Inductive sign_says : clef_child -> str -> Prop := sign_says_it t : sign_says (CkSign t) t.
Inductive line_says : clef_child -> Z -> Prop := line_says_it t n : says_int t n -> line_says (CkLine t) n.
Inductive change_says : clef_child -> Z -> Prop := change_says_it t n : says_int t n -> change_says (CkOctaveChange t) n.

(** What a clef with any children says, at [tick]: the sign is G if none of the seven is there,
    a line that is not a number counts as 0 if no other is. *)
Definition clef_said (tick : Z) (f : fclef) (c : ClefData) (staff : Z) : Prop :=
  (exists sign, last_said sign_says (fc_children f) sign /\
     (sign = Some (symbol_text (cf_symbol c)) \/
      (cf_symbol c = api_ClefSymbol_g /\ forall s, sign <> Some (symbol_text s)))) /\
  ((exists line, last_said line_says (fc_children f) line /\ cf_line c = or_else line 0 /\ exists t, In (CkLine t) (fc_children f)) \/
   (cf_line c = usual_line (cf_symbol c) /\ forall t, ~ In (CkLine t) (fc_children f))) /\
  (exists change, last_said change_says (fc_children f) change /\ cf_octaveChange c = or_else change 0) /\
  cf_tick c = tick /\
  match cf_location c with
  | Location_midMeasure => tick <> 0
  | Location_unspecified => tick = 0 /\ fc_afterBarline f = None
  | Location_afterBarline => tick = 0 /\ fc_afterBarline f = Some YesNo_yes
  | Location_beforeBarline => tick = 0 /\ fc_afterBarline f = Some YesNo_no
  end /\
  (fc_number f = Some (staff + 1) \/ (fc_number f = None /\ staff = 0)).

(** What comes back of a clef. *)
Definition kept_clef (tick : Z) (c : ClefData) : ClefData :=
  mkClef (cf_symbol c) (if cf_line c <? 0 then usual_line (cf_symbol c) else cf_line c) (cf_octaveChange c) tick
    (if tick =? 0 then Location_unspecified else Location_midMeasure).
Definition clef_ok (staff : Z) (c : ClefData) : Prop := is_int (cf_line c) /\ is_int (cf_octaveChange c) /\ -1 <= staff < 2 ^ 31 - 1.

(** The clefs by their usual names: the sign and the line, counted from the lowest. *)
Definition standard (n : clef_name) : api_ClefSymbol * Z :=
  match n with
  | Treble => (api_ClefSymbol_g, 2)
  | Bass => (api_ClefSymbol_f, 4)
  | Soprano => (api_ClefSymbol_c, 1)
  | MezzoSoprano => (api_ClefSymbol_c, 2)
  | Alto => (api_ClefSymbol_c, 3)
  | Tenor => (api_ClefSymbol_c, 4)
  | Baritone => (api_ClefSymbol_c, 5)
  end.

(** The name of the sign in the text of a clef. *)
Definition symbol_word (s : api_ClefSymbol) : str :=
  match s with
  | api_ClefSymbol_percussion => lit "Percussion"
  | api_ClefSymbol_tab => lit "Tab"
  | api_ClefSymbol_jianpu => lit "Jianpu"
  | api_ClefSymbol_none => lit "None"
  | s => symbol_text s
  end.

(** ** Keys *)

Definition step_text (s : api_Step) : str :=
  match s with
  | api_Step_c | api_Step_unspecified => lit "C"
  | api_Step_d => lit "D"
  | api_Step_e => lit "E"
  | api_Step_f => lit "F"
  | api_Step_g => lit "G"
  | api_Step_a => lit "A"
  | api_Step_b => lit "B"
  end.

(** A component is written as a step, an alter and, if there is one, an accidental. *)
Definition component_written (k : KeyComponent) (l : list key_child) : Prop :=
  exists alter, writeKeyAlter (kc_alter k) (kc_cents k) = Ok alter /\
    l = [KkStep (step_text (kc_step k)); KkAlter alter] ++
        match kc_accidental k with
        | api_Accidental_none => []
        | a => [KkAccidental (AccidentalValue_toString (accidentalMap_toCore a))]
        end.

Definition mode_text (m : KeyMode) : option str :=
  match m with Mode_major => Some (lit "major") | Mode_minor => Some (lit "minor") | _ => None end.

Definition key_written (staff : Z) (k : KeyData) (f : fkey) : Prop :=
  staff_said (fk_number f) staff /\
  match ky_nonTraditional k with
  | [] =>
      exists cancel fifths, canonical_int fifths (ky_fifths k) /\
        fk_children f = cancel ++ [KkFifths fifths] ++ match mode_text (ky_mode k) with Some t => [KkMode t] | None => [] end /\
        ((ky_cancel k = 0 /\ cancel = []) \/ (ky_cancel k <> 0 /\ exists t, canonical_int t (ky_cancel k) /\ cancel = [KkCancel t]))
  | l => exists ls, Forall2 component_written l ls /\ fk_children f = List.concat ls
  end.

Inductive cancel_says : key_child -> Z -> Prop := cancel_says_it t n : says_int t n -> cancel_says (KkCancel t) n.
Inductive fifths_says : key_child -> Z -> Prop := fifths_says_it t n : says_int t n -> fifths_says (KkFifths t) n.
Inductive mode_says : key_child -> str -> Prop := mode_says_it t : mode_says (KkMode t) t.

(** Which of the two kinds of keys a child belongs to. *)
Definition traditional_child (c : key_child) : bool := match c with KkCancel _ | KkFifths _ | KkMode _ => true | _ => false end.
Definition component_child (c : key_child) : bool := match c with KkStep _ | KkAlter _ | KkAccidental _ => true | _ => false end.

(** The kind of a key: that of the last child that belongs to one; traditional if there is none. *)
Definition traditional_key (l : list key_child) : Prop :=
  (exists l1 c l2, l = l1 ++ c :: l2 /\ traditional_child c = true /\ Forall (fun c => component_child c = false) l2) \/
  Forall (fun c => component_child c = false) l.

(** What a traditional key says. [staves]: the number of staves of the part. *)
Definition key_said (tick staves : Z) (f : fkey) (k : KeyData) : Prop :=
  (exists n, last_said fifths_says (fk_children f) n /\ ky_fifths k = or_else n 0) /\
  (exists n, last_said cancel_says (fk_children f) n /\ ky_cancel k = or_else n 0) /\
  (exists t, last_said mode_says (fk_children f) t /\
     match ky_mode k with
     | Mode_major => t = Some (lit "major")
     | Mode_minor => t = Some (lit "minor")
     | Mode_unspecified => t <> Some (lit "major") /\ t <> Some (lit "minor")
     | Mode_unsupported => False
     end) /\
  ky_tick k = tick /\
  ((exists n, fk_number f = Some n /\ ky_staff k = n - 1 /\ n <= staves) \/
   (ky_staff k = -1 /\ forall n, fk_number f = Some n -> staves < n)) /\
  ky_nonTraditional k = [].

(** A component as it is in a file: each part may be there or not, but not none of them. *)
Record fcomponent := mkFComponent { fp_step : option str; fp_alter : option str; fp_accidental : option str }.
Definition component_children (p : fcomponent) : list key_child :=
  match fp_step p with Some t => [KkStep t] | None => [] end ++
  match fp_alter p with Some t => [KkAlter t] | None => [] end ++
  match fp_accidental p with Some t => [KkAccidental t] | None => [] end.
(** In a row of components the next one starts where the order step, alter, accidental does not
    go on. *)
Definition place (c : key_child) : Z := match c with KkStep _ => 1 | KkAlter _ => 2 | _ => 3 end.
Fixpoint in_a_row (l : list fcomponent) : Prop :=
  match l with
  | [] => True
  | p :: r =>
      component_children p <> [] /\
      match r with
      | q :: _ => place (hd KkOther (component_children q)) <= place (last (component_children p) KkOther)
      | [] => True
      end /\ in_a_row r
  end.

(** The children of a key: rows of components with something else between them. A row replaces
    what was there before if that is a single component, else it is added to it. *)
Inductive key_rows : list key_child -> list fcomponent -> Prop :=
| rows_none l : Forall (fun c => component_child c = false) l -> key_rows l []
| rows_more l before r row after :
    key_rows l before -> match rev l with c :: _ => component_child c = false | [] => True end ->
    row <> [] -> in_a_row row -> Forall (fun c => component_child c = false) after -> r = flat_map component_children row ->
    key_rows (l ++ r ++ after) ((match before with [_] => [] | _ => before end) ++ row).

(** What a component says: its step is A if the text is none or there is none, the accidental is a
    sharp if the text is none. *)
Definition component_said (p : fcomponent) (k : KeyComponent) : Prop :=
  kc_step k <> api_Step_unspecified /\
  (fp_step p = Some (step_text (kc_step k)) \/ (kc_step k = api_Step_a /\ forall s, fp_step p <> Some (step_text s))) /\
  match fp_alter p with
  | Some t => (exists x, number_text t x /\ alter_said x (kc_alter k) (kc_cents k)) \/
              ((forall x, ~ number_text t x) /\ kc_alter k = 0 /\ kc_cents k = 0%Q)
  | None => kc_alter k = 0 /\ kc_cents k = 0%Q
  end /\
  match fp_accidental p with
  | Some t => exists a, kc_accidental k = accidentalMap_toApi a /\
                (t = AccidentalValue_toString a \/ (a = AccidentalValue_sharp /\ forall b, t <> AccidentalValue_toString b))
  | None => kc_accidental k = api_Accidental_none
  end.
(** Alterations that are not too large. *)
Definition component_sized (p : fcomponent) : Prop :=
  match fp_alter p with Some t => forall x, number_text t x -> (Qabs x <= 100000)%Q | None => True end.

(** What comes back of a key. *)
Definition kept_traditional (tick staves staff : Z) (k : KeyData) : KeyData :=
  mkKeyData (ky_fifths k) (ky_cancel k) (match ky_mode k with Mode_unsupported => Mode_unspecified | m => m end) tick
    (if (0 <=? staff) && (staff <? staves) then staff else -1) [].
Definition component_back (k r : KeyComponent) : Prop :=
  kc_step r = (match kc_step k with api_Step_unspecified => api_Step_c | s => s end) /\
  kept (kc_alter k) (kc_cents k) (Ok (kc_alter r, kc_cents r)) /\
  kc_accidental r = (match kc_accidental k with api_Accidental_sharpSharp => api_Accidental_natural | a => a end).
Definition key_ok (staff : Z) (k : KeyData) : Prop :=
  is_int (ky_fifths k) /\ is_int (ky_cancel k) /\ -1 <= staff < 2 ^ 31 - 1 /\
  Forall (fun c => Z.abs (kc_alter c) <= 100000 /\ (Qabs (kc_cents c) <= 1000000)%Q) (ky_nonTraditional k).

(** The same component, up to what a file holds of the cents. *)
Definition same_component (a b : KeyComponent) : Prop :=
  kc_step a = kc_step b /\ kc_alter a = kc_alter b /\ (Qabs (kc_cents a - kc_cents b) < 6 # 100000)%Q /\ kc_accidental a = kc_accidental b.
Definition same_key (a b : KeyData) : Prop :=
  ky_fifths a = ky_fifths b /\ ky_cancel a = ky_cancel b /\ ky_mode a = ky_mode b /\ ky_tick a = ky_tick b /\ ky_staff a = ky_staff b /\
  Forall2 same_component (ky_nonTraditional a) (ky_nonTraditional b).
(** Keys that come back the same. *)
Definition component_fits (c : KeyComponent) : Prop :=
  kc_step c <> api_Step_unspecified /\ kc_accidental c <> api_Accidental_sharpSharp /\
  (0 <= inject_Z (kc_alter c) * kc_cents c)%Q /\ (Qabs (kc_cents c) <= 999999 # 10000)%Q.
Definition key_fits (tick staves staff : Z) (k : KeyData) : Prop :=
  key_ok staff k /\ ky_mode k <> Mode_unsupported /\
  match ky_nonTraditional k with
  | [] => ky_tick k = tick /\ ky_staff k = staff /\ staff < staves
  | l => ky_fifths k = 0 /\ ky_cancel k = 0 /\ ky_mode k = Mode_unspecified /\ ky_tick k = 0 /\ ky_staff k = -1 /\ Forall component_fits l
  end.
