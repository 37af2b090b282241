(** What is written of a score's layout, and what is read of it. *)
From Coq Require Import List Ascii String Bool ZArith QArith QArith.Qminmax Sorting.Sorted.
From Verif Require Import Model.Base Model.Text Model.Strings Model.LongDouble Model.Decimals Model.CoreEnums Model.ApiEnums
  Spec.Attachments Model.Layout.
Import ListNotations.
Local Open Scope Z_scope.

(** ** The numbers that occur *)

Definition every_margin (P : Q -> Prop) (m : MarginsData) : Prop := P (left m) /\ P (right m) /\ P (top m) /\ P (bottom m).
Definition every_size (P : Q -> Prop) (s : SizeData) : Prop := P (height s) /\ P (width s).
Definition every_left_right (P : Q -> Prop) (m : LeftRight) : Prop := P (lr_left m) /\ P (lr_right m).
Definition every_in_page (P : Q -> Prop) (p : PageLayoutData) : Prop :=
  every (every_size P) (size p) /\ every (every_margin P) (odd (pageMargins p)) /\ every (every_margin P) (even (pageMargins p)).
Definition every_in_system (P : Q -> Prop) (s : SystemLayoutData) : Prop :=
  every (every_left_right P) (systemMargins s) /\ every P (systemDistance s) /\ every P (topSystemDistance s) /\ every P (staffDistance s).
Definition every_in_defaults (P : Q -> Prop) (d : DefaultsData) : Prop :=
  P (scalingMillimeters d) /\ P (scalingTenths d) /\ every_in_page P (pageLayout d) /\ every_in_system P (defaultSystemLayout d) /\
  Forall (fun a => P (appearanceValue a)) (appearance d).
Definition every_in_layout (P : Q -> Prop) (l : LayoutData) : Prop :=
  every_in_system P (systemLayout (ld_system l)) /\ every_in_page P (pageLayoutData (ld_page l)).

(** ** The same layout with its numbers rounded to what a decimal can store *)

Definition tenths (x : Q) : Q := stored TenthsValue x.
Definition rounded_margins (m : MarginsData) : MarginsData := mkMargins (tenths (left m)) (tenths (right m)) (tenths (top m)) (tenths (bottom m)).
Definition rounded_size (s : SizeData) : SizeData := mkSize (tenths (height s)) (tenths (width s)).
Definition rounded_left_right (m : LeftRight) : LeftRight := mkLeftRight (tenths (lr_left m)) (tenths (lr_right m)).
Definition rounded_page_margins (m : PageMarginsData) : PageMarginsData :=
  mkPageMargins (option_map rounded_margins (odd m)) (option_map rounded_margins (even m)).
Definition rounded_page_layout (p : PageLayoutData) : PageLayoutData :=
  mkPageLayout (option_map rounded_size (size p)) (rounded_page_margins (pageMargins p)).
Definition rounded_system (s : SystemLayoutData) : SystemLayoutData :=
  mkSystemLayout (option_map rounded_left_right (systemMargins s)) (option_map tenths (systemDistance s))
    (option_map tenths (topSystemDistance s)) (option_map tenths (staffDistance s)).
Definition rounded_appearance (a : AppearanceData) : AppearanceData :=
  mkAppearance (appearanceType a) (appearanceSubType a)
    (stored (match appearanceType a with NoteSize => NonNegativeDecimal | _ => TenthsValue end) (appearanceValue a)).
Definition rounded_defaults (d : DefaultsData) : DefaultsData :=
  mkDefaults (stored MillimetersValue (scalingMillimeters d)) (tenths (scalingTenths d))
    (rounded_page_layout (pageLayout d)) (rounded_system (defaultSystemLayout d)) (map rounded_appearance (appearance d)).
Definition rounded_layout (l : LayoutData) : LayoutData :=
  mkLayout (mkSystem (newSystem (ld_system l)) (rounded_system (systemLayout (ld_system l))))
    (mkPage (newPage (ld_page l)) (rounded_page_layout (pageLayoutData (ld_page l))) (pageNumber (ld_page l))).

(** ** What is kept in general *)

Definition is_some {A} (x : option A) : bool := match x with Some _ => true | None => false end.
Definition above_zero (q : Q) : bool := match (0 ?= q)%Q with Lt => true | _ => false end.

(** Page margins below 0 become 0. *)
Definition margin (x : Q) : Q := tenths (Qmax 0 x).
Definition kept_margins (m : MarginsData) : MarginsData := mkMargins (margin (left m)) (margin (right m)) (margin (top m)) (margin (bottom m)).

(** Margins without a page size get a page of size 0. *)
Definition kept_page_layout (p : PageLayoutData) : PageLayoutData :=
  let ms := mkPageMargins (option_map kept_margins (odd (pageMargins p))) (option_map kept_margins (even (pageMargins p))) in
  mkPageLayout
    (match size p with
     | Some s => Some (rounded_size s)
     | None => if is_some (odd (pageMargins p)) || is_some (even (pageMargins p)) then Some (mkSize 0 0) else None
     end) ms.

(** In the defaults a top system distance without margins gets margins of 0. *)
Definition kept_system_layout (s : SystemLayoutData) : SystemLayoutData :=
  mkSystemLayout
    (match systemMargins s with
     | Some m => Some (rounded_left_right m)
     | None => if is_some (topSystemDistance s) then Some (mkLeftRight 0 0) else None
     end)
    (option_map tenths (systemDistance s)) (option_map tenths (topSystemDistance s)) (option_map tenths (staffDistance s)).

(** Of the scaling, a member that is not above 0 becomes 0 if the other is above 0, and
    -1 if it is not. *)
Definition kept_scaling (d : DefaultsData) : Q * Q :=
  let mm := above_zero (scalingMillimeters d) in
  let te := above_zero (scalingTenths d) in
  if mm || te then (if mm then stored MillimetersValue (scalingMillimeters d) else 0%Q, if te then tenths (scalingTenths d) else 0%Q)
  else ((-1)%Q, (-1)%Q).

(** The appearances are sorted by their type; other appearances become distances of
    value 0; the sub-type "other" is lost; note sizes are cue, grace or large. *)
Definition is_line_width (a : AppearanceData) : bool := match appearanceType a with LineWidth => true | _ => false end.
Definition is_note_size (a : AppearanceData) : bool := match appearanceType a with NoteSize => true | _ => false end.
Definition is_distance (a : AppearanceData) : bool := match appearanceType a with Distance => true | _ => false end.
Definition is_other_appearance (a : AppearanceData) : bool := match appearanceType a with OtherAppearance => true | _ => false end.
Definition sub_type (t : str) : str := if str_eqb t (lit "other") then [] else t.
Definition note_size (t : str) : str := if existsb (str_eqb t) [lit "cue"; lit "grace"; lit "large"] then t else lit "cue".
Definition kept_appearance (a : AppearanceData) : AppearanceData :=
  match appearanceType a with
  | LineWidth => mkAppearance LineWidth (sub_type (appearanceSubType a)) (tenths (appearanceValue a))
  | NoteSize => mkAppearance NoteSize (note_size (appearanceSubType a)) (stored NonNegativeDecimal (appearanceValue a))
  | Distance => mkAppearance Distance (sub_type (appearanceSubType a)) (tenths (appearanceValue a))
  | OtherAppearance => mkAppearance Distance (token_of (appearanceSubType a)) 0
  end.
Definition kept_appearances (l : list AppearanceData) : list AppearanceData :=
  map kept_appearance (filter is_line_width l ++ filter is_note_size l ++ filter is_distance l ++ filter is_other_appearance l).

Definition kept_defaults (d : DefaultsData) : DefaultsData :=
  mkDefaults (fst (kept_scaling d)) (snd (kept_scaling d)) (kept_page_layout (pageLayout d))
    (kept_system_layout (defaultSystemLayout d)) (kept_appearances (appearance d)).

(** ** The layouts that are kept as they are, up to the rounding *)

Definition plain_page (p : PageLayoutData) : Prop :=
  (size p = None -> odd (pageMargins p) = None /\ even (pageMargins p) = None) /\
  every (every_margin (Qle 0)) (odd (pageMargins p)) /\ every (every_margin (Qle 0)) (even (pageMargins p)).
Definition plain_defaults (d : DefaultsData) : Prop :=
  (0 < scalingMillimeters d)%Q /\ (0 < scalingTenths d)%Q /\ plain_page (pageLayout d) /\
  (systemMargins (defaultSystemLayout d) = None -> topSystemDistance (defaultSystemLayout d) = None) /\
  (exists a b c, appearance d = a ++ b ++ c /\
     Forall (fun x => appearanceType x = LineWidth /\ appearanceSubType x <> lit "other") a /\
     Forall (fun x => appearanceType x = NoteSize /\ In (appearanceSubType x) [lit "cue"; lit "grace"; lit "large"]) b /\
     Forall (fun x => appearanceType x = Distance /\ appearanceSubType x <> lit "other") c).

(** ** The elements that are written *)

Definition margins_element (t : MarginType) (m : MarginsData) : xmargins :=
  mkXMargins (Some t) (margin (left m)) (margin (right m)) (margin (top m)) (margin (bottom m)).
Definition equal_margins (a b : MarginsData) : Prop :=
  (left a == left b /\ right a == right b /\ top a == top b /\ bottom a == bottom b)%Q.
(** One element for odd and even pages if their margins are the same numbers. *)
Definition margins_elements (m : PageMarginsData) (l : list xmargins) : Prop :=
  match odd m, even m with
  | None, None => l = []
  | Some a, None => l = [margins_element MarginType_odd a]
  | None, Some b => l = [margins_element MarginType_even b]
  | Some a, Some b =>
      (equal_margins a b /\ l = [margins_element MarginType_both a]) \/
      (~ equal_margins a b /\ l = [margins_element MarginType_odd a; margins_element MarginType_even b])
  end.
Definition page_element (p : PageLayoutData) (x : xpage_layout) : Prop :=
  page_height x = match size p with Some s => tenths (height s) | None => 0%Q end /\
  page_width x = match size p with Some s => tenths (width s) | None => 0%Q end /\
  margins_elements (pageMargins p) (page_margins x).
Definition page_elements (p : PageLayoutData) (x : option xpage_layout) : Prop :=
  match x with
  | Some e => page_element p e /\ p <> noPageLayout
  | None => p = noPageLayout
  end.
Definition system_element (margins distance top : bool) (s : SystemLayoutData) : option xsystem_layout :=
  if margins || distance || top
  then Some (mkXSystem (if margins then Some (match systemMargins s with Some m => rounded_left_right m | None => mkLeftRight 0 0 end) else None)
               (option_map tenths (systemDistance s)) (option_map tenths (topSystemDistance s)))
  else None.
(** The system layout of the defaults, and that of a print. *)
Definition default_system_element (s : SystemLayoutData) : option xsystem_layout :=
  system_element (is_some (systemMargins s) || is_some (topSystemDistance s)) (is_some (systemDistance s)) (is_some (topSystemDistance s)) s.
Definition print_system_element (s : SystemLayoutData) : option xsystem_layout :=
  system_element (is_some (systemMargins s)) (is_some (systemDistance s)) (is_some (topSystemDistance s)) s.
Definition staff_elements (s : SystemLayoutData) : list (option Q) :=
  match staffDistance s with Some q => [Some (tenths q)] | None => [] end.
Definition scaling_element (d : DefaultsData) : option (Q * Q) :=
  if above_zero (scalingMillimeters d) || above_zero (scalingTenths d) then Some (kept_scaling d) else None.
Definition appearance_element (l : list AppearanceData) : option xappearance :=
  match l with
  | [] => None
  | _ => Some (mkXAppearance
      (map (fun a => (sub_type (appearanceSubType a), tenths (appearanceValue a))) (filter is_line_width l))
      (map (fun a => (note_size (appearanceSubType a), stored NonNegativeDecimal (appearanceValue a))) (filter is_note_size l))
      (map (fun a => (sub_type (appearanceSubType a), tenths (appearanceValue a))) (filter is_distance l))
      (map (fun a => (token_of (appearanceSubType a), to_string_ld (appearanceValue a))) (filter is_other_appearance l)))
  end.
(** Nothing of the defaults was given. *)
Definition nothing_given (d : DefaultsData) : Prop :=
  ~ (0 < scalingMillimeters d)%Q /\ ~ (0 < scalingTenths d)%Q /\ pageLayout d = noPageLayout /\
  defaultSystemLayout d = noSystemLayout /\ appearance d = [].
Definition defaults_element (d : DefaultsData) (x : option xdefaults) : Prop :=
  match x with
  | None => nothing_given d
  | Some e =>
      ~ nothing_given d /\ x_scaling e = scaling_element d /\ page_elements (pageLayout d) (g_page (x_group e)) /\
      g_system (x_group e) = default_system_element (defaultSystemLayout d) /\
      g_staff (x_group e) = staff_elements (defaultSystemLayout d) /\
      x_appearance e = appearance_element (appearance d)
  end.

(** ** Prints *)

Definition no_print (l : list music_data) : Prop := Forall (fun x => x = OtherData) l.

(** The entries of a std::map are in the order of their keys. *)
Definition by_index (m : layout_map) : Prop := StronglySorted (fun a b => fst a < fst b) m.

(** The data that say something. *)
Definition system_says (s : SystemData) : bool :=
  match s with mkSystem api_Bool_unspecified (mkSystemLayout None None None None) => false | _ => true end.
Definition page_says (p : PageData) : bool :=
  match p with mkPage api_Bool_unspecified (mkPageLayout None (mkPageMargins None None)) None => false | _ => true end.
Definition layout_says (l : LayoutData) : bool := system_says (ld_system l) || page_says (ld_page l).

(** Staff distances are lost, page numbers become tokens. *)
Definition kept_system (s : SystemData) : SystemData :=
  mkSystem (newSystem s)
    (mkSystemLayout (option_map rounded_left_right (systemMargins (systemLayout s))) (option_map tenths (systemDistance (systemLayout s)))
       (option_map tenths (topSystemDistance (systemLayout s))) None).
Definition kept_page (p : PageData) : PageData :=
  mkPage (newPage p) (kept_page_layout (pageLayoutData p)) (option_map token_of (pageNumber p)).
Definition kept_layout (l : LayoutData) : LayoutData := mkLayout (kept_system (ld_system l)) (kept_page (ld_page l)).

(** The entries of the measures of a score of [n] measures that still say something. *)
Definition kept_layouts (n : nat) (m : layout_map) : layout_map :=
  filter (fun e => layout_says (snd e))
    (map (fun e => (fst e, kept_layout (snd e)))
       (filter (fun e => (0 <=? fst e) && (fst e <? Z.of_nat n)) m)).

Definition plain_layout (l : LayoutData) : Prop :=
  layout_says l = true /\ staffDistance (systemLayout (ld_system l)) = None /\ plain_page (pageLayoutData (ld_page l)) /\
  every (fun t => token_of t = t) (pageNumber (ld_page l)).

(** The prints a measure is given: at most one. *)
Definition print_element (l : LayoutData) (p : xprint) : Prop :=
  p_newSystem p = match newSystem (ld_system l) with api_Bool_unspecified => None | api_Bool_yes => Some YesNo_yes | api_Bool_no => Some YesNo_no end /\
  p_newPage p = match newPage (ld_page l) with api_Bool_unspecified => None | api_Bool_yes => Some YesNo_yes | api_Bool_no => Some YesNo_no end /\
  p_pageNumber p = option_map token_of (pageNumber (ld_page l)) /\
  page_elements (pageLayoutData (ld_page l)) (g_page (p_group p)) /\
  g_system (p_group p) = print_system_element (systemLayout (ld_system l)) /\ g_staff (p_group p) = [].
Definition measure_prints (l : option LayoutData) (prints : list music_data) : Prop :=
  match l with
  | Some l => if layout_says l then exists p, prints = [Print p] /\ print_element l p else prints = []
  | None => prints = []
  end.

(** ** Reading any document *)

Definition prints_of (measure : list music_data) : list xprint :=
  flat_map (fun x => match x with Print p => [p] | OtherData => [] end) measure.
Fixpoint last_of {A} (l : list A) : option A :=
  match l with [] => None | x :: r => match last_of r with Some y => Some y | None => Some x end end.

(** The page margins are the last ones for the kind of page. *)
Definition serves (kind : MarginType) (x : xmargins) : bool :=
  match xm_type x with
  | None | Some MarginType_both => true
  | Some t => match kind, t with MarginType_odd, MarginType_odd => true | MarginType_even, MarginType_even => true | _, _ => false end
  end.
Definition margins_for (kind : MarginType) (l : list xmargins) : option MarginsData :=
  option_map (fun x => mkMargins (xm_left x) (xm_right x) (xm_top x) (xm_bottom x)) (last_of (filter (serves kind) l)).
Definition page_layout_in (g : layout_group) : PageLayoutData :=
  match g_page g with
  | None => noPageLayout
  | Some p => mkPageLayout (Some (mkSize (page_height p) (page_width p)))
                (mkPageMargins (margins_for MarginType_odd (page_margins p)) (margins_for MarginType_even (page_margins p)))
  end.
Definition system_layout_in (g : layout_group) (staff : option Q) : SystemLayoutData :=
  match g_system g with
  | None => mkSystemLayout None None None staff
  | Some s => mkSystemLayout (x_margins s) (x_distance s) (x_top s) staff
  end.
Definition bool_in (b : option YesNo) : api_Bool :=
  match b with None => api_Bool_unspecified | Some YesNo_yes => api_Bool_yes | Some YesNo_no => api_Bool_no end.
Definition system_in (p : xprint) : SystemData := mkSystem (bool_in (p_newSystem p)) (system_layout_in (p_group p) None).
Definition page_in (p : xprint) : PageData := mkPage (bool_in (p_newPage p)) (page_layout_in (p_group p)) (p_pageNumber p).

(** The layout of a measure is what its last prints that say something say. *)
Definition layout_in (measure : list music_data) : option LayoutData :=
  match last_of (filter system_says (map system_in (prints_of measure))), last_of (filter page_says (map page_in (prints_of measure))) with
  | None, None => None
  | s, p => Some (mkLayout (match s with Some x => x | None => noSystem end) (match p with Some x => x | None => noPage end))
  end.

(** The measure of index [i]. *)
Definition measure_at (i : Z) (l : list (list music_data)) : option (list music_data) :=
  if i <? 0 then None else nth_error l (Z.to_nat i).
