(** The layout of a score: api/DefaultsData.h, impl/LayoutFunctions.{h,cpp}, the print
    elements of impl/MeasureWriter.cpp, and how impl/ScoreReader.cpp reads them.
    Attribute texts are handed over without their quotes being escaped or parsed (C14,
    C53); the decimals are handed over as their stored values (C04). *)
From Coq Require Import List Ascii String Bool ZArith QArith Qabs Qround.
From Verif Require Import Model.Base Model.Text Model.Strings Model.LongDouble Model.Decimals Model.EnumLookup Model.CoreEnums
  Model.CustomEnums Model.ApiEnums Model.Notations.
Import ListNotations.
Local Open Scope Z_scope.

(** ** The API's records *)

(** api/SizeData.h:19-42, api/MarginsData.h:16-49, api/LeftRight.h. *)
Record SizeData := mkSize { height : Q; width : Q }.
Record MarginsData := mkMargins { left : Q; right : Q; top : Q; bottom : Q }.
Record LeftRight := mkLeftRight { lr_left : Q; lr_right : Q }.

(** api/PageMarginsData.h:19-48, api/PageLayoutData.h:19-48, api/SystemLayoutData.h:20-60,
    api/SystemData.h:32-60, api/PageData.h:19-60, api/LayoutData.h:25-75. *)
Record PageMarginsData := mkPageMargins { odd : option MarginsData; even : option MarginsData }.
Record PageLayoutData := mkPageLayout { size : option SizeData; pageMargins : PageMarginsData }.
Record SystemLayoutData := mkSystemLayout {
  systemMargins : option LeftRight;
  systemDistance : option Q;
  topSystemDistance : option Q;
  staffDistance : option Q
}.
Record SystemData := mkSystem { newSystem : api_Bool; systemLayout : SystemLayoutData }.
Record PageData := mkPage { newPage : api_Bool; pageLayoutData : PageLayoutData; pageNumber : option str }.
Record LayoutData := mkLayout { ld_system : SystemData; ld_page : PageData }.

(** api/AppearanceData.h:13-40. *)
Inductive AppearanceType := LineWidth | NoteSize | Distance | OtherAppearance.
Record AppearanceData := mkAppearance { appearanceType : AppearanceType; appearanceSubType : str; appearanceValue : Q }.

(** api/DefaultsData.h:18-70. The member measureNumbering is neither written nor read. *)
Record DefaultsData := mkDefaults {
  scalingMillimeters : Q;
  scalingTenths : Q;
  pageLayout : PageLayoutData;
  defaultSystemLayout : SystemLayoutData;
  appearance : list AppearanceData
}.

(** The values of the default constructors. *)
Definition noPageMargins : PageMarginsData := mkPageMargins None None.
Definition noPageLayout : PageLayoutData := mkPageLayout None noPageMargins.
Definition noSystemLayout : SystemLayoutData := mkSystemLayout None None None None.
Definition noSystem : SystemData := mkSystem api_Bool_unspecified noSystemLayout.
Definition noPage : PageData := mkPage api_Bool_unspecified noPageLayout None.
Definition noLayout : LayoutData := mkLayout noSystem noPage.
Definition noDefaults : DefaultsData := mkDefaults (-1) (-1) noPageLayout noSystemLayout [].

(** The isUsed functions: PageMarginsData.h:32-35, PageLayoutData.h:36-39,
    SystemLayoutData.h:37, SystemData.h:42, PageData.h:47-50. *)
Definition given {A} (x : option A) : bool := match x with Some _ => true | None => false end.
Definition isSpecified (b : api_Bool) : bool := match b with api_Bool_unspecified => false | _ => true end.
Definition margins_used (m : PageMarginsData) : bool := given (odd m) || given (even m).
Definition page_layout_used (p : PageLayoutData) : bool := given (size p) || margins_used (pageMargins p).
Definition system_layout_used (s : SystemLayoutData) : bool :=
  given (systemMargins s) || given (systemDistance s) || given (topSystemDistance s) || given (staffDistance s).
Definition system_used (s : SystemData) : bool := isSpecified (newSystem s) || system_layout_used (systemLayout s).
Definition page_used (p : PageData) : bool := isSpecified (newPage p) || page_layout_used (pageLayoutData p) || given (pageNumber p).

(** operator== on MarginsData and PageMarginsData::same, MarginsData.h:43-48 (the
    members are compared exactly), PageMarginsData.h:37-40. *)
Definition margins_eqb (a b : MarginsData) : bool :=
  Qeq_bool (left a) (left b) && Qeq_bool (right a) (right b) && Qeq_bool (top a) (top b) && Qeq_bool (bottom a) (bottom b).
Definition same (m : PageMarginsData) : bool :=
  match odd m, even m with
  | Some a, Some b => margins_eqb a b
  | None, None => true
  | _, _ => false
  end.

(** ** The elements *)

(** core/elements/PageMargins.h, PageLayout.h, SystemLayout.h, StaffLayout.h, LayoutGroup.h:
    an element that is absent is [None]. The number of page margins is at most two
    (PageLayout.cpp:100-106), and that many are written. *)
Record xmargins := mkXMargins { xm_type : option MarginType; xm_left : Q; xm_right : Q; xm_top : Q; xm_bottom : Q }.
Record xpage_layout := mkXPage { page_height : Q; page_width : Q; page_margins : list xmargins }.
Record xsystem_layout := mkXSystem { x_margins : option LeftRight; x_distance : option Q; x_top : option Q }.
Record layout_group := mkGroup {
  g_page : option xpage_layout;
  g_system : option xsystem_layout;
  g_staff : list (option Q)
}.

(** core/elements/Appearance.h: the texts of the type attributes with the values. *)
Record xappearance := mkXAppearance {
  line_widths : list (str * Q);
  note_sizes : list (str * Q);
  distances : list (str * Q);
  other_appearances : list (str * str)
}.

(** core/elements/Defaults.h; the scaling holds millimeters and tenths. *)
Record xdefaults := mkXDefaults {
  x_scaling : option (Q * Q);
  x_group : layout_group;
  x_appearance : option xappearance
}.

Definition empty_group : layout_group := mkGroup None None [].
Definition empty_xsystem : xsystem_layout := mkXSystem None None None.
Definition empty_appearance : xappearance := mkXAppearance [] [] [] [].
Definition empty_xdefaults : xdefaults := mkXDefaults None empty_group None.

(** An element that is to have contents is present: setHasDefaults( true ) and the like. *)
Definition there {A} (e : A) (x : option A) : A := match x with Some v => v | None => e end.

Definition set_scaling (f : Q * Q -> Q * Q) (d : xdefaults) : xdefaults :=
  mkXDefaults (Some (f (there (0%Q, 0%Q) (x_scaling d)))) (x_group d) (x_appearance d).
Definition set_group (f : layout_group -> layout_group) (d : xdefaults) : xdefaults :=
  mkXDefaults (x_scaling d) (f (x_group d)) (x_appearance d).
Definition set_appearance (f : xappearance -> xappearance) (d : xdefaults) : xdefaults :=
  mkXDefaults (x_scaling d) (x_group d) (Some (f (there empty_appearance (x_appearance d)))).
Definition set_page (p : xpage_layout) (g : layout_group) : layout_group := mkGroup (Some p) (g_system g) (g_staff g).
Definition set_system (f : xsystem_layout -> xsystem_layout) (g : layout_group) : layout_group :=
  mkGroup (g_page g) (Some (f (there empty_xsystem (g_system g)))) (g_staff g).
Definition add_staff (s : option Q) (g : layout_group) : layout_group := mkGroup (g_page g) (g_system g) (g_staff g ++ [s]).
Definition set_margins (m : LeftRight) (s : xsystem_layout) : xsystem_layout := mkXSystem (Some m) (x_distance s) (x_top s).
Definition set_distance (q : Q) (s : xsystem_layout) : xsystem_layout := mkXSystem (x_margins s) (Some q) (x_top s).
Definition set_top (q : Q) (s : xsystem_layout) : xsystem_layout := mkXSystem (x_margins s) (x_distance s) (Some q).
Definition with_defaults (f : xdefaults -> xdefaults) (h : option xdefaults) : option xdefaults := Some (f (there empty_xdefaults h)).

(** ** Writing the defaults *)

Definition is_positive (q : Q) : bool := negb (Qle_bool q 0).

(** LayoutFunctions.cpp:44-59. *)
Definition addScaling (d : DefaultsData) (h : option xdefaults) : outcome (option xdefaults) :=
  obind (if is_positive (scalingMillimeters d)
         then omap (fun v => with_defaults (set_scaling (fun s => (v, snd s))) h) (decimal_value MillimetersValue (scalingMillimeters d))
         else Ok h) (fun h =>
  if is_positive (scalingTenths d)
  then omap (fun v => with_defaults (set_scaling (fun s => (fst s, v))) h) (decimal_value TenthsValue (scalingTenths d))
  else Ok h).

(** toTenths, LayoutFunctions.h:42-45. *)
Definition toTenths (v : Q) : outcome Q := decimal_value TenthsValue (if is_positive v then v else 0%Q).

Definition write_margins (t : MarginType) (m : MarginsData) : outcome xmargins :=
  obind (toTenths (left m)) (fun l => obind (toTenths (right m)) (fun r =>
  obind (toTenths (top m)) (fun t' => obind (toTenths (bottom m)) (fun b => Ok (mkXMargins (Some t) l r t' b))))).

(** createPageMargins, LayoutFunctions.cpp:61-106. *)
Definition createPageMargins (m : PageMarginsData) : outcome (list xmargins) :=
  if negb (margins_used m) then Ok []
  else
    let areEvenOddSame := same m in
    obind (match odd m with
           | Some o => omap (fun x => [x]) (write_margins (if areEvenOddSame then MarginType_both else MarginType_odd) o)
           | None => Ok []
           end) (fun first =>
    match even m with
    | Some e => if negb areEvenOddSame then omap (fun x => first ++ [x]) (write_margins MarginType_even e) else Ok first
    | None => Ok first
    end).

(** createPageLayout, LayoutFunctions.cpp:108-131. *)
Definition createPageLayout (p : PageLayoutData) : outcome xpage_layout :=
  obind (match size p with
         | Some s =>
             obind (decimal_value TenthsValue (height s)) (fun h => obind (decimal_value TenthsValue (width s)) (fun w =>
             Ok (mkXPage h w [])))
         | None => Ok (mkXPage 0 0 [])
         end) (fun x =>
  if negb (margins_used (pageMargins p)) then Ok x
  else omap (fun ms => mkXPage (page_height x) (page_width x) (page_margins x ++ ms)) (createPageMargins (pageMargins p))).

(** addPageLayout, LayoutFunctions.cpp:134-148. *)
Definition addPageLayout (p : PageLayoutData) (h : option xdefaults) : outcome (option xdefaults) :=
  if negb (page_layout_used p) then Ok h
  else omap (fun x => with_defaults (set_group (set_page x)) h) (createPageLayout p).

(** [v] is written by [f] if it is there. *)
Definition if_given {A B} (v : option A) (f : A -> B -> outcome B) (b : B) : outcome B :=
  match v with Some x => f x b | None => Ok b end.

Definition write_left_right (m : LeftRight) : outcome LeftRight :=
  obind (decimal_value TenthsValue (lr_left m)) (fun l => obind (decimal_value TenthsValue (lr_right m)) (fun r => Ok (mkLeftRight l r))).

(** addSystemMargins, LayoutFunctions.cpp:150-203. The top system distance turns the
    system margins on as well, :198. *)
Definition addSystemMargins (s : SystemLayoutData) (h : option xdefaults) : outcome (option xdefaults) :=
  obind (if_given (systemDistance s)
           (fun q h => omap (fun v => with_defaults (set_group (set_system (set_distance v))) h) (decimal_value TenthsValue q)) h) (fun h =>
  obind (if_given (staffDistance s)
           (fun q h => omap (fun v => with_defaults (set_group (add_staff (Some v))) h) (decimal_value TenthsValue q)) h) (fun h =>
  obind (if_given (systemMargins s)
           (fun m h => omap (fun v => with_defaults (set_group (set_system (set_margins v))) h) (write_left_right m)) h) (fun h =>
  if_given (topSystemDistance s)
    (fun q h => omap (fun v => with_defaults (set_group (set_system (fun x =>
       set_top v (set_margins (there (mkLeftRight 0 0) (x_margins x)) x)))) h) (decimal_value TenthsValue q)) h))).

(** std::to_string( long double ): printf's %Lf, six decimals, the tie to the even
    digit. *)
Definition micro_units (q : Q) : Z :=
  let f := Qfloor (q * 1000000) in
  let r := (q * 1000000 - inject_Z f)%Q in
  if negb (Qle_bool (1 # 2) r) then f
  else if Qeq_bool r (1 # 2) then (if Z.even f then f else f + 1) else f + 1.
Definition to_string_ld (q : Q) : str :=
  let u := micro_units (Qabs q) in
  let digits := print_nat (u mod 1000000) in
  (if Qle_bool 0 q then [] else lit "-") ++ print_nat (u / 1000000) ++ lit "." ++
  repeat "0"%char (6 - List.length digits) ++ digits.

(** The classes LineWidthType and DistanceType (C49): the text that is written for a
    sub-type, and the text that is read. *)
Definition line_width_text (sub : str) : str :=
  getValueString isOther_LineWidthType LineWidthTypeEnum_toString
    (construct_text isOther_LineWidthType LineWidthTypeEnum_other tryParse_LineWidthTypeEnum sub).
Definition distance_text (sub : str) : str :=
  getValueString isOther_DistanceType DistanceTypeEnum_toString
    (construct_text isOther_DistanceType DistanceTypeEnum_other tryParse_DistanceTypeEnum sub).

(** addAppearance, LayoutFunctions.cpp:206-247. *)
Definition addAppearance1 (a : AppearanceData) (h : option xdefaults) : outcome (option xdefaults) :=
  let add f := with_defaults (set_appearance f) h in
  match appearanceType a with
  | LineWidth =>
      omap (fun v => add (fun x => mkXAppearance (line_widths x ++ [(line_width_text (appearanceSubType a), v)])
                                      (note_sizes x) (distances x) (other_appearances x)))
        (decimal_value TenthsValue (appearanceValue a))
  | NoteSize =>
      omap (fun v => add (fun x => mkXAppearance (line_widths x)
                                      (note_sizes x ++ [(NoteSizeType_toString (parse_NoteSizeType (appearanceSubType a)), v)])
                                      (distances x) (other_appearances x)))
        (decimal_value NonNegativeDecimal (appearanceValue a))
  | Distance =>
      omap (fun v => add (fun x => mkXAppearance (line_widths x) (note_sizes x)
                                      (distances x ++ [(distance_text (appearanceSubType a), v)]) (other_appearances x)))
        (decimal_value TenthsValue (appearanceValue a))
  | OtherAppearance =>
      Ok (add (fun x => mkXAppearance (line_widths x) (note_sizes x) (distances x)
                          (other_appearances x ++ [(token_of (appearanceSubType a), to_string_ld (appearanceValue a))])))
  end.

Fixpoint addAppearance (l : list AppearanceData) (h : option xdefaults) : outcome (option xdefaults) :=
  match l with
  | [] => Ok h
  | a :: r => obind (addAppearance1 a h) (addAppearance r)
  end.

(** addDefaultsData, LayoutFunctions.cpp:35-41. *)
Definition addDefaultsData (d : DefaultsData) (h : option xdefaults) : outcome (option xdefaults) :=
  obind (addScaling d h) (fun h =>
  obind (addPageLayout (pageLayout d) h) (fun h =>
  obind (addSystemMargins (defaultSystemLayout d) h) (fun h =>
  addAppearance (appearance d) h))).

(** ** Reading the defaults *)

(** addScaling, LayoutFunctions.cpp:262-275. *)
Definition readScaling (h : option xdefaults) : Q * Q :=
  match h with
  | Some d => match x_scaling d with Some s => s | None => ((-1)%Q, (-1)%Q) end
  | None => ((-1)%Q, (-1)%Q)
  end.

(** The margins of the kinds of pages they are for, LayoutFunctions.cpp:291-319 and
    ScoreReader.cpp:551-577. *)
Definition for_odd (t : option MarginType) : bool :=
  match t with None | Some MarginType_both | Some MarginType_odd => true | Some MarginType_even => false end.
Definition for_even (t : option MarginType) : bool :=
  match t with None | Some MarginType_both | Some MarginType_even => true | Some MarginType_odd => false end.
Fixpoint readMargins (l : list xmargins) (m : PageMarginsData) : PageMarginsData :=
  match l with
  | [] => m
  | x :: r =>
      let v := mkMargins (xm_left x) (xm_right x) (xm_top x) (xm_bottom x) in
      let m := if for_odd (xm_type x) then mkPageMargins (Some v) (even m) else m in
      let m := if for_even (xm_type x) then mkPageMargins (odd m) (Some v) else m in
      readMargins r m
  end.

(** addPageMargins, LayoutFunctions.cpp:278-321; ScoreReader.cpp:541-578. *)
Definition readPageLayout (g : layout_group) : PageLayoutData :=
  match g_page g with
  | Some p => mkPageLayout (Some (mkSize (page_height p) (page_width p))) (readMargins (page_margins p) noPageMargins)
  | None => noPageLayout
  end.

(** addSystemMargins, LayoutFunctions.cpp:324-354; ScoreReader.cpp:469-490. The staff
    distance is not read here. *)
Definition readSystemLayout (g : layout_group) : SystemLayoutData :=
  match g_system g with
  | Some s => mkSystemLayout (x_margins s) (x_distance s) (x_top s) None
  | None => noSystemLayout
  end.

(** addStaffLayout, LayoutFunctions.cpp:357-373: the first one. *)
Definition readStaffLayout (g : layout_group) (s : SystemLayoutData) : SystemLayoutData :=
  match g_staff g with
  | Some q :: _ => mkSystemLayout (systemMargins s) (systemDistance s) (topSystemDistance s) (Some q)
  | _ => s
  end.

(** addAppearance, LayoutFunctions.cpp:376-430; the attribute of a line width is set
    to the text by LineWidthType::setValue, FromXElement.cpp:860-881. An other
    appearance is read as a distance of value 0, :419-429. *)
Definition read_line_width (t : str) : str :=
  getValueString isOther_LineWidthType LineWidthTypeEnum_toString
    (setValue_text isOther_LineWidthType LineWidthTypeEnum_other tryParse_LineWidthTypeEnum
       (construct_enum isOther_LineWidthType LineWidthTypeEnum_beam) t).
Definition read_distance (t : str) : str :=
  getValueString isOther_DistanceType DistanceTypeEnum_toString
    (setValue_text isOther_DistanceType DistanceTypeEnum_other tryParse_DistanceTypeEnum
       (construct_enum isOther_DistanceType DistanceTypeEnum_beam) t).
Definition readAppearance (h : option xdefaults) : list AppearanceData :=
  match h with
  | Some d =>
      match x_appearance d with
      | Some a =>
          map (fun p => mkAppearance LineWidth (read_line_width (fst p)) (snd p)) (line_widths a) ++
          map (fun p => mkAppearance NoteSize (NoteSizeType_toString (parse_NoteSizeType (fst p))) (snd p)) (note_sizes a) ++
          map (fun p => mkAppearance Distance (read_distance (fst p)) (snd p)) (distances a) ++
          map (fun p => mkAppearance Distance (fst p) 0) (other_appearances a)
      | None => []
      end
  | None => []
  end.

(** createDefaults, LayoutFunctions.cpp:250-259. *)
Definition createDefaults (h : option xdefaults) : DefaultsData :=
  let s := readScaling h in
  let g := x_group (there empty_xdefaults h) in
  mkDefaults (fst s) (snd s)
    (match h with Some _ => readPageLayout g | None => noPageLayout end)
    (match h with Some _ => readStaffLayout g (readSystemLayout g) | None => noSystemLayout end)
    (readAppearance h).

(** ** The prints *)

(** core/elements/Print.h and PrintAttributes.h. *)
Record xprint := mkPrint { p_newSystem : option YesNo; p_newPage : option YesNo; p_pageNumber : option str; p_group : layout_group }.
Definition empty_print : xprint := mkPrint None None None empty_group.

(** What a measure holds: a print element, or something else. *)
Inductive music_data := Print (p : xprint) | OtherData.

(** std::map< MeasureIndex, LayoutData >, api/ScoreData.h: the entries by increasing
    index. [find], and operator[], which adds what is not there. *)
Definition layout_map := list (Z * LayoutData).
Fixpoint find_layout (i : Z) (m : layout_map) : option LayoutData :=
  match m with
  | [] => None
  | (k, v) :: r => if k =? i then Some v else find_layout i r
  end.
Fixpoint update_layout (i : Z) (f : LayoutData -> LayoutData) (m : layout_map) : layout_map :=
  match m with
  | [] => [(i, f noLayout)]
  | (k, v) :: r =>
      if i =? k then (k, f v) :: r
      else if i <? k then (i, f noLayout) :: m
      else (k, v) :: update_layout i f r
  end.

(** ScoreWriter.cpp:346-384. *)
Definition isSystemInfo (m : layout_map) (i : Z) : bool :=
  match find_layout i m with Some l => system_used (ld_system l) | None => false end.
Definition findPageLayoutData (m : layout_map) (i : Z) : option PageData :=
  match find_layout i m with
  | Some l => if negb (page_used (ld_page l)) then None else Some (ld_page l)
  | None => None
  end.
Definition getSystemData (m : layout_map) (i : Z) : SystemData :=
  match find_layout i m with Some l => ld_system l | None => noSystem end.

Definition yes_no (b : api_Bool) : option YesNo :=
  match b with api_Bool_unspecified => None | api_Bool_yes => Some YesNo_yes | api_Bool_no => Some YesNo_no end.

(** MeasureWriter::writeSystemInfo, MeasureWriter.cpp:271-327. *)
Definition writeSystemInfo (d : SystemData) (measure : list music_data) : outcome (list music_data) :=
  if negb (system_used d) then Ok measure
  else
    let s := systemLayout d in
    obind (if_given (systemMargins s) (fun v g => omap (fun v => set_system (set_margins v) g) (write_left_right v)) empty_group) (fun g =>
    obind (if_given (topSystemDistance s) (fun v g => omap (fun v => set_system (set_top v) g) (decimal_value TenthsValue v)) g) (fun g =>
    obind (if_given (systemDistance s) (fun v g => omap (fun v => set_system (set_distance v) g) (decimal_value TenthsValue v)) g) (fun g =>
    Ok (measure ++ [Print (mkPrint (yes_no (newSystem d)) None None g)])))).

(** What writePageInfo does to its print, MeasureWriter.cpp:352-371. *)
Definition page_print (d : PageData) (p : xprint) : outcome xprint :=
  let p1 := mkPrint (p_newSystem p) (match yes_no (newPage d) with Some b => Some b | None => p_newPage p end) (p_pageNumber p) (p_group p) in
  obind (if page_layout_used (pageLayoutData d)
         then omap (fun x => mkPrint (p_newSystem p1) (p_newPage p1) (p_pageNumber p1) (set_page x (p_group p1))) (createPageLayout (pageLayoutData d))
         else Ok p1) (fun p2 =>
  Ok (match pageNumber d with
      | Some n => mkPrint (p_newSystem p2) (p_newPage p2) (Some (token_of n)) (p_group p2)
      | None => p2
      end)).

(** MeasureWriter::writePageInfo, MeasureWriter.cpp:329-372: the first print of the
    measure is used, or one is added. *)
Fixpoint writePageInfo (d : PageData) (measure : list music_data) : outcome (list music_data) :=
  match measure with
  | [] => omap (fun p => [Print p]) (page_print d empty_print)
  | Print p :: r => omap (fun p => Print p :: r) (page_print d p)
  | x :: r => omap (cons x) (writePageInfo d r)
  end.

(** MeasureWriter::writeMeasureGlobals, MeasureWriter.cpp:202-211; [before] is what the
    measure holds by then. *)
Definition writePrints (m : layout_map) (i : Z) (before : list music_data) : outcome (list music_data) :=
  obind (if isSystemInfo m i then writeSystemInfo (getSystemData m i) before else Ok before) (fun measure =>
  match findPageLayoutData m i with
  | Some p => writePageInfo p measure
  | None => Ok measure
  end).

(** The measures of a part, from index [i] on: what comes before the prints of each
    measure, and what comes after them. *)
Fixpoint writeMeasures (m : layout_map) (i : Z) (l : list (list music_data * list music_data)) : outcome (list (list music_data)) :=
  match l with
  | [] => Ok []
  | (before, after) :: r =>
      obind (writePrints m i before) (fun x => omap (cons (x ++ after)) (writeMeasures m (i + 1) r))
  end.

(** ScoreReader.cpp:461-490 and :524-577: what a print says of systems and of pages. *)
Definition from_yes_no (b : option YesNo) : api_Bool :=
  match b with None => api_Bool_unspecified | Some YesNo_yes => api_Bool_yes | Some YesNo_no => api_Bool_no end.
Definition system_of (p : xprint) : SystemData := mkSystem (from_yes_no (p_newSystem p)) (readSystemLayout (p_group p)).
Definition page_of (p : xprint) : PageData := mkPage (from_yes_no (p_newPage p)) (readPageLayout (p_group p)) (p_pageNumber p).

(** scanForSystemInfo and scanForPageInfo, ScoreReader.cpp:441-498,501-588. *)
Fixpoint scan_prints (f : xprint -> layout_map -> layout_map) (measure : list music_data) (m : layout_map) : layout_map :=
  match measure with
  | [] => m
  | Print p :: r => scan_prints f r (f p m)
  | OtherData :: r => scan_prints f r m
  end.
Fixpoint scan_measures (f : Z -> xprint -> layout_map -> layout_map) (i : Z) (l : list (list music_data)) (m : layout_map) : layout_map :=
  match l with
  | [] => m
  | x :: r => scan_measures f (i + 1) r (scan_prints (f i) x m)
  end.
Definition note_system (i : Z) (p : xprint) (m : layout_map) : layout_map :=
  if system_used (system_of p) then update_layout i (fun l => mkLayout (system_of p) (ld_page l)) m else m.
Definition note_page (i : Z) (p : xprint) (m : layout_map) : layout_map :=
  if page_used (page_of p) then update_layout i (fun l => mkLayout (ld_system l) (page_of p)) m else m.
Definition scanForSystemInfo (parts : list (list (list music_data))) (m : layout_map) : layout_map :=
  match parts with [] => m | topPart :: _ => scan_measures note_system 0 topPart m end.
Definition scanForPageInfo (parts : list (list (list music_data))) (m : layout_map) : layout_map :=
  match parts with [] => m | topPart :: _ => scan_measures note_page 0 topPart m end.

(** ScoreReader.cpp:300-301, on a score without layout. *)
Definition readLayout (parts : list (list (list music_data))) : layout_map := scanForPageInfo parts (scanForSystemInfo parts []).
