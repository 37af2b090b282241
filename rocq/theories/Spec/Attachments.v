(** What a note keeps of its attachments when it is written and read back. *)
From Coq Require Import List Ascii String Bool ZArith QArith.
From Verif Require Import Model.Base Model.Text Model.LongDouble Model.Decimals Model.EnumLookup Model.CoreEnums Model.ApiEnums
  Model.MarkData Model.Notations Spec.MarkGroups.
Import ListNotations.
Open Scope Z_scope.

(** ** Numbers *)

(** A number as a decimal of type [t] stores it: C03 and C04 say which one that is. *)
Definition stored (t : decimal_type) (x : Q) : Q :=
  match Decimals.construct t x with Ok p => Decimals.getValue p | _ => x end.

(** Numbers of at most six decimals and of a reasonable size, which are stored as they
    are: the long doubles nearest to k / 1000000. *)
Definition six_decimals (x : Q) : Prop :=
  exists k, Z.abs k <= 2 ^ 44 * 10 ^ 6 /\ x = ld (inject_Z k / 1000000)%Q.

(** Long doubles below 2^64: beyond, storing them is undefined (C03). *)
Definition storable (x : Q) : Prop := is_ld x /\ (- inject_Z (2 ^ 64) < x)%Q /\ (x < inject_Z (2 ^ 64))%Q.

Definition every {A} (P : A -> Prop) (x : option A) : Prop := match x with Some v => P v | None => True end.

(** ** Positions *)

Definition kept_position (alignment place : bool) (p : PositionData) : PositionData :=
  mkPosition (option_map (stored TenthsValue) (defaultX p)) (option_map (stored TenthsValue) (defaultY p))
    (option_map (stored TenthsValue) (relativeX p)) (option_map (stored TenthsValue) (relativeY p))
    (if alignment then horizontalAlignment p else api_HorizontalAlignment_unspecified)
    (if alignment then verticalAlignment p else api_VerticalAlignment_unspecified)
    (if place then placement p else api_Placement_unspecified).

(** ** Curves *)

(** Number levels 1 to 6 are kept, larger ones become 6, and -1 stands for none. *)
Definition kept_number (n : Z) : Z := if n <=? 0 then -1 else Z.min n 6.

Definition kept_points (p : CurvePoints) : CurvePoints :=
  mkPoints (kept_position false true (positionData p)) (option_map (stored TenthsValue) (bezierX p))
    (option_map (stored TenthsValue) (bezierY p)) (bezierOffset p).

(** A curve of no type is written as a tie that starts. *)
Definition no_points : CurvePoints := mkPoints noPosition None None None.
Definition plain_tie_start : CurveStart :=
  mkCurveStart Curve_tie (-1) no_points Orientation_unspecified api_Placement_unspecified
    (mkLine api_LineType_unspecified api_LineHook_unspecified None None None) None.
Definition plain_tie_stop : CurveStop := mkCurveStop Curve_tie (-1) no_points.

(** The placement of the curve, the hook and the end length of its line are lost. *)
Definition kept_start (c : CurveStart) : CurveStart :=
  match cs_type c with
  | Curve_unspecified => plain_tie_start
  | t => mkCurveStart t (kept_number (cs_number c)) (kept_points (cs_points c)) (cs_orientation c) api_Placement_unspecified
           (mkLine (lineType (cs_line c)) api_LineHook_unspecified None
              (option_map (stored TenthsValue) (dashLength (cs_line c))) (option_map (stored TenthsValue) (spaceLength (cs_line c))))
           (cs_color c)
  end.

Definition kept_continue (c : CurveContinue) : CurveContinue :=
  mkCurveContinue (cc_type c) (kept_number (cc_number c)) (kept_points (cc_points c))
    (option_map (stored TenthsValue) (bezierX2 c)) (option_map (stored TenthsValue) (bezierY2 c))
    (option_map (stored DivisionsValue) (bezierOffset2 c)).

Definition kept_stop (c : CurveStop) : CurveStop :=
  mkCurveStop (cp_type c) (kept_number (cp_number c)) (kept_points (cp_points c)).

Definition typed (t : CurveType) : bool := match t with Curve_unspecified => false | _ => true end.

Definition kept_continues (l : list CurveContinue) : list CurveContinue := map kept_continue (filter (fun c => typed (cc_type c)) l).
Definition kept_stops (l : list CurveStop) : list CurveStop := map kept_stop (filter (fun c => typed (cp_type c)) l).

(** The stops and continuations of no type turn up among the starts. *)
Definition strays {A} (type : A -> CurveType) (l : list A) : list CurveStart :=
  map (fun _ => plain_tie_start) (filter (fun c => negb (typed (type c))) l).

Definition kept_starts (a : NoteAttachmentData) : list CurveStart :=
  strays cp_type (curveStops a) ++ strays cc_type (curveContinuations a) ++ map kept_start (curveStarts a).

(** ** Tuplets *)

(** Positions are lost; an unspecified duration becomes a maxima, a negative count 0,
    and no dots are told from zero dots. *)
Definition kept_duration (d : api_DurationName) : api_DurationName :=
  match d with api_DurationName_unspecified => api_DurationName_maxima | d => d end.

Definition kept_dots (n : Z) : Z := if n <=? 0 then -1 else n.

(** The normal number can only be shown along with the actual one. *)
Definition kept_show (actual normal : api_Bool) : api_Bool * api_Bool :=
  match actual with
  | api_Bool_unspecified => (api_Bool_unspecified, api_Bool_unspecified)
  | api_Bool_no => (api_Bool_no, api_Bool_no)
  | api_Bool_yes => (api_Bool_yes, match normal with api_Bool_yes => api_Bool_yes | _ => api_Bool_no end)
  end.

Definition kept_tupletStart (t : TupletStart) : TupletStart :=
  mkTupletStart (kept_number (ts_number t)) noPosition
    (Z.max 0 (actualNumber t)) (kept_duration (actualDurationName t)) (kept_dots (actualDots t))
    (Z.max 0 (normalNumber t)) (kept_duration (normalDurationName t)) (kept_dots (normalDots t))
    (fst (kept_show (showActualNumber t) (showNormalNumber t))) (snd (kept_show (showActualNumber t) (showNormalNumber t)))
    (bracket t).

Definition kept_tupletStop (t : TupletStop) : TupletStop := mkTupletStop (kept_number (tp_number t)) noPosition.

(** ** Marks *)

(** The name of an element: the enumerator's, with hyphens. *)
Fixpoint hyphened (s : str) : str :=
  match s with
  | [] => []
  | c :: r =>
      let n := Z.of_nat (nat_of_ascii c) in
      if (65 <=? n) && (n <=? 90) then "-"%char :: ascii_of_nat (Z.to_nat (n + 32)) :: hyphened r else c :: hyphened r
  end.

Definition element_name (m : api_MarkType) : str := hyphened (api_MarkType_name m).

(** The name given to a fermata: its shape, if it has no direction. *)
Definition fermata_shape (m : api_MarkType) : str :=
  let n := api_MarkType_name m in
  if negb (isPlainFermata m) then lit ""
  else if starts_with (lit "fermataNormal") n then lit "normal"
  else if starts_with (lit "fermataAngled") n then lit "angled"
  else if starts_with (lit "fermataSquare") n then lit "square"
  else lit "".

(** The dynamic marking with this text, if there is one. *)
Definition dynamic_called (name : str) : option api_MarkType :=
  find (fun m => dynamics_section m && negb (api_MarkType_value m =? api_MarkType_value api_MarkType_otherDynamics) &&
                 str_eqb (api_MarkType_name m) name) api_MarkType_members.

Definition is_fermata (m : MarkData) : bool := fermata_section (m_type m).

(** The families in which marks are written. *)
Inductive family := Dynamic | Fermata | Articulation | Ornament | Technical | Unwritten.

Definition written_as (m : api_MarkType) : family :=
  if dynamics_section m then Dynamic
  else if fermata_section m then Fermata
  else if articulation_section m then Articulation
  else if match m with api_MarkType_customAccentTenuto => true | _ => false end then Articulation
  else if ornament_section m then Ornament
  else if match m with api_MarkType_unknownOrnament => true | _ => false end then Ornament
  else if technical_section m then Technical
  else Unwritten.

(** A mark after it is written and read at a tick: the print data is lost, and with a
    fermata the position too. *)
Definition kept_mark (tick : Z) (m : MarkData) : MarkData :=
  let placed t name := mkMark t name tick 0 (kept_position false true (m_position m)) in
  match written_as (m_type m) with
  | Dynamic =>
      let p := kept_position true true (m_position m) in
      match m_type m with
      | api_MarkType_otherDynamics =>
          match m_name m with
          | [] => mkMark api_MarkType_otherDynamics [] tick 0 p
          | name => match dynamic_called name with
                    | Some t => mkMark t name tick 0 p
                    | None => mkMark api_MarkType_otherDynamics (if str_eqb name (lit "other-dynamics") then [] else name) tick 0 p
                    end
          end
      | t => mkMark t (api_MarkType_name t) tick 0 p
      end
  | Fermata => mkMark (m_type m) (fermata_shape (m_type m)) tick 0 noPosition
  | Articulation =>
      match m_type m with
      | api_MarkType_customAccentTenuto => placed api_MarkType_customAccentTenuto markStringCustomAccentTenuto
      | api_MarkType_otherArticulation =>
          placed (if str_eqb (m_name m) markStringCustomAccentTenuto then api_MarkType_customAccentTenuto
                  else api_MarkType_otherArticulation) (m_name m)
      | t => placed t (element_name t)
      end
  | Ornament =>
      match m_type m with
      | api_MarkType_otherOrnament | api_MarkType_unknownOrnament =>
          placed api_MarkType_otherOrnament (match m_name m with [] => lit "other-ornament" | n => n end)
      | t => placed t (if starts_with (lit "tremolo") (api_MarkType_name t) then lit "tremolo" else element_name t)
      end
  | Technical =>
      match m_type m with
      | api_MarkType_fingernails => mkMark api_MarkType_otherTechnical [] tick 0 noPosition
      | api_MarkType_otherTechnical => placed api_MarkType_otherTechnical (m_name m)
      | t => placed t (element_name t)
      end
  | Unwritten => m
  end.

Definition of_family (f : family -> bool) (m : MarkData) : bool := f (written_as (m_type m)).

(** First the dynamics and fermatas, then the articulations, the ornaments, the
    technical marks, each in their order; other marks are lost. *)
Definition kept_marks (tick : Z) (l : list MarkData) : list MarkData :=
  map (kept_mark tick)
    (filter (of_family (fun f => match f with Dynamic | Fermata => true | _ => false end)) l ++
     filter (of_family (fun f => match f with Articulation => true | _ => false end)) l ++
     filter (of_family (fun f => match f with Ornament => true | _ => false end)) l ++
     filter (of_family (fun f => match f with Technical => true | _ => false end)) l).

(** ** All attachments *)

Definition kept_attachments (tick : Z) (a : NoteAttachmentData) : NoteAttachmentData :=
  mkAttachments (kept_marks tick (marks a)) (kept_starts a) (kept_continues (curveContinuations a)) (kept_stops (curveStops a))
    (map kept_tupletStart (tupletStarts a)) (map kept_tupletStop (tupletStops a)).

(** The tie flags of a note add a plain tie to its curves, and two of each if both are set. *)
Definition tie_copies (one other : bool) : nat := if one then if other then 2 else 1 else 0.

Definition with_ties (isTieStop isTieStart : bool) (a : NoteAttachmentData) : NoteAttachmentData :=
  mkAttachments (marks a) (repeat plain_tie_start (tie_copies isTieStart isTieStop) ++ curveStarts a) (curveContinuations a)
    (repeat plain_tie_stop (tie_copies isTieStop isTieStart) ++ curveStops a) (tupletStarts a) (tupletStops a).

(** ** Values in range *)

Definition position_ok (P : Q -> Prop) (p : PositionData) : Prop :=
  every P (defaultX p) /\ every P (defaultY p) /\ every P (relativeX p) /\ every P (relativeY p).
Definition points_ok (P : Q -> Prop) (p : CurvePoints) : Prop :=
  position_ok P (positionData p) /\ every P (bezierX p) /\ every P (bezierY p) /\
  every (fun z => - 2 ^ 31 <= z < 2 ^ 31) (bezierOffset p).

Definition attachments_ok (P : Q -> Prop) (a : NoteAttachmentData) : Prop :=
  Forall (fun m => position_ok P (m_position m)) (marks a) /\
  Forall (fun c => points_ok P (cs_points c) /\ every P (dashLength (cs_line c)) /\ every P (spaceLength (cs_line c))) (curveStarts a) /\
  Forall (fun c => points_ok P (cc_points c) /\ every P (bezierX2 c) /\ every P (bezierY2 c) /\ every P (bezierOffset2 c)) (curveContinuations a) /\
  Forall (fun c => points_ok P (cp_points c)) (curveStops a) /\
  Forall (fun t => - 2 ^ 31 <= actualNumber t < 2 ^ 31 /\ - 2 ^ 31 <= normalNumber t < 2 ^ 31) (tupletStarts a).
