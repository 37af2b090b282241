(** Part groups that can be told apart, and what is kept of them. *)
From Coq Require Import List ZArith Bool.
From Verif Require Import Model.Base Model.Text Model.Strings Model.ApiEnums Model.CoreEnums Model.PartGroups Spec.Numerals.
Import ListNotations.
Open Scope Z_scope.

(** A number that is not negative, or -1 for none. *)
Definition number_or_none (n : Z) : Z := if 0 <=? n then n else -1.
Definition same_number (a b : PartGroupData) : Prop := number_or_none (g_number a) = number_or_none (g_number b).

(** The parts of the group, of [count] parts. *)
Definition within (count : nat) (g : PartGroupData) : Prop := 0 <= g_first g <= g_last g /\ g_last g < Z.of_nat count.

(** [a] and [b] have no part in common; all parts of [b] are parts of [a]. *)
Definition apart (a b : PartGroupData) : Prop := g_last a < g_first b \/ g_last b < g_first a.
Definition inside (b a : PartGroupData) : Prop := g_first a <= g_first b /\ g_last b <= g_last a.

(** Groups that overlap, but are not one inside the other, have different numbers. If the
    outer one of two groups with the same number and the same first part were the later
    one in the list, they would also be mistaken for each other. *)
Definition distinguishable (a b : PartGroupData) : Prop :=
  same_number a b -> apart a b \/ inside b a \/ (inside a b /\ g_first b < g_first a).

(** Groups with the same number have no part in common: numbers that are distinct while
    the groups are open. *)
Definition distinctly_numbered (l : list PartGroupData) : Prop := ForallOrdPairs (fun a b => same_number a b -> apart a b) l.

Definition proper_groups (count : nat) (l : list PartGroupData) : Prop :=
  Forall (fun g => within count g /\ g_number g <= int_max /\ g_bracket g <> None) l /\ ForallOrdPairs distinguishable l.

(** What is kept. *)
Definition kept_group (g : PartGroupData) : PartGroupData :=
  mkGroup (g_first g) (g_last g) (g_name g) [] [] []
    (match g_bracket g with Some api_BracketType_unspecified => None | b => b end) (number_or_none (g_number g)).

(** In the order of the first parts, and of the numbers. *)
Definition group_le (a b : PartGroupData) : Prop := g_first a < g_first b \/ (g_first a = g_first b /\ g_number a <= g_number b).

(** What C33 asks for. *)
Definition five (g : PartGroupData) : Z * Z * Z * str * option api_BracketType := (g_first g, g_last g, g_number g, g_name g, g_bracket g).

(** The number attribute says [n], -1 for no attribute. *)
Definition has_number (x : part_group) (n : Z) : Prop :=
  (n = -1 /\ xg_number x = None) \/ (0 <= n /\ xg_number x = Some (print_int n)).

(** A stop next to another stop has no smaller number. *)
Definition stops_descend (a b : group_or_part) : Prop :=
  match a, b with
  | PartGroup x, PartGroup y => xg_start x = false -> xg_start y = false -> exists n m, has_number x n /\ has_number y m /\ m <= n
  | _, _ => True
  end.

(** The number of score parts. *)
Fixpoint count_parts (l : list group_or_part) : nat :=
  match l with [] => O | ScorePart :: r => S (count_parts r) | PartGroup _ :: r => count_parts r end.

(** All the part groups of the list. *)
Definition groups_of (x : part_list) : list part_group :=
  pl_before x ++ flat_map (fun i => match i with PartGroup g => [g] | ScorePart => [] end) (pl_after x).

(** What stands for the start and the stop of a group. *)
Definition numbered (g : PartGroupData) (p : part_group) : Prop :=
  (g_number g < 0 /\ xg_number p = None) \/ (0 <= g_number g /\ exists t, xg_number p = Some t /\ canonical_int t (g_number g)).
Definition start_of (g : PartGroupData) (p : part_group) : Prop :=
  xg_start p = true /\ numbered g p /\ (g_name g = [] -> xg_name p = None) /\ (g_name g <> [] -> xg_name p = Some (g_name g)) /\
  xg_abbreviation p = None /\ (xg_symbol p = None <-> g_bracket g = Some api_BracketType_unspecified).
Definition stop_of (g : PartGroupData) (p : part_group) : Prop :=
  xg_start p = false /\ numbered g p /\ xg_name p = None /\ xg_abbreviation p = None /\ xg_symbol p = None.

(** What the part list says, from the start: the groups, and where the score parts are. *)
Definition items_of (x : part_list) : list group_or_part := map PartGroup (pl_before x) ++ ScorePart :: pl_after x.

(** The number the element gives, -1 if it gives none. *)
Definition gives_number (p : part_group) (n : Z) : Prop :=
  (xg_number p = None /\ n = -1) \/ (exists t, xg_number p = Some t /\ stringToInt t = Ok (Some n)).

(** The group that the element opens, before part [i]; its last part is not known yet. *)
Definition opens (i : Z) (p : part_group) (g : PartGroupData) : Prop :=
  xg_start p = true /\ gives_number p (g_number g) /\ g_first g = i /\
  (xg_name p = None -> g_name g = []) /\ (forall t, xg_name p = Some t -> g_name g = t) /\
  (xg_abbreviation p = None -> g_abbreviation g = []) /\ (forall t, xg_abbreviation p = Some t -> g_abbreviation g = t) /\
  g_displayName g = [] /\ g_displayAbbreviation g = [] /\
  (xg_symbol p = None -> g_bracket g = None) /\
  (forall y, xg_symbol p = Some y -> exists b, g_bracket g = Some b /\ api_BracketType_name b = GroupSymbolValue_toString y).

(** Which of the open groups, the latest first, a stop with the number closes: the latest
    with this number, or if none has it the latest of all. *)
Inductive closes (n : Z) : list PartGroupData -> PartGroupData -> list PartGroupData -> Prop :=
  | closes_number a g b : g_number g = n -> Forall (fun h => g_number h <> n) a -> closes n (a ++ g :: b) g (a ++ b)
  | closes_latest g b : Forall (fun h => g_number h <> n) (g :: b) -> closes n (g :: b) g b.

(** The group with its last part. *)
Definition ends_with (j : Z) (g h : PartGroupData) : Prop :=
  g_last h = j /\ g_first h = g_first g /\ g_name h = g_name g /\ g_displayName h = g_displayName g /\
  g_abbreviation h = g_abbreviation g /\ g_displayAbbreviation h = g_displayAbbreviation g /\
  g_bracket h = g_bracket g /\ g_number h = g_number g.

(** Reading the items, with part [i] next and these groups open, gives these groups, in
    the order in which they are closed. *)
Inductive gives (i : Z) : list PartGroupData -> list group_or_part -> list PartGroupData -> Prop :=
  | gives_nothing o : gives i o [] []
  | gives_part o r l : gives (i + 1) o r l -> gives i o (ScorePart :: r) l
  | gives_start o p g r l : opens i p g -> gives i (g :: o) r l -> gives i o (PartGroup p :: r) l
  | gives_stray p r l : xg_start p = false -> gives i [] r l -> gives i [] (PartGroup p :: r) l
  | gives_stop o p n g o' h r l : xg_start p = false -> gives_number p n -> closes n o g o' ->
      ends_with (Z.max 0 (i - 1)) g h -> gives i o' r l -> gives i o (PartGroup p :: r) (h :: l).
