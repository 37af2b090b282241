(** The part groups of a score: ScoreWriter.cpp:139-345 and ScoreReader.cpp:100-166,
    308-439. *)
From Coq Require Import List ZArith Bool.
From Verif Require Import Model.Base Model.Text Model.Strings Model.ApiEnums Model.CoreEnums Model.EnumLookup Model.ConverterTables Model.ScoreData.
Import ListNotations.
Open Scope Z_scope.

(** api::PartGroupData, PartGroupData.h:39-69. The constructor does not initialize
    bracketType, [None] is the indeterminate value it then has. It sets the indices and
    the number to -1 and the texts to nothing, see [startPartGroup]. *)
Record PartGroupData := mkGroup {
  g_first : Z;
  g_last : Z;
  g_name : str;
  g_displayName : str;
  g_abbreviation : str;
  g_displayAbbreviation : str;
  g_bracket : option api_BracketType;
  g_number : Z
}.

(** core::PartGroup: the type and number attributes, the group-name, group-abbreviation
    and group-symbol elements. The group-barline element, always yes, is left out, and so
    are the elements that are neither written nor read. *)
Record part_group := mkXGroup {
  xg_start : bool;
  xg_number : option str;
  xg_name : option str;
  xg_abbreviation : option str;
  xg_symbol : option GroupSymbolValue
}.

(** core::PartList: the part groups before the first score part, and what follows it. The
    score parts are left out but for their places. *)
Inductive group_or_part := PartGroup (g : part_group) | ScorePart.
Record part_list := mkPartList { pl_before : list part_group; pl_after : list group_or_part }.

(** ScoreWriter::makePartGroupStart and makePartGroupStop, ScoreWriter.cpp:281-325. *)
Definition number_attribute (g : PartGroupData) : option str :=
  if 0 <=? g_number g then Some (print_int (g_number g)) else None.
Definition makePartGroupStart (g : PartGroupData) : outcome part_group :=
  match g_bracket g with
  | None => UB
  | Some b =>
    Ok (mkXGroup true (number_attribute g)
          (match g_name g with [] => None | t => Some t end) None
          (match b with api_BracketType_unspecified => None | _ => Some (bracketMap_toCore b) end))
  end.
Definition makePartGroupStop (g : PartGroupData) : part_group := mkXGroup false (number_attribute g) None None None.

(** ScoreWriter::findPartGroupsByStartIndex and findPartGroupsByStopIndex,
    ScoreWriter.cpp:253-278. Asking partGroupStartExists and partGroupStopExists first,
    :227-250, makes no difference. *)
Definition findPartGroupsByStartIndex (i : Z) (l : list PartGroupData) : list PartGroupData := filter (fun g => g_first g =? i) l.
Definition findPartGroupsByStopIndex (i : Z) (l : list PartGroupData) : list PartGroupData := filter (fun g => g_last g =? i) l.

(** reverseStopsCompare, ScoreWriter.cpp:159-162. *)
Definition reverseStopsCompare (a b : PartGroupData) : bool := g_number b <? g_number a.

(** What ScoreWriter::addScorePart, ScoreWriter.cpp:154-212, adds before and after the
    score part. *)
Definition starts (i : Z) (l : list PartGroupData) : outcome (list part_group) :=
  fold_right (fun g o => obind (makePartGroupStart g) (fun x => omap (cons x) o)) (Ok []) (findPartGroupsByStartIndex i l).
Definition stops (S : sorter) (i : Z) (l : list PartGroupData) : list part_group :=
  map makePartGroupStop (S PartGroupData reverseStopsCompare (findPartGroupsByStopIndex i l)).

(** The loop over the parts, ScoreWriter.cpp:138-144. *)
Fixpoint add_parts (S : sorter) (l : list PartGroupData) (i : Z) (count : nat) : outcome (list group_or_part) :=
  match count with
  | O => Ok []
  | Datatypes.S n =>
    obind (starts i l) (fun a =>
      omap (fun r => map PartGroup a ++ [ScorePart] ++ map PartGroup (stops S i l) ++ r) (add_parts S l (i + 1) n))
  end.
Definition write_groups (S : sorter) (count : nat) (l : list PartGroupData) : outcome part_list :=
  match count with
  | O => Ok (mkPartList [] [])
  | Datatypes.S n =>
    obind (starts 0 l) (fun a => omap (fun r => mkPartList a (map PartGroup (stops S 0 l) ++ r)) (add_parts S l 1 n))
  end.

(** ScoreReader::parsePartGroupNumber, ScoreReader.cpp:424-439. *)
Definition parsePartGroupNumber (x : part_group) : outcome Z :=
  match xg_number x with
  | None => Ok (-1)
  | Some t => obind (stringToInt t) (fun o => match o with Some n => Ok n | None => Throw end)
  end.

(** The stack of open groups and the finished groups. *)
Definition rstate : Type := list PartGroupData * list PartGroupData.

(** ScoreReader::startPartGroup, ScoreReader.cpp:322-350. *)
Definition startPartGroup (i : Z) (x : part_group) (s : rstate) : outcome rstate :=
  omap (fun number =>
      (mkGroup i (-1) (match xg_name x with Some t => t | None => [] end) []
         (match xg_abbreviation x with Some t => t | None => [] end) []
         (match xg_symbol x with Some y => Some (bracketMap_toApi y) | None => None end) number :: fst s, snd s))
    (parsePartGroupNumber x).

(** groupNumberExistsOnStack, popGroupFromStack and popMostRecentGroupFromStack,
    ScoreReader.cpp:378-421: [None] for MX_BUG. *)
Definition groupNumberExistsOnStack (number : Z) (stack : list PartGroupData) : bool := existsb (fun g => g_number g =? number) stack.
Fixpoint popGroupFromStack (number : Z) (stack : list PartGroupData) : option (PartGroupData * list PartGroupData) :=
  match stack with
  | [] => None
  | g :: r => if g_number g =? number then Some (g, r)
              else option_map (fun q => (fst q, g :: snd q)) (popGroupFromStack number r)
  end.
Definition popMostRecentGroupFromStack (stack : list PartGroupData) : option (PartGroupData * list PartGroupData) :=
  match stack with [] => None | g :: r => Some (g, r) end.

(** ScoreReader::stopPartGroup, ScoreReader.cpp:353-375. *)
Definition stopPartGroup (i : Z) (x : part_group) (s : rstate) : outcome rstate :=
  match fst s with
  | [] => Ok s
  | _ =>
    obind (parsePartGroupNumber x) (fun number =>
      match (if groupNumberExistsOnStack number (fst s) then popGroupFromStack number (fst s) else popMostRecentGroupFromStack (fst s)) with
      | None => Throw
      | Some (g, r) =>
        Ok (r, snd s ++ [mkGroup (g_first g) (if 0 <? i then i - 1 else i) (g_name g) (g_displayName g)
                           (g_abbreviation g) (g_displayAbbreviation g) (g_bracket g) (g_number g)])
      end)
  end.

(** ScoreReader::handlePartGroup, ScoreReader.cpp:308-319. *)
Definition handlePartGroup (i : Z) (x : part_group) (s : rstate) : outcome rstate :=
  if xg_start x then startPartGroup i x s else stopPartGroup i x s.

(** ScoreReader::reconcileParts, ScoreReader.cpp:100-166: the groups. *)
Fixpoint handle_groups (i : Z) (l : list part_group) (s : rstate) : outcome rstate :=
  match l with [] => Ok s | x :: r => obind (handlePartGroup i x s) (handle_groups i r) end.
Fixpoint handle_all (i : Z) (l : list group_or_part) (s : rstate) : outcome rstate :=
  match l with
  | [] => Ok s
  | ScorePart :: r => handle_all (i + 1) r s
  | PartGroup x :: r => obind (handlePartGroup i x s) (handle_all i r)
  end.

Definition sortingCompare (a b : PartGroupData) : bool :=
  if g_first a <? g_first b then true
  else if g_first b <? g_first a then false
  else if g_number a <? g_number b then true
  else false.

Definition read_groups (S : sorter) (x : part_list) : outcome (list PartGroupData) :=
  obind (handle_groups 0 (pl_before x) ([], [])) (fun s =>
    omap (fun s => S PartGroupData sortingCompare (snd s)) (handle_all 1 (pl_after x) s)).
