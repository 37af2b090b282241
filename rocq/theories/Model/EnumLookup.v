(* The shapes shared by the parsing functions of core/Enums.cpp,
   core/EnumsBuiltin.cpp and utility/EnumWithString.h, and by the conversion
   tables of impl/Converter.{h,cpp}. *)
From Coq Require Import List ZArith.
From Verif Require Import Model.Text.
Import ListNotations.
Open Scope Z_scope.

(** core/Enums.cpp, e.g. :19-31 (tryParseAboveBelow): a chain
    [if( value == "a" ) { return A; } else if( value == "b" ) { return B; } ...]
    followed by [return std::optional<X>{};]. *)
Fixpoint lookup_text {A : Type} (chain : list (str * A)) (value : str) : option A :=
  match chain with
  | [] => None
  | (t, v) :: rest => if str_eqb value t then Some v else lookup_text rest value
  end.

(** core/Enums.cpp, e.g. :13-17 (parseAboveBelow): std::optional::value_or. *)
Definition value_or {A : Type} (o : option A) (d : A) : A :=
  match o with Some v => v | None => d end.

(** std::map built from an initializer list (impl/Converter.cpp:17-1350): the
    entries are kept in increasing order of the key, and an entry whose key is
    already present is ignored.  [key] is the numeric value of an enumerator. *)
Fixpoint map_insert {C A : Type} (key : C -> Z) (e : C * A) (m : list (C * A)) : list (C * A) :=
  match m with
  | [] => [e]
  | f :: rest =>
      if key (fst e) <? key (fst f) then e :: m
      else if key (fst e) =? key (fst f) then m
      else f :: map_insert key e rest
  end.

Definition std_map {C A : Type} (key : C -> Z) (rows : list (C * A)) : list (C * A) :=
  fold_left (fun m e => map_insert key e m) rows [].

(** impl/Converter.h:161-170 (findApiItem): enumMap.find, else the default. *)
Fixpoint findApiItem {C A : Type} (key : C -> Z) (enumMap : list (C * A))
    (defaultToReturn : A) (itemToFind : C) : A :=
  match enumMap with
  | [] => defaultToReturn
  | (c, a) :: rest =>
      if key c =? key itemToFind then a
      else findApiItem key rest defaultToReturn itemToFind
  end.

(** impl/Converter.h:172-188 (findCoreItem): std::find_if over the map in key
    order for the first entry with that API value, else the default.
    [val] is the numeric value of an API enumerator. *)
Fixpoint findCoreItem {C A : Type} (val : A -> Z) (enumMap : list (C * A))
    (defaultToReturn : C) (itemToFind : A) : C :=
  match enumMap with
  | [] => defaultToReturn
  | (c, a) :: rest =>
      if val a =? val itemToFind then c
      else findCoreItem val rest defaultToReturn itemToFind
  end.
