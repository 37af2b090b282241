(* What it means for two enumerations to be translated into each other. *)
From Coq Require Import Ascii String List Bool ZArith.
From Verif Require Import Model.Text.
Import ListNotations.

(** Letters and digits only, in lower case. *)
Definition letter_or_digit (c : ascii) : list ascii :=
  let n := code c in
  if (65 <=? n)%Z && (n <=? 90)%Z then [chr (n + 32)]
  else if ((97 <=? n)%Z && (n <=? 122)%Z) || ((48 <=? n)%Z && (n <=? 57)%Z) then [c]
  else [].

Definition bare (s : str) : str := flat_map letter_or_digit s.

(** A MusicXML text and an API identifier name the same thing: they are equal up
    to case and punctuation once [prefix] is put before the text, or the pair
    is one of the listed [renames]. *)
Definition named_alike (prefix : str) (renames : list (str * str)) (text name : str) : Prop :=
  bare (prefix ++ text) = bare name \/ In (text, name) renames.

(** [group] tells which API values this translation is about (some API
    enumerations are shared by several translations).  Except for the values
    listed in [lost_core] and [lost_api], which are mapped to the value beside
    them and do not come back, the translation loses nothing in either
    direction and relates values of the same name.  API values outside the
    group are mapped to [outside]. *)
Definition converts {C A : Type} (to_api : C -> A) (to_core : A -> C)
    (core_text : C -> str) (api_name : A -> str)
    (prefix : str) (renames : list (str * str))
    (group : A -> bool) (outside : C)
    (lost_core : list (C * A)) (lost_api : list (A * C)) : Prop :=
  (forall c, ~ In c (map fst lost_core) ->
     to_core (to_api c) = c /\ group (to_api c) = true /\
     named_alike prefix renames (core_text c) (api_name (to_api c))) /\
  (forall a, group a = true -> ~ In a (map fst lost_api) -> to_api (to_core a) = a) /\
  (forall a, group a = false -> to_core a = outside) /\
  (forall c a, In (c, a) lost_core -> to_api c = a /\ to_core a <> c) /\
  (forall a c, In (a, c) lost_api -> to_core a = c /\ to_api c <> a).

(** The property without exceptions: every MusicXML value whose name the API has
    comes back, and so does every API value whose name MusicXML has. *)
Definition converts_all {C A : Type} (to_api : C -> A) (to_core : A -> C)
    (core_text : C -> str) (api_name : A -> str)
    (prefix : str) (renames : list (str * str)) : Prop :=
  forall c a, named_alike prefix renames (core_text c) (api_name a) ->
    to_api c = a /\ to_core a = c.

Definition everything {A : Type} (_ : A) : bool := true.
