(** When two values of the API say the same, and what their comparison overlooks. *)
From Coq Require Import List Ascii String Bool ZArith QArith Qabs.
From Verif Require Import Model.Base Model.Text Model.ApiClasses Model.Equality.
Import ListNotations.
Local Open Scope string_scope.

(** The members that no comparison looks at. *)
Definition overlooked (c : api_class) : list string :=
  match c with
  | c_WordsData => ["text"]
  | c_LyricData => ["text"]
  | c_NoteData => ["notehead"]
  | c_DirectionData => ["rehearsals"]
  | c_DefaultsData => ["scalingMillimeters"; "scalingTenths"]
  | c_PartGroupData => ["bracketType"; "number"]
  | _ => []
  end.

(** The numbers that may differ a little. *)
Definition approximate (c : api_class) : list string :=
  match c with
  | c_PositionData => ["defaultX"; "defaultY"; "relativeX"; "relativeY"]
  | c_PitchData => ["cents"]
  | _ => []
  end.

(** Numbers that are the same; nothing is the same as what is not a number. *)
Inductive same_number : number -> number -> Prop :=
| same_finite p q : (p == q)%Q -> same_number (Finite p) (Finite q)
| same_infinite s : same_number (Infinite s) (Infinite s).

(** Numbers that differ by at most the epsilon; what is not a number is close to
    everything. *)
Inductive close_number : number -> number -> Prop :=
| close_finite p q : (Qabs (p - q) <= epsilon)%Q -> close_number (Finite p) (Finite q)
| close_infinite s : close_number (Infinite s) (Infinite s)
| close_left y : close_number NotANumber y
| close_right x : close_number x NotANumber.

Inductive close : value -> value -> Prop :=
| close_numbers x y : close_number x y -> close (VNumber x) (VNumber y).

(** Two values agree, overlooking some members and taking some numbers approximately. *)
Inductive agree (skip approx : api_class -> list string) : value -> value -> Prop :=
| agree_int z : agree skip approx (VInt z) (VInt z)
| agree_text t : agree skip approx (VText t) (VText t)
| agree_number x y : same_number x y -> agree skip approx (VNumber x) (VNumber y)
| agree_none : agree skip approx (VOptional None) (VOptional None)
| agree_some x y : agree skip approx x y -> agree skip approx (VOptional (Some x)) (VOptional (Some y))
| agree_vector l m : Forall2 (agree skip approx) l m -> agree skip approx (VVector l) (VVector m)
| agree_map l m :
    Forall2 (fun p q => fst p = fst q /\ agree skip approx (snd p) (snd q)) l m -> agree skip approx (VMap l) (VMap m)
| agree_class c ms ns :
    (forall n x y, In (n, x) ms -> In (n, y) ns -> ~ In n (skip c) -> ~ In n (approx c) -> agree skip approx x y) ->
    (forall n x y, In (n, x) ms -> In (n, y) ns -> ~ In n (skip c) -> In n (approx c) -> close x y) ->
    agree skip approx (VClass c ms) (VClass c ns).

(** Two values agree in everything. *)
Definition nothing (c : api_class) : list string := [].
Definition identical : value -> value -> Prop := agree nothing nothing.

(** Every number in [v] satisfies [P]. *)
Inductive numbers (P : number -> Prop) : value -> Prop :=
| numbers_int z : numbers P (VInt z)
| numbers_text t : numbers P (VText t)
| numbers_number x : P x -> numbers P (VNumber x)
| numbers_none : numbers P (VOptional None)
| numbers_some x : numbers P x -> numbers P (VOptional (Some x))
| numbers_vector l : Forall (numbers P) l -> numbers P (VVector l)
| numbers_map l : Forall (fun p => numbers P (snd p)) l -> numbers P (VMap l)
| numbers_class c ms : Forall (fun p => numbers P (snd p)) ms -> numbers P (VClass c ms).

Definition is_number (x : number) : Prop := x <> NotANumber.

(** Finite, and with at most seven digits behind the point. *)
Definition seven_digits (x : number) : Prop := exists q z, x = Finite q /\ (q == z # 10000000)%Q.
