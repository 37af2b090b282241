(** operator== on the data of the API: include/mx/api/ApiEquality.h and ApiCommon.h, and
    the operators of the classes (Model/ApiClasses.v). *)
From Coq Require Import List Ascii String Bool ZArith QArith Qabs.
From Verif Require Import Model.Base Model.Text Model.ApiClasses.
Import ListNotations.
Local Open Scope Z_scope.

(** A double or long double. *)
Inductive number := Finite (q : Q) | Infinite (negative : bool) | NotANumber.

(** A value of the API; an enumerator, a bool and a uint8_t are their numbers. The members
    of a class come with their names; the entries of a map by increasing keys. *)
Inductive value :=
| VInt (z : Z)
| VText (s : str)
| VNumber (x : number)
| VClass (c : api_class) (ms : list (string * value))
| VVector (l : list value)
| VOptional (o : option value)
| VMap (l : list (Z * value)).

(** operator== on floating point numbers. *)
Definition number_eqb (x y : number) : bool :=
  match x, y with
  | Finite p, Finite q => Qeq_bool p q
  | Infinite s, Infinite t => Bool.eqb s t
  | _, _ => false
  end.

(** MX_API_EQUALITY_EPSILON, ApiCommon.h:17: the double that is nearest to 0.00000001. *)
Definition epsilon : Q := 3022314549036573 # 302231454903657293676544.

(** MXAPI_DOUBLES_EQUALS_MEMBER, ApiEquality.h:100-105: std::abs( x - y ) is not greater
    than the epsilon. The difference of equal infinities, and any difference with what is
    not a number, is not a number, and not greater. Simplification: the difference of
    finite numbers is not rounded. *)
Definition number_near (x y : number) : bool :=
  match x, y with
  | Finite p, Finite q => Qle_bool (Qabs (p - q)) epsilon
  | NotANumber, _ | _, NotANumber => true
  | Infinite s, Infinite t => Bool.eqb s t
  | _, _ => false
  end.

Fixpoint member {A} (n : string) (l : list (string * A)) : option A :=
  match l with
  | [] => None
  | (m, x) :: r => if String.eqb n m then Some x else member n r
  end.

(** operator==: MXAPI_EQUALS_BEGIN to MXAPI_EQUALS_END, ApiEquality.h:87-110, over the
    members that the class compares; areVectorsEqual, ApiEquality.h:20-38 (sizes and then
    elements; the elements by operator!=, which is !( == ), ApiEquality.h:113); the maps,
    LayoutData.h:79-105 and StaffData.h:32-53; std::optional and std::string. Only the
    result is modelled, not in which order the members are compared. *)
Fixpoint equal (a b : value) {struct a} : bool :=
  match a, b with
  | VInt x, VInt y => x =? y
  | VText s, VText t => str_eqb s t
  | VNumber x, VNumber y => number_eqb x y
  | VOptional None, VOptional None => true
  | VOptional (Some x), VOptional (Some y) => equal x y
  | VVector l, VVector m =>
      (fix vectors (l m : list value) : bool :=
         match l, m with
         | [], [] => true
         | x :: l, y :: m => equal x y && vectors l m
         | _, _ => false
         end) l m
  | VMap l, VMap m =>
      (fix maps (l m : list (Z * value)) : bool :=
         match l, m with
         | [], [] => true
         | (i, x) :: l, (j, y) :: m => (i =? j) && equal x y && maps l m
         | _, _ => false
         end) l m
  | VClass c ms, VClass _ ns =>
      (fix all (ms : list (string * value)) : bool :=
         match ms with
         | [] => true
         | (n, x) :: r =>
             match member n (compared c), member n ns with
             | Some Exactly, Some y => equal x y
             | Some Nearly, Some (VNumber y) => match x with VNumber x => number_near x y | _ => false end
             | Some _, _ => false
             | None, _ => true
             end && all r
         end) ms
  | _, _ => false
  end.

(** The values of a type. *)
Fixpoint typed (v : value) (k : kind) {struct v} : Prop :=
  match v, k with
  | VInt _, KInt => True
  | VText _, KText => True
  | VNumber _, KNumber => True
  | VClass c ms, KClass d =>
      c = d /\
      (fix all (ms : list (string * value)) (ds : list (string * kind)) : Prop :=
         match ms, ds with
         | [], [] => True
         | (n, x) :: ms, (m, k) :: ds => n = m /\ typed x k /\ all ms ds
         | _, _ => False
         end) ms (members d)
  | VVector l, KVector k => (fix all (l : list value) : Prop := match l with [] => True | x :: r => typed x k /\ all r end) l
  | VOptional None, KOptional _ => True
  | VOptional (Some x), KOptional k => typed x k
  | VMap l, KMap k => (fix all (l : list (Z * value)) : Prop := match l with [] => True | (_, x) :: r => typed x k /\ all r end) l
  | _, _ => False
  end.
