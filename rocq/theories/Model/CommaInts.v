(** core/CommaSeparatedPositiveIntegers.cpp. *)
From Coq Require Import List Ascii String ZArith Bool.
From Verif Require Import Model.Base Model.Text Model.Strings.
Import ListNotations.
Open Scope Z_scope.

(** std::set<int>: an ascending list without duplicates; insert keeps it so. *)
Fixpoint set_insert (z : Z) (s : list Z) : list Z :=
  match s with
  | [] => [z]
  | x :: r => if z <? x then z :: s else if z =? x then s else x :: set_insert z r
  end.

(** class CommaSeparatedListOfPositiveIntegers, core/CommaSeparatedPositiveIntegers.h. *)
Record comma_ints := CommaInts { ciValues : list Z; ciSpacing : bool }.

(** copyPositives, core/CommaSeparatedPositiveIntegers.cpp:12-18. *)
Definition copyPositives (s : list Z) : list Z :=
  fold_left (fun out z => if 0 <? z then set_insert z out else out) s [].

(** std::getline( iss, token, ',' ) repeated to the end of the text: the pieces
    between commas, the last one only if it is not empty. Empty pieces are skipped
    by the caller, so keeping a trailing empty piece makes no difference. *)
Fixpoint split_comma (t : str) : list str :=
  match t with
  | [] => [[]]
  | c :: r =>
      if Ascii.eqb c "," then [] :: split_comma r
      else match split_comma r with
           | a :: l => (c :: a) :: l
           | [] => [[c]]
           end
  end.

(** The literal "1234567890,-", core/CommaSeparatedPositiveIntegers.cpp:81. *)
Definition ci_allowed (c : ascii) : bool := existsb (Ascii.eqb c) (lit "1234567890,-").

(** ss >> value, core/CommaSeparatedPositiveIntegers.cpp:89-91: 0 when there is no
    number, the nearest int on overflow; what follows the number is ignored. *)
Definition token_value (t : str) : Z :=
  match read_int t with
  | IntOk v _ => v
  | IntOverflow v _ => v
  | IntNone => 0
  end.

(** parse, core/CommaSeparatedPositiveIntegers.cpp:79-98. *)
Definition ci_parse (c : comma_ints) (t : str) : outcome comma_ints :=
  obind (onlyAllow t [] ci_allowed)
    (fun cleaned =>
       Ok (CommaInts
         (fold_left (fun s tok => match tok with
                                  | [] => s
                                  | _ => if 0 <? token_value tok then set_insert (token_value tok) s else s
                                  end) (split_comma cleaned) [])
         (ciSpacing c))).

(** setValues, core/CommaSeparatedPositiveIntegers.cpp:73-76. *)
Definition ci_setValues (c : comma_ints) (s : list Z) : comma_ints := CommaInts (copyPositives s) (ciSpacing c).

(** setUseSpaceBetweenItems, core/CommaSeparatedPositiveIntegers.cpp:101-104. *)
Definition ci_setSpacing (c : comma_ints) (b : bool) : comma_ints := CommaInts (ciValues c) b.

(** Constructors, core/CommaSeparatedPositiveIntegers.cpp:20-40. The one from a set
    leaves the spacing flag uninitialised: [b] is whatever was there. *)
Definition ci_default : comma_ints := CommaInts [] false.
Definition ci_of_text (t : str) : outcome comma_ints := ci_parse ci_default t.
Definition ci_of_set (b : bool) (s : list Z) : comma_ints := CommaInts (copyPositives s) b.

(** toStream, core/CommaSeparatedPositiveIntegers.cpp:113-134. *)
Definition ci_print (c : comma_ints) : str :=
  match ciValues c with
  | [] => []
  | x :: r => print_int x ++ flat_map (fun y => lit "," ++ (if ciSpacing c then lit " " else []) ++ print_int y) r
  end.

Inductive ci_op := CiParse (t : str) | CiSet (s : list Z) | CiSpacing (b : bool).

Definition ci_step (o : outcome comma_ints) (p : ci_op) : outcome comma_ints :=
  obind o (fun c => match p with
                    | CiParse t => ci_parse c t
                    | CiSet s => Ok (ci_setValues c s)
                    | CiSpacing b => Ok (ci_setSpacing c b)
                    end).

Inductive ci_start := CiDefault | CiText (t : str) | CiFromSet (b : bool) (s : list Z).

Definition ci_begin (s : ci_start) : outcome comma_ints :=
  match s with
  | CiDefault => Ok ci_default
  | CiText t => ci_of_text t
  | CiFromSet b s => Ok (ci_of_set b s)
  end.

Definition ci_run (s : ci_start) (os : list ci_op) : outcome comma_ints := fold_left ci_step os (ci_begin s).
