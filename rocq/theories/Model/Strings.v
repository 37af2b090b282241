(** core/StringUtils.h, core/XsString.cpp, core/XsToken.cpp, core/XsID.cpp,
    core/AttributesInterface.h (streamAttribute), utility/StringToInt.h. *)
From Coq Require Import List Ascii String ZArith Bool.
From Verif Require Import Model.Base Model.Text.
Import ListNotations.
Open Scope Z_scope.

(** trim, core/StringUtils.h:17-27 (with the default white space): the text between
    the first and the last character that is not white space. *)
Definition trim (t : str) : str := rev (skip_ws (rev (skip_ws t))).

(** The loop of reduce, core/StringUtils.h:39-49, on the part of the text from
    newStart on, with fill = " ". Each round copies up to the next white space and
    replaces the run of white space there by the fill, which is not scanned again.
    [fuel] bounds the rounds; the length of the text is enough. *)
Fixpoint reduce_loop (fuel : nat) (t : str) : str :=
  match fuel with
  | O => t
  | S f =>
      match t with
      | [] => []
      | c :: r => if is_space c then " "%char :: reduce_loop f (skip_ws r) else c :: reduce_loop f r
      end
  end.

(** reduce, core/StringUtils.h:30-52. *)
Definition reduce (t : str) : str :=
  let result := trim t in reduce_loop (List.length result) result.

(** XsToken::setValue, core/XsToken.cpp:25-28. *)
Definition token_of (t : str) : str := reduce t.

(** XsToken::XsToken( const StringType& ), core/XsToken.cpp:18-22; the empty
    constructor stores "". *)
Definition token_default : str := [].

(** find_first_not_of( allowed ): what precedes the first bad character, and what
    follows it. *)
Fixpoint split_bad (allowed : ascii -> bool) (t : str) : option (str * str) :=
  match t with
  | [] => None
  | c :: r =>
      if allowed c then
        match split_bad allowed r with
        | Some (a, b) => Some (c :: a, b)
        | None => None
        end
      else Some ([], r)
  end.

(** onlyAllow, core/StringUtils.h:55-68: replaces the first bad character by [fill]
    until there is none. The loop does not end if [fill] itself has bad
    characters: [UB] when [fuel] rounds are not enough. *)
Fixpoint only_allow_loop (fuel : nat) (fill : str) (allowed : ascii -> bool) (t : str) : outcome str :=
  match split_bad allowed t with
  | None => Ok t
  | Some (a, b) =>
      match fuel with
      | O => UB
      | S f => only_allow_loop f fill allowed (a ++ fill ++ b)
      end
  end.

Definition onlyAllow (t fill : str) (allowed : ascii -> bool) : outcome str :=
  only_allow_loop (List.length t) fill allowed t.

(** kNCNameAllowed, core/StringUtils.h:14. *)
Definition kNCNameAllowed : str :=
  lit "-.0123456789ABCDEFGHIJKLMNOPQRSTUVWXYZ_abcdefghijklmnopqrstuvwxyz".

Definition nc_allowed (c : ascii) : bool := existsb (Ascii.eqb c) kNCNameAllowed.

(** XsID::setValue, core/XsID.cpp:26-38; also used by XsID( const StringType& ). *)
Definition id_of (t : str) : outcome str :=
  obind (onlyAllow t (lit "_") nc_allowed)
    (fun scrubbed =>
       match scrubbed with
       | [] => Ok (lit "ID")
       | c :: _ => if is_digit c then Ok (lit "ID" ++ scrubbed) else Ok scrubbed
       end).

(** XsID::XsID(), core/XsID.cpp:12-16. *)
Definition id_default : str := lit "ID".

(** toStream( os, XsString ), core/XsString.cpp:49-80, with the default
    useXmlEscapeCharacters = true. *)
Definition escape_char (c : ascii) : str :=
  if Ascii.eqb c "<" then lit "&lt;"
  else if Ascii.eqb c ">" then lit "&gt;"
  else if Ascii.eqb c "&" then lit "&amp;"
  else [c].

Definition escape (t : str) : str := flat_map escape_char t.

Definition dquote : ascii := "034"%char.

(** streamAttribute, core/AttributesInterface.h:38-53, for a text value. *)
Definition stream_attribute (name value : str) (isPresent : bool) : str :=
  if isPresent then lit " " ++ name ++ ["="%char; dquote] ++ escape value ++ [dquote] else [].

(** atoi, as used in utility/StringToInt.h:17: the C string ends at the first NUL;
    a number that does not fit is undefined behaviour (C11 7.22.1). *)
Fixpoint c_str (t : str) : str :=
  match t with
  | [] => []
  | c :: r => if code c =? 0 then [] else c :: c_str r
  end.

Definition atoi (t : str) : outcome Z :=
  match read_int (c_str t) with
  | IntOk v _ => Ok v
  | IntOverflow _ _ => UB
  | IntNone => Ok 0
  end.

(** stringToInt, utility/StringToInt.h:15-27. [Ok None] is "return false" with the
    output argument untouched. *)
Definition stringToInt (t : str) : outcome (option Z) :=
  obind (atoi t) (fun temp => Ok (if str_eqb (print_int temp) t then Some temp else None)).
