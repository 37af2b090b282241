(** What a <tuplet> of a file says. *)
From Coq Require Import ZArith.
From Verif Require Import Model.Base Model.CoreEnums Model.ApiEnums Model.EnumLookup Model.ConverterTables Model.Notations.
Local Open Scope Z_scope.

(** How many notes: the tuplet-number if there is the tuplet-actual or tuplet-normal, else what
    the time-modification of the note says; -1 if nothing says it. *)
Definition said_number (p : option xportion) (notes : option Z) : Z :=
  match p with
  | Some q => match xp_number q with Some v => v | None => -1 end
  | None => match notes with Some v => v | None => -1 end
  end.

(** Of which kind: the tuplet-type, else the normal-type of the time-modification, else the
    type of a note that has a time-modification. *)
Definition said_type (p : option xportion) (n : note_context) : api_DurationName :=
  match p with
  | Some q => match xp_type q with Some t => durationMap_toApi t | None => api_DurationName_unspecified end
  | None =>
      match nc_timeModification n, nc_type n with
      | Some (_, _, Some (t, _)), _ => durationMap_toApi t
      | Some (_, _, None), Some t => durationMap_toApi t
      | _, _ => api_DurationName_unspecified
      end
  end.

(** With how many dots; -1 if there is none in the file, but for a normal-type without dots. *)
Definition said_dots (p : option xportion) (n : note_context) : Z :=
  match p with
  | Some q => match xp_dots q with O => -1 | d => Z.of_nat d end
  | None => match nc_timeModification n with Some (_, _, Some (_, d)) => Z.of_nat d | _ => -1 end
  end.

Definition actual_notes (n : note_context) : option Z := option_map (fun m => fst (fst m)) (nc_timeModification n).
Definition normal_notes (n : note_context) : option Z := option_map (fun m => snd (fst m)) (nc_timeModification n).

(** Whether a number is shown, by show-number: the actual one unless it is none, the normal one
    if it is both. *)
Definition said_shown (s : option ShowTuplet) : api_Bool * api_Bool :=
  match s with
  | None => (api_Bool_unspecified, api_Bool_unspecified)
  | Some ShowTuplet_none => (api_Bool_no, api_Bool_no)
  | Some ShowTuplet_actual => (api_Bool_yes, api_Bool_no)
  | Some ShowTuplet_both => (api_Bool_yes, api_Bool_yes)
  end.

(** All but the two numbers. *)
Definition tuplet_said (n : note_context) (x : xtuplet) (t : TupletStart) : Prop :=
  ts_number t = match xt_number x with Some v => v | None => -1 end /\
  ts_position t = getPositionData (xt_position x) /\
  actualDurationName t = said_type (xt_actual x) n /\ actualDots t = said_dots (xt_actual x) n /\
  normalDurationName t = said_type (xt_normal x) n /\ normalDots t = said_dots (xt_normal x) n /\
  (showActualNumber t, showNormalNumber t) = said_shown (xt_show x) /\
  bracket t = match xt_bracket x with Some YesNo_yes => api_Bool_yes | Some YesNo_no => api_Bool_no | None => api_Bool_unspecified end.

Definition numbers_said (n : note_context) (x : xtuplet) (t : TupletStart) : Prop :=
  actualNumber t = said_number (xt_actual x) (actual_notes n) /\ normalNumber t = said_number (xt_normal x) (normal_notes n).
