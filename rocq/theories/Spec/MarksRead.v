(** What the marks of a file say, one element at a time. *)
From Coq Require Import List Ascii String Bool ZArith QArith.
From Verif Require Import Model.Base Model.Text Model.LongDouble Model.CoreEnums Model.ApiEnums Model.MarkData Model.Notations Spec.Attachments.
Import ListNotations.
Open Scope Z_scope.

(** A mark with the position and print data of its element, at the tick of the note. *)
Definition placed (tick print : Z) (p : xposition) (m : MarkData) : Prop :=
  m_tick m = tick /\ m_print m = print /\ m_position m = getPositionData p.

(** A mark called as its element. *)
Definition called (enumerator : str) (m : MarkData) : Prop :=
  m_name m = hyphened enumerator /\ element_name (m_type m) = hyphened enumerator.

(** The mark for a tremolo with so many strokes; three if it is not known. *)
Definition tremolo_of (strokes : Z) : api_MarkType :=
  if strokes =? 1 then api_MarkType_tremoloSingleOne
  else if strokes =? 2 then api_MarkType_tremoloSingleTwo
  else if strokes =? 4 then api_MarkType_tremoloSingleFour
  else if strokes =? 5 then api_MarkType_tremoloSingleFive
  else api_MarkType_tremoloSingleThree.

Definition ornament_said (tick : Z) (x : xornament) (m : MarkData) : Prop :=
  placed tick (xm_print (xo_mark x)) (xm_position (xo_mark x)) m /\
  match xm_choice (xo_mark x) with
  | OrnamentsChoice_tremolo => m_type m = tremolo_of (xo_slashes x) /\ m_name m = lit "tremolo"
  | OrnamentsChoice_otherOrnament =>
      m_type m = api_MarkType_otherOrnament /\
      m_name m = match xm_value (xo_mark x) with [] => lit "other-ornament" | v => v end
  | c => called (OrnamentsChoice_name c) m
  end.

(** The ornaments that are marks of one note: all but tremolos between notes. *)
Definition is_note_ornament (x : xornament) : bool :=
  match xm_choice (xo_mark x), xo_type x with
  | OrnamentsChoice_tremolo, StartStopSingle_single => true
  | OrnamentsChoice_tremolo, _ => false
  | _, _ => true
  end.

Definition articulation_said (tick : Z) (x : xmark ArticulationsChoice) (m : MarkData) : Prop :=
  placed tick (xm_print x) (xm_position x) m /\
  match xm_choice x with
  | ArticulationsChoice_otherArticulation =>
      m_name m = xm_value x /\
      m_type m = if str_eqb (xm_value x) markStringCustomAccentTenuto then api_MarkType_customAccentTenuto
                 else api_MarkType_otherArticulation
  | c => called (ArticulationsChoice_name c) m
  end.

Definition technical_said (tick : Z) (x : xmark TechnicalChoice) (m : MarkData) : Prop :=
  placed tick (xm_print x) (xm_position x) m /\
  match xm_choice x with
  | TechnicalChoice_otherTechnical => m_name m = xm_value x /\ m_type m = api_MarkType_otherTechnical
  | c => called (TechnicalChoice_name c) m
  end.

(** Fingerings, frets, plucks and the like are not marks. *)
Definition is_technical_mark (x : xmark TechnicalChoice) : bool :=
  match xm_choice x with
  | TechnicalChoice_fingering | TechnicalChoice_fret | TechnicalChoice_string_ | TechnicalChoice_hammerOn
  | TechnicalChoice_pullOff | TechnicalChoice_bend | TechnicalChoice_tap | TechnicalChoice_hole
  | TechnicalChoice_arrow | TechnicalChoice_handbell | TechnicalChoice_pluck
  | TechnicalChoice_fingernails => false
  | _ => true
  end.

(** A name without its hyphens. *)
Definition letters (s : str) : str := filter (fun c => negb (Ascii.eqb c "-"%char)) s.

Definition accidental_said (tick : Z) (x : xmark AccidentalValue) (m : MarkData) : Prop :=
  placed tick 0 (xm_position x) m /\ m_name m = AccidentalValue_toString (xm_choice x) /\
  letters (element_name (m_type m)) = letters (lit "accidental-mark-" ++ AccidentalValue_toString (xm_choice x)).

(** The marks a mark among the notations stands for, if it has an element of its own. *)
Definition own_said (tick : Z) (x : notation) (m : MarkData) : Prop :=
  match x with
  | XAccidentalMark a => accidental_said tick a m
  | XArpeggiate d _ _ => placed tick 0 noXPosition m /\
      m_name m = lit "" /\ m_type m = match d with None => api_MarkType_arpeggiate | Some UpDown_up => api_MarkType_arpeggiateUp | Some UpDown_down => api_MarkType_arpeggiateDown end
  | XNonArpeggiate _ _ => placed tick 0 noXPosition m /\ m_name m = lit "" /\ m_type m = api_MarkType_nonArpeggiate
  | _ => False
  end.
