(* C50: what is attached to a note - marks, slurs, ties and tuplets - after writing and
   reading. *)
From Coq Require Import List Ascii String Bool ZArith QArith Qabs.
From Verif Require Import Model.Base Model.Text Model.LongDouble Model.Decimals Model.EnumLookup Model.ApiEnums Model.MarkData Spec.DecimalText.
From Verif Require Import Model.CoreEnums Model.Notations Spec.Attachments Spec.TupletText Proofs.NotationsProofs Proofs.StoredProofs Proofs.TupletReading Spec.MarksRead Proofs.MarksReadProofs.
Import ListNotations.
Open Scope Z_scope.

(** Everything attached to a note should be read back as it is. *)
Definition C50_claim : Prop := forall ctx a s b, attachments_ok storable a ->
  write_notations_set true false false a = Ok s -> parseNotations 0 ctx s = Ok b -> b = a.

(** Finding: an arpeggio is lost. *)
Theorem C50_refuted : ~ C50_claim.
Proof.
  exact (fun H => ltac:(
    specialize (H (mkNoteContext None None) (mkAttachments [mkMark api_MarkType_arpeggiate [] 0 0 noPosition] [] [] [] [] []) [] noAttachments);
    assert (X : attachments_ok storable (mkAttachments [mkMark api_MarkType_arpeggiate [] 0 0 noPosition] [] [] [] [] []))
      by (split; [constructor; [repeat split | constructor] | repeat split; constructor]);
    discriminate (H X eq_refl eq_refl))).
Qed.
Print Assumptions C50_refuted.

(** What is read is, entry by entry, what [kept_attachments] says: all slurs, ties and
    tuplets and the marks of the written families, with their numbers, positions and
    names as far as the elements have a place for them. Finding: the tie flags of the
    note add ties to the list each time. *)
Theorem C50_attachments_partial : forall tick ctx ties isTieStop isTieStart a, attachments_ok storable a ->
  exists s, write_notations_set ties isTieStop isTieStart a = Ok s /\
    parseNotations tick ctx s = Ok (with_ties (ties && isTieStop) (ties && isTieStart) (kept_attachments tick a)).
Proof. exact attachments_back. Qed.
Print Assumptions C50_attachments_partial.

(** Numbers come back within 0.0000006, and those of at most six decimals within a
    millionth of a millionth. *)
Theorem C50_numbers : forall t x, upper_end t = None -> lower_end t = None -> is_ld x -> (Qabs x <= 33000000)%Q ->
  (Qabs (stored t x - x) < 6 # 10000000)%Q /\
  (forall k, (Qabs (x - inject_Z k / 1000000) <= 4999998 # 10000000000000)%Q ->
     (Qabs (stored t x - inject_Z k / 1000000) <= 1 # 1000000000000)%Q).
Proof. exact stored_near. Qed.
Print Assumptions C50_numbers.

(** A note with a slur of number 2 with Bezier points, a triplet and a named dynamic. *)
Example C50_meets :
  let at_ := mkPosition (Some (7 # 1)) None None (Some (-1 # 4)) api_HorizontalAlignment_unspecified api_VerticalAlignment_unspecified api_Placement_above in
  attachments_ok storable
    (mkAttachments [mkMark api_MarkType_otherDynamics (lit "molto p"%string) 5 0 at_; mkMark api_MarkType_accent [] 5 0 noPosition]
       [mkCurveStart Curve_slur 2 (mkPoints at_ (Some (3 # 2)) (Some (-9 # 1)) (Some 4)) Orientation_overhand api_Placement_unspecified
          (mkLine api_LineType_dashed api_LineHook_unspecified None (Some (3 # 1)) None) (Some 255)]
       [] [mkCurveStop Curve_tie (-1) no_points]
       [mkTupletStart 1 noPosition 3 api_DurationName_eighth 0 2 api_DurationName_eighth 0 api_Bool_yes api_Bool_no api_Bool_unspecified] []).
Proof.
  intros at_.
  assert (L : forall m e, Z.abs m < 2 ^ 64 -> is_ld (inject_Z m * pow2 e)) by (intros m e H; exists m, e; split; [exact H | reflexivity]).
  assert (S1 : storable (7 # 1)) by (split; [exists 7, 0; split; reflexivity | split; reflexivity]).
  assert (S2 : storable (-1 # 4)) by (split; [exists (-1), (-2); split; reflexivity | split; reflexivity]).
  assert (S3 : storable (3 # 2)) by (split; [exists 3, (-1); split; reflexivity | split; reflexivity]).
  assert (S4 : storable (-9 # 1)) by (split; [exists (-9), 0; split; reflexivity | split; reflexivity]).
  assert (S5 : storable (3 # 1)) by (split; [exists 3, 0; split; reflexivity | split; reflexivity]).
  assert (A : position_ok storable at_) by (split; [exact S1 | split; [exact I | split; [exact I | exact S2]]]).
  assert (N : position_ok storable noPosition) by (repeat split).
  split; [constructor; [exact A | constructor; [exact N | constructor]] | ].
  split; [constructor; [ | constructor] | ].
  { split; [split; [exact A | split; [exact S3 | split; [exact S4 | split; [discriminate | reflexivity]]]] | split; [exact S5 | exact I]]. }
  split; [constructor | ]. split; [constructor; [split; [exact N | repeat split] | constructor] | ].
  constructor; [ | constructor]. split; split; try discriminate; reflexivity.
Qed.

(** ** Any <tuplet> of a file *)

(** One that starts a tuplet is read for what it says, with the time-modification and the type of
    the note where it has no tuplet-actual or no tuplet-normal; *)
Theorem C50_tuplet_read : forall n x, xt_stop x = false -> exists t, parseTuplet n x = inl t /\ tuplet_said n x t.
Proof. exact tuplet_read. Qed.
Print Assumptions C50_tuplet_read.

(** but not the two numbers of notes. *)
Theorem C50_tuplet_numbers_refuted : ~ (forall n x t, parseTuplet n x = inl t -> numbers_said n x t).
Proof. exact tuplet_numbers_refuted. Qed.
Print Assumptions C50_tuplet_numbers_refuted.

(** These are right if the file has both a tuplet-actual and a tuplet-normal, or neither. *)
Theorem C50_tuplet_numbers_partial : forall n x t, parseTuplet n x = inl t -> (xt_actual x = None <-> xt_normal x = None) -> numbers_said n x t.
Proof. exact tuplet_numbers. Qed.
Print Assumptions C50_tuplet_numbers_partial.

(** With only one of them, the number it has can be replaced by that of the time-modification,
    and the other is -1. *)
Theorem C50_tuplet_half : forall n x t a m g, nc_timeModification n = Some (a, m, g) -> parseTuplet n x = inl t ->
  (xt_actual x <> None -> xt_normal x = None -> actualNumber t = a /\ normalNumber t = -1) /\
  (forall p, xt_actual x = None -> xt_normal x = Some p -> actualNumber t = -1 /\ normalNumber t = match xp_number p with Some v => v | None => m end).
Proof. exact tuplet_half. Qed.
Print Assumptions C50_tuplet_half.

Theorem C50_tuplet_stop_read : forall n x, xt_stop x = true ->
  parseTuplet n x = inr (mkTupletStop (match xt_number x with Some v => v | None => -1 end) (getPositionData (xt_position x))).
Proof. exact tuplet_stop_read. Qed.
Print Assumptions C50_tuplet_stop_read.

(** A triplet of dotted eighths that only the time-modification speaks of, and a sextuplet that
    says only how many notes it has. *)
Example C50_tuplet_meets : parseTuplet (mkNoteContext (Some (3, 2, Some (NoteTypeValue_eighth, 1%nat))) None) (mkXTuplet false (Some 1) None (Some ShowTuplet_both) noXPosition None None)
  = inl (mkTupletStart 1 noPosition 3 api_DurationName_eighth 1 2 api_DurationName_eighth 1 api_Bool_yes api_Bool_yes api_Bool_unspecified).
Proof. vm_compute. reflexivity. Qed.
Example C50_tuplet_half_meets : parseTuplet (mkNoteContext (Some (3, 2, None)) (Some NoteTypeValue_quarter)) (mkXTuplet false None None None noXPosition (Some (mkXPortion (Some 6) None 0)) None)
  = inl (mkTupletStart (-1) noPosition 3 api_DurationName_unspecified (-1) (-1) api_DurationName_quarter (-1) api_Bool_unspecified api_Bool_unspecified api_Bool_unspecified).
Proof. vm_compute. reflexivity. Qed.

(** Every ornament of a file but a tremolo between notes is a mark of its name, at the place and
    tick of its note, in the order of the file; the accidental marks of the ornaments follow them. *)
Theorem C50_ornaments_read : forall tick n l am a, exists ms ks,
  parseNotation tick n (XOrnaments l am) a = Ok (mkAttachments (marks a ++ ms ++ ks) (curveStarts a) (curveContinuations a) (curveStops a) (tupletStarts a) (tupletStops a)) /\
  Forall2 (ornament_said tick) (filter is_note_ornament l) ms /\ Forall2 (accidental_said tick) am ks.
Proof. exact ornaments_read. Qed.
Print Assumptions C50_ornaments_read.

(** Every articulation of a file is a mark of its name. *)
Theorem C50_articulations_read : forall tick n l a, exists ms,
  parseNotation tick n (XArticulations l) a = Ok (mkAttachments (marks a ++ ms) (curveStarts a) (curveContinuations a) (curveStops a) (tupletStarts a) (tupletStops a)) /\
  Forall2 (articulation_said tick) l ms.
Proof. exact articulations_read. Qed.
Print Assumptions C50_articulations_read.

(** Of the technical indications of a file, those that the API has as marks are marks of their
    name; the others are dropped. *)
Theorem C50_technicals_read : forall tick n l a, exists ms,
  parseNotation tick n (XTechnical l) a = Ok (mkAttachments (marks a ++ ms) (curveStarts a) (curveContinuations a) (curveStops a) (tupletStarts a) (tupletStops a)) /\
  Forall2 (technical_said tick) (filter is_technical_mark l) ms.
Proof. exact technicals_read. Qed.
Print Assumptions C50_technicals_read.

(** Accidental marks and arpeggios among the notations. *)
Theorem C50_own_marks_read : forall tick n x a, match x with XAccidentalMark _ | XArpeggiate _ _ _ | XNonArpeggiate _ _ => True | _ => False end ->
  exists m, parseNotation tick n x a = Ok (mkAttachments (marks a ++ [m]) (curveStarts a) (curveContinuations a) (curveStops a) (tupletStarts a) (tupletStops a)) /\ own_said tick x m.
Proof. exact own_read. Qed.
Print Assumptions C50_own_marks_read.

(** A trill, a tremolo with four strokes, a tremolo that starts here and is no mark, and a sharp. *)
Example C50_ornaments_meet :
  let o c t k := mkXOrnament (mkXMark c [] noXPosition 0) t k in
  parseNotation 96 (mkNoteContext None None)
    (XOrnaments [o OrnamentsChoice_trillMark StartStopSingle_single 0; o OrnamentsChoice_tremolo StartStopSingle_single 4; o OrnamentsChoice_tremolo StartStopSingle_start 2]
       [mkXMark AccidentalValue_sharp [] noXPosition 0]) (mkAttachments [] [] [] [] [] [])
  = Ok (mkAttachments [mkMark api_MarkType_trillMark (lit "trill-mark") 96 0 noPosition; mkMark api_MarkType_tremoloSingleFour (lit "tremolo") 96 0 noPosition;
      mkMark api_MarkType_accidentalMarkSharp (lit "sharp") 96 0 noPosition] [] [] [] [] []).
Proof. vm_compute. reflexivity. Qed.
