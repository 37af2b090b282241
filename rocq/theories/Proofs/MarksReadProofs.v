(** Reading marks, one element at a time. *)
From Coq Require Import List Ascii String Bool ZArith QArith.
From Verif Require Import Model.Base Model.Text Model.LongDouble Model.CoreEnums Model.ApiEnums Model.ConverterTables Model.MarkData Model.Notations
  Spec.Attachments Spec.MarksRead.
Import ListNotations.
Open Scope Z_scope.

Lemma ornament_read tick x : is_note_ornament x = true ->
  ornament_said tick x (parseOrnament tick x) /\ m_type (parseOrnament tick x) <> api_MarkType_unknownOrnament.
Proof.
  destruct x as [[c v p pr] t s]. unfold is_note_ornament, ornament_said, parseOrnament, placed, called. cbn [xo_mark xo_type xo_slashes xm_choice xm_value xm_position xm_print].
  destruct c; intros H; try (cbn [m_tick m_print m_position m_type m_name]; repeat split; try (vm_compute; reflexivity); vm_compute; discriminate).
  - destruct t; try discriminate H. cbn [m_tick m_print m_position m_type m_name]. split; [repeat split | ].
    + unfold tremolo_of. destruct s as [ | s | s]; [reflexivity | | reflexivity].
      destruct s as [[[s | s | ] | [s | s | ] | ] | [[s | s | ] | [s | s | ] | ] | ]; reflexivity.
    + destruct s as [ | s | s]; [discriminate | | discriminate].
      destruct s as [[[s | s | ] | [s | s | ] | ] | [[s | s | ] | [s | s | ] | ] | ]; discriminate.
  - cbn [m_tick m_print m_position m_type m_name]. split; [ | discriminate]. split; [repeat split | ]. split; [reflexivity | ]. destruct v; reflexivity.
Qed.

Lemma no_ornament tick x : is_note_ornament x = false -> m_type (parseOrnament tick x) = api_MarkType_unknownOrnament.
Proof.
  destruct x as [[c v p pr] t s]. unfold is_note_ornament, parseOrnament. cbn [xo_mark xo_type xo_slashes xm_choice].
  destruct c; try discriminate. destruct t; try discriminate; reflexivity.
Qed.

Lemma accidental_read tick x : accidental_said tick x (parseAccidentalMark tick x).
Proof.
  destruct x as [c v p pr]. unfold accidental_said, parseAccidentalMark, placed. cbn [xm_choice xm_position m_tick m_print m_position m_name m_type].
  repeat split. destruct c; vm_compute; reflexivity.
Qed.

Lemma ornaments_read tick n l am a : exists ms ks,
  parseNotation tick n (XOrnaments l am) a = Ok (mkAttachments (marks a ++ ms ++ ks) (curveStarts a) (curveContinuations a) (curveStops a) (tupletStarts a) (tupletStops a)) /\
  Forall2 (ornament_said tick) (filter is_note_ornament l) ms /\ Forall2 (accidental_said tick) am ks.
Proof.
  exists (filter (fun m => match m_type m with api_MarkType_unknownOrnament => false | _ => true end) (map (parseOrnament tick) l)), (map (parseAccidentalMark tick) am).
  split; [reflexivity | ]. split.
  - induction l as [ | x l IH]; [constructor | ]. cbn [filter map]. destruct (is_note_ornament x) eqn:E.
    + destruct (ornament_read tick x E) as [H N]. destruct (m_type (parseOrnament tick x)) eqn:T; try (constructor; assumption). destruct (N eq_refl).
    + rewrite (no_ornament tick x E). exact IH.
  - induction am as [ | x am IH]; [constructor | ]. constructor; [apply accidental_read | exact IH].
Qed.

Lemma articulation_read tick x : articulation_said tick x (parseArticulation tick x).
Proof.
  destruct x as [c v p pr]. unfold articulation_said, parseArticulation, placed, called, articulation_name. cbn [xm_choice xm_value xm_position xm_print].
  destruct c; cbn [m_tick m_print m_position m_name m_type]; repeat split; try (vm_compute; reflexivity).
  unfold getMarkTypeFromCustomString. destruct (str_eqb v markStringCustomAccentTenuto); reflexivity.
Qed.

Lemma articulations_read tick n l a : exists ms,
  parseNotation tick n (XArticulations l) a = Ok (mkAttachments (marks a ++ ms) (curveStarts a) (curveContinuations a) (curveStops a) (tupletStarts a) (tupletStops a)) /\
  Forall2 (articulation_said tick) l ms.
Proof.
  eexists. split; [reflexivity | ]. induction l as [ | x l IH]; [constructor | ]. constructor; [apply articulation_read | exact IH].
Qed.

Lemma technical_read tick x :
  if is_technical_mark x then exists m, parseTechnical tick x = [m] /\ technical_said tick x m else parseTechnical tick x = [].
Proof.
  destruct x as [c v p pr]. unfold is_technical_mark, technical_said, parseTechnical, placed, called, technical_name. cbn [xm_choice xm_value xm_position xm_print].
  destruct c; try reflexivity; (eexists; split; [reflexivity | ]); cbn [m_tick m_print m_position m_name m_type]; repeat split; vm_compute; reflexivity.
Qed.

Lemma technicals_read tick n l a : exists ms,
  parseNotation tick n (XTechnical l) a = Ok (mkAttachments (marks a ++ ms) (curveStarts a) (curveContinuations a) (curveStops a) (tupletStarts a) (tupletStops a)) /\
  Forall2 (technical_said tick) (filter is_technical_mark l) ms.
Proof.
  eexists. split; [reflexivity | ]. induction l as [ | x l IH]; [constructor | ]. cbn [filter flat_map]. pose proof (technical_read tick x) as H.
  destruct (is_technical_mark x); [ | rewrite H; exact IH]. destruct H as (m & -> & H). constructor; assumption.
Qed.

Lemma own_read tick n x a : match x with XAccidentalMark _ | XArpeggiate _ _ _ | XNonArpeggiate _ _ => True | _ => False end ->
  exists m, parseNotation tick n x a = Ok (mkAttachments (marks a ++ [m]) (curveStarts a) (curveContinuations a) (curveStops a) (tupletStarts a) (tupletStops a)) /\ own_said tick x m.
Proof.
  destruct x; intros H; try destruct H; (eexists; split; [reflexivity | ]).
  - cbn [own_said]. split; [repeat split | ]. split; [destruct direction as [[ | ] | ]; reflexivity | reflexivity].
  - cbn [own_said]. split; [repeat split | split; reflexivity].
  - apply accidental_read.
Qed.
