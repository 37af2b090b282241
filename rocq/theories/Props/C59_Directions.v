(** C59: directions. *)
From Coq Require Import List Ascii Bool String ZArith QArith.
From Verif Require Import Model.Base Model.Text Model.LongDouble Model.EnumLookup Model.CoreEnums Model.ApiEnums Model.MarkData
  Model.NumberOrWord Model.Notations Model.Directions Spec.Numerals Spec.Attachments Spec.DirectionText Spec.DirectionExamples
  Proofs.DirectionProofs Proofs.DirectionBack Proofs.DirectionFits.
Import ListNotations.
Local Open Scope Z_scope.

(** A direction whose numbers can be stored is written as one <direction>: first its dynamics
    and pedal marks, then the wedges that stop, those that start, the octave shifts that stop,
    those that start, the brackets that start, the tempos, each in a direction-type of its own
    and in the order they have, and last all words in one. *)
Theorem C59_written tick staff d : numbers_ok tick staff d -> beats_only d -> ~ nothing_to_write d ->
  exists x, write_direction tick staff d = Ok (Some x) /\ direction_written tick staff d (stream_direction x).
Proof. exact (file_written tick staff d). Qed.

(** If nothing in it is ever written, there is no element. *)
Theorem C59_written_nothing tick staff d : numbers_ok tick staff d -> nothing_to_write d ->
  write_direction tick staff d = Ok None /\ direction_back tick staff d = Ok None.
Proof. exact (fun N E => conj (written_nothing tick staff d N E) (back_nothing tick staff d N E)). Qed.

(** Writing throws for a tempo that is not beats per minute. *)
Theorem C59_write_throws tick staff d : numbers_ok tick staff d -> ~ beats_only d -> write_direction tick staff d = Throw.
Proof. exact (throws tick staff d). Qed.

(** Any <direction>, of any number of direction-types of the kinds the format has, is read for
    what it says. *)
Theorem C59_read tick f l t :
  Forall2 type_read (f_types f) l -> offset_by (f_offset f) tick t -> Forall legible (flat_map metronomes_in l) ->
  Forall (fun m => me_relation m = false) (flat_map metronomes_in l) ->
  exists d, read_direction tick f = Ok d /\ direction_said tick (f_placement f) l (f_offset f) (f_staff f) d /\ d_tick d = t.
Proof. exact (direction_any tick f l t). Qed.

(** One that has a metronome made of notes makes the reading throw. *)
Theorem C59_read_notes tick f l t :
  Forall2 type_read (f_types f) l -> offset_by (f_offset f) tick t -> Forall legible (flat_map metronomes_in l) ->
  Exists (fun m => me_relation m = true) (flat_map metronomes_in l) -> read_direction tick f = Throw.
Proof. exact (direction_relation tick f l t). Qed.

(** And so does one with a direction-type that the format does not allow. *)
Theorem C59_refused tick f : Exists refused (f_types f) -> read_direction tick f = Throw.
Proof. exact (direction_refused tick f). Qed.

(** What comes back of a direction that is written and read: all but what [kept_direction]
    leaves out. *)
Theorem C59_back tick staff d : numbers_ok tick staff d -> beats_only d -> ~ nothing_to_write d ->
  direction_back tick staff d = Ok (Some (kept_direction tick staff d)).
Proof. exact (back tick staff d). Qed.

(** The full statement, that every direction comes back as it was, is false: segnos are lost. *)
Theorem C59_back_refuted : ~ (forall tick staff d, numbers_ok tick staff d -> beats_only d -> ~ nothing_to_write d ->
  exists e, direction_back tick staff d = Ok (Some e) /\ same_direction e d).
Proof. exact back_refuted. Qed.

(** It holds of directions that say no more than what is written. *)
Theorem C59_back_partial tick staff d : direction_fits tick staff d ->
  exists e, direction_back tick staff d = Ok (Some e) /\ same_direction e d.
Proof. exact (fits_back tick staff d). Qed.

(** A file with a metric modulation, or with a tempo that is not a whole number as the library
    writes it, can be read, but what was read cannot be written. *)
Theorem C59_unwritable tick f l t d :
  Forall2 type_read (f_types f) l -> offset_by (f_offset f) tick t -> Forall legible (flat_map metronomes_in l) ->
  Exists (fun m => me_second m = true \/ forall n, canonical_int (me_perMinute m) n -> ~ is_int n) (flat_map metronomes_in l) ->
  read_direction tick f = Ok d -> forall tick' staff, numbers_ok tick' staff d -> write_direction tick' staff d = Throw.
Proof. exact (read_unwritable tick f l t d). Qed.

(** The voice, the brackets that stop, segnos, codas and rehearsal marks make no difference to
    what is written. *)
Theorem C59_never_written tick staff tk pl vo vo' sp te ma ws wp os op bs bp bp' wo se se' co co' re re' :
  write_direction tick staff (mkDirection tk pl vo sp te ma ws wp os op bs bp wo se co re) =
  write_direction tick staff (mkDirection tk pl vo' sp te ma ws wp os op bs bp' wo se' co' re').
Proof. exact (unwritten tick staff tk pl vo vo' sp te ma ws wp os op bs bp bp' wo se se' co co' re re'). Qed.

(** The hypotheses can be met. *)
Example C59_fits_met : direction_fits 96 1 full_direction.
Proof. exact full_fits. Qed.
Example C59_written_met : numbers_ok 96 1 full_direction /\ beats_only full_direction /\ ~ nothing_to_write full_direction.
Proof.
  split; [exact (fits_numbers _ _ _ full_fits) | ]. split; [exact (fits_beats _ _ _ full_fits) | ].
  intros [E _]. discriminate E.
Qed.
Example C59_nothing_met : numbers_ok 0 0 lone_segno /\ beats_only lone_segno /\ nothing_to_write lone_segno.
Proof. exact lone_ok. Qed.
Example C59_throws_met : numbers_ok 0 0 modulation_direction /\ ~ beats_only modulation_direction.
Proof. exact modulation_ok. Qed.

Example C59_read_met :
  Forall2 type_read (f_types (file_direction (per_minute (lit "96"))))
    (file_types (mkXMetronome false NoteTypeValue_quarter 1 false (lit "96") NoteTypeValue_eighth 0)) /\
  offset_by (f_offset (file_direction (per_minute (lit "96")))) 96 95 /\
  Forall legible (flat_map metronomes_in (file_types (mkXMetronome false NoteTypeValue_quarter 1 false (lit "96") NoteTypeValue_eighth 0))).
Proof.
  split; [exact (file_reads _ _ (read_per_minute (Some NoteTypeValue_quarter) 1 (lit "96"))) | ]. split; [exact (file_offset _) | ].
  constructor; [exact legible_96 | constructor].
Qed.
Example C59_read_example :
  read_direction 96 (file_direction (per_minute (lit "96"))) =
  Ok (mkDirection 95 api_Placement_below (-1) true
        [tempo_at Tempo_beatsPerMinute (mkBeats api_DurationName_quarter 1 96) []] []
        [mkWedgeStart 2 api_WedgeType_unspecified None no_line no_position black_on_nothing] [] [] [] [] []
        [mkWords (lit "Allegro") (position_shown file_position) plain_font false black_on_nothing;
         mkWords (lit "Allegro") (position_shown file_position) plain_font false black_on_nothing] [] []
        [mkRehearsal [] no_position false black_on_nothing plain_font; mkRehearsal [] no_position false black_on_nothing plain_font]).
Proof. vm_compute. reflexivity. Qed.
Example C59_relation_example : read_direction 96 (file_direction [MNote; MRelation; MNote]) = Throw.
Proof. vm_compute. reflexivity. Qed.
Example C59_refused_met : refused [EWords file_words; EPercussion].
Proof. right. left. eexists _, _, _. split; [reflexivity | ]. split; [reflexivity | ]. split; [left; reflexivity | reflexivity]. Qed.
Example C59_unwritable_example :
  match read_direction 96 (file_direction two_beats) with Ok d => write_direction 96 0 d = Throw | _ => False end.
Proof. vm_compute. reflexivity. Qed.

Print Assumptions C59_written.
Print Assumptions C59_written_nothing.
Print Assumptions C59_write_throws.
Print Assumptions C59_read.
Print Assumptions C59_read_notes.
Print Assumptions C59_refused.
Print Assumptions C59_back.
Print Assumptions C59_back_refuted.
Print Assumptions C59_back_partial.
Print Assumptions C59_unwritable.
Print Assumptions C59_never_written.
