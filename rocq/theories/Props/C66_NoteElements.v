(** C66: notes, score-parts, score-instruments, encodings, ornaments and sounds. *)
From Coq Require Import List String.
From Verif Require Import Model.Base Model.Text Model.ElementReading Model.ElementGroups Model.ElementChoices Model.ScoreElements Model.NoteElements
  Spec.ContentModels Spec.MoreContents Spec.ScoreContents Spec.NoteContents Proofs.MemberProofs Proofs.NoteElementProofs Proofs.NoteReading.
Import ListNotations.
Local Open Scope list_scope.

(** ** note: whatever the schema allows comes back in its order, the chord without anything read
    of it. *)
Theorem C66_note A (good : A -> bool) (l : list (str * A)) : conforms note_content l -> all_readable good l ->
  exists s, read_note good (nodes l) = Ok (true, s) /\ write_note s = map note_read l.
Proof. exact (note_back A good l). Qed.

(** First children as the schema has them and then any children, in any order and number: the note
    is accepted exactly if these are known and all could be read, but for chord and duration; each
    member is written in its place, repeated single ones as one element. *)
Theorem C66_note_exact A (good : A -> bool) (c r : list (str * A)) : conforms note_choice_content c -> Forall (fun p => ~ In (fst p) (map lit first_names)) r ->
  exists b s, read_note good (nodes (c ++ r)) = Ok (b, s) /\
    (b = true <-> Forall (read_well good) c /\ Forall (fun p => In (fst p) (map lit (map fst note_members)) /\ good (snd p) = true) r) /\
    write_note s = map note_read c ++ members_written r note_members.
Proof. exact (note_exact A good c r). Qed.

(** A note without any of its first children is refused. *)
Theorem C66_note_required A (good : A -> bool) (l : list (str * A)) :
  Forall (fun p => ~ In (fst p) (map lit ["pitch"; "unpitched"; "rest"; "chord"; "grace"; "cue"]%string)) l -> exists s, read_note good (nodes l) = Ok (false, s).
Proof. exact (note_required A good l). Qed.

(** Any number of ties, and then any children: the first two ties are kept. *)
Theorem C66_note_ties A (good : A -> bool) w (a d : A) ties (r : list (str * A)) : In w ["pitch"; "unpitched"; "rest"]%string -> Forall (fun p => ~ In (fst p) (map lit first_names)) r ->
  exists b s, read_note good (nodes (((lit w, a) :: (lit "duration"%string, d) :: map (pair (lit "tie"%string)) ties) ++ r)) = Ok (b, s) /\
    write_note s = map note_read ((lit w, a) :: (lit "duration"%string, d) :: map (pair (lit "tie"%string)) (firstn 2 ties)) ++ members_written r note_members.
Proof. exact (note_ties A good None w a d ties r). Qed.

(** An accepted note may have a duration that could not be read. *)
Theorem C66_unread_refuted : ~ (forall A (good : A -> bool) (l : list (str * A)) s, conforms note_content l -> read_note good (nodes l) = Ok (true, s) -> all_readable good l).
Proof. exact unread_duration. Qed.

(** ** score-part: whatever the schema allows comes back, and is accepted exactly if all of it could
    be read. *)
Theorem C66_score_part A (good : A -> bool) (l : list (str * A)) : conforms score_part_content l -> all_readable good l -> comes_back (read_score_part good) write_score_part l.
Proof. exact (score_part_back A good l). Qed.
Theorem C66_score_part_exact A (good : A -> bool) (l : list (str * A)) : conforms score_part_content l ->
  exists s, read_score_part good (nodes l) = Ok (forallb (fun p => good (snd p)) l, s) /\ Forall2 same_child (write_score_part s) l.
Proof. exact (score_part_exact A good l). Qed.

(** An accepted score-part need not have had a name. *)
Theorem C66_part_name_refuted : ~ (forall A (good : A -> bool) (l : list (str * A)) s, read_score_part good (nodes l) = Ok (true, s) -> has_child "part-name" l).
Proof. exact part_name_refuted. Qed.

(** ** score-instrument *)
Theorem C66_score_instrument A (good : A -> bool) (l : list (str * A)) : conforms score_instrument_content l -> all_readable good l ->
  comes_back (read_score_instrument good) write_score_instrument l.
Proof. exact (score_instrument_back A good l). Qed.
Theorem C66_score_instrument_refused A (good : A -> bool) (l : list (str * A)) :
  refused (read_score_instrument good) l <-> ~ has_child "instrument-name" l \/ Exists (fun p => In (fst p) (map lit instrument_names) /\ good (snd p) = false) l.
Proof. exact (instrument_refused A good l). Qed.

(** ** encoding: whatever the schema allows comes back; any other child makes the file refused and
    is written as an encoding date that was in no file. *)
Theorem C66_encoding A (good : A -> bool) (l : list (str * A)) : conforms encoding_content l -> all_readable good l -> comes_back (read_encoding good) write_encoding l.
Proof. exact (encoding_back A good l). Qed.
Theorem C66_encoding_refused A (good : A -> bool) (l : list (str * A)) :
  refused (read_encoding good) l <-> Exists (fun p => ~ In (fst p) (map lit encoding_names) \/ good (snd p) = false) l.
Proof. exact (encoding_refused A good l). Qed.
Theorem C66_encoding_exact A (good : A -> bool) (l : list (str * A)) : exists b s, read_encoding good (nodes l) = Ok (b, s) /\ write_encoding s = map encoding_written l.
Proof. exact (encoding_exact A good l). Qed.

(** ** ornaments: what the schema allows does not come back if a mark is before an ornament. *)
Theorem C66_ornaments_refuted : ~ (forall A (good : A -> bool) (l : list (str * A)), conforms ornaments_content l -> all_readable good l -> comes_back (read_ornaments good) write_ornaments l).
Proof. exact ornaments_refuted. Qed.

(** It does if the marks are after the ornaments. *)
Theorem C66_ornaments_partial A (good : A -> bool) (o : list (str * A)) marks :
  Forall (fun p => In (fst p) (map lit ornament_names)) o -> all_readable good (o ++ named "accidental-mark" marks) ->
  comes_back (read_ornaments good) write_ornaments (o ++ named "accidental-mark" marks).
Proof. exact (ornaments_back A good o marks). Qed.

(** Of any children: the ornaments in their order, then the marks that are kept. *)
Theorem C66_ornaments_exact A (good : A -> bool) (l : list (str * A)) : exists b s, read_ornaments good (nodes l) = Ok (b, s) /\
  (b = false <-> Exists (fun p => In (fst p) (map lit (ornament_names ++ ["accidental-mark"]%string)) /\ good (snd p) = false) l) /\
  write_ornaments s = map as_read (filter (is_named ornament_names) l) ++ map (fun a => (lit "accidental-mark", [Own a])) (marks_kept l).
Proof. exact (ornaments_exact A good l). Qed.

(** ** sound: what the schema allows does not come back. *)
Theorem C66_sound_refuted : ~ (forall A (good : A -> bool) (l : list (str * A)), conforms sound_content l -> all_readable good l -> comes_back (read_sound good) write_sound l).
Proof. exact sound_refuted. Qed.

(** It does if there is one group with a midi instrument, or nothing. *)
Theorem C66_sound_partial A (good : A -> bool) (l : list (str * A)) : conforms sound_group_content l -> l = [] \/ has_child "midi-instrument" l -> all_readable good l ->
  comes_back (read_sound good) write_sound l.
Proof. exact (sound_back A good l). Qed.

(** Of any children: one device, an instrument in any case and one play, each read from all of its name. *)
Theorem C66_sound_exact A (good : A -> bool) (l : list (str * A)) : exists b s, read_sound good (nodes l) = Ok (b, s) /\
  (b = false <-> Exists (fun p => In (fst p) (map lit ["midi-device"; "midi-instrument"; "play"]%string) /\ good (snd p) = false) l) /\
  (Exists (fun p => In (fst p) (map lit ["midi-device"; "midi-instrument"; "play"]%string)) l ->
    write_sound s = one_from l "midi-device" ++ [(lit "midi-instrument", map Own (contents_of "midi-instrument" l))] ++ one_from l "play") /\
  (~ Exists (fun p => In (fst p) (map lit ["midi-device"; "midi-instrument"; "play"]%string)) l -> write_sound s = []).
Proof. exact (sound_exact A good l). Qed.

(** ** The loops over the children of notes and score-parts, which move their iterator, end inside the
    children whatever they are. *)
Theorem C66_ends A (good : A -> bool) (l : list (str * A)) : (exists b s, read_note good (nodes l) = Ok (b, s)) /\ (exists b s, read_score_part good (nodes l) = Ok (b, s)).
Proof. exact (conj (note_ends A good l) (score_part_ends A good l)). Qed.

(** ** Cases *)
Example C66_note_met : conforms note_content a_note /\ conforms note_content a_grace_note /\ conforms note_content a_cue_note.
Proof. exact (conj ex_note (conj ex_grace_note ex_cue_note)). Qed.
Example C66_score_part_met : conforms score_part_content a_score_part /\ all_readable (fun _ => true) a_score_part.
Proof. split; [exact ex_score_part | repeat constructor]. Qed.
Example C66_score_instrument_met : conforms score_instrument_content a_score_instrument.
Proof. exact ex_score_instrument. Qed.
Example C66_encoding_met : conforms encoding_content an_encoding.
Proof. exact ex_encoding. Qed.
Example C66_ornaments_met : conforms ornaments_content some_ornaments.
Proof. exact ex_ornaments. Qed.
Example C66_sound_met : conforms sound_group_content a_sound /\ has_child "midi-instrument" a_sound.
Proof. exact ex_sound. Qed.

Print Assumptions C66_note.
Print Assumptions C66_note_ties.
Print Assumptions C66_note_exact.
Print Assumptions C66_note_required.
Print Assumptions C66_unread_refuted.
Print Assumptions C66_score_part.
Print Assumptions C66_score_part_exact.
Print Assumptions C66_part_name_refuted.
Print Assumptions C66_score_instrument.
Print Assumptions C66_score_instrument_refused.
Print Assumptions C66_encoding.
Print Assumptions C66_encoding_refused.
Print Assumptions C66_encoding_exact.
Print Assumptions C66_ornaments_refuted.
Print Assumptions C66_ornaments_partial.
Print Assumptions C66_ornaments_exact.
Print Assumptions C66_sound_refuted.
Print Assumptions C66_sound_partial.
Print Assumptions C66_sound_exact.
Print Assumptions C66_ends.
