(** C64: scores, parts, measures, part lists, directions and name displays. *)
From Coq Require Import List String.
From Verif Require Import Model.Base Model.Text Model.ElementReading Model.ElementGroups Model.ElementChoices Model.ScoreElements Spec.ContentModels Spec.MoreContents Spec.ScoreContents
  Proofs.ScoreElementProofs Proofs.ScoreChildrenProofs Proofs.DirectionChildrenProofs Proofs.DirectionAny.
Import ListNotations.
Local Open Scope list_scope.

(** ** measure of a part, and part of a measure: whatever the schema allows comes back. Of any
    children those the schema has are written in their order and decide alone whether the file
    is refused; the others are passed over. *)
Theorem C64_music A (good : A -> bool) (l : list (str * A)) : conforms music_content l -> all_readable good l -> comes_back (read_music good) write_music l.
Proof. exact (music_back A good l). Qed.
Theorem C64_music_exact A (good : A -> bool) (l : list (str * A)) : exists b s, read_music good (nodes l) = Ok (b, s) /\
  (b = false <-> Exists (fun p => In (fst p) (map lit music_names) /\ good (snd p) = false) l) /\
  write_music s = map as_read (filter (is_named music_names) l).
Proof. exact (music_exact A good l). Qed.

(** ** part of a score: whatever the schema allows comes back; a child of another name or one
    that cannot be read makes the file refused, and nothing else does. *)
Theorem C64_part A (good : A -> bool) (l : list (str * A)) : conforms part_content l -> all_readable good l -> comes_back (read_part good) write_part l.
Proof. exact (part_back A good l). Qed.
Theorem C64_part_refused A (good : A -> bool) (l : list (str * A)) :
  refused (read_part good) l <-> Exists (fun p => fst p <> lit "measure" \/ good (snd p) = false) l.
Proof. exact (part_refused A good l). Qed.

(** A part without a measure gets one that is in no file. *)
Theorem C64_part_empty A (good : A -> bool) : exists s, read_part good (nodes (@nil (str * A))) = Ok (true, s) /\ write_part s = [(lit "measure", [])].
Proof. exact (part_empty A good). Qed.

(** ** measure of a score: the same with parts, and one part is required. *)
Theorem C64_timewise_measure A (good : A -> bool) (l : list (str * A)) : conforms timewise_measure_content l -> all_readable good l ->
  comes_back (read_timewise_measure good) write_timewise_measure l.
Proof. exact (timewise_measure_back A good l). Qed.
Theorem C64_timewise_measure_refused A (good : A -> bool) (l : list (str * A)) :
  refused (read_timewise_measure good) l <-> l = [] \/ Exists (fun p => fst p <> lit "part" \/ good (snd p) = false) l.
Proof. exact (timewise_measure_refused A good l). Qed.

(** ** scores: whatever the schema allows comes back. *)
Theorem C64_score_partwise A (good : A -> bool) (l : list (str * A)) : conforms (score_content "part") l -> all_readable good l ->
  comes_back (read_score_partwise good) write_score_partwise l.
Proof. exact (score_partwise_back A good l). Qed.

(** Of any children: the file is refused if something comes before the part-list that is not in
    the header, or if a child cannot be read; and what is written. *)
Theorem C64_score_partwise_exact A (good : A -> bool) (l : list (str * A)) : exists b s, read_score_partwise good (nodes l) = Ok (b, s) /\
  (b = false <-> before_part_list l \/ Exists (fun p => In (fst p) (map lit ("part"%string :: header_names)) /\ good (snd p) = false) l) /\
  (~ before_part_list l -> write_score_partwise s = score_written "part" l).
Proof. exact (score_partwise_exact A good l). Qed.
Theorem C64_score_timewise A (good : A -> bool) (l : list (str * A)) : conforms (score_content "measure") l -> all_readable good l ->
  comes_back (read_score_timewise good) write_score_timewise l.
Proof. exact (score_timewise_back A good l). Qed.
Theorem C64_score_timewise_exact A (good : A -> bool) (l : list (str * A)) : exists b s, read_score_timewise good (nodes l) = Ok (b, s) /\
  (b = false <-> before_part_list l \/ Exists (fun p => In (fst p) (map lit ("measure"%string :: header_names)) /\ good (snd p) = false) l) /\
  (~ before_part_list l -> write_score_timewise s = score_written "measure" l).
Proof. exact (score_timewise_exact A good l). Qed.

(** The part-list and the parts may be missing. *)
Theorem C64_score_required_refuted : ~ (forall good (l : list (str * nat)) s, read_score_partwise good (nodes l) = Ok (true, s) \/ (exists s', read_score_timewise good (nodes l) = Ok (true, s')) ->
  has_child "part-list" l).
Proof. exact score_required_refuted. Qed.

(** ** part-list: whatever the schema allows comes back, and without a score-part the file is
    refused. *)
Theorem C64_part_list A (good : A -> bool) (l : list (str * A)) : conforms part_list_content l -> all_readable good l -> comes_back (read_part_list good) write_part_list l.
Proof. exact (part_list_back A good l). Qed.
Theorem C64_part_list_required A (good : A -> bool) (l : list (str * A)) : ~ has_child "score-part" l -> refused (read_part_list good) l.
Proof. exact (part_list_required A good l). Qed.

(** A child that cannot be read does not always make the file refused: after the first
    score-part none does. *)
Theorem C64_part_list_bad_refuted : ~ (forall good (l : list (str * nat)), conforms part_list_content l -> one_unreadable good l -> refused (read_part_list good) l).
Proof. exact part_list_bad_refuted. Qed.

(** Of any children: up to the first score-part those that cannot be read make the file refused
    and others are passed over; after it others are written as part-groups that are in no file. *)
Theorem C64_part_list_bad_partial A (good : A -> bool) x a (y : list (str * A)) : ~ has_child "score-part" x -> exists b s,
  read_part_list good (nodes (x ++ (lit "score-part", a) :: y)) = Ok (b, s) /\
  (b = true <-> good a = true /\ Forall (fun c => good c = true) (contents_of "part-group" x)) /\
  write_part_list s = each_from x "part-group" ++ [(lit "score-part", [Own a])] ++ map (fun p => if is_named ["part-group"; "score-part"]%string p then as_read p else (lit "part-group", [])) y.
Proof. exact (part_list_exact A good x a y). Qed.

(** ** direction: whatever the schema allows comes back; a child that cannot be read makes the
    file refused. *)
Theorem C64_direction A (good : A -> bool) (l : list (str * A)) : conforms direction_content l -> all_readable good l -> comes_back (read_direction good) write_direction l.
Proof. exact (direction_back A good l). Qed.
Theorem C64_direction_bad A (good : A -> bool) (l : list (str * A)) : conforms direction_content l -> one_unreadable good l -> refused (read_direction good) l.
Proof. exact (direction_bad A good l). Qed.

(** Without the direction-type it requires it gets one that is in no file. *)
Theorem C64_direction_untyped A (good : A -> bool) (l : list (str * A)) a : conforms direction_content ((lit "direction-type", a) :: l) -> all_readable good l -> ~ has_child "direction-type" l ->
  exists s, read_direction good (nodes l) = Ok (true, s) /\ write_direction s = (lit "direction-type", []) :: map as_read l.
Proof. exact (direction_untyped A good l a). Qed.

(** ** direction-type: whatever the schema allows comes back. *)
Theorem C64_direction_type A (good : A -> bool) (l : list (str * A)) : conforms direction_type_content l -> all_readable good l -> comes_back (read_direction_type good) write_direction_type l.
Proof. exact (direction_type_back A good l). Qed.
Theorem C64_direction_type_empty A (good : A -> bool) : refused (read_direction_type good) (@nil (str * A)).
Proof. exact (direction_type_empty A good). Qed.

(** Of any children: after one that comes alone nothing is looked at; those that come in numbers
    have to be of one name. *)
Theorem C64_direction_type_single A (good : A -> bool) p (r : list (str * A)) : In (fst p) (map lit single_direction_types) ->
  exists s, read_direction_type good (nodes (p :: r)) = Ok (good (snd p), s) /\ write_direction_type s = [as_read p].
Proof. exact (direction_type_single A good p r). Qed.
Theorem C64_direction_type_multiple A (good : A -> bool) p (r : list (str * A)) : In (fst p) (map lit multiple_direction_types) -> exists b s,
  read_direction_type good (nodes (p :: r)) = Ok (b, s) /\
  (b = false <-> Exists (fun q => fst q <> fst p \/ good (snd q) = false) (p :: r)) /\ (b = true -> write_direction_type s = map as_read (p :: r)).
Proof. exact (direction_type_multiple A good p r). Qed.

(** A first child of another name turns into a rehearsal mark that is in no file. *)
Theorem C64_direction_type_other A (good : A -> bool) p (r : list (str * A)) : ~ In (fst p) (map lit (single_direction_types ++ multiple_direction_types)) ->
  exists s, read_direction_type good (nodes (p :: r)) = Ok (true, s) /\ write_direction_type s = [(lit "rehearsal", [])].
Proof. exact (direction_type_other A good p r). Qed.

(** ** name displays: whatever the schema allows comes back; a child of another name or one that
    cannot be read makes the file refused, and nothing else does. *)
Theorem C64_name_display A (good : A -> bool) (l : list (str * A)) : conforms name_display_content l -> all_readable good l -> comes_back (read_name_display good) write_name_display l.
Proof. exact (name_display_back A good l). Qed.
Theorem C64_name_display_refused A (good : A -> bool) (l : list (str * A)) :
  refused (read_name_display good) l <-> Exists (fun p => ~ In (fst p) (map lit ["display-text"; "accidental-text"]%string) \/ good (snd p) = false) l.
Proof. exact (name_display_refused A good l). Qed.

(** ** Whatever the children are, reading ends, and touches nothing beyond them. *)
Theorem C64_ends A (good : A -> bool) :
  always_ends (read_music good) /\ always_ends (read_part good) /\ always_ends (read_timewise_measure good) /\ always_ends (read_score_partwise good) /\
  always_ends (read_score_timewise good) /\ always_ends (read_part_list good) /\ always_ends (read_direction good) /\ always_ends (read_direction_type good) /\
  always_ends (read_name_display good).
Proof. exact (score_elements_end A good). Qed.

(** ** Cases that meet the hypotheses. *)
Example C64_music_met : conforms music_content a_measure /\ all_readable (fun _ => true) a_measure.
Proof. split; [exact ex_measure | repeat constructor]. Qed.
Example C64_part_met : conforms part_content (named "measure" [1; 2; 3]) /\ conforms timewise_measure_content (named "part" [1; 2]).
Proof. exact (conj ex_part ex_timewise_measure). Qed.
Example C64_score_met : conforms (score_content "part") a_score /\ conforms (score_content "measure") a_timewise_score /\ ~ before_part_list a_score.
Proof. exact (conj ex_score (conj ex_timewise_score ex_not_before)). Qed.
Example C64_before_met : before_part_list [(lit "work", 1); (lit "part", 2); (lit "part-list", 3)].
Proof. exact ex_before. Qed.
Example C64_part_list_met : conforms part_list_content a_part_list /\ ~ has_child "score-part" [(lit "part-group", 1)].
Proof. exact (conj ex_part_list ex_no_part). Qed.
Example C64_direction_met : conforms direction_content a_direction /\ all_readable (fun _ => true) a_direction.
Proof. split; [exact ex_direction | repeat constructor]. Qed.
Example C64_direction_type_met : conforms direction_type_content (named "words" [1; 2]) /\ conforms direction_type_content [(lit "wedge", 1)].
Proof. exact (conj ex_words ex_wedge). Qed.
Example C64_name_display_met : conforms name_display_content [(lit "display-text", 1); (lit "accidental-text", 2)].
Proof. exact ex_name_display. Qed.

(** A direction of any children: which of them are read, and what is written of those. *)
Theorem C64_direction_any : forall A (good : A -> bool) (l : list (str * A)),
  (exists turns, in_turns l turns) /\
  forall turns, in_turns l turns -> exists s, read_direction good (nodes l) = Ok (forallb (fun p => good (snd p)) (List.concat turns), s) /\ write_direction s = direction_written turns.
Proof. exact (fun A good l => conj (turns_exist A l) (fun turns => direction_any good l turns)). Qed.

Example C64_direction_any_met :
  in_turns a_muddled_direction [[(lit "direction-type", 1)]; [(lit "offset", 2)]; [(lit "direction-type", 3)]; [(lit "voice", 4)]; [(lit "level", 6); (lit "staff", 7)]; [(lit "footnote", 8)]].
Proof. exact muddled_turns. Qed.

Print Assumptions C64_music.
Print Assumptions C64_music_exact.
Print Assumptions C64_part.
Print Assumptions C64_part_refused.
Print Assumptions C64_part_empty.
Print Assumptions C64_timewise_measure.
Print Assumptions C64_timewise_measure_refused.
Print Assumptions C64_score_partwise.
Print Assumptions C64_score_partwise_exact.
Print Assumptions C64_score_timewise.
Print Assumptions C64_score_timewise_exact.
Print Assumptions C64_score_required_refuted.
Print Assumptions C64_part_list.
Print Assumptions C64_part_list_required.
Print Assumptions C64_part_list_bad_refuted.
Print Assumptions C64_part_list_bad_partial.
Print Assumptions C64_direction.
Print Assumptions C64_direction_bad.
Print Assumptions C64_direction_untyped.
Print Assumptions C64_direction_any.
Print Assumptions C64_direction_type.
Print Assumptions C64_direction_type_empty.
Print Assumptions C64_direction_type_single.
Print Assumptions C64_direction_type_multiple.
Print Assumptions C64_direction_type_other.
Print Assumptions C64_name_display.
Print Assumptions C64_name_display_refused.
Print Assumptions C64_ends.
