(** C63: metronomes, time modifications, measure styles, percussion, play, rests, unpitched
    notes and dynamics. *)
From Coq Require Import List String.
From Verif Require Import Model.Base Model.Text Model.ElementReading Model.ElementGroups Model.ElementChoices Spec.ContentModels Spec.MoreContents Proofs.ChoiceProofs Proofs.MoreChildrenProofs.
Import ListNotations.
Local Open Scope list_scope.

(** ** metronome: not all that the schema allows comes back. *)
Theorem C63_metronome_refuted : ~ (forall l : list (str * nat), conforms metronome_content l -> comes_back (read_metronome (fun _ => true)) write_metronome l).
Proof. exact metronome_refuted. Qed.

(** What remains: beat-units with a per-minute or other beat-units, and metronome-notes with
    at most one metronome-note after a relation. *)
Theorem C63_metronome_partial A (good : A -> bool) (l : list (str * A)) :
  conforms (Choice [metronome_marks_content; Sequence [Some_of (Element "metronome-note"); Optional (Sequence [Element "metronome-relation"; Element "metronome-note"])]]) l ->
  all_readable good l -> comes_back (read_metronome good) write_metronome l.
Proof. exact (metronome_back A good l). Qed.

(** With more notes after the relation only the first of them stays there; the others are
    written before it, and if only one note was before it that one is lost. *)
Theorem C63_metronome_relation A (good : A -> bool) (ns : list A) r m m' ms :
  ns <> [] -> let l := named "metronome-note" ns ++ (lit "metronome-relation", r) :: named "metronome-note" (m :: m' :: ms) in
  all_readable good l ->
  exists s, read_metronome good (nodes l) = Ok (true, s) /\
    Forall2 same_child (write_metronome s)
      (named "metronome-note" (if Nat.eqb (List.length ns) 1 then m' :: ms else ns ++ m' :: ms) ++ [(lit "metronome-relation", r); (lit "metronome-note", m)]).
Proof. exact (metronome_relation A good ns r m m' ms). Qed.

(** A relation without a note after it gets one that is in no file. *)
Theorem C63_metronome_relation_alone A (good : A -> bool) (a : A) ns r : let l := named "metronome-note" (a :: ns) ++ [(lit "metronome-relation", r)] in
  all_readable good l -> exists s, read_metronome good (nodes l) = Ok (true, s) /\
    write_metronome s = map (fun p => (fst p, [Own (snd p)])) l ++ [(lit "metronome-note", [])].
Proof. exact (metronome_relation_alone A good a ns r). Qed.

(** A beat-unit alone makes the file refused. *)
Theorem C63_metronome_refused A (good : A -> bool) (l : list (str * A)) : conforms beat_unit_content l -> refused (read_metronome good) l.
Proof. exact (metronome_refused A good l). Qed.

(** Without beat-unit and metronome-note it is accepted, and gets an empty beat-unit and per-minute
    in place of what it had. *)
Theorem C63_metronome_unknown A (good : A -> bool) (l : list (str * A)) : Forall (fun p => ~ In (fst p) (map lit ["beat-unit"; "beat-unit-dot"; "metronome-note"]%string)) l ->
  exists s, read_metronome good (nodes l) = Ok (true, s) /\ write_metronome s = [(lit "beat-unit", []); (lit "per-minute", [])].
Proof. exact (metronome_unknown A good l). Qed.

(** A child that cannot be read does not always make the file refused: a per-minute does not. *)
Theorem C63_metronome_bad_refuted : ~ (forall good (l : list (str * nat)), conforms metronome_content l -> one_unreadable good l -> refused (read_metronome good) l).
Proof. exact metronome_bad_refuted. Qed.
Theorem C63_metronome_bad_partial A (good : A -> bool) (l : list (str * A)) :
  conforms metronome_content l -> Exists (fun p => good (snd p) = false /\ fst p <> lit "per-minute") l -> refused (read_metronome good) l.
Proof. exact (metronome_bad A good l). Qed.

(** ** time-modification: whatever the schema allows comes back. *)
Theorem C63_time_modification A (good : A -> bool) (l : list (str * A)) : conforms time_modification_content l -> all_readable good l ->
  comes_back (read_time_modification good) write_time_modification l.
Proof. exact (time_modification_back A good l). Qed.

(** A child that cannot be read does not always make the file refused: before a normal-type it
    does not. *)
Theorem C63_time_modification_bad_refuted : ~ (forall good (l : list (str * nat)), conforms time_modification_content l -> one_unreadable good l -> refused (read_time_modification good) l).
Proof. exact time_modification_bad_refuted. Qed.
Theorem C63_time_modification_bad_partial A (good : A -> bool) (l : list (str * A)) : conforms time_modification_content l ->
  (refused (read_time_modification good) l <->
   Exists (fun p => good (snd p) = false /\ (has_child "normal-type" l -> fst p <> lit "actual-notes" /\ fst p <> lit "normal-notes")) l).
Proof. exact (time_modification_bad A good l). Qed.

(** The two required children may be missing. *)
Theorem C63_time_modification_required_refuted : ~ (forall good (l : list (str * nat)) s, read_time_modification good (nodes l) = Ok (true, s) -> has_child "actual-notes" l /\ has_child "normal-notes" l).
Proof. exact time_modification_required_refuted. Qed.

(** ** measure-style: whatever the schema allows comes back; a child of another name or one
    that cannot be read makes the file refused. *)
Theorem C63_measure_style A (good : A -> bool) (l : list (str * A)) : conforms measure_style_content l -> all_readable good l -> comes_back (read_measure_style good) write_measure_style l.
Proof. exact (measure_style_back A good l). Qed.
Theorem C63_measure_style_refused A (good : A -> bool) (l : list (str * A)) :
  Exists (fun p => good (snd p) = false \/ ~ In (fst p) (map lit ["multiple-rest"; "measure-repeat"; "beat-repeat"; "slash"]%string)) l -> refused (read_measure_style good) l.
Proof. exact (measure_style_refused A good l). Qed.

(** ** percussion and play: no file that has one can be read. *)
Theorem C63_percussion_refused A (l : list (str * A)) : refused read_percussion l.
Proof. exact (percussion_refused A l). Qed.
Theorem C63_play_refused A (l : list (str * A)) : refused read_play l.
Proof. exact (play_refused A l). Qed.

(** What they would have been is left as it was made. *)
Theorem C63_percussion_left A (l : list (str * A)) : read_percussion (nodes l) = Ok (false, [(lit "glass", [])]).
Proof. exact (percussion_left A l). Qed.
Theorem C63_play_left A (l : list (str * A)) : read_play (nodes l) = Ok (false, [(lit "ipa", [])]).
Proof. exact (play_left A l). Qed.

(** ** rest and unpitched: whatever the schema allows comes back; a child that cannot be read
    makes the file refused. *)
Theorem C63_display A (good : A -> bool) (l : list (str * A)) : conforms display_content l -> all_readable good l -> comes_back (read_display good) write_display l.
Proof. exact (display_back A good l). Qed.
Theorem C63_display_bad A (good : A -> bool) (l : list (str * A)) : conforms display_content l -> one_unreadable good l -> refused (read_display good) l.
Proof. exact (display_bad A good l). Qed.

(** One of the two children alone gets the other, which is in no file. *)
Theorem C63_display_alone A (good : A -> bool) (a : A) : good a = true ->
  (exists s, read_display good (nodes [(lit "display-step", a)]) = Ok (true, s) /\ write_display s = [(lit "display-step", [Own a]); (lit "display-octave", [])])
  /\ (exists s, read_display good (nodes [(lit "display-octave", a)]) = Ok (true, s) /\ write_display s = [(lit "display-step", []); (lit "display-octave", [Own a])]).
Proof. exact (display_alone A good a). Qed.

(** ** dynamics: not all that the schema allows comes back. Nothing in it is refused, and of
    several children the first is kept. *)
Theorem C63_dynamics_refuted : ~ (forall l : list (str * str), conforms dynamics_content l -> exists v, read_dynamics (nodes l) = Ok (true, v) /\ map fst l = [fst (write_dynamics v)]).
Proof. exact dynamics_refuted. Qed.
Theorem C63_dynamics_empty_refused : exists v, read_dynamics [] = Ok (false, v) /\ write_dynamics v = (lit "mf", []).
Proof. exact dynamics_empty_refused. Qed.
Theorem C63_dynamics_partial n (text : str) rest : In n (map lit standard_dynamics) ->
  exists v, read_dynamics (nodes ((n, text) :: rest)) = Ok (true, v) /\ write_dynamics v = (n, []).
Proof. exact (dynamics_standard n text rest). Qed.
Theorem C63_other_dynamics_partial (text : str) rest : ~ In text (map lit (standard_dynamics ++ ["other-dynamics"]%string)) ->
  exists v, read_dynamics (nodes ((lit "other-dynamics", text) :: rest)) = Ok (true, v) /\ write_dynamics v = (lit "other-dynamics", text).
Proof. exact (dynamics_text text rest). Qed.

(** An other-dynamics with the text of a standard one turns into that; a child the schema does
    not have turns into an other-dynamics with its name as text. *)
Theorem C63_dynamics_text_standard (text : str) rest : In text (map lit standard_dynamics) ->
  exists v, read_dynamics (nodes ((lit "other-dynamics", text) :: rest)) = Ok (true, v) /\ write_dynamics v = (text, []).
Proof. exact (dynamics_text_standard text rest). Qed.
Theorem C63_dynamics_unknown n (text : str) rest : ~ In n (map lit (standard_dynamics ++ ["other-dynamics"]%string)) ->
  exists v, read_dynamics (nodes ((n, text) :: rest)) = Ok (true, v) /\ write_dynamics v = (lit "other-dynamics", n).
Proof. exact (dynamics_unknown n text rest). Qed.

(** ** Whatever the children are, reading ends, and touches nothing beyond them. *)
Theorem C63_ends A (good : A -> bool) :
  always_ends (read_metronome good) /\ always_ends (read_time_modification good) /\ always_ends (read_measure_style good) /\ always_ends (read_display good) /\ always_ends read_dynamics.
Proof. exact (conj (metronome_ends A good) (conj (time_modification_ends A good) (conj (measure_style_ends A good) (conj (display_ends A good) dynamics_ends)))). Qed.

(** ** Cases that meet the hypotheses. *)
Example C63_metronome_met : conforms metronome_marks_content dotted_quarter_equals_half /\ all_readable (fun _ => true) dotted_quarter_equals_half.
Proof. split; [exact ex_marks | repeat constructor]. Qed.
Example C63_metronome_notes_met : conforms (Sequence [Some_of (Element "metronome-note"); Optional (Sequence [Element "metronome-relation"; Element "metronome-note"])])
  (named "metronome-note" [1; 2] ++ [(lit "metronome-relation", 3); (lit "metronome-note", 4)]).
Proof. exact ex_swing_half. Qed.
Example C63_metronome_relation_met : [1; 2] <> [] /\ all_readable (fun _ => true) (named "metronome-note" [1; 2] ++ (lit "metronome-relation", 3) :: named "metronome-note" [4; 5]).
Proof. split; [discriminate | repeat constructor]. Qed.
Example C63_time_modification_met : conforms time_modification_content triplet /\ all_readable (fun _ => true) triplet.
Proof. split; [exact ex_triplet | repeat constructor]. Qed.
Example C63_measure_style_met : conforms measure_style_content [(lit "slash", 1)] /\ all_readable (fun _ => true) [(lit "slash", 1)].
Proof. split; [exact ex_slash | repeat constructor]. Qed.
Example C63_refused_met : conforms percussion_content [(lit "wood", 1)] /\ conforms play_content [(lit "mute", 1); (lit "ipa", 2)].
Proof. exact (conj ex_percussion ex_play). Qed.
Example C63_display_met : conforms display_content [(lit "display-step", 1); (lit "display-octave", 2)].
Proof. exact ex_display. Qed.
Example C63_dynamics_met : In (lit "sffz") (map lit standard_dynamics) /\ ~ In (lit "sfffz") (map lit (standard_dynamics ++ ["other-dynamics"]%string)).
Proof. split; vm_compute; intuition discriminate. Qed.

Print Assumptions C63_metronome_refuted.
Print Assumptions C63_metronome_partial.
Print Assumptions C63_metronome_relation.
Print Assumptions C63_metronome_relation_alone.
Print Assumptions C63_metronome_refused.
Print Assumptions C63_metronome_bad_refuted.
Print Assumptions C63_metronome_bad_partial.
Print Assumptions C63_time_modification.
Print Assumptions C63_time_modification_bad_refuted.
Print Assumptions C63_time_modification_bad_partial.
Print Assumptions C63_time_modification_required_refuted.
Print Assumptions C63_measure_style.
Print Assumptions C63_measure_style_refused.
Print Assumptions C63_percussion_refused.
Print Assumptions C63_play_refused.
Print Assumptions C63_display.
Print Assumptions C63_display_bad.
Print Assumptions C63_display_alone.
Print Assumptions C63_dynamics_refuted.
Print Assumptions C63_dynamics_empty_refused.
Print Assumptions C63_dynamics_partial.
Print Assumptions C63_other_dynamics_partial.
Print Assumptions C63_dynamics_text_standard.
Print Assumptions C63_dynamics_unknown.
Print Assumptions C63_ends.
Print Assumptions C63_percussion_left.
Print Assumptions C63_play_left.
Print Assumptions C63_metronome_unknown.
