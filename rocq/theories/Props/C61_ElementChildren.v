(** C61: elements with alternatives or groups of children. *)
From Coq Require Import List String.
From Verif Require Import Model.Base Model.Text Model.ElementReading Model.ElementGroups Spec.ContentModels Spec.ScoreContents Spec.ChildrenExamples
  Proofs.ChildrenProofs Proofs.GroupRuns Proofs.CreditHarmony Proofs.LyricReading Proofs.GroupEnds Proofs.GroupExampleProofs Proofs.AnyChildrenProofs.
Import ListNotations.

(** ** articulations and technical: any number of the marks the schema has, in any order, come
    back; any other child makes the file refused. *)
Theorem C61_articulations A (l : list (str * A)) : conforms articulations_content l -> comes_back read_articulations write_articulations l.
Proof. exact (articulations_back A l). Qed.
Theorem C61_articulations_refused A (l : list (str * A)) : ~ conforms articulations_content l -> refused read_articulations l.
Proof. exact (articulations_refused A l). Qed.
Theorem C61_technical A (l : list (str * A)) : conforms technical_content l -> comes_back read_technical write_technical l.
Proof. exact (technical_back A l). Qed.
Theorem C61_technical_refused A (l : list (str * A)) : ~ conforms technical_content l -> refused read_technical l.
Proof. exact (technical_refused A l). Qed.

(** ** bend, harmonic, time, harmony: whatever the schema allows comes back. *)
Theorem C61_bend A (l : list (str * A)) : conforms bend_content l -> comes_back read_bend write_bend l.
Proof. exact (bend_back A l). Qed.
Theorem C61_harmonic A (l : list (str * A)) : conforms harmonic_content l -> comes_back read_harmonic write_harmonic l.
Proof. exact (harmonic_back A l). Qed.
Theorem C61_time A (l : list (str * A)) : conforms time_content l -> comes_back read_time write_time l.
Proof. exact (time_back A l). Qed.
Theorem C61_harmony A (l : list (str * A)) : conforms harmony_content l -> comes_back read_harmony write_harmony l.
Proof. exact (harmony_back A l). Qed.

(** Children of any kind, in any order and number: a bend, a harmonic and an interchangeable are
    accepted; of alternatives the last is written, and repeated children as one element. *)
Theorem C61_bend_exact A (l : list (str * A)) : exists s, read_bend (nodes l) = Ok (true, s) /\
  write_bend s = [(lit "bend-alter", map Own (contents_of "bend-alter" l))] ++ last_choice ["pre-bend"; "release"]%string l ++ one_from l "with-bar".
Proof. exact (bend_exact A l). Qed.
Theorem C61_harmonic_exact A (l : list (str * A)) : exists s, read_harmonic (nodes l) = Ok (true, s) /\
  write_harmonic s = last_choice ["natural"; "artificial"]%string l ++ last_choice ["base-pitch"; "touching-pitch"; "sounding-pitch"]%string l.
Proof. exact (harmonic_exact A l). Qed.
Theorem C61_interchangeable_exact A (l : list (str * A)) : exists s, read_interchangeable (nodes l) = Ok (true, s) /\
  write_interchangeable s = one_from l "time-relation" ++ [(lit "beats", map Own (contents_of "beats" l)); (lit "beat-type", map Own (contents_of "beat-type" l))].
Proof. exact (interchangeable_exact A l). Qed.
Example C61_exact_met : last_choice ["pre-bend"; "release"]%string [(lit "release", 1); (lit "with-bar", 2); (lit "pre-bend", 3); (lit "release", 4)] = [(lit "release", [Own 1; Own 4])].
Proof. reflexivity. Qed.

(** A harmony with no chord in it makes the file refused. *)
Theorem C61_harmony_refused A (l : list (str * A)) : ~ has_child "root" l -> ~ has_child "function" l -> refused read_harmony l.
Proof. exact (harmony_refused A l). Qed.

(** ** notations: not with an other-notation, which makes the file refused. *)
Theorem C61_notations_refuted : ~ (forall l : list (str * nat), conforms notations_content l -> comes_back read_notations write_notations l).
Proof. exact notations_refuted. Qed.
Theorem C61_notations_partial A (l : list (str * A)) :
  conforms notations_content l -> ~ has_child "other-notation" l -> comes_back read_notations write_notations l.
Proof. exact (notations_back A l). Qed.
Theorem C61_notations_refused A (l : list (str * A)) : has_child "other-notation" l -> refused read_notations l.
Proof. exact (notations_refused A l). Qed.

(** ** arrow: not a circular one, which makes the file refused; the children of another are
    read once for each of them. *)
Theorem C61_arrow_refuted : ~ (forall l : list (str * nat), conforms arrow_content l -> comes_back read_arrow write_arrow l).
Proof. exact arrow_refuted. Qed.
Theorem C61_arrow_partial A (l : list (str * A)) : conforms arrow_content l -> ~ has_child "circular-arrow" l ->
  exists s, read_arrow (nodes l) = Ok (true, s) /\ write_arrow s = arrow_children l.
Proof. exact (arrow_back A l). Qed.
Theorem C61_arrow_refused A (l : list (str * A)) : conforms arrow_content l -> has_child "circular-arrow" l -> refused read_arrow l.
Proof. exact (arrow_refused A l). Qed.

(** ** notehead-text: the names come back, but each text is read from the parent element. *)
Theorem C61_notehead_text_refuted :
  ~ (forall l : list (str * nat), conforms notehead_text_content l -> comes_back read_notehead_text write_notehead_text l).
Proof. exact notehead_text_refuted. Qed.
Theorem C61_notehead_text_partial A (l : list (str * A)) : conforms notehead_text_content l ->
  exists s, read_notehead_text (nodes l) = Ok (true, s) /\ write_notehead_text s = map (fun p => (fst p, [Parent])) l.
Proof. exact (notehead_text_names A l). Qed.

(** ** interchangeable: only one pair of beats and beat-type comes back. *)
Theorem C61_interchangeable_refuted :
  ~ (forall l : list (str * nat), conforms interchangeable_content l -> comes_back read_interchangeable write_interchangeable l).
Proof. exact interchangeable_refuted. Qed.
Theorem C61_interchangeable_partial A (l : list (str * A)) :
  conforms (Sequence [Optional (Element "time-relation"); time_signature_content]) l -> comes_back read_interchangeable write_interchangeable l.
Proof. exact (interchangeable_back A l). Qed.

(** ** key: not one without fifths and without steps, which is written with a fifths that was
    not in the file. *)
Theorem C61_key_refuted : ~ (forall l : list (str * nat), conforms key_content l -> comes_back read_key write_key l).
Proof. exact key_refuted. Qed.
Theorem C61_key_partial A (l : list (str * A)) :
  conforms key_content l -> has_child "fifths" l \/ has_child "key-step" l -> comes_back read_key write_key l.
Proof. exact (key_back A l). Qed.
Theorem C61_key_octaves A (l : list (str * A)) : conforms (Many (Element "key-octave")) l ->
  exists k, read_key (nodes l) = Ok (true, k) /\ write_key k = (lit "fifths", []) :: map (fun p => (fst p, [Own (snd p)])) l.
Proof. exact (key_octaves A l). Qed.

(** ** credit: the names come back; the links and bookmarks between the words are read from
    the parent element. *)
Theorem C61_credit_refuted : ~ (forall l : list (str * nat), conforms credit_content l -> comes_back read_credit write_credit l).
Proof. exact credit_refuted. Qed.
Theorem C61_credit_names A (l : list (str * A)) : conforms credit_content l -> names_come_back read_credit write_credit l.
Proof. exact (credit_names A l). Qed.
Theorem C61_credit_exact A (l : list (str * A)) : conforms credit_content l -> exists s, read_credit (nodes l) = Ok (true, s) /\ write_credit s = credit_written false l.
Proof. exact (credit_exact A l). Qed.
Theorem C61_credit_partial A (l : list (str * A)) :
  conforms (Sequence [Many (Element "credit-type"); Many (Element "link"); Many (Element "bookmark"); Choice [Element "credit-image"; Some_of (Element "credit-words")]]) l ->
  comes_back read_credit write_credit l.
Proof. exact (credit_back A l). Qed.
Theorem C61_credit_refused A (l : list (str * A)) :
  conforms (Sequence [Many (Element "credit-type"); Many (Element "link"); Many (Element "bookmark")]) l -> refused read_credit l.
Proof. exact (credit_empty A l). Qed.
(** With another child there it is accepted, and gets empty words. *)
Theorem C61_credit_unfinished A (l : list (str * A)) p r : conforms (Sequence [Many (Element "credit-type"); Many (Element "link"); Many (Element "bookmark")]) l ->
  ~ In (fst p) (map lit ["credit-type"; "link"; "bookmark"; "credit-image"; "credit-words"]%string) ->
  exists s, read_credit (nodes (l ++ p :: r)) = Ok (true, s) /\ write_credit s = map as_read l ++ [(lit "credit-words", [])].
Proof. exact (credit_unfinished A l p r). Qed.

(** ** lyric: not with a second syllabic, nor with an end-line or end-paragraph after an
    extend, a laughing or a humming; a footnote or a level makes the file refused. *)
Theorem C61_lyric_refuted : ~ (forall l : list (str * nat), conforms lyric_content l -> comes_back read_lyric write_lyric l).
Proof. exact lyric_refuted. Qed.
Theorem C61_lyric_extend_refuted : ~ comes_back read_lyric write_lyric extend_end_line.
Proof. exact lyric_extend_refuted. Qed.
Theorem C61_lyric_partial A (l : list (str * A)) :
  conforms (Sequence [Optional (Element "syllabic"); Element "text"; Many (Sequence [Optional (Element "elision"); Element "text"]); Optional (Element "extend");
                      Optional (Element "end-line"); Optional (Element "end-paragraph")]) l -> comes_back read_lyric write_lyric l.
Proof. exact (lyric_back A l). Qed.
Theorem C61_lyric_word_partial A m (a : A) : In m ["extend"; "laughing"; "humming"]%string -> comes_back read_lyric write_lyric [(lit m, a)].
Proof. exact (lyric_word_back A m a). Qed.
Theorem C61_lyric_refused A (l : list (str * A)) : conforms lyric_content l -> has_child "footnote" l \/ has_child "level" l -> refused read_lyric l.
Proof. exact (lyric_refused A l). Qed.

(** ** Whatever the children are, allowed or not, reading ends, and touches nothing beyond
    them. *)
Theorem C61_ends A :
  always_ends (@read_articulations A) /\ always_ends (@read_technical A) /\ always_ends (@read_notations A) /\ always_ends (@read_notehead_text A) /\
  always_ends (@read_arrow A) /\ always_ends (@read_bend A) /\ always_ends (@read_harmonic A) /\ always_ends (@read_time A) /\
  always_ends (@read_interchangeable A) /\ always_ends (@read_key A) /\ always_ends (@read_harmony A) /\ always_ends (@read_credit A) /\ always_ends (@read_lyric A).
Proof.
  exact (conj (articulations_ends A) (conj (technical_ends A) (conj (notations_ends A) (conj (notehead_text_ends A) (conj (arrow_ends A) (conj (bend_ends A) (conj (harmonic_ends A)
    (conj (time_ends A) (conj (interchangeable_ends A) (conj (key_ends A) (conj (harmony_ends A) (conj (credit_ends A) (lyric_ends A))))))))))))).
Qed.

(** ** Cases that meet the hypotheses. *)
Example C61_articulations_met : conforms articulations_content some_articulations.
Proof. exact ex_articulations. Qed.
Example C61_articulations_refused_met : ~ conforms articulations_content wrong_articulations.
Proof. exact wrong_articulations_not. Qed.
Example C61_technical_met : conforms technical_content some_technical.
Proof. exact ex_technical. Qed.
Example C61_technical_refused_met : ~ conforms technical_content wrong_technical.
Proof. exact wrong_technical_not. Qed.
Example C61_bend_met : conforms bend_content some_bend.
Proof. exact ex_bend. Qed.
Example C61_harmonic_met : conforms harmonic_content some_harmonic.
Proof. exact ex_harmonic. Qed.
Example C61_time_met : conforms time_content compound_time.
Proof. exact ex_time. Qed.
Example C61_harmony_met : conforms harmony_content two_chords.
Proof. exact ex_chords. Qed.
Example C61_harmony_refused_met : ~ has_child "root" no_chord /\ ~ has_child "function" no_chord.
Proof. split; intros [a [I | [I | []]]]; discriminate I. Qed.
Example C61_notations_met : conforms notations_content some_notations /\ ~ has_child "other-notation" some_notations.
Proof. split; [exact ex_notations | intros [a I]; repeat (destruct I as [I | I]; [discriminate I | ]); exact I]. Qed.
Example C61_notations_refused_met : has_child "other-notation" other_notations.
Proof. exists 2. right. left. reflexivity. Qed.
Example C61_arrow_met : conforms arrow_content plain_arrow /\ ~ has_child "circular-arrow" plain_arrow.
Proof. split; [exact ex_arrow | intros [a [I | [I | []]]]; discriminate I]. Qed.
Example C61_arrow_refused_met : conforms arrow_content circular_arrow /\ has_child "circular-arrow" circular_arrow.
Proof. split; [exact ex_circular | exists 1; left; reflexivity]. Qed.
Example C61_notehead_text_met : conforms notehead_text_content two_texts.
Proof. exact ex_texts. Qed.
Example C61_interchangeable_met : conforms (Sequence [Optional (Element "time-relation"); time_signature_content]) one_interchangeable.
Proof. exact ex_interchangeable. Qed.
Example C61_key_met : conforms key_content major_key /\ has_child "fifths" major_key.
Proof. split; [exact ex_major | exists 2; right; left; reflexivity]. Qed.
Example C61_strange_key_met : conforms key_content strange_key /\ has_child "key-step" strange_key.
Proof. split; [exact ex_strange | exists 1; left; reflexivity]. Qed.
Example C61_credit_met :
  conforms (Sequence [Many (Element "credit-type"); Many (Element "link"); Many (Element "bookmark"); Choice [Element "credit-image"; Some_of (Element "credit-words")]]) words_credit
  /\ conforms credit_content linked_credit.
Proof. exact (conj ex_words ex_linked). Qed.
Example C61_credit_refused_met : conforms (Sequence [Many (Element "credit-type"); Many (Element "link"); Many (Element "bookmark")]) bare_credit.
Proof. exact ex_bare. Qed.
Example C61_lyric_met :
  conforms (Sequence [Optional (Element "syllabic"); Element "text"; Many (Sequence [Optional (Element "elision"); Element "text"]); Optional (Element "extend");
                      Optional (Element "end-line"); Optional (Element "end-paragraph")]) two_syllables.
Proof. exact ex_syllables. Qed.
Example C61_lyric_refused_met : conforms lyric_content level_lyric /\ has_child "level" level_lyric.
Proof. split; [exact ex_level | exists 2; right; left; reflexivity]. Qed.
Example C61_second_syllabic_met : conforms lyric_content second_syllabic /\ conforms lyric_content extend_end_line.
Proof. exact (conj ex_second ex_extend). Qed.

Print Assumptions C61_articulations.
Print Assumptions C61_articulations_refused.
Print Assumptions C61_technical.
Print Assumptions C61_technical_refused.
Print Assumptions C61_bend.
Print Assumptions C61_harmonic.
Print Assumptions C61_time.
Print Assumptions C61_harmony.
Print Assumptions C61_bend_exact.
Print Assumptions C61_harmonic_exact.
Print Assumptions C61_credit_exact.
Print Assumptions C61_credit_unfinished.
Print Assumptions C61_interchangeable_exact.
Print Assumptions C61_harmony_refused.
Print Assumptions C61_notations_refuted.
Print Assumptions C61_notations_partial.
Print Assumptions C61_notations_refused.
Print Assumptions C61_arrow_refuted.
Print Assumptions C61_arrow_partial.
Print Assumptions C61_arrow_refused.
Print Assumptions C61_notehead_text_refuted.
Print Assumptions C61_notehead_text_partial.
Print Assumptions C61_interchangeable_refuted.
Print Assumptions C61_interchangeable_partial.
Print Assumptions C61_key_refuted.
Print Assumptions C61_key_partial.
Print Assumptions C61_key_octaves.
Print Assumptions C61_credit_refuted.
Print Assumptions C61_credit_names.
Print Assumptions C61_credit_partial.
Print Assumptions C61_credit_refused.
Print Assumptions C61_lyric_refuted.
Print Assumptions C61_lyric_extend_refuted.
Print Assumptions C61_lyric_partial.
Print Assumptions C61_lyric_word_partial.
Print Assumptions C61_lyric_refused.
Print Assumptions C61_ends.
