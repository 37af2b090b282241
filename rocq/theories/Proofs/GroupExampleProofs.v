(** The examples have the children the schema allows; statements that are false. *)
From Coq Require Import List String Ascii Bool PeanoNat Lia.
From Verif Require Import Model.Base Model.Text Model.ElementReading Model.ElementGroups Spec.ContentModels Spec.ChildrenExamples Proofs.ChildrenProofs.
Import ListNotations.
Local Open Scope list_scope.

(** Finds how literal children are put together. *)
Ltac find_conforms :=
  lazymatch goal with
  | |- conforms (Element _) _ => apply conforms_element
  | |- conforms (Sequence []) [] => apply conforms_nothing
  | |- conforms (Sequence (_ :: _)) ?z => split_conforms conforms_sequence (@nil (str * nat)) z
  | |- conforms (Choice ?l) _ => choose_conforms l
  | |- conforms (Optional _) _ => first [apply conforms_without | apply conforms_with; solve [find_conforms]]
  | |- conforms (Many _) [] => apply conforms_none
  | |- conforms (Many _) (?a :: ?z) => split_conforms conforms_more [a] z
  end
with split_conforms rule x z :=
  first [solve [lazymatch goal with |- conforms ?c _ => change (conforms c (x ++ z)) end; apply rule; find_conforms]
        | lazymatch z with ?a :: ?z' => let x' := eval cbn [app] in (x ++ [a]) in split_conforms rule x' z' end]
with choose_conforms l :=
  lazymatch l with ?c :: ?t => first [solve [apply (conforms_choice c); [repeat (first [left; reflexivity | right]) | find_conforms]] | choose_conforms t] end.

Ltac example :=
  cbv [some_articulations some_technical some_notations other_notations two_texts plain_arrow circular_arrow some_bend some_harmonic compound_time one_interchangeable
       two_interchangeable major_key strange_key octaves_key two_chords words_credit linked_credit bare_credit two_syllables second_syllabic extend_end_line level_lyric
       named List.length seq map combine articulations_content articulation_names technical_content technical_names notations_content notation_names notehead_text_content
       arrow_content bend_content harmonic_content time_signature_content time_content interchangeable_content traditional_key_content non_traditional_key_content key_content
       harmony_chord_content harmony_content credit_content lyric_text_content lyric_content editorial_content one_of Some_of app];
  find_conforms.

Lemma ex_articulations : conforms articulations_content some_articulations. Proof. example. Qed.
Lemma ex_technical : conforms technical_content some_technical. Proof. example. Qed.
Lemma ex_notations : conforms notations_content some_notations. Proof. example. Qed.
Lemma ex_other_notations : conforms notations_content other_notations. Proof. example. Qed.
Lemma ex_texts : conforms notehead_text_content two_texts. Proof. example. Qed.
Lemma ex_arrow : conforms arrow_content plain_arrow. Proof. example. Qed.
Lemma ex_circular : conforms arrow_content circular_arrow. Proof. example. Qed.
Lemma ex_bend : conforms bend_content some_bend. Proof. example. Qed.
Lemma ex_harmonic : conforms harmonic_content some_harmonic. Proof. example. Qed.
Lemma ex_time : conforms time_content compound_time. Proof. example. Qed.
Lemma ex_interchangeable : conforms (Sequence [Optional (Element "time-relation"); time_signature_content]) one_interchangeable. Proof. example. Qed.
Lemma ex_interchangeable2 : conforms interchangeable_content two_interchangeable. Proof. example. Qed.
Lemma ex_major : conforms key_content major_key. Proof. example. Qed.
Lemma ex_strange : conforms key_content strange_key. Proof. example. Qed.
Lemma ex_octaves : conforms key_content octaves_key. Proof. example. Qed.
Lemma ex_chords : conforms harmony_content two_chords. Proof. example. Qed.
Lemma ex_words : conforms (Sequence [Many (Element "credit-type"); Many (Element "link"); Many (Element "bookmark"); Choice [Element "credit-image"; Some_of (Element "credit-words")]]) words_credit.
Proof. example. Qed.
Lemma ex_linked : conforms credit_content linked_credit. Proof. example. Qed.
Lemma ex_bare : conforms (Sequence [Many (Element "credit-type"); Many (Element "link"); Many (Element "bookmark")]) bare_credit. Proof. example. Qed.
Lemma ex_syllables : conforms (Sequence [Optional (Element "syllabic"); Element "text"; Many (Sequence [Optional (Element "elision"); Element "text"]); Optional (Element "extend");
                      Optional (Element "end-line"); Optional (Element "end-paragraph")]) two_syllables. Proof. example. Qed.
Lemma ex_second : conforms lyric_content second_syllabic. Proof. example. Qed.
Lemma ex_extend : conforms lyric_content extend_end_line. Proof. example. Qed.
Lemma ex_level : conforms lyric_content level_lyric. Proof. example. Qed.

Ltac lost H C := specialize (H _ C); destruct H as (s & R & F); vm_compute in R; first [discriminate R | injection R as <-; vm_compute in F].
Ltac differ := repeat match goal with
  | F : Forall2 _ (_ :: _) (_ :: _) |- _ => inversion F; clear F; subst
  | F : Forall2 _ [] (_ :: _) |- _ => inversion F
  | F : Forall2 _ (_ :: _) [] |- _ => inversion F
  end; match goal with F : _ /\ _ |- _ => destruct F as [F1 F2]; first [discriminate F1 | discriminate F2] end.

Lemma arrow_refuted : ~ (forall l : list (str * nat), conforms arrow_content l -> comes_back read_arrow write_arrow l).
Proof. intros H. lost H ex_circular. Qed.
Lemma notations_refuted : ~ (forall l : list (str * nat), conforms notations_content l -> comes_back read_notations write_notations l).
Proof. intros H. lost H ex_other_notations. Qed.
Lemma notehead_text_refuted : ~ (forall l : list (str * nat), conforms notehead_text_content l -> comes_back read_notehead_text write_notehead_text l).
Proof. intros H. lost H ex_texts. differ. Qed.
Lemma interchangeable_refuted : ~ (forall l : list (str * nat), conforms interchangeable_content l -> comes_back read_interchangeable write_interchangeable l).
Proof. intros H. lost H ex_interchangeable2. differ. Qed.
Lemma key_refuted : ~ (forall l : list (str * nat), conforms key_content l -> comes_back read_key write_key l).
Proof. intros H. lost H ex_octaves. differ. Qed.
Lemma credit_refuted : ~ (forall l : list (str * nat), conforms credit_content l -> comes_back read_credit write_credit l).
Proof. intros H. lost H ex_linked. differ. Qed.
Lemma lyric_refuted : ~ (forall l : list (str * nat), conforms lyric_content l -> comes_back read_lyric write_lyric l).
Proof. intros H. lost H ex_second. differ. Qed.
Lemma lyric_extend_refuted : ~ comes_back read_lyric write_lyric extend_end_line.
Proof. intros (s & R & F). vm_compute in R. injection R as <-. vm_compute in F. differ. Qed.
Lemma wrong_articulations_not : ~ conforms articulations_content wrong_articulations.
Proof.
  intros H. apply inv_many_one_of in H. apply Forall_inv_tail in H. apply Forall_inv in H. rename H into I.
  vm_compute in I. repeat (destruct I as [I | I]; [discriminate I | ]). exact I.
Qed.
Lemma wrong_technical_not : ~ conforms technical_content wrong_technical.
Proof.
  intros H. apply inv_many_one_of in H. apply Forall_inv_tail in H. apply Forall_inv in H. rename H into I.
  vm_compute in I. repeat (destruct I as [I | I]; [discriminate I | ]). exact I.
Qed.
