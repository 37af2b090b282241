(** The children of the elements of a document. *)
From Coq Require Import List String Ascii Bool PeanoNat Lia.
From Verif Require Import Model.Base Model.Text Model.ElementReading Model.ElementClasses Model.ElementGroups Model.ElementChoices Model.ScoreElements Model.NoteElements
  Model.Attributes Model.Documents Spec.ContentModels Spec.MoreContents Spec.ScoreContents Spec.NoteContents Spec.AllowedDocuments
  Proofs.GroupLoops Proofs.ChildrenProofs Proofs.ChoiceProofs Proofs.MoreChildrenProofs Proofs.LyricReading Proofs.GroupRuns Proofs.CreditHarmony
  Proofs.ScoreChildrenProofs Proofs.ScoreElementProofs Proofs.DirectionChildrenProofs Proofs.MemberProofs Proofs.NoteElementProofs Proofs.NoteReading.
Import ListNotations.
Local Open Scope list_scope.

(** What a child may be written from. *)
Definition child_written {A} (w : str * list (given A)) (p : str * A) : Prop :=
  fst w = fst p /\
  (snd w = [Own (snd p)] \/ (fst p = lit "chord" /\ snd w = []) \/
   (In (fst p) [lit "arrow-direction"; lit "arrow-style"] /\ exists k, snd w = repeat (Own (snd p)) (S (S k)))).

Definition brings_back (p : processor) (c : content) : Prop :=
  forall A (good : A -> bool) (l : list (str * A)), conforms c l -> all_readable good l ->
  exists w, p A good (nodes l) = Ok (true, w) /\ Forall2 child_written w l.

Lemma same_written {A} (w : str * list (given A)) p : same_child w p -> child_written w p.
Proof. intros [E F]. split; [exact E | left; exact F]. Qed.
Lemma all_same_written {A} (w : list (str * list (given A))) l : Forall2 same_child w l -> Forall2 child_written w l.
Proof. induction 1; constructor; [apply same_written | ]; assumption. Qed.

Lemma nodes_good {A} (good : A -> bool) l : all_readable good l ->
  forallb (fun x => match x with NElement _ a => good a | NInstruction _ _ => true end) (nodes l) = true.
Proof. induction 1 as [ | [n a] l H _ IH]; [reflexivity | ]. cbn in *. rewrite H. exact IH. Qed.

Lemma back_good {A S} (good : A -> bool) (read : list (node A) -> outcome (bool * S)) write l : all_readable good l -> comes_back read write l ->
  exists w, and_good good (nodes l) (and_write write (read (nodes l))) = Ok (true, w) /\ Forall2 child_written w l.
Proof.
  intros G (s & R & F). exists (write s). rewrite R. unfold and_write, and_good. cbn [omap obind fst snd]. unfold omap, obind. cbn [fst snd].
  rewrite (nodes_good good l G). split; [reflexivity | apply all_same_written, F].
Qed.
Lemma back_plain {A S} (read : list (node A) -> outcome (bool * S)) write l : comes_back read write l ->
  exists w, and_write write (read (nodes l)) = Ok (true, w) /\ Forall2 child_written w l.
Proof. intros (s & R & F). exists (write s). rewrite R. split; [reflexivity | apply all_same_written, F]. Qed.

(** Content models inside others. *)
Lemma into_many {A} c c' (l : list (str * A)) : (forall x : list (str * A), conforms c x -> conforms c' x) -> conforms (ContentModels.Many c) l -> conforms (ContentModels.Many c') l.
Proof.
  intros S H. remember (ContentModels.Many c) as m eqn:E. revert E. induction H; intros E; try discriminate E; [constructor | ].
  injection E as ->. constructor; [apply S; assumption | auto].
Qed.
Lemma into_one_of {A} ns ns' (l : list (str * A)) : incl ns ns' -> conforms (one_of ns) l -> conforms (one_of ns') l.
Proof.
  intros I H. apply inv_one_of in H. destruct H as (n & a & J & ->). unfold one_of. apply conforms_choice with (Element n); [apply in_map, I, J | constructor].
Qed.

Lemma names_in_one_of {A} ns (l : list (str * A)) n : conforms (ContentModels.Many (one_of ns)) l -> ~ In (lit n) (map lit ns) -> ~ has_child n l.
Proof. intros H N [a I]. apply inv_many_one_of in H. rewrite Forall_forall in H. exact (N (H _ I)). Qed.

Theorem notations_kept A (l : list (str * A)) : conforms (Sequence [Optional (Element "footnote"); Optional (Element "level");
     ContentModels.Many (one_of ["tied"; "slur"; "tuplet"; "glissando"; "slide"; "ornaments"; "technical"; "articulations"; "dynamics"; "fermata";
                   "arpeggiate"; "non-arpeggiate"; "accidental-mark"]%string)]) l -> comes_back read_notations write_notations l.
Proof.
  intros H. apply notations_back.
  - apply inv_sequence in H. destruct H as (x & y & -> & X & Y). apply inv_sequence in Y. destruct Y as (d & e & -> & D & Y). apply inv_sequence in Y.
    destruct Y as (f & g & -> & F & Y). unfold notations_content, editorial_content. cbn [app].
    constructor; [exact X | ]. constructor; [exact D | ]. constructor; [ | exact Y].
    revert F. apply into_many. intros z. apply into_one_of. intros m I. unfold notation_names. cbn in I. cbn. tauto.
  - apply inv_sequence in H. destruct H as (x & y & -> & X & Y). apply inv_sequence in Y. destruct Y as (d & e & -> & D & Y). apply inv_sequence in Y.
    destruct Y as (f & g & -> & F & Y). apply inv_nothing in Y. subst g. rewrite app_nil_r. intros [a I]. apply in_app_or in I. destruct I as [I | I].
    + apply inv_optional in X. destruct X as [-> | X]; [contradiction | ]. apply inv_element in X. destruct X as [b ->]. destruct I as [I | I]; [discriminate I | exact I].
    + apply in_app_or in I. destruct I as [I | I].
      * apply inv_optional in D. destruct D as [-> | X']; [contradiction | ]. apply inv_element in X'. destruct X' as [b ->]. destruct I as [I | I]; [discriminate I | exact I].
      * revert I. apply inv_many_one_of in F. rewrite Forall_forall in F. intros I. apply F in I. cbn [fst] in I. vm_compute in I. decompose [or] I; try contradiction; discriminate.
Qed.

Theorem arrow_kept A (good : A -> bool) (l : list (str * A)) : conforms (Sequence [Element "arrow-direction"; Optional (Element "arrow-style")]) l -> all_readable good l ->
  exists w, and_good good (nodes l) (and_write write_arrow (read_arrow (nodes l))) = Ok (true, w) /\ Forall2 child_written w l.
Proof.
  intros H G.
  destruct (arrow_back A l) as (s & R & E).
  - unfold arrow_content. econstructor; [left; reflexivity | exact H].
  - parts; intros [b I]; cbn [app] in I; cbn in I; decompose [or] I; try contradiction; discriminate.
  - exists (write_arrow s). rewrite R. unfold and_write, and_good, omap, obind. cbn [fst snd]. rewrite (nodes_good good l G). split; [reflexivity | ].
    rewrite E. parts; cbn [app map arrow_children List.length fst snd repeat].
    + constructor; [ | constructor]. split; [reflexivity | left; reflexivity].
    + constructor; [ | constructor; [ | constructor]]; (split; [reflexivity | right; right]); (split; [cbn [fst In]; tauto | exists 0; reflexivity]).
Qed.

Theorem key_kept A (l : list (str * A)) : conforms (Sequence [Choice [traditional_key_content; Some_of non_traditional_key_content]; ContentModels.Many (Element "key-octave")]) l ->
  comes_back read_key write_key l.
Proof.
  intros H. apply inv_sequence in H. destruct H as (x & y & -> & X & Y). apply inv_choice in X. destruct X as (c & I & X). destruct I as [<- | [<- | []]].
  - apply key_back.
    + unfold key_content. constructor; [ | exact Y]. apply conforms_choice with traditional_key_content; [left; reflexivity | exact X].
    + left. unfold traditional_key_content in X. apply inv_sequence in X. destruct X as (d & e & -> & D & X). apply inv_sequence in X. destruct X as (f & g & -> & F & X).
      apply inv_element in F. destruct F as [a ->]. exists a. apply in_or_app. left. apply in_or_app. right. apply in_or_app. left. left. reflexivity.
  - unfold Some_of in X. apply inv_sequence in X. destruct X as (d & e & -> & D & X). apply inv_sequence in X. destruct X as (f & g & -> & F & X).
    apply inv_nothing in X. subst g. rewrite app_nil_r. apply key_back.
    + unfold key_content. constructor; [ | exact Y]. econstructor; [right; left; reflexivity | ]. constructor; assumption.
    + right. unfold non_traditional_key_content in D. apply inv_sequence in D. destruct D as (h & i & -> & D & _). apply inv_element in D. destruct D as [a ->]. exists a. left. reflexivity.
Qed.

Theorem lyric_kept A (l : list (str * A)) : conforms (Choice [Sequence [Optional (Element "syllabic"); Element "text"; ContentModels.Many (Sequence [Optional (Element "elision"); Element "text"]);
    Optional (Element "extend"); Optional (Element "end-line"); Optional (Element "end-paragraph")]; Element "extend"; Element "laughing"; Element "humming"]) l ->
  comes_back read_lyric write_lyric l.
Proof.
  intros H. apply inv_choice in H. destruct H as (c & I & C).
  destruct I as [<- | [<- | [<- | [<- | []]]]]; [apply lyric_back; exact C | | | ];
    apply inv_element in C; destruct C as [a ->]; apply lyric_word_back; cbn; tauto.
Qed.

Theorem ornaments_kept A (good : A -> bool) (l : list (str * A)) : conforms (Optional (Sequence [Some_of (one_of ornament_names); ContentModels.Many (Element "accidental-mark")])) l ->
  all_readable good l -> comes_back (read_ornaments good) write_ornaments l.
Proof.
  intros H G. apply inv_optional in H. destruct H as [-> | H]; [exact (ornaments_back A good [] [] (Forall_nil _) G) | ].
  apply inv_sequence in H. destruct H as (x & y & -> & X & Y). apply inv_sequence in Y. destruct Y as (d & e & -> & D & Y). apply inv_nothing in Y. subst e.
  apply inv_many_element in D. destruct D as [marks ->]. rewrite app_nil_r in *.
  assert (M : conforms (ContentModels.Many (one_of ornament_names)) x).
  { apply inv_sequence in X. destruct X as (f & g & -> & F & X). apply inv_sequence in X. destruct X as (h & i & -> & K & X). apply inv_nothing in X. subst i. rewrite app_nil_r.
    constructor; assumption. }
  apply inv_many_one_of in M. exact (ornaments_back A good x marks M G).
Qed.

Theorem sound_kept A (good : A -> bool) (l : list (str * A)) :
  conforms (Choice [Sequence []; Sequence [Optional (Element "midi-device"); Element "midi-instrument"; Optional (Element "play")]]) l ->
  all_readable good l -> comes_back (read_sound good) write_sound l.
Proof.
  intros H G. apply inv_choice in H. destruct H as (c & I & C). destruct I as [<- | [<- | []]].
  - apply inv_nothing in C. subst l. apply sound_back; [ | left; reflexivity | constructor].
    unfold sound_group_content. apply (conforms_sequence _ _ [] []); [constructor | ]. apply (conforms_sequence _ _ [] []); [constructor | ].
    apply (conforms_sequence _ _ [] []); constructor.
  - apply sound_back; [ | right | exact G].
    + apply inv_sequence in C. destruct C as (x & y & -> & X & Y). apply inv_sequence in Y. destruct Y as (d & e & -> & D & Y).
      unfold sound_group_content. constructor; [exact X | ]. constructor; [constructor; exact D | exact Y].
    + apply inv_sequence in C. destruct C as (x & y & -> & X & Y). apply inv_sequence in Y. destruct Y as (d & e & -> & D & Y). apply inv_element in D. destruct D as [a ->].
      exists a. apply in_or_app. right. left. reflexivity.
Qed.

Lemma good_back {A} (good : A -> bool) l w r : all_readable good l -> r = Ok (true, w) -> Forall2 child_written w l ->
  exists w, and_good good (nodes l) r = Ok (true, w) /\ Forall2 child_written w l.
Proof. intros G -> F. exists w. unfold and_good, omap, obind. cbn [fst snd]. rewrite (nodes_good good l G). split; [reflexivity | exact F]. Qed.

Theorem tuplet_kept : brings_back (process_class metronome_tuplet_class) (Sequence [Element "actual-notes"; Element "normal-notes"]).
Proof.
  intros A good l H G. unfold process_class. parts. cbn [app] in *. eapply good_back; [exact G | vm_compute; reflexivity | ].
  constructor; [ | constructor; [ | constructor]]; (split; [reflexivity | left; reflexivity]).
Qed.

Lemma note_written {A} (l : list (str * A)) : Forall2 child_written (map note_read l) l.
Proof.
  induction l as [ | [n a] l IH]; [constructor | ]. constructor; [ | exact IH]. unfold note_read. cbn [fst snd].
  destruct (str_eqb n (lit "chord")) eqn:E.
  - apply str_eqb_true in E. subst n. split; [reflexivity | right; left; split; reflexivity].
  - split; [reflexivity | left; reflexivity].
Qed.

(** All the elements of the table. *)
Definition as_kept (p : string * processor) (k : string * content) : Prop := fst p = fst k /\ brings_back (snd p) (snd k).

Ltac good_one t := split; [reflexivity | intros A good l H G; apply back_good; [exact G | exact (t A l H)]].
Ltac plain_one t := split; [reflexivity | intros A good l H G; apply back_plain; exact (t A good l H G)].

Theorem all_kept timewise : Forall2 as_kept (firstn 35 (processors timewise)) (kept_contents timewise).
Proof.
  unfold processors, kept_contents. cbn [firstn].
  constructor; [good_one articulations_back | ]. constructor; [good_one technical_back | ]. constructor; [good_one notations_kept | ].
  constructor; [split; [reflexivity | intros A good l H G; exact (arrow_kept A good l H G)] | ].
  constructor; [good_one bend_back | ]. constructor; [good_one harmonic_back | ]. constructor; [good_one time_back | ]. constructor; [good_one interchangeable_back | ].
  constructor; [good_one key_kept | ]. constructor; [good_one harmony_back | ]. constructor; [good_one credit_back | ]. constructor; [good_one lyric_kept | ].
  constructor; [plain_one metronome_back | ]. constructor; [plain_one time_modification_back | ]. constructor; [plain_one measure_style_back | ].
  constructor; [plain_one display_back | ]. constructor; [plain_one display_back | ].
  constructor; [destruct timewise; [plain_one music_back | plain_one part_back] | ]. constructor; [destruct timewise; [plain_one timewise_measure_back | plain_one music_back] | ].
  constructor; [plain_one score_partwise_back | ]. constructor; [plain_one score_timewise_back | ]. constructor; [plain_one part_list_back | ].
  constructor; [plain_one direction_back | ]. constructor; [plain_one direction_type_back | ].
  do 4 (constructor; [plain_one name_display_back | ]).
  constructor.
  { split; [reflexivity | ]. intros A good l H G. destruct (note_back A good l H G) as (s & R & W). exists (write_note s). cbn [snd]. rewrite R. split; [reflexivity | ].
    rewrite W. apply note_written. }
  constructor; [plain_one score_part_back | ]. constructor; [plain_one score_instrument_back | ]. constructor; [plain_one encoding_back | ].
  constructor; [plain_one ornaments_kept | ]. constructor; [plain_one sound_kept | ]. constructor; [split; [reflexivity | exact tuplet_kept] | ]. constructor.
Qed.

Lemma lookup_aligned {X Y} (R : string * X -> string * Y -> Prop) (xs : list (string * X)) (ys : list (string * Y)) rest n y :
  (forall p q, R p q -> fst p = fst q) -> Forall2 R xs ys -> NoDup (map fst ys) -> In (n, y) ys -> exists x, lookup n (xs ++ rest) = Some x /\ R (n, x) (n, y).
Proof.
  intros N F. induction F as [ | [m x] [m' y'] xs ys H F IH]; intros D I; [contradiction | ]. cbn [map] in D. inversion D as [ | ? ? D1 D2]; subst.
  pose proof (N _ _ H) as E. cbn [fst] in E. subst m'. cbn [app lookup]. destruct I as [I | I].
  - injection I as -> ->. rewrite String.eqb_refl. exists x. split; [reflexivity | exact H].
  - destruct (String.eqb_spec m n) as [-> | _]; [ | exact (IH D2 I)]. exfalso. apply D1. apply (in_map fst) in I. exact I.
Qed.

Theorem processor_kept timewise n c : In (n, c) (kept_contents timewise) -> exists p, processor_of timewise n = Some p /\ brings_back p c.
Proof.
  intros I.
  assert (D : NoDup (map fst (kept_contents timewise))).
  { assert (E : map fst (kept_contents timewise) = map fst (kept_contents true)) by (destruct timewise; reflexivity). rewrite E.
    assert (N : forall l : list string, (fix nodup l := match l with [] => true | x :: r => negb (existsb (String.eqb x) r) && nodup r end) l = true -> NoDup l).
    { induction l as [ | x r IH]; intros H; [constructor | ]. apply andb_true_iff in H. destruct H as [H1 H2]. constructor; [ | exact (IH H2)].
      intros J. apply negb_true_iff in H1. assert (T : existsb (String.eqb x) r = true) by (apply existsb_exists; exists x; split; [exact J | apply String.eqb_refl]).
      rewrite T in H1. discriminate H1. }
    apply N. vm_compute. reflexivity. }
  destruct (lookup_aligned as_kept (firstn 35 (processors timewise)) (kept_contents timewise) (skipn 35 (processors timewise)) n c) as (p & L & K).
  - intros p q [E _]. exact E.
  - exact (all_kept timewise).
  - exact D.
  - exact I.
  - rewrite firstn_skipn in L. exists p. split; [unfold processor_of; rewrite L; reflexivity | exact (proj2 K)].
Qed.

(** ** What comes back is allowed. *)
Definition included (k : string * content) (s : string * content) : Prop := fst k = fst s /\ forall A (l : list (str * A)), conforms (snd k) l -> conforms (snd s) l.
Ltac as_is := constructor; [split; [reflexivity | intros A l H; exact H] | ].
Ltac part C a Ha := apply inv_sequence in C; let r := fresh "rest" in destruct C as (a & r & -> & Ha & C).
Ltac ended C := apply inv_nothing in C; subst; rewrite ?app_nil_r.
Ltac opened H := cbn [snd] in H |- *; repeat (apply inv_sequence in H as (? & ? & -> & ? & H)); try (apply inv_nothing in H; subst).

Lemma into_choice {A} c cs (l : list (str * A)) : In c cs -> conforms c l -> conforms (Choice cs) l.
Proof. intros I H. exact (conforms_choice c cs l I H). Qed.

Theorem kept_included timewise : Forall2 included (kept_contents timewise) (firstn 35 (schema_contents timewise)).
Proof.
  unfold schema_contents, kept_contents. cbn [firstn]. as_is. as_is.
  constructor.
  { split; [reflexivity | ]. intros A l H. opened H. unfold notations_content, editorial_content. cbn [app]. repeat (constructor; [assumption | ]).
    constructor; [ | constructor]. revert H2. apply into_many. intros z. apply into_one_of. intros m I. unfold notation_names. cbn in I. cbn. tauto. }
  constructor; [split; [reflexivity | intros A l H; apply (into_choice (Sequence [Element "arrow-direction"; Optional (Element "arrow-style")])); [left; reflexivity | exact H]] | ].
  as_is. as_is. as_is.
  constructor.
  { split; [reflexivity | ]. intros A l H. opened H. unfold interchangeable_content. constructor; [assumption | ]. constructor; [ | constructor].
    rewrite <- (app_nil_r x1). unfold Some_of. constructor; [assumption | ]. apply (conforms_sequence _ _ [] []); constructor. }
  constructor.
  { split; [reflexivity | ]. intros A l H. opened H. unfold key_content. constructor; [ | constructor; [assumption | constructor]].
    apply inv_choice in H0. destruct H0 as (c & [<- | [<- | []]] & C).
    - apply (into_choice traditional_key_content); [left; reflexivity | exact C].
    - apply (into_choice (ContentModels.Many non_traditional_key_content)); [right; left; reflexivity | ]. unfold Some_of in C. opened C. rewrite app_nil_r. constructor; assumption. }
  as_is.
  constructor.
  { split; [reflexivity | ]. intros A l H. opened H. unfold credit_content. do 3 (constructor; [assumption | ]). constructor; [ | constructor].
    apply inv_choice in H3. destruct H3 as (c & [<- | [<- | []]] & C).
    - apply (into_choice (Element "credit-image")); [left; reflexivity | exact C].
    - eapply into_choice; [right; left; reflexivity | ]. unfold Some_of in C. opened C. constructor; [assumption | ]. constructor; [ | constructor].
      match goal with M : conforms (ContentModels.Many (Element "credit-words")) _ |- _ => revert M end. apply into_many. intros z Z. apply (conforms_sequence _ _ [] z); [constructor | ]. apply (conforms_sequence _ _ [] z); [constructor | ].
      rewrite <- (app_nil_r z). constructor; [exact Z | constructor]. }
  constructor.
  { split; [reflexivity | ]. intros A l H. cbn [snd] in H |- *. unfold lyric_content, editorial_content. cbn [app].
    assert (E : forall x y z : list (str * A), conforms (Choice [lyric_text_content; Element "extend"; Element "laughing"; Element "humming"]) x ->
      conforms (Optional (Element "end-line")) y -> conforms (Optional (Element "end-paragraph")) z ->
      conforms (Sequence [Choice [lyric_text_content; Element "extend"; Element "laughing"; Element "humming"]; Optional (Element "end-line"); Optional (Element "end-paragraph");
        Optional (Element "footnote"); Optional (Element "level")]) (x ++ y ++ z)).
    { intros x y z X Y Z. constructor; [exact X | ]. constructor; [exact Y | ]. rewrite <- (app_nil_r z). constructor; [exact Z | ].
      apply (conforms_sequence _ _ [] []); [constructor | ]. apply (conforms_sequence _ _ [] []); constructor. }
    apply inv_choice in H. destruct H as (c & I & C). destruct I as [<- | I].
    - part C a Ha. part C b Hb. part C d Hd. part C e He. part C f Hf. part C g Hg. ended C. replace (a ++ b ++ d ++ e ++ f ++ g) with ((a ++ b ++ d ++ e) ++ f ++ g) by (rewrite <- !app_assoc; reflexivity).
      apply E; [ | assumption | assumption].
      eapply into_choice; [left; reflexivity | ]. unfold lyric_text_content. constructor; [assumption | ]. constructor; [assumption | ].
      constructor; [ | rewrite <- (app_nil_r e); constructor; [assumption | constructor]].
      revert Hd. apply into_many. intros z Z. part Z o Ho. part Z t Ht. ended Z. rewrite <- (app_nil_r t). constructor; [ | constructor; [assumption | constructor]].
      apply inv_optional in Ho. destruct Ho as [-> | Ho]; [constructor | ]. apply conforms_with. rewrite <- (app_nil_r o). constructor; [exact Ho | ].
      apply (conforms_sequence _ _ [] []); constructor.
    - rewrite <- (app_nil_r l). apply (E l [] []); [ | constructor | constructor]. apply (into_choice c); [ | exact C]. right. exact I. }
  constructor.
  { split; [reflexivity | ]. intros A l H. cbn [snd] in H |- *. apply inv_choice in H. destruct H as (c & [<- | [<- | []]] & C).
    - eapply into_choice; [left; reflexivity | exact C].
    - eapply into_choice; [right; left; reflexivity | ]. part C a Ha. part C b Hb. apply inv_nothing in C. subst. constructor; [assumption | ]. constructor; [ | constructor].
      apply inv_optional in Hb. destruct Hb as [-> | Hb]; [constructor | ]. apply conforms_with. part Hb d Hd. part Hb e He. apply inv_nothing in Hb. subst. constructor; [assumption | ]. constructor; [ | constructor].
      rewrite <- (app_nil_r e). constructor; [assumption | ]. apply (conforms_sequence _ _ [] []); constructor. }
  do 19 as_is.
  constructor.
  { split; [reflexivity | ]. intros A l H. cbn [snd] in H |- *. apply inv_optional in H. destruct H as [-> | H]; [constructor | ]. unfold Some_of in H. part H a Ha. part H b Hb. ended H. part Ha c Hc. part Ha d Hd. ended Ha. unfold ornaments_content.
    assert (ALL : forall o m : list (str * A), conforms (ContentModels.Many (one_of ornament_names)) o -> conforms (ContentModels.Many (Element "accidental-mark")) m -> o <> [] ->
      conforms (ContentModels.Many (Sequence [one_of ornament_names; ContentModels.Many (Element "accidental-mark")])) (o ++ m)).
    { intros o m O M. apply inv_many in O. destruct O as (zs & -> & F). induction F as [ | z zs Z F IH]; intros N; [contradiction | ]. cbn [List.concat].
      destruct (List.concat zs) as [ | p q] eqn:Q.
      - rewrite app_nil_r. rewrite <- (app_nil_r (z ++ m)). constructor; [ | constructor]. constructor; [exact Z | ]. rewrite <- (app_nil_r m). constructor; [exact M | constructor].
      - rewrite <- app_assoc. constructor; [ | apply IH; discriminate]. rewrite <- (app_nil_r z). constructor; [exact Z | ]. apply (conforms_sequence _ _ [] []); constructor. }
    apply ALL; [constructor; assumption | assumption | ]. apply inv_one_of in Hc. destruct Hc as (n & a & _ & ->). discriminate. }
  constructor.
  { split; [reflexivity | ]. intros A l H. cbn [snd] in H |- *. unfold sound_content. rewrite <- (app_nil_r l). constructor; [ | apply (conforms_sequence _ _ [] []); constructor].
    apply inv_choice in H. destruct H as (c & [<- | [<- | []]] & C).
    - apply inv_nothing in C. subst l. constructor.
    - rewrite <- (app_nil_r l). constructor; [ | constructor]. part C a Ha. part C b Hb. part C d Hd. apply inv_nothing in C. subst. unfold sound_group_content. constructor; [assumption | ]. constructor; [apply conforms_with; assumption | ].
      constructor; [assumption | constructor]. }
  constructor.
  { split; [reflexivity | ]. intros A l H. cbn [snd] in H |- *. part H a Ha. part H b Hb. apply inv_nothing in H. subst. unfold time_modification_content. constructor; [assumption | ]. constructor; [assumption | ].
    apply (conforms_sequence _ _ [] []); constructor. }
  constructor.
Qed.

Theorem content_allowed timewise n c A (l : list (str * A)) : In (n, c) (kept_contents timewise) -> conforms c l -> exists c', In (n, c') (schema_contents timewise) /\ conforms c' l.
Proof.
  intros I C. pose proof (kept_included timewise) as F.
  assert (S : forall c', In (n, c') (firstn 35 (schema_contents timewise)) -> In (n, c') (schema_contents timewise)).
  { intros c' J. rewrite <- (firstn_skipn 35 (schema_contents timewise)). apply in_or_app. left. exact J. }
  revert I S. induction F as [ | [m k] [m' s] ks ss [E H] F IH]; intros I S; [contradiction | ]. cbn [fst snd] in E, H. subst m'. destruct I as [I | I].
  - injection I as -> ->. exists s. split; [apply S; left; reflexivity | exact (H A l C)].
  - apply IH; [exact I | ]. intros c' J. apply S. right. exact J.
Qed.
