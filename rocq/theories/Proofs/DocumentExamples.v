(** Documents that are allowed, and one that is not written again as it was. *)
From Coq Require Import List String Ascii ZArith QArith Bool Permutation Lia.
From Verif Require Import Model.Base Model.Text Model.ElementReading Model.ElementGroups Model.Attributes Model.Documents
  Spec.XmlText Spec.DecimalText Spec.SchemaElementTexts Spec.ChildOrder Spec.SchemaAttributes Spec.ContentModels Spec.MoreContents Spec.ScoreContents Spec.NoteContents Spec.AllowedDocuments
  Proofs.ElementTextExamples Proofs.ElementTextBack.
Import ListNotations.
Local Open Scope nat_scope.
Local Open Scope list_scope.
Local Open Scope string_scope.

Ltac find_children :=
  lazymatch goal with
  | |- ContentModels.conforms (Element _) _ => apply conforms_element
  | |- ContentModels.conforms (Sequence []) [] => apply conforms_nothing
  | |- ContentModels.conforms (Sequence (_ :: _)) ?z => split_children @conforms_sequence (@nil (str * xml)) z
  | |- ContentModels.conforms (Choice ?l) _ => choose_children l
  | |- ContentModels.conforms (Optional _) _ => first [apply conforms_without | apply conforms_with; solve [find_children]]
  | |- ContentModels.conforms (ContentModels.Many _) [] => apply conforms_none
  | |- ContentModels.conforms (ContentModels.Many _) (?a :: ?z) => split_children @conforms_more [a] z
  end
with split_children rule x z :=
  first [solve [lazymatch goal with |- ContentModels.conforms ?c _ => change (ContentModels.conforms c (app x z)) end; apply rule; find_children]
        | lazymatch z with ?a :: ?z' => let x' := eval cbn [app] in (app x [a]) in split_children rule x' z' end]
with choose_children l :=
  lazymatch l with ?c :: ?t => first [solve [apply (conforms_choice c); [repeat (first [left; reflexivity | right]) | find_children]] | choose_children t] end.

Lemma no_attributes kept n : ~ In n unreadable -> forallb (fun a => negb (sa_required a)) (schema_of n) = true -> attributes_allowed as_it_stands kept n [].
Proof.
  intros U R. split; [ | intros _; split; [exact U | intros m v []]]. split; [constructor | ]. split; [intros m v [] | ].
  intros a I T. rewrite forallb_forall in R. specialize (R a I). rewrite T in R. discriminate R.
Qed.
Lemma one_attribute kept n m v : existsb (fun a => String.eqb (sa_name a) m) (schema_of n) = true ->
  forallb (fun a => negb (sa_required a) || String.eqb (sa_name a) m) (schema_of n) = true ->
  (kept = true -> ~ In n unreadable /\ lost n m = false /\ doubled n m = false /\ plain (lit v)) -> attributes_allowed as_it_stands kept n [(m, v)].
Proof.
  intros E R K. split.
  - split; [constructor; [intros [] | constructor] | ]. split.
    + intros m' v' [I | []]. injection I as <- <-. apply existsb_exists in E. destruct E as (a & I & E). exists a. split; [exact I | ]. split; [apply String.eqb_eq, E | reflexivity].
    + intros a I T. rewrite forallb_forall in R. specialize (R a I). rewrite T in R. cbn [negb orb] in R. apply String.eqb_eq in R. left. symmetry. exact R.
  - intros KT. destruct (K KT) as (U & L & D & P). split; [exact U | ]. intros m' v' [I | []]. injection I as <- <-. auto.
Qed.

Ltac not_listed := vm_compute; let I := fresh in intros I; decompose [or] I; try contradiction; discriminate.
Ltac simple_plain := split; [not_listed | split; [not_listed | split; not_listed]].
Ltac attributes := first
  [ apply no_attributes; [not_listed | vm_compute; reflexivity]
  | apply one_attribute; [vm_compute; reflexivity | vm_compute; reflexivity |
      intros _; split; [not_listed | split; [vm_compute; reflexivity | split; [vm_compute; reflexivity | simple_plain]]]] ].
Ltac listed := repeat (first [left; reflexivity | right]).
Ltac contents_of_it :=
  cbv [map xml_name with_children a_text music_content music_names part_content score_content score_header_content part_list_content score_part_content midi_content direction_content direction_type_content
       single_direction_types multiple_direction_types display_content note_content note_choice_content full_note_content two_ties note_members member_content technical_content technical_names
       articulations_content articulation_names editorial_content one_of Some_of fst snd app]; find_children.
Ltac content := eapply allowed_content; [attributes | cbn [kept_contents schema_contents]; listed | contents_of_it | ].
Ltac choice_text := eapply allowed_text; [attributes | listed | vm_compute; tauto | intros _; split; [intros E; discriminate E | split; [intros E; discriminate E | exact I]]].

Lemma octave_two timewise kept : allowed as_it_stands kept timewise (a_text "octave" "2").
Proof.
  eapply allowed_text; [attributes | listed | eexists; split; [exact (canonical_text _ _ two_text) | split; cbn; lia] | ].
  intros _. split; [intros E; discriminate E | split; [intros E; discriminate E | ]]. exists 2%Z. split; [exact (canonical_text _ _ two_text) | vm_compute; split; discriminate].
Qed.
Lemma duration_40 timewise kept : allowed as_it_stands kept timewise (a_text "duration" " +040.50").
Proof.
  eapply allowed_text; [attributes | listed | eexists; split; [exact tenths_text | split; [reflexivity | exact I]] | ].
  intros _. split; [intros E; discriminate E | split; [intros E; discriminate E | ]]. exists 40500000%Z. split; [exact tenths_text | vm_compute; discriminate].
Qed.

Lemma music_allowed : Forall (allowed as_it_stands true false) some_music.
Proof.
  unfold some_music. repeat (constructor; [ | ]); [ | | | constructor].
  - content. constructor; [ | constructor]. content. constructor; [ | constructor].
    apply allowed_dynamics; [attributes | | reflexivity]. constructor; [ | constructor]. split; [reflexivity | split; [reflexivity | left; split; [listed | reflexivity]]].
  - content. constructor; [ | constructor; [apply duration_40 | constructor; [ | constructor; [ | constructor]]]].
    + eapply allowed_sequence; [attributes | intros E; discriminate E | listed | | | | ].
      * cbn [map xml_name with_children a_text]. apply (in_order_next _ _ 1); [cbn; lia | ]. apply (in_order_next _ _ 0); [cbn; lia | ]. apply (in_order_next _ _ 1); [cbn; lia | ]. constructor.
      * intros r c R. vm_compute in R. decompose [or] R; try contradiction; try discriminate. injection H as <-. cbn. tauto.
      * intros c d R. vm_compute in R. decompose [or] R; try contradiction; discriminate.
      * constructor; [choice_text | constructor; [apply octave_two | constructor]].
    + choice_text.
    + content. constructor; [ | constructor; [ | constructor]].
      * content. constructor; [ | constructor]. content. constructor; [choice_text | constructor; [choice_text | constructor]].
      * content. constructor; [ | constructor]. apply allowed_empty; [attributes | listed].
  - content. constructor; [ | constructor; [ | constructor; [apply duration_40 | constructor]]].
    + apply allowed_empty; [attributes | listed].
    + content. constructor.
Qed.

Lemma document_with kept music : Forall (allowed as_it_stands kept false) music ->
  ContentModels.conforms music_content (map (fun t => (lit (xml_name t), t)) music) -> allowed_document as_it_stands kept (a_document "Flute & Oboe" music).
Proof.
  intros F C. left. split; [reflexivity | ]. unfold a_document, with_children.
  assert (K : forall n c, In (n, c) (kept_contents false) -> In (n, c) (schema_contents false) -> In (n, c) ((if kept then kept_contents else schema_contents) false)) by (intros; destruct kept; assumption).
  eapply allowed_content; [attributes | apply K; cbn [kept_contents schema_contents]; listed | contents_of_it | ]. constructor; [ | constructor; [ | constructor]].
  - eapply allowed_content; [attributes | apply K; cbn [kept_contents schema_contents]; listed | contents_of_it | ]. constructor; [ | constructor].
    eapply allowed_content; [attributes | apply K; cbn [kept_contents schema_contents]; listed | contents_of_it | ]. constructor; [ | constructor].
    eapply allowed_text; [attributes | listed | exact I | intros _; split; [intros E; discriminate E | split; [intros E; discriminate E | exact I]]].
  - eapply allowed_content; [attributes | apply K; cbn [kept_contents schema_contents]; listed | contents_of_it | ]. constructor; [ | constructor].
    eapply allowed_content; [attributes | apply K; cbn [kept_contents schema_contents]; listed | exact C | exact F].
Qed.

Lemma document_met : allowed_document as_it_stands true (a_document "Flute & Oboe" some_music).
Proof. apply document_with; [exact music_allowed | unfold some_music; contents_of_it]. Qed.
Lemma document_met_again initial : reread_document as_it_stands initial (a_document "Flute & Oboe" some_music) = Some (true, a_document "Flute &amp; Oboe" some_music_written).
Proof. vm_compute. reflexivity. Qed.

Lemma document_refuted : ~ (forall takes initial t, allowed_document takes false t -> exists t', reread_document takes initial t = Some (true, t') /\ document_written t' t).
Proof.
  intros H. destruct (H as_it_stands (fun _ => "") (a_document "Flute & Oboe" a_link)) as (t' & R & _); [ | vm_compute in R; discriminate R].
  apply document_with; [ | unfold a_link; contents_of_it]. unfold a_link. constructor; [ | constructor].
  apply allowed_empty; [ | listed]. apply one_attribute; [vm_compute; reflexivity | vm_compute; reflexivity | intros E; discriminate E].
Qed.
