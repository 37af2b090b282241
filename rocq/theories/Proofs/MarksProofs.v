(** Proofs about the families of marks. *)
From Coq Require Import List Ascii String Bool ZArith QArith Lia.
From Verif Require Import Model.Base Model.Text Model.LongDouble Model.EnumLookup Model.CoreEnums Model.ApiEnums
  Model.ConverterTables Model.MarkData Spec.MarkGroups Proofs.Tac.
From Verif Require Import Model.Notations Spec.Attachments Proofs.NotationsProofs Proofs.StringsProofs.
Import ListNotations.
Open Scope Z_scope.

Lemma partition m : List.length (filter (fun s => s m) sections) = 1%nat.
Proof. destruct m; reflexivity. Qed.

Lemma predicates_sections m :
  isMarkArticulation m = articulation_section m /\ isMarkDynamic m = dynamics_section m /\
  isMarkOrnament m = (ornament_section m || match m with api_MarkType_unknownOrnament => true | _ => false end) /\
  isMarkTechnical m = technical_section m /\ isMarkFermata m = fermata_section m /\
  isMarkPedal m = pedal_section m /\ isMarkArpeggiate m = arpeggiate_section m /\
  isMarkNonArpeggiate m = match m with api_MarkType_nonArpeggiate => true | _ => false end /\
  isMarkCustom m = match m with api_MarkType_customAccentTenuto => true | _ => false end /\
  isMarkTremolo m = starts_with (lit "tremolo") (api_MarkType_name m).
Proof. destruct m; repeat split. Qed.

Lemma predicates_exclusive m : (List.length (filter (fun f => f m) predicates) <= 1)%nat.
Proof. destruct m; cbv; lia. Qed.

Lemma tremolo_slashes m : (isMarkTremolo m = true -> In (api_MarkType_name m, numTremoloSlashes m) tremolo_names) /\ (isMarkTremolo m = false -> numTremoloSlashes m = -1).
Proof. destruct m; split; vm_compute; intros H; try discriminate H; tauto. Qed.

Lemma custom_names m : getCustomMarkName m = (if isMarkCustom m then custom_accent_tenuto else []) /\ (isMarkCustom m = true -> getMarkTypeFromCustomString (getCustomMarkName m) = m).
Proof. destruct m; split; vm_compute; intros; try discriminate; reflexivity. Qed.
Lemma custom_unknown name : name <> custom_accent_tenuto -> getMarkTypeFromCustomString name = api_MarkType_customErrorUnknown.
Proof. intros N. unfold getMarkTypeFromCustomString. destruct (str_eqb name _) eqn:E; [apply str_eqb_eq in E; contradiction | reflexivity]. Qed.

Lemma same_here s a b : In s sections -> s a = true -> s b = true -> same_section a b.
Proof. intros; exists s; auto. Qed.

Lemma same_refl m : same_section m m.
Proof.
  pose proof (partition m) as P. destruct (filter (fun s => s m) sections) as [ | s l] eqn:E; [discriminate P | ].
  assert (I : In s (filter (fun s => s m) sections)) by (rewrite E; left; reflexivity).
  apply filter_In in I. exists s. tauto.
Qed.

Lemma dynamic_found name t : dynamic_called name = Some t -> dynamics_section t = true.
Proof.
  intros H. apply find_some in H. destruct H as [_ H]. apply andb_prop in H. destruct H as [H _]. apply andb_prop in H. apply H.
Qed.

Lemma dynamics_same a b : dynamics_section a = true -> dynamics_section b = true -> same_section a b.
Proof.
  intros A B. exists (in_section api_MarkType_p api_MarkType_unknownDynamics). split; [do 2 right; left; reflexivity | ].
  split; [destruct a | destruct b]; try reflexivity; first [discriminate A | discriminate B].
Qed.

Lemma kept_same tick m : can_be_written (m_type m) = true ->
  (m_type m = api_MarkType_otherArticulation -> m_name m <> markStringCustomAccentTenuto) ->
  same_section (m_type m) (m_type (kept_mark tick m)).
Proof.
  destruct m as [t name tk pr pos]. cbn [m_type m_name]. intros C N.
  destruct t; try discriminate C; unfold kept_mark; cbn [m_type m_name m_position];
    lazymatch goal with |- context[written_as ?x] => let f := eval vm_compute in (written_as x) in change (written_as x) with f end;
    cbv beta iota; cbn [m_type]; try apply same_refl.
  - destruct (str_eqb name markStringCustomAccentTenuto) eqn:E; [ | apply same_refl].
    exfalso. apply N; [reflexivity | ]. apply StringsProofs.str_eqb_eq, E.
  - destruct name as [ | c name]; [apply same_refl | ].
    destruct (dynamic_called (c :: name)) as [t | ] eqn:D; cbn [m_type]; [ | apply same_refl].
    apply dynamics_same; [reflexivity | ]. apply (dynamic_found _ _ D).
  - apply (same_here (in_section api_MarkType_trillMark api_MarkType_unknownOrnament)); [do 3 right; left; reflexivity | reflexivity | reflexivity].
  - apply (same_here (in_section api_MarkType_upBow api_MarkType_unknownTechnical)); [do 5 right; left; reflexivity | reflexivity | reflexivity].
Qed.

Lemma kept_single tick m : kept_marks tick [m] = if can_be_written (m_type m) then [kept_mark tick m] else [].
Proof.
  unfold kept_marks. cbn [filter]. unfold of_family. destruct m as [t name tk pr pos]. cbn [m_type].
  destruct t;
    repeat lazymatch goal with |- context[written_as ?x] => let f := eval vm_compute in (written_as x) in change (written_as x) with f end;
    lazymatch goal with |- context[can_be_written ?x] => let f := eval vm_compute in (can_be_written x) in change (can_be_written x) with f end; reflexivity.
Qed.

Definition only (m : MarkData) : NoteAttachmentData := mkAttachments [m] [] [] [] [] [].

Lemma only_ok m : position_ok storable (m_position m) -> attachments_ok storable (only m).
Proof. intros H. repeat split; constructor; auto; constructor. Qed.

Lemma written_family ties sp st tick ctx m : position_ok storable (m_position m) ->
  exists s a, write_notations_set ties sp st (mkAttachments [m] [] [] [] [] []) = Ok s /\ parseNotations tick ctx s = Ok a /\
    (can_be_written (m_type m) = false -> marks a = []) /\
    (can_be_written (m_type m) = true -> exists m', marks a = [m'] /\ m_tick m' = tick /\
       ((m_type m = api_MarkType_otherArticulation -> m_name m <> markStringCustomAccentTenuto) -> same_section (m_type m) (m_type m'))).
Proof.
  intros H. destruct (attachments_back tick ctx ties sp st (only m) (only_ok m H)) as (s & S1 & S2).
  exists s. eexists. split; [exact S1 | ]. split; [exact S2 | ].
  cbn [with_ties marks kept_attachments only]. rewrite kept_single.
  destruct (can_be_written (m_type m)) eqn:C; split; intros C'; try discriminate C'; [ | reflexivity].
  eexists. split; [reflexivity | ]. split; [ | apply kept_same, C].
  destruct m as [t name tk pr pos]. cbn [m_type] in *. clear - C.
  unfold kept_mark. cbn [m_type m_name m_position].
  destruct t; try discriminate C;
    lazymatch goal with |- context[written_as ?x] => let f := eval vm_compute in (written_as x) in change (written_as x) with f end;
    cbv beta iota; cbn [m_tick]; try reflexivity.
  destruct name as [ | c name]; [reflexivity | ]. destruct (dynamic_called (c :: name)); reflexivity.
Qed.

(** ** Fermatas *)

Lemma fermata_kept tick m : is_fermata m = true -> kept_mark tick m = mkMark (m_type m) (fermata_shape (m_type m)) tick 0 noPosition.
Proof. destruct m as [t name tk pr pos]. unfold is_fermata, kept_mark. cbn [m_type]. destruct t; intros H; try discriminate H; reflexivity. Qed.

Lemma fermata_type tick m : is_fermata (kept_mark tick m) = is_fermata m.
Proof.
  destruct m as [t name tk pr pos]. unfold is_fermata, kept_mark. cbn [m_type m_name m_position].
  destruct t;
    lazymatch goal with |- context[written_as ?x] => let f := eval vm_compute in (written_as x) in change (written_as x) with f end;
    cbv beta iota; cbn [m_type]; try reflexivity.
  - destruct (str_eqb name markStringCustomAccentTenuto); reflexivity.
  - destruct name as [ | c name]; [reflexivity | ]. destruct (dynamic_called (c :: name)) as [t | ] eqn:D; [ | reflexivity].
    apply dynamic_found in D. cbn [m_type]. destruct t; try reflexivity; discriminate D.
Qed.

Lemma filter_map {A B} (f : A -> B) (p : B -> bool) (q : A -> bool) l : (forall x, p (f x) = q x) -> filter p (map f l) = map f (filter q l).
Proof. intros H. induction l as [ | x l IH]; [reflexivity | ]. cbn [map filter]. rewrite H, IH. destruct (q x); reflexivity. Qed.

Lemma filter_filter {A} (p q : A -> bool) l : filter p (filter q l) = filter (fun x => p x && q x) l.
Proof.
  induction l as [ | x l IH]; [reflexivity | ]. cbn [filter]. destruct (q x); cbn [filter]; rewrite IH; destruct (p x); reflexivity.
Qed.

Lemma filter_none {A} (p : A -> bool) l : (forall x, p x = false) -> filter p l = [].
Proof. intros H. induction l as [ | x l IH]; [reflexivity | ]. cbn [filter]. rewrite H. exact IH. Qed.

Lemma fermata_marks tick l : filter is_fermata (kept_marks tick l) = map (kept_mark tick) (filter is_fermata l).
Proof.
  unfold kept_marks. rewrite (filter_map _ _ _ _ (fermata_type tick)), !filter_app, !filter_filter.
  rewrite (filter_none _ l (fun m => ltac:(unfold is_fermata, of_family; destruct (m_type m); reflexivity) :
     is_fermata m && of_family (fun f => match f with Articulation => true | _ => false end) m = false)).
  rewrite (filter_none _ l (fun m => ltac:(unfold is_fermata, of_family; destruct (m_type m); reflexivity) :
     is_fermata m && of_family (fun f => match f with Ornament => true | _ => false end) m = false)).
  rewrite (filter_none _ l (fun m => ltac:(unfold is_fermata, of_family; destruct (m_type m); reflexivity) :
     is_fermata m && of_family (fun f => match f with Technical => true | _ => false end) m = false)).
  rewrite !app_nil_r. f_equal. apply filter_ext. intros m. unfold is_fermata, of_family. destruct (m_type m); reflexivity.
Qed.

Lemma fermatas_back ties sp st tick ctx a : attachments_ok storable a ->
  exists s b, write_notations_set ties sp st a = Ok s /\ parseNotations tick ctx s = Ok b /\
    filter is_fermata (marks b) =
    map (fun m => mkMark (m_type m) (fermata_shape (m_type m)) tick 0 noPosition) (filter is_fermata (marks a)).
Proof.
  intros H. destruct (attachments_back tick ctx ties sp st a H) as (s & S1 & S2).
  exists s. eexists. split; [exact S1 | ]. split; [exact S2 | ]. cbn [with_ties marks kept_attachments]. rewrite fermata_marks.
  apply map_ext_in. intros m I. apply filter_In in I. apply fermata_kept, I.
Qed.
