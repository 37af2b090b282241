(** Time modifications, measure styles, percussion, play, rests and dynamics, read and written
    again; reading a metronome ends. *)
From Coq Require Import List String Ascii Bool PeanoNat Lia.
From Verif Require Import Model.Base Model.Text Model.ElementReading Model.EnumLookup Model.CoreEnums Model.CustomEnums Model.ElementGroups Model.ElementChoices Spec.ContentModels Spec.MoreContents
  Proofs.EnumProofs Proofs.GroupLoops Proofs.ChildrenProofs Proofs.GroupRuns Proofs.CreditHarmony Proofs.GroupEnds Proofs.ChoiceProofs.
Import ListNotations.
Local Open Scope list_scope.

(** ** time-modification *)
Definition time_modification_step {A} (good : A -> bool) (p : str * A) (s : bool * time_modification A) : bool * time_modification A :=
  let '(ok, t) := s in let a := snd p in
  if str_eqb (fst p) (lit "actual-notes") then (ok && good a, mkTimeModification (give true (Own a) (tmo_actual t)) (tmo_normal t) (tmo_hasType t) (tmo_type t) (tmo_dots t))
  else if str_eqb (fst p) (lit "normal-notes") then (ok && good a, mkTimeModification (tmo_actual t) (give true (Own a) (tmo_normal t)) (tmo_hasType t) (tmo_type t) (tmo_dots t))
  else if str_eqb (fst p) (lit "normal-type") then (good a, mkTimeModification (tmo_actual t) (tmo_normal t) true (give true (Own a) (tmo_type t)) (tmo_dots t))
  else if str_eqb (fst p) (lit "normal-dot") then (ok && good a, mkTimeModification (tmo_actual t) (tmo_normal t) true (tmo_type t) (tmo_dots t ++ [a]))
  else (ok, t).

Lemma time_modification_fold {A} (good : A -> bool) (l : list (str * A)) :
  read_time_modification good (nodes l) = Ok (fold_left (fun s p => time_modification_step good p s) l (true, mkTimeModification new_child new_child false new_child [])).
Proof.
  unfold read_time_modification. apply loop_still. intros b p r [ok t]. unfold time_modification_turn. rewrite name_here. cbn [obind]. rewrite contents_here. cbn [obind]. reflexivity.
Qed.

Lemma dots_fold {A} (good : A -> bool) ds : forall ok a n h t l, h = true ->
  fold_left (fun s p => time_modification_step good p s) (all_named "normal-dot" ds) (ok, mkTimeModification a n h t l)
  = (ok && forallb good ds, mkTimeModification a n h t (l ++ ds)).
Proof.
  induction ds as [ | d ds IH]; intros ok a n h t l H; [cbn [all_named map fold_left forallb]; rewrite andb_true_r, app_nil_r; reflexivity | ].
  change (all_named "normal-dot" (d :: ds)) with ((lit "normal-dot", d) :: all_named "normal-dot" ds). cbn [fold_left]. unfold time_modification_step at 2. cbn [fst snd]. lits. cbn [tmo_actual tmo_normal tmo_hasType tmo_type tmo_dots].
  rewrite IH by reflexivity. subst h. rewrite <- app_assoc, <- andb_assoc. reflexivity.
Qed.

Lemma time_modification_read {A} (good : A -> bool) a n (x : option (A * list A)) :
  read_time_modification good (nodes ([(lit "actual-notes", a); (lit "normal-notes", n)] ++ match x with None => [] | Some (t, ds) => (lit "normal-type", t) :: all_named "normal-dot" ds end)) =
  Ok (match x with None => good a && good n | Some (t, ds) => good t && forallb good ds end,
      mkTimeModification (give true (Own a) new_child) (give true (Own n) new_child) (match x with None => false | Some _ => true end)
        (match x with None => new_child | Some (t, _) => give true (Own t) new_child end) (match x with None => [] | Some (_, ds) => ds end)).
Proof.
  rewrite time_modification_fold. destruct x as [[t ds] | ]; [ | reflexivity].
  cbn [app fold_left]. unfold time_modification_step at 2 3 4. cbn [fst snd]. lits. cbn [tmo_actual tmo_normal tmo_hasType tmo_type tmo_dots]. rewrite dots_fold by reflexivity. reflexivity.
Qed.

Lemma inv_time_modification {A} (l : list (str * A)) : conforms time_modification_content l ->
  exists a n x, l = [(lit "actual-notes", a); (lit "normal-notes", n)] ++ match x with None => [] | Some (t, ds) => (lit "normal-type", t) :: all_named "normal-dot" ds end.
Proof.
  intros H. apply inv_sequence in H. destruct H as (x & y & -> & X & Y). apply inv_element in X. destruct X as [a ->].
  apply inv_sequence in Y. destruct Y as (d & e & -> & D & Y). apply inv_element in D. destruct D as [n ->]. apply inv_sequence in Y. destruct Y as (f & g & -> & F & Y). apply inv_nothing in Y. subst g.
  exists a, n. rewrite app_nil_r. apply inv_optional in F. destruct F as [-> | F]; [exists None; reflexivity | ].
  apply inv_sequence in F. destruct F as (u & v & -> & U & V). apply inv_element in U. destruct U as [t ->]. apply inv_sequence in V. destruct V as (w & z & -> & W & V). apply inv_nothing in V. subst z.
  apply inv_many_element in W. destruct W as [ds ->]. exists (Some (t, ds)). rewrite app_nil_r. reflexivity.
Qed.

Theorem time_modification_back A (good : A -> bool) (l : list (str * A)) : conforms time_modification_content l -> all_readable good l ->
  comes_back (read_time_modification good) write_time_modification l.
Proof.
  intros H G. apply inv_time_modification in H. destruct H as (a & n & x & ->). cbn [app] in G. apply all_cons in G. destruct G as [G1 G]. apply all_cons in G. destruct G as [G2 G]. cbn [snd] in *.
  eexists. split; [rewrite (time_modification_read good a n x) | ].
  - assert (K : match x with None => good a && good n | Some (t, ds) => good t && forallb good ds end = true).
    { destruct x as [[t ds] | ]; [ | rewrite G1, G2; reflexivity]. apply all_cons in G. destruct G as [G3 G]. apply all_named_good in G. cbn [snd] in G3. rewrite G3, G. reflexivity. }
    rewrite K. reflexivity.
  - unfold write_time_modification. cbn [tmo_actual tmo_normal tmo_hasType tmo_type tmo_dots give new_child ch_has orb always app].
    constructor; [same | ]. constructor; [same | ]. destruct x as [[t ds] | ]; [ | constructor]. constructor; [same | apply same_named].
Qed.

Theorem time_modification_bad_refuted : ~ (forall good (l : list (str * nat)), conforms time_modification_content l -> one_unreadable good l -> refused (read_time_modification good) l).
Proof.
  intros H. destruct (H (fun n => negb (n =? 3)) triplet) as [s E].
  - unfold triplet. apply (conforms_sequence _ _ [_]); [constructor | ]. apply (conforms_sequence _ _ [_]); [constructor | ]. apply (conforms_sequence _ _ [_; _; _] []); [ | constructor].
    apply conforms_with. apply (conforms_sequence _ _ [_]); [constructor | ]. apply (conforms_sequence _ _ [_; _] []); [ | constructor].
    apply (conforms_more _ [_] [_]); [constructor | ]. apply (conforms_more _ [_] []); constructor.
  - left. reflexivity.
  - vm_compute in E. discriminate E.
Qed.

Theorem time_modification_bad A (good : A -> bool) (l : list (str * A)) : conforms time_modification_content l ->
  (refused (read_time_modification good) l <->
   Exists (fun p => good (snd p) = false /\ (has_child "normal-type" l -> fst p <> lit "actual-notes" /\ fst p <> lit "normal-notes")) l).
Proof.
  intros H. apply inv_time_modification in H. destruct H as (a & n & x & ->).
  assert (R : forall b, (exists s, read_time_modification good (nodes ([(lit "actual-notes", a); (lit "normal-notes", n)] ++ match x with None => [] | Some (t, ds) => (lit "normal-type", t) :: all_named "normal-dot" ds end)) = Ok (b, s))
    <-> match x with None => good a && good n | Some (t, ds) => good t && forallb good ds end = b).
  { intros b. rewrite time_modification_read. split; [intros [s E]; injection E as E _; exact E | intros E; rewrite E; eauto]. }
  unfold refused. rewrite R. clear R. destruct x as [[t ds] | ]; cbn [app].
  - split.
    + intros E. right. right. destruct (good t) eqn:T; [right | left]; [ | split; [exact T | intros _; split; intros X; discriminate X]].
      cbn [andb] in E. induction ds as [ | d ds IH]; [discriminate E | ]. cbn [forallb] in E. cbn [all_named map]. destruct (good d) eqn:D; [right | left].
      * specialize (IH E). unfold all_named in IH. eapply Exists_impl; [ | exact IH]. intros p [P Q]. split; [exact P | ]. intros _. apply Q. exists t. right. right. left. reflexivity.
      * split; [exact D | intros _; split; intros X; discriminate X].
    + intros E. assert (N : has_child "normal-type" ((lit "actual-notes", a) :: (lit "normal-notes", n) :: (lit "normal-type", t) :: all_named "normal-dot" ds)) by (exists t; right; right; left; reflexivity).
      revert N E. generalize (has_child "normal-type" ((lit "actual-notes", a) :: (lit "normal-notes", n) :: (lit "normal-type", t) :: all_named "normal-dot" ds)). intros P N E.
      rewrite !Exists_cons in E. cbn [fst snd] in E. destruct E as [[_ E] | [[_ E] | [[E _] | E]]]; [destruct (E N) as [X _]; destruct X; reflexivity | destruct (E N) as [_ X]; destruct X; reflexivity | rewrite E; reflexivity | ].
      apply andb_false_intro2. clear - E. induction ds as [ | d ds IH]; [inversion E | ]. cbn [all_named map] in E. apply Exists_cons in E. cbn [forallb]. destruct E as [[E _] | E]; [cbn [snd] in E; rewrite E; reflexivity | ].
      rewrite (IH E). apply andb_false_r.
  - split.
    + assert (N : ~ has_child "normal-type" [(lit "actual-notes", a); (lit "normal-notes", n)]) by (intros [y [Y | [Y | []]]]; discriminate Y).
      intros E. apply andb_false_iff in E. destruct E as [E | E]; [left | right; left]; split; [exact E | intros X; destruct (N X) | exact E | intros X; destruct (N X)].
    + intros E. rewrite !Exists_cons in E. destruct E as [[E _] | [[E _] | E]]; [cbn [snd] in E; rewrite E; reflexivity | cbn [snd] in E; rewrite E; apply andb_false_r | inversion E].
Qed.

Theorem time_modification_required_refuted : ~ (forall good (l : list (str * nat)) s, read_time_modification good (nodes l) = Ok (true, s) -> has_child "actual-notes" l /\ has_child "normal-notes" l).
Proof. intros H. destruct (H (fun _ => true) [] _ eq_refl) as [[a []] _]. Qed.

Theorem time_modification_ends A (good : A -> bool) : always_ends (read_time_modification good).
Proof. intros l. rewrite time_modification_fold. destruct (fold_left _ l _). eauto. Qed.

(** ** measure-style *)
Theorem measure_style_back A (good : A -> bool) (l : list (str * A)) : conforms measure_style_content l -> all_readable good l -> comes_back (read_measure_style good) write_measure_style l.
Proof.
  intros H G. apply inv_one_of in H. destruct H as (n & a & I & ->). apply all_cons in G. destruct G as [G _]. cbn [snd] in G.
  cbn [In] in I. intuition subst; eexists; (split; [cbn; rewrite G; reflexivity | constructor; [same | constructor]]).
Qed.

Definition measure_style_step {A} (good : A -> bool) (p : str * A) (s : bool * measure_style A) : bool * measure_style A :=
  let '(ok, t) := s in
  match choose measure_style_choices (fst p) with
  | Some w => (ok && good (snd p), mkMeasureStyle w (fun x => if String.eqb x w then ms_members t x ++ [Own (snd p)] else ms_members t x))
  | None => (false, t)
  end.
Lemma measure_style_fold {A} (good : A -> bool) (l : list (str * A)) :
  read_measure_style good (nodes l) = Ok (fold_left (fun s p => measure_style_step good p s) l (true, mkMeasureStyle "multiple-rest"%string (fun _ => []))).
Proof.
  unfold read_measure_style. apply loop_still. intros b p r [ok t]. rewrite name_here. cbn [obind]. rewrite contents_here. cbn [obind]. reflexivity.
Qed.
Lemma measure_style_false {A} (good : A -> bool) l t : exists t', fold_left (fun s p => measure_style_step good p s) l (false, t) = (false, t').
Proof.
  revert t. induction l as [ | p l IH]; intros t; [exists t; reflexivity | ]. cbn [fold_left]. unfold measure_style_step at 2. destruct (choose _ _); cbn [andb]; apply IH.
Qed.
Theorem measure_style_refused A (good : A -> bool) (l : list (str * A)) :
  Exists (fun p => good (snd p) = false \/ ~ In (fst p) (map lit ["multiple-rest"; "measure-repeat"; "beat-repeat"; "slash"]%string)) l -> refused (read_measure_style good) l.
Proof.
  intros H. unfold refused. rewrite measure_style_fold. generalize (mkMeasureStyle "multiple-rest"%string (fun _ : string => @nil (given A))). generalize true. induction H as [p l B | p l H IH]; intros ok t.
  - cbn [fold_left]. unfold measure_style_step at 2. destruct (choose measure_style_choices (fst p)) as [w | ] eqn:C.
    + destruct B as [B | B].
      * rewrite B, andb_false_r. match goal with |- context [(false, ?u)] => destruct (measure_style_false good l u) as [t' ->] end. eauto.
      * destruct B. apply choose_some in C; [ | reflexivity]. destruct C as [-> C]. cbn [measure_style_choices map snd] in C. apply in_map. exact C.
    + destruct (measure_style_false good l t) as [t' ->]. eauto.
  - cbn [fold_left]. destruct (measure_style_step good p (ok, t)) as [ok' t']. apply IH.
Qed.
Theorem measure_style_ends A (good : A -> bool) : always_ends (read_measure_style good).
Proof. intros l. rewrite measure_style_fold. destruct (fold_left _ l _). eauto. Qed.

(** ** percussion and play *)
Theorem percussion_refused A (l : list (str * A)) : refused read_percussion l.
Proof. eexists. reflexivity. Qed.
Theorem play_refused A (l : list (str * A)) : refused read_play l.
Proof. eexists. reflexivity. Qed.

Theorem percussion_left A (l : list (str * A)) : read_percussion (nodes l) = Ok (false, [(lit "glass", [])]).
Proof. reflexivity. Qed.
Theorem play_left A (l : list (str * A)) : read_play (nodes l) = Ok (false, [(lit "ipa", [])]).
Proof. reflexivity. Qed.
Theorem metronome_unknown A (good : A -> bool) (l : list (str * A)) : Forall (fun p => ~ In (fst p) (map lit ["beat-unit"; "beat-unit-dot"; "metronome-note"]%string)) l ->
  exists s, read_metronome good (nodes l) = Ok (true, s) /\ write_metronome s = [(lit "beat-unit", []); (lit "per-minute", [])].
Proof.
  intros F. exists new_metronome. split; [ | reflexivity]. unfold read_metronome. apply each_ok. generalize (@nil (node A)).
  induction F as [ | p l N F IH]; intros b; [constructor | ]. eapply Loop_next; [ | constructor | apply IH].
  assert (D : forall n, In n ["beat-unit"; "beat-unit-dot"; "metronome-note"]%string -> str_eqb (fst p) (lit n) = false).
  { intros n I. destruct (str_eqb (fst p) (lit n)) eqn:E; [ | reflexivity]. apply str_eqb_true in E. exfalso. apply N. rewrite E. apply in_map. exact I. }
  unfold metronome_turn. rewrite name_here. cbn [obind]. unfold is_beat_unit. rewrite !D by (cbn; tauto). reflexivity.
Qed.

(** ** rest and unpitched *)
Lemma inv_display {A} (l : list (str * A)) : conforms display_content l -> l = [] \/ exists s o, l = [(lit "display-step", s); (lit "display-octave", o)].
Proof.
  intros H. apply inv_sequence in H. destruct H as (x & y & -> & X & Y). apply inv_nothing in Y. subst y. rewrite app_nil_r. apply inv_optional in X. destruct X as [-> | X]; [left; reflexivity | right].
  parts. cbn [app]. eauto.
Qed.
Theorem display_back A (good : A -> bool) (l : list (str * A)) : conforms display_content l -> all_readable good l -> comes_back (read_display good) write_display l.
Proof.
  intros H G. apply inv_display in H. destruct H as [-> | (s & o & ->)]; [eexists; split; [reflexivity | constructor] | ].
  apply all_cons in G. destruct G as [G1 G]. apply all_cons in G. destruct G as [G2 _]. cbn [snd] in *.
  eexists. split; [unfold read_display; rewrite begin_nodes, at_end_here; walk; rewrite G1, G2; reflexivity | ]. unfold write_display. cbn. constructor; [same | ]. constructor; [same | constructor].
Qed.
Theorem display_bad A (good : A -> bool) (l : list (str * A)) : conforms display_content l -> one_unreadable good l -> refused (read_display good) l.
Proof.
  intros H G. apply inv_display in H. destruct H as [-> | (s & o & ->)]; [inversion G | ].
  eexists. unfold read_display; rewrite begin_nodes, at_end_here; walk. unfold one_unreadable in G. rewrite !Exists_cons in G. cbn [snd] in G. destruct G as [G | [G | G]]; [rewrite G; reflexivity | rewrite G, andb_false_r; reflexivity | inversion G].
Qed.

Lemma take_good_any {A} (good : A -> bool) n b (l : list (str * A)) ok c :
  (exists p r, l = p :: r /\ fst p = lit n /\ take_good good n (here b l) ok c = Ok (true, here (node_of p :: b) r, ok && good (snd p), give true (Own (snd p)) c))
  \/ (not_first n l /\ take_good good n (here b l) ok c = Ok (false, here b l, ok, c)).
Proof.
  destruct l as [ | p l]; [right; split; [exact Logic.I | apply take_good_nil] | ]. rewrite take_good_here. destruct (str_eqb (fst p) (lit n)) eqn:E; [left | right; split; [exact E | reflexivity]].
  apply str_eqb_true in E. eauto 6.
Qed.

Theorem display_ends A (good : A -> bool) : always_ends (read_display good).
Proof.
  intros l. unfold read_display. rewrite begin_nodes. destruct l as [ | p l]; [rewrite at_end_nil; eauto | rewrite at_end_here].
  destruct (take_good_any good "display-step" [] (p :: l) true new_child) as [(p1 & r1 & E1 & _ & ->) | [_ ->]]; cbn [obind].
  - injection E1 as <- <-. match goal with |- context [take_good good "display-octave" (here ?b ?l) ?ok ?c] => destruct (take_good_any good "display-octave" b l ok c) as [(p2 & r2 & -> & _ & ->) | [_ ->]] end; cbn [obind orb back_if];
    rewrite decrement_here; cbn [omap obind]; eauto.
  - destruct (take_good_any good "display-octave" [] (p :: l) true new_child) as [(p2 & r2 & E2 & _ & ->) | [_ ->]]; cbn [obind orb back_if]; [rewrite decrement_here | ]; cbn [omap obind]; eauto.
Qed.

(** ** dynamics *)
Lemma dynamics_parsed t : match tryParse_DynamicsEnum t with
  | Some v => t = DynamicsEnum_toString v /\ In t (map lit (standard_dynamics ++ ["other-dynamics"]%string))
  | None => ~ In t (map lit (standard_dynamics ++ ["other-dynamics"]%string)) end.
Proof.
  assert (N : map fst DynamicsEnum_chain = map lit (standard_dynamics ++ ["other-dynamics"]%string)) by reflexivity. rewrite <- N.
  destruct (tryParse_DynamicsEnum t) as [v | ] eqn:E.
  - apply lookup_text_in in E. split; [ | apply in_map_iff; exists (t, v); auto].
    assert (F : Forall (fun p => fst p = DynamicsEnum_toString (snd p)) DynamicsEnum_chain) by (repeat constructor). rewrite Forall_forall in F. apply (F _ E).
  - unfold tryParse_DynamicsEnum in E. revert E. generalize DynamicsEnum_chain. intros c. induction c as [ | [u v] c IH]; [intros _ [] | ]. cbn [lookup_text map fst In].
    destruct (str_eqb t u) eqn:Q; [intros X; discriminate X | ]. intros X [Y | Y]; [ | exact (IH X Y)]. subst u. rewrite str_eqb_refl in Q. discriminate Q.
Qed.

Lemma dynamics_other t : ~ In t (map lit standard_dynamics) <-> match tryParse_DynamicsEnum t with None => True | Some v => v = DynamicsEnum_otherDynamics end.
Proof.
  pose proof (dynamics_parsed t) as P. destruct (tryParse_DynamicsEnum t) as [v | ] eqn:E.
  - destruct P as [P _]. split.
    + intros N. destruct v; try reflexivity; destruct N; rewrite P; vm_compute; tauto.
    + intros ->. rewrite P. vm_compute. intuition discriminate.
  - split; [trivial | ]. intros _ N. apply P. rewrite map_app, in_app_iff. left. exact N.
Qed.

Lemma dynamics_value t : write_dynamics (set_dynamics new_dynamics t) =
  match tryParse_DynamicsEnum t with
  | Some DynamicsEnum_otherDynamics => (lit "other-dynamics", [])
  | Some _ => (t, [])
  | None => (lit "other-dynamics", t)
  end.
Proof.
  pose proof (dynamics_parsed t) as P. unfold set_dynamics, setValue_text. destruct (tryParse_DynamicsEnum t) as [v | ]; [ | reflexivity].
  destruct P as [P _]. subst t. destruct v; reflexivity.
Qed.

Theorem dynamics_standard n (text : str) rest : In n (map lit standard_dynamics) ->
  exists v, read_dynamics (nodes ((n, text) :: rest)) = Ok (true, v) /\ write_dynamics v = (n, []).
Proof.
  intros I. unfold read_dynamics. rewrite begin_nodes, at_end_here, name_here. cbn [obind fst].
  assert (O : str_eqb n (lit "other-dynamics") = false). { destruct (str_eqb n (lit "other-dynamics")) eqn:E; [ | reflexivity]. apply str_eqb_true in E. subst n. vm_compute in I. intuition discriminate. }
  rewrite O. eexists. split; [reflexivity | ]. rewrite dynamics_value. pose proof (dynamics_other n) as D. destruct (tryParse_DynamicsEnum n) as [v | ]; [ | destruct (proj2 D Logic.I I)].
  destruct v; try reflexivity. destruct (proj2 D eq_refl I).
Qed.

Theorem dynamics_text (text : str) rest : ~ In text (map lit (standard_dynamics ++ ["other-dynamics"]%string)) ->
  exists v, read_dynamics (nodes ((lit "other-dynamics", text) :: rest)) = Ok (true, v) /\ write_dynamics v = (lit "other-dynamics", text).
Proof.
  intros I. unfold read_dynamics. rewrite begin_nodes, at_end_here, name_here. cbn [obind fst]. lits. rewrite contents_here. cbn [obind snd].
  eexists. split; [reflexivity | ]. rewrite dynamics_value. pose proof (dynamics_parsed text) as D. destruct (tryParse_DynamicsEnum text) as [v | ]; [destruct (I (proj2 D)) | reflexivity].
Qed.

Theorem dynamics_text_standard (text : str) rest : In text (map lit standard_dynamics) ->
  exists v, read_dynamics (nodes ((lit "other-dynamics", text) :: rest)) = Ok (true, v) /\ write_dynamics v = (text, []).
Proof.
  intros I. unfold read_dynamics. rewrite begin_nodes, at_end_here, name_here. cbn [obind fst]. lits. rewrite contents_here. cbn [obind snd].
  eexists. split; [reflexivity | ]. rewrite dynamics_value. pose proof (dynamics_other text) as D. destruct (tryParse_DynamicsEnum text) as [v | ]; [ | destruct (proj2 D Logic.I I)].
  destruct v; try reflexivity. destruct (proj2 D eq_refl I).
Qed.

Theorem dynamics_unknown n (text : str) rest : ~ In n (map lit (standard_dynamics ++ ["other-dynamics"]%string)) ->
  exists v, read_dynamics (nodes ((n, text) :: rest)) = Ok (true, v) /\ write_dynamics v = (lit "other-dynamics", n).
Proof.
  intros I. unfold read_dynamics. rewrite begin_nodes, at_end_here, name_here. cbn [obind fst].
  assert (O : str_eqb n (lit "other-dynamics") = false). { destruct (str_eqb n (lit "other-dynamics")) eqn:E; [ | reflexivity]. apply str_eqb_true in E. subst n. destruct I. rewrite map_app, in_app_iff. right. left. reflexivity. }
  rewrite O. eexists. split; [reflexivity | ]. rewrite dynamics_value. pose proof (dynamics_parsed n) as D. destruct (tryParse_DynamicsEnum n) as [v | ]; [destruct (I (proj2 D)) | reflexivity].
Qed.

Theorem dynamics_empty_refused : exists v, read_dynamics [] = Ok (false, v) /\ write_dynamics v = (lit "mf", []).
Proof. eexists. split; reflexivity. Qed.

Theorem dynamics_ends : always_ends read_dynamics.
Proof.
  intros l. unfold read_dynamics. rewrite begin_nodes. destruct l as [ | p l]; [rewrite at_end_nil; eauto | ]. rewrite at_end_here, name_here, contents_here. cbn [obind]. destruct (str_eqb _ _); eauto.
Qed.

(** What the schema allows is refused, loses children, or comes back otherwise. *)
Theorem dynamics_refuted : ~ (forall l : list (str * str), conforms dynamics_content l -> exists v, read_dynamics (nodes l) = Ok (true, v) /\ map fst l = [fst (write_dynamics v)]).
Proof. intros H. destruct (H [] (conforms_none _)) as (v & E & _). vm_compute in E. discriminate E. Qed.

(** ** Reading a metronome ends. *)
Lemma take_all_some {A} n k b p (r : list (str * A)) i l : str_eqb (fst p) (lit n) = true -> take_all (S k) n (here b (p :: r)) = Ok (i, l) -> l <> [].
Proof.
  intros N T -> . cbn [take_all] in T. rewrite is_here_here, N in T. cbn [obind] in T. rewrite contents_here in T. cbn [obind] in T. rewrite increment_here in T. cbn [obind] in T.
  destruct (take_all _ _ _) as [[? ?] | | ] in T; discriminate T.
Qed.

Lemma import_unit_any {A} (good : A -> bool) b p (r : list (str * A)) ok g : is_beat_unit (fst p) = true -> exists b' p' r' ok' g',
  import_beat_unit good (here b (p :: r)) ok g = Ok (here b' (p' :: r'), ok', g') /\ List.length r' <= List.length r.
Proof.
  intros U. unfold import_beat_unit. rewrite at_end_here.
  assert (K : forall m b0 (l0 : list (str * A)) ok1 u,
    (m = true -> exists q c, b0 = node_of q :: c) -> (m = false -> exists d l1, l0 = (lit "beat-unit-dot", d) :: l1) -> List.length l0 <= List.length r + (if m then 0 else 1) ->
    exists b' p' r' ok' g', (if at_end (here b0 l0) then omap (fun i => (i, ok1, mkBeatUnit u (bu_dots g))) (back_if m (here b0 l0))
      else obind (take_all (left (here b0 l0)) "beat-unit-dot" (here b0 l0)) (fun q => let '(it2, l) := q in
        omap (fun i => (i, ok1 && forallb good l, mkBeatUnit u (if negb (List.length l =? 0) && (List.length (bu_dots g) =? 1) then l else bu_dots g ++ l)))
        (back_if (m || negb (List.length l =? 0)) it2))) = Ok (here b' (p' :: r'), ok', g') /\ List.length r' <= List.length r).
  { intros m b0 l0 ok1 u M N L. destruct l0 as [ | q l0].
    - destruct m; [ | destruct (N eq_refl) as (? & ? & X); discriminate X]. destruct (M eq_refl) as (q & c & ->). rewrite at_end_nil. cbn [back_if]. rewrite decrement_here. cbn [omap obind].
      do 5 eexists. split; [reflexivity | apply Nat.le_0_l].
    - rewrite at_end_here, left_here. destruct (take_all_any "beat-unit-dot" (q :: l0) b0) as (l1 & l2 & E & T). rewrite T by constructor. cbn [obind]. destruct l1 as [ | a l1].
      + destruct m.
        * destruct (M eq_refl) as (q' & c & ->). cbn [List.length Nat.eqb negb orb back_if all_named map after]. rewrite decrement_here. cbn [omap obind]. do 5 eexists. split; [reflexivity | ].
          cbn [all_named map app] in E. rewrite <- E. lia.
        * destruct (N eq_refl) as (d & l3 & X). injection X as -> ->. exfalso. refine (take_all_some "beat-unit-dot" (List.length l3) b0 (lit "beat-unit-dot", d) l3 _ _ (str_eqb_refl _) (T _ (le_n _)) eq_refl).
      + replace (m || negb (List.length (a :: l1) =? 0)) with true by (destruct m; reflexivity). cbn [back_if]. destruct (after_named b0 "beat-unit-dot" a l1) as (b' & a' & _ & D). rewrite D. cbn [omap obind].
        do 5 eexists. split; [reflexivity | ]. apply (f_equal (@List.length _)) in E. rewrite app_length, all_named_length in E. cbn [List.length] in E, L. destruct m; lia. }
  destruct (take_good_any good "beat-unit" b (p :: r) ok (bu_unit g)) as [(p1 & r1 & E1 & _ & ->) | [N ->]]; cbn [obind].
  - injection E1 as <- <-. apply K; [intros _; eauto | intros X; discriminate X | lia].
  - apply K; [intros X; discriminate X | intros _ | cbn [List.length]; lia]. cbn [not_first] in N. unfold is_beat_unit in U. rewrite N in U. cbn [orb] in U. apply str_eqb_true in U. destruct p as [n d]. cbn [fst] in U. subst n. eauto.
Qed.

Theorem metronome_ends A (good : A -> bool) : always_ends (read_metronome good).
Proof.
  intros l. unfold read_metronome. match goal with |- context [each_child ?body (nodes l) ?s0] => assert (H : exists s, each_child body (nodes l) s0 = Ok s); [ | destruct H as [[? ?] ->]; eauto] end.
  apply loop_ends. intros b p r [ok m]. unfold metronome_turn. rewrite name_here. cbn [obind]. destruct (is_beat_unit (fst p)) eqn:U.
  - unfold beat_unit_turn. destruct (import_unit_any good b p r ok (mt_first m) U) as (b1 & p1 & r1 & ok1 & g1 & -> & L1). cbn [obind]. rewrite increment_here. cbn [obind].
    destruct r1 as [ | p2 r2]; [right; rewrite at_end_nil; eauto | left]. rewrite at_end_here, name_here. cbn [obind].
    destruct (is_beat_unit (fst p2)) eqn:U2.
    + destruct (import_unit_any good (node_of p1 :: b1) p2 r2 ok1 (mt_second (mkMetronome false g1 (mt_isSecond m) (mt_perMinute m) (mt_second m) (mt_notes m) (mt_relation m) (mt_note m))) U2) as (b3 & p3 & r3 & ok3 & g3 & E3 & L3).
      rewrite E3. cbn [obind]. rewrite increment_here. cbn [obind]. rewrite decrement_here. cbn [omap obind]. do 4 eexists. split; [reflexivity | cbn [List.length] in L1; lia].
    + destruct (str_eqb _ _); [rewrite contents_here; cbn [obind]; rewrite increment_here; cbn [obind] | ]; rewrite decrement_here; cbn [omap obind]; do 4 eexists; (split; [reflexivity | cbn [List.length] in *; lia]).
  - destruct (str_eqb (fst p) (lit "metronome-note")) eqn:N; [ | left; do 4 eexists; split; [reflexivity | constructor]].
    unfold note_turn. rewrite left_here. destruct (take_all_any "metronome-note" (p :: r) b) as (l1 & l2 & E & T). rewrite T by constructor. cbn [obind].
    destruct l1 as [ | a l1].
    { exfalso. exact (take_all_some "metronome-note" (List.length r) b p r _ _ N (T _ (le_n _)) eq_refl). }
    apply (f_equal (@List.length _)) in E. rewrite app_length, all_named_length in E. cbn [List.length] in E.
    destruct (after_named b "metronome-note" a l1) as (b' & a' & E' & D). rewrite E' in *.
    destruct l2 as [ | p2 r2]; [right; rewrite at_end_nil; eauto | rewrite at_end_here].
    match goal with |- context [take_good good "metronome-relation" (here ?b ?l) ?ok ?c] => destruct (take_good_any good "metronome-relation" b l ok c) as [(p3 & r3 & E3 & _ & ->) | [_ ->]] end; cbn [obind].
    + injection E3 as <- <-. destruct r2 as [ | p3 r3]; [right; rewrite at_end_nil; eauto | rewrite at_end_here].
      match goal with |- context [take_good good "metronome-note" (here ?b ?l) ?ok ?c] => destruct (take_good_any good "metronome-note" b l ok c) as [(p4 & r4 & E4 & _ & ->) | [_ ->]] end; cbn [obind].
      * injection E4 as <- <-. destruct r3 as [ | p5 r5]; [right; rewrite at_end_nil; cbn [andb]; eauto | rewrite at_end_here; left]. cbn [andb]. rewrite decrement_here. cbn [omap obind]. do 4 eexists. split; [reflexivity | cbn [List.length] in *; lia].
      * left. cbn [andb]. rewrite decrement_here. cbn [omap obind]. do 4 eexists. split; [reflexivity | cbn [List.length] in *; lia].
    + left. rewrite decrement_here. cbn [omap obind]. do 4 eexists. split; [reflexivity | cbn [List.length] in *; lia].
Qed.

(** ** Incomplete groups *)
Theorem display_alone A (good : A -> bool) (a : A) : good a = true ->
  (exists s, read_display good (nodes [(lit "display-step", a)]) = Ok (true, s) /\ write_display s = [(lit "display-step", [Own a]); (lit "display-octave", [])])
  /\ (exists s, read_display good (nodes [(lit "display-octave", a)]) = Ok (true, s) /\ write_display s = [(lit "display-step", []); (lit "display-octave", [Own a])]).
Proof. intros G. split; eexists; (split; [cbn; rewrite G; reflexivity | reflexivity]). Qed.

Theorem metronome_relation_alone A (good : A -> bool) (a : A) ns r : let l := named "metronome-note" (a :: ns) ++ [(lit "metronome-relation", r)] in
  all_readable good l -> exists s, read_metronome good (nodes l) = Ok (true, s) /\
    write_metronome s = map (fun p => (fst p, [Own (snd p)])) l ++ [(lit "metronome-note", [])].
Proof.
  intros l G. subst l. change (@named A) with (@all_named A) in *. apply all_app in G. destruct G as [G G2]. apply all_named_good in G. apply all_cons in G2. destruct G2 as [G2 _]. cbn [snd] in G2.
  eexists. split; [rewrite (notes_read good a ns (Some (r, None))), G, G2; reflexivity | ].
  unfold write_metronome, all_named. cbn [mt_isNotes mt_notes mt_relation mt_note give new_child ch_has orb always ch_given]. rewrite map_app, !map_map, <- app_assoc. reflexivity.
Qed.

(** ** Examples *)
Lemma ex_marks : conforms metronome_marks_content dotted_quarter_equals_half.
Proof.
  apply (conforms_sequence _ _ [_; _; _] [_; _]).
  - apply (conforms_sequence _ _ [_]); [constructor | ]. apply (conforms_sequence _ _ [_; _] []); [ | constructor]. apply (conforms_more _ [_]); [constructor | ]. apply (conforms_more _ [_] []); constructor.
  - apply (conforms_sequence _ _ [_; _] []); [ | constructor]. apply conforms_choice with beat_unit_content; [right; left; reflexivity | ].
    apply (conforms_sequence _ _ [_]); [constructor | ]. apply (conforms_sequence _ _ [_] []); [ | constructor]. apply (conforms_more _ [_] []); constructor.
Qed.
Lemma ex_swing_half : conforms (Sequence [Some_of (Element "metronome-note"); Optional (Sequence [Element "metronome-relation"; Element "metronome-note"])])
  (named "metronome-note" [1; 2] ++ [(lit "metronome-relation", 3); (lit "metronome-note", 4)]).
Proof.
  apply (conforms_sequence _ _ [_; _]).
  - apply (conforms_sequence _ _ [_]); [constructor | ]. apply (conforms_sequence _ _ [_] []); [ | constructor]. apply (conforms_more _ [_] []); constructor.
  - apply (conforms_sequence _ _ [_; _] []); [ | constructor]. apply conforms_with. apply (conforms_sequence _ _ [_]); [constructor | ]. apply (conforms_sequence _ _ [_] []); constructor.
Qed.
Lemma ex_triplet : conforms time_modification_content triplet.
Proof.
  apply (conforms_sequence _ _ [_]); [constructor | ]. apply (conforms_sequence _ _ [_]); [constructor | ]. apply (conforms_sequence _ _ [_; _; _] []); [ | constructor].
  apply conforms_with. apply (conforms_sequence _ _ [_]); [constructor | ]. apply (conforms_sequence _ _ [_; _] []); [ | constructor].
  apply (conforms_more _ [_] [_]); [constructor | ]. apply (conforms_more _ [_] []); constructor.
Qed.
Lemma ex_slash : conforms measure_style_content [(lit "slash", 1)].
Proof. apply conforms_choice with (Element "slash"); [cbn; tauto | constructor]. Qed.
Lemma ex_display : conforms display_content [(lit "display-step", 1); (lit "display-octave", 2)].
Proof.
  apply (conforms_sequence _ _ [_; _] []); [ | constructor]. apply conforms_with. apply (conforms_sequence _ _ [_]); [constructor | ]. apply (conforms_sequence _ _ [_] []); constructor.
Qed.
Lemma ex_percussion : conforms percussion_content [(lit "wood", 1)].
Proof. apply conforms_choice with (Element "wood"); [cbn; tauto | constructor]. Qed.
Lemma ex_play : conforms play_content [(lit "mute", 1); (lit "ipa", 2)].
Proof.
  apply (conforms_more _ [_] [_]); [apply conforms_choice with (Element "mute"); [cbn; tauto | constructor] | ]. apply (conforms_more _ [_] []); [apply conforms_choice with (Element "ipa"); [cbn; tauto | constructor] | constructor].
Qed.
