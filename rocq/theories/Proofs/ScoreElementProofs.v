(** Scores, parts, measures, part lists and name displays, read and written again. *)
From Coq Require Import List String Ascii Bool PeanoNat Lia.
From Verif Require Import Model.Base Model.Text Model.ElementReading Model.ElementGroups Model.ElementChoices Model.ScoreElements
  Spec.ContentModels Spec.MoreContents Spec.ScoreContents Proofs.GroupLoops Proofs.ChildrenProofs Proofs.GroupRuns Proofs.ChoiceProofs.
Import ListNotations.
Local Open Scope list_scope.

(** ** Names *)
Lemma eqb_sym s t : str_eqb s t = str_eqb t s.
Proof.
  destruct (str_eqb s t) eqn:E; [apply str_eqb_true in E; subst; rewrite str_eqb_refl; reflexivity | ].
  destruct (str_eqb t s) eqn:F; [apply str_eqb_true in F; subst; rewrite str_eqb_refl in E; discriminate E | reflexivity].
Qed.

Lemma choose_same names n :
  match choose (map (fun m => (m, m)) names) n with
  | Some w => n = lit w /\ existsb (fun m => str_eqb n (lit m)) names = true
  | None => existsb (fun m => str_eqb n (lit m)) names = false
  end.
Proof.
  unfold choose. induction names as [ | m names IH]; [reflexivity | ]. cbn [map find fst existsb]. rewrite eqb_sym. destruct (str_eqb n (lit m)) eqn:E.
  - cbn [option_map snd orb]. apply str_eqb_true in E. auto.
  - cbn [orb]. exact IH.
Qed.

Lemma named_in names {A} (p : str * A) : is_named names p = true <-> In (fst p) (map lit names).
Proof.
  unfold is_named. rewrite existsb_exists, in_map_iff. split; intros (n & X & Y); exists n; [apply str_eqb_true in Y; auto | rewrite <- X, str_eqb_refl; auto].
Qed.
Lemma not_named_in names {A} (p : str * A) : is_named names p = false <-> ~ In (fst p) (map lit names).
Proof. rewrite <- named_in. destruct (is_named names p); intuition congruence. Qed.

Lemma all_in_named names {A} (l : list (str * A)) : Forall (fun p => In (fst p) (map lit names)) l -> filter (is_named names) l = l.
Proof. induction 1 as [ | p l P F IH]; [reflexivity | ]. cbn [filter]. rewrite (proj2 (named_in names p) P), IH. reflexivity. Qed.

Lemma as_read_same {A} (l : list (str * A)) : Forall2 same_child (map as_read l) l.
Proof. induction l as [ | [n a] l IH]; [constructor | ]. constructor; [ | exact IH]. split; reflexivity. Qed.

Lemma forallb_false {T} (f : T -> bool) l : forallb f l = false <-> Exists (fun x => f x = false) l.
Proof. induction l as [ | x l IH]; [split; [intros E; discriminate E | intros H; inversion H] | ]. cbn [forallb]. rewrite andb_false_iff, Exists_cons, IH. reflexivity. Qed.

(** ** measure of a part, part of a measure *)
Definition music_step {A} (good : A -> bool) (p : str * A) (s : bool * (bool * list (str * list (given A)))) :=
  let '(ok, (first, l)) := s in
  match choose music_choices (fst p) with
  | Some w => (ok && good (snd p), (true, add_first first (lit w, [Own (snd p)]) l))
  | None => (ok, (first, l))
  end.

Lemma music_fold {A} (good : A -> bool) (l : list (str * A)) : forall ok first acc, negb first && (List.length acc =? 1) = false ->
  exists f, fold_left (fun s p => music_step good p s) l (ok, (first, acc)) =
  (ok && forallb (fun p => negb (is_named music_names p) || good (snd p)) l, (f, acc ++ map as_read (filter (is_named music_names) l))).
Proof.
  induction l as [ | p l IH]; intros ok first acc N; [exists first; cbn; rewrite andb_true_r, app_nil_r; reflexivity | ].
  cbn [fold_left forallb filter]. unfold music_step at 2. pose proof (choose_same music_names (fst p)) as C. change (map _ music_names) with music_choices in C. fold (is_named music_names p) in C.
  destruct (choose music_choices (fst p)) as [w | ].
  - destruct C as [W C]. rewrite C. cbn [negb orb]. unfold add_first. rewrite N. destruct (IH (ok && good (snd p)) true (acc ++ [(lit w, [Own (snd p)])]) eq_refl) as [f ->]. exists f.
    rewrite andb_assoc, <- app_assoc. cbn [map app]. replace (lit w, [Own (snd p)]) with (as_read p) by (unfold as_read; rewrite W; reflexivity). reflexivity.
  - rewrite C. cbn [negb orb andb]. apply IH. exact N.
Qed.

Lemma music_is {A} (good : A -> bool) (l : list (str * A)) : exists s,
  read_music good (nodes l) = Ok (forallb (fun p => negb (is_named music_names p) || good (snd p)) l, s) /\ write_music s = map as_read (filter (is_named music_names) l).
Proof.
  destruct (music_fold good l true false [] eq_refl) as [f E]. exists (f, map as_read (filter (is_named music_names) l)). split; [ | reflexivity].
  unfold read_music. rewrite (loop_still _ (music_step good)); [rewrite E; reflexivity | ].
  intros b p r [ok [first acc]]. rewrite name_here. cbn [obind]. rewrite contents_here. cbn [obind]. reflexivity.
Qed.

Theorem music_exact A (good : A -> bool) (l : list (str * A)) : exists b s, read_music good (nodes l) = Ok (b, s) /\
  (b = false <-> Exists (fun p => In (fst p) (map lit music_names) /\ good (snd p) = false) l) /\
  write_music s = map as_read (filter (is_named music_names) l).
Proof.
  destruct (music_is good l) as (s & E & W). do 2 eexists. split; [exact E | split; [ | exact W]]. rewrite forallb_false.
  split; apply Exists_impl; intros p; rewrite orb_false_iff, negb_false_iff, named_in; tauto.
Qed.

Theorem music_back A (good : A -> bool) (l : list (str * A)) : conforms music_content l -> all_readable good l -> comes_back (read_music good) write_music l.
Proof.
  intros H G. apply inv_many_one_of in H. destruct (music_exact A good l) as (b & s & E & B & W). exists s. rewrite E. split.
  - destruct b; [reflexivity | ]. pose proof (proj1 B eq_refl) as X. apply Exists_exists in X. destruct X as (q & I & _ & Q).
    unfold all_readable in G. rewrite Forall_forall in G. rewrite (G q I) in Q. discriminate Q.
  - rewrite W, (all_in_named _ _ H). apply as_read_same.
Qed.

Lemma named_one {A} n (p : str * A) : is_named [n] p = str_eqb (fst p) (lit n).
Proof. unfold is_named. cbn [existsb]. apply orb_false_r. Qed.
Lemma contents_cons {A} n p (l : list (str * A)) : contents_of n (p :: l) = if str_eqb (fst p) (lit n) then snd p :: contents_of n l else contents_of n l.
Proof. unfold contents_of. cbn [filter]. rewrite named_one. destruct (str_eqb _ _); reflexivity. Qed.

(** ** parts of measures *)
Definition members_step {A} (name : string) (good : A -> bool) (p : str * A) (s : bool * (bool * list (list (given A)))) : bool * (bool * list (list (given A))) :=
  let '(ok, (first, l)) := s in
  if negb (str_eqb (fst p) (lit name)) then (false, (first, l)) else (ok && good (snd p), (true, add_first first [Own (snd p)] l)).

Lemma members_still {A} name (good : A -> bool) l s : each_child (members_turn name good) (nodes l) s = Ok (fold_left (fun s p => members_step name good p s) l s).
Proof. apply loop_still. intros b p r [ok [first acc]]. unfold members_turn. rewrite name_here. cbn [obind]. rewrite contents_here. reflexivity. Qed.

Lemma members_fold {A} name (good : A -> bool) (l : list (str * A)) : forall ok first acc, first = true ->
  fold_left (fun s p => members_step name good p s) l (ok, (first, acc)) =
  (ok && forallb (fun p => is_named [name] p && good (snd p)) l, (true, acc ++ map (fun a => [Own a]) (contents_of name l))).
Proof.
  induction l as [ | p l IH]; intros ok first acc ->; [cbn; rewrite andb_true_r, app_nil_r; reflexivity | ].
  cbn [fold_left forallb]. unfold members_step at 2. rewrite contents_cons, !named_one. destruct (str_eqb (fst p) (lit name)); cbn [negb andb].
  - rewrite IH by reflexivity. unfold add_first. cbn [negb andb map]. rewrite andb_assoc, <- app_assoc. reflexivity.
  - rewrite IH by reflexivity. cbn [andb]. rewrite andb_false_r. reflexivity.
Qed.

Lemma members_is {A} name (good : A -> bool) (l : list (str * A)) : forall ok,
  fold_left (fun s p => members_step name good p s) l (ok, (false, [[]])) =
  (ok && forallb (fun p => is_named [name] p && good (snd p)) l,
   match contents_of name l with [] => (false, [[]]) | c => (true, map (fun a => [Own a]) c) end).
Proof.
  induction l as [ | p l IH]; intros ok; [cbn; rewrite andb_true_r; reflexivity | ].
  cbn [fold_left forallb]. unfold members_step at 2. rewrite contents_cons, !named_one. destruct (str_eqb (fst p) (lit name)); cbn [negb andb].
  - rewrite members_fold by reflexivity. unfold add_first. cbn [negb andb map List.length Nat.eqb app]. rewrite andb_assoc. reflexivity.
  - rewrite IH. cbn [andb]. rewrite andb_false_r. reflexivity.
Qed.

Lemma contents_named {A} n (l : list A) : contents_of n (all_named n l) = l.
Proof.
  unfold contents_of. rewrite all_in_named; [unfold all_named; rewrite map_map; apply map_id | ]. apply Forall_forall. intros p I. apply in_map_iff in I. destruct I as (a & <- & _). left. reflexivity.
Qed.

Lemma good_named {A} (good : A -> bool) n l : forallb (fun p => is_named [n] p && good (snd p)) (all_named n l) = forallb good l.
Proof. induction l as [ | a l IH]; [reflexivity | ]. cbn. rewrite str_eqb_refl. cbn. f_equal. exact IH. Qed.

Lemma members_refused {A} (good : A -> bool) n (l : list (str * A)) :
  forallb (fun p => is_named [n] p && good (snd p)) l = false <-> Exists (fun p => fst p <> lit n \/ good (snd p) = false) l.
Proof.
  rewrite forallb_false. assert (X : forall p : str * A, is_named [n] p && good (snd p) = false <-> fst p <> lit n \/ good (snd p) = false).
  { intros p. rewrite andb_false_iff, not_named_in. cbn [map In]. split; (intros [H | H]; [left | right; exact H]); [intros E; apply H; auto | intros [E | []]; apply H; auto]. }
  split; apply Exists_impl; intros p; apply X.
Qed.

Theorem part_back A (good : A -> bool) (l : list (str * A)) : conforms part_content l -> all_readable good l -> comes_back (read_part good) write_part l.
Proof.
  intros H G. apply inv_some_element in H. destruct H as (a & ns & ->). apply all_named_good in G. eexists. split.
  - unfold read_part. rewrite members_still, members_is, good_named, G, contents_named. reflexivity.
  - unfold write_part. cbn [snd]. rewrite map_map. apply same_named.
Qed.

Theorem part_refused A (good : A -> bool) (l : list (str * A)) : refused (read_part good) l <-> Exists (fun p => fst p <> lit "measure" \/ good (snd p) = false) l.
Proof.
  unfold refused, read_part. rewrite members_still, members_is. cbn [andb]. rewrite <- members_refused. split.
  - intros [s E]. injection E as E _. exact E.
  - intros ->. eauto.
Qed.

Theorem part_empty A (good : A -> bool) : exists s, read_part good (nodes (@nil (str * A))) = Ok (true, s) /\ write_part s = [(lit "measure", [])].
Proof. eexists. split; reflexivity. Qed.

Theorem part_ends A (good : A -> bool) : always_ends (read_part good).
Proof. intros l. unfold read_part. rewrite members_still, members_is. eauto. Qed.

Theorem timewise_measure_back A (good : A -> bool) (l : list (str * A)) : conforms timewise_measure_content l -> all_readable good l -> comes_back (read_timewise_measure good) write_timewise_measure l.
Proof.
  intros H G. apply inv_some_element in H. destruct H as (a & ns & ->). apply all_named_good in G. eexists. split.
  - unfold read_timewise_measure. rewrite members_still, members_is, good_named, G, contents_named. reflexivity.
  - unfold write_timewise_measure. cbn [snd]. rewrite map_map. apply same_named.
Qed.

Theorem timewise_measure_refused A (good : A -> bool) (l : list (str * A)) :
  refused (read_timewise_measure good) l <-> l = [] \/ Exists (fun p => fst p <> lit "part" \/ good (snd p) = false) l.
Proof.
  unfold refused, read_timewise_measure. rewrite members_still, members_is. cbn [andb omap obind]. rewrite <- members_refused.
  destruct (forallb (fun p => is_named ["part"%string] p && good (snd p)) l) eqn:F.
  - destruct l as [ | p l]; [cbn; split; [auto | eauto] | ]. split; [ | intros [X | X]; discriminate X]. intros [s E]. exfalso.
    cbn [forallb] in F. apply andb_prop in F. destruct F as [F _]. apply andb_prop in F. destruct F as [F _]. unfold contents_of in E. cbn [filter] in E. rewrite F in E. discriminate E.
  - split; [auto | ]. intros _. destruct (contents_of "part" l); eauto.
Qed.

Theorem timewise_measure_ends A (good : A -> bool) : always_ends (read_timewise_measure good).
Proof. intros l. unfold read_timewise_measure. rewrite members_still, members_is. cbn [omap obind]. destruct (contents_of "part" l); eauto. Qed.

(** ** name displays *)
Definition display_step {A} (good : A -> bool) (p : str * A) (s : bool * list (str * list (given A))) :=
  let '(ok, l) := s in
  match choose display_choices (fst p) with
  | Some w => (ok && good (snd p), l ++ [(lit w, [Own (snd p)])])
  | None => (false, l ++ [(lit "display-text", [])])
  end.
Lemma display_still {A} (good : A -> bool) (l : list (str * A)) : read_name_display good (nodes l) = Ok (fold_left (fun s p => display_step good p s) l (true, [])).
Proof. unfold read_name_display. apply loop_still. intros b p r [ok acc]. rewrite name_here. cbn [obind]. rewrite contents_here. reflexivity. Qed.

Notation display_names := ["display-text"; "accidental-text"]%string.
Lemma display_fold {A} (good : A -> bool) (l : list (str * A)) : forall ok acc,
  fold_left (fun s p => display_step good p s) l (ok, acc) =
  (ok && forallb (fun p => is_named display_names p && good (snd p)) l, acc ++ map (fun p => if is_named display_names p then as_read p else (lit "display-text", [])) l).
Proof.
  induction l as [ | p l IH]; intros ok acc; [cbn; rewrite andb_true_r, app_nil_r; reflexivity | ].
  cbn [fold_left forallb map]. unfold display_step at 2. pose proof (choose_same display_names (fst p)) as C. change (map _ display_names) with display_choices in C. fold (is_named display_names p) in C.
  destruct (choose display_choices (fst p)) as [w | ].
  - destruct C as [W C]. rewrite C, IH. cbn [andb]. rewrite andb_assoc, <- app_assoc. cbn [app]. replace (lit w, [Own (snd p)]) with (as_read p) by (unfold as_read; rewrite W; reflexivity). reflexivity.
  - rewrite C, IH. cbn [andb]. rewrite andb_false_r, <- app_assoc. reflexivity.
Qed.

Theorem name_display_back A (good : A -> bool) (l : list (str * A)) : conforms name_display_content l -> all_readable good l -> comes_back (read_name_display good) write_name_display l.
Proof.
  intros H G. apply inv_many_one_of in H. eexists. rewrite display_still, display_fold. cbn [andb app]. split.
  - do 2 f_equal. apply forallb_forall. intros p I. rewrite Forall_forall in H. unfold all_readable in G. rewrite Forall_forall in G. rewrite (G p I), (proj2 (named_in _ p) (H p I)). reflexivity.
  - unfold write_name_display. clear G. induction H as [ | p l P F IH]; [constructor | ]. cbn [map]. rewrite (proj2 (named_in _ p) P). constructor; [ | exact IH].
    split; reflexivity.
Qed.
Theorem name_display_refused A (good : A -> bool) (l : list (str * A)) :
  refused (read_name_display good) l <-> Exists (fun p => ~ In (fst p) (map lit display_names) \/ good (snd p) = false) l.
Proof.
  unfold refused. rewrite display_still, display_fold. cbn [andb]. assert (X : forallb (fun p => is_named display_names p && good (snd p)) l = false <-> Exists (fun p => ~ In (fst p) (map lit display_names) \/ good (snd p) = false) l).
  { rewrite forallb_false. split; apply Exists_impl; intros p; rewrite andb_false_iff, not_named_in; tauto. }
  rewrite <- X. split; [intros [s E]; injection E as E _; exact E | intros ->; eauto].
Qed.
Theorem name_display_ends A (good : A -> bool) : always_ends (read_name_display good).
Proof. intros l. rewrite display_still, display_fold. eauto. Qed.
