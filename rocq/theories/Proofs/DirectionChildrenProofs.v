(** Part lists and directions, read and written again. *)
From Coq Require Import List String Ascii Bool PeanoNat Lia.
From Verif Require Import Model.Base Model.Text Model.ElementReading Model.ElementGroups Model.ElementChoices Model.ScoreElements
  Spec.ContentModels Spec.MoreContents Spec.ScoreContents Proofs.GroupLoops Proofs.ChildrenProofs Proofs.GroupRuns Proofs.ChoiceProofs Proofs.MoreChildrenProofs Proofs.ScoreElementProofs Proofs.ScoreChildrenProofs.
Import ListNotations.
Local Open Scope list_scope.

(** ** part-list *)
Definition part_list_step {A} (good : A -> bool) (p : str * A) (s : bool * bool * part_list A) : bool * bool * part_list A :=
  let '(ok, first, t) := s in
  if negb first then
    if str_eqb (fst p) (lit "part-group") then (ok && good (snd p), first, mkPartList (pl_groups t ++ [snd p]) (pl_part t) (pl_more t))
    else if str_eqb (fst p) (lit "score-part") then (ok && good (snd p), true, mkPartList (pl_groups t) (give true (Own (snd p)) (pl_part t)) (pl_more t))
    else (ok, first, t)
  else
    (ok, first, mkPartList (pl_groups t) (pl_part t) (pl_more t ++ [
      if str_eqb (fst p) (lit "part-group") then (lit "part-group", [Own (snd p)])
      else if str_eqb (fst p) (lit "score-part") then (lit "score-part", [Own (snd p)])
      else (lit "part-group", [])])).

Lemma part_list_still {A} (good : A -> bool) (l : list (str * A)) s : each_child (part_list_turn good) (nodes l) s = Ok (fold_left (fun s p => part_list_step good p s) l s).
Proof. apply loop_still. intros b p r [[ok first] t]. unfold part_list_turn. rewrite name_here. cbn [obind]. rewrite contents_here. reflexivity. Qed.

Definition more_written {A} (p : str * A) : str * list (given A) := if is_named ["part-group"; "score-part"]%string p then as_read p else (lit "part-group", []).

Lemma part_list_after {A} (good : A -> bool) (l : list (str * A)) : forall ok g c m,
  fold_left (fun s p => part_list_step good p s) l (ok, true, mkPartList g c m) = (ok, true, mkPartList g c (m ++ map more_written l)).
Proof.
  induction l as [ | p l IH]; intros ok g c m; [cbn; rewrite app_nil_r; reflexivity | ]. cbn [fold_left part_list_step negb pl_groups pl_part pl_more map].
  rewrite IH, <- app_assoc. cbn [app]. do 4 f_equal. unfold more_written, is_named, as_read. cbn [existsb].
  destruct (str_eqb (fst p) (lit "part-group")) eqn:E; [apply str_eqb_true in E; rewrite E; reflexivity | ]. destruct (str_eqb (fst p) (lit "score-part")) eqn:F; [apply str_eqb_true in F; rewrite F; reflexivity | ]. reflexivity.
Qed.

Lemma part_list_before {A} (good : A -> bool) (l : list (str * A)) : ~ has_child "score-part" l -> forall ok g c m,
  fold_left (fun s p => part_list_step good p s) l (ok, false, mkPartList g c m) =
  (ok && forallb good (contents_of "part-group" l), false, mkPartList (g ++ contents_of "part-group" l) c m).
Proof.
  induction l as [ | p l IH]; intros N ok g c m; [cbn; rewrite andb_true_r, app_nil_r; reflexivity | ]. cbn [fold_left part_list_step negb pl_groups pl_part pl_more].
  assert (N' : ~ has_child "score-part" l) by (intros [a I]; apply N; exists a; right; exact I). rewrite contents_cons. destruct (str_eqb (fst p) (lit "part-group")) eqn:E.
  - rewrite (IH N'). cbn [forallb]. rewrite andb_assoc, <- app_assoc. reflexivity.
  - destruct (str_eqb (fst p) (lit "score-part")) eqn:F; [ | apply (IH N')]. exfalso. apply str_eqb_true in F. apply N. exists (snd p). left. rewrite <- F. apply surjective_pairing.
Qed.

Lemma part_list_is {A} (good : A -> bool) x a (y : list (str * A)) : ~ has_child "score-part" x ->
  read_part_list good (nodes (x ++ (lit "score-part", a) :: y)) =
  Ok (forallb good (contents_of "part-group" x) && good a, mkPartList (contents_of "part-group" x) (give true (Own a) new_child) (map more_written y)).
Proof.
  intros N. unfold read_part_list. rewrite part_list_still. cbn [omap obind]. rewrite fold_left_app, (part_list_before good x N). cbn [fold_left andb app].
  match goal with |- context [part_list_step good (lit "score-part", a) (?o, false, mkPartList ?g ?c ?m)] =>
    change (part_list_step good (lit "score-part", a) (o, false, mkPartList g c m)) with (o && good a, true, mkPartList g (give true (Own a) c) m) end.
  rewrite part_list_after, andb_true_r. reflexivity.
Qed.

Theorem part_list_exact A (good : A -> bool) x a (y : list (str * A)) : ~ has_child "score-part" x -> exists b s,
  read_part_list good (nodes (x ++ (lit "score-part", a) :: y)) = Ok (b, s) /\
  (b = true <-> good a = true /\ Forall (fun c => good c = true) (contents_of "part-group" x)) /\
  write_part_list s = each_from x "part-group" ++ [(lit "score-part", [Own a])] ++ map (fun p => if is_named ["part-group"; "score-part"]%string p then as_read p else (lit "part-group", [])) y.
Proof.
  intros N. do 2 eexists. split; [apply part_list_is; exact N | split; [ | reflexivity]]. rewrite andb_true_iff, forallb_forall, Forall_forall. tauto.
Qed.

Theorem part_list_required A (good : A -> bool) (l : list (str * A)) : ~ has_child "score-part" l -> refused (read_part_list good) l.
Proof.
  intros N. unfold refused, read_part_list. rewrite part_list_still, (part_list_before good l N). cbn [omap obind]. rewrite andb_false_r. eauto.
Qed.

Lemma inv_part_list {A} (l : list (str * A)) : conforms part_list_content l -> exists gs a y, l = all_named "part-group" gs ++ (lit "score-part", a) :: y /\ Forall (fun p => In (fst p) (map lit ["part-group"; "score-part"]%string)) y.
Proof.
  intros H. apply inv_sequence in H. destruct H as (x & y & -> & X & H). apply inv_many_element in X. destruct X as [gs ->].
  apply inv_sequence in H. destruct H as (x & z & -> & X & H). apply inv_element in X. destruct X as [a ->]. apply inv_sequence in H. destruct H as (x & t & -> & X & H). apply inv_nothing in H. subst t.
  rewrite app_nil_r. apply inv_many_one_of in X. exists gs, a, x. split; [reflexivity | exact X].
Qed.
Lemma groups_no_part {A} (gs : list A) : ~ has_child "score-part" (all_named "part-group" gs).
Proof. intros [a I]. apply in_map_iff in I. destruct I as (b & E & _). discriminate E. Qed.

Lemma more_same {A} (y : list (str * A)) : Forall (fun p => In (fst p) (map lit ["part-group"; "score-part"]%string)) y -> Forall2 same_child (map more_written y) y.
Proof.
  induction 1 as [ | p y P F IH]; [constructor | ]. cbn [map]. constructor; [ | exact IH]. unfold more_written. rewrite (proj2 (named_in _ p) P).
  split; reflexivity.
Qed.

Theorem part_list_back A (good : A -> bool) (l : list (str * A)) : conforms part_list_content l -> all_readable good l -> comes_back (read_part_list good) write_part_list l.
Proof.
  intros H G. apply inv_part_list in H. destruct H as (gs & a & y & -> & Y). apply all_app in G. destruct G as [G1 G2]. apply all_cons in G2. destruct G2 as [G2 G3]. apply all_named_good in G1. cbn [snd] in G2.
  eexists. split; [rewrite part_list_is by apply groups_no_part; rewrite contents_named, G1, G2; reflexivity | ].
  unfold write_part_list. cbn [pl_groups pl_part pl_more]. apply Forall2_app'; [apply same_named | ]. unfold always. cbn [ch_given give new_child app]. constructor; [same | ]. apply more_same. exact Y.
Qed.

Theorem part_list_bad_refuted : ~ (forall good (l : list (str * nat)), conforms part_list_content l -> one_unreadable good l -> refused (read_part_list good) l).
Proof.
  intros H. destruct (H (fun n => negb (n =? 3)) a_part_list) as [s E].
  - unfold a_part_list, part_list_content. apply (conforms_sequence _ _ [_] [_; _; _]); [apply (conforms_more _ [_] []); constructor | ].
    apply (conforms_sequence _ _ [_] [_; _]); [constructor | ]. apply (conforms_sequence _ _ [_; _] []); [ | constructor].
    apply (conforms_more _ [_] [_]); [apply conforms_choice with (Element "score-part"); [right; left; reflexivity | constructor] | ].
    apply (conforms_more _ [_] []); [apply conforms_choice with (Element "part-group"); [left; reflexivity | constructor] | constructor].
  - do 2 apply Exists_cons_tl. apply Exists_cons_hd. reflexivity.
  - vm_compute in E. discriminate E.
Qed.

Theorem part_list_ends A (good : A -> bool) : always_ends (read_part_list good).
Proof. intros l. unfold read_part_list. rewrite part_list_still. cbn [omap obind]. destruct (fold_left _ l _) as [[ok f] t]. eauto. Qed.

(** ** direction *)
Lemma import_good_here {A} (good : A -> bool) n b p l ok c :
  import_good good n (here b (p :: l)) ok c = Ok (if str_eqb (fst p) (lit n) then (true, ok && good (snd p), give true (Own (snd p)) c) else (false, ok, c)).
Proof. unfold import_good. rewrite named_here. cbn [obind]. rewrite contents_here. cbn [obind]. destruct (str_eqb _ _); reflexivity. Qed.

Definition with_types {A} (l : list A) (d : direction_element A) : direction_element A :=
  mkDirection (map (fun a => [Own a]) l) (dr_offset d) (dr_footnote d) (dr_level d) (dr_voice d) (dr_staff d) (dr_sound d).

Definition direction_tail {A} (o f l v s u : option A) : list (str * A) :=
  all_named "offset" (maybe o) ++ all_named "footnote" (maybe f) ++ all_named "level" (maybe l) ++ all_named "voice" (maybe v) ++ all_named "staff" (maybe s) ++ all_named "sound" (maybe u).
Definition child_of {A} (o : option A) : child A := match o with Some a => give true (Own a) new_child | None => new_child end.
Definition maybe_good {A} (good : A -> bool) (o : option A) : bool := match o with Some a => good a | None => true end.

Ltac turn := unfold direction_turn; rewrite named_here; cbn [obind fst snd]; lits; rewrite import_good_here; cbn [obind fst snd]; lits; cbn [obind];
  unfold import_voice_group; cbn [dr_footnote dr_level dr_voice dr_staff dr_sound dr_offset dr_types];
  repeat (first [rewrite at_end_here | rewrite at_end_nil | rewrite take_good_here | rewrite take_good_nil | rewrite decrement_here | rewrite import_good_here]; cbn [obind omap orb andb back_if fst snd]; lits; cbn [obind omap orb andb back_if fst snd]).

Lemma tail_read {A} (good : A -> bool) types (o f l v s u : option A) b ok : exists b0,
  Loop (direction_turn good) b (direction_tail o f l v s u) (ok, mkDirection types new_child new_child new_child new_child new_child new_child)
    (b0, mkDirection types (child_of o) (child_of f) (child_of l) (child_of v) (child_of s) (child_of u))
  /\ b0 = ok && (maybe_good good o && maybe_good good f && maybe_good good l && maybe_good good v && maybe_good good s && maybe_good good u).
Proof.
  unfold direction_tail.
  assert (R : forall b ok c, exists b0, Loop (direction_turn good) b
      (all_named "footnote" (maybe f) ++ all_named "level" (maybe l) ++ all_named "voice" (maybe v) ++ all_named "staff" (maybe s) ++ all_named "sound" (maybe u))
      (ok, mkDirection types c new_child new_child new_child new_child new_child) (b0, mkDirection types c (child_of f) (child_of l) (child_of v) (child_of s) (child_of u))
    /\ b0 = ok && (maybe_good good f && maybe_good good l && maybe_good good v && maybe_good good s && maybe_good good u)).
  { clear b ok. intros b ok c. destruct f as [f | ], l as [l | ], v as [v | ], s as [s | ], u as [u | ];
    cbn [maybe all_named map app maybe_good child_of]; eexists; (split;
    [repeat first [apply Loop_end | eapply Loop_next; [turn; reflexivity | cbn [List.length]; repeat constructor | ]] | cbn [andb]; rewrite ?andb_true_r, ?andb_assoc; reflexivity]). }
  destruct o as [o | ]; cbn [maybe all_named map app maybe_good child_of andb]; [ | apply R].
  destruct (R (node_of (lit "offset", o) :: b) (ok && good o) (give true (Own o) new_child)) as (b0 & L & E). exists b0. split; [ | rewrite E, !andb_assoc; reflexivity].
  eapply Loop_next; [ | constructor | exact L]. unfold direction_turn. rewrite named_here. cbn [obind fst]. lits. rewrite import_good_here. cbn [obind fst snd]. lits. reflexivity.
Qed.

Lemma inv_direction {A} (z : list (str * A)) : conforms direction_content z -> exists a ns o f l v s u, z = all_named "direction-type" (a :: ns) ++ direction_tail o f l v s u.
Proof.
  intros H. unfold direction_content in H.
  apply inv_sequence in H. destruct H as (x0 & y0 & -> & X0 & H). apply inv_some_element in X0. destruct X0 as (a & ns & ->).
  apply inv_sequence in H. destruct H as (x1 & y1 & -> & X1 & H). apply inv_maybe in X1. destruct X1 as [o ->].
  apply inv_sequence in H. destruct H as (x2 & y2 & -> & X2 & H). apply inv_maybe in X2. destruct X2 as [f ->].
  apply inv_sequence in H. destruct H as (x3 & y3 & -> & X3 & H). apply inv_maybe in X3. destruct X3 as [l ->].
  apply inv_sequence in H. destruct H as (x4 & y4 & -> & X4 & H). apply inv_maybe in X4. destruct X4 as [v ->].
  apply inv_sequence in H. destruct H as (x5 & y5 & -> & X5 & H). apply inv_maybe in X5. destruct X5 as [s ->].
  apply inv_sequence in H. destruct H as (x6 & y6 & -> & X6 & H). apply inv_maybe in X6. destruct X6 as [u ->]. apply inv_nothing in H. subst y6.
  rewrite app_nil_r. exists a, ns, o, f, l, v, s, u. reflexivity.
Qed.

Lemma tail_not_type {A} (o f l v s u : option A) : not_first "direction-type" (direction_tail o f l v s u).
Proof. destruct o, f, l, v, s, u; reflexivity || exact Logic.I. Qed.

Definition tail_good {A} (good : A -> bool) (o f l v s u : option A) : bool :=
  maybe_good good o && maybe_good good f && maybe_good good l && maybe_good good v && maybe_good good s && maybe_good good u.

Lemma maybe_all {A} (good : A -> bool) n o : all_readable good (all_named n (maybe o)) <-> maybe_good good o = true.
Proof. rewrite all_named_good. destruct o; cbn; [rewrite andb_true_r | ]; reflexivity. Qed.
Lemma tail_all {A} (good : A -> bool) o f l v s u : all_readable good (direction_tail o f l v s u) <-> tail_good good o f l v s u = true.
Proof. unfold direction_tail, tail_good. rewrite !all_app, !maybe_all, !andb_true_iff. tauto. Qed.

Lemma direction_read {A} (good : A -> bool) a ns (o f l v s u : option A) :
  read_direction good (nodes (all_named "direction-type" (a :: ns) ++ direction_tail o f l v s u)) =
  Ok (forallb good (a :: ns) && tail_good good o f l v s u,
      mkDirection (map (fun b => [Own b]) (a :: ns)) (child_of o) (child_of f) (child_of l) (child_of v) (child_of s) (child_of u)).
Proof.
  unfold read_direction. apply each_ok. destruct (after_named [] "direction-type" a ns) as (b' & a' & E & D).
  destruct (tail_read good (map (fun b => [Own b]) (a :: ns)) o f l v s u (after [] (all_named "direction-type" (a :: ns))) (forallb good (a :: ns))) as (b0 & L & ->). fold (tail_good good o f l v s u) in L.
  pose proof (tail_not_type o f l v s u) as N. set (t := direction_tail o f l v s u) in *.
  assert (T : take_all (left (here [] (all_named "direction-type" (a :: ns) ++ t))) "direction-type" (here [] (all_named "direction-type" (a :: ns) ++ t))
    = Ok (here (after [] (all_named "direction-type" (a :: ns))) t, a :: ns)).
  { rewrite left_here. apply take_all_named; [rewrite app_length, all_named_length; lia | exact N]. }
  rewrite E in L. change (all_named "direction-type" (a :: ns) ++ t) with ((lit "direction-type", a) :: all_named "direction-type" ns ++ t) in *.
  eapply Loop_next; [ | | exact L].
  - unfold direction_turn. rewrite named_here. cbn [obind fst]. lits. rewrite T. cbn [obind]. rewrite D. cbn [omap obind new_direction dr_types List.length Nat.eqb andb]. reflexivity.
  - rewrite app_length. lia.
Qed.

Lemma if_child {A} n (o : option A) : Forall2 same_child (if_has n (child_of o)) (all_named n (maybe o)).
Proof. destruct o; cbn; repeat (constructor; [same | ]); constructor. Qed.

Lemma tail_written {A} types (o f l v s u : option A) :
  write_direction (mkDirection types (child_of o) (child_of f) (child_of l) (child_of v) (child_of s) (child_of u)) =
  map (fun g => (lit "direction-type", g)) types ++ map as_read (direction_tail o f l v s u).
Proof.
  assert (X : forall n (o : option A), if_has n (child_of o) = map as_read (all_named n (maybe o))) by (intros n []; reflexivity).
  unfold write_direction, direction_tail. cbn [dr_types dr_offset dr_footnote dr_level dr_voice dr_staff dr_sound]. rewrite !X, !map_app, <- !app_assoc. reflexivity.
Qed.

Theorem direction_back A (good : A -> bool) (l : list (str * A)) : conforms direction_content l -> all_readable good l -> comes_back (read_direction good) write_direction l.
Proof.
  intros H G. apply inv_direction in H. destruct H as (a & ns & o & f & v0 & v & s & u & ->). apply all_app in G. destruct G as [G1 G2]. apply all_named_good in G1. apply tail_all in G2.
  eexists. split; [rewrite direction_read, G1, G2; reflexivity | ]. rewrite tail_written. apply Forall2_app'; [rewrite map_map; apply same_named | apply as_read_same].
Qed.

Theorem direction_bad A (good : A -> bool) (l : list (str * A)) : conforms direction_content l -> one_unreadable good l -> refused (read_direction good) l.
Proof.
  intros H B. apply some_bad in B. apply inv_direction in H. destruct H as (a & ns & o & f & v0 & v & s & u & ->). rewrite all_app, all_named_good, tail_all in B.
  eexists. rewrite direction_read. destruct (forallb good (a :: ns)); [ | reflexivity]. destruct (tail_good good o f v0 v s u); [destruct B; auto | reflexivity].
Qed.

(** Without a direction-type. *)
Theorem direction_untyped A (good : A -> bool) (l : list (str * A)) a : conforms direction_content ((lit "direction-type", a) :: l) -> all_readable good l -> ~ has_child "direction-type" l ->
  exists s, read_direction good (nodes l) = Ok (true, s) /\ write_direction s = (lit "direction-type", []) :: map as_read l.
Proof.
  intros H G N. apply inv_direction in H. destruct H as (a' & ns & o & f & v0 & v & s & u & E). destruct ns as [ | n ns].
  - cbn [all_named map app] in E. injection E as _ ->. apply tail_all in G. destruct (tail_read good [[]] o f v0 v s u [] true) as (b0 & L & E). fold (tail_good good o f v0 v s u) in E. rewrite G in E. subst b0.
    eexists. split; [unfold read_direction; apply each_ok; exact L | ]. rewrite tail_written. reflexivity.
  - exfalso. cbn [all_named map app] in E. injection E as _ ->. apply N. exists n. left. reflexivity.
Qed.

Lemma voice_group_any {A} (good : A -> bool) b p (l : list (str * A)) ok c1 c2 c3 : exists b' p' l' ok' d1 d2 d3,
  import_voice_group good (here b (p :: l)) ok c1 c2 c3 = Ok (here b' (p' :: l'), ok', d1, d2, d3) /\ List.length l' <= List.length l.
Proof.
  unfold import_voice_group. rewrite at_end_here.
  destruct (take_good_any good "footnote" b (p :: l) ok c1) as [(p1 & r1 & E1 & _ & ->) | [_ ->]]; cbn [obind].
  - injection E1 as <- <-. destruct l as [ | p2 l]; [rewrite at_end_nil; cbn [back_if]; rewrite decrement_here; cbn [omap obind]; do 7 eexists; split; [reflexivity | constructor] | rewrite at_end_here].
    match goal with |- context [take_good good "level" (here ?b ?l) ?ok ?c] => destruct (take_good_any good "level" b l ok c) as [(p3 & r3 & E3 & _ & ->) | [_ ->]] end; cbn [obind].
    + injection E3 as <- <-. destruct l as [ | p3 l]; [rewrite at_end_nil; cbn [back_if orb]; rewrite decrement_here; cbn [omap obind]; do 7 eexists; split; [reflexivity | cbn; lia] | rewrite at_end_here].
      match goal with |- context [take_good good "voice" (here ?b ?l) ?ok ?c] => destruct (take_good_any good "voice" b l ok c) as [(p4 & r4 & E4 & _ & ->) | [_ ->]] end; cbn [obind].
      * injection E4 as <- <-. destruct l as [ | p4 l]; [rewrite at_end_nil; cbn [back_if orb]; rewrite decrement_here; cbn [omap obind] | rewrite at_end_here]; do 7 eexists; (split; [reflexivity | cbn; lia]).
      * rewrite at_end_here. do 7 eexists. split; [reflexivity | cbn; lia].
    + rewrite at_end_here. match goal with |- context [take_good good "voice" (here ?b ?l) ?ok ?c] => destruct (take_good_any good "voice" b l ok c) as [(p4 & r4 & E4 & _ & ->) | [_ ->]] end; cbn [obind].
      * injection E4 as <- <-. destruct l as [ | p4 l]; [rewrite at_end_nil; cbn [back_if orb]; rewrite decrement_here; cbn [omap obind] | rewrite at_end_here]; do 7 eexists; (split; [reflexivity | cbn; lia]).
      * rewrite at_end_here. do 7 eexists. split; [reflexivity | cbn; lia].
  - rewrite at_end_here. match goal with |- context [take_good good "level" (here ?b ?l) ?ok ?c] => destruct (take_good_any good "level" b l ok c) as [(p3 & r3 & E3 & _ & ->) | [_ ->]] end; cbn [obind].
    + injection E3 as <- <-. destruct l as [ | p3 l]; [rewrite at_end_nil; cbn [back_if orb]; rewrite decrement_here; cbn [omap obind]; do 7 eexists; split; [reflexivity | cbn; lia] | rewrite at_end_here].
      match goal with |- context [take_good good "voice" (here ?b ?l) ?ok ?c] => destruct (take_good_any good "voice" b l ok c) as [(p4 & r4 & E4 & _ & ->) | [_ ->]] end; cbn [obind].
      * injection E4 as <- <-. destruct l as [ | p4 l]; [rewrite at_end_nil; cbn [back_if orb]; rewrite decrement_here; cbn [omap obind] | rewrite at_end_here]; do 7 eexists; (split; [reflexivity | cbn; lia]).
      * rewrite at_end_here. do 7 eexists. split; [reflexivity | cbn; lia].
    + rewrite at_end_here. match goal with |- context [take_good good "voice" (here ?b ?l) ?ok ?c] => destruct (take_good_any good "voice" b l ok c) as [(p4 & r4 & E4 & _ & ->) | [_ ->]] end; cbn [obind].
      * injection E4 as <- <-. destruct l as [ | p4 l]; [rewrite at_end_nil; cbn [back_if orb]; rewrite decrement_here; cbn [omap obind] | rewrite at_end_here]; do 7 eexists; (split; [reflexivity | cbn; lia]).
      * rewrite at_end_here. do 7 eexists. split; [reflexivity | cbn; lia].
Qed.

Theorem direction_ends A (good : A -> bool) : always_ends (read_direction good).
Proof.
  intros l. unfold read_direction. match goal with |- context [each_child ?body (nodes l) ?s0] => assert (H : exists s, each_child body (nodes l) s0 = Ok s); [ | destruct H as [[? ?] ->]; eauto] end.
  apply loop_ends. intros b p r [ok d]. left. unfold direction_turn. rewrite named_here. cbn [obind]. destruct (str_eqb (fst p) (lit "direction-type")) eqn:N.
  - rewrite left_here. destruct (take_all_any "direction-type" (p :: r) b) as (l1 & l2 & E & T). rewrite T by constructor. cbn [obind].
    destruct l1 as [ | a l1]; [exfalso; exact (take_all_some "direction-type" (List.length r) b p r _ _ N (T _ (le_n _)) eq_refl) | ].
    apply (f_equal (@List.length _)) in E. rewrite app_length, all_named_length in E. cbn [List.length] in E.
    destruct (after_named b "direction-type" a l1) as (b' & a' & E' & D). rewrite D. cbn [omap obind]. do 4 eexists. split; [reflexivity | lia].
  - rewrite import_good_here. cbn [obind]. destruct (str_eqb (fst p) (lit "offset")); [do 4 eexists; split; [reflexivity | constructor] | ].
    destruct (voice_group_any good b p r ok (dr_footnote d) (dr_level d) (dr_voice d)) as (b' & p' & l' & ok' & d1 & d2 & d3 & -> & L). cbn [obind]. rewrite import_good_here. cbn [obind].
    destruct (str_eqb (fst p') (lit "staff")); [do 4 eexists; split; [reflexivity | exact L] | ]. rewrite import_good_here. cbn [obind]. destruct (str_eqb (fst p') (lit "sound")); do 4 eexists; (split; [reflexivity | exact L]).
Qed.

(** ** direction-type *)
Lemma types_read {A} (good : A -> bool) n (l : list (str * A)) : forall fuel b ok acc, List.length l <= fuel ->
  exists k, read_types fuel good n (here b l) ok true acc = Ok (if forallb (fun p => str_eqb (fst p) n) l then ok && forallb (fun p => good (snd p)) l else false, acc ++ k)
    /\ (forallb (fun p => str_eqb (fst p) n) l = true -> k = map (fun p => [Own (snd p)]) l).
Proof.
  induction l as [ | p l IH]; intros fuel b ok acc F.
  - exists []. split; [ | reflexivity]. destruct fuel; cbn [read_types]; rewrite at_end_nil, app_nil_r; cbn [forallb]; rewrite andb_true_r; reflexivity.
  - destruct fuel as [ | fuel]; [cbn in F; lia | ]. cbn [read_types]. rewrite at_end_here, name_here. cbn [obind forallb]. destruct (str_eqb (fst p) n); cbn [negb andb].
    + rewrite contents_here. cbn [obind]. rewrite increment_here. cbn [obind]. destruct (IH fuel (node_of p :: b) (ok && good (snd p)) (acc ++ [[Own (snd p)]])) as (k & -> & K); [cbn in F; lia | ].
      exists ([Own (snd p)] :: k). split; [rewrite andb_assoc, <- app_assoc; reflexivity | ]. intros E. rewrite (K E). reflexivity.
    + exists []. split; [rewrite app_nil_r; reflexivity | intros E; discriminate E].
Qed.

Lemma single_choices : single_types = map (fun m => (m, m)) single_direction_types.
Proof. reflexivity. Qed.
Lemma multiple_choices : multiple_types = map (fun m => (m, m)) multiple_direction_types.
Proof. reflexivity. Qed.

Lemma disjoint_types n : existsb (fun m => str_eqb n (lit m)) multiple_direction_types = true -> choose single_types n = None.
Proof. intros H. apply existsb_exists in H. destruct H as (m & I & E). apply str_eqb_true in E. subst n. cbn [multiple_direction_types In] in I. repeat (destruct I as [<- | I]; [reflexivity | ]). destruct I. Qed.

Theorem direction_type_single A (good : A -> bool) p (r : list (str * A)) : In (fst p) (map lit single_direction_types) ->
  exists s, read_direction_type good (nodes (p :: r)) = Ok (good (snd p), s) /\ write_direction_type s = [as_read p].
Proof.
  intros I. apply (named_in single_direction_types p) in I. unfold read_direction_type. rewrite begin_nodes, at_end_here, name_here. cbn [obind]. rewrite contents_here. cbn [obind].
  pose proof (choose_same single_direction_types (fst p)) as C. rewrite <- single_choices in C. fold (is_named single_direction_types p) in C. destruct (choose single_types (fst p)) as [w | ]; [ | congruence].
  destruct C as [W _]. eexists. split; [reflexivity | ]. unfold write_direction_type, as_read. rewrite W. reflexivity.
Qed.

Lemma type_multiple {A} (good : A -> bool) p (r : list (str * A)) : In (fst p) (map lit multiple_direction_types) -> exists s,
  read_direction_type good (nodes (p :: r)) = Ok (if forallb (fun q => str_eqb (fst q) (fst p)) r then good (snd p) && forallb (fun q => good (snd q)) r else false, s)
  /\ (forallb (fun q => str_eqb (fst q) (fst p)) r = true -> s = map as_read (p :: r)).
Proof.
  intros I. apply (named_in multiple_direction_types p) in I. unfold read_direction_type. rewrite begin_nodes, at_end_here, name_here. cbn [obind]. rewrite contents_here. cbn [obind].
  rewrite (disjoint_types _ I). pose proof (choose_same multiple_direction_types (fst p)) as C. rewrite <- multiple_choices in C. fold (is_named multiple_direction_types p) in C.
  destruct (choose multiple_types (fst p)) as [w | ]; [ | congruence]. destruct C as [W _]. rewrite length_nodes. cbn [List.length read_types]. rewrite at_end_here, name_here. cbn [obind].
  rewrite str_eqb_refl. cbn [negb]. rewrite contents_here. cbn [obind]. rewrite increment_here. cbn [obind List.length Nat.eqb negb andb app tl].
  destruct (types_read good (fst p) r (List.length r) [node_of p] (good (snd p)) [[Own (snd p)]] (le_n _)) as (k & -> & K). cbn [omap obind fst snd]. eexists. split; [reflexivity | ].
  intros E. rewrite (K E). cbn [app map]. unfold as_read at 1. rewrite <- W. f_equal. rewrite map_map. apply map_ext_in. intros q Q. rewrite forallb_forall in E. specialize (E q Q). apply str_eqb_true in E. unfold as_read. rewrite E. reflexivity.
Qed.

Theorem direction_type_multiple A (good : A -> bool) p (r : list (str * A)) : In (fst p) (map lit multiple_direction_types) -> exists b s,
  read_direction_type good (nodes (p :: r)) = Ok (b, s) /\
  (b = false <-> Exists (fun q => fst q <> fst p \/ good (snd q) = false) (p :: r)) /\ (b = true -> write_direction_type s = map as_read (p :: r)).
Proof.
  intros I. destruct (type_multiple good p r I) as (s & E & W). do 2 eexists. split; [exact E | ].
  assert (X : Exists (fun q => fst q <> fst p \/ good (snd q) = false) r <-> forallb (fun q => str_eqb (fst q) (fst p)) r = false \/ forallb (fun q => good (snd q)) r = false).
  { rewrite !forallb_false, !Exists_exists. split.
    - intros (q & Q & [N | N]); [left | right]; exists q; (split; [exact Q | ]); [ | exact N]. destruct (str_eqb (fst q) (fst p)) eqn:Z; [apply str_eqb_true in Z; destruct (N Z) | reflexivity].
    - intros [(q & Q & N) | (q & Q & N)]; exists q; (split; [exact Q | ]); [left | right; exact N]. intros Z. rewrite Z, str_eqb_refl in N. discriminate N. }
  rewrite Exists_cons, X. destruct (forallb (fun q => str_eqb (fst q) (fst p)) r) eqn:F.
  - split; [ | intros _; apply W; reflexivity]. rewrite andb_false_iff. split; [intros [G | G]; auto | intros [[N | G] | [N | G]]; auto; [destruct (N eq_refl) | discriminate N]].
  - split; [split; [auto | reflexivity] | intros Z; discriminate Z].
Qed.

Theorem direction_type_other A (good : A -> bool) p (r : list (str * A)) : ~ In (fst p) (map lit (single_direction_types ++ multiple_direction_types)) ->
  exists s, read_direction_type good (nodes (p :: r)) = Ok (true, s) /\ write_direction_type s = [(lit "rehearsal", [])].
Proof.
  intros N. rewrite map_app in N. unfold read_direction_type. rewrite begin_nodes, at_end_here, name_here. cbn [obind]. rewrite contents_here. cbn [obind].
  pose proof (choose_same single_direction_types (fst p)) as C. rewrite <- single_choices in C. fold (is_named single_direction_types p) in C.
  destruct (choose single_types (fst p)); [destruct C as [_ C]; apply named_in in C; exfalso; apply N; apply in_or_app; auto | ].
  pose proof (choose_same multiple_direction_types (fst p)) as M. rewrite <- multiple_choices in M. fold (is_named multiple_direction_types p) in M.
  destruct (choose multiple_types (fst p)); [destruct M as [_ M]; apply named_in in M; exfalso; apply N; apply in_or_app; auto | ]. eexists. split; reflexivity.
Qed.

Theorem direction_type_empty A (good : A -> bool) : refused (read_direction_type good) (@nil (str * A)).
Proof. eexists. reflexivity. Qed.

Theorem direction_type_back A (good : A -> bool) (l : list (str * A)) : conforms direction_type_content l -> all_readable good l -> comes_back (read_direction_type good) write_direction_type l.
Proof.
  intros H G. apply inv_choice in H. destruct H as (c & I & H). apply in_app_or in I. destruct I as [I | I]; apply in_map_iff in I; destruct I as (n & <- & I).
  - apply inv_element in H. destruct H as [a ->]. apply all_cons in G. destruct G as [G _]. cbn [snd] in G.
    destruct (direction_type_single A good (lit n, a) [] (in_map lit _ _ I)) as (s & E & W). exists s. cbn [snd] in E. rewrite G in E. split; [exact E | ]. rewrite W. apply (as_read_same [_]).
  - apply inv_some_element in H. destruct H as (a & ns & ->). change (all_named n (a :: ns)) with ((lit n, a) :: all_named n ns) in *.
    destruct (type_multiple good (lit n, a) (all_named n ns) (in_map lit _ _ I)) as (s & E & W).
    assert (F : forallb (fun q : str * A => str_eqb (fst q) (fst (lit n, a))) (all_named n ns) = true). { apply forallb_forall. intros q Q. apply in_map_iff in Q. destruct Q as (b & <- & _). apply str_eqb_refl. }
    rewrite F in E. apply all_cons in G. destruct G as [G1 G2]. cbn [snd] in G1.
    assert (G3 : forallb (fun q : str * A => good (snd q)) (all_named n ns) = true) by (apply forallb_forall; unfold all_readable in G2; rewrite Forall_forall in G2; exact G2).
    cbn [snd] in E. rewrite G1, G3 in E. exists s. split; [exact E | ]. unfold write_direction_type. rewrite (W F). apply as_read_same.
Qed.

Theorem direction_type_ends A (good : A -> bool) : always_ends (read_direction_type good).
Proof.
  intros [ | p r]; [do 2 eexists; reflexivity | ].
  destruct (is_named single_direction_types p) eqn:S; [apply named_in in S; destruct (direction_type_single A good p r S) as (s & E & _); eauto | ].
  destruct (is_named multiple_direction_types p) eqn:M; [apply named_in in M; destruct (type_multiple good p r M) as (s & E & _); eauto | ].
  destruct (direction_type_other A good p r) as (s & E & _); [ | eauto]. rewrite map_app. intros I. apply in_app_or in I. apply not_named_in in S. apply not_named_in in M. tauto.
Qed.

(** ** Together *)
Theorem score_required_refuted : ~ (forall good (l : list (str * nat)) s, read_score_partwise good (nodes l) = Ok (true, s) \/ (exists s', read_score_timewise good (nodes l) = Ok (true, s')) ->
  has_child "part-list" l).
Proof. intros H. destruct (H (fun _ => true) [] (new_score_header, [[]])) as [a []]. left. reflexivity. Qed.

Theorem score_elements_end A (good : A -> bool) :
  always_ends (read_music good) /\ always_ends (read_part good) /\ always_ends (read_timewise_measure good) /\ always_ends (read_score_partwise good) /\
  always_ends (read_score_timewise good) /\ always_ends (read_part_list good) /\ always_ends (read_direction good) /\ always_ends (read_direction_type good) /\
  always_ends (read_name_display good).
Proof.
  split; [intros l; destruct (music_exact A good l) as (b & s & E & _); eauto | ]. split; [apply part_ends | ]. split; [apply timewise_measure_ends | ].
  split; [intros l; destruct (score_partwise_exact A good l) as (b & s & E & _); eauto | ]. split; [intros l; destruct (score_timewise_exact A good l) as (b & s & E & _); eauto | ].
  split; [apply part_list_ends | ]. split; [apply direction_ends | ]. split; [apply direction_type_ends | apply name_display_ends].
Qed.

(** ** Examples *)
Ltac alone := apply (conforms_sequence _ _ [_]).
Ltac several := repeat first [apply conforms_none | apply (conforms_more _ [_])].
Ltac chosen n := apply conforms_choice with (Element n); [cbn; tauto | constructor].

Lemma ex_measure : conforms music_content a_measure.
Proof. unfold music_content, a_measure. several; [chosen "attributes"%string | chosen "note"%string | chosen "backup"%string | chosen "note"%string | chosen "barline"%string]. Qed.
Lemma ex_part : conforms part_content (named "measure" [1; 2; 3]).
Proof. unfold part_content, Some_of, named. cbn [map]. alone; [constructor | ]. apply (conforms_sequence _ _ [_; _] []); [several; constructor | constructor]. Qed.
Lemma ex_timewise_measure : conforms timewise_measure_content (named "part" [1; 2]).
Proof. unfold timewise_measure_content, Some_of, named. cbn [map]. alone; [constructor | ]. apply (conforms_sequence _ _ [_] []); [several; constructor | constructor]. Qed.
Lemma ex_score : conforms (score_content "part") a_score.
Proof.
  unfold score_content, score_header_content, a_score. cbn [app]. alone; [apply conforms_with; constructor | ]. apply (conforms_sequence _ _ []); [constructor | ]. alone; [apply conforms_with; constructor | ].
  apply (conforms_sequence _ _ []); [constructor | ]. apply (conforms_sequence _ _ []); [constructor | ]. apply (conforms_sequence _ _ [_; _]); [several; constructor | ]. alone; [constructor | ].
  apply (conforms_sequence _ _ [_; _] []); [ | constructor]. alone; [constructor | ]. apply (conforms_sequence _ _ [_] []); [several; constructor | constructor].
Qed.
Lemma ex_timewise_score : conforms (score_content "measure") a_timewise_score.
Proof.
  unfold score_content, score_header_content, a_timewise_score. cbn [app]. do 3 (apply (conforms_sequence _ _ []); [constructor | ]). alone; [apply conforms_with; constructor | ].
  do 2 (apply (conforms_sequence _ _ []); [constructor | ]). alone; [constructor | ]. apply (conforms_sequence _ _ [_; _] []); [ | constructor]. alone; [constructor | ].
  apply (conforms_sequence _ _ [_] []); [several; constructor | constructor].
Qed.
Lemma ex_not_before : ~ before_part_list a_score.
Proof. intros H. apply stops_is in H. discriminate H. Qed.
Lemma ex_before : before_part_list [(lit "work", 1); (lit "part", 2); (lit "part-list", 3)].
Proof. apply stops_is. reflexivity. Qed.
Lemma ex_part_list : conforms part_list_content a_part_list.
Proof.
  unfold part_list_content, a_part_list. alone; [several; constructor | ]. alone; [constructor | ]. apply (conforms_sequence _ _ [_; _] []); [ | constructor].
  several; [chosen "score-part"%string | chosen "part-group"%string].
Qed.
Lemma ex_no_part : ~ has_child "score-part" [(lit "part-group", 1)].
Proof. intros [a [E | []]]. discriminate E. Qed.
Lemma ex_direction : conforms direction_content a_direction.
Proof.
  unfold direction_content, a_direction. apply (conforms_sequence _ _ [_; _]); [alone; [constructor | ]; apply (conforms_sequence _ _ [_] []); [several; constructor | constructor] | ].
  alone; [apply conforms_with; constructor | ]. do 2 (apply (conforms_sequence _ _ []); [constructor | ]). do 3 (alone; [apply conforms_with; constructor | ]). constructor.
Qed.
Lemma ex_words : conforms direction_type_content (named "words" [1; 2]).
Proof.
  unfold direction_type_content. apply conforms_choice with (Some_of (Element "words")); [cbn; tauto | ]. unfold named. cbn [map]. alone; [constructor | ].
  apply (conforms_sequence _ _ [_] []); [several; constructor | constructor].
Qed.
Lemma ex_wedge : conforms direction_type_content [(lit "wedge", 1)].
Proof. unfold direction_type_content. apply conforms_choice with (Element "wedge"); [cbn; tauto | constructor]. Qed.
Lemma ex_name_display : conforms name_display_content [(lit "display-text", 1); (lit "accidental-text", 2)].
Proof. unfold name_display_content. several; [chosen "display-text"%string | chosen "accidental-text"%string]. Qed.
