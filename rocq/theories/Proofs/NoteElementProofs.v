(** Ornaments and score-parts, read and written again. *)
From Coq Require Import List String Ascii Bool PeanoNat Lia.
From Verif Require Import Model.Base Model.Text Model.ElementReading Model.ElementGroups Model.ElementChoices Model.ScoreElements Model.NoteElements
  Spec.ContentModels Spec.MoreContents Spec.ScoreContents Spec.NoteContents Proofs.GroupLoops Proofs.ChildrenProofs Proofs.GroupRuns Proofs.ChoiceProofs Proofs.MoreChildrenProofs
  Proofs.ScoreElementProofs Proofs.ScoreChildrenProofs Proofs.MemberProofs.
Import ListNotations.
Local Open Scope list_scope.

(** ** The last of some children *)
Lemma after_last {A} b (l : list (str * A)) p : exists b' q, after b (p :: l) = node_of q :: b' /\ exists x, p :: l = x ++ [q] /\ b' = after b x.
Proof.
  destruct (exists_last (l := p :: l)) as (x & q & E); [discriminate | ]. rewrite E, after_app. cbn [after]. exists (after b x), q. split; [reflexivity | eauto].
Qed.

Lemma back_run {A} b (l r : list (str * A)) p : exists b' q, decrement (here (after b (p :: l)) r) = Ok (here b' (q :: r)) /\ node_of q :: b' = after b (p :: l).
Proof. destruct (after_last b l p) as (b' & q & E & _). exists b', q. rewrite E. split; [apply decrement_here | reflexivity]. Qed.

Lemma run_of {A} n (l : list (str * A)) : exists l1 l2, l = all_named n l1 ++ l2 /\ not_first n l2.
Proof.
  induction l as [ | [m a] l (l1 & l2 & E & N)]; [exists [], []; split; reflexivity | ].
  destruct (str_eqb m (lit n)) eqn:M.
  - apply str_eqb_true in M. subst m. exists (a :: l1), l2. split; [rewrite E; reflexivity | exact N].
  - exists [], ((m, a) :: l). split; [reflexivity | exact M].
Qed.

Definition joined {A} (set l : list A) : list A := if List.length set =? 1 then l else set ++ l.

Lemma import_set_run {A} n (good : A -> bool) b a l r ok set : not_first n r ->
  exists b' q, import_set n good (here b (all_named n (a :: l) ++ r)) ok set = Ok (true, here b' (q :: r), ok && forallb good (a :: l), joined set (a :: l)) /\
    node_of q :: b' = after b (all_named n (a :: l)) /\ fst q = lit n.
Proof.
  intros N. destruct (after_last b (all_named n l) (lit n, a)) as (b' & q & E & x & L & _). exists b', q. split; [ | split; [symmetry; exact E | ]].
  - unfold import_set. change (here b (all_named n (a :: l) ++ r)) with (here b ((lit n, a) :: all_named n l ++ r)). rewrite named_here. cbn [fst obind]. rewrite str_eqb_refl.
    change (here b ((lit n, a) :: all_named n l ++ r)) with (here b (all_named n (a :: l) ++ r)). rewrite take_all_named; [ | rewrite left_here, app_length, all_named_length; lia | exact N].
    cbn [obind]. change (after b (all_named n (a :: l))) with (after b ((lit n, a) :: all_named n l)). rewrite E, decrement_here. reflexivity.
  - assert (I : In q (all_named n (a :: l))) by (change (In q ((lit n, a) :: all_named n l)); rewrite L; apply in_or_app; right; left; reflexivity).
    apply in_map_iff in I. destruct I as (c & <- & _). reflexivity.
Qed.

Lemma import_set_not {A} n (good : A -> bool) b p r ok set : str_eqb (fst p) (lit n) = false ->
  import_set n good (here b (p :: r)) ok set = Ok (false, here b (p :: r), ok, set).
Proof. intros E. unfold import_set. rewrite named_here. cbn [obind]. rewrite E. reflexivity. Qed.

(** ** ornaments *)
Lemma marks_run {A} (a : A) l r : not_first "accidental-mark" r -> mark_runs (all_named "accidental-mark" (a :: l) ++ r) = (a :: l) :: mark_runs r.
Proof.
  intros N. revert a. induction l as [ | c l IH]; intros a.
  - change (all_named "accidental-mark" [a] ++ r) with ((lit "accidental-mark", a) :: r).
    destruct r as [ | q r]; [reflexivity | ]. cbn [not_first] in N.
    change (mark_runs ((lit "accidental-mark", a) :: q :: r)) with (match is_mark q, mark_runs (q :: r) with | true, run :: more => (a :: run) :: more | _, more => [a] :: more end).
    unfold is_mark at 1. rewrite N. reflexivity.
  - specialize (IH c). change (all_named "accidental-mark" (a :: c :: l) ++ r) with ((lit "accidental-mark", a) :: (lit "accidental-mark", c) :: all_named "accidental-mark" l ++ r).
    change (mark_runs ((lit "accidental-mark", a) :: (lit "accidental-mark", c) :: all_named "accidental-mark" l ++ r))
      with (match mark_runs (all_named "accidental-mark" (c :: l) ++ r) with | run :: more => (a :: run) :: more | more => [a] :: more end).
    rewrite IH. reflexivity.
Qed.

Definition ornament_or_mark : list string := ornament_names ++ ["accidental-mark"]%string.

Lemma ok_named_run {A} names n (good : A -> bool) l r : In n names -> forallb (ok_in names good) (all_named n l ++ r) = forallb good l && forallb (ok_in names good) r.
Proof.
  intros I. induction l as [ | a l IH]; [reflexivity | ]. cbn [all_named map app forallb]. fold (all_named n l). rewrite IH, andb_assoc. f_equal. f_equal.
  unfold ok_in. rewrite (proj2 (named_in names (lit n, a))); [reflexivity | cbn [fst]; apply in_map; exact I].
Qed.

Lemma filter_run {A} names n (l : list A) r : ~ In n names -> filter (is_named names) (all_named n l ++ r) = filter (is_named names) r.
Proof.
  intros N. induction l as [ | a l IH]; [reflexivity | ]. cbn [all_named map app filter]. fold (all_named n l). destruct (is_named names (lit n, a)) eqn:E; [ | exact IH].
  apply named_in in E. apply in_map_iff in E. destruct E as (m & E & I). cbn in E. exfalso. apply N. assert (m = n) as <-; [ | exact I].
  clear - E. revert n E. induction m as [ | c m IH]; intros [ | d n] E; try discriminate E; [reflexivity | ]. injection E as -> E. f_equal. exact (IH n E).
Qed.

Lemma ornaments_loop {A} (good : A -> bool) body :
  body = (fun it s => let '(ok, (l, marks)) := s in
    obind (name_at it) (fun n => obind (contents_at it) (fun a =>
      match choose ornaments_choices n with
      | Some w => Ok (false, it, (ok && good a, (l ++ [(lit w, [Own a])], marks)))
      | None => omap (fun q : bool * iterator A * bool * list A => let '(b, it', ok', marks') := q in (false, it', (ok', (l, marks')))) (import_set "accidental-mark" good it ok marks)
      end))) ->
  forall k l b ok acc marks, List.length l <= k ->
  Loop body b l (ok, (acc, marks)) (ok && forallb (ok_in ornament_or_mark good) l, (acc ++ map as_read (filter (is_named ornament_names) l), fold_left joined (mark_runs l) marks)).
Proof.
  intros ->. induction k as [ | k IH]; intros l b ok acc marks K.
  - destruct l; [ | cbn in K; lia]. cbn. rewrite andb_true_r, app_nil_r. constructor.
  - destruct l as [ | p l]; [cbn; rewrite andb_true_r, app_nil_r; constructor | ]. pose proof (choose_same ornament_names (fst p)) as C. change (map _ ornament_names) with ornaments_choices in C. fold (is_named ornament_names p) in C.
    destruct (choose ornaments_choices (fst p)) as [w | ] eqn:W.
    + destruct C as [C1 C2]. eapply Loop_next; [rewrite name_here; cbn [obind]; rewrite contents_here; cbn [obind]; rewrite W; reflexivity | constructor | ].
      assert (M : is_mark p = false).
      { unfold is_mark. apply named_in in C2. destruct (str_eqb (fst p) (lit "accidental-mark")) eqn:E; [ | reflexivity]. apply str_eqb_true in E. rewrite E in C2. exfalso. revert C2. apply (proj1 (not_named_in ornament_names (lit "accidental-mark", tt))). reflexivity. }
      cbn [mark_runs]. rewrite M. cbn [filter forallb]. rewrite C2. unfold ok_in at 1. replace (is_named ornament_or_mark p) with true by (symmetry; unfold ornament_or_mark, is_named; rewrite existsb_app; fold (is_named ornament_names p); rewrite C2; reflexivity).
      cbn [negb orb map]. rewrite andb_assoc. replace (lit w, [Own (snd p)]) with (as_read p) by (unfold as_read; rewrite C1; reflexivity).
      replace (acc ++ as_read p :: map as_read (filter (is_named ornament_names) l)) with ((acc ++ [as_read p]) ++ map as_read (filter (is_named ornament_names) l)) by (rewrite <- app_assoc; reflexivity).
      apply IH. cbn in K. lia.
    + destruct (str_eqb (fst p) (lit "accidental-mark")) eqn:M.
      * destruct (run_of "accidental-mark" (p :: l)) as (l1 & r & E & N). destruct l1 as [ | a l1]; [cbn [all_named map app] in E; subst r; cbn [not_first] in N; rewrite N in M; discriminate M | ].
        destruct (import_set_run "accidental-mark" good b a l1 r ok marks N) as (b' & q & S & B & Q). rewrite E in *. rewrite marks_run, ok_named_run, filter_run by (exact N || (unfold ornament_or_mark; apply in_or_app; right; left; reflexivity) || (intros X; cbn in X; intuition discriminate)).
        eapply Loop_next.
        -- rewrite name_here. cbn [obind]. rewrite contents_here. cbn [obind]. change (fst (lit "accidental-mark", a)) with (lit "accidental-mark"). change (choose ornaments_choices (lit "accidental-mark")) with (@None string). cbv iota.
           match goal with |- omap _ (import_set _ _ ?h _ _) = _ => change h with (here b (all_named "accidental-mark" (a :: l1) ++ r)) end. rewrite S. reflexivity.
        -- fold (all_named "accidental-mark" l1). rewrite app_length. lia.
        -- cbn [fold_left]. rewrite andb_assoc. apply IH. cbn [all_named map app List.length] in K. rewrite app_length in K. lia.
      * eapply Loop_next; [rewrite name_here; cbn [obind]; rewrite contents_here; cbn [obind]; rewrite W, import_set_not by exact M; reflexivity | constructor | ].
        cbn [mark_runs]. unfold is_mark at 1. rewrite M. cbn [filter forallb]. rewrite C. unfold ok_in at 1. replace (is_named ornament_or_mark p) with false by (symmetry; unfold ornament_or_mark, is_named; rewrite existsb_app; fold (is_named ornament_names p); rewrite C; cbn [existsb]; rewrite M; reflexivity).
        cbn [negb orb andb]. apply IH. cbn in K. lia.
Qed.

Theorem ornaments_exact A (good : A -> bool) (l : list (str * A)) : exists b s, read_ornaments good (nodes l) = Ok (b, s) /\
  (b = false <-> Exists (fun p => In (fst p) (map lit (ornament_names ++ ["accidental-mark"]%string)) /\ good (snd p) = false) l) /\
  write_ornaments s = map as_read (filter (is_named ornament_names) l) ++ map (fun a => (lit "accidental-mark", [Own a])) (marks_kept l).
Proof.
  do 2 eexists. split; [unfold read_ornaments; apply each_ok; apply (ornaments_loop good _ eq_refl (List.length l)); constructor | ]. split; [apply ok_false | ]. reflexivity.
Qed.

Theorem ornaments_back A (good : A -> bool) (o : list (str * A)) marks : Forall (fun p => In (fst p) (map lit ornament_names)) o -> all_readable good (o ++ named "accidental-mark" marks) ->
  comes_back (read_ornaments good) write_ornaments (o ++ named "accidental-mark" marks).
Proof.
  intros H G. destruct (ornaments_exact A good (o ++ named "accidental-mark" marks)) as (b & s & E & B & W). exists s. rewrite E. split.
  - destruct b; [reflexivity | ]. exfalso. pose proof (proj1 B eq_refl) as X. apply Exists_exists in X. destruct X as (q & I & _ & Q). unfold all_readable in G. rewrite Forall_forall in G. rewrite (G q I) in Q. discriminate Q.
  - rewrite W. assert (F : filter (is_named ornament_names) (o ++ named "accidental-mark" marks) = o).
    { rewrite filter_app, (all_in_named _ _ H). change (named "accidental-mark" marks) with (all_named "accidental-mark" marks). rewrite <- (app_nil_r (all_named _ marks)), filter_run; [cbn; apply app_nil_r | intros X; cbn in X; intuition discriminate]. }
    rewrite F. assert (M : marks_kept (o ++ named "accidental-mark" marks) = marks).
    { unfold marks_kept. assert (R : mark_runs (o ++ named "accidental-mark" marks) = mark_runs (all_named "accidental-mark" marks)).
      { clear - H. induction H as [ | p o P F IH]; [reflexivity | ]. cbn [app mark_runs]. replace (is_mark p) with false; [exact IH | ]. unfold is_mark. destruct (str_eqb (fst p) (lit "accidental-mark")) eqn:E; [ | reflexivity].
        apply str_eqb_true in E. rewrite E in P. exfalso. revert P. apply (proj1 (not_named_in ornament_names (lit "accidental-mark", tt))). reflexivity. }
      rewrite R. destruct marks as [ | a m]; [reflexivity | ]. rewrite <- (app_nil_r (all_named _ (a :: m))), marks_run by exact I. reflexivity. }
    rewrite M. apply Forall2_app; [apply as_read_same | apply same_named].
Qed.

Theorem ornaments_refuted : ~ (forall A (good : A -> bool) (l : list (str * A)), conforms ornaments_content l -> all_readable good l -> comes_back (read_ornaments good) write_ornaments l).
Proof.
  intros H. specialize (H nat (fun _ => true) [(lit "turn", 1); (lit "accidental-mark", 2); (lit "turn", 3)]). destruct H as (s & E & W).
  - apply (conforms_more _ [(lit "turn", 1); (lit "accidental-mark", 2)] [(lit "turn", 3)]); [ | apply (conforms_more _ [(lit "turn", 3)] []); [ | constructor]].
    + apply (conforms_sequence _ _ [(lit "turn", 1)] [(lit "accidental-mark", 2)]); [apply (conforms_choice (Element "turn")); [cbn; tauto | constructor] | ].
      apply (conforms_sequence _ _ [(lit "accidental-mark", 2)] []); [ | constructor]. apply (conforms_more _ [(lit "accidental-mark", 2)] []); constructor.
    + apply (conforms_sequence _ _ [(lit "turn", 3)] []); [apply (conforms_choice (Element "turn")); [cbn; tauto | constructor] | ]. apply (conforms_sequence _ _ [] []); constructor.
  - repeat constructor.
  - vm_compute in E. injection E as <-. inversion W as [ | ? ? ? ? _ W1]; subst. inversion W1 as [ | ? ? ? ? [X _] _]; subst. discriminate X.
Qed.

(** ** score-part *)
Definition no_midi (n : str) : Prop := str_eqb n (lit "midi-device") = false /\ str_eqb n (lit "midi-instrument") = false.
Lemma midi_not {A} fuel (good : A -> bool) b p l ok moved acc : no_midi (fst p) -> import_midi fuel good (here b (p :: l)) ok moved acc = Ok (moved, here b (p :: l), ok, acc).
Proof. intros [X Y]. destruct fuel; cbn [import_midi]; rewrite !is_here_here; cbn [obind]; rewrite X, Y; reflexivity. Qed.

Lemma midi_read {A} (good : A -> bool) k : forall l b ok moved acc, List.length l <= k -> Forall (fun p => In (fst p) (map lit ["midi-device"; "midi-instrument"]%string)) l ->
  exists g, (forall fuel, List.length l <= fuel -> import_midi fuel good (here b l) ok moved acc = Ok (match l with [] => moved | _ => true end, here (after b l) [], ok && forallb (fun p => good (snd p)) l, acc ++ g)) /\
    List.concat (map (fun g => if_has "midi-device" (fst g) ++ if_has "midi-instrument" (snd g)) g) = map as_read l.
Proof.
  induction k as [ | k IH]; intros l b ok moved acc K F.
  - destruct l; [ | cbn in K; lia]. exists []. split; [ | reflexivity]. intros [ | fuel] _; cbn; rewrite andb_true_r, app_nil_r; reflexivity.
  - destruct l as [ | p l]; [exists []; split; [ | reflexivity]; intros [ | fuel] _; cbn; rewrite andb_true_r, app_nil_r; reflexivity | ].
    apply Forall_cons_iff in F as [P F]. destruct p as [n a]. cbn [fst] in P. destruct P as [<- | [<- | []]].
    + (* a device *)
      destruct l as [ | [m c] l].
      * exists [(give true (Own a) new_child, new_child)]. split; [ | reflexivity]. intros [ | fuel] L; [cbn in L; lia | ]. cbn [import_midi]. rewrite !is_here_here. cbn [obind fst snd].
        change (str_eqb (lit "midi-device") (lit "midi-device")) with true. cbn [orb]. unfold take_good. rewrite is_here_here. cbn [obind fst]. rewrite str_eqb_refl, contents_here. cbn [obind]. rewrite increment_here. cbn [obind snd]. rewrite is_here_nil. cbn [obind].
        cbn [forallb after snd]. destruct fuel; cbn [import_midi]; rewrite !is_here_nil; cbn [obind orb]; rewrite andb_true_r; reflexivity.
      * apply Forall_cons_iff in F as [P F]. cbn [fst] in P. destruct P as [<- | [<- | []]].
        -- destruct (IH ((lit "midi-device", c) :: l) (node_of (lit "midi-device", a) :: b) (ok && good a) true (acc ++ [(give true (Own a) new_child, new_child)])) as (g & R & W).
           { cbn in K |- *. lia. } { constructor; [cbn; tauto | exact F]. }
           exists ((give true (Own a) new_child, new_child) :: g). split; [ | cbn [map List.concat]; rewrite W; reflexivity]. intros [ | fuel] L; [cbn in L; lia | ]. cbn [import_midi]. rewrite !is_here_here. cbn [obind fst snd].
           change (str_eqb (lit "midi-device") (lit "midi-device")) with true. cbn [orb]. unfold take_good. rewrite is_here_here. cbn [obind fst]. rewrite str_eqb_refl, contents_here. cbn [obind]. rewrite increment_here. cbn [obind snd]. rewrite is_here_here. cbn [obind fst].
           change (str_eqb (lit "midi-device") (lit "midi-instrument")) with false. cbn [obind]. rewrite R by (cbn in L |- *; lia). cbn [forallb snd after]. rewrite !andb_assoc, <- app_assoc. reflexivity.
        -- destruct (IH l (node_of (lit "midi-instrument", c) :: node_of (lit "midi-device", a) :: b) (ok && good a && good c) true (acc ++ [(give true (Own a) new_child, give true (Own c) new_child)])) as (g & R & W).
           { cbn in K |- *. lia. } { exact F. }
           exists ((give true (Own a) new_child, give true (Own c) new_child) :: g). split; [ | cbn [map List.concat]; rewrite W; reflexivity]. intros [ | fuel] L; [cbn in L; lia | ]. cbn [import_midi]. rewrite !is_here_here. cbn [obind fst snd].
           change (str_eqb (lit "midi-device") (lit "midi-device")) with true. cbn [orb]. unfold take_good. rewrite is_here_here. cbn [obind fst]. rewrite str_eqb_refl, contents_here. cbn [obind]. rewrite increment_here. cbn [obind snd]. rewrite is_here_here. cbn [obind fst].
           rewrite str_eqb_refl, contents_here. cbn [obind]. rewrite increment_here. cbn [obind snd]. rewrite R by (cbn in L |- *; lia). cbn [forallb snd after]. rewrite !andb_assoc, <- app_assoc. destruct l; reflexivity.
    + destruct (IH l (node_of (lit "midi-instrument", a) :: b) (ok && good a) true (acc ++ [(new_child, give true (Own a) new_child)])) as (g & R & W).
      { cbn in K |- *. lia. } { exact F. }
      exists ((new_child, give true (Own a) new_child) :: g). split; [ | cbn [map List.concat]; rewrite W; reflexivity]. intros [ | fuel] L; [cbn in L; lia | ]. cbn [import_midi]. rewrite !is_here_here. cbn [obind fst snd].
      change (str_eqb (lit "midi-instrument") (lit "midi-device")) with false. change (str_eqb (lit "midi-instrument") (lit "midi-instrument")) with true. cbn [orb]. unfold take_good. rewrite is_here_here. cbn [obind fst].
      change (str_eqb (lit "midi-instrument") (lit "midi-device")) with false. cbn [obind]. rewrite is_here_here. cbn [obind fst].
      rewrite str_eqb_refl, contents_here. cbn [obind]. rewrite increment_here. cbn [obind snd]. rewrite R by (cbn in L |- *; lia). cbn [forallb snd after]. rewrite !andb_assoc, <- app_assoc. destruct l; reflexivity.
Qed.

(** Children that stay where they are. *)
Lemma score_part_still {A} (good : A -> bool) b n a l ok (p : score_part A) : In n score_part_names ->
  score_part_turn good (here b ((lit n, a) :: l)) (ok, p) = Ok (false, here b ((lit n, a) :: l), (ok && good a, mkScorePart (give_member (lit n) a (sp_members p)) (sp_groups p) (sp_instruments p) (sp_midi p))).
Proof.
  intros I. unfold score_part_turn. rewrite name_here. cbn [obind]. rewrite contents_here. cbn [obind fst snd]. rewrite (proj2 (named_in score_part_names (lit n, a)) (in_map lit _ _ I) : is_one_of score_part_names (lit n) = true).
  assert (E : str_eqb (lit n) (lit "group") = false /\ str_eqb (lit n) (lit "score-instrument") = false /\ no_midi (lit n)) by (cbn in I; decompose [or] I; subst; repeat split; contradiction || reflexivity).
  destruct E as (E1 & E2 & E3). rewrite import_set_not by exact E1. cbn [obind]. rewrite import_set_not by exact E2. cbn [obind]. rewrite midi_not by exact E3. reflexivity.
Qed.

Lemma score_part_singles {A} (good : A -> bool) l : Forall (fun q => In (fst q) (map lit score_part_names)) l -> forall b r ok (p : score_part A) s, exists m,
  (fst (fold_left (fun s q => member_step score_part_names good q s) l (ok, sp_members p)) = fst m /\ snd (fold_left (fun s q => member_step score_part_names good q s) l (ok, sp_members p)) = snd m) /\
  (Loop (score_part_turn good) (after b l) r (fst m, mkScorePart (snd m) (sp_groups p) (sp_instruments p) (sp_midi p)) s -> Loop (score_part_turn good) b (l ++ r) (ok, p) s).
Proof.
  intros F. induction F as [ | [n a] l P F IH]; intros b r ok p s.
  - exists (ok, sp_members p). split; [split; reflexivity | ]. destruct p. exact (fun x => x).
  - apply in_map_iff in P. destruct P as (n' & E & I). cbn [fst] in E. subst n.
    destruct (IH (node_of (lit n', a) :: b) r (ok && good a) (mkScorePart (give_member (lit n') a (sp_members p)) (sp_groups p) (sp_instruments p) (sp_midi p)) s) as (m & M & L).
    exists m. cbn [fold_left]. unfold member_step at 2 4. rewrite (proj2 (named_in score_part_names (lit n', a)) (in_map lit _ _ I)). split; [exact M | ].
    intros X. cbn [app]. eapply Loop_next; [apply score_part_still; exact I | constructor | ]. apply L. exact X.
Qed.

Lemma score_part_groups {A} (good : A -> bool) gs r b ok (p : score_part A) s : sp_groups p = [] -> not_first "group" r ->
  Loop (score_part_turn good) (after b (all_named "group" gs)) r (ok && forallb good gs, mkScorePart (sp_members p) gs (sp_instruments p) (sp_midi p)) s ->
  Loop (score_part_turn good) b (all_named "group" gs ++ r) (ok, p) s.
Proof.
  intros G N L. destruct gs as [ | a gs]; [cbn [forallb all_named map app after] in *; rewrite andb_true_r in L; destruct p; cbn in *; subst; exact L | ].
  destruct (import_set_run "group" good b a gs r ok (sp_groups p) N) as (b' & q & S & B & Q).
  eapply Loop_next with (b' := b') (p' := q) (l' := r).
  - unfold score_part_turn. rewrite name_here. cbn [obind]. rewrite contents_here. cbn [obind fst snd]. change (is_one_of score_part_names (lit "group")) with false. cbv iota.
    match goal with |- context [import_set "group" good ?h ok] => change h with (here b (all_named "group" (a :: gs) ++ r)) end. rewrite S. cbn [obind].
    rewrite import_set_not by (rewrite Q; reflexivity). cbn [obind]. rewrite midi_not by (rewrite Q; split; reflexivity). cbn [obind back_if omap]. rewrite G. reflexivity.
  - fold (all_named "group" gs). rewrite app_length. lia.
  - rewrite B. exact L.
Qed.

Lemma score_part_instruments {A} (good : A -> bool) is r b ok (p : score_part A) s : sp_instruments p = [] -> not_first "score-instrument" r ->
  Loop (score_part_turn good) (after b (all_named "score-instrument" is)) r (ok && forallb good is, mkScorePart (sp_members p) (sp_groups p) is (sp_midi p)) s ->
  Loop (score_part_turn good) b (all_named "score-instrument" is ++ r) (ok, p) s.
Proof.
  intros G N L. destruct is as [ | a gs]; [cbn [forallb all_named map app after] in *; rewrite andb_true_r in L; destruct p; cbn in *; subst; exact L | ].
  destruct (import_set_run "score-instrument" good b a gs r ok (sp_instruments p) N) as (b' & q & S & B & Q).
  eapply Loop_next with (b' := b') (p' := q) (l' := r).
  - unfold score_part_turn. rewrite name_here. cbn [obind]. rewrite contents_here. cbn [obind fst snd]. change (is_one_of score_part_names (lit "score-instrument")) with false. cbv iota.
    rewrite import_set_not by reflexivity. cbn [obind].
    match goal with |- context [import_set "score-instrument" good ?h ok] => change h with (here b (all_named "score-instrument" (a :: gs) ++ r)) end. rewrite S. cbn [obind].
    rewrite midi_not by (rewrite Q; split; reflexivity). cbn [obind back_if omap]. rewrite G. reflexivity.
  - fold (all_named "score-instrument" gs). rewrite app_length. lia.
  - rewrite B. exact L.
Qed.

Lemma score_part_midi {A} (good : A -> bool) l b ok (p : score_part A) : sp_midi p = [] -> Forall (fun p => In (fst p) (map lit ["midi-device"; "midi-instrument"]%string)) l ->
  exists g, Loop (score_part_turn good) b l (ok, p) (ok && forallb (fun p => good (snd p)) l, mkScorePart (sp_members p) (sp_groups p) (sp_instruments p) g) /\
    List.concat (map (fun g => if_has "midi-device" (fst g) ++ if_has "midi-instrument" (snd g)) g) = map as_read l.
Proof.
  intros M F. destruct l as [ | q l]; [exists []; split; [ | reflexivity]; cbn [forallb]; rewrite andb_true_r; destruct p; cbn in M; subst; constructor | ].
  destruct (midi_read good (List.length (q :: l)) (q :: l) b ok false [] (le_n _) F) as (g & R & W). exists g. split; [ | exact W].
  destruct (back_run b l [] q) as (b' & t & D & B). apply Forall_cons_iff in F as [P _].
  eapply Loop_next with (b' := b') (p' := t) (l' := []).
  - unfold score_part_turn. rewrite name_here. cbn [obind]. rewrite contents_here. cbn [obind].
    assert (E : is_one_of score_part_names (fst q) = false /\ str_eqb (fst q) (lit "group") = false /\ str_eqb (fst q) (lit "score-instrument") = false) by (destruct P as [<- | [<- | []]]; repeat split; reflexivity).
    destruct E as (E0 & E1 & E2). rewrite E0. cbv iota. rewrite import_set_not by exact E1. cbn [obind]. rewrite import_set_not by exact E2. cbn [obind]. rewrite M, left_here, R by constructor. cbn [obind back_if app]. rewrite D. reflexivity.
  - cbn. lia.
  - constructor.
Qed.

Lemma score_part_shape {A} (l : list (str * A)) : conforms score_part_content l -> exists i n d a ad gs is m,
  l = (all_named "identification" (maybe i) ++ [(lit "part-name", n)] ++ all_named "part-name-display" (maybe d) ++ all_named "part-abbreviation" (maybe a) ++ all_named "part-abbreviation-display" (maybe ad))
      ++ all_named "group" gs ++ all_named "score-instrument" is ++ m /\ Forall (fun p => In (fst p) (map lit ["midi-device"; "midi-instrument"]%string)) m.
Proof.
  intros H. apply inv_sequence in H as (x1 & y1 & -> & C1 & H). apply inv_maybe in C1 as (i & ->).
  apply inv_sequence in H as (x2 & y2 & -> & C2 & H). apply inv_element in C2 as (n & ->).
  apply inv_sequence in H as (x3 & y3 & -> & C3 & H). apply inv_maybe in C3 as (d & ->).
  apply inv_sequence in H as (x4 & y4 & -> & C4 & H). apply inv_maybe in C4 as (a & ->).
  apply inv_sequence in H as (x5 & y5 & -> & C5 & H). apply inv_maybe in C5 as (ad & ->).
  apply inv_sequence in H as (x6 & y6 & -> & C6 & H). apply inv_many_element in C6 as (gs & ->).
  apply inv_sequence in H as (x7 & y7 & -> & C7 & H). apply inv_many_element in C7 as (is & ->).
  apply inv_sequence in H as (m & y8 & -> & C8 & H). apply inv_nothing in H as ->. rewrite app_nil_r.
  exists i, n, d, a, ad, gs, is, m. split; [rewrite <- !app_assoc; reflexivity | ]. apply inv_many in C8 as (zs & -> & F). induction F as [ | z zs Z F IH]; [constructor | ]. cbn [List.concat]. apply Forall_app. split; [ | exact IH].
  apply inv_sequence in Z as (u & v & -> & U & Z). apply inv_maybe in U as (o1 & ->). apply inv_sequence in Z as (v1 & v2 & -> & V & Z). apply inv_maybe in V as (o2 & ->). apply inv_nothing in Z as ->.
  destruct o1, o2; repeat constructor; cbn; tauto.
Qed.

Lemma midi_first {A} n (m : list (str * A)) : Forall (fun p => In (fst p) (map lit ["midi-device"; "midi-instrument"]%string)) m ->
  str_eqb (lit "midi-device") (lit n) = false -> str_eqb (lit "midi-instrument") (lit n) = false -> not_first n m.
Proof. intros M X Y. destruct M as [ | q m' M _]; [exact I | ]. cbn [not_first]. destruct M as [<- | [<- | []]]; assumption. Qed.

Lemma ok_known {A} names (good : A -> bool) l : Forall (fun q => In (fst q) (map lit names)) l -> forallb (ok_in names good) l = forallb (fun p => good (snd p)) l.
Proof. intros F. induction F as [ | p l P F IH]; [reflexivity | ]. cbn [forallb]. rewrite IH. f_equal. unfold ok_in. apply named_in in P. rewrite P. reflexivity. Qed.

Lemma good_named {A} n (good : A -> bool) l : forallb (fun p => good (snd p)) (all_named n l) = forallb good l.
Proof. induction l as [ | a l IH]; [reflexivity | ]. cbn [all_named map forallb]. fold (all_named n l). rewrite IH. reflexivity. Qed.

Theorem score_part_exact A (good : A -> bool) (l : list (str * A)) : conforms score_part_content l ->
  exists s, read_score_part good (nodes l) = Ok (forallb (fun p => good (snd p)) l, s) /\ Forall2 same_child (write_score_part s) l.
Proof.
  intros H. apply score_part_shape in H as (i & n & d & a & ad & gs & is & m & -> & M).
  set (h := all_named "identification" (maybe i) ++ [(lit "part-name", n)] ++ all_named "part-name-display" (maybe d) ++ all_named "part-abbreviation" (maybe a) ++ all_named "part-abbreviation-display" (maybe ad)).
  assert (F : Forall (fun q => In (fst q) (map lit score_part_names)) h) .
  { subst h. repeat (apply Forall_app; split); [ | constructor; [right; left; reflexivity | constructor] | | | ]; apply Forall_forall; intros q Q; apply in_map_iff in Q; destruct Q as (c & <- & _); cbn [fst]; apply in_map; cbn; tauto. }
  destruct (member_fold score_part_names good h true new_members) as (m1 & E1 & X1). rewrite (ok_known _ _ _ F) in E1.
  assert (N1 : not_first "score-instrument" m) by (apply midi_first; [exact M | reflexivity..]).
  assert (N2 : not_first "group" (all_named "score-instrument" is ++ m)) by (destruct is; [apply midi_first; [exact M | reflexivity..] | reflexivity]).
  destruct (score_part_midi good m (after (after (after [] h) (all_named "group" gs)) (all_named "score-instrument" is)) (forallb (fun p => good (snd p)) h && forallb good gs && forallb good is) (mkScorePart m1 gs is [])) as (g & L & W); [reflexivity | exact M | ].
  exists (mkScorePart m1 gs is g). split.
  - unfold read_score_part. apply each_ok.
    destruct (score_part_singles good h F [] (all_named "group" gs ++ all_named "score-instrument" is ++ m) true (mkScorePart new_members [] [] []) (forallb (fun p => good (snd p)) (h ++ all_named "group" gs ++ all_named "score-instrument" is ++ m), mkScorePart m1 gs is g)) as (q & [Q1 Q2] & K).
    cbn [sp_members] in Q1, Q2. rewrite E1 in Q1, Q2. cbn [fst snd andb] in Q1, Q2. apply K. rewrite <- Q1, <- Q2. cbn [sp_groups sp_instruments sp_midi].
    apply score_part_groups; [reflexivity | exact N2 | ]. cbn [sp_members sp_instruments sp_midi].
    apply score_part_instruments; [reflexivity | exact N1 | ]. cbn [sp_members sp_groups sp_midi].
    rewrite !forallb_app, !good_named, !andb_assoc. exact L.
  - unfold write_score_part, write_member. cbn [sp_members sp_groups sp_instruments sp_midi]. rewrite W. rewrite !X1 by (cbn; tauto). cbn [new_members].
    change (new_members (lit "identification")) with (@new_child A). change (new_members (lit "part-name")) with (@new_child A). change (new_members (lit "part-name-display")) with (@new_child A). change (new_members (lit "part-abbreviation")) with (@new_child A). change (new_members (lit "part-abbreviation-display")) with (@new_child A).
    rewrite !if_has_gives. rewrite app_assoc, (app_assoc (_ ++ _)), (app_assoc ((_ ++ _) ++ _)), (app_assoc (((_ ++ _) ++ _) ++ _)).
    apply Forall2_app; [ | apply Forall2_app; [apply same_named | apply Forall2_app; [apply same_named | apply as_read_same]]].
    subst h. destruct i, d, a, ad; cbn; repeat (constructor; [split; reflexivity | ]); constructor.
Qed.

Theorem score_part_back A (good : A -> bool) (l : list (str * A)) : conforms score_part_content l -> all_readable good l -> comes_back (read_score_part good) write_score_part l.
Proof.
  intros H G. destruct (score_part_exact A good l H) as (s & E & W). exists s. split; [ | exact W]. rewrite E. do 2 f_equal. apply forallb_forall. unfold all_readable in G. rewrite Forall_forall in G. exact G.
Qed.

Theorem part_name_refuted : ~ (forall A (good : A -> bool) (l : list (str * A)) s, read_score_part good (nodes l) = Ok (true, s) -> has_child "part-name" l).
Proof. intros H. specialize (H nat (fun _ => true) [] (mkScorePart new_members [] [] []) eq_refl). destruct H as (a & []). Qed.
