(** Scores and part lists, read and written again. *)
From Coq Require Import List String Ascii Bool PeanoNat Lia.
From Verif Require Import Model.Base Model.Text Model.ElementReading Model.ElementGroups Model.ElementChoices Model.ScoreElements
  Spec.ContentModels Spec.MoreContents Spec.ScoreContents Proofs.GroupLoops Proofs.ChildrenProofs Proofs.GroupRuns Proofs.ChoiceProofs Proofs.ScoreElementProofs.
Import ListNotations.
Local Open Scope list_scope.

Definition add_to {A} (cs : list A) (c : child A) : child A := mkChild (negb (List.length cs =? 0) || ch_has c) (ch_given c ++ map Own cs).

Lemma add_to_nil {A} (c : child A) : add_to [] c = c.
Proof. destruct c as [h g]. unfold add_to. cbn. rewrite app_nil_r. reflexivity. Qed.
Lemma add_to_give {A} cs a (c : child A) : add_to cs (give true (Own a) c) = add_to (a :: cs) c.
Proof. unfold add_to, give. cbn. rewrite orb_true_r, <- app_assoc. reflexivity. Qed.

(** ** The header *)
Fixpoint stops {A} (found : bool) (l : list (str * A)) : bool :=
  match l with
  | [] => false
  | p :: r => if is_named header_names p then stops (found || str_eqb (fst p) (lit "part-list")) r else if found then stops found r else true
  end.

Lemma stops_found {A} (l : list (str * A)) : stops true l = false.
Proof. induction l as [ | p l IH]; [reflexivity | ]. cbn [stops orb]. destruct (is_named header_names p); exact IH. Qed.

Lemma stops_is {A} (l : list (str * A)) : stops false l = true <-> before_part_list l.
Proof.
  unfold before_part_list. induction l as [ | p l IH]; [split; [intros E; discriminate E | intros (x & p & y & E & _); destruct x; discriminate E] | ].
  cbn [stops orb]. destruct (is_named header_names p) eqn:N.
  - destruct (str_eqb (fst p) (lit "part-list")) eqn:P.
    + rewrite stops_found. split; [intros E; discriminate E | ]. intros (x & q & y & E & Q & H). exfalso. destruct x as [ | p' x].
      * injection E as <- _. apply not_named_in in Q. congruence.
      * injection E as <- _. apply H. exists (snd p). apply str_eqb_true in P. left. rewrite <- P. apply surjective_pairing.
    + rewrite IH. split.
      * intros (x & q & y & -> & Q & H). exists (p :: x), q, y. split; [reflexivity | split; [exact Q | ]]. intros [a [E | I]]; [ | apply H; exists a; exact I]. rewrite E in P. cbn [fst] in P. rewrite str_eqb_refl in P. discriminate P.
      * intros (x & q & y & E & Q & H). destruct x as [ | p' x]; [injection E as <- _; apply not_named_in in Q; congruence | ]. injection E as <- ->. exists x, q, y. split; [reflexivity | split; [exact Q | ]].
        intros [a I]. apply H. exists a. right. exact I.
  - split; [ | reflexivity]. intros _. exists [], p, l. split; [reflexivity | split; [apply not_named_in; exact N | intros [a []]]].
Qed.

Definition header_with {A} (l : list (str * A)) (h : score_header A) : score_header A :=
  mkScoreHeader (add_to (contents_of "work" l) (sh_work h)) (add_to (contents_of "movement-number" l) (sh_number h)) (add_to (contents_of "movement-title" l) (sh_title h))
    (add_to (contents_of "identification" l) (sh_identification h)) (add_to (contents_of "defaults" l) (sh_defaults h))
    (sh_credits h ++ map (fun a => [Own a]) (contents_of "credit" l)) (add_to (contents_of "part-list" l) (sh_list h)).

Lemma header_turn_here {A} (good : A -> bool) b p l ok found first h : negb first && (List.length (sh_credits h) =? 1) = false ->
  header_turn good (here b (p :: l)) (ok, found, first, h) =
  if is_named header_names p then
    Ok (false, here b (p :: l), (ok && good (snd p), found || str_eqb (fst p) (lit "part-list"), first || str_eqb (fst p) (lit "credit"), header_with [p] h))
  else if found then Ok (false, here b (p :: l), (ok, found, first, h)) else Ok (true, here b (p :: l), (false, found, first, h)).
Proof.
  intros N. unfold header_turn. rewrite name_here. cbn [obind]. rewrite contents_here. cbn [obind]. unfold header_with. rewrite !contents_cons.
  assert (Z : forall n, contents_of n (@nil (str * A)) = []) by reflexivity. rewrite !Z.
  unfold is_named, header_names, header_members. cbn [app existsb].
  assert (D : forall m, str_eqb (fst p) (lit m) = true -> forall n, str_eqb (fst p) (lit n) = str_eqb (lit m) (lit n)) by (intros m E n; apply str_eqb_true in E; rewrite E; reflexivity).
  destruct (str_eqb (fst p) (lit "work")) eqn:E1; [rewrite !(D _ E1); lits; cbn [orb map]; rewrite ?orb_false_r, ?app_nil_r, !add_to_nil, <- add_to_give, add_to_nil; reflexivity | ].
  destruct (str_eqb (fst p) (lit "movement-number")) eqn:E2; [rewrite !(D _ E2); lits; cbn [orb map]; rewrite ?orb_false_r, ?app_nil_r, !add_to_nil, <- add_to_give, add_to_nil; reflexivity | ].
  destruct (str_eqb (fst p) (lit "movement-title")) eqn:E3; [rewrite !(D _ E3); lits; cbn [orb map]; rewrite ?orb_false_r, ?app_nil_r, !add_to_nil, <- add_to_give, add_to_nil; reflexivity | ].
  destruct (str_eqb (fst p) (lit "identification")) eqn:E4; [rewrite !(D _ E4); lits; cbn [orb map]; rewrite ?orb_false_r, ?app_nil_r, !add_to_nil, <- add_to_give, add_to_nil; reflexivity | ].
  destruct (str_eqb (fst p) (lit "defaults")) eqn:E5; [rewrite !(D _ E5); lits; cbn [orb map]; rewrite ?orb_false_r, ?app_nil_r, !add_to_nil, <- add_to_give, add_to_nil; reflexivity | ].
  destruct (str_eqb (fst p) (lit "credit")) eqn:E6; [rewrite !(D _ E6); lits; cbn [orb map]; rewrite ?orb_false_r, ?orb_true_r, !add_to_nil; unfold add_first; rewrite N; reflexivity | ].
  destruct (str_eqb (fst p) (lit "part-list")) eqn:E7; [rewrite ?(D _ E7); lits; cbn [orb map]; rewrite ?orb_false_r, ?orb_true_r, ?app_nil_r, !add_to_nil, <- add_to_give, add_to_nil; reflexivity | ].
  cbn [orb]. destruct found; reflexivity.
Qed.

Lemma header_with_cons {A} p (l : list (str * A)) h : header_with l (header_with [p] h) = header_with (p :: l) h.
Proof.
  assert (X : forall n c, add_to (contents_of n l) (add_to (contents_of n [p]) c) = add_to (contents_of n (p :: l)) c).
  { intros n c. rewrite !contents_cons. change (contents_of n (@nil (str * A))) with (@nil A). destruct (str_eqb _ _); [ | rewrite add_to_nil; reflexivity]. rewrite <- !add_to_give, add_to_nil. reflexivity. }
  unfold header_with. cbn [sh_work sh_number sh_title sh_identification sh_defaults sh_credits sh_list]. rewrite !X. f_equal.
  rewrite <- app_assoc. f_equal. rewrite !contents_cons. destruct (str_eqb _ _); reflexivity.
Qed.
Lemma header_with_other {A} p (l : list (str * A)) h : is_named header_names p = false -> header_with (p :: l) h = header_with l h.
Proof.
  unfold is_named, header_names, header_members. cbn [app existsb]. rewrite !orb_false_iff. intros (E1 & E2 & E3 & E4 & E5 & E6 & E7 & _). unfold header_with. rewrite !contents_cons, E1, E2, E3, E4, E5, E6, E7. reflexivity.
Qed.
Lemma header_with_nil {A} (h : score_header A) : header_with [] h = h.
Proof. destruct h. unfold header_with. cbn [contents_of filter map]. cbn. rewrite !add_to_nil, app_nil_r. reflexivity. Qed.


Lemma header_loop {A} (good : A -> bool) (l : list (str * A)) : forall b ok found first h, negb first && negb (List.length (sh_credits h) =? 0) = false ->
  if stops found l then exists q, Loop (header_turn good) b l (ok, found, first, h) (false, fst (fst q), snd (fst q), snd q)
  else exists f1 f2, Loop (header_turn good) b l (ok, found, first, h) (ok && forallb (fun p => negb (is_named header_names p) || good (snd p)) l, f1, f2, header_with l h).
Proof.
  induction l as [ | p l IH]; intros b ok found first h N.
  { cbn [stops forallb]. exists found, first. rewrite andb_true_r, header_with_nil. constructor. }
  assert (N1 : negb first && (List.length (sh_credits h) =? 1) = false).
  { destruct first; [reflexivity | ]. cbn [negb andb] in *. apply negb_false_iff, Nat.eqb_eq in N. rewrite N. reflexivity. }
  pose proof (header_turn_here good b p l ok found first h N1) as T. cbn [stops forallb]. destruct (is_named header_names p) eqn:E.
  - assert (N2 : negb (first || str_eqb (fst p) (lit "credit")) && negb (List.length (sh_credits (header_with [p] h)) =? 0) = false).
    { unfold header_with. cbn [sh_credits]. rewrite contents_cons. change (contents_of "credit" (@nil (str * A))) with (@nil A). destruct (str_eqb (fst p) (lit "credit")); [rewrite orb_true_r; reflexivity | ].
      cbn [map]. rewrite orb_false_r, app_nil_r. exact N. }
    specialize (IH (node_of p :: b) (ok && good (snd p)) (found || str_eqb (fst p) (lit "part-list")) (first || str_eqb (fst p) (lit "credit")) (header_with [p] h) N2).
    destruct (stops _ l).
    + destruct IH as [q L]. exists q. eapply Loop_next; [exact T | constructor | exact L].
    + destruct IH as (f1 & f2 & L). exists f1, f2. rewrite header_with_cons in L. cbn [negb orb]. rewrite andb_assoc. eapply Loop_next; [exact T | constructor | exact L].
  - destruct found.
    + specialize (IH (node_of p :: b) ok true first h N). rewrite stops_found in *. destruct IH as (f1 & f2 & L). exists f1, f2. rewrite header_with_other by exact E. cbn [negb orb andb]. eapply Loop_next; [exact T | constructor | exact L].
    + exists (false, first, h). eapply Loop_stop. exact T.
Qed.

(** ** The score *)
Definition score_step {A} (name : string) (good : A -> bool) (p : str * A) (s : bool * (bool * list (list (given A)))) : bool * (bool * list (list (given A))) :=
  let '(ok, (first, l)) := s in
  if str_eqb (fst p) (lit name) then (ok && good (snd p), (true, add_first first [Own (snd p)] l)) else (ok, (first, l)).

Lemma score_still {A} name (good : A -> bool) l s : each_child (score_turn name good) (nodes l) s = Ok (fold_left (fun s p => score_step name good p s) l s).
Proof. apply loop_still. intros b p r [ok [first acc]]. unfold score_turn. rewrite name_here. cbn [obind]. rewrite contents_here. reflexivity. Qed.

Lemma score_fold {A} name (good : A -> bool) (l : list (str * A)) : forall ok first acc, first = true ->
  fold_left (fun s p => score_step name good p s) l (ok, (first, acc)) =
  (ok && forallb (fun p => negb (is_named [name] p) || good (snd p)) l, (true, acc ++ map (fun a => [Own a]) (contents_of name l))).
Proof.
  induction l as [ | p l IH]; intros ok first acc ->; [cbn; rewrite andb_true_r, app_nil_r; reflexivity | ].
  cbn [fold_left forallb]. unfold score_step at 2. rewrite contents_cons, !named_one. destruct (str_eqb (fst p) (lit name)); cbn [negb andb orb].
  - rewrite IH by reflexivity. unfold add_first. cbn [negb andb map]. rewrite andb_assoc, <- app_assoc. reflexivity.
  - rewrite IH by reflexivity. reflexivity.
Qed.

Lemma score_is {A} name (good : A -> bool) (l : list (str * A)) : forall ok,
  fold_left (fun s p => score_step name good p s) l (ok, (false, [[]])) =
  (ok && forallb (fun p => negb (is_named [name] p) || good (snd p)) l,
   match contents_of name l with [] => (false, [[]]) | c => (true, map (fun a => [Own a]) c) end).
Proof.
  induction l as [ | p l IH]; intros ok; [cbn; rewrite andb_true_r; reflexivity | ].
  cbn [fold_left forallb]. unfold score_step at 2. rewrite contents_cons, !named_one. destruct (str_eqb (fst p) (lit name)); cbn [negb andb orb].
  - rewrite score_fold by reflexivity. unfold add_first. cbn [negb andb map List.length Nat.eqb app]. rewrite andb_assoc. reflexivity.
  - rewrite IH. reflexivity.
Qed.

Lemma header_written {A} (l : list (str * A)) :
  write_score_header (header_with l new_score_header) = List.concat (map (one_from l) header_members) ++ each_from l "credit" ++ [(lit "part-list", map Own (contents_of "part-list" l))].
Proof.
  assert (X : forall n, if_has n (add_to (contents_of n l) new_child) = one_from l n).
  { intros n. unfold if_has, add_to, one_from, always. cbn [new_child ch_has ch_given app]. rewrite orb_false_r. destruct (contents_of n l); reflexivity. }
  unfold write_score_header, header_with, new_score_header. cbn [sh_work sh_number sh_title sh_identification sh_defaults sh_credits sh_list app]. rewrite !X.
  unfold header_members. cbn [map List.concat]. rewrite app_nil_r, <- !app_assoc. do 5 f_equal. unfold each_from. rewrite map_map. reflexivity.
Qed.

Lemma parts_written {A} name (l : list (str * A)) b c :
  match contents_of name l with [] => (false, [[]]) | c => (true, map (fun a => [Own a]) c) end = (b, c) ->
  map (fun g => (lit name, g)) c = match contents_of name l with [] => [(lit name, [])] | _ => each_from l name end.
Proof. unfold each_from. destruct (contents_of name l); intros E; injection E as <- <-; [reflexivity | ]. cbn [map]. f_equal. rewrite map_map. reflexivity. Qed.

Lemma score_read {A} name (good : A -> bool) (l : list (str * A)) :
  if stops false l then refused (read_score name good) l
  else exists s, read_score name good (nodes l) = Ok (forallb (fun p => negb (is_named header_names p) || good (snd p)) l && forallb (fun p => negb (is_named [name] p) || good (snd p)) l, s)
       /\ write_score name s = score_written name l.
Proof.
  unfold refused, read_score, read_score_header. pose proof (header_loop good l [] true false false new_score_header eq_refl) as H. destruct (stops false l).
  - destruct H as [q L]. apply each_ok in L. rewrite L. cbn [omap obind]. rewrite score_still, score_is. cbn [omap obind andb]. destruct (match contents_of name l with [] => _ | _ => _ end). eauto.
  - destruct H as (f1 & f2 & L). apply each_ok in L. rewrite L. cbn [omap obind andb]. rewrite score_still, score_is. cbn [omap obind].
    destruct (match contents_of name l with [] => _ | _ => _ end) as [b c] eqn:E. eexists. split; [reflexivity | ].
    unfold write_score. cbn [fst snd]. rewrite header_written, (parts_written _ _ _ _ E). unfold score_written. rewrite <- !app_assoc. reflexivity.
Qed.

Theorem score_exact A name (good : A -> bool) (l : list (str * A)) : exists b s, read_score name good (nodes l) = Ok (b, s) /\
  (b = false <-> before_part_list l \/ Exists (fun p => In (fst p) (map lit (name :: header_names)) /\ good (snd p) = false) l) /\
  (~ before_part_list l -> write_score name s = score_written name l).
Proof.
  pose proof (score_read name good l) as R. pose proof (stops_is l) as S. destruct (stops false l).
  - destruct R as [s E]. exists false, s. split; [exact E | split; [ | intros N; destruct (N (proj1 S eq_refl))]]. split; [intros _; left; apply S; reflexivity | reflexivity].
  - destruct R as (s & E & W). do 2 eexists. split; [exact E | split; [ | intros _; exact W]].
    assert (X : forallb (fun p => negb (is_named header_names p) || good (snd p)) l && forallb (fun p => negb (is_named [name] p) || good (snd p)) l = false
      <-> Exists (fun p => In (fst p) (map lit (name :: header_names)) /\ good (snd p) = false) l).
    { rewrite andb_false_iff, !forallb_false. split.
      - intros [H | H]; (eapply Exists_impl; [ | exact H]); intros p; cbn beta; rewrite orb_false_iff, negb_false_iff, named_in; intros [I G]; (split; [ | exact G]).
        + right. exact I.
        + left. destruct I as [I | []]. exact I.
      - intros H. apply Exists_exists in H. destruct H as (p & I & [[N | N] G]); [right | left]; apply Exists_exists; exists p; (split; [exact I | ]); rewrite orb_false_iff, negb_false_iff, named_in; (split; [ | exact G]); [left; exact N | exact N]. }
    rewrite X. split; [auto | ]. intros [B | H]; [ | exact H]. apply S in B. discriminate B.
Qed.

Lemma contents_app {A} n (x y : list (str * A)) : contents_of n (x ++ y) = contents_of n x ++ contents_of n y.
Proof. unfold contents_of. rewrite filter_app, map_app. reflexivity. Qed.
Lemma contents_other {A} n m (l : list A) : str_eqb (lit m) (lit n) = false -> contents_of n (all_named m l) = [].
Proof. intros E. induction l as [ | a l IH]; [reflexivity | ]. change (all_named m (a :: l)) with ((lit m, a) :: all_named m l). rewrite contents_cons. cbn [fst]. rewrite E. exact IH. Qed.

Definition maybe {A} (o : option A) : list A := match o with Some a => [a] | None => [] end.
Lemma inv_maybe {A} n (z : list (str * A)) : conforms (Optional (Element n)) z -> exists o, z = all_named n (maybe o).
Proof. intros H. apply inv_optional in H. destruct H as [-> | H]; [exists None; reflexivity | ]. apply inv_element in H. destruct H as [a ->]. exists (Some a). reflexivity. Qed.

Lemma one_maybe {A} n (l : list (str * A)) o : contents_of n l = maybe o -> Forall2 same_child (one_from l n) (all_named n (maybe o)).
Proof. intros E. unfold one_from. rewrite E. destruct o; repeat (constructor; [same | ]); constructor. Qed.

Lemma inv_score {A} name (l : list (str * A)) : conforms (score_content name) l -> exists w n t i d cs pl a ns,
  l = all_named "work" (maybe w) ++ all_named "movement-number" (maybe n) ++ all_named "movement-title" (maybe t) ++ all_named "identification" (maybe i) ++ all_named "defaults" (maybe d)
      ++ all_named "credit" cs ++ all_named "part-list" [pl] ++ all_named name (a :: ns).
Proof.
  intros H. unfold score_content, score_header_content in H. cbn [app] in H.
  apply inv_sequence in H. destruct H as (x1 & y1 & -> & X1 & H). apply inv_maybe in X1. destruct X1 as [w ->].
  apply inv_sequence in H. destruct H as (x2 & y2 & -> & X2 & H). apply inv_maybe in X2. destruct X2 as [n ->].
  apply inv_sequence in H. destruct H as (x3 & y3 & -> & X3 & H). apply inv_maybe in X3. destruct X3 as [t ->].
  apply inv_sequence in H. destruct H as (x4 & y4 & -> & X4 & H). apply inv_maybe in X4. destruct X4 as [i ->].
  apply inv_sequence in H. destruct H as (x5 & y5 & -> & X5 & H). apply inv_maybe in X5. destruct X5 as [d ->].
  apply inv_sequence in H. destruct H as (x6 & y6 & -> & X6 & H). apply inv_many_element in X6. destruct X6 as [cs ->].
  apply inv_sequence in H. destruct H as (x7 & y7 & -> & X7 & H). apply inv_element in X7. destruct X7 as [pl ->].
  apply inv_sequence in H. destruct H as (x8 & y8 & -> & X8 & H). apply inv_some_element in X8. destruct X8 as (a & ns & ->). apply inv_nothing in H. subst y8.
  rewrite app_nil_r. exists w, n, t, i, d, cs, pl, a, ns. reflexivity.
Qed.

Lemma stops_named {A} m (l : list A) r : existsb (fun n => str_eqb (lit m) (lit n)) header_names = true -> str_eqb (lit m) (lit "part-list") = false ->
  stops false (all_named m l ++ r) = stops false r.
Proof. intros E F. induction l as [ | a l IH]; [reflexivity | ]. cbn [all_named map app stops orb]. unfold is_named. cbn [fst]. rewrite E, F. exact IH. Qed.

Lemma score_starts {A} name (l : list (str * A)) : conforms (score_content name) l -> stops false l = false.
Proof.
  intros H. apply inv_score in H. destruct H as (w & n & t & i & d & cs & pl & a & ns & ->). rewrite !stops_named by reflexivity. set (r := all_named name (a :: ns)). cbn [all_named map app stops orb fst]. rewrite str_eqb_refl.
  assert (E : @is_named A header_names (lit "part-list", pl) = true) by reflexivity. rewrite E. apply stops_found.
Qed.

Lemma score_all {A} (good : A -> bool) names (l : list (str * A)) : all_readable good l -> forallb (fun p => negb (is_named names p) || good (snd p)) l = true.
Proof. intros G. apply forallb_forall. intros p I. unfold all_readable in G. rewrite Forall_forall in G. rewrite (G p I). apply orb_true_r. Qed.

Lemma score_same {A} name (l : list (str * A)) : existsb (fun n => str_eqb (lit name) (lit n)) header_names = false -> conforms (score_content name) l ->
  Forall2 same_child (score_written name l) l.
Proof.
  intros N H. apply inv_score in H. destruct H as (w & n & t & i & d & cs & pl & a & ns & ->).
  unfold header_names, header_members in N. cbn [app existsb] in N. rewrite !orb_false_iff in N. destruct N as (N1 & N2 & N3 & N4 & N5 & N6 & N7 & _).
  match goal with |- Forall2 _ (score_written _ ?l) _ => set (z := l); change (Forall2 same_child (score_written name z) z) end.
  assert (C1 : contents_of "work" z = maybe w) by (subst z; rewrite !contents_app, contents_named, ?contents_other by (reflexivity || assumption); rewrite ?app_nil_r; reflexivity).
  assert (C2 : contents_of "movement-number" z = maybe n) by (subst z; rewrite !contents_app, contents_named, ?contents_other by (reflexivity || assumption); cbn [app]; rewrite ?app_nil_r; reflexivity).
  assert (C3 : contents_of "movement-title" z = maybe t) by (subst z; rewrite !contents_app, contents_named, ?contents_other by (reflexivity || assumption); cbn [app]; rewrite ?app_nil_r; reflexivity).
  assert (C4 : contents_of "identification" z = maybe i) by (subst z; rewrite !contents_app, contents_named, ?contents_other by (reflexivity || assumption); cbn [app]; rewrite ?app_nil_r; reflexivity).
  assert (C5 : contents_of "defaults" z = maybe d) by (subst z; rewrite !contents_app, contents_named, ?contents_other by (reflexivity || assumption); cbn [app]; rewrite ?app_nil_r; reflexivity).
  assert (C6 : contents_of "credit" z = cs) by (subst z; rewrite !contents_app, contents_named, ?contents_other by (reflexivity || assumption); cbn [app]; rewrite ?app_nil_r; reflexivity).
  assert (C7 : contents_of "part-list" z = [pl]) by (subst z; rewrite !contents_app, contents_named, ?contents_other by (reflexivity || assumption); cbn [app]; rewrite ?app_nil_r; reflexivity).
  assert (C8 : contents_of name z = a :: ns).
  { subst z. rewrite !contents_app, contents_named, ?contents_other by (rewrite eqb_sym; assumption). reflexivity. }
  unfold score_written, header_members. cbn [map List.concat]. rewrite app_nil_r, <- !app_assoc. unfold each_from. rewrite C6, C7, C8. subst z.
  apply Forall2_app'; [apply one_maybe; exact C1 | ]. apply Forall2_app'; [apply one_maybe; exact C2 | ]. apply Forall2_app'; [apply one_maybe; exact C3 | ].
  apply Forall2_app'; [apply one_maybe; exact C4 | ]. apply Forall2_app'; [apply one_maybe; exact C5 | ]. apply Forall2_app'; [apply same_named | ].
  apply Forall2_app'; [constructor; [same | constructor] | apply same_named].
Qed.

Lemma score_back A name (good : A -> bool) (l : list (str * A)) : existsb (fun n => str_eqb (lit name) (lit n)) header_names = false ->
  conforms (score_content name) l -> all_readable good l -> comes_back (read_score name good) (write_score name) l.
Proof.
  intros N H G. pose proof (score_read name good l) as R. rewrite (score_starts _ _ H), !score_all in R by exact G. destruct R as (s & E & W). exists s. split; [exact E | ].
  rewrite W. apply score_same; assumption.
Qed.

Theorem score_partwise_back A (good : A -> bool) (l : list (str * A)) : conforms (score_content "part") l -> all_readable good l -> comes_back (read_score_partwise good) write_score_partwise l.
Proof. apply score_back. reflexivity. Qed.
Theorem score_timewise_back A (good : A -> bool) (l : list (str * A)) : conforms (score_content "measure") l -> all_readable good l -> comes_back (read_score_timewise good) write_score_timewise l.
Proof. apply score_back. reflexivity. Qed.

Theorem score_partwise_exact A (good : A -> bool) (l : list (str * A)) : exists b s, read_score_partwise good (nodes l) = Ok (b, s) /\
  (b = false <-> before_part_list l \/ Exists (fun p => In (fst p) (map lit ("part"%string :: header_names)) /\ good (snd p) = false) l) /\
  (~ before_part_list l -> write_score_partwise s = score_written "part" l).
Proof. apply score_exact. Qed.
Theorem score_timewise_exact A (good : A -> bool) (l : list (str * A)) : exists b s, read_score_timewise good (nodes l) = Ok (b, s) /\
  (b = false <-> before_part_list l \/ Exists (fun p => In (fst p) (map lit ("measure"%string :: header_names)) /\ good (snd p) = false) l) /\
  (~ before_part_list l -> write_score_timewise s = score_written "measure" l).
Proof. apply score_exact. Qed.
