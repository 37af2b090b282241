(** credit and harmony, read and written again. *)
From Coq Require Import List String Ascii Bool PeanoNat Lia.
From Verif Require Import Model.Base Model.Text Model.ElementReading Model.ElementGroups Spec.ContentModels Proofs.GroupLoops Proofs.ChildrenProofs Proofs.GroupRuns.
Import ListNotations.
Local Open Scope list_scope.

(** ** credit *)
Definition words_names {A} (g : list A * list A * A) : list (str * A) :=
  let '(ls, bs, w) := g in all_named "link" ls ++ all_named "bookmark" bs ++ [(lit "credit-words", w)].
Definition words_of {A} (g : list A * list A * A) : words_group A :=
  let '(ls, bs, w) := g in mkWordsGroup (map (fun _ => Parent) ls) (map (fun _ => Parent) bs) (own w).
Definition words_groups {A} (l : list (list A * list A * A)) : list (str * A) := List.concat (map words_names l).

Lemma inv_words {A} (z : list (str * A)) :
  conforms (Many (Sequence [Many (Element "link"); Many (Element "bookmark"); Element "credit-words"])) z -> exists l, z = words_groups l.
Proof.
  intros H. apply inv_many in H. destruct H as (zs & -> & F).
  induction F as [ | z zs C F (l & E)]; [exists []; reflexivity | ]. cbn [List.concat]. rewrite E.
  apply inv_sequence in C. destruct C as (x1 & y1 & -> & C1 & C). apply inv_sequence in C. destruct C as (x2 & y2 & -> & C2 & C).
  apply inv_sequence in C. destruct C as (x3 & y3 & -> & C3 & C). apply inv_nothing in C. subst y3.
  apply inv_many_element in C1. destruct C1 as [u ->]. apply inv_many_element in C2. destruct C2 as [v ->]. apply inv_element in C3. destruct C3 as [w ->].
  exists ((u, v, w) :: l). unfold words_groups. cbn [map List.concat words_names]. rewrite app_nil_r. reflexivity.
Qed.

Lemma not_named {A} n m (l : list A) t : str_eqb (lit m) (lit n) = false -> not_first n t -> not_first n (all_named m l ++ t).
Proof. destruct l; [exact (fun _ N => N) | exact (fun E _ => E)]. Qed.

Lemma read_words_ok {A} (l : list (list A * list A * A)) : forall g fuel b, List.length l <= fuel ->
  read_words_groups fuel (here b (words_groups (g :: l))) (mkWordsGroup [] [] new_child) = Ok (map words_of (g :: l)).
Proof.
  induction l as [ | g' l IH]; intros [[ls bs] w] fuel b F.
  - assert (R : read_words_groups fuel (here b (all_named "link" ls ++ all_named "bookmark" bs ++ [(lit "credit-words", w)])) (mkWordsGroup [] [] new_child) = Ok [words_of (ls, bs, w)]).
    { destruct fuel; cbn [read_words_groups]; rewrite !left_here;
        (rewrite take_all_named; [ | rewrite !app_length, all_named_length; lia | apply not_named; [reflexivity | reflexivity]]);
        cbn [obind]; (destruct bs as [ | b0 bs]; [cbn [all_named map app]; rewrite at_end_here | cbn [all_named map app]; rewrite at_end_here; fold (all_named "bookmark" bs);
          change ((lit "bookmark", b0) :: all_named "bookmark" bs ++ [(lit "credit-words", w)]) with (all_named "bookmark" (b0 :: bs) ++ [(lit "credit-words", w)])]);
        rewrite !left_here.
      1,3: rewrite (take_all_named "bookmark" [] [(lit "credit-words", w)]); [ | apply le_0_n | reflexivity]; cbn [obind all_named map after]; go; reflexivity.
      all: rewrite take_all_named; [ | rewrite !app_length, all_named_length; lia | reflexivity]; cbn [obind]; go; reflexivity. }
    unfold words_groups. cbn [map List.concat words_names]. rewrite app_nil_r. exact R.
  - destruct fuel as [ | fuel]; [cbn in F; lia | ]. cbn [List.length] in F. apply le_S_n in F. set (t := words_groups (g' :: l)).
    assert (T : exists p r, t = p :: r).
    { unfold t, words_groups. destruct g' as [[[ | ? ?] [ | ? ?]] ?]; cbn [map List.concat words_names all_named app]; eauto. }
    destruct T as (tp & tr & T).
    assert (R : read_words_groups (S fuel) (here b (all_named "link" ls ++ all_named "bookmark" bs ++ (lit "credit-words", w) :: t)) (mkWordsGroup [] [] new_child)
      = Ok (words_of (ls, bs, w) :: map words_of (g' :: l))).
    { cbn [read_words_groups]; rewrite !left_here.
      rewrite take_all_named; [ | rewrite !app_length, all_named_length; lia | apply not_named; [reflexivity | reflexivity]]. cbn [obind].
      assert (X : at_end (here (after b (all_named "link" ls)) (all_named "bookmark" bs ++ (lit "credit-words", w) :: t)) = false) by (destruct bs; reflexivity).
      rewrite X, !left_here. rewrite take_all_named; [ | rewrite !app_length, all_named_length; lia | reflexivity]. cbn [obind]. rewrite at_end_here, take_here. cbn [fst snd]. lits. cbn [obind].
      rewrite T, at_end_here, <- T. cbn [negb andb]. unfold t. rewrite (IH g' fuel _ F). reflexivity. }
    unfold words_groups. cbn [map List.concat words_names]. rewrite <- !app_assoc. cbn [app]. exact R.
Qed.

Lemma credit_start {A} (ts ls bs : list A) t : not_first "credit-type" t -> not_first "link" t -> not_first "bookmark" t ->
  exists b, read_credit (nodes (all_named "credit-type" ts ++ all_named "link" ls ++ all_named "bookmark" bs ++ t)) = read_credit_choice (here b t) ts ls bs.
Proof.
  intros N1 N2 N3. exists (after (after (after [] (all_named "credit-type" ts)) (all_named "link" ls)) (all_named "bookmark" bs)). unfold read_credit. cbv zeta.
  rewrite begin_nodes, left_here. rewrite take_all_named; [ | rewrite !app_length, !all_named_length; lia | repeat (apply not_named; [reflexivity | ]); exact N1]. cbn [obind].
  rewrite left_here. rewrite take_all_named; [ | rewrite !app_length, !all_named_length; lia | repeat (apply not_named; [reflexivity | ]); exact N2]. cbn [obind].
  rewrite left_here. rewrite take_all_named; [ | rewrite !app_length, !all_named_length; lia | exact N3]. reflexivity.
Qed.

Lemma words_length {A} (l : list (list A * list A * A)) : List.length l <= List.length (words_groups l).
Proof.
  induction l as [ | [[ls bs] w] l IH]; [constructor | ]. unfold words_groups. cbn [map List.concat words_names]. fold (words_groups l). rewrite !app_length. cbn [List.length]. lia.
Qed.

Lemma credit_parts {A} (l : list (str * A)) : conforms credit_content l ->
  exists ts ls bs t, l = all_named "credit-type" ts ++ all_named "link" ls ++ all_named "bookmark" bs ++ t /\
    ((exists i, t = [(lit "credit-image", i)]) \/ (exists w gs, t = (lit "credit-words", w) :: words_groups gs)).
Proof.
  unfold credit_content. intros H. apply inv_sequence in H. destruct H as (x1 & y1 & -> & C1 & H). apply inv_sequence in H. destruct H as (x2 & y2 & -> & C2 & H).
  apply inv_sequence in H. destruct H as (x3 & y3 & -> & C3 & H). apply inv_sequence in H. destruct H as (x4 & y4 & -> & C4 & H). apply inv_nothing in H. subst y4.
  apply inv_many_element in C1. destruct C1 as [ts ->]. apply inv_many_element in C2. destruct C2 as [ls ->]. apply inv_many_element in C3. destruct C3 as [bs ->].
  rewrite app_nil_r. exists ts, ls, bs, x4. split; [reflexivity | ]. apply inv_choice in C4. destruct C4 as (c & [<- | [<- | []]] & C).
  - left. apply inv_element in C. exact C.
  - right. apply inv_sequence in C. destruct C as (x & y & -> & X & C). apply inv_sequence in C. destruct C as (g & e & -> & G & C). apply inv_nothing in C. subst e.
    apply inv_element in X. destruct X as [w ->]. apply inv_words in G. destruct G as [gs ->]. rewrite app_nil_r. exists w, gs. reflexivity.
Qed.

Lemma credit_image_read {A} (ts ls bs : list A) i :
  read_credit (nodes (all_named "credit-type" ts ++ all_named "link" ls ++ all_named "bookmark" bs ++ [(lit "credit-image", i)])) = Ok (true, mkCredit ts ls bs true (own i) new_child []).
Proof. destruct (credit_start ts ls bs [(lit "credit-image", i)]) as [b R]; try reflexivity. rewrite R. unfold read_credit_choice. go. reflexivity. Qed.

Lemma credit_words_read {A} (ts ls bs : list A) w gs :
  read_credit (nodes (all_named "credit-type" ts ++ all_named "link" ls ++ all_named "bookmark" bs ++ (lit "credit-words", w) :: words_groups gs))
  = Ok (true, mkCredit ts ls bs false new_child (own w) (map words_of gs)).
Proof.
  destruct (credit_start ts ls bs ((lit "credit-words", w) :: words_groups gs)) as [b R]; try reflexivity. rewrite R. unfold read_credit_choice. go. destruct gs as [ | g gs].
  - reflexivity.
  - assert (X : at_end (here (node_of (lit "credit-words", w) :: b) (words_groups (g :: gs))) = false).
    { unfold words_groups. destruct g as [[[ | ? ?] [ | ? ?]] ?]; reflexivity. }
    rewrite X, left_here, read_words_ok; [reflexivity | ]. pose proof (words_length (g :: gs)) as L. cbn [List.length] in L |- *. lia.
Qed.

Lemma words_written_names {A} (gs : list (list A * list A * A)) : map fst (List.concat (map write_words_group (map words_of gs))) = map fst (words_groups gs).
Proof.
  induction gs as [ | [[ls bs] w] gs IH]; [reflexivity | ]. unfold words_groups in *. cbn [map List.concat]. rewrite !map_app, IH. f_equal.
  unfold write_words_group. cbn [words_of words_names wg_links wg_bookmarks wg_words always]. unfold all_named. rewrite !map_app, !map_map. reflexivity.
Qed.

Theorem credit_names A (l : list (str * A)) : conforms credit_content l -> names_come_back read_credit write_credit l.
Proof.
  intros H. destruct (credit_parts l H) as (ts & ls & bs & t & -> & [[i ->] | (w & gs & ->)]); eexists.
  - split; [apply credit_image_read | ]. unfold write_credit. cbn [cr_types cr_links cr_bookmarks cr_isImage cr_image]. rewrite !map_app. unfold all_named. rewrite !map_map. reflexivity.
  - split; [apply credit_words_read | ]. unfold write_credit. cbn [cr_types cr_links cr_bookmarks cr_isImage cr_words cr_groups]. rewrite !map_app, words_written_names.
    unfold all_named. rewrite !map_map. reflexivity.
Qed.

Theorem credit_back A (l : list (str * A)) :
  conforms (Sequence [Many (Element "credit-type"); Many (Element "link"); Many (Element "bookmark"); Choice [Element "credit-image"; Some_of (Element "credit-words")]]) l ->
  comes_back read_credit write_credit l.
Proof.
  intros H. apply inv_sequence in H. destruct H as (x1 & y1 & -> & C1 & H). apply inv_sequence in H. destruct H as (x2 & y2 & -> & C2 & H).
  apply inv_sequence in H. destruct H as (x3 & y3 & -> & C3 & H). apply inv_sequence in H. destruct H as (x4 & y4 & -> & C4 & H). apply inv_nothing in H. subst y4.
  apply inv_many_element in C1. destruct C1 as [ts ->]. apply inv_many_element in C2. destruct C2 as [ls ->]. apply inv_many_element in C3. destruct C3 as [bs ->].
  rewrite app_nil_r. apply inv_choice in C4. destruct C4 as (c & [<- | [<- | []]] & C).
  - apply inv_element in C. destruct C as [i ->]. eexists. split; [apply credit_image_read | ]. unfold write_credit. cbn [cr_types cr_links cr_bookmarks cr_isImage cr_image].
    repeat (apply Forall2_app; [apply same_named | ]). constructor; [same | constructor].
  - apply inv_sequence in C. destruct C as (x & y & -> & X & C). apply inv_sequence in C. destruct C as (g & e & -> & G & C). apply inv_nothing in C. subst e.
    apply inv_element in X. destruct X as [w ->]. apply inv_many_element in G. destruct G as [ws ->]. rewrite app_nil_r. cbn [app].
    assert (E : all_named "credit-words" ws = words_groups (map (fun w => ([], [], w)) ws)).
    { induction ws as [ | u ws IH]; [reflexivity | ]. unfold words_groups. cbn [map List.concat words_names all_named app]. fold (all_named "credit-words" ws). rewrite IH. reflexivity. }
    rewrite E. eexists. split; [apply credit_words_read | ]. unfold write_credit. cbn [cr_types cr_links cr_bookmarks cr_isImage cr_words cr_groups].
    repeat (apply Forall2_app; [apply same_named | ]). constructor; [same | ]. rewrite <- E. clear E. induction ws as [ | u ws IH]; [constructor | ].
    cbn [map List.concat words_of]. unfold write_words_group at 1. cbn [wg_links wg_bookmarks wg_words map app always]. constructor; [same | exact IH].
Qed.

(** A credit without image or words. *)
Theorem credit_refused A (ts ls bs : list A) : refused read_credit (all_named "credit-type" ts ++ all_named "link" ls ++ all_named "bookmark" bs).
Proof.
  destruct (credit_start ts ls bs []) as [b R]; try exact I. rewrite app_nil_r in R. unfold refused. rewrite R. eexists. reflexivity.
Qed.

(** ** harmony *)
Record chord (A : Type) := mkChord { co_isF : bool; co_r : A; co_k : A; co_i : option A; co_b : option A; co_d : list A }.
Arguments mkChord {A}.
Arguments co_isF {A}.
Arguments co_r {A}.
Arguments co_k {A}.
Arguments co_i {A}.
Arguments co_b {A}.
Arguments co_d {A}.
Definition opt_child {A} (n : string) (o : option A) : list (str * A) := match o with Some a => [(lit n, a)] | None => [] end.
Definition chord_names {A} (c : chord A) : list (str * A) :=
  (lit (if co_isF c then "function" else "root"), co_r c) :: (lit "kind", co_k c) :: opt_child "inversion" (co_i c) ++ opt_child "bass" (co_b c) ++ all_named "degree" (co_d c).
Definition chord_of {A} (c : chord A) : chord_group A :=
  mkChordGroup (co_isF c) (if co_isF c then new_child else own (co_r c)) (if co_isF c then own (co_r c) else new_child) (own (co_k c)) (time_child (co_i c)) (time_child (co_b c)) (co_d c).
Definition chords {A} (l : list (chord A)) : list (str * A) := List.concat (map chord_names l).

Lemma inv_opt {A} n (z : list (str * A)) : conforms (Optional (Element n)) z -> exists o, z = opt_child n o.
Proof. intros H. apply inv_optional in H. destruct H as [-> | H]; [exists None; reflexivity | ]. apply inv_element in H. destruct H as [a ->]. exists (Some a). reflexivity. Qed.

Lemma inv_chord {A} (z : list (str * A)) : conforms harmony_chord_content z -> exists c, z = chord_names c.
Proof.
  unfold harmony_chord_content. intros C. apply inv_sequence in C. destruct C as (x1 & y1 & -> & C1 & C). apply inv_sequence in C. destruct C as (x2 & y2 & -> & C2 & C).
  apply inv_sequence in C. destruct C as (x3 & y3 & -> & C3 & C). apply inv_sequence in C. destruct C as (x4 & y4 & -> & C4 & C).
  apply inv_sequence in C. destruct C as (x5 & y5 & -> & C5 & C). apply inv_nothing in C. subst y5. rewrite app_nil_r.
  apply inv_one_of in C1. destruct C1 as (n & r & I & ->). apply inv_element in C2. destruct C2 as [k ->]. apply inv_opt in C3. destruct C3 as [i ->].
  apply inv_opt in C4. destruct C4 as [b ->]. apply inv_many_element in C5. destruct C5 as [d ->].
  destruct I as [<- | [<- | []]]; [exists (mkChord false r k i b d) | exists (mkChord true r k i b d)]; reflexivity.
Qed.

Lemma inv_chords {A} (z : list (str * A)) : conforms (Some_of harmony_chord_content) z -> exists c l, z = chords (c :: l).
Proof.
  intros H. apply inv_some in H. destruct H as (x & zs & -> & F). inversion F as [ | ? ? X Z]; subst. apply inv_chord in X. destruct X as [c ->]. exists c.
  assert (exists l, List.concat zs = chords l) as [l E].
  { clear - Z. induction Z as [ | z zs C Z (l & E)]; [exists []; reflexivity | ]. apply inv_chord in C. destruct C as [c ->]. exists (c :: l). cbn. rewrite E. reflexivity. }
  exists l. cbn [List.concat]. rewrite E. reflexivity.
Qed.

(** What may follow a chord. *)
Definition ends_chord {A} (t : list (str * A)) : Prop := not_first "inversion" t /\ not_first "bass" t /\ not_first "degree" t.

Lemma chord_read {A} (c : chord A) b t : ends_chord t ->
  exists b' p, after b (chord_names c) = node_of p :: b' /\
    read_chord_group (co_isF c) (here b (chord_names c ++ t)) =
      Ok (Some (chord_of c), match t, co_d c with [], [] => here (node_of p :: b') [] | _, _ => here b' (p :: t) end).
Proof.
  intros (N1 & N2 & N3). destruct c as [f r k i s d]. unfold chord_names, read_chord_group. cbn [co_isF co_r co_k co_i co_b co_d app]. rewrite contents_here. cbn [obind]. rewrite increment_here.
  cbn [obind snd]. rewrite take_here. cbn [fst snd]. lits. cbn [obind negb]. rewrite <- !app_assoc.
  destruct d as [ | d0 d].
  - cbn [all_named map app]. rewrite ?app_nil_r. destruct t as [ | p t].
    + destruct i as [i | ]; destruct s as [s | ]; cbn [opt_child app after]; go; do 2 eexists; (split; [reflexivity | ]); destruct f; reflexivity.
    + assert (M1 : str_eqb (fst p) (lit "inversion") = false) by exact N1. assert (M2 : str_eqb (fst p) (lit "bass") = false) by exact N2.
      destruct i as [i | ]; destruct s as [s | ]; cbn [opt_child app after]; repeat (go; rewrite ?M1, ?M2; cbn [obind]);
        rewrite left_here, (take_all_named "degree" [] (p :: t)) by (apply le_0_n || exact N3); cbn [obind fst snd all_named map after]; rewrite decrement_here;
        do 2 eexists; (split; [reflexivity | ]); destruct f; reflexivity.
  - assert (D' : forall b0, exists b' p, after b0 (all_named "degree" (d0 :: d)) = node_of p :: b' /\
        forall f : list A -> chord_group A, (obind (take_all (left (here b0 (all_named "degree" (d0 :: d) ++ t))) "degree" (here b0 (all_named "degree" (d0 :: d) ++ t)))
          (fun q => omap (fun it4 => (Some (f (snd q)), it4)) (decrement (fst q)))) = Ok (Some (f (d0 :: d)), here b' (p :: t))).
    { intros b0. destruct (after_named b0 "degree" d0 d) as (b' & a' & E & DD). exists b', (lit "degree", a'). split; [exact E | ]. intros g.
      rewrite left_here, take_all_named; [ | rewrite app_length, all_named_length; lia | exact N3]. cbn [obind fst snd]. rewrite DD. reflexivity. }
    set (ds := all_named "degree" (d0 :: d) ++ t) in *.
    assert (X : forall b0, at_end (here b0 ds) = false) by reflexivity.
    assert (N : forall n, str_eqb (lit "degree") (lit n) = false -> not_first n ds) by (intros n E; exact E).
    assert (M1 : not_first "inversion" ds) by (apply N; reflexivity). assert (M2 : not_first "bass" ds) by (apply N; reflexivity).
    destruct i as [i | ]; destruct s as [s | ]; cbn [opt_child app after]; repeat (go; rewrite ?X);
    match goal with |- context [take_all _ "degree" (here ?b0 ds)] => destruct (D' b0) as (b' & p & E & DD) end;
    exists b', p; (split; [exact E | ]); (eapply eq_trans; [apply (DD (fun d => mkChordGroup f _ _ _ _ _ d)) | destruct f, t; reflexivity]).
Qed.

Lemma chords_start {A} (c : chord A) l t n : str_eqb (lit "root") (lit n) = false -> str_eqb (lit "function") (lit n) = false -> not_first n (chords (c :: l) ++ t).
Proof. intros E1 E2. destruct c as [[ | ] r k i b d]; assumption. Qed.

Lemma add_kept {A} first (g : chord_group A) l : add_chord_group first g l = kept first l ++ [g].
Proof. unfold add_chord_group, kept. destruct first; [reflexivity | ]. destruct l as [ | x [ | y l]]; reflexivity. Qed.

Lemma chord_turn {A} (c : chord A) b t ok found first h ret g i :
  read_chord_group (co_isF c) (here b (chord_names c ++ t)) = Ok (Some g, i) ->
  harmony_turn (here b (chord_names c ++ t)) (ok, found, first, h, ret)
  = Ok (at_end i, i, (ok, true, true, mkHarmony (kept first (hm_groups h) ++ [g]) (hm_frame h) (hm_offset h) (hm_footnote h) (hm_level h) (hm_staff h), at_end i)).
Proof.
  intros R. unfold harmony_turn. set (X := here b (chord_names c ++ t)) in *.
  assert (E1 : named_now "root" X = Ok (negb (co_isF c))) by (destruct c as [[ | ] ? ? ? ? ?]; reflexivity).
  assert (E2 : named_now "function" X = Ok (co_isF c)) by (destruct c as [[ | ] ? ? ? ? ?]; reflexivity).
  rewrite E1, E2. destruct (co_isF c); cbn [negb obind]; rewrite R; cbn [obind]; rewrite add_kept; reflexivity.
Qed.

Definition harmony_result {A} (s : bool * bool * bool * harmony A * bool) : bool * harmony A := let '(ok, found, _, h, returned) := s in (ok && (found || returned), h).

(** The chords, and then whatever follows them. *)
Lemma chords_loop {A} (t : list (str * A)) (fin : list (chord_group A) -> harmony A) fr o n v st : ends_chord t ->
  (forall b g, exists r, Loop harmony_turn b t (true, true, true, mkHarmony g fr o n v st, false) r /\ harmony_result r = (true, fin g)) ->
  (t = [] -> forall g, fin g = mkHarmony g fr o n v st) ->
  forall l c b first found g, exists r, Loop harmony_turn b (chords (c :: l) ++ t) (true, found, first, mkHarmony g fr o n v st, false) r /\
    harmony_result r = (true, fin (kept first g ++ map chord_of (c :: l))).
Proof.
  intros T L0 L1. induction l as [ | c' l IH]; intros c b first found g.
  - destruct (chord_read c b t T) as (b' & p & E & R).
    pose proof (chord_turn c b t true found first (mkHarmony g fr o n v st) false _ _ R) as Q. cbn [hm_groups hm_frame hm_offset hm_footnote hm_level hm_staff] in Q.
    unfold chords. cbn [map List.concat]. rewrite app_nil_r.
    assert (C : exists q z, chord_names c ++ t = q :: z /\ List.length t <= List.length z).
    { unfold chord_names. cbn [app]. do 2 eexists. split; [reflexivity | ]. cbn [List.length]. rewrite app_length. lia. }
    destruct C as (q & z & Z & D). rewrite Z in *.
    destruct t as [ | t0 t]; [destruct (co_d c) eqn:DD | ].
    + eexists. split; [eapply Loop_stop; exact Q | ]. cbn [harmony_result andb orb]. rewrite (L1 eq_refl). reflexivity.
    + destruct (L0 (node_of p :: b') (kept first g ++ [chord_of c])) as (r & L & H). exists r. split; [eapply Loop_next; [exact Q | exact D | exact L] | exact H].
    + destruct (L0 (node_of p :: b') (kept first g ++ [chord_of c])) as (r & L & H). exists r. split; [eapply Loop_next; [exact Q | exact D | exact L] | exact H].
  - assert (T' : ends_chord (chords (c' :: l) ++ t)) by (split; [ | split]; apply chords_start; reflexivity).
    destruct (chord_read c b _ T') as (b' & p & E & R).
    pose proof (chord_turn c b (chords (c' :: l) ++ t) true found first (mkHarmony g fr o n v st) false _ _ R) as Q. cbn [hm_groups hm_frame hm_offset hm_footnote hm_level hm_staff] in Q.
    destruct (IH c' (node_of p :: b') true true (kept first g ++ [chord_of c])) as (r & L & H). rewrite kept_true, <- app_assoc in H.
    assert (C : exists q z, chord_names c ++ chords (c' :: l) ++ t = q :: z /\ List.length (chords (c' :: l) ++ t) <= List.length z).
    { generalize (chords (c' :: l) ++ t). intros w. unfold chord_names. cbn [app]. do 2 eexists. split; [reflexivity | ]. cbn [List.length]. rewrite app_length. lia. }
    destruct C as (q & z & Z & D).
    assert (W : exists w0 w, chords (c' :: l) ++ t = w0 :: w) by (unfold chords, chord_names; cbn [map List.concat app]; eauto). destruct W as (w0 & w & W).
    exists r. split; [ | exact H]. change (chords (c :: c' :: l)) with (chord_names c ++ chords (c' :: l)). rewrite <- app_assoc, Z. rewrite W in *. rewrite Z in Q.
    eapply Loop_next; [exact Q | exact D | exact L].
Qed.

Definition harmony_tail {A} (fr o n v st : option A) : list (str * A) :=
  opt_child "frame" fr ++ opt_child "offset" o ++ opt_child "footnote" n ++ opt_child "level" v ++ opt_child "staff" st.

Lemma harmony_tail_loop {A} (fr o n v st : option A) b g :
  Loop harmony_turn b (harmony_tail fr o n v st) (true, true, true, mkHarmony g new_child new_child new_child new_child new_child, false)
    (true, true, true, mkHarmony g (time_child fr) (time_child o) (time_child n) (time_child v) (time_child st), false).
Proof.
  assert (L3 : forall b h1 h2, Loop harmony_turn b (opt_child "footnote" n ++ opt_child "level" v ++ opt_child "staff" st)
    (true, true, true, mkHarmony g h1 h2 new_child new_child new_child, false) (true, true, true, mkHarmony g h1 h2 (time_child n) (time_child v) (time_child st), false)).
  { intros b0 h1 h2. destruct n as [n | ]; destruct v as [v | ]; destruct st as [st | ]; cbn [opt_child app];
      try apply Loop_end; (eapply Loop_next; [unfold harmony_turn, import_editorial; go; reflexivity | cbn; lia | apply Loop_end]). }
  assert (L4 : forall b h1, Loop harmony_turn b (opt_child "offset" o ++ opt_child "footnote" n ++ opt_child "level" v ++ opt_child "staff" st)
    (true, true, true, mkHarmony g h1 new_child new_child new_child new_child, false) (true, true, true, mkHarmony g h1 (time_child o) (time_child n) (time_child v) (time_child st), false)).
  { intros b0 h1. destruct o as [o | ]; [ | apply L3]. cbn [opt_child app]. eapply Loop_next; [unfold harmony_turn; go; reflexivity | cbn; lia | apply L3]. }
  unfold harmony_tail. destruct fr as [fr | ]; [ | apply L4]. cbn [opt_child app]. eapply Loop_next; [unfold harmony_turn; go; reflexivity | cbn; lia | apply L4].
Qed.

Lemma chord_written {A} (c : chord A) : Forall2 same_child (write_chord_group (chord_of c)) (chord_names c).
Proof.
  destruct c as [f r k i b d]. unfold write_chord_group, chord_of, chord_names. cbn [co_isF co_r co_k co_i co_b co_d cg_isFunction cg_root cg_function cg_kind cg_inversion cg_bass cg_degrees].
  destruct f, i as [i | ], b as [b | ]; cbn [time_child own new_child if_has always ch_has ch_given opt_child app]; repeat (constructor; [same | ]); apply same_named.
Qed.

Lemma opt_written {A} n (o : option A) : Forall2 same_child (if_has n (time_child o)) (opt_child n o).
Proof. destruct o; cbn; repeat (constructor; [same | ]); constructor. Qed.

Theorem harmony_back A (l : list (str * A)) : conforms harmony_content l -> comes_back read_harmony write_harmony l.
Proof.
  unfold harmony_content, editorial_content. cbn [app]. intros C.
  apply inv_sequence in C. destruct C as (x1 & y1 & -> & C1 & C). apply inv_sequence in C. destruct C as (x2 & y2 & -> & C2 & C).
  apply inv_sequence in C. destruct C as (x3 & y3 & -> & C3 & C). apply inv_sequence in C. destruct C as (x4 & y4 & -> & C4 & C).
  apply inv_sequence in C. destruct C as (x5 & y5 & -> & C5 & C). apply inv_sequence in C. destruct C as (x6 & y6 & -> & C6 & C). apply inv_nothing in C. subst y6. rewrite app_nil_r.
  apply inv_chords in C1. destruct C1 as (c & cs & ->). apply inv_opt in C2. destruct C2 as [fr ->]. apply inv_opt in C3. destruct C3 as [o ->].
  apply inv_opt in C4. destruct C4 as [n ->]. apply inv_opt in C5. destruct C5 as [v ->]. apply inv_opt in C6. destruct C6 as [st ->].
  fold (harmony_tail fr o n v st).
  set (fin := fun g => mkHarmony g (time_child fr) (time_child o) (time_child n) (time_child v) (time_child st)).
  destruct (chords_loop (harmony_tail fr o n v st) fin new_child new_child new_child new_child new_child) with (l := cs) (c := c) (b := @nil (node A)) (first := false) (found := false) (g := [@new_chord_group A])
    as (r & L & H).
  - destruct fr, o, n, v, st; repeat split.
  - intros b g. eexists. split; [apply harmony_tail_loop | reflexivity].
  - intros E g. destruct fr, o, n, v, st; try discriminate E. reflexivity.
  - unfold comes_back, read_harmony. setoid_rewrite (each_ok _ _ _ _ L). cbn [omap obind]. fold (harmony_result r). rewrite H. eexists. split; [reflexivity | ].
    unfold write_harmony, fin. cbn [hm_groups hm_frame hm_offset hm_footnote hm_level hm_staff]. unfold harmony_tail, write_editorial. cbn [kept List.length Nat.eqb negb andb tl app].
    apply Forall2_app.
    + unfold chords. clear. generalize (c :: cs). intros l. induction l as [ | x l IH]; [constructor | ]. cbn [map List.concat]. apply Forall2_app; [apply chord_written | exact IH].
    + rewrite <- app_assoc. repeat (apply Forall2_app; [apply opt_written | ]). apply opt_written.
Qed.
