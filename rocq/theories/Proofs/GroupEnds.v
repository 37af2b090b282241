(** Reading ends whatever the children are. *)
From Coq Require Import List String Ascii Bool PeanoNat Lia.
From Verif Require Import Model.Base Model.Text Model.ElementReading Model.ElementGroups Spec.ContentModels Proofs.GroupLoops Proofs.ChildrenProofs Proofs.GroupRuns Proofs.CreditHarmony.
Import ListNotations.
Local Open Scope list_scope.

Ltac ends := match goal with |- context [each_child ?body (nodes ?l) ?s0] =>
  let H := fresh in assert (H : exists s, each_child body (nodes l) s0 = Ok s); [apply loop_ends | destruct H as [? H]; rewrite H; clear H; cbn [omap obind]] end.

Theorem articulations_ends A : always_ends (@read_articulations A).
Proof. intros l. rewrite articulations_fold. destruct (fold_left _ l _). eauto. Qed.
Theorem technical_ends A : always_ends (@read_technical A).
Proof. intros l. rewrite technical_fold. destruct (fold_left _ l _). eauto. Qed.
Theorem notations_ends A : always_ends (@read_notations A).
Proof. intros l. rewrite notations_fold. destruct (fold_left _ l _). eauto. Qed.
Theorem notehead_text_ends A : always_ends (@read_notehead_text A).
Proof. intros l. rewrite notehead_fold. eauto. Qed.

(** Decide every comparison of names. *)
Ltac decide_names := repeat (rewrite ?import_here, ?take_here, ?named_here, ?at_end_here, ?at_end_nil, ?take_nil; cbn [obind omap back_if orb andb negb];
  match goal with |- context [if str_eqb ?x ?y then _ else _] => destruct (str_eqb x y) end; cbn [obind omap back_if orb andb negb]).

Theorem bend_ends A : always_ends (@read_bend A).
Proof.
  intros l. unfold read_bend. ends; [ | eauto].
  intros b p r s. left. decide_names; do 4 eexists; (split; [reflexivity | constructor]).
Qed.
Theorem harmonic_ends A : always_ends (@read_harmonic A).
Proof.
  intros l. unfold read_harmonic. ends; [ | eauto].
  intros b p r s. left. decide_names; do 4 eexists; (split; [reflexivity | constructor]).
Qed.
Theorem interchangeable_ends A : always_ends (@read_interchangeable A).
Proof.
  intros l. unfold read_interchangeable. ends; [ | eauto].
  intros b p r s. left. decide_names; do 4 eexists; (split; [reflexivity | constructor]).
Qed.

Lemma arrow_group_ends A (l : list (str * A)) d y : exists ok d' y', read_arrow_group (nodes l) d y = Ok (ok, d', y').
Proof.
  unfold read_arrow_group. ends; [ | match goal with |- context [let (_, _) := ?x in _] => destruct x as [[[ok f] d'] y'] end; eauto].
  intros b p r [[[ok f] d0] y0]. decide_names; [left; do 4 eexists; (split; [reflexivity | constructor]) | left; do 4 eexists; (split; [reflexivity | constructor]) | right; eauto].
Qed.

Theorem arrow_ends A : always_ends (@read_arrow A).
Proof.
  intros l. unfold read_arrow. ends; [ | match goal with |- context [Ok ?x] => destruct x end; eauto].
  intros b p r [ok w]. left. rewrite import_here. cbn [obind].
  destruct (arrow_group_ends A l (ar_direction w) (ar_style w)) as (ok' & d & y & G). erewrite G. cbn [obind].
  do 4 eexists; (split; [reflexivity | constructor]).
Qed.

(** take, whatever is there. *)
Lemma take_any {A} n m b (l : list (str * A)) c : (exists p r, l = p :: r /\ take n m (here b l) c = Ok (true, here (node_of p :: b) r, give m (Own (snd p)) c)) \/ take n m (here b l) c = Ok (false, here b l, c).
Proof.
  destruct l as [ | p l]; [right; apply take_nil | ]. rewrite take_here. destruct (str_eqb _ _); [left; eauto | right; reflexivity].
Qed.

Theorem time_ends A : always_ends (@read_time A).
Proof.
  intros l. unfold read_time. ends; [ | eauto].
  intros b p r [[ok f] t]. left. unfold time_turn. rewrite import_here. cbn [obind]. destruct (str_eqb _ _); [do 4 eexists; (split; [reflexivity | constructor]) | ].
  unfold import_time_group.
  destruct (take_any "beats" true b (p :: r) new_child) as [(p1 & r1 & E1 & ->) | ->]; cbn [obind].
  - injection E1 as <- <-.
    destruct (take_any "beat-type" true (node_of p :: b) r new_child) as [(p2 & r2 & -> & ->) | ->]; cbn [obind];
    [destruct (take_any "interchangeable" true (node_of p2 :: node_of p :: b) r2 new_child) as [(p3 & r3 & -> & ->) | ->]
    | destruct (take_any "interchangeable" true (node_of p :: b) r new_child) as [(p3 & r3 & -> & ->) | ->]];
    cbn [obind orb back_if]; rewrite decrement_here; cbn [omap obind]; do 4 eexists; (split; [reflexivity | cbn; lia]).
  - destruct (take_any "beat-type" true b (p :: r) new_child) as [(p2 & r2 & E2 & ->) | ->]; cbn [obind].
    + injection E2 as <- <-.
      destruct (take_any "interchangeable" true (node_of p :: b) r new_child) as [(p3 & r3 & -> & ->) | ->];
      cbn [obind orb back_if]; rewrite decrement_here; cbn [omap obind]; do 4 eexists; (split; [reflexivity | cbn; lia]).
    + destruct (take_any "interchangeable" true b (p :: r) new_child) as [(p3 & r3 & E3 & ->) | ->]; cbn [obind orb back_if].
      * injection E3 as <- <-. rewrite decrement_here. cbn [omap obind]; do 4 eexists; (split; [reflexivity | cbn; lia]).
      * cbn [omap obind]; do 4 eexists; (split; [reflexivity | cbn; lia]).
Qed.

(** *** key *)
Lemma take_three {A} n1 n2 n3 m1 m2 m3 b (l : list (str * A)) c1 c2 c3 :
  exists b1 b2 b3 b' l' d1 d2 d3 i1 i2,
    take n1 m1 (here b l) c1 = Ok (b1, i1, d1) /\ take n2 m2 i1 c2 = Ok (b2, i2, d2) /\ take n3 m3 i2 c3 = Ok (b3, here b' l', d3) /\
    (b1 || b2 || b3 = false /\ b' = b /\ l' = l \/ b1 || b2 || b3 = true /\ exists p b'', b' = node_of p :: b'' /\ List.length l' < List.length l).
Proof.
  destruct (take_any n1 m1 b l c1) as [(p1 & r1 & -> & E1) | E1].
  - destruct (take_any n2 m2 (node_of p1 :: b) r1 c2) as [(p2 & r2 & -> & E2) | E2].
    + destruct (take_any n3 m3 (node_of p2 :: node_of p1 :: b) r2 c3) as [(p3 & r3 & -> & E3) | E3];
        do 10 eexists; (split; [exact E1 | split; [exact E2 | split; [exact E3 | ]]]); right; (split; [reflexivity | do 2 eexists; split; [reflexivity | cbn; lia]]).
    + destruct (take_any n3 m3 (node_of p1 :: b) r1 c3) as [(p3 & r3 & -> & E3) | E3];
        do 10 eexists; (split; [exact E1 | split; [exact E2 | split; [exact E3 | ]]]); right; (split; [reflexivity | do 2 eexists; split; [reflexivity | cbn; lia]]).
  - destruct (take_any n2 m2 b l c2) as [(p2 & r2 & -> & E2) | E2].
    + destruct (take_any n3 m3 (node_of p2 :: b) r2 c3) as [(p3 & r3 & -> & E3) | E3];
        do 10 eexists; (split; [exact E1 | split; [exact E2 | split; [exact E3 | ]]]); right; (split; [reflexivity | do 2 eexists; split; [reflexivity | cbn; lia]]).
    + destruct (take_any n3 m3 b l c3) as [(p3 & r3 & -> & E3) | E3];
        do 10 eexists; (split; [exact E1 | split; [exact E2 | split; [exact E3 | ]]]).
      * right; (split; [reflexivity | do 2 eexists; split; [reflexivity | cbn; lia]]).
      * left. auto.
Qed.

Lemma import_components_any {A} fuel : forall b (l : list (str * A)) first g, List.length l <= fuel ->
  exists found b' l' g', import_components fuel first (here b l) g = Ok (found, here b' l', g') /\
    (found = first /\ b' = b /\ l' = l \/ found = true /\ exists p b'', b' = node_of p :: b'' /\ List.length l' < List.length l).
Proof.
  induction fuel as [ | fuel IH]; intros b l first g F;
    destruct (take_three "key-step" "key-alter" "key-accidental" true true true b l new_child new_child new_child) as (b1 & b2 & b3 & b' & l' & d1 & d2 & d3 & i1 & i2 & E1 & E2 & E3 & H);
    cbn [import_components]; rewrite E1; cbn [obind]; rewrite E2; cbn [obind]; rewrite E3; cbn [obind].
  - destruct H as [(-> & -> & ->) | (_ & p & b'' & _ & L)]; [ | lia]. do 4 eexists. split; [reflexivity | left; auto].
  - destruct H as [(-> & -> & ->) | (-> & p & b'' & -> & L)]; [do 4 eexists; split; [reflexivity | left; auto] | ].
    match goal with |- context [import_components fuel true _ ?x] => destruct (IH (node_of p :: b'') l' true x) as (fo & bb & ll & gg & E & K); [lia | ] end.
    exists fo, bb, ll, gg. split; [exact E | ]. right. destruct K as [(-> & -> & ->) | (-> & p' & b''' & -> & L')]; (split; [reflexivity | do 2 eexists; split; [reflexivity | lia]]).
Qed.

Theorem key_ends A : always_ends (@read_key A).
Proof.
  intros l. unfold read_key. ends; [ | eauto].
  intros b p r k. left. unfold key_turn, import_traditional.
  destruct (take_three "cancel" "fifths" "mode" true true true b (p :: r) (ky_cancel k) (ky_fifths k) (ky_mode k)) as (b1 & b2 & b3 & b' & l' & d1 & d2 & d3 & i1 & i2 & E1 & E2 & E3 & H).
  rewrite E1; cbn [obind]; rewrite E2; cbn [obind]; rewrite E3; cbn [obind]. destruct H as [(-> & -> & ->) | (-> & q & b'' & -> & L)].
  2: { cbn [back_if]. rewrite decrement_here. cbn [omap obind]. do 4 eexists. split; [reflexivity | cbn in L; lia]. }
  cbn [back_if omap obind]. unfold import_nontraditional. rewrite left_here.
  destruct (import_components_any (List.length (p :: r)) b (p :: r) false (ky_components k) (le_n _)) as (fo & bb & ll & gg & -> & K). cbn [obind].
  destruct K as [(-> & -> & ->) | (-> & q & b'' & -> & L)].
  2: { cbn [back_if]. rewrite decrement_here. cbn [omap obind]. do 4 eexists. split; [reflexivity | cbn in L; lia]. }
  cbn [back_if omap obind]. unfold import_octaves. rewrite left_here. destruct (take_all_any "key-octave" (p :: r) b) as (l1 & l2 & E & T). rewrite T by constructor. cbn [obind].
  destruct l1 as [ | a l1].
  - cbn [List.length Nat.eqb negb back_if omap obind all_named map after]. cbn [all_named map app] in E. rewrite <- E. do 4 eexists. split; [reflexivity | constructor].
  - cbn [List.length Nat.eqb negb back_if]. destruct (after_named b "key-octave" a l1) as (b'' & a' & _ & D). rewrite D. cbn [omap obind]. do 4 eexists. split; [reflexivity | ].
    apply (f_equal (@List.length _)) in E. rewrite app_length, all_named_length in E. cbn in E. lia.
Qed.

(** *** harmony *)
(** The children before those that are left. *)
Ltac before := first [eexists []; reflexivity | eexists [_]; reflexivity | eexists [_; _]; reflexivity].

Lemma editorial_any {A} b p (r : list (str * A)) f v : exists b' p' r' f' v', import_editorial (here b (p :: r)) f v = Ok (here b' (p' :: r'), f', v') /\ List.length r' <= List.length r /\ exists z, p :: r = z ++ p' :: r'.
Proof.
  unfold import_editorial. rewrite at_end_here.
  destruct (take_any "footnote" true b (p :: r) f) as [(p1 & r1 & E1 & ->) | ->]; cbn [obind].
  - injection E1 as <- <-. destruct r as [ | p2 r].
    + rewrite at_end_nil. cbn [back_if]. rewrite decrement_here. cbn [omap obind]. do 5 eexists. split; [reflexivity | split; [constructor | before]].
    + rewrite at_end_here. destruct (take_any "level" true (node_of p :: b) (p2 :: r) v) as [(p3 & r3 & E3 & ->) | ->]; cbn [obind].
      * injection E3 as <- <-. destruct r as [ | p4 r].
        -- rewrite at_end_nil. cbn [orb back_if]. rewrite decrement_here. cbn [omap obind]. do 5 eexists. split; [reflexivity | split; [cbn; lia | before]].
        -- rewrite at_end_here. do 5 eexists. split; [reflexivity | split; [cbn; lia | before]].
      * rewrite at_end_here. do 5 eexists. split; [reflexivity | split; [cbn; lia | before]].
  - rewrite at_end_here. destruct (take_any "level" true b (p :: r) v) as [(p3 & r3 & E3 & ->) | ->]; cbn [obind].
    + injection E3 as <- <-. destruct r as [ | p4 r].
      * rewrite at_end_nil. cbn [orb back_if]. rewrite decrement_here. cbn [omap obind]. do 5 eexists. split; [reflexivity | split; [cbn; lia | before]].
      * rewrite at_end_here. do 5 eexists. split; [reflexivity | split; [cbn; lia | before]].
    + rewrite at_end_here. do 5 eexists. split; [reflexivity | split; [cbn; lia | before]].
Qed.

Lemma chord_any {A} f b p (r : list (str * A)) :
  (exists i, read_chord_group f (here b (p :: r)) = Ok (None, i)) \/
  (exists g b' l', read_chord_group f (here b (p :: r)) = Ok (Some g, here b' l') /\ List.length l' <= List.length r).
Proof.
  unfold read_chord_group. rewrite contents_here. cbn [obind]. rewrite increment_here. cbn [obind].
  destruct (take_any "kind" true (node_of p :: b) r new_child) as [(p1 & r1 & -> & ->) | ->]; cbn [obind negb]; [ | left; eauto]. right.
  destruct r1 as [ | p2 r1]; [rewrite at_end_nil; do 3 eexists; split; [reflexivity | cbn; lia] | ]. rewrite at_end_here.
  assert (D' : forall p0 b0 (l0 : list (str * A)) (g : list A -> chord_group A), List.length l0 <= S (List.length r1) -> exists g' b' l', (obind (take_all (left (here (node_of p0 :: b0) l0)) "degree" (here (node_of p0 :: b0) l0))
      (fun q => omap (fun it4 : iterator A => (Some (g (snd q)), it4)) (decrement (fst q)))) = Ok (Some (g' : chord_group A), here b' l') /\ List.length l' <= S (S (List.length r1))).
  { intros p0 b0 l0 g L. rewrite left_here. destruct (take_all_any "degree" l0 (node_of p0 :: b0)) as (l1 & l2 & E & T). rewrite T by constructor. cbn [obind fst snd].
    destruct l1 as [ | a l1].
    - cbn [all_named map after]. rewrite decrement_here. cbn [omap obind]. cbn [all_named map app] in E. subst l2. do 3 eexists. split; [reflexivity | cbn; lia].
    - destruct (after_named (node_of p0 :: b0) "degree" a l1) as (b'' & a' & _ & DD). rewrite DD. cbn [omap obind]. do 3 eexists. split; [reflexivity | ].
      subst l0. rewrite app_length, all_named_length in L. cbn in L |- *. lia. }
  destruct (take_any "inversion" true (node_of p1 :: node_of p :: b) (p2 :: r1) new_child) as [(p3 & r3 & E3 & ->) | ->]; cbn [obind].
  - injection E3 as <- <-. destruct r1 as [ | p4 r1]; [rewrite at_end_nil; do 3 eexists; split; [reflexivity | cbn; lia] | ]. rewrite at_end_here.
    destruct (take_any "bass" true (node_of p2 :: node_of p1 :: node_of p :: b) (p4 :: r1) new_child) as [(p5 & r5 & E5 & ->) | ->]; cbn [obind].
    + injection E5 as <- <-. destruct r1 as [ | p6 r1]; [rewrite at_end_nil; do 3 eexists; split; [reflexivity | cbn; lia] | ]. rewrite at_end_here.
      apply (D' p4 _ (p6 :: r1) (fun d => mkChordGroup f _ _ _ _ _ d)). cbn. lia.
    + rewrite at_end_here. apply (D' p2 _ (p4 :: r1) (fun d => mkChordGroup f _ _ _ _ _ d)). cbn. lia.
  - rewrite at_end_here.
    destruct (take_any "bass" true (node_of p1 :: node_of p :: b) (p2 :: r1) new_child) as [(p5 & r5 & E5 & ->) | ->]; cbn [obind].
    + injection E5 as <- <-. destruct r1 as [ | p6 r1]; [rewrite at_end_nil; do 3 eexists; split; [reflexivity | cbn; lia] | ]. rewrite at_end_here.
      apply (D' p2 _ (p6 :: r1) (fun d => mkChordGroup f _ _ _ _ _ d)). cbn. lia.
    + rewrite at_end_here. apply (D' p1 _ (p2 :: r1) (fun d => mkChordGroup f _ _ _ _ _ d)). cbn. lia.
Qed.

Theorem harmony_ends A : always_ends (@read_harmony A).
Proof.
  intros l. unfold read_harmony. ends; [ | match goal with |- context [Ok (let (_, _) := ?x in _)] => destruct x as [[[[ok fo] fi] h] re] end; eauto].
  intros b p r [[[[ok fo] fi] h] re]. unfold harmony_turn.
  assert (C : forall f, (exists b' p' l' s', obind (read_chord_group f (here b (p :: r))) (fun q => let '(g, it') := q in
      match g with
      | None => Ok (true, it', (false, true, fi, h, true))
      | Some g =>
          let h' := mkHarmony (add_chord_group fi g (hm_groups h)) (hm_frame h) (hm_offset h) (hm_footnote h) (hm_level h) (hm_staff h) in
          Ok (at_end it', it', (ok, true, true, h', at_end it'))
      end) = Ok (false, here b' (p' :: l'), s') /\ List.length l' <= List.length r) \/
     (exists i s', obind (read_chord_group f (here b (p :: r))) (fun q => let '(g, it') := q in
      match g with
      | None => Ok (true, it', (false, true, fi, h, true))
      | Some g =>
          let h' := mkHarmony (add_chord_group fi g (hm_groups h)) (hm_frame h) (hm_offset h) (hm_footnote h) (hm_level h) (hm_staff h) in
          Ok (at_end it', it', (ok, true, true, h', at_end it'))
      end) = Ok (true, i, s'))).
  { intros f. destruct (chord_any f b p r) as [[i ->] | (g & b' & l' & -> & L)]; cbn [obind]; [right; eauto | ].
    destruct l' as [ | p' l']; [right; rewrite at_end_nil; eauto | left]. rewrite at_end_here. do 4 eexists. split; [reflexivity | cbn in L; lia]. }
  rewrite !named_here. cbn [obind]. destruct (str_eqb _ _); [apply C | ]. destruct (str_eqb _ _); [apply C | ]. clear C. left. rewrite !import_here. cbn [obind].
  destruct (str_eqb _ _); [do 4 eexists; (split; [reflexivity | constructor]) | ]. rewrite ?import_here. cbn [obind]. destruct (str_eqb _ _); [do 4 eexists; (split; [reflexivity | constructor]) | ].
  destruct (editorial_any b p r (hm_footnote h) (hm_level h)) as (b' & p' & r' & f' & v' & -> & L & _). cbn [obind]. rewrite ?import_here. cbn [obind].
  do 4 eexists. split; [reflexivity | exact L].
Qed.

(** *** credit *)
Lemma words_any {A} fuel : forall b (l : list (str * A)) g, List.length l <= fuel -> exists gs, read_words_groups fuel (here b l) g = Ok gs.
Proof.
  induction fuel as [ | fuel IH]; intros b l g F.
  - destruct l; [ | cbn in F; lia]. cbn [read_words_groups]. rewrite left_here. cbn [List.length take_all]. rewrite is_here_nil. cbn [obind]. rewrite at_end_nil. eauto.
  - cbn [read_words_groups]. rewrite left_here. destruct (take_all_any "link" l b) as (l1 & l2 & E1 & T1). rewrite T1 by constructor. cbn [obind].
    destruct l2 as [ | p2 l2]; [rewrite at_end_nil; eauto | ]. rewrite at_end_here, left_here.
    destruct (take_all_any "bookmark" (p2 :: l2) (after b (all_named "link" l1))) as (l3 & l4 & E3 & T3). rewrite T3 by constructor. cbn [obind].
    destruct l4 as [ | p4 l4]; [rewrite at_end_nil; eauto | ]. rewrite at_end_here.
    match goal with |- context [take "credit-words" true (here ?b0 ?l0) ?c] => destruct (take_any "credit-words" true b0 l0 c) as [(p5 & r5 & E5 & ->) | ->] end; cbn [obind].
    + injection E5 as <- <-. destruct l4 as [ | p6 l4]; [rewrite at_end_nil; eauto | ]. rewrite at_end_here. cbn [negb andb].
      match goal with |- context [read_words_groups _ (here ?b0 ?l0) ?c] => destruct (IH b0 l0 c) as [gs ->] end; [ | cbn [omap obind]; eauto].
      subst l. rewrite E3 in F. rewrite !app_length, !all_named_length in F. cbn in F |- *. lia.
    + rewrite at_end_here. cbn [negb andb]. destruct (List.length l1 =? 0) eqn:Q1; cbn [andb]; [destruct (List.length l3 =? 0) eqn:Q3; [eauto | ] | ].
      all: match goal with |- context [read_words_groups _ (here ?b0 ?l0) ?c] => destruct (IH b0 l0 c) as [gs ->] end; [ | cbn [omap obind]; eauto].
      all: subst l; rewrite E3 in F; rewrite !app_length, !all_named_length in F; rewrite ?Nat.eqb_neq in *; cbn in F |- *; lia.
Qed.

Theorem credit_ends A : always_ends (@read_credit A).
Proof.
  intros l. unfold read_credit. rewrite begin_nodes. cbv zeta. rewrite left_here.
  destruct (take_all_any "credit-type" l []) as (l1 & l2 & E1 & T1). rewrite T1 by constructor. cbn [obind]. rewrite left_here.
  destruct (take_all_any "link" l2 (after [] (all_named "credit-type" l1))) as (l3 & l4 & E3 & T3). rewrite T3 by constructor. cbn [obind]. rewrite left_here.
  match goal with |- context [take_all _ "bookmark" (here ?b0 ?l0)] => destruct (take_all_any "bookmark" l0 b0) as (l5 & l6 & E5 & T5) end. rewrite T5 by constructor. cbn [obind].
  unfold read_credit_choice.
  match goal with |- context [take "credit-image" true (here ?b0 ?l0) ?c] => destruct (take_any "credit-image" true b0 l0 c) as [(p & r & _ & ->) | ->] end; cbn [obind]; [eauto | ].
  match goal with |- context [take "credit-words" true (here ?b0 ?l0) ?c] => destruct (take_any "credit-words" true b0 l0 c) as [(p & r & _ & ->) | ->] end; cbn [obind negb]; [ | eauto].
  destruct r as [ | q r]; [rewrite at_end_nil; cbn [omap obind]; eauto | ]. rewrite at_end_here, left_here.
  match goal with |- context [read_words_groups _ (here ?b0 ?l0) ?c] => destruct (words_any (List.length l0) b0 l0 c (le_n _)) as [gs ->] end. cbn [omap obind]. eauto.
Qed.

(** *** lyric *)
Lemma elisions_any {A} fuel : forall b (l : list (str * A)), List.length l <= fuel ->
  exists b' l' g, read_elisions fuel (here b l) = Ok (here b' l', g) /\ (g = [] /\ b' = b /\ l' = l \/ g <> [] /\ exists p b'', b' = node_of p :: b'' /\ List.length l' < List.length l).
Proof.
  induction fuel as [ | fuel IH]; intros b l F;
    destruct (take_three "elision" "syllabic" "text" true false true b l new_child new_child new_child) as (b1 & b2 & b3 & b' & l' & d1 & d2 & d3 & i1 & i2 & E1 & E2 & E3 & H);
    cbn [read_elisions]; rewrite E1; cbn [obind]; rewrite E2; cbn [obind]; rewrite E3; cbn [obind].
  - destruct H as [(-> & -> & ->) | (_ & p & b'' & _ & L)]; [ | lia]. do 3 eexists. split; [reflexivity | left; auto].
  - destruct H as [(-> & -> & ->) | (-> & p & b'' & -> & L)]; [do 3 eexists; split; [reflexivity | left; auto] | ].
    destruct (IH (node_of p :: b'') l') as (bb & ll & gg & E & K); [lia | ]. rewrite E. cbn [omap obind fst snd]. do 3 eexists. split; [reflexivity | ]. right.
    split; [intros X; discriminate X | ]. destruct K as [(-> & -> & ->) | (_ & p' & b''' & -> & L')]; do 2 eexists; (split; [reflexivity | lia]).
Qed.

Lemma syllabic_any {A} b p (r : list (str * A)) g : exists b' p' r' ok g', import_syllabic (here b (p :: r)) g = Ok (here b' (p' :: r'), ok, g') /\ List.length r' <= List.length r.
Proof.
  unfold import_syllabic.
  (* the iterator has moved, or is where it was *)
  assert (X : forall moved b1 l1, (moved = false /\ b1 = b /\ l1 = p :: r \/ moved = true /\ exists q b2, b1 = node_of q :: b2 /\ List.length l1 <= List.length r) ->
    exists b' p' r', back_if moved (here b1 l1) = Ok (here b' (p' :: r')) /\ List.length r' <= List.length r).
  { intros moved b1 l1 [(-> & -> & ->) | (-> & q & b2 & -> & L)]; cbn [back_if]; [ | rewrite decrement_here]; do 3 eexists; (split; [reflexivity | lia || exact L || constructor]). }
  assert (Y : forall moved b1 l1 n m c, (moved = false /\ b1 = b /\ l1 = p :: r \/ moved = true /\ exists q b2, b1 = node_of q :: b2 /\ List.length l1 <= List.length r) ->
    exists hit b2 l2 c', take n m (here b1 l1) c = Ok (hit, here b2 l2, c') /\
      (moved || hit = false /\ b2 = b /\ l2 = p :: r \/ moved || hit = true /\ exists q b3, b2 = node_of q :: b3 /\ List.length l2 <= List.length r)).
  { intros moved b1 l1 n m c H. destruct (take_any n m b1 l1 c) as [(q & l2 & -> & E) | E]; rewrite E.
    - do 4 eexists. split; [reflexivity | right]. rewrite orb_true_r. split; [reflexivity | ]. do 2 eexists. split; [reflexivity | ].
      destruct H as [(_ & _ & H) | (_ & _ & _ & _ & H)]; [injection H as _ <-; constructor | cbn in H; lia].
    - do 4 eexists. split; [reflexivity | ]. rewrite orb_false_r. exact H. }
  destruct (Y false b (p :: r) "syllabic"%string true (sy_syllabic g)) as (h1 & b1 & l1 & c1 & -> & H1); [left; auto | ]. cbn [obind orb] in *.
  destruct (at_end (here b1 l1)) eqn:A1.
  { destruct (X _ _ _ H1) as (b' & p' & r' & -> & L). cbn [omap obind]. do 5 eexists. split; [reflexivity | exact L]. }
  destruct (Y h1 b1 l1 "text"%string true (sy_text g) H1) as (h2 & b2 & l2 & c2 & -> & H2). cbn [obind].
  destruct (at_end (here b2 l2)) eqn:A2.
  { destruct (X _ _ _ H2) as (b' & p' & r' & -> & L). cbn [omap obind]. do 5 eexists. split; [reflexivity | exact L]. }
  destruct l2 as [ | q2 l2]; [discriminate A2 | ]. rewrite !named_here. cbn [obind]. rewrite left_here.
  destruct (elisions_any (List.length (q2 :: l2)) b2 (q2 :: l2) (le_n _)) as (b3 & l3 & more & -> & K). cbn [obind].
  assert (H3 : h1 || h2 || negb (List.length more =? 0) = false /\ b3 = b /\ l3 = p :: r \/ h1 || h2 || negb (List.length more =? 0) = true /\ exists q b4, b3 = node_of q :: b4 /\ List.length l3 <= List.length r).
  { destruct K as [(-> & -> & ->) | (NE & q & b4 & -> & L)].
    - cbn [List.length Nat.eqb negb]. rewrite orb_false_r. exact H2.
    - destruct more; [contradiction | ]. cbn [List.length Nat.eqb negb]. rewrite orb_true_r. right. split; [reflexivity | ]. do 2 eexists. split; [reflexivity | ].
      destruct H2 as [(_ & _ & H) | (_ & _ & _ & _ & H)]; [injection H as _ H; subst; cbn in L; lia | cbn in *; lia]. }
  destruct (at_end (here b3 l3)) eqn:A3.
  { destruct (X _ _ _ H3) as (b' & p' & r' & -> & L). cbn [omap obind]. do 5 eexists. split; [reflexivity | exact L]. }
  destruct (Y _ b3 l3 "extend"%string true (sy_extend g) H3) as (h4 & b4 & l4 & c4 & -> & H4). cbn [obind].
  destruct (X _ _ _ H4) as (b' & p' & r' & -> & L). cbn [omap obind]. do 5 eexists. split; [reflexivity | exact L].
Qed.

Theorem lyric_ends A : always_ends (@read_lyric A).
Proof.
  intros l. unfold read_lyric. ends; [ | match goal with |- context [Ok ?x] => destruct x end; eauto].
  intros b p r [ok y]. left. unfold lyric_turn. rewrite !import_here. cbn [obind].
  destruct (str_eqb _ _); [do 4 eexists; (split; [reflexivity | constructor]) | ]. rewrite ?import_here. cbn [obind].
  destruct (str_eqb _ _); [do 4 eexists; (split; [reflexivity | constructor]) | ]. rewrite ?import_here. cbn [obind].
  destruct (str_eqb _ _); [do 4 eexists; (split; [reflexivity | constructor]) | ].
  destruct (syllabic_any b p r (ly_group y)) as (b' & p' & r' & ok' & g' & -> & L). cbn [obind]. rewrite ?import_here. cbn [obind].
  destruct (str_eqb _ _); [do 4 eexists; (split; [reflexivity | exact L]) | ]. rewrite ?import_here. cbn [obind].
  destruct (str_eqb _ _); [do 4 eexists; (split; [reflexivity | exact L]) | ].
  destruct (editorial_any b' p' r' (ly_footnote y) (ly_level y)) as (b2 & p2 & r2 & f2 & v2 & -> & L2 & _). cbn [omap obind]. do 4 eexists. split; [reflexivity | lia].
Qed.


(** ** A harmony without a chord. *)
Theorem harmony_refused A (l : list (str * A)) : ~ has_child "root" l -> ~ has_child "function" l -> refused read_harmony l.
Proof.
  intros N1 N2. unfold refused, read_harmony.
  destruct (loop_keeps (@harmony_turn A) (fun l s => (~ has_child "root" l /\ ~ has_child "function" l) /\ snd (fst (fst (fst s))) = false /\ snd s = false)) with (l := l)
    (s := (true, false, false, mkHarmony [@new_chord_group A] new_child new_child new_child new_child new_child, false)) as (s & E & _ & H1 & H2).
  2: repeat split; assumption.
  2: { rewrite E. destruct s as [[[[ok fo] fi] h] re]. cbn in H1, H2. subst. cbn [omap obind]. rewrite andb_false_r. eauto. }
  intros b p r [[[[ok fo] fi] h] re] [[M1 M2] [H1 H2]]. cbn in H1, H2. subst fo re. left. unfold harmony_turn. rewrite !named_here. cbn [obind].
  assert (Q1 : str_eqb (fst p) (lit "root") = false).
  { destruct (str_eqb (fst p) (lit "root")) eqn:E; [ | reflexivity]. exfalso. apply str_eqb_true in E. apply M1. exists (snd p). left. destruct p; cbn in *; subst; reflexivity. }
  assert (Q2 : str_eqb (fst p) (lit "function") = false).
  { destruct (str_eqb (fst p) (lit "function")) eqn:E; [ | reflexivity]. exfalso. apply str_eqb_true in E. apply M2. exists (snd p). left. destruct p; cbn in *; subst; reflexivity. }
  rewrite Q1, Q2, !import_here. cbn [obind]. clear Q1 Q2.
  assert (R : forall z p' r', p :: r = z ++ p' :: r' -> (~ has_child "root" r') /\ ~ has_child "function" r').
  { intros z p' r' E. split; intros [a I]; [apply M1 | apply M2]; exists a; rewrite E; apply in_or_app; right; right; exact I. }
  destruct (str_eqb _ _); [do 4 eexists; (split; [reflexivity | split; [constructor | split; [exact (R [] _ _ eq_refl) | split; reflexivity]]]) | ]. rewrite ?import_here. cbn [obind].
  destruct (str_eqb _ _); [do 4 eexists; (split; [reflexivity | split; [constructor | split; [exact (R [] _ _ eq_refl) | split; reflexivity]]]) | ].
  destruct (editorial_any b p r (hm_footnote h) (hm_level h)) as (b' & p' & r' & f' & v' & -> & L & z & Z). cbn [obind]. rewrite ?import_here. cbn [obind].
  do 4 eexists. split; [reflexivity | split; [exact L | split; [exact (R _ _ _ Z) | split; reflexivity]]].
Qed.

(** ** A key of octaves only. *)
Theorem key_octaves A (l : list (str * A)) : conforms (Many (Element "key-octave")) l ->
  exists k, read_key (nodes l) = Ok (true, k) /\ write_key k = (lit "fifths", []) :: map (fun p => (fst p, [Own (snd p)])) l.
Proof.
  intros H. apply inv_many_element in H. destruct H as [os ->]. eexists. split.
  - unfold read_key. erewrite each_ok; [reflexivity | ]. apply octaves_loop.
  - unfold write_key. cbn [ky_isTraditional ky_cancel ky_fifths ky_mode ky_octaves if_has always new_child ch_has ch_given app]. unfold all_named. rewrite map_map. reflexivity.
Qed.

(** ** A credit without image and words. *)
Theorem credit_empty A (l : list (str * A)) : conforms (Sequence [Many (Element "credit-type"); Many (Element "link"); Many (Element "bookmark")]) l -> refused read_credit l.
Proof.
  intros C. apply inv_sequence in C. destruct C as (u1 & w1 & -> & D1 & C). apply inv_sequence in C. destruct C as (u2 & w2 & -> & D2 & C).
  apply inv_sequence in C. destruct C as (u3 & w3 & -> & D3 & C). apply inv_nothing in C. subst w3. rewrite app_nil_r.
  apply inv_many_element in D1. destruct D1 as [ts ->]. apply inv_many_element in D2. destruct D2 as [ls ->]. apply inv_many_element in D3. destruct D3 as [bs ->]. apply credit_refused.
Qed.
