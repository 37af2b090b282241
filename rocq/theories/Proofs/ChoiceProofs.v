(** Metronomes, time modifications and others, read and written again. *)
From Coq Require Import List String Ascii Bool PeanoNat Lia.
From Verif Require Import Model.Base Model.Text Model.ElementReading Model.EnumLookup Model.CoreEnums Model.CustomEnums Model.ElementGroups Model.ElementChoices Spec.ContentModels Spec.MoreContents
  Proofs.GroupLoops Proofs.ChildrenProofs Proofs.GroupRuns.
Import ListNotations.
Local Open Scope list_scope.

Lemma take_good_here {A} (good : A -> bool) n b p l ok c :
  take_good good n (here b (p :: l)) ok c =
  Ok (if str_eqb (fst p) (lit n) then (true, here (node_of p :: b) l, ok && good (snd p), give true (Own (snd p)) c) else (false, here b (p :: l), ok, c)).
Proof. unfold take_good. rewrite is_here_here. cbn [obind]. rewrite contents_here. cbn [obind]. rewrite increment_here. destruct (str_eqb _ _); reflexivity. Qed.
Lemma take_good_nil {A} (good : A -> bool) n b ok c : take_good good n (here b []) ok c = Ok (false, here b [], ok, c).
Proof. reflexivity. Qed.
Lemma take_good_not {A} (good : A -> bool) n b l ok c : not_first n l -> take_good good n (here b l) ok c = Ok (false, here b l, ok, c).
Proof. destruct l; [reflexivity | ]. cbn [not_first]. intros E. rewrite take_good_here, E. reflexivity. Qed.

Ltac walk := repeat (first [rewrite take_good_here | rewrite take_good_nil | rewrite name_here | rewrite contents_here | rewrite increment_here | rewrite decrement_here
  | rewrite at_end_here | rewrite at_end_nil ]; cbn [fst snd]; lits; cbn [obind omap orb andb negb back_if fst snd]).

(** ** A beat-unit with its dots *)
Definition unit_of {A} (u : A * list A) : list (str * A) := (lit "beat-unit", fst u) :: all_named "beat-unit-dot" (snd u).

Lemma inv_beat_unit {A} (l : list (str * A)) : conforms beat_unit_content l -> exists u, l = unit_of u.
Proof.
  intros H. apply inv_sequence in H. destruct H as (x & y & -> & X & Y). apply inv_sequence in Y. destruct Y as (d & e & -> & D & Y). apply inv_nothing in Y. subst e.
  apply inv_element in X. destruct X as [a ->]. apply inv_many_element in D. destruct D as [ds ->]. exists (a, ds). rewrite app_nil_r. reflexivity.
Qed.

Lemma import_unit {A} (good : A -> bool) b u t ok g : bu_dots g = [] -> not_first "beat-unit-dot" t -> exists b' p,
  import_beat_unit good (here b (unit_of u ++ t)) ok g = Ok (here b' (p :: t), ok && good (fst u) && forallb good (snd u), mkBeatUnit (give true (Own (fst u)) (bu_unit g)) (snd u)) /\
  after b (unit_of u) = node_of p :: b' /\ (forall r, increment (here b' (p :: r)) = Ok (here (after b (unit_of u)) r)) /\
  (forall r, decrement (here (after b (unit_of u)) r) = Ok (here b' (p :: r))).
Proof.
  intros G N. destruct u as [a ds]. unfold unit_of. cbn [fst snd].
  destruct (has_last (lit "beat-unit", a) (all_named "beat-unit-dot" ds)) as (z & p & E). rewrite E. exists (after b z), p.
  split; [ | rewrite after_app; cbn [after]; split; [reflexivity | split; intros r; [rewrite increment_here | rewrite decrement_here]; reflexivity]].
  rewrite <- E. unfold import_beat_unit. cbn [app]. rewrite at_end_here, take_good_here. cbn [fst snd]. lits. cbn [obind].
  destruct ds as [ | d ds].
  - cbn [all_named map app]. destruct z as [ | q z]; [ | destruct z; discriminate E]. cbn in E. injection E as <-. cbn [after].
    destruct t as [ | q t].
    + rewrite at_end_nil. cbn [back_if]. rewrite decrement_here. cbn [omap forallb]. rewrite G, andb_true_r. reflexivity.
    + rewrite at_end_here. rewrite left_here. change (here (node_of (lit "beat-unit", a) :: b) (q :: t)) with (here (node_of (lit "beat-unit", a) :: b) (all_named "beat-unit-dot" [] ++ q :: t)).
      rewrite take_all_named; [ | apply le_0_n | exact N]. cbn [obind List.length Nat.eqb negb orb andb back_if all_named map after]. rewrite decrement_here. cbn [omap forallb].
      rewrite G, andb_true_r. reflexivity.
  - change (all_named "beat-unit-dot" (d :: ds) ++ t) with ((lit "beat-unit-dot", d) :: all_named "beat-unit-dot" ds ++ t) at 1. rewrite at_end_here, left_here.
    rewrite take_all_named; [ | rewrite app_length, all_named_length; lia | exact N]. cbn [obind List.length Nat.eqb negb orb andb back_if].
    change (after (node_of (lit "beat-unit", a) :: b) (all_named "beat-unit-dot" (d :: ds))) with (after b ((lit "beat-unit", a) :: all_named "beat-unit-dot" (d :: ds))).
    rewrite E, step_back. cbn [omap]. rewrite G. cbn [List.length Nat.eqb app]. reflexivity.
Qed.

Lemma unit_written {A} (u : A * list A) : Forall2 same_child (write_beat_unit (mkBeatUnit (give true (Own (fst u)) new_child) (snd u))) (unit_of u).
Proof. unfold write_beat_unit, unit_of, always. cbn [bu_unit bu_dots ch_given give new_child app]. constructor; [same | apply same_named]. Qed.

(** ** metronome *)
Lemma marks_read {A} (good : A -> bool) (u : A * list A) (x : A + (A * list A)) :
  read_metronome good (nodes (unit_of u ++ match x with inl a => [(lit "per-minute", a)] | inr v => unit_of v end)) =
  Ok (good (fst u) && forallb good (snd u) && match x with inl _ => true | inr v => good (fst v) && forallb good (snd v) end,
      mkMetronome false (mkBeatUnit (give true (Own (fst u)) new_child) (snd u)) (match x with inl _ => false | inr _ => true end)
        (match x with inl a => give true (Own a) new_child | inr _ => new_child end)
        (match x with inl _ => new_beat_unit | inr v => mkBeatUnit (give true (Own (fst v)) new_child) (snd v) end) [[]] new_child new_child).
Proof.
  unfold read_metronome. apply each_ok. destruct x as [a | v].
  - destruct (import_unit good [] u [(lit "per-minute", a)] true new_beat_unit eq_refl eq_refl) as (b' & p & I & E & N & D).
    change (unit_of u ++ [(lit "per-minute", a)]) with ((lit "beat-unit", fst u) :: all_named "beat-unit-dot" (snd u) ++ [(lit "per-minute", a)]) in *.
    eapply Loop_next; [ | | apply Loop_end].
    + unfold metronome_turn. rewrite name_here. cbn [obind fst]. unfold is_beat_unit. lits. cbn [orb]. unfold beat_unit_turn. cbn [mt_first mt_second new_metronome].
      rewrite I. cbn [obind]. rewrite N. cbn [obind]. rewrite at_end_here, name_here. cbn [obind fst]. unfold is_beat_unit. lits. cbn [orb]. rewrite contents_here. cbn [obind snd].
      rewrite increment_here. cbn [obind]. rewrite decrement_here. cbn [omap]. rewrite andb_true_r. reflexivity.
    + rewrite app_length. cbn. lia.
  - destruct (import_unit good [] u (unit_of v) true new_beat_unit eq_refl eq_refl) as (b' & p & I & E & N & D).
    destruct (import_unit good (after [] (unit_of u)) v [] (good (fst u) && forallb good (snd u)) new_beat_unit eq_refl Logic.I) as (b2 & p2 & I2 & E2 & N2 & D2).
    rewrite app_nil_r in I2.
    change (unit_of u ++ unit_of v) with ((lit "beat-unit", fst u) :: all_named "beat-unit-dot" (snd u) ++ unit_of v) in *.
    eapply Loop_next; [ | | apply Loop_end].
    + unfold metronome_turn. rewrite name_here. cbn [obind fst]. unfold is_beat_unit. lits. cbn [orb]. unfold beat_unit_turn. cbn [mt_first mt_second new_metronome].
      rewrite I. cbn [obind]. rewrite N. cbn [obind]. change (unit_of v) with ((lit "beat-unit", fst v) :: all_named "beat-unit-dot" (snd v)) in *. rewrite at_end_here, name_here. cbn [obind fst]. unfold is_beat_unit. lits. cbn [orb].
      cbn [andb mt_second new_metronome]. rewrite I2. cbn [obind]. rewrite N2. cbn [obind]. rewrite D2. cbn [omap]. rewrite andb_assoc. reflexivity.
    + rewrite app_length. cbn. lia.
Qed.

(** Notes, and notes with a relation. *)
Lemma notes_read {A} (good : A -> bool) a (ns : list A) (x : option (A * option A)) :
  read_metronome good (nodes (all_named "metronome-note" (a :: ns) ++ match x with None => [] | Some (r, None) => [(lit "metronome-relation", r)] | Some (r, Some m) => [(lit "metronome-relation", r); (lit "metronome-note", m)] end)) =
  Ok (forallb good (a :: ns) && match x with None => true | Some (r, None) => good r | Some (r, Some m) => good r && good m end,
      mkMetronome true new_beat_unit false new_child new_beat_unit (map (fun b => [Own b]) (a :: ns))
        (match x with None => new_child | Some (r, _) => give true (Own r) new_child end) (match x with Some (_, Some m) => give true (Own m) new_child | _ => new_child end)).
Proof.
  unfold read_metronome. apply each_ok.
  set (t := match x with None => [] | Some (r, None) => [(lit "metronome-relation", r)] | Some (r, Some m) => [(lit "metronome-relation", r); (lit "metronome-note", m)] end).
  assert (N : not_first "metronome-note" t) by (destruct x as [[r [m | ]] | ]; reflexivity || exact Logic.I).
  assert (T : take_all (left (here [] (all_named "metronome-note" (a :: ns) ++ t))) "metronome-note" (here [] (all_named "metronome-note" (a :: ns) ++ t))
    = Ok (here (after [] (all_named "metronome-note" (a :: ns))) t, a :: ns)).
  { rewrite left_here. apply take_all_named; [rewrite app_length, all_named_length; lia | exact N]. }
  change (all_named "metronome-note" (a :: ns) ++ t) with ((lit "metronome-note", a) :: all_named "metronome-note" ns ++ t) in *.
  subst t. destruct x as [[r [m | ]] | ]; eapply Loop_stop; unfold metronome_turn; rewrite name_here; cbn [obind fst]; unfold is_beat_unit; lits; cbn [orb]; unfold note_turn;
  rewrite T; cbn [obind].
  - rewrite at_end_here, take_good_here. cbn [fst snd]. lits. cbn [obind]. rewrite at_end_here, take_good_here. cbn [fst snd]. lits. cbn [obind]. rewrite at_end_nil. cbn [andb].
    cbn [new_metronome mt_notes mt_relation mt_note mt_first mt_isSecond mt_perMinute mt_second List.length Nat.eqb]. rewrite andb_assoc. reflexivity.
  - rewrite at_end_here, take_good_here. cbn [fst snd]. lits. cbn [obind]. rewrite at_end_nil. cbn [andb new_metronome mt_notes mt_relation mt_note mt_first mt_isSecond mt_perMinute mt_second List.length Nat.eqb]. reflexivity.
  - rewrite at_end_nil. cbn [andb new_metronome mt_notes mt_relation mt_note mt_first mt_isSecond mt_perMinute mt_second List.length Nat.eqb]. rewrite andb_true_r. reflexivity.
Qed.

Lemma inv_some_element {A} n (l : list (str * A)) : conforms (Some_of (Element n)) l -> exists a ns, l = all_named n (a :: ns).
Proof.
  intros H. apply inv_sequence in H. destruct H as (x & y & -> & X & Y). apply inv_sequence in Y. destruct Y as (d & e & -> & D & Y). apply inv_nothing in Y. subst e.
  apply inv_element in X. destruct X as [a ->]. apply inv_many_element in D. destruct D as [ds ->]. exists a, ds. rewrite app_nil_r. reflexivity.
Qed.

Lemma all_named_good {A} (good : A -> bool) n l : all_readable good (all_named n l) <-> forallb good l = true.
Proof.
  unfold all_readable, all_named. rewrite Forall_map, forallb_forall, Forall_forall. reflexivity.
Qed.
Lemma all_app {A} (good : A -> bool) x y : all_readable good (x ++ y) <-> all_readable good x /\ all_readable good y.
Proof. apply Forall_app. Qed.
Lemma all_cons {A} (good : A -> bool) p y : all_readable good (p :: y) <-> good (snd p) = true /\ all_readable good y.
Proof. unfold all_readable. rewrite Forall_cons_iff. reflexivity. Qed.
Lemma all_nil {A} (good : A -> bool) : all_readable good [] <-> True.
Proof. split; constructor. Qed.
Lemma unit_good {A} (good : A -> bool) u : all_readable good (unit_of u) <-> good (fst u) && forallb good (snd u) = true.
Proof. unfold unit_of. rewrite all_cons, all_named_good, andb_true_iff. reflexivity. Qed.
Lemma some_bad {A} (good : A -> bool) l : one_unreadable good l <-> ~ all_readable good l.
Proof.
  unfold one_unreadable, all_readable. induction l as [ | p l IH]; [split; [intros H; inversion H | intros H; destruct H; constructor] | ].
  rewrite Exists_cons, Forall_cons_iff, IH. destruct (good (snd p)); intuition congruence.
Qed.

Theorem metronome_back A (good : A -> bool) (l : list (str * A)) :
  conforms (Choice [metronome_marks_content; Sequence [Some_of (Element "metronome-note"); Optional (Sequence [Element "metronome-relation"; Element "metronome-note"])]]) l ->
  all_readable good l -> comes_back (read_metronome good) write_metronome l.
Proof.
  intros H G. apply inv_choice in H. destruct H as (c & [<- | [<- | []]] & H).
  - apply inv_sequence in H. destruct H as (x & y & -> & X & Y). apply inv_beat_unit in X. destruct X as [u ->]. apply inv_sequence in Y. destruct Y as (d & e & -> & D & Y). apply inv_nothing in Y. subst e.
    rewrite app_nil_r in *. apply inv_choice in D. destruct D as (c & [<- | [<- | []]] & D).
    + apply inv_element in D. destruct D as [a ->]. apply all_app in G. destruct G as [G _]. apply unit_good in G.
      eexists. split; [rewrite (marks_read good u (inl a)), G; reflexivity | ]. apply Forall2_app'; [apply unit_written | ]. repeat (constructor; [same | ]); constructor.
    + apply inv_beat_unit in D. destruct D as [v ->]. apply all_app in G. destruct G as [G G2]. apply unit_good in G. apply unit_good in G2.
      eexists. split; [rewrite (marks_read good u (inr v)), G, G2; reflexivity | ]. apply Forall2_app'; apply unit_written.
  - apply inv_sequence in H. destruct H as (x & y & -> & X & Y). apply inv_some_element in X. destruct X as (a & ns & ->). apply inv_sequence in Y. destruct Y as (d & e & -> & D & Y). apply inv_nothing in Y. subst e.
    rewrite app_nil_r in *. apply all_app in G. destruct G as [G G2]. apply all_named_good in G.
    apply inv_optional in D. destruct D as [-> | D].
    + eexists. split; [rewrite (notes_read good a ns None), G; reflexivity | ]. unfold write_metronome. cbn [mt_isNotes mt_notes mt_relation new_child ch_has]. apply Forall2_app'; [ | constructor].
      rewrite map_map. apply same_named.
    + parts. cbn [app] in *. apply all_cons in G2. destruct G2 as [G2 G3]. apply all_cons in G3. destruct G3 as [G3 _]. cbn [snd] in G2, G3.
      eexists. split; [match goal with |- context [[(lit "metronome-relation", ?r); (lit "metronome-note", ?m)]] => rewrite (notes_read good a ns (Some (r, Some m))) end; rewrite G, G2, G3; reflexivity | ].
      unfold write_metronome. cbn [mt_isNotes mt_notes mt_relation mt_note give new_child ch_has orb]. apply Forall2_app'; [rewrite map_map; apply same_named | ].
      repeat (constructor; [same | ]); constructor.
Qed.

(** A relation with several notes after it. *)
Lemma relation_read {A} (good : A -> bool) a (ns : list A) r m m' (ms : list A) :
  read_metronome good (nodes (all_named "metronome-note" (a :: ns) ++ (lit "metronome-relation", r) :: all_named "metronome-note" (m :: m' :: ms))) =
  Ok (forallb good (a :: ns) && good r && forallb good (m :: m' :: ms),
      mkMetronome true new_beat_unit false new_child new_beat_unit
        (map (fun b => [Own b]) (match ns with [] => m' :: ms | _ => (a :: ns) ++ m' :: ms end)) (give true (Own r) new_child) (give true (Own m) new_child)).
Proof.
  unfold read_metronome. apply each_ok.
  set (t := (lit "metronome-relation", r) :: all_named "metronome-note" (m :: m' :: ms)).
  assert (T : take_all (left (here [] (all_named "metronome-note" (a :: ns) ++ t))) "metronome-note" (here [] (all_named "metronome-note" (a :: ns) ++ t))
    = Ok (here (after [] (all_named "metronome-note" (a :: ns))) t, a :: ns)).
  { rewrite left_here. apply take_all_named; [rewrite app_length, all_named_length; lia | reflexivity]. }
  change (all_named "metronome-note" (a :: ns) ++ t) with ((lit "metronome-note", a) :: all_named "metronome-note" ns ++ t) in *.
  eapply Loop_next.
  - unfold metronome_turn. rewrite name_here. cbn [obind fst]. unfold is_beat_unit. lits. cbn [orb]. unfold note_turn. rewrite T. cbn [obind]. subst t.
    rewrite at_end_here, take_good_here. cbn [fst snd]. lits. cbn [obind]. change (all_named "metronome-note" (m :: m' :: ms)) with ((lit "metronome-note", m) :: (lit "metronome-note", m') :: all_named "metronome-note" ms).
    rewrite at_end_here, take_good_here. cbn [fst snd]. lits. cbn [obind]. rewrite at_end_here. cbn [andb]. rewrite decrement_here. cbn [omap]. reflexivity.
  - subst t. rewrite app_length. cbn [List.length all_named map]. rewrite !all_named_length, ?map_length. lia.
  - eapply Loop_stop. unfold metronome_turn. rewrite name_here. cbn [obind fst]. unfold is_beat_unit. lits. cbn [orb]. unfold note_turn.
    change ((lit "metronome-note", m') :: all_named "metronome-note" ms) with (all_named "metronome-note" (m' :: ms)). rewrite left_here.
    rewrite <- (app_nil_r (all_named "metronome-note" (m' :: ms))). rewrite take_all_named; [ | rewrite app_nil_r, all_named_length; apply le_n | exact Logic.I].
    cbn [obind]. rewrite at_end_nil. cbn [new_metronome mt_notes mt_relation mt_note mt_first mt_isSecond mt_perMinute mt_second List.length Nat.eqb].
    do 3 f_equal. cbn [forallb andb]. rewrite <- !andb_assoc. f_equal. f_equal.
    destruct ns as [ | n ns]; [reflexivity | ]. cbn [map List.length Nat.eqb app]. rewrite map_app. reflexivity.
Qed.

Theorem metronome_relation A (good : A -> bool) (ns : list A) r m m' ms :
  ns <> [] -> let l := named "metronome-note" ns ++ (lit "metronome-relation", r) :: named "metronome-note" (m :: m' :: ms) in
  all_readable good l ->
  exists s, read_metronome good (nodes l) = Ok (true, s) /\
    Forall2 same_child (write_metronome s)
      (named "metronome-note" (if List.length ns =? 1 then m' :: ms else ns ++ m' :: ms) ++ [(lit "metronome-relation", r); (lit "metronome-note", m)]).
Proof.
  intros N l G. subst l. change (@named A) with (@all_named A) in *. destruct ns as [ | a ns]; [destruct (N eq_refl) | ].
  apply all_app in G. destruct G as [G1 G]. apply all_cons in G. destruct G as [G2 G3]. apply all_named_good in G1. apply all_named_good in G3. cbn [snd] in G2.
  eexists. split; [rewrite relation_read, G1, G2, G3; reflexivity | ].
  unfold write_metronome. cbn [mt_isNotes mt_notes mt_relation mt_note give new_child ch_has orb]. apply Forall2_app'; [ | repeat (constructor; [same | ]); constructor].
  rewrite map_map. destruct ns as [ | n ns]; cbn [List.length Nat.eqb]; apply same_named.
Qed.

Theorem metronome_refuted : ~ (forall l : list (str * nat), conforms metronome_content l -> comes_back (read_metronome (fun _ => true)) write_metronome l).
Proof.
  intros H. specialize (H swing). destruct H as (s & E & W).
  - apply conforms_choice with (Sequence [Some_of (Element "metronome-note"); Optional (Sequence [Element "metronome-relation"; Some_of (Element "metronome-note")])]); [right; left; reflexivity | ].
    unfold swing, Some_of. apply (conforms_sequence _ _ (named "metronome-note" [1; 2]) ([(lit "metronome-relation", 3)] ++ named "metronome-note" [4; 5])).
    + apply (conforms_sequence _ _ [(lit "metronome-note", 1)] [(lit "metronome-note", 2)]); [constructor | ].
      apply (conforms_sequence _ _ [(lit "metronome-note", 2)] []); [ | constructor]. apply (conforms_more _ [(lit "metronome-note", 2)] []); constructor.
    + apply (conforms_sequence _ _ ([(lit "metronome-relation", 3)] ++ named "metronome-note" [4; 5]) []); [ | constructor]. apply conforms_with.
      apply conforms_sequence; [constructor | ]. apply (conforms_sequence _ _ (named "metronome-note" [4; 5]) []); [ | constructor].
      apply (conforms_sequence _ _ [(lit "metronome-note", 4)] [(lit "metronome-note", 5)]); [constructor | ].
      apply (conforms_sequence _ _ [(lit "metronome-note", 5)] []); [ | constructor]. apply (conforms_more _ [(lit "metronome-note", 5)] []); constructor.
  - vm_compute in E. injection E as <-. cbn in W. inversion W as [ | ? ? ? ? _ W1]; subst. inversion W1 as [ | ? ? ? ? _ W2]; subst. inversion W2 as [ | ? ? ? ? X W3]; subst.
    destruct X as [X _]. vm_compute in X. discriminate X.
Qed.

(** A metronome that has only a beat-unit. *)
Theorem metronome_refused A (good : A -> bool) (l : list (str * A)) : conforms beat_unit_content l -> refused (read_metronome good) l.
Proof.
  intros H. apply inv_beat_unit in H. destruct H as [u ->].
  destruct (import_unit good [] u [] true new_beat_unit eq_refl Logic.I) as (b' & p & I & E & N & D). rewrite app_nil_r in I.
  eexists. unfold read_metronome. apply each_ok.
  change (unit_of u) with ((lit "beat-unit", fst u) :: all_named "beat-unit-dot" (snd u)) in *.
  eapply Loop_stop. unfold metronome_turn. rewrite name_here. cbn [obind fst]. unfold is_beat_unit. lits. cbn [orb]. unfold beat_unit_turn. cbn [mt_first mt_second new_metronome].
  rewrite I. cbn [obind]. rewrite N. cbn [obind]. rewrite at_end_nil. reflexivity.
Qed.

Theorem metronome_bad_refuted : ~ (forall good (l : list (str * nat)), conforms metronome_content l -> one_unreadable good l -> refused (read_metronome good) l).
Proof.
  intros H. destruct (H (Nat.eqb 1) quarter_120) as [s E].
  - apply conforms_choice with metronome_marks_content; [left; reflexivity | ]. apply (conforms_sequence _ _ [(lit "beat-unit", 1)] [(lit "per-minute", 2)]).
    + apply (conforms_sequence _ _ [(lit "beat-unit", 1)] []); [constructor | ]. apply (conforms_sequence _ _ [] []); constructor.
    + apply (conforms_sequence _ _ [(lit "per-minute", 2)] []); [ | constructor]. apply conforms_choice with (Element "per-minute"); [left; reflexivity | constructor].
  - right. left. reflexivity.
  - vm_compute in E. discriminate E.
Qed.

Theorem metronome_bad A (good : A -> bool) (l : list (str * A)) :
  conforms metronome_content l -> Exists (fun p => good (snd p) = false /\ fst p <> lit "per-minute") l -> refused (read_metronome good) l.
Proof.
  intros H B. apply inv_choice in H. destruct H as (c & [<- | [<- | []]] & H).
  - apply inv_sequence in H. destruct H as (x & y & -> & X & Y). apply inv_beat_unit in X. destruct X as [u ->]. apply inv_sequence in Y. destruct Y as (d & e & -> & D & Y). apply inv_nothing in Y. subst e.
    rewrite app_nil_r in *. apply inv_choice in D. destruct D as (c & [<- | [<- | []]] & D).
    + apply inv_element in D. destruct D as [a ->]. apply Exists_app in B. destruct B as [B | B]; [ | inversion B as [? ? [_ Q] | ? ? Q]; [destruct Q; reflexivity | inversion Q]].
      eexists. rewrite (marks_read good u (inl a)). destruct (good (fst u) && forallb good (snd u)) eqn:E; [ | reflexivity].
      apply unit_good in E. exfalso. revert E. apply some_bad. eapply Exists_impl; [ | exact B]. intros p Q. apply Q.
    + apply inv_beat_unit in D. destruct D as [v ->]. eexists. rewrite (marks_read good u (inr v)). 
      destruct (good (fst u) && forallb good (snd u)) eqn:E1; [ | reflexivity]. destruct (good (fst v) && forallb good (snd v)) eqn:E2; [ | reflexivity].
      apply unit_good in E1. apply unit_good in E2. exfalso. pose proof (proj2 (all_app good _ _) (conj E1 E2)) as E. revert E. apply some_bad. eapply Exists_impl; [ | exact B]. intros p Q. apply Q.
  - assert (U : one_unreadable good l) by (eapply Exists_impl; [ | exact B]; intros p Q; apply Q). clear B. apply some_bad in U.
    apply inv_sequence in H. destruct H as (x & y & -> & X & Y). apply inv_some_element in X. destruct X as (a & ns & ->). apply inv_sequence in Y. destruct Y as (d & e & -> & D & Y). apply inv_nothing in Y. subst e.
    rewrite app_nil_r in *. rewrite all_app, all_named_good in U. apply inv_optional in D. destruct D as [-> | D].
    + eexists. rewrite (notes_read good a ns None). destruct (forallb good (a :: ns)); [ | reflexivity]. destruct U. split; [reflexivity | constructor].
    + apply inv_sequence in D. destruct D as (x & y & -> & X & Y). apply inv_element in X. destruct X as [r ->]. apply inv_sequence in Y. destruct Y as (d & e & -> & D & Y). apply inv_nothing in Y. subst e.
      rewrite app_nil_r in *. apply inv_some_element in D. destruct D as (m & ms & ->). cbn [app] in *. rewrite all_cons, all_named_good in U. cbn [snd] in U. destruct ms as [ | m' ms].
      * eexists. change (all_named "metronome-note" [m]) with [(lit "metronome-note", m)]. rewrite (notes_read good a ns (Some (r, Some m))). revert U. generalize (forallb good (a :: ns)). cbn [forallb]. intros g U.
        destruct g; [ | reflexivity]. destruct (good r); [ | reflexivity]. destruct (good m); [ | reflexivity]. destruct U. auto.
      * eexists. rewrite relation_read. destruct (forallb good (a :: ns)); [ | reflexivity]. destruct (good r); [ | reflexivity]. destruct (forallb good (m :: m' :: ms)); [ | reflexivity]. destruct U. auto.
Qed.
