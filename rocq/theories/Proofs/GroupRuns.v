(** Elements with repeated groups of children, read and written again. *)
From Coq Require Import List String Ascii Bool PeanoNat Lia.
From Verif Require Import Model.Base Model.Text Model.ElementReading Model.ElementGroups Spec.ContentModels Proofs.GroupLoops Proofs.ChildrenProofs.
Import ListNotations.
Local Open Scope list_scope.

Ltac lits := repeat match goal with |- context [str_eqb (lit ?a) (lit ?b)] =>
  let v := eval vm_compute in (str_eqb (lit a) (lit b)) in change (str_eqb (lit a) (lit b)) with v end.
Ltac go := repeat (first
  [ rewrite import_here | rewrite take_here | rewrite take_nil | rewrite named_here | rewrite name_here | rewrite contents_here | rewrite increment_here
  | rewrite decrement_here | rewrite at_end_here | rewrite at_end_nil | rewrite take_not by assumption ];
  cbn [fst snd]; lits; cbn [obind omap orb andb negb back_if fst snd]).

Lemma same_named {A} n (l : list A) : Forall2 same_child (map (fun a => (lit n, [Own a])) l) (all_named n l).
Proof. induction l as [ | a l IH]; [constructor | ]. constructor; [same | exact IH]. Qed.

Lemma Forall2_app' {A B} (R : A -> B -> Prop) l1 l2 m1 m2 : Forall2 R l1 m1 -> Forall2 R l2 m2 -> Forall2 R (l1 ++ l2) (m1 ++ m2).
Proof. intros. apply Forall2_app; assumption. Qed.

Lemma after_named {A} b n (a : A) l : exists b' a', after b (all_named n (a :: l)) = node_of (lit n, a') :: b' /\ forall t, decrement (here (after b (all_named n (a :: l))) t) = Ok (here b' ((lit n, a') :: t)).
Proof.
  revert b a. induction l as [ | c l IH]; intros b a.
  - exists b, a. split; [reflexivity | ]. intros t. apply decrement_here.
  - destruct (IH (node_of (lit n, a) :: b) c) as (b' & a' & E & D). exists b', a'. split; [exact E | exact D].
Qed.

(** ** time *)
Definition pairs {A} (l : list (A * A)) : list (str * A) := List.concat (map (fun p => [(lit "beats", fst p); (lit "beat-type", snd p)]) l).

Lemma inv_pairs {A} (zs : list (list (str * A))) : Forall (conforms time_signature_content) zs -> exists l, List.concat zs = pairs l /\ List.length l = List.length zs.
Proof.
  unfold time_signature_content. induction 1 as [ | z zs C F (l & E & L)]; [exists []; split; reflexivity | ].
  apply inv_sequence in C. destruct C as (x1 & y1 & -> & C1 & C). apply inv_sequence in C. destruct C as (x2 & y2 & -> & C2 & C). apply inv_nothing in C. subst y2.
  apply inv_element in C1. destruct C1 as [u ->]. apply inv_element in C2. destruct C2 as [v ->].
  exists ((u, v) :: l). cbn [List.concat app pairs map fst snd List.length]. unfold pairs in E. rewrite E, L. split; reflexivity.
Qed.

Definition own {A} (a : A) : child A := mkChild true [Own a].
Fixpoint time_groups {A} (x : A * A) (l : list (A * A)) (i : child A) : list (time_group A) :=
  match l with [] => [mkTimeGroup (own (fst x)) (own (snd x)) i] | y :: l => mkTimeGroup (own (fst x)) (own (snd x)) new_child :: time_groups y l i end.

Definition time_tail {A} (o : option A) : list (str * A) := match o with Some a => [(lit "interchangeable", a)] | None => [] end.
Definition time_child {A} (o : option A) : child A := match o with Some a => own a | None => new_child end.
Definition kept {T} (first : bool) (l : list T) : list T := if negb first && (List.length l =? 1) then tl l else l.

Lemma kept_add {T} first (l : list T) g : (if negb first && (List.length l =? 1) then tl (l ++ [g]) else l ++ [g]) = kept first l ++ [g].
Proof. unfold kept. destruct first; [reflexivity | ]. destruct l as [ | x [ | y l]]; reflexivity. Qed.
Lemma kept_true {T} (l : list T) : kept true l = l.
Proof. reflexivity. Qed.

Lemma time_loop {A} (o : option A) ps x0 b s first gs c :
  Loop time_turn b (pairs (x0 :: ps) ++ time_tail o) (true, first, mkTimeElement c s gs) (true, true, mkTimeElement false s (kept first gs ++ time_groups x0 ps (time_child o))).
Proof.
  revert x0 b first gs c. induction ps as [ | [u' v'] ps IH]; intros [u v] b first gs c.
  - destruct o as [i | ]; cbn [pairs map List.concat app time_tail fst snd].
    + eapply Loop_next; [unfold time_turn, import_time_group; go; cbn [tm_groups tm_senza]; rewrite kept_add; reflexivity | cbn; lia | ]. apply Loop_end.
    + eapply Loop_next; [unfold time_turn, import_time_group; go; cbn [tm_groups tm_senza]; rewrite kept_add; reflexivity | cbn; lia | ]. apply Loop_end.
  - cbn [pairs map List.concat app fst snd].
    eapply Loop_next; [unfold time_turn, import_time_group; go; cbn [tm_groups tm_senza]; rewrite kept_add; reflexivity | cbn; lia | ].
    pose proof (IH (u', v') (node_of (lit "beat-type", v) :: node_of (lit "beats", u) :: b) true (kept first gs ++ [mkTimeGroup (own u) (own v) new_child]) false) as G.
    rewrite kept_true, <- app_assoc in G. exact G.
Qed.

Lemma time_written {A} (o : option A) ps x0 s :
  Forall2 same_child (write_time (mkTimeElement false s (time_groups x0 ps (time_child o)))) (pairs (x0 :: ps) ++ time_tail o).
Proof.
  unfold write_time. cbn [tm_isSenza tm_groups]. revert x0. induction ps as [ | y ps IH]; intros [u v].
  - destruct o as [i | ]; cbn; repeat (constructor; [same | ]); constructor.
  - specialize (IH y). cbn [time_groups map List.concat pairs fst snd app]. cbn [tg_beats tg_beatType tg_interchangeable if_has new_child ch_has].
    constructor; [same | ]. constructor; [same | ]. exact IH.
Qed.

Theorem time_back A (l : list (str * A)) : conforms time_content l -> comes_back read_time write_time l.
Proof.
  unfold time_content. intros H. apply inv_choice in H. destruct H as (c & [<- | [<- | []]] & H).
  2: { parts. concretely. }
  apply inv_sequence in H. destruct H as (z & y & -> & Z & Y). apply inv_some in Z. destruct Z as (x & zs & -> & F).
  destruct (inv_pairs _ F) as (ps & -> & L). destruct ps as [ | x0 ps]; [discriminate L | ]. clear L F x zs.
  assert (exists o, y = time_tail o) as [o ->] by (parts; [exists None; reflexivity | eexists (Some _); reflexivity]). clear Y.
  eexists. split; [unfold read_time; rewrite (each_ok _ _ _ _ (time_loop o ps x0 [] new_child false [new_time_group] false)); reflexivity | ]. apply time_written.
Qed.

(** ** key *)
Definition component_names {A} (c : A * A * option A) : list (str * A) :=
  let '(s, a, x) := c in (lit "key-step", s) :: (lit "key-alter", a) :: match x with Some x => [(lit "key-accidental", x)] | None => [] end.
Definition component_of {A} (c : A * A * option A) : key_component A :=
  let '(s, a, x) := c in mkKeyComponent (own s) (own a) (match x with Some x => own x | None => new_child end).
Definition components {A} (l : list (A * A * option A)) : list (str * A) := List.concat (map component_names l).

Lemma inv_components {A} (z : list (str * A)) : conforms (Many non_traditional_key_content) z -> exists l, z = components l.
Proof.
  intros H. apply inv_many in H. destruct H as (zs & -> & F). unfold non_traditional_key_content in F.
  induction F as [ | z zs C F (l & E)]; [exists []; reflexivity | ]. cbn [List.concat]. rewrite E.
  apply inv_sequence in C. destruct C as (x1 & y1 & -> & C1 & C). apply inv_sequence in C. destruct C as (x2 & y2 & -> & C2 & C).
  apply inv_sequence in C. destruct C as (x3 & y3 & -> & C3 & C). apply inv_nothing in C. subst y3.
  apply inv_element in C1. destruct C1 as [u ->]. apply inv_element in C2. destruct C2 as [v ->]. apply inv_optional in C3. destruct C3 as [-> | C3].
  - exists ((u, v, None) :: l). reflexivity.
  - apply inv_element in C3. destruct C3 as [w ->]. exists ((u, v, Some w) :: l). reflexivity.
Qed.

(** Where the iterator is after a group: on its last child after stepping back. *)
Lemma step_back {A} b (z : list (str * A)) p t : decrement (here (after b (z ++ [p])) t) = Ok (here (after b z) (p :: t)).
Proof. rewrite after_app. cbn [after]. apply decrement_here. Qed.

Lemma has_last {T} (x : T) l : exists z p, x :: l = z ++ [p].
Proof. destruct (exists_last (l := x :: l)) as (z & p & E); [intros E; discriminate E | ]. eauto. Qed.

Lemma import_components_ok {A} (l : list (A * A * option A)) t : not_first "key-step" t -> not_first "key-alter" t -> not_first "key-accidental" t ->
  forall fuel b first gs, List.length l <= fuel ->
  import_components fuel first (here b (components l ++ t)) gs =
    Ok (match l with [] => first | _ => true end, here (after b (components l)) t, match l with [] => gs | _ => kept first gs ++ map component_of l end).
Proof.
  intros N1 N2 N3. induction l as [ | [[s a] x] l IH]; intros fuel b first gs F.
  - cbn [components map List.concat app after]. destruct fuel; cbn [import_components]; go; reflexivity.
  - destruct fuel as [ | fuel]; [cbn in F; lia | ]. cbn [components map List.concat component_names]. fold (components l).
    assert (M : forall n, str_eqb (lit "key-step") (lit n) = false -> not_first n t -> not_first n (components l ++ t)).
    { intros n E N. destruct l as [ | [[? ?] ?] ?]; [exact N | exact E]. }
    assert (N1' : not_first "key-accidental" (components l ++ t)) by (apply M; [reflexivity | exact N3]).
    assert (F' : List.length l <= fuel) by (cbn in F; lia).
    destruct x as [x | ]; cbn [app]; cbn [import_components]; go; rewrite kept_add; rewrite (IH fuel) by exact F'; cbn [after map component_of];
      (destruct l; [reflexivity | rewrite kept_true, <- app_assoc; reflexivity]).
Qed.

Lemma octaves_loop {A} (l : list A) b t c f m g : Loop key_turn b (all_named "key-octave" l) (mkKeyElement t c f m g []) (mkKeyElement t c f m g l).
Proof.
  destruct l as [ | a l]; [apply Loop_end | ].
  destruct (has_last a l) as (z & p & E). set (k := mkKeyElement t c f m g []).
  assert (T1 : exists k', import_traditional (here b (all_named "key-octave" (a :: l))) k = Ok (false, here b (all_named "key-octave" (a :: l)), k')).
  { change (all_named "key-octave" (a :: l)) with ((lit "key-octave", a) :: all_named "key-octave" l). unfold import_traditional. go. eexists. reflexivity. }
  assert (T2 : exists k', import_nontraditional (here b (all_named "key-octave" (a :: l))) k = Ok (false, here b (all_named "key-octave" (a :: l)), k')).
  { unfold import_nontraditional. rewrite <- (app_nil_r (all_named "key-octave" (a :: l))).
    rewrite (import_components_ok (@nil (A * A * option A)) (all_named "key-octave" (a :: l) ++ [])) ; [ | reflexivity | reflexivity | reflexivity | apply le_0_n].
    eexists. reflexivity. }
  assert (T3 : key_turn (here b (all_named "key-octave" (a :: l))) k = Ok (false, here (after b (all_named "key-octave" z)) [(lit "key-octave", p)], mkKeyElement t c f m g (a :: l))).
  { unfold key_turn. destruct T1 as [k1 ->]. destruct T2 as [k2 ->]. cbn [obind]. unfold import_octaves. rewrite left_here.
    rewrite <- (app_nil_r (all_named "key-octave" (a :: l))). rewrite take_all_named; [ | rewrite app_nil_r, all_named_length; apply le_n | exact I].
    cbn [obind List.length Nat.eqb negb andb]. rewrite E. unfold all_named at 1. rewrite map_app. cbn [map back_if]. rewrite step_back. reflexivity. }
  change (all_named "key-octave" (a :: l)) with ((lit "key-octave", a) :: all_named "key-octave" l) in *.
  eapply Loop_next; [exact T3 | cbn; lia | apply Loop_end].
Qed.

Lemma not_octaves {A} n (l : list A) : str_eqb (lit "key-octave") (lit n) = false -> not_first n (all_named "key-octave" l).
Proof. destruct l; [exact (fun _ => I) | exact (fun E => E)]. Qed.

Lemma components_last {A} (c : A * A * option A) l : exists z p, components (c :: l) = z ++ [p].
Proof. destruct c as [[s a] x]. cbn [components map List.concat component_names app]. apply has_last. Qed.

Lemma components_written {A} (l : list (A * A * option A)) :
  Forall2 same_child (List.concat (map (fun c => always "key-step" (kc_step c) ++ always "key-alter" (kc_alter c) ++ if_has "key-accidental" (kc_accidental c)) (map component_of l))) (components l).
Proof.
  induction l as [ | [[s a] x] l IH]; [constructor | ]. destruct x as [x | ]; cbn [map List.concat component_of component_names components app kc_step kc_alter kc_accidental always if_has own new_child ch_has];
    repeat (constructor; [same | ]); exact IH.
Qed.

Theorem key_back A (l : list (str * A)) : conforms key_content l -> has_child "fifths" l \/ has_child "key-step" l -> comes_back read_key write_key l.
Proof.
  unfold key_content. intros H N. apply inv_sequence in H. destruct H as (x & y & -> & X & Y). apply inv_sequence in Y. destruct Y as (o & e & -> & O & Y).
  apply inv_nothing in Y. subst e. rewrite app_nil_r in *. apply inv_many_element in O. destruct O as [os ->].
  apply inv_choice in X. destruct X as (c & [<- | [<- | []]] & X).
  - clear N. unfold traditional_key_content in X. pose proof (not_octaves "cancel" os eq_refl). pose proof (not_octaves "fifths" os eq_refl). pose proof (not_octaves "mode" os eq_refl).
    parts; cbn [app]; (eexists; split;
      [unfold read_key; erewrite each_ok; [reflexivity | ]; eapply Loop_next; [unfold key_turn, import_traditional; go; reflexivity | cbn; lia | apply octaves_loop]
      | unfold write_key; cbn [ky_isTraditional ky_cancel ky_fifths ky_mode ky_octaves orb]; cbn [give new_child if_has always ch_has ch_given orb app];
        repeat (constructor; [same | ]); apply same_named]).
  - apply inv_components in X. destruct X as [cs ->]. destruct cs as [ | c cs].
    { exfalso. cbn [components map List.concat app] in N. destruct N as [[a N] | [a N]]; apply in_map_iff in N; destruct N as (? & E & _); vm_compute in E; discriminate E. }
    clear N. destruct (components_last c cs) as (z & p & E).
    exists (mkKeyElement false new_child new_child new_child (map component_of (c :: cs)) os). split.
    + unfold read_key. erewrite each_ok; [reflexivity | ]. destruct c as [[s a] x].
      assert (K : key_turn (here [] (components ((s, a, x) :: cs) ++ all_named "key-octave" os)) (mkKeyElement true new_child new_child new_child [] [])
        = Ok (false, here (after [] z) (p :: all_named "key-octave" os), mkKeyElement false new_child new_child new_child (map component_of ((s, a, x) :: cs)) [])).
      { unfold key_turn. 
        assert (T : import_traditional (here [] (components ((s, a, x) :: cs) ++ all_named "key-octave" os)) (mkKeyElement true new_child new_child new_child [] [])
          = Ok (false, here [] (components ((s, a, x) :: cs) ++ all_named "key-octave" os), mkKeyElement true new_child new_child new_child [] [])).
        { unfold import_traditional. cbn [components map List.concat component_names app]. go. reflexivity. }
        rewrite T. cbn [obind]. unfold import_nontraditional. rewrite left_here. cbn [ky_components].
        rewrite import_components_ok; [ | apply not_octaves; reflexivity | apply not_octaves; reflexivity | apply not_octaves; reflexivity | ].
        - cbn [obind]. rewrite E. cbn [back_if]. rewrite step_back. reflexivity.
        - rewrite app_length. assert (L : forall l : list (A * A * option A), List.length l <= List.length (components l)).
          { induction l as [ | [[? ?] ?] l IH]; [constructor | ]. cbn [components map List.concat component_names]. fold (components l). cbn [app List.length]. rewrite app_length. lia. }
          pose proof (L ((s, a, x) :: cs)). lia. }
      rewrite E in *. destruct z as [ | z0 z]; cbn [app] in K |- *.
      * eapply Loop_next; [exact K | constructor | apply octaves_loop].
      * eapply Loop_next; [exact K | rewrite !app_length; cbn; lia | apply octaves_loop].
    + unfold write_key. cbn [ky_isTraditional ky_components ky_octaves]. apply Forall2_app; [apply components_written | apply same_named].
Qed.
