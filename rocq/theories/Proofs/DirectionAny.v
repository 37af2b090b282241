(** Directions read from children of any kind. *)
From Coq Require Import List String Ascii Bool PeanoNat Lia.
From Verif Require Import Model.Base Model.Text Model.ElementReading Model.ElementGroups Model.ElementChoices Model.ScoreElements
  Spec.ContentModels Spec.MoreContents Spec.ScoreContents Proofs.GroupLoops Proofs.ChildrenProofs Proofs.GroupRuns Proofs.ChoiceProofs Proofs.MoreChildrenProofs Proofs.ScoreElementProofs
  Proofs.ScoreChildrenProofs Proofs.MemberProofs Proofs.AnyChildrenProofs Proofs.DirectionChildrenProofs.
Import ListNotations.
Local Open Scope list_scope.

Section Direction.
Context {A : Type} (good : A -> bool).

Definition all_of (n : string) (ts : list (list (str * A))) : child A := gives new_child (contents_of n (List.concat ts)).
Definition state_of (ts : list (list (str * A))) : direction_element A :=
  mkDirection (fold_left types_after ts [[]]) (all_of "offset" ts) (all_of "footnote" ts) (all_of "level" ts) (all_of "voice" ts) (all_of "staff" ts) (all_of "sound" ts).
Definition good_turns (ts : list (list (str * A))) : bool := forallb (fun p => good (snd p)) (List.concat ts).

Lemma all_of_more n (ts : list (list (str * A))) t : all_of n (ts ++ [t]) = gives new_child (contents_of n (List.concat ts) ++ contents_of n t).
Proof. unfold all_of. rewrite concat_app, contents_app. cbn [List.concat]. rewrite app_nil_r. reflexivity. Qed.
Lemma good_more ts t : good_turns (ts ++ [t]) = good_turns ts && forallb (fun p => good (snd p)) t.
Proof. unfold good_turns. rewrite concat_app, forallb_app. cbn [List.concat]. rewrite app_nil_r. reflexivity. Qed.
Lemma types_more (ts : list (list (str * A))) t : fold_left types_after (ts ++ [t]) [[]] = types_after (fold_left types_after ts [[]]) t.
Proof. rewrite fold_left_app. reflexivity. Qed.

Lemma starts_not n (l : list (str * A)) : ~ starts [n] l -> not_first n l.
Proof.
  destruct l as [ | p l]; [exact (fun _ => Logic.I) | ]. cbn. intros H. destruct (str_eqb (fst p) (lit n)) eqn:E; [ | reflexivity].
  apply str_eqb_true in E. destruct H. left. congruence.
Qed.
Lemma not_starts n (l : list (str * A)) : not_first n l -> ~ starts [n] l.
Proof. destruct l as [ | p l]; [exact (fun _ H => H) | ]. cbn. intros H [E | []]. rewrite <- E, str_eqb_refl in H. discriminate H. Qed.

Lemma same_state ts t ok d : ok = good_turns (ts ++ [t]) -> d = state_of (ts ++ [t]) -> (ok, d) = (good_turns (ts ++ [t]), state_of (ts ++ [t])).
Proof. intros -> ->. reflexivity. Qed.

(** What a turn adds to each member. *)
Lemma state_more ts t : state_of (ts ++ [t]) =
  mkDirection (types_after (fold_left types_after ts [[]]) t) (gives new_child (contents_of "offset" (List.concat ts) ++ contents_of "offset" t))
    (gives new_child (contents_of "footnote" (List.concat ts) ++ contents_of "footnote" t)) (gives new_child (contents_of "level" (List.concat ts) ++ contents_of "level" t))
    (gives new_child (contents_of "voice" (List.concat ts) ++ contents_of "voice" t)) (gives new_child (contents_of "staff" (List.concat ts) ++ contents_of "staff" t))
    (gives new_child (contents_of "sound" (List.concat ts) ++ contents_of "sound" t)).
Proof. unfold state_of. rewrite types_more, !all_of_more. reflexivity. Qed.

Lemma all_types (x : list (str * A)) : Forall (fun p => fst p = lit "direction-type") x -> exists l, x = all_named "direction-type" l.
Proof. induction 1 as [ | [n a] x E _ [l ->]]; [exists []; reflexivity | ]. cbn in E. subst n. exists (a :: l). reflexivity. Qed.
Lemma contents_none_of n (l : list A) : str_eqb (lit "direction-type") (lit n) = false -> contents_of n (all_named "direction-type" l) = [].
Proof. apply contents_other. Qed.
Lemma named_good n (l : list A) : forallb (fun p => good (snd p)) (all_named n l) = forallb good l.
Proof. induction l as [ | a l IH]; [reflexivity | ]. cbn. f_equal. exact IH. Qed.

Lemma types_run w a (ns : list A) :
  types_after w (all_named "direction-type" (a :: ns)) = if List.length w =? 1 then map (fun b => [Own b]) (a :: ns) else w ++ map (fun b => [Own b]) (a :: ns).
Proof. unfold types_after. rewrite contents_named. destruct w as [ | g [ | h w]]; reflexivity. Qed.
Lemma types_kept w (t : list (str * A)) : contents_of "direction-type" t = [] -> types_after w t = w.
Proof. unfold types_after. intros ->. reflexivity. Qed.

Lemma types_turn ts b a ns r : not_first "direction-type" r -> exists b' a',
  direction_turn good (here b (all_named "direction-type" (a :: ns) ++ r)) (good_turns ts, state_of ts) =
    Ok (false, here b' ((lit "direction-type", a') :: r), (good_turns (ts ++ [all_named "direction-type" (a :: ns)]), state_of (ts ++ [all_named "direction-type" (a :: ns)]))).
Proof.
  intros N. destruct (after_named b "direction-type" a ns) as (b' & a' & _ & D). exists b', a'.
  assert (T : take_all (left (here b (all_named "direction-type" (a :: ns) ++ r))) "direction-type" (here b (all_named "direction-type" (a :: ns) ++ r))
    = Ok (here (after b (all_named "direction-type" (a :: ns))) r, a :: ns)).
  { rewrite left_here. apply take_all_named; [rewrite app_length, all_named_length; lia | exact N]. }
  rewrite good_more, state_more, named_good, !contents_none_of, !app_nil_r by reflexivity.
  change (all_named "direction-type" (a :: ns) ++ r) with ((lit "direction-type", a) :: all_named "direction-type" ns ++ r) in *.
  unfold direction_turn. rewrite named_here. cbn [obind fst]. lits. rewrite T. cbn [obind]. rewrite D. cbn [omap obind]. rewrite types_run.
  cbn [state_of dr_types dr_offset dr_footnote dr_level dr_voice dr_staff dr_sound]. reflexivity.
Qed.

Lemma offset_turn ts b a r :
  direction_turn good (here b ((lit "offset", a) :: r)) (good_turns ts, state_of ts) =
    Ok (false, here b ((lit "offset", a) :: r), (good_turns (ts ++ [[(lit "offset", a)]]), state_of (ts ++ [[(lit "offset", a)]]))).
Proof.
  rewrite good_more, state_more. unfold direction_turn. rewrite named_here. cbn [obind fst]. lits. rewrite import_good_here. cbn [obind fst snd]. lits.
  cbn [state_of dr_types dr_offset dr_footnote dr_level dr_voice dr_staff dr_sound forallb andb]. unfold all_of. rewrite gives_more. rewrite types_kept by reflexivity. rewrite !contents_cons. cbn [fst snd]. lits. cbn [contents_of filter map]. rewrite !app_nil_r, andb_true_r. reflexivity.
Qed.

Lemma optional_is n (x rest : list (str * A)) : optional_from n x rest -> exists o, x = all_named n (maybe o) /\ (o = None -> not_first n rest).
Proof.
  intros [[a ->] | [-> N]]; [exists (Some a) | exists None]; (split; [reflexivity | intros E]); [discriminate E | exact (starts_not _ _ N)].
Qed.
Lemma group_is (x rest : list (str * A)) : voice_group x rest -> exists f l v,
  x = all_named "footnote" (maybe f) ++ all_named "level" (maybe l) ++ all_named "voice" (maybe v) /\
  (f = None -> l = None -> v = None -> not_first "footnote" rest) /\ (l = None -> v = None -> not_first "level" rest) /\ (v = None -> not_first "voice" rest).
Proof.
  intros (x1 & x2 & x3 & -> & F & L & V). apply optional_is in F, L, V. destruct F as (f & -> & F), L as (l & -> & L), V as (v & -> & V). exists f, l, v. split; [reflexivity | ].
  split; [intros Ef -> ->; exact (F Ef) | split; [intros El ->; exact (L El) | exact V]].
Qed.

Ltac steps := repeat (first [match goal with H : str_eqb ?n ?x = false |- context [str_eqb ?n ?x] => rewrite H end | rewrite named_here | rewrite at_end_here | rewrite at_end_nil | rewrite take_good_here | rewrite take_good_nil | rewrite decrement_here | rewrite import_good_here];
  cbn [obind omap orb andb back_if fst snd]; lits; cbn [obind omap orb andb back_if fst snd]).
Ltac sums := rewrite good_more, state_more; cbn [forallb andb app snd]; rewrite types_kept by (rewrite ?contents_cons; cbn [fst snd]; lits; reflexivity); unfold all_of; rewrite ?gives_more, ?contents_cons; cbn [fst snd]; lits; cbn [contents_of filter map];
  rewrite ?app_nil_r, ?andb_true_r, ?andb_assoc; try reflexivity.

Lemma last_turn ts b x : x <> [] -> voice_group x [] -> exists b' p' p l, x = p :: l /\
  direction_turn good (here b x) (good_turns ts, state_of ts) = Ok (false, here b' [p'], (good_turns (ts ++ [x]), state_of (ts ++ [x]))).
Proof.
  intros H G. apply group_is in G. destruct G as (f & l & v & -> & _).
  destruct f as [f | ], l as [l | ], v as [v | ]; cbn [maybe all_named map app] in *; try (destruct H; reflexivity); do 4 eexists; (split; [reflexivity | ]);
  unfold direction_turn; cbn [state_of dr_types dr_offset dr_footnote dr_level dr_voice dr_staff dr_sound]; steps; unfold import_voice_group; steps; sums.
Qed.

Lemma starts_two n m (l : list (str * A)) : ~ starts [n; m] l -> not_first n l /\ not_first m l.
Proof.
  intros H. split; apply starts_not; intros C; apply H; destruct l; try exact C; cbn in *; tauto.
Qed.

Lemma other_turn ts b x p r : voice_group x (p :: r) -> ~ starts ["direction-type"; "offset"]%string (x ++ p :: r) -> exists b',
  direction_turn good (here b (x ++ p :: r)) (good_turns ts, state_of ts) =
    Ok (false, here b' (p :: r), (good_turns (ts ++ [x ++ filter (is_named ["staff"; "sound"]%string) [p]]), state_of (ts ++ [x ++ filter (is_named ["staff"; "sound"]%string) [p]]))).
Proof.
  intros G N. apply group_is in G. destruct G as (f & l & v & -> & F & L & V). apply starts_two in N. destruct N as [N1 N2]. unfold is_named. cbn [filter existsb]. rewrite orb_false_r.
  destruct p as [n c]. cbn [fst snd] in *.
  destruct (str_eqb n (lit "staff")) eqn:E1; [apply str_eqb_true in E1; subst n | destruct (str_eqb n (lit "sound")) eqn:E2; [apply str_eqb_true in E2; subst n | ]];
  destruct f as [f | ], l as [l | ], v as [v | ]; cbn [maybe all_named map app orb] in *; eexists;
  try specialize (F eq_refl eq_refl eq_refl); try specialize (L eq_refl eq_refl); try specialize (V eq_refl); cbn [not_first fst] in *;
  unfold direction_turn; cbn [state_of dr_types dr_offset dr_footnote dr_level dr_voice dr_staff dr_sound]; steps; unfold import_voice_group; steps; sums.
Qed.

Lemma turns_read l ts : in_turns l ts -> forall done b, Loop (direction_turn good) b l (good_turns done, state_of done) (good_turns (done ++ ts), state_of (done ++ ts)).
Proof.
  induction 1 as [ | x r ts X T N _ IH | a r ts _ IH | x X G | x p r ts G N _ IH]; intros done b.
  - rewrite app_nil_r. constructor.
  - apply all_types in T. destruct T as [[ | a ns] ->]; [destruct X; reflexivity | ]. destruct (types_turn done b a ns r (starts_not _ _ N)) as (b' & a' & E).
    eapply Loop_next; [exact E | rewrite app_length; cbn; lia | ]. specialize (IH (done ++ [all_named "direction-type" (a :: ns)]) (node_of (lit "direction-type", a') :: b')). rewrite <- app_assoc in IH. exact IH.
  - eapply Loop_next; [apply offset_turn | constructor | ]. rewrite (app_assoc done [_] ts : done ++ [(lit "offset", a)] :: ts = _). apply IH.
  - destruct (last_turn done b x X G) as (b' & p' & p & l & -> & E). eapply Loop_next; [exact E | cbn; lia | constructor].
  - destruct (other_turn done b x p r G N) as (b' & E). set (t := x ++ filter _ [p]) in *. rewrite (app_assoc done [t] ts : done ++ t :: ts = _).
    destruct x as [ | q x]; (eapply Loop_next; [exact E | rewrite ?app_length; cbn; lia | apply IH]).
Qed.

Lemma written_turns ts : write_direction (state_of ts) = direction_written ts.
Proof.
  unfold write_direction, direction_written, all_of. cbn [state_of dr_types dr_offset dr_footnote dr_level dr_voice dr_staff dr_sound]. unfold all_of. rewrite !if_has_gives. cbn [map List.concat].
  rewrite app_nil_r, <- !app_assoc. reflexivity.
Qed.

Theorem direction_any l ts : in_turns l ts ->
  exists s, read_direction good (nodes l) = Ok (forallb (fun p => good (snd p)) (List.concat ts), s) /\ write_direction s = direction_written ts.
Proof.
  intros H. exists (state_of ts). split; [ | apply written_turns]. unfold read_direction. apply each_ok. exact (turns_read l ts H [] []).
Qed.
End Direction.

(** Every list of children is in turns. *)
Lemma optional_split {A} n (l : list (str * A)) : exists x r, l = x ++ r /\ optional_from n x r.
Proof.
  destruct l as [ | [m a] l]; [exists [], []; split; [reflexivity | right; split; [reflexivity | exact (fun H => H)]] | ].
  destruct (str_eqb m (lit n)) eqn:E.
  - apply str_eqb_true in E. subst m. exists [(lit n, a)], l. split; [reflexivity | left; eauto].
  - exists [], ((m, a) :: l). split; [reflexivity | right; split; [reflexivity | ]]. apply not_starts. exact E.
Qed.
Lemma group_split {A} (l : list (str * A)) : exists x r, l = x ++ r /\ voice_group x r.
Proof.
  destruct (optional_split "footnote" l) as (f & r1 & -> & F). destruct (optional_split "level" r1) as (e & r2 & -> & L). destruct (optional_split "voice" r2) as (v & r3 & -> & V).
  exists (f ++ e ++ v), r3. split; [rewrite <- !app_assoc; reflexivity | ]. exists f, e, v. auto.
Qed.
Lemma types_split {A} (l : list (str * A)) : exists x r, l = x ++ r /\ Forall (fun p => fst p = lit "direction-type") x /\ ~ starts ["direction-type"%string] r.
Proof.
  induction l as [ | [m a] l (x & r & -> & X & N)]; [exists [], []; repeat split; [constructor | exact (fun H => H)] | ].
  destruct (str_eqb m (lit "direction-type")) eqn:E.
  - apply str_eqb_true in E. subst m. exists ((lit "direction-type", a) :: x), r. repeat split; [constructor; [reflexivity | exact X] | exact N].
  - exists [], ((m, a) :: x ++ r). repeat split; [constructor | ]. apply not_starts. exact E.
Qed.

Theorem turns_exist A (l : list (str * A)) : exists ts, in_turns l ts.
Proof.
  remember (List.length l) as n eqn:Z. assert (M : List.length l <= n) by lia. clear Z. revert l M.
  induction n as [ | n IH]; intros l M; [destruct l; [exists []; constructor | cbn in M; lia] | ].
  destruct l as [ | p l]; [exists []; constructor | ].
  destruct (types_split (p :: l)) as (x & r & E & X & N). destruct x as [ | q x].
  - destruct (str_eqb (fst p) (lit "offset")) eqn:O.
    + apply str_eqb_true in O. destruct p as [m a]. cbn in O. subst m. destruct (IH l) as [ts T]; [cbn in M; lia | ]. eexists. apply turns_offset. exact T.
    + assert (N2 : ~ starts ["direction-type"; "offset"]%string (p :: l)).
      { cbn [app] in E. rewrite <- E in N. cbn in N |- *. intros [H | [H | []]]; [tauto | ]. rewrite <- H, str_eqb_refl in O. discriminate O. }
      destruct (group_split (p :: l)) as (y & [ | q z] & E2 & G).
      * exists [y]. rewrite E2, app_nil_r. apply turns_last; [intros ->; discriminate E2 | exact G].
      * destruct (IH z) as [ts T]; [apply (f_equal (@List.length _)) in E2; rewrite app_length in E2; cbn in E2, M; lia | ]. eexists. rewrite E2 in N2 |- *. apply turns_other; eassumption.
  - destruct (IH r) as [ts T]; [apply (f_equal (@List.length _)) in E; rewrite app_length in E; cbn in E, M; lia | ]. eexists. rewrite E. apply turns_types; [discriminate | exact X | exact N | exact T].
Qed.

Lemma muddled_turns : in_turns a_muddled_direction
  [[(lit "direction-type", 1)]; [(lit "offset", 2)]; [(lit "direction-type", 3)]; [(lit "voice", 4)]; [(lit "level", 6); (lit "staff", 7)]; [(lit "footnote", 8)]].
Proof.
  unfold a_muddled_direction.
  assert (D : forall n m (a : nat) l, str_eqb (lit m) (lit n) = false -> ~ starts [n] ((lit m, a) :: l)) by (intros n m a l E; apply not_starts; exact E).
  assert (D2 : forall m (a : nat) l, str_eqb (lit m) (lit "direction-type") = false -> str_eqb (lit m) (lit "offset") = false -> ~ starts ["direction-type"; "offset"]%string ((lit m, a) :: l)).
  { intros m a l E1 E2. cbn. intros [H | [H | []]]; rewrite <- H, str_eqb_refl in *; discriminate. }
  apply (turns_types [_] (_ :: _)); [discriminate | repeat constructor | apply D; reflexivity | ]. apply turns_offset.
  apply (turns_types [_] (_ :: _)); [discriminate | repeat constructor | apply D; reflexivity | ].
  apply (turns_other [(lit "voice", 4)] (lit "offset", 5)).
  { exists [], [], [(lit "voice", 4)]. repeat split; [right | right | left; eauto]; (split; [reflexivity | apply D; reflexivity]). }
  { apply D2; reflexivity. }
  apply (turns_other [(lit "level", 6)] (lit "staff", 7)).
  { exists [], [(lit "level", 6)], []. repeat split; [right | left; eauto | right]; (split; [reflexivity | apply D; reflexivity]). }
  { apply D2; reflexivity. }
  apply turns_last; [discriminate | ]. exists [(lit "footnote", 8)], [], []. repeat split; [left; eauto | right | right]; (split; [reflexivity | exact (fun H => H)]).
Qed.
