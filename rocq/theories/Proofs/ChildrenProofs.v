(** Elements with alternatives or groups of children, read and written again. *)
From Coq Require Import List String Ascii Bool PeanoNat Lia.
From Verif Require Import Model.Base Model.Text Model.ElementReading Model.ElementGroups Spec.ContentModels Proofs.GroupLoops.
Import ListNotations.
Local Open Scope list_scope.

(** ** What conforms looks like. *)
Lemma inv_element {A} n (z : list (str * A)) : conforms (Element n) z -> exists a, z = [(lit n, a)].
Proof. intros H. inversion H; subst. eauto. Qed.
Lemma inv_nothing {A} (z : list (str * A)) : conforms (Sequence []) z -> z = [].
Proof. intros H. inversion H; subst. reflexivity. Qed.
Lemma inv_sequence {A} c l (z : list (str * A)) : conforms (Sequence (c :: l)) z -> exists x y, z = x ++ y /\ conforms c x /\ conforms (Sequence l) y.
Proof. intros H. inversion H; subst. eauto. Qed.
Lemma inv_optional {A} c (z : list (str * A)) : conforms (Optional c) z -> z = [] \/ conforms c z.
Proof. intros H. inversion H; subst; auto. Qed.
Lemma inv_choice {A} l (z : list (str * A)) : conforms (Choice l) z -> exists c, In c l /\ conforms c z.
Proof. intros H. inversion H; subst; eauto. Qed.
Lemma inv_one_of {A} l (z : list (str * A)) : conforms (one_of l) z -> exists n a, In n l /\ z = [(lit n, a)].
Proof.
  intros H. destruct (inv_choice _ _ H) as (c & I & C). apply in_map_iff in I. destruct I as (n & <- & I). destruct (inv_element _ _ C) as [a ->]. eauto.
Qed.
Lemma inv_many {A} c (z : list (str * A)) : conforms (Many c) z -> exists zs, z = List.concat zs /\ Forall (conforms c) zs.
Proof.
  intros H. remember (Many c) as m eqn:E. induction H; try discriminate E.
  - exists []. split; [reflexivity | constructor].
  - injection E as ->. destruct (IHconforms2 eq_refl) as (zs & -> & F). exists (x :: zs). split; [reflexivity | constructor; assumption].
Qed.
Lemma inv_many_element {A} n (z : list (str * A)) : conforms (Many (Element n)) z -> exists l, z = all_named n l.
Proof.
  intros H. destruct (inv_many _ _ H) as (zs & -> & F). clear H. induction F as [ | x zs C F (l & E)]; [exists []; reflexivity | ].
  destruct (inv_element _ _ C) as [a ->]. exists (a :: l). cbn. f_equal. exact E.
Qed.
Lemma inv_many_one_of {A} l (z : list (str * A)) : conforms (Many (one_of l)) z -> Forall (fun p => In (fst p) (map lit l)) z.
Proof.
  intros H. destruct (inv_many _ _ H) as (zs & -> & F). clear H. induction F as [ | x zs C F IH]; [constructor | ].
  destruct (inv_one_of _ _ C) as (n & a & I & ->). constructor; [exact (in_map lit _ _ I) | exact IH].
Qed.
Lemma inv_some {A} c (z : list (str * A)) : conforms (Some_of c) z -> exists x zs, z = List.concat (x :: zs) /\ Forall (conforms c) (x :: zs).
Proof.
  intros H. destruct (inv_sequence _ _ _ H) as (x & y & -> & C & Y). destruct (inv_sequence _ _ _ Y) as (u & v & -> & U & V).
  rewrite (inv_nothing _ V), app_nil_r. destruct (inv_many _ _ U) as (zs & -> & F). exists x, zs. split; [reflexivity | constructor; assumption].
Qed.

Ltac parts :=
  repeat match goal with
  | H : conforms (Element _) _ |- _ => apply inv_element in H; destruct H as [? ->]
  | H : conforms (Sequence []) _ |- _ => apply inv_nothing in H; subst
  | H : conforms (Sequence (_ :: _)) _ |- _ => apply inv_sequence in H; destruct H as (? & ? & -> & ? & H)
  | H : conforms (Optional _) _ |- _ => apply inv_optional in H; destruct H as [-> | H]
  | H : conforms (one_of _) _ |- _ => apply inv_one_of in H; destruct H as (? & ? & H & ->)
  | H : conforms (Choice _) _ |- _ => apply inv_choice in H; destruct H as (? & ? & H)
  | H : In _ (_ :: _) |- _ => destruct H as [<- | H]
  | H : In _ [] |- _ => destruct H
  end.

Lemma same_own {A} n (a : A) : same_child (lit n, [Own a]) (lit n, a).
Proof. split; reflexivity. Qed.

Ltac same := split; reflexivity.
Ltac concretely := eexists; split; [vm_compute; reflexivity | repeat (constructor; [split; reflexivity | ]); constructor].

(** ** bend, harmonic, arrow, interchangeable *)
Theorem bend_back A (l : list (str * A)) : conforms bend_content l -> comes_back read_bend write_bend l.
Proof. unfold bend_content. intros H. parts; concretely. Qed.

Theorem harmonic_back A (l : list (str * A)) : conforms harmonic_content l -> comes_back read_harmonic write_harmonic l.
Proof. unfold harmonic_content. intros H. parts; concretely. Qed.

Theorem arrow_back A (l : list (str * A)) : conforms arrow_content l -> ~ has_child "circular-arrow" l ->
  exists s, read_arrow (nodes l) = Ok (true, s) /\ write_arrow s = arrow_children l.
Proof.
  unfold arrow_content. intros H N. parts; try (eexists; split; vm_compute; reflexivity). exfalso. apply N. eexists. left. reflexivity.
Qed.

Theorem arrow_refused A (l : list (str * A)) : conforms arrow_content l -> has_child "circular-arrow" l -> refused read_arrow l.
Proof.
  unfold arrow_content. intros H [a I]. parts; try (cbn in I; repeat destruct I as [I | I]; try discriminate I; contradiction).
  eexists. vm_compute. reflexivity.
Qed.

Theorem interchangeable_back A (l : list (str * A)) :
  conforms (Sequence [Optional (Element "time-relation"); time_signature_content]) l -> comes_back read_interchangeable write_interchangeable l.
Proof. unfold time_signature_content. intros H. parts; concretely. Qed.

(** ** articulations, technical, notations, notehead-text *)
Lemma choose_some t x w : map fst t = map snd t -> choose t x = Some w -> x = lit w /\ In w (map snd t).
Proof.
  unfold choose. intros E. destruct (find _ t) as [[u v] | ] eqn:F; cbn; intros H; [ | discriminate H]. injection H as <-.
  apply find_some in F. destruct F as [I F]. apply str_eqb_true in F. cbn in F. subst x.
  assert (u = v) as ->; [ | split; [reflexivity | apply in_map_iff; exists (v, v); split; [reflexivity | exact I]]].
  clear - E I. induction t as [ | [a b] t IH]; [destruct I | ]. cbn in E. injection E as -> E. destruct I as [I | I]; [injection I as <- <-; reflexivity | auto].
Qed.
Lemma choose_none t x : choose t x = None -> ~ In x (map lit (map fst t)).
Proof.
  unfold choose. destruct (find _ t) as [? | ] eqn:F; cbn; intros H; [discriminate H | ]. clear H. rewrite map_map, in_map_iff. intros ([u v] & <- & I).
  pose proof (find_none _ _ F _ I) as N. cbn in N. rewrite str_eqb_refl in N. discriminate N.
Qed.
Lemma choose_in t x : In x (map lit (map fst t)) -> exists w, choose t x = Some w.
Proof. intros I. destruct (choose t x) eqn:E; [eauto | ]. apply choose_none in E. contradiction. Qed.

Lemma conforms_many_one_of {A} names (l : list (str * A)) : Forall (fun p => In (fst p) (map lit names)) l -> conforms (Many (one_of names)) l.
Proof.
  induction 1 as [ | [n a] l I F IH]; [constructor | ]. change ((n, a) :: l) with ([(n, a)] ++ l). constructor; [ | exact IH].
  cbn in I. apply in_map_iff in I. destruct I as (m & <- & I). apply conforms_choice with (Element m); [apply in_map; exact I | constructor].
Qed.

Lemma Forall_or_not {A} names (l : list (str * A)) :
  Forall (fun p => In (fst p) (map lit names)) l \/ Exists (fun p => ~ In (fst p) (map lit names)) l.
Proof.
  induction l as [ | p l IH]; [left; constructor | ]. destruct (in_dec (list_eq_dec ascii_dec) (fst p) (map lit names)) as [I | I]; [ | right; constructor; exact I].
  destruct IH as [F | E]; [left; constructor; assumption | right; apply Exists_cons_tl; exact E].
Qed.

Definition articulation_step {A} (p : str * A) (s : bool * list (str * list (given A))) :=
  match choose articulations_choices (fst p) with Some w => (fst s, snd s ++ [(lit w, [Own (snd p)])]) | None => (false, snd s ++ [(lit "accent", [])]) end.

Lemma articulations_fold {A} (l : list (str * A)) : read_articulations (nodes l) = Ok (fold_left (fun s p => articulation_step p s) l (true, [])).
Proof.
  unfold read_articulations. apply loop_still. intros b p r [ok t]. rewrite name_here. cbn [obind]. rewrite contents_here. cbn [obind].
  unfold articulation_step. destruct (choose _ _); reflexivity.
Qed.

Lemma articulations_known {A} (l : list (str * A)) ok t : Forall (fun p => In (fst p) (map lit articulation_names)) l ->
  fold_left (fun s p => articulation_step p s) l (ok, t) = (ok, t ++ map (fun p => (fst p, [Own (snd p)])) l).
Proof.
  intros F. revert t. induction F as [ | p l I F IH]; intros t; [cbn; rewrite app_nil_r; reflexivity | ].
  cbn [fold_left map]. unfold articulation_step at 2. cbn [fst snd]. destruct (choose_in articulations_choices (fst p)) as [w W]; [exact I | ]. rewrite W.
  apply choose_some in W; [ | reflexivity]. destruct W as [-> _]. rewrite IH, <- app_assoc. reflexivity.
Qed.

Lemma same_all {A} (l : list (str * A)) : Forall2 same_child (map (fun p => (fst p, [Own (snd p)])) l) l.
Proof.
  induction l as [ | [n a] l IH]; [constructor | ]. constructor; [ | exact IH]. split; reflexivity.
Qed.

Theorem articulations_back A (l : list (str * A)) : conforms articulations_content l -> comes_back read_articulations write_articulations l.
Proof.
  intros H. apply inv_many_one_of in H. eexists. split; [rewrite articulations_fold, (articulations_known l true [] H); reflexivity | ]. apply same_all.
Qed.

Lemma articulations_stays_false {A} (l : list (str * A)) t : exists t', fold_left (fun s p => articulation_step p s) l (false, t) = (false, t').
Proof.
  revert t. induction l as [ | p l IH]; intros t; [exists t; reflexivity | ]. cbn [fold_left]. unfold articulation_step at 2. destruct (choose _ _); apply IH.
Qed.

Theorem articulations_refused A (l : list (str * A)) : ~ conforms articulations_content l -> refused read_articulations l.
Proof.
  intros N. destruct (Forall_or_not articulation_names l) as [F | E]; [exfalso; apply N, conforms_many_one_of, F | ]. clear N.
  unfold refused. setoid_rewrite articulations_fold. assert (G : forall ok t, exists s, fold_left (fun s p => articulation_step p s) l (ok, t) = (false, s)).
  { induction E as [p l I | p l E IH]; intros ok t; cbn [fold_left]; unfold articulation_step at 2; destruct (choose articulations_choices (fst p)) eqn:C.
    - exfalso. apply I. apply choose_some in C; [ | reflexivity]. destruct C as [C J]. rewrite C. exact (in_map lit _ _ J).
    - apply articulations_stays_false.
    - apply IH.
    - apply IH. }
  destruct (G true []) as [s ->]. exists s. reflexivity.
Qed.

Definition technical_step {A} (p : str * A) (s : bool * list (str * list (given A))) :=
  match choose technical_choices (fst p) with Some w => (fst s, snd s ++ [(lit w, [Own (snd p)])]) | None => (false, snd s) end.

Lemma technical_fold {A} (l : list (str * A)) : read_technical (nodes l) = Ok (fold_left (fun s p => technical_step p s) l (true, [])).
Proof.
  unfold read_technical. apply loop_still. intros b p r [ok t]. rewrite name_here. cbn [obind]. rewrite contents_here. cbn [obind].
  unfold technical_step. destruct (choose _ _); reflexivity.
Qed.

Lemma technical_known {A} (l : list (str * A)) ok t : Forall (fun p => In (fst p) (map lit technical_names)) l ->
  fold_left (fun s p => technical_step p s) l (ok, t) = (ok, t ++ map (fun p => (fst p, [Own (snd p)])) l).
Proof.
  intros F. revert t. induction F as [ | p l I F IH]; intros t; [cbn; rewrite app_nil_r; reflexivity | ].
  cbn [fold_left map]. unfold technical_step at 2. cbn [fst snd]. destruct (choose_in technical_choices (fst p)) as [w W]; [exact I | ]. rewrite W.
  apply choose_some in W; [ | reflexivity]. destruct W as [-> _]. rewrite IH, <- app_assoc. reflexivity.
Qed.

Theorem technical_back A (l : list (str * A)) : conforms technical_content l -> comes_back read_technical write_technical l.
Proof.
  intros H. apply inv_many_one_of in H. eexists. split; [rewrite technical_fold, (technical_known l true [] H); reflexivity | ]. apply same_all.
Qed.

Lemma technical_stays_false {A} (l : list (str * A)) t : exists t', fold_left (fun s p => technical_step p s) l (false, t) = (false, t').
Proof.
  revert t. induction l as [ | p l IH]; intros t; [exists t; reflexivity | ]. cbn [fold_left]. unfold technical_step at 2. destruct (choose _ _); apply IH.
Qed.

Theorem technical_refused A (l : list (str * A)) : ~ conforms technical_content l -> refused read_technical l.
Proof.
  intros N. destruct (Forall_or_not technical_names l) as [F | E]; [exfalso; apply N, conforms_many_one_of, F | ]. clear N.
  unfold refused. setoid_rewrite technical_fold. assert (G : forall ok t, exists s, fold_left (fun s p => technical_step p s) l (ok, t) = (false, s)).
  { induction E as [p l I | p l E IH]; intros ok t; cbn [fold_left]; unfold technical_step at 2; destruct (choose technical_choices (fst p)) eqn:C.
    - exfalso. apply I. apply choose_some in C; [ | reflexivity]. destruct C as [C J]. rewrite C. exact (in_map lit _ _ J).
    - apply technical_stays_false.
    - apply IH.
    - apply IH. }
  destruct (G true []) as [s ->]. exists s. reflexivity.
Qed.

(** *** notations *)
Definition notation_step {A} (p : str * A) (s : bool * notations A) :=
  if str_eqb (fst p) (lit "footnote") then (fst s, mkNotations (give true (Own (snd p)) (nt_footnote (snd s))) (nt_level (snd s)) (nt_choices (snd s)))
  else if str_eqb (fst p) (lit "level") then (fst s, mkNotations (nt_footnote (snd s)) (give true (Own (snd p)) (nt_level (snd s))) (nt_choices (snd s)))
  else match choose notations_choices (fst p) with
       | Some w => (fst s, mkNotations (nt_footnote (snd s)) (nt_level (snd s)) (nt_choices (snd s) ++ [(lit w, [Own (snd p)])]))
       | None => (false, snd s)
       end.

Lemma notations_fold {A} (l : list (str * A)) :
  read_notations (nodes l) = Ok (fold_left (fun s p => notation_step p s) l (true, mkNotations new_child new_child [])).
Proof.
  unfold read_notations. apply loop_still. intros b p r [ok t]. rewrite name_here. cbn [obind]. rewrite contents_here. cbn [obind].
  unfold notation_step. destruct (str_eqb _ _); [reflexivity | ]. destruct (str_eqb _ _); [reflexivity | ]. destruct (choose _ _); reflexivity.
Qed.

Lemma notation_name x : In x (map lit notation_names) -> x <> lit "other-notation" ->
  str_eqb x (lit "footnote") = false /\ str_eqb x (lit "level") = false /\ exists w, choose notations_choices x = Some w /\ x = lit w.
Proof.
  intros I N. unfold notation_names in I. cbn [map] in I.
  repeat (destruct I as [<- | I]; [split; [vm_compute; reflexivity | split; [vm_compute; reflexivity | eexists; split; [vm_compute; reflexivity | reflexivity]]] | ]).
  destruct I as [<- | []]. exfalso. apply N. reflexivity.
Qed.

Lemma notations_known {A} (l : list (str * A)) ok f v t :
  Forall (fun p => In (fst p) (map lit notation_names)) l -> Forall (fun p => fst p <> lit "other-notation") l ->
  fold_left (fun s p => notation_step p s) l (ok, mkNotations f v t) = (ok, mkNotations f v (t ++ map (fun p => (fst p, [Own (snd p)])) l)).
Proof.
  intros F. revert t. induction F as [ | p l I F IH]; intros t N; [cbn; rewrite app_nil_r; reflexivity | ].
  inversion N as [ | ? ? N1 N2]; subst. cbn [fold_left map]. unfold notation_step at 2. cbn [fst snd].
  destruct (notation_name _ I N1) as (-> & -> & w & -> & ->). cbn [nt_footnote nt_level nt_choices]. rewrite (IH _ N2), <- app_assoc. reflexivity.
Qed.

Lemma notation_footnote {A} (a : A) ok f v t : notation_step (lit "footnote", a) (ok, mkNotations f v t) = (ok, mkNotations (give true (Own a) f) v t).
Proof. reflexivity. Qed.
Lemma notation_level {A} (a : A) ok f v t : notation_step (lit "level", a) (ok, mkNotations f v t) = (ok, mkNotations f (give true (Own a) v) t).
Proof. reflexivity. Qed.

Theorem notations_back A (l : list (str * A)) : conforms notations_content l -> ~ has_child "other-notation" l -> comes_back read_notations write_notations l.
Proof.
  unfold notations_content, editorial_content. cbn [app]. intros H N. unfold comes_back. setoid_rewrite notations_fold.
  parts; match goal with H : conforms (Many _) ?x |- _ => apply inv_many_one_of in H; rewrite app_nil_r in *; rename x into z end.
  all: assert (Z : Forall (fun p => fst p <> lit "other-notation") z) by (apply Forall_forall; intros [n a] I E; cbn in E; subst n; apply N; exists a; cbn; tauto).
  all: cbn [app fold_left]; rewrite ?notation_footnote, ?notation_level, notations_known by assumption.
  all: eexists; split; [reflexivity | ]; cbn; repeat (constructor; [same | ]); apply same_all.
Qed.

Lemma notations_stays_false {A} (l : list (str * A)) t : exists t', fold_left (fun s p => notation_step p s) l (false, t) = (false, t').
Proof.
  revert t. induction l as [ | p l IH]; intros t; [exists t; reflexivity | ]. cbn [fold_left]. unfold notation_step at 2.
  destruct (str_eqb _ _); [apply IH | ]. destruct (str_eqb _ _); [apply IH | ]. destruct (choose _ _); apply IH.
Qed.

Lemma notations_false {A} (l : list (str * A)) : Exists (fun p => ~ In (fst p) (map lit (["footnote"; "level"]%string ++ map fst notations_choices))) l ->
  forall ok t, exists s, fold_left (fun s p => notation_step p s) l (ok, t) = (false, s).
Proof.
  induction 1 as [p l I | p l E IH]; intros ok t; cbn [fold_left]; unfold notation_step at 2.
  - destruct (str_eqb (fst p) (lit "footnote")) eqn:E1; [exfalso; apply I; apply str_eqb_true in E1; left; symmetry; exact E1 | ].
    destruct (str_eqb (fst p) (lit "level")) eqn:E2; [exfalso; apply I; apply str_eqb_true in E2; right; left; symmetry; exact E2 | ].
    destruct (choose notations_choices (fst p)) eqn:C; [ | apply notations_stays_false].
    exfalso. apply I. rewrite map_app. apply in_or_app. right.
    destruct (in_dec (list_eq_dec ascii_dec) (fst p) (map lit (map fst notations_choices))) as [J | J]; [exact J | ].
    exfalso. unfold choose in C. destruct (find _ _) as [[u v] | ] eqn:F; [ | discriminate C]. apply find_some in F. destruct F as [F1 F2]. apply str_eqb_true in F2.
    apply J. rewrite map_map. apply in_map_iff. exists (u, v). split; [exact F2 | exact F1].
  - destruct (str_eqb _ _); [apply IH | ]. destruct (str_eqb _ _); [apply IH | ]. destruct (choose _ _); apply IH.
Qed.

Theorem notations_refused A (l : list (str * A)) : has_child "other-notation" l -> refused read_notations l.
Proof.
  intros [a I]. unfold refused. setoid_rewrite notations_fold. destruct (notations_false l) with (ok := true) (t := @mkNotations A new_child new_child []) as [s ->]; [ | eauto].
  apply Exists_exists. exists (lit "other-notation", a). split; [exact I | ]. cbn [fst]. intros J. vm_compute in J. repeat destruct J as [J | J]; try discriminate J. exact J.
Qed.

(** *** notehead-text *)
Definition notehead_step {A} (p : str * A) (s : bool * list (str * list (given A))) :=
  if str_eqb (fst p) (lit "accidental-text") || str_eqb (fst p) (lit "display-text")
  then (true, if negb (fst s) && (List.length (snd s) =? 1) then [(fst p, [Parent])] else snd s ++ [(fst p, [Parent])]) else s.

Lemma notehead_fold {A} (l : list (str * A)) :
  read_notehead_text (nodes l) = Ok (true, snd (fold_left (fun s p => notehead_step p s) l (false, [(lit "display-text", [])]))).
Proof.
  unfold read_notehead_text. erewrite (loop_still _ notehead_step); [reflexivity | ]. intros b p r [first t]. rewrite !named_here. cbn [obind]. unfold notehead_step.
  destruct (str_eqb (fst p) (lit "accidental-text")) eqn:E1; cbn [orb fst snd obind].
  - apply str_eqb_true in E1. rewrite E1. reflexivity.
  - destruct (str_eqb (fst p) (lit "display-text")) eqn:E2; [ | reflexivity]. apply str_eqb_true in E2. rewrite E2. reflexivity.
Qed.

Lemma notehead_more {A} (l : list (str * A)) t : Forall (fun p => In (fst p) (map lit ["display-text"; "accidental-text"]%string)) l ->
  fold_left (fun s p => notehead_step p s) l (true, t) = (true, t ++ map (fun p => (fst p, [Parent])) l).
Proof.
  intros F. revert t. induction F as [ | p l I F IH]; intros t; [cbn; rewrite app_nil_r; reflexivity | ].
  cbn [fold_left map]. unfold notehead_step at 2.
  assert (str_eqb (fst p) (lit "accidental-text") || str_eqb (fst p) (lit "display-text") = true) as ->.
  { cbn [map] in I. destruct I as [<- | [<- | []]]; reflexivity. }
  cbn [fst snd negb andb]. rewrite IH, <- app_assoc. reflexivity.
Qed.

Theorem notehead_text_names A (l : list (str * A)) : conforms notehead_text_content l ->
  exists s, read_notehead_text (nodes l) = Ok (true, s) /\ write_notehead_text s = map (fun p => (fst p, [Parent])) l.
Proof.
  intros H. apply inv_some in H. destruct H as (x & zs & -> & F). inversion F as [ | ? ? X Z]; subst. destruct (inv_one_of _ _ X) as (n & a & I & ->).
  assert (G : Forall (fun p : str * A => In (fst p) (map lit ["display-text"; "accidental-text"]%string)) (List.concat zs)).
  { clear - Z. induction Z as [ | y zs C Z IH]; [constructor | ]. cbn. destruct (inv_one_of _ _ C) as (m & c & J & ->). constructor; [exact (in_map lit _ _ J) | exact IH]. }
  eexists. split; [rewrite notehead_fold; reflexivity | ]. unfold write_notehead_text. cbn [List.concat app fold_left map]. unfold notehead_step at 2. cbn [fst snd negb].
  assert (str_eqb (lit n) (lit "accidental-text") || str_eqb (lit n) (lit "display-text") = true) as ->.
  { destruct I as [<- | [<- | []]]; reflexivity. }
  cbn [List.length Nat.eqb andb]. rewrite (notehead_more _ _ G). reflexivity.
Qed.
