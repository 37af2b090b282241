(** Notes, sounds and the ends of these loops. *)
From Coq Require Import List String Ascii Bool PeanoNat Lia.
From Verif Require Import Model.Base Model.Text Model.ElementReading Model.ElementGroups Model.ElementChoices Model.ScoreElements Model.NoteElements
  Spec.ContentModels Spec.MoreContents Spec.ScoreContents Spec.NoteContents Proofs.GroupLoops Proofs.ChildrenProofs Proofs.GroupRuns Proofs.ChoiceProofs Proofs.MoreChildrenProofs
  Proofs.ScoreElementProofs Proofs.ScoreChildrenProofs Proofs.MemberProofs Proofs.NoteElementProofs Proofs.GroupExampleProofs.
Import ListNotations.
Local Open Scope list_scope.

(** ** sound *)
Lemma contents_all_named {A} n (l : list A) : contents_of n (all_named n l) = l.
Proof. induction l as [ | a l IH]; [reflexivity | ]. cbn [all_named map]. fold (all_named n l). unfold contents_of. cbn [filter]. unfold is_named at 1. cbn [existsb fst]. rewrite str_eqb_refl. cbn [orb map]. f_equal. exact IH. Qed.

Lemma contents_other {A} n m (l : list A) : str_eqb (lit m) (lit n) = false -> contents_of n (all_named m l) = [].
Proof. intros E. induction l as [ | a l IH]; [reflexivity | ]. cbn [all_named map]. fold (all_named m l). unfold contents_of. cbn [filter]. unfold is_named at 1. cbn [existsb fst]. rewrite E. exact IH. Qed.

Theorem sound_back A (good : A -> bool) (l : list (str * A)) : conforms sound_group_content l -> l = [] \/ has_child "midi-instrument" l -> all_readable good l -> comes_back (read_sound good) write_sound l.
Proof.
  intros C H G. destruct (sound_exact A good l) as (b & s & E & B & W1 & W2). exists s. rewrite E. assert (b = true) as ->.
  { destruct b; [reflexivity | ]. exfalso. pose proof (proj1 B eq_refl) as X. apply Exists_exists in X. destruct X as (q & I & _ & Q). unfold all_readable in G. rewrite Forall_forall in G. rewrite (G q I) in Q. discriminate Q. }
  split; [reflexivity | ]. clear B E. destruct H as [-> | [a H]].
  - rewrite W2 by (intros X; inversion X). constructor.
  - rewrite W1 by (apply Exists_exists; exists (lit "midi-instrument", a); split; [exact H | right; left; reflexivity]). clear W1 W2 G.
    apply inv_sequence in C as (x1 & y1 & -> & C1 & C). apply inv_maybe in C1 as (o1 & ->). apply inv_sequence in C as (x2 & y2 & -> & C2 & C). apply inv_maybe in C2 as (o2 & ->).
    apply inv_sequence in C as (x3 & y3 & -> & C3 & C). apply inv_maybe in C3 as (o3 & ->). apply inv_nothing in C as ->. rewrite app_nil_r in *.
    unfold one_from. rewrite !contents_app, !contents_all_named, !contents_other by reflexivity. rewrite !app_nil_r. cbn [app].
    destruct o2 as [c | ].
    + destruct o1, o3; cbn; repeat (constructor; [split; reflexivity | ]); constructor.
    + exfalso. destruct o1, o3; cbn [maybe all_named map app In] in H; decompose [or] H; try contradiction; discriminate.
Qed.

Theorem sound_refuted : ~ (forall A (good : A -> bool) (l : list (str * A)), conforms sound_content l -> all_readable good l -> comes_back (read_sound good) write_sound l).
Proof.
  intros H. specialize (H nat (fun _ => true) [(lit "play", 1)]). destruct H as (s & E & W).
  - apply (conforms_sequence _ _ [(lit "play", 1)] []); [ | apply (conforms_sequence _ _ [] []); constructor].
    apply (conforms_more _ [(lit "play", 1)] []); [ | constructor]. apply (conforms_sequence _ _ [] [(lit "play", 1)]); [constructor | ]. apply (conforms_sequence _ _ [] [(lit "play", 1)]); [constructor | ].
    apply (conforms_sequence _ _ [(lit "play", 1)] []); [ | constructor]. apply conforms_with. constructor.
  - repeat constructor.
  - vm_compute in E. injection E as <-. vm_compute in W. inversion W as [ | ? ? ? ? [X _] _]; subst. discriminate X.
Qed.

(** ** The children of a note after its first ones *)
Definition known_names : list string := single_names ++ editorial_names ++ set_names.

Definition rest_step {A} (good : A -> bool) (p : str * A) (s : bool * bool * note_element A) : bool * bool * note_element A :=
  let '(ok, found, x) := s in
  if is_one_of single_names (fst p) || is_one_of editorial_names (fst p) then
    (ok && good (snd p), found, mkNoteElement (ne_kind x) (ne_parts x) (give_member (fst p) (snd p) (ne_members x)) (ne_sets x))
  else if is_one_of set_names (fst p) then
    (ok && good (snd p), found, mkNoteElement (ne_kind x) (ne_parts x) (ne_members x)
        (fun k => if str_eqb k (fst p) then (true, add_first (fst (ne_sets x k)) [Own (snd p)] (snd (ne_sets x k))) else ne_sets x k))
  else (false, found, x).

Lemma single_names_only n : is_one_of single_names n = true -> is_one_of choice_names n = false /\ is_one_of editorial_names n = false /\ is_one_of set_names n = false.
Proof.
  intros H. pose proof (proj1 (named_in single_names (n, tt)) H) as I. cbn [fst] in I. apply in_map_iff in I. destruct I as (m & <- & I). cbn in I. decompose [or] I; subst; try contradiction; repeat split; reflexivity.
Qed.
Lemma editorial_names_only n : is_one_of editorial_names n = true -> is_one_of choice_names n = false /\ is_one_of single_names n = false /\ is_one_of set_names n = false.
Proof.
  intros H. pose proof (proj1 (named_in editorial_names (n, tt)) H) as I. cbn [fst] in I. apply in_map_iff in I. destruct I as (m & <- & I). cbn in I. decompose [or] I; subst; try contradiction; repeat split; reflexivity.
Qed.

Definition editorial_first {A} (l : list (str * A)) : bool := match l with p :: _ => is_one_of editorial_names (fst p) | [] => false end.

Lemma editorial_run {A} (good : A -> bool) x r kind parts sets found : editorial_first r = false -> Forall (fun p => is_one_of editorial_names (fst p) = true) x ->
  forall fuel b ok moved m, List.length x <= fuel -> exists ok' m',
  parse_editorial fuel good (here b (x ++ r)) ok moved m = Ok (match x with [] => moved | _ => true end, here (after b x) r, ok', m') /\
  fold_left (fun s p => rest_step good p s) x (ok, found, mkNoteElement kind parts m sets) = (ok', found, mkNoteElement kind parts m' sets).
Proof.
  intros N F. induction F as [ | p x P F IH]; intros fuel b ok moved m L.
  - exists ok, m. split; [ | reflexivity]. cbn [app after]. destruct r as [ | q r]; [destruct fuel; reflexivity | ]. unfold editorial_first in N. destruct fuel; cbn [parse_editorial]; rewrite at_end_here, name_here; cbn [obind]; rewrite N; reflexivity.
  - destruct fuel as [ | fuel]; [cbn in L; lia | ]. destruct (IH fuel (node_of p :: b) (ok && good (snd p)) true (give_member (fst p) (snd p) m)) as (ok' & m' & E & W); [cbn in L; lia | ].
    exists ok', m'. split.
    + cbn [parse_editorial app]. rewrite at_end_here, name_here. cbn [obind]. rewrite P, contents_here. cbn [obind]. rewrite increment_here. cbn [obind after]. rewrite E. destruct x; reflexivity.
    + cbn [fold_left]. unfold rest_step at 2. rewrite P, orb_true_r. exact W.
Qed.

Lemma editorial_split {A} (l : list (str * A)) : exists x r, l = x ++ r /\ editorial_first r = false /\ Forall (fun p => is_one_of editorial_names (fst p) = true) x.
Proof.
  induction l as [ | p l (x & r & E & N & F)]; [exists [], []; repeat split; constructor | ]. destruct (is_one_of editorial_names (fst p)) eqn:P.
  - exists (p :: x), r. rewrite E. repeat split; [exact N | constructor; assumption].
  - exists [], (p :: l). repeat split; [exact P | constructor].
Qed.

Lemma note_turn_rest {A} (good : A -> bool) b p l s : is_one_of choice_names (fst p) = false -> exists b' q x r,
  p :: l = p :: x ++ r /\ note_turn good (here b (p :: l)) s = Ok (false, here b' (q :: r), fold_left (fun s p => rest_step good p s) (p :: x) s) /\ node_of q :: b' = after b (p :: x).
Proof.
  intros C. destruct s as [[ok found] y]. unfold note_turn. rewrite name_here. cbn [obind]. rewrite contents_here. cbn [obind]. rewrite C.
  destruct (is_one_of single_names (fst p)) eqn:S.
  - exists b, p, [], l. repeat split. cbn [fold_left]. unfold rest_step. rewrite S. reflexivity.
  - destruct (is_one_of editorial_names (fst p)) eqn:E.
    + destruct (editorial_split l) as (x & r & -> & N & F). destruct y as [k ps m sets].
      destruct (editorial_run good (p :: x) r k ps sets found N (Forall_cons _ E F) (left (here b ((p :: x) ++ r))) b ok false m) as (ok' & m' & R & W).
      { rewrite left_here, app_length. lia. }
      destruct (back_run b x r p) as (b' & q & D & B). exists b', q, x, r. repeat split; [ | exact B].
      change (p :: x ++ r) with ((p :: x) ++ r). cbn [ne_members ne_kind ne_parts ne_sets]. rewrite R. cbn [obind back_if]. rewrite D. rewrite W. reflexivity.
    + exists b, p, [], l. split; [reflexivity | ]. split; [ | reflexivity]. cbn [fold_left]. unfold rest_step. rewrite S, E. cbn [orb]. destruct (is_one_of set_names (fst p)); reflexivity.
Qed.

Lemma note_rest {A} (good : A -> bool) k : forall l b s, List.length l <= k -> Forall (fun p => is_one_of choice_names (fst p) = false) l ->
  Loop (note_turn good) b l s (fold_left (fun s p => rest_step good p s) l s).
Proof.
  induction k as [ | k IH]; intros l b s K F; [destruct l; [constructor | cbn in K; lia] | ]. destruct l as [ | p l]; [constructor | ].
  destruct (note_turn_rest good b p l s (Forall_inv F)) as (b' & q & x & r & E & T & B). injection E as ->.
  eapply Loop_next; [exact T | rewrite app_length; lia | ]. change (p :: x ++ r) with ((p :: x) ++ r). rewrite fold_left_app. apply IH; [cbn in K; rewrite app_length in K; lia | ].
  apply Forall_inv_tail, Forall_app in F. apply F.
Qed.

Definition rest_good {A} (good : A -> bool) (p : str * A) : bool := is_one_of known_names (fst p) && good (snd p).

Definition set_given {A} (s : bool * list (list (given A))) (l : list A) : bool * list (list (given A)) := (match l with [] => fst s | _ => true end, snd s ++ map (fun a => [Own a]) l).

Lemma known_app n : is_one_of known_names n = is_one_of single_names n || is_one_of editorial_names n || is_one_of set_names n.
Proof. unfold known_names, is_one_of. rewrite !existsb_app, orb_assoc. reflexivity. Qed.

Lemma rest_fold {A} (good : A -> bool) l : forall ok found (x : note_element A), (forall n, fst (ne_sets x n) = true \/ snd (ne_sets x n) = []) ->
  exists m sets, fold_left (fun s p => rest_step good p s) l (ok, found, x) = (ok && forallb (rest_good good) l, found, mkNoteElement (ne_kind x) (ne_parts x) m sets) /\
    (forall n, In n (single_names ++ editorial_names) -> m (lit n) = gives (ne_members x (lit n)) (contents_of n l)) /\
    (forall n, In n set_names -> sets (lit n) = set_given (ne_sets x (lit n)) (contents_of n l)).
Proof.
  induction l as [ | p l IH]; intros ok found x Q.
  - exists (ne_members x), (ne_sets x). destruct x as [k ps m sets]. cbn. rewrite andb_true_r. repeat split.
    + intros n _. unfold contents_of. cbn. rewrite gives_nil. reflexivity.
    + intros n _. unfold set_given. cbn. rewrite app_nil_r. apply surjective_pairing.
  - cbn [fold_left forallb]. unfold rest_step at 2. unfold rest_good at 1. rewrite known_app.
    destruct (is_one_of single_names (fst p) || is_one_of editorial_names (fst p)) eqn:SE.
    + cbn [orb andb].
      destruct (IH (ok && good (snd p)) found (mkNoteElement (ne_kind x) (ne_parts x) (give_member (fst p) (snd p) (ne_members x)) (ne_sets x)) Q) as (m & sets & E & M & T). cbn [ne_kind ne_parts ne_members ne_sets] in *.
      exists m, sets. rewrite E, andb_assoc. repeat split.
      * intros n I. rewrite (M n I). unfold give_member. rewrite eqb_sym. unfold contents_of. cbn [filter]. unfold is_named at 2. cbn [existsb]. rewrite orb_false_r.
        destruct (str_eqb (fst p) (lit n)); [cbn [map]; rewrite gives_cons; reflexivity | reflexivity].
      * intros n I. rewrite (T n I). unfold contents_of. cbn [filter]. unfold is_named at 2. cbn [existsb]. rewrite orb_false_r. destruct (str_eqb (fst p) (lit n)) eqn:N; [ | reflexivity].
        exfalso. apply str_eqb_true in N. rewrite N in SE. cbn in I. decompose [or] I; try contradiction; subst n; discriminate SE.
    + destruct (is_one_of set_names (fst p)) eqn:ST.
      * cbn [orb andb].
        set (x' := mkNoteElement (ne_kind x) (ne_parts x) (ne_members x) (fun k => if str_eqb k (fst p) then (true, add_first (fst (ne_sets x k)) [Own (snd p)] (snd (ne_sets x k))) else ne_sets x k)).
        assert (Q' : forall n, fst (ne_sets x' n) = true \/ snd (ne_sets x' n) = []) by (intros n; cbn [x' ne_sets]; destruct (str_eqb n (fst p)); [left; reflexivity | apply Q]).
        destruct (IH (ok && good (snd p)) found x' Q') as (m & sets & E & M & T). exists m, sets. rewrite E, andb_assoc. repeat split.
        -- intros n I. rewrite (M n I). unfold contents_of. cbn [filter x' ne_members]. unfold is_named at 2. cbn [existsb]. rewrite orb_false_r. destruct (str_eqb (fst p) (lit n)) eqn:N; [ | reflexivity].
           exfalso. apply str_eqb_true in N. rewrite N in ST. cbn in I. decompose [or] I; try contradiction; subst n; discriminate ST.
        -- intros n I. rewrite (T n I). cbn [x' ne_sets]. rewrite eqb_sym. unfold contents_of. cbn [filter]. unfold is_named at 2. cbn [existsb]. rewrite orb_false_r. destruct (str_eqb (fst p) (lit n)); [ | reflexivity].
           unfold set_given. cbn [fst snd map]. replace (add_first (fst (ne_sets x (lit n))) [Own (snd p)] (snd (ne_sets x (lit n)))) with (snd (ne_sets x (lit n)) ++ [[Own (snd p)]]).
           ++ rewrite <- app_assoc. destruct (map snd (filter (is_named [n]) l)); reflexivity.
           ++ unfold add_first. destruct (Q (lit n)) as [X | X]; rewrite X; [reflexivity | rewrite andb_false_r; reflexivity].
      * cbn [orb andb]. destruct (IH false found x Q) as (m & sets & E & M & T). exists m, sets. rewrite E, andb_false_r. repeat split.
        -- intros n I. rewrite (M n I). unfold contents_of. cbn [filter]. unfold is_named at 2. cbn [existsb]. rewrite orb_false_r. destruct (str_eqb (fst p) (lit n)) eqn:N; [ | reflexivity].
           exfalso. apply str_eqb_true in N. rewrite N in SE. cbn in I. decompose [or] I; try contradiction; subst n; discriminate SE.
        -- intros n I. rewrite (T n I). unfold contents_of. cbn [filter]. unfold is_named at 2. cbn [existsb]. rewrite orb_false_r. destruct (str_eqb (fst p) (lit n)) eqn:N; [ | reflexivity].
           exfalso. apply str_eqb_true in N. rewrite N in ST. cbn in I. decompose [or] I; try contradiction; subst n; discriminate ST.
Qed.

(** ** The first children of a note *)
Definition full_names : list string := ["pitch"; "unpitched"; "rest"]%string.

Lemma full_read {A} (good : A -> bool) b ch w (a : A) r ok g : In w full_names -> np_types g = new_members -> np_chord g = false -> exists g',
  parse_full good (here b (all_named "chord" (maybe ch) ++ (lit w, a) :: r)) ok g = Ok (here (after b (all_named "chord" (maybe ch) ++ [(lit w, a)])) r, ok && good a, g') /\
  write_full g' = map note_read (all_named "chord" (maybe ch) ++ [(lit w, a)]) /\ np_head g' = np_head g /\ np_duration g' = np_duration g /\ np_ties g' = np_ties g.
Proof.
  intros W T C. assert (X : str_eqb (lit w) (lit "chord") = false /\ choose [("pitch", "pitch"); ("unpitched", "unpitched"); ("rest", "rest")]%string (lit w) = Some w) by (destruct W as [<- | [<- | [<- | []]]]; split; reflexivity).
  destruct X as [X Y]. destruct ch as [c | ]; cbn [maybe all_named map app].
  - eexists. split; [ | split; [ | split; [ | split]]].
    + unfold parse_full. rewrite at_end_here, named_here. cbn [obind fst]. rewrite str_eqb_refl, increment_here. cbn [obind orb]. rewrite at_end_here, name_here. cbn [obind fst]. rewrite contents_here. cbn [obind snd]. rewrite increment_here. cbn [obind]. rewrite Y. reflexivity.
    + unfold write_full. cbn [np_chord np_which np_types app]. unfold always, give_member. rewrite str_eqb_refl, T. unfold note_read. cbn [fst]. rewrite X. reflexivity.
    + reflexivity. + reflexivity. + reflexivity.
  - eexists. split; [ | split; [ | split; [ | split]]].
    + unfold parse_full. rewrite at_end_here, named_here. cbn [obind fst]. rewrite X. cbn [obind orb]. rewrite at_end_here, name_here. cbn [obind fst]. rewrite contents_here. cbn [obind snd]. rewrite increment_here. cbn [obind]. rewrite Y. reflexivity.
    + unfold write_full. cbn [np_chord np_which np_types app]. rewrite C. cbn [app]. unfold always, give_member. rewrite str_eqb_refl, T. unfold note_read. cbn [fst]. rewrite X. reflexivity.
    + reflexivity. + reflexivity. + reflexivity.
Qed.

Lemma two_ties_kept {A} (o1 o2 : option A) : fold_left addTie (maybe o1 ++ maybe o2) [] = maybe o1 ++ maybe o2.
Proof. destruct o1, o2; reflexivity. Qed.

Lemma inv_full_note {A} l (x : list (str * A)) : conforms (Sequence (full_note_content ++ l)) x -> exists ch w a r, x = all_named "chord" (maybe ch) ++ (lit w, a) :: r /\ In w full_names /\ conforms (Sequence l) r.
Proof.
  intros H. cbn [full_note_content app] in H. apply inv_sequence in H as (x1 & y1 & -> & C1 & H). apply inv_maybe in C1 as (ch & ->). apply inv_sequence in H as (x2 & y2 & -> & C2 & H).
  apply inv_one_of in C2 as (w & a & W & ->). exists ch, w, a, y2. repeat split; assumption.
Qed.

Lemma inv_two_ties {A} (x : list (str * A)) : conforms (Sequence two_ties) x -> exists o1 o2, x = all_named "tie" (maybe o1 ++ maybe o2).
Proof.
  intros H. apply inv_sequence in H as (x1 & y1 & -> & C1 & H). apply inv_maybe in C1 as (o1 & ->). apply inv_sequence in H as (x2 & y2 & -> & C2 & H). apply inv_maybe in C2 as (o2 & ->).
  apply inv_nothing in H as ->. exists o1, o2. unfold all_named. rewrite map_app, app_nil_r. reflexivity.
Qed.

Lemma note_read_other {A} n (l : list A) : str_eqb (lit n) (lit "chord") = false -> map note_read (all_named n l) = map (fun a => (lit n, [Own a])) l.
Proof. intros N. unfold all_named. rewrite map_map. apply map_ext. intros a. unfold note_read. cbn [fst]. rewrite N. reflexivity. Qed.

Lemma choice_first {A} (c : list (str * A)) : conforms note_choice_content c -> exists p l, c = p :: l /\ is_one_of choice_names (fst p) = true.
Proof.
  intros H. apply inv_choice in H as (k & [<- | [<- | [<- | []]]] & H).
  - apply inv_sequence in H as (x & y & -> & X & _). apply inv_element in X as (a & ->). eexists _, _. split; reflexivity.
  - apply inv_sequence in H as (x & y & -> & X & _). apply inv_element in X as (a & ->). eexists _, _. split; reflexivity.
  - apply inv_full_note in H as (ch & w & a & r & -> & W & _). destruct ch; eexists _, _; (split; [reflexivity | ]); [reflexivity | ]. destruct W as [<- | [<- | [<- | []]]]; reflexivity.
Qed.

Definition looked_at {A} (good : A -> bool) (p : str * A) : bool := is_one_of ["chord"; "duration"]%string (fst p) || good (snd p).

Lemma looked_named {A} n (good : A -> bool) l : is_one_of ["chord"; "duration"]%string (lit n) = false -> forallb (looked_at good) (all_named n l) = forallb good l.
Proof. intros N. induction l as [ | a l IH]; [reflexivity | ]. cbn [all_named map forallb]. fold (all_named n l). rewrite IH. unfold looked_at. cbn [fst snd]. rewrite N. reflexivity. Qed.

Lemma looked_full {A} (good : A -> bool) ch w a l : In w full_names -> forallb (looked_at good) (all_named "chord" (maybe ch) ++ (lit w, a) :: l) = good a && forallb (looked_at good) l.
Proof. intros W. assert (X : looked_at good (lit w, a) = good a) by (destruct W as [<- | [<- | [<- | []]]]; reflexivity). destruct ch; cbn [maybe all_named map app forallb]; rewrite X; reflexivity. Qed.

Lemma choice_read {A} (good : A -> bool) b c r kind : conforms note_choice_content c -> not_first "tie" r -> exists k ps,
  parse_choice good (here b (c ++ r)) true kind (fun _ => new_parts) = Ok (here (after b c) r, forallb (looked_at good) c, k, ps) /\ write_choice k (ps k) = map note_read c.
Proof.
  intros H N. apply inv_choice in H as (kk & [<- | [<- | [<- | []]]] & H).
  - (* grace *) apply inv_sequence in H as (x & y & -> & X & H). apply inv_element in X as (h & ->). apply inv_full_note in H as (ch & w & a & z & -> & W & H). apply inv_two_ties in H as (o1 & o2 & ->).
    exists GraceKind. unfold parse_choice. cbn [app]. rewrite name_here. cbn [obind fst]. rewrite contents_here. cbn [obind snd]. change (str_eqb (lit "grace") (lit "grace")) with true. cbv iota. rewrite increment_here. cbn [omap obind].
    rewrite <- app_assoc. cbn [app].
    match goal with |- context [parse_full good ?i ?o ?g] => destruct (full_read good (node_of (lit "grace"%string, h) :: b) ch w a (all_named "tie" (maybe o1 ++ maybe o2) ++ r) o g) as (g' & E & F & E1 & E2 & E3); [exact W | reflexivity.. | ] end.
    rewrite E. cbn [obind]. cbn [kind_eqb negb andb].
    assert (Z : exists d, is_here "duration" (here (after (node_of (lit "grace"%string, h) :: b) (all_named "chord" (maybe ch) ++ [(lit w, a)])) (all_named "tie" (maybe o1 ++ maybe o2) ++ r)) = Ok d).
    { destruct (all_named "tie" (maybe o1 ++ maybe o2) ++ r); eexists; [apply is_here_nil | apply is_here_here]. }
    destruct Z as (d & Z). rewrite Z. cbn [obind]. rewrite take_all_named; [ | rewrite left_here, (app_length (all_named _ _)), all_named_length; lia | exact N]. cbn [obind]. cbn [forallb]. rewrite looked_full, looked_named by (exact W || reflexivity). change (looked_at good (lit "grace"%string, h)) with (good h). rewrite andb_assoc. cbn [andb].
    eexists. split; [rewrite <- after_app, <- app_assoc; reflexivity | ].
    cbn [kind_eqb]. unfold write_choice. cbn [np_head np_ties]. rewrite E1, E3. cbn [np_head np_ties new_parts]. rewrite two_ties_kept.
    replace (all_named "chord" (maybe ch) ++ (lit w, a) :: all_named "tie" (maybe o1 ++ maybe o2)) with ((all_named "chord" (maybe ch) ++ [(lit w, a)]) ++ all_named "tie" (maybe o1 ++ maybe o2)) by (rewrite <- app_assoc; reflexivity).
    change (write_full (mkParts _ _ _ _ _ _)) with (write_full g'). rewrite F. cbn [map]. rewrite !map_app, (note_read_other "tie"), ?map_app by reflexivity. rewrite <- ?app_assoc. reflexivity.
  - (* cue *) apply inv_sequence in H as (x & y & -> & X & H). apply inv_element in X as (h & ->). apply inv_full_note in H as (ch & w & a & z & -> & W & H).
    apply inv_sequence in H as (x & y & -> & X & H). apply inv_element in X as (d & ->). apply inv_nothing in H as ->.
    exists CueKind. unfold parse_choice. cbn [app]. rewrite name_here. cbn [obind fst]. rewrite contents_here. cbn [obind snd]. change (str_eqb (lit "cue") (lit "grace")) with false. change (str_eqb (lit "cue") (lit "cue")) with true. cbv iota. rewrite increment_here. cbn [omap obind].
    rewrite <- app_assoc. cbn [app].
    match goal with |- context [parse_full good ?i ?o ?g] => destruct (full_read good (node_of (lit "cue"%string, h) :: b) ch w a ((lit "duration"%string, d) :: r) o g) as (g' & E & F & E1 & E2 & E3); [exact W | reflexivity.. | ] end.
    rewrite E. cbn [obind]. cbn [kind_eqb negb andb]. rewrite is_here_here. cbn [obind fst]. change (str_eqb (lit "duration") (lit "duration")) with true. cbn [negb]. rewrite contents_here. cbn [obind snd]. rewrite increment_here. cbn [omap obind].
    cbn [forallb]. rewrite looked_full by exact W. change (forallb (looked_at good) [(lit "duration"%string, d)]) with true. change (looked_at good (lit "cue"%string, h)) with (good h). rewrite andb_true_r. cbn [andb]. eexists. split.
    + cbn [after]. change (all_named "chord" (maybe ch) ++ (lit w, a) :: [(lit "duration", d)]) with (all_named "chord" (maybe ch) ++ [(lit w, a)] ++ [(lit "duration"%string, d)]). rewrite app_assoc, (after_app _ (_ ++ _)). reflexivity.
    + cbn [kind_eqb]. unfold write_choice. cbn [np_head np_duration]. rewrite E1, E2. cbn [np_head np_duration new_parts].
      change ((lit w, a) :: [(lit "duration", d)]) with ([(lit w, a)] ++ [(lit "duration"%string, d)]). rewrite app_assoc.
      change (write_full (mkParts _ _ _ _ _ _)) with (write_full g'). rewrite F. cbn [map]. rewrite !map_app. rewrite <- ?app_assoc. reflexivity.
  - (* normal *) apply inv_full_note in H as (ch & w & a & z & -> & W & H).
    apply inv_sequence in H as (x & y & -> & X & H). apply inv_element in X as (d & ->). apply inv_two_ties in H as (o1 & o2 & ->).
    exists NormalKind. unfold parse_choice.
    assert (NM : exists n a0, name_at (here b ((all_named "chord" (maybe ch) ++ (lit w, a) :: [(lit "duration"%string, d)] ++ all_named "tie" (maybe o1 ++ maybe o2)) ++ r)) = Ok n /\
      contents_at (here b ((all_named "chord" (maybe ch) ++ (lit w, a) :: [(lit "duration"%string, d)] ++ all_named "tie" (maybe o1 ++ maybe o2)) ++ r)) = Ok a0 /\ str_eqb n (lit "grace") = false /\ str_eqb n (lit "cue") = false).
    { destruct ch as [c | ]; cbn [maybe all_named map app]; rewrite name_here, contents_here; cbn [fst snd]; eexists _, _; (split; [reflexivity | split; [reflexivity | ]]); [split; reflexivity | ]. destruct W as [<- | [<- | [<- | []]]]; split; reflexivity. }
    destruct NM as (n & a0 & Y1 & Y2 & Y3 & Y4). rewrite Y1. cbn [obind]. rewrite Y2. cbn [obind]. rewrite Y3, Y4. cbv iota. cbn [obind].
    rewrite <- app_assoc. cbn [app].
    match goal with |- context [parse_full good ?i ?o ?g] => destruct (full_read good b ch w a ((lit "duration"%string, d) :: all_named "tie" (maybe o1 ++ maybe o2) ++ r) o g) as (g' & E & F & E1 & E2 & E3); [exact W | reflexivity.. | ] end.
    rewrite E. cbn [obind]. cbn [kind_eqb negb andb]. rewrite is_here_here. cbn [obind fst]. change (str_eqb (lit "duration") (lit "duration")) with true. cbn [negb]. rewrite contents_here. cbn [obind snd]. rewrite increment_here. cbn [omap obind].
    rewrite take_all_named; [ | rewrite left_here, (app_length (all_named _ _)), all_named_length; lia | exact N]. cbn [obind]. rewrite looked_full by exact W. change (forallb (looked_at good) ((lit "duration"%string, d) :: all_named "tie" (maybe o1 ++ maybe o2))) with (forallb (looked_at good) (all_named "tie" (maybe o1 ++ maybe o2))). rewrite looked_named by reflexivity. cbn [andb]. eexists. split.
    + change (all_named "chord" (maybe ch) ++ (lit w, a) :: (lit "duration", d) :: all_named "tie" (maybe o1 ++ maybe o2)) with (all_named "chord" (maybe ch) ++ [(lit w, a)] ++ [(lit "duration"%string, d)] ++ all_named "tie" (maybe o1 ++ maybe o2)).
      rewrite app_assoc, (after_app _ (_ ++ _)). reflexivity.
    + cbn [kind_eqb]. unfold write_choice. cbn [np_head np_duration np_ties]. rewrite E2, E3. cbn [np_head np_duration np_ties new_parts]. rewrite two_ties_kept.
      change ((lit w, a) :: (lit "duration", d) :: all_named "tie" (maybe o1 ++ maybe o2)) with ([(lit w, a)] ++ [(lit "duration"%string, d)] ++ all_named "tie" (maybe o1 ++ maybe o2)). rewrite app_assoc.
      change (write_full (mkParts _ _ _ _ _ _)) with (write_full g'). rewrite F. rewrite !map_app, (note_read_other "tie"), ?map_app by reflexivity. rewrite <- ?app_assoc. reflexivity.
Qed.

Lemma note_fold_any {A} (good : A -> bool) c r ok out : (exists p l, c = p :: l /\ is_one_of choice_names (fst p) = true) ->
  (not_first "tie" r -> exists k ps, parse_choice good (here [] (c ++ r)) true NormalKind (fun _ => new_parts) = Ok (here (after [] c) r, ok, k, ps) /\ write_choice k (ps k) = out) ->
  Forall (fun p => ~ In (fst p) (map lit first_names)) r -> exists s,
  read_note good (nodes (c ++ r)) = Ok (ok && forallb (rest_good good) r, s) /\ write_note s = out ++ members_written r note_members.
Proof.
  intros CF C F.
  assert (N : not_first "tie" r) by (destruct F as [ | p r P F]; [exact I | ]; cbn [not_first]; destruct (str_eqb (fst p) (lit "tie")) eqn:E; [ | reflexivity]; apply str_eqb_true in E; rewrite E in P; exfalso; apply P; cbn; tauto).
  assert (K : Forall (fun p => is_one_of choice_names (fst p) = false) r).
  { eapply Forall_impl; [ | exact F]. intros p P. destruct (is_one_of choice_names (fst p)) eqn:E; [ | reflexivity]. apply (named_in choice_names p) in E. exfalso. apply P. cbn in E |- *. tauto. }
  destruct (C N) as (k & ps & E & W).
  set (x := mkNoteElement k ps new_members (fun _ => (false, [])) : note_element A).
  destruct (rest_fold good r ok true x) as (m & sets & S & M & T); [intros n; right; reflexivity | ].
  exists (mkNoteElement k ps m sets). split.
  - unfold read_note. replace (each_child (note_turn good) (nodes (c ++ r)) (true, false, new_note)) with (Ok (ok && forallb (rest_good good) r, true, mkNoteElement k ps m sets)).
    + unfold omap, obind. rewrite andb_true_r. reflexivity.
    + symmetry. apply each_ok. destruct CF as (p & l & -> & P). destruct (back_run [] l r p) as (b' & q & D & B).
      eapply Loop_next with (b' := b') (p' := q) (l' := r) (s' := (ok, true, x)).
      * unfold note_turn. change ((p :: l) ++ r) with (p :: l ++ r) in E. cbn [app]. fold (l ++ r). rewrite name_here. cbn [obind]. rewrite contents_here. cbn [obind]. rewrite P. cbn [new_note ne_kind ne_parts ne_members ne_sets]. rewrite E. cbn [obind]. rewrite D. reflexivity.
      * fold (l ++ r). rewrite app_length. lia.
      * match goal with |- Loop _ _ _ ?s1 ?s2 => replace s2 with (fold_left (fun s p => rest_step good p s) r s1) by (rewrite S; reflexivity) end. apply (note_rest good (List.length r)); [constructor | exact K].
  - unfold write_note, write_set, write_member. cbn [ne_kind ne_parts ne_members ne_sets]. rewrite W. f_equal.
    rewrite !M by (cbn; tauto). rewrite !T by (cbn; tauto). cbn [x ne_members ne_sets]. unfold set_given. cbn [snd app]. rewrite !map_map.
    change (new_members (lit "instrument")) with (@new_child A). unfold new_members. rewrite !if_has_gives.
    unfold members_written. cbn [note_members map List.concat member_written fst snd]. unfold each_from. rewrite <- ?app_assoc, ?app_nil_r. reflexivity.
Qed.

Lemma note_fold {A} (good : A -> bool) c r : conforms note_choice_content c -> Forall (fun p => ~ In (fst p) (map lit first_names)) r -> exists s,
  read_note good (nodes (c ++ r)) = Ok (forallb (looked_at good) c && forallb (rest_good good) r, s) /\ write_note s = map note_read c ++ members_written r note_members.
Proof. intros C F. apply note_fold_any; [exact (choice_first c C) | intros N; exact (choice_read good [] c r NormalKind C N) | exact F]. Qed.

(** Any number of ties: the first two are kept. *)
Lemma ties_kept {A} (l : list A) : fold_left addTie l [] = firstn 2 l.
Proof.
  assert (K : forall l t : list A, List.length t = 2 -> fold_left addTie l t = t).
  { clear l. induction l as [ | a l IH]; intros t T; [reflexivity | ]. cbn [fold_left]. unfold addTie at 2. rewrite T. apply IH, T. }
  destruct l as [ | a [ | b l]]; [reflexivity | reflexivity | ]. cbn [fold_left]. change (addTie (addTie [] a) b) with [a; b]. rewrite K by reflexivity. reflexivity.
Qed.

Lemma ties_read {A} (good : A -> bool) ch w a d ties r : In w full_names -> not_first "tie" r -> exists k ps,
  parse_choice good (here [] ((all_named "chord" (maybe ch) ++ (lit w, a) :: (lit "duration", d) :: all_named "tie" ties) ++ r)) true NormalKind (fun _ => new_parts) =
    Ok (here (after [] (all_named "chord" (maybe ch) ++ (lit w, a) :: (lit "duration", d) :: all_named "tie" ties)) r, good a && forallb good ties, k, ps) /\
  write_choice k (ps k) = map note_read (all_named "chord" (maybe ch) ++ (lit w, a) :: (lit "duration", d) :: all_named "tie" (firstn 2 ties)).
Proof.
  intros W N. set (b := @nil (node A)) in *.
    exists NormalKind. unfold parse_choice.
    assert (NM : exists n a0, name_at (here b ((all_named "chord" (maybe ch) ++ (lit w, a) :: (lit "duration"%string, d) :: all_named "tie" ties) ++ r)) = Ok n /\
      contents_at (here b ((all_named "chord" (maybe ch) ++ (lit w, a) :: (lit "duration"%string, d) :: all_named "tie" ties) ++ r)) = Ok a0 /\ str_eqb n (lit "grace") = false /\ str_eqb n (lit "cue") = false).
    { destruct ch as [c | ]; cbn [maybe all_named map app]; rewrite name_here, contents_here; cbn [fst snd]; eexists _, _; (split; [reflexivity | split; [reflexivity | ]]); [split; reflexivity | ]. destruct W as [<- | [<- | [<- | []]]]; split; reflexivity. }
    destruct NM as (n & a0 & Y1 & Y2 & Y3 & Y4). rewrite Y1. cbn [obind]. rewrite Y2. cbn [obind]. rewrite Y3, Y4. cbv iota. cbn [obind].
    rewrite <- app_assoc. cbn [app].
    match goal with |- context [parse_full good ?i ?o ?g] => destruct (full_read good b ch w a ((lit "duration"%string, d) :: all_named "tie" ties ++ r) o g) as (g' & E & F & E1 & E2 & E3); [exact W | reflexivity.. | ] end.
    rewrite E. cbn [obind]. cbn [kind_eqb negb andb]. rewrite is_here_here. cbn [obind fst]. change (str_eqb (lit "duration") (lit "duration")) with true. cbn [negb]. rewrite contents_here. cbn [obind snd]. rewrite increment_here. cbn [omap obind].
    rewrite take_all_named; [ | rewrite left_here, (app_length (all_named _ _)), all_named_length; lia | exact N]. cbn [obind]. cbn [andb]. eexists. split.
    + change (all_named "chord" (maybe ch) ++ (lit w, a) :: (lit "duration", d) :: all_named "tie" ties) with (all_named "chord" (maybe ch) ++ [(lit w, a)] ++ [(lit "duration"%string, d)] ++ all_named "tie" ties).
      rewrite app_assoc, (after_app _ (_ ++ _)). reflexivity.
    + cbn [kind_eqb]. unfold write_choice. cbn [np_head np_duration np_ties]. rewrite E2, E3. cbn [np_head np_duration np_ties new_parts]. rewrite ties_kept.
      change ((lit w, a) :: (lit "duration", d) :: all_named "tie" (firstn 2 ties)) with ([(lit w, a)] ++ [(lit "duration"%string, d)] ++ all_named "tie" (firstn 2 ties)). rewrite app_assoc.
      change (write_full (mkParts _ _ _ _ _ _)) with (write_full g'). rewrite F. rewrite !map_app, (note_read_other "tie") by reflexivity. rewrite <- ?app_assoc. reflexivity.
Qed.

Theorem note_ties A (good : A -> bool) ch w a d ties r : In w full_names -> Forall (fun p => ~ In (fst p) (map lit first_names)) r -> exists b s,
  read_note good (nodes ((all_named "chord" (maybe ch) ++ (lit w, a) :: (lit "duration", d) :: all_named "tie" ties) ++ r)) = Ok (b, s) /\
  write_note s = map note_read (all_named "chord" (maybe ch) ++ (lit w, a) :: (lit "duration", d) :: all_named "tie" (firstn 2 ties)) ++ members_written r note_members.
Proof.
  intros W F. destruct (note_fold_any good (all_named "chord" (maybe ch) ++ (lit w, a) :: (lit "duration", d) :: all_named "tie" ties) r (good a && forallb good ties)
    (map note_read (all_named "chord" (maybe ch) ++ (lit w, a) :: (lit "duration", d) :: all_named "tie" (firstn 2 ties)))) as (s & E & Q).
  - destruct ch; eexists _, _; (split; [reflexivity | ]); [reflexivity | ]. destruct W as [<- | [<- | [<- | []]]]; reflexivity.
  - intros N. exact (ties_read good ch w a d ties r W N).
  - exact F.
  - eexists _, s. split; [exact E | exact Q].
Qed.

Theorem note_exact A (good : A -> bool) (c r : list (str * A)) : conforms note_choice_content c -> Forall (fun p => ~ In (fst p) (map lit first_names)) r ->
  exists b s, read_note good (nodes (c ++ r)) = Ok (b, s) /\
    (b = true <-> Forall (read_well good) c /\ Forall (fun p => In (fst p) (map lit (map fst note_members)) /\ good (snd p) = true) r) /\
    write_note s = map note_read c ++ members_written r note_members.
Proof.
  intros C F. destruct (note_fold good c r C F) as (s & E & W). do 2 eexists. split; [exact E | split; [ | exact W]]. rewrite andb_true_iff, !forallb_forall, !Forall_forall.
  assert (P : forall p, looked_at good p = true <-> read_well good p).
  { intros p. unfold looked_at, read_well. rewrite orb_true_iff. rewrite (named_in ["chord"; "duration"]%string p : is_one_of ["chord"; "duration"]%string (fst p) = true <-> _). reflexivity. }
  assert (Q : forall n, is_one_of known_names n = true <-> In n (map lit (map fst note_members))).
  { intros n. transitivity (In n (map lit known_names)); [exact (named_in known_names (n, tt)) | ]. cbn. tauto. }
  assert (H1 : (forall x, In x c -> looked_at good x = true) <-> (forall x, In x c -> read_well good x)) by (split; intros H p I; apply P, H, I).
  assert (H2 : (forall x, In x r -> rest_good good x = true) <-> (forall x, In x r -> In (fst x) (map lit (map fst note_members)) /\ good (snd x) = true)).
  { split; intros H p I; specialize (H p I); unfold rest_good in *; rewrite andb_true_iff, Q in *; exact H. }
  rewrite H1, H2. reflexivity.
Qed.

Lemma in_order {A} ms : forall r (x : list (str * A)), NoDup (map fst ms) -> Forall (fun p => ~ In (fst p) (map lit (map fst ms))) x -> conforms (Sequence (map member_content ms)) r -> members_written (x ++ r) ms = map as_read r.
Proof.
  induction ms as [ | m ms IH]; intros r x D X C.
  - apply inv_nothing in C as ->. reflexivity.
  - cbn [map] in C, D. apply NoDup_cons_iff in D as [D1 D2]. apply inv_sequence in C as (u & v & -> & U & C).
    assert (L : exists l, u = all_named (fst m) l /\ (snd m = false -> List.length l <= 1)).
    { unfold member_content in U. destruct (snd m); [apply inv_many_element in U as (l & ->); exists l; split; [reflexivity | discriminate] | apply inv_maybe in U as (o & ->); exists (maybe o); split; [reflexivity | destruct o; cbn; lia]]. }
    destruct L as (l & -> & L). unfold members_written. cbn [map List.concat]. fold (members_written (x ++ all_named (fst m) l ++ v) ms). rewrite app_assoc, IH; [ | exact D2 | | exact C].
    + rewrite map_app. f_equal.
      assert (V : contents_of (fst m) ((x ++ all_named (fst m) l) ++ v) = l).
      { rewrite !contents_app, contents_all_named, (contents_none _ x), (contents_none _ v); [apply app_nil_r | | ].
        - clear - C D1. revert v C D1. induction ms as [ | k ms IH]; intros v C D1; [apply inv_nothing in C as ->; constructor | ]. cbn [map] in C, D1. apply inv_sequence in C as (a & b & -> & U & C). apply Forall_app. split; [ | apply IH; [exact C | intros Z; apply D1; right; exact Z]].
          assert (L : exists l, a = all_named (fst k) l) by (unfold member_content in U; destruct (snd k); [apply inv_many_element in U as (l & ->) | apply inv_maybe in U as (o & ->)]; eauto).
          destruct L as (l & ->). apply Forall_forall. intros p I. apply in_map_iff in I. destruct I as (z & <- & _). cbn [fst]. intros E. apply D1. left. clear - E. revert E. generalize (fst m). induction (fst k) as [ | c s IH]; intros [ | d t] E; try discriminate E; [reflexivity | ]. injection E as -> E. f_equal. exact (IH t E).
        - eapply Forall_impl; [ | exact X]. intros p P E. apply P. rewrite E. left. reflexivity. }
      unfold member_written, one_from, each_from. rewrite V. unfold all_named. destruct (snd m); [rewrite map_map; reflexivity | ]. destruct l as [ | a [ | a2 l]]; [reflexivity | reflexivity | ]. specialize (L eq_refl). cbn in L. lia.
    + apply Forall_app. split.
      * eapply Forall_impl; [ | exact X]. intros p P I. apply P. right. exact I.
      * apply Forall_forall. intros p I. apply in_map_iff in I. destruct I as (z & <- & _). cbn [fst]. intros I. apply in_map_iff in I. destruct I as (n & E & I). apply D1. replace (fst m) with n; [exact I | ].
        clear - E. revert E. generalize (fst m). induction n as [ | c s IH]; intros [ | d t] E; try discriminate E; [reflexivity | ]. injection E as -> E. f_equal. exact (IH t E).
Qed.

Lemma member_names {A} ms (r : list (str * A)) : conforms (Sequence (map member_content ms)) r -> Forall (fun p => In (fst p) (map lit (map fst ms))) r.
Proof.
  revert r. induction ms as [ | m ms IH]; intros r C; [apply inv_nothing in C as ->; constructor | ]. cbn [map] in C. apply inv_sequence in C as (a & b & -> & U & C). apply Forall_app. split.
  - assert (L : exists l, a = all_named (fst m) l) by (unfold member_content in U; destruct (snd m); [apply inv_many_element in U as (l & ->) | apply inv_maybe in U as (o & ->)]; eauto).
    destruct L as (l & ->). apply Forall_forall. intros p I. apply in_map_iff in I. destruct I as (z & <- & _). left. reflexivity.
  - eapply Forall_impl; [ | apply IH; exact C]. intros p P. right. exact P.
Qed.

Theorem note_back A (good : A -> bool) (l : list (str * A)) : conforms note_content l -> all_readable good l -> exists s, read_note good (nodes l) = Ok (true, s) /\ write_note s = map note_read l.
Proof.
  intros C G. apply inv_sequence in C as (c & r & -> & C & R). apply Forall_app in G as [G1 G2]. pose proof (member_names note_members r R) as N.
  assert (F : Forall (fun p => ~ In (fst p) (map lit first_names)) r).
  { eapply Forall_impl; [ | exact N]. intros p P Q. apply (named_in (map fst note_members) p) in P. apply in_map_iff in Q. destruct Q as (n & E & Q). unfold is_named in P. rewrite <- E in P. cbn in Q. decompose [or] Q; try contradiction; subst n; discriminate P. }
  destruct (note_exact A good c r C F) as (b & s & E & B & W). exists s. assert (b = true) as -> by (apply B; split; apply Forall_forall; intros p I; rewrite Forall_forall in N, G1, G2; [right; apply G1 | split; [apply N | apply G2]]; exact I).
  split; [exact E | ]. rewrite W, map_app. f_equal. change r with ([] ++ r) at 1. rewrite (in_order note_members r []); [ | repeat constructor; cbn; intuition discriminate | constructor | exact R].
  apply map_ext_in. intros p I. unfold note_read. destruct (str_eqb (fst p) (lit "chord")) eqn:X; [ | reflexivity]. exfalso. rewrite Forall_forall in F. apply (F p I). apply str_eqb_true in X. rewrite X. cbn. tauto.
Qed.

Theorem note_required A (good : A -> bool) (l : list (str * A)) : Forall (fun p => ~ In (fst p) (map lit ["pitch"; "unpitched"; "rest"; "chord"; "grace"; "cue"]%string)) l ->
  exists s, read_note good (nodes l) = Ok (false, s).
Proof.
  intros F. destruct (rest_fold good l true false (@new_note A)) as (m & sets & E & _); [intros n; right; reflexivity | ]. eexists. unfold read_note.
  assert (K : Forall (fun p => is_one_of choice_names (fst p) = false) l) by (eapply Forall_impl; [ | exact F]; intros p P; exact (proj2 (not_named_in choice_names p) P)).
  rewrite (each_ok _ l _ _ (note_rest good (List.length l) l [] (true, false, new_note) (le_n _) K)). rewrite E. unfold omap, obind. rewrite andb_false_r. reflexivity.
Qed.

Theorem unread_duration : ~ (forall A (good : A -> bool) (l : list (str * A)) s, conforms note_content l -> read_note good (nodes l) = Ok (true, s) -> all_readable good l).
Proof.
  intros H. set (good := fun n => negb (n =? 2)). destruct (read_note good (nodes [(lit "rest", 1); (lit "duration", 2)])) as [[b s] | | ] eqn:E; [ | discriminate E | discriminate E].
  specialize (H nat good [(lit "rest", 1); (lit "duration", 2)] s). vm_compute in E. injection E as <- <-.
  assert (X : all_readable good [(lit "rest", 1); (lit "duration", 2)]).
  { apply H; [ | reflexivity]. apply (conforms_sequence _ _ [(lit "rest", 1); (lit "duration", 2)] []).
    - eapply conforms_choice; [right; right; left; reflexivity | ]. apply (conforms_sequence _ _ [] [(lit "rest", 1); (lit "duration", 2)]); [constructor | ].
      apply (conforms_sequence _ _ [(lit "rest", 1)] [(lit "duration", 2)]); [eapply conforms_choice; [right; right; left; reflexivity | constructor] | ].
      apply (conforms_sequence _ _ [(lit "duration", 2)] []); [constructor | ]. apply (conforms_sequence _ _ [] []); [constructor | ]. apply (conforms_sequence _ _ [] []); constructor.
    - repeat (apply (conforms_sequence _ _ [] []); [constructor | ]). constructor. }
  inversion X as [ | ? ? _ Y]; subst. inversion Y as [ | ? ? Z _]; subst. discriminate Z.
Qed.

(** ** The loops end *)
Lemma full_ends {A} (good : A -> bool) b l ok g : exists x y ok' g', l = x ++ y /\ parse_full good (here b l) ok g = Ok (here (after b x) y, ok', g') /\ (l <> [] -> x <> []).
Proof.
  destruct l as [ | p l]; [exists [], []; do 2 eexists; split; [reflexivity | split; [reflexivity | contradiction]] | ].
  unfold parse_full. rewrite at_end_here, named_here. cbn [obind]. destruct (str_eqb (fst p) (lit "chord")).
  - rewrite increment_here. cbn [obind]. destruct l as [ | q l].
    + exists [p], []. do 2 eexists. split; [reflexivity | split; [reflexivity | discriminate]].
    + rewrite at_end_here, name_here. cbn [obind]. rewrite contents_here. cbn [obind]. rewrite increment_here. cbn [obind]. exists [p; q], l. destruct (choose _ (fst q)); do 2 eexists; (split; [reflexivity | split; [reflexivity | discriminate]]).
  - cbn [obind]. rewrite at_end_here, name_here. cbn [obind]. rewrite contents_here. cbn [obind]. rewrite increment_here. cbn [obind]. exists [p], l. destruct (choose _ (fst p)); do 2 eexists; (split; [reflexivity | split; [reflexivity | discriminate]]).
Qed.

Lemma choice_ends {A} (good : A -> bool) b p l ok kind ps : exists x y ok' k' ps', p :: l = x ++ y /\ x <> [] /\ parse_choice good (here b (p :: l)) ok kind ps = Ok (here (after b x) y, ok', k', ps').
Proof.
  unfold parse_choice. rewrite name_here. cbn [obind]. rewrite contents_here. cbn [obind].
  set (k := if str_eqb (fst p) (lit "grace") then GraceKind else if str_eqb (fst p) (lit "cue") then CueKind else NormalKind).
  assert (S1 : exists x1 y1 o1 g1, p :: l = x1 ++ y1 /\ (k <> NormalKind -> x1 <> []) /\ (k = NormalKind -> y1 <> []) /\
    match k with
    | NormalKind => Ok (here b (p :: l), ok, ps k)
    | _ => omap (fun it' => (it', ok && good (snd p), mkParts (give true (Own (snd p)) (np_head (ps k))) (np_chord (ps k)) (np_which (ps k)) (np_types (ps k)) (np_duration (ps k)) (np_ties (ps k)))) (increment (here b (p :: l)))
    end = Ok (here (after b x1) y1, o1, g1)).
  { destruct k; [exists [], (p :: l) | exists [p], l | exists [p], l]; rewrite ?increment_here; do 2 eexists; (split; [reflexivity | split; [ | split; [ | reflexivity]]]); (discriminate || (intros X; discriminate X) || congruence). }
  destruct S1 as (x1 & y1 & o1 & g1 & -> & N1 & N2 & ->). cbn [obind].
  destruct (full_ends good (after b x1) y1 o1 g1) as (x2 & y2 & o2 & g2 & -> & -> & N3). cbn [obind].
  assert (N : x1 ++ x2 <> []) by (destruct k; [specialize (N3 (N2 eq_refl)); destruct x1, x2; try discriminate; contradiction | specialize (N1 ltac:(discriminate)); destruct x1; [contradiction | discriminate].. ]).
  rewrite <- after_app.
  assert (D : exists d, is_here "duration" (here (after b (x1 ++ x2)) y2) = Ok d /\ (d = true -> y2 <> [])) by (destruct y2; eexists; [split; [apply is_here_nil | discriminate] | split; [apply is_here_here | discriminate]]).
  destruct D as (d & -> & ND). cbn [obind]. destruct (negb (kind_eqb k GraceKind) && negb d) eqn:Q.
  - exists (x1 ++ x2), y2. do 3 eexists. split; [apply app_assoc | split; [exact N | reflexivity]].
  - assert (S3 : exists x3 y3 g3, y2 = x3 ++ y3 /\ (if kind_eqb k GraceKind then Ok (here (after b (x1 ++ x2)) y2, g2)
                 else obind (contents_at (here (after b (x1 ++ x2)) y2)) (fun d => omap (fun it' =>
                   (it', mkParts (np_head g2) (np_chord g2) (np_which g2) (np_types g2) (give true (Own d) (np_duration g2)) (np_ties g2))) (increment (here (after b (x1 ++ x2)) y2)))) = Ok (here (after (after b (x1 ++ x2)) x3) y3, g3)).
    { destruct (kind_eqb k GraceKind); [exists [], y2; eexists; split; reflexivity | ]. cbn [negb andb] in Q. destruct d; [ | discriminate Q]. destruct y2 as [ | q y2]; [exfalso; apply ND; reflexivity | ].
      exists [q], y2. eexists. rewrite contents_here. cbn [obind]. rewrite increment_here. split; reflexivity. }
    destruct S3 as (x3 & y3 & g3 & -> & ->). cbn [obind]. destruct (run_of "tie" y3) as (t & y4 & -> & NT). rewrite <- after_app.
    assert (N4 : (x1 ++ x2) ++ x3 <> []) by (destruct (x1 ++ x2); [contradiction | discriminate]).
    destruct k.
    + rewrite take_all_named; [ | rewrite left_here, (app_length (all_named _ _)), all_named_length; lia | exact NT]. cbn [obind]. rewrite <- after_app. exists (((x1 ++ x2) ++ x3) ++ all_named "tie" t), y4. do 3 eexists.
      split; [rewrite <- !app_assoc; reflexivity | split; [ | reflexivity]]. destruct ((x1 ++ x2) ++ x3); [contradiction | discriminate].
    + rewrite take_all_named; [ | rewrite left_here, (app_length (all_named _ _)), all_named_length; lia | exact NT]. cbn [obind]. rewrite <- after_app. exists (((x1 ++ x2) ++ x3) ++ all_named "tie" t), y4. do 3 eexists.
      split; [rewrite <- !app_assoc; reflexivity | split; [ | reflexivity]]. destruct ((x1 ++ x2) ++ x3); [contradiction | discriminate].
    + exists ((x1 ++ x2) ++ x3), (all_named "tie" t ++ y4). do 3 eexists. split; [rewrite <- !app_assoc; reflexivity | split; [exact N4 | reflexivity]].
Qed.

Theorem note_ends A (good : A -> bool) (l : list (str * A)) : exists b s, read_note good (nodes l) = Ok (b, s).
Proof.
  destruct (loop_ends (note_turn good)) with (l := l) (s := (true, false, @new_note A)) as ([[ok found] x] & E).
  - intros b p r s. left. destruct (is_one_of choice_names (fst p)) eqn:C.
    + destruct s as [[ok found] x]. destruct (choice_ends good b p r ok (ne_kind x) (ne_parts x)) as (u & v & ok' & k' & ps' & E & N & R). unfold note_turn. rewrite name_here. cbn [obind]. rewrite contents_here. cbn [obind]. rewrite C, R. cbn [obind].
      destruct u as [ | q u]; [contradiction | ]. destruct (back_run b u v q) as (b' & t & D & _). rewrite D. do 4 eexists. split; [reflexivity | ]. injection E as _ ->. rewrite app_length. lia.
    + destruct (note_turn_rest good b p r s C) as (b' & q & x & y & E & T & _). exists b', q, y. eexists. split; [exact T | ]. injection E as ->. rewrite app_length. lia.
  - unfold read_note. rewrite E. do 2 eexists. reflexivity.
Qed.

Lemma midi_ends {A} (good : A -> bool) k : forall (l : list (str * A)) b ok moved acc, List.length l <= k ->
  exists x y ok' acc', l = x ++ y /\ forall fuel, List.length l <= fuel -> import_midi fuel good (here b l) ok moved acc = Ok (match x with [] => moved | _ => true end, here (after b x) y, ok', acc').
Proof.
  induction k as [ | k IH]; intros l b ok moved acc K.
  - destruct l; [ | cbn in K; lia]. exists [], [], ok, acc. split; [reflexivity | ]. intros [ | fuel] _; reflexivity.
  - destruct l as [ | p l]; [exists [], [], ok, acc; split; [reflexivity | ]; intros [ | fuel] _; reflexivity | ].
    destruct (str_eqb (fst p) (lit "midi-device")) eqn:D.
    + destruct l as [ | q l].
      * exists [p], []. do 2 eexists. split; [reflexivity | ]. intros [ | fuel] L; [cbn in L; lia | ]. cbn [import_midi]. rewrite !is_here_here. cbn [obind]. rewrite D. cbn [orb]. unfold take_good. rewrite is_here_here. cbn [obind]. rewrite D, contents_here. cbn [obind]. rewrite increment_here. cbn [obind].
        rewrite is_here_nil. cbn [obind]. destruct fuel; reflexivity.
      * destruct (str_eqb (fst q) (lit "midi-instrument")) eqn:Q.
        -- destruct (IH l (node_of q :: node_of p :: b) (ok && good (snd p) && good (snd q)) true (acc ++ [(give true (Own (snd p)) new_child, give true (Own (snd q)) new_child)])) as (x & y & ok' & acc' & E & R); [cbn in K; lia | ].
           exists (p :: q :: x), y, ok', acc'. split; [rewrite E; reflexivity | ]. intros [ | fuel] L; [cbn in L; lia | ]. cbn [import_midi]. rewrite !is_here_here. cbn [obind]. rewrite D. cbn [orb]. unfold take_good. rewrite is_here_here. cbn [obind]. rewrite D, contents_here. cbn [obind]. rewrite increment_here. cbn [obind].
           rewrite is_here_here. cbn [obind]. rewrite Q, contents_here. cbn [obind]. rewrite increment_here. cbn [obind]. rewrite R by (cbn in L; lia). destruct x; reflexivity.
        -- destruct (IH (q :: l) (node_of p :: b) (ok && good (snd p)) true (acc ++ [(give true (Own (snd p)) new_child, new_child)])) as (x & y & ok' & acc' & E & R); [cbn in K |- *; lia | ].
           exists (p :: x), y, ok', acc'. split; [rewrite E; reflexivity | ]. intros [ | fuel] L; [cbn in L; lia | ]. cbn [import_midi]. rewrite !is_here_here. cbn [obind]. rewrite D. cbn [orb]. unfold take_good. rewrite is_here_here. cbn [obind]. rewrite D, contents_here. cbn [obind]. rewrite increment_here. cbn [obind].
           rewrite is_here_here. cbn [obind]. rewrite Q. cbn [obind]. rewrite R by (cbn in L |- *; lia). destruct x; reflexivity.
    + destruct (str_eqb (fst p) (lit "midi-instrument")) eqn:Q.
      * destruct (IH l (node_of p :: b) (ok && good (snd p)) true (acc ++ [(new_child, give true (Own (snd p)) new_child)])) as (x & y & ok' & acc' & E & R); [cbn in K; lia | ].
        exists (p :: x), y, ok', acc'. split; [rewrite E; reflexivity | ]. intros [ | fuel] L; [cbn in L; lia | ]. cbn [import_midi]. rewrite !is_here_here. cbn [obind]. rewrite D, Q. cbn [orb]. unfold take_good. rewrite is_here_here. cbn [obind]. rewrite D. cbn [obind].
        rewrite is_here_here. cbn [obind]. rewrite Q, contents_here. cbn [obind]. rewrite increment_here. cbn [obind]. rewrite R by (cbn in L; lia). destruct x; reflexivity.
      * exists [], (p :: l), ok, acc. split; [reflexivity | ]. intros fuel _. apply midi_not. split; assumption.
Qed.

Theorem score_part_ends A (good : A -> bool) (l : list (str * A)) : exists b s, read_score_part good (nodes l) = Ok (b, s).
Proof.
  destruct (loop_ends (score_part_turn good)) with (l := l) (s := (true, mkScorePart (@new_members A) [] [] [])) as ([ok s] & E).
  - intros b p r [ok s]. left. destruct (is_one_of score_part_names (fst p)) eqn:N.
    + apply (named_in score_part_names p) in N. apply in_map_iff in N. destruct N as (n & E & I). destruct p as [pn a]. cbn [fst] in E. subst pn. rewrite score_part_still by exact I. do 4 eexists. split; [reflexivity | constructor].
    + unfold score_part_turn. rewrite name_here. cbn [obind]. rewrite contents_here. cbn [obind]. rewrite N.
      destruct (str_eqb (fst p) (lit "group")) eqn:G.
      { destruct (run_of "group" (p :: r)) as (l1 & r1 & E & F). destruct l1 as [ | a l1]; [cbn [all_named map app] in E; subst r1; cbn [not_first] in F; rewrite F in G; discriminate G | ].
        destruct (import_set_run "group" good b a l1 r1 ok (sp_groups s) F) as (b' & q & S & B & Q). rewrite E. rewrite S. cbn [obind]. rewrite import_set_not by (rewrite Q; reflexivity). cbn [obind]. rewrite midi_not by (rewrite Q; split; reflexivity). cbn [obind back_if omap].
        do 4 eexists. split; [reflexivity | ]. apply (f_equal (@List.length _)) in E. cbn [all_named map app List.length] in E. rewrite app_length in E. lia. }
      rewrite import_set_not by exact G. cbn [obind]. destruct (str_eqb (fst p) (lit "score-instrument")) eqn:I.
      { destruct (run_of "score-instrument" (p :: r)) as (l1 & r1 & E & F). destruct l1 as [ | a l1]; [cbn [all_named map app] in E; subst r1; cbn [not_first] in F; rewrite F in I; discriminate I | ].
        destruct (import_set_run "score-instrument" good b a l1 r1 ok (sp_instruments s) F) as (b' & q & S & B & Q). rewrite E. rewrite S. cbn [obind]. rewrite midi_not by (rewrite Q; split; reflexivity). cbn [obind back_if omap].
        do 4 eexists. split; [reflexivity | ]. apply (f_equal (@List.length _)) in E. cbn [all_named map app List.length] in E. rewrite app_length in E. lia. }
      rewrite import_set_not by exact I. cbn [obind]. rewrite left_here. destruct (midi_ends good _ (p :: r) b ok false (sp_midi s) (le_n _)) as (x & y & ok' & acc' & E & R). rewrite R by constructor. cbn [obind].
      destruct x as [ | q x].
      * cbn [app] in E. subst y. cbn [back_if omap after]. do 4 eexists. split; [reflexivity | constructor].
      * destruct (back_run b x y q) as (b' & t & D & _). cbn [back_if]. rewrite D. cbn [omap obind]. do 4 eexists. split; [reflexivity | ]. injection E as _ ->. rewrite app_length. lia.
  - exists ok, s. unfold read_score_part. rewrite E. reflexivity.
Qed.

(** ** Examples *)
Ltac note_example :=
  cbv [a_note a_grace_note a_cue_note a_score_part a_score_instrument an_encoding some_ornaments a_sound note_content note_choice_content full_note_content two_ties note_members member_content
       score_part_content midi_content score_instrument_content encoding_content encoding_names ornaments_content ornament_names sound_group_content sound_content fst snd named map one_of app];
  find_conforms.

Lemma ex_note : conforms note_content a_note. Proof. note_example. Qed.
Lemma ex_grace_note : conforms note_content a_grace_note. Proof. note_example. Qed.
Lemma ex_cue_note : conforms note_content a_cue_note. Proof. note_example. Qed.
Lemma ex_score_part : conforms score_part_content a_score_part. Proof. note_example. Qed.
Lemma ex_score_instrument : conforms score_instrument_content a_score_instrument. Proof. note_example. Qed.
Lemma ex_encoding : conforms encoding_content an_encoding. Proof. note_example. Qed.
Lemma ex_ornaments : conforms ornaments_content some_ornaments. Proof. note_example. Qed.
Lemma ex_sound : conforms sound_group_content a_sound /\ has_child "midi-instrument" a_sound.
Proof. split; [note_example | exists 2; right; left; reflexivity]. Qed.
