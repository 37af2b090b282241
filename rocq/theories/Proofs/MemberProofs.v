(** Members of elements by name; sounds, encodings, score-instruments. *)
From Coq Require Import List String Ascii Bool PeanoNat Lia.
From Verif Require Import Model.Base Model.Text Model.ElementReading Model.ElementGroups Model.ElementChoices Model.ScoreElements Model.NoteElements
  Spec.ContentModels Spec.MoreContents Spec.ScoreContents Spec.NoteContents Proofs.GroupLoops Proofs.ChildrenProofs Proofs.GroupRuns Proofs.ChoiceProofs Proofs.ScoreElementProofs Proofs.ScoreChildrenProofs.
Import ListNotations.
Local Open Scope list_scope.

(** ** A member that has been given some children *)
Definition gives {A} (c : child A) (l : list A) : child A := mkChild (match l with [] => ch_has c | _ => true end) (ch_given c ++ map Own l).

Lemma gives_nil {A} (c : child A) : gives c [] = c.
Proof. destruct c. unfold gives. cbn. rewrite app_nil_r. reflexivity. Qed.
Lemma gives_cons {A} (c : child A) a l : gives (give true (Own a) c) l = gives c (a :: l).
Proof. unfold gives, give. cbn. rewrite <- app_assoc. destruct l; reflexivity. Qed.

Lemma if_has_gives {A} n (l : list (str * A)) : if_has n (gives new_child (contents_of n l)) = one_from l n.
Proof. unfold if_has, one_from, gives, always. destruct (contents_of n l); reflexivity. Qed.

Lemma contents_app {A} n (x y : list (str * A)) : contents_of n (x ++ y) = contents_of n x ++ contents_of n y.
Proof. unfold contents_of. rewrite filter_app, map_app. reflexivity. Qed.

Lemma contents_none {A} n (l : list (str * A)) : Forall (fun p => fst p <> lit n) l -> contents_of n l = [].
Proof.
  induction 1 as [ | p l N F IH]; [reflexivity | ]. rewrite contents_cons. destruct (str_eqb (fst p) (lit n)) eqn:E; [apply str_eqb_true in E; contradiction | exact IH].
Qed.

Lemma contents_empty {A} n (l : list (str * A)) : contents_of n l = [] <-> ~ has_child n l.
Proof.
  split.
  - intros E [a I]. induction l as [ | p l IH]; [exact I | ]. rewrite contents_cons in E. destruct I as [-> | I].
    + cbn [fst] in E. rewrite str_eqb_refl in E. discriminate E.
    + destruct (str_eqb (fst p) (lit n)); [discriminate E | exact (IH E I)].
  - intros N. apply contents_none. apply Forall_forall. intros [m a] I. cbn. intros ->. apply N. exists a. exact I.
Qed.

Lemma one_of_named {A} names (p : str * A) : is_one_of names (fst p) = is_named names p.
Proof. reflexivity. Qed.

(** A step gives the child to the member of its name if that is in the list. *)
Definition member_step {A} (names : list string) (good : A -> bool) (p : str * A) (s : bool * members A) : bool * members A :=
  let '(ok, m) := s in if is_named names p then (ok && good (snd p), give_member (fst p) (snd p) m) else (ok, m).

Definition ok_in {A} (names : list string) (good : A -> bool) (p : str * A) : bool := negb (is_named names p) || good (snd p).

Lemma member_fold {A} names (good : A -> bool) (l : list (str * A)) : forall ok m, exists m',
  fold_left (fun s p => member_step names good p s) l (ok, m) = (ok && forallb (ok_in names good) l, m') /\
  (forall n, In n names -> m' (lit n) = gives (m (lit n)) (contents_of n l)).
Proof.
  induction l as [ | p l IH]; intros ok m.
  - exists m. cbn. rewrite andb_true_r. split; [reflexivity | ]. intros n _. symmetry. apply gives_nil.
  - cbn [fold_left forallb]. unfold member_step at 2. unfold ok_in at 1. destruct (is_named names p) eqn:N.
    + destruct (IH (ok && good (snd p)) (give_member (fst p) (snd p) m)) as (m' & E & M). exists m'. rewrite E. cbn [negb orb]. rewrite andb_assoc. split; [reflexivity | ].
      intros n I. rewrite (M n I), contents_cons. unfold give_member. rewrite eqb_sym. destruct (str_eqb (fst p) (lit n)); [apply gives_cons | reflexivity].
    + destruct (IH ok m) as (m' & E & M). exists m'. rewrite E. split; [reflexivity | ]. intros n I. rewrite (M n I), contents_cons.
      destruct (str_eqb (fst p) (lit n)) eqn:F; [ | reflexivity]. apply str_eqb_true in F. apply not_named_in in N. exfalso. apply N. rewrite F. apply in_map. exact I.
Qed.

Lemma import_still {A} names (good : A -> bool) l s : each_child (import_turn names good) (nodes l) s = Ok (fold_left (fun s p => member_step names good p s) l s).
Proof. apply loop_still. intros b p r [ok m]. unfold import_turn. rewrite name_here. cbn [obind]. rewrite contents_here. reflexivity. Qed.

Lemma ok_false {A} names (good : A -> bool) l : forallb (ok_in names good) l = false <-> Exists (fun p => In (fst p) (map lit names) /\ good (snd p) = false) l.
Proof.
  rewrite forallb_false. split; apply Exists_impl; intros p; unfold ok_in; rewrite orb_false_iff, negb_false_iff, named_in; tauto.
Qed.
Lemma ok_readable {A} names (good : A -> bool) l : all_readable good l -> forallb (ok_in names good) l = true.
Proof. intros G. apply forallb_forall. intros p I. unfold all_readable in G. rewrite Forall_forall in G. unfold ok_in. rewrite (G p I). apply orb_true_r. Qed.

(** ** sound *)
Definition sound_names : list string := ["midi-device"; "midi-instrument"; "play"]%string.

Theorem sound_exact A (good : A -> bool) (l : list (str * A)) : exists b s, read_sound good (nodes l) = Ok (b, s) /\
  (b = false <-> Exists (fun p => In (fst p) (map lit ["midi-device"; "midi-instrument"; "play"]%string) /\ good (snd p) = false) l) /\
  (Exists (fun p => In (fst p) (map lit ["midi-device"; "midi-instrument"; "play"]%string)) l ->
    write_sound s = one_from l "midi-device" ++ [(lit "midi-instrument", map Own (contents_of "midi-instrument" l))] ++ one_from l "play") /\
  (~ Exists (fun p => In (fst p) (map lit ["midi-device"; "midi-instrument"; "play"]%string)) l -> write_sound s = []).
Proof.
  destruct (member_fold sound_names good l true new_members) as (m & E & M). exists (forallb (ok_in sound_names good) l), m.
  split; [unfold read_sound; rewrite import_still; fold sound_names; rewrite E; reflexivity | ]. split; [apply ok_false | ].
  assert (H : forall n, In n sound_names -> m (lit n) = gives new_child (contents_of n l)) by exact M. clear M E.
  assert (X : forall n, In n sound_names -> ch_has (m (lit n)) = true <-> exists p, In p l /\ fst p = lit n).
  { intros n I. rewrite (H n I). unfold gives. cbn [ch_has new_child]. pose proof (contents_empty n l) as [C D]. destruct (contents_of n l) as [ | a r].
    - split; [discriminate | ]. intros ([k a] & J & K). cbn in K. subst k. exfalso. apply (C eq_refl). exists a. exact J.
    - split; [intros _ | reflexivity]. destruct (Exists_dec (fun p => fst p = lit n) l) as [Y | Y]; [intros p; apply (list_eq_dec ascii_dec) | apply Exists_exists in Y; exact Y | ].
      exfalso. assert (W : a :: r = []) by (apply D; intros [c J]; apply Y, Exists_exists; exists (lit n, c); auto). discriminate W. }
  unfold write_sound, write_member. split; intros Y.
  - replace (ch_has (m (lit "midi-device")) || ch_has (m (lit "midi-instrument")) || ch_has (m (lit "play"))) with true.
    + rewrite !H by (cbn; tauto). rewrite !if_has_gives. reflexivity.
    + symmetry. apply Exists_exists in Y. destruct Y as (p & I & J). apply in_map_iff in J. destruct J as (n & N & J). rewrite !orb_true_iff.
      assert (ch_has (m (lit n)) = true) as W by (apply X; [exact J | exists p; auto]). destruct J as [<- | [<- | [<- | []]]]; tauto.
  - destruct (ch_has (m (lit "midi-device")) || ch_has (m (lit "midi-instrument")) || ch_has (m (lit "play"))) eqn:Z; [ | reflexivity]. exfalso. apply Y.
    rewrite !orb_true_iff in Z. apply Exists_exists.
    assert (W : exists n, In n sound_names /\ ch_has (m (lit n)) = true) by (destruct Z as [[Z | Z] | Z]; eexists; split; [ | exact Z | | exact Z | | exact Z]; cbn; tauto).
    destruct W as (n & I & W). apply X in W; [ | exact I]. destruct W as (p & J & K). exists p. split; [exact J | ]. rewrite K. apply in_map. exact I.
Qed.

(** ** encoding *)
Definition encoding_step {A} (good : A -> bool) (p : str * A) (s : bool * list (str * list (given A))) : bool * list (str * list (given A)) :=
  let '(ok, l) := s in
  match choose encoding_choices (fst p) with
  | Some w => (ok && good (snd p), l ++ [(lit w, [Own (snd p)])])
  | None => (false, l ++ [(lit "encoding-date", [])])
  end.


Lemma encoding_fold {A} (good : A -> bool) (l : list (str * A)) : forall ok acc,
  fold_left (fun s p => encoding_step good p s) l (ok, acc) = (ok && forallb (fun p => is_named encoding_names p && good (snd p)) l, acc ++ map encoding_written l).
Proof.
  induction l as [ | p l IH]; intros ok acc; [cbn; rewrite andb_true_r, app_nil_r; reflexivity | ].
  cbn [fold_left forallb map]. unfold encoding_step at 2. pose proof (choose_same encoding_names (fst p)) as C. change (map _ encoding_names) with encoding_choices in C. fold (is_named encoding_names p) in C.
  unfold encoding_written at 1. destruct (choose encoding_choices (fst p)) as [w | ].
  - destruct C as [W C]. rewrite C, IH, andb_assoc, <- app_assoc, andb_true_l. cbn [app]. unfold as_read. rewrite W. reflexivity.
  - rewrite C, IH, <- app_assoc. cbn. rewrite andb_false_r. reflexivity.
Qed.

Lemma encoding_is {A} (good : A -> bool) (l : list (str * A)) :
  read_encoding good (nodes l) = Ok (forallb (fun p => is_named encoding_names p && good (snd p)) l, map encoding_written l).
Proof.
  unfold read_encoding. rewrite (loop_still _ (encoding_step good)); [rewrite encoding_fold; reflexivity | ].
  intros b p r [ok acc]. rewrite name_here. cbn [obind]. rewrite contents_here. reflexivity.
Qed.

Theorem encoding_back A (good : A -> bool) (l : list (str * A)) : conforms encoding_content l -> all_readable good l -> comes_back (read_encoding good) write_encoding l.
Proof.
  intros H G. apply inv_many_one_of in H. eexists. rewrite encoding_is. split.
  - f_equal. f_equal. apply forallb_forall. intros p I. unfold all_readable in G. rewrite Forall_forall in G, H. rewrite (G p I), (proj2 (named_in _ p) (H p I)). reflexivity.
  - unfold write_encoding. rewrite (map_ext_in encoding_written as_read); [apply as_read_same | ]. intros p I. rewrite Forall_forall in H. unfold encoding_written. rewrite (proj2 (named_in _ p) (H p I)). reflexivity.
Qed.

Theorem encoding_exact A (good : A -> bool) (l : list (str * A)) : exists b s, read_encoding good (nodes l) = Ok (b, s) /\ write_encoding s = map encoding_written l.
Proof. rewrite encoding_is. do 2 eexists. split; reflexivity. Qed.

Theorem encoding_refused A (good : A -> bool) (l : list (str * A)) :
  refused (read_encoding good) l <-> Exists (fun p => ~ In (fst p) (map lit encoding_names) \/ good (snd p) = false) l.
Proof.
  unfold refused. rewrite encoding_is. assert (X : forallb (fun p => is_named encoding_names p && good (snd p)) l = false <-> Exists (fun p => ~ In (fst p) (map lit encoding_names) \/ good (snd p) = false) l).
  { rewrite forallb_false. split; apply Exists_impl; intros p; rewrite andb_false_iff, not_named_in; tauto. }
  rewrite <- X. split; [intros [s E]; injection E as E _; exact E | intros ->; eauto].
Qed.

(** ** score-instrument *)

Definition instrument_step {A} (good : A -> bool) (p : str * A) (s : bool * bool * score_instrument A) : bool * bool * score_instrument A :=
  let '(ok, found, i) := s in let n := fst p in let a := snd p in
  let m := give_member n a (si_members i) in
  if str_eqb n (lit "instrument-name") then (ok && good a, true, mkScoreInstrument m (si_chosen i) (si_choice i))
  else if is_one_of ["instrument-abbreviation"; "instrument-sound"; "virtual-instrument"]%string n then (ok && good a, found, mkScoreInstrument m (si_chosen i) (si_choice i))
  else if str_eqb n (lit "solo") then (ok && good a, found, mkScoreInstrument m true "solo")
  else if str_eqb n (lit "ensemble") then (ok && good a, found, mkScoreInstrument m true "ensemble")
  else (ok, found, i).

Lemma instrument_still {A} (good : A -> bool) l s : each_child (score_instrument_turn good) (nodes l) s = Ok (fold_left (fun s p => instrument_step good p s) l s).
Proof. apply loop_still. intros b p r [[ok found] i]. unfold score_instrument_turn. rewrite name_here. cbn [obind]. rewrite contents_here. reflexivity. Qed.

Lemma instrument_members {A} (good : A -> bool) p ok found (i : score_instrument A) :
  let s := instrument_step good p (ok, found, i) in
  (fst (fst s), si_members (snd s)) = member_step instrument_names good p (ok, si_members i) /\
  snd (fst s) = str_eqb (fst p) (lit "instrument-name") || found.
Proof.
  unfold instrument_step, member_step, is_named, is_one_of, instrument_names. cbn [existsb].
  repeat match goal with |- context [str_eqb (fst p) ?n] => destruct (str_eqb (fst p) n) eqn:? end; cbn; split; reflexivity.
Qed.

Lemma instrument_fold {A} (good : A -> bool) (l : list (str * A)) : forall ok found i, exists i',
  fold_left (fun s p => instrument_step good p s) l (ok, found, i) = (ok && forallb (ok_in instrument_names good) l, found || existsb (is_named ["instrument-name"]%string) l, i') /\
  (forall n, In n instrument_names -> si_members i' (lit n) = gives (si_members i (lit n)) (contents_of n l)).
Proof.
  intros ok found i.
  assert (H : let s := fold_left (fun s p => instrument_step good p s) l (ok, found, i) in
    (fst (fst s), si_members (snd s)) = fold_left (fun s p => member_step instrument_names good p s) l (ok, si_members i) /\ snd (fst s) = found || existsb (is_named ["instrument-name"]%string) l).
  { revert ok found i. induction l as [ | p l IH]; intros ok found i; [cbn; rewrite orb_false_r; split; reflexivity | ]. cbn [fold_left existsb]. destruct (instrument_members good p ok found i) as [E F].
    destruct (instrument_step good p (ok, found, i)) as [[ok1 found1] i1]. cbn [fst snd] in E, F. rewrite <- E. specialize (IH ok1 found1 i1). cbn zeta in IH. destruct IH as [I J]. split; [exact I | ]. rewrite J, F, named_one.
    destruct (str_eqb (fst p) (lit "instrument-name")), found; reflexivity. }
  destruct (member_fold instrument_names good l ok (si_members i)) as (m & E & M). rewrite E in H. cbn zeta in H.
  destruct (fold_left (fun s p => instrument_step good p s) l (ok, found, i)) as [[ok1 found1] i1]. cbn [fst snd] in H. destruct H as [H F]. injection H as H1 H2. exists i1. subst. split; [reflexivity | exact M].
Qed.

Theorem instrument_refused A (good : A -> bool) (l : list (str * A)) :
  refused (read_score_instrument good) l <-> ~ has_child "instrument-name" l \/ Exists (fun p => In (fst p) (map lit instrument_names) /\ good (snd p) = false) l.
Proof.
  unfold refused, read_score_instrument. rewrite instrument_still. destruct (instrument_fold good l true false (mkScoreInstrument new_members false "solo"%string)) as (i & E & _). rewrite E. cbn [omap obind andb orb].
  rewrite <- ok_false. assert (X : existsb (is_named ["instrument-name"]%string) l = false <-> ~ has_child "instrument-name" l).
  { split.
    - intros F [a I]. assert (T : existsb (is_named ["instrument-name"]%string) l = true) by (apply existsb_exists; exists (lit "instrument-name", a); split; [exact I | rewrite named_one; apply str_eqb_refl]). rewrite T in F. discriminate F.
    - intros N. destruct (existsb _ l) eqn:F; [ | reflexivity]. exfalso. apply existsb_exists in F. destruct F as ([n a] & I & F). rewrite named_one in F. apply str_eqb_true in F. cbn in F. subst n. apply N. exists a. exact I. }
  rewrite <- X. rewrite or_comm, <- andb_false_iff. split; [intros [s F]; injection F as F _; exact F | intros ->; eauto].
Qed.

Lemma score_instrument_shape {A} (l : list (str * A)) : conforms score_instrument_content l -> exists a b c e v,
  l = [(lit "instrument-name", a)] ++ all_named "instrument-abbreviation" (maybe b) ++ all_named "instrument-sound" (maybe c)
      ++ match e with None => [] | Some (true, x) => [(lit "solo", x)] | Some (false, x) => [(lit "ensemble", x)] end ++ all_named "virtual-instrument" (maybe v).
Proof.
  intros H. apply inv_sequence in H as (x1 & y1 & -> & C1 & H). apply inv_element in C1 as (a & ->).
  apply inv_sequence in H as (x2 & y2 & -> & C2 & H). apply inv_maybe in C2 as (b & ->).
  apply inv_sequence in H as (x3 & y3 & -> & C3 & H). apply inv_maybe in C3 as (c & ->).
  apply inv_sequence in H as (x4 & y4 & -> & C4 & H). apply inv_sequence in H as (x5 & y5 & -> & C5 & H). apply inv_maybe in C5 as (v & ->). apply inv_nothing in H as ->. rewrite app_nil_r.
  apply inv_optional in C4 as [-> | C4]; [exists a, b, c, None, v; reflexivity | ]. apply inv_one_of in C4 as (n & x & [<- | [<- | []]] & ->).
  - exists a, b, c, (Some (true, x)), v. reflexivity.
  - exists a, b, c, (Some (false, x)), v. reflexivity.
Qed.

Theorem score_instrument_back A (good : A -> bool) (l : list (str * A)) : conforms score_instrument_content l -> all_readable good l ->
  comes_back (read_score_instrument good) write_score_instrument l.
Proof.
  intros H G. apply score_instrument_shape in H as (a & b & c & e & v & ->). unfold comes_back, read_score_instrument. rewrite instrument_still.
  unfold all_readable in G.
  destruct b as [b | ], c as [c | ], e as [[[ | ] e] | ], v as [v | ]; cbn [app maybe all_named map] in G |- *;
    repeat match goal with H : Forall _ (_ :: _) |- _ => apply Forall_cons_iff in H as [? H] end; cbn [snd] in *;
    (eexists; split; [cbn; repeat match goal with H : good _ = true |- _ => rewrite H; clear H end; reflexivity | ]);
    cbn; repeat (constructor; [split; reflexivity | ]); constructor.
Qed.
