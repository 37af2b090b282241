(** The parts of any file: staves, divisions and transpositions. *)
From Coq Require Import QArith.
From Verif Require Import Proofs.Tac.
From Verif Require Import Model.Base Model.Text Model.Ticks Model.MeasureTypes Model.MeasureReader Model.Scores.
From Verif Require Import Spec.WholeScores.
From Verif Require Import Proofs.MeasureReadProofs Proofs.MeasureSync Proofs.ScoreBack.
Import ListNotations.
Open Scope Z_scope.

(** * Staves *)

Definition staff_step (n : Z) (x : music_data) : Z := match staves_of x with Some k => if n <? k then k else n | None => n end.

Lemma staff_fold items : forall a, let r := fold_left staff_step items a in
  (a <= r /\ Forall (fun k => k <= r) (flat_map (fun x => list_of (staves_of x)) items)) /\ In r (a :: flat_map (fun x => list_of (staves_of x)) items).
Proof.
  induction items as [|x items IH]; intros a; cbv zeta; cbn [fold_left flat_map]; [split; [split; [lia | constructor] | left; reflexivity] | ].
  destruct (IH (staff_step a x)) as [[I1 I2] I3]. cbv zeta in *. unfold staff_step in I1, I3 at 1. fold (staff_step a x) in *.
  set (r := fold_left staff_step items (staff_step a x)) in *. unfold staff_step in *. destruct (staves_of x) as [k|]; cbn [list_of app].
  - destruct (a <? k) eqn:L; bool_hyps; (split; [split; [lia | constructor; [lia | exact I2]] | ]); destruct I3 as [I3 | I3].
    + right. left. exact I3.
    + right. right. exact I3.
    + left. exact I3.
    + right. right. exact I3.
  - split; [split; [exact I1 | exact I2] | exact I3].
Qed.

Theorem staves_found l : Forall (fun k => k <= calculateNumStaves l) (1 :: staff_numbers l) /\ In (calculateNumStaves l) (1 :: staff_numbers l).
Proof.
  assert (E : staff_numbers l = flat_map (fun x => list_of (staves_of x)) (flat_map xm_data l)).
  { unfold staff_numbers. induction l as [|m l IH]; [reflexivity | ]. cbn [flat_map]. rewrite flat_map_app, IH. f_equal. apply flat_map_ext. intros []; reflexivity. }
  rewrite E. destruct (staff_fold (flat_map xm_data l) 1) as [[I1 I2] I3]. cbv zeta in *. split; [constructor; assumption | exact I3].
Qed.

(** * Divisions *)

Definition last_of (cur : Z) (l : list Q) : Z := fold_left (fun _ d => round_half d) l cur.
Definition said (x : music_data) : list Q := match x with MProperties p => list_of (p_divisions p) | _ => [] end.

Lemma clefs_current l : forall r r', importClefs l r = Ok r' -> r_current r' = r_current r.
Proof.
  induction l as [|k l IH]; intros r r' H; cbn [importClefs] in H; [injection H as <-; reflexivity | ].
  apply obind_ok in H. destruct H as (r1 & H1 & H). rewrite (IH _ _ H). unfold importClef in H1. apply obind_ok in H1. destruct H1 as (st & _ & H1). injection H1 as <-. reflexivity.
Qed.

Lemma step_current c x next r r' : parseMusicDataChoice c x next r = Ok r' -> r_current r' = last_of (r_current r) (said x).
Proof.
  intros H. destruct x as [n | d | d | d | h | p | b | | ]; cbn [parseMusicDataChoice said last_of fold_left] in *; try (injection H as <-; reflexivity).
  - unfold parseNote in H. repeat (apply obind_ok in H; let v := fresh "v" in destruct H as (v & _ & H)). injection H as <-. reflexivity.
  - unfold parseBackup in H. repeat (apply obind_ok in H; let v := fresh "v" in destruct H as (v & _ & H)). destruct (_ <? _).
    + apply obind_ok in H. destruct H as (pb & _ & H). injection H as <-. reflexivity.
    + injection H as <-. reflexivity.
  - unfold parseForward in H. repeat (apply obind_ok in H; let v := fresh "v" in destruct H as (v & _ & H)). injection H as <-. reflexivity.
  - unfold parseDirectionImpl in H. repeat (apply obind_ok in H; let v := fresh "v" in destruct H as (v & _ & H)). injection H as <-. reflexivity.
  - unfold parseDirectionImpl in H. repeat (apply obind_ok in H; let v := fresh "v" in destruct H as (v & _ & H)). injection H as <-. reflexivity.
  - unfold parseProperties in H. apply obind_ok in H. destruct H as (cur & Hc & H). apply obind_ok in H. destruct H as (r3 & Hr & H).
    apply clefs_current in Hr. rewrite read_keys in Hr. cbn [r_current r_set_current r_at] in Hr.
    assert (E : cur = last_of (r_current r) (list_of (p_divisions p))).
    { destruct (p_divisions p) as [d|]; cbn; [ | injection Hc as <-; reflexivity]. unfold as_int in Hc. destruct (in_int _); [injection Hc as <-; reflexivity | discriminate Hc]. }
    fold (last_of (r_current r) (list_of (p_divisions p))). rewrite <- E, <- Hr. injection H as <-. destruct (p_transpose p); [reflexivity | ]. destruct (_ && _); reflexivity.
Qed.

Lemma last_app cur a b : last_of cur (a ++ b) = last_of (last_of cur a) b.
Proof. unfold last_of. apply fold_left_app. Qed.

Lemma items_current c items f : forall r r', read_items c items f r = Ok r' -> r_current r' = last_of (r_current r) (flat_map said items).
Proof.
  induction items as [|x items IH]; intros r r' H; cbn [read_items] in H; [injection H as <-; reflexivity | ].
  apply obind_ok in H. destruct H as (r1 & H1 & H). cbn [flat_map]. rewrite last_app, (IH _ _ H), (step_current _ _ _ _ _ H1). reflexivity.
Qed.

Lemma measure_current c x m t e : read_measure c x = Ok (m, t, e) -> e = last_of (rc_current c) (flat_map said (xm_data x)).
Proof.
  intros R. unfold read_measure in R. apply obind_ok in R. destruct R as (ti & _ & R). apply obind_ok in R. destruct R as (r & Hr & R).
  apply obind_ok in R. destruct R as (l & _ & R). injection R as _ _ <-. exact (items_current _ _ _ _ _ Hr).
Qed.

Lemma all_current l : forall c t p e, read_all c t l = Ok (p, e) -> e = last_of (rc_current c) (divisions_said l) /\ List.length (pm_measures p) = List.length l.
Proof.
  induction l as [|x l IH]; intros c t p e H; cbn [read_all] in H; [injection H as <- <-; split; reflexivity | ].
  apply obind_ok in H. destruct H as ([[m tr] e1] & H1 & H). cbn [fst snd] in H. apply obind_ok in H. destruct H as ([p' e'] & H2 & H). injection H as <- <-.
  destruct (IH _ _ _ _ H2) as [-> L]. cbn [rc_current pm_measures List.length fst snd]. split; [ | rewrite L; reflexivity].
  rewrite (measure_current _ _ _ _ _ H1). unfold divisions_said. cbn [flat_map]. rewrite last_app. reflexivity.
Qed.

Lemma effect_step g earlier ds d : (if 0 <? d then d else g) = in_effect g earlier ->
  (let e := last_of (in_effect g earlier) ds in if 0 <? e then e else g) = in_effect g (earlier ++ ds).
Proof.
  intros E. cbv zeta. destruct ds as [|q ds _] using rev_ind.
  - rewrite app_nil_r. unfold last_of. cbn [fold_left]. rewrite <- E. destruct (0 <? d) eqn:D; [rewrite D; reflexivity | ]. destruct (0 <? g); reflexivity.
  - rewrite last_app. unfold last_of at 1 2. cbn [fold_left]. unfold in_effect. rewrite app_assoc, rev_app_distr. reflexivity.
Qed.

Lemma each_read g l : forall d earlier ps, (if 0 <? d then d else g) = in_effect g earlier -> read_each g d l = Ok ps ->
  List.length ps = List.length l /\ forall k x p, nth_error l k = Some x -> nth_error ps k = Some p ->
    exists e, read_all (mkRctx (Z.to_nat (calculateNumStaves x)) g (in_effect g (earlier ++ flat_map divisions_said (firstn k l))) 0 default_time) None x = Ok (p, e).
Proof.
  induction l as [|x l IH]; intros d earlier ps E H; cbn [read_each] in H; [injection H as <-; split; [reflexivity | intros [|k] x p N; discriminate N] | ].
  apply obind_ok in H. destruct H as ([p e] & H1 & H). cbn [fst snd] in H. apply obind_ok in H. destruct H as (s & H2 & H). injection H as <-.
  unfold read_part_music in H1. rewrite E in H1. destruct (all_current _ _ _ _ _ H1) as [C _]. cbn [rc_current] in C.
  destruct (IH e (earlier ++ divisions_said x) s) as [L Q]; [rewrite C; apply (effect_step g earlier (divisions_said x) d E) | exact H2 | ].
  split; [cbn; rewrite L; reflexivity | ]. intros [|k] y q N1 N2.
  - cbn in N1, N2. injection N1 as <-. injection N2 as <-. cbn [firstn flat_map]. rewrite app_nil_r. exists e. exact H1.
  - cbn in N1, N2. destruct (Q k y q N1 N2) as (e' & R). exists e'. cbn [firstn flat_map]. rewrite app_assoc. exact R.
Qed.

Theorem parts_read g l ps : read_each g (-1) l = Ok ps ->
  List.length ps = List.length l /\ forall k x p, nth_error l k = Some x -> nth_error ps k = Some p -> List.length (pm_measures p) = List.length x /\
    exists e, read_all (mkRctx (Z.to_nat (calculateNumStaves x)) g (in_effect g (flat_map divisions_said (firstn k l))) 0 default_time) None x = Ok (p, e).
Proof.
  intros H. destruct (each_read g l (-1) [] ps eq_refl H) as [L Q]. split; [exact L | ]. intros k x p N1 N2. destruct (Q k x p N1 N2) as (e & R). split; [apply (all_current _ _ _ _ _ R) | ].
  exists e. exact R.
Qed.

(** * Transposition *)

Lemma later_transpose c x next r r' : rc_measureIndex c <> 0 -> parseMusicDataChoice c x next r = Ok r' -> r_transpose r' = r_transpose r.
Proof.
  intros N H. destruct x as [n | d | d | d | h | p | b | | ]; try (apply (step_transpose _ _ _ _ _ H); exact I).
  cbn [parseMusicDataChoice] in H. unfold parseProperties in H. apply obind_ok in H. destruct H as (cur & _ & H). apply obind_ok in H. destruct H as (r3 & Hr & H).
  apply clefs_transpose in Hr. rewrite read_keys in Hr. cbn [r_transpose r_tick r_set_current r_at] in Hr. injection H as <-. apply Z.eqb_neq in N. rewrite N. cbn [andb]. destruct (p_transpose p); apply Hr.
Qed.

Lemma later_measure c x m t e : rc_measureIndex c <> 0 -> read_measure c x = Ok (m, t, e) -> t = None.
Proof.
  intros N R. unfold read_measure in R. apply obind_ok in R. destruct R as (ti & _ & R). apply obind_ok in R. destruct R as (r & Hr & R).
  apply obind_ok in R. destruct R as (l & _ & R). injection R as _ <- _.
  assert (K : forall items r r', read_items c items false r = Ok r' -> r_transpose r' = r_transpose r).
  { clear - N. induction items as [|y items IH]; intros r r' H; cbn [read_items] in H; [injection H as <-; reflexivity | ]. apply obind_ok in H. destruct H as (r1 & H1 & H).
    rewrite (IH _ _ H). eapply later_transpose; eassumption. }
  rewrite (K _ _ _ Hr). reflexivity.
Qed.

Lemma later_all_transpose l : forall c t p e, 1 <= rc_measureIndex c -> read_all c t l = Ok (p, e) -> pm_transposition p = t.
Proof.
  induction l as [|x l IH]; intros c t p e N H; cbn [read_all] in H; [injection H as <- <-; reflexivity | ].
  apply obind_ok in H. destruct H as ([[m tr] e1] & H1 & H). cbn [fst snd] in H. apply obind_ok in H. destruct H as ([p' e'] & H2 & H). injection H as <- <-. cbn [fst pm_transposition].
  apply later_measure in H1; [ | lia]. subst tr. apply IH in H2; [exact H2 | cbn; lia].
Qed.

Lemma last_said_cons x items : last_said (x :: items) = match last_said items with Some t => Some t | None => match says_transposition x with t :: _ => Some t | [] => None end end.
Proof.
  unfold last_said. cbn [flat_map]. rewrite rev_app_distr. destruct (rev (flat_map says_transposition items)) as [|t l]; [ | reflexivity]. cbn [app].
  destruct x as [n | d | d | d | h | p | b | | ]; try reflexivity. cbn [says_transposition]. destruct (p_transpose p); reflexivity.
Qed.

Lemma still_step c x next r r' : rc_measureIndex c = 0 -> takes_no_time x -> r_tick r = 0 -> parseMusicDataChoice c x next r = Ok r' ->
  r_tick r' = 0 /\ r_transpose r' = match says_transposition x with t :: _ => Some t | [] => r_transpose r end.
Proof.
  intros N F T H. destruct x as [n | d | d | d | h | p | b | | ]; try contradiction F; cbn [says_transposition];
    try (split; [ | apply (step_transpose _ _ _ _ _ H); exact I]; cbn [parseMusicDataChoice] in H).
  - unfold parseDirectionImpl in H. repeat (apply obind_ok in H; let v := fresh "v" in destruct H as (v & _ & H)). injection H as <-. exact T.
  - unfold parseDirectionImpl in H. repeat (apply obind_ok in H; let v := fresh "v" in destruct H as (v & _ & H)). injection H as <-. exact T.
  - cbn [parseMusicDataChoice] in H. unfold parseProperties in H. apply obind_ok in H. destruct H as (cur & _ & H). apply obind_ok in H. destruct H as (r3 & Hr & H).
    apply clefs_transpose in Hr. rewrite read_keys in Hr. cbn [r_transpose r_tick r_set_current r_at] in Hr. destruct Hr as [H1 H2]. injection H as <-. rewrite N, H2, T. cbn [Z.eqb andb].
    destruct (p_transpose p) as [|t l]; cbn [firstn]; [split; congruence | ]. split; [cbn; congruence | reflexivity].
  - injection H as <-. exact T.
  - injection H as <-. exact T.
  - injection H as <-. exact T.
Qed.

Lemma still_transpose c items f : rc_measureIndex c = 0 -> Forall takes_no_time items -> forall r r', r_tick r = 0 -> read_items c items f r = Ok r' ->
  r_tick r' = 0 /\ r_transpose r' = match last_said items with Some t => Some t | None => r_transpose r end.
Proof.
  intros N. induction 1 as [|x items F1 F2 IH]; intros r r' T H; cbn [read_items] in H; [injection H as <-; auto | ].
  apply obind_ok in H. destruct H as (r1 & H1 & H). destruct (still_step _ _ _ _ _ N F1 T H1) as [T1 E1]. destruct (IH _ _ T1 H) as [T2 E2]. split; [exact T2 | ].
  rewrite last_said_cons, E2. destruct (last_said items); [reflexivity | ]. rewrite E1. destruct (says_transposition x); reflexivity.
Qed.

(** The transposition is the last one said before any time has passed in the first measure, if
    none is said after that in it; what later measures say does not matter. *)
Theorem transposition_read g d x r p e a b : read_part_music g d (x :: r) = Ok (p, e) -> xm_data x = a ++ b -> Forall takes_no_time a -> flat_map says_transposition b = [] ->
  pm_transposition p = last_said a.
Proof.
  intros H E A B. unfold read_part_music in H. cbn [read_all] in H. set (c := mkRctx _ g _ 0 default_time) in H. assert (I0 : rc_measureIndex c = 0) by reflexivity. clearbody c.
  apply obind_ok in H. destruct H as ([[m tr] e1] & H1 & H). cbn [fst snd] in H. apply obind_ok in H. destruct H as ([p' e'] & H2 & H). injection H as <- <-. cbn [fst pm_transposition].
  apply later_all_transpose in H2; [ | cbn; lia]. rewrite H2.
  assert (X : tr = last_said a); [ | rewrite X; destruct (last_said a); reflexivity].
  unfold read_measure in H1. apply obind_ok in H1. destruct H1 as (ti & _ & R). apply obind_ok in R. destruct R as (rs & Hr & R).
  apply obind_ok in R. destruct R as (l & _ & R). injection R as _ <- _. rewrite E, read_items_app in Hr. apply obind_ok in Hr. destruct Hr as (r1 & R1 & R2).
  destruct (still_transpose c a _ I0 A (initial_rstate c) r1 eq_refl R1) as [_ T]. rewrite (items_transpose _ _ _ _ _ R2), T.
  - destruct (last_said a); reflexivity.
  - clear - B. induction b as [|x b IH]; [constructor | ]. cbn [flat_map] in B. apply app_eq_nil in B. destruct B as [B1 B2]. constructor; [ | exact (IH B2)].
    destruct x; try exact I. cbn in *. destruct (p_transpose p); [reflexivity | discriminate B1].
Qed.
