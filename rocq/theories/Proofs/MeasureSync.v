(** The reader follows the writer: each step of the writer adds elements that move the
    reader's cursor just as the writer's has moved. *)
From Coq Require Import QArith Qround Lqa.
From Verif Require Import Proofs.Tac.
From Verif Require Import Model.Base Model.Text Model.Strings Model.Ticks Model.LongDouble Model.Decimals Model.CoreEnums Model.ApiEnums
  Model.ConverterTables Model.MarkData Model.MeasureTypes Model.MeasureWriter Model.MeasureReader.
From Verif Require Import Spec.Numerals Spec.DecimalText Spec.Measures.
From Verif Require Import Proofs.StringsProofs Proofs.TicksProofs Proofs.DecimalsStore Proofs.DecimalsRange Proofs.TransposeProofs.
Import ListNotations.
Open Scope Z_scope.

(** * The values of elements *)

Lemma new_digits : digits_ok (mkPrecise false 0 0 (clamp_digits 19) (clamp_digits 6)).
Proof. split; reflexivity. Qed.

Lemma element_integer t n : documented t (inject_Z n) -> Z.abs n < 10 ^ 12 ->
  exists q, element_value t n = Ok q /\ (q == inject_Z n)%Q.
Proof.
  intros D H. unfold element_value, construct, new_precise. rewrite (clamp_id t _ D).
  destruct (set_integer _ n new_digits H) as (r & R1 & R2 & R3). rewrite R1. cbn [omap obind].
  eexists. split; [reflexivity | ]. apply getValue_integer; assumption.
Qed.

Lemma element_zero : exists q, element_value PositiveDivisionsValue 0 = Ok q /\ (0 < q)%Q /\ round_half q = 0.
Proof.
  set (o := element_value PositiveDivisionsValue 0). vm_compute in o. unfold o. eexists. split; [reflexivity | ].
  split; vm_compute; reflexivity.
Qed.

Lemma positive_value n : 0 <= n <= 2147483647 ->
  exists q, element_value PositiveDivisionsValue n = Ok q /\ (0 < q)%Q /\ round_half q = n.
Proof.
  intros H. destruct (Z.eq_dec n 0) as [-> | N]; [apply element_zero | ].
  destruct (element_integer PositiveDivisionsValue n) as (q & Q1 & Q2).
  - cbn. rewrite <- (Zlt_Qlt 0). lia.
  - lia.
  - exists q. split; [exact Q1 | ]. split; [rewrite Q2, <- (Zlt_Qlt 0); lia | ]. rewrite (round_half_ext _ _ Q2). apply round_half_Z.
Qed.

Lemma offset_value n : Z.abs n < 10 ^ 12 -> exists q, element_value DivisionsValue n = Ok q /\ round_half q = n.
Proof.
  intros H. destruct (element_integer DivisionsValue n) as (q & Q1 & Q2); [exact I | exact H | ].
  exists q. split; [exact Q1 | ]. rewrite (round_half_ext _ _ Q2). apply round_half_Z.
Qed.

(** * What reading does, as events *)

Inductive event :=
| EBackup
| ENote (i : nat) (n : NoteData)
| EDir (i : nat) (d : DirectionData)
| EClef (i : nat) (c : ClefData)
| EKey (k : KeyData)
| EBar (b : BarlineData).

Fixpoint upd {A} (i : nat) (f : A -> A) (l : list A) : list A :=
  match i, l with
  | O, x :: r => f x :: r
  | S j, x :: r => x :: upd j f r
  | _, [] => []
  end.

Definition apply_event (p : Z * list StaffData) (e : event) : Z * list StaffData :=
  match e with
  | EBackup => (fst p + 1, snd p)
  | ENote i n => (fst p, upd i (add_note (fst p) n) (snd p))
  | EDir i d => (fst p, upd i (add_direction d) (snd p))
  | EClef i c => (fst p, upd i (add_clef c) (snd p))
  | EKey _ | EBar _ => p
  end.

Definition keys_of (l : list event) : list KeyData := flat_map (fun e => match e with EKey k => [k] | _ => [] end) l.
Definition bars_of (l : list event) : list BarlineData := flat_map (fun e => match e with EBar b => [b] | _ => [] end) l.
Definition clefs_of (l : list event) : list (nat * ClefData) := flat_map (fun e => match e with EClef i c => [(i, c)] | _ => [] end) l.
Definition dirs_of (l : list event) : list (nat * DirectionData) := flat_map (fun e => match e with EDir i d => [(i, d)] | _ => [] end) l.
(** Notes with their staff; [None] is a backup. *)
Definition line_of (l : list event) : list (option (nat * NoteData)) :=
  flat_map (fun e => match e with EBackup => [None] | ENote i n => [Some (i, n)] | _ => [] end) l.
Definition backups_of {A} (l : list (option A)) : Z := Z.of_nat (List.length (filter (fun o => match o with None => true | _ => false end) l)).
Definition backups (l : list event) : Z := backups_of (line_of l).

Lemma backups_app a b : backups (a ++ b) = backups a + backups b.
Proof. unfold backups, backups_of, line_of. rewrite flat_map_app, filter_app, app_length. lia. Qed.

Lemma backups_nonneg l : 0 <= backups l.
Proof. unfold backups, backups_of. lia. Qed.

Lemma update_nth_upd {A} (f : A -> A) i l : (i < List.length l)%nat -> update_nth i f l = Some (upd i f l).
Proof.
  revert l. induction i as [|i IH]; intros [|x l] H; cbn [List.length update_nth upd] in *; try lia; [reflexivity | ].
  rewrite IH by lia. reflexivity.
Qed.

Lemma upd_length {A} (f : A -> A) i l : List.length (upd i f l) = List.length l.
Proof. revert l. induction i as [|i IH]; intros [|x l]; cbn; auto. Qed.

Lemma update_staff_upd f i l : 0 <= i < Z.of_nat (List.length l) -> update_staff i f l = Ok (upd (Z.to_nat i) f l).
Proof.
  intros H. unfold update_staff. destruct (i <? 0) eqn:E; [lia | ]. rewrite update_nth_upd by lia. reflexivity.
Qed.

Record after (evs : list event) (r r' : rstate) : Prop := {
  after_staves : fold_left apply_event evs (r_voice r, r_staves r) = (r_voice r', r_staves r');
  after_keys : r_keys r' = r_keys r ++ keys_of evs;
  after_bars : r_barlines r' = r_barlines r ++ bars_of evs
}.

Lemma after_nil r r' : r_voice r' = r_voice r -> r_staves r' = r_staves r -> r_keys r' = r_keys r ->
  r_barlines r' = r_barlines r -> after [] r r'.
Proof. intros A B C D. split; cbn; rewrite ?app_nil_r; congruence. Qed.

Lemma after_app e1 e2 r r1 r2 : after e1 r r1 -> after e2 r1 r2 -> after (e1 ++ e2) r r2.
Proof.
  intros [A1 A2 A3] [B1 B2 B3]. split.
  - rewrite fold_left_app, A1. exact B1.
  - unfold keys_of. rewrite flat_map_app, app_assoc, B2, A2. reflexivity.
  - unfold bars_of. rewrite flat_map_app, app_assoc, B3, A3. reflexivity.
Qed.

Lemma apply_length evs p : List.length (snd (fold_left apply_event evs p)) = List.length (snd p).
Proof.
  revert p. induction evs as [|e l IH]; intros p; [reflexivity | ]. cbn [fold_left]. rewrite IH.
  destruct e; cbn [apply_event snd]; rewrite ?upd_length; reflexivity.
Qed.

Lemma after_length evs r r' : after evs r r' -> List.length (r_staves r') = List.length (r_staves r).
Proof. intros [A _ _]. pose proof (apply_length evs (r_voice r, r_staves r)) as E. rewrite A in E. exact E. Qed.

(** * Lists of elements *)

Lemma next_chord_app a b f : next_chord (a ++ b) f = next_chord a (next_chord b f).
Proof. induction a as [|x a IH]; [reflexivity | ]. destruct x; cbn [app next_chord]; auto. Qed.

(** The elements that take time. *)
Definition is_timed (x : music_data) : bool := match x with MNote _ | MBackup _ | MForward _ => true | _ => false end.
Definition skeleton (l : list music_data) : list music_data := filter is_timed l.

Lemma skeleton_app a b : skeleton (a ++ b) = skeleton a ++ skeleton b.
Proof. apply filter_app. Qed.

Lemma skeleton_next l : skeleton l = [] -> forall f, next_chord l f = f.
Proof.
  induction l as [|x l IH]; intros H f; [reflexivity | ]. destruct x; cbn in H; try discriminate H; cbn [next_chord]; apply IH; exact H.
Qed.

Lemma read_app rc a b f r : read_items rc (a ++ b) f r = obind (read_items rc a (next_chord b f) r) (read_items rc b f).
Proof.
  revert r. induction a as [|x a IH]; intros r; [reflexivity | ].
  cbn [app read_items]. rewrite next_chord_app. destruct (parseMusicDataChoice rc x _ r) as [r1 | | ]; cbn [obind]; [apply IH | reflexivity | reflexivity].
Qed.

Lemma then_ok (a b : W) s i1 s1 i2 s2 : a s = Ok (i1, s1) -> b s1 = Ok (i2, s2) -> (w_then a b) s = Ok (i1 ++ i2, s2).
Proof. intros A B. unfold w_then. rewrite A. cbn [obind fst snd]. rewrite B. reflexivity. Qed.

Section Sync.

Variables (wc : wctx) (rc : rctx).
Let N : Z := Z.of_nat (rc_numStaves rc).
Let g : Z := rc_global rc.
Hypothesis Hstaves : wc_numStaves wc = N.
Hypothesis HN : 1 <= N <= 2147483647.
Hypothesis Hticks : wc_ticksPerQuarter wc = g.
Hypothesis Hg : 1 <= g <= 2147483647.

Definition clef_number_ok (k : xclef) : Prop := match xc_number k with None => True | Some n => 1 <= n <= N end.

Record good (s : wstate) : Prop := {
  good_tick : 0 <= w_tick s <= 1073741823;
  good_clefs : Forall clef_number_ok (p_clefs (w_props s));
  good_divisions : forall d, p_divisions (w_props s) = Some d -> round_half d = g
}.

Definition on_staff (s : wstate) : Prop := 0 <= w_staff s < N.

Definition synced (s : wstate) (r : rstate) : Prop :=
  r_tick r = w_tick s /\ Z.of_nat (List.length (r_staves r)) = N /\
  (r_current r = g \/ exists d, p_divisions (w_props s) = Some d).

(** Elements without notes. *)
Definition quiet (items : list music_data) (s s' : wstate) (evs : list event) : Prop :=
  skeleton items = [] /\ line_of evs = [] /\
  forall f r, synced s r ->
    exists r', read_items rc items f r = Ok r' /\ synced s' r' /\ after evs r r' /\ (r_backup r = false -> r_backup r' = false).

Lemma quiet_next items s s' evs : quiet items s s' evs -> forall f, next_chord items f = f.
Proof. intros (H & _). apply skeleton_next. exact H. Qed.

(** Elements with notes, the first of which has no <chord/>, followed by a note without
    or by none. *)
Definition loud (items : list music_data) (s s' : wstate) (evs : list event) : Prop :=
  next_chord items false = false /\
  forall r, synced s r -> r_backup r = false -> r_voice r + backups evs <= 2147483647 -> 0 <= r_voice r ->
    exists r', read_items rc items false r = Ok r' /\ synced s' r' /\ after evs r r' /\ r_backup r' = false.

Lemma quiet_nil s s' : w_tick s' = w_tick s -> p_divisions (w_props s') = p_divisions (w_props s) -> quiet [] s s' [].
Proof.
  intros A B. split; [reflexivity | ]. split; [reflexivity | ]. intros f r (S1 & S2 & S3). exists r. split; [reflexivity | ].
  split; [ | split; [apply after_nil; reflexivity | auto]]. unfold synced. rewrite A, B. auto.
Qed.

Lemma quiet_app i1 i2 s s1 s2 e1 e2 : quiet i1 s s1 e1 -> quiet i2 s1 s2 e2 -> quiet (i1 ++ i2) s s2 (e1 ++ e2).
Proof.
  intros Ha Hb. pose proof (quiet_next _ _ _ _ Hb) as B0. destruct Ha as (A1 & A2 & A3). destruct Hb as (B1 & B2 & B3). split; [ | split].
  - rewrite skeleton_app, A1, B1. reflexivity.
  - unfold line_of in *. rewrite flat_map_app, A2, B2. reflexivity.
  - intros f r Hs. destruct (A3 f r Hs) as (r1 & R1 & R2 & R3 & R4). destruct (B3 f r1 R2) as (r2 & Q1 & Q2 & Q3 & Q4).
    exists r2. rewrite read_app, B0, R1. cbn [obind]. split; [exact Q1 | ]. split; [exact Q2 | ]. split; [ | auto].
    eapply after_app; eassumption.
Qed.

Lemma fold_voice evs p : fst (fold_left apply_event evs p) = fst p + backups evs.
Proof.
  revert p. induction evs as [|e l IH]; intros p; [unfold backups; cbn; lia | ].
  cbn [fold_left]. rewrite IH. change (e :: l) with ([e] ++ l). rewrite backups_app.
  assert (fst (apply_event p e) = fst p + backups [e]) as -> by (destruct e; unfold backups; cbn; lia). lia.
Qed.

Lemma after_voice evs r r' : after evs r r' -> r_voice r' = r_voice r + backups evs.
Proof. intros [A _ _]. pose proof (fold_voice evs (r_voice r, r_staves r)) as E. rewrite A in E. exact E. Qed.

Lemma quiet_loud i s s' e : quiet i s s' e -> loud i s s' e.
Proof.
  intros Ha. split; [apply (quiet_next _ _ _ _ Ha) | ]. destruct Ha as (A1 & A2 & A3). intros r Hs Hb _ _. destruct (A3 false r Hs) as (r' & R1 & R2 & R3 & R4).
  exists r'. auto.
Qed.

Lemma loud_app i1 i2 s s1 s2 e1 e2 : loud i1 s s1 e1 -> loud i2 s1 s2 e2 -> loud (i1 ++ i2) s s2 (e1 ++ e2).
Proof.
  intros (A1 & A3) (B1 & B3). split.
  - rewrite next_chord_app, B1. exact A1.
  - intros r Hs Hb Hv H0. rewrite backups_app in Hv. pose proof (backups_nonneg e1). pose proof (backups_nonneg e2).
    destruct (A3 r Hs Hb) as (r1 & R1 & R2 & R3 & R4); [lia | exact H0 | ].
    pose proof (after_voice _ _ _ R3).
    destruct (B3 r1 R2 R4) as (r2 & Q1 & Q2 & Q3 & Q4); [lia | lia | ].
    exists r2. rewrite read_app, B1, R1. cbn [obind]. split; [exact Q1 | ]. split; [exact Q2 | ]. split; [ | auto].
    eapply after_app; eassumption.
Qed.

(** * Attributes *)

(** The clefs and keys that wait to be written, as they will be read. *)
Definition read_clef (t : Z) (k : xclef) : nat * ClefData :=
  (match xc_number k with Some n => Z.to_nat (n - 1) | None => 0%nat end, mkClef t (xc_rest k)).
Definition pending_clefs (s : wstate) : list (nat * ClefData) := map (read_clef (w_tick s)) (p_clefs (w_props s)).
Definition pending_keys (s : wstate) : list KeyData := map (parseKey rc (w_tick s)) (p_keys (w_props s)).

Definition props_events (s : wstate) : list event :=
  map EKey (pending_keys s) ++ map (fun p => EClef (fst p) (snd p)) (pending_clefs s).

Lemma read_keys l r : fold_left (fun r k => r_add_key (parseKey rc (r_tick r) k) r) l r =
  mkR (r_current r) (r_tick r) (r_voice r) (r_backup r) (r_staves r) (r_keys r ++ map (parseKey rc (r_tick r)) l) (r_barlines r) (r_transpose r).
Proof.
  revert r. induction l as [|k l IH]; intros r; cbn [fold_left map].
  - rewrite app_nil_r. destruct r; reflexivity.
  - rewrite IH. unfold r_add_key. cbn [r_current r_tick r_voice r_backup r_staves r_keys r_barlines r_transpose].
    rewrite <- app_assoc. reflexivity.
Qed.

Lemma read_clefs l r : Forall clef_number_ok l -> Z.of_nat (List.length (r_staves r)) = N ->
  importClefs l r = Ok (r_set_staves (snd (fold_left apply_event (map (fun p => EClef (fst p) (snd p)) (map (read_clef (r_tick r)) l)) (r_voice r, r_staves r))) r).
Proof.
  intros H. revert r. induction H as [|k l Hk Hl IH]; intros r Hr; cbn [importClefs map fold_left].
  - cbn. destruct r; reflexivity.
  - unfold importClef, clef_number_ok in *. rewrite update_staff_upd; [ | rewrite Hr; destruct (xc_number k); lia].
    cbn [obind]. rewrite IH; [ | cbn; rewrite upd_length; exact Hr]. f_equal.
    cbn [r_tick r_set_staves r_voice r_staves apply_event read_clef fst snd].
    destruct (xc_number k); reflexivity.
Qed.

Lemma clef_events_of l : clefs_of (map (fun p => EClef (fst p) (snd p)) l) = l /\
  keys_of (map (fun p => EClef (fst p) (snd p)) l) = [] /\ line_of (map (fun p => EClef (fst p) (snd p)) l) = [] /\
  dirs_of (map (fun p => EClef (fst p) (snd p)) l) = [] /\ bars_of (map (fun p => EClef (fst p) (snd p)) l) = [].
Proof.
  unfold clefs_of, keys_of, line_of, dirs_of, bars_of.
  induction l as [|[i c] l (A & B & C & D & E)]; cbn [map flat_map fst snd app] in *; [auto | ]. rewrite A, B, C, D, E. auto.
Qed.

Lemma key_events_of l : clefs_of (map EKey l) = [] /\ keys_of (map EKey l) = l /\ line_of (map EKey l) = [] /\
  dirs_of (map EKey l) = [] /\ bars_of (map EKey l) = [].
Proof.
  unfold clefs_of, keys_of, line_of, dirs_of, bars_of.
  induction l as [|k l (A & B & C & D & E)]; cbn [map flat_map fst snd app] in *; [auto 6 | ]. rewrite A, B, C, D, E. auto 6.
Qed.

Lemma props_events_of s : clefs_of (props_events s) = pending_clefs s /\ keys_of (props_events s) = pending_keys s /\
  line_of (props_events s) = [] /\ dirs_of (props_events s) = [] /\ bars_of (props_events s) = [].
Proof.
  unfold props_events. destruct (clef_events_of (pending_clefs s)) as (A & B & C & D & E).
  destruct (key_events_of (pending_keys s)) as (A' & B' & C' & D' & E').
  unfold clefs_of, keys_of, line_of, dirs_of, bars_of in *. rewrite !flat_map_app, A, B, C, D, E, A', B', C', D', E'.
  rewrite app_nil_r. auto.
Qed.

Lemma fold_keys l p : fold_left apply_event (map EKey l) p = p.
Proof. revert p. induction l as [|k l IH]; intros p; [reflexivity | apply IH]. Qed.

Lemma fold_voice_clefs l p : fst (fold_left apply_event (map (fun q => EClef (fst q) (snd q)) l) p) = fst p.
Proof. rewrite fold_voice. unfold backups. destruct (clef_events_of l) as (_ & _ & -> & _). cbn. lia. Qed.

Lemma empty_props_eq p : isPropertiesEmpty p = true -> p = empty_props.
Proof.
  destruct p as [[d|] [|? ?] [|? ?] [n|] [|? ?] [|? ?]]; cbn; intros H; try discriminate H. reflexivity.
Qed.

Definition flushed (s : wstate) : wstate := set_props empty_props s.

Lemma flush_ok s : good s -> exists items, flushBuffer s = Ok (items, flushed s) /\ quiet items s (flushed s) (props_events s).
Proof.
  intros [G1 G3 G4]. unfold flushBuffer. destruct (isPropertiesEmpty (w_props s)) eqn:E.
  - apply empty_props_eq in E. exists []. split; [reflexivity | ].
    assert (props_events s = []) as -> by (unfold props_events, pending_keys, pending_clefs; rewrite E; reflexivity).
    apply quiet_nil; [reflexivity | cbn; rewrite E; reflexivity].
  - exists [MProperties (w_props s)]. split; [reflexivity | ]. split; [reflexivity | ].
    split; [apply props_events_of | ]. intros f r (S1 & S2 & S3).
    cbn [read_items parseMusicDataChoice]. unfold parseProperties.
    assert (exists cur, match p_divisions (w_props s) with None => Ok (r_current r) | Some d => as_int (round_half d) end = Ok cur /\ cur = g) as (cur & -> & ->).
    { destruct (p_divisions (w_props s)) as [d|] eqn:D.
      - rewrite (G4 d eq_refl), as_int_ok by lia. eauto.
      - destruct S3 as [S3 | [d S3]]; [ | discriminate S3]. eauto. }
    cbn [obind]. rewrite read_keys. cbn [r_set_current r_at r_current r_tick r_voice r_backup r_staves r_keys r_barlines r_transpose].
    rewrite read_clefs by (cbn; assumption). cbn [obind].
    match goal with |- exists r', Ok ?x = Ok r' /\ _ => set (r' := x) end.
    assert (R : forall P : rstate -> Prop, (forall t, P (mkR g (r_tick r) (r_voice r) false
       (snd (fold_left apply_event (map (fun p => EClef (fst p) (snd p)) (map (read_clef (r_tick r)) (p_clefs (w_props s)))) (r_voice r, r_staves r)))
       (r_keys r ++ map (parseKey rc (r_tick r)) (p_keys (w_props s))) (r_barlines r) t)) -> P r').
    { intros P HP. unfold r'. destruct (p_transpose (w_props s)) as [|t l]; [ | destruct (_ && _)]; apply HP. }
    clearbody r'. exists r'. split; [reflexivity | ].
    pattern r'. apply R. clear R r'. intros t.
    assert (A : after (props_events s) r (mkR g (r_tick r) (r_voice r) false
       (snd (fold_left apply_event (map (fun p => EClef (fst p) (snd p)) (map (read_clef (r_tick r)) (p_clefs (w_props s)))) (r_voice r, r_staves r)))
       (r_keys r ++ map (parseKey rc (r_tick r)) (p_keys (w_props s))) (r_barlines r) t)).
    { destruct (props_events_of s) as (_ & K & _ & _ & B). split; cbn [r_voice r_staves r_keys r_barlines].
      - unfold props_events. rewrite fold_left_app, fold_keys. unfold pending_clefs. rewrite <- S1.
        rewrite (surjective_pairing (fold_left _ _ _)), fold_voice_clefs. reflexivity.
      - rewrite K. unfold pending_keys. rewrite S1. reflexivity.
      - rewrite B, app_nil_r. reflexivity. }
    split; [ | split; [exact A | auto]].
    split; [cbn; exact S1 | ]. split; [rewrite (after_length _ _ _ A); exact S2 | ]. left. reflexivity.
Qed.

(** * Directions *)

Definition direction_ok (d : DirectionData) : Prop :=
  0 <= d_tick d <= 2147483647 /\ Forall (fun t => t_bpm t = true) (d_tempos d).

(** What the direction-types are if no tempo is of another kind. *)
Definition types_of (d : DirectionData) : list direction_type :=
  flat_map mark_types (d_marks d) ++ map DtWedgeStop (d_wedgeStops d) ++ map DtWedgeStart (d_wedgeStarts d) ++
  map DtOttavaStop (d_ottavaStops d) ++ map DtOttavaStart (d_ottavaStarts d) ++ map DtBracketStart (d_bracketStarts d) ++
  map (fun t => DtMetronome (t_rest t)) (d_tempos d) ++ match d_words d with [] => [] | w => [DtWords w] end.

Lemma direction_types_ok d : direction_ok d -> direction_types d = Ok (types_of d).
Proof.
  intros (_ & H). unfold direction_types, types_of.
  assert (tempo_types (d_tempos d) = Ok (map (fun t => DtMetronome (t_rest t)) (d_tempos d))) as ->.
  { induction H as [|t l Ht Hl IH]; [reflexivity | ]. unfold tempo_types in *. cbn [fold_right map]. rewrite IH. cbn [obind]. rewrite Ht. reflexivity. }
  reflexivity.
Qed.

(** A direction as it is read back from staff i. *)
Definition heard_types (i : Z) (d : DirectionData) : list (nat * DirectionData) :=
  match types_of d with
  | [] => []
  | l => [(Z.to_nat i, fold_left parseDirectionType l (empty_direction (d_tick d) (d_staffSpecified d || negb (i =? 0))))]
  end.

Definition heard_chords (i : Z) (d : DirectionData) : list (nat * DirectionData) :=
  match d_chords d with
  | [] => []
  | l => [((if d_staffSpecified d then Z.to_nat i else 0%nat), set_chords l (empty_direction (d_tick d) (d_staffSpecified d)))]
  end.

Definition heard_direction (i : Z) (d : DirectionData) : list (nat * DirectionData) := heard_types i d ++ heard_chords i d.

Definition dir_events (l : list (nat * DirectionData)) : list event := map (fun p => EDir (fst p) (snd p)) l.

Lemma dir_events_of l : clefs_of (dir_events l) = [] /\ keys_of (dir_events l) = [] /\ line_of (dir_events l) = [] /\
  dirs_of (dir_events l) = l /\ bars_of (dir_events l) = [].
Proof.
  unfold clefs_of, keys_of, line_of, dirs_of, bars_of, dir_events.
  induction l as [|[i d] l (A & B & C & D & E)]; cbn [map flat_map fst snd app] in *; [auto 6 | ]. rewrite A, B, C, D, E. auto 6.
Qed.

Lemma parse_direction_ok s r off staff f d i sp : synced s r -> w_props s = empty_props -> good s ->
  (match off with None => d_tick d = w_tick s | Some q => round_half q = d_tick d - w_tick s end) -> 0 <= d_tick d <= 2147483647 ->
  (match staff with None => i = 0%nat /\ sp = false | Some k => 1 <= k <= N /\ i = Z.to_nat (k - 1) /\ sp = true end) ->
  exists r', parseDirectionImpl off staff f r = Ok r' /\ synced s r' /\ after [EDir i (f (empty_direction (d_tick d) sp))] r r' /\ r_backup r' = false.
Proof.
  intros (S1 & S2 & S3) P [G1 _ _] Ho Hd Hi. unfold parseDirectionImpl.
  assert (direction_tick off (r_tick r) = Ok (d_tick d)) as ->.
  { unfold direction_tick. rewrite S1. destruct off as [q|]; [ | congruence]. rewrite Ho, as_int_ok by lia. cbn [obind].
    rewrite as_int_ok by lia. f_equal. lia. }
  cbn [obind].
  set (sane := (0 <=? match staff with Some k => k - 1 | None => 0 end) && (match staff with Some k => k - 1 | None => 0 end <? Z.of_nat (List.length (r_staves r)))).
  assert (E : sane = true) by (unfold sane; rewrite S2; destruct staff; [apply andb_true_iff; split; lia | cbn; lia]).
  rewrite E. assert (Hsp : match staff with Some _ => true | None => false end = sp) by (destruct staff; destruct Hi as [? Hi]; [symmetry; apply Hi | auto]).
  rewrite Hsp.
  assert (Hidx : (if sp then match staff with Some k => k - 1 | None => 0 end else 0) = Z.of_nat i).
  { destruct staff as [k|]; [destruct Hi as (A & -> & ->); lia | destruct Hi as [-> ->]; reflexivity]. }
  rewrite Hidx, update_staff_upd; [ | rewrite S2; destruct staff; destruct Hi; lia].
  cbn [obind]. rewrite Nat2Z.id. eexists. split; [reflexivity | ].
  assert (A : after [EDir i (f (empty_direction (d_tick d) sp))] r
     (r_set_staves (upd i (add_direction (f (empty_direction (d_tick d) sp))) (r_staves r)) (r_at (r_tick r) (r_voice r) false r))).
  { split; cbn; rewrite ?app_nil_r; reflexivity. }
  split; [ | split; [exact A | reflexivity]].
  split; [cbn; exact S1 | ]. split; [rewrite (after_length _ _ _ A); exact S2 | exact S3].
Qed.

Lemma direction_ok_elements s d : good s -> on_staff s -> w_props s = empty_props -> direction_ok d ->
  exists items, direction_elements d s = Ok items /\ quiet items s s (dir_events (heard_direction (w_staff s) d)).
Proof.
  intros G G2 P Hd. pose proof G as [G1 _ _]. unfold on_staff in G2. pose proof (proj1 Hd) as Ht. unfold direction_elements.
  rewrite as_int_ok by lia. cbn [obind].
  assert (exists off, (if d_tick d - w_tick s =? 0 then Ok None else omap Some (element_value DivisionsValue (d_tick d - w_tick s))) = Ok off /\
    match off with None => d_tick d = w_tick s | Some q => round_half q = d_tick d - w_tick s end) as (off & -> & Hoff).
  { destruct (d_tick d - w_tick s =? 0) eqn:E; [exists None; split; [reflexivity | lia] | ].
    destruct (offset_value (d_tick d - w_tick s)) as (q & Q1 & Q2); [lia | ]. rewrite Q1. exists (Some q). auto. }
  cbn [obind]. rewrite (direction_types_ok d Hd). cbn [obind]. eexists. split; [reflexivity | ].
  unfold heard_direction, dir_events. rewrite map_app. apply quiet_app with (s1 := s).
  - unfold heard_types. destruct (types_of d) as [|t l] eqn:T; [apply quiet_nil; reflexivity | ].
    split; [reflexivity | ]. split; [reflexivity | ]. intros f r Hs.
    destruct (parse_direction_ok s r off (if d_staffSpecified d || negb (w_staff s =? 0) then Some (w_staff s + 1) else None)
      (fold_left parseDirectionType (t :: l)) d (Z.to_nat (w_staff s)) (d_staffSpecified d || negb (w_staff s =? 0)) Hs P G Hoff Ht) as (r' & R1 & R2 & R3 & R4).
    { destruct (d_staffSpecified d || negb (w_staff s =? 0)) eqn:E; [split; [lia | ]; split; [f_equal; lia | reflexivity] | ].
      bool_hyps. split; [lia | reflexivity]. }
    exists r'. cbn [read_items parseMusicDataChoice xd_offset xd_staff xd_types]. rewrite R1. cbn [obind]. auto.
  - unfold heard_chords. destruct (d_chords d) as [|t l] eqn:T; [apply quiet_nil; reflexivity | ].
    split; [reflexivity | ]. split; [reflexivity | ]. intros f r Hs.
    destruct (parse_direction_ok s r off (if d_staffSpecified d then Some (w_staff s + 1) else None)
      (set_chords (t :: l)) d (if d_staffSpecified d then Z.to_nat (w_staff s) else 0%nat) (d_staffSpecified d) Hs P G Hoff Ht) as (r' & R1 & R2 & R3 & R4).
    { destruct (d_staffSpecified d); [split; [lia | ]; split; [f_equal; lia | reflexivity] | auto]. }
    exists r'. cbn [read_items parseMusicDataChoice xh_offset xh_staff xh_chords]. rewrite R1. cbn [obind]. auto.
Qed.

(** Steps that leave the cursor where it is. *)
Record still (s s' : wstate) : Prop := {
  st_tick : w_tick s' = w_tick s;
  st_staff : w_staff s' = w_staff s;
  st_voice : w_voice s' = w_voice s;
  st_chord : w_chord s' = w_chord s;
  st_previous : w_previousChord s' = w_previousChord s;
  st_measureKeys : w_measureKeys s' = w_measureKeys s;
  st_clefs : w_clefs s' = w_clefs s;
  st_staffKeys : w_staffKeys s' = w_staffKeys s
}.

Lemma still_refl s : still s s.
Proof. split; reflexivity. Qed.

Lemma still_trans a b c : still a b -> still b c -> still a c.
Proof. intros [] []. split; congruence. Qed.

Lemma good_flushed s : good s -> good (flushed s).
Proof. intros [A _ _]. split; [exact A | constructor | ]. intros d H. discriminate H. Qed.

(** The events of a step between s and s': what was waiting, and what was added. *)
Record told (evs : list event) (s s' : wstate) (dirs : list (nat * DirectionData)) (clefs : list (nat * ClefData)) (keys : list KeyData) : Prop := {
  told_dirs : dirs_of evs = dirs;
  told_clefs : clefs_of evs ++ pending_clefs s' = pending_clefs s ++ clefs;
  told_keys : keys_of evs ++ pending_keys s' = pending_keys s ++ keys;
  told_bars : bars_of evs = []
}.

Lemma told_app e1 e2 s s1 s2 d1 d2 c1 c2 k1 k2 : told e1 s s1 d1 c1 k1 -> told e2 s1 s2 d2 c2 k2 ->
  told (e1 ++ e2) s s2 (d1 ++ d2) (c1 ++ c2) (k1 ++ k2).
Proof.
  intros [A1 A2 A3 A4] [B1 B2 B3 B4]. unfold dirs_of, clefs_of, keys_of, bars_of in *. split; unfold dirs_of, clefs_of, keys_of, bars_of; rewrite flat_map_app.
  - congruence.
  - rewrite <- app_assoc, B2, app_assoc, A2, <- app_assoc. reflexivity.
  - rewrite <- app_assoc, B3, app_assoc, A3, <- app_assoc. reflexivity.
  - rewrite A4, B4. reflexivity.
Qed.

Lemma told_nil s s' : w_tick s' = w_tick s -> p_clefs (w_props s') = p_clefs (w_props s) -> p_keys (w_props s') = p_keys (w_props s) ->
  told [] s s' [] [] [].
Proof.
  intros A B C. split; cbn; rewrite ?app_nil_r; try reflexivity; unfold pending_clefs, pending_keys; rewrite A, ?B, ?C; reflexivity.
Qed.

Lemma told_flush s : told (props_events s) s (flushed s) [] [] [].
Proof.
  destruct (props_events_of s) as (A & B & _ & C & D). split; auto; rewrite ?A, ?B; cbn; rewrite ?app_nil_r; reflexivity.
Qed.

Lemma told_dir_events l s : told (dir_events l) s s l [] [].
Proof. destruct (dir_events_of l) as (A & B & _ & C & D). split; auto; rewrite ?A, ?B; cbn; rewrite ?app_nil_r; reflexivity. Qed.

Lemma writeDirection_ok d s : good s -> on_staff s -> direction_ok d ->
  exists items evs, writeDirection d s = Ok (items, flushed s) /\ quiet items s (flushed s) evs /\
    told evs s (flushed s) (heard_direction (w_staff s) d) [] [].
Proof.
  intros G O Hd. destruct (flush_ok s G) as (i1 & F1 & F2).
  destruct (direction_ok_elements (flushed s) d (good_flushed s G) O eq_refl Hd) as (i2 & D1 & D2).
  exists (i1 ++ i2), (props_events s ++ dir_events (heard_direction (w_staff s) d)). split; [ | split].
  - unfold writeDirection. eapply then_ok; [exact F1 | ]. rewrite D1. reflexivity.
  - eapply quiet_app; [exact F2 | exact D2].
  - apply (told_app _ _ s (flushed s) (flushed s) [] _ [] [] [] []); [apply told_flush | apply told_dir_events].
Qed.

Lemma write_directions_while_ok p ds s : good s -> on_staff s -> Forall direction_ok ds -> w_directions s = ds ->
  exists items evs s' pre, write_directions_while p ds s = Ok (items, s') /\ quiet items s s' evs /\ still s s' /\ good s' /\
    ds = pre ++ w_directions s' /\ told evs s s' (flat_map (heard_direction (w_staff s)) pre) [] [] /\
    ((forall d, p d = true) -> w_directions s' = []) /\ (w_props s = empty_props -> w_props s' = empty_props).
Proof.
  intros G O H. revert s G O. induction H as [|d ds Hd Hds IH]; intros s G O E; cbn [write_directions_while].
  - exists [], [], s, []. repeat split; auto; try (apply quiet_nil; reflexivity); try reflexivity; try (apply still_refl); try apply G;
      cbn; rewrite ?app_nil_r; auto.
  - destruct (p d) eqn:Pd.
    + destruct (writeDirection_ok d s G O Hd) as (i1 & e1 & W1 & W2 & W3).
      set (s1 := set_directions ds (flushed s)).
      assert (G1 : good s1) by (destruct (good_flushed s G); split; assumption).
      destruct (IH s1 G1 O eq_refl) as (i2 & e2 & s2 & pre & X1 & X2 & X3 & X4 & X5 & X6 & X7 & X8).
      exists (i1 ++ [] ++ i2), (e1 ++ [] ++ e2), s2, (d :: pre). split; [ | split; [ | split; [ | split; [exact X4 | split; [ | split; [ | split]]]]]].
      * eapply then_ok; [exact W1 | ]. eapply then_ok; [reflexivity | exact X1].
      * eapply quiet_app; [exact W2 | ]. eapply quiet_app; [apply quiet_nil; reflexivity | exact X2].
      * eapply still_trans; [ | exact X3]. split; reflexivity.
      * cbn [app]. f_equal. exact X5.
      * cbn [flat_map]. apply (told_app _ _ s (flushed s) s2 _ _ [] [] [] [] W3).
        apply (told_app [] _ (flushed s) s1 s2 [] _ [] [] [] []); [apply told_nil; reflexivity | exact X6].
      * exact X7.
      * intros _. apply X8. reflexivity.
    + exists [], [], s, []. split; [reflexivity | ]. split; [apply quiet_nil; reflexivity | ]. split; [apply still_refl | ]. split; [exact G | ].
      split; [symmetry; exact E | ]. split; [apply told_nil; reflexivity | ]. split; [ | auto]. intros A. rewrite A in Pd. discriminate Pd.
Qed.

Definition position_ok (pos : note_position) : Prop :=
  match pos with NotesEnd => True | AtNote _ n _ => n_dur n <= 1073741823 end.

Lemma writeDirections_ok pos s : good s -> on_staff s -> Forall direction_ok (w_directions s) -> position_ok pos ->
  exists items evs s' pre, writeDirections pos s = Ok (items, s') /\ quiet items s s' evs /\ still s s' /\ good s' /\
    w_directions s = pre ++ w_directions s' /\ told evs s s' (flat_map (heard_direction (w_staff s)) pre) [] [] /\
    (pos = NotesEnd -> w_directions s' = []) /\ (w_props s = empty_props -> w_props s' = empty_props).
Proof.
  intros G O H Hp.
  assert (K : forall p, exists items evs s' pre, write_directions_while p (w_directions s) s = Ok (items, s') /\ quiet items s s' evs /\ still s s' /\ good s' /\
    w_directions s = pre ++ w_directions s' /\ told evs s s' (flat_map (heard_direction (w_staff s)) pre) [] [] /\
    ((forall d, p d = true) -> w_directions s' = []) /\ (w_props s = empty_props -> w_props s' = empty_props)) by (intros p; apply write_directions_while_ok; auto).
  assert (Z0 : pos <> NotesEnd -> exists items evs s' pre, Ok ([], s) = Ok (items, s') /\ quiet items s s' evs /\ still s s' /\ good s' /\
    w_directions s = pre ++ w_directions s' /\ told evs s s' (flat_map (heard_direction (w_staff s)) pre) [] [] /\ (pos = NotesEnd -> w_directions s' = []) /\
    (w_props s = empty_props -> w_props s' = empty_props)).
  { intros NE. exists [], [], s, []. split; [reflexivity | ]. split; [apply quiet_nil; reflexivity | ]. split; [apply still_refl | ]. split; [exact G | ].
    split; [reflexivity | ]. split; [apply told_nil; reflexivity | ]. split; [congruence | auto]. }
  unfold writeDirections. destruct (w_directions s) as [|d0 ds] eqn:E.
  - exists [], [], s, []. split; [destruct pos; reflexivity | ]. split; [apply quiet_nil; reflexivity | ]. split; [apply still_refl | ]. split; [exact G | ].
    split; [symmetry; exact E | ]. split; [apply told_nil; reflexivity | ]. auto.
  - destruct pos as [|previous n next].
    + destruct (K (fun _ => true)) as (i & e & s' & pre & A1 & A2 & A3 & A4 & A5 & A6 & A7 & A8). exists i, e, s', pre. repeat (split; [assumption | ]). auto.
    + assert (L : forall p, exists items evs s' pre, write_directions_while p (d0 :: ds) s = Ok (items, s') /\ quiet items s s' evs /\ still s s' /\ good s' /\
        d0 :: ds = pre ++ w_directions s' /\ told evs s s' (flat_map (heard_direction (w_staff s)) pre) [] [] /\ (AtNote previous n next = NotesEnd -> w_directions s' = []) /\
        (w_props s = empty_props -> w_props s' = empty_props)).
      { intros p. destruct (K p) as (i & e & s' & pre & A1 & A2 & A3 & A4 & A5 & A6 & A7 & A8). exists i, e, s', pre. repeat (split; [assumption | ]). split; [discriminate | exact A8]. }
      rewrite as_int_ok by (cbn in Hp; destruct G; lia). cbn [obind].
      destruct previous as [q|]; destruct next as [q'|]; cbv zeta; try (destruct (_ && _ && _)); try apply L; apply Z0; discriminate.
Qed.

(** * Backups and forwards *)

(** The elements between a cursor and the next note. *)
Definition moved (t t' : Z) (l : list music_data) : Prop :=
  (t' = t /\ l = []) \/
  (t' < t /\ exists q, element_value PositiveDivisionsValue (t - t') = Ok q /\ l = [MBackup q]) \/
  (t < t' /\ exists q, element_value PositiveDivisionsValue (t' - t) = Ok q /\ l = [MForward q]).

Lemma moved_skeleton t t' l : moved t t' l -> skeleton l = l /\ forall f, next_chord l f = f.
Proof. intros [(_ & ->) | [(_ & q & _ & ->) | (_ & q & _ & ->)]]; auto. Qed.

Lemma move_ok n s : good s -> w_props s = empty_props -> note_in_range n ->
  exists items evs,
    (if n_tick n <? 0 then Ok ([], s)
     else obind (as_int (n_tick n - w_tick s)) (fun difference =>
           if difference <? 0 then backup (-1 * difference) s
           else if 0 <? difference then forward difference s
           else Ok ([], s))) = Ok (items, set_tick (n_tick n) s) /\
    moved (w_tick s) (n_tick n) items /\ (evs = if n_tick n <? w_tick s then [EBackup] else []) /\
    (forall f r, synced s r -> r_backup r = false -> r_voice r + backups evs <= 2147483647 -> 0 <= r_voice r ->
      exists r', read_items rc items f r = Ok r' /\ synced (set_tick (n_tick n) s) r' /\ after evs r r').
Proof.
  intros [G1 _ _] P (H1 & H2 & H3 & H4). destruct (n_tick n <? 0) eqn:E0; [lia | ].
  rewrite as_int_ok by lia. cbn [obind].
  destruct (n_tick n - w_tick s <? 0) eqn:E1.
  - assert (n_tick n <? w_tick s = true) as -> by lia. unfold backup. destruct (w_tick s <? 0) eqn:E2; [lia | ]. cbv zeta.
    assert (w_tick s - -1 * (n_tick n - w_tick s) <? 0 = false) as -> by lia.
    assert (-1 * (n_tick n - w_tick s) <? 0 = false) as -> by lia.
    assert (-1 * (n_tick n - w_tick s) =? 0 = false) as -> by lia.
    destruct (positive_value (-1 * (n_tick n - w_tick s))) as (q & Q1 & Q2 & Q3); [lia | ]. rewrite Q1. cbn [obind].
    replace (w_tick s - -1 * (n_tick n - w_tick s)) with (n_tick n) by lia.
    exists [MBackup q], [EBackup]. split; [reflexivity | ]. split.
    { right. left. split; [lia | ]. exists q. split; [ | reflexivity]. rewrite <- Q1. f_equal. lia. }
    split; [reflexivity | ].
    intros f r (S1 & S2 & S3) Hb Hv H0. unfold backups in Hv. cbn in Hv.
    cbn [read_items parseMusicDataChoice]. unfold parseBackup. rewrite Hb, as_int_ok by lia. cbn [obind].
    assert (r_current r = g) as C by (destruct S3 as [C | [d D]]; [exact C | rewrite P in D; discriminate D]).
    unfold convertDuration. rewrite C, Z.eqb_refl, Q3, as_int_ok by lia. cbn [obind].
    rewrite as_int_ok by lia. cbn [obind]. rewrite S1, as_int_ok by lia. cbn [obind].
    assert (w_tick s + -1 * (-1 * (n_tick n - w_tick s)) <? 0 = false) as -> by lia. cbn [obind].
    eexists. split; [reflexivity | ]. split.
    + split; [cbn [r_tick r_at set_tick w_tick]; lia | ]. split; [exact S2 | left; exact C].
    + split; cbn; rewrite ?app_nil_r; reflexivity.
  - assert (n_tick n <? w_tick s = false) as -> by lia. destruct (0 <? n_tick n - w_tick s) eqn:E2.
    + unfold forward. destruct (positive_value (n_tick n - w_tick s)) as (q & Q1 & Q2 & Q3); [lia | ]. rewrite Q1. cbn [obind].
      rewrite as_int_ok by lia. cbn [obind]. replace (w_tick s + (n_tick n - w_tick s)) with (n_tick n) by lia.
      exists [MForward q], []. split; [reflexivity | ]. split.
      { right. right. split; [lia | ]. exists q. split; [exact Q1 | reflexivity]. }
      split; [reflexivity | ].
      intros f r (S1 & S2 & S3) Hb Hv H0. cbn [read_items parseMusicDataChoice]. unfold parseForward.
      assert (r_current r = g) as C by (destruct S3 as [C | [d D]]; [exact C | rewrite P in D; discriminate D]).
      unfold convertDuration. rewrite C, Z.eqb_refl, Q3, as_int_ok by lia. cbn [obind].
      rewrite S1, as_int_ok by lia. cbn [obind]. eexists. split; [reflexivity | ]. split.
      * split; [cbn [r_tick r_at set_tick w_tick]; lia | ]. split; [exact S2 | left; exact C].
      * split; cbn; rewrite ?app_nil_r; reflexivity.
    + exists [], []. assert (w_tick s = n_tick n) as T by lia. split; [rewrite <- T; destruct s; reflexivity | ].
      split; [left; split; [symmetry; exact T | reflexivity] | ]. split; [reflexivity | ].
      intros f r (S1 & S2 & S3) Hb Hv H0. exists r. split; [reflexivity | ]. split.
      * split; [cbn; lia | ]. split; [exact S2 | exact S3].
      * split; cbn; rewrite ?app_nil_r; reflexivity.
Qed.

(** * Notes *)

Definition joins (p : option NoteData) (n : NoteData) : bool := match p with Some q => joined q n | None => false end.
Definition joined_next (n : NoteData) (next : option NoteData) : bool := match next with Some q => joined n q | None => false end.

(** A note as it is read back. *)
Definition heard_note (v : Z) (p : option NoteData) (n : NoteData) (next : option NoteData) : NoteData :=
  mkNote (n_tick n) (n_dur n) (joins p n || joined_next n next) (n_type n) (v + 1) (n_rest n).

(** A note as it is written, on staff i and in voice v. *)
Definition written_note (i v : Z) (p : option NoteData) (n : NoteData) (x : xnote) : Prop :=
  xn_type x = n_type n /\ xn_chord x = joins p n /\ xn_rest x = n_rest n /\
  xn_voice x = Some (print_int (v + 1)) /\ xn_staff x = (if 1 <? N then Some (i + 1) else None) /\
  (n_type n <> GraceNote -> element_value PositiveDivisionsValue (n_dur n) = Ok (xn_duration x)).

Lemma note_element_ok n st s : note_in_range n -> on_staff s -> 0 <= w_voice s < 2147483647 -> w_tick s = n_tick n -> w_props s = empty_props ->
  exists x, note_element wc n st s = Ok x /\ xn_chord x = w_chord s && w_previousChord s && negb st /\
    (forall p, xn_chord x = joins p n -> written_note (w_staff s) (w_voice s) p n x) /\
    forall f r, synced s r ->
      exists r', parseNote rc x f r = Ok r' /\
        after [ENote (Z.to_nat (w_staff s)) (mkNote (n_tick n) (n_dur n) (xn_chord x || f) (n_type n) (w_voice s + 1) (n_rest n))] r r' /\
        r_tick r' = (if f then n_tick n else n_tick n + n_dur n) /\ r_current r' = g /\ r_backup r' = false.
Proof.
  intros (H1 & H2 & H3 & H4) O V T P. unfold note_element, on_staff in *.
  assert (exists d, match n_type n with GraceNote => Ok 0%Q | _ => element_value PositiveDivisionsValue (n_dur n) end = Ok d /\
     round_half (match n_type n with GraceNote => 0%Q | _ => d end) = n_dur n) as (d & D1 & D2).
  { destruct (positive_value (n_dur n)) as (q & Q1 & Q2 & Q3); [lia | ].
    destruct (n_type n); [exists q; auto | exists q; auto | ]. exists 0%Q. split; [reflexivity | ]. rewrite H4 by reflexivity. reflexivity. }
  rewrite D1. cbn [obind]. eexists. split; [reflexivity | ]. split; [reflexivity | ]. split.
  { intros p Hp. unfold written_note. cbn [xn_type xn_duration xn_chord xn_staff xn_voice xn_rest] in *.
    destruct (0 <=? w_voice s) eqn:EV; [ | lia]. rewrite Hstaves. assert (0 <=? w_staff s = true) as -> by lia. rewrite andb_true_r.
    repeat (split; [reflexivity || exact Hp | ]). intros E. destruct (n_type n); [exact D1 | exact D1 | congruence]. }
  cbn [xn_chord].
  set (ch := w_chord s && w_previousChord s && negb st). intros f r (S1 & S2 & S3).
  assert (r_current r = g) as C by (destruct S3 as [C | [d' D]]; [exact C | rewrite P in D; discriminate D]).
  unfold parseNote, note_voice, note_duration. cbn [xn_voice xn_type xn_duration xn_staff xn_chord xn_rest].
  destruct (0 <=? w_voice s) eqn:EV; [ | lia].
  assert (stringToInt (print_int (w_voice s + 1)) = Ok (Some (w_voice s + 1))) as ->.
  { apply stringToInt_success. split; [ | reflexivity]. unfold is_int. lia. }
  cbn [omap obind]. unfold convertDuration. rewrite C, Z.eqb_refl, D2, as_int_ok by lia. cbn [obind].
  set (staff := match (if (1 <? wc_numStaves wc) && (0 <=? w_staff s) then Some (w_staff s + 1) else None) with Some k => Z.max (k - 1) 0 | None => 0 end).
  assert (staff = w_staff s) as E.
  { unfold staff. rewrite Hstaves. destruct (1 <? N) eqn:E1; cbn [andb]; [destruct (0 <=? w_staff s) eqn:E2; lia | lia]. }
  rewrite E. clear E staff.
  assert ((if negb (ch || f) || negb f then as_int (r_tick r + n_dur n) else Ok (r_tick r)) = Ok (if f then n_tick n else n_tick n + n_dur n)) as ->.
  { rewrite S1, T. destruct ch, f; cbn [orb negb]; try reflexivity; apply as_int_ok; lia. }
  cbn [obind]. rewrite update_staff_upd by lia. cbn [obind]. eexists. split; [reflexivity | ].
  split; [ | split; [reflexivity | split; [exact C | reflexivity]]].
  split; cbn; rewrite ?app_nil_r; try reflexivity. rewrite S1, T. reflexivity.
Qed.

(** ** Clef and key changes at a note *)

Fixpoint span {A} (p : A -> bool) (l : list A) : list A * list A :=
  match l with
  | x :: r => if p x then let (a, b) := span p r in (x :: a, b) else ([], l)
  | [] => ([], [])
  end.

Lemma span_app {A} (p : A -> bool) l : fst (span p l) ++ snd (span p l) = l.
Proof. induction l as [|x r IH]; [reflexivity | ]. cbn [span]. destruct (p x); [ | reflexivity]. destruct (span p r). cbn in *. f_equal. exact IH. Qed.

Definition placed_clefs (i t : Z) (l : list ClefData) : list (nat * ClefData) := map (fun c => (Z.to_nat i, mkClef t (c_rest c))) l.
Definition staff_index (i : Z) : Z := if (0 <=? i) && (i <? N) then i else -1.
Definition placed_key (i t : Z) (k : KeyData) : KeyData :=
  if k_custom k then mkKey 0 (-1) true (k_rest k) else mkKey t (staff_index i) false (k_rest k).

Definition clefs_at (t : Z) (l : list ClefData) := span (fun c => c_tick c <=? t) l.
Definition staff_keys_at (t : Z) (l : list KeyData) := span (fun k => k_tick k <=? t) l.
Definition measure_keys_at (t : Z) (l : list KeyData) : list KeyData * list KeyData :=
  match l with k :: r => if k_tick k <=? t then ([k], r) else ([], l) | [] => ([], []) end.

Lemma parse_placed i t k : parseKey rc t (mkXKey (number_of i) (k_custom k) (k_rest k)) = placed_key i t k.
Proof.
  unfold parseKey, placed_key, number_of, staff_index. cbn [xk_custom xk_number xk_rest]. destruct (k_custom k); [reflexivity | ].
  f_equal. fold N. destruct (0 <=? i) eqn:E; [ | reflexivity]. cbn [andb].
  destruct (N - 1 <? i + 1 - 1) eqn:E2; destruct (i <? N) eqn:E3; lia.
Qed.

(** The state but for the lists of changes and the properties. *)
Record placed (s s' : wstate) : Prop := {
  pl_tick : w_tick s' = w_tick s;
  pl_staff : w_staff s' = w_staff s;
  pl_voice : w_voice s' = w_voice s;
  pl_chord : w_chord s' = w_chord s;
  pl_previous : w_previousChord s' = w_previousChord s;
  pl_directions : w_directions s' = w_directions s
}.

Lemma placed_refl s : placed s s.
Proof. split; reflexivity. Qed.

Lemma placed_trans a b c : placed a b -> placed b c -> placed a c.
Proof. intros [] []. split; congruence. Qed.

Definition adds (s s' : wstate) (clefs : list (nat * ClefData)) (keys : list KeyData) : Prop :=
  pending_clefs s' = pending_clefs s ++ clefs /\ pending_keys s' = pending_keys s ++ keys /\
  p_divisions (w_props s') = p_divisions (w_props s).

Lemma adds_refl s s' : w_tick s' = w_tick s -> w_props s' = w_props s -> adds s s' [] [].
Proof. intros A B. unfold adds, pending_clefs, pending_keys. rewrite A, B, !app_nil_r. auto. Qed.

Lemma adds_trans a b c c1 k1 c2 k2 : adds a b c1 k1 -> adds b c c2 k2 -> adds a c (c1 ++ c2) (k1 ++ k2).
Proof. intros (A & B & C) (D & E & F). unfold adds. rewrite D, E, F, A, B, C, !app_assoc. auto. Qed.

Lemma writeKey_ok i k s : good s -> good (writeKey i k s) /\ placed s (writeKey i k s) /\ adds s (writeKey i k s) [] [placed_key i (w_tick s) k].
Proof.
  intros [G1 G3 G4]. split; [split; assumption | ]. split; [split; reflexivity | ]. unfold adds, pending_clefs, pending_keys. cbn.
  rewrite map_app, app_nil_r. cbn [map]. rewrite parse_placed. auto.
Qed.

Lemma writeClef_ok i k s : good s -> -1 <= i < N -> good (writeClef i k s) /\ placed s (writeClef i k s) /\ adds s (writeClef i k s) (placed_clefs (Z.max i 0) (w_tick s) [k]) [].
Proof.
  intros [G1 G3 G4] H. split; [ | split; [split; reflexivity | ]].
  - split; [exact G1 | | exact G4]. cbn. apply Forall_app. split; [exact G3 | ]. constructor; [ | constructor].
    unfold clef_number_ok, number_of. cbn. destruct (0 <=? i) eqn:E; [lia | exact I].
  - unfold adds, pending_clefs, pending_keys. cbn. rewrite map_app, app_nil_r. cbn [map]. split; [ | auto]. f_equal. f_equal.
    unfold read_clef, number_of. cbn. destruct (0 <=? i) eqn:E; f_equal; f_equal; lia.
Qed.

Lemma good_lists s a b : good s -> good (set_clefs a s) /\ good (set_staffKeys b s) /\ good (set_measureKeys b s).
Proof. intros [A B C]. split; [ | split]; split; assumption. Qed.

Lemma writeMeasureKey_ok s : good s ->
  good (writeMeasureKey s) /\ placed s (writeMeasureKey s) /\
  adds s (writeMeasureKey s) [] (map (placed_key (-1) (w_tick s)) (fst (measure_keys_at (w_tick s) (w_measureKeys s)))) /\
  w_measureKeys (writeMeasureKey s) = snd (measure_keys_at (w_tick s) (w_measureKeys s)) /\
  w_clefs (writeMeasureKey s) = w_clefs s /\ w_staffKeys (writeMeasureKey s) = w_staffKeys s.
Proof.
  intros G. unfold writeMeasureKey, measure_keys_at. destruct (w_measureKeys s) as [|k r] eqn:E.
  - split; [exact G | ]. split; [apply placed_refl | ]. split; [apply adds_refl; reflexivity | auto].
  - destruct (k_tick k <=? w_tick s).
    + destruct (writeKey_ok (-1) k s G) as (A & B & C). cbn [fst snd map]. split; [apply (good_lists _ [] r A) | ].
      split; [split; apply B | ]. split; [exact C | auto].
    + split; [exact G | ]. split; [apply placed_refl | ]. split; [apply adds_refl; reflexivity | auto].
Qed.

Lemma writeClefsUntil_ok l s : good s -> on_staff s -> w_clefs s = l ->
  good (writeClefsUntil l s) /\ placed s (writeClefsUntil l s) /\
  adds s (writeClefsUntil l s) (placed_clefs (w_staff s) (w_tick s) (fst (clefs_at (w_tick s) l))) [] /\
  w_clefs (writeClefsUntil l s) = snd (clefs_at (w_tick s) l) /\
  w_measureKeys (writeClefsUntil l s) = w_measureKeys s /\ w_staffKeys (writeClefsUntil l s) = w_staffKeys s.
Proof.
  revert s. induction l as [|c l IH]; intros s G O E; cbn [writeClefsUntil]; unfold clefs_at in *; cbn [span].
  - split; [exact G | ]. split; [apply placed_refl | ]. split; [apply adds_refl; reflexivity | auto].
  - destruct (c_tick c <=? w_tick s).
    + unfold on_staff in O. destruct (writeClef_ok (w_staff s) c s G) as (A & B & C); [lia | ].
      set (s1 := set_clefs l (writeClef (w_staff s) c s)).
      destruct (IH s1) as (D1 & D2 & D3 & D4 & D5 & D6); [apply (good_lists _ l [] A) | exact O | reflexivity | ].
      change (w_tick s1) with (w_tick s) in *. change (w_staff s1) with (w_staff s) in *.
      destruct (span (fun c0 => c_tick c0 <=? w_tick s) l) as [a b]. cbn [fst snd] in *.
      split; [exact D1 | ]. split; [eapply placed_trans; [ | exact D2]; split; reflexivity | ].
      split; [ | auto]. replace (placed_clefs (w_staff s) (w_tick s) (c :: a)) with (placed_clefs (Z.max (w_staff s) 0) (w_tick s) [c] ++ placed_clefs (w_staff s) (w_tick s) a)
        by (rewrite Z.max_l by lia; reflexivity).
      eapply (adds_trans _ s1 _ _ [] _ []); [exact C | exact D3].
    + split; [exact G | ]. split; [apply placed_refl | ]. split; [apply adds_refl; reflexivity | auto].
Qed.

Lemma writeStaffKeysUntil_ok l s : good s -> on_staff s -> w_staffKeys s = l ->
  good (writeStaffKeysUntil l s) /\ placed s (writeStaffKeysUntil l s) /\
  adds s (writeStaffKeysUntil l s) [] (map (placed_key (w_staff s) (w_tick s)) (fst (staff_keys_at (w_tick s) l))) /\
  w_staffKeys (writeStaffKeysUntil l s) = snd (staff_keys_at (w_tick s) l) /\
  w_measureKeys (writeStaffKeysUntil l s) = w_measureKeys s /\ w_clefs (writeStaffKeysUntil l s) = w_clefs s.
Proof.
  revert s. induction l as [|c l IH]; intros s G O E; cbn [writeStaffKeysUntil]; unfold staff_keys_at in *; cbn [span].
  - split; [exact G | ]. split; [apply placed_refl | ]. split; [apply adds_refl; reflexivity | auto].
  - destruct (k_tick c <=? w_tick s).
    + destruct (writeKey_ok (w_staff s) c s G) as (A & B & C).
      set (s1 := set_staffKeys l (writeKey (w_staff s) c s)).
      destruct (IH s1) as (D1 & D2 & D3 & D4 & D5 & D6); [apply (good_lists _ [] l A) | exact O | reflexivity | ].
      change (w_tick s1) with (w_tick s) in *. change (w_staff s1) with (w_staff s) in *.
      destruct (span (fun c0 => k_tick c0 <=? w_tick s) l) as [a b]. cbn [fst snd] in *.
      split; [exact D1 | ]. split; [eapply placed_trans; [ | exact D2]; split; reflexivity | ].
      split; [ | auto]. cbn [map]. eapply (adds_trans _ s1 _ [] [_] []); [exact C | exact D3].
    + split; [exact G | ]. split; [apply placed_refl | ]. split; [apply adds_refl; reflexivity | auto].
Qed.

Lemma adds_told s s' c k : adds s s' c k -> told [] s s' [] c k.
Proof. intros (A & B & _). split; cbn; auto. Qed.

Lemma adds_quiet s s' c k : placed s s' -> adds s s' c k -> quiet [] s s' [].
Proof. intros P (_ & _ & D). apply quiet_nil; [apply P | exact D]. Qed.


Definition changed (s : wstate) : wstate :=
  let s1 := writeMeasureKey s in let s2 := writeClefsUntil (w_clefs s1) s1 in writeStaffKeysUntil (w_staffKeys s2) s2.

Lemma changed_ok s : good s -> on_staff s ->
  good (changed s) /\ placed s (changed s) /\
  adds s (changed s) (placed_clefs (w_staff s) (w_tick s) (fst (clefs_at (w_tick s) (w_clefs s))))
    (map (placed_key (-1) (w_tick s)) (fst (measure_keys_at (w_tick s) (w_measureKeys s))) ++
     map (placed_key (w_staff s) (w_tick s)) (fst (staff_keys_at (w_tick s) (w_staffKeys s)))) /\
  w_clefs (changed s) = snd (clefs_at (w_tick s) (w_clefs s)) /\
  w_measureKeys (changed s) = snd (measure_keys_at (w_tick s) (w_measureKeys s)) /\
  w_staffKeys (changed s) = snd (staff_keys_at (w_tick s) (w_staffKeys s)).
Proof.
  intros G O. unfold changed. destruct (writeMeasureKey_ok s G) as (A1 & A2 & A3 & A4 & A5 & A6).
  set (s1 := writeMeasureKey s) in *. assert (O1 : on_staff s1) by (unfold on_staff; rewrite (pl_staff _ _ A2); exact O).
  destruct (writeClefsUntil_ok (w_clefs s1) s1 A1 O1 eq_refl) as (B1 & B2 & B3 & B4 & B5 & B6).
  cbv zeta. set (s2 := writeClefsUntil (w_clefs s1) s1) in *. assert (O2 : on_staff s2) by (unfold on_staff; rewrite (pl_staff _ _ B2); exact O1).
  destruct (writeStaffKeysUntil_ok (w_staffKeys s2) s2 B1 O2 eq_refl) as (C1 & C2 & C3 & C4 & C5 & C6).
  set (s3 := writeStaffKeysUntil (w_staffKeys s2) s2) in *.
  rewrite (pl_tick _ _ A2), (pl_staff _ _ A2), A5 in *. rewrite (pl_tick _ _ B2), (pl_tick _ _ A2), (pl_staff _ _ B2), (pl_staff _ _ A2), B6, A6 in *.
  split; [exact C1 | ]. split; [eapply placed_trans; [exact A2 | eapply placed_trans; [exact B2 | exact C2]] | ].
  split; [ | split; [congruence | split; congruence]].
  pose proof (adds_trans _ _ _ _ _ _ _ (adds_trans _ _ _ _ _ _ _ A3 B3) C3) as D. rewrite app_nil_r in D. rewrite app_nil_r in D. exact D.
Qed.

(** ** The notes of a voice *)

Fixpoint notes_clefs (i : Z) (notes : list NoteData) (l : list ClefData) : list (nat * ClefData) * list ClefData :=
  match notes with
  | [] => ([], l)
  | n :: rest =>
      let q := notes_clefs i rest (snd (clefs_at (n_tick n) l)) in
      (placed_clefs i (n_tick n) (fst (clefs_at (n_tick n) l)) ++ fst q, snd q)
  end.

Fixpoint notes_keys (i : Z) (notes : list NoteData) (mk sk : list KeyData) : list KeyData * (list KeyData * list KeyData) :=
  match notes with
  | [] => ([], (mk, sk))
  | n :: rest =>
      let q := notes_keys i rest (snd (measure_keys_at (n_tick n) mk)) (snd (staff_keys_at (n_tick n) sk)) in
      ((map (placed_key (-1) (n_tick n)) (fst (measure_keys_at (n_tick n) mk)) ++
        map (placed_key i (n_tick n)) (fst (staff_keys_at (n_tick n) sk))) ++ fst q, snd q)
  end.

Definition following (rest : list NoteData) : option NoteData := match rest with q :: _ => Some q | [] => None end.

(** Where the cursor is after a note. *)
Definition tick_after (n : NoteData) (next : option NoteData) : Z := if joined_next n next then n_tick n else n_tick n + n_dur n.

Fixpoint voice_line (i : nat) (v t : Z) (p : option NoteData) (notes : list NoteData) : list (option (nat * NoteData)) :=
  match notes with
  | [] => []
  | n :: rest =>
      (if n_tick n <? t then [None] else []) ++
      Some (i, heard_note v p n (following rest)) :: voice_line i v (tick_after n (following rest)) (Some n) rest
  end.

Fixpoint voice_end (t : Z) (notes : list NoteData) : Z :=
  match notes with [] => t | n :: rest => voice_end (tick_after n (following rest)) rest end.

Inductive written_notes (i v : Z) : Z -> option NoteData -> list NoteData -> list music_data -> Prop :=
| wn_nil t p : written_notes i v t p [] []
| wn_cons t p n rest l x xs : moved t (n_tick n) l -> written_note i v p n x ->
    written_notes i v (tick_after n (following rest)) (Some n) rest xs -> written_notes i v t p (n :: rest) (l ++ MNote x :: xs).

Lemma isAdvance_joined n next : match next with Some q => chord_closed n q | None => True end ->
  (if isAdvanceNeeded n next then n_tick n + n_dur n else n_tick n) = tick_after n next.
Proof.
  intros H. unfold isAdvanceNeeded, tick_after, joined_next, joined. destruct (n_chord n) eqn:C; destruct next as [q|]; cbn [andb]; try reflexivity.
  destruct (n_tick q =? n_tick n) eqn:E; cbn [negb].
  - assert (n_tick n =? n_tick q = true) as -> by lia. destruct (H C) as [-> | D]; [lia | reflexivity | ].
    rewrite D, Z.add_0_r. destruct (_ && _); reflexivity.
  - assert (n_tick n =? n_tick q = false) as -> by lia. rewrite andb_false_r. reflexivity.
Qed.

Lemma write_notes_ok notes : forall p pct s, good s -> on_staff s -> 0 <= w_voice s < 2147483647 ->
  Forall note_in_range notes -> neighbours chord_closed notes -> Forall direction_ok (w_directions s) ->
  match p with Some q => w_previousChord s = n_chord q /\ (n_chord q = true -> pct = n_tick q) | None => True end ->
  exists items evs s' pre, write_notes wc p pct notes s = Ok (items, s') /\
    next_chord items false = match notes with n :: _ => joins p n | [] => false end /\
    (forall r, synced s r -> r_backup r = false -> r_voice r + backups evs <= 2147483647 -> 0 <= r_voice r ->
      exists r', read_items rc items false r = Ok r' /\ synced s' r' /\ after evs r r' /\ r_backup r' = false) /\
    good s' /\ w_staff s' = w_staff s /\ w_voice s' = w_voice s /\
    w_directions s = pre ++ w_directions s' /\
    told evs s s' (flat_map (heard_direction (w_staff s)) pre) (fst (notes_clefs (w_staff s) notes (w_clefs s)))
      (fst (notes_keys (w_staff s) notes (w_measureKeys s) (w_staffKeys s))) /\
    w_clefs s' = snd (notes_clefs (w_staff s) notes (w_clefs s)) /\
    (w_measureKeys s', w_staffKeys s') = snd (notes_keys (w_staff s) notes (w_measureKeys s) (w_staffKeys s)) /\
    line_of evs = voice_line (Z.to_nat (w_staff s)) (w_voice s) (w_tick s) p notes /\ w_tick s' = voice_end (w_tick s) notes /\
    written_notes (w_staff s) (w_voice s) (w_tick s) p notes (skeleton items).
Proof.
  induction notes as [|n rest IH]; intros p pct s G O V Hn Hc Hd Hp.
  { exists [], [], s, []. split; [reflexivity | ]. split; [reflexivity | ]. split.
    { intros r Hs Hb _ _. exists r. split; [reflexivity | ]. split; [exact Hs | ]. split; [apply after_nil; reflexivity | exact Hb]. }
    split; [exact G | ]. repeat (split; [reflexivity | ]). split; [apply told_nil; reflexivity | ]. repeat (split; [reflexivity | ]). constructor. }
  cbn [write_notes]. inversion Hn as [|n' rest' Hn1 Hn2]; subst n' rest'.
  fold (following rest). set (next := following rest).
  assert (NR : 0 <= n_tick n /\ 0 <= n_dur n /\ n_tick n + n_dur n <= 1073741823) by (destruct Hn1 as (? & ? & ? & _); auto).
  (* the cursor moves *)
  set (s0 := set_chord (n_chord n) s).
  assert (G0 : good s0) by (destruct G; split; assumption).
  destruct (flush_ok s0 G0) as (i1 & F1 & F2). pose proof (good_flushed s0 G0) as GF.
  destruct (move_ok n (flushed s0) GF eq_refl Hn1) as (i2 & e2 & M1 & M2 & M3 & M4).
  set (s2 := set_tick (n_tick n) (flushed s0)) in *. destruct (moved_skeleton _ _ _ M2) as [M2s M2n].
  assert (G2 : good s2) by (split; [cbn; clear - NR; lia | apply GF | apply GF]).
  (* changes *)
  destruct (changed_ok s2 G2 O) as (C1 & C2 & C3 & C4 & C5 & C6). set (s3 := changed s2) in *.
  destruct (flush_ok s3 C1) as (i4 & F3 & F4). set (s4 := flushed s3) in *.
  pose proof (good_flushed s3 C1) as G4. fold s4 in G4.
  assert (O4 : on_staff s4) by (unfold on_staff; change (w_staff s4) with (w_staff s3); rewrite (pl_staff _ _ C2); exact O).
  assert (D4 : w_directions s4 = w_directions s) by (change (w_directions s4) with (w_directions s3); rewrite (pl_directions _ _ C2); reflexivity).
  destruct (writeDirections_ok (AtNote p n next) s4 G4 O4) as (i5 & e5 & s5 & pre1 & X1 & X2 & X3 & X4 & X5 & X6 & X7 & X8).
  { rewrite D4. exact Hd. }
  { cbn. clear - NR. lia. }
  (* the note *)
  set (st := n_chord n && match p with None => true | Some _ => negb (w_tick s2 =? pct) end).
  set (ct := if n_chord n then w_tick s2 else pct).
  assert (O5 : on_staff s5) by (unfold on_staff; rewrite (st_staff _ _ X3); exact O4).
  assert (W5 : w_staff s5 = w_staff s) by (rewrite (st_staff _ _ X3); change (w_staff s4) with (w_staff s3); rewrite (pl_staff _ _ C2); reflexivity).
  assert (V5 : w_voice s5 = w_voice s) by (rewrite (st_voice _ _ X3); change (w_voice s4) with (w_voice s3); rewrite (pl_voice _ _ C2); reflexivity).
  assert (T5 : w_tick s5 = n_tick n) by (rewrite (st_tick _ _ X3); change (w_tick s4) with (w_tick s3); rewrite (pl_tick _ _ C2); reflexivity).
  assert (K5 : w_chord s5 = n_chord n) by (rewrite (st_chord _ _ X3); change (w_chord s4) with (w_chord s3); rewrite (pl_chord _ _ C2); reflexivity).
  assert (P5 : w_previousChord s5 = w_previousChord s) by (rewrite (st_previous _ _ X3); change (w_previousChord s4) with (w_previousChord s3); rewrite (pl_previous _ _ C2); reflexivity).
  destruct (note_element_ok n st s5 Hn1 O5) as (x & N1 & N2 & N4 & N3); [rewrite V5; exact V | exact T5 | apply X8; reflexivity | ].
  assert (Hx : xn_chord x = joins p n).
  { rewrite N2, K5, P5. unfold st, joins. change (w_tick s2) with (n_tick n). destruct p as [q|].
    - destruct Hp as [Hp1 Hp2]. rewrite Hp1. unfold joined. destruct (n_chord q) eqn:Q; cbn [andb]; [ | rewrite andb_false_r; reflexivity].
      rewrite (Hp2 eq_refl). destruct (n_chord n); cbn [andb]; [ | reflexivity]. rewrite negb_involutive. apply Z.eqb_sym.
    - rewrite andb_true_r. destruct (n_chord n), (w_previousChord s); reflexivity. }
  (* the rest *)
  assert (Hadv : exists s6, advanceCursorIfNeeded n next s5 = Ok ([], s6) /\ s6 = set_previous (set_tick (tick_after n next) s5)).
  { unfold advanceCursorIfNeeded. rewrite <- (isAdvance_joined n next) by (unfold next; destruct rest; [exact I | apply Hc]).
    destruct (isAdvanceNeeded n next).
    - rewrite T5, !Z.max_l by (clear - NR; lia). rewrite as_int_ok by (clear - NR; lia). eexists. split; reflexivity.
    - eexists. split; [reflexivity | ]. rewrite <- T5. destruct s5; reflexivity. }
  destruct Hadv as (s6 & A1 & A2).
  assert (G6 : good s6).
  { subst s6. destruct X4. split; [ | assumption | assumption]. cbn. unfold tick_after. clear - NR. destruct (joined_next n next); lia. }
  assert (W6 : w_staff s6 = w_staff s) by (subst s6; exact W5).
  assert (V6 : w_voice s6 = w_voice s) by (subst s6; exact V5).
  destruct (IH (Some n) ct s6) as (i7 & e7 & s7 & pre2 & Y1 & Y2 & Y3 & Y4 & Y5 & Y6 & Y7 & Y8 & Y9 & Y10 & Y11 & Y12 & Y13).
  { exact G6. }
  { unfold on_staff. rewrite W6. exact O. }
  { rewrite V6. exact V. }
  { exact Hn2. }
  { destruct rest; [exact I | apply Hc]. }
  { subst s6. cbn. rewrite D4 in X5. rewrite X5 in Hd. apply Forall_app in Hd. apply Hd. }
  { subst s6. split; [cbn; exact K5 | ]. intros E. unfold ct. rewrite E. reflexivity. }
  set (e6 := [ENote (Z.to_nat (w_staff s)) (heard_note (w_voice s) p n next)]).
  exists ([] ++ (i1 ++ i2) ++ [] ++ [] ++ [] ++ i4 ++ i5 ++ [MNote x] ++ [] ++ i7),
    (props_events s0 ++ e2 ++ props_events s3 ++ e5 ++ e6 ++ e7), s7, (pre1 ++ pre2).
  assert (E3 : next_chord i7 false = joined_next n next).
  { rewrite Y2. unfold next. destruct rest; reflexivity. }
  split.
  { eapply then_ok; [reflexivity | ]. eapply then_ok.
    { unfold writeForwardOrBackupIfNeeded. eapply then_ok; [exact F1 | exact M1]. }
    cbv zeta. fold st ct. eapply then_ok; [reflexivity | ]. eapply then_ok; [reflexivity | ]. eapply then_ok; [reflexivity | ].
    fold s3. change (writeStaffKeysUntil _ _) with s3. eapply then_ok; [exact F3 | ]. eapply then_ok; [exact X1 | ]. eapply then_ok; [rewrite N1; reflexivity | ].
    eapply then_ok; [exact A1 | exact Y1]. }
  split.
  { cbn [app]. rewrite !next_chord_app. cbn [next_chord]. rewrite (quiet_next _ _ _ _ X2), (quiet_next _ _ _ _ F4), M2n, (quiet_next _ _ _ _ F2). exact Hx. }
  split.
  { intros r Hs Hb Hv H0. rewrite !backups_app in Hv.
    pose proof (backups_nonneg e7) as H. pose proof (backups_nonneg e5) as H1. pose proof (backups_nonneg (props_events s3)) as H2.
    pose proof (backups_nonneg (props_events s0)) as H3. pose proof (backups_nonneg e6) as H4. pose proof (backups_nonneg e2) as H5.
    cbn [app]. rewrite <- !app_assoc, read_app. destruct F2 as (_ & _ & F2).
    destruct (F2 (next_chord (i2 ++ i4 ++ i5 ++ MNote x :: i7) false) r) as (r1 & R1 & R2 & R3 & R4).
    { destruct Hs as (? & ? & ?). split; [assumption | ]. split; assumption. }
    rewrite R1. cbn [obind]. rewrite read_app. pose proof (after_voice _ _ _ R3) as Va.
    destruct (M4 (next_chord (i4 ++ i5 ++ MNote x :: i7) false) r1 R2 (R4 Hb)) as (r2 & R5 & R6 & R7); [rewrite Va; clearbody e6; clear - Hv H H1 H2 H3 H4 H5; lia | rewrite Va; clear - H0 H3; lia | ].
    rewrite R5. cbn [obind]. rewrite read_app. destruct F4 as (_ & _ & F4).
    destruct (F4 (next_chord (i5 ++ MNote x :: i7) false) r2) as (r3 & R8 & R9 & R10 & _).
    { destruct R6 as (Q1 & Q2 & Q3). split; [rewrite (pl_tick _ _ C2); exact Q1 | ]. split; [exact Q2 | ].
      destruct C3 as (_ & _ & C3). rewrite C3. exact Q3. }
    rewrite R8. cbn [obind]. rewrite read_app. destruct X2 as (_ & _ & X2).
    destruct (X2 (next_chord (MNote x :: i7) false) r3 R9) as (r4 & R11 & R12 & R13 & _).
    rewrite R11. cbn [obind read_items parseMusicDataChoice]. rewrite E3.
    destruct (N3 (joined_next n next) r4 R12) as (r5 & R14 & R15 & R16 & R17 & R18).
    rewrite R14. cbn [obind].
    assert (Hrec : after e6 r4 r5).
    { unfold e6. rewrite W5, V5, Hx in R15. exact R15. }
    assert (S5 : synced s6 r5).
    { split; [rewrite R16; subst s6; reflexivity | ]. split; [ | left; exact R17].
      rewrite (after_length _ _ _ R15). apply R12. }
    pose proof (after_voice _ _ _ R7) as Vb. pose proof (after_voice _ _ _ R10) as Vc. pose proof (after_voice _ _ _ R13) as Vd. pose proof (after_voice _ _ _ Hrec) as Ve.
    destruct (Y3 r5 S5 R18) as (r6 & R19 & R20 & R21 & R22); [rewrite Ve, Vd, Vc, Vb, Va; clearbody e6; clear - Hv; lia | rewrite Ve, Vd, Vc, Vb, Va; clearbody e6; clear - H0 H H1 H2 H3 H4 H5; lia | ].
    exists r6. split; [exact R19 | ]. split; [exact R20 | ]. split; [ | exact R22].
    eapply after_app; [exact R3 | ]. eapply after_app; [exact R7 | ]. eapply after_app; [exact R10 | ].
    eapply after_app; [exact R13 | ]. eapply after_app; [exact Hrec | exact R21]. }
  split; [exact Y4 | ]. split; [rewrite Y5; exact W6 | ]. split; [rewrite Y6; exact V6 | ].
  split.
  { rewrite <- D4, X5, <- app_assoc. f_equal. rewrite <- Y7. subst s6. reflexivity. }
  assert (L6 : w_clefs s6 = snd (clefs_at (n_tick n) (w_clefs s))).
  { subst s6. cbn. rewrite (st_clefs _ _ X3). exact C4. }
  assert (MK6 : w_measureKeys s6 = snd (measure_keys_at (n_tick n) (w_measureKeys s))).
  { subst s6. cbn. rewrite (st_measureKeys _ _ X3). exact C5. }
  assert (SK6 : w_staffKeys s6 = snd (staff_keys_at (n_tick n) (w_staffKeys s))).
  { subst s6. cbn. rewrite (st_staffKeys _ _ X3). exact C6. }
  rewrite W6, L6, MK6, SK6 in *. rewrite V6 in *.
  split.
  { rewrite flat_map_app. cbn [notes_clefs notes_keys fst].
    assert (T0 : told (props_events s0) s (flushed s0) [] [] []).
    { destruct (told_flush s0) as [Q1 Q2 Q3 Q4]. split; assumption. }
    assert (T1 : told e2 (flushed s0) s2 [] [] []).
    { rewrite M3. destruct (n_tick n <? w_tick (flushed s0)); split; reflexivity. }
    assert (T2 : told (props_events s3) s2 s4 [] (placed_clefs (w_staff s) (n_tick n) (fst (clefs_at (n_tick n) (w_clefs s))))
       (map (placed_key (-1) (n_tick n)) (fst (measure_keys_at (n_tick n) (w_measureKeys s))) ++ map (placed_key (w_staff s) (n_tick n)) (fst (staff_keys_at (n_tick n) (w_staffKeys s))))).
    { pose proof (told_app _ _ _ _ _ _ _ _ _ _ _ (adds_told _ _ _ _ C3) (told_flush s3)) as Q. cbn [app] in Q. rewrite !app_nil_r in Q. exact Q. }
    assert (T3 : told e6 s5 s6 [] [] []).
    { subst s6. specialize (X8 eq_refl). split; try reflexivity; cbn; unfold pending_clefs, pending_keys; cbn; rewrite X8; reflexivity. }
    change (w_staff s4) with (w_staff s3) in X6. rewrite (pl_staff _ _ C2) in X6. change (w_staff s2) with (w_staff s) in X6.
    pose proof (told_app _ _ _ _ _ _ _ _ _ _ _ T0 (told_app _ _ _ _ _ _ _ _ _ _ _ T1 (told_app _ _ _ _ _ _ _ _ _ _ _ T2
      (told_app _ _ _ _ _ _ _ _ _ _ _ X6 (told_app _ _ _ _ _ _ _ _ _ _ _ T3 Y8))))) as Q.
    cbn [app] in Q. exact Q. }
  split; [exact Y9 | ]. split; [exact Y10 | ]. split.
  { unfold line_of in *. rewrite !flat_map_app. destruct F2 as (_ & F2 & _). destruct F4 as (_ & F4 & _). destruct X2 as (_ & X2 & _).
    unfold line_of in F2, F4, X2. rewrite F2, F4, X2, Y11, M3. subst s6. cbn [voice_line app].
    change (w_tick (flushed s0)) with (w_tick s). fold next. destruct (n_tick n <? w_tick s); reflexivity. }
  split; [rewrite Y12; subst s6; reflexivity | ].
  cbn [app]. rewrite !skeleton_app. cbn [skeleton filter is_timed]. fold (skeleton i7).
  rewrite (proj1 X2), (proj1 F4), (proj1 F2), M2s. cbn [app].
  apply wn_cons; [exact M2 | | ].
  - rewrite <- W5, <- V5. apply N4. exact Hx.
  - assert (w_tick s6 = tick_after n (following rest)) as <- by (subst s6; reflexivity). exact Y13.
Qed.


(** * Voices *)

Definition voice_ok (v : Z * list NoteData) : Prop :=
  0 <= fst v < 2147483647 /\ Forall note_in_range (snd v) /\ neighbours chord_closed (snd v).

Lemma first_position_ok notes : Forall note_in_range notes -> position_ok (first_position notes).
Proof. intros H. destruct H as [|n l (A & B & C & _) Hl]; cbn; [exact I | lia]. Qed.

Lemma still_placed s s' : still s s' -> w_clefs s' = w_clefs s /\ w_measureKeys s' = w_measureKeys s /\ w_staffKeys s' = w_staffKeys s.
Proof. intros []. auto. Qed.

Lemma good_set_voice v s : good s -> good (set_voice v s).
Proof. intros []. split; assumption. Qed.

Lemma write_voice_ok v s : good s -> on_staff s -> voice_ok v -> Forall direction_ok (w_directions s) ->
  exists items evs s', write_voice wc v s = Ok (items, s') /\ loud items s s' evs /\ good s' /\ w_staff s' = w_staff s /\ w_directions s' = [] /\
    told evs s s' (flat_map (heard_direction (w_staff s)) (w_directions s)) (fst (notes_clefs (w_staff s) (snd v) (w_clefs s)))
      (fst (notes_keys (w_staff s) (snd v) (w_measureKeys s) (w_staffKeys s))) /\
    w_clefs s' = snd (notes_clefs (w_staff s) (snd v) (w_clefs s)) /\
    (w_measureKeys s', w_staffKeys s') = snd (notes_keys (w_staff s) (snd v) (w_measureKeys s) (w_staffKeys s)) /\
    line_of evs = voice_line (Z.to_nat (w_staff s)) (fst v) (w_tick s) None (snd v) /\ w_tick s' = voice_end (w_tick s) (snd v) /\
    written_notes (w_staff s) (fst v) (w_tick s) None (snd v) (skeleton items).
Proof.
  intros G O (V1 & V2 & V3) Hd. unfold write_voice.
  set (s0 := set_voice (fst v) s). assert (G0 : good s0) by (apply good_set_voice; exact G).
  destruct (writeDirections_ok (first_position (snd v)) s0 G0 O Hd (first_position_ok _ V2)) as (i1 & e1 & s1 & pre1 & A1 & A2 & A3 & A4 & A5 & A6 & _ & _).
  destruct (still_placed _ _ A3) as (B1 & B2 & B3). pose proof A3 as [T1 T2 T3 _ _ _ _ _].
  change (w_staff s0) with (w_staff s) in *. change (w_voice s0) with (fst v) in *. change (w_tick s0) with (w_tick s) in *.
  change (w_clefs s0) with (w_clefs s) in *. change (w_measureKeys s0) with (w_measureKeys s) in *. change (w_staffKeys s0) with (w_staffKeys s) in *.
  change (w_directions s0) with (w_directions s) in *.
  assert (Hd1 : Forall direction_ok (w_directions s1)) by (rewrite A5 in Hd; apply Forall_app in Hd; apply Hd).
  destruct (write_notes_ok (snd v) None (-2) s1) as (i2 & e2 & s2 & pre2 & C1 & C2 & C3 & C4 & C5 & C6 & C7 & C8 & C9 & C10 & C11 & C12 & C13); auto.
  { unfold on_staff. rewrite T2. exact O. }
  { rewrite T3. exact V1. }
  rewrite T2, B1, B2, B3, T3, T1 in *.
  assert (Hd2 : Forall direction_ok (w_directions s2)) by (rewrite C7 in Hd1; apply Forall_app in Hd1; apply Hd1).
  destruct (writeDirections_ok NotesEnd s2 C4) as (i3 & e3 & s3 & pre3 & D1 & D2 & D3 & D4 & D5 & D6 & D7 & _); auto.
  { unfold on_staff. rewrite C5. exact O. }
  { exact I. }
  destruct (still_placed _ _ D3) as (E1 & E2 & E3). pose proof D3 as [U1 U2 U3 _ _ _ _ _].
  exists ([] ++ i1 ++ i2 ++ i3), (e1 ++ e2 ++ e3), s3. split.
  { eapply then_ok; [reflexivity | ]. eapply then_ok; [exact A1 | ]. eapply then_ok; [exact C1 | exact D1]. }
  split.
  { cbn [app]. apply loud_app with (s1 := s1); [apply quiet_loud; exact A2 | ]. apply loud_app with (s1 := s2); [ | apply quiet_loud; exact D2].
    split; [rewrite C2; destruct (snd v); reflexivity | exact C3]. }
  split; [exact D4 | ]. split; [rewrite U2; exact C5 | ]. split; [apply D7; reflexivity | ]. split.
  { assert (w_directions s = pre1 ++ pre2 ++ pre3) as ->.
    { rewrite A5, C7, D5, (D7 eq_refl), app_nil_r. reflexivity. }
    rewrite C5 in D6. pose proof (told_app _ _ _ _ _ _ _ _ _ _ _ A6 (told_app _ _ _ _ _ _ _ _ _ _ _ C8 D6)) as Q.
    rewrite !app_nil_r, <- !flat_map_app in Q. destruct Q as [Q1 Q2 Q3 Q4]. split; assumption. }
  rewrite E1, E2, E3, U1. split; [exact C9 | ]. split; [exact C10 | ]. split; [ | split; [exact C12 | ]].
  2: { cbn [app]. rewrite !skeleton_app, (proj1 A2), (proj1 D2), app_nil_r. exact C13. }
  unfold line_of in *. rewrite !flat_map_app. destruct A2 as (_ & A2 & _). destruct D2 as (_ & D2 & _). unfold line_of in A2, D2.
  rewrite A2, D2, C11, app_nil_r. reflexivity.
Qed.

Definition notes_of (vs : list (Z * list NoteData)) : list NoteData := flat_map snd vs.

Lemma notes_clefs_app i a b l : notes_clefs i (a ++ b) l =
  (fst (notes_clefs i a l) ++ fst (notes_clefs i b (snd (notes_clefs i a l))), snd (notes_clefs i b (snd (notes_clefs i a l)))).
Proof.
  revert l. induction a as [|n a IH]; intros l; [cbn; destruct (notes_clefs i b l); reflexivity | ].
  cbn [app notes_clefs]. rewrite IH. cbn [fst snd]. rewrite app_assoc. reflexivity.
Qed.

Lemma notes_keys_app i a b mk sk : notes_keys i (a ++ b) mk sk =
  (let q := notes_keys i a mk sk in let q' := notes_keys i b (fst (snd q)) (snd (snd q)) in (fst q ++ fst q', snd q')).
Proof.
  revert mk sk. induction a as [|n a IH]; intros mk sk; [cbn; destruct (notes_keys i b mk sk); reflexivity | ].
  cbn [app notes_keys]. rewrite IH. cbn [fst snd]. cbv zeta. cbn [fst snd]. rewrite app_assoc. reflexivity.
Qed.

Fixpoint voices_line (i : nat) (t : Z) (vs : list (Z * list NoteData)) : list (option (nat * NoteData)) :=
  match vs with [] => [] | v :: r => voice_line i (fst v) t None (snd v) ++ voices_line i (voice_end t (snd v)) r end.

Fixpoint voices_end (t : Z) (vs : list (Z * list NoteData)) : Z :=
  match vs with [] => t | v :: r => voices_end (voice_end t (snd v)) r end.

Inductive written_voices (i : Z) : Z -> list (Z * list NoteData) -> list music_data -> Prop :=
| wv_nil t : written_voices i t [] []
| wv_cons t v r xs ys : written_notes i (fst v) t None (snd v) xs -> written_voices i (voice_end t (snd v)) r ys ->
    written_voices i t (v :: r) (xs ++ ys).

Lemma write_voice_list_ok vs : forall s, good s -> on_staff s -> Forall voice_ok vs -> Forall direction_ok (w_directions s) ->
  exists items evs s' pre, write_voice_list wc vs s = Ok (items, s') /\ loud items s s' evs /\ good s' /\ w_staff s' = w_staff s /\
    w_directions s = pre ++ w_directions s' /\
    told evs s s' (flat_map (heard_direction (w_staff s)) pre) (fst (notes_clefs (w_staff s) (notes_of vs) (w_clefs s)))
      (fst (notes_keys (w_staff s) (notes_of vs) (w_measureKeys s) (w_staffKeys s))) /\
    w_clefs s' = snd (notes_clefs (w_staff s) (notes_of vs) (w_clefs s)) /\
    (w_measureKeys s', w_staffKeys s') = snd (notes_keys (w_staff s) (notes_of vs) (w_measureKeys s) (w_staffKeys s)) /\
    line_of evs = voices_line (Z.to_nat (w_staff s)) (w_tick s) vs /\ w_tick s' = voices_end (w_tick s) vs /\
    written_voices (w_staff s) (w_tick s) vs (skeleton items).
Proof.
  induction vs as [|v vs IH]; intros s G O Hv Hd; cbn [write_voice_list].
  { exists [], [], s, []. split; [reflexivity | ]. split; [apply quiet_loud, quiet_nil; reflexivity | ]. split; [exact G | ]. split; [reflexivity | ].
    split; [reflexivity | ]. split; [apply told_nil; reflexivity | ]. repeat (split; [reflexivity | ]). constructor. }
  inversion Hv as [|v' vs' Hv1 Hv2]; subst v' vs'.
  destruct (write_voice_ok v s G O Hv1 Hd) as (i1 & e1 & s1 & A1 & A2 & A3 & A4 & A5 & A6 & A7 & A8 & A9 & A10 & A11).
  destruct (IH s1) as (i2 & e2 & s2 & pre & B1 & B2 & B3 & B4 & B5 & B6 & B7 & B8 & B9 & B10 & B11); auto.
  { unfold on_staff. rewrite A4. exact O. }
  { rewrite A5. constructor. }
  rewrite A4, A7, A10 in *. 
  assert (w_measureKeys s1 = fst (snd (notes_keys (w_staff s) (snd v) (w_measureKeys s) (w_staffKeys s))) /\
          w_staffKeys s1 = snd (snd (notes_keys (w_staff s) (snd v) (w_measureKeys s) (w_staffKeys s)))) as [M1 M2] by (rewrite <- A8; auto).
  rewrite M1, M2 in *.
  exists (i1 ++ i2), (e1 ++ e2), s2, (w_directions s). unfold notes_of. cbn [flat_map]. fold (notes_of vs).
  rewrite notes_clefs_app, notes_keys_app. cbv zeta. cbn [fst snd voices_line voices_end].
  assert (w_directions s2 = [] /\ pre = []) as [W2 ->].
  { rewrite A5 in B5. symmetry in B5. apply app_eq_nil in B5. tauto. }
  split; [eapply then_ok; [exact A1 | exact B1] | ]. split; [apply loud_app with (s1 := s1); assumption | ]. split; [exact B3 | ]. split; [exact B4 | ].
  split; [rewrite W2, app_nil_r; reflexivity | ]. split.
  { pose proof (told_app _ _ _ _ _ _ _ _ _ _ _ A6 B6) as Q. cbn [flat_map] in Q. rewrite app_nil_r in Q. exact Q. }
  split; [exact B7 | ]. split; [exact B8 | ]. split; [ | split; [exact B10 | ]].
  2: { rewrite skeleton_app. constructor; assumption. }
  unfold line_of in *. rewrite flat_map_app, A9, B9. reflexivity.
Qed.

(** ** What is left *)

Definition last_measure_keys (l : list KeyData) : list KeyData * list KeyData :=
  match l with k :: r => if k_tick k =? 0 then ([], l) else ([k], r) | [] => ([], []) end.

Lemma fold_clefs_ok l s : good s -> on_staff s ->
  let s' := fold_left (fun s c => writeClef (w_staff s) c s) l s in
  good s' /\ placed s s' /\ adds s s' (placed_clefs (w_staff s) (w_tick s) l) [] /\
  w_clefs s' = w_clefs s /\ w_measureKeys s' = w_measureKeys s /\ w_staffKeys s' = w_staffKeys s.
Proof.
  cbv zeta. revert s. induction l as [|c l IH]; intros s G O; cbn [fold_left].
  - split; [exact G | ]. split; [apply placed_refl | ]. split; [apply adds_refl; reflexivity | auto].
  - unfold on_staff in O. destruct (writeClef_ok (w_staff s) c s G) as (A & B & C); [lia | ].
    destruct (IH (writeClef (w_staff s) c s) A O) as (D1 & D2 & D3 & D4).
    split; [exact D1 | ]. split; [eapply placed_trans; [exact B | exact D2] | ]. split; [ | exact D4].
    replace (placed_clefs (w_staff s) (w_tick s) (c :: l)) with (placed_clefs (Z.max (w_staff s) 0) (w_tick s) [c] ++ placed_clefs (w_staff s) (w_tick s) l)
      by (rewrite Z.max_l by lia; reflexivity).
    eapply (adds_trans _ _ _ _ [] _ []); [exact C | exact D3].
Qed.

Lemma fold_keys_ok l s : good s -> on_staff s ->
  let s' := fold_left (fun s k => writeKey (w_staff s) k s) l s in
  good s' /\ placed s s' /\ adds s s' [] (map (placed_key (w_staff s) (w_tick s)) l) /\
  w_clefs s' = w_clefs s /\ w_measureKeys s' = w_measureKeys s /\ w_staffKeys s' = w_staffKeys s.
Proof.
  cbv zeta. revert s. induction l as [|c l IH]; intros s G O; cbn [fold_left].
  - split; [exact G | ]. split; [apply placed_refl | ]. split; [apply adds_refl; reflexivity | auto].
  - destruct (writeKey_ok (w_staff s) c s G) as (A & B & C).
    destruct (IH (writeKey (w_staff s) c s) A O) as (D1 & D2 & D3 & D4).
    split; [exact D1 | ]. split; [eapply placed_trans; [exact B | exact D2] | ]. split; [ | exact D4].
    cbn [map]. eapply (adds_trans _ _ _ [] [_] []); [exact C | exact D3].
Qed.

Lemma write_remaining_ok s : good s -> on_staff s ->
  exists items evs s', write_remaining s = Ok (items, s') /\ quiet items s s' evs /\ good s' /\ w_staff s' = w_staff s /\ w_tick s' = w_tick s /\ w_directions s' = w_directions s /\
    told evs s s' [] (placed_clefs (w_staff s) (w_tick s) (w_clefs s))
      (map (placed_key (-1) (w_tick s)) (fst (last_measure_keys (w_measureKeys s))) ++ map (placed_key (w_staff s) (w_tick s)) (w_staffKeys s)) /\
    w_measureKeys s' = snd (last_measure_keys (w_measureKeys s)).
Proof.
  intros G O. unfold write_remaining.
  set (s1 := fold_left (fun s c => writeClef (w_staff s) c s) (w_clefs s) (set_clefs [] s)).
  set (s2 := match w_measureKeys s with k :: r => if k_tick k =? 0 then s1 else set_measureKeys r (writeKey (-1) k s1) | [] => s1 end).
  set (s3 := fold_left (fun s k => writeKey (w_staff s) k s) (w_staffKeys s) (set_staffKeys [] s2)).
  assert (K : exists items evs s', flushBuffer s3 = Ok (items, s') /\ quiet items s s' evs /\ good s' /\ w_staff s' = w_staff s /\ w_tick s' = w_tick s /\ w_directions s' = w_directions s /\
    told evs s s' [] (placed_clefs (w_staff s) (w_tick s) (w_clefs s))
      (map (placed_key (-1) (w_tick s)) (fst (last_measure_keys (w_measureKeys s))) ++ map (placed_key (w_staff s) (w_tick s)) (w_staffKeys s)) /\
    w_measureKeys s' = snd (last_measure_keys (w_measureKeys s))).
  { destruct (fold_clefs_ok (w_clefs s) (set_clefs [] s)) as (A1 & A2 & A3 & A4 & A5 & A6); [apply (good_lists s [] [] G) | exact O | ]. fold s1 in A1, A2, A3, A4, A5, A6.
    change (w_staff (set_clefs [] s)) with (w_staff s) in A3. change (w_tick (set_clefs [] s)) with (w_tick s) in A3.
    assert (A2' : placed s s1) by (destruct A2; split; assumption).
    assert (A3' : adds s s1 (placed_clefs (w_staff s) (w_tick s) (w_clefs s)) []) by exact A3.
    assert (B : good s2 /\ placed s s2 /\ adds s s2 (placed_clefs (w_staff s) (w_tick s) (w_clefs s)) (map (placed_key (-1) (w_tick s)) (fst (last_measure_keys (w_measureKeys s)))) /\
      w_measureKeys s2 = snd (last_measure_keys (w_measureKeys s))).
    { unfold s2, last_measure_keys. destruct (w_measureKeys s) as [|k r] eqn:E; [cbn; rewrite A5; auto | ].
      destruct (k_tick k =? 0); [cbn [fst snd map]; rewrite A5; auto | ].
      destruct (writeKey_ok (-1) k s1 A1) as (C1 & C2 & C3). rewrite (pl_tick _ _ A2') in C3.
      split; [apply (good_lists _ [] r C1) | ]. split; [ | split; [ | reflexivity]].
      - pose proof (placed_trans _ _ _ A2' C2) as []. split; assumption.
      - pose proof (adds_trans _ _ _ _ _ _ _ A3' C3) as Q. rewrite app_nil_r in Q. exact Q. }
    destruct B as (B1 & B2 & B3 & B4).
    assert (O2 : on_staff (set_staffKeys [] s2)) by (unfold on_staff; cbn; rewrite (pl_staff _ _ B2); exact O).
    destruct (fold_keys_ok (w_staffKeys s) (set_staffKeys [] s2)) as (C1 & C2 & C3 & C4 & C5 & C6); [apply (good_lists s2 [] [] B1) | exact O2 | ]. fold s3 in C1, C2, C3, C4, C5, C6.
    change (w_staff (set_staffKeys [] s2)) with (w_staff s2) in C3. change (w_tick (set_staffKeys [] s2)) with (w_tick s2) in C3.
    rewrite (pl_staff _ _ B2), (pl_tick _ _ B2) in C3.
    assert (C2' : placed s s3) by (eapply placed_trans; [exact B2 | ]; destruct C2; split; assumption).
    pose proof (adds_trans _ s2 s3 _ _ _ _ B3 C3) as Q. rewrite app_nil_r in Q.
    destruct (flush_ok s3 C1) as (i & F1 & F2). exists i, (props_events s3), (flushed s3).
    split; [exact F1 | ]. split.
    { change i with ([] ++ i). change (props_events s3) with ([] ++ props_events s3). eapply quiet_app; [eapply adds_quiet; [exact C2' | exact Q] | exact F2]. }
    split; [apply good_flushed; exact C1 | ]. destruct C2' as [P1 P2 _ _ _ P6]. split; [exact P2 | ]. split; [exact P1 | ]. split; [exact P6 | ]. split.
    { pose proof (told_app _ _ _ _ _ _ _ _ _ _ _ (adds_told _ _ _ _ Q) (told_flush s3)) as T. cbn [app] in T. rewrite !app_nil_r in T. exact T. }
    change (w_measureKeys (flushed s3)) with (w_measureKeys s3). rewrite C5. exact B4. }
  destruct (w_clefs s) as [|c0 cs] eqn:E1; [ | exact K].
  destruct (w_measureKeys s) as [|k0 ks] eqn:E2; [ | exact K].
  destruct (w_staffKeys s) as [|k1 ks1] eqn:E3; [ | exact K].
  exists [], [], s. split; [reflexivity | ]. split; [apply quiet_nil; reflexivity | ]. split; [exact G | ]. repeat (split; [reflexivity | ]).
  split; [apply told_nil; reflexivity | exact E2].
Qed.

(** * Staves *)

Definition staff_ok (st : StaffData) : Prop := Forall voice_ok (s_voices st) /\ Forall direction_ok (s_directions st).

Definition staff_clefs (i t : Z) (st : StaffData) : list (nat * ClefData) :=
  let q := notes_clefs i (notes_of (s_voices st)) (skip_leading_clefs (s_clefs st)) in
  fst q ++ placed_clefs i (voices_end t (s_voices st)) (snd q).

Definition staff_keys (i t : Z) (st : StaffData) (mk : list KeyData) : list KeyData * list KeyData :=
  let q := notes_keys i (notes_of (s_voices st)) mk (s_keys st) in
  (fst q ++ map (placed_key (-1) (voices_end t (s_voices st))) (fst (last_measure_keys (fst (snd q)))) ++
   map (placed_key i (voices_end t (s_voices st))) (snd (snd q)), snd (last_measure_keys (fst (snd q)))).

Lemma writeVoices_ok st s : good s -> on_staff s -> staff_ok st ->
  exists items evs s', writeVoices wc st s = Ok (items, s') /\ loud items s s' evs /\ good s' /\ w_staff s' = w_staff s /\
    told evs s s' (flat_map (heard_direction (w_staff s)) (s_directions st)) (staff_clefs (w_staff s) (w_tick s) st)
      (fst (staff_keys (w_staff s) (w_tick s) st (w_measureKeys s))) /\
    w_measureKeys s' = snd (staff_keys (w_staff s) (w_tick s) st (w_measureKeys s)) /\
    line_of evs = voices_line (Z.to_nat (w_staff s)) (w_tick s) (s_voices st) /\ w_tick s' = voices_end (w_tick s) (s_voices st) /\
    written_voices (w_staff s) (w_tick s) (s_voices st) (skeleton items).
Proof.
  intros G O (Hv & Hd). unfold writeVoices.
  set (s0 := set_directions (s_directions st) (set_staffKeys (s_keys st) (set_clefs (skip_leading_clefs (s_clefs st)) s))).
  assert (G0 : good s0) by (destruct G; split; assumption).
  destruct (write_voice_list_ok (s_voices st) s0 G0 O Hv Hd) as (i1 & e1 & s1 & pre1 & A1 & A2 & A3 & A4 & A5 & A6 & A7 & A8 & A9 & A10 & A11).
  change (w_staff s0) with (w_staff s) in *. change (w_tick s0) with (w_tick s) in *. change (w_clefs s0) with (skip_leading_clefs (s_clefs st)) in *.
  change (w_staffKeys s0) with (s_keys st) in *. change (w_measureKeys s0) with (w_measureKeys s) in *. change (w_directions s0) with (s_directions st) in *.
  assert (O1 : on_staff s1) by (unfold on_staff; rewrite A4; exact O).
  assert (Hd1 : Forall direction_ok (w_directions s1)) by (rewrite A5 in Hd; apply Forall_app in Hd; apply Hd).
  destruct (writeDirections_ok NotesEnd s1 A3 O1 Hd1 I) as (i2 & e2 & s2 & pre2 & B1 & B2 & B3 & B4 & B5 & B6 & B7 & _).
  assert (O2 : on_staff s2) by (unfold on_staff; rewrite (st_staff _ _ B3); exact O1).
  destruct (write_remaining_ok s2 B4 O2) as (i3 & e3 & s3 & C1 & C2 & C3 & C4 & C5 & C6 & C7 & C8).
  destruct (still_placed _ _ B3) as (D1 & D2 & D3). rewrite D1, D2, D3, (st_tick _ _ B3), (st_staff _ _ B3), A4, A7, A10 in *.
  assert (w_measureKeys s1 = fst (snd (notes_keys (w_staff s) (notes_of (s_voices st)) (w_measureKeys s) (s_keys st))) /\
          w_staffKeys s1 = snd (snd (notes_keys (w_staff s) (notes_of (s_voices st)) (w_measureKeys s) (s_keys st)))) as [M1 M2] by (rewrite <- A8; auto).
  rewrite M1, M2 in *.
  exists ([] ++ [] ++ [] ++ i1 ++ i2 ++ i3), (e1 ++ e2 ++ e3), s3. split.
  { eapply then_ok; [reflexivity | ]. eapply then_ok; [reflexivity | ]. eapply then_ok; [reflexivity | ]. eapply then_ok; [exact A1 | ].
    eapply then_ok; [exact B1 | exact C1]. }
  split.
  { cbn [app]. apply loud_app with (s1 := s1); [exact A2 | ]. apply quiet_loud. apply quiet_app with (s1 := s2); assumption. }
  split; [exact C3 | ]. split; [exact C4 | ]. split.
  { unfold staff_clefs, staff_keys. cbv zeta. cbn [fst snd].
    assert (s_directions st = pre1 ++ pre2) as -> by (rewrite A5, B5, (B7 eq_refl), app_nil_r; reflexivity).
    rewrite flat_map_app.
    pose proof (told_app _ _ _ _ _ _ _ _ _ _ _ A6 (told_app _ _ _ _ _ _ _ _ _ _ _ B6 C7)) as Q. cbn [app] in Q. rewrite app_nil_r in Q.
    destruct Q as [Q1 Q2 Q3 Q4]. split; assumption. }
  split; [exact C8 | ]. split; [ | split; [exact C5 | ]].
  2: { cbn [app]. rewrite !skeleton_app, (proj1 B2), (proj1 C2), app_nil_r. exact A11. }
  unfold line_of in *. rewrite !flat_map_app. destruct B2 as (_ & B2 & _). destruct C2 as (_ & C2 & _). unfold line_of in B2, C2.
  rewrite B2, C2, A9, app_nil_r. reflexivity.
Qed.

Fixpoint staves_line (i : Z) (t : Z) (l : list StaffData) : list (option (nat * NoteData)) :=
  match l with [] => [] | st :: r => voices_line (Z.to_nat i) t (s_voices st) ++ staves_line (i + 1) (voices_end t (s_voices st)) r end.
Fixpoint staves_end (t : Z) (l : list StaffData) : Z :=
  match l with [] => t | st :: r => staves_end (voices_end t (s_voices st)) r end.
Fixpoint staves_directions (i : Z) (l : list StaffData) : list (nat * DirectionData) :=
  match l with [] => [] | st :: r => flat_map (heard_direction i) (s_directions st) ++ staves_directions (i + 1) r end.
Fixpoint staves_clefs (i t : Z) (l : list StaffData) : list (nat * ClefData) :=
  match l with [] => [] | st :: r => staff_clefs i t st ++ staves_clefs (i + 1) (voices_end t (s_voices st)) r end.
Fixpoint staves_keys (i t : Z) (l : list StaffData) (mk : list KeyData) : list KeyData :=
  match l with
  | [] => []
  | st :: r => fst (staff_keys i t st mk) ++ staves_keys (i + 1) (voices_end t (s_voices st)) r (snd (staff_keys i t st mk))
  end.

Inductive written_staves : Z -> Z -> list StaffData -> list music_data -> Prop :=
| ws_nil i t : written_staves i t [] []
| ws_cons i t st r xs ys : written_voices i t (s_voices st) xs -> written_staves (i + 1) (voices_end t (s_voices st)) r ys ->
    written_staves i t (st :: r) (xs ++ ys).

Lemma write_staves_ok l : forall s, good s -> 0 <= w_staff s -> w_staff s + Z.of_nat (List.length l) = N -> Forall staff_ok l ->
  exists items evs s', write_staves wc l s = Ok (items, s') /\ loud items s s' evs /\ good s' /\
    told evs s s' (staves_directions (w_staff s) l) (staves_clefs (w_staff s) (w_tick s) l) (staves_keys (w_staff s) (w_tick s) l (w_measureKeys s)) /\
    line_of evs = staves_line (w_staff s) (w_tick s) l /\ w_tick s' = staves_end (w_tick s) l /\
    written_staves (w_staff s) (w_tick s) l (skeleton items).
Proof.
  induction l as [|st l IH]; intros s G S0 SN Hst; cbn [write_staves].
  { exists [], [], s. split; [reflexivity | ]. split; [apply quiet_loud, quiet_nil; reflexivity | ]. split; [exact G | ]. split; [apply told_nil; reflexivity | ]. split; [reflexivity | ]. split; [reflexivity | ]. constructor. }
  inversion Hst as [|st' l' H1 H2]; subst st' l'. cbn [List.length] in SN.
  destruct (writeVoices_ok st s G) as (i1 & e1 & s1 & A1 & A2 & A3 & A4 & A5 & A6 & A7 & A8 & A9); [unfold on_staff; lia | exact H1 | ].
  set (s2 := next_staff s1). assert (G2 : good s2) by (destruct A3; split; assumption).
  assert (W2 : w_staff s2 = w_staff s + 1) by (cbn; rewrite A4; reflexivity).
  destruct (IH s2 G2) as (i3 & e3 & s3 & B1 & B2 & B3 & B4 & B5 & B6 & B7); [rewrite W2; clear - S0; lia | rewrite W2; clear - SN; lia | exact H2 | ].
  rewrite W2 in *. change (w_tick s2) with (w_tick s1) in *. change (w_measureKeys s2) with (w_measureKeys s1) in *. rewrite A8, A6 in *.
  exists (i1 ++ [] ++ i3), (e1 ++ [] ++ e3), s3. split; [eapply then_ok; [exact A1 | eapply then_ok; [reflexivity | exact B1]] | ].
  split; [apply loud_app with (s1 := s1); [exact A2 | ]; apply loud_app with (s1 := s2); [apply quiet_loud, quiet_nil; reflexivity | exact B2] | ].
  split; [exact B3 | ]. cbn [staves_directions staves_clefs staves_keys staves_line staves_end]. split.
  { apply (told_app _ _ _ _ _ _ _ _ _ _ _ A5). destruct B4 as [Q1 Q2 Q3 Q4]. split; assumption. }
  split; [ | split; [exact B6 | ]].
  2: { cbn [app]. rewrite skeleton_app. constructor; assumption. }
  cbn [app]. unfold line_of in *. rewrite flat_map_app, A7, B5. reflexivity.
Qed.

(** * The measure *)

Fixpoint leading_keys (l : list KeyData) : list KeyData * list KeyData :=
  match l with k :: r => if k_tick k =? 0 then (k :: fst (leading_keys r), snd (leading_keys r)) else ([], l) | [] => ([], []) end.

Fixpoint first_clefs (i : Z) (l : list StaffData) : list (nat * ClefData) :=
  match l with [] => [] | st :: r => placed_clefs i 0 (leading_clefs (s_clefs st)) ++ first_clefs (i + 1) r end.

Definition first_keys (l : list KeyData) : list KeyData := map (fun k => placed_key (k_staff k) 0 k) (fst (leading_keys l)).

Lemma leading_clefs_ok l i s : good s -> -1 <= i < N ->
  let s' := fold_left (fun s x => writeClef i x s) l s in
  good s' /\ placed s s' /\ adds s s' (placed_clefs (Z.max i 0) (w_tick s) l) [] /\ w_measureKeys s' = w_measureKeys s.
Proof.
  cbv zeta. intros G H. revert s G. induction l as [|c l IH]; intros s G; cbn [fold_left].
  - split; [exact G | ]. split; [apply placed_refl | ]. split; [apply adds_refl; reflexivity | auto].
  - destruct (writeClef_ok i c s G H) as (A & B & C). destruct (IH (writeClef i c s) A) as (D1 & D2 & D3 & D4).
    split; [exact D1 | ]. split; [eapply placed_trans; [exact B | exact D2] | ]. split; [ | exact D4].
    change (placed_clefs (Z.max i 0) (w_tick s) (c :: l)) with (placed_clefs (Z.max i 0) (w_tick s) [c] ++ placed_clefs (Z.max i 0) (w_tick s) l).
    eapply (adds_trans _ _ _ _ [] _ []); [exact C | exact D3].
Qed.

Lemma write_leading_clefs_ok l : forall i s, good s -> w_tick s = 0 -> 0 <= i -> i + Z.of_nat (List.length l) = N ->
  let s' := write_leading_clefs wc i l s in
  good s' /\ placed s s' /\ adds s s' (first_clefs i l) [] /\ w_measureKeys s' = w_measureKeys s.
Proof.
  cbv zeta. induction l as [|st l IH]; intros i s G T H0 HL; cbn [write_leading_clefs first_clefs].
  - split; [exact G | ]. split; [apply placed_refl | ]. split; [apply adds_refl; reflexivity | auto].
  - cbn [List.length] in HL. rewrite Hstaves.
    set (j := if 1 <? N then i else -1). assert (J : -1 <= j < N /\ Z.max j 0 = i) by (unfold j; destruct (1 <? N) eqn:E; lia).
    destruct (leading_clefs_ok (leading_clefs (s_clefs st)) j s G (proj1 J)) as (A & B & C & D).
    cbv zeta in *. set (s1 := fold_left _ _ s) in *. rewrite (proj2 J), T in C.
    destruct (IH (i + 1) s1 A) as (E1 & E2 & E3 & E4); [rewrite (pl_tick _ _ B); exact T | lia | lia | ].
    split; [exact E1 | ]. split; [eapply placed_trans; [exact B | exact E2] | ]. split; [ | congruence].
    eapply (adds_trans _ _ _ _ [] _ []); [exact C | exact E3].
Qed.

Lemma write_leading_keys_ok l : forall s, good s -> w_tick s = 0 -> w_measureKeys s = l ->
  let s' := write_leading_keys l s in
  good s' /\ placed s s' /\ adds s s' [] (first_keys l) /\ w_measureKeys s' = snd (leading_keys l).
Proof.
  cbv zeta. induction l as [|k l IH]; intros s G T E; cbn [write_leading_keys leading_keys]; unfold first_keys in *; cbn [leading_keys] in *.
  - split; [exact G | ]. split; [apply placed_refl | ]. split; [apply adds_refl; reflexivity | auto].
  - destruct (k_tick k =? 0).
    + cbn [fst snd map] in *. destruct (writeKey_ok (k_staff k) k s G) as (A & B & C). rewrite T in C.
      destruct (IH (set_measureKeys l (writeKey (k_staff k) k s))) as (D1 & D2 & D3 & D4); [apply (good_lists _ [] l A) | exact T | reflexivity | ].
      split; [exact D1 | ]. split; [eapply placed_trans; [ | exact D2]; destruct B; split; assumption | ]. split; [ | exact D4].
      eapply (adds_trans _ (set_measureKeys l (writeKey (k_staff k) k s)) _ [] [_] []); [exact C | exact D3].
    + split; [exact G | ]. split; [apply placed_refl | ]. split; [apply adds_refl; reflexivity | auto].
Qed.

(** The reader starts where the writer does. *)
Definition starts_together : Prop := wc_isFirst wc = true \/ rc_current rc = g.

Lemma writeProperties_ok m : starts_together -> Z.of_nat (List.length (m_staves m)) = N ->
  exists s, writeProperties wc m (initial_wstate m) = Ok ([], s) /\ good s /\ w_tick s = 0 /\
    synced s (initial_rstate rc) /\ pending_clefs s = first_clefs 0 (m_staves m) /\ pending_keys s = first_keys (m_keys m) /\
    w_measureKeys s = snd (leading_keys (m_keys m)).
Proof.
  intros St L. unfold writeProperties.
  assert (exists s1, (if wc_isFirst wc then
       obind (element_value PositiveDivisionsValue (wc_ticksPerQuarter wc)) (fun d =>
         Ok ([], set_divisions_staves d
                   (if 1 <? Z.of_nat (List.length (m_staves m)) then Some (Z.of_nat (List.length (m_staves m))) else None) (initial_wstate m)))
     else Ok ([] : list music_data, initial_wstate m)) = Ok ([], s1) /\ good s1 /\ w_tick s1 = 0 /\ w_measureKeys s1 = m_keys m /\
     (wc_isFirst wc = true -> exists d, p_divisions (w_props s1) = Some d) /\ p_clefs (w_props s1) = [] /\ p_keys (w_props s1) = []) as (s1 & A1 & A2 & A3 & A4 & A5 & A6 & A7).
  { destruct (wc_isFirst wc).
    - destruct (positive_value g) as (q & Q1 & Q2 & Q3); [lia | ]. rewrite Hticks, Q1. cbn [obind]. eexists. split; [reflexivity | ].
      split; [split; cbn; [lia | constructor | ]; intros d [= <-]; exact Q3 | ]. cbn. split; [reflexivity | ]. split; [reflexivity | ]. split; [eauto | auto].
    - eexists. split; [reflexivity | ]. split; [split; cbn; [lia | constructor | discriminate] | ]. cbn. repeat split; try reflexivity. discriminate. }
  set (s2 := if ts_implicit (m_time m) then s1 else add_time (time_element (m_time m)) s1).
  assert (B : good s2 /\ w_tick s2 = 0 /\ w_measureKeys s2 = m_keys m /\ adds s1 s2 [] []).
  { unfold s2. destruct (ts_implicit (m_time m)); [split; [exact A2 | split; [exact A3 | split; [exact A4 | apply adds_refl; reflexivity]]] | ].
    split; [destruct A2; split; assumption | ]. split; [exact A3 | ]. split; [exact A4 | ].
    unfold adds, pending_clefs, pending_keys. cbn. rewrite !app_nil_r. auto. }
  destruct B as (B1 & B2 & B3 & B4).
  destruct (write_leading_clefs_ok (m_staves m) 0 s2 B1 B2) as (C1 & C2 & C3 & C4); [lia | lia | ]. set (s3 := write_leading_clefs wc 0 (m_staves m) s2) in *.
  destruct (write_leading_keys_ok (w_measureKeys s3) s3 C1) as (D1 & D2 & D3 & D4); [rewrite (pl_tick _ _ C2); exact B2 | reflexivity | ].
  set (s4 := write_leading_keys (w_measureKeys s3) s3) in *. rewrite C4, B3 in D3, D4.
  assert (T4 : w_tick s4 = 0) by (rewrite (pl_tick _ _ D2), (pl_tick _ _ C2); exact B2).
  set (s5 := if (wc_measureIndex wc =? 0) && (w_tick s4 =? 0) then match wc_transposition wc with Some t => add_transpose t s4 | None => s4 end else s4).
  assert (E : good s5 /\ w_tick s5 = 0 /\ w_measureKeys s5 = snd (leading_keys (m_keys m)) /\ adds s4 s5 [] []).
  { assert (E0 : good s4 /\ w_tick s4 = 0 /\ w_measureKeys s4 = snd (leading_keys (m_keys m)) /\ adds s4 s4 [] []) by
      (split; [exact D1 | split; [exact T4 | split; [exact D4 | apply adds_refl; reflexivity]]]).
    unfold s5. destruct (_ && _); [ | exact E0]. destruct (wc_transposition wc); [ | exact E0].
    split; [destruct D1; split; assumption | ]. split; [exact T4 | ]. split; [exact D4 | ].
    unfold adds, pending_clefs, pending_keys. cbn. rewrite !app_nil_r. auto. }
  destruct E as (E1 & E2 & E3 & E4).
  pose proof (adds_trans _ _ _ _ _ _ _ B4 (adds_trans _ _ _ _ _ _ _ C3 (adds_trans _ _ _ _ _ _ _ D3 E4))) as (Q1 & Q2 & Q3).
  unfold pending_clefs at 2 in Q1. unfold pending_keys at 2 in Q2. rewrite A6 in Q1. rewrite A7 in Q2. cbn [map app] in Q1, Q2. rewrite !app_nil_r in Q1, Q2.
  exists s5. split.
  { change (@nil music_data) with (@nil music_data ++ [] ++ [] ++ [] ++ []). eapply then_ok; [exact A1 | ].
    eapply then_ok; [reflexivity | ]. eapply then_ok; [reflexivity | ]. eapply then_ok; [reflexivity | ]. reflexivity. }
  split; [exact E1 | ]. split; [exact E2 | ]. split; [ | auto].
  split; [cbn; symmetry; exact E2 | ]. split; [cbn; rewrite repeat_length; reflexivity | ].
  destruct St as [F | F]; [right; rewrite Q3; auto | left; exact F].
Qed.

(** A barline as it is read back. *)
Definition heard_barline (t : Z) (b : BarlineData) : BarlineData :=
  let location := barlinePlacementMap_toApi (match xb_location (barline_element b) with Some l => l | None => barlinePlacementMap_toCore api_HorizontalAlignment_left end) in
  mkBarline (if is_align location api_HorizontalAlignment_right then TICK_TIME_INFINITY else t)
    (match xb_style (barline_element b) with Some s => barlineMap_toApi s | None => api_BarlineType_unspecified end)
    (match xb_ending (barline_element b) with
     | None => api_EndingType_none
     | Some (StartStopDiscontinue_start, _) => api_EndingType_start
     | Some (StartStopDiscontinue_stop, _) => api_EndingType_stop
     | Some (StartStopDiscontinue_discontinue, _) => api_EndingType_discontinue
     end)
    (match xb_ending (barline_element b) with Some (_, n :: _) => n | _ => 0 end)
    (match xb_repeat (barline_element b) with Some _ => true | None => false end)
    location.

Fixpoint bars_until (t : Z) (l : list BarlineData) : list BarlineData * list BarlineData :=
  match l with b :: r => if b_tick b <=? t then (b :: fst (bars_until t r), snd (bars_until t r)) else ([], l) | [] => ([], []) end.

Definition add_bars (bs : list BarlineData) (r : rstate) : rstate :=
  match bs with
  | [] => r
  | _ :: _ => mkR (r_current r) (r_tick r) (r_voice r) false (r_staves r) (r_keys r) (r_barlines r ++ map (heard_barline (r_tick r)) bs) (r_transpose r)
  end.

Lemma read_barlines t l r f : read_items rc (fst (writeBarlines t l)) f r =
  Ok (add_bars (fst (bars_until t l)) r) /\ snd (writeBarlines t l) = snd (bars_until t l) /\ skeleton (fst (writeBarlines t l)) = [].
Proof.
  revert r. induction l as [|b l IH]; intros r; cbn [writeBarlines bars_until]; [auto | ].
  destruct (b_tick b <=? t); [ | auto].
  specialize (IH (parseBarline (barline_element b) r)). destruct (writeBarlines t l) as [x y]. cbn [fst snd] in *. destruct IH as (IH1 & IH2 & IH3).
  split; [ | split; [exact IH2 | exact IH3]].
  cbn [read_items parseMusicDataChoice obind]. rewrite IH1. f_equal.
  assert (P : parseBarline (barline_element b) r = mkR (r_current r) (r_tick r) (r_voice r) false (r_staves r) (r_keys r) (r_barlines r ++ [heard_barline (r_tick r) b]) (r_transpose r)) by reflexivity.
  rewrite P. unfold add_bars. cbn [r_current r_tick r_voice r_backup r_staves r_keys r_barlines r_transpose].
  destruct (fst (bars_until t l)) as [|b1 bs]; [reflexivity | ]. cbn [map]. rewrite <- app_assoc. reflexivity.
Qed.

Lemma read_prints k f r : read_items rc (repeat MPrint k) f r = Ok (match k with O => r | S _ => r_at (r_tick r) (r_voice r) false r end) /\
  skeleton (repeat MPrint k) = [].
Proof.
  revert r. induction k as [|k IH]; intros r; [auto | ]. cbn [repeat read_items parseMusicDataChoice obind next_chord].
  destruct (IH (r_at (r_tick r) (r_voice r) false r)) as [A B]. rewrite A. split; [destruct k; reflexivity | exact B].
Qed.

Definition measure_ok (m : MeasureData) : Prop :=
  Z.of_nat (List.length (m_staves m)) = N /\ Forall staff_ok (m_staves m).

Definition bar_events (t : Z) (l : list BarlineData) : list event := map (fun b => EBar (heard_barline t b)) l.

Lemma bar_events_of t l : clefs_of (bar_events t l) = [] /\ keys_of (bar_events t l) = [] /\ line_of (bar_events t l) = [] /\
  dirs_of (bar_events t l) = [] /\ bars_of (bar_events t l) = map (heard_barline t) l.
Proof.
  unfold clefs_of, keys_of, line_of, dirs_of, bars_of, bar_events.
  induction l as [|b l (A & B & C & D & E)]; cbn [map flat_map app] in *; [auto 6 | ]. rewrite A, B, C, D, E. auto 6.
Qed.

Lemma bar_events_apply t l p : fold_left apply_event (bar_events t l) p = p.
Proof. revert p. induction l as [|b l IH]; intros p; [reflexivity | apply IH]. Qed.

Theorem measure_sync m : starts_together -> measure_ok m ->
  backups_of (staves_line 0 0 (m_staves m)) <= 2147483647 ->
  exists items evs r, write_data wc m = Ok items /\ read_items rc items false (initial_rstate rc) = Ok r /\ after evs (initial_rstate rc) r /\
    line_of evs = staves_line 0 0 (m_staves m) /\
    dirs_of evs = staves_directions 0 (m_staves m) /\
    clefs_of evs = first_clefs 0 (m_staves m) ++ staves_clefs 0 0 (m_staves m) /\
    keys_of evs = first_keys (m_keys m) ++ staves_keys 0 0 (m_staves m) (snd (leading_keys (m_keys m))) /\
    bars_of evs = map (heard_barline 0) (fst (bars_until 0 (m_barlines m))) ++
      map (heard_barline (staves_end 0 (m_staves m))) (fst (bars_until TICK_TIME_INFINITY (snd (bars_until 0 (m_barlines m))))) /\
    r_current r = g /\ written_staves 0 0 (m_staves m) (skeleton items).
Proof.
  intros St (L & Hst) HB. unfold write_data.
  pose proof (read_barlines 0 (m_barlines m)) as RB1.
  destruct (writeBarlines 0 (m_barlines m)) as [bars rest] eqn:EB. cbn [fst snd] in RB1.
  destruct (writeProperties_ok m St L) as (s1 & P1 & P2 & P3 & P4 & P5 & P6 & P7).
  set (s2 := set_previous (mkW 0 0 0 (w_chord s1) (w_previousChord s1) (w_props s1) (w_measureKeys s1) (w_clefs s1) (w_staffKeys s1) (w_directions s1))).
  assert (G2 : good s2) by (destruct P2; split; [cbn; lia | assumption | assumption]).
  destruct (write_staves_ok (m_staves m) s2 G2) as (i3 & e3 & s3 & A1 & A2 & A3 & A4 & A5 & A6 & A7); [cbn; lia | cbn; lia | exact Hst | ].
  destruct (flush_ok s3 A3) as (i4 & F1 & F2). cbn [w_staff w_tick s2 set_previous] in A5, A6.
  change (w_staff s2) with 0 in A4. change (w_tick s2) with 0 in A4. change (w_measureKeys s2) with (w_measureKeys s1) in A4. rewrite P7 in A4.
  assert (W : (w_add (repeat MPrint (wc_prints wc)) ;; writeProperties wc m ;; writeStaves wc (m_staves m) ;; flushBuffer) (initial_wstate m) =
    Ok (repeat MPrint (wc_prints wc) ++ [] ++ ([] ++ i3) ++ i4, flushed s3)).
  { eapply then_ok; [reflexivity | ]. eapply then_ok; [exact P1 | ]. eapply then_ok; [ | exact F1].
    unfold writeStaves. eapply then_ok; [reflexivity | exact A1]. }
  rewrite W. cbn [omap obind fst app].
  pose proof (read_barlines TICK_TIME_INFINITY rest) as RB2.
  set (r0 := initial_rstate rc) in *.
  set (last := fst (writeBarlines TICK_TIME_INFINITY rest)) in *.
  set (b1 := fst (bars_until 0 (m_barlines m))) in *.
  assert (Hrest : rest = snd (bars_until 0 (m_barlines m))) by (apply (RB1 r0 false)).
  set (b2 := fst (bars_until TICK_TIME_INFINITY rest)) in *.
  (* the reader *)
  set (evs := bar_events 0 b1 ++ e3 ++ props_events s3 ++ bar_events (staves_end 0 (m_staves m)) b2).
  assert (NL : next_chord last false = false) by (apply skeleton_next; apply (RB2 r0 false)).
  set (ra := add_bars b1 r0).
  assert (Aa : after (bar_events 0 b1) r0 ra /\ r_tick ra = 0 /\ r_current ra = r_current r0 /\ r_backup ra = false /\ r_voice ra = 0).
  { destruct (bar_events_of 0 b1) as (_ & K & _ & _ & B). split; [ | unfold ra; destruct b1; repeat split; reflexivity].
    split; [rewrite bar_events_apply; unfold ra; destruct b1; reflexivity | | ]; rewrite ?K, ?B; unfold ra; destruct b1; cbn; rewrite ?app_nil_r; reflexivity. }
  destruct Aa as (Aa & Ta & Ca & Ba & Va).
  set (rb := match wc_prints wc with O => ra | S _ => r_at (r_tick ra) (r_voice ra) false ra end).
  assert (Ab : after [] ra rb /\ r_tick rb = 0 /\ r_current rb = r_current r0 /\ r_backup rb = false /\ r_voice rb = 0).
  { split; [unfold rb; destruct (wc_prints wc); apply after_nil; reflexivity | ]. unfold rb. destruct (wc_prints wc); cbn; auto. }
  destruct Ab as (Ab & Tb & Cb & Bb & Vb).
  assert (Sb : synced s2 rb).
  { split; [exact Tb | ]. split; [rewrite (after_length _ _ _ Ab), (after_length _ _ _ Aa); apply P4 | ]. rewrite Cb. apply P4. }
  assert (L4 : loud (i3 ++ i4) s2 (flushed s3) (e3 ++ props_events s3)) by (apply loud_app with (s1 := s3); [exact A2 | apply quiet_loud; exact F2]).
  destruct L4 as (N4 & L4). destruct (L4 rb Sb Bb) as (rc' & R1 & R2 & R3 & R4).
  { rewrite Vb, backups_app. unfold backups at 1. rewrite A5. assert (backups (props_events s3) = 0) as ->.
    { unfold backups. destruct (props_events_of s3) as (_ & _ & -> & _). reflexivity. } lia. }
  { lia. }
  set (rd := add_bars b2 rc').
  assert (Tc : r_tick rc' = staves_end 0 (m_staves m)) by (destruct R2 as (R2 & _); rewrite R2; exact A6).
  assert (Ad : after (bar_events (staves_end 0 (m_staves m)) b2) rc' rd).
  { destruct (bar_events_of (staves_end 0 (m_staves m)) b2) as (_ & K & _ & _ & B). rewrite <- Tc.
    rewrite <- Tc in K, B. split; [rewrite bar_events_apply; unfold rd; destruct b2; reflexivity | | ]; rewrite ?K, ?B; unfold rd; destruct b2; cbn; rewrite ?app_nil_r; reflexivity. }
  exists (bars ++ (repeat MPrint (wc_prints wc) ++ i3 ++ i4) ++ last), evs, rd.
  split; [reflexivity | ]. split.
  { rewrite read_app. assert (Q1 : forall f, read_items rc bars f r0 = Ok ra) by (intros f; exact (proj1 (RB1 r0 f))). rewrite Q1. cbn [obind].
    rewrite read_app, NL, read_app. assert (Q2 : forall f, read_items rc (repeat MPrint (wc_prints wc)) f ra = Ok rb) by (intros f; exact (proj1 (read_prints (wc_prints wc) f ra))). rewrite Q2. cbn [obind].
    rewrite R1. cbn [obind]. exact (proj1 (RB2 rc' false)). }
  split.
  { unfold evs. eapply after_app; [exact Aa | ]. change (e3 ++ props_events s3 ++ bar_events (staves_end 0 (m_staves m)) b2) with ([] ++ e3 ++ props_events s3 ++ bar_events (staves_end 0 (m_staves m)) b2).
    eapply after_app; [exact Ab | ]. rewrite app_assoc. eapply after_app; [exact R3 | exact Ad]. }
  destruct (bar_events_of 0 b1) as (X1 & X2 & X3 & X4 & X5). destruct (bar_events_of (staves_end 0 (m_staves m)) b2) as (Y1 & Y2 & Y3 & Y4 & Y5).
  destruct (props_events_of s3) as (Z1 & Z2 & Z3 & Z4 & Z5). destruct A4 as [D1 D2 D3 D4].
  assert (PC : pending_clefs s2 = first_clefs 0 (m_staves m)) by (rewrite <- P5; unfold pending_clefs; rewrite P3; reflexivity).
  assert (PK : pending_keys s2 = first_keys (m_keys m)) by (rewrite <- P6; unfold pending_keys; rewrite P3; reflexivity).
  unfold evs, line_of, dirs_of, clefs_of, keys_of, bars_of in *. rewrite !flat_map_app.
  rewrite X1, X2, X3, X4, X5, Y1, Y2, Y3, Y4, Y5, Z1, Z2, Z3, Z4, Z5, A5, D1, D4. rewrite !app_nil_r. cbn [app].
  split; [reflexivity | ]. split; [reflexivity | ]. split; [rewrite D2, PC; reflexivity | ]. split; [rewrite D3, PK; reflexivity | ].
  split; [subst b1 b2; rewrite Hrest; reflexivity | ].
  split; [destruct R2 as (_ & _ & [C | [d D]]); [ | discriminate D]; unfold rd; destruct b2; exact C | ].
  rewrite !skeleton_app. assert (skeleton bars = []) as -> by (apply (RB1 r0 false)). assert (skeleton last = []) as -> by (apply (RB2 r0 false)).
  rewrite (proj2 (read_prints (wc_prints wc) false r0)), (proj1 F2), !app_nil_r. exact A7.
Qed.

End Sync.
