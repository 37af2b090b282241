(** Whole measures, parts and scores, written and read back. *)
From Coq Require Import QArith.
From Verif Require Import Proofs.Tac.
From Coq Require Import Sorting.Permutation Sorting.Sorted.
From Verif Require Import Model.Base Model.Text Model.Strings Model.Ticks Model.CommaInts Model.Decimals Model.CoreEnums Model.ApiEnums
  Model.ConverterTables Model.MeasureTypes Model.MeasureWriter Model.MeasureReader Model.PartInfo Model.Scores.
From Verif Require Import Spec.Numerals Spec.Voices Spec.RoundTrip Spec.Changes Spec.Directions Spec.TimeSignatures Spec.PartReading Spec.WholeScores.
From Verif Require Import Proofs.StringsProofs Proofs.TicksProofs Proofs.MeasureSync Proofs.MeasureReadProofs Proofs.MeasureTimes Proofs.MeasureBack
  Proofs.DirectionsBack Proofs.ChangesBack Proofs.PartBack Proofs.ScoreWrites.
Import ListNotations.
Open Scope Z_scope.

(** * Reading *)

Lemma next_chord_app a b f : next_chord (a ++ b) f = next_chord a (next_chord b f).
Proof. induction a as [|x a IH]; [reflexivity | ]. destruct x; cbn [app next_chord]; auto. Qed.

Lemma read_items_app c a b f : forall r, read_items c (a ++ b) f r = obind (read_items c a (next_chord b f) r) (read_items c b f).
Proof.
  induction a as [|x a IH]; intros r; [reflexivity | ]. cbn [app read_items]. rewrite next_chord_app.
  destruct (parseMusicDataChoice c x (next_chord a (next_chord b f)) r); cbn [obind]; auto.
Qed.

(** Whatever is read but barlines and transpositions leaves these as they are. *)
Lemma clefs_transpose l : forall r r', importClefs l r = Ok r' -> r_transpose r' = r_transpose r /\ r_tick r' = r_tick r.
Proof.
  induction l as [|k l IH]; intros r r' H; cbn [importClefs] in H; [injection H as <-; auto | ].
  apply obind_ok in H. destruct H as (r1 & H1 & H). destruct (IH _ _ H) as [-> ->]. unfold importClef in H1. apply obind_ok in H1. destruct H1 as (st & _ & H1).
  injection H1 as <-. auto.
Qed.

Definition quiet (x : music_data) : Prop := match x with MProperties p => p_transpose p = [] | _ => True end.

Lemma step_transpose c x next r r' : parseMusicDataChoice c x next r = Ok r' -> quiet x -> r_transpose r' = r_transpose r.
Proof.
  intros H Q. destruct x as [n | d | d | d | h | p | b | | ]; cbn [parseMusicDataChoice] in H; try (injection H as <-; reflexivity).
  - unfold parseNote in H. repeat (apply obind_ok in H; let v := fresh "v" in destruct H as (v & _ & H)). injection H as <-. reflexivity.
  - unfold parseBackup in H. repeat (apply obind_ok in H; let v := fresh "v" in destruct H as (v & _ & H)). destruct (_ <? _).
    + apply obind_ok in H. destruct H as (pb & _ & H). injection H as <-. reflexivity.
    + injection H as <-. reflexivity.
  - unfold parseForward in H. repeat (apply obind_ok in H; let v := fresh "v" in destruct H as (v & _ & H)). injection H as <-. reflexivity.
  - unfold parseDirectionImpl in H. repeat (apply obind_ok in H; let v := fresh "v" in destruct H as (v & _ & H)). injection H as <-. reflexivity.
  - unfold parseDirectionImpl in H. repeat (apply obind_ok in H; let v := fresh "v" in destruct H as (v & _ & H)). injection H as <-. reflexivity.
  - unfold parseProperties in H. apply obind_ok in H. destruct H as (cur & _ & H). apply obind_ok in H. destruct H as (r3 & Hr & H).
    apply clefs_transpose in Hr. rewrite read_keys in Hr. cbn [r_transpose r_tick r_set_current r_at] in Hr. injection H as <-. cbn in Q. rewrite Q. apply Hr.
Qed.

Lemma items_transpose c items f : forall r r', read_items c items f r = Ok r' -> Forall quiet items -> r_transpose r' = r_transpose r.
Proof.
  induction items as [|x items IH]; intros r r' H Q; cbn [read_items] in H; [injection H as <-; reflexivity | ].
  apply obind_ok in H. destruct H as (r1 & H1 & H). inversion Q; subst. rewrite (IH _ _ H) by assumption. eapply step_transpose; eassumption.
Qed.

Lemma step_no_bar c x next r r' : parseMusicDataChoice c x next r = Ok r' -> bars_in [x] = [] -> r_barlines r' = r_barlines r.
Proof.
  intros H N. destruct x as [n | d | d | d | h | p | b | | ]; cbn [parseMusicDataChoice] in H; try (injection H as <-; reflexivity).
  - unfold parseNote in H. repeat (apply obind_ok in H; let v := fresh "v" in destruct H as (v & _ & H)). injection H as <-. reflexivity.
  - unfold parseBackup in H. repeat (apply obind_ok in H; let v := fresh "v" in destruct H as (v & _ & H)). destruct (_ <? _).
    + apply obind_ok in H. destruct H as (pb & _ & H). injection H as <-. reflexivity.
    + injection H as <-. reflexivity.
  - unfold parseForward in H. repeat (apply obind_ok in H; let v := fresh "v" in destruct H as (v & _ & H)). injection H as <-. reflexivity.
  - unfold parseDirectionImpl in H. repeat (apply obind_ok in H; let v := fresh "v" in destruct H as (v & _ & H)). injection H as <-. reflexivity.
  - unfold parseDirectionImpl in H. repeat (apply obind_ok in H; let v := fresh "v" in destruct H as (v & _ & H)). injection H as <-. reflexivity.
  - unfold parseProperties in H. apply obind_ok in H. destruct H as (cur & _ & H). apply obind_ok in H. destruct H as (r3 & Hr & H).
    apply clefs_barlines in Hr. rewrite read_keys in Hr. cbn [r_barlines r_set_current r_at] in Hr. injection H as <-.
    destruct (p_transpose p); [exact Hr | ]. destruct (_ && _); exact Hr.
  - discriminate N.
Qed.

Lemma items_no_bar c items f : forall r r', read_items c items f r = Ok r' -> bars_in items = [] -> r_barlines r' = r_barlines r.
Proof.
  induction items as [|x items IH]; intros r r' H Q; cbn [read_items] in H; [injection H as <-; reflexivity | ].
  apply obind_ok in H. destruct H as (r1 & H1 & H). change (x :: items) with ([x] ++ items) in Q. rewrite bars_app in Q. apply app_eq_nil in Q. destruct Q as [Q1 Q2].
  rewrite (IH _ _ H Q2). eapply step_no_bar; eassumption.
Qed.

(** The barlines at the start and the prints. *)
Lemma bars_and_prints c items f : forall r r', read_items c items f r = Ok r' -> Forall (fun x => match x with MBarline _ | MPrint => True | _ => False end) items ->
  r_tick r' = r_tick r /\ r_transpose r' = r_transpose r.
Proof.
  induction items as [|x items IH]; intros r r' H Q; cbn [read_items] in H; [injection H as <-; auto | ].
  apply obind_ok in H. destruct H as (r1 & H1 & H). inversion Q as [|? ? Q1 Q2]; subst. destruct (IH _ _ H Q2) as [-> ->].
  destruct x; try contradiction; cbn [parseMusicDataChoice] in H1; injection H1 as <-; auto.
Qed.

Definition bar_item (b : BarlineData) : music_data := MBarline (barline_element b).

Lemma bar_read b r : start_bar b /\ r_tick r = 0 \/ end_bar b -> r_barlines (parseBarline (barline_element b) r) = r_barlines r ++ [b].
Proof.
  intros H. unfold parseBarline. cbn [r_add_barline r_barlines r_at]. f_equal. f_equal.
  destruct b as [t ty e n rp loc].
  assert (S : bar_stays (mkBarline t ty e n rp loc)) by (destruct H as [[[S _] _] | [S _]]; exact S). destruct S as (S1 & S2 & S3).
  assert (L : loc = api_HorizontalAlignment_left /\ t = 0 /\ r_tick r = 0 \/ loc = api_HorizontalAlignment_right /\ t = 2147483647)
    by (destruct H as [[(_ & A & B) C] | (_ & A & B)]; cbn in A, B; auto).
  cbn [b_tick b_type b_ending b_number b_repeat b_location] in *.
  unfold barline_element. cbn [b_tick b_type b_ending b_number b_repeat b_location xb_style xb_ending xb_repeat xb_location].
  assert (X1 : match (if is_bar ty api_BarlineType_unspecified || is_bar ty api_BarlineType_unsupported then None else Some (barlineMap_toCore ty)) with
               | Some s => barlineMap_toApi s | None => api_BarlineType_unspecified end = ty) by (destruct ty; try reflexivity; contradiction S1; reflexivity).
  assert (X2 : 0 < n \/ e = api_EndingType_none /\ n = 0) by (destruct e; [right; auto | | | ]; left; apply S2; discriminate).
  rewrite X1. clear X1. assert (X3 : e <> api_EndingType_none -> (if 0 <? n then n else 1) = n).
  { intros X. destruct X2 as [X2 | [-> _]]; [apply Z.ltb_lt in X2; rewrite X2; reflexivity | contradiction X; reflexivity]. }
  destruct L as [(-> & -> & T) | (-> & ->)]; destruct e; try rewrite X3 by (intros E; discriminate E); try rewrite (S3 eq_refl); rewrite ?T; destruct rp; reflexivity.
Qed.

Lemma start_bars_read c l f : Forall start_bar l -> forall r r', r_tick r = 0 -> read_items c (map bar_item l) f r = Ok r' -> r_barlines r' = r_barlines r ++ l.
Proof.
  induction 1 as [|b l B F IH]; intros r r' T H; cbn [map read_items] in H; [injection H as <-; rewrite app_nil_r; reflexivity | ].
  cbn [bar_item parseMusicDataChoice obind] in H. rewrite (IH (parseBarline (barline_element b) r) r' T H), bar_read by auto. rewrite <- app_assoc. reflexivity.
Qed.
Lemma end_bars_read c l f : Forall end_bar l -> forall r r', read_items c (map bar_item l) f r = Ok r' -> r_barlines r' = r_barlines r ++ l.
Proof.
  induction 1 as [|b l B F IH]; intros r r' H; cbn [map read_items] in H; [injection H as <-; rewrite app_nil_r; reflexivity | ].
  cbn [bar_item parseMusicDataChoice obind] in H. rewrite (IH (parseBarline (barline_element b) r) r' H), bar_read by auto. rewrite <- app_assoc. reflexivity.
Qed.

Lemma bars_items t l : exists a b, l = a ++ b /\ writeBarlines t l = (map bar_item a, b).
Proof.
  induction l as [|x l (a & b & E & W)]; [exists [], []; auto | ]. cbn [writeBarlines]. destruct (b_tick x <=? t).
  - rewrite W. exists (x :: a), b. rewrite E. auto.
  - exists [], (x :: l). auto.
Qed.

Lemma bars_split a b : Forall start_bar a -> Forall end_bar b -> writeBarlines 0 (a ++ b) = (map bar_item a, b) /\ writeBarlines TICK_TIME_INFINITY b = (map bar_item b, []).
Proof.
  intros A B. split.
  - induction A as [|x a (_ & _ & T) A IH]; cbn [app writeBarlines].
    + destruct B as [|y b (_ & _ & T) B]; [reflexivity | ]. cbn [writeBarlines]. rewrite T. reflexivity.
    + rewrite T. cbn. rewrite IH. reflexivity.
  - induction B as [|y b (_ & _ & T) B IH]; [reflexivity | ]. cbn [writeBarlines]. rewrite T, IH. reflexivity.
Qed.

(** * A measure *)

Lemma quiet_tells items : tells_all items = [] -> Forall quiet items.
Proof.
  induction items as [|x items IH]; intros H; [constructor | ]. change (x :: items) with ([x] ++ items) in H. rewrite tells_app in H. apply app_eq_nil in H. destruct H as [H1 H2].
  constructor; [ | exact (IH H2)]. destruct x; try exact I. cbn in *. rewrite app_nil_r in H1. unfold tells in H1. destruct (p_divisions p), (p_staves p), (p_transpose p); try discriminate H1. reflexivity.
Qed.

Definition first_is_first (wc : wctx) : Prop := wc_isFirst wc = true /\ wc_measureIndex wc = 0 \/ wc_isFirst wc = false /\ 1 <= wc_measureIndex wc.

(** The transposition is that of the part, for the first measure. *)
Theorem transposition_back wc rc m x m' tr cur : write_measure wc m = Ok x -> read_measure rc x = Ok (m', tr, cur) -> rc_measureIndex rc = wc_measureIndex wc ->
  first_is_first wc -> tr = if wc_measureIndex wc =? 0 then wc_transposition wc else None.
Proof.
  intros W R X F. apply omap_ok in W. destruct W as (items & W & ->). destruct (data_told _ _ _ W) as (body & -> & B & T1 & T2). clear W B.
  unfold read_measure in R. apply obind_ok in R. destruct R as (t & _ & R). apply obind_ok in R. destruct R as (r & Hr & R).
  apply obind_ok in R. destruct R as (l & _ & R). injection R as _ <- _. cbn [xm_data] in Hr.
  destruct (bars_items 0 (m_barlines m)) as (a & b & _ & WB). rewrite WB in Hr. cbn [fst snd] in Hr.
  destruct (bars_items TICK_TIME_INFINITY b) as (a' & b' & _ & WB'). rewrite WB' in Hr. cbn [fst snd] in Hr.
  assert (Bars : forall k, Forall (fun x => match x with MBarline _ | MPrint => True | _ => False end) (map bar_item k))
    by (intros k; apply Forall_forall; intros y I; apply in_map_iff in I; destruct I as (z & <- & _); exact I).
  assert (Prints : Forall (fun x => match x with MBarline _ | MPrint => True | _ => False end) (repeat MPrint (wc_prints wc)))
    by (apply Forall_forall; intros y I; apply repeat_spec in I; subst y; exact Logic.I).
  rewrite app_assoc, read_items_app in Hr. apply obind_ok in Hr. destruct Hr as (r1 & H1 & Hr).
  destruct (bars_and_prints _ _ _ _ _ H1) as [K1 K2]; [apply Forall_app; auto | ]. cbn [initial_rstate r_tick r_transpose] in K1, K2.
  rewrite read_items_app in Hr. apply obind_ok in Hr. destruct Hr as (r2 & H2 & Hr). destruct (bars_and_prints _ _ _ _ _ Hr (Bars a')) as [_ ->].
  destruct F as [[F I] | [F I]].
  - destruct (T1 F) as (p & q & -> & (d & _ & E) & Q). rewrite I in *. cbn [Z.eqb] in *. unfold told_of in E.
    assert (Ep : p_transpose p = match wc_transposition wc with Some t => [t] | None => [] end) by congruence. clear E.
    cbn [read_items] in H2. apply obind_ok in H2. destruct H2 as (r3 & H3 & H2). rewrite (items_transpose _ _ _ _ _ H2 (quiet_tells _ Q)).
    cbn [parseMusicDataChoice] in H3. unfold parseProperties in H3. apply obind_ok in H3. destruct H3 as (cu & _ & H3). apply obind_ok in H3. destruct H3 as (r4 & Hc & H3).
    apply clefs_transpose in Hc. rewrite read_keys in Hc. cbn [r_transpose r_tick r_set_current r_at] in Hc. destruct Hc as [Hc1 Hc2]. injection H3 as <-.
    rewrite Ep. destruct (wc_transposition wc) as [tw|]; [ | congruence]. rewrite X, Hc2, K1. reflexivity.
  - assert (wc_measureIndex wc <> 0) as N by lia. rewrite (items_transpose _ _ _ _ _ H2 (quiet_tells _ (T2 F N))), K2. apply Z.eqb_neq in N. rewrite N. reflexivity.
Qed.

(** The barlines at the start and the end. *)
Theorem bars_back wc rc m x m' tr cur a b : write_measure wc m = Ok x -> read_measure rc x = Ok (m', tr, cur) ->
  m_barlines m = a ++ b -> Forall start_bar a -> Forall end_bar b -> m_barlines m' = m_barlines m.
Proof.
  intros W R E A B. apply omap_ok in W. destruct W as (items & W & ->). destruct (written_data _ _ _ W) as [_ BI]. destruct (data_told _ _ _ W) as (body & I & _). clear W.
  destruct (bars_split a b A B) as [S1 S2]. rewrite E, S1 in I. cbn [fst snd] in I. rewrite S2 in I. cbn [fst] in I.
  assert (U : forall t l, map barline_element (fst (bars_until t l)) = bars_in (fst (writeBarlines t l)) /\ snd (bars_until t l) = snd (writeBarlines t l))
    by (intros t l; destruct (written_bars t l) as (Q1 & _ & Q2); auto).
  rewrite E in BI. rewrite (proj1 (U 0 _)), (proj2 (U 0 _)), (proj1 (U TICK_TIME_INFINITY _)), S1 in BI. cbn [fst snd] in BI. rewrite S2 in BI. cbn [fst] in BI.
  assert (Body : bars_in body = []).
  { rewrite I, !bars_app in BI. apply app_inv_head in BI. rewrite app_assoc in BI. change (bars_in (map bar_item b)) with ([] ++ bars_in (map bar_item b)) in BI at 2.
    apply app_inv_tail in BI. apply app_eq_nil in BI. apply BI. }
  unfold read_measure in R. apply obind_ok in R. destruct R as (t & _ & R). apply obind_ok in R. destruct R as (r & Hr & R).
  apply obind_ok in R. destruct R as (l & _ & R). injection R as <- _ _. cbn [xm_data m_barlines] in *. rewrite I in Hr.
  rewrite read_items_app in Hr. apply obind_ok in Hr. destruct Hr as (r1 & H1 & Hr). rewrite read_items_app in Hr. apply obind_ok in Hr. destruct Hr as (r2 & H2 & Hr).
  rewrite read_items_app in Hr. apply obind_ok in Hr. destruct Hr as (r3 & H3 & Hr). rewrite (end_bars_read _ _ _ B _ _ Hr), (items_no_bar _ _ _ _ _ H3 Body), (items_no_bar _ _ _ _ _ H2).
  - rewrite (start_bars_read rc a _ A (initial_rstate rc) r1 eq_refl H1). rewrite E. reflexivity.
  - clear. induction (wc_prints wc) as [|k IH]; [reflexivity | exact IH].
Qed.

(** What a measure comes back as, apart from its time signature, which may come from an
    earlier one. *)
Definition back_but_time (m m' : MeasureData) : Prop :=
  m' = mkMeasure (map staff_asking (m_staves m)) (m_time m') (m_number m) (m_implicit m) (m_keys m) (m_barlines m).

Lemma values_in_range n wc m : wc_numStaves wc = Z.of_nat n -> values_fit n m -> measure_in_range wc m.
Proof. intros E (V1 & V2 & V3 & V4 & V5). split; [lia | auto]. Qed.

Lemma Forall2_and_map {A B} (f : A -> B) l : forall l', Forall2 (fun a b => b = f a) l l' -> l' = map f l.
Proof. induction l as [|a l IH]; intros l' F; inversion F; subst; cbn; f_equal; auto. Qed.

Theorem measure_whole n wc rc m : wc_numStaves wc = Z.of_nat n -> agree wc rc -> first_is_first wc -> measure_fits n (wc_measureIndex wc) m ->
  exists x m', write_measure wc m = Ok x /\ read_measure rc x = Ok (m', if wc_measureIndex wc =? 0 then wc_transposition wc else None, rc_global rc) /\ back_but_time m m'.
Proof.
  intros N A F (V & O & D & C & K & (ka & kb & EK & Ka & Kb & Ks) & (ba & bb & EB & Ba & Bb) & T & NN).
  pose proof (values_in_range n wc m N V) as R.
  assert (CC : Forall chords_closed (m_staves m)).
  { destruct R as (_ & R & _). rewrite Forall_forall in *. intros st I. apply staff_closed; auto. }
  destruct (measure_back wc rc m A R CC) as (x & m' & tr & B). pose proof B as (W & Q & evs & SR & _).
  assert (X : rc_measureIndex rc = wc_measureIndex wc) by (destruct A as (_ & _ & _ & _ & A5 & _); auto).
  pose proof (transposition_back _ _ _ _ _ _ _ W Q X F) as ->. exists x, m'. split; [exact W | ]. split; [exact Q | ].
  assert (H1 : Forall2 (fun st st' => s_voices st' = asking (s_voices st)) (m_staves m) (m_staves m')) by (apply (voices_back wc rc m x m' _ B A R O)).
  assert (H2 : map s_directions (m_staves m') = map s_directions (m_staves m)).
  { destruct (simple_directions_back wc rc m A R CC D) as (x2 & m2 & t2 & W2 & Q2 & E2). rewrite W in W2. injection W2 as <-. rewrite Q in Q2. injection Q2 as <- _. exact E2. }
  assert (H3 : Forall2 (fun st st' => s_clefs st' = s_clefs st) (m_staves m) (m_staves m')).
  { destruct (clefs_back wc rc m A R CC) as (x2 & m2 & t2 & W2 & Q2 & E2). rewrite W in W2. injection W2 as <-. rewrite Q in Q2. injection Q2 as <- _.
    clear - C E2. induction E2 as [|st st' l l' [_ E] E2 IH]; constructor; inversion C; subst; auto. }
  assert (H4 : m_keys m' = m_keys m).
  { destruct (measure_keys_back wc rc m ka kb A R CC EK) as (x2 & m2 & t2 & W2 & Q2 & E2); try assumption.
    - rewrite N. exact Ka.
    - clear - C K. rewrite Forall_forall in *. intros st I. split; [exact (K st I) | apply (C st I)].
    - rewrite W in W2. injection W2 as <-. rewrite Q in Q2. injection Q2 as <- _. exact E2. }
  assert (H5 : Forall (fun st' => s_keys st' = []) (m_staves m')) by (clear - SR; induction SR as [|i st l l' (_ & S & _) SR IH]; constructor; auto).
  pose proof (bars_back _ _ _ _ _ _ _ ba bb W Q EB Ba Bb) as H6.
  pose proof (number_kept _ _ _ _ _ _ _ W Q X T NN) as H7.
  destruct (number_in_general _ _ _ _ _ _ _ W Q X) as [_ H8].
  unfold back_but_time. destruct m' as [st' t' n' i' k' b']. cbn [m_staves m_time m_number m_implicit m_keys m_barlines] in *. subst k' b' n' i'. f_equal.
  clear - H1 H2 H3 H5 K. revert st' H1 H2 H3 H5. induction (m_staves m) as [|st l IH]; intros st' H1 H2 H3 H5; inversion H1 as [|? st1 ? l1 V1 V2]; subst; [reflexivity | ].
  inversion H3 as [|? ? ? ? C1 C2]; subst. inversion H5 as [|? ? K1 K2]; subst. inversion K as [|? ? K3 K4]; subst. cbn [map] in H2. injection H2 as D1 D2.
  cbn [map]. f_equal; [ | apply IH; assumption]. unfold staff_asking. destruct st1. cbn in *. congruence.
Qed.

(** * A part *)

Section Part.
Variables (R : MeasureData -> MeasureData -> Prop) (P : Z -> MeasureData -> Prop) (prints : Z -> nat) (n : nat).
Hypothesis one : forall wc rc m, wc_numStaves wc = Z.of_nat n -> agree wc rc -> first_is_first wc -> P (wc_measureIndex wc) m ->
  exists x m', write_measure wc m = Ok x /\ read_measure rc x = Ok (m', if wc_measureIndex wc =? 0 then wc_transposition wc else None, rc_global rc) /\ R m m'.

Lemma later_measures l : forall wc rc tr, wc_numStaves wc = Z.of_nat n -> agree wc rc -> wc_isFirst wc = false -> 1 <= wc_measureIndex wc -> rc_current rc = rc_global rc ->
  Forall_at (fun k m => P (wc_measureIndex wc + Z.of_nat k) m) l ->
  exists xs l', write_measures prints wc l = Ok xs /\ read_all rc tr xs = Ok (mkMusic l' tr, rc_global rc) /\ Forall2 R l l'.
Proof.
  induction l as [|m l IH]; intros wc rc tr N A F I C Q.
  { exists [], []. cbn [write_measures read_all]. rewrite C. repeat split; constructor. }
  destruct (one wc rc m N A) as (x & m' & W & E & M); [right; auto | specialize (Q 0%nat m eq_refl); cbn in Q; rewrite Z.add_0_r in Q; exact Q | ].
  assert (wc_measureIndex wc =? 0 = false) as Z0 by (apply Z.eqb_neq; lia). rewrite Z0 in E.
  destruct (IH (mkWctx (wc_numStaves wc) (wc_ticksPerQuarter wc) (wc_measureIndex wc + 1) false (prints (wc_measureIndex wc + 1)) (wc_transposition wc))
               (mkRctx (rc_numStaves rc) (rc_global rc) (rc_global rc) (rc_measureIndex rc + 1) (m_time m')) tr) as (xs & l' & W' & Q' & F').
  - exact N.
  - destruct A as (A1 & A2 & A3 & A4 & A5 & A6). repeat split; cbn [wc_numStaves rc_numStaves wc_ticksPerQuarter rc_global wc_measureIndex rc_measureIndex wc_isFirst rc_current]; try assumption; try lia.
  - reflexivity.
  - cbn [wc_measureIndex]. lia.
  - reflexivity.
  - intros k y H. specialize (Q (Datatypes.S k) y H). cbn [wc_measureIndex]. replace (wc_measureIndex wc + 1 + Z.of_nat k) with (wc_measureIndex wc + Z.of_nat (Datatypes.S k)) by lia. exact Q.
  - exists (x :: xs), (m' :: l'). cbn [write_measures read_all]. rewrite W. cbn [obind]. rewrite W'. cbn [obind]. split; [reflexivity | ].
    rewrite E. cbn [obind fst snd]. rewrite Q'. cbn [obind fst snd pm_measures pm_transposition]. split; [reflexivity | ]. constructor; assumption.
Qed.

Lemma all_measures l ticks t cur : l <> [] -> 1 <= Z.of_nat n <= 2147483647 -> 1 <= ticks <= 2147483647 -> Forall_at (fun k m => P (Z.of_nat k) m) l ->
  exists xs l', write_measures prints (mkWctx (Z.of_nat n) ticks 0 true (prints 0) t) l = Ok xs /\
    read_all (mkRctx n ticks cur 0 default_time) None xs = Ok (mkMusic l' t, ticks) /\ Forall2 R l l'.
Proof.
  intros NE HN HT Q. destruct l as [|m l]; [contradiction NE; reflexivity | ].
  set (wc := mkWctx (Z.of_nat n) ticks 0 true (prints 0) t). set (rc := mkRctx n ticks cur 0 default_time).
  assert (A : agree wc rc) by (repeat split; cbn; auto; lia).
  destruct (one wc rc m eq_refl A) as (x & m' & W & E & M); [left; auto | exact (Q 0%nat m eq_refl) | ].
  destruct (later_measures l (mkWctx (Z.of_nat n) ticks 1 false (prints 1) t) (mkRctx n ticks ticks 1 (m_time m')) t) as (xs & l' & W' & Q' & F').
  - reflexivity.
  - repeat split; cbn; auto; lia.
  - reflexivity.
  - cbn. lia.
  - reflexivity.
  - intros k y H. specialize (Q (Datatypes.S k) y H). cbn [wc_measureIndex]. replace (1 + Z.of_nat k) with (Z.of_nat (Datatypes.S k)) by lia. exact Q.
  - exists (x :: xs), (m' :: l'). cbn [write_measures read_all]. rewrite W. cbn [obind]. cbn [wc wc_measureIndex wc_numStaves wc_ticksPerQuarter wc_transposition Z.add].
    rewrite W'. cbn [obind]. split; [reflexivity | ]. rewrite E. cbn [obind fst snd wc rc wc_measureIndex Z.eqb wc_transposition rc_numStaves rc_global rc_measureIndex Z.add].
    assert (X : match t with Some u => Some u | None => None end = t) by (destruct t; reflexivity). rewrite X, Q'. cbn [obind fst snd pm_measures pm_transposition]. split; [reflexivity | ].
    constructor; assumption.
Qed.
End Part.

Lemma read_all_measures l : forall c tr p e, read_all c tr l = Ok (p, e) -> read_measures c l = Ok (pm_measures p).
Proof.
  induction l as [|x l IH]; intros c tr p e H; cbn [read_all] in H; [injection H as <- <-; reflexivity | ].
  apply obind_ok in H. destruct H as (q & H1 & H). apply obind_ok in H. destruct H as ([p' e'] & H2 & H). injection H as <- <-. cbn [read_measures]. rewrite H1. cbn [obind].
  rewrite (IH _ _ _ _ H2). reflexivity.
Qed.

(** ** The number of staves and the divisions *)

Definition staff_le (n : Z) (x : music_data) : Prop := match staves_of x with Some k => k <= n | None => True end.

Lemma staves_count items : forall a n, 1 <= a <= n -> Forall (staff_le n) items ->
  let r := fold_left (fun n x => match staves_of x with Some k => if n <? k then k else n | None => n end) items a in
  a <= r <= n /\ forall x k, In x items -> staves_of x = Some k -> k <= r.
Proof.
  induction items as [|x items IH]; intros a n H F; cbn [fold_left]; [split; [lia | intros x k []] | ].
  inversion F as [|? ? F1 F2]; subst. unfold staff_le in F1.
  set (a' := match staves_of x with Some k => if a <? k then k else a | None => a end).
  assert (A : a <= a' <= n /\ forall k, staves_of x = Some k -> k <= a').
  { unfold a'. destruct (staves_of x) as [k|]; [ | split; [lia | intros k E; discriminate E]]. destruct (a <? k) eqn:L; bool_hyps; (split; [lia | intros k0 E; injection E as <-; lia]). }
  destruct A as [A1 A2]. destruct (IH a' n) as [R1 R2]; [lia | exact F2 | ]. cbv zeta in *. split; [lia | ].
  intros y k [<- | I] E; [specialize (A2 k E); lia | exact (R2 y k I E)].
Qed.

Lemma told_nothing items : tells_all items = [] -> Forall (fun x => match x with MProperties p => p_divisions p = None /\ p_staves p = None | _ => True end) items.
Proof.
  induction items as [|x items IH]; intros H; [constructor | ]. change (x :: items) with ([x] ++ items) in H. rewrite tells_app in H. apply app_eq_nil in H. destruct H as [H1 H2].
  constructor; [ | exact (IH H2)]. destruct x; try exact I. cbn in *. rewrite app_nil_r in H1. unfold tells in H1. destruct (p_divisions p), (p_staves p), (p_transpose p); try discriminate H1. auto.
Qed.

Lemma no_divisions_in items : Forall (fun x => match x with MProperties p => p_divisions p = None /\ p_staves p = None | _ => True end) items ->
  flat_map (fun x => match x with MProperties p => match p_divisions p with Some d => [d] | None => [] end | _ => [] end) items = [].
Proof. induction 1 as [|x items H F IH]; [reflexivity | ]. cbn [flat_map]. rewrite IH. destruct x; try reflexivity. destruct H as [-> _]. reflexivity. Qed.

Lemma staff_le_within n items : Forall (within n) items -> Forall (fun x => match x with MProperties p => p_divisions p = None /\ p_staves p = None | _ => True end) items -> Forall (staff_le n) items.
Proof.
  intros A B. rewrite Forall_forall in *. intros x I. specialize (A x I). specialize (B x I). unfold staff_le, within in *. destruct x; try exact A. cbn. destruct B as [_ ->]. exact Logic.I.
Qed.

(** The barlines and prints around what is written. *)
Lemma around_quiet k a : flat_map (fun x => match x with MProperties p => match p_divisions p with Some d => [d] | None => [] end | _ => [] end) (map bar_item a) = [] /\
  flat_map (fun x => match x with MProperties p => match p_divisions p with Some d => [d] | None => [] end | _ => [] end) (repeat MPrint k) = [] /\
  (forall n, Forall (staff_le n) (map bar_item a)) /\ (forall n, Forall (staff_le n) (repeat MPrint k)).
Proof.
  split; [induction a as [|b a IH]; [reflexivity | exact IH] | ]. split; [induction k as [|k IH]; [reflexivity | exact IH] | ].
  split; intros n; [induction a as [|b a IH] | induction k as [|k IH]]; cbn; constructor; try exact IH; exact I.
Qed.

Lemma first_written wc m x : write_measure wc m = Ok x -> wc_isFirst wc = true -> 1 <= wc_ticksPerQuarter wc <= 2147483647 -> 1 <= Z.of_nat (List.length (m_staves m)) ->
  (exists d, measure_divisions x = [d] /\ round_half d = wc_ticksPerQuarter wc) /\ Forall (staff_le (Z.of_nat (List.length (m_staves m)))) (xm_data x) /\
  (1 < Z.of_nat (List.length (m_staves m)) -> exists y, In y (xm_data x) /\ staves_of y = Some (Z.of_nat (List.length (m_staves m)))).
Proof.
  intros W F T N. apply omap_ok in W. destruct W as (items & W & ->). destruct (data_told _ _ _ W) as (body & -> & B & T1 & _). clear W.
  destruct (bars_items 0 (m_barlines m)) as (a & b & _ & WB). rewrite WB. cbn [fst snd].
  destruct (bars_items TICK_TIME_INFINITY b) as (a' & b' & _ & WB'). rewrite WB'. cbn [fst snd].
  destruct (T1 F) as (p & q & -> & (d & D & E) & Q). unfold told_of in E. cbn [xm_data]. unfold measure_divisions. cbn [xm_data].
  assert (Ed : p_divisions p = Some d) by congruence.
  assert (Es : p_staves p = if 1 <? Z.of_nat (List.length (m_staves m)) then Some (Z.of_nat (List.length (m_staves m))) else None) by congruence. clear E.
  pose proof (told_nothing _ Q) as Q'. destruct (around_quiet (wc_prints wc) a) as (U1 & U2 & U3 & U4). destruct (around_quiet 0 a') as (V1 & _ & V3 & _).
  inversion B as [|? ? _ B']; subst. split; [ | split].
  - exists d. rewrite !flat_map_app, U1, U2, V1. cbn [flat_map app]. rewrite Ed, (no_divisions_in _ Q'). cbn [app]. split; [reflexivity | ].
    destruct (positive_value (wc_ticksPerQuarter wc)) as (d' & D1 & _ & D2); [lia | ]. rewrite D in D1. injection D1 as <-. exact D2.
  - apply Forall_app. split; [apply U3 | ]. apply Forall_app. split; [apply U4 | ]. apply Forall_app. split; [ | apply V3].
    constructor; [ | apply staff_le_within; assumption]. unfold staff_le. cbn [staves_of]. rewrite Es. destruct (1 <? _); [lia | exact I].
  - intros G. exists (MProperties p). split.
    + apply in_or_app. right. apply in_or_app. right. apply in_or_app. left. left. reflexivity.
    + cbn. rewrite Es. apply Z.ltb_lt in G. rewrite G. reflexivity.
Qed.

Lemma later_written wc m x : write_measure wc m = Ok x -> wc_isFirst wc = false -> wc_measureIndex wc <> 0 ->
  measure_divisions x = [] /\ Forall (staff_le (Z.of_nat (List.length (m_staves m)))) (xm_data x).
Proof.
  intros W F N. apply omap_ok in W. destruct W as (items & W & ->). destruct (data_told _ _ _ W) as (body & -> & B & _ & T2). clear W.
  destruct (bars_items 0 (m_barlines m)) as (a & b & _ & WB). rewrite WB. cbn [fst snd].
  destruct (bars_items TICK_TIME_INFINITY b) as (a' & b' & _ & WB'). rewrite WB'. cbn [fst snd].
  pose proof (told_nothing _ (T2 F N)) as Q. destruct (around_quiet (wc_prints wc) a) as (U1 & U2 & U3 & U4). destruct (around_quiet 0 a') as (V1 & _ & V3 & _).
  unfold measure_divisions. cbn [xm_data]. split.
  - rewrite !flat_map_app, U1, U2, V1, (no_divisions_in _ Q). reflexivity.
  - apply Forall_app. split; [apply U3 | ]. apply Forall_app. split; [apply U4 | ]. apply Forall_app. split; [ | apply V3]. apply staff_le_within; assumption.
Qed.

Lemma later_all prints n l : forall wc xs, write_measures prints wc l = Ok xs -> wc_isFirst wc = false -> 1 <= wc_measureIndex wc -> Forall (fun m => List.length (m_staves m) = n) l ->
  Forall (fun x => measure_divisions x = [] /\ Forall (staff_le (Z.of_nat n)) (xm_data x)) xs.
Proof.
  induction l as [|m l IH]; intros wc xs W F I L; cbn [write_measures] in W; [injection W as <-; constructor | ].
  apply obind_ok in W. destruct W as (x & W1 & W). apply obind_ok in W. destruct W as (xs' & W2 & W). injection W as <-. inversion L as [|? ? L1 L2]; subst. constructor.
  - apply (later_written _ _ _ W1 F). lia.
  - eapply IH; [exact W2 | reflexivity | cbn; lia | exact L2].
Qed.

(** The reader finds the number of staves and the divisions of the part. *)
Theorem part_found prints ticks t n l xs : write_measures prints (mkWctx (Z.of_nat n) ticks 0 true (prints 0) t) l = Ok xs -> l <> [] ->
  1 <= ticks <= 2147483647 -> 1 <= Z.of_nat n -> Forall (fun m => List.length (m_staves m) = n) l ->
  calculateNumStaves xs = Z.of_nat n /\ exists d, List.concat (map measure_divisions xs) = [d] /\ round_half d = ticks.
Proof.
  intros W NE T N L. destruct l as [|m l]; [contradiction NE; reflexivity | ]. cbn [write_measures] in W.
  apply obind_ok in W. destruct W as (x & W1 & W). apply obind_ok in W. destruct W as (xs' & W2 & W). injection W as <-. inversion L as [|? ? L1 L2]; subst.
  destruct (first_written _ _ _ W1 eq_refl) as ((d & D1 & D2) & S1 & S2); [exact T | exact N | ].
  pose proof (later_all _ _ _ _ _ W2 eq_refl ltac:(cbn; lia) L2) as Q. split.
  - unfold calculateNumStaves.
    assert (A : Forall (staff_le (Z.of_nat (List.length (m_staves m)))) (flat_map xm_data (x :: xs'))).
    { cbn [flat_map]. apply Forall_app. split; [exact S1 | ]. clear - Q. induction Q as [|y ys [_ Y] Q IH]; [constructor | ]. cbn [flat_map]. apply Forall_app. auto. }
    destruct (staves_count _ 1 (Z.of_nat (List.length (m_staves m))) ltac:(lia) A) as [R1 R2]. cbv zeta in R1, R2.
    destruct (Z.eq_dec (Z.of_nat (List.length (m_staves m))) 1) as [E1 | E1]; [lia | ]. destruct S2 as (y & I & E); [lia | ].
    specialize (R2 y _ ltac:(cbn [flat_map]; apply in_or_app; left; exact I) E). lia.
  - exists d. cbn [map List.concat]. rewrite D1. split; [ | exact D2]. clear - Q.
    assert (List.concat (map measure_divisions xs') = []) as -> by (induction Q as [|y ys [Y _] Q IH]; [reflexivity | cbn; rewrite Y, IH; reflexivity]). reflexivity.
Qed.

(** ** One part *)

Lemma write_music_measures prints ticks p n : pm_measures p <> [] -> Forall (fun m => List.length (m_staves m) = n) (pm_measures p) ->
  write_music prints ticks p = write_measures prints (mkWctx (Z.of_nat n) ticks 0 true (prints 0) (pm_transposition p)) (pm_measures p).
Proof.
  intros NE L. unfold write_music, write_from. destruct (pm_measures p) as [|m l]; [contradiction NE; reflexivity | ]. inversion L; subst. destruct (pm_transposition p); reflexivity.
Qed.

Section Parts.
Variables (R : MeasureData -> MeasureData -> Prop) (P : nat -> Z -> MeasureData -> Prop).
Hypothesis one : forall n wc rc m, wc_numStaves wc = Z.of_nat n -> agree wc rc -> first_is_first wc -> P n (wc_measureIndex wc) m ->
  exists x m', write_measure wc m = Ok x /\ read_measure rc x = Ok (m', if wc_measureIndex wc =? 0 then wc_transposition wc else None, rc_global rc) /\ R m m'.
Hypothesis staves : forall n i m, P n i m -> List.length (m_staves m) = n.

Lemma part_loop prints ticks n p : 1 <= ticks <= 2147483647 -> 1 <= Z.of_nat n <= 2147483647 -> pm_measures p <> [] -> Forall_at (fun k m => P n (Z.of_nat k) m) (pm_measures p) ->
  exists xs l', write_measures prints (mkWctx (Z.of_nat n) ticks 0 true (prints 0) (pm_transposition p)) (pm_measures p) = Ok xs /\ write_music prints ticks p = Ok xs /\
    (exists d, List.concat (map measure_divisions xs) = [d] /\ round_half d = ticks) /\
    read_measures (mkRctx n ticks ticks 0 default_time) xs = Ok l' /\
    (forall divisions, divisions = -1 \/ divisions = ticks -> read_part_music ticks divisions xs = Ok (mkMusic l' (pm_transposition p), ticks)) /\ Forall2 R (pm_measures p) l'.
Proof.
  intros HT HN NE Q.
  assert (L : Forall (fun m => List.length (m_staves m) = n) (pm_measures p)).
  { apply Forall_forall. intros m I. apply In_nth_error in I. destruct I as [k I]. exact (staves _ _ _ (Q k m I)). }
  pose proof (write_music_measures prints ticks p n NE L) as WM.
  destruct (all_measures R (P n) prints n (one n) (pm_measures p) ticks (pm_transposition p) ticks NE HN HT Q) as (xs & l' & W & E & F).
  destruct (part_found prints ticks (pm_transposition p) n (pm_measures p) xs W NE HT ltac:(lia) L) as [CS CD].
  exists xs, l'. split; [exact W | ]. split; [rewrite WM; exact W | ]. split; [exact CD | ]. split; [exact (read_all_measures _ _ _ _ _ E) | ]. split; [ | exact F].
  intros d D. unfold read_part_music. rewrite CS, Nat2Z.id.
  assert ((if 0 <? d then d else ticks) = ticks) as -> by (destruct D as [-> | ->]; [reflexivity | ]; assert (0 <? ticks = true) as -> by (apply Z.ltb_lt; lia); reflexivity).
  exact E.
Qed.
End Parts.

Definition part_kept (S : PartMusic -> PartMusic -> Prop) (prints : Z -> nat) (ticks : Z) (p : PartMusic) : Prop :=
  exists xs p', write_music prints ticks p = Ok xs /\ (exists d, List.concat (map measure_divisions xs) = [d] /\ round_half d = ticks) /\
    (forall divisions, divisions = -1 \/ divisions = ticks -> read_part_music ticks divisions xs = Ok (p', ticks)) /\ S p p'.

Lemma Forall2_asking l : forall l', Forall2 back_but_time l l' -> map m_time l' = map m_time l -> l' = map measure_asking l.
Proof.
  induction l as [|m l IH]; intros l' F T; inversion F as [|? m' ? l1 B F']; subst; [reflexivity | ]. cbn [map] in *. injection T as T1 T2. f_equal; [ | auto].
  rewrite B, T1. reflexivity.
Qed.

(** The part as it was, except that the notes ask for their voice. *)
Theorem part_whole prints ticks p : 1 <= ticks <= 2147483647 -> music_fits p -> part_kept (fun p p' => p' = music_asking p) prints ticks p.
Proof.
  intros HT (n & HN & NE & Q & T).
  destruct (part_loop back_but_time (fun n i m => measure_fits n i m) (fun n wc rc m => measure_whole n wc rc m) (fun n i m H => proj1 (proj1 H)) prints ticks n p HT HN NE Q)
    as (xs & l' & W & WM & D & E & RP & F).
  exists xs, (mkMusic l' (pm_transposition p)). split; [exact WM | ]. split; [exact D | ]. split; [exact RP | ].
  unfold music_asking. f_equal. apply Forall2_asking; [exact F | ].
  apply (part_times_kept prints _ _ (pm_measures p) xs l' W E eq_refl); [ | exact T].
  apply Forall_forall. intros m I. apply In_nth_error in I. destruct I as [k I]. destruct (Q k m I) as ((_ & _ & B1 & B2 & _) & _). auto.
Qed.

(** For other parts: the measures, their staves, the notes and the transposition. *)
Definition kept_notes (p p' : PartMusic) : Prop :=
  pm_transposition p' = pm_transposition p /\ Forall2 (fun m m' => Forall2 same_notes (m_staves m) (m_staves m')) (pm_measures p) (pm_measures p').

Theorem part_notes prints ticks p : 1 <= ticks <= 2147483647 -> music_in_range p -> part_kept kept_notes prints ticks p.
Proof.
  intros HT (n & HN & NE & Q).
  destruct (part_loop (fun m m' => Forall2 same_notes (m_staves m) (m_staves m')) (fun n (_ : Z) m => values_fit n m /\ Forall chords_closed (m_staves m))) with (prints := prints) (ticks := ticks) (n := n) (p := p)
    as (xs & l' & W & WM & D & E & RP & F).
  - intros k wc rc m N A F [V C]. pose proof (values_in_range k wc m N V) as R. destruct (no_note_lost wc rc m A R C) as (x & m' & tr & W & E & M). exists x, m'. split; [exact W | ].
    assert (X : rc_measureIndex rc = wc_measureIndex wc) by (destruct A as (_ & _ & _ & _ & A5 & _); auto).
    rewrite <- (transposition_back _ _ _ _ _ _ _ W E X F). auto.
  - intros k i m [[L _] _]. exact L.
  - exact HT.
  - exact HN.
  - exact NE.
  - intros k m I. rewrite Forall_forall in Q. apply Q. eapply nth_error_In. exact I.
  - exists xs, (mkMusic l' (pm_transposition p)). split; [exact WM | ]. split; [exact D | ]. split; [exact RP | ]. split; [reflexivity | exact F].
Qed.

(** ** All parts *)

Lemma write_each_kept S prints ticks l : forall i, (forall i, Forall (part_kept S (prints i) ticks) l) ->
  exists xs l', write_each prints i ticks l = Ok xs /\ List.length xs = List.length l /\
    Forall (fun x => exists d, List.concat (map measure_divisions x) = [d] /\ round_half d = ticks) xs /\
    (forall divisions, divisions = -1 \/ divisions = ticks -> read_each ticks divisions xs = Ok l') /\ Forall2 S l l'.
Proof.
  induction l as [|p l IH]; intros i H; [exists [], []; repeat split; constructor | ].
  destruct (IH (i + 1)) as (xs & l' & W & N & D & R & F); [intros j; specialize (H j); inversion H; assumption | ].
  specialize (H i). inversion H as [|? ? (x & p' & W1 & D1 & R1 & F1) _]; subst.
  exists (x :: xs), (p' :: l'). cbn [write_each read_each]. rewrite W1. cbn [obind]. rewrite W. cbn [obind]. split; [reflexivity | ]. split; [cbn; congruence | ].
  split; [constructor; assumption | ]. split; [ | constructor; assumption].
  intros d E. rewrite (R1 d E). cbn [obind fst snd]. rewrite (R ticks (or_intror eq_refl)). reflexivity.
Qed.

Lemma divisions_found ticks (l : list (list xmeasure)) : l <> [] ->
  Forall (fun x => exists d, List.concat (map measure_divisions x) = [d] /\ round_half d = ticks) l -> 1 <= ticks <= 2147483647 ->
  findMaxDivisionsPerQuarter (map (map measure_divisions) l) = Ok ticks.
Proof.
  intros NE F T. unfold findMaxDivisionsPerQuarter, foundDivisions.
  assert (E : List.concat (List.concat (map (map measure_divisions) l)) = flat_map (fun x => List.concat (map measure_divisions x)) l).
  { clear. induction l as [|x l IH]; [reflexivity | ]. cbn [map List.concat flat_map]. rewrite concat_app, IH. reflexivity. }
  rewrite E. clear E.
  assert (K : forall acc, acc = [] \/ acc = [ticks] -> fold_left (fun acc d => if 0 <? round_half d then CommaInts.set_insert (round_half d) acc else acc)
    (flat_map (fun x => List.concat (map measure_divisions x)) l) acc = match l with [] => acc | _ => [ticks] end).
  { clear NE. induction F as [|x l (d & D1 & D2) F IH]; intros acc A; [reflexivity | ]. cbn [flat_map]. rewrite D1. cbn [app fold_left]. rewrite D2.
    assert (0 <? ticks = true) as -> by (apply Z.ltb_lt; lia).
    assert (CommaInts.set_insert ticks acc = [ticks]) as -> by (destruct A as [-> | ->]; cbn; rewrite ?Z.ltb_irrefl, ?Z.eqb_refl; reflexivity).
    rewrite IH by auto. destruct l; reflexivity. }
  rewrite K by auto. destruct l as [|x l]; [contradiction NE; reflexivity | ]. cbn [lcm_set].
  assert (ticks =? 0 = false) as -> by (apply Z.eqb_neq; lia). unfold abs_int, as_int, in_int.
  rewrite Z.abs_eq by lia. unfold int_min, int_max. assert ((-2147483648 <=? ticks) && (ticks <=? 2147483647) = true) as ->; [ | reflexivity].
  apply andb_true_intro. split; apply Z.leb_le; lia.
Qed.

Theorem scores_kept S prints ticks l : l <> [] -> 1 <= ticks <= 2147483647 -> (forall i, Forall (part_kept S (prints i) ticks) l) ->
  exists xs l', write_each prints 0 ticks l = Ok xs /\ List.length xs = List.length l /\ read_score xs = Ok (ticks, l') /\ Forall2 S l l'.
Proof.
  intros NE T H. destruct (write_each_kept S prints ticks l 0 H) as (xs & l' & W & N & D & R & F). exists xs, l'. split; [exact W | ]. split; [exact N | ]. split; [ | exact F].
  unfold read_score. rewrite (divisions_found ticks xs); [ | destruct xs; [destruct l; [contradiction NE; reflexivity | discriminate N] | intros E; discriminate E] | exact D | exact T].
  cbn [obind]. rewrite (R (-1)) by auto. reflexivity.
Qed.

(** ** With what the parts say of themselves *)

Lemma written_music {A} next (l : list (PartInfo * A)) : forall s, write_all next l = Ok s -> map snd (snd s) = map snd l.
Proof.
  revert next. induction l as [|[p a] l IH]; intros next s H; cbn [write_all] in H; [injection H as <-; reflexivity | ].
  apply obind_ok in H. destruct H as (q & _ & H). apply obind_ok in H. destruct H as (id & _ & H). apply omap_ok in H. destruct H as (s' & H & ->). cbn [snd map]. f_equal. exact (IH _ _ H).
Qed.

Theorem whole_score S prints next ticks l : l <> [] -> 1 <= ticks <= 2147483647 -> 0 <= next -> next + Z.of_nat (List.length l) < 2 ^ 31 ->
  Forall (fun q => part_fits (fst q)) l -> NoDup (map (fun q => uniqueId (fst q)) l) ->
  (forall i, Forall (part_kept S (prints i) ticks) (map snd l)) ->
  exists s, score_back prints next ticks l = Ok (ticks, s) /\ Forall2 (fun q r => same_part (fst q) (fst r) /\ S (snd q) (snd r)) l s.
Proof.
  intros NE T N1 N2 PF ND H. unfold score_back.
  destruct (write_each_kept S prints ticks (map snd l) 0 H) as (xs & l' & W & N & D & R & F). rewrite W. cbn [obind]. rewrite map_length in N.
  assert (C1 : map fst (combine (map fst l) xs) = map fst l /\ map snd (combine (map fst l) xs) = xs).
  { clear - N. revert xs N. induction l as [|[a b] l IH]; intros [|x xs] N; try discriminate N; [auto | ]. cbn in *. destruct (IH xs ltac:(congruence)) as [-> ->]. auto. }
  destruct C1 as [C1 C2]. set (ps := combine (map fst l) xs) in *.
  assert (Lp : List.length ps = List.length l) by (rewrite <- (map_length fst ps), C1, map_length; reflexivity).
  destruct (parts_kept [new_xmeasure] next ps) as (s & E & K).
  - destruct ps; [destruct l; [contradiction NE; reflexivity | discriminate Lp] | intros E; discriminate E].
  - exact N1.
  - rewrite Lp. exact N2.
  - rewrite Forall_forall in *. intros q I. assert (In (fst q) (map fst l)) as J by (rewrite <- C1; apply in_map; exact I).
    apply in_map_iff in J. destruct J as (q' & <- & J). apply PF. exact J.
  - rewrite <- (map_map fst uniqueId), C1, map_map. exact ND.
  - unfold parts_back in E. apply omap_ok in E. destruct E as (w & E & Es). rewrite E. cbn [obind]. cbv zeta. rewrite <- Es.
    assert (M : map snd (snd w) = xs).
    { unfold write_parts in E. destruct ps as [|q ps']; [destruct l; [contradiction NE; reflexivity | discriminate Lp] | ]. rewrite (written_music _ _ _ E). exact C2. }
    rewrite <- (map_map snd (map measure_divisions)), M.
    rewrite (divisions_found ticks xs); [ | destruct xs; [destruct l; [contradiction NE; reflexivity | discriminate N] | intros X; discriminate X] | exact D | exact T]. cbn [obind].
    assert (Ms : map snd s = xs).
    { rewrite <- C2. clear - K. induction K as [|q r ps2 s2 [_ K1] K IH]; [reflexivity | ]. cbn. rewrite IH, K1. reflexivity. }
    rewrite Ms, (R (-1)) by auto. cbn [obind]. eexists. split; [reflexivity | ].
    assert (K' : Forall2 (fun q r => same_part q r) (map fst l) (map fst s)).
    { rewrite <- C1. clear - K. induction K as [|q r ps2 s2 [K1 _] K IH]; cbn; constructor; auto. }
    clear - K' F. revert l' F s K'. induction l as [|[a b] l IH]; intros l' F s K'; cbn [map] in *; inversion F; subst; inversion K'; subst.
    + destruct s; [constructor | discriminate].
    + destruct s as [|[c d] s]; [discriminate | ]. cbn [map fst] in *.
      match goal with X : _ :: _ = _ :: _ |- _ => injection X as -> -> end. cbn [combine]. constructor; [split; assumption | apply IH; assumption].
Qed.
