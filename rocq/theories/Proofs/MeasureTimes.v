(** Time signatures, barlines and numbers through writing and reading. *)
From Coq Require Import QArith.
From Verif Require Import Proofs.Tac.
From Verif Require Import Model.Base Model.Text Model.Strings Model.Ticks Model.Decimals Model.CoreEnums Model.ApiEnums
  Model.ConverterTables Model.MeasureTypes Model.MeasureWriter Model.MeasureReader.
From Verif Require Import Spec.Numerals Spec.XmlText Spec.TimeSignatures.
From Verif Require Import Proofs.StringsProofs Proofs.MeasureSync Proofs.MeasureReadProofs.
Import ListNotations.
Open Scope Z_scope.

(** * What the writer keeps *)

Definition bars_in (items : list music_data) : list xbarline :=
  flat_map (fun x => match x with MBarline b => [b] | _ => [] end) items.

Lemma times_app a b : times_of (a ++ b) = times_of a ++ times_of b.
Proof. apply flat_map_app. Qed.
Lemma bars_app a b : bars_in (a ++ b) = bars_in a ++ bars_in b.
Proof. apply flat_map_app. Qed.

Definition keeps (f : W) : Prop := forall s items s', f s = Ok (items, s') ->
  times_of items ++ p_times (w_props s') = p_times (w_props s) /\ bars_in items = [].

Lemma keeps_set f : (forall s, p_times (w_props (f s)) = p_times (w_props s)) -> keeps (w_set f).
Proof. intros H s items s' E. injection E as <- <-. split; [apply H | reflexivity]. Qed.

Lemma keeps_done : keeps w_done.
Proof. intros s items s' E. injection E as <- <-. split; reflexivity. Qed.

Lemma keeps_then f h : keeps f -> keeps h -> keeps (w_then f h).
Proof.
  intros F H s items s' E. unfold w_then in E. apply obind_ok in E. destruct E as ([i1 s1] & E1 & E). apply obind_ok in E.
  destruct E as ([i2 s2] & E2 & E). cbn [fst snd] in *. injection E as <- <-.
  destruct (F _ _ _ E1) as [A1 B1]. destruct (H _ _ _ E2) as [A2 B2]. rewrite times_app, bars_app, B1, B2, <- app_assoc, A2, A1. auto.
Qed.

Lemma keeps_items (f : wstate -> outcome (list music_data)) : (forall s l, f s = Ok l -> times_of l = [] /\ bars_in l = []) ->
  keeps (fun s => obind (f s) (fun l => Ok (l, s))).
Proof. intros H s items s' E. apply obind_ok in E. destruct E as (l & E1 & E). injection E as <- <-. destruct (H _ _ E1) as [-> ->]. auto. Qed.

Lemma keeps_flush : keeps flushBuffer.
Proof.
  intros s items s' E. unfold flushBuffer in E. injection E as <- <-. cbn [set_props w_props]. destruct (isPropertiesEmpty (w_props s)) eqn:P.
  - rewrite (empty_props_eq _ P). auto.
  - cbn. rewrite !app_nil_r. auto.
Qed.

Lemma direction_elements_keeps d s l : direction_elements d s = Ok l -> times_of l = [] /\ bars_in l = [].
Proof.
  unfold direction_elements. intros E. apply obind_ok in E. destruct E as (o & _ & E). apply obind_ok in E. destruct E as (q & _ & E).
  apply obind_ok in E. destruct E as (ts & _ & E). injection E as <-. destruct ts, (d_chords d); split; reflexivity.
Qed.

Lemma keeps_direction d : keeps (writeDirection d).
Proof. apply keeps_then; [apply keeps_flush | ]. apply keeps_items. apply direction_elements_keeps. Qed.

Lemma keeps_directions_while p ds : keeps (write_directions_while p ds).
Proof.
  induction ds as [|d ds IH]; cbn [write_directions_while]; [apply keeps_done | ]. destruct (p d); [ | apply keeps_done].
  apply keeps_then; [apply keeps_direction | ]. apply keeps_then; [apply keeps_set; reflexivity | exact IH].
Qed.

Lemma keeps_nothing s : forall items s', Ok (@nil music_data, s) = Ok (items, s') -> times_of items ++ p_times (w_props s') = p_times (w_props s) /\ bars_in items = [].
Proof. intros items s' E. injection E as <- <-. auto. Qed.

Lemma keeps_directions pos : keeps (writeDirections pos).
Proof.
  intros s items s' E. unfold writeDirections in E. destruct (w_directions s) as [|d ds]; [apply (keeps_nothing s); exact E | ].
  destruct pos as [|[q|] n [q'|]]; try (apply (keeps_directions_while _ _ _ _ _ E));
    destruct (_ && _); try (apply (keeps_nothing s); exact E); apply obind_ok in E; destruct E as (e & _ & E); apply (keeps_directions_while _ _ _ _ _ E).
Qed.

Lemma keeps_backup t : keeps (backup t).
Proof.
  intros s items s' E. unfold backup in E. destruct (w_tick s <? 0); [discriminate E | ].
  destruct (w_tick s - t <? 0); (destruct (_ <? 0); [discriminate E | ]; destruct (_ =? 0); [apply (keeps_nothing s); exact E | ];
    apply obind_ok in E; destruct E as (v & _ & E); injection E as <- <-; split; reflexivity).
Qed.

Lemma keeps_forward t : keeps (forward t).
Proof.
  intros s items s' E. unfold forward in E. apply obind_ok in E. destruct E as (v & _ & E). apply obind_ok in E. destruct E as (u & _ & E).
  injection E as <- <-. split; reflexivity.
Qed.

Lemma keeps_move n : keeps (writeForwardOrBackupIfNeeded n).
Proof.
  apply keeps_then; [apply keeps_flush | ]. intros s items s' E. destruct (n_tick n <? 0); [apply (keeps_nothing s); exact E | ].
  apply obind_ok in E. destruct E as (d & _ & E). destruct (d <? 0); [apply (keeps_backup _ _ _ _ E) | ]. destruct (0 <? d); [apply (keeps_forward _ _ _ _ E) | ].
  apply (keeps_nothing s); exact E.
Qed.

Lemma times_clefs_until l : forall s, p_times (w_props (writeClefsUntil l s)) = p_times (w_props s).
Proof. induction l as [|c l IH]; intros s; cbn [writeClefsUntil]; [reflexivity | ]. destruct (_ <=? _); [rewrite IH | ]; reflexivity. Qed.

Lemma times_staff_keys_until l : forall s, p_times (w_props (writeStaffKeysUntil l s)) = p_times (w_props s).
Proof. induction l as [|c l IH]; intros s; cbn [writeStaffKeysUntil]; [reflexivity | ]. destruct (_ <=? _); [rewrite IH | ]; reflexivity. Qed.

Lemma times_measure_key s : p_times (w_props (writeMeasureKey s)) = p_times (w_props s).
Proof. unfold writeMeasureKey. destruct (w_measureKeys s); [reflexivity | ]. destruct (_ <=? _); reflexivity. Qed.

Lemma keeps_advance n next : keeps (advanceCursorIfNeeded n next).
Proof.
  intros s items s' E. unfold advanceCursorIfNeeded in E. destruct (isAdvanceNeeded n next).
  - apply obind_ok in E. destruct E as (t & _ & E). injection E as <- <-. split; reflexivity.
  - injection E as <- <-. split; reflexivity.
Qed.

Lemma keeps_fun (f : wstate -> W) : (forall s, keeps (f s)) -> keeps (fun s => f s s).
Proof. intros H s. apply H. Qed.

Lemma keeps_notes c notes : forall p t, keeps (write_notes c p t notes).
Proof.
  induction notes as [|n rest IH]; intros p t; cbn [write_notes]; [apply keeps_done | ].
  apply keeps_then; [apply keeps_set; reflexivity | ]. apply keeps_then; [apply keeps_move | ].
  intros s items s' E. revert items s' E.
  match goal with |- forall items s', ?f s = _ -> _ => change (forall items s', f s = Ok (items, s') -> times_of items ++ p_times (w_props s') = p_times (w_props s) /\ bars_in items = []); assert (K : keeps f) end.
  { apply keeps_then; [apply keeps_set; apply times_measure_key | ]. apply keeps_then; [apply keeps_set; intros s0; apply times_clefs_until | ].
    apply keeps_then; [apply keeps_set; intros s0; apply times_staff_keys_until | ]. apply keeps_then; [apply keeps_flush | ].
    apply keeps_then; [apply keeps_directions | ]. apply keeps_then; [ | apply keeps_then; [apply keeps_advance | apply IH]].
    intros s0 items s' E. apply obind_ok in E. destruct E as (x & _ & E). injection E as <- <-. split; reflexivity. }
  intros items s' E. apply (K _ _ _ E).
Qed.

Lemma keeps_voices c vs : keeps (write_voice_list c vs).
Proof.
  induction vs as [|v vs IH]; cbn [write_voice_list]; [apply keeps_done | ]. apply keeps_then; [ | exact IH]. unfold write_voice.
  apply keeps_then; [apply keeps_set; reflexivity | ]. apply keeps_then; [apply keeps_directions | ]. apply keeps_then; [apply keeps_notes | apply keeps_directions].
Qed.

Lemma times_fold {A} (f : wstate -> A -> wstate) l : (forall s a, p_times (w_props (f s a)) = p_times (w_props s)) ->
  forall s, p_times (w_props (fold_left f l s)) = p_times (w_props s).
Proof. intros H. induction l as [|a l IH]; intros s; cbn; [reflexivity | rewrite IH; apply H]. Qed.

Lemma keeps_remaining : keeps write_remaining.
Proof.
  intros s items s' E. assert (X : exists u, flushBuffer u = Ok (items, s') /\ p_times (w_props u) = p_times (w_props s) \/ Ok ([], s) = Ok (items, s')).
  { unfold write_remaining in E. destruct (w_clefs s) as [|c cs], (w_measureKeys s) as [|k ks], (w_staffKeys s) as [|y ys];
      first [exists s; right; exact E | eexists; left; split; [exact E | ]];
      rewrite ?times_fold by reflexivity; try destruct (k_tick k =? 0); cbn [set_staffKeys set_measureKeys w_props set_clefs writeKey set_props p_times]; rewrite ?times_fold by reflexivity; reflexivity. }
  destruct X as [u [[X1 X2] | X]]; [rewrite <- X2; apply (keeps_flush _ _ _ X1) | apply (keeps_nothing s); exact X].
Qed.

Lemma keeps_staff_voices c st : keeps (writeVoices c st).
Proof.
  unfold writeVoices. do 3 (apply keeps_then; [apply keeps_set; reflexivity | ]). apply keeps_then; [apply keeps_voices | ].
  apply keeps_then; [apply keeps_directions | apply keeps_remaining].
Qed.

Lemma keeps_staves c l : keeps (write_staves c l).
Proof.
  induction l as [|st l IH]; cbn [write_staves]; [apply keeps_done | ]. apply keeps_then; [apply keeps_staff_voices | ].
  apply keeps_then; [apply keeps_set; reflexivity | exact IH].
Qed.

Lemma times_leading_clefs c l : forall i s, p_times (w_props (write_leading_clefs c i l s)) = p_times (w_props s).
Proof. induction l as [|st l IH]; intros i s; cbn [write_leading_clefs]; [reflexivity | ]. rewrite IH. apply times_fold. reflexivity. Qed.

Lemma times_leading_keys l : forall s, p_times (w_props (write_leading_keys l s)) = p_times (w_props s).
Proof. induction l as [|k l IH]; intros s; cbn [write_leading_keys]; [reflexivity | ]. destruct (_ =? _); [rewrite IH | ]; reflexivity. Qed.

Lemma properties_times c m items s : writeProperties c m (initial_wstate m) = Ok (items, s) ->
  items = [] /\ p_times (w_props s) = if ts_implicit (m_time m) then [] else [time_element (m_time m)].
Proof.
  unfold writeProperties, w_then. intros E. apply obind_ok in E. destruct E as ([i1 s1] & E1 & E). cbn [fst snd] in E.
  assert (A : i1 = [] /\ p_times (w_props s1) = []).
  { destruct (wc_isFirst c); [apply obind_ok in E1; destruct E1 as (d & _ & E1) | ]; injection E1 as <- <-; split; reflexivity. }
  destruct A as [-> A]. clear E1. unfold w_set in E. cbn [obind fst snd app] in E. injection E as <- <-. split; [reflexivity | ].
  match goal with |- p_times (w_props (if ?b then _ else _)) = _ => destruct b end; [destruct (wc_transposition c) | ];
    cbn [add_transpose set_props w_props p_times]; rewrite times_leading_keys, times_leading_clefs;
    destruct (ts_implicit (m_time m)); cbn [add_time set_props w_props p_times]; rewrite A; reflexivity.
Qed.

Lemma written_bars t l : bars_in (fst (writeBarlines t l)) = map barline_element (fst (bars_until t l)) /\
  times_of (fst (writeBarlines t l)) = [] /\ snd (writeBarlines t l) = snd (bars_until t l).
Proof.
  induction l as [|b l IH]; cbn [writeBarlines bars_until]; [auto | ]. destruct (b_tick b <=? t); [ | auto].
  destruct (writeBarlines t l) as [x y]. cbn [fst snd] in *. destruct IH as (A & B & C). unfold bars_in, times_of in *. cbn [flat_map app fst snd map].
  rewrite A. auto.
Qed.

Lemma written_data c m items : write_data c m = Ok items ->
  times_of items = (if ts_implicit (m_time m) then [] else [time_element (m_time m)]) /\
  bars_in items = map barline_element (fst (bars_until 0 (m_barlines m))) ++
    map barline_element (fst (bars_until TICK_TIME_INFINITY (snd (bars_until 0 (m_barlines m))))).
Proof.
  unfold write_data. destruct (written_bars 0 (m_barlines m)) as (A1 & A2 & A3). destruct (writeBarlines 0 (m_barlines m)) as [bars rest].
  cbn [fst snd] in *. subst rest. set (rest := snd (bars_until 0 (m_barlines m))).
  destruct (written_bars TICK_TIME_INFINITY rest) as (B1 & B2 & B3).
  intros E. unfold omap in E. apply obind_ok in E. destruct E as ([i s] & E & F). cbn [fst snd] in F. injection F as <-.
  rewrite !times_app, !bars_app, A1, A2, B1, B2. cbn [app].
  unfold w_then at 1 in E. cbn [w_add obind fst snd] in E. apply obind_ok in E. destruct E as ([i1 s1] & E1 & E). cbn [fst snd] in E. injection E as <- <-.
  unfold w_then at 1 in E1. apply obind_ok in E1. destruct E1 as ([i2 s2] & E2 & E1). cbn [fst snd] in E1. apply obind_ok in E1. destruct E1 as ([i3 s3] & E3 & E1).
  cbn [fst snd] in E1. injection E1 as <- <-. destruct (properties_times _ _ _ _ E2) as [-> T]. cbn [app].
  unfold w_then at 1 in E3. apply obind_ok in E3. destruct E3 as ([i4 s4] & E4 & E3). cbn [fst snd] in E3. apply obind_ok in E3. destruct E3 as ([i5 s5] & E5 & E3).
  cbn [fst snd] in E3. injection E3 as <- <-.
  assert (K : keeps (writeStaves c (m_staves m))) by (apply keeps_then; [apply keeps_set; reflexivity | apply keeps_staves]).
  destruct (K _ _ _ E4) as [K1 K2]. destruct (keeps_flush _ _ _ E5) as [K3 K4].
  assert (P5 : p_times (w_props s5) = []) by (unfold flushBuffer in E5; injection E5 as _ <-; reflexivity).
  rewrite P5, app_nil_r in K3. rewrite <- K3, <- times_app in K1.
  assert (R : forall k, times_of (repeat MPrint k) = [] /\ bars_in (repeat MPrint k) = []) by (intros k; induction k as [|k [IH1 IH2]]; split; try reflexivity; assumption).
  destruct (R (wc_prints c)) as [R1 R2].
  rewrite ?times_app, ?bars_app, ?R1, ?R2, ?K2, ?K4, ?app_nil_r in *. cbn [app]. rewrite K1, T. auto.
Qed.

(** * What the reader makes of it *)

Lemma find_time_first items : find_time items = hd_error (times_of items).
Proof.
  induction items as [|x items IH]; [reflexivity | ]. unfold times_of in *. cbn [find_time flat_map]. destruct x; cbn [app]; try exact IH.
  destruct (p_times p); [exact IH | reflexivity].
Qed.


Lemma says_unique x t t' : says x t -> says x t' -> t = t'.
Proof.
  intros (A & I1 & I2 & B & C & D) (A' & I1' & I2' & B' & C' & D'). rewrite A in A'. injection A' as E1 E2.
  assert (stringToInt (print_int (ts_beats t)) = Ok (Some (ts_beats t))) as F1 by (apply stringToInt_success; auto).
  assert (stringToInt (print_int (ts_beats t')) = Ok (Some (ts_beats t'))) as F1' by (apply stringToInt_success; auto).
  assert (stringToInt (print_int (ts_beatType t)) = Ok (Some (ts_beatType t))) as F2 by (apply stringToInt_success; auto).
  assert (stringToInt (print_int (ts_beatType t')) = Ok (Some (ts_beatType t'))) as F2' by (apply stringToInt_success; auto).
  rewrite E1, F1' in F1. rewrite E2, F2' in F2. injection F1 as F1. injection F2 as F2. destruct t, t'; cbn in *. congruence.
Qed.

Lemma parseTime_says x o : parseTime x = Ok o -> match o with Some t => says x t | None => ~ exists t, says x t end.
Proof.
  unfold parseTime. destruct (xt_beats x) as [[b bt]|] eqn:B.
  - intros E. apply obind_ok in E. destruct E as (ob & E1 & E). destruct ob as [nb|].
    + apply obind_ok in E. destruct E as (obt & E2 & E). apply stringToInt_success in E1. destruct E1 as [I1 ->]. destruct obt as [nbt|].
      * apply stringToInt_success in E2. destruct E2 as [I2 ->]. injection E as <-. repeat split; try assumption; try exact B; apply I1 || apply I2.
      * injection E as <-. intros (t & A & J1 & J2 & _). rewrite B in A. injection A as A1 A2. subst bt.
        assert (stringToInt (print_int (ts_beatType t)) = Ok (Some (ts_beatType t))) as F by (apply stringToInt_success; auto). rewrite F in E2. discriminate E2.
    + injection E as <-. intros (t & A & J1 & J2 & _). rewrite B in A. injection A as A1 A2. subst b.
      assert (stringToInt (print_int (ts_beats t)) = Ok (Some (ts_beats t))) as F by (apply stringToInt_success; auto). rewrite F in E1. discriminate E1.
  - intros E. injection E as <-. intros (t & A & _). rewrite B in A. discriminate A.
Qed.

Lemma parseTime_written t : ts_implicit t = false -> is_int (ts_beats t) -> is_int (ts_beatType t) -> parseTime (time_element t) = Ok (Some t).
Proof.
  intros I A B. unfold parseTime, time_element. cbn [xt_beats xt_symbol xt_print].
  assert (stringToInt (print_int (ts_beats t)) = Ok (Some (ts_beats t))) as -> by (apply stringToInt_success; auto). cbn [obind].
  assert (stringToInt (print_int (ts_beatType t)) = Ok (Some (ts_beatType t))) as -> by (apply stringToInt_success; auto). cbn [obind].
  destruct t as [b bt y d i]. cbn in *. subst i. f_equal. f_equal. f_equal; [destruct y | destruct d]; reflexivity.
Qed.

(** The time signature before the measure. *)
Definition time_before (c : rctx) : TimeSignatureData := if 0 <? rc_measureIndex c then rc_time c else default_time.

Lemma read_time c x m tr cur : read_measure c x = Ok (m, tr, cur) ->
  exists o, states (xm_data x) o /\ m_time m = match o with Some t => t | None => implicit (time_before c) end.
Proof.
  unfold read_measure. intros H. apply obind_ok in H. destruct H as (t & Ht & H). apply obind_ok in H. destruct H as (r & Hr & H).
  apply obind_ok in H. destruct H as (l & Hl & H). injection H as <- <- <-. cbn [m_time]. clear Hr Hl.
  unfold parseTimeSignature in Ht. rewrite find_time_first in Ht. unfold states. apply obind_ok in Ht. destruct Ht as (o & E & Ht). injection Ht as <-. exists o.
  destruct (times_of (xm_data x)) as [|y ys]; cbn [hd_error] in E.
  - injection E as <-. split; [exact I | reflexivity].
  - apply parseTime_says in E. destruct o as [u|]; split; try reflexivity; [ | exact E]. exists y, ys. auto.
Qed.

Lemma states_unique items o o' : states items o -> states items o' -> o = o'.
Proof.
  destruct o as [t|], o' as [t'|]; cbn; try reflexivity.
  - intros (x & r & E & A) (x' & r' & E' & A'). rewrite E in E'. injection E' as <- _. f_equal. eapply says_unique; eassumption.
  - intros (x & r & E & A). rewrite E. intros H. exfalso. apply H. eauto.
  - intros H (x & r & E & A). rewrite E in H. exfalso. apply H. eauto.
Qed.

Lemma written_states c m items : write_data c m = Ok items -> is_int (ts_beats (m_time m)) -> is_int (ts_beatType (m_time m)) -> states items (stated m).
Proof.
  intros E A B. destruct (written_data c m items E) as [T _]. unfold stated, states. destruct (ts_implicit (m_time m)) eqn:I; rewrite T; [exact Logic.I | ].
  exists (time_element (m_time m)), []. split; [reflexivity | ]. apply (parseTime_says _ (Some (m_time m))). apply parseTime_written; assumption.
Qed.

(** Reading a part. *)
Lemma read_times c l : forall ms, read_measures c l = Ok ms -> 0 <= rc_measureIndex c ->
  exists os, Forall2 (fun x o => states (xm_data x) o) l os /\ map m_time ms = inherit (time_before c) os.
Proof.
  revert c. induction l as [|x l IH]; intros c ms H I; cbn [read_measures] in H.
  - injection H as <-. exists []. split; [constructor | reflexivity].
  - apply obind_ok in H. destruct H as ([[m tr] cur] & E & H). cbn [fst snd] in H. apply obind_ok in H. destruct H as (ms' & E' & H). injection H as <-.
    destruct (read_time _ _ _ _ _ E) as (o & O1 & O2).
    destruct (IH _ ms' E') as (os & P1 & P2); [cbn [rc_measureIndex]; lia | ].
    exists (o :: os). split; [constructor; assumption | ]. cbn [map inherit].
    match type of P2 with _ = inherit (time_before ?d) _ => assert (time_before d = m_time m) as T end.
    { unfold time_before. cbn [rc_measureIndex rc_time]. assert (0 <? rc_measureIndex c + 1 = true) as -> by lia. reflexivity. }
    rewrite P2, T, O2. destruct o as [t|]; [reflexivity | ]. f_equal. clear.
    generalize (time_before c). intros t. revert t. induction os as [|[o|] os IH]; intros t; cbn [inherit]; [reflexivity | reflexivity | ].
    rewrite IH. reflexivity.
Qed.

Lemma omap_ok {A B} (f : A -> B) (o : outcome A) b : omap f o = Ok b -> exists a, o = Ok a /\ b = f a.
Proof. destruct o as [a | | ]; cbn; intros H; try discriminate H. injection H as <-. eauto. Qed.

Lemma write_measures_data prints l : forall c xs, write_measures prints c l = Ok xs ->
  Forall2 (fun m x => exists c', write_data c' m = Ok (xm_data x)) l xs.
Proof.
  induction l as [|m l IH]; intros c xs H; cbn [write_measures] in H; [injection H as <-; constructor | ].
  apply obind_ok in H. destruct H as (x & E & H). apply obind_ok in H. destruct H as (xs' & E' & H). injection H as <-.
  apply omap_ok in E. destruct E as (d & E & ->). constructor; [exists c; exact E | eapply IH; exact E'].
Qed.

Theorem part_times prints wc rc l xs ms : write_measures prints wc l = Ok xs -> read_measures rc xs = Ok ms -> 0 <= rc_measureIndex rc ->
  Forall (fun m => is_int (ts_beats (m_time m)) /\ is_int (ts_beatType (m_time m))) l ->
  map m_time ms = inherit (time_before rc) (map stated l).
Proof.
  intros W R I F. destruct (read_times rc xs ms R I) as (os & O1 & O2). rewrite O2. f_equal. apply write_measures_data in W. clear R O2 I.
  revert os O1. induction W as [|m x l xs (c & E) W IH]; intros os O1; inversion O1; subst; [reflexivity | ]. inversion F; subst. cbn [map].
  f_equal; [ | apply IH; assumption]. eapply states_unique; [eassumption | ]. eapply written_states; [exact E | apply H2 | apply H2].
Qed.

(** * Barlines *)

Definition read_view (x : xbarline) : api_BarlineType * api_EndingType * Z * bool * api_HorizontalAlignment :=
  bar_view (mkBarline 0 (match xb_style x with Some s => barlineMap_toApi s | None => api_BarlineType_unspecified end)
    (match xb_ending x with
     | None => api_EndingType_none
     | Some (StartStopDiscontinue_start, _) => api_EndingType_start
     | Some (StartStopDiscontinue_stop, _) => api_EndingType_stop
     | Some (StartStopDiscontinue_discontinue, _) => api_EndingType_discontinue
     end)
    (match xb_ending x with Some (_, n :: _) => n | _ => 0 end)
    (match xb_repeat x with Some _ => true | None => false end)
    (match xb_location x with Some l => barlinePlacementMap_toApi l | None => api_HorizontalAlignment_unspecified end)).

Lemma clefs_barlines l : forall r r', importClefs l r = Ok r' -> r_barlines r' = r_barlines r.
Proof.
  induction l as [|k l IH]; intros r r' H; cbn [importClefs] in H; [injection H as <-; reflexivity | ].
  apply obind_ok in H. destruct H as (r1 & H1 & H). rewrite (IH _ _ H). unfold importClef in H1. apply obind_ok in H1. destruct H1 as (st & _ & H1).
  injection H1 as <-. reflexivity.
Qed.

Lemma step_barlines c x next r r' : parseMusicDataChoice c x next r = Ok r' ->
  map bar_view (r_barlines r') = map bar_view (r_barlines r) ++ map read_view (bars_in [x]).
Proof.
  intros H. assert (B : match x with MBarline b => True | _ => r_barlines r' = r_barlines r end).
  { destruct x as [n | d | d | d | h | p | b | | ]; cbn [parseMusicDataChoice] in H; try exact I; try (injection H as <-; reflexivity).
    - unfold parseNote in H. repeat (apply obind_ok in H; let v := fresh "v" in destruct H as (v & _ & H)). injection H as <-. reflexivity.
    - unfold parseBackup in H. repeat (apply obind_ok in H; let v := fresh "v" in destruct H as (v & _ & H)). destruct (_ <? _).
      + apply obind_ok in H. destruct H as (pb & _ & H). injection H as <-. reflexivity.
      + injection H as <-. reflexivity.
    - unfold parseForward in H. repeat (apply obind_ok in H; let v := fresh "v" in destruct H as (v & _ & H)). injection H as <-. reflexivity.
    - unfold parseDirectionImpl in H. repeat (apply obind_ok in H; let v := fresh "v" in destruct H as (v & _ & H)). injection H as <-. reflexivity.
    - unfold parseDirectionImpl in H. repeat (apply obind_ok in H; let v := fresh "v" in destruct H as (v & _ & H)). injection H as <-. reflexivity.
    - unfold parseProperties in H. apply obind_ok in H. destruct H as (cur & _ & H). apply obind_ok in H. destruct H as (r3 & Hr & H).
      apply clefs_barlines in Hr. rewrite read_keys in Hr. cbn [r_barlines r_set_current r_at] in Hr. injection H as <-.
      destruct (p_transpose p); [exact Hr | ]. destruct (_ && _); exact Hr. }
  destruct x; cbn [parseMusicDataChoice bars_in flat_map app map] in *; rewrite ?app_nil_r, ?B; try reflexivity.
  injection H as <-. unfold parseBarline. cbn [r_add_barline r_barlines r_at]. rewrite map_app. reflexivity.
Qed.

Lemma read_barlines_views c items f : forall r r', read_items c items f r = Ok r' ->
  map bar_view (r_barlines r') = map bar_view (r_barlines r) ++ map read_view (bars_in items).
Proof.
  induction items as [|x items IH]; intros r r' H; cbn [read_items] in H; [injection H as <-; cbn; rewrite app_nil_r; reflexivity | ].
  apply obind_ok in H. destruct H as (r1 & H1 & H). rewrite (IH _ _ H), (step_barlines _ _ _ _ _ H1), <- app_assoc, <- map_app, <- bars_app. reflexivity.
Qed.

Lemma bars_until_all t l : Forall (fun b => b_tick b <= t) l -> bars_until t l = (l, []).
Proof. induction 1 as [|b l H Hl IH]; [reflexivity | ]. cbn [bars_until]. assert (b_tick b <=? t = true) as -> by lia. rewrite IH. reflexivity. Qed.

Lemma bars_until_app t l : fst (bars_until t l) ++ snd (bars_until t l) = l.
Proof. induction l as [|b l IH]; [reflexivity | ]. cbn [bars_until]. destruct (b_tick b <=? t); [cbn; f_equal; exact IH | reflexivity]. Qed.

Lemma view_plain b : read_view (barline_element b) = bar_view (plain b).
Proof.
  destruct b as [t ty e n rp loc]. unfold read_view, bar_view, plain, barline_element.
  cbn [b_tick b_type b_ending b_number b_repeat b_location xb_style xb_ending xb_repeat xb_location].
  f_equal; [f_equal; [f_equal; [f_equal | ] | ] | ].
  - destruct ty; vm_compute; reflexivity.
  - destruct e; vm_compute; reflexivity.
  - destruct e; vm_compute; reflexivity.
  - destruct rp; reflexivity.
  - destruct loc; cbn -[Z.eqb]; destruct (t =? 0); vm_compute; reflexivity.
Qed.

Theorem barlines_back wc rc m x m' tr cur : write_measure wc m = Ok x -> read_measure rc x = Ok (m', tr, cur) -> Forall (fun b => is_int (b_tick b)) (m_barlines m) ->
  map bar_view (m_barlines m') = map (fun b => bar_view (plain b)) (m_barlines m).
Proof.
  intros W R F. apply omap_ok in W. destruct W as (items & W & ->). destruct (written_data _ _ _ W) as [_ B].
  unfold read_measure in R. apply obind_ok in R. destruct R as (t & _ & R). apply obind_ok in R. destruct R as (r & Hr & R).
  apply obind_ok in R. destruct R as (l & Hl & R). injection R as <- <- <-. cbn [m_barlines xm_data] in *.
  rewrite (read_barlines_views _ _ _ _ _ Hr). cbn [initial_rstate r_barlines map app]. rewrite B.
  rewrite (bars_until_all TICK_TIME_INFINITY (snd (bars_until 0 (m_barlines m)))).
  - cbn [fst]. rewrite <- map_app, bars_until_app, map_map. apply map_ext. apply view_plain.
  - pose proof F as G. rewrite <- (bars_until_app 0 (m_barlines m)) in G. apply Forall_app in G. eapply Forall_impl; [ | apply G].
    intros b H. unfold TICK_TIME_INFINITY, int_max, is_int in *. lia.
Qed.

Lemma plain_id b : plain_barline b -> bar_view (plain b) = bar_view b.
Proof.
  destruct b as [t ty e n rp loc]. intros (A & B & C). unfold bar_view, plain. cbn [b_tick b_type b_ending b_number b_repeat b_location] in *.
  f_equal; [f_equal; f_equal; [f_equal | ] | ].
  - destruct ty; congruence.
  - destruct e; [reflexivity | | | ]; (assert (0 <? n = true) as -> by (apply Z.ltb_lt; apply C; discriminate)); reflexivity.
  - destruct loc; congruence.
Qed.

(** * Numbers *)

Theorem number_back wc rc m x m' tr cur : write_measure wc m = Ok x -> read_measure rc x = Ok (m', tr, cur) -> rc_measureIndex rc = wc_measureIndex wc ->
  m_number m' = (if str_eqb (token_of (number_text (wc_measureIndex wc) (m_number m))) (print_int (wc_measureIndex wc + 1)) then []
                 else token_of (number_text (wc_measureIndex wc) (m_number m))) /\ m_implicit m' = m_implicit m.
Proof.
  intros W R I. apply omap_ok in W. destruct W as (items & W & ->).
  unfold read_measure in R. apply obind_ok in R. destruct R as (t & _ & R). apply obind_ok in R. destruct R as (r & Hr & R).
  apply obind_ok in R. destruct R as (l & Hl & R). injection R as <- <- <-. cbn [m_number m_implicit xm_number xm_implicit]. rewrite I.
  split; [unfold number_text; destruct (m_number m); reflexivity | ]. destruct (m_implicit m); reflexivity.
Qed.

Lemma print_int_words n : words (print_int n) [print_int n].
Proof.
  assert (P : forall m, 0 <= m -> print_nat m <> [] /\ Forall (fun c => ~ ws_char c) (print_nat m)).
  { intros m Hm. destruct (TextProofs.print_nat_spec m Hm) as (F & N & _). split; [exact N | ]. eapply Forall_impl; [ | exact F].
    intros c D W. repeat (destruct W as [<- | W]; [vm_compute in D; discriminate D | ]). exact W. }
  assert (Q : print_int n <> [] /\ Forall (fun c => ~ ws_char c) (print_int n)).
  { unfold print_int. destruct (n <? 0) eqn:E; bool_hyps; [ | apply P; lia]. split; [discriminate | ]. constructor; [ | apply P; lia].
    intros W. repeat (destruct W as [W | W]; [discriminate W | ]). exact W. }
  destruct Q as [Q1 Q2]. pose proof (words_next [] (print_int n) [] [] (Forall_nil _) Q1 Q2 I (words_none [] (Forall_nil _))) as R.
  cbn [app] in R. rewrite app_nil_r in R. exact R.
Qed.

Lemma tidy_token t : tidy t -> token_of t = t.
Proof. intros (l & A & B). unfold token_of. rewrite (reduce_words t l A). symmetry. exact B. Qed.

Lemma tidy_number i t : tidy t -> tidy (number_text i t).
Proof. intros H. destruct t as [|c t]; [ | exact H]. exists [print_int (i + 1)]. split; [apply print_int_words | reflexivity]. Qed.

Theorem tidy_number_back wc rc m x m' tr cur : write_measure wc m = Ok x -> read_measure rc x = Ok (m', tr, cur) -> rc_measureIndex rc = wc_measureIndex wc ->
  tidy (m_number m) -> number_text (wc_measureIndex wc) (m_number m') = number_text (wc_measureIndex wc) (m_number m).
Proof.
  intros W R I T. destruct (number_back wc rc m x m' tr cur W R I) as [N _]. rewrite (tidy_token _ (tidy_number (wc_measureIndex wc) _ T)) in N.
  destruct (str_eqb _ _) eqn:E.
  - apply str_eqb_eq in E. rewrite N. cbn [number_text]. symmetry. exact E.
  - rewrite N. destruct (m_number m) as [|c t] eqn:M; [ | reflexivity]. cbn [number_text] in E. assert (str_eqb (print_int (wc_measureIndex wc + 1)) (print_int (wc_measureIndex wc + 1)) = true) as F by (apply str_eqb_eq; reflexivity).
    rewrite F in E. discriminate E.
Qed.

(** A text that is not the default itself is read back as it is. *)
Theorem number_kept wc rc m x m' tr cur : write_measure wc m = Ok x -> read_measure rc x = Ok (m', tr, cur) -> rc_measureIndex rc = wc_measureIndex wc ->
  tidy (m_number m) -> m_number m <> print_int (wc_measureIndex wc + 1) -> m_number m' = m_number m.
Proof.
  intros W R I T D. destruct (number_back wc rc m x m' tr cur W R I) as [N _]. rewrite (tidy_token _ (tidy_number (wc_measureIndex wc) _ T)) in N. rewrite N.
  destruct (str_eqb _ _) eqn:E.
  - apply str_eqb_eq in E. destruct (m_number m) as [|c t]; [reflexivity | ]. cbn [number_text] in E. contradiction.
  - destruct (m_number m) as [|c t]; [ | reflexivity]. cbn [number_text] in E. assert (str_eqb (print_int (wc_measureIndex wc + 1)) (print_int (wc_measureIndex wc + 1)) = true) as F by (apply str_eqb_eq; reflexivity).
    rewrite F in E. discriminate E.
Qed.

Theorem number_in_general wc rc m x m' tr cur : write_measure wc m = Ok x -> read_measure rc x = Ok (m', tr, cur) -> rc_measureIndex rc = wc_measureIndex wc ->
  (forall l, words (number_text (wc_measureIndex wc) (m_number m)) l -> l <> [] ->
    number_text (wc_measureIndex wc) (m_number m') = join [" "%char] l) /\ m_implicit m' = m_implicit m.
Proof.
  intros W R I. destruct (number_back wc rc m x m' tr cur W R I) as [N M]. split; [ | exact M]. intros l A B.
  unfold token_of in N. rewrite (reduce_words _ l A) in N. destruct (str_eqb _ _) eqn:E.
  - apply str_eqb_eq in E. rewrite N. cbn [number_text]. symmetry. exact E.
  - rewrite N. pose proof (words_clean _ _ A) as C. destruct l as [|a l]; [congruence | ]. inversion C as [|? ? [C1 _] _]; subst.
    destruct a as [|c a]; [congruence | ]. cbn [join]. destruct l; reflexivity.
Qed.

Theorem plain_barlines_back wc rc m x m' tr cur : write_measure wc m = Ok x -> read_measure rc x = Ok (m', tr, cur) -> Forall (fun b => is_int (b_tick b)) (m_barlines m) ->
  Forall plain_barline (m_barlines m) -> map bar_view (m_barlines m') = map bar_view (m_barlines m).
Proof.
  intros W R F P. rewrite (barlines_back _ _ _ _ _ _ _ W R F). apply map_ext_in. intros b I. apply plain_id. rewrite Forall_forall in P. apply P. exact I.
Qed.

Lemma time_before_start c : rc_measureIndex c = 0 -> time_before c = default_time.
Proof. intros H. unfold time_before. rewrite H. reflexivity. Qed.

Theorem read_times_start c l ms : read_measures c l = Ok ms -> rc_measureIndex c = 0 ->
  exists os, Forall2 (fun x o => states (xm_data x) o) l os /\ map m_time ms = inherit (mkTime 4 4 SymbolUnspecified BoolUnspecified true) os.
Proof. intros H I. destruct (read_times c l ms H) as (os & A & B); [lia | ]. rewrite (time_before_start c I) in B. exists os. auto. Qed.

Theorem part_times_start prints wc rc l xs ms : write_measures prints wc l = Ok xs -> read_measures rc xs = Ok ms -> rc_measureIndex rc = 0 ->
  Forall (fun m => is_int (ts_beats (m_time m)) /\ is_int (ts_beatType (m_time m))) l ->
  map m_time ms = inherit (mkTime 4 4 SymbolUnspecified BoolUnspecified true) (map stated l).
Proof. intros W R I F. rewrite (part_times prints wc rc l xs ms W R) by (assumption || lia). rewrite (time_before_start rc I). reflexivity. Qed.

Theorem part_times_kept prints wc rc l xs ms : write_measures prints wc l = Ok xs -> read_measures rc xs = Ok ms -> rc_measureIndex rc = 0 ->
  Forall (fun m => is_int (ts_beats (m_time m)) /\ is_int (ts_beatType (m_time m))) l ->
  map m_time l = inherit (mkTime 4 4 SymbolUnspecified BoolUnspecified true) (map stated l) -> map m_time ms = map m_time l.
Proof. intros W R I F E. rewrite E. apply (part_times_start prints wc rc l xs ms W R I F). Qed.
