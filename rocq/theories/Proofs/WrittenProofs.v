(** What is written for time signatures, barlines and tempos. *)
From Coq Require Import QArith.
From Verif Require Import Proofs.Tac.
From Verif Require Import Model.Base Model.Text Model.Strings Model.Ticks Model.Decimals Model.CoreEnums Model.ApiEnums
  Model.ConverterTables Model.MeasureTypes Model.MeasureWriter Model.MeasureReader.
From Verif Require Import Spec.Numerals Spec.XmlText Spec.TimeSignatures Spec.Written.
From Verif Require Import Proofs.StringsProofs Proofs.MeasureSync Proofs.MeasureReadProofs Proofs.MeasureTimes.
Import ListNotations.
Open Scope Z_scope.

Lemma time_written t : written_time t (time_element t).
Proof.
  unfold written_time, time_element. cbn [xt_beats xt_symbol xt_print]. split; [reflexivity | ]. split; [intros ->; reflexivity | ].
  split; [destruct (ts_symbol t); intros N; congruence | ].
  destruct (ts_display t); repeat split; intros H; congruence.
Qed.

Theorem times_written wc m x : write_measure wc m = Ok x ->
  (ts_implicit (m_time m) = true -> times_of (xm_data x) = []) /\
  (ts_implicit (m_time m) = false -> exists t, times_of (xm_data x) = [t] /\ written_time (m_time m) t).
Proof.
  intros E. unfold write_measure in E. apply omap_ok in E. destruct E as (items & E & ->). cbn [xm_data].
  destruct (written_data _ _ _ E) as [T _]. rewrite T. split; intros ->; [reflexivity | ]. eexists. split; [reflexivity | ]. apply time_written.
Qed.

Lemma barline_written b : written_barline b (barline_element b).
Proof.
  unfold written_barline, barline_element. cbn [xb_style xb_ending xb_repeat xb_location].
  assert (N : (if 0 <? b_number b then b_number b else 1) = Z.max 1 (b_number b)) by (destruct (Z.ltb_spec 0 (b_number b)); lia). rewrite N.
  split; [destruct (b_type b); reflexivity | ]. split; [destruct (b_ending b); reflexivity | ].
  split; [intros ->; reflexivity | ]. split.
  - intros ->. intros [-> | ->]; [reflexivity | ]. rewrite Z.eqb_refl, orb_true_r. reflexivity.
  - split.
    + intros -> L T. apply Z.eqb_neq in T. rewrite T. destruct (b_location b); try reflexivity. contradiction L. reflexivity.
    + unfold bar_side. destruct (b_location b); try reflexivity.
Qed.

Theorem barlines_written wc m x : write_measure wc m = Ok x -> Forall (fun b => is_int (b_tick b)) (m_barlines m) ->
  Forall2 written_barline (m_barlines m) (barlines_of (xm_data x)).
Proof.
  intros E I. unfold write_measure in E. apply omap_ok in E. destruct E as (items & E & ->). cbn [xm_data].
  destruct (written_data _ _ _ E) as [_ B]. change (barlines_of items) with (bars_in items). rewrite B.
  rewrite (bars_until_all TICK_TIME_INFINITY (snd (bars_until 0 (m_barlines m)))).
  - cbn [fst]. rewrite <- map_app, bars_until_app. clear. induction (m_barlines m) as [|b l IH]; cbn [map]; [apply Forall2_nil | ].
    apply Forall2_cons; [apply barline_written | exact IH].
  - pose proof I as G. rewrite <- (bars_until_app 0 (m_barlines m)) in G. apply Forall_app in G. eapply Forall_impl; [ | apply G].
    intros b H. unfold TICK_TIME_INFINITY, int_max, is_int in *. lia.
Qed.

(** * Tempos *)

Definition bpm (d : DirectionData) : Prop := Forall (fun t => t_bpm t = true) (d_tempos d).

(** What a step takes off the directions is in beats per minute. *)
Definition takes (f : W) : Prop := forall s items s', f s = Ok (items, s') -> exists ds, w_directions s = ds ++ w_directions s' /\ Forall bpm ds.

Lemma takes_none (f : W) : (forall s items s', f s = Ok (items, s') -> w_directions s' = w_directions s) -> takes f.
Proof. intros H s items s' E. exists []. rewrite (H _ _ _ E). auto. Qed.

Lemma takes_set f : (forall s, w_directions (f s) = w_directions s) -> takes (w_set f).
Proof. intros H. apply takes_none. intros s items s' E. injection E as <- <-. apply H. Qed.

Lemma takes_done : takes w_done.
Proof. apply takes_none. intros s items s' E. injection E as <- <-. reflexivity. Qed.

Lemma takes_then f h : takes f -> takes h -> takes (w_then f h).
Proof.
  intros F H s items s' E. unfold w_then in E. apply obind_ok in E. destruct E as ([i1 s1] & E1 & E). apply obind_ok in E.
  destruct E as ([i2 s2] & E2 & E). cbn [fst snd] in *. injection E as <- <-.
  destruct (F _ _ _ E1) as (d1 & A1 & B1). destruct (H _ _ _ E2) as (d2 & A2 & B2). exists (d1 ++ d2). rewrite A1, A2, app_assoc. split; [reflexivity | ].
  apply Forall_app. auto.
Qed.

Lemma takes_flush : takes flushBuffer.
Proof. apply takes_none. intros s items s' E. injection E as <- <-. reflexivity. Qed.

Lemma tempo_types_ok l ts : tempo_types l = Ok ts -> Forall (fun t => t_bpm t = true) l.
Proof.
  revert ts. induction l as [|t l IH]; intros ts E; [constructor | ]. cbn [tempo_types fold_right] in E. apply obind_ok in E. destruct E as (r & E1 & E).
  destruct (t_bpm t) eqn:B; [ | discriminate E]. constructor; [exact B | ]. exact (IH _ E1).
Qed.

Lemma direction_elements_bpm d s l : direction_elements d s = Ok l -> bpm d.
Proof.
  unfold direction_elements. intros E. apply obind_ok in E. destruct E as (o & _ & E). apply obind_ok in E. destruct E as (q & _ & E).
  apply obind_ok in E. destruct E as (ts & E & _). unfold direction_types in E. apply obind_ok in E. destruct E as (tt & E & _). exact (tempo_types_ok _ _ E).
Qed.

Lemma writeDirection_bpm d s items s' : writeDirection d s = Ok (items, s') -> bpm d /\ w_directions s' = w_directions s.
Proof.
  unfold writeDirection, w_then. intros E. apply obind_ok in E. destruct E as ([i1 s1] & E1 & E). injection E1 as <- <-. cbn [fst snd] in E.
  apply obind_ok in E. destruct E as ([i2 s2] & E2 & E). apply obind_ok in E2. destruct E2 as (l & E2 & F). injection F as <- <-. injection E as <- <-.
  split; [exact (direction_elements_bpm _ _ _ E2) | reflexivity].
Qed.

Lemma while_takes p ds : forall s items s', w_directions s = ds -> write_directions_while p ds s = Ok (items, s') ->
  (exists l, ds = l ++ w_directions s' /\ Forall bpm l) /\ ((forall d, p d = true) -> w_directions s' = []).
Proof.
  induction ds as [|d ds IH]; intros s items s' D E; cbn [write_directions_while] in E.
  { injection E as <- <-. rewrite D. split; [exists []; auto | auto]. }
  destruct (p d) eqn:P.
  - unfold w_then in E. apply obind_ok in E. destruct E as ([i1 s1] & E1 & E). cbn [fst snd] in E. apply obind_ok in E. destruct E as ([i2 s2] & E2 & E).
    cbn [w_set obind fst snd] in E2. apply obind_ok in E2. destruct E2 as ([i3 s3] & E3 & E2). injection E2 as <- <-. injection E as <- <-. cbn [fst snd] in *.
    destruct (writeDirection_bpm _ _ _ _ E1) as [B _]. destruct (IH _ _ _ (eq_refl : w_directions (set_directions ds s1) = ds) E3) as [(l & A & F) Q].
    split; [ | exact Q]. exists (d :: l). split; [cbn [app]; f_equal; exact A | constructor; assumption].
  - injection E as <- <-. split; [exists []; rewrite D; auto | intros H; rewrite H in P; discriminate P].
Qed.

Lemma takes_directions pos : takes (writeDirections pos).
Proof.
  intros s items s' E. unfold writeDirections in E. destruct (w_directions s) as [|d ds] eqn:D; [injection E as <- <-; rewrite D; exists []; auto | ].
  assert (N : forall i, Ok (i, s) = Ok (items, s') -> exists l, d :: ds = l ++ w_directions s' /\ Forall bpm l)
    by (intros i H; injection H as _ <-; exists []; rewrite D; auto).
  destruct pos as [|[q|] n [q'|]]; try (apply (while_takes _ _ _ _ _ D E));
    destruct (_ && _); try (exact (N _ E)); apply obind_ok in E; destruct E as (e & _ & E); apply (while_takes _ _ _ _ _ D E).
Qed.

Lemma directions_end s items s' : writeDirections NotesEnd s = Ok (items, s') -> w_directions s' = [].
Proof.
  unfold writeDirections. destruct (w_directions s) as [|d ds] eqn:D; intros E; [injection E as <- <-; exact D | ].
  apply (while_takes _ _ _ _ _ D E). reflexivity.
Qed.

Lemma takes_backup t : takes (backup t).
Proof.
  apply takes_none. intros s items s' E. unfold backup in E. destruct (_ <? 0); [discriminate E | ].
  set (safe := if w_tick s - t <? 0 then t + (w_tick s - t) else t) in E. destruct (safe <? 0); [discriminate E | ].
  destruct (safe =? 0); [injection E as <- <-; reflexivity | ]. apply obind_ok in E. destruct E as (v & _ & E). injection E as <- <-. reflexivity.
Qed.

Lemma takes_forward t : takes (forward t).
Proof.
  apply takes_none. intros s items s' E. unfold forward in E. apply obind_ok in E. destruct E as (v & _ & E). apply obind_ok in E.
  destruct E as (q & _ & E). injection E as <- <-. reflexivity.
Qed.

Lemma takes_move n : takes (writeForwardOrBackupIfNeeded n).
Proof.
  apply takes_then; [apply takes_flush | ]. intros s items s' E. destruct (n_tick n <? 0); [injection E as <- <-; exists []; auto | ].
  apply obind_ok in E. destruct E as (d & _ & E). destruct (d <? 0); [exact (takes_backup _ _ _ _ E) | ].
  destruct (0 <? d); [exact (takes_forward _ _ _ _ E) | injection E as <- <-; exists []; auto].
Qed.

Lemma takes_advance n next : takes (advanceCursorIfNeeded n next).
Proof.
  apply takes_none. intros s items s' E. unfold advanceCursorIfNeeded in E. destruct (isAdvanceNeeded n next); [ | injection E as <- <-; reflexivity].
  apply obind_ok in E. destruct E as (t & _ & E). injection E as <- <-. reflexivity.
Qed.

Lemma directions_clefs_until l : forall s, w_directions (writeClefsUntil l s) = w_directions s.
Proof. induction l as [|k l IH]; intros s; cbn [writeClefsUntil]; [reflexivity | ]. destruct (_ <=? _); [rewrite IH | ]; reflexivity. Qed.

Lemma directions_keys_until l : forall s, w_directions (writeStaffKeysUntil l s) = w_directions s.
Proof. induction l as [|k l IH]; intros s; cbn [writeStaffKeysUntil]; [reflexivity | ]. destruct (_ <=? _); [rewrite IH | ]; reflexivity. Qed.

Lemma directions_measure_key s : w_directions (writeMeasureKey s) = w_directions s.
Proof. unfold writeMeasureKey. destruct (w_measureKeys s) as [|k r]; [reflexivity | ]. destruct (_ <=? _); reflexivity. Qed.

Lemma takes_notes c notes : forall p t, takes (write_notes c p t notes).
Proof.
  induction notes as [|n notes IH]; intros p t; cbn [write_notes]; [apply takes_done | ].
  apply takes_then; [apply takes_set; reflexivity | ]. apply takes_then; [apply takes_move | ].
  intros s items s' E. revert items s' E.
  match goal with |- forall items s', ?f s = _ -> _ => assert (K : takes f); [ | exact (K s)] end.
  apply takes_then; [apply takes_set; apply directions_measure_key | ].
  apply takes_then; [apply takes_set; intros; apply directions_clefs_until | ].
  apply takes_then; [apply takes_set; intros; apply directions_keys_until | ].
  apply takes_then; [apply takes_flush | ]. apply takes_then; [apply takes_directions | ].
  apply takes_then; [ | apply takes_then; [apply takes_advance | apply IH]].
  apply takes_none. intros s1 items s' E. apply obind_ok in E. destruct E as (x & _ & E). injection E as <- <-. reflexivity.
Qed.

Lemma takes_voices c vs : takes (write_voice_list c vs).
Proof.
  induction vs as [|v vs IH]; cbn [write_voice_list]; [apply takes_done | ]. apply takes_then; [ | exact IH].
  apply takes_then; [apply takes_set; reflexivity | ]. apply takes_then; [apply takes_directions | ].
  apply takes_then; [apply takes_notes | apply takes_directions].
Qed.

Lemma staff_bpm c st s items s' : writeVoices c st s = Ok (items, s') -> Forall bpm (s_directions st).
Proof.
  unfold writeVoices. unfold w_then at 1 2 3. cbn [w_set obind fst snd]. intros E.
  apply obind_ok in E. destruct E as ([i1 s1] & E1 & _). apply obind_ok in E1. destruct E1 as ([i2 s2] & E2 & _). apply obind_ok in E2. destruct E2 as ([i3 s3] & E3 & _).
  set (s0 := set_directions _ _) in E3. unfold w_then at 1 in E3. apply obind_ok in E3. destruct E3 as ([i4 s4] & E4 & E3). cbn [fst snd] in E3.
  apply obind_ok in E3. destruct E3 as ([i5 s5] & E5 & _). unfold w_then in E5. apply obind_ok in E5. destruct E5 as ([i6 s6] & E6 & _).
  destruct (takes_then _ _ (takes_voices c (s_voices st)) (takes_directions NotesEnd) s0 (i4 ++ i6) s6) as (ds & A & F).
  { unfold w_then. rewrite E4. cbn [obind fst snd]. rewrite E6. reflexivity. }
  rewrite (directions_end _ _ _ E6), app_nil_r in A. change (w_directions s0) with (s_directions st) in A. rewrite A. exact F.
Qed.

Lemma staves_bpm c l : forall s items s', write_staves c l s = Ok (items, s') -> Forall (fun st => Forall bpm (s_directions st)) l.
Proof.
  induction l as [|st l IH]; intros s items s' E; [constructor | ]. cbn [write_staves] in E. unfold w_then in E.
  apply obind_ok in E. destruct E as ([i1 s1] & E1 & E). cbn [w_set obind fst snd] in E. apply obind_ok in E. destruct E as ([i2 s2] & E2 & _).
  apply obind_ok in E2. destruct E2 as ([i3 s3] & E3 & _). constructor; [exact (staff_bpm _ _ _ _ _ E1) | exact (IH _ _ _ E3)].
Qed.

Theorem tempos_written wc m x : write_measure wc m = Ok x -> all_beats_per_minute m.
Proof.
  intros E. unfold write_measure in E. apply omap_ok in E. destruct E as (items & E & ->). unfold write_data in E.
  destruct (writeBarlines 0 (m_barlines m)) as [bars rest]. apply omap_ok in E. destruct E as (p & E & _).
  unfold w_then at 1 in E. cbn [w_add obind fst snd] in E. apply obind_ok in E. destruct E as ([i1 s1] & E1 & _).
  unfold w_then at 1 in E1. apply obind_ok in E1. destruct E1 as ([i2 s2] & E2 & E1). cbn [fst snd] in E1. apply obind_ok in E1. destruct E1 as ([i3 s3] & E3 & _).
  unfold w_then at 1 in E3. apply obind_ok in E3. destruct E3 as ([i4 s4] & E4 & _). unfold writeStaves, w_then in E4. cbn [w_set obind fst snd] in E4.
  apply obind_ok in E4. destruct E4 as ([i5 s5] & E5 & _). apply staves_bpm in E5. rewrite Forall_forall in E5.
  intros st d t H1 H2 H3. specialize (E5 _ H1). rewrite Forall_forall in E5. specialize (E5 _ H2). unfold bpm in E5. rewrite Forall_forall in E5. exact (E5 _ H3).
Qed.
