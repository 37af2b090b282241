(** The divisions, staves, transposition and staff numbers of the measures written. *)
From Coq Require Import QArith.
From Verif Require Import Proofs.Tac.
From Verif Require Import Model.Base Model.Text Model.Strings Model.Ticks Model.Decimals Model.CoreEnums Model.ApiEnums
  Model.ConverterTables Model.MeasureTypes Model.MeasureWriter Model.MeasureReader Model.Scores.
From Verif Require Import Spec.Numerals Spec.TimeSignatures.
From Verif Require Import Proofs.StringsProofs Proofs.MeasureSync Proofs.MeasureReadProofs Proofs.MeasureTimes.
Import ListNotations.
Open Scope Z_scope.

(** What a measure says besides keys, clefs and times. *)
Definition told : Type := (option Q * option Z * list Z)%type.
Definition tells (p : properties) : list told :=
  match p_divisions p, p_staves p, p_transpose p with None, None, [] => [] | d, n, t => [(d, n, t)] end.
Definition tells_all (items : list music_data) : list told :=
  flat_map (fun x => match x with MProperties p => tells p | _ => [] end) items.

Lemma tells_app a b : tells_all (a ++ b) = tells_all a ++ tells_all b.
Proof. apply flat_map_app. Qed.

(** Its staff number, if it has one, is at most [n]. *)
Definition within (n : Z) (x : music_data) : Prop :=
  match x with MProperties _ => True | _ => match staves_of x with Some k => k <= n | None => True end end.

Definition tells_same (f : wstate -> wstate) : Prop := forall s, tells (w_props (f s)) = tells (w_props s) /\ w_staff (f s) = w_staff s.

Definition stays (f : W) : Prop := forall s items s', f s = Ok (items, s') ->
  tells_all items ++ tells (w_props s') = tells (w_props s) /\ w_staff s' = w_staff s /\ Forall (within (w_staff s + 1)) items.

(** Nothing is written before what there is to tell. *)
Definition opens (f : W) : Prop := forall s items s' q, f s = Ok (items, s') -> tells (w_props s) = [q] ->
  items = [] \/ exists p r, items = MProperties p :: r /\ tells p = [q].
Definition shuts (f : W) : Prop := forall s items s' q, f s = Ok (items, s') -> tells (w_props s) = [q] ->
  exists p r, items = MProperties p :: r /\ tells p = [q].

Lemma then_inv (f g : W) s items s' : w_then f g s = Ok (items, s') ->
  exists i1 s1 i2, f s = Ok (i1, s1) /\ g s1 = Ok (i2, s') /\ items = i1 ++ i2.
Proof.
  unfold w_then. intros E. apply obind_ok in E. destruct E as ([i1 s1] & E1 & E). apply obind_ok in E.
  destruct E as ([i2 s2] & E2 & E). cbn [fst snd] in *. injection E as <- <-. exists i1, s1, i2. auto.
Qed.

Lemma stays_set f : tells_same f -> stays (w_set f).
Proof. intros H s items s' E. injection E as <- <-. destruct (H s). cbn. auto. Qed.

Lemma stays_done : stays w_done.
Proof. intros s items s' E. injection E as <- <-. cbn. auto. Qed.

Lemma stays_then f g : stays f -> stays g -> stays (w_then f g).
Proof.
  intros F G s items s' E. apply then_inv in E. destruct E as (i1 & s1 & i2 & E1 & E2 & ->).
  destruct (F _ _ _ E1) as (A1 & B1 & C1). destruct (G _ _ _ E2) as (A2 & B2 & C2). rewrite tells_app, <- app_assoc, A2, A1, B2, B1. rewrite B1 in C2.
  split; [reflexivity | ]. split; [reflexivity | ]. apply Forall_app. auto.
Qed.

Lemma opens_set f : opens (w_set f).
Proof. intros s items s' q E _. injection E as <- <-. auto. Qed.
Lemma opens_done : opens w_done.
Proof. intros s items s' q E _. injection E as <- <-. auto. Qed.
Lemma opens_shuts f : shuts f -> opens f.
Proof. intros H s items s' q E T. right. exact (H _ _ _ _ E T). Qed.
Lemma shuts_then f g : shuts f -> shuts (w_then f g).
Proof.
  intros F s items s' q E T. apply then_inv in E. destruct E as (i1 & s1 & i2 & E1 & E2 & ->). destruct (F _ _ _ _ E1 T) as (p & r & -> & P).
  exists p, (r ++ i2). auto.
Qed.
Lemma opens_then f g : stays f -> opens f -> opens g -> opens (w_then f g).
Proof.
  intros S F G s items s' q E T. apply then_inv in E. destruct E as (i1 & s1 & i2 & E1 & E2 & ->). destruct (F _ _ _ _ E1 T) as [-> | (p & r & -> & P)].
  - destruct (S _ _ _ E1) as (A & _). cbn in A. rewrite T in A. cbn [app]. exact (G _ _ _ _ E2 A).
  - right. exists p, (r ++ i2). auto.
Qed.

Lemma shuts_flush : shuts flushBuffer.
Proof.
  intros s items s' q E T. unfold flushBuffer in E. injection E as <- _. destruct (isPropertiesEmpty (w_props s)) eqn:P.
  - rewrite (empty_props_eq _ P) in T. discriminate T.
  - exists (w_props s), []. auto.
Qed.

Lemma stays_flush : stays flushBuffer.
Proof.
  intros s items s' E. unfold flushBuffer in E. injection E as <- <-. cbn [set_props w_props w_staff]. destruct (isPropertiesEmpty (w_props s)) eqn:P.
  - rewrite (empty_props_eq _ P). cbn. auto.
  - cbn [tells_all flat_map]. change (tells empty_props) with (@nil told). rewrite !app_nil_r. split; [reflexivity | ]. split; [reflexivity | ]. repeat constructor.
Qed.

Lemma stays_nothing s : forall items s', Ok (@nil music_data, s) = Ok (items, s') ->
  tells_all items ++ tells (w_props s') = tells (w_props s) /\ w_staff s' = w_staff s /\ Forall (within (w_staff s + 1)) items.
Proof. intros items s' E. injection E as <- <-. cbn. auto. Qed.

Lemma stays_direction d : stays (writeDirection d).
Proof.
  apply stays_then; [apply stays_flush | ]. intros s items s' E. apply obind_ok in E. destruct E as (l & E & F). injection F as <- <-.
  unfold direction_elements in E. apply obind_ok in E. destruct E as (o & _ & E). apply obind_ok in E. destruct E as (q & _ & E).
  apply obind_ok in E. destruct E as (ts & _ & E). injection E as <-.
  assert (H1 : within (w_staff s + 1) (MDirection (mkXDirection q (if d_staffSpecified d || negb (w_staff s =? 0) then Some (w_staff s + 1) else None) ts)))
    by (cbn; destruct (_ || _); [lia | exact I]).
  assert (H2 : within (w_staff s + 1) (MHarmony (mkXHarmony q (if d_staffSpecified d then Some (w_staff s + 1) else None) (d_chords d))))
    by (cbn; destruct (d_staffSpecified d); [lia | exact I]).
  destruct ts, (d_chords d); cbn [app tells_all flat_map]; (split; [reflexivity | ]; split; [reflexivity | ]); repeat (apply Forall_cons; [assumption | ]); apply Forall_nil.
Qed.

Lemma stays_while p ds : stays (write_directions_while p ds).
Proof.
  induction ds as [|d ds IH]; cbn [write_directions_while]; [apply stays_done | ]. destruct (p d); [ | apply stays_done].
  apply stays_then; [apply stays_direction | ]. apply stays_then; [apply stays_set; split; reflexivity | exact IH].
Qed.
Lemma opens_while p ds : opens (write_directions_while p ds).
Proof.
  destruct ds as [|d ds]; cbn [write_directions_while]; [apply opens_done | ]. destruct (p d); [ | apply opens_done].
  apply opens_shuts, shuts_then, shuts_then, shuts_flush.
Qed.

Lemma stays_directions pos : stays (writeDirections pos).
Proof.
  intros s items s' E. unfold writeDirections in E. destruct (w_directions s) as [|d ds]; [apply (stays_nothing s); exact E | ].
  destruct pos as [|[q|] n [q'|]]; try (apply (stays_while _ _ _ _ _ E));
    destruct (_ && _); try (apply (stays_nothing s); exact E); apply obind_ok in E; destruct E as (e & _ & E); apply (stays_while _ _ _ _ _ E).
Qed.
Lemma opens_directions pos : opens (writeDirections pos).
Proof.
  intros s items s' q0 E T. unfold writeDirections in E. destruct (w_directions s) as [|d ds]; [injection E as <- _; auto | ].
  destruct pos as [|[q|] n [q'|]]; try (apply (opens_while _ _ _ _ _ _ E T));
    destruct (_ && _); try (injection E as <- _; auto; fail); apply obind_ok in E; destruct E as (e & _ & E); apply (opens_while _ _ _ _ _ _ E T).
Qed.

Lemma stays_backup t : stays (backup t).
Proof.
  intros s items s' E. unfold backup in E. destruct (w_tick s <? 0); [discriminate E | ].
  destruct (w_tick s - t <? 0); (destruct (_ <? 0); [discriminate E | ]; destruct (_ =? 0); [apply (stays_nothing s); exact E | ];
    apply obind_ok in E; destruct E as (v & _ & E); injection E as <- <-; split; [reflexivity | split; [reflexivity | repeat constructor]]).
Qed.

Lemma stays_forward t : stays (forward t).
Proof.
  intros s items s' E. unfold forward in E. apply obind_ok in E. destruct E as (v & _ & E). apply obind_ok in E. destruct E as (u & _ & E).
  injection E as <- <-. split; [reflexivity | split; [reflexivity | repeat constructor]].
Qed.

Lemma stays_move n : stays (writeForwardOrBackupIfNeeded n).
Proof.
  apply stays_then; [apply stays_flush | ]. intros s items s' E. destruct (n_tick n <? 0); [apply (stays_nothing s); exact E | ].
  apply obind_ok in E. destruct E as (d & _ & E). destruct (d <? 0); [apply (stays_backup _ _ _ _ E) | ]. destruct (0 <? d); [apply (stays_forward _ _ _ _ E) | ].
  apply (stays_nothing s); exact E.
Qed.

Lemma tells_clefs_until l : tells_same (writeClefsUntil l).
Proof. induction l as [|c l IH]; intros s; cbn [writeClefsUntil]; [auto | ]. destruct (_ <=? _); [ | auto]. destruct (IH (set_clefs l (writeClef (w_staff s) c s))) as [-> ->]. auto. Qed.

Lemma tells_staff_keys_until l : tells_same (writeStaffKeysUntil l).
Proof. induction l as [|c l IH]; intros s; cbn [writeStaffKeysUntil]; [auto | ]. destruct (_ <=? _); [ | auto]. destruct (IH (set_staffKeys l (writeKey (w_staff s) c s))) as [-> ->]. auto. Qed.

Lemma tells_measure_key : tells_same writeMeasureKey.
Proof. intros s. unfold writeMeasureKey. destruct (w_measureKeys s); [auto | ]. destruct (_ <=? _); auto. Qed.

Lemma stays_advance n next : stays (advanceCursorIfNeeded n next).
Proof.
  intros s items s' E. unfold advanceCursorIfNeeded in E. destruct (isAdvanceNeeded n next).
  - apply obind_ok in E. destruct E as (t & _ & E). injection E as <- <-. cbn. auto.
  - injection E as <- <-. cbn. auto.
Qed.

Lemma stays_notes c notes : forall p t, stays (write_notes c p t notes).
Proof.
  induction notes as [|n rest IH]; intros p t; cbn [write_notes]; [apply stays_done | ].
  apply stays_then; [apply stays_set; split; reflexivity | ]. apply stays_then; [apply stays_move | ].
  intros s items s' E. revert items s' E.
  match goal with |- forall items s', ?f s = _ -> _ => assert (K : stays f) end.
  { apply stays_then; [apply stays_set; apply tells_measure_key | ]. apply stays_then; [apply stays_set; intros s0; apply tells_clefs_until | ].
    apply stays_then; [apply stays_set; intros s0; apply tells_staff_keys_until | ]. apply stays_then; [apply stays_flush | ].
    apply stays_then; [apply stays_directions | ]. apply stays_then; [ | apply stays_then; [apply stays_advance | apply IH]].
    intros s0 items s' E. apply obind_ok in E. destruct E as (x & Ex & E). injection E as <- <-. split; [reflexivity | split; [reflexivity | ]].
    apply Forall_cons; [ | apply Forall_nil]. unfold note_element in Ex. apply obind_ok in Ex. destruct Ex as (d & _ & Ex). injection Ex as <-.
    cbn [within staves_of xn_staff]. destruct ((1 <? wc_numStaves c) && _); [lia | exact I]. }
  intros items s' E. apply (K _ _ _ E).
Qed.
Lemma opens_notes c notes p t : opens (write_notes c p t notes).
Proof.
  destruct notes as [|n rest]; cbn [write_notes]; [apply opens_done | ].
  apply opens_then; [apply stays_set; split; reflexivity | apply opens_set | ]. apply opens_shuts, shuts_then, shuts_then, shuts_flush.
Qed.

Lemma stays_voice c v : stays (write_voice c v).
Proof.
  unfold write_voice. apply stays_then; [apply stays_set; split; reflexivity | ]. apply stays_then; [apply stays_directions | ].
  apply stays_then; [apply stays_notes | apply stays_directions].
Qed.
Lemma opens_voice c v : opens (write_voice c v).
Proof.
  unfold write_voice. apply opens_then; [apply stays_set; split; reflexivity | apply opens_set | ].
  apply opens_then; [apply stays_directions | apply opens_directions | ]. apply opens_then; [apply stays_notes | apply opens_notes | apply opens_directions].
Qed.
Lemma stays_voices c vs : stays (write_voice_list c vs).
Proof. induction vs as [|v vs IH]; cbn [write_voice_list]; [apply stays_done | ]. apply stays_then; [apply stays_voice | exact IH]. Qed.
Lemma opens_voices c vs : opens (write_voice_list c vs).
Proof. induction vs as [|v vs IH]; cbn [write_voice_list]; [apply opens_done | ]. apply opens_then; [apply stays_voice | apply opens_voice | exact IH]. Qed.

Lemma tells_fold {A} (f : wstate -> A -> wstate) l : (forall a, tells_same (fun s => f s a)) -> tells_same (fold_left f l).
Proof. intros H. induction l as [|a l IH]; intros s; cbn; [auto | ]. destruct (IH (f s a)) as [-> ->]. apply H. Qed.

Lemma remaining_flush s items s' : write_remaining s = Ok (items, s') ->
  exists u, (flushBuffer u = Ok (items, s') /\ tells (w_props u) = tells (w_props s) /\ w_staff u = w_staff s) \/ Ok ([], s) = Ok (items, s').
Proof.
  intros E. unfold write_remaining in E.
  pose proof (tells_fold (fun s c => writeClef (w_staff s) c s) (w_clefs s) ltac:(split; reflexivity) (set_clefs [] s)) as [F1 F2].
  assert (K : forall l u, tells (w_props (fold_left (fun s k => writeKey (w_staff s) k s) l u)) = tells (w_props u) /\ w_staff (fold_left (fun s k => writeKey (w_staff s) k s) l u) = w_staff u)
    by (intros l; apply tells_fold; split; reflexivity).
  destruct (w_clefs s) as [|c cs], (w_measureKeys s) as [|k ks], (w_staffKeys s) as [|y ys]; try (exists s; right; exact E);
    (eexists; left; split; [exact E | ]; destruct (K (w_staffKeys s) s); rewrite ?(proj1 (K _ _)), ?(proj2 (K _ _)); try destruct (k_tick k =? 0);
      cbn [set_staffKeys set_measureKeys w_props w_staff set_clefs writeKey set_props tells p_divisions p_staves p_transpose] in *; rewrite ?F2; auto).
Qed.

Lemma stays_remaining : stays write_remaining.
Proof.
  intros s items s' E. destruct (remaining_flush _ _ _ E) as [u [(X1 & X2 & X3) | X]]; [ | apply (stays_nothing s); exact X].
  destruct (stays_flush _ _ _ X1) as (A & B & C). rewrite X2 in A. rewrite X3 in B, C. auto.
Qed.
Lemma opens_remaining : opens write_remaining.
Proof.
  intros s items s' q E T. destruct (remaining_flush _ _ _ E) as [u [(X1 & X2 & X3) | X]]; [ | injection X as <- _; auto].
  right. rewrite <- X2 in T. exact (shuts_flush _ _ _ _ X1 T).
Qed.

Lemma stays_staff c st : stays (writeVoices c st).
Proof.
  unfold writeVoices. do 3 (apply stays_then; [apply stays_set; split; reflexivity | ]). apply stays_then; [apply stays_voices | ].
  apply stays_then; [apply stays_directions | apply stays_remaining].
Qed.
Lemma opens_staff c st : opens (writeVoices c st).
Proof.
  unfold writeVoices. do 3 (apply opens_then; [apply stays_set; split; reflexivity | apply opens_set | ]). apply opens_then; [apply stays_voices | apply opens_voices | ].
  apply opens_then; [apply stays_directions | apply opens_directions | apply opens_remaining].
Qed.

(** All staves. *)
Lemma staves_tell c l : forall s items s', write_staves c l s = Ok (items, s') ->
  tells_all items ++ tells (w_props s') = tells (w_props s) /\ Forall (within (w_staff s + Z.of_nat (List.length l))) items /\
  forall q, tells (w_props s) = [q] -> items = [] \/ exists p r, items = MProperties p :: r /\ tells p = [q].
Proof.
  induction l as [|st l IH]; intros s items s' E; cbn [write_staves] in E.
  { injection E as <- <-. cbn. auto. }
  apply then_inv in E. destruct E as (i1 & s1 & i2 & E1 & E2 & ->). apply then_inv in E2. destruct E2 as (i0 & s2 & i3 & E2 & E3 & ->). injection E2 as <- <-.
  destruct (stays_staff _ _ _ _ _ E1) as (A1 & B1 & C1). destruct (IH _ _ _ E3) as (A2 & C2 & D2). cbn [next_staff w_props w_staff] in *.
  cbn [app]. rewrite tells_app, <- app_assoc, A2, A1. split; [reflexivity | ]. cbn [List.length]. split.
  - apply Forall_app. split; (eapply Forall_impl; [ | eassumption]); intros x; unfold within; destruct x; try auto; destruct (staves_of _); auto; lia.
  - intros q T. destruct (opens_staff _ _ _ _ _ _ E1 T) as [-> | (p & r & -> & P)].
    + cbn in A1. rewrite T in A1. exact (D2 q A1).
    + right. exists p, (r ++ i3). auto.
Qed.

(** ** The whole measure *)

(** What there is to tell at the start of a measure. *)
Definition to_tell (c : wctx) (m : MeasureData) (q : told) : Prop :=
  exists d, element_value PositiveDivisionsValue (wc_ticksPerQuarter c) = Ok d /\
    q = (Some d, (if 1 <? Z.of_nat (List.length (m_staves m)) then Some (Z.of_nat (List.length (m_staves m))) else None),
         if wc_measureIndex c =? 0 then match wc_transposition c with Some t => [t] | None => [] end else []).

Lemma tells_leading_clefs c l : forall i, tells_same (write_leading_clefs c i l).
Proof.
  induction l as [|st l IH]; intros i s; cbn [write_leading_clefs]; [auto | ].
  destruct (IH (i + 1) (fold_left (fun s x => writeClef (if 1 <? wc_numStaves c then i else -1) x s) (leading_clefs (s_clefs st)) s)) as [-> ->].
  apply tells_fold. split; reflexivity.
Qed.
Lemma tells_leading_keys l : tells_same (write_leading_keys l).
Proof. induction l as [|k l IH]; intros s; cbn [write_leading_keys]; [auto | ]. destruct (_ =? _); [ | auto]. destruct (IH (set_measureKeys l (writeKey (k_staff k) k s))) as [-> ->]. auto. Qed.

Lemma tick_leading_clefs c l : forall i s, w_tick (write_leading_clefs c i l s) = w_tick s.
Proof.
  induction l as [|st l IH]; intros i s; cbn [write_leading_clefs]; [reflexivity | ]. rewrite IH. generalize (leading_clefs (s_clefs st)). intros k. revert s.
  induction k as [|x k IHk]; intros s; [reflexivity | ]. cbn [fold_left]. rewrite IHk. reflexivity.
Qed.
Lemma tick_leading_keys l : forall s, w_tick (write_leading_keys l s) = w_tick s.
Proof. induction l as [|k l IH]; intros s; cbn [write_leading_keys]; [reflexivity | ]. destruct (_ =? _); [ | reflexivity]. rewrite IH. reflexivity. Qed.

(** Divisions, staves and transposition alone. *)
Definition told_of (p : properties) : told := (p_divisions p, p_staves p, p_transpose p).
Lemma told_leading_clefs c l : forall i s, told_of (w_props (write_leading_clefs c i l s)) = told_of (w_props s).
Proof.
  induction l as [|st l IH]; intros i s; cbn [write_leading_clefs]; [reflexivity | ]. rewrite IH. generalize (leading_clefs (s_clefs st)). intros k. revert s.
  induction k as [|x k IHk]; intros s; [reflexivity | ]. cbn [fold_left]. rewrite IHk. reflexivity.
Qed.
Lemma told_leading_keys l : forall s, told_of (w_props (write_leading_keys l s)) = told_of (w_props s).
Proof. induction l as [|k l IH]; intros s; cbn [write_leading_keys]; [reflexivity | ]. destruct (_ =? _); [ | reflexivity]. rewrite IH. reflexivity. Qed.

Lemma tells_told p : tells p = match told_of p with (None, None, []) => [] | q => [q] end.
Proof. unfold tells, told_of. destruct (p_divisions p), (p_staves p), (p_transpose p); reflexivity. Qed.

Lemma properties_told c m items s : writeProperties c m (initial_wstate m) = Ok (items, s) ->
  items = [] /\ (wc_isFirst c = true -> exists q, to_tell c m q /\ tells (w_props s) = [q]) /\
  (wc_isFirst c = false -> wc_measureIndex c <> 0 -> tells (w_props s) = []).
Proof.
  unfold writeProperties. intros E. apply then_inv in E. destruct E as (i1 & s1 & i2 & E1 & E & ->). unfold w_then, w_set in E. cbn [obind fst snd app] in E.
  injection E as <- <-.
  match goal with |- _ /\ (_ -> exists q, _ /\ tells (w_props ?s) = _) /\ _ => set (s3 := s) end.
  assert (T : w_tick s1 = 0 /\ i1 = []) by (destruct (wc_isFirst c); [apply obind_ok in E1; destruct E1 as (d & _ & E1) | ]; injection E1 as <- <-; auto).
  destruct T as [T ->]. split; [reflexivity | ].
  assert (S3 : told_of (w_props s3) = (fst (fst (told_of (w_props s1))), snd (fst (told_of (w_props s1))),
     snd (told_of (w_props s1)) ++ if wc_measureIndex c =? 0 then match wc_transposition c with Some t => [t] | None => [] end else [])).
  { unfold s3. rewrite tick_leading_keys, tick_leading_clefs.
    assert (w_tick (if ts_implicit (m_time m) then s1 else add_time (time_element (m_time m)) s1) = 0) as -> by (destruct (ts_implicit (m_time m)); exact T).
    set (u := write_leading_keys _ _). assert (U : told_of (w_props u) = told_of (w_props s1)).
    { unfold u. rewrite told_leading_keys, told_leading_clefs. destruct (ts_implicit (m_time m)); reflexivity. }
    change (0 =? 0) with true. rewrite andb_true_r, <- U. unfold told_of. cbn [fst snd].
    destruct (wc_measureIndex c =? 0); [destruct (wc_transposition c) | ]; cbn [add_transpose set_props w_props p_divisions p_staves p_transpose]; rewrite ?app_nil_r; reflexivity. }
  split.
  - intros F. rewrite F in E1. apply obind_ok in E1. destruct E1 as (d & D & E1). injection E1 as <-. eexists. split; [exists d; split; [exact D | reflexivity] | ].
    rewrite tells_told, S3. reflexivity.
  - intros F N. rewrite F in E1. injection E1 as <-. rewrite tells_told, S3. apply Z.eqb_neq in N. rewrite N. reflexivity.
Qed.

(** The parts of what is written for a measure. *)
Lemma data_told c m items : write_data c m = Ok items ->
  exists body, items = fst (writeBarlines 0 (m_barlines m)) ++ repeat MPrint (wc_prints c) ++ body ++ fst (writeBarlines TICK_TIME_INFINITY (snd (writeBarlines 0 (m_barlines m)))) /\
    Forall (within (Z.of_nat (List.length (m_staves m)))) body /\
    (wc_isFirst c = true -> exists p r, body = MProperties p :: r /\ to_tell c m (told_of p) /\ tells_all r = []) /\
    (wc_isFirst c = false -> wc_measureIndex c <> 0 -> tells_all body = []).
Proof.
  unfold write_data. destruct (writeBarlines 0 (m_barlines m)) as [bars rest]. cbn [fst snd].
  intros E. unfold omap in E. apply obind_ok in E. destruct E as ([i s] & E & F). cbn [fst snd] in F. injection F as <-.
  apply then_inv in E. destruct E as (i1 & s1 & i2 & E1 & E & ->). injection E1 as <- <-.
  apply then_inv in E. destruct E as (i3 & s3 & i4 & E3 & E & ->). destruct (properties_told _ _ _ _ E3) as (-> & T1 & T2).
  apply then_inv in E. destruct E as (i5 & s5 & i6 & E5 & E & ->). unfold writeStaves in E5. apply then_inv in E5. destruct E5 as (i7 & s7 & i8 & E7 & E5 & ->). injection E7 as <- <-.
  destruct (staves_tell _ _ _ _ _ E5) as (A1 & A2 & A3). destruct (stays_flush _ _ _ E) as (B1 & B2 & B3).
  assert (P : tells (w_props s) = []) by (unfold flushBuffer in E; injection E as _ <-; reflexivity). rewrite P, app_nil_r in B1.
  cbn [set_previous w_props w_staff] in A1, A2, A3. rewrite <- B1 in A1. rewrite <- tells_app in A1.
  exists (i8 ++ i6). cbn [app]. rewrite <- !app_assoc. split; [reflexivity | ]. split.
  - apply Forall_app. split; [exact A2 | ]. unfold flushBuffer in E. injection E as <- _. destruct (isPropertiesEmpty (w_props s5)); repeat constructor.
  - split.
    + intros H. destruct (T1 H) as (q & Tq & Eq). rewrite Eq in A1.
      assert (O : exists p r, i8 ++ i6 = MProperties p :: r /\ tells p = [q]).
      { destruct (A3 q Eq) as [-> | (p & r & -> & P0)].
        - cbn [app]. apply (shuts_flush _ _ _ q E). rewrite <- B1. exact A1.
        - exists p, (r ++ i6). auto. }
      destruct O as (p & r & O & P0). exists p, r. split; [exact O | ]. rewrite O in A1. cbn [tells_all flat_map] in A1. rewrite P0 in A1. injection A1 as A1. split; [ | exact A1].
      rewrite tells_told in P0. destruct (told_of p) as [[[d|] [n|]] [|t l]]; try discriminate P0; injection P0 as <-; exact Tq.
    + intros H N. rewrite (T2 H N) in A1. exact A1.
Qed.
