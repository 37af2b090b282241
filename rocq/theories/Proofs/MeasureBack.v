(** Writing and reading a measure. *)
From Coq Require Import QArith Sorting.Permutation Sorting.Sorted.
From Verif Require Import Proofs.Tac.
From Verif Require Import Model.Base Model.Text Model.Strings Model.Ticks Model.Decimals Model.CoreEnums Model.ApiEnums
  Model.ConverterTables Model.MeasureTypes Model.MeasureWriter Model.MeasureReader.
From Verif Require Import Spec.Numerals Spec.Measures Spec.Voices Spec.TimeSignatures Spec.RoundTrip.
From Verif Require Import Proofs.MeasureSync Proofs.MeasureReadProofs Proofs.MeasureTimes.
Import ListNotations.
Open Scope Z_scope.

Lemma line_some {A} (l : list (option A)) : backups_of l <= Z.of_nat (List.length l).
Proof. unfold backups_of. apply Nat2Z.inj_le. induction l as [|[a|] l IH]; cbn; lia. Qed.

(** There is at most one backup per note. *)
Lemma backups_of_app {A} (a b : list (option A)) : backups_of (a ++ b) = backups_of a + backups_of b.
Proof. unfold backups_of. rewrite filter_app, app_length. lia. Qed.

Lemma voice_line_backups i v notes : forall t p, backups_of (voice_line i v t p notes) <= Z.of_nat (List.length notes).
Proof.
  induction notes as [|n rest IH]; intros t p; cbn [voice_line]; [unfold backups_of; cbn; lia | ].
  rewrite backups_of_app. change (Some ?x :: ?l) with ([Some x] ++ l). rewrite backups_of_app. specialize (IH (tick_after n (following rest)) (Some n)).
  cbn [List.length]. destruct (n_tick n <? t); cbn [app]; unfold backups_of in *; cbn [filter List.length app] in *; lia.
Qed.

Lemma voices_line_backups i vs : forall t, backups_of (voices_line i t vs) <= Z.of_nat (List.length (flat_map snd vs)).
Proof.
  induction vs as [|v vs IH]; intros t; cbn [voices_line flat_map]; [unfold backups_of; cbn; lia | ].
  rewrite backups_of_app, app_length. pose proof (voice_line_backups i (fst v) (snd v) t None). specialize (IH (voice_end t (snd v))). lia.
Qed.

Lemma staves_line_backups l : forall i t, backups_of (staves_line i t l) <= Z.of_nat (List.length (flat_map snd (flat_map s_voices l))).
Proof.
  induction l as [|st l IH]; intros i t; cbn [staves_line flat_map]; [unfold backups_of; cbn; lia | ].
  rewrite backups_of_app, flat_map_app, app_length. pose proof (voices_line_backups (Z.to_nat i) (s_voices st) t). specialize (IH (i + 1) (voices_end t (s_voices st))). lia.
Qed.

Definition back (wc : wctx) (rc : rctx) (m : MeasureData) (x : xmeasure) (m' : MeasureData) (tr : option Z) : Prop :=
  write_measure wc m = Ok x /\ read_measure rc x = Ok (m', tr, rc_global rc) /\
  exists evs, Forall2 (fun i st => staff_read i evs st) (seq 0 (rc_numStaves rc)) (m_staves m') /\ m_keys m' = keys_of evs /\ m_barlines m' = bars_of evs /\
    line_of evs = staves_line 0 0 (m_staves m) /\
    dirs_of evs = staves_directions 0 (m_staves m) /\
    clefs_of evs = first_clefs 0 (m_staves m) ++ staves_clefs 0 0 (m_staves m) /\
    keys_of evs = first_keys rc (m_keys m) ++ staves_keys rc 0 0 (m_staves m) (snd (leading_keys (m_keys m))) /\
    written_staves rc 0 0 (m_staves m) (skeleton (xm_data x)).

Theorem measure_back wc rc m : agree wc rc -> measure_in_range wc m -> Forall chords_closed (m_staves m) -> exists x m' tr, back wc rc m x m' tr.
Proof.
  intros (A1 & A2 & A3 & A4 & A5 & A6) (B1 & B2 & B3 & B4 & B5) C.
  assert (HN : 1 <= Z.of_nat (rc_numStaves rc) <= 2147483647) by lia.
  destruct (measure_sync wc rc A1 HN A3 A4 m) as (items & evs & r & W & R & AF & L & D & K & Y & _ & CU & WS).
  - exact A6.
  - split; [lia | ]. rewrite Forall_forall in *. intros st I. specialize (B2 st I). specialize (C st I). destruct B2 as [B2 B6].
    split; [ | exact B6]. unfold chords_closed in C. rewrite Forall_forall in *. intros v J. destruct (B2 v J) as [V1 V2]. split; [exact V1 | ]. split; [exact V2 | apply C; exact J].
  - etransitivity; [apply staves_line_backups | exact B5].
  - assert (T : exists t, parseTimeSignature rc items = Ok t).
    { unfold parseTimeSignature. rewrite find_time_first, (proj1 (written_data _ _ _ W)). destruct (ts_implicit (m_time m)) eqn:E; cbn [hd_error]; [eexists; reflexivity | ].
      rewrite parseTime_written by assumption. eexists. reflexivity. }
    destruct T as (t & T). destruct (staves_read evs rc r AF) as (l & L1 & L2).
    eexists _, _, _. split; [unfold write_measure; rewrite W; reflexivity | ].
    split; [unfold read_measure; cbn [xm_data]; rewrite T; cbn [obind]; rewrite R; cbn [obind]; rewrite L1; cbn [obind]; rewrite CU; reflexivity | ].
    exists evs. cbn [m_staves m_keys m_barlines xm_data]. destruct AF as [_ AK AB]. cbn [initial_rstate r_keys r_barlines app] in AK, AB.
    repeat (split; [assumption | ]). exact WS.
Qed.

(** * Voices in order *)

Definition somes {A} (i : nat) (l : list A) : list (option (nat * A)) := map (fun a => Some (i, a)) l.

Lemma heard_honest v p n rest : flags_honest p (n :: rest) -> heard_note v p n (following rest) = with_voice (v + 1) n.
Proof.
  intros [H _]. unfold heard_note, with_voice. f_equal. assert (J : forall a b, joined a b = true -> n_chord a = true /\ n_chord b = true).
  { intros a b Q. unfold joined in Q. apply andb_true_iff in Q. destruct Q as [Q _]. apply andb_true_iff in Q. exact Q. }
  destruct (n_chord n) eqn:E.
  - destruct (H eq_refl) as [(q & -> & Q) | (q & F & Q)].
    + cbn [joins]. rewrite Q. reflexivity.
    + unfold joined_next. change (following rest) with (following_of rest). rewrite F, Q. apply orb_true_r.
  - apply orb_false_iff. split.
    + destruct p as [q|]; cbn [joins]; [ | reflexivity]. destruct (joined q n) eqn:Q; [ | reflexivity]. apply J in Q. destruct Q. congruence.
    + unfold joined_next. destruct (following rest) as [q|]; [ | reflexivity]. destruct (joined n q) eqn:Q; [ | reflexivity]. apply J in Q. destruct Q. congruence.
Qed.

Lemma tick_after_follows n q : follows n q -> tick_after n (Some q) <= n_tick q.
Proof.
  intros [H | H]; unfold tick_after, joined_next.
  - rewrite H. unfold joined in H. apply andb_true_iff in H. lia.
  - destruct (joined n q) eqn:E; [ | exact H]. unfold joined in E. apply andb_true_iff in E. lia.
Qed.

Lemma voice_line_ordered i v notes : forall t p, neighbours follows notes -> flags_honest p notes ->
  voice_line i v t p notes =
  (match notes with n :: _ => if n_tick n <? t then [None] else [] | [] => [] end) ++ somes i (map (with_voice (v + 1)) notes).
Proof.
  induction notes as [|n rest IH]; intros t p N F; cbn [voice_line]; [reflexivity | ]. f_equal.
  rewrite (heard_honest v p n rest F). cbn [map somes]. f_equal. destruct F as [_ F].
  rewrite IH; [ | destruct rest; [exact I | apply N] | exact F].
  destruct rest as [|q rest]; [reflexivity | ]. destruct N as [N _]. pose proof (tick_after_follows n q N). cbn [following].
  assert (n_tick q <? tick_after n (Some q) = false) as -> by lia. reflexivity.
Qed.

Lemma voice_end_stop notes : forall t, notes <> [] -> voice_end t notes = voice_stop notes.
Proof.
  assert (G : forall notes n t, voice_end t (n :: notes) = voice_stop (n :: notes)).
  { clear. induction notes as [|q notes IH]; intros n t; cbn [voice_end].
    - reflexivity.
    - change (voice_end (tick_after n (following (q :: notes))) (q :: notes) = voice_stop (n :: q :: notes)). rewrite IH.
      unfold voice_stop. cbn [rev]. destruct (rev notes) as [|z zs]; reflexivity. }
  intros t H. destruct notes; [congruence | apply G].
Qed.

Lemma staff_line_app {A} i (a b : list (option (nat * A))) : staff_line i (a ++ b) = staff_line i a ++ staff_line i b.
Proof. induction a as [|[[j x]|] a IH]; cbn [app staff_line]; [reflexivity | destruct (Nat.eqb j i); cbn [app]; rewrite IH; reflexivity | rewrite IH; reflexivity]. Qed.

Lemma staff_line_somes {A} i (l : list A) : staff_line i (somes i l) = map Some l.
Proof. induction l as [|a l IH]; [reflexivity | ]. cbn [somes map staff_line]. rewrite Nat.eqb_refl. f_equal. exact IH. Qed.

Definition nones {A} (l : list (option A)) : Prop := Forall (fun o => o = None) l.

Lemma cut_somes {A} (a : list A) : forall cur l, cut cur (map Some a ++ l) = cut (cur ++ a) l.
Proof. induction a as [|x a IH]; intros cur l; cbn [map app cut]; [rewrite app_nil_r; reflexivity | ]. rewrite IH, <- app_assoc. reflexivity. Qed.

Lemma cut_nones {A} (l : list (option A)) : nones l -> forall cur, cut cur l = closed cur.
Proof. induction 1 as [|o l -> H IH]; intros cur; [reflexivity | ]. cbn [cut]. rewrite IH. cbn. apply app_nil_r. Qed.

Lemma cut_nones_before {A} (a b : list (option A)) : nones a -> cut [] (a ++ b) = cut [] b.
Proof. induction 1 as [|o l -> H IH]; [reflexivity | exact IH]. Qed.

Lemma voices_cut i vs : forall t cur l, Forall (fun v => voice_in_order (snd v)) vs -> nones l ->
  (match vs with v :: _ => cur = [] \/ voice_start (snd v) < t | [] => True end) -> neighbours goes_back vs ->
  cut cur (staff_line i (voices_line i t vs) ++ l) = closed cur ++ map snd (asking vs).
Proof.
  induction vs as [|v vs IH]; intros t cur l O Hl S N; cbn [voices_line].
  - rewrite app_nil_r. apply cut_nones. exact Hl.
  - inversion O as [|? ? (O1 & O2 & O3) O4]; subst. rewrite staff_line_app, <- app_assoc, (voice_line_ordered i (fst v) (snd v) t None O2 O3), staff_line_app, staff_line_somes, <- app_assoc.
    destruct v as [k notes]. cbn [fst snd] in *. destruct notes as [|n rest] eqn:E; [congruence | ]. cbn [voice_start] in S.
    assert (P : cut cur (staff_line i (if n_tick n <? t then [None] else []) ++ map Some (map (with_voice (k + 1)) (n :: rest)) ++
                         staff_line i (voices_line i (voice_end t (n :: rest)) vs) ++ l) =
                closed cur ++ cut (map (with_voice (k + 1)) (n :: rest)) (staff_line i (voices_line i (voice_end t (n :: rest)) vs) ++ l)).
    { destruct (n_tick n <? t) eqn:Q; cbn [staff_line app]; [cbn [cut]; rewrite cut_somes; reflexivity | ].
      destruct S as [-> | S]; [cbn [closed app]; apply cut_somes | lia]. }
    rewrite P. f_equal. rewrite (IH (voice_end t (n :: rest))); try assumption.
    + cbn [asking map fst snd closed app]. reflexivity.
    + destruct vs as [|w vs]; [exact I | ]. right. rewrite voice_end_stop by discriminate. destruct N as [N _]. exact N.
    + destruct vs; [exact I | apply N].
Qed.

Lemma other_staff i j vs : i <> j -> forall t, nones (staff_line i (voices_line j t vs)).
Proof.
  intros D. assert (V : forall v notes t p, nones (staff_line i (voice_line j v t p notes))).
  { intros v. induction notes as [|n rest IH]; intros t p; cbn [voice_line]; [constructor | ]. rewrite staff_line_app. apply Forall_app.
    split; [destruct (_ <? _); repeat constructor | ]. cbn [staff_line]. assert (Nat.eqb j i = false) as -> by (apply Nat.eqb_neq; auto). apply IH. }
  induction vs as [|v vs IH]; intros t; cbn [voices_line]; [constructor | ]. rewrite staff_line_app. apply Forall_app. split; [apply V | apply IH].
Qed.

Lemma other_staves i l : forall j t, (i < Z.to_nat j)%nat -> 0 <= j -> nones (staff_line i (staves_line j t l)).
Proof.
  induction l as [|st l IH]; intros j t H J; cbn [staves_line]; [constructor | ]. rewrite staff_line_app. apply Forall_app.
  split; [apply other_staff; lia | apply IH; lia].
Qed.

(** The part of the line that belongs to staff [i]. *)
Lemma staves_line_at l : forall j t i st, 0 <= j -> nth_error l i = Some st ->
  exists before after' t', staff_line (Z.to_nat j + i) (staves_line j t l) = before ++ staff_line (Z.to_nat j + i) (voices_line (Z.to_nat j + i) t' (s_voices st)) ++ after' /\
    nones before /\ nones after'.
Proof.
  induction l as [|s l IH]; intros j t i st J H; [destruct i; discriminate H | ]. destruct i as [|i]; cbn [nth_error] in H.
  - injection H as ->. cbn [staves_line]. rewrite Nat.add_0_r, staff_line_app. exists [], (staff_line (Z.to_nat j) (staves_line (j + 1) (voices_end t (s_voices st)) l)), t.
    split; [reflexivity | ]. split; [constructor | ]. apply other_staves; lia.
  - destruct (IH (j + 1) (voices_end t (s_voices s)) i st) as (b & a & t' & E & B & A); [lia | exact H | ].
    assert (Z.to_nat (j + 1) + i = Z.to_nat j + S i)%nat as Q by lia. rewrite Q in E. cbn [staves_line]. rewrite staff_line_app, E.
    exists (staff_line (Z.to_nat j + S i) (voices_line (Z.to_nat j) t (s_voices s)) ++ b), a, t'. split; [rewrite <- app_assoc; reflexivity | ].
    split; [ | exact A]. apply Forall_app. split; [apply other_staff; lia | exact B].
Qed.

Lemma staff_runs l i st : nth_error l i = Some st -> staff_in_order st -> cut [] (staff_line i (staves_line 0 0 l)) = map snd (asking (s_voices st)).
Proof.
  intros H (O & G & _). destruct (staves_line_at l 0 0 i st) as (b & a & t & E & B & A); [lia | exact H | ]. cbn [Z.to_nat Nat.add] in E. rewrite E, (cut_nones_before _ _ B).
  apply (voices_cut i (s_voices st) t [] a O A); [destruct (s_voices st); auto | exact G].
Qed.

(** * Numbers *)

Lemma ascending_perm a : forall b, ascending a -> ascending b -> Permutation a b -> a = b.
Proof.
  induction a as [|[k v] a IH]; intros b Sa Sb P; [apply Permutation_nil in P; congruence | ].
  destruct b as [|[j w] b]; [symmetry in P; apply Permutation_nil in P; discriminate P | ].
  unfold ascending in Sa, Sb. cbn [map fst] in Sa, Sb. inversion Sa as [|? ? Sa1 Sa2]; subst. inversion Sb as [|? ? Sb1 Sb2]; subst.
  rewrite Forall_forall in Sa2, Sb2.
  assert (E : (k, v) = (j, w)).
  { assert (I1 : In (k, v) ((j, w) :: b)) by (apply (Permutation_in _ P); left; reflexivity).
    assert (I2 : In (j, w) ((k, v) :: a)) by (apply (Permutation_in _ (Permutation_sym P)); left; reflexivity).
    destruct I1 as [I1 | I1]; [congruence | ]. destruct I2 as [I2 | I2]; [congruence | ].
    apply (in_map fst) in I1, I2. apply Sb2 in I1. apply Sa2 in I2. cbn in *. lia. }
  injection E as <- <-. f_equal. apply IH; [exact Sa1 | exact Sb1 | ]. apply (Permutation_cons_inv P).
Qed.

Lemma asking_fst vs : map fst (asking vs) = map fst vs.
Proof. unfold asking. rewrite map_map. apply map_ext. reflexivity. Qed.

Lemma numbered_asking vs out : Forall (fun v => voice_in_range v /\ snd v <> []) vs -> ascending vs -> numbered (map snd (asking vs)) out -> out = asking vs.
Proof.
  intros F S H. assert (D : ask_distinct (map snd (asking vs)) (map (fun v => fst v + 1) vs)).
  { split.
    - clear S H. induction F as [|v vs [[R _] N] F IH]; cbn [asking map]; constructor; [ | exact IH]. cbn [snd]. split; [destruct (snd v); [congruence | discriminate] | ].
      split; [lia | ]. apply Forall_map. apply Forall_forall. intros n _. reflexivity.
    - clear F H. unfold ascending in S. induction vs as [|v vs IH]; cbn [map]; constructor.
      + inversion S as [|? ? S1 S2]; subst. intros I. apply in_map_iff in I. destruct I as (w & E & I). rewrite Forall_forall in S2. specialize (S2 (fst w) (in_map fst _ _ I)). lia.
      + apply IH. inversion S. assumption. }
  destruct H as [(ks & K & P & A) | (N & _)]; [ | exfalso; apply N; eauto].
  assert (E : ks = map (fun v => fst v + 1) vs) by (rewrite (ask_distinct_unique _ _ (proj1 K)); symmetry; apply ask_distinct_unique; apply D).
  subst ks. apply ascending_perm; [exact A | unfold ascending; rewrite asking_fst; exact S | ].
  rewrite P. apply Permutation_refl'. clear. induction vs as [|v vs IH]; [reflexivity | ]. cbn [map asking combine fst snd]. f_equal; [f_equal; lia | exact IH].
Qed.

Lemma in_order_closed notes : Forall note_in_range notes -> neighbours follows notes -> neighbours chord_closed notes.
Proof.
  induction notes as [|a [|b notes] IH]; [intros _ _; exact I | intros _ _; exact I | ]. intros F [N1 N2]. inversion F as [|? ? F1 F2]; subst.
  split; [ | apply IH; assumption]. intros Ca T. destruct N1 as [J | L].
  - left. unfold joined in J. apply andb_true_iff in J. destruct J as [J _]. apply andb_true_iff in J. apply J.
  - right. destruct F1 as (_ & D & _). lia.
Qed.

Lemma staff_closed st : staff_in_range st -> staff_in_order st -> chords_closed st.
Proof.
  intros [R _] [O _]. unfold chords_closed. rewrite Forall_forall in *. intros v I. apply in_order_closed; [apply (R v I) | ].
  apply (O v I).
Qed.

Lemma Forall2_nth {A} (R : nat -> A -> Prop) l : forall k, Forall2 R (seq k (List.length l)) l -> forall i a, nth_error l i = Some a -> R (k + i)%nat a.
Proof.
  induction l as [|x l IH]; intros k F i a H; [destruct i; discriminate H | ]. cbn [List.length seq] in F. inversion F; subst.
  destruct i as [|i]; cbn [nth_error] in H; [injection H as <-; rewrite Nat.add_0_r; assumption | ]. replace (k + S i)%nat with (S k + i)%nat by lia. apply IH; assumption.
Qed.

Lemma Forall2_of_nth {A B} (R : A -> B -> Prop) a : forall b, List.length a = List.length b ->
  (forall i x y, nth_error a i = Some x -> nth_error b i = Some y -> R x y) -> Forall2 R a b.
Proof.
  induction a as [|x a IH]; intros [|y b] L H; try discriminate L; constructor; [apply (H 0%nat); reflexivity | ].
  apply IH; [cbn in L; lia | ]. intros i u v Hu Hv. apply (H (S i)); assumption.
Qed.

Lemma Forall2_len {A B} (R : A -> B -> Prop) a b : Forall2 R a b -> List.length a = List.length b.
Proof. induction 1; cbn; congruence. Qed.

(** A relation that holds staff by staff. *)
Lemma back_staves wc rc m x m' tr (R : StaffData -> StaffData -> Prop) : back wc rc m x m' tr -> Z.of_nat (List.length (m_staves m)) = Z.of_nat (rc_numStaves rc) ->
  (forall i st st' evs, nth_error (m_staves m) i = Some st -> nth_error (m_staves m') i = Some st' -> staff_read i evs st' ->
     line_of evs = staves_line 0 0 (m_staves m) -> dirs_of evs = staves_directions 0 (m_staves m) ->
     clefs_of evs = first_clefs 0 (m_staves m) ++ staves_clefs 0 0 (m_staves m) -> R st st') ->
  Forall2 R (m_staves m) (m_staves m').
Proof.
  intros (_ & _ & evs & F & _ & _ & L & D & K & _) N H.
  assert (E : List.length (m_staves m') = rc_numStaves rc) by (rewrite <- (Forall2_len _ _ _ F); apply seq_length).
  apply Forall2_of_nth; [lia | ]. intros i st st' A B. rewrite <- E in F. pose proof (Forall2_nth _ _ 0%nat F i st' B) as S. cbn [Nat.add] in S.
  apply (H i st st' evs A B S L D K).
Qed.

Theorem voices_back wc rc m x m' tr : back wc rc m x m' tr -> agree wc rc -> measure_in_range wc m -> Forall staff_in_order (m_staves m) ->
  Forall2 (fun st st' => s_voices st' = asking (s_voices st)) (m_staves m) (m_staves m').
Proof.
  intros B (A1 & _) (R1 & R2 & _) O. apply (back_staves wc rc m x m' tr _ B); [lia | ]. intros i st st' evs H1 H2 S L D K.
  pose proof (nth_error_In _ _ H1) as I. rewrite Forall_forall in O, R2. specialize (O st I). specialize (R2 st I).
  destruct S as (_ & _ & _ & S). rewrite L, (staff_runs _ _ _ H1 O) in S. apply numbered_asking; [ | apply O | exact S].
  destruct O as [O _]. destruct R2 as [R2 _]. rewrite Forall_forall in *. intros v J. split; [apply R2; exact J | apply (O v J)].
Qed.

Theorem notes_back wc rc m : agree wc rc -> measure_in_range wc m -> Forall staff_in_order (m_staves m) ->
  exists x m' tr, write_measure wc m = Ok x /\ read_measure rc x = Ok (m', tr, rc_global rc) /\
    Forall2 (fun st st' => s_voices st' = asking (s_voices st)) (m_staves m) (m_staves m').
Proof.
  intros A R O. destruct (measure_back wc rc m A R) as (x & m' & tr & B).
  - destruct R as (_ & R & _). rewrite Forall_forall in *. intros st I. apply staff_closed; auto.
  - exists x, m', tr. split; [apply B | ]. split; [apply B | ]. apply (voices_back wc rc m x m' tr B A R O).
Qed.

(** * Any measure: no note is lost *)

Definition somes_of {A} (l : list (option A)) : list A := flat_map (fun o => match o with Some a => [a] | None => [] end) l.

Lemma somes_of_app {A} (a b : list (option A)) : somes_of (a ++ b) = somes_of a ++ somes_of b.
Proof. apply flat_map_app. Qed.

Lemma somes_of_nones {A} (l : list (option A)) : nones l -> somes_of l = [].
Proof. induction 1 as [|o l -> H IH]; [reflexivity | exact IH]. Qed.

Lemma cut_concat {A} (l : list (option A)) : forall cur, List.concat (cut cur l) = cur ++ somes_of l.
Proof.
  assert (C : forall cur : list A, List.concat (closed cur) = cur) by (intros [|x cur]; cbn; rewrite ?app_nil_r; reflexivity).
  induction l as [|[a|] l IH]; intros cur; cbn [cut somes_of flat_map].
  - rewrite C, app_nil_r. reflexivity.
  - rewrite IH, <- app_assoc. reflexivity.
  - rewrite concat_app, C, IH. reflexivity.
Qed.

Lemma combine_snd {A B} (a : list A) : forall (b : list B), List.length a = List.length b -> map snd (combine a b) = b.
Proof. induction a as [|x a IH]; intros [|y b] H; try discriminate H; cbn; f_equal. apply IH. cbn in H. lia. Qed.

Lemma Permutation_concat {A} (a b : list (list A)) : Permutation a b -> Permutation (List.concat a) (List.concat b).
Proof.
  induction 1; cbn; [constructor | apply Permutation_app_head; assumption | | eapply Permutation_trans; eassumption].
  rewrite !app_assoc. apply Permutation_app_tail, Permutation_app_comm.
Qed.

Lemma numbered_concat raw out : numbered raw out -> Permutation (List.concat raw) (flat_map snd out).
Proof.
  intros H. rewrite flat_map_concat_map. destruct H as [(ks & (K & _) & P & _) | (_ & ->)].
  - apply Permutation_concat. apply Permutation_sym. apply Permutation_trans with (1 := Permutation_map snd P).
    rewrite combine_snd; [apply Permutation_refl | ]. rewrite map_length. symmetry. apply (Forall2_len _ _ _ K).
  - unfold counted. rewrite combine_snd; [apply Permutation_refl | ]. rewrite map_length, seq_length. reflexivity.
Qed.

Lemma voice_line_times i v notes : forall t p, map note_time (somes_of (staff_line i (voice_line i v t p notes))) = map note_time notes.
Proof.
  induction notes as [|n rest IH]; intros t p; cbn [voice_line]; [reflexivity | ].
  rewrite staff_line_app, somes_of_app. destruct (n_tick n <? t); cbn [staff_line app]; rewrite Nat.eqb_refl; cbn [somes_of flat_map app map]; f_equal; apply IH.
Qed.

Lemma voices_line_times i vs : forall t, map note_time (somes_of (staff_line i (voices_line i t vs))) = map note_time (flat_map snd vs).
Proof.
  induction vs as [|v vs IH]; intros t; cbn [voices_line flat_map]; [reflexivity | ].
  rewrite staff_line_app, somes_of_app, !map_app, voice_line_times, IH. reflexivity.
Qed.

Theorem no_note_lost wc rc m : agree wc rc -> measure_in_range wc m -> Forall chords_closed (m_staves m) ->
  exists x m' tr, write_measure wc m = Ok x /\ read_measure rc x = Ok (m', tr, rc_global rc) /\
    Forall2 (fun st st' => Permutation (map note_time (flat_map snd (s_voices st))) (map note_time (flat_map snd (s_voices st')))) (m_staves m) (m_staves m').
Proof.
  intros A R C. destruct (measure_back wc rc m A R C) as (x & m' & tr & B). exists x, m', tr. split; [apply B | ]. split; [apply B | ].
  apply (back_staves wc rc m x m' tr _ B); [destruct A, R; lia | ]. intros i st st' evs H1 H2 S L D K. destruct S as (_ & _ & _ & S). rewrite L in S.
  apply numbered_concat in S. rewrite cut_concat in S. cbn [app] in S. apply (Permutation_map note_time) in S. eapply Permutation_trans; [ | exact S].
  destruct (staves_line_at (m_staves m) 0 0 i st) as (b & a & t & E & Nb & Na); [lia | exact H1 | ]. cbn [Z.to_nat Nat.add] in E.
  rewrite E, !somes_of_app, (somes_of_nones b Nb), (somes_of_nones a Na), app_nil_r. cbn [app]. rewrite voices_line_times. apply Permutation_refl.
Qed.

(** * The measures of a part *)

Theorem part_notes_back prints l : forall wc rc, agree wc rc -> Forall (measure_in_range wc) l -> Forall (fun m => Forall staff_in_order (m_staves m)) l ->
  exists xs l', write_measures prints wc l = Ok xs /\ read_measures rc xs = Ok l' /\
    Forall2 (fun m m' => Forall2 (fun st st' => s_voices st' = asking (s_voices st)) (m_staves m) (m_staves m')) l l'.
Proof.
  induction l as [|m l IH]; intros wc rc A R O; [exists [], []; repeat split; constructor | ].
  inversion R as [|? ? R1 R2]; subst. inversion O as [|? ? O1 O2]; subst.
  destruct (notes_back wc rc m A R1 O1) as (x & m' & tr & W & Q & F).
  destruct (IH (mkWctx (wc_numStaves wc) (wc_ticksPerQuarter wc) (wc_measureIndex wc + 1) false (prints (wc_measureIndex wc + 1)) (wc_transposition wc))
               (mkRctx (rc_numStaves rc) (rc_global rc) (rc_global rc) (rc_measureIndex rc + 1) (m_time m'))) as (xs & l' & W' & Q' & F').
  - destruct A as (A1 & A2 & A3 & A4 & A5 & A6). repeat split; cbn [wc_numStaves rc_numStaves wc_ticksPerQuarter rc_global wc_measureIndex rc_measureIndex wc_isFirst rc_current]; try assumption; try lia.
  - exact R2.
  - exact O2.
  - exists (x :: xs), (m' :: l'). cbn [write_measures read_measures]. rewrite W. cbn [obind]. rewrite W'. cbn [obind]. split; [reflexivity | ].
    rewrite Q. cbn [obind fst snd]. rewrite Q'. cbn [obind]. split; [reflexivity | ]. constructor; assumption.
Qed.
