(** What reading makes of any list of elements. *)
From Coq Require Import QArith Qround Lqa Sorting.Permutation Sorting.Sorted.
From Verif Require Import Proofs.Tac.
From Verif Require Import Model.Base Model.Text Model.Strings Model.Ticks Model.Decimals Model.CoreEnums Model.ApiEnums
  Model.ConverterTables Model.MeasureTypes Model.MeasureWriter Model.MeasureReader.
From Verif Require Import Spec.Numerals Spec.Rounding Spec.Measures Spec.Voices Spec.Directions.
From Verif Require Import Proofs.StringsProofs Proofs.TicksProofs Proofs.MeasureSync.
Import ListNotations.
Open Scope Z_scope.

(** * The contents of a staff after some events *)

Definition pick {A} (i : nat) (l : list (nat * A)) : list A := map snd (filter (fun p => Nat.eqb (fst p) i) l).

Fixpoint staff_line {A} (i : nat) (l : list (option (nat * A))) : list (option A) :=
  match l with
  | [] => []
  | None :: r => None :: staff_line i r
  | Some (j, a) :: r => if Nat.eqb j i then Some a :: staff_line i r else staff_line i r
  end.

Fixpoint line_voices (v : Z) (l : list (option NoteData)) (vs : list (Z * list NoteData)) : list (Z * list NoteData) :=
  match l with
  | [] => vs
  | None :: r => line_voices (v + 1) r vs
  | Some n :: r => line_voices v r (voice_add v n vs)
  end.

Lemma nth_upd {A} (f : A -> A) i j l : nth_error (upd i f l) j = if Nat.eqb i j then option_map f (nth_error l j) else nth_error l j.
Proof.
  revert i j. induction l as [|x l IH]; intros [|i] [|j]; cbn; try reflexivity.
  - destruct (Nat.eqb i j); reflexivity.
  - apply IH.
Qed.

Lemma pick_cons {A} i j (a : A) l : pick i ((j, a) :: l) = if Nat.eqb j i then a :: pick i l else pick i l.
Proof. unfold pick. cbn [filter fst]. destruct (Nat.eqb j i); reflexivity. Qed.

Lemma fold_staff evs : forall v l i st, nth_error l i = Some st ->
  nth_error (snd (fold_left apply_event evs (v, l))) i =
  Some (mkStaff (s_clefs st ++ pick i (clefs_of evs)) (s_keys st) (s_directions st ++ pick i (dirs_of evs))
          (line_voices v (staff_line i (line_of evs)) (s_voices st))).
Proof.
  induction evs as [|e evs IH]; intros v l i st H; cbn [fold_left].
  { cbn. rewrite !app_nil_r, H. destruct st; reflexivity. }
  unfold clefs_of, dirs_of, line_of in *.
  destruct e as [ | j n | j d | j c | k | b]; cbn [apply_event fst snd flat_map app].
  - rewrite (IH (v + 1) l i st H). reflexivity.
  - cbn [staff_line]. rewrite (IH _ _ i (if Nat.eqb j i then add_note v n st else st)) by (rewrite nth_upd, H; destruct (Nat.eqb j i); reflexivity).
    destruct (Nat.eqb j i) eqn:E; cbn [s_clefs s_keys s_directions s_voices option_map add_note line_voices]; reflexivity.
  - rewrite pick_cons. rewrite (IH _ _ i (if Nat.eqb j i then add_direction d st else st)) by (rewrite nth_upd, H; destruct (Nat.eqb j i); reflexivity).
    destruct (Nat.eqb j i) eqn:E; cbn [s_clefs s_keys s_directions s_voices option_map add_direction]; rewrite <- ?app_assoc; reflexivity.
  - rewrite pick_cons. rewrite (IH _ _ i (if Nat.eqb j i then add_clef c st else st)) by (rewrite nth_upd, H; destruct (Nat.eqb j i); reflexivity).
    destruct (Nat.eqb j i) eqn:E; cbn [s_clefs s_keys s_directions s_voices option_map add_clef]; rewrite <- ?app_assoc; reflexivity.
  - rewrite (IH v l i st H). reflexivity.
  - rewrite (IH v l i st H). reflexivity.
Qed.

Lemma after_staff evs c r i : after evs (initial_rstate c) r -> (i < rc_numStaves c)%nat ->
  nth_error (r_staves r) i = Some (mkStaff (pick i (clefs_of evs)) [] (pick i (dirs_of evs)) (line_voices 0 (staff_line i (line_of evs)) [])).
Proof.
  intros [A _ _] Hi. cbn [initial_rstate r_voice r_staves] in A.
  pose proof (fold_staff evs 0 (repeat empty_staff (rc_numStaves c)) i empty_staff) as F. rewrite A in F. cbn [snd] in F. rewrite F; [reflexivity | ].
  rewrite nth_error_nth' with (d := empty_staff) by (rewrite repeat_length; exact Hi). f_equal. apply nth_repeat.
Qed.

(** * Voices as runs *)

Definition below (v : Z) (vs : list (Z * list NoteData)) : Prop := Forall (fun p => fst p < v) vs.

Lemma voice_add_new v n vs : below v vs -> voice_add v n vs = vs ++ [(v, [n])].
Proof.
  induction 1 as [|[j l] vs H Hl IH]; [reflexivity | ]. cbn [fst] in H. cbn [voice_add app].
  destruct (v <? j) eqn:E; [lia | ]. destruct (v =? j) eqn:E2; [lia | ]. rewrite IH. reflexivity.
Qed.

Lemma voice_add_old v n cur vs : below v vs -> voice_add v n (vs ++ [(v, cur)]) = vs ++ [(v, cur ++ [n])].
Proof.
  induction 1 as [|[j l] vs H Hl IH]; cbn [app voice_add]; [rewrite Z.ltb_irrefl, Z.eqb_refl; reflexivity | ]. cbn [fst] in H.
  destruct (v <? j) eqn:E; [lia | ]. destruct (v =? j) eqn:E2; [lia | ]. rewrite IH. reflexivity.
Qed.

Definition open_voice (v : Z) (cur : list NoteData) : list (Z * list NoteData) := match cur with [] => [] | _ => [(v, cur)] end.

Lemma line_voices_cut l : forall v vs cur, below v vs -> ascending vs ->
  map snd (line_voices v l (vs ++ open_voice v cur)) = map snd vs ++ cut cur l /\ ascending (line_voices v l (vs ++ open_voice v cur)).
Proof.
  induction l as [|[n|] l IH]; intros v vs cur B S; cbn [line_voices cut].
  - rewrite map_app. split; [f_equal; destruct cur; reflexivity | ].
    destruct cur as [|c cs]; [rewrite app_nil_r; exact S | ]. unfold ascending in *. rewrite map_app. cbn [open_voice map fst].
    revert S B. generalize vs. clear. intros vs S B. induction vs as [|p vs IH]; cbn [map app]; [repeat constructor | ].
    inversion S; subst. inversion B; subst. constructor; [apply IH; assumption | ]. apply Forall_app. split; [assumption | repeat constructor; assumption].
  - assert (voice_add v n (vs ++ open_voice v cur) = vs ++ open_voice v (cur ++ [n])) as ->.
    { destruct cur as [|c cs]; [cbn; rewrite app_nil_r; apply voice_add_new; exact B | apply (voice_add_old v n (c :: cs)); exact B]. }
    apply IH; assumption.
  - assert (B' : below (v + 1) (vs ++ open_voice v cur)).
    { apply Forall_app. split; [eapply Forall_impl; [ | exact B]; cbn; lia | destruct cur; repeat constructor; cbn; lia]. }
    assert (S' : ascending (vs ++ open_voice v cur)).
    { destruct cur as [|c cs]; [rewrite app_nil_r; exact S | ]. unfold ascending in *. rewrite map_app. cbn [open_voice map fst].
      revert S B. generalize vs. clear. intros vs S B. induction vs as [|p vs IH]; cbn [map app]; [repeat constructor | ].
      inversion S; subst. inversion B; subst. constructor; [apply IH; assumption | ]. apply Forall_app. split; [assumption | repeat constructor; assumption]. }
    destruct (IH (v + 1) (vs ++ open_voice v cur) [] B' S') as [E1 E2]. cbn [open_voice] in E1, E2. rewrite !app_nil_r in E1, E2.
    split; [ | exact E2]. rewrite E1, map_app, <- app_assoc. f_equal. f_equal. destruct cur; reflexivity.
Qed.

Lemma line_voices_runs l : map snd (line_voices 0 l []) = cut [] l /\ ascending (line_voices 0 l []).
Proof. apply (line_voices_cut l 0 [] []); constructor. Qed.

Lemma cut_nonempty {A} (l : list (option A)) cur : Forall (fun v => v <> []) (cut cur l).
Proof.
  assert (C : forall c : list A, Forall (fun v => v <> []) (closed c)) by (intros [|c cs]; repeat constructor; discriminate).
  revert cur. induction l as [|[a|] l IH]; intros cur; cbn [cut]; [apply C | apply IH | apply Forall_app; split; [apply C | apply IH]].
Qed.

(** * Consolidation *)

Lemma voice_consistent_spec v : v <> [] -> (voice_consistent v = true <-> asks v (voice_number v)).
Proof.
  intros H. destruct v as [|n v]; [congruence | ]. cbn [voice_consistent voice_number]. unfold asks. rewrite andb_true_iff, Z.leb_le, forallb_forall, Forall_forall.
  split.
  - intros [A B]. split; [exact H | ]. split; [exact A | ]. intros m Hm. apply Z.eqb_eq. apply B. exact Hm.
  - intros (_ & A & B). split; [exact A | ]. intros m Hm. apply Z.eqb_eq. apply B. exact Hm.
Qed.

Lemma asks_number v k : asks v k -> voice_number v = k.
Proof. intros (A & _ & B). destruct v as [|n v]; [congruence | ]. inversion B; subst. reflexivity. Qed.

Lemma voices_consistent_spec vs seen : Forall (fun v => snd v <> []) vs ->
  (voices_consistent seen vs = true <->
   Forall2 asks (map snd vs) (map (fun v => voice_number (snd v)) vs) /\ NoDup (map (fun v => voice_number (snd v)) vs) /\
   Forall (fun k => ~ In k seen) (map (fun v => voice_number (snd v)) vs)).
Proof.
  intros H. revert seen. induction H as [|[j v] vs Hv Hvs IH]; intros seen; cbn [voices_consistent map snd].
  - split; [intros _; repeat constructor | reflexivity].
  - cbn [snd] in Hv. rewrite !andb_true_iff, (voice_consistent_spec v Hv), negb_true_iff, IH.
    assert (E : existsb (Z.eqb (voice_number v)) seen = false <-> ~ In (voice_number v) seen).
    { rewrite <- not_true_iff_false, existsb_exists. split; intros A B; apply A.
      - exists (voice_number v). split; [exact B | apply Z.eqb_refl].
      - destruct B as (k & K1 & K2). apply Z.eqb_eq in K2. subst. exact K1. }
    rewrite E. split.
    + intros ((A & B) & C & D & F). split; [constructor; assumption | ]. split.
      * constructor; [ | exact D]. intros I. rewrite Forall_forall in F. apply (F _ I). left. reflexivity.
      * constructor; [exact B | ]. eapply Forall_impl; [ | exact F]. intros k K I. apply K. right. exact I.
    + intros (A & B & C). inversion A; subst. inversion B; subst. inversion C; subst. split; [split; assumption | ].
      split; [assumption | ]. split; [assumption | ]. rewrite Forall_forall in *. intros k K [I | I]; [subst k; contradiction | ].
      match goal with F : forall x, In x _ -> ~ In x seen |- _ => apply (F k K I) end.
Qed.

Lemma ask_distinct_unique vs ks : Forall2 asks vs ks -> ks = map voice_number vs.
Proof. induction 1 as [|v k vs ks A B IH]; [reflexivity | ]. cbn. rewrite (asks_number v k A), IH. reflexivity. Qed.

Lemma voice_set_keys k v vs : map fst (voice_set k v vs) = map fst vs \/ Permutation (map fst (voice_set k v vs)) (k :: map fst vs).
Proof.
  induction vs as [|[j l] vs IH]; cbn [voice_set]; [right; reflexivity | ]. destruct (k <? j); [right; reflexivity | ].
  destruct (k =? j); [left; reflexivity | ]. cbn [map fst]. destruct IH as [-> | IH]; [left; reflexivity | right].
  rewrite IH. constructor.
Qed.

Lemma voice_set_perm k v vs : ~ In k (map fst vs) -> Permutation (voice_set k v vs) ((k, v) :: vs).
Proof.
  induction vs as [|[j l] vs IH]; intros H; cbn [voice_set]; [reflexivity | ]. destruct (k <? j); [reflexivity | ].
  destruct (k =? j) eqn:E; [exfalso; apply H; left; cbn; lia | ]. rewrite IH by (intros I; apply H; right; exact I). constructor.
Qed.

Lemma voice_set_ascending k v vs : ascending vs -> ~ In k (map fst vs) -> ascending (voice_set k v vs).
Proof.
  unfold ascending. induction vs as [|[j l] vs IH]; intros S H; cbn [voice_set]; [repeat constructor | ]. cbn [map fst] in *.
  inversion S as [|j' vs' S1 S2]; subst.
  destruct (k <? j) eqn:E; [cbn [map fst]; constructor; [exact S | ]; constructor; [lia | eapply Forall_impl; [ | exact S2]; cbn; lia] | ].
  destruct (k =? j) eqn:E2; [exfalso; apply H; left; lia | ]. cbn [map fst]. constructor; [apply IH; [exact S1 | intros I; apply H; right; exact I] | ].
  assert (H2 : ~ In k (map fst vs)) by (intros I; apply H; right; exact I).
  pose proof (Permutation_map fst (voice_set_perm k v vs H2)) as P. cbn [map fst] in P.
  apply Forall_forall. intros q Q. apply (Permutation_in _ P) in Q. destruct Q as [<- | Q]; [lia | ]. rewrite Forall_forall in S2. apply S2. exact Q.
Qed.

Lemma take_requested vs ks new : Forall2 asks (map snd vs) ks -> NoDup ks -> ascending new -> Forall (fun k => ~ In (k - 1) (map fst new)) ks ->
  exists vs', takeUserRequestedVoiceNumbers vs new = Ok vs' /\ Permutation vs' (combine (map Z.pred ks) (map snd vs) ++ new) /\ ascending vs'.
Proof.
  revert ks new. induction vs as [|[j v] vs IH]; intros ks new A D S F; cbn [map snd] in A.
  - inversion A; subst. exists new. repeat split; [reflexivity | exact S].
  - inversion A as [|v' k vs' ks' A1 A2]; subst. inversion D as [|k' ks'' D1 D2]; subst. inversion F as [|k'' ks''' F1 F2]; subst.
    cbn [takeUserRequestedVoiceNumbers]. rewrite (asks_number v k A1). destruct A1 as (_ & K & _). assert (1 <=? k = true) as -> by lia.
    destruct (IH ks' (voice_set (k - 1) v new) A2 D2) as (vs' & E1 & E2 & E3).
    + apply voice_set_ascending; assumption.
    + pose proof (Permutation_map fst (voice_set_perm (k - 1) v new F1)) as P. cbn [map fst] in P.
      rewrite Forall_forall in *. intros q Q I. apply (Permutation_in _ P) in I. destruct I as [I | I]; [ | apply (F2 q Q I)].
      assert (q = k) by lia. subst q. contradiction.
    + exists vs'. split; [exact E1 | ]. split; [ | exact E3]. rewrite E2, (voice_set_perm (k - 1) v new F1). cbn [map combine app snd].
      replace (Z.pred k) with (k - 1) by lia. symmetry. apply Permutation_middle.
Qed.

Lemma voice_set_last k v vs : below k vs -> voice_set k v vs = vs ++ [(k, v)].
Proof.
  induction 1 as [|[j l] vs H Hl IH]; [reflexivity | ]. cbn [fst] in H. cbn [voice_set app].
  destruct (k <? j) eqn:E; [lia | ]. destruct (k =? j) eqn:E2; [lia | ]. rewrite IH. reflexivity.
Qed.

Lemma collapse_spec vs : forall index new, below index new ->
  collapseVoicesAutomatically index vs new = new ++ combine (map (fun i => index + Z.of_nat i) (seq 0 (List.length vs))) (map snd vs).
Proof.
  induction vs as [|[j v] vs IH]; intros index new B; cbn [collapseVoicesAutomatically List.length seq map combine snd]; [rewrite app_nil_r; reflexivity | ].
  rewrite IH.
  - rewrite (voice_set_last index v new B), <- app_assoc. cbn [app]. f_equal. rewrite Z.add_0_r. f_equal. f_equal.
    rewrite <- seq_shift, map_map. apply map_ext. intros i. lia.
  - rewrite (voice_set_last index v new B). apply Forall_app. split; [eapply Forall_impl; [ | exact B]; cbn; lia | repeat constructor; cbn; lia].
Qed.

Lemma consolidate_staff_ok st : Forall (fun v => snd v <> []) (s_voices st) ->
  exists vs, consolidate_staff st = Ok (mkStaff (s_clefs st) (s_keys st) (s_directions st) vs) /\ numbered (map snd (s_voices st)) vs.
Proof.
  intros H. unfold consolidate_staff. destruct (voices_consistent [] (s_voices st)) eqn:E.
  - apply (voices_consistent_spec _ _ H) in E. destruct E as (A & B & _).
    destruct (take_requested (s_voices st) _ [] A B) as (vs & E1 & E2 & E3); [constructor | apply Forall_forall; intros k _ []; auto | ].
    exists vs. rewrite E1. split; [reflexivity | ]. left. eexists. split; [split; [exact A | exact B] | ]. rewrite app_nil_r in E2. auto.
  - eexists. split; [reflexivity | ]. right. split.
    + intros (ks & K1 & K2). assert (voices_consistent [] (s_voices st) = true) as T; [ | rewrite T in E; discriminate E].
      apply (voices_consistent_spec _ _ H). pose proof (ask_distinct_unique _ _ K1) as U. rewrite map_map in U. subst ks.
      split; [exact K1 | ]. split; [exact K2 | ]. apply Forall_forall. intros k _ [].
    + rewrite collapse_spec by constructor. cbn [app]. unfold counted. rewrite map_length. f_equal.
Qed.

Lemma consolidate_staves_ok l : Forall (fun st => Forall (fun v => snd v <> []) (s_voices st)) l ->
  exists l', consolidate_staves l = Ok l' /\
    Forall2 (fun st st' => s_clefs st' = s_clefs st /\ s_keys st' = s_keys st /\ s_directions st' = s_directions st /\ numbered (map snd (s_voices st)) (s_voices st')) l l'.
Proof.
  induction 1 as [|st l H Hl (l' & IH1 & IH2)]; cbn [consolidate_staves]; [exists []; split; [reflexivity | constructor] | ].
  destruct (consolidate_staff_ok st H) as (vs & E1 & E2). rewrite E1. cbn [obind]. rewrite IH1. cbn [obind]. eexists. split; [reflexivity | ].
  constructor; [auto | exact IH2].
Qed.

Lemma numbered_in vs out k v : numbered vs out -> In (k, v) out -> In v vs.
Proof.
  intros [(ks & _ & P & _) | (_ & ->)] I.
  - apply (Permutation_in _ P) in I. apply in_combine_r in I. exact I.
  - apply in_combine_r in I. exact I.
Qed.

(** * Any list of elements *)

Inductive tracks : bool -> list music_data -> list (option (nat * NoteData)) -> Prop :=
| tk_nil b : tracks b [] []
| tk_note b x n items l : taken_from x n -> tracks false items l -> tracks b (MNote x :: items) (Some (staff_of x, n) :: l)
| tk_first d items l : tracks true items l -> tracks false (MBackup d :: items) (None :: l)
| tk_again d items l : tracks true items l -> tracks true (MBackup d :: items) l
| tk_other b x items l : match x with MNote _ | MBackup _ => False | _ => True end -> tracks false items l -> tracks b (x :: items) l.

(** Each note is not before the one it follows, unless there is a backup between. *)
Fixpoint timely (t : Z) (l : list (option (nat * NoteData))) : Prop :=
  match l with
  | [] => True
  | None :: r => timely 0 r
  | Some (_, n) :: r => t <= n_tick n /\ timely (n_tick n) r
  end.

Lemma timely_weaken l : forall t t', t' <= t -> timely t l -> timely t' l.
Proof. destruct l as [|[[i n]|] l]; intros t t' H; cbn; [auto | | auto]. intros [A B]. split; [lia | exact B]. Qed.

Lemma round_half_nonneg q : (0 <= q)%Q -> 0 <= round_half q.
Proof.
  intros H. unfold round_half. pose proof (Qle_ceiling (q - (1 # 2))) as A.
  assert (inject_Z (-1) < inject_Z (Qceiling (q - (1 # 2))))%Q as B by (apply Qlt_le_trans with (q - (1 # 2))%Q; [unfold inject_Z; lra | exact A]).
  rewrite <- Zlt_Qlt in B. lia.
Qed.

Lemma convert_nonneg global current d t : 1 <= global -> 0 <= current -> (0 <= d)%Q -> convertDuration global current d = Ok t -> 0 <= t.
Proof.
  intros Hg Hc Hd. unfold convertDuration. case_if.
  - intros H. apply as_int_inv in H. destruct H as [-> _]. apply round_half_nonneg. exact Hd.
  - case_if; [intros H; discriminate H | ]. intros H. apply as_int_inv in H. destruct H as [-> _]. apply round_half_nonneg.
    bool_hyps. assert (0 < inject_Z current)%Q by (rewrite <- (Zlt_Qlt 0); lia). assert (0 <= inject_Z global)%Q by (rewrite <- (Zle_Qle 0); lia).
    apply Qmult_le_0_compat; [exact Hd | ]. apply Qle_shift_div_l; [assumption | ]. rewrite Qmult_0_l. assumption.
Qed.

Lemma types_tick l d : d_tick (fold_left parseDirectionType l d) = d_tick d.
Proof. revert d. induction l as [|t l IH]; intros d; [reflexivity | ]. cbn [fold_left]. rewrite IH. destruct d, t; reflexivity. Qed.

Lemma chords_tick l d : d_tick (set_chords l d) = d_tick d.
Proof. destruct d. reflexivity. Qed.

Lemma obind_ok {A B} (o : outcome A) (f : A -> outcome B) b : obind o f = Ok b -> exists a, o = Ok a /\ f a = Ok b.
Proof. destruct o as [a | | ]; cbn; intros H; try discriminate H. eauto. Qed.

Lemma update_staff_ok i f l l' : update_staff i f l = Ok l' -> 0 <= i < Z.of_nat (List.length l) /\ l' = upd (Z.to_nat i) f l.
Proof.
  unfold update_staff. destruct (i <? 0) eqn:B; [intros H; discriminate H | ]. apply Z.ltb_ge in B. destruct (update_nth (Z.to_nat i) f l) as [l1|] eqn:Q; intros H; [ | discriminate H].
  injection H as <-. assert (Z.to_nat i < List.length l)%nat as L.
  { clear B. revert l l1 Q. generalize (Z.to_nat i). intros k. induction k as [|k IH]; intros [|x l] l1; cbn; intros Q; try discriminate Q; [lia | ].
    destruct (update_nth k f l) eqn:E2; [ | discriminate Q]. specialize (IH _ _ E2). lia. }
  rewrite update_nth_upd in Q by exact L. injection Q as <-. split; [lia | reflexivity].
Qed.

Record read_ok (c : rctx) (items : list music_data) (r r' : rstate) (evs : list event) : Prop := {
  ro_after : after evs r r';
  ro_tracks : tracks (r_backup r) items (line_of evs);
  ro_tick : 0 <= r_tick r';
  ro_current : 0 <= r_current r';
  ro_durations : Forall (fun o => match o with Some (_, n) => 0 <= n_dur n | None => True end) (line_of evs);
  ro_timely : timely (if r_backup r then 0 else r_tick r) (line_of evs);
  ro_clefs : Forall (fun p => 0 <= c_tick (snd p)) (clefs_of evs);
  ro_keys : Forall (fun k => 0 <= k_tick k) (keys_of evs);
  ro_bars : Forall (fun b => 0 <= b_tick b) (bars_of evs);
  ro_dirs : Forall offset_ok items -> Forall (fun p => 0 <= d_tick (snd p)) (dirs_of evs);
  ro_given : Forall2 (fun x p => direction_read (List.length (r_staves r)) x (fst p) (snd p)) (filter is_direction items) (dirs_of evs)
}.

(** One element, with the bound that holds for what follows. *)
Record step_ok (x : music_data) (r r' : rstate) (evs : list event) : Prop := {
  so_after : after evs r r';
  so_tick : 0 <= r_tick r';
  so_current : 0 <= r_current r';
  so_line : (match x with
             | MNote n => exists m, line_of evs = [Some (staff_of n, m)] /\ taken_from n m /\ 0 <= n_dur m /\ n_tick m = r_tick r /\ r_tick r <= r_tick r'
             | MBackup _ => line_of evs = (if r_backup r then [] else [None])
             | _ => line_of evs = [] /\ r_tick r <= r_tick r'
             end) /\ r_backup r' = match x with MBackup _ => true | _ => false end;
  so_clefs : Forall (fun p => 0 <= c_tick (snd p)) (clefs_of evs);
  so_keys : Forall (fun k => 0 <= k_tick k) (keys_of evs);
  so_bars : Forall (fun b => 0 <= b_tick b) (bars_of evs);
  so_dirs : offset_ok x -> Forall (fun p => 0 <= d_tick (snd p)) (dirs_of evs);
  so_given : Forall2 (fun x p => direction_read (List.length (r_staves r)) x (fst p) (snd p)) (if is_direction x then [x] else []) (dirs_of evs)
}.

Lemma note_voice_asked x v : note_voice x = Ok v -> voice_asked x v.
Proof.
  unfold note_voice, voice_asked. destruct (xn_voice x) as [t|]; [ | intros H; injection H as <-; reflexivity].
  intros H. apply obind_ok in H. destruct H as (o & Ho & H). destruct o as [n|]; injection H as <-.
  - left. apply stringToInt_canonical. exact Ho.
  - right. split; [reflexivity | ]. intros n Hn Hi. rewrite (proj2 (stringToInt_canonical t n) (conj Hn Hi)) in Ho. discriminate Ho.
Qed.

Lemma types_read types : forall tk sp te ma ws we os oe bs be wo ch se co re,
  fold_left parseDirectionType types (mkDirection tk sp te ma ws we os oe bs be wo ch se co re) =
  mkDirection tk sp (te ++ flat_map tempos_in types) (ma ++ flat_map marks_in types) (ws ++ flat_map wedge_starts_in types) (we ++ flat_map wedge_stops_in types)
    (os ++ flat_map ottava_starts_in types) (oe ++ flat_map ottava_stops_in types) (bs ++ flat_map bracket_starts_in types) (be ++ flat_map bracket_stops_in types)
    (wo ++ flat_map words_in types) ch (se ++ flat_map segnos_in types) (co ++ flat_map codas_in types) (re ++ flat_map rehearsals_in types).
Proof.
  induction types as [|t types IH]; intros; cbn [fold_left flat_map]; [rewrite !app_nil_r; reflexivity | ].
  destruct t; cbn [parseDirectionType tempos_in marks_in wedge_starts_in wedge_stops_in ottava_starts_in ottava_stops_in bracket_starts_in bracket_stops_in
    words_in segnos_in codas_in rehearsals_in app]; rewrite IH, <- ?app_assoc; reflexivity.
Qed.

Lemma direction_step off staff f r r' : parseDirectionImpl off staff f r = Ok r' -> (forall d, d_tick (f d) = d_tick d) -> 0 <= r_tick r -> 0 <= r_current r ->
  exists i d, after [EDir i d] r r' /\ r_tick r' = r_tick r /\ r_current r' = r_current r /\ r_backup r' = false /\
    (match off with Some q => (0 <= q)%Q | None => True end -> 0 <= d_tick d) /\
    exists t specified, d = f (empty_direction t specified) /\ staff_asked (List.length (r_staves r)) staff i specified.
Proof.
  intros H Hf T C. unfold parseDirectionImpl in H. apply obind_ok in H. destruct H as (t & Ht & H). apply obind_ok in H. destruct H as (l & Hl & H).
  apply update_staff_ok in Hl. destruct Hl as [Hl ->]. injection H as <-.
  eexists _, _. split; [split; cbn; rewrite ?app_nil_r; reflexivity | ]. split; [reflexivity | ]. split; [reflexivity | ]. split; [reflexivity | ].
  split; [ | eexists _, _; split; [reflexivity | ]; clear; unfold staff_asked; destruct staff as [k|]; [ | split; [reflexivity | discriminate]];
    destruct ((0 <=? k - 1) && _) eqn:B; bool_hyps; [split; [f_equal; lia | lia] | split; [reflexivity | ]; intros z Z; injection Z as <-; lia]].
  intros Ho. rewrite Hf. cbn [empty_direction d_tick]. unfold direction_tick in Ht. destruct off as [q|]; [ | injection Ht as <-; exact T].
  apply obind_ok in Ht. destruct Ht as (o & Ho1 & Ho2). apply as_int_inv in Ho1. apply as_int_inv in Ho2. pose proof (round_half_nonneg q Ho). lia.
Qed.

Lemma step_events c x next r r' : 1 <= rc_global c -> parseMusicDataChoice c x next r = Ok r' -> item_ok x -> 0 <= r_tick r -> 0 <= r_current r ->
  exists evs, step_ok x r r' evs.
Proof.
  intros Hg H Hx T C. destruct x as [n | d | d | d | h | p | b | | ]; cbn [parseMusicDataChoice item_ok] in *.
  - unfold parseNote in H. apply obind_ok in H. destruct H as (v & Hv & H). apply obind_ok in H. destruct H as (t & Ht & H).
    apply obind_ok in H. destruct H as (t' & Ht' & H). apply obind_ok in H. destruct H as (l & Hl & H). apply update_staff_ok in Hl. destruct Hl as [Hl ->].
    injection H as <-.
    assert (0 <= t). { apply (convert_nonneg _ _ _ _ Hg C) in Ht; [exact Ht | ]. unfold note_duration. destruct (xn_type n); try assumption. lra. }
    assert (r_tick r <= t'). { destruct (negb _ || negb next); [apply as_int_inv in Ht'; lia | injection Ht' as <-; lia]. }
    exists [ENote (staff_of n) (mkNote (r_tick r) t (xn_chord n || next) (xn_type n) v (xn_rest n))].
    split; cbn; try (solve [repeat constructor]); try assumption; try lia.
    + split; cbn; rewrite ?app_nil_r; try reflexivity. f_equal. f_equal. unfold staff_of. destruct (xn_staff n); lia.
    + split; [ | reflexivity]. eexists. split; [reflexivity | ]. split; [ | split; [assumption | split; [reflexivity | assumption]]]. split; [reflexivity | ]. split; [reflexivity | exact (note_voice_asked _ _ Hv)].
  - unfold parseBackup in H. apply obind_ok in H. destruct H as (v & Hv & H). apply obind_ok in H. destruct H as (a & Ha & H).
    apply obind_ok in H. destruct H as (mi & Hm & H). apply obind_ok in H. destruct H as (t & Ht & H).
    assert (exists t', r' = r_at t' v true r /\ 0 <= t') as (t' & -> & T').
    { destruct (t <? 0) eqn:B; [ | apply Z.ltb_ge in B].
      - apply obind_ok in H. destruct H as (pr & Hp & H). apply as_int_inv in Hp. injection H as <-. eexists. split; [reflexivity | lia].
      - injection H as <-. eexists. split; [reflexivity | lia]. }
    clear H. exists (if r_backup r then [] else [EBackup]).
    assert (V : v = if r_backup r then r_voice r else r_voice r + 1).
    { destruct (r_backup r); [injection Hv as <-; reflexivity | apply as_int_inv in Hv; lia]. }
    destruct (r_backup r) eqn:B; split; cbn; rewrite ?B, ?V; try (solve [repeat constructor]); try assumption; try lia;
      split; cbn; rewrite ?app_nil_r, ?Z.add_0_r; try reflexivity.
  - unfold parseForward in H. apply obind_ok in H. destruct H as (a & Ha & H). apply obind_ok in H. destruct H as (t & Ht & H). injection H as <-.
    apply as_int_inv in Ht. apply (convert_nonneg _ _ _ _ Hg C) in Ha; [ | exact Hx].
    exists []. split; cbn; try (apply after_nil; reflexivity); try (solve [repeat constructor]); try assumption; try lia.
    split; [split; [reflexivity | lia] | reflexivity].
  - destruct (direction_step _ _ _ _ _ H (types_tick (xd_types d)) T C) as (i & e & A1 & A2 & A3 & A4 & A5 & ti & sp & A6 & A7).
    exists [EDir i e]. split; cbn; rewrite ?A2, ?A3, ?A4; try exact A1; try (solve [repeat constructor]); try assumption; try lia.
    + split; [split; [reflexivity | lia] | reflexivity].
    + intros O. constructor; [exact (A5 O) | constructor].
    + constructor; [ | constructor]. cbn [fst snd direction_read]. subst e. unfold empty_direction. rewrite types_read. cbn [app d_tick d_staffSpecified]. split; [exact A7 | reflexivity].
  - destruct (direction_step _ _ _ _ _ H (chords_tick (xh_chords h)) T C) as (i & e & A1 & A2 & A3 & A4 & A5 & ti & sp & A6 & A7).
    exists [EDir i e]. split; cbn; rewrite ?A2, ?A3, ?A4; try exact A1; try (solve [repeat constructor]); try assumption; try lia.
    + split; [split; [reflexivity | lia] | reflexivity].
    + intros O. constructor; [exact (A5 O) | constructor].
    + constructor; [ | constructor]. cbn [fst snd direction_read]. subst e. split; [exact A7 | reflexivity].
  - unfold parseProperties in H. apply obind_ok in H. destruct H as (cur & Hc & H). apply obind_ok in H. destruct H as (r3 & Hr & H).
    assert (Cc : 0 <= cur). { destruct (p_divisions p) as [d|]; [apply as_int_inv in Hc; pose proof (round_half_nonneg d Hx); lia | injection Hc as <-; exact C]. }
    rewrite read_keys in Hr. cbn [r_set_current r_at r_current r_tick r_voice r_backup r_staves r_keys r_barlines r_transpose] in Hr.
    assert (K : forall l ra rb, importClefs l ra = Ok rb -> exists ce, rb = r_set_staves (snd (fold_left apply_event ce (r_voice ra, r_staves ra))) ra /\
       keys_of ce = [] /\ bars_of ce = [] /\ dirs_of ce = [] /\ line_of ce = [] /\ Forall (fun p => c_tick (snd p) = r_tick ra) (clefs_of ce)).
    { clear. induction l as [|k l IH]; intros ra rb; cbn [importClefs]; intros H.
      - injection H as <-. exists []. repeat split; try constructor. destruct ra; reflexivity.
      - apply obind_ok in H. destruct H as (rm & Hm & H). unfold importClef in Hm. apply obind_ok in Hm. destruct Hm as (l' & Hl & Hm).
        apply update_staff_ok in Hl. destruct Hl as [Hl ->]. injection Hm as <-. destruct (IH _ _ H) as (ce & -> & K1 & K2 & K3 & K4 & K5).
        eexists (EClef _ (mkClef (r_tick ra) (xc_rest k)) :: ce). split; [reflexivity | ]. unfold keys_of, bars_of, dirs_of, line_of, clefs_of in *.
        cbn [flat_map app]. repeat (split; [assumption | ]). constructor; [reflexivity | exact K5]. }
    destruct (K _ _ _ Hr) as (ce & -> & K1 & K2 & K3 & K4 & K5). clear K Hr.
    cbn [r_voice r_staves r_tick] in *.
    set (r3 := r_set_staves _ _) in H.
    assert (R : exists t, r' = r_set_transpose t r3).
    { destruct (p_transpose p) as [|t ts]; [ | destruct (_ && _)]; injection H as <-; [exists (r_transpose r3) | eexists; reflexivity | exists (r_transpose r3)]; reflexivity. }
    clear H. destruct R as [t ->].
    exists (map EKey (map (parseKey c (r_tick r)) (p_keys p)) ++ ce).
    destruct (key_events_of (map (parseKey c (r_tick r)) (p_keys p))) as (E1 & E2 & E3 & E4 & E5).
    unfold clefs_of, keys_of, line_of, dirs_of, bars_of in *.
    split; unfold clefs_of, keys_of, line_of, dirs_of, bars_of; rewrite ?flat_map_app, ?E1, ?E2, ?E3, ?E4, ?E5, ?K1, ?K2, ?K3, ?K4; cbn [app]; rewrite ?app_nil_r; cbn [r_tick r_current r_backup r_set_transpose r3 r_set_staves];
      try (solve [repeat constructor]); try assumption; try lia.
    + split.
    { rewrite fold_left_app, fold_keys. cbn [r_voice r_staves r3 r_set_transpose r_set_staves].
      pose proof (fold_voice c ce (r_voice r, r_staves r)) as F. unfold backups, backups_of, line_of in F. rewrite K4 in F. cbn in F.
      destruct (fold_left apply_event ce (r_voice r, r_staves r)) as [a b]. cbn in *. subst a. f_equal. lia. }
    { unfold keys_of. rewrite flat_map_app, E2, K1, app_nil_r. reflexivity. }
    { unfold bars_of. rewrite flat_map_app, E5, K2, !app_nil_r. reflexivity. }
    + split; [split; [reflexivity | lia] | reflexivity].
    + eapply Forall_impl; [ | exact K5]. cbn. intros q ->. exact T.
    + apply Forall_forall. intros k I. apply in_map_iff in I. destruct I as (x & <- & _). unfold parseKey. destruct (xk_custom x); cbn; lia.
  - injection H as <-. unfold parseBarline. eexists [EBar _].
    split; cbn; try (solve [repeat constructor]); try assumption; try lia.
    + split; cbn; rewrite ?app_nil_r; reflexivity.
    + split; [split; [reflexivity | lia] | reflexivity].
    + constructor; [ | constructor]. cbn. case_if; [ | exact T]. unfold TICK_TIME_INFINITY, int_max. lia.
  - injection H as <-. exists []. split; cbn; try (apply after_nil; reflexivity); try (solve [repeat constructor]); try assumption; try lia.
    split; [split; [reflexivity | lia] | reflexivity].
  - injection H as <-. exists []. split; cbn; try (apply after_nil; reflexivity); try (solve [repeat constructor]); try assumption; try lia.
    split; [split; [reflexivity | lia] | reflexivity].
Qed.

Lemma read_events c items f r r' : 1 <= rc_global c -> read_items c items f r = Ok r' -> Forall item_ok items -> 0 <= r_tick r -> 0 <= r_current r ->
  exists evs, read_ok c items r r' evs.
Proof.
  intros Hg H F. revert r H. induction F as [|x items Hx Hi IH]; intros r H T C; cbn [read_items] in H.
  - injection H as <-. exists []. split; cbn; try (repeat constructor); try assumption; rewrite ?app_nil_r; reflexivity.
  - apply obind_ok in H. destruct H as (r1 & H1 & H). destruct (step_events c x _ r r1 Hg H1 Hx T C) as (e1 & [A1 A2 A3 A4 A5 A6 A7 A8 A9]).
    destruct (IH r1 H A2 A3) as (e2 & [B1 B2 B3 B4 Bd B5 B6 B7 B8 B9 B10]).
    exists (e1 ++ e2). unfold clefs_of, keys_of, line_of, dirs_of, bars_of in *.
    split; unfold clefs_of, keys_of, line_of, dirs_of, bars_of; rewrite ?flat_map_app; try assumption; try (apply Forall_app; split; assumption).
    + eapply after_app; eassumption.
    + destruct A4 as [A4 A4b]. rewrite A4b in B2. destruct x as [n | d | d | d | h | p | b | | ].
      * destruct A4 as (m & -> & M2 & _). constructor; [exact M2 | exact B2].
      * rewrite A4. destruct (r_backup r); constructor; exact B2.
      * destruct A4 as [-> _]. apply tk_other; [exact I | exact B2].
      * destruct A4 as [-> _]. apply tk_other; [exact I | exact B2].
      * destruct A4 as [-> _]. apply tk_other; [exact I | exact B2].
      * destruct A4 as [-> _]. apply tk_other; [exact I | exact B2].
      * destruct A4 as [-> _]. apply tk_other; [exact I | exact B2].
      * destruct A4 as [-> _]. apply tk_other; [exact I | exact B2].
      * destruct A4 as [-> _]. apply tk_other; [exact I | exact B2].
    + apply Forall_app. split; [ | exact Bd]. destruct A4 as [A4 _]. destruct x as [n | d | d | d | h | p | b | | ]; try (destruct A4 as [-> _]; constructor).
      * destruct A4 as (m & -> & _ & M3 & _). repeat constructor. exact M3.
      * rewrite A4. destruct (r_backup r); repeat constructor.
    + destruct A4 as [A4 A4b]. rewrite A4b in B5. destruct x as [n | d | d | d | h | p | b | | ];
        try (destruct A4 as [-> A4]; cbn [app]; eapply timely_weaken; [ | exact B5]; destruct (r_backup r); lia).
      * destruct A4 as (m & -> & _ & _ & M3 & M4). cbn [app timely]. split; [destruct (r_backup r); lia | ]. eapply timely_weaken; [ | exact B5]. lia.
      * rewrite A4. destruct (r_backup r); cbn [app timely]; exact B5.
    + intros O. inversion O; subst. apply Forall_app. split; [apply A8; assumption | apply B9; assumption].
    + rewrite (after_length _ _ _ A1) in B10. cbn [filter]. destruct (is_direction x); [apply (Forall2_app A9 B10) | apply (Forall2_app A9 B10)].
Qed.

(** * Runs *)

Lemma tracks_runs i : forall b items l, tracks b items l -> forall xs ns, Forall2 taken_from xs ns -> (b = true -> xs = [] /\ ns = []) ->
  Forall2 (Forall2 taken_from) (cut xs (notes_and_backups i items)) (cut ns (staff_line i l)).
Proof.
  assert (C : forall xs ns, Forall2 taken_from xs ns -> Forall2 (Forall2 taken_from) (closed xs) (closed ns)).
  { intros xs ns F. destruct F; [constructor | ]. constructor; [constructor; assumption | constructor]. }
  unfold notes_and_backups. induction 1; intros xs ns F B; cbn [flat_map app].
  - apply C. exact F.
  - cbn [staff_line]. destruct (Nat.eqb (staff_of x) i); cbn [app cut].
    + apply IHtracks; [ | discriminate]. apply Forall2_app; [exact F | ]. repeat constructor; apply H.
    + apply IHtracks; [exact F | discriminate].
  - cbn [staff_line cut]. apply Forall2_app; [apply C; exact F | ]. apply IHtracks; [constructor | auto].
  - destruct (B eq_refl) as [-> ->]. cbn [cut closed app]. apply IHtracks; [constructor | auto].
  - destruct x; try contradiction; cbn [app]; apply IHtracks; try exact F; discriminate.
Qed.

Definition ticks_sorted (v : list NoteData) : Prop := StronglySorted Z.le (map n_tick v).

Lemma sorted_snoc l a : StronglySorted Z.le l -> Forall (fun x => x <= a) l -> StronglySorted Z.le (l ++ [a]).
Proof.
  induction l as [|b l IH]; intros S F; cbn [app]; [repeat constructor | ]. inversion S; subst. inversion F; subst.
  constructor; [apply IH; assumption | ]. apply Forall_app. split; [assumption | repeat constructor; assumption].
Qed.

Lemma timely_runs i l : forall t cur, timely t l -> ticks_sorted cur -> Forall (fun n => n_tick n <= t) cur -> Forall ticks_sorted (cut cur (staff_line i l)).
Proof.
  assert (C : forall c, ticks_sorted c -> Forall ticks_sorted (closed c)) by (intros [|c cs] H; constructor; [exact H | constructor]).
  induction l as [|[[j n]|] l IH]; intros t cur T S F; cbn [staff_line].
  - apply C. exact S.
  - cbn [timely] in T. destruct T as [T1 T2]. destruct (Nat.eqb j i); cbn [cut].
    + apply (IH (n_tick n)); [exact T2 | | ].
      * unfold ticks_sorted. rewrite map_app. apply sorted_snoc; [exact S | ]. apply Forall_map. eapply Forall_impl; [ | exact F]. cbn. lia.
      * apply Forall_app. split; [eapply Forall_impl; [ | exact F]; cbn; lia | repeat constructor; lia].
    + apply (IH (n_tick n)); [exact T2 | exact S | ]. eapply Forall_impl; [ | exact F]. cbn. lia.
  - cbn [cut timely] in *. apply Forall_app. split; [apply C; exact S | ]. apply (IH 0); [exact T | constructor | constructor].
Qed.

Lemma timely_nonneg l : forall t, 0 <= t -> timely t l -> Forall (fun o => match o with Some (_, n) => 0 <= n_tick n | None => True end) l.
Proof.
  induction l as [|[[j n]|] l IH]; intros t H T; cbn [timely] in T; constructor; try exact I.
  - lia.
  - apply (IH (n_tick n)); [lia | apply T].
  - apply (IH 0); [lia | exact T].
Qed.

Lemma cut_all {A} (P : A -> Prop) i (l : list (option (nat * A))) : forall cur, Forall P cur -> Forall (fun o => match o with Some (_, n) => P n | None => True end) l ->
  Forall (Forall P) (cut cur (staff_line i l)).
Proof.
  assert (C : forall c, Forall P c -> Forall (Forall P) (closed c)) by (intros [|c cs] H; constructor; [exact H | constructor]).
  induction l as [|[[j n]|] l IH]; intros cur F L; cbn [staff_line]; inversion L; subst.
  - apply C. exact F.
  - destruct (Nat.eqb j i); cbn [cut]; apply IH; try assumption. apply Forall_app. split; [exact F | repeat constructor; assumption].
  - cbn [cut]. apply Forall_app. split; [apply C; exact F | apply IH; [constructor | assumption]].
Qed.

(** * Reading a measure *)

Lemma staves_by_events evs c r : after evs (initial_rstate c) r ->
  r_staves r = map (fun i => mkStaff (pick i (clefs_of evs)) [] (pick i (dirs_of evs)) (line_voices 0 (staff_line i (line_of evs)) [])) (seq 0 (rc_numStaves c)).
Proof.
  intros A. assert (L : List.length (r_staves r) = rc_numStaves c).
  { rewrite (after_length _ _ _ A). cbn. apply repeat_length. }
  apply nth_ext with (d := empty_staff) (d' := empty_staff); [rewrite map_length, seq_length; exact L | ]. intros i Hi. rewrite L in Hi.
  pose proof (after_staff evs c r i A Hi) as E. apply (nth_error_nth _ _ empty_staff) in E. rewrite E.
  symmetry. rewrite nth_indep with (d' := mkStaff (pick 0 (clefs_of evs)) [] (pick 0 (dirs_of evs)) (line_voices 0 (staff_line 0 (line_of evs)) [])) by (rewrite map_length, seq_length; exact Hi).
  rewrite (map_nth (fun i => mkStaff (pick i (clefs_of evs)) [] (pick i (dirs_of evs)) (line_voices 0 (staff_line i (line_of evs)) []))).
  rewrite seq_nth by exact Hi. reflexivity.
Qed.

Lemma line_voices_nonempty l : Forall (fun v => snd v <> []) (line_voices 0 l []).
Proof.
  pose proof (proj1 (line_voices_runs l)) as E. pose proof (cut_nonempty l []) as F. rewrite <- E in F. apply (proj1 (Forall_map snd (fun v => v <> []) _)) in F. exact F.
Qed.

(** Staff [i] of the measure that is read. *)
Definition staff_read (i : nat) (evs : list event) (st : StaffData) : Prop :=
  s_clefs st = pick i (clefs_of evs) /\ s_keys st = [] /\ s_directions st = pick i (dirs_of evs) /\
  numbered (cut [] (staff_line i (line_of evs))) (s_voices st).

Lemma staves_read evs c r : after evs (initial_rstate c) r ->
  exists l, consolidate_staves (r_staves r) = Ok l /\ Forall2 (fun i st => staff_read i evs st) (seq 0 (rc_numStaves c)) l.
Proof.
  intros A. rewrite (staves_by_events evs c r A).
  destruct (consolidate_staves_ok (map (fun i => mkStaff (pick i (clefs_of evs)) [] (pick i (dirs_of evs)) (line_voices 0 (staff_line i (line_of evs)) [])) (seq 0 (rc_numStaves c)))) as (l & E1 & E2).
  - apply Forall_map. apply Forall_forall. intros i _. apply line_voices_nonempty.
  - exists l. split; [exact E1 | ]. clear E1. revert l E2. generalize (seq 0 (rc_numStaves c)). intros is. induction is as [|i is IH]; intros l E2; inversion E2; subst; constructor.
    + destruct H1 as (B1 & B2 & B3 & B4). cbn [s_clefs s_keys s_directions s_voices] in *. rewrite (proj1 (line_voices_runs _)) in B4. repeat split; assumption.
    + apply IH. assumption.
Qed.

Lemma read_measure_events c x m tr cur : 1 <= rc_global c -> 0 <= rc_current c -> Forall item_ok (xm_data x) -> read_measure c x = Ok (m, tr, cur) ->
  exists evs r, read_ok c (xm_data x) (initial_rstate c) r evs /\ m_keys m = keys_of evs /\ m_barlines m = bars_of evs /\ cur = r_current r /\
    Forall2 (fun i st => staff_read i evs st) (seq 0 (rc_numStaves c)) (m_staves m).
Proof.
  intros Hg Hc F H. unfold read_measure in H. apply obind_ok in H. destruct H as (t & Ht & H). apply obind_ok in H. destruct H as (r & Hr & H).
  apply obind_ok in H. destruct H as (l & Hl & H). injection H as <- <- <-.
  destruct (read_events c (xm_data x) false (initial_rstate c) r Hg Hr F) as (evs & E); [cbn; lia | exact Hc | ].
  exists evs, r. split; [exact E | ]. destruct (ro_after _ _ _ _ _ E) as [_ K B]. cbn [initial_rstate r_keys r_barlines app] in K, B.
  cbn [m_keys m_barlines m_staves]. split; [exact K | ]. split; [exact B | ]. split; [reflexivity | ].
  destruct (staves_read evs c r (ro_after _ _ _ _ _ E)) as (l' & L1 & L2). rewrite Hl in L1. injection L1 as ->. exact L2.
Qed.

Lemma pick_all {A} (P : A -> Prop) i l : Forall (fun p => P (snd p)) l -> Forall P (pick i l).
Proof. intros F. unfold pick. apply Forall_map. apply Forall_forall. intros p I. apply filter_In in I. rewrite Forall_forall in F. apply F. apply I. Qed.

Lemma Forall2_imp {A B} (R S : A -> B -> Prop) l l' : (forall a b, R a b -> S a b) -> Forall2 R l l' -> Forall2 S l l'.
Proof. intros H F. induction F; constructor; auto. Qed.

Lemma Forall2_right {A B} (R : A -> B -> Prop) (P : B -> Prop) l l' : Forall2 R l l' -> (forall a b, R a b -> P b) -> Forall P l'.
Proof. intros F H. induction F; constructor; eauto. Qed.

Lemma staff_timed c items r r' evs i st : read_ok c items r r' evs -> 0 <= r_tick r -> staff_read i evs st -> staff_in_time st.
Proof.
  intros E T (C & _ & _ & V). split; [ | rewrite C; apply pick_all; apply (ro_clefs _ _ _ _ _ E)].
  apply Forall_forall. intros [k v] I. apply (numbered_in _ _ _ _ V) in I. cbn [snd].
  assert (N : Forall (fun o => match o with Some (_, n) => 0 <= n_tick n | None => True end) (line_of evs)).
  { eapply timely_nonneg; [ | apply (ro_timely _ _ _ _ _ E)]. destruct (r_backup r); lia. }
  pose proof (cut_all (fun n => 0 <= n_tick n) i (line_of evs) [] (Forall_nil _) N) as N1.
  pose proof (cut_all (fun n => 0 <= n_dur n) i (line_of evs) [] (Forall_nil _) (ro_durations _ _ _ _ _ E)) as N2.
  pose proof (timely_runs i (line_of evs) _ [] (ro_timely _ _ _ _ _ E) (SSorted_nil _) (Forall_nil _)) as N3.
  rewrite Forall_forall in N1, N2, N3. split; [ | apply N3; exact I].
  specialize (N1 v I). specialize (N2 v I). rewrite Forall_forall in *. intros n In. split; [apply N1 | apply N2]; exact In.
Qed.

Theorem read_in_time c x m tr cur : 1 <= rc_global c -> 0 <= rc_current c -> Forall item_ok (xm_data x) -> read_measure c x = Ok (m, tr, cur) ->
  Forall staff_in_time (m_staves m) /\ Forall (fun k => 0 <= k_tick k) (m_keys m) /\ Forall (fun b => 0 <= b_tick b) (m_barlines m) /\
  (Forall offset_ok (xm_data x) -> Forall (fun st => Forall (fun d => 0 <= d_tick d) (s_directions st)) (m_staves m)) /\ 0 <= cur.
Proof.
  intros Hg Hc F H. destruct (read_measure_events c x m tr cur Hg Hc F H) as (evs & r & E & K & B & U & L). rewrite K, B, U.
  split; [eapply Forall2_right; [exact L | ]; intros i st; apply (staff_timed _ _ _ _ _ i st E); cbn; lia | ].
  split; [apply (ro_keys _ _ _ _ _ E) | ]. split; [apply (ro_bars _ _ _ _ _ E) | ]. split; [ | apply (ro_current _ _ _ _ _ E)].
  intros O. eapply Forall2_right; [exact L | ]. intros i st (_ & _ & D & _). rewrite D. apply pick_all. apply (ro_dirs _ _ _ _ _ E). exact O.
Qed.

Theorem read_voices c x m tr cur : 1 <= rc_global c -> 0 <= rc_current c -> Forall item_ok (xm_data x) -> read_measure c x = Ok (m, tr, cur) ->
  Forall2 (fun i st => exists raw, Forall2 (Forall2 taken_from) (runs i (xm_data x)) raw /\ numbered raw (s_voices st)) (seq 0 (rc_numStaves c)) (m_staves m).
Proof.
  intros Hg Hc F H. destruct (read_measure_events c x m tr cur Hg Hc F H) as (evs & r & E & _ & _ & _ & L).
  eapply Forall2_imp; [ | exact L]. intros i st (_ & _ & _ & V). eexists. split; [ | exact V].
  apply (tracks_runs i _ _ _ (ro_tracks _ _ _ _ _ E)); [constructor | auto].
Qed.

Theorem read_directions c x m tr cur : 1 <= rc_global c -> 0 <= rc_current c -> Forall item_ok (xm_data x) -> read_measure c x = Ok (m, tr, cur) ->
  exists ds, Forall2 (fun e p => direction_read (List.length (m_staves m)) e (fst p) (snd p)) (filter is_direction (xm_data x)) ds /\
    forall i st, nth_error (m_staves m) i = Some st -> s_directions st = map snd (filter (fun p => Nat.eqb (fst p) i) ds).
Proof.
  intros Hg Hc F H. destruct (read_measure_events c x m tr cur Hg Hc F H) as (evs & r & E & _ & _ & _ & L).
  exists (dirs_of evs). pose proof (ro_given _ _ _ _ _ E) as G. cbn [initial_rstate r_staves] in G. rewrite repeat_length in G.
  assert (N : List.length (seq 0 (rc_numStaves c)) = List.length (m_staves m)) by (clear - L; induction L; cbn; congruence). rewrite seq_length in N. rewrite <- N. split; [exact G | ].
  clear - L. assert (K : forall s is l, Forall2 (fun i st => staff_read i evs st) is l -> is = seq s (List.length is) -> forall i st, nth_error l i = Some st -> staff_read (s + i) evs st).
  { intros s is l F2. revert s. induction F2 as [|a b is l R F2 IH]; intros s Q i st Hi; [destruct i; discriminate Hi | ].
    cbn [List.length seq] in Q. injection Q as -> Q. destruct i as [|i]; [injection Hi as <-; rewrite Nat.add_0_r; exact R | ].
    rewrite Nat.add_succ_r. apply (IH (Datatypes.S s) Q i st Hi). }
  intros i st Hi. destruct (K 0%nat _ _ L (eq_sym (f_equal _ (seq_length _ _))) i st Hi) as (_ & _ & D & _). exact D.
Qed.
