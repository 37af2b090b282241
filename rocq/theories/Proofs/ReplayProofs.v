(** Written measures under the timing rules. *)
From Coq Require Import QArith.
From Verif Require Import Proofs.Tac.
From Verif Require Import Model.Base Model.Text Model.Ticks Model.Decimals Model.MeasureTypes Model.MeasureWriter Model.MeasureReader.
From Verif Require Import Spec.Measures Spec.Voices Spec.RoundTrip Spec.Replay.
From Verif Require Import Proofs.MeasureSync Proofs.MeasureBack.
Import ListNotations.
Open Scope Z_scope.

Lemma replay_skeleton l : forall c s, replay c s l = replay c s (skeleton l).
Proof.
  induction l as [|x l IH]; intros c s; [reflexivity | ]. destruct x; cbn [skeleton filter is_timed replay]; fold (skeleton l); rewrite <- ?IH; reflexivity.
Qed.

Lemma exact_value n q : 1 <= n <= 2147483647 -> element_value PositiveDivisionsValue n = Ok q -> (q == inject_Z n)%Q.
Proof.
  intros H E. destruct (element_integer PositiveDivisionsValue n) as (r & R1 & R2); [cbn; rewrite <- (Zlt_Qlt 0); lia | lia | ].
  rewrite R1 in E. injection E as <-. exact R2.
Qed.

Section Replay.
Variable rc : rctx.

(** Where the timing rules have the cursor when the writer has it at [t], after [p]. *)
Definition cursor_of (t : Z) (p : option NoteData) : Z := match p with Some q => n_tick q + n_dur q | None => t end.
Definition start_of (s : Q) (p : option NoteData) : Prop := match p with Some q => (s == inject_Z (n_tick q))%Q | None => True end.

Lemma replay_moved t t' l : moved t t' l -> 0 <= t' -> Z.abs (t - t') <= 2147483647 -> forall c, (c == inject_Z t)%Q -> exists c', (c' == inject_Z t')%Q /\ forall s r, replay c s (l ++ r) = replay c' s r.
Proof.
  intros M H0 H c C. destruct M as [(-> & ->) | [(L & q & Q & ->) | (L & q & Q & ->)]].
  - exists c. auto.
  - apply exact_value in Q; [ | lia]. exists (c - q)%Q. split; [rewrite C, Q, <- inject_Z_opp, <- inject_Z_plus || (rewrite C, Q; unfold Qminus; rewrite <- inject_Z_opp, <- inject_Z_plus); apply inject_Z_injective; lia | ].
    intros s r. cbn [app replay]. assert (Qle_bool q c = true) as ->; [ | reflexivity]. apply Qle_bool_iff. rewrite Q, C, <- Zle_Qle. lia.
  - apply exact_value in Q; [ | lia]. exists (c + q)%Q. split; [rewrite C, Q, <- inject_Z_plus; apply inject_Z_injective; lia | ]. reflexivity.
Qed.

Lemma staff_of_written i v p n x : written_note rc (Z.of_nat i) v p n x -> (i < rc_numStaves rc)%nat -> staff_of x = i.
Proof.
  intros (_ & _ & _ & _ & S & _) H. unfold staff_of. rewrite S. destruct (1 <? Z.of_nat (rc_numStaves rc)) eqn:E; [lia | ]. apply Z.ltb_ge in E. lia.
Qed.

Lemma replay_notes i v notes : forall t p items, written_notes rc (Z.of_nat i) v t p notes items -> (i < rc_numStaves rc)%nat ->
  Forall note_in_range notes -> Forall takes_time notes -> neighbours same_length notes -> 0 <= t <= 2147483647 ->
  (match p with Some q => note_in_range q /\ t = tick_after q (following notes) /\ (match notes with n :: _ => same_length q n | [] => True end) | None => True end) ->
  forall c s, (c == inject_Z (cursor_of t p))%Q -> start_of s p ->
  exists c' s' out, (c' == inject_Z (voice_end t notes))%Q /\ Forall2 stands_for (map (fun n => (i, v, n)) notes) out /\
    forall r, replay c s (items ++ r) = option_map (app out) (replay c' s' r).
Proof.
  induction notes as [|n rest IH]; intros t p items W Hi R T E Ht P c s C S; inversion W as [|? ? ? ? l x xs M X W']; subst.
  - exists c, s, []. split; [ | split; [apply Forall2_nil | intros r; cbn [app]; destruct (replay c s r); reflexivity]].
    rewrite C. cbn [voice_end]. destruct p as [q|]; [ | reflexivity]. cbn [cursor_of]. destruct P as (_ & -> & _). reflexivity.
  - inversion R as [|? ? R1 R2]; subst. inversion T as [|? ? T1 T2]; subst. pose proof (staff_of_written _ _ _ _ _ X Hi) as SO.
    destruct X as (X1 & X2 & X3 & X4 & X5 & X6). pose proof R1 as (N1 & N2 & N3 & N4).
    assert (D : (match n_type n with GraceNote => 0%Q | _ => xn_duration x end == inject_Z (n_dur n))%Q).
    { destruct T1 as [T1 | T1]; [rewrite T1, N4 by exact T1; reflexivity | ]. destruct (n_type n); try (rewrite N4 by reflexivity; reflexivity); apply exact_value; try (apply X6; discriminate); lia. }
    assert (E' : neighbours same_length rest /\ match rest with q :: _ => same_length n q | [] => True end) by (destruct rest; [split; exact I | destruct E; split; assumption]).
    destruct (joins p n) eqn:J.
    + destruct p as [q|]; [ | discriminate J]. cbn [joins] in J. destruct P as (P1 & P2 & P3). specialize (P3 J).
      assert (n_tick q = n_tick n) as TT by (unfold joined in J; apply andb_true_iff in J; lia).
      assert (t = n_tick n) as -> by (rewrite P2; cbn [following]; unfold tick_after, joined_next; rewrite J; exact TT).
      assert (l = []) as -> by (destruct M as [(_ & ->) | [(L & _) | (L & _)]]; [reflexivity | lia | lia]).
      destruct (IH (tick_after n (following rest)) (Some n) xs W' Hi R2 T2 (proj1 E')) with (c := c) (s := s) as (c' & s' & out & C' & F & Q).
      * unfold tick_after. destruct (joined_next _ _); lia.
      * split; [exact R1 | ]. split; [reflexivity | apply E'].
      * rewrite C. cbn [cursor_of]. rewrite TT, P3. reflexivity.
      * cbn [start_of] in *. rewrite S, TT. reflexivity.
      * exists c', s', ((s, x) :: out). cbn [voice_end map]. split; [exact C' | ]. split.
        -- constructor; [ | exact F]. cbn [stands_for]. split; [cbn [start_of] in S; rewrite S, TT; reflexivity | ]. repeat (split; [assumption | ]).
           intros G. destruct T1 as [T1 | T1]; [congruence | ]. apply exact_value; [lia | apply X6; exact G].
        -- intros r. cbn [app replay]. rewrite X2, Q. destruct (replay c' s' r); reflexivity.
    + assert (Ct : (c == inject_Z t)%Q).
      { rewrite C. destruct p as [q|]; [ | reflexivity]. cbn [cursor_of]. destruct P as (_ & -> & _). cbn [following]. unfold tick_after, joined_next. cbn [joins] in J. rewrite J. reflexivity. }
      destruct (replay_moved _ _ _ M N1) with (c := c) as (c1 & C1 & Q1); [lia | exact Ct | ].
      destruct (IH (tick_after n (following rest)) (Some n) xs W' Hi R2 T2 (proj1 E')) with (c := match xn_type x with GraceNote => c1 | _ => (c1 + xn_duration x)%Q end) (s := c1) as (c' & s' & out & C' & F & Q).
      * unfold tick_after. destruct (joined_next _ _); lia.
      * split; [exact R1 | ]. split; [reflexivity | apply E'].
      * cbn [cursor_of]. rewrite X1, inject_Z_plus, <- D, <- C1. destruct (n_type n); [reflexivity | reflexivity | ]. rewrite Qplus_0_r. reflexivity.
      * exact C1.
      * exists c', s', ((c1, x) :: out). cbn [voice_end map]. split; [exact C' | ]. split.
        -- constructor; [ | exact F]. cbn [stands_for]. split; [exact C1 | ]. repeat (split; [assumption | ]).
           intros G. destruct T1 as [T1 | T1]; [congruence | ]. apply exact_value; [lia | apply X6; exact G].
        -- intros r. rewrite <- app_assoc, Q1. cbn [app replay]. rewrite X2, Q. destruct (replay c' s' r); reflexivity.
Qed.

Lemma voice_end_range notes : forall t, 0 <= t <= 2147483647 -> Forall note_in_range notes -> 0 <= voice_end t notes <= 2147483647.
Proof.
  induction notes as [|n rest IH]; intros t H R; [exact H | ]. cbn [voice_end]. inversion R as [|? ? (N1 & N2 & N3 & _) R2]; subst. apply IH; [ | exact R2].
  unfold tick_after. destruct (joined_next _ _); lia.
Qed.

Lemma replay_voices i vs : forall t items, written_voices rc (Z.of_nat i) t vs items -> (i < rc_numStaves rc)%nat ->
  Forall (fun v => Forall note_in_range (snd v)) vs -> Forall (fun v => Forall takes_time (snd v) /\ neighbours same_length (snd v)) vs -> 0 <= t <= 2147483647 ->
  forall c s, (c == inject_Z t)%Q ->
  exists c' s' out, (c' == inject_Z (voices_end t vs))%Q /\ 0 <= voices_end t vs <= 2147483647 /\ Forall2 stands_for (flat_map (fun v => map (fun n => (i, fst v, n)) (snd v)) vs) out /\
    forall r, replay c s (items ++ r) = option_map (app out) (replay c' s' r).
Proof.
  induction vs as [|v vs IH]; intros t items W Hi R T Ht c s C; inversion W as [|? ? ? xs ys W1 W2]; subst.
  - exists c, s, []. split; [exact C | ]. split; [exact Ht | ]. split; [apply Forall2_nil | ]. intros r. cbn [app]. destruct (replay c s r); reflexivity.
  - inversion R as [|? ? R1 R2]; subst. inversion T as [|? ? [T1 E1] T2]; subst.
    destruct (replay_notes i (fst v) (snd v) t None xs W1 Hi R1 T1 E1 Ht I c s C I) as (c1 & s1 & o1 & C1 & F1 & Q1).
    destruct (IH _ _ W2 Hi R2 T2 (voice_end_range _ _ Ht R1) c1 s1 C1) as (c2 & s2 & o2 & C2 & H2 & F2 & Q2).
    exists c2, s2, (o1 ++ o2). cbn [voices_end flat_map]. split; [exact C2 | ]. split; [exact H2 | ]. split; [apply Forall2_app; assumption | ].
    intros r. rewrite <- app_assoc, Q1, Q2. destruct (replay c2 s2 r); cbn; rewrite ?app_assoc; reflexivity.
Qed.

Lemma replay_staves l : forall i t items, written_staves rc (Z.of_nat i) t l items -> (i + List.length l <= rc_numStaves rc)%nat ->
  Forall staff_in_range l -> Forall chords_even l -> 0 <= t <= 2147483647 -> forall c s, (c == inject_Z t)%Q ->
  exists out, Forall2 stands_for (all_notes i l) out /\ replay c s items = Some out.
Proof.
  induction l as [|st l IH]; intros i t items W Hi R T Ht c s C; inversion W as [|? ? ? ? xs ys W1 W2]; subst.
  - exists []. split; [apply Forall2_nil | reflexivity].
  - inversion R as [|? ? [R1 _] R2]; subst. inversion T as [|? ? T1 T2]; subst. cbn [List.length] in Hi.
    destruct (replay_voices i (s_voices st) t xs W1) with (c := c) (s := s) as (c1 & s1 & o1 & C1 & H1 & F1 & Q1); [lia | | exact T1 | exact Ht | exact C | ].
    { eapply Forall_impl; [ | exact R1]. intros v [_ H]. exact H. }
    replace (Z.of_nat i + 1) with (Z.of_nat (S i)) in W2 by lia.
    destruct (IH _ _ _ W2) with (c := c1) (s := s1) as (o2 & F2 & Q2); [lia | exact R2 | exact T2 | exact H1 | exact C1 | ].
    exists (o1 ++ o2). cbn [all_notes]. split; [apply Forall2_app; assumption | ]. rewrite Q1, Q2. reflexivity.
Qed.
End Replay.

Theorem written_replayed wc m : 1 <= wc_numStaves wc <= 2147483647 -> 1 <= wc_ticksPerQuarter wc <= 2147483647 ->
  measure_in_range wc m -> Forall chords_closed (m_staves m) -> Forall chords_even (m_staves m) ->
  exists x out, write_measure wc m = Ok x /\ replay 0 0 (xm_data x) = Some out /\ Forall2 stands_for (all_notes 0 (m_staves m)) out.
Proof.
  intros H1 H2 R C E. set (rc := mkRctx (Z.to_nat (wc_numStaves wc)) (wc_ticksPerQuarter wc) (wc_ticksPerQuarter wc) (wc_measureIndex wc) default_time).
  destruct (measure_back wc rc m) as (x & m' & tr & B); [ | exact R | exact C | ].
  { unfold agree, rc. cbn [rc_numStaves rc_global rc_current rc_measureIndex]. repeat split; try lia. }
  destruct B as (W & _ & evs & _ & _ & _ & _ & _ & _ & _ & S). destruct R as (R1 & R2 & _).
  destruct (replay_staves rc (m_staves m) 0 0 _ S) with (c := 0%Q) (s := 0%Q) as (out & F & Q); [cbn; lia | exact R2 | exact E | lia | reflexivity | ].
  exists x, out. split; [exact W | ]. split; [rewrite replay_skeleton; exact Q | exact F].
Qed.
