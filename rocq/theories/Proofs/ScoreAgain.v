(** Writing and reading a second time; parts without measures. *)
From Coq Require Import QArith.
From Verif Require Import Proofs.Tac.
From Coq Require Import Sorting.Permutation Sorting.Sorted.
From Verif Require Import Model.Base Model.Text Model.Strings Model.Ticks Model.ApiEnums
  Model.MeasureTypes Model.MeasureWriter Model.MeasureReader Model.PartInfo Model.Scores.
From Verif Require Import Spec.Numerals Spec.Measures Spec.Voices Spec.RoundTrip Spec.Changes Spec.Directions Spec.TimeSignatures Spec.PartReading Spec.WholeScores.
From Verif Require Import Proofs.MeasureReadProofs Proofs.MeasureSync Proofs.ScoreBack.
Import ListNotations.
Open Scope Z_scope.

Lemma neighbours_map {A B} (f : A -> B) (P : A -> A -> Prop) (Q : B -> B -> Prop) l : (forall a b, P a b -> Q (f a) (f b)) -> neighbours P l -> neighbours Q (map f l).
Proof.
  intros H. induction l as [|a [|b l] IH]; cbn [map neighbours] in *; auto. intros [X Y]. split; [apply H; exact X | apply IH; exact Y].
Qed.

Lemma flags_asking k l : forall p, flags_honest p l -> flags_honest (option_map (with_voice k) p) (map (with_voice k) l).
Proof.
  induction l as [|n l IH]; intros p H; cbn [map flags_honest] in *; [exact I | ]. destruct H as [H1 H2]. split; [ | exact (IH (Some n) H2)].
  intros C. destruct (H1 C) as [(q & -> & J) | (q & E & J)].
  - left. exists (with_voice k q). split; [reflexivity | exact J].
  - right. exists (with_voice k q). destruct l as [|q' l]; [discriminate E | ]. injection E as ->. split; [reflexivity | exact J].
Qed.

Lemma start_asking k l : voice_start (map (with_voice k) l) = voice_start l.
Proof. destruct l; reflexivity. Qed.
Lemma stop_asking k l : voice_stop (map (with_voice k) l) = voice_stop l.
Proof. unfold voice_stop. rewrite <- map_rev. destruct (rev l); reflexivity. Qed.

Lemma order_asking st : staff_in_order st -> staff_in_order (staff_asking st).
Proof.
  intros (H1 & H2 & H3). unfold staff_in_order. cbn [staff_asking s_voices]. split; [ | split].
  - unfold asking. rewrite Forall_map. eapply Forall_impl; [ | exact H1]. intros v (E & F & G). cbn [snd]. split; [ | split].
    + destruct (snd v); [contradiction E; reflexivity | intros X; discriminate X].
    + eapply neighbours_map; [ | exact F]. intros a b X. exact X.
    + exact (flags_asking _ _ None G).
  - eapply neighbours_map; [ | exact H2]. intros a b X. unfold goes_back in *. cbn [snd]. rewrite start_asking, stop_asking. exact X.
  - unfold ascending in *. unfold asking. rewrite map_map. exact H3.
Qed.

Lemma range_asking st : staff_in_range st -> staff_in_range (staff_asking st).
Proof.
  intros (H1 & H2). split; [ | exact H2]. cbn [staff_asking s_voices]. unfold asking. rewrite Forall_map. eapply Forall_impl; [ | exact H1]. intros [k l] [V N]. cbn [fst snd] in *. split; [exact V | ].
  cbn [snd]. rewrite Forall_map. eapply Forall_impl; [ | exact N]. intros n X. unfold note_in_range in *. cbn. intuition lia.
Qed.

Lemma ticks_asking st : first_ticks (staff_asking st) = first_ticks st.
Proof. unfold first_ticks. cbn [staff_asking s_voices]. unfold asking. destruct (s_voices st) as [|v r]; [reflexivity | ]. cbn [map snd]. rewrite map_map. reflexivity. Qed.

Lemma count_asking l : List.length (flat_map snd (flat_map s_voices (map staff_asking l))) = List.length (flat_map snd (flat_map s_voices l)).
Proof.
  induction l as [|st l IH]; [reflexivity | ]. cbn [map flat_map]. rewrite !flat_map_app, !app_length, IH. f_equal. cbn [staff_asking s_voices]. unfold asking.
  induction (s_voices st) as [|v r IHv]; [reflexivity | ]. cbn [map flat_map snd]. rewrite !app_length, map_length, IHv. reflexivity.
Qed.

Lemma fits_asking n i m : measure_fits n i m -> measure_fits n i (measure_asking m).
Proof.
  intros ((V1 & V2 & V3 & V4 & V5) & O & D & C & K & (ka & kb & EK & Ka & Kb & Ks) & B & T & NN).
  unfold measure_fits, values_fit, measure_asking. cbn [m_staves m_time m_number m_keys m_barlines]. rewrite count_asking, map_length.
  split; [split; [exact V1 | ]; split; [ | auto]; rewrite Forall_map; eapply Forall_impl; [apply range_asking | exact V2] | ].
  split; [rewrite Forall_map; eapply Forall_impl; [apply order_asking | exact O] | ].
  split; [ | split; [ | split; [ | split; [ | split; [exact B | split; [exact T | exact NN]]]]]].
  - intros k st H. rewrite nth_error_map in H. destruct (nth_error (m_staves m) k) as [s|] eqn:E; [ | discriminate H]. injection H as <-. exact (D k s E).
  - rewrite Forall_map. eapply Forall_impl; [ | exact C]. intros st (C1 & C2 & C3). unfold clefs_at_notes. rewrite ticks_asking. auto.
  - rewrite Forall_map. exact K.
  - exists ka, kb. split; [exact EK | ]. split; [exact Ka | ]. split; [ | exact Ks]. eapply Forall_impl; [ | exact Kb]. intros k (K1 & K2 & K3 & st & r & E & I).
    split; [exact K1 | ]. split; [exact K2 | ]. split; [exact K3 | ]. exists (staff_asking st), (map staff_asking r). cbn [m_staves]. rewrite E, ticks_asking. auto.
Qed.

Lemma music_fits_asking p : music_fits p -> music_fits (music_asking p).
Proof.
  intros (n & N & NE & Q & T). exists n. split; [exact N | ]. cbn [music_asking pm_measures]. split; [destruct (pm_measures p); [contradiction NE; reflexivity | intros X; discriminate X] | ]. split.
  - intros k m H. rewrite nth_error_map in H. destruct (nth_error (pm_measures p) k) as [s|] eqn:E; [ | discriminate H]. injection H as <-. apply fits_asking. exact (Q k s E).
  - rewrite !map_map. exact T.
Qed.

Lemma asking_same m : all_asking m -> measure_asking m = m.
Proof.
  unfold all_asking, measure_asking. destruct m as [st t nu im ks bs]. cbn [m_staves m_time m_number m_implicit m_keys m_barlines]. intros H. f_equal.
  induction H as [|s l H F IH]; [reflexivity | ]. cbn [map]. f_equal; [ | exact IH]. unfold staff_asking. destruct s as [c k d v]. cbn [s_clefs s_keys s_directions s_voices] in *. f_equal.
  unfold asking. induction H as [|[i l'] vs H F' IHv]; [reflexivity | ]. cbn [map fst snd] in *. f_equal; [ | exact IHv]. f_equal.
  induction H as [|n ns E F2 IHn]; [reflexivity | ]. cbn [map]. f_equal; [ | exact IHn]. rewrite <- E. destruct n; reflexivity.
Qed.

Lemma asked_asking m : all_asking (measure_asking m).
Proof.
  unfold all_asking, measure_asking. cbn [m_staves]. rewrite Forall_map. apply Forall_forall. intros st _. cbn [staff_asking s_voices]. unfold asking. rewrite Forall_map. apply Forall_forall. intros v _.
  cbn [fst snd]. rewrite Forall_map. apply Forall_forall. intros n _. reflexivity.
Qed.

Lemma music_same p : Forall all_asking (pm_measures p) -> music_asking p = p.
Proof.
  unfold music_asking. destruct p as [l t]. cbn [pm_measures pm_transposition]. intros H. f_equal. induction H as [|m l H F IH]; [reflexivity | ]. cbn [map]. rewrite asking_same, IH by exact H. reflexivity.
Qed.

(** * The theorems *)

Lemma Forall2_map_eq {A B} (f : A -> B) l : forall l', Forall2 (fun a b => b = f a) l l' -> l' = map f l.
Proof. induction l as [|a l IH]; intros l' F; inversion F; subst; cbn; f_equal; auto. Qed.

Theorem scores_back prints ticks l : l <> [] -> 1 <= ticks <= 2147483647 -> Forall music_fits l ->
  exists xs, write_each prints 0 ticks l = Ok xs /\ List.length xs = List.length l /\ read_score xs = Ok (ticks, map music_asking l).
Proof.
  intros NE T F. destruct (scores_kept (fun p p' => p' = music_asking p) prints ticks l NE T) as (xs & l' & W & N & R & E).
  { intros i. eapply Forall_impl; [ | exact F]. intros p Fp. apply part_whole; assumption. }
  exists xs. rewrite <- (Forall2_map_eq _ _ _ E). auto.
Qed.

Theorem scores_same prints ticks l : l <> [] -> 1 <= ticks <= 2147483647 -> Forall music_fits l -> Forall (fun p => Forall all_asking (pm_measures p)) l ->
  exists xs, write_each prints 0 ticks l = Ok xs /\ read_score xs = Ok (ticks, l).
Proof.
  intros NE T F A. destruct (scores_back prints ticks l NE T F) as (xs & W & _ & R). exists xs. split; [exact W | ]. rewrite R. repeat f_equal. clear - A.
  induction A as [|p l A F IH]; [reflexivity | ]. cbn [map]. rewrite music_same, IH by exact A. reflexivity.
Qed.

Theorem scores_again prints prints' ticks l : l <> [] -> 1 <= ticks <= 2147483647 -> Forall music_fits l ->
  exists xs ticks' l' ys, write_each prints 0 ticks l = Ok xs /\ read_score xs = Ok (ticks', l') /\ write_each prints' 0 ticks' l' = Ok ys /\ read_score ys = Ok (ticks', l').
Proof.
  intros NE T F. destruct (scores_back prints ticks l NE T F) as (xs & W & _ & R).
  destruct (scores_same prints' ticks (map music_asking l)) as (ys & W' & R').
  - destruct l; [contradiction NE; reflexivity | intros X; discriminate X].
  - exact T.
  - rewrite Forall_map. eapply Forall_impl; [ | exact F]. apply music_fits_asking.
  - rewrite Forall_map. apply Forall_forall. intros p _. cbn [music_asking pm_measures]. rewrite Forall_map. apply Forall_forall. intros m _. apply asked_asking.
  - exists xs, ticks, (map music_asking l), ys. auto.
Qed.

Theorem scores_notes prints ticks l : l <> [] -> 1 <= ticks <= 2147483647 -> Forall music_in_range l ->
  exists xs l', write_each prints 0 ticks l = Ok xs /\ read_score xs = Ok (ticks, l') /\
    Forall2 (fun p p' => pm_transposition p' = pm_transposition p /\ Forall2 (fun m m' => Forall2 same_notes (m_staves m) (m_staves m')) (pm_measures p) (pm_measures p')) l l'.
Proof.
  intros NE T F. destruct (scores_kept kept_notes prints ticks l NE T) as (xs & l' & W & N & R & E); [ | exists xs, l'; auto].
  intros i. eapply Forall_impl; [ | exact F]. intros p Fp. apply part_notes; assumption.
Qed.

Theorem whole_scores_back prints next ticks l : l <> [] -> 1 <= ticks <= 2147483647 -> 0 <= next -> next + Z.of_nat (List.length l) < 2 ^ 31 ->
  Forall (fun q => part_fits (fst q)) l -> NoDup (map (fun q => uniqueId (fst q)) l) -> Forall (fun q => music_fits (snd q)) l ->
  exists s, score_back prints next ticks l = Ok (ticks, s) /\ Forall2 (fun q r => same_part (fst q) (fst r) /\ snd r = music_asking (snd q)) l s.
Proof.
  intros NE T N1 N2 PF ND F. apply (whole_score (fun p p' => p' = music_asking p)); try assumption.
  intros i. rewrite Forall_map. eapply Forall_impl; [ | exact F]. intros q Fq. apply part_whole; assumption.
Qed.

Theorem whole_scores_notes prints next ticks l : l <> [] -> 1 <= ticks <= 2147483647 -> 0 <= next -> next + Z.of_nat (List.length l) < 2 ^ 31 ->
  Forall (fun q => part_fits (fst q)) l -> NoDup (map (fun q => uniqueId (fst q)) l) -> Forall (fun q => music_in_range (snd q)) l ->
  exists s, score_back prints next ticks l = Ok (ticks, s) /\
    Forall2 (fun q r => same_part (fst q) (fst r) /\ pm_transposition (snd r) = pm_transposition (snd q) /\
      Forall2 (fun m m' => Forall2 same_notes (m_staves m) (m_staves m')) (pm_measures (snd q)) (pm_measures (snd r))) l s.
Proof.
  intros NE T N1 N2 PF ND F. apply (whole_score kept_notes); try assumption.
  intros i. rewrite Forall_map. eapply Forall_impl; [ | exact F]. intros q Fq. apply part_notes; assumption.
Qed.

(** ** Parts without measures *)

Lemma prints_read c k l : read_items c (repeat MPrint k ++ l) false (initial_rstate c) = read_items c l false (initial_rstate c).
Proof. induction k as [|k IH]; [reflexivity | exact IH]. Qed.
Lemma prints_time c k l : parseTimeSignature c (repeat MPrint k ++ l) = parseTimeSignature c l.
Proof. induction k as [|k IH]; [reflexivity | exact IH]. Qed.
Lemma prints_staves n i k l : calculateNumStaves [mkXMeasure n i (repeat MPrint k ++ l)] = calculateNumStaves [mkXMeasure n i l].
Proof. induction k as [|k IH]; [reflexivity | exact IH]. Qed.
Lemma prints_part g d n i k l : read_part_music g d [mkXMeasure n i (repeat MPrint k ++ l)] = read_part_music g d [mkXMeasure n i l].
Proof. unfold read_part_music. rewrite prints_staves. cbn [read_all]. unfold read_measure. cbn [xm_data]. rewrite prints_read, prints_time. reflexivity. Qed.

Theorem no_measures_back prints ticks t global divisions : 1 <= ticks <= 2147483647 ->
  exists xs e, write_music prints ticks (mkMusic [] t) = Ok xs /\ read_part_music global divisions xs = Ok (mkMusic [one_empty_measure] t, e).
Proof.
  intros T. destruct t as [t|].
  - destruct (positive_value ticks) as (d & D & _ & R); [lia | ].
    assert (W : write_music prints ticks (mkMusic [] (Some t)) =
      Ok [mkXMeasure (print_int 1) None ((repeat MPrint (prints 0) ++ [MProperties (mkProps (Some d) [] [] None [] [t])]) ++ [])]).
    { revert D. cbv -[element_value repeat]. intros D. rewrite D. reflexivity. }
    rewrite app_nil_r in W. rewrite W. eexists. eexists. split; [reflexivity | ].
    rewrite prints_part. unfold read_part_music. cbn -[round_half as_int default_time]. unfold parseProperties. cbn [p_divisions]. rewrite R. unfold as_int, in_int, int_min, int_max.
    assert ((-2147483648 <=? ticks) && (ticks <=? 2147483647) = true) as -> by (apply andb_true_intro; split; apply Z.leb_le; lia). reflexivity.
  - eexists. eexists. split; reflexivity.
Qed.

Theorem scores_refuted : ~ (forall prints ticks l, l <> [] -> 1 <= ticks <= 2147483647 ->
  exists xs l', write_each prints 0 ticks l = Ok xs /\ read_score xs = Ok (ticks, l') /\ map (fun p => List.length (pm_measures p)) l' = map (fun p => List.length (pm_measures p)) l).
Proof.
  intros H. destruct (H (fun _ _ => 0%nat) 6 [mkMusic [] (Some 2)]) as (xs & l' & W & R & E); [intros X; discriminate X | lia | ].
  vm_compute in W. injection W as <-. vm_compute in R. injection R as <-. discriminate E.
Qed.

(** Nothing but such parts: nothing tells the ticks per quarter. *)
Lemma empty_each prints ticks l : Forall (fun p => p = mkMusic [] None) l -> forall i, write_each prints i ticks l = Ok (map (fun _ => [new_xmeasure]) l).
Proof. induction 1 as [|p l -> F IH]; intros i; [reflexivity | ]. cbn [write_each write_music pm_measures pm_transposition map]. cbn [obind]. rewrite IH. reflexivity. Qed.
Lemma empty_read (l : list PartMusic) : forall d, d <= 0 -> read_each 0 d (map (fun _ => [new_xmeasure]) l) = Ok (map (fun _ => mkMusic [one_empty_measure] None) l).
Proof.
  induction l as [|p l IH]; intros d D; [reflexivity | ]. cbn [map read_each].
  assert (E : read_part_music 0 d [new_xmeasure] = Ok (mkMusic [one_empty_measure] None, 0)).
  { unfold read_part_music. assert (0 <? d = false) as -> by (apply Z.ltb_ge; exact D). reflexivity. }
  rewrite E. cbn [obind fst snd]. rewrite IH by lia. reflexivity.
Qed.
Theorem only_empty prints ticks l : Forall (fun p => p = mkMusic [] None) l ->
  exists xs, write_each prints 0 ticks l = Ok xs /\ read_score xs = Ok (0, map (fun _ => mkMusic [one_empty_measure] None) l).
Proof.
  intros F. exists (map (fun _ => [new_xmeasure]) l). split; [apply empty_each; exact F | ]. unfold read_score.
  assert (E : findMaxDivisionsPerQuarter (map (map measure_divisions) (map (fun _ => [new_xmeasure]) l)) = Ok 0).
  { unfold findMaxDivisionsPerQuarter, foundDivisions.
    assert (List.concat (List.concat (map (map measure_divisions) (map (fun _ : PartMusic => [new_xmeasure]) l))) = []) as -> by (clear; induction l; [reflexivity | assumption]). reflexivity. }
  rewrite E. cbn [obind]. rewrite empty_read by lia. reflexivity.
Qed.
