(** Clef and key changes of a measure that is written and read. *)
From Coq Require Import Sorting.Sorted.
From Verif Require Import Proofs.Tac.
From Verif Require Import Model.Base Model.MeasureTypes Model.MeasureWriter Model.MeasureReader.
From Verif Require Import Spec.Measures Spec.Voices Spec.RoundTrip Spec.Changes.
From Verif Require Import Proofs.MeasureSync Proofs.MeasureReadProofs Proofs.MeasureBack Proofs.DirectionsBack.
Import ListNotations.
Open Scope Z_scope.

Section Drain.
Context {A B : Type} (tick : A -> Z) (place : Z -> A -> B).

Fixpoint drain (ticks : list Z) (l : list A) : list B * list A :=
  match ticks with
  | [] => ([], l)
  | t :: r =>
      let q := span (fun a => tick a <=? t) l in
      let p := drain r (snd q) in
      (map (place t) (fst q) ++ fst p, snd p)
  end.

Lemma drain_nil ticks : drain ticks [] = ([], []).
Proof. induction ticks as [|t r IH]; [reflexivity | ]. cbn [drain span fst snd]. rewrite IH. reflexivity. Qed.

Lemma drain_app a : forall b l, drain (a ++ b) l = (fst (drain a l) ++ fst (drain b (snd (drain a l))), snd (drain b (snd (drain a l)))).
Proof.
  induction a as [|t a IH]; intros b l; cbn [app drain fst snd]; [destruct (drain b l); reflexivity | ].
  rewrite IH. cbn [fst snd]. rewrite app_assoc. reflexivity.
Qed.

Lemma drain_all {C} (f : B -> C) (g : A -> C) : (forall t a, f (place t a) = g a) -> forall ticks l, map f (fst (drain ticks l)) ++ map g (snd (drain ticks l)) = map g l.
Proof.
  intros E. induction ticks as [|t r IH]; intros l; [reflexivity | ]. cbn [drain fst snd]. rewrite map_app, <- app_assoc, IH, map_map.
  rewrite (map_ext _ g) by (intros; apply E). rewrite <- map_app, span_app. reflexivity.
Qed.

Lemma span_sorted t l : StronglySorted Z.le (map tick l) -> Forall (fun a => tick a <= t) (fst (span (fun a => tick a <=? t) l)) /\ Forall (fun a => t < tick a) (snd (span (fun a => tick a <=? t) l)) /\
  StronglySorted Z.le (map tick (snd (span (fun a => tick a <=? t) l))).
Proof.
  induction l as [|a l IH]; intros S; cbn [span]; [repeat constructor | ]. cbn [map] in S. inversion S as [|? ? S1 S2]; subst.
  destruct (tick a <=? t) eqn:E.
  - destruct (span _ l) as [x y]. cbn [fst snd] in *. destruct (IH S1) as (I1 & I2 & I3). repeat split; [constructor; [lia | exact I1] | exact I2 | exact I3].
  - cbn [fst snd]. repeat split; [constructor | | exact S]. constructor; [lia | ]. rewrite Forall_forall in *. intros b I. specialize (S2 (tick b) (in_map tick _ _ I)). lia.
Qed.

Lemma drain_exact ticks : forall l, StronglySorted Z.le ticks -> StronglySorted Z.le (map tick l) -> Forall (fun a => In (tick a) ticks) l ->
  drain ticks l = (map (fun a => place (tick a) a) l, []).
Proof.
  induction ticks as [|t r IH]; intros l St Sl F.
  - destruct l as [|a l]; [reflexivity | ]. inversion F as [|? ? F1 _]; subst. destruct F1.
  - cbn [drain]. inversion St as [|? ? St1 St2]; subst. destruct (span_sorted t l Sl) as (L1 & L2 & L3). pose proof (span_app (fun a => tick a <=? t) l) as E.
    destruct (span (fun a => tick a <=? t) l) as [x y]. cbn [fst snd] in *. subst l. apply Forall_app in F. destruct F as [Fx Fy].
    rewrite IH; [ | exact St1 | exact L3 | ].
    + cbn [fst snd]. rewrite map_app. f_equal. f_equal. apply map_ext_in. intros a I. rewrite Forall_forall in *. specialize (L1 a I). destruct (Fx a I) as [<- | H]; [reflexivity | ].
      specialize (St2 _ H). replace (tick a) with t by lia. reflexivity.
    + rewrite Forall_forall in *. intros a I. specialize (L2 a I). cbn beta in L2. destruct (Fy a I) as [H | H]; [lia | exact H].
Qed.
End Drain.

(** * Clefs *)

Definition put_clef (i : Z) (t : Z) (c : ClefData) : nat * ClefData := (Z.to_nat i, mkClef t (c_rest c)).

Lemma notes_clefs_drain i notes : forall l, notes_clefs i notes l = drain c_tick (put_clef i) (map n_tick notes) l.
Proof. induction notes as [|n rest IH]; intros l; [reflexivity | ]. cbn [notes_clefs map drain]. rewrite IH. reflexivity. Qed.

Lemma leading_skip l : leading_clefs l ++ skip_leading_clefs l = l.
Proof. induction l as [|c l IH]; [reflexivity | ]. cbn. destruct (c_tick c =? 0); [cbn; f_equal; exact IH | reflexivity]. Qed.

Lemma leading_zero l : Forall (fun c => c_tick c = 0) (leading_clefs l).
Proof. induction l as [|c l IH]; cbn; [constructor | ]. destruct (c_tick c =? 0) eqn:E; [constructor; [lia | exact IH] | constructor]. Qed.

Lemma pick_placed {A} i j (f : A -> ClefData) l : pick i (map (fun c => (j, f c)) l) = if Nat.eqb j i then map f l else [].
Proof.
  induction l as [|c l IH]; cbn [map]; [destruct (Nat.eqb j i); reflexivity | ]. rewrite pick_cons, IH. destruct (Nat.eqb j i); reflexivity.
Qed.

Lemma pick_staff_clefs i j t st : pick i (staff_clefs (Z.of_nat j) t st) =
  if Nat.eqb j i then
    let q := drain c_tick (fun t c => mkClef t (c_rest c)) (map n_tick (flat_map snd (s_voices st))) (skip_leading_clefs (s_clefs st)) in
    fst q ++ map (fun c => mkClef (voices_end t (s_voices st)) (c_rest c)) (snd q)
  else [].
Proof.
  unfold staff_clefs. rewrite notes_clefs_drain. unfold notes_of.
  assert (G : forall ticks l, pick i (fst (drain c_tick (put_clef (Z.of_nat j)) ticks l)) = (if Nat.eqb j i then fst (drain c_tick (fun t c => mkClef t (c_rest c)) ticks l) else []) /\
     snd (drain c_tick (put_clef (Z.of_nat j)) ticks l) = snd (drain c_tick (fun t c => mkClef t (c_rest c)) ticks l)).
  { induction ticks as [|u ticks IH]; intros l; cbn [drain fst snd]; [destruct (Nat.eqb j i); auto | ].
    destruct (IH (snd (span (fun a => c_tick a <=? u) l))) as [I1 I2]. rewrite pick_app, I1, I2. split; [ | reflexivity].
    unfold put_clef. rewrite Nat2Z.id, pick_placed. destruct (Nat.eqb j i); reflexivity. }
  cbv zeta. destruct (G (map n_tick (flat_map snd (s_voices st))) (skip_leading_clefs (s_clefs st))) as [G1 G2].
  rewrite pick_app, G1, G2. unfold placed_clefs. rewrite Nat2Z.id, pick_placed. destruct (Nat.eqb j i); reflexivity.
Qed.

Lemma pick_at {A B} (f : Z -> B -> list (nat * A)) (g : nat -> B -> list A) l :
  (forall j b i, pick i (f (Z.of_nat j) b) = if Nat.eqb j i then g j b else []) ->
  forall (fs : Z -> list B -> list (nat * A)), (forall j, fs j [] = []) -> (forall j b r, fs j (b :: r) = f j b ++ fs (j + 1) r) ->
  forall j k b, nth_error l k = Some b -> pick (j + k) (fs (Z.of_nat j) l) = g (j + k)%nat b.
Proof.
  intros P fs Z0 Z1.
  assert (O : forall l j i, (i < j)%nat -> pick i (fs (Z.of_nat j) l) = []).
  { clear l. induction l as [|b l IH]; intros j i H; [rewrite Z0; reflexivity | ]. rewrite Z1, pick_app, P, (proj2 (Nat.eqb_neq j i)) by lia.
    replace (Z.of_nat j + 1) with (Z.of_nat (S j)) by lia. apply IH. lia. }
  induction l as [|b l IH]; intros j k b' H; [destruct k; discriminate H | ]. rewrite Z1, pick_app, P. replace (Z.of_nat j + 1) with (Z.of_nat (S j)) by lia.
  destruct k as [|k]; cbn [nth_error] in H.
  - injection H as ->. rewrite Nat.add_0_r, Nat.eqb_refl, O by lia. apply app_nil_r.
  - rewrite (proj2 (Nat.eqb_neq _ _)) by lia. cbn [app]. replace (j + S k)%nat with (S j + k)%nat by lia. apply IH. exact H.
Qed.

Lemma pick_first_clefs l k st : nth_error l k = Some st -> pick k (first_clefs 0 l) = map (fun c => mkClef 0 (c_rest c)) (leading_clefs (s_clefs st)).
Proof.
  intros H. change k with (0 + k)%nat. change 0 with (Z.of_nat 0) at 1.
  rewrite (pick_at (fun i st => placed_clefs i 0 (leading_clefs (s_clefs st))) (fun _ st => map (fun c => mkClef 0 (c_rest c)) (leading_clefs (s_clefs st))) l) with (b := st);
    [reflexivity | | reflexivity | reflexivity | exact H].
  intros j b i. unfold placed_clefs. rewrite Nat2Z.id. apply pick_placed.
Qed.

(** [u] is where the voices of the staff end. *)
Lemma pick_staves_clefs l : forall t j k st, nth_error l k = Some st -> exists u,
  pick (j + k) (staves_clefs (Z.of_nat j) t l) =
    let q := drain c_tick (fun t c => mkClef t (c_rest c)) (map n_tick (flat_map snd (s_voices st))) (skip_leading_clefs (s_clefs st)) in
    fst q ++ map (fun c => mkClef u (c_rest c)) (snd q).
Proof.
  assert (O : forall l t j i, (i < j)%nat -> pick i (staves_clefs (Z.of_nat j) t l) = []).
  { clear l. induction l as [|b l IH]; intros t j i H; [reflexivity | ]. cbn [staves_clefs]. rewrite pick_app, pick_staff_clefs, (proj2 (Nat.eqb_neq j i)) by lia.
    replace (Z.of_nat j + 1) with (Z.of_nat (S j)) by lia. apply IH. lia. }
  induction l as [|b l IH]; intros t j k st H; [destruct k; discriminate H | ]. cbn [staves_clefs]. replace (Z.of_nat j + 1) with (Z.of_nat (S j)) by lia.
  destruct k as [|k]; cbn [nth_error] in H.
  - injection H as ->. rewrite Nat.add_0_r. eexists. rewrite pick_app, pick_staff_clefs, Nat.eqb_refl, O, app_nil_r by lia. reflexivity.
  - destruct (IH (voices_end t (s_voices b)) (S j) k st H) as (u & E). exists u. rewrite pick_app, pick_staff_clefs, (proj2 (Nat.eqb_neq _ _)) by lia.
    replace (j + S k)%nat with (S j + k)%nat by lia. exact E.
Qed.

Lemma ticks_split st : map n_tick (flat_map snd (s_voices st)) = first_ticks st ++ map n_tick (flat_map snd (tl (s_voices st))).
Proof. unfold first_ticks. destruct (s_voices st) as [|v vs]; [reflexivity | ]. cbn [flat_map tl]. apply map_app. Qed.

Lemma exact_clefs st u : Forall (fun t => 0 <= t) (first_ticks st) -> clefs_at_notes st ->
  map (fun c => mkClef 0 (c_rest c)) (leading_clefs (s_clefs st)) ++
  (let q := drain c_tick (fun t c => mkClef t (c_rest c)) (map n_tick (flat_map snd (s_voices st))) (skip_leading_clefs (s_clefs st)) in
    fst q ++ map (fun c => mkClef u (c_rest c)) (snd q)) = s_clefs st.
Proof.
  intros P (S1 & S2 & F). cbv zeta. pose proof (leading_skip (s_clefs st)) as E. pose proof (leading_zero (s_clefs st)) as L0.
  assert (N0 : match skip_leading_clefs (s_clefs st) with c :: _ => c_tick c <> 0 | [] => True end).
  { generalize (s_clefs st). clear. induction l as [|c l IH]; cbn; [exact I | ]. destruct (c_tick c =? 0) eqn:Q; [exact IH | cbn; lia]. }
  set (a := leading_clefs (s_clefs st)) in *. set (b := skip_leading_clefs (s_clefs st)) in *. clearbody a b. rewrite <- E in *. clear E.
  apply Forall_app in F. destruct F as [_ Fb].
  assert (Sb : StronglySorted Z.le (map c_tick b)) by (clear - S2; induction a; [exact S2 | apply IHa; cbn in S2; inversion S2; assumption]).
  rewrite ticks_split, drain_app, drain_exact; [ | exact S1 | exact Sb | ].
  - cbn [fst snd]. rewrite drain_nil. cbn [fst snd map]. rewrite !app_nil_r. f_equal.
    + rewrite <- (map_id a) at 2. apply map_ext_in. intros c I. rewrite Forall_forall in L0. specialize (L0 c I). destruct c. cbn in *. congruence.
    + rewrite <- (map_id b) at 2. apply map_ext. intros []. reflexivity.
  - rewrite Forall_forall in *. intros c I. destruct (Fb c I) as [Z | H]; [ | exact H]. exfalso.
    destruct b as [|d b]; [destruct I | ]. destruct I as [-> | I]; [congruence | ]. cbn [map] in Sb. inversion Sb as [|? ? _ Sd]; subst. rewrite Forall_forall in Sd.
    specialize (Sd (c_tick c) (in_map _ _ _ I)). destruct (Fb d (or_introl eq_refl)) as [Q | Q]; [congruence | ].
    specialize (P _ Q). cbn in *. lia.
Qed.

Lemma first_ticks_range st : staff_in_range st -> Forall (fun t => 0 <= t) (first_ticks st).
Proof.
  intros [R _]. unfold first_ticks. destruct (s_voices st) as [|v vs]; [constructor | ]. inversion R as [|? ? [_ R1] _]; subst. apply Forall_map.
  eapply Forall_impl; [ | exact R1]. intros n (H & _). exact H.
Qed.

Theorem clefs_back wc rc m : agree wc rc -> measure_in_range wc m -> Forall chords_closed (m_staves m) ->
  exists x m' tr, write_measure wc m = Ok x /\ read_measure rc x = Ok (m', tr, rc_global rc) /\
    Forall2 (fun st st' => map c_rest (s_clefs st') = map c_rest (s_clefs st) /\ (clefs_at_notes st -> s_clefs st' = s_clefs st)) (m_staves m) (m_staves m').
Proof.
  intros A R C. destruct (measure_back wc rc m A R C) as (x & m' & tr & B). exists x, m', tr. split; [apply B | ]. split; [apply B | ].
  apply (back_staves wc rc m x m' tr _ B); [destruct A, R; lia | ]. intros i st st' evs H1 H2 (S & _) L D K. rewrite S, K, pick_app, (pick_first_clefs _ i st H1).
  destruct (pick_staves_clefs (m_staves m) 0 0 i st H1) as (u & E). cbn [Z.of_nat Nat.add] in E. rewrite E. clear E. split.
  - cbv zeta. rewrite !map_app, !map_map. cbn [c_rest]. rewrite (drain_all c_tick _ c_rest c_rest) by reflexivity. rewrite <- map_app, leading_skip. reflexivity.
  - apply exact_clefs. apply first_ticks_range. destruct R as (_ & R & _). rewrite Forall_forall in R. apply R. apply (nth_error_In _ _ H1).
Qed.

(** * Keys *)

Section Keys.
Variable rc : rctx.

(** Without keys of the measure. *)
Lemma notes_keys_drain i notes : forall sk, notes_keys rc i notes [] sk =
  (fst (drain k_tick (placed_key rc i) (map n_tick notes) sk), ([], snd (drain k_tick (placed_key rc i) (map n_tick notes) sk))).
Proof.
  induction notes as [|n rest IH]; intros sk; [reflexivity | ]. cbn [notes_keys map drain measure_keys_at fst snd app]. rewrite IH. reflexivity.
Qed.

Lemma staff_keys_own i t st : staff_keys rc i t st [] =
  (let q := drain k_tick (placed_key rc i) (map n_tick (flat_map snd (s_voices st))) (s_keys st) in
   fst q ++ map (placed_key rc i (voices_end t (s_voices st))) (snd q), []).
Proof. unfold staff_keys. rewrite notes_keys_drain. unfold notes_of. cbn [fst snd last_measure_keys map app]. reflexivity. Qed.

Lemma placed_rest i t k : k_rest (placed_key rc i t k) = k_rest k.
Proof. unfold placed_key. destruct (k_custom k); reflexivity. Qed.

Lemma staves_keys_rest l : forall i t, map k_rest (staves_keys rc i t l []) = map k_rest (flat_map s_keys l).
Proof.
  induction l as [|st l IH]; intros i t; [reflexivity | ]. cbn [staves_keys flat_map]. rewrite staff_keys_own. cbn [fst snd]. rewrite map_app, IH, map_app.
  cbv zeta. rewrite map_app, map_map. rewrite (map_ext (fun x => k_rest (placed_key rc i _ x)) k_rest) by (intros; apply placed_rest).
  f_equal. apply drain_all. apply placed_rest.
Qed.

Lemma placed_own i t k : (i < rc_numStaves rc)%nat -> k_custom k = false -> placed_key rc (Z.of_nat i) t k = mkKey t (Z.of_nat i) false (k_rest k).
Proof. intros H C. unfold placed_key, staff_index. rewrite C. assert ((0 <=? Z.of_nat i) && (Z.of_nat i <? Z.of_nat (rc_numStaves rc)) = true) as -> by lia. reflexivity. Qed.

Lemma staves_keys_exact l : forall i t, (i + List.length l <= rc_numStaves rc)%nat -> Forall staff_keys_at_notes l ->
  staves_keys rc (Z.of_nat i) t l [] = keys_of_staves i l.
Proof.
  induction l as [|st l IH]; intros i t H F; [reflexivity | ]. inversion F as [|? ? (S1 & S2 & S3) F2]; subst. cbn [List.length] in H. cbn [staves_keys keys_of_staves]. rewrite staff_keys_own. cbn [fst snd].
  replace (Z.of_nat i + 1) with (Z.of_nat (S i)) by lia. rewrite IH by (try assumption; lia). f_equal. cbv zeta.
  rewrite ticks_split, drain_app, drain_exact; [ | exact S1 | exact S2 | eapply Forall_impl; [ | exact S3]; cbn; tauto].
  cbn [fst snd]. rewrite drain_nil. cbn [fst snd map]. rewrite !app_nil_r. apply map_ext_in. intros k I. rewrite Forall_forall in S3.
  unfold key_of_staff. apply placed_own; [lia | apply (S3 k I)].
Qed.

Lemma leading_keys_start n l : Forall (key_at_start n) l -> leading_keys l = (l, []).
Proof. induction 1 as [|k l (H & _) F IH]; [reflexivity | ]. cbn [leading_keys]. rewrite H, IH. reflexivity. Qed.

Lemma first_keys_start l : Forall (key_at_start (Z.of_nat (rc_numStaves rc))) l -> map (fun k => placed_key rc (k_staff k) 0 k) l = l.
Proof.
  intros F. rewrite <- (map_id l) at 2. apply map_ext_in. intros k I. rewrite Forall_forall in F. destruct (F k I) as (T & S & C). destruct k as [t s c r]. cbn in *.
  subst t. unfold placed_key, staff_index. cbn [k_custom k_staff k_rest]. destruct c; [rewrite (C eq_refl); reflexivity | ]. f_equal. destruct ((0 <=? s) && _) eqn:E; lia.
Qed.

(** Keys of the measure at the notes of the first staff. *)
Definition later (ticks : list Z) (k : KeyData) : Prop := In (k_tick k) ticks /\ k_staff k = -1 /\ k_custom k = false.

Lemma placed_later t k : k_staff k = -1 -> k_custom k = false -> k_tick k = t -> placed_key rc (-1) t k = k.
Proof. destruct k as [u s c r]. cbn. intros -> -> ->. reflexivity. Qed.

Lemma notes_keys_none i notes : notes_keys rc i notes [] [] = ([], ([], [])).
Proof. rewrite notes_keys_drain, drain_nil. reflexivity. Qed.

Lemma notes_keys_app i a : forall b mk sk, notes_keys rc i (a ++ b) mk sk =
  (fst (notes_keys rc i a mk sk) ++ fst (notes_keys rc i b (fst (snd (notes_keys rc i a mk sk))) (snd (snd (notes_keys rc i a mk sk)))),
   snd (notes_keys rc i b (fst (snd (notes_keys rc i a mk sk))) (snd (snd (notes_keys rc i a mk sk))))).
Proof.
  induction a as [|n a IH]; intros b mk sk; cbn [app notes_keys fst snd]; [destruct (notes_keys rc i b mk sk); reflexivity | ].
  rewrite IH. cbn [fst snd]. rewrite app_assoc. reflexivity.
Qed.

Lemma notes_keys_measure i notes : forall mk, StronglySorted Z.le (map n_tick notes) -> StronglySorted Z.lt (map k_tick mk) -> Forall (later (map n_tick notes)) mk ->
  notes_keys rc i notes mk [] = (mk, ([], [])).
Proof.
  induction notes as [|n rest IH]; intros mk Sn Sk F.
  - destruct mk as [|k mk]; [reflexivity | ]. inversion F as [|? ? (F1 & _) _]; subst. destruct F1.
  - cbn [map] in Sn. inversion Sn as [|? ? Sn1 Sn2]; subst. cbn [notes_keys staff_keys_at span fst snd map]. rewrite app_nil_r.
    destruct mk as [|k mk]; cbn [measure_keys_at].
    + cbn [fst snd]. rewrite notes_keys_none. reflexivity.
    + cbn [map] in Sk. inversion Sk as [|? ? Sk1 Sk2]; subst. inversion F as [|? ? (F1 & F2 & F3) F4]; subst. rewrite Forall_forall in Sn2, Sk2.
      destruct (k_tick k <=? n_tick n) eqn:E; cbn [fst snd].
      * assert (T : k_tick k = n_tick n) by (destruct F1 as [F1 | F1]; [lia | specialize (Sn2 _ F1); lia]).
        rewrite IH; [ | exact Sn1 | exact Sk1 | ].
        { cbn [fst snd map app]. rewrite placed_later by assumption. reflexivity. }
        rewrite Forall_forall in *. intros q I. destruct (F4 q I) as (Q1 & Q2). split; [ | exact Q2]. specialize (Sk2 _ (in_map k_tick _ _ I)). destruct Q1 as [Q1 | Q1]; [lia | exact Q1].
      * rewrite IH; [reflexivity | exact Sn1 | exact Sk | ]. rewrite Forall_forall in *. intros q I. destruct (F q I) as (Q1 & Q2). split; [ | exact Q2].
        destruct Q1 as [Q1 | Q1]; [ | exact Q1]. destruct I as [-> | I]; [lia | ]. specialize (Sk2 _ (in_map k_tick _ _ I)). lia.
Qed.

Lemma staves_keys_none l : Forall (fun st => s_keys st = []) l -> forall i t, staves_keys rc i t l [] = [].
Proof.
  induction 1 as [|st l H F IH]; intros i t; [reflexivity | ]. cbn [staves_keys]. rewrite staff_keys_own, H, drain_nil. cbn [fst snd map app]. apply IH.
Qed.

Lemma staves_keys_measure st l mk : Forall (fun st => s_keys st = []) (st :: l) -> StronglySorted Z.le (first_ticks st) -> StronglySorted Z.lt (map k_tick mk) -> Forall (later (first_ticks st)) mk ->
  staves_keys rc 0 0 (st :: l) mk = mk.
Proof.
  intros K Sn Sk F. inversion K as [|? ? K1 K2]; subst. cbn [staves_keys].
  assert (E : notes_keys rc 0 (notes_of (s_voices st)) mk [] = (mk, ([], []))).
  { unfold first_ticks, notes_of in *. destruct (s_voices st) as [|v vs]; cbn [flat_map].
    - destruct mk as [|k mk]; [reflexivity | ]. inversion F as [|? ? (F1 & _) _]; subst. destruct F1.
    - rewrite notes_keys_app, notes_keys_measure by assumption. cbn [fst snd]. rewrite notes_keys_none. cbn [fst snd]. rewrite app_nil_r. reflexivity. }
  unfold staff_keys. rewrite K1, E. cbn [fst snd last_measure_keys map]. rewrite !app_nil_r, staves_keys_none by assumption. apply app_nil_r.
Qed.
End Keys.

Lemma keys_read wc rc m x m' tr : back wc rc m x m' tr -> m_keys m' = first_keys rc (m_keys m) ++ staves_keys rc 0 0 (m_staves m) (snd (leading_keys (m_keys m))).
Proof. intros (_ & _ & evs & _ & K & _ & _ & _ & _ & E & _). rewrite K. exact E. Qed.

(** Keys of the measure at its start and keys of the staves. *)
Theorem keys_back wc rc m : agree wc rc -> measure_in_range wc m -> Forall chords_closed (m_staves m) -> Forall (key_at_start (wc_numStaves wc)) (m_keys m) ->
  exists x m' tr, write_measure wc m = Ok x /\ read_measure rc x = Ok (m', tr, rc_global rc) /\
    map k_rest (m_keys m') = map k_rest (m_keys m ++ flat_map s_keys (m_staves m)) /\
    (Forall staff_keys_at_notes (m_staves m) -> m_keys m' = m_keys m ++ keys_of_staves 0 (m_staves m)).
Proof.
  intros A R C K. destruct (measure_back wc rc m A R C) as (x & m' & tr & B). exists x, m', tr. split; [apply B | ]. split; [apply B | ].
  rewrite (keys_read _ _ _ _ _ _ B). destruct A as (A1 & _). destruct R as (R & _). unfold first_keys. rewrite (leading_keys_start _ _ K). rewrite A1 in K. cbn [fst snd]. rewrite first_keys_start by exact K.
  split.
  - rewrite !map_app, staves_keys_rest. reflexivity.
  - intros F. f_equal. apply (staves_keys_exact rc (m_staves m) 0 0); [lia | exact F].
Qed.

Lemma leading_keys_later n a b : Forall (key_at_start n) a -> Forall (fun k => 0 < k_tick k) b -> leading_keys (a ++ b) = (a, b).
Proof.
  intros Fa Fb. induction Fa as [|k a (H & _) Fa IH]; cbn [app leading_keys].
  - destruct b as [|k b]; [reflexivity | ]. inversion Fb; subst. cbn [leading_keys]. assert (k_tick k =? 0 = false) as -> by lia. reflexivity.
  - rewrite H, IH. reflexivity.
Qed.

(** Keys of the measure at its start and at notes. *)
Theorem measure_keys_back wc rc m a b : agree wc rc -> measure_in_range wc m -> Forall chords_closed (m_staves m) ->
  m_keys m = a ++ b -> Forall (key_at_start (wc_numStaves wc)) a -> Forall (key_at_note m) b -> StronglySorted Z.lt (map k_tick b) ->
  Forall (fun st => s_keys st = [] /\ StronglySorted Z.le (first_ticks st)) (m_staves m) ->
  exists x m' tr, write_measure wc m = Ok x /\ read_measure rc x = Ok (m', tr, rc_global rc) /\ m_keys m' = m_keys m.
Proof.
  intros A R C E Ka Kb S F. destruct (measure_back wc rc m A R C) as (x & m' & tr & B). exists x, m', tr. split; [apply B | ]. split; [apply B | ].
  rewrite (keys_read _ _ _ _ _ _ B), E. destruct A as (A1 & A2 & _). destruct R as (R & _). unfold first_keys. rewrite (leading_keys_later (wc_numStaves wc)); [ | exact Ka | eapply Forall_impl; [ | exact Kb]; intros k (H & _); exact H].
  rewrite A1 in Ka. cbn [fst snd]. rewrite first_keys_start by exact Ka. f_equal.
  destruct (m_staves m) as [|st l] eqn:M; [cbn in R; lia | ]. apply staves_keys_measure.
  - eapply Forall_impl; [ | exact F]. intros s [H _]. exact H.
  - inversion F as [|? ? [_ H] _]; subst. exact H.
  - exact S.
  - eapply Forall_impl; [ | exact Kb]. intros k (_ & H1 & H2 & s & r & Q & H3). rewrite M in Q. injection Q as <- <-. split; [exact H3 | auto].
Qed.
