(** Directions of a measure that is written and read. *)
From Verif Require Import Proofs.Tac.
From Verif Require Import Model.Base Model.EnumLookup Model.ApiEnums Model.MarkData Model.MeasureTypes Model.MeasureWriter Model.MeasureReader.
From Verif Require Import Spec.MarkGroups Spec.Measures Spec.Voices Spec.RoundTrip Spec.Directions.
From Verif Require Import Proofs.MeasureSync Proofs.MeasureReadProofs Proofs.MeasureBack.
Import ListNotations.
Open Scope Z_scope.

Lemma mark_types_ok m : mark_types m =
  if writable_mark m then [if pedal_section (fst m) then (if in_section api_MarkType_damp api_MarkType_damp (fst m) then DtPedalStop (snd m) else DtPedalStart (snd m)) else DtDynamics (fst m) (snd m)] else [].
Proof. destruct m as [m r]. unfold writable_mark, mark_types. cbn [fst snd]. destruct m; vm_compute; reflexivity. Qed.

Definition add_marks (l : list (api_MarkType * Z)) (d : DirectionData) : DirectionData :=
  let (tk, sp, te, ma, ws, we, os, oe, bs, be, wo, ch, se, co, re) := d in mkDirection tk sp te (ma ++ l) ws we os oe bs be wo ch se co re.

Lemma parse_mark m d : fold_left parseDirectionType (mark_types m) d = add_marks (filter writable_mark [m]) d.
Proof.
  rewrite mark_types_ok. cbn [filter]. destruct d as [tk sp te ma ws we os oe bs be wo ch se co re]. destruct (writable_mark m) eqn:W; cbn [fold_left add_marks].
  - destruct m as [m r]. cbn [fst snd] in *.
    destruct (pedal_section m) eqn:P; [ | reflexivity]. destruct (in_section api_MarkType_damp api_MarkType_damp m) eqn:D; cbn [parseDirectionType]; repeat f_equal.
    + destruct m; vm_compute in D; try discriminate D; reflexivity.
    + destruct m; vm_compute in P, D; try discriminate P; try discriminate D; reflexivity.
  - rewrite app_nil_r. reflexivity.
Qed.

Lemma parse_marks l : forall d, fold_left parseDirectionType (flat_map mark_types l) d = add_marks (filter writable_mark l) d.
Proof.
  induction l as [|m l IH]; intros d; cbn [flat_map fold_left].
  - destruct d. cbn [filter add_marks]. rewrite app_nil_r. reflexivity.
  - rewrite fold_left_app, IH, parse_mark. destruct d. cbn [filter]. destruct (writable_mark m); cbn [add_marks app]; rewrite ?app_nil_r, <- ?app_assoc; reflexivity.
Qed.

Ltac parse_list l := let x := fresh "x" in let l' := fresh "l'" in let IH := fresh "IH" in
  induction l as [|x l' IH]; intros; cbn [map fold_left parseDirectionType]; rewrite ?app_nil_r, ?IH, <- ?app_assoc; reflexivity.

Section Parse.
Variables (tk : Z) (sp : bool) (ma : list (api_MarkType * Z)).
Let D te ws we os oe bs wo := mkDirection tk sp te ma ws we os oe bs [] wo [] [] [] [].
Lemma parse_we l : forall te ws we os oe bs wo, fold_left parseDirectionType (map DtWedgeStop l) (D te ws we os oe bs wo) = D te ws (we ++ l) os oe bs wo.
Proof. unfold D. parse_list l. Qed.
Lemma parse_ws l : forall te ws we os oe bs wo, fold_left parseDirectionType (map DtWedgeStart l) (D te ws we os oe bs wo) = D te (ws ++ l) we os oe bs wo.
Proof. unfold D. parse_list l. Qed.
Lemma parse_oe l : forall te ws we os oe bs wo, fold_left parseDirectionType (map DtOttavaStop l) (D te ws we os oe bs wo) = D te ws we os (oe ++ l) bs wo.
Proof. unfold D. parse_list l. Qed.
Lemma parse_os l : forall te ws we os oe bs wo, fold_left parseDirectionType (map DtOttavaStart l) (D te ws we os oe bs wo) = D te ws we (os ++ l) oe bs wo.
Proof. unfold D. parse_list l. Qed.
Lemma parse_bs l : forall te ws we os oe bs wo, fold_left parseDirectionType (map DtBracketStart l) (D te ws we os oe bs wo) = D te ws we os oe (bs ++ l) wo.
Proof. unfold D. parse_list l. Qed.
Lemma parse_te l : Forall (fun t => t_bpm t = true) l -> forall te ws we os oe bs wo, fold_left parseDirectionType (map (fun t => DtMetronome (t_rest t)) l) (D te ws we os oe bs wo) = D (te ++ l) ws we os oe bs wo.
Proof.
  unfold D. induction 1 as [|[b r] l H1 H2 IH]; intros; cbn [map fold_left parseDirectionType t_rest]; rewrite ?app_nil_r; [reflexivity | ].
  cbn in H1. rewrite IH, <- app_assoc, H1. reflexivity.
Qed.
End Parse.

Definition specified_as (b : bool) (d : DirectionData) : DirectionData :=
  mkDirection (d_tick d) b (d_tempos d) (d_marks d) (d_wedgeStarts d) (d_wedgeStops d) (d_ottavaStarts d) (d_ottavaStops d)
    (d_bracketStarts d) (d_bracketStops d) (d_words d) (d_chords d) (d_segnos d) (d_codas d) (d_rehearsals d).

Lemma parse_types d b : direction_ok d -> fold_left parseDirectionType (types_of d) (empty_direction (d_tick d) b) = specified_as b (without_chords (trimmed d)).
Proof.
  intros [_ H]. unfold types_of. rewrite !fold_left_app, parse_marks. unfold empty_direction. cbn [add_marks app].
  rewrite parse_we, parse_ws, parse_oe, parse_os, parse_bs, parse_te by exact H. unfold specified_as, without_chords, trimmed. cbn [d_tick d_staffSpecified d_tempos d_marks d_wedgeStarts d_wedgeStops d_ottavaStarts d_ottavaStops d_bracketStarts d_bracketStops d_words d_chords d_segnos d_codas d_rehearsals app].
  destruct (d_words d); reflexivity.
Qed.

Lemma types_blank d : types_of d = [] <-> blank (without_chords (trimmed d)) = true.
Proof.
  unfold types_of, without_chords, trimmed. destruct d as [tk sp te ma ws we os oe bs be wo ch se co re]. cbn -[writable_mark].
  assert (M : flat_map mark_types ma = [] <-> filter writable_mark ma = []).
  { clear. induction ma as [|m ma IH]; [cbn; tauto | ]. cbn [flat_map filter]. rewrite mark_types_ok. destruct (writable_mark m); [split; discriminate | exact IH]. }
  split; intros H.
  - apply app_eq_nil in H. destruct H as [H1 H]. apply M in H1. rewrite H1. repeat (apply app_eq_nil in H; destruct H as [? H]).
    repeat match goal with H : map _ ?l = [] |- _ => apply map_eq_nil in H; subst l end. destruct wo; [reflexivity | discriminate H].
  - destruct te, (filter writable_mark ma), ws, we, os, oe, bs, wo; try discriminate H. rewrite (proj2 M eq_refl). reflexivity.
Qed.

Lemma heard_types_ok i d : direction_ok d -> heard_types (Z.of_nat i) d = map (pair i) (unless_blank (without_chords (match i with O => trimmed d | S _ => on_its_staff (trimmed d) end))).
Proof.
  intros H. unfold heard_types. pose proof (types_blank d) as B. pose proof (parse_types d (d_staffSpecified d || negb (Z.of_nat i =? 0)) H) as P. rewrite Nat2Z.id.
  assert (E : blank (without_chords match i with O => trimmed d | S _ => on_its_staff (trimmed d) end) = blank (without_chords (trimmed d))) by (destruct i; reflexivity).
  unfold unless_blank. rewrite E. destruct (types_of d) as [|x l] eqn:T.
  - rewrite (proj1 B eq_refl). reflexivity.
  - destruct (blank (without_chords (trimmed d))) eqn:Q; [discriminate (proj2 B eq_refl) | ]. cbn [map]. rewrite P. f_equal. f_equal.
    destruct i; [destruct (d_staffSpecified d) eqn:S; cbn [orb negb Z.of_nat Z.eqb]; unfold specified_as, without_chords, trimmed; cbn; congruence | ].
    assert (Z.of_nat (S i) =? 0 = false) as -> by lia. rewrite orb_true_r. reflexivity.
Qed.

Lemma heard_chords_ok i d : chords_placed i d -> heard_chords (Z.of_nat i) d = map (pair i) (unless_blank (chords_alone d)).
Proof.
  unfold heard_chords, chords_alone, unless_blank, blank. intros H. rewrite Nat2Z.id. destruct (d_chords d) as [|c cs] eqn:E; [reflexivity | ].
  cbn [map set_chords empty_direction]. f_equal. f_equal. destruct H as [H | [-> | ->]]; [congruence | destruct (d_staffSpecified d); reflexivity | reflexivity].
Qed.

Lemma heard_direction_ok i d : direction_ok d -> chords_placed i d -> heard_direction (Z.of_nat i) d = map (pair i) (split_direction i (trimmed d)).
Proof.
  intros H C. unfold heard_direction, split_direction. rewrite (heard_types_ok i d H), (heard_chords_ok i d C), map_app. reflexivity.
Qed.

Lemma pick_app {A} i (a b : list (nat * A)) : pick i (a ++ b) = pick i a ++ pick i b.
Proof. unfold pick. rewrite filter_app, map_app. reflexivity. Qed.

Lemma pick_same {A} i (l : list A) : pick i (map (pair i) l) = l.
Proof. induction l as [|a l IH]; [reflexivity | ]. cbn [map]. rewrite pick_cons, Nat.eqb_refl, IH. reflexivity. Qed.

Lemma pick_other {A} i j (l : list A) : i <> j -> pick i (map (pair j) l) = [].
Proof. intros D. induction l as [|a l IH]; [reflexivity | ]. cbn [map]. rewrite pick_cons, (proj2 (Nat.eqb_neq j i)), IH; congruence. Qed.

Definition staff_placed (i : nat) (st : StaffData) : Prop := Forall (chords_placed i) (s_directions st).

Lemma heard_directions_ok i l : Forall direction_ok l -> Forall (chords_placed i) l -> flat_map (heard_direction (Z.of_nat i)) l = map (pair i) (flat_map (fun d => split_direction i (trimmed d)) l).
Proof.
  intros H C. induction H as [|d l H1 H2 IH]; [reflexivity | ]. inversion C; subst. cbn [flat_map]. rewrite heard_direction_ok, IH, map_app by assumption. reflexivity.
Qed.

Lemma pick_directions l : forall j k, (forall i st, nth_error l i = Some st -> Forall direction_ok (s_directions st) /\ staff_placed (j + i) st) ->
  pick k (staves_directions (Z.of_nat j) l) =
  match nth_error l (k - j) with Some st => if (j <=? k)%nat then flat_map (fun d => split_direction k (trimmed d)) (s_directions st) else [] | None => [] end.
Proof.
  induction l as [|st l IH]; intros j k H; cbn [staves_directions]; [destruct (k - j)%nat; reflexivity | ].
  rewrite pick_app. destruct (H 0%nat st eq_refl) as [O C]. rewrite Nat.add_0_r in C. rewrite heard_directions_ok by assumption.
  replace (Z.of_nat j + 1) with (Z.of_nat (S j)) by lia. rewrite IH; [ | intros i st' E; destruct (H (S i) st' E) as [H1 H2]; rewrite Nat.add_succ_r in H2; split; assumption].
  destruct (Nat.eq_dec k j) as [-> | D].
  - rewrite pick_same, Nat.sub_diag, Nat.leb_refl. cbn [nth_error]. destruct (nth_error l (j - S j)); [ | apply app_nil_r]. assert ((S j <=? j)%nat = false) as -> by (apply Nat.leb_gt; lia). apply app_nil_r.
  - rewrite pick_other by congruence. cbn [app]. destruct (lt_dec k j) as [L | L].
    + assert ((S j <=? k)%nat = false) as -> by (apply Nat.leb_gt; lia). assert ((j <=? k)%nat = false) as -> by (apply Nat.leb_gt; lia).
      destruct (nth_error l _), (nth_error (st :: l) _); reflexivity.
    + replace (k - j)%nat with (S (k - S j)) by lia. cbn [nth_error]. destruct (nth_error l (k - S j)); [ | reflexivity].
      assert ((S j <=? k)%nat = true) as -> by (apply Nat.leb_le; lia). assert ((j <=? k)%nat = true) as -> by (apply Nat.leb_le; lia). reflexivity.
Qed.

Theorem directions_back wc rc m : agree wc rc -> measure_in_range wc m -> Forall chords_closed (m_staves m) -> Forall_at staff_placed (m_staves m) ->
  exists x m' tr, write_measure wc m = Ok x /\ read_measure rc x = Ok (m', tr, rc_global rc) /\
    List.length (m_staves m') = List.length (m_staves m) /\
    forall i st st', nth_error (m_staves m) i = Some st -> nth_error (m_staves m') i = Some st' ->
      s_directions st' = flat_map (fun d => split_direction i (trimmed d)) (s_directions st).
Proof.
  intros A R C P. destruct (measure_back wc rc m A R C) as (x & m' & tr & B). exists x, m', tr. split; [apply B | ]. split; [apply B | ].
  destruct B as (_ & _ & evs & F & _ & _ & _ & D & _). destruct A as (A1 & _). destruct R as (R1 & R2 & _).
  assert (E : List.length (m_staves m') = rc_numStaves rc) by (rewrite <- (Forall2_len _ _ _ F); apply seq_length).
  split; [lia | ]. intros i st st' H1 H2. rewrite <- E in F. pose proof (Forall2_nth _ _ 0%nat F i st' H2) as (_ & _ & S & _). cbn [Nat.add] in S. rewrite S, D.
  change 0 with (Z.of_nat 0). rewrite pick_directions, Nat.sub_0_r, H1; [reflexivity | ]. intros j s J. split; [ | apply (P j s J)].
  rewrite Forall_forall in R2. destruct (R2 s (nth_error_In _ _ J)) as [_ Q]. exact Q.
Qed.

Lemma simple_split i d : simple_direction i d -> split_direction i (trimmed d) = [d].
Proof.
  intros (B & T & C & S). rewrite T. unfold split_direction.
  assert (E : match i with O => d | S _ => on_its_staff d end = d).
  { destruct i; [reflexivity | ]. destruct S as [S | S]; [discriminate S | ]. destruct d. cbn in S. subst. reflexivity. }
  rewrite E. unfold unless_blank. destruct C as [C | C].
  - assert (W : without_chords d = d) by (destruct d; cbn in C; subst; reflexivity). rewrite W, B. unfold chords_alone, blank. rewrite C. reflexivity.
  - rewrite C. cbn [blank app]. assert (W : chords_alone d = d) by (destruct d; cbn in *; unfold without_chords in C; cbn in C; injection C as -> -> -> -> -> -> -> -> -> -> -> ->; reflexivity).
    rewrite W, B. reflexivity.
Qed.

Theorem simple_directions_back wc rc m : agree wc rc -> measure_in_range wc m -> Forall chords_closed (m_staves m) ->
  Forall_at (fun i st => Forall (simple_direction i) (s_directions st)) (m_staves m) ->
  exists x m' tr, write_measure wc m = Ok x /\ read_measure rc x = Ok (m', tr, rc_global rc) /\
    map s_directions (m_staves m') = map s_directions (m_staves m).
Proof.
  intros A R C S. destruct (directions_back wc rc m A R C) as (x & m' & tr & W & Q & L & D).
  - intros i st H. specialize (S i st H). unfold staff_placed. cbn in S. eapply Forall_impl; [ | exact S]. intros d (_ & _ & _ & [-> | E]); right; auto.
  - exists x, m', tr. split; [exact W | ]. split; [exact Q | ].
    assert (F : Forall2 (fun st' st => s_directions st' = s_directions st) (m_staves m') (m_staves m)).
    { apply Forall2_of_nth; [exact L | ]. intros i st' st H' H. rewrite (D i st st' H H'). specialize (S i st H). cbn in S. clear - S.
      induction S as [|d l S1 S2 IH]; [reflexivity | ]. cbn [flat_map]. rewrite (simple_split i d S1), IH. reflexivity. }
    clear - F. induction F as [|a b l l' E F IH]; [reflexivity | ]. cbn [map]. rewrite E, IH. reflexivity.
Qed.
