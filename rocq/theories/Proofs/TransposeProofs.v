(** Proofs about transposition. *)
From Coq Require Import List ZArith QArith Qround Qabs Bool Lia Lqa.
From Verif Require Import Proofs.Tac Model.Base Model.Text Model.Integers Model.Ticks Model.LongDouble Model.Decimals Model.Transpose
  Spec.Numerals Spec.Intervals Spec.DecimalText
  Proofs.IntegersProofs Proofs.TicksProofs Proofs.LongDoubleProofs Proofs.DecimalsProofs Proofs.DecimalsRange.
Import ListNotations.
Open Scope Z_scope.

Local Opaque ld.

Lemma to_int_Z x n : (x == inject_Z n)%Q -> to_int x = as_int n.
Proof.
  intros E. unfold to_int. rewrite (Qfloor_comp _ _ E), (Qceiling_comp _ _ E), Qfloor_Z, Qceiling_Z.
  destruct (Qle_bool 0 x); reflexivity.
Qed.

Lemma getValue_integer p n : well_formed p -> (amount p == inject_Z n)%Q -> (getValue p == inject_Z n)%Q.
Proof.
  intros W E. pose proof (amount_units p (wf_dec p W)) as A. rewrite E in A.
  assert (U : units p = n * 10 ^ 6).
  { assert (X : (inject_Z (n * 1000000) == inject_Z (units p))%Q) by (rewrite inject_Z_mult; rewrite <- A; reflexivity).
    apply (proj1 (inject_Z_injective _ _)) in X. change (10 ^ 6) with 1000000. symmetry. exact X. }
  destruct W as (W1 & W2 & W3 & W4). unfold units in U. rewrite W2 in U.
  assert (D : p_decimal p = 0 /\ p_integer p = if p_negative p then - n else n) by (destruct (p_negative p); lia).
  destruct D as [D I].
  unfold getValue, p_getValue. rewrite D, W2.
  assert (Z0 : (ld (of_u64 0 / inject_Z (Qceiling (ld (inject_Z (10 ^ 6) - (1 # 2))))) == 0)%Q).
  { apply ld_sign. rewrite of_u64_value by lia. rewrite express_mult by lia. reflexivity. }
  assert (R : (ld (of_u64 (p_integer p) + ld (of_u64 0 / inject_Z (Qceiling (ld (inject_Z (10 ^ 6) - (1 # 2)))))) == inject_Z (p_integer p))%Q).
  { rewrite (round_to_eq 64 _ (inject_Z (p_integer p))).
    - apply ld_Z. lia.
    - rewrite Z0, of_u64_value by lia. ring. }
  destruct (p_negative p).
  - rewrite R, I, inject_Z_opp. ring.
  - rewrite R, I. reflexivity.
Qed.

Lemma figure_usual c : -11 <= c <= 11 -> usual_diatonic c (figureOutDiatonic c).
Proof.
  intros H. assert (E : forallb (fun c => let d := figureOutDiatonic c in
    (Z.abs (12 * d - 7 * c) <? 6) || ((Z.abs (12 * d - 7 * c) =? 6) && (Z.abs (12 * d) <? Z.abs (7 * c))))
    (map (fun n => Z.of_nat n - 11) (seq 0 23)) = true) by (vm_compute; reflexivity).
  rewrite forallb_forall in E. specialize (E c). unfold usual_diatonic.
  assert (I : In c (map (fun n => Z.of_nat n - 11) (seq 0 23))).
  { apply in_map_iff. exists (Z.to_nat (c + 11)). split; [lia | apply in_seq; lia]. }
  specialize (E I). cbv zeta in E. apply orb_prop in E. destruct E as [E | E].
  - left. lia.
  - apply andb_prop in E. right. lia.
Qed.

Lemma usual_unique c d e : usual_diatonic c d -> usual_diatonic c e -> d = e.
Proof. unfold usual_diatonic. intros [A | [A1 A2]] [B | [B1 B2]]; lia. Qed.

Lemma usual_octaves c o d : usual_diatonic c d -> 0 <= c * o -> usual_diatonic (c + 12 * o) (d + 7 * o).
Proof.
  unfold usual_diatonic. intros H S.
  replace (12 * (d + 7 * o) - 7 * (c + 12 * o)) with (12 * d - 7 * c) by ring.
  destruct H as [H | [H1 H2]]; [left; exact H | right]. split; [exact H1 | ].
  assert (0 <= c /\ 0 <= o \/ c <= 0 /\ o <= 0 \/ c = 0) by nia. lia.
Qed.

Lemma octaves_quot c : octaves_in c (Z.quot c 12).
Proof.
  exists (Z.rem c 12). split; [apply Z.quot_rem'; lia | ].
  pose proof (Z.rem_bound_abs c 12). split; [lia | ]. apply Z.rem_sign_mul. lia.
Qed.

Lemma octaves_unique c o : octaves_in c o -> o = Z.quot c 12.
Proof.
  intros (r & A & B & C). destruct (octaves_quot c) as (r' & A' & B' & C').
  destruct (Z_lt_le_dec c 0); destruct (Z.eq_dec c 0).
  - lia.
  - assert (r <= 0) by nia. assert (r' <= 0) by nia. lia.
  - lia.
  - assert (0 <= r) by nia. assert (0 <= r') by nia. lia.
Qed.

Lemma construct_small c : -11 <= c <= 11 ->
  construct Semitones (inject_Z c) = Ok (mkPrecise (c <? 0) (Z.abs c) 0 19 6) /\
  parse Semitones (mkPrecise false 0 0 19 6) (Decimals.toString (mkPrecise (c <? 0) (Z.abs c) 0 19 6)) =
    Ok (true, mkPrecise (c <? 0) (Z.abs c) 0 19 6).
Proof.
  intros H. assert (I : In c (map (fun n => Z.of_nat n - 11) (seq 0 23))).
  { apply in_map_iff. exists (Z.to_nat (c + 11)). split; [lia | apply in_seq; lia]. }
  cbn [map seq In] in I. clear H.
  repeat (destruct I as [<- | I]; [split; vm_compute; reflexivity | ]). destruct I.
Qed.

Lemma rem_split c : Z.abs c <= 2147483647 ->
  -11 <= (if c <? 0 then -1 * Z.rem (Z.abs c) 12 else Z.rem (Z.abs c) 12) <= 11 /\
  c = 12 * Z.quot c 12 + (if c <? 0 then -1 * Z.rem (Z.abs c) 12 else Z.rem (Z.abs c) 12) /\
  Z.abs (Z.quot c 12) <= 178956970 /\
  0 <= (if c <? 0 then -1 * Z.rem (Z.abs c) 12 else Z.rem (Z.abs c) 12) * Z.quot c 12.
Proof.
  intros H. pose proof (Z.rem_bound_pos (Z.abs c) 12 ltac:(lia) ltac:(lia)).
  assert (R : (if c <? 0 then -1 * Z.rem (Z.abs c) 12 else Z.rem (Z.abs c) 12) = Z.rem c 12).
  { destruct (c <? 0) eqn:E; bool_hyps.
    - rewrite Z.abs_neq by lia. rewrite Z.rem_opp_l' by lia. lia.
    - rewrite Z.abs_eq by lia. reflexivity. }
  split; [destruct (c <? 0); lia | ]. rewrite R. pose proof (Z.quot_rem' c 12). split; [lia | ].
  pose proof (Z.rem_bound_abs c 12 ltac:(lia)). split; [lia | ].
  destruct (Z_lt_le_dec c 0).
  - assert (Z.rem c 12 <= 0) by (apply Z.rem_nonpos; lia). assert (Z.quot c 12 <= 0) by lia. nia.
  - assert (0 <= Z.rem c 12) by (apply Z.rem_nonneg; lia). assert (0 <= Z.quot c 12) by lia. nia.
Qed.

(** Reading an element with a whole number of semitones. *)
Lemma read_element e c : (getValue (te_chromatic e) == inject_Z c)%Q -> -2147483647 <= c <= 2147483647 ->
  exists d, (forall x, te_diatonic e = Some x -> d = x) /\ (te_diatonic e = None -> usual_diatonic c d) /\
  let o := match te_octave e with Some o => o | None => 0 end in
  (is_int (o * 7) -> is_int (d + o * 7) -> is_int (o * 12) -> is_int (c + o * 12) ->
     convertToTransposeData e = Ok (c + o * 12, d + o * 7)) /\
  (convertToTransposeData e <> Ok (c + o * 12, d + o * 7) -> convertToTransposeData e = UB).
Proof.
  intros E H. unfold is_int.
  assert (R : exists d, readDiatonic (te_diatonic e) c = Ok d /\ (forall x, te_diatonic e = Some x -> d = x) /\
                        (te_diatonic e = None -> usual_diatonic c d)).
  { destruct (te_diatonic e) as [d | ]; cbn [readDiatonic].
    - exists d. split; [reflexivity | ]. split; [congruence | discriminate].
    - destruct ((-11 <=? c) && (c <=? 11)) eqn:B.
      + exists (figureOutDiatonic c). split; [reflexivity | ]. split; [discriminate | ].
        intros _. apply figure_usual. lia.
      + destruct (rem_split c ltac:(lia)) as (R1 & R2 & R3 & R4).
        rewrite abs_int_ok by (split; lia). cbn [obind].
        assert (M : Z.rem (Z.abs c) 12 * (if c <? 0 then -1 else 1) = (if c <? 0 then -1 * Z.rem (Z.abs c) 12 else Z.rem (Z.abs c) 12))
          by (destruct (c <? 0); lia).
        rewrite M. set (r := if c <? 0 then -1 * Z.rem (Z.abs c) 12 else Z.rem (Z.abs c) 12) in *.
        pose proof (figure_usual r R1) as U. assert (Z.abs (figureOutDiatonic r) <= 7) by (unfold usual_diatonic in U; lia).
        rewrite as_int_ok by lia. cbn [obind]. rewrite as_int_ok by lia.
        eexists. split; [reflexivity | ]. split; [discriminate | ]. intros _.
        rewrite R2 at 1. rewrite Z.add_comm, (Z.mul_comm (Z.quot c 12)). apply usual_octaves; [exact U | lia]. }
  destruct R as (d & R1 & R2 & R3). exists d. split; [exact R2 | ]. split; [exact R3 | ].
  unfold convertToTransposeData. rewrite (to_int_Z _ c E), as_int_ok by lia. cbn [obind]. rewrite R1. cbn [obind].
  set (o := match te_octave e with Some o => o | None => 0 end).
  split.
  - intros. repeat (rewrite as_int_ok by lia; cbn [obind]). reflexivity.
  - unfold as_int, obind. destruct (in_int (o * 7)); [ | reflexivity]. destruct (in_int (d + o * 7)); [ | reflexivity].
    destruct (in_int (o * 12)); [ | reflexivity]. destruct (in_int (c + o * 12)); [ | reflexivity].
    intros X. exfalso. apply X. reflexivity.
Qed.

Lemma construct_default_semitones : construct_default Semitones = Ok (mkPrecise false 0 0 19 6).
Proof. vm_compute. reflexivity. Qed.

Lemma integer_text n : is_int n -> integerFromText (print_int n) = n.
Proof. intros H. unfold integerFromText. rewrite parse_print_int by exact H. reflexivity. Qed.

(** The element written. *)
Lemma write_element c d : -2147483647 <= c <= 2147483647 -> is_int d ->
  exists o r, octaves_in c o /\ c = 12 * o + r /\ -11 <= r <= 11 /\ 0 <= r * o /\
  (d <> 0 -> ~ is_int (d - 7 * o) -> convertToTranspose c d = UB) /\
  (d = 0 \/ is_int (d - 7 * o) ->
   convertToTranspose c d = Ok (mkTranspose (if (d =? 0) || (d =? 7 * o) then None else Some (d - 7 * o))
     (mkPrecise (r <? 0) (Z.abs r) 0 19 6) (if o =? 0 then None else Some o))).
Proof.
  intros Hc Hd. destruct (rem_split c ltac:(lia)) as (R1 & R2 & R3 & R4).
  set (r := if c <? 0 then -1 * Z.rem (Z.abs c) 12 else Z.rem (Z.abs c) 12) in *.
  exists (Z.quot c 12), r. split; [apply octaves_quot | ]. split; [exact R2 | ]. split; [exact R1 | ]. split; [exact R4 | ].
  assert (T : transposeChromatic c = Ok (Z.quot c 12, (if Z.quot c 12 =? 0 then None else Some (Z.quot c 12)),
                                         mkPrecise (r <? 0) (Z.abs r) 0 19 6)).
  { unfold transposeChromatic. destruct (c =? 0) eqn:E; bool_hyps.
    - subst c. rewrite construct_default_semitones. reflexivity.
    - rewrite abs_int_ok by (split; lia). cbn [obind]. cbv zeta. fold r.
      destruct (construct_small r R1) as [C _]. rewrite C. reflexivity. }
  unfold convertToTranspose. rewrite T. cbn [obind]. clear T. set (o := Z.quot c 12) in *. unfold transposeDiatonic, is_int in *.
  split.
  - intros Nd Ni. assert (d =? 0 = false) as -> by lia. destruct (o =? 0) eqn:E; bool_hyps; [lia | ].
    rewrite as_int_ok by lia. cbn [obind]. rewrite as_int_ub by lia. reflexivity.
  - intros Ni. destruct (d =? 0) eqn:E; bool_hyps; [reflexivity | ]. cbn [orb].
    destruct (o =? 0) eqn:Eo; bool_hyps.
    + cbn [omap obind]. rewrite Eo. replace (d - 7 * 0) with d by lia. assert (d =? 0 = false) as -> by lia.
      assert (d =? 7 * 0 = false) as -> by lia. reflexivity.
    + rewrite as_int_ok by lia. cbn [obind]. rewrite as_int_ok by lia. cbn [omap obind].
      replace (d + o * -7) with (d - 7 * o) by lia. do 2 f_equal.
      assert (d - 7 * o =? 0 = (d =? 7 * o)) as -> by lia. reflexivity.
Qed.

Lemma roundtrip_none : transposition_roundtrip None = Ok None /\ transposition_roundtrip (Some (0, 0)) = Ok None.
Proof. split; reflexivity. Qed.

Lemma roundtrip_cases c d o : is_int c -> is_int d -> (c, d) <> (0, 0) -> octaves_in c o ->
  ((c = -2147483648 \/ (d <> 0 /\ ~ is_int (d - 7 * o))) -> transposition_roundtrip (Some (c, d)) = UB) /\
  (~ (c = -2147483648 \/ (d <> 0 /\ ~ is_int (d - 7 * o))) ->
   exists d', transposition_roundtrip (Some (c, d)) = Ok (Some (c, d')) /\
     (d <> 0 -> d <> 7 * o -> d' = d) /\ (d = 0 \/ d = 7 * o -> usual_diatonic c d')).
Proof.
  intros Hc Hd N O. pose proof (octaves_unique c o O) as Eo. unfold is_int in *. unfold transposition_roundtrip. cbn [writeTransposition].
  assert (negb (c =? 0) || negb (d =? 0) = true) as ->.
  { destruct (c =? 0) eqn:E1; [ | reflexivity]. destruct (d =? 0) eqn:E2; [ | reflexivity]. bool_hyps. exfalso. apply N. congruence. }
  destruct (Z.eq_dec c (-2147483648)) as [-> | Nc].
  - split; [intros _ | intros X; exfalso; apply X; left; reflexivity].
    unfold convertToTranspose, transposeChromatic, abs_int. cbn [Z.eqb Z.abs]. rewrite as_int_ub by lia. reflexivity.
  - destruct (write_element c d ltac:(lia) Hd) as (o' & r & W1 & W2 & W3 & W4 & W5 & W6).
    pose proof (octaves_unique c o' W1) as Eo'. rewrite Eo' in *. rewrite <- Eo in *. clear Eo Eo' o'. unfold is_int in *.
    split.
    { intros [X | [X1 X2]]; [contradiction | ]. rewrite (W5 X1 X2). reflexivity. }
    intros X. assert (D : d = 0 \/ -2147483648 <= d - 7 * o <= 2147483647).
    { destruct (Z.eq_dec d 0); [left; assumption | right]. destruct (Z_le_dec (-2147483648) (d - 7 * o)); destruct (Z_le_dec (d - 7 * o) 2147483647); lia. }
    rewrite (W6 D). cbn [omap obind]. cbn [readTransposition]. unfold transposeToText, transposeFromText. cbn [te_diatonic te_chromatic te_octave].
    rewrite construct_default_semitones. cbn [obind tt_chromatic tt_diatonic tt_octave].
    destruct (construct_small r W3) as [_ P]. rewrite P. cbn [omap obind snd].
    set (dia := if (d =? 0) || (d =? 7 * o) then None else Some (d - 7 * o)) in *.
    assert (Ro : option_map integerFromText (option_map print_int (if o =? 0 then None else Some o)) = (if o =? 0 then None else Some o)).
    { destruct (o =? 0); [reflexivity | ]. cbn [option_map]. rewrite integer_text; [reflexivity | unfold is_int; lia]. }
    assert (Rd : option_map integerFromText (option_map print_int dia) = dia).
    { unfold dia. destruct ((d =? 0) || (d =? 7 * o)) eqn:E; [reflexivity | ]. cbn [option_map]. rewrite integer_text; [reflexivity | unfold is_int; lia]. }
    rewrite Ro, Rd.
    set (e := mkTranspose dia (mkPrecise (r <? 0) (Z.abs r) 0 19 6) (if o =? 0 then None else Some o)).
    destruct (read_element e r) as (x & X1 & X2 & X3 & _); [ | lia | ].
    { apply getValue_integer.
      - unfold well_formed, e. cbn [te_chromatic p_int_digits p_dec_digits p_integer p_decimal]. lia.
      - unfold amount, units, e. cbn [te_chromatic p_int_digits p_dec_digits p_integer p_decimal p_negative].
        assert (Y : (if r <? 0 then - (Z.abs r * 10 ^ 6 + 0) else Z.abs r * 10 ^ 6 + 0) = r * 10 ^ 6) by (destruct (r <? 0) eqn:E; bool_hyps; lia).
        rewrite Y, inject_Z_mult. field. discriminate. }
    assert (Oo : match te_octave e with Some z => z | None => 0 end = o).
    { unfold e. cbn [te_octave]. destruct (o =? 0) eqn:E; bool_hyps; congruence. }
    rewrite Oo in X3. unfold e in X1, X2. cbn [te_diatonic] in X1, X2. unfold is_int in X3.
    assert (U : (d = 0 \/ d = 7 * o) -> usual_diatonic r x).
    { intros Y. apply X2. unfold dia. assert ((d =? 0) || (d =? 7 * o) = true) as -> by (apply orb_true_iff; lia). reflexivity. }
    assert (V : d <> 0 -> d <> 7 * o -> x = d - 7 * o).
    { intros Y1 Y2. apply X1. unfold dia. assert ((d =? 0) || (d =? 7 * o) = false) as -> by (apply orb_false_iff; lia). reflexivity. }
    assert (Bx : -2147483648 <= x + o * 7 <= 2147483647).
    { destruct (Z.eq_dec d 0); [ | destruct (Z.eq_dec d (7 * o))].
      - specialize (U (or_introl e0)). unfold usual_diatonic in U. lia.
      - specialize (U (or_intror e0)). unfold usual_diatonic in U. lia.
      - specialize (V n n0). lia. }
    assert (Z.abs (12 * o) <= 2147483647) by (assert (o = 0 \/ (0 < o /\ 0 <= r) \/ (o < 0 /\ r <= 0)) by nia; lia).
    exists (x + o * 7). rewrite X3; [ | lia | lia | lia | lia]. split; [cbn [omap obind]; do 2 f_equal; f_equal; lia | ]. split.
    + intros Y1 Y2. rewrite (V Y1 Y2). lia.
    + intros Y. replace c with (r + 12 * o) by lia. rewrite (Z.mul_comm o 7). apply usual_octaves; [apply U, Y | lia].
Qed.

Lemma roundtrip_exactly c d o : is_int c -> is_int d -> (c, d) <> (0, 0) -> octaves_in c o ->
  ~ (c = -2147483648 \/ (d <> 0 /\ ~ is_int (d - 7 * o))) ->
  (transposition_roundtrip (Some (c, d)) = Ok (Some (c, d)) <-> (d <> 0 /\ d <> 7 * o) \/ usual_diatonic c d).
Proof.
  intros Hc Hd N O D. destruct (roundtrip_cases c d o Hc Hd N O) as [_ X]. destruct (X D) as (d' & E & A & B).
  rewrite E. split.
  - intros Y. injection Y as ->. destruct (Z.eq_dec d 0) as [Z | Z]; [right; apply B; left; exact Z | ].
    destruct (Z.eq_dec d (7 * o)) as [Z' | Z']; [right; apply B; right; exact Z' | left; split; assumption].
  - intros Y. assert (d' = d); [ | congruence].
    destruct (Z.eq_dec d 0) as [Z | Z]; [ | destruct (Z.eq_dec d (7 * o)) as [Z' | Z']; [ | apply A; assumption]].
    + apply (usual_unique c); [apply B; left; exact Z | ]. destruct Y as [[Y _] | Y]; [contradiction | exact Y].
    + apply (usual_unique c); [apply B; right; exact Z' | ]. destruct Y as [[_ Y] | Y]; [contradiction | exact Y].
Qed.

(** Reading any element whose chromatic text is a whole number. *)
Lemma read_text dt ct ot c x : number_text ct x -> (x == inject_Z c)%Q -> -2147483647 <= c <= 2147483647 ->
  exists d o,
  match dt with None => usual_diatonic c d | Some t => (forall n, int_text t n -> is_int n -> d = n) /\ ((forall n, int_text t n -> ~ is_int n) -> d = 0) end /\
  match ot with None => o = 0 | Some t => (forall n, int_text t n -> is_int n -> o = n) /\ ((forall n, int_text t n -> ~ is_int n) -> o = 0) end /\
  (is_int (o * 7) -> is_int (d + o * 7) -> is_int (o * 12) -> is_int (c + o * 12) ->
   readTransposition (Some (mkTransposeText dt (Some ct) ot)) = Ok (Some (c + o * 12, d + o * 7))).
Proof.
  intros N Ex Hc. cbn [readTransposition]. unfold transposeFromText. rewrite construct_default_semitones. cbn [obind tt_chromatic tt_diatonic tt_octave].
  set (p0 := mkPrecise false 0 0 19 6).
  assert (W0 : well_formed p0) by (unfold well_formed, p0; cbn [p_int_digits p_dec_digits p_integer p_decimal]; lia).
  assert (B : (Qabs x < inject_Z (2 ^ 64))%Q).
  { rewrite Ex. unfold Qabs, inject_Z. unfold Qlt. cbn [Qnum Qden]. lia. }
  rewrite (parse_number Semitones p0 ct x N B).
  assert (L : (ld x == inject_Z c)%Q).
  { rewrite (round_to_eq 64 _ _ Ex). apply ld_Z. lia. }
  unfold setValue. rewrite clamp_id by exact I. rewrite (p_setValue_eq p0 _ _ L).
  destruct (set_integer p0 c (wf_digits _ W0) ltac:(lia)) as (r & R1 & R2 & R3). rewrite R1. cbn [omap obind snd].
  set (e := mkTranspose (option_map integerFromText dt) r (option_map integerFromText ot)).
  destruct (read_element e c) as (d & X1 & X2 & X3 & _); [apply getValue_integer; [exact R2 | exact R3] | exact Hc | ].
  exists d, (match te_octave e with Some z => z | None => 0 end).
  assert (T : forall t, (forall n, int_text t n -> is_int n -> integerFromText t = n) /\ ((forall n, int_text t n -> ~ is_int n) -> integerFromText t = 0)).
  { intros t. unfold integerFromText. split.
    - intros n H1 H2. assert (parse_int t = Some n) as -> by (apply parse_int_iff; auto). reflexivity.
    - intros H. destruct (parse_int t) as [n | ] eqn:E; [ | reflexivity]. apply parse_int_iff in E. destruct E as [E1 E2]. destruct (H n E1 E2). }
  split; [ | split].
  - destruct dt as [t | ]; [ | apply X2; reflexivity]. cbn [option_map te_diatonic e] in X1. specialize (X1 _ eq_refl). subst d. apply T.
  - destruct ot as [t | ]; [apply T | reflexivity].
  - intros H1 H2 H3 H4. rewrite X3 by assumption. reflexivity.
Qed.

Lemma transposition_refuted : ~ (forall c d, is_int c -> is_int d -> transposition_roundtrip (Some (c, d)) = Ok (Some (c, d))).
Proof.
  intros H. assert (X := H 1 0 ltac:(unfold is_int; lia) ltac:(unfold is_int; lia)). vm_compute in X. discriminate X.
Qed.
