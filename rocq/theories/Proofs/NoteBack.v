(** Proofs about a note that is written and read back. *)
From Coq Require Import List Ascii Bool String ZArith QArith Qabs Lia Lqa.
From Verif Require Import Model.Base Model.Text Model.Strings Model.LongDouble Model.Integers Model.Decimals Model.Ticks Model.EnumLookup
  Model.CoreEnums Model.ApiEnums Model.ConverterTables Model.Alter Model.MeasureWriter.
From Verif Require Import Proofs.TextProofs Proofs.LongDoubleProofs Proofs.TicksProofs Proofs.MeasureSync Proofs.ReplayProofs Proofs.DotsProofs
  Proofs.AlterProofs Proofs.NotationsProofs.
From Verif Require Import Model.Dots Model.MeasureTypes Model.Equality Model.Notations Model.NoteContent Spec.Intervals Spec.Attachments Spec.NoteReading
  Proofs.NoteProofs Proofs.NoteChildren.
Import ListNotations.
Open Scope Z_scope.
Open Scope nat_scope.
Open Scope list_scope.

(** ** The tuplet *)

Lemma nth_error_nil {A} n : nth_error (@nil A) n = None.
Proof. destruct n; reflexivity. Qed.

Lemma is_one_spec {A} (l : list A) : is_one l = true <-> List.length l = 1.
Proof. destruct l as [|a [|b l]]; cbn; split; intros H; try reflexivity; discriminate H. Qed.

Lemma is_one_not {A} (l : list A) : is_one l = false <-> List.length l <> 1.
Proof. rewrite <- is_one_spec. destruct (is_one l); split; intros H; try reflexivity; try discriminate; exfalso; apply H; reflexivity. Qed.

Lemma start_found l : forall i, i < List.length l ->
  (exists j s, start_from l i = Ok (Some j) /\ j <= i /\ nth_error l j = Some s /\ one_start s /\
     (forall k x, j < k <= i -> nth_error l k = Some x -> ~ one_start x)) \/
  (start_from l i = Ok None /\ (forall k x, k <= i -> nth_error l k = Some x -> ~ one_start x)).
Proof.
  induction i as [|i IH]; intros L.
  - destruct (nth_error l 0) as [s|] eqn:E; [ | apply nth_error_None in E; lia]. cbn [start_from]. rewrite E.
    destruct (is_one (sb_starts s)) eqn:O.
    + left. exists 0, s. split; [reflexivity | ]. split; [lia | ]. split; [exact E | ]. split; [apply is_one_spec, O | ]. intros k x K. lia.
    + right. split; [reflexivity | ]. intros k x K Ex. assert (k = 0) as -> by lia. rewrite E in Ex. injection Ex as <-. apply is_one_not, O.
  - destruct (nth_error l (S i)) as [s|] eqn:E; [ | apply nth_error_None in E; lia]. cbn [start_from]. rewrite E.
    destruct (is_one (sb_starts s)) eqn:O.
    + left. exists (S i), s. split; [reflexivity | ]. split; [lia | ]. split; [exact E | ]. split; [apply is_one_spec, O | ]. intros k x K. lia.
    + destruct IH as [(j & s' & J1 & J2 & J3 & J4 & J5) | [J1 J2]]; [lia | left | right].
      * exists j, s'. split; [exact J1 | ]. split; [lia | ]. split; [exact J3 | ]. split; [exact J4 | ].
        intros k x K Ex. destruct (Nat.eq_dec k (S i)) as [-> | N]; [rewrite E in Ex; injection Ex as <-; apply is_one_not, O | ].
        apply (J5 k x); [lia | exact Ex].
      * split; [exact J1 | ]. intros k x K Ex. destruct (Nat.eq_dec k (S i)) as [-> | N]; [rewrite E in Ex; injection Ex as <-; apply is_one_not, O | ].
        apply (J2 k x); [lia | exact Ex].
Qed.

Lemma stop_found l : forall j,
  (exists m e, find_stop l j = Some e /\ j <= m /\ nth_error l m = Some e /\ one_stop e /\
     (forall k x, j <= k < m -> nth_error l k = Some x -> ~ one_stop x)) \/
  (find_stop l j = None /\ (forall k x, j <= k -> nth_error l k = Some x -> ~ one_stop x)).
Proof.
  unfold find_stop. induction l as [|a l IH]; intros j.
  - right. rewrite skipn_nil. split; [reflexivity | ]. intros k x _ E. rewrite nth_error_nil in E. discriminate E.
  - destruct j as [|j].
    + cbn [skipn find]. destruct (is_one (sb_stops a)) eqn:O.
      * left. exists 0, a. split; [reflexivity | ]. split; [lia | ]. split; [reflexivity | ]. split; [apply is_one_spec, O | ]. intros k x K. lia.
      * destruct (IH 0) as [(m & e & M1 & M2 & M3 & M4 & M5) | [M1 M2]]; rewrite skipn_O in M1; [left | right].
        -- exists (S m), e. split; [exact M1 | ]. split; [lia | ]. split; [exact M3 | ]. split; [exact M4 | ].
           intros [|k] x K E; [injection E as <-; apply is_one_not, O | ]. apply (M5 k x); [lia | exact E].
        -- split; [exact M1 | ]. intros [|k] x K E; [injection E as <-; apply is_one_not, O | ]. apply (M2 k x); [lia | exact E].
    + cbn [skipn]. destruct (IH j) as [(m & e & M1 & M2 & M3 & M4 & M5) | [M1 M2]]; [left | right].
      * exists (S m), e. split; [exact M1 | ]. split; [lia | ]. split; [exact M3 | ]. split; [exact M4 | ].
        intros [|k] x K E; [lia | ]. apply (M5 k x); [lia | exact E].
      * split; [exact M1 | ]. intros [|k] x K E; [lia | ]. apply (M2 k x); [lia | exact E].
Qed.

Lemma around_unique l i s e s' e' : tuplet_around l i s e -> tuplet_around l i s' e' -> s = s' /\ e = e'.
Proof.
  intros (j & m & A1 & A2 & A3 & A4 & A5 & A6 & A7 & A8) (j' & m' & B1 & B2 & B3 & B4 & B5 & B6 & B7 & B8).
  assert (j = j') as <-.
  { destruct (Nat.lt_trichotomy j j') as [L | [E | L]]; [ | exact E | ].
    - exfalso. apply (A7 j' s'); [lia | exact B3 | exact B5].
    - exfalso. apply (B7 j s); [lia | exact A3 | exact A5]. }
  assert (m = m') as <-.
  { destruct (Nat.lt_trichotomy m m') as [L | [E | L]]; [ | exact E | ].
    - exfalso. apply (B8 m e); [lia | exact A4 | exact A6].
    - exfalso. apply (A8 m' e'); [lia | exact B4 | exact B6]. }
  split; congruence.
Qed.

Lemma nth_ok l j s : Forall sibling_ok l -> nth_error l j = Some s -> sibling_ok s.
Proof. intros F E. rewrite Forall_forall in F. apply F. apply nth_error_In in E. exact E. Qed.

Lemma as_int_small z : (- 2 ^ 31 <= z < 2 ^ 31)%Z -> as_int z = Ok z.
Proof. intros H. apply as_int_ok. lia. Qed.

Definition core_group (g : option (duration_name * nat)) : option (NoteTypeValue * nat) :=
  option_map (fun p => (durationMap_toCore (name_of (fst p)), snd p)) g.

Lemma group_found ticks s e : sibling_ok s -> sibling_ok e -> one_start s -> normal_group ticks s e = Ok (core_group (normal_note ticks s e)).
Proof.
  intros (S1 & S2 & S3) (E1 & E2 & E3) O. unfold normal_group, normal_note, tuplet_length.
  rewrite as_int_small by lia. cbn [obind]. rewrite as_int_small by lia. cbn [obind].
  unfold one_start in O. destruct (sb_starts s) as [|t [|u r]]; try discriminate O.
  destruct ((0 <? sb_tick e + sb_ticks e - sb_tick s) && negb (normalNumber t =? 0) && negb (actualNumber t =? 0))%Z; reflexivity.
Qed.

Lemma normal_found ticks l i : (l = [] \/ i < List.length l) -> Forall sibling_ok l ->
  exists g, normal_says ticks l i g /\
    obind (find_start l i) (fun s => match s with
      | None => Ok None
      | Some j => match nth_error l j, find_stop l j with
                  | Some a, Some b => normal_group ticks a b
                  | _, _ => Ok None
                  end
      end) = Ok (core_group g).
Proof.
  intros [-> | L] F.
  - exists None. split; [ | reflexivity]. split; [ | reflexivity].
    intros s e (j & m & _ & _ & E & _). rewrite nth_error_nil in E. discriminate E.
  - assert (E0 : find_start l i = start_from l i) by (destruct l; [cbn in L; lia | reflexivity]). rewrite E0.
    destruct (start_found l i L) as [(j & s & J1 & J2 & J3 & J4 & J5) | [J1 J2]].
    + rewrite J1. cbn [obind]. rewrite J3.
      destruct (stop_found l j) as [(m & e & M1 & M2 & M3 & M4 & M5) | [M1 M2]].
      * rewrite M1. assert (A : tuplet_around l i s e) by (exists j, m; tauto).
        exists (normal_note ticks s e). split.
        -- split; [ | intros N; destruct (N s e A)]. intros s' e' A'. destruct (around_unique _ _ _ _ _ _ A A') as [<- <-]. reflexivity.
        -- apply group_found; [eapply nth_ok; eassumption | eapply nth_ok; eassumption | exact J4].
      * rewrite M1. exists None. split; [ | reflexivity]. split; [ | reflexivity].
        intros s' e' (j' & m' & A1 & A2 & A3 & A4 & A5 & A6 & A7 & A8). exfalso.
        assert (j' = j) as ->.
        { destruct (Nat.lt_trichotomy j j') as [Q | [Q | Q]]; [ | symmetry; exact Q | ].
          - exfalso. apply (J5 j' s'); [lia | exact A3 | exact A5].
          - exfalso. apply (A7 j s); [lia | exact J3 | exact J4]. }
        apply (M2 m' e'); [lia | exact A4 | exact A6].
    + rewrite J1. cbn [obind]. exists None. split; [ | reflexivity]. split; [ | reflexivity].
      intros s' e' (j' & m' & A1 & A2 & A3 & A4 & A5 & A6 & A7 & A8). exfalso. apply (J2 j' s'); assumption.
Qed.

(** What the two conditions of a ratio have in common. *)
Lemma ratio_condition d : ((0 <? timeModificationNormalNotes d) && (0 <? timeModificationActualNotes d)
     && ((1 <? timeModificationNormalNotes d) || (1 <? timeModificationActualNotes d)))%Z = ratio d.
Proof.
  unfold ratio. destruct (Z.ltb_spec 0 (timeModificationNormalNotes d)), (Z.ltb_spec 0 (timeModificationActualNotes d)),
    (Z.ltb_spec 1 (timeModificationNormalNotes d)), (Z.ltb_spec 1 (timeModificationActualNotes d)),
    (Z.eqb_spec (timeModificationActualNotes d) 1), (Z.eqb_spec (timeModificationNormalNotes d) 1); cbn; reflexivity || (exfalso; lia).
Qed.

Lemma nonnegative_value n : (0 < n < 2 ^ 31)%Z -> ir_value (Integers.construct NonNegativeInteger n) = n.
Proof.
  intros H. unfold Integers.construct, mk_int_range, Integers.clamp. cbn [ctor_bounds fst snd ir_value]. unfold int_max.
  destruct (Z.ltb_spec n 0); [lia | ]. destruct (Z.ltb_spec 2147483647 n); lia.
Qed.

Lemma octave_value n : ir_value (Integers.construct OctaveValue n) = Z.max 0 (Z.min 9 n).
Proof.
  unfold Integers.construct, mk_int_range, Integers.clamp. cbn [ctor_bounds fst snd ir_value].
  destruct (Z.ltb_spec n 0); [lia | ]. destruct (Z.ltb_spec 9 n); lia.
Qed.

Lemma time_written ticks l i d : (l = [] \/ i < List.length l) -> Forall sibling_ok l ->
  an_int (timeModificationActualNotes d) -> an_int (timeModificationNormalNotes d) ->
  exists g, normal_says ticks l i g /\
    write_time ticks l i d =
      Ok (if ratio d then Some (mkXTime (timeModificationActualNotes d) (timeModificationNormalNotes d) (core_group g)) else None).
Proof.
  intros L F A N. destruct (normal_found ticks l i L F) as (g & G1 & G2). exists g. split; [exact G1 | ].
  unfold write_time. rewrite ratio_condition. destruct (ratio d) eqn:R; [ | reflexivity].
  unfold ratio in R. apply andb_prop in R as [R _]. apply andb_prop in R as [R1 R2]. apply Z.ltb_lt in R1, R2. unfold an_int in *.
  rewrite !nonnegative_value by lia.
  destruct (find_start l i) as [o| |] eqn:E; cbn [obind] in *; try discriminate G2. rewrite G2. reflexivity.
Qed.

(** ** The length *)

Lemma decimal_element t n : decimal_value t (inject_Z n) = element_value t n.
Proof. reflexivity. Qed.

Lemma clamp_low n : (n <= 0)%Z -> element_value PositiveDivisionsValue n = element_value PositiveDivisionsValue 0.
Proof.
  intros H. unfold element_value, construct.
  assert (E : Decimals.clamp PositiveDivisionsValue (inject_Z n) = Decimals.clamp PositiveDivisionsValue (inject_Z 0)).
  { unfold Decimals.clamp. cbn [low high min_clamp max_clamp].
    assert (Qle_bool (inject_Z n) (inject_Z 0) = true) as -> by (apply Qle_bool_iff; rewrite <- Zle_Qle; exact H). reflexivity. }
  rewrite E. reflexivity.
Qed.

Lemma element_tiny : exists q, element_value PositiveDivisionsValue 0 = Ok q /\ (0 < q)%Q /\ (q <= 1 # 100000)%Q /\ round_half q = 0%Z.
Proof.
  set (o := element_value PositiveDivisionsValue 0). vm_compute in o. unfold o. eexists. split; [reflexivity | ].
  split; [vm_compute; reflexivity | split; vm_compute; [discriminate | reflexivity]].
Qed.

(** The value of the duration of a note of [n] ticks. *)
Definition near_ticks (n : Z) (q : Q) : Prop := (q == inject_Z n)%Q \/ (n = 0%Z /\ (0 < q)%Q /\ (q <= 1 # 100000)%Q).

Lemma duration_written n : an_int n ->
  exists q, decimal_value PositiveDivisionsValue (inject_Z n) = Ok q /\ near_ticks (Z.max 0 n) q /\ round_half q = Z.max 0 n.
Proof.
  intros H. unfold an_int in H. rewrite decimal_element. destruct (Z_le_gt_dec n 0) as [L | L].
  - rewrite (clamp_low n L). destruct element_tiny as (q & Q1 & Q2 & Q3 & Q4). exists q. replace (Z.max 0 n) with 0%Z by lia.
    split; [exact Q1 | ]. split; [right; tauto | exact Q4].
  - destruct (positive_value n) as (q & Q1 & Q2 & Q3); [lia | ]. exists q. replace (Z.max 0 n) with n by lia.
    split; [exact Q1 | ]. split; [left; apply exact_value; [lia | exact Q1] | exact Q3].
Qed.

Lemma dur_positive n : (1 # 512 <= dur_quarters n)%Q.
Proof. destruct n; vm_compute; discriminate. Qed.

Lemma epsilon_size : (0 < epsilon)%Q /\ (epsilon < 1 # 1000)%Q.
Proof. split; vm_compute; reflexivity. Qed.

Lemma dur_exact n t : (dur_quarters n * inject_Z t == inject_Z (dur_512 n * t) * pow2 (-9))%Q.
Proof. rewrite inject_Z_mult. destruct n; cbn [dur_quarters dur_512]; change (pow2 (-9)) with (1 # 512)%Q; unfold inject_Z at 2; field. Qed.

Lemma dur_bound n : (2 <= dur_512 n <= 16384)%Z.
Proof. destruct n; cbn [dur_512]; lia. Qed.

Lemma same_length t k q n : (0 < t <= 2147483647)%Z -> (0 <= k < 2 ^ 31)%Z -> near_ticks k q ->
  areSame q (ld (dur_quarters n * inject_Z t)) = true <-> (inject_Z k == dur_quarters n * inject_Z t)%Q.
Proof.
  intros T K N. unfold areSame. pose proof (dur_bound n) as B. destruct epsilon_size as [P0 P1].
  assert (Ev : (ld (dur_quarters n * inject_Z t) == inject_Z (dur_512 n * t) * pow2 (-9))%Q).
  { rewrite (ld_eq _ _ (dur_exact n t)). apply ld_scaled. assert (16384 * 2147483647 < 2 ^ 64)%Z by reflexivity. nia. }
  assert (P : (pow2 (-9) == 1 # 512)%Q) by reflexivity.
  assert (M : (1 <= inject_Z t)%Q) by (change 1%Q with (inject_Z 1); rewrite <- Zle_Qle; lia).
  destruct N as [N | (-> & N1 & N2)].
  - assert (Q : (inject_Z k == dur_quarters n * inject_Z t)%Q <-> (k * 512 - dur_512 n * t = 0)%Z).
    { rewrite dur_exact, P. split.
      - intros E. assert (E' : (inject_Z (k * 512) == inject_Z (dur_512 n * t))%Q) by (rewrite inject_Z_mult, E; change (inject_Z 512) with 512%Q; field).
        apply (proj1 (inject_Z_injective _ _)) in E'. lia.
      - intros E. assert (E' : (dur_512 n * t = k * 512)%Z) by lia. rewrite E', inject_Z_mult. change (inject_Z 512) with 512%Q. field. }
    rewrite Q.
    assert (D : (q - ld (dur_quarters n * inject_Z t) == inject_Z (k * 512 - dur_512 n * t) * pow2 (-9))%Q).
    { rewrite Ev, N, P. unfold Z.sub. rewrite inject_Z_plus, inject_Z_opp, (inject_Z_mult k). change (inject_Z 512) with 512%Q. field. }
    assert (L : (ld (q - ld (dur_quarters n * inject_Z t)) == inject_Z (k * 512 - dur_512 n * t) * pow2 (-9))%Q).
    { rewrite (ld_eq _ _ D). apply ld_scaled. assert (16384 * 2147483647 + 512 * 2 ^ 31 < 2 ^ 64)%Z by reflexivity. nia. }
    assert (La : (Qabs (ld (q - ld (dur_quarters n * inject_Z t))) == inject_Z (Z.abs (k * 512 - dur_512 n * t)) * (1 # 512))%Q).
    { rewrite L, Qabs_Qmult, P. reflexivity. }
    set (z := (k * 512 - dur_512 n * t)%Z) in *. destruct (Z.eq_dec z 0) as [E | E].
    + split; [intros _; exact E | intros _]. rewrite E in La. change (inject_Z (Z.abs 0)) with 0%Q in La.
      apply negb_true_iff. apply not_true_is_false. rewrite Qle_bool_iff. rewrite La. lra.
    + split; [ | contradiction]. intros H. exfalso. apply negb_true_iff in H. apply not_true_iff_false in H. apply H.
      rewrite Qle_bool_iff, La. assert (1 <= inject_Z (Z.abs z))%Q by (change 1%Q with (inject_Z 1); rewrite <- Zle_Qle; lia). lra.
  - assert (G : (2 # 512 <= dur_quarters n * inject_Z t)%Q).
    { rewrite dur_exact, P. assert (2 <= inject_Z (dur_512 n * t))%Q by (change 2%Q with (inject_Z 2); rewrite <- Zle_Qle; nia). lra. }
    split.
    + intros H. exfalso. apply negb_true_iff in H. apply not_true_iff_false in H. apply H. rewrite Qle_bool_iff.
      assert (D : (q - ld (dur_quarters n * inject_Z t) <= - (1 # 512))%Q).
      { rewrite Ev, <- dur_exact. lra. }
      assert (L : (ld (q - ld (dur_quarters n * inject_Z t)) <= - (1 # 512))%Q).
      { apply ld_le; [ | exact D]. exists (-1)%Z, (-9)%Z. split; [reflexivity | reflexivity]. }
      apply Qabs_case; intros; lra.
    + intros E. exfalso. change (inject_Z 0) with 0%Q in E. lra.
Qed.

Lemma zero_length t n : (0 < t <= 2147483647)%Z ->
  areSame 0 (ld (dur_quarters n * inject_Z t)) = true <-> (inject_Z 0 == dur_quarters n * inject_Z t)%Q.
Proof. intros T. apply same_length; [exact T | lia | left; reflexivity]. Qed.

Lemma api_name_of n : api_name n = name_of n.
Proof. destruct n; reflexivity. Qed.

Lemma rest_named t k q : (0 < t <= 2147483647)%Z -> (0 <= k < 2 ^ 31)%Z -> near_ticks k q -> rest_name t k (deriveNoteType t q).
Proof.
  intros T K N. unfold deriveNoteType.
  destruct (find (fun n => areSame q (ld (dur_quarters n * inject_Z t))) names_derived) as [n|] eqn:E.
  - apply find_some in E as [E1 E2]. left. exists n. split; [exact E1 | ]. split; [apply (same_length t k q n T K N), E2 | apply api_name_of].
  - right. split; [ | reflexivity]. intros d I H. apply (same_length t k q d T K N) in H. pose proof (find_none _ _ E d I) as X. cbn beta in X. congruence.
Qed.

(** ** The content *)

Lemma name_api n : durationMap_toApi (durationMap_toCore n) = name_kept n.
Proof. destruct n; reflexivity. Qed.
Lemma step_api s : stepMap_toApi (stepMap_toCore s) = step_kept s.
Proof. destruct s; reflexivity. Qed.
Lemma name_of_api m : durationMap_toApi (durationMap_toCore (name_of m)) = name_of m.
Proof. destruct m; reflexivity. Qed.

Lemma type_same m n : (NoteTypeValue_value (durationMap_toCore (name_of m)) =? NoteTypeValue_value (durationMap_toCore n))%Z = true <-> name_of m = name_kept n.
Proof. destruct m, n; vm_compute; split; intros H; try reflexivity; discriminate H. Qed.

Lemma type_maxima m : (NoteTypeValue_value (durationMap_toCore (name_of m)) =? NoteTypeValue_value NoteTypeValue_maxima)%Z = true <-> name_of m = api_DurationName_maxima.
Proof. destruct m; vm_compute; split; intros H; try reflexivity; discriminate H. Qed.

Lemma ties_start n : existsb is_start (write_ties n) = isTieStart n.
Proof. unfold write_ties. destruct (isTieStop n), (isTieStart n); reflexivity. Qed.
Lemma ties_stop n : existsb is_stop (write_ties n) = isTieStop n.
Proof. unfold write_ties. destruct (isTieStop n), (isTieStart n); reflexivity. Qed.

(** What is written of the sound, and what is read of it. *)
Lemma full_back n : content_ok n -> exists f, write_full n = Ok f /\
  is_rest f = isRest n /\ is_measure_rest f = measure_rest n /\ is_unpitched f = (negb (isRest n) && isUnpitched n)%bool /\ has_display f = false /\
  exists s a c o, reader_pitch f = Ok (s, a, c, o) /\
    (if pitched n
     then stepMap_toApi s = step_kept (step (pitchData n)) /\ o = Z.max 0 (Z.min 9 (octave (pitchData n))) /\ kept (alter (pitchData n)) (cents (pitchData n)) (Ok (a, c))
     else stepMap_toApi s = api_Step_c /\ o = 4%Z /\ a = 0%Z /\ c = 0%Q).
Proof.
  intros (A & C & _). unfold write_full, measure_rest, pitched. destruct (isRest n); cbn [negb andb].
  - eexists. split; [reflexivity | ]. split; [reflexivity | ]. split; [destruct (isMeasureRest n); reflexivity | ].
    split; [reflexivity | ]. split; [reflexivity | ]. exists StepEnum_c, 0%Z, 0%Q, 4%Z. split; [reflexivity | ]. repeat split; reflexivity.
  - destruct (isUnpitched n); cbn [negb andb].
    + eexists. split; [reflexivity | ]. split; [reflexivity | ]. split; [reflexivity | ].
      split; [reflexivity | ]. split; [reflexivity | ]. exists StepEnum_c, 0%Z, 0%Q, 4%Z. split; [reflexivity | ]. repeat split; reflexivity.
    + pose proof (alter_kept _ _ A C) as K. unfold alter_roundtrip in K.
      destruct (writeAlter (alter (pitchData n)) (cents (pitchData n))) as [t| |] eqn:W;
        [ | destruct K as (? & ? & K & _); discriminate K | destruct K as (? & ? & K & _); discriminate K].
      cbn [obind] in K. pose proof K as K'. destruct K' as (a & c & R & _). rewrite R in K.
      eexists. split; [reflexivity | ]. split; [reflexivity | ]. split; [reflexivity | ].
      split; [reflexivity | ]. split; [reflexivity | ]. eexists _, a, c, _. cbn [reader_pitch]. rewrite R. cbn [omap obind fst snd].
      split; [reflexivity | ]. split; [apply step_api | ]. split; [apply octave_value | exact K].
Qed.

Lemma choice_written chord n : content_ok n -> exists f q, write_full n = Ok f /\
  write_choice chord n = Ok (only_choice (noteType n) (mkNoteGroup chord f q (match noteType n with CueNote => [] | _ => write_ties n end))) /\
  group_ok (noteType n) (mkNoteGroup chord f q (match noteType n with CueNote => [] | _ => write_ties n end)) /\
  let v := match noteType n with GraceNote => 0%Q | _ => q end in
  near_ticks (ticks_kept n) v /\ round_half v = ticks_kept n /\ (0 <= ticks_kept n < 2 ^ 31)%Z.
Proof.
  intros OK. pose proof OK as (_ & _ & T & _). destruct (full_back n OK) as (f & F & _). unfold write_choice, ticks_kept. rewrite F. cbn [obind].
  destruct (duration_written _ T) as (q & Q1 & Q2 & Q3). unfold an_int in T.
  destruct (noteType n).
  - exists f, q. split; [reflexivity | ]. rewrite Q1. split; [reflexivity | ]. split; [exact I | ]. cbv zeta. split; [exact Q2 | ]. split; [exact Q3 | ]. lia.
  - exists f, q. split; [reflexivity | ]. rewrite Q1. split; [reflexivity | ]. split; [reflexivity | ]. cbv zeta. split; [exact Q2 | ]. split; [exact Q3 | ]. lia.
  - exists f, 1%Q. split; [reflexivity | ]. split; [reflexivity | ]. split; [reflexivity | ]. cbv zeta. split; [left; reflexivity | ]. split; [reflexivity | ]. lia.
Qed.

Lemma only_kind k g : nc_kind (only_choice k g) = k. Proof. destruct k; reflexivity. Qed.
Lemma only_group k g : group_of (only_choice k g) = g. Proof. destruct k; reflexivity. Qed.

Lemma note_returns ticks chord staff voice l i n :
  (0 < ticks < 2 ^ 31)%Z -> (l = [] \/ i < List.length l) -> Forall sibling_ok l -> content_ok n ->
  exists m, note_back ticks chord staff voice l i n = Ok (Some m) /\ content_back ticks l i n m.
Proof.
  intros T L F OK. pose proof OK as (_ & _ & _ & A & N & P).
  destruct (full_back n OK) as (f & F1 & R1 & R2 & R3 & R4 & s & a & c & o & R5 & R6).
  destruct (choice_written chord n OK) as (f' & q & F1' & C1 & C2 & C3 & C4 & C5). rewrite F1 in F1'. injection F1' as <-.
  destruct (time_written ticks l i (durationData n) L F A N) as (g & G1 & G2).
  destruct (position_ok_back note_declares _ P eq_refl) as (p & P1 & P2).
  unfold note_back, write_note. rewrite C1. cbn [obind]. rewrite P1. cbn [obind]. rewrite G2. cbn [obind].
  match goal with |- context [read_note _ _ (stream_note ?x)] => set (x0 := x) end.
  rewrite (children_back x0 _ _ eq_refl C2).
  unfold x0. cbn [x_position x_printObject x_choice x_instrument x_footnote x_level x_voice x_type x_dots x_accidental x_time x_stem x_notehead
      x_noteheadText x_staff x_beams x_notations x_lyrics x_play].
  unfold parse_note. cbn [x_position x_printObject x_choice x_instrument x_footnote x_level x_voice x_type x_dots x_accidental x_time x_stem x_notehead
      x_noteheadText x_staff x_beams x_notations x_lyrics x_play]. cbv zeta.
  match goal with |- context [read_pitch ?x] => set (x1 := x) end.
  rewrite only_kind, only_group. cbn [ng_full ng_ties].
  (* the pitch *)
  assert (Pi : exists pd, read_pitch x1 = Ok pd /\ pitch_back n pd).
  { unfold read_pitch, x1. cbn [x_choice x_accidental]. rewrite only_group. cbn [ng_full]. rewrite R5. cbn [omap obind].
    eexists. split; [reflexivity | ]. unfold pitch_back.
    destruct (accidental (pitchData n)); cbn [step alter cents accidental octave isAccidentalParenthetical isAccidentalCautionary
      isAccidentalEditorial isAccidentalBracketed is_yes ac_value ac_parentheses ac_cautionary ac_editorial ac_bracket];
      (split; [destruct (pitched n); exact R6 | ]); repeat split; reflexivity. }
  destruct Pi as (pd & Pi1 & Pi2). rewrite Pi1. cbn [obind].
  (* the duration *)
  assert (Du : exists dd, read_duration ticks ticks x1 = Ok dd /\ duration_back ticks l i n dd).
  { unfold read_duration.
    assert (V : duration_value x1 = match noteType n with GraceNote => 0%Q | _ => q end).
    { unfold duration_value, x1. cbn [x_choice]. rewrite only_kind, only_group. destruct (noteType n); reflexivity. }
    rewrite V. assert (Cv : convertDuration ticks ticks (match noteType n with GraceNote => 0%Q | _ => q end) = Ok (ticks_kept n)).
    { unfold convertDuration. rewrite Z.eqb_refl. cbv zeta in C4. rewrite C4. apply as_int_ok. lia. }
    rewrite Cv. cbn [omap obind].
    assert (Ty : x_type x1 = if negb (measure_rest n) then Some (durationMap_toCore (durationName (durationData n))) else None).
    { unfold x1, measure_rest. cbn [x_type]. rewrite negb_andb. reflexivity. }
    assert (Ti : x_time x1 = if ratio (durationData n) then Some (mkXTime (timeModificationActualNotes (durationData n)) (timeModificationNormalNotes (durationData n)) (core_group g)) else None) by reflexivity.
    assert (Do : Z.of_nat (x_dots x1) = Z.max 0 (durationDots (durationData n))) by (unfold x1; cbn [x_dots]; lia).
    clearbody x1. unfold reader_time. rewrite Ti, Do. unfold duration_type. rewrite Ty.
    assert (Rn : measure_rest n = true -> rest_name ticks (ticks_kept n) (deriveNoteType ticks (match noteType n with GraceNote => 0%Q | _ => q end))).
    { intros _. apply rest_named; [lia | exact C5 | exact C3]. }
    set (dn := deriveNoteType ticks (match noteType n with GraceNote => 0%Q | _ => q end)) in *.
    set (own := if measure_rest n then api_DurationName_maxima else name_kept (durationName (durationData n))).
    assert (Own : forall m, (NoteTypeValue_value (durationMap_toCore (name_of m)) =?
        NoteTypeValue_value (match (if negb (measure_rest n) then Some (durationMap_toCore (durationName (durationData n))) else None) with Some t => t | None => NoteTypeValue_maxima end))%Z = true
        <-> name_of m = own).
    { intros m. unfold own. destruct (measure_rest n); cbn [negb]; [apply type_maxima | apply type_same]. }
    assert (Nm : (if measure_rest n then rest_name ticks (ticks_kept n) (match (if negb (measure_rest n) then Some (durationMap_toCore (durationName (durationData n))) else None) with Some t => durationMap_toApi t | None => dn end)
       else (match (if negb (measure_rest n) then Some (durationMap_toCore (durationName (durationData n))) else None) with Some t => durationMap_toApi t | None => dn end) = name_kept (durationName (durationData n)))).
    { destruct (measure_rest n); cbn [negb]; [apply Rn; reflexivity | apply name_api]. }
    set (nm := match (if negb (measure_rest n) then Some (durationMap_toCore (durationName (durationData n))) else None) with Some t => durationMap_toApi t | None => dn end) in *.
    set (ty := match (if negb (measure_rest n) then Some (durationMap_toCore (durationName (durationData n))) else None) with Some t => t | None => NoteTypeValue_maxima end) in *.
    destruct (ratio (durationData n)) eqn:Ra.
    - destruct g as [[m k]|]; cbn [core_group option_map tm_group tm_actual tm_normal fst snd].
      + eexists. split; [reflexivity | ]. unfold duration_back.
        cbn [durationName durationDots durationTimeTicks isTied timeModificationActualNotes timeModificationNormalNotes timeModificationNormalType timeModificationNormalTypeDots].
        fold own. rewrite Ra.
        split; [exact Nm | ]. split; [reflexivity | ]. split; [reflexivity | ]. split; [reflexivity | ]. split; [reflexivity | ]. split; [reflexivity | ].
        exists (Some (m, k)). split; [exact G1 | ]. cbv zeta. split.
        * intros m' k' _ E Ne. injection E as <- ->.
          destruct (NoteTypeValue_value (durationMap_toCore (name_of m)) =? NoteTypeValue_value ty)%Z eqn:Q; [exfalso; apply Ne, (Own m), Q | ].
          assert ((0 <? Z.of_nat (S k'))%Z = true) as -> by (apply Z.ltb_lt; lia). cbn [negb andb]. split; [apply name_of_api | reflexivity].
        * intros [H | [H | [[m' H] | (m' & k' & H & H')]]]; try discriminate H.
          -- injection H as <- ->. cbn. split; reflexivity.
          -- injection H as <- <-. apply (proj2 (Own m)) in H'. rewrite H'. cbn [negb]. rewrite andb_false_r. split; reflexivity.
      + eexists. split; [reflexivity | ]. unfold duration_back.
        cbn [durationName durationDots durationTimeTicks isTied timeModificationActualNotes timeModificationNormalNotes timeModificationNormalType timeModificationNormalTypeDots].
        fold own. rewrite Ra.
        split; [exact Nm | ]. split; [reflexivity | ]. split; [reflexivity | ]. split; [reflexivity | ]. split; [reflexivity | ]. split; [reflexivity | ].
        exists None. split; [exact G1 | ]. cbv zeta. split; [intros m' k' _ E; discriminate E | ]. intros _. split; reflexivity.
    - eexists. split; [reflexivity | ]. unfold duration_back.
        cbn [durationName durationDots durationTimeTicks isTied timeModificationActualNotes timeModificationNormalNotes timeModificationNormalType timeModificationNormalTypeDots].
        fold own. rewrite Ra.
        split; [exact Nm | ]. split; [reflexivity | ]. split; [reflexivity | ]. split; [reflexivity | ]. split; [reflexivity | ]. split; [reflexivity | ].
        exists g. split; [exact G1 | ]. cbv zeta. split; [intros m' k' E; discriminate E | ]. intros _. split; reflexivity. }
  destruct Du as (dd & Du1 & Du2). rewrite Du1. cbn [obind omap].
  eexists. split; [reflexivity | ]. unfold content_back.
  cbn [isRest isMeasureRest isUnpitched isDisplayStepOctaveSpecified isTieStart isTieStop noteType notehead pitchData stem durationData beams notePosition printObject miscData].
  split; [exact R1 | ]. split; [exact R2 | ]. split; [exact R3 | ]. split; [exact R4 | ].
  split; [destruct (noteType n); cbn [is_cue negb andb existsb]; rewrite ?ties_start; reflexivity | ].
  split; [destruct (noteType n); cbn [is_cue negb andb existsb]; rewrite ?ties_stop; reflexivity | ].
  split; [reflexivity | ]. split; [destruct (notehead n); reflexivity | ]. split; [exact Pi2 | ]. split; [destruct (stem n); reflexivity | ].
  split; [exact Du2 | ]. split; [apply beams_back | ]. split; [exact P2 | ]. split; [reflexivity | ].
  unfold footnote_back. apply parse_misc_back.
Qed.
