(** Keys that are read, written, and written and read back. *)
From Coq Require Import List Ascii Bool String ZArith QArith Qabs Lia.
From Verif Require Import Model.Base Model.Text Model.Integers Model.Alter Model.EnumLookup Model.CoreEnums Model.ApiEnums
  Model.ConverterTables Model.CustomEnums Model.ClefsKeys Spec.Numerals Spec.DecimalText Spec.Intervals Spec.TextEnum Spec.SchemaTexts Spec.Conversion
  Spec.ClefKeyText Proofs.Tac Proofs.TextProofs Proofs.IntegersProofs Proofs.StringsProofs Proofs.DecimalsText Proofs.EnumTables Proofs.ConversionTables
  Proofs.AlterProofs Proofs.AlterReading Proofs.ClefKeyProofs.
Import ListNotations.
Local Open Scope Z_scope.

(** ** Reading *)

Lemma key_any tick staves f : traditional_key (fk_children f) -> exists k, read_key tick staves f = Ok k /\ key_said tick staves f k.
Proof.
  intros T. destruct (key_read_state f) as (N & (vf & F1 & F2) & F3 & F4 & (vc & C1 & C2) & C3 & C4 & C5 & (t & M1 & M2) & Kd & _).
  unfold read_key, import_key. destruct (xk_isNonTraditional (read_xkey f)); [destruct (Kd T) | ].
  eexists. split; [reflexivity | ]. unfold key_said. cbn [ky_fifths ky_cancel ky_mode ky_tick ky_staff ky_nonTraditional].
  split; [exists vf; split; assumption | ].
  split; [exists vc; split; [exact C1 | ]; destruct (xk_hasCancel (read_xkey f)); [exact C2 | rewrite <- C2; symmetry; exact (C5 eq_refl)] | ].
  split.
  { exists t. split; [exact M1 | ]. destruct t as [t | ].
    - destruct M2 as (m & -> & E). cbn beta iota. rewrite E.
      destruct ModeEnum_text as (_ & _ & P & _ & Q & _).
      destruct (tryParse_ModeEnum t) as [v | ] eqn:Tv.
      + apply Q in Tv. subst t. destruct v; first [reflexivity | split; discriminate].
      + assert (X : forall v, t <> ModeEnum_toString v) by (intros v ->; destruct (P v) as [Y _]; congruence).
        split; intros Y; injection Y as Y; [exact (X ModeEnum_major Y) | exact (X ModeEnum_minor Y)].
    - rewrite M2. split; discriminate. }
  split; [reflexivity | ]. split; [ | reflexivity]. rewrite N. destruct (fk_number f) as [n | ].
  - destruct (staves - 1 <? n - 1) eqn:L; bool_hyps; [right; split; [reflexivity | intros m E; injection E as <-; lia] | ].
    left. exists n. split; [reflexivity | ]. split; [reflexivity | lia].
  - right. split; [reflexivity | discriminate].
Qed.


Lemma step_known v : stepMap_toApi v <> api_Step_unspecified /\ StepEnum_toString v = step_text (stepMap_toApi v).
Proof. destruct v; (split; [vm_compute; discriminate | vm_compute; reflexivity]). Qed.

Lemma steps_all s : In (step_text s) (map StepEnum_toString StepEnum_members).
Proof. destruct s; vm_compute; tauto. Qed.

Lemma component_any p x : component_is p x -> component_sized p -> exists k, read_component x = Ok k /\ component_said p k.
Proof.
  intros (I1 & I2 & I3) S. unfold read_component. rewrite I2. unfold component_sized in S.
  assert (A : exists s c, match fp_alter p with Some t => readKeyAlter t | None => Ok (0, 0%Q) end = Ok (s, c) /\
    match fp_alter p with
    | Some t => (exists x, number_text t x /\ alter_said x s c) \/ ((forall x, ~ number_text t x) /\ s = 0 /\ c = 0%Q)
    | None => s = 0 /\ c = 0%Q
    end).
  { destruct (fp_alter p) as [t | ]; [ | exists 0, 0%Q; repeat split].
    destruct (Model.Decimals.scan_decimal t) as [[q rest] | ] eqn:Sc.
    - destruct (skip_ws rest) as [ | ch r] eqn:W.
      + pose proof (scan_sound t q rest Sc W) as N. destruct (text_said t q N (S q N)) as (s & c & _ & R & Sd). exists s, c. split; [exact R | ].
        left. exists q. split; assumption.
      + assert (N : forall x, ~ number_text t x).
        { intros y N. destruct (scan_complete t y N) as (rest' & E' & W'). rewrite Sc in E'. injection E' as _ <-. rewrite W in W'. discriminate W'. }
        exists 0, 0%Q. split; [exact (proj2 (text_not_said t N)) | ]. right. repeat split. exact N.
    - assert (N : forall x, ~ number_text t x).
      { intros y N. destruct (scan_complete t y N) as (rest' & E' & W'). rewrite Sc in E'. discriminate E'. }
      exists 0, 0%Q. split; [exact (proj2 (text_not_said t N)) | ]. right. repeat split. exact N. }
  destruct A as (s & c & A1 & A2). rewrite A1. cbn [omap obind]. eexists. split; [reflexivity | ].
  unfold component_said. cbn [kc_step kc_alter kc_cents kc_accidental fst snd].
  destruct (step_known (xk_step x)) as [K1 K2]. split; [exact K1 | ]. split.
  { rewrite I1. destruct (fp_step p) as [t | ]; [ | right; split; [reflexivity | discriminate]].
    destruct StepEnum_text as (_ & T & P & _ & _ & F). destruct (in_dec (list_eq_dec ascii_dec) t schema_step) as [I | N].
    - rewrite <- T in I. apply in_map_iff in I as (v & <- & _). left. rewrite (proj2 (P v)). f_equal. apply step_known.
    - right. destruct (F t N) as [_ ->]. split; [reflexivity | ]. intros u E. injection E as ->. apply N. rewrite <- T. apply steps_all. }
  split; [exact A2 | ]. rewrite I3. destruct (fp_accidental p) as [t | ]; cbn [option_map]; [ | reflexivity].
  exists (parse_AccidentalValue t). split; [reflexivity | ].
  destruct AccidentalValue_text as (M & T & P & _ & _ & F). destruct (in_dec (list_eq_dec ascii_dec) t schema_accidental_value) as [I | N].
  - rewrite <- T in I. apply in_map_iff in I as (v & <- & _). left. rewrite (proj2 (P v)). reflexivity.
  - right. destruct (F t N) as [_ ->]. split; [reflexivity | ]. intros b E. apply N. rewrite <- T, E. apply in_map, M.
Qed.

Lemma outcome_map_all {A B} (f : A -> outcome B) (P : A -> B -> Prop) l :
  Forall (fun x => exists y, f x = Ok y /\ P x y) l -> exists m, outcome_map f l = Ok m /\ Forall2 P l m.
Proof.
  induction 1 as [ | x l (y & E & Y) _ (m & M & F)].
  - exists []. split; [reflexivity | constructor].
  - exists (y :: m). cbn [outcome_map]. rewrite E. cbn [obind]. rewrite M. split; [reflexivity | constructor; assumption].
Qed.

Lemma non_traditional_any tick staves f : ~ traditional_key (fk_children f) ->
  exists rows, key_rows (fk_children f) rows /\
    (Forall component_sized rows -> exists ks, read_key tick staves f = Ok (mkKeyData 0 0 Mode_unspecified 0 (-1) ks) /\ Forall2 component_said rows ks).
Proof.
  intros T. destruct (key_read_state f) as (_ & _ & _ & _ & _ & _ & _ & _ & _ & Kd & (rows & R1 & R2)).
  exists rows. split; [exact R1 | ]. intros S. unfold read_key, import_key. destruct (xk_isNonTraditional (read_xkey f)); [ | destruct (T Kd)].
  assert (X : exists ks, outcome_map read_component (xk_components (read_xkey f)) = Ok ks /\ Forall2 component_said rows ks).
  { clear - R2 S. induction R2 as [ | p x rows xs P _ IH]; [exists []; split; [reflexivity | constructor] | ].
    inversion S; subst. destruct (component_any p x P) as (k & K1 & K2); [assumption | ]. destruct IH as (ks & L1 & L2); [assumption | ].
    exists (k :: ks). cbn [outcome_map]. rewrite K1. cbn [obind]. rewrite L1. split; [reflexivity | constructor; assumption]. }
  destruct X as (ks & -> & X). exists ks. split; [reflexivity | exact X].
Qed.

(** ** Writing *)

Lemma alter_written s c : Z.abs s <= 100000 -> (Qabs c <= 1000000)%Q -> exists t, writeKeyAlter s c = Ok t.
Proof.
  intros A B. destruct (key_alter_kept s c A B) as (s' & c' & E & _). unfold key_alter_roundtrip in E.
  destruct (writeKeyAlter s c) as [t | | ]; [exists t; reflexivity | discriminate E | discriminate E].
Qed.


Lemma step_shown s : StepEnum_toString (stepMap_toCore (match s with api_Step_unspecified => api_Step_c | s => s end)) = step_text s.
Proof. destruct s; vm_compute; reflexivity. Qed.

Lemma component_is_written k : Z.abs (kc_alter k) <= 100000 -> (Qabs (kc_cents k) <= 1000000)%Q ->
  exists x, write_component k = Ok x /\ component_written k (stream_component x).
Proof.
  intros A B. destruct (alter_written _ _ A B) as (t & T). unfold write_component. rewrite T. cbn [omap obind]. eexists. split; [reflexivity | ].
  exists t. split; [exact T | ]. unfold stream_component. cbn [xk_step xk_alter xk_accidental].
  pose proof (step_shown (kc_step k)) as Sh. rewrite <- Sh. f_equal; [destruct (kc_step k); reflexivity | ].
  destruct (kc_accidental k); cbv beta iota; exact eq_refl.
Qed.

Lemma key_is_written staff k : key_ok staff k -> exists x, write_key staff k = Ok x /\ key_written staff k (stream_key x).
Proof.
  intros (F & C & S & A). unfold write_key, key_written. destruct (ky_nonTraditional k) as [ | c l] eqn:N.
  - eexists. split; [reflexivity | ]. unfold stream_key, newXKey.
    cbn [xk_number xk_isNonTraditional xk_hasCancel xk_cancel xk_fifths xk_mode xk_components fk_number fk_children].
    split; [exact (staff_number_said staff S) | ].
    eexists (if negb (ky_cancel k =? 0) then _ else []), _. split; [apply canonical_int_print; reflexivity | ]. split.
    + f_equal. f_equal.
      * unfold print_range. rewrite wide_value by (exact F || reflexivity). reflexivity.
      * destruct (ky_mode k); reflexivity.
    + destruct (ky_cancel k =? 0) eqn:E; bool_hyps; cbn [negb]; [left; split; [exact E | reflexivity] | right; split; [exact E | ]].
      eexists. split; [ | reflexivity]. unfold print_range. rewrite wide_value by (exact C || reflexivity). apply canonical_int_print. reflexivity.
  - destruct (outcome_map_all write_component (fun k x => component_written k (stream_component x)) (c :: l)) as (xs & X1 & X2).
    { apply Forall_impl with (2 := A). intros d [D1 D2]. apply component_is_written; assumption. }
    rewrite X1. cbn [omap obind]. eexists. split; [reflexivity | ]. unfold stream_key. cbn [newXKey xk_number xk_isNonTraditional xk_components fk_number fk_children].
    split; [exact (staff_number_said staff S) | ]. exists (map stream_component xs). split; [ | apply flat_map_concat_map].
    clear - X2. induction X2; constructor; assumption.
Qed.

(** ** Written and read back *)

Lemma traditional_back tick staves staff k : key_ok staff k -> ky_nonTraditional k = [] ->
  key_back tick staves staff k = Ok (kept_traditional tick staves staff k).
Proof.
  intros (F & C & S & _) N. unfold key_back, write_key. rewrite N. cbn [obind]. unfold read_key, stream_key, newXKey.
  cbn [xk_number xk_isNonTraditional xk_hasCancel xk_cancel xk_fifths xk_mode xk_components].
  assert (P : forall v, is_int v -> ir_value (fst (parse_range (Integers.construct FifthsValue 0) (print_range (Integers.construct FifthsValue v)))) = v).
  { intros v V. unfold print_range. rewrite wide_value by (exact V || reflexivity). unfold parse_range. rewrite (parse_print_int _ V). cbn [fst set_value ir_value].
    unfold Integers.clamp. cbn [Integers.construct ctor_bounds fst snd mk_int_range ir_min ir_max]. unfold int_min, int_max. unfold is_int in V.
    repeat case_if; bool_hyps; lia. }
  assert (M : match staff_number staff with Some n => if staves - 1 <? n - 1 then -1 else n - 1 | None => -1 end =
    (if (0 <=? staff) && (staff <? staves) then staff else -1)).
  { destruct (staff_number_said staff S) as [[A ->] | [A ->]].
    - assert (0 <=? staff = true) as -> by (apply Z.leb_le; lia). cbn [andb].
      destruct (staves - 1 <? staff + 1 - 1) eqn:E1, (staff <? staves) eqn:E2; bool_hyps; lia.
    - assert (0 <=? staff = false) as -> by (apply Z.leb_gt; lia). reflexivity. }
  unfold kept_traditional. rewrite <- M. pose proof (P _ F) as PF. pose proof (P _ C) as PC.
  set (cf := Integers.construct FifthsValue (ky_fifths k)) in *. clearbody cf.
  set (cc := Integers.construct FifthsValue (ky_cancel k)) in *. clearbody cc.
  destruct (ky_cancel k =? 0) eqn:E; bool_hyps; cbn [negb]; destruct (ky_mode k);
    unfold read_xkey; cbn [fk_number fk_children app List.length read_key_children import_traditional take_cancel take_fifths take_mode
      newXKey xk_number xk_isNonTraditional xk_hasCancel xk_cancel xk_fifths xk_mode xk_components];
    unfold import_key; cbn [xk_number xk_isNonTraditional xk_hasCancel xk_cancel xk_fifths xk_mode xk_components];
    rewrite ?PF, ?PC, ?E; reflexivity.
Qed.

Lemma stream_parse x : xk_alter x <> None -> forall l, starts l = false \/ (exists t r, l = KkStep t :: r) ->
  take_component (stream_component x ++ l) = (x, l).
Proof.
  intros N l E. destruct x as [s [t | ] a]; [ | destruct (N eq_refl)]. unfold stream_component. cbn [xk_step xk_alter xk_accidental app].
  destruct StepEnum_text as (_ & _ & P & _). destruct AccidentalValue_text as (_ & _ & Q & _).
  destruct a as [a | ]; cbn [app]; unfold take_component; cbn [newXComponent xk_accidental].
  - rewrite (proj2 (P s)), (proj2 (Q a)). reflexivity.
  - rewrite (proj2 (P s)). destruct E as [E | (u & r & ->)]; [ | reflexivity]. destruct l as [ | [] l]; try discriminate E; reflexivity.
Qed.

Lemma stream_components xs : Forall (fun x => xk_alter x <> None) xs -> forall fuel set, (List.length (flat_map stream_component xs) <= fuel)%nat ->
  import_components fuel false set (flat_map stream_component xs) = (set ++ xs, []).
Proof.
  induction 1 as [ | x xs N F IH]; intros fuel set L.
  - rewrite app_nil_r. destruct fuel; reflexivity.
  - cbn [flat_map] in *. destruct fuel as [ | fuel]; [cbn in L; lia | ]. cbn [import_components].
    assert (I : in_component (stream_component x ++ flat_map stream_component xs) = true) by reflexivity. rewrite I.
    rewrite (stream_parse x N).
    2:{ destruct xs as [ | y xs]; [left; reflexivity | right]. eexists _, _. reflexivity. }
    rewrite IH; [unfold add_component; cbn [andb]; rewrite <- app_assoc; reflexivity | ].
    rewrite app_length in L. cbn in L. lia.
Qed.

Lemma stream_key_components n x xs : Forall (fun x => xk_alter x <> None) (x :: xs) ->
  read_xkey (mkFKey n (flat_map stream_component (x :: xs))) =
  mkXKey n true false (Integers.construct FifthsValue 0) (Integers.construct FifthsValue 0) None (x :: xs).
Proof.
  intros F. inversion F as [ | ? ? N F']; subst. unfold read_xkey. cbn [fk_number fk_children].
  assert (H : forall fuel l, (exists t r, l = KkStep t :: r) -> read_key_children (Datatypes.S fuel) (newXKey n) l =
    (let (set, rest) := import_components (List.length l) true [] l in
     read_key_children fuel (mkXKey n true false (Integers.construct FifthsValue 0) (Integers.construct FifthsValue 0) None set) rest)).
  { intros fuel l (t & r & ->). reflexivity. }
  set (l := flat_map stream_component (x :: xs)).
  assert (E : exists t r, l = KkStep t :: r) by (eexists _, _; reflexivity).
  destruct (List.length l) as [ | len] eqn:L; [destruct E as (t & r & E); rewrite E in L; discriminate L | ].
  rewrite (H len l E), L.
  assert (X : import_components (Datatypes.S len) true [] l = (x :: xs, [])).
  { cbn [import_components]. unfold l. cbn [flat_map]. assert (I : in_component (stream_component x ++ flat_map stream_component xs) = true) by reflexivity.
    rewrite I, (stream_parse x N).
    2:{ destruct xs as [ | y ys]; [left; reflexivity | right]. eexists _, _. reflexivity. }
    rewrite stream_components; [reflexivity | exact F' | ]. unfold l in L. cbn [flat_map] in L. rewrite app_length in L. cbn in L. lia. }
  rewrite X. destruct len; reflexivity.
Qed.


Lemma component_is_back k : Z.abs (kc_alter k) <= 100000 -> (Qabs (kc_cents k) <= 1000000)%Q ->
  exists x, write_component k = Ok x /\ xk_alter x <> None /\ exists r, read_component x = Ok r /\ component_back k r.
Proof.
  intros A B. destruct (alter_written _ _ A B) as (t & T). unfold write_component. rewrite T. cbn [omap obind]. eexists. split; [reflexivity | ].
  cbn [xk_alter]. split; [discriminate | ]. unfold read_component. cbn [xk_step xk_alter xk_accidental].
  destruct (key_alter_kept _ _ A B) as (s' & c' & E & K). unfold key_alter_roundtrip in E. rewrite T in E. cbn [obind] in E. rewrite E. cbn [omap obind fst snd].
  eexists. split; [reflexivity | ]. unfold component_back. cbn [kc_step kc_alter kc_cents kc_accidental]. split.
  { destruct (kc_step k); vm_compute; reflexivity. }
  split; [exists s', c'; split; [reflexivity | exact K] | ].
  destruct (kc_accidental k); vm_compute; reflexivity.
Qed.

Lemma components_back tick staves staff k : key_ok staff k -> ky_nonTraditional k <> [] ->
  exists l, key_back tick staves staff k = Ok (mkKeyData 0 0 Mode_unspecified 0 (-1) l) /\ Forall2 component_back (ky_nonTraditional k) l.
Proof.
  intros (_ & _ & _ & A) N. unfold key_back, write_key. set (l := ky_nonTraditional k) in *. clearbody l.
  assert (X : exists xs rs, outcome_map write_component l = Ok xs /\ Forall (fun x => xk_alter x <> None) xs /\ outcome_map read_component xs = Ok rs /\
    Forall2 component_back l rs).
  { clear N. induction A as [ | c l [C1 C2] _ (xs & rs & I1 & I2 & I3 & I4)]; [exists [], []; repeat split; constructor | ].
    destruct (component_is_back c C1 C2) as (x & X1 & X2 & r & X3 & X4). exists (x :: xs), (r :: rs). cbn [outcome_map]. rewrite X1, X3. cbn [obind].
    rewrite I1, I3. split; [reflexivity | ]. split; [constructor; assumption | ]. split; [reflexivity | constructor; assumption]. }
  destruct X as (xs & rs & X1 & X2 & X3 & X4). exists rs. split; [ | exact X4].
  assert (E : match l with
    | [] => Ok (mkXKey (xk_number (newXKey (staff_number staff))) false (negb (ky_cancel k =? 0))
              (if ky_cancel k =? 0 then xk_cancel (newXKey (staff_number staff)) else Integers.construct FifthsValue (ky_cancel k))
              (Integers.construct FifthsValue (ky_fifths k))
              (match ky_mode k with Mode_major => Some (mode_value ModeEnum_major) | Mode_minor => Some (mode_value ModeEnum_minor) | _ => None end) [])
    | _ :: _ => omap (fun cs => mkXKey (staff_number staff) true false (Integers.construct FifthsValue 0) (Integers.construct FifthsValue 0) None cs)
                  (outcome_map write_component l)
    end = Ok (mkXKey (staff_number staff) true false (Integers.construct FifthsValue 0) (Integers.construct FifthsValue 0) None xs)).
  { destruct l; [destruct (N eq_refl) | ]. rewrite X1. reflexivity. }
  cbv zeta. etransitivity; [ | ].
  { apply (f_equal (fun o => obind o (fun x => read_key tick staves (stream_key x)))). destruct l; exact E. }
  cbn [obind]. unfold read_key, stream_key. cbn [xk_number xk_isNonTraditional xk_components].
  destruct xs as [ | x xs].
  { destruct l as [ | c l]; [destruct (N eq_refl) | ]. cbn [outcome_map] in X1. destruct (write_component c); try discriminate X1. cbn [obind] in X1.
    destruct (outcome_map write_component l); discriminate X1. }
  rewrite (stream_key_components _ x xs X2). unfold import_key. cbn [xk_isNonTraditional xk_components]. rewrite X3. reflexivity.
Qed.

Lemma key_back_refuted : ~ (forall tick staves staff k, key_ok staff k -> ky_tick k = tick -> ky_staff k = staff -> staff < staves ->
  exists r, key_back tick staves staff k = Ok r /\ same_key r k).
Proof.
  intros H. set (k := mkKeyData 0 0 Mode_unspecified 0 0 [mkComponent api_Step_f 1 0 api_Accidental_sharp]).
  assert (K : key_ok 0 k) by (unfold key_ok, is_int, k; cbn [ky_fifths ky_cancel ky_nonTraditional]; repeat split; try lia; repeat constructor; cbn; (lia || discriminate)).
  destruct (H 0 1 0 k K eq_refl eq_refl ltac:(lia)) as (r & E & S). destruct (components_back 0 1 0 k K ltac:(discriminate)) as (l & E' & _).
  rewrite E' in E. injection E as <-. destruct S as (_ & _ & _ & _ & S & _). discriminate S.
Qed.

Lemma key_fits_back tick staves staff k : key_fits tick staves staff k -> exists r, key_back tick staves staff k = Ok r /\ same_key r k.
Proof.
  intros (K & M & F). destruct (ky_nonTraditional k) as [ | c l] eqn:N.
  - destruct F as (F1 & F2 & F3). exists (kept_traditional tick staves staff k). split; [exact (traditional_back tick staves staff k K N) | ].
    unfold same_key, kept_traditional. cbn [ky_fifths ky_cancel ky_mode ky_tick ky_staff ky_nonTraditional]. rewrite N.
    split; [reflexivity | ]. split; [reflexivity | ]. split; [destruct (ky_mode k); try reflexivity; destruct (M eq_refl) | ]. split; [symmetry; exact F1 | ].
    split; [ | constructor]. destruct K as (_ & _ & S & _). rewrite F2. destruct (0 <=? staff) eqn:E; cbn [andb]; bool_hyps; [ | lia].
    assert (staff <? staves = true) as -> by (apply Z.ltb_lt; exact F3). reflexivity.
  - destruct F as (F1 & F2 & F3 & F4 & F5 & F6). destruct (components_back tick staves staff k K) as (rs & E & B); [rewrite N; discriminate | ].
    eexists. split; [exact E | ]. unfold same_key. cbn [ky_fifths ky_cancel ky_mode ky_tick ky_staff ky_nonTraditional].
    rewrite F1, F2, F3, F4, F5. do 5 (split; [reflexivity | ]). rewrite N in *. clear - F6 B.
    remember (c :: l) as cs. clear Heqcs. induction B as [ | a b la lb (B1 & B2 & B3) _ IH]; [constructor | ].
    inversion F6 as [ | ? ? (G1 & G2 & G3 & G4) G]; subst. constructor; [ | exact (IH G)]. unfold same_component.
    destruct B2 as (s' & c' & Y & _ & _ & _ & Y4 & _ & _). injection Y as Y5 Y6. subst s' c'. destruct (Y4 G3 G4) as [Z1 Z2].
    split; [rewrite B1; destruct (kc_step a); try reflexivity; destruct (G1 eq_refl) | ]. split; [exact Z1 | ]. split; [exact Z2 | ].
    rewrite B3. destruct (kc_accidental a); try exact eq_refl; destruct (G2 eq_refl).
Qed.
