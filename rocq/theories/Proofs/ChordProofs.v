(** Proofs about chord symbols. *)
From Coq Require Import List Bool String ZArith QArith Qround Qabs Lia Lqa.
From Verif Require Import Model.Base Model.Text Model.Strings Model.LongDouble Model.Integers Model.Decimals Model.Ticks Model.EnumLookup
  Model.CoreEnums Model.ApiEnums Model.ConverterTables.
From Verif Require Import Proofs.TextProofs Proofs.StringsProofs Proofs.LongDoubleProofs Proofs.DecimalsRange Proofs.TransposeProofs
  Proofs.NotationsProofs Proofs.LayoutProofs.
From Verif Require Import Model.Notations Model.ChordSymbols Spec.Attachments Spec.ChordReading.
Import ListNotations.
Open Scope Z_scope.
Open Scope list_scope.

(** ** Numbers *)

Lemma roundTo_whole x z : (x == inject_Z z)%Q -> an_int z -> roundTo x = Ok z.
Proof.
  intros E H. unfold an_int in H. unfold roundTo.
  assert (L : (ld (x - (1 # 2)) == inject_Z z - (1 # 2))%Q).
  { assert (E0 : (x - (1 # 2) == inject_Z z - (1 # 2))%Q) by (rewrite E; reflexivity). rewrite E0. apply ld_exact.
    exists (2 * z - 1), (-1). split; [lia | ].
    unfold Zminus. rewrite inject_Z_plus, inject_Z_mult, inject_Z_opp.
    change (inject_Z 2) with 2%Q. change (inject_Z 1) with 1%Q. change (pow2 (-1)) with (1 # 2)%Q. ring. }
  assert (C : Qceiling (ld (x - (1 # 2))) = z).
  { rewrite (Qceiling_comp _ _ L). pose proof (Qle_ceiling (inject_Z z - (1 # 2))) as A.
    pose proof (Qceiling_lt (inject_Z z - (1 # 2))) as B. unfold Zminus in B. rewrite inject_Z_plus, inject_Z_opp in B.
    change (inject_Z 1) with 1%Q in B.
    assert (A' : (inject_Z z < inject_Z (Qceiling (inject_Z z - (1 # 2))) + 1)%Q) by lra.
    change 1%Q with (inject_Z 1) in A'. rewrite <- inject_Z_plus, <- Zlt_Qlt in A'.
    assert (B' : (inject_Z (Qceiling (inject_Z z - (1 # 2))) < inject_Z z + 1)%Q) by lra.
    change 1%Q with (inject_Z 1) in B'. rewrite <- inject_Z_plus, <- Zlt_Qlt in B'. lia. }
  rewrite C. unfold as_int, in_int, int_min, int_max.
  destruct (Z.leb_spec (-2147483648) z); [ | exfalso; clear - H H0; lia].
  destruct (Z.leb_spec z 2147483647); [reflexivity | exfalso; clear - H H1; lia].
Qed.

Lemma roundTo_near q : small q -> exists z, roundTo q = Ok z /\ nearest q z.
Proof.
  intros [L U]. exists (Qceiling (ld (q - (1 # 2)))).
  set (y := (q - (1 # 2))%Q).
  assert (Y : (Qabs y < pow2 32)%Q).
  { change (pow2 32) with 4294967296%Q. change (inject_Z (2 ^ 31 - 1)) with 2147483647%Q in *. apply Qabs_case; intros; unfold y; lra. }
  pose proof (ld_error y 32 Y) as E. change (pow2 (32 - 65)) with (1 # 8589934592)%Q in E.
  apply Qabs_Qle_condition in E. destruct E as [E1 E2].
  pose proof (Qle_ceiling (ld y)) as A. pose proof (Qceiling_lt (ld y)) as B. unfold Zminus in B.
  rewrite inject_Z_plus, inject_Z_opp in B. change (inject_Z 1) with 1%Q in B.
  assert (X : (ld y <= inject_Z (2 ^ 31 - 1))%Q).
  { apply ld_le; [apply is_ld_Z; reflexivity | ]. unfold y. change (inject_Z (2 ^ 31 - 1)) with 2147483647%Q in *. lra. }
  split.
  - unfold roundTo. fold y. unfold as_int, in_int, int_min, int_max.
    assert (C1 : - 2 ^ 31 <= Qceiling (ld y)).
    { assert (C : (inject_Z (- 2 ^ 31 - 1) < inject_Z (Qceiling (ld y)))%Q).
      { change (inject_Z (- 2 ^ 31 - 1)) with (-2147483649)%Q. change (inject_Z (2 ^ 31 - 1)) with 2147483647%Q in *. unfold y in *. lra. }
      rewrite <- Zlt_Qlt in C. lia. }
    assert (C2 : Qceiling (ld y) <= 2 ^ 31 - 1).
    { assert (C : (inject_Z (Qceiling (ld y)) < inject_Z (2 ^ 31))%Q).
      { change (inject_Z (2 ^ 31)) with 2147483648%Q. change (inject_Z (2 ^ 31 - 1)) with 2147483647%Q in *. lra. }
      rewrite <- Zlt_Qlt in C. lia. }
    destruct (Z.leb_spec (-2147483648) (Qceiling (ld y))); [ | exfalso; clear - C1 H; lia].
    destruct (Z.leb_spec (Qceiling (ld y)) 2147483647); [reflexivity | exfalso; clear - C2 H0; lia].
  - unfold nearest. fold y. apply Qabs_Qle_condition. unfold y in *. split; lra.
Qed.

Lemma whole t z : an_int z -> t = Semitones \/ t = DivisionsValue -> exists x, decimal_value t (inject_Z z) = Ok x /\ (x == inject_Z z)%Q.
Proof.
  intros H T. unfold an_int in H.
  set (p0 := mkPrecise false 0 0 19 6).
  destruct (set_integer p0 z) as (p & P1 & P2 & P3); [ | lia | ].
  { split; reflexivity. }
  exists (Decimals.getValue p). split; [ | apply getValue_integer; assumption].
  unfold decimal_value.
  assert (C : Decimals.construct t (inject_Z z) = Ok p) by (destruct T as [-> | ->]; exact P1).
  rewrite C. reflexivity.
Qed.

(** ** Writing *)

Lemma letter_core s : s <> api_Step_unspecified -> stepMap_toCore s = letter s.
Proof. destruct s; intros H; reflexivity. Qed.

Lemma letter_api s : stepMap_toApi s <> api_Step_unspecified /\ letter (stepMap_toApi s) = s.
Proof. destruct s; (split; [discriminate | reflexivity]). Qed.

Lemma write_step_ok s n : s <> api_Step_unspecified -> an_int n -> exists x, write_step s n = Ok x /\ step_says s n x.
Proof.
  intros S H. unfold write_step. rewrite (letter_core s S). destruct (n =? 0) eqn:E.
  - apply Z.eqb_eq in E. eexists. split; [reflexivity | ]. split; [reflexivity | exact E].
  - apply Z.eqb_neq in E. destruct (whole Semitones n H (or_introl eq_refl)) as (q & Q1 & Q2).
    rewrite Q1. eexists. split; [reflexivity | ]. split; [reflexivity | ]. cbn [st_alter]. split; assumption.
Qed.

Lemma write_degree_ok e : exists d, write_degree e = Ok d /\ degree_says e d.
Proof.
  unfold write_degree.
  destruct (whole Semitones (degree_alter (extensionAlter e))) as (q & Q1 & Q2); [ | left; reflexivity | ].
  { destruct (extensionAlter e); cbv; split; congruence. }
  rewrite Q1. eexists. split; [reflexivity | ]. split; [ | split; [ | split]]; cbn [dg_value dg_alter dg_type dg_print].
  - destruct (extensionNumber e); reflexivity.
  - rewrite Q2. destruct (extensionAlter e); reflexivity.
  - destruct (extensionType e); exact I.
  - reflexivity.
Qed.

Lemma outcomes_all {A B} (f : A -> outcome B) (P : A -> B -> Prop) l :
  Forall (fun x => exists y, f x = Ok y /\ P x y) l -> exists m, outcomes f l = Ok m /\ Forall2 P l m.
Proof.
  induction 1 as [ | x l (y & E & Y) _ (m & M & F)].
  - exists []. split; [reflexivity | constructor].
  - exists (y :: m). cbn [outcomes]. rewrite E. cbn [obind]. rewrite M. split; [reflexivity | constructor; assumption].
Qed.

Lemma kind_core k : KindValue_toString (kindMap_toCore k) = lit (kind_text k).
Proof. destruct k; vm_compute; reflexivity. Qed.

Lemma kind_api k : kindMap_toApi k <> api_ChordKind_unspecified /\ lit (kind_text (kindMap_toApi k)) = KindValue_toString k.
Proof. destruct k; (split; [vm_compute; discriminate | vm_compute; reflexivity]). Qed.

Lemma str_empty (t : str) : str_eqb t [] = match t with [] => true | _ => false end.
Proof. destruct t; reflexivity. Qed.

Lemma write_group_ok c : an_int (rootAlter c) -> an_int (bassAlter c) -> exists g, write_group c = Ok g /\ group_says c g.
Proof.
  intros R B. unfold write_group.
  assert (S : exists x, write_step (match root c with api_Step_unspecified => api_Step_c | s => s end) (rootAlter c) = Ok x /\
                step_says (root c) (rootAlter c) x).
  { destruct (write_step_ok (match root c with api_Step_unspecified => api_Step_c | s => s end) (rootAlter c)) as (x & X1 & X2 & X3).
    - destruct (root c); discriminate.
    - exact R.
    - exists x. split; [exact X1 | ]. split; [ | exact X3]. rewrite X2. destruct (root c); reflexivity. }
  destruct S as (r & R1 & R2). rewrite R1. cbn [obind].
  assert (Bs : exists b, match bass c with api_Step_unspecified => Ok None | s => omap Some (write_step s (bassAlter c)) end = Ok b /\
     (bass c = api_Step_unspecified -> b = None) /\
     (bass c <> api_Step_unspecified -> exists x, b = Some x /\ step_says (bass c) (bassAlter c) x)).
  { destruct (bass c) eqn:K;
      try (match goal with |- context[write_step ?s _] => destruct (write_step_ok s (bassAlter c)) as (x & X1 & X2); [discriminate | exact B | ] end;
           rewrite X1; exists (Some x); split; [reflexivity | split; [intros F; discriminate F | intros _; exists x; split; [reflexivity | exact X2]]]).
    exists None. split; [reflexivity | ]. split; [reflexivity | intros F; contradiction F; reflexivity]. }
  destruct Bs as (b & B1 & B2 & B3). rewrite B1. cbn [obind].
  destruct (outcomes_all write_degree degree_says (extensions c)) as (ds & D1 & D2).
  { apply Forall_forall. intros e _. apply write_degree_ok. }
  rewrite D1. cbn [obind]. eexists. split; [reflexivity | ].
  unfold group_says. cbn [g_function g_root g_kind k_value k_text k_symbols g_inversion g_bass g_degrees].
  split; [reflexivity | ]. split; [exact R2 | ]. split; [apply kind_core | ].
  split; [rewrite str_empty; destruct (chordText c); reflexivity | ].
  split; [destruct (useSymbols c); reflexivity | ]. split; [reflexivity | ]. split; [exact B2 | ]. split; [exact B3 | exact D2].
Qed.

Lemma instruction_named m : instruction m = named m.
Proof. unfold instruction, named. rewrite str_empty. destruct m as [[ | a n] d]; reflexivity. Qed.

Lemma misc_all l : flat_map (fun c => map instruction (miscData c)) l = all_misc l.
Proof.
  unfold all_misc. rewrite flat_map_concat_map. f_equal. apply map_ext. intros c. apply map_ext. intros m. apply instruction_named.
Qed.

Lemma write_all offset staff chords : chords <> [] -> Forall chord_ok chords -> an_int offset -> every (fun i => 0 <= i < 2 ^ 31 - 1) staff ->
  exists h, createHarmonyElements offset staff chords = Ok (Some h) /\
    Forall2 group_says chords (h_groups h) /\
    h_frame h = false /\
    match h_offset h with None => offset = 0 | Some q => offset <> 0 /\ (q == inject_Z offset)%Q end /\
    h_staff h = option_map Z.succ staff /\
    h_instructions h = all_misc chords /\
    forall c r, chords = c :: r -> getPositionData (h_position h) = kept_position false true (chordPosition c).
Proof.
  intros N F O S. destruct chords as [ | first rest]; [contradiction N; reflexivity | ].
  unfold createHarmonyElements.
  assert (Oo : exists o, (if offset =? 0 then Ok None else omap Some (decimal_value DivisionsValue (inject_Z offset))) = Ok o /\
    match o with None => offset = 0 | Some q => offset <> 0 /\ (q == inject_Z offset)%Q end).
  { destruct (offset =? 0) eqn:E.
    - apply Z.eqb_eq in E. exists None. split; [reflexivity | exact E].
    - apply Z.eqb_neq in E. destruct (whole DivisionsValue offset O (or_intror eq_refl)) as (q & Q1 & Q2).
      rewrite Q1. exists (Some q). split; [reflexivity | split; assumption]. }
  destruct Oo as (o & O1 & O2). rewrite O1. cbn [obind].
  inversion F as [ | ? ? F1 F2]; subst.
  destruct F1 as (F11 & F12 & F13).
  destruct (position_ok_back harmony_declares (chordPosition first) F13 eq_refl) as (p & P1 & P2).
  rewrite P1. cbn [obind].
  destruct (outcomes_all write_group group_says (first :: rest)) as (gs & G1 & G2).
  { apply Forall_forall. intros c I. rewrite Forall_forall in F. destruct (F c I) as (X1 & X2 & _). apply write_group_ok; assumption. }
  rewrite G1. cbn [obind]. eexists. split; [reflexivity | ].
  cbn [h_groups h_frame h_offset h_staff h_instructions h_position].
  split; [exact G2 | ]. split; [reflexivity | ]. split; [exact O2 | ]. split.
  - destruct staff as [i | ]; [ | reflexivity]. cbn [every] in S. cbn [option_map]. f_equal.
    assert (X : i + 1 <? 1 = false) by (apply Z.ltb_ge; lia). assert (Y : int_max <? i + 1 = false) by (apply Z.ltb_ge; unfold int_max; lia).
    change (Integers.clamp 1 int_max (i + 1) = Z.succ i). unfold Integers.clamp. rewrite X, Y. reflexivity.
  - split; [apply misc_all | ]. intros c r E. injection E as <- <-. exact P2.
Qed.

(** ** The children *)

Lemma take_degrees_map ds r : (forall d l, r <> CDegree d :: l) -> take_degrees (map CDegree ds ++ r) = (ds, r).
Proof.
  intros N. induction ds as [ | d ds IH]; cbn [map app take_degrees].
  - destruct r as [ | [] r]; try reflexivity. exfalso. eapply N. reflexivity.
  - rewrite IH. reflexivity.
Qed.

Definition starts_group (r : list hchild) : Prop :=
  match r with CInversion _ :: _ | CBass _ :: _ | CDegree _ :: _ => False | _ => True end.

Lemma read_group_children f rt k inv b ds r : starts_group r ->
  read_group f rt (CKind k :: optional CInversion inv ++ optional CBass b ++ map CDegree ds ++ r) = Some (mkGroup f rt k inv b ds, r).
Proof.
  intros N. cbn [read_group].
  assert (D : take_degrees (map CDegree ds ++ r) = (ds, r)).
  { apply take_degrees_map. intros d l ->. exact N. }
  assert (B : take_bass (optional CBass b ++ map CDegree ds ++ r) = (b, map CDegree ds ++ r)).
  { destruct b as [x | ]; [reflexivity | ]. cbn [optional app]. destruct ds as [ | d ds]; [ | reflexivity].
    cbn [map app]. destruct r as [ | [] r]; try reflexivity. contradiction N. }
  assert (V : take_inversion (optional CInversion inv ++ optional CBass b ++ map CDegree ds ++ r) = (inv, optional CBass b ++ map CDegree ds ++ r)).
  { destruct inv as [x | ]; [reflexivity | ]. cbn [optional app]. destruct b as [x | ]; [reflexivity | ]. cbn [optional app].
    destruct ds as [ | d ds]; [ | reflexivity]. cbn [map app]. destruct r as [ | [] r]; try reflexivity. contradiction N. }
  rewrite V, B, D. reflexivity.
Qed.

Lemma read_one n g r st : normal g -> starts_group r ->
  read_children (Datatypes.S n) (stream_group g ++ r) st =
  read_children n r (mkReading (addGroup g (r_groups st)) (r_frame st) (r_offset st) (r_staff st)).
Proof.
  intros N S. destruct g as [f rt k inv b ds]. unfold stream_group. cbn [g_function g_root g_kind g_inversion g_bass g_degrees].
  destruct f as [f | ]; cbn [app read_children]; rewrite <- !app_assoc; rewrite read_group_children by exact S.
  - unfold normal in N. cbn [g_function g_root] in N. rewrite (N ltac:(discriminate)). reflexivity.
  - reflexivity.
Qed.

Lemma stream_group_starts g r : starts_group (stream_group g ++ r).
Proof. destruct g as [[f | ] rt k inv b ds]; exact I. Qed.

Lemma stream_group_children g : stream_group g = group_children g.
Proof. destruct g as [[f | ] rt k [inv | ] [b | ] ds]; reflexivity. Qed.

Definition begins (gs : list xgroup) (r : list hchild) : list hchild := flat_map stream_group gs ++ r.

Lemma begins_starts gs r : starts_group r -> starts_group (begins gs r).
Proof.
  intros N. destruct gs as [ | g gs]; [exact N | ]. unfold begins. cbn [flat_map]. rewrite <- app_assoc. apply stream_group_starts.
Qed.

(** The set after the groups [gs]. *)
Definition gathered (gs : list xgroup) (st : list xgroup * bool) : list xgroup * bool := fold_left (fun s g => addGroup g s) gs st.

Lemma gathered_more gs set : gathered gs (set, true) = (set ++ gs, true).
Proof.
  revert set. induction gs as [ | g gs IH]; intros set; cbn.
  - rewrite app_nil_r. reflexivity.
  - unfold gathered in *. cbn [fold_left addGroup negb andb]. rewrite IH, <- app_assoc. reflexivity.
Qed.

Lemma gathered_first g gs : gathered (g :: gs) ([default_group], false) = (g :: gs, true).
Proof. unfold gathered. cbn [fold_left addGroup negb andb List.length Nat.eqb]. apply (gathered_more gs [g]). Qed.

Lemma length_begins gs r : (List.length gs + List.length r <= List.length (begins gs r))%nat.
Proof.
  unfold begins. rewrite app_length. induction gs as [ | g gs IH]; cbn [flat_map List.length]; [lia | ].
  rewrite app_length. destruct g as [[f | ] rt k inv b ds]; cbn [stream_group g_function app List.length] in *; lia.
Qed.

Lemma read_many gs : forall n r st, Forall normal gs -> starts_group r ->
  read_children (List.length gs + n) (begins gs r) st =
  read_children n r (mkReading (gathered gs (r_groups st)) (r_frame st) (r_offset st) (r_staff st)).
Proof.
  induction gs as [ | g gs IH]; intros n r st N S.
  - destruct st; reflexivity.
  - inversion N as [ | ? ? N1 N2]; subst. cbn [List.length Nat.add]. unfold begins. cbn [flat_map]. rewrite <- app_assoc.
    rewrite read_one; [ | exact N1 | apply begins_starts, S].
    fold (begins gs r). rewrite IH by assumption. reflexivity.
Qed.

(** More fuel than children changes nothing. *)
Lemma read_group_shorter f rt l g r : read_group f rt l = Some (g, r) -> (List.length r < List.length l)%nat.
Proof.
  assert (D : forall l ds r, take_degrees l = (ds, r) -> (List.length r <= List.length l)%nat).
  { clear. induction l as [ | [] l IH]; intros ds0 rr E; cbn [take_degrees] in E; try (injection E as <- <-; cbn; lia).
    destruct (take_degrees l) as [ds' r'] eqn:K. injection E as <- <-. specialize (IH _ _ eq_refl). cbn. lia. }
  destruct l as [ | [] l]; intros E; try discriminate E. cbn [read_group] in E.
  destruct (take_inversion l) as [inv l2] eqn:E2. destruct (take_bass l2) as [b l3] eqn:E3. destruct (take_degrees l3) as [ds l4] eqn:E4.
  injection E as <- <-. apply D in E4.
  assert (L3 : (List.length l3 <= List.length l2)%nat).
  { destruct l2 as [ | [] l2]; cbn [take_bass] in E3; injection E3 as <- <-; cbn; lia. }
  assert (L2 : (List.length l2 <= List.length l)%nat).
  { destruct l as [ | [] l]; cbn [take_inversion] in E2; injection E2 as <- <-; cbn; lia. }
  cbn. lia.
Qed.

Lemma read_enough n : forall m l st, (List.length l < n)%nat -> (List.length l < m)%nat -> read_children n l st = read_children m l st.
Proof.
  induction n as [ | n IH]; intros m l st Ln Lm; [lia | ]. destruct m as [ | m]; [lia | ].
  destruct l as [ | x l]; [reflexivity | ]. cbn [List.length] in *.
  destruct x; cbn [read_children]; try (apply IH; lia);
    destruct (read_group _ _ l) as [[g0 r0] | ] eqn:E; try reflexivity; apply read_group_shorter in E; apply IH; lia.
Qed.

Lemma read_trailing l : forall n st, forallb trailing l = true -> (List.length l < n)%nat ->
  read_children n l st = Some (mkReading (r_groups st)
    (r_frame st || existsb (fun x => match x with CFrame => true | _ => false end) l)
    (fold_left (fun o x => match x with COffset q => Some q | _ => o end) l (r_offset st))
    (fold_left (fun o x => match x with CStaff q => Some q | _ => o end) l (r_staff st))).
Proof.
  induction l as [ | x l IH]; intros n st T L; (destruct n as [ | n]; [cbn in L; lia | ]).
  - destruct st as [gs fr o s]. cbn. rewrite orb_false_r. reflexivity.
  - cbn [forallb] in T. apply andb_prop in T. destruct T as [T1 T2]. cbn [List.length] in L.
    destruct x; try discriminate T1; cbn [read_children]; rewrite IH by (try assumption; lia);
      cbn [r_groups r_frame r_offset r_staff existsb fold_left]; rewrite ?orb_true_l, ?orb_true_r; reflexivity.
Qed.

Lemma trailing_starts l : forallb trailing l = true -> starts_group l.
Proof. destruct l as [ | [] l]; intros H; try exact I; discriminate H. Qed.

Lemma children_back p is gs l : gs <> [] -> Forall normal gs -> forallb trailing l = true ->
  read_harmony p is (flat_map group_children gs ++ l) =
  Some (mkHarmony p gs (existsb (fun x => match x with CFrame => true | _ => false end) l) (last_offset l) (last_staff l) is).
Proof.
  intros E N T. unfold read_harmony.
  assert (B : flat_map group_children gs ++ l = begins gs l).
  { unfold begins. f_equal. apply flat_map_ext. intros g. symmetry. apply stream_group_children. }
  rewrite B.
  rewrite (read_enough _ (List.length gs + (Datatypes.S (List.length (begins gs l))))) by lia.
  rewrite read_many by (try assumption; apply trailing_starts, T).
  pose proof (length_begins gs l).
  rewrite read_trailing by (try assumption; lia). cbn [r_groups r_frame r_offset r_staff].
  destruct gs as [ | g gs]; [contradiction E; reflexivity | ]. rewrite gathered_first. reflexivity.
Qed.

Lemma children_none p is l : forallb trailing l = true -> read_harmony p is l = None.
Proof. intros T. unfold read_harmony. rewrite read_trailing by (try assumption; lia). reflexivity. Qed.

Lemma children_no_kind p is gs x rest : Forall normal gs ->
  match x with CRoot _ | CFunction _ => True | _ => False end ->
  match rest with CKind _ :: _ => False | _ => True end ->
  read_harmony p is (flat_map group_children gs ++ x :: rest) = None.
Proof.
  intros N X R. unfold read_harmony.
  assert (B : flat_map group_children gs ++ x :: rest = begins gs (x :: rest)).
  { unfold begins. f_equal. apply flat_map_ext. intros g. symmetry. apply stream_group_children. }
  rewrite B.
  rewrite (read_enough _ (List.length gs + (Datatypes.S (List.length (begins gs (x :: rest)))))) by lia.
  rewrite read_many; [ | exact N | destruct x; (exact I || contradiction X)].
  assert (K : forall f rt, read_group f rt rest = None) by (intros f rt; destruct rest as [ | [] rest]; try reflexivity; contradiction R).
  destruct x; try contradiction X; cbn [read_children]; rewrite K; reflexivity.
Qed.

(** ** Reading *)

Lemma step_value x s n : step_says s n x -> an_int n -> round_option (st_alter x) = Ok n.
Proof.
  intros [_ H] A. destruct (st_alter x) as [q | ]; cbn [round_option].
  - destruct H as [_ H]. apply roundTo_whole; assumption.
  - subst n. reflexivity.
Qed.

Lemma step_letter x s n : step_says s n x -> stepMap_toApi (st_step x) = match s with api_Step_unspecified => api_Step_c | s => s end.
Proof. intros [H _]. rewrite H. destruct s; reflexivity. Qed.

Lemma degree_back e d : degree_says e d ->
  read_degree d = Ok [mkExtension (extensionType e) (extensionAlter e) (extensionNumber e) api_Bool_unspecified].
Proof.
  intros (H1 & H2 & H3 & H4). unfold read_degree.
  rewrite (roundTo_whole _ _ H2) by (destruct (extensionAlter e); cbv; split; congruence). cbn [obind].
  rewrite H1, H4. destruct e as [t a n p], d as [v q ty pr]; cbn [extensionType extensionAlter extensionNumber dg_type] in *.
  destruct n, t, ty; try contradiction H3; destruct a; reflexivity.
Qed.

Lemma degrees_back es ds : Forall2 degree_says es ds ->
  exists l, outcomes read_degree ds = Ok l /\
    List.concat l = map (fun e => mkExtension (extensionType e) (extensionAlter e) (extensionNumber e) api_Bool_unspecified) es.
Proof.
  induction 1 as [ | e d es ds H _ (l & L1 & L2)].
  - exists []. split; reflexivity.
  - cbn [outcomes]. rewrite (degree_back e d H). cbn [obind]. rewrite L1. eexists. split; [reflexivity | ].
    cbn [List.concat app map]. rewrite L2. reflexivity.
Qed.

Lemma kind_value_back k v : KindValue_toString v = lit (kind_text k) ->
  kindMap_toApi v = match k with api_ChordKind_unspecified => api_ChordKind_none | k => k end.
Proof.
  intros H. destruct (kind_api v) as [N E]. rewrite H in E.
  assert (T : forallb (fun a => forallb (fun b => implb (str_eqb (lit (kind_text a)) (lit (kind_text b)))
     (api_ChordKind_value a =? api_ChordKind_value (match b with api_ChordKind_unspecified => api_ChordKind_none | k => k end)))
     api_ChordKind_members) (filter (fun a => negb (api_ChordKind_value a =? api_ChordKind_value api_ChordKind_unspecified)) api_ChordKind_members) = true)
    by (vm_compute; reflexivity).
  assert (M : forall a, In a api_ChordKind_members) by (intros []; vm_compute; tauto).
  rewrite forallb_forall in T. specialize (T (kindMap_toApi v)).
  rewrite filter_In in T. specialize (T ltac:(split; [apply M | destruct (kindMap_toApi v); try reflexivity; contradiction N; reflexivity])).
  rewrite forallb_forall in T. specialize (T k (M k)). rewrite E in T.
  assert (R : str_eqb (lit (kind_text k)) (lit (kind_text k)) = true) by (apply str_eqb_eq; reflexivity).
  rewrite R in T. cbn [implb] in T. apply Z.eqb_eq in T. clear - T.
  destruct (kindMap_toApi v), k; try reflexivity; discriminate T.
Qed.

Lemma group_back h c g : an_int (rootAlter c) -> an_int (bassAlter c) -> group_says c g ->
  parseHarmony h g = Ok (read_back (getPositionData (h_position h)) (h_instructions h) c).
Proof.
  intros R B (S1 & S2 & S3 & S4 & S5 & S6 & S7 & S8 & S9). unfold parseHarmony.
  rewrite (step_value _ _ _ S2 R). cbn [obind].
  destruct (degrees_back _ _ S9) as (l & L1 & L2).
  assert (K : match g_bass g with None => Ok 0 | Some b => round_option (st_alter b) end =
              Ok match bass c with api_Step_unspecified => 0 | _ => bassAlter c end).
  { destruct (bass c) eqn:E;
      try (destruct (S8 ltac:(discriminate)) as (x & X1 & X2); rewrite X1; apply (step_value _ _ _ X2 B)).
    rewrite (S7 eq_refl). reflexivity. }
  assert (K2 : match g_bass g with None => api_Step_unspecified | Some b => stepMap_toApi (st_step b) end = bass c).
  { destruct (bass c) eqn:E;
      try (destruct (S8 ltac:(discriminate)) as (x & X1 & X2); rewrite X1; rewrite (step_letter _ _ _ X2); reflexivity).
    rewrite (S7 eq_refl). reflexivity. }
  rewrite K. cbn [obind]. rewrite L1. cbn [obind]. unfold read_back.
  rewrite (step_letter _ _ _ S2), (kind_value_back _ _ S3), S4, S5, L2, K2.
  rewrite str_empty. f_equal. f_equal.
  - destruct (root c); reflexivity.
  - destruct (chordKind c); reflexivity.
  - destruct (chordText c); reflexivity.
  - destruct (useSymbols c); reflexivity.
Qed.

Lemma groups_back h chords gs : Forall chord_ok chords -> Forall2 group_says chords gs ->
  outcomes (parseHarmony h) (filter is_root gs) = Ok (map (read_back (getPositionData (h_position h)) (h_instructions h)) chords).
Proof.
  intros O F. induction F as [ | c g chords gs H F IH]; [reflexivity | ].
  inversion O as [ | ? ? (O1 & O2 & _) O3]; subst. cbn [filter].
  assert (R : is_root g = true) by (unfold is_root; destruct H as (E & _); rewrite E; reflexivity).
  rewrite R. cbn [outcomes]. rewrite (group_back h c g O1 O2 H). cbn [obind]. rewrite (IH O3). reflexivity.
Qed.

Lemma says_normal c g : group_says c g -> normal g.
Proof. intros (H & _) N. contradiction. Qed.

Lemma chords_read offset staff c r : Forall chord_ok (c :: r) -> an_int offset -> every (fun i => 0 <= i < 2 ^ 31 - 1) staff ->
  chords_back offset staff (c :: r) =
  Ok (Some (map (read_back (kept_position false true (chordPosition c)) (all_misc (c :: r))) (c :: r))).
Proof.
  intros F O S.
  destruct (write_all offset staff (c :: r) ltac:(discriminate) F O S) as (h & H1 & H2 & H3 & H4 & H5 & H6 & H7).
  unfold chords_back. rewrite H1. cbn [obind].
  assert (T : read_harmony (h_position h) (h_instructions h) (stream_harmony h) = Some h).
  { unfold stream_harmony. rewrite H3.
    assert (B : flat_map stream_group (h_groups h) = flat_map group_children (h_groups h)) by (apply flat_map_ext, stream_group_children).
    rewrite B. rewrite children_back.
    - destruct h as [p gs fr o s is]. cbn [h_position h_groups h_frame h_offset h_staff h_instructions] in *. subst fr.
      destruct o as [o | ], s as [s | ]; reflexivity.
    - intros E. rewrite E in H2. inversion H2.
    - clear - H2. induction H2; constructor; [eapply says_normal; eassumption | assumption].
    - destruct (h_offset h), (h_staff h); reflexivity. }
  rewrite T. unfold parse_groups. fold is_root.
  change (fun g : xgroup => match g_function g with Some _ => false | None => true end) with is_root.
  rewrite (groups_back h (c :: r) _ F H2). rewrite H6. rewrite (H7 c r eq_refl). reflexivity.
Qed.

(** ** Any document *)

Lemma degree_any d : small (dg_alter d) ->
  exists l, read_degree d = Ok l /\ Forall2 degree_read (filter has_ordinal [d]) l.
Proof.
  intros S. unfold read_degree. destruct (roundTo_near _ S) as (z & Z1 & Z2). rewrite Z1. cbn [obind].
  eexists. split; [reflexivity | ]. cbn [filter].
  assert (A : alteration z (extension_alter z)).
  { unfold alteration, extension_alter.
    destruct (Z.leb_spec z (-2)); [cbn [semitones]; lia | ].
    destruct (Z.eqb_spec z (-1)); [subst; reflexivity | ]. destruct (Z.eqb_spec z 0); [subst; reflexivity | ].
    destruct (Z.eqb_spec z 1); [subst; reflexivity | ]. cbn [semitones]. lia. }
  assert (Y : forall n, dg_value d = ordinal n ->
     Forall2 degree_read [d] [mkExtension (extension_type (dg_type d)) (extension_alter z) n (bool_attribute (dg_print d))]).
  { intros n E. constructor; [ | constructor]. split; [exact E | ]. split; [exists z; split; assumption | ].
    split; [destruct (dg_type d); exact I | destruct (dg_print d) as [[] | ]; reflexivity]. }
  assert (W : match extension_number (dg_value d) with
              | Some n => has_ordinal d = true /\ dg_value d = ordinal n
              | None => has_ordinal d = false end).
  { unfold has_ordinal. destruct (existsb (Z.eqb (dg_value d)) [1; 2; 3; 4; 5; 6; 7; 9; 11; 13]) eqn:E.
    - apply existsb_exists in E. destruct E as (k & K & E). apply Z.eqb_eq in E. rewrite E.
      cbn [In] in K. repeat (destruct K as [<- | K]; [cbn; split; reflexivity | ]). contradiction K.
    - destruct (extension_number (dg_value d)) eqn:K; [ | reflexivity]. exfalso.
      assert (I : existsb (Z.eqb (dg_value d)) [1; 2; 3; 4; 5; 6; 7; 9; 11; 13] = true).
      { apply existsb_exists. exists (dg_value d). split; [ | apply Z.eqb_refl].
        unfold extension_number in K. destruct (dg_value d) as [ | q | q]; try discriminate K.
        repeat (destruct q as [q | q | ]; try discriminate K; try (cbn; tauto)). }
      rewrite I in E. discriminate E. }
  destruct (extension_number (dg_value d)) as [n | ].
  - destruct W as [W1 W2]. rewrite W1. apply Y, W2.
  - rewrite W. constructor.
Qed.

Lemma degrees_any ds : Forall (fun d => small (dg_alter d)) ds ->
  exists l, outcomes read_degree ds = Ok l /\ Forall2 degree_read (filter has_ordinal ds) (List.concat l).
Proof.
  induction 1 as [ | d ds S _ (l & L1 & L2)].
  - exists []. split; [reflexivity | constructor].
  - destruct (degree_any d S) as (x & X1 & X2). exists (x :: l). cbn [outcomes]. rewrite X1. cbn [obind]. rewrite L1.
    split; [reflexivity | ]. cbn [List.concat]. change (d :: ds) with ([d] ++ ds). rewrite filter_app. apply Forall2_app; assumption.
Qed.

Lemma step_any x : every small (st_alter x) -> exists n, round_option (st_alter x) = Ok n /\ step_read x (stepMap_toApi (st_step x)) n.
Proof.
  intros S. destruct (letter_api (st_step x)) as [L1 L2].
  destruct x as [s [q | ]]; cbn [st_step st_alter every round_option] in *.
  - destruct (roundTo_near q S) as (n & N1 & N2). exists n. split; [exact N1 | ]. split; [exact L2 | split; [exact L1 | exact N2]].
  - exists 0. split; [reflexivity | ]. split; [exact L2 | split; [exact L1 | reflexivity]].
Qed.

Lemma group_any h g : group_small g -> exists c, parseHarmony h g = Ok c /\ group_read h g c.
Proof.
  intros (S1 & S2 & S3). unfold parseHarmony.
  destruct (step_any _ S1) as (n & N1 & N2). rewrite N1. cbn [obind].
  assert (B : exists m, match g_bass g with None => Ok 0 | Some b => round_option (st_alter b) end = Ok m /\
    match g_bass g with None => m = 0 | Some x => step_read x (stepMap_toApi (st_step x)) m end).
  { destruct (g_bass g) as [b | ]; [apply step_any, S2 | exists 0; split; reflexivity]. }
  destruct B as (m & M1 & M2). rewrite M1. cbn [obind].
  destruct (degrees_any _ S3) as (l & L1 & L2). rewrite L1. cbn [obind]. eexists. split; [reflexivity | ].
  destruct (kind_api (k_value (g_kind g))) as [K1 K2].
  unfold group_read. cbn [root rootAlter chordKind chordText useSymbols bass bassAlter extensions miscData chordPosition].
  split; [exact N2 | ]. split; [exact K2 | ]. split; [exact K1 | ]. split; [reflexivity | ].
  split; [destruct (k_symbols (g_kind g)) as [[] | ]; reflexivity | ].
  split; [destruct (g_bass g); [exact M2 | split; [reflexivity | exact M2]] | ]. split; [exact L2 | ]. split; reflexivity.
Qed.

Lemma groups_any h : Forall group_small (filter is_root (h_groups h)) ->
  exists l, parse_groups h = Ok l /\ Forall2 (group_read h) (filter is_root (h_groups h)) l.
Proof.
  intros F. unfold parse_groups.
  change (fun g : xgroup => match g_function g with Some _ => false | None => true end) with is_root.
  apply outcomes_all. eapply Forall_impl; [ | exact F]. intros g H. apply group_any, H.
Qed.

(** ** The property *)

Lemma read_back_same p misc c : complete c -> same_symbol (read_back p misc c) c.
Proof.
  intros (C1 & C2 & C3 & C4).
  unfold same_symbol, read_back. cbn [root rootAlter chordKind chordText useSymbols bass bassAlter extensions].
  split; [destruct (root c); try reflexivity; contradiction C1; reflexivity | ]. split; [reflexivity | ].
  split; [destruct (chordKind c); try reflexivity; contradiction C2; reflexivity | ]. split; [exact C3 | ]. split; [reflexivity | ].
  split; [destruct (bass c); try reflexivity; symmetry; apply C4; reflexivity | ]. split; [reflexivity | ].
  induction (extensions c) as [ | e l IH]; constructor; [repeat split | exact IH].
Qed.

Lemma kept_symbols offset staff chords : Forall chord_ok chords -> Forall complete chords -> an_int offset ->
  every (fun i => 0 <= i < 2 ^ 31 - 1) staff ->
  exists back, chords_back offset staff chords = Ok (Some back) /\ Forall2 same_symbol back chords.
Proof.
  intros F C O S. destruct chords as [ | c r].
  - exists []. split; [reflexivity | constructor].
  - rewrite (chords_read offset staff c r F O S). eexists. split; [reflexivity | ].
    generalize (kept_position false true (chordPosition c)) (all_misc (c :: r)). intros p misc. clear F.
    induction C as [ | x l H _ IH]; constructor; [apply read_back_same, H | exact IH].
Qed.

Definition bare (k : api_ChordKind) (b : api_Step) (ba : Z) (t : str) (r : api_Step) : ChordData :=
  mkChord r 0 k t api_Bool_unspecified b ba [] [] noPosition.

Lemma bare_ok k b ba t r : an_int ba -> chord_ok (bare k b ba t r).
Proof. intros H. split; [cbv; split; congruence | ]. split; [exact H | ]. repeat split. Qed.

Lemma bare_back k b ba t r : an_int ba ->
  chords_back 0 None [bare k b ba t r] = Ok (Some [read_back noPosition [] (bare k b ba t r)]).
Proof.
  intros H. apply (chords_read 0 None (bare k b ba t r) []); [constructor; [apply bare_ok, H | constructor] | cbv; split; congruence | exact I].
Qed.

Lemma zero_int : an_int 0. Proof. cbv; split; congruence. Qed.

Lemma symbols_refuted : ~ (forall offset staff chords, Forall chord_ok chords -> an_int offset -> every (fun i => 0 <= i < 2 ^ 31 - 1) staff ->
  exists back, chords_back offset staff chords = Ok (Some back) /\ Forall2 same_symbol back chords).
Proof.
  intros H. destruct (H 0 None [bare api_ChordKind_unspecified api_Step_unspecified 0 [] api_Step_c]) as (b & B1 & B2).
  - constructor; [apply bare_ok, zero_int | constructor].
  - exact zero_int.
  - exact I.
  - rewrite (bare_back _ _ _ _ _ zero_int) in B1. injection B1 as <-. inversion B2 as [ | ? ? ? ? S _]; subst.
    destruct S as (_ & _ & S & _). discriminate S.
Qed.

Lemma misc_refuted : ~ (forall offset staff chords, Forall chord_ok chords -> Forall complete chords -> an_int offset ->
  every (fun i => 0 <= i < 2 ^ 31 - 1) staff ->
  exists back, chords_back offset staff chords = Ok (Some back) /\ map miscData back = map miscData chords).
Proof.
  set (c1 := mkChord api_Step_c 0 api_ChordKind_major [] api_Bool_unspecified api_Step_unspecified 0 [] [(lit "a", lit "x")] noPosition).
  set (c2 := mkChord api_Step_g 0 api_ChordKind_major [] api_Bool_unspecified api_Step_unspecified 0 [] [] noPosition).
  assert (O : Forall chord_ok [c1; c2]).
  { constructor; [ | constructor; [ | constructor]]; (split; [exact zero_int | split; [exact zero_int | repeat split]]). }
  intros H. destruct (H 0 None [c1; c2] O) as (b & B1 & B2).
  - constructor; [ | constructor; [ | constructor]]; (split; [discriminate | split; [discriminate | split; [reflexivity | reflexivity]]]).
  - exact zero_int.
  - exact I.
  - rewrite (chords_read 0 None c1 [c2] O zero_int I) in B1. injection B1 as <-. vm_compute in B2. discriminate B2.
Qed.

Lemma position_refuted : ~ (forall offset staff chords, Forall chord_ok chords -> Forall complete chords -> an_int offset ->
  every (fun i => 0 <= i < 2 ^ 31 - 1) staff ->
  exists back, chords_back offset staff chords = Ok (Some back) /\
    map (fun c => placement (chordPosition c)) back = map (fun c => placement (chordPosition c)) chords).
Proof.
  set (c1 := mkChord api_Step_c 0 api_ChordKind_major [] api_Bool_unspecified api_Step_unspecified 0 [] [] noPosition).
  set (c2 := mkChord api_Step_g 0 api_ChordKind_major [] api_Bool_unspecified api_Step_unspecified 0 [] []
    (mkPosition None None None None api_HorizontalAlignment_unspecified api_VerticalAlignment_unspecified api_Placement_below)).
  assert (O : Forall chord_ok [c1; c2]).
  { constructor; [ | constructor; [ | constructor]]; (split; [exact zero_int | split; [exact zero_int | repeat split]]). }
  intros H. destruct (H 0 None [c1; c2] O) as (b & B1 & B2).
  - constructor; [ | constructor; [ | constructor]]; (split; [discriminate | split; [discriminate | split; [reflexivity | reflexivity]]]).
  - exact zero_int.
  - exact I.
  - rewrite (chords_read 0 None c1 [c2] O zero_int I) in B1. injection B1 as <-. vm_compute in B2. discriminate B2.
Qed.

(** ** The direction *)

Lemma direction_read offset staff c r : Forall chord_ok (c :: r) -> an_int offset -> every (fun i => 0 <= i < 2 ^ 31 - 1) staff ->
  exists h, createHarmonyElements offset staff (c :: r) = Ok (Some h) /\
    direction_placement h = placement (chordPosition c) /\
    (direction_staff_specified h = true <-> staff <> None).
Proof.
  intros F O S.
  destruct (write_all offset staff (c :: r) ltac:(discriminate) F O S) as (h & H1 & _ & _ & _ & H5 & _ & H7).
  exists h. split; [exact H1 | ]. split.
  - specialize (H7 c r eq_refl). apply (f_equal placement) in H7. exact H7.
  - unfold direction_staff_specified. rewrite H5. destruct staff; cbn [option_map]; split; congruence.
Qed.

Lemma alter_values a n : setAlterValue (getAlterValue a) = a /\ getAlterValue a = semitones a /\ alteration n (setAlterValue n).
Proof.
  split; [destruct a; reflexivity | ]. split; [destruct a; reflexivity | ].
  unfold alteration, setAlterValue.
  destruct (Z.leb_spec n (-2)); [cbn [semitones]; lia | ].
  destruct (Z.eqb_spec n (-1)); [subst; reflexivity | ]. destruct (Z.eqb_spec n 0); [subst; reflexivity | ].
  destruct (Z.eqb_spec n 1); [subst; reflexivity | ]. cbn [semitones]. lia.
Qed.
