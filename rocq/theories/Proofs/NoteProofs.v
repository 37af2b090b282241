(** Proofs about the content of notes: beams, misc data and the children of the element. *)
From Coq Require Import List Ascii Bool String ZArith QArith Qabs Lia Lqa Sorted Permutation.
From Verif Require Import Model.Base Model.Text Model.Strings Model.LongDouble Model.Integers Model.Decimals Model.Ticks Model.EnumLookup
  Model.CoreEnums Model.ApiEnums Model.ConverterTables Model.CommaInts Spec.XmlText Spec.Numerals.
From Verif Require Import Proofs.TextProofs Proofs.StringsProofs Proofs.CommaProofs.
From Verif Require Import Model.Dots Model.MeasureTypes Model.Notations Model.NoteContent Spec.Attachments Spec.NoteReading.
Import ListNotations.
Open Scope Z_scope.
Open Scope list_scope.

(** ** Beams *)

Fixpoint keyed (k : Z) (l : list BeamValue) : list (Z * BeamValue) :=
  match l with [] => [] | v :: r => (k, v) :: keyed (k + 1) r end.

Lemma keyed_values l : forall k, map snd (keyed k l) = l.
Proof. induction l as [|v l IH]; intros k; cbn [keyed map snd]; [ | rewrite IH]; reflexivity. Qed.

Lemma keyed_has l n : forall k, map_has n (keyed k l) = (k <=? n) && (n <? k + Z.of_nat (List.length l)).
Proof.
  induction l as [|v l IH]; intros k; cbn [keyed map_has existsb fst List.length].
  - destruct (Z.leb_spec k n); [ | reflexivity]. destruct (Z.ltb_spec n (k + Z.of_nat 0)); [exfalso; lia | reflexivity].
  - fold (map_has n (keyed (k + 1) l)). rewrite IH.
    destruct (Z.eqb_spec k n), (Z.leb_spec (k + 1) n), (Z.leb_spec k n), (Z.ltb_spec n (k + 1 + Z.of_nat (List.length l))),
      (Z.ltb_spec n (k + Z.of_nat (Datatypes.S (List.length l)))); cbn [orb andb]; reflexivity || (exfalso; lia).
Qed.

Lemma keyed_add l v : forall k, map_set (k + Z.of_nat (List.length l)) v (keyed k l) = keyed k (l ++ [v]).
Proof.
  induction l as [|w l IH]; intros k; cbn [keyed app List.length].
  - rewrite Z.add_0_r. reflexivity.
  - cbn [map_set].
    destruct (Z.ltb_spec (k + Z.of_nat (Datatypes.S (List.length l))) k); [exfalso; lia | ].
    destruct (Z.eqb_spec (k + Z.of_nat (Datatypes.S (List.length l))) k); [exfalso; lia | ].
    replace (k + Z.of_nat (Datatypes.S (List.length l))) with (k + 1 + Z.of_nat (List.length l)) by lia. rewrite IH. reflexivity.
Qed.

Lemma keyed_replace l w v : forall k, map_set (k + Z.of_nat (List.length l)) v (keyed k (l ++ [w])) = keyed k (l ++ [v]).
Proof.
  induction l as [|u l IH]; intros k; cbn [keyed app List.length].
  - cbn [map_set]. rewrite Z.add_0_r, Z.ltb_irrefl, Z.eqb_refl. reflexivity.
  - cbn [map_set].
    destruct (Z.ltb_spec (k + Z.of_nat (Datatypes.S (List.length l))) k); [exfalso; lia | ].
    destruct (Z.eqb_spec (k + Z.of_nat (Datatypes.S (List.length l))) k); [exfalso; lia | ].
    replace (k + Z.of_nat (Datatypes.S (List.length l))) with (k + 1 + Z.of_nat (List.length l)) by lia. rewrite IH. reflexivity.
Qed.

Lemma beam_map_app a b : forall c m, beam_map c (a ++ b) m = beam_map (c + Z.of_nat (List.length a)) b (beam_map c a m).
Proof.
  induction a as [|[n v] a IH]; intros c m; cbn [app beam_map List.length].
  - rewrite Z.add_0_r. reflexivity.
  - cbv zeta. rewrite IH. f_equal. lia.
Qed.

Lemma write_beams_app a b : forall i, write_beams i (a ++ b) = write_beams i a ++ write_beams (i + Z.of_nat (List.length a)) b.
Proof.
  induction a as [|v a IH]; intros i; cbn [app write_beams List.length].
  - rewrite Z.add_0_r. reflexivity.
  - rewrite IH. do 3 f_equal. lia.
Qed.

Lemma write_beams_length l : forall i, List.length (write_beams i l) = List.length l.
Proof. induction l as [|b l IH]; intros i; cbn [write_beams List.length]; [ | rewrite IH]; reflexivity. Qed.

Lemma level_value n : ir_value (Integers.construct BeamLevel n) = Z.max 1 (Z.min 8 n).
Proof.
  unfold Integers.construct, mk_int_range, Integers.clamp. cbn [ctor_bounds fst snd ir_value].
  destruct (Z.ltb_spec n 1); [lia | ]. destruct (Z.ltb_spec 8 n); lia.
Qed.

Lemma beams_few l : forall vs, (List.length vs + List.length l <= 8)%nat ->
  beam_map (Z.of_nat (List.length vs)) (write_beams (Z.of_nat (List.length vs)) l) (keyed 1 vs) = keyed 1 (vs ++ map beamMap_toCore l).
Proof.
  induction l as [|b l IH]; intros vs H; cbn [write_beams beam_map map List.length] in *.
  - rewrite app_nil_r. reflexivity.
  - cbv zeta. rewrite level_value, keyed_has.
    replace (Z.max 1 (Z.min 8 (Z.of_nat (List.length vs) + 1))) with (1 + Z.of_nat (List.length vs)) by lia.
    rewrite Z.ltb_irrefl, andb_false_r, keyed_add.
    replace (Z.of_nat (List.length vs) + 1) with (Z.of_nat (List.length (vs ++ [beamMap_toCore b]))) by (rewrite app_length; cbn [List.length]; lia).
    rewrite IH by (rewrite app_length; cbn [List.length]; lia). rewrite <- app_assoc. reflexivity.
Qed.

Lemma beams_many l : forall vs, (8 <= List.length vs)%nat ->
  beam_map (1 + Z.of_nat (List.length vs)) (write_beams (1 + Z.of_nat (List.length vs)) l) (keyed 1 vs) = keyed 1 (vs ++ map beamMap_toCore l).
Proof.
  induction l as [|b l IH]; intros vs H; cbn [write_beams beam_map map List.length] in *.
  - rewrite app_nil_r. reflexivity.
  - cbv zeta. rewrite level_value, keyed_has.
    replace (Z.max 1 (Z.min 8 (1 + Z.of_nat (List.length vs) + 1))) with 8 by lia.
    destruct (Z.ltb_spec 8 (1 + Z.of_nat (List.length vs))); [ | exfalso; lia]. cbn [andb Z.leb].
    change (1 <=? 8) with true. cbn [andb]. rewrite keyed_add.
    replace (1 + Z.of_nat (List.length vs) + 1) with (1 + Z.of_nat (List.length (vs ++ [beamMap_toCore b]))) by (rewrite app_length; cbn [List.length]; lia).
    rewrite IH by (rewrite app_length; cbn [List.length]; lia). rewrite <- app_assoc. reflexivity.
Qed.

Lemma beam_api b : beamMap_toApi (beamMap_toCore b) = beam_kept b.
Proof. destruct b; reflexivity. Qed.

Lemma beams_back l : map beamMap_toApi (read_beams (write_beams 0 l)) = beams_kept l.
Proof.
  unfold read_beams, beams_kept.
  destruct (Nat.ltb_spec 8 (List.length l)) as [H | H].
  - assert (S8 : l = firstn 7 l ++ (nth 7 l api_Beam_unspecified :: nil) ++ (nth 8 l api_Beam_unspecified :: nil) ++ skipn 9 l).
    { do 9 (destruct l as [|? l]; [cbn [List.length] in H; lia | ]). reflexivity. }
    set (a := firstn 7 l) in *. set (x := nth 7 l api_Beam_unspecified) in *. set (y := nth 8 l api_Beam_unspecified) in *. set (r := skipn 9 l) in *.
    assert (La : List.length a = 7%nat) by (unfold a; rewrite firstn_length; lia).
    assert (K : skipn 8 l = y :: r).
    { rewrite S8. replace (a ++ [x] ++ [y] ++ r) with ((a ++ [x]) ++ y :: r) by (rewrite <- app_assoc; reflexivity).
      rewrite skipn_app, app_length, La. cbn [List.length]. rewrite (skipn_all2 (a ++ [x])) by (rewrite app_length, La; cbn [List.length]; lia).
      reflexivity. }
    rewrite K. rewrite S8. replace (a ++ [x] ++ [y] ++ r) with ((a ++ [x]) ++ [y] ++ r) by (rewrite <- app_assoc; reflexivity).
    rewrite write_beams_app, beam_map_app, write_beams_length, app_length, La. cbn [List.length].
    pose proof (beams_few (a ++ [x]) []) as F. cbn [List.length Z.of_nat app keyed] in F. rewrite F by (rewrite app_length, La; cbn [List.length]; lia).
    rewrite write_beams_app, beam_map_app. cbn [List.length write_beams].
    change (0 + Z.of_nat (7 + 1)) with 8. cbn [beam_map]. cbv zeta. rewrite level_value. change (Z.max 1 (Z.min 8 (8 + 1))) with 8.
    rewrite keyed_has, map_length, app_length, La. cbn [List.length]. change ((1 <=? 8) && (8 <? 1 + Z.of_nat (7 + 1))) with true. cbv iota.
    assert (R : map_set 8 (beamMap_toCore y) (keyed 1 (map beamMap_toCore (a ++ [x]))) = keyed 1 (map beamMap_toCore (a ++ [y]))).
    { rewrite !map_app. cbn [map]. rewrite <- (keyed_replace _ (beamMap_toCore x) (beamMap_toCore y)). rewrite map_length, La. reflexivity. }
    rewrite R.
    assert (L8 : List.length (map beamMap_toCore (a ++ [y])) = 8%nat) by (rewrite map_length, app_length, La; reflexivity).
    pose proof (beams_many r (map beamMap_toCore (a ++ [y]))) as M. rewrite L8 in M. specialize (M (Nat.le_refl 8)).
    change (1 + Z.of_nat 8) with 9 in M. change (8 + Z.of_nat 1) with 9. rewrite M. rewrite keyed_values, <- map_app, map_map.
    rewrite <- app_assoc. apply map_ext. exact beam_api.
  - rewrite firstn_skipn. pose proof (beams_few l []) as F. cbn [List.length Z.of_nat app keyed] in F.
    rewrite F by lia. rewrite keyed_values, map_map. apply map_ext. exact beam_api.
Qed.

(** Beams of a document without numbers are in their order. *)
Lemma unnumbered_beams l : forall c m vs, m = keyed 0 vs -> c = Z.of_nat (List.length vs) ->
  map snd (beam_map c (map (fun v => (None, v)) l) m) = vs ++ l.
Proof.
  induction l as [|v l IH]; intros c m vs -> ->; cbn [map beam_map].
  - rewrite keyed_values, app_nil_r. reflexivity.
  - cbv zeta. rewrite (IH _ _ (vs ++ [v])).
    + rewrite <- app_assoc. reflexivity.
    + apply (keyed_add vs v 0).
    + rewrite app_length. cbn [List.length]. lia.
Qed.

(** Numbered beams with different numbers are in the order of the numbers. *)
Lemma map_set_perm k v m : ~ In k (map fst m) -> Permutation ((k, v) :: m) (map_set k v m).
Proof.
  induction m as [|[j w] m IH]; intros N; cbn [map_set].
  - apply Permutation_refl.
  - cbn [map fst In] in N. destruct (k <? j); [apply Permutation_refl | ].
    destruct (Z.eqb_spec k j) as [E | E]; [exfalso; apply N; left; congruence | ].
    eapply Permutation_trans; [apply perm_swap | ]. apply perm_skip, IH. intros I. apply N. right. exact I.
Qed.

Lemma map_set_sorted k v m : ~ In k (map fst m) -> StronglySorted Z.lt (map fst m) -> StronglySorted Z.lt (map fst (map_set k v m)).
Proof.
  induction m as [|[j w] m IH]; intros N S; cbn [map_set].
  - constructor; [constructor | constructor].
  - cbn [map fst In] in N, S. inversion S as [|? ? S1 S2]; subst.
    destruct (Z.ltb_spec k j) as [L | L].
    + cbn [map fst]. constructor; [exact S | ]. constructor; [exact L | ]. revert S2. apply Forall_impl. intros z Z. lia.
    + destruct (Z.eqb_spec k j) as [E | E]; [exfalso; apply N; left; congruence | ].
      cbn [map fst]. constructor; [apply IH; [intros I; apply N; right; exact I | exact S1] | ].
      apply Forall_forall. intros z I.
      assert (P : Permutation (map fst ((k, v) :: m)) (map fst (map_set k v m))).
      { apply Permutation_map, map_set_perm. intros I'. apply N. right. exact I'. }
      apply (Permutation_in _ (Permutation_sym P)) in I. cbn [map fst] in I. destruct I as [<- | I]; [lia | ].
      rewrite Forall_forall in S2. apply S2. exact I.
Qed.

Lemma map_has_in k m : map_has k m = true <-> In k (map fst m).
Proof.
  unfold map_has. rewrite existsb_exists. split.
  - intros ([j w] & I & E). apply Z.eqb_eq in E. cbn [fst] in E. subst j. apply in_map_iff. exists (k, w). split; [reflexivity | exact I].
  - intros I. apply in_map_iff in I as ([j w] & <- & I). exists (j, w). split; [exact I | apply Z.eqb_refl].
Qed.

Lemma numbered_beams l : forall c m, NoDup (map fst m ++ map fst l) -> StronglySorted Z.lt (map fst m) ->
  let r := beam_map c (map (fun b => (Some (fst b), snd b)) l) m in Permutation (m ++ l) r /\ StronglySorted Z.lt (map fst r).
Proof.
  induction l as [|[k v] l IH]; intros c m N S; cbn [map beam_map fst snd]; cbv zeta.
  - rewrite app_nil_r. split; [apply Permutation_refl | exact S].
  - cbn [map fst] in N.
    assert (H : ~ In k (map fst m)).
    { apply NoDup_remove_2 in N. intros I. apply N, in_or_app. left. exact I. }
    destruct (map_has k m) eqn:E; [exfalso; apply H, map_has_in, E | ].
    destruct (IH (c + 1) (map_set k v m)) as [P Q].
    + assert (P : Permutation (map fst ((k, v) :: m)) (map fst (map_set k v m))) by (apply Permutation_map, map_set_perm, H).
      apply (Permutation_NoDup (l := map fst m ++ k :: map fst l)); [ | exact N].
      eapply Permutation_trans; [apply Permutation_sym, Permutation_middle | ].
      apply (Permutation_app_tail (map fst l)) in P. exact P.
    + apply map_set_sorted; assumption.
    + split; [ | exact Q]. eapply Permutation_trans; [ | exact P].
      eapply Permutation_trans; [apply Permutation_sym, Permutation_middle | ].
      apply (Permutation_app_tail l (map_set_perm k v m H)).
Qed.

(** ** Misc data *)

Lemma family_text_join l : family_text l = join [","%char] l.
Proof. induction l as [|t [|u l] IH]; [reflexivity | reflexivity | ]. cbn [family_text join] in *. rewrite IH. reflexivity. Qed.

Lemma no_commas_in t : ~ In ","%char (no_commas t).
Proof.
  unfold no_commas. intros I. apply in_map_iff in I as (c & E & _). destruct (Ascii.eqb c ",") eqn:Q; [discriminate E | ].
  subst c. discriminate Q.
Qed.

Lemma skip_ws_in c t : In c (skip_ws t) -> In c t.
Proof. induction t as [|d t IH]; cbn [skip_ws]; [tauto | ]. destruct (is_space d); [intros I; right; auto | tauto]. Qed.

Lemma squeeze_in c n : forall t, (List.length t <= n)%nat -> In c (squeeze t) -> In c t \/ c = " "%char.
Proof.
  induction n as [|n IH]; intros t L I.
  - destruct t; [destruct I | cbn in L; lia].
  - destruct t as [|d t]; [destruct I | ]. cbn [List.length] in L. destruct (is_space d) eqn:E.
    + rewrite squeeze_space in I by exact E. destruct I as [<- | I]; [right; reflexivity | ].
      destruct (IH (skip_ws t)) as [J | J]; [pose proof (skip_ws_length t); lia | exact I | left; right; apply skip_ws_in, J | right; exact J].
    + rewrite squeeze_char in I by exact E. destruct I as [<- | I]; [left; left; reflexivity | ].
      destruct (IH t ltac:(lia) I) as [J | J]; [left; right; exact J | right; exact J].
Qed.

Lemma token_in c t : In c (token_of t) -> In c t \/ c = " "%char.
Proof.
  intros I. unfold token_of, reduce in I. fold (squeeze (trim t)) in I. apply (squeeze_in c _ _ (Nat.le_refl _)) in I.
  destruct I as [I | I]; [left | right; exact I]. unfold trim in I. apply in_rev, skip_ws_in, in_rev, skip_ws_in in I. exact I.
Qed.

Lemma token_comma t : ~ In ","%char t -> ~ In ","%char (token_of t).
Proof. intros N I. apply token_in in I. destruct I as [I | I]; [exact (N I) | discriminate I]. Qed.

Lemma skip_ws_before u p : (exists c r, p = c :: r /\ is_space c = false) -> skip_ws (u ++ p) = skip_ws u ++ p.
Proof.
  intros (c & r & -> & E). induction u as [|d u IH]; cbn [app skip_ws].
  - rewrite E. reflexivity.
  - destruct (is_space d); [exact IH | reflexivity].
Qed.

(** A word without white space before a text stays. *)
Lemma token_prefix p t : p <> [] -> Forall (fun c => ~ ws_char c) p -> exists u, token_of (p ++ t) = p ++ u.
Proof.
  intros Np F. exists (squeeze (rev (skip_ws (rev t)))). unfold token_of, reduce.
  assert (T : trim (p ++ t) = p ++ rev (skip_ws (rev t))).
  { unfold trim. destruct p as [|c p]; [contradiction | ]. cbn [app]. rewrite skip_ws_nonspace by (apply space_false; inversion F; assumption).
    change (c :: p ++ t) with ((c :: p) ++ t). rewrite rev_app_distr, skip_ws_before.
    - rewrite rev_app_distr, rev_involutive. reflexivity.
    - apply Forall_rev in F. destruct (rev (c :: p)) as [|d q] eqn:E; [destruct (app_cons_not_nil _ _ _ (eq_sym E)) | ].
      exists d, q. split; [reflexivity | ]. apply space_false. inversion F; assumption. }
  rewrite T. fold (squeeze (p ++ rev (skip_ws (rev t)))). apply squeeze_word, F.
Qed.

Lemma prefix_words : Forall (fun c => ~ ws_char c) misc_prefix.
Proof. unfold misc_prefix, lit. cbn [list_ascii_of_string]. repeat (constructor; [apply space_false; reflexivity | ]). constructor. Qed.

Lemma misc_prefix_stays t : exists u, token_of (misc_prefix ++ t) = misc_prefix ++ u.
Proof. apply token_prefix; [discriminate | exact prefix_words]. Qed.

Lemma family_back l : l <> [] -> Forall (fun t => ~ In ","%char t) l ->
  family_parse (family_text l) = map token_of (match rev l with [] :: r => rev r | _ => l end).
Proof.
  intros N F. unfold family_parse, pieces. rewrite family_text_join, split_comma_join by assumption. reflexivity.
Qed.

Lemma tokens_same l : map token_of (map (fun t => token_of (no_commas t)) l) = map (fun t => token_of (no_commas t)) l.
Proof. rewrite map_map. apply map_ext. intros t. apply reduce_idempotent. Qed.

Lemma misc_back l : option_map (fun f => mkFootnote (fn_value f) (option_map family_parse (option_map family_text (fn_family f)))) (write_misc l)
    = match l with
      | [] => None
      | s :: r => Some (mkFootnote [] (Some (token_of (misc_prefix ++ no_commas s) ::
          (let r' := map (fun t => token_of (no_commas t)) r in match rev r' with [] :: x => rev x | _ => r' end))))
      end.
Proof.
  destruct l as [|s r]; [reflexivity | ]. cbn [write_misc option_map fn_value fn_family]. do 2 f_equal.
  rewrite family_back; [ | discriminate | ].
  2:{ constructor.
      - apply token_comma. intros I. apply in_app_or in I. destruct I as [I | I]; [ | exact (no_commas_in s I)].
        unfold misc_prefix, lit in I. cbn [list_ascii_of_string In] in I. repeat (destruct I as [I | I]; [discriminate I | ]). exact I.
      - apply Forall_forall. intros t I. apply in_map_iff in I as (u & <- & _). apply token_comma, no_commas_in. }
  cbv zeta. set (r' := map (fun t => token_of (no_commas t)) r).
  assert (T : map token_of r' = r') by apply tokens_same.
  assert (T1 : token_of (token_of (misc_prefix ++ no_commas s)) = token_of (misc_prefix ++ no_commas s)) by apply reduce_idempotent.
  unfold str in *. cbn [rev]. destruct (rev r') as [|b q] eqn:E.
  - assert (r' = []) as -> by (rewrite <- (rev_involutive r'), E; reflexivity). cbn [app].
    destruct (misc_prefix_stays (no_commas s)) as [u U]. rewrite U in *.
    assert (Q : misc_prefix ++ u = "#"%char :: tl misc_prefix ++ u) by reflexivity. rewrite Q in *. cbn [app]. cbv iota. cbn [map].
    rewrite T1. reflexivity.
  - cbn [app]. destruct b as [|c b].
    + rewrite rev_app_distr. cbn [rev app map]. rewrite T1. do 2 f_equal.
      assert (Q : r' = rev q ++ [[]]) by (rewrite <- (rev_involutive r'), E; reflexivity).
      rewrite Q, map_app in T. apply app_inj_tail in T. apply T.
    + cbn [map]. rewrite T1, T. reflexivity.
Qed.

Lemma parse_misc_back l :
  parse_misc (option_map (fun f => mkFootnote (fn_value f) (option_map family_parse (option_map family_text (fn_family f)))) (write_misc l))
    = misc_kept l.
Proof.
  rewrite misc_back. destruct l as [|s r]; [reflexivity | ]. cbn [parse_misc misc_kept].
  destruct (misc_prefix_stays (no_commas s)) as [u U]. rewrite U.
  replace (firstn 13 (misc_prefix ++ u)) with misc_prefix by reflexivity.
  assert (E : str_eqb misc_prefix misc_prefix = true) by (apply str_eqb_eq; reflexivity). rewrite E.
  change (lit "##misc-data##" ++ misc_text s) with (misc_prefix ++ no_commas s). rewrite U. reflexivity.
Qed.

Lemma clean_text t : clean t -> misc_text t = t.
Proof.
  intros [_ N]. unfold misc_text. induction t as [|c t IH]; [reflexivity | ]. cbn [map]. destruct (Ascii.eqb c ",") eqn:E.
  - exfalso. apply N. left. apply Ascii.eqb_eq, E.
  - rewrite IH; [reflexivity | ]. intros I. apply N. right. exact I.
Qed.

Lemma token_prefix_clean p t : p <> [] -> Forall (fun c => ~ ws_char c) p -> token_of t = t -> token_of (p ++ t) = p ++ t.
Proof.
  intros Np F E. unfold token_of in *. destruct (words_exist t) as [l W]. pose proof (words_clean _ _ W) as C.
  rewrite (reduce_words _ _ W) in E. subst t. clear W.
  assert (J : exists l', p ++ join [" "%char] l = join [" "%char] l' /\ Forall (fun a => a <> [] /\ Forall (fun c => ~ ws_char c) a) l').
  { destruct l as [|a r].
    - exists [p]. split; [apply app_nil_r | ]. constructor; [split; assumption | constructor].
    - exists ((p ++ a) :: r). inversion C as [|? ? [C1 C2] C3]; subst. split.
      + destruct r; cbn [join]; [reflexivity | apply app_assoc].
      + constructor; [ | exact C3]. split; [ | apply Forall_app; split; assumption]. destruct p; [contradiction | discriminate]. }
  destruct J as (l' & -> & C'). apply reduce_words, words_join, C'.
Qed.

Lemma clean_misc l : Forall clean l -> (forall r t, l = r ++ [t] -> r <> [] -> t <> []) -> misc_kept l = l.
Proof.
  intros C L. destruct l as [|s r]; [reflexivity | ]. cbn [misc_kept]. inversion C as [|? ? C1 C2]; subst.
  rewrite (clean_text s C1).
  rewrite (token_prefix_clean (lit "##misc-data##") s); [ | discriminate | exact prefix_words | apply C1].
  change (skipn 13 (lit "##misc-data##" ++ s)) with s. f_equal.
  assert (E : map (fun t => token_of (misc_text t)) r = r).
  { clear - C2. induction C2 as [|t r C C2 IH]; [reflexivity | ]. cbn [map]. rewrite (clean_text t C), (proj1 C), IH. reflexivity. }
  cbv zeta. rewrite E. destruct (rev r) as [|[|c b] q] eqn:Q; try reflexivity.
  exfalso. assert (r = rev q ++ [[]]) as -> by (rewrite <- (rev_involutive r), Q; reflexivity).
  apply (L (s :: rev q) []); [reflexivity | discriminate | reflexivity].
Qed.
