(** Facts about characters, numerals and the stream conversions. *)
From Verif Require Import Proofs.Tac Model.Text Spec.Numerals.
Open Scope Z_scope.

Lemma ascii_all (P : ascii -> bool) :
  forallb P (map (fun n => ascii_of_nat n) (seq 0 256)) = true -> forall c, P c = true.
Proof.
  intros H c. rewrite forallb_forall in H. apply H.
  apply in_map_iff. exists (nat_of_ascii c). split.
  - apply ascii_nat_embedding.
  - apply in_seq. pose proof (nat_ascii_bounded c). lia.
Qed.

Lemma code_range c : 0 <= code c < 256.
Proof.
  unfold code. pose proof (N_ascii_bounded c). lia.
Qed.

Lemma code_inj a b : code a = code b -> a = b.
Proof.
  unfold code. intros H. rewrite <- (ascii_N_embedding a), <- (ascii_N_embedding b).
  f_equal. lia.
Qed.

Lemma code_chr z : 0 <= z < 256 -> code (chr z) = z.
Proof.
  intros H. unfold code, chr. rewrite N_ascii_embedding; lia.
Qed.

Lemma chr_code c : chr (code c) = c.
Proof. apply code_inj, code_chr, code_range. Qed.

Ltac by_codes c :=
  let H := fresh in
  pose proof (code_range c) as H.

Lemma is_space_spec c : is_space c = true <-> ws_char c.
Proof.
  unfold ws_char. split.
  - intros H.
    assert (K : implb (is_space c)
      (existsb (Ascii.eqb c) ["009"; "010"; "011"; "012"; "013"; " "]%char) = true).
    { revert c H. intros c _. revert c. apply ascii_all. vm_compute. reflexivity. }
    rewrite H in K. unfold implb in K. apply existsb_exists in K as (x & Hx & E).
    apply Ascii.eqb_eq in E. subst. exact Hx.
  - intros H. simpl in H. repeat (destruct H as [<-|H]; [vm_compute; reflexivity|]). contradiction.
Qed.

Lemma digit_spec c : is_digit c = true -> digit_is c (digit_of c).
Proof.
  intros H. unfold digit_is.
  assert (K : implb (is_digit c)
      (existsb (fun p => Ascii.eqb c (fst p) && (digit_of c =? snd p)) [("0", 0); ("1", 1); ("2", 2); ("3", 3); ("4", 4);
             ("5", 5); ("6", 6); ("7", 7); ("8", 8); ("9", 9)]%char) = true).
  { revert c H. intros c _. revert c. apply ascii_all. vm_compute. reflexivity. }
  rewrite H in K. unfold implb in K. apply existsb_exists in K as ([x d] & Hx & E).
  simpl in E. apply andb_true_iff in E as [E1 E2]. apply Ascii.eqb_eq in E1. apply Z.eqb_eq in E2. subst. exact Hx.
Qed.

Lemma digit_is_inv c d : digit_is c d -> is_digit c = true /\ digit_of c = d.
Proof.
  unfold digit_is. intros H. simpl in H.
  repeat (destruct H as [H|H]; [injection H as <- <-; split; vm_compute; reflexivity|]). contradiction.
Qed.

Lemma digit_of_range c : is_digit c = true -> 0 <= digit_of c <= 9.
Proof. unfold is_digit, digit_of. intros. bool_hyps. lia. Qed.

Lemma char_of_digit_spec d : 0 <= d <= 9 ->
  is_digit (char_of_digit d) = true /\ digit_of (char_of_digit d) = d.
Proof.
  intros H. unfold is_digit, digit_of, char_of_digit. rewrite code_chr by lia. split; lia.
Qed.

Lemma digit_not_space c : is_digit c = true -> is_space c = false.
Proof. unfold is_digit, is_space. intros; bool_hyps. lia. Qed.

Lemma sign_not_digit c : c = "-"%char \/ c = "+"%char -> is_digit c = false /\ is_space c = false.
Proof. intros [->| ->]; vm_compute; auto. Qed.

(** ** Digit strings *)

Definition all_digits (t : str) := Forall (fun c => is_digit c = true) t.

Lemma fold_digits_acc ds a :
  fold_left (fun a c => 10 * a + digit_of c) ds a =
  a * 10 ^ Z.of_nat (List.length ds) + digits_value ds.
Proof.
  revert a. induction ds as [|c r IH]; intros a; unfold digits_value; cbn [fold_left].
  - cbn. lia.
  - rewrite IH. rewrite (IH (10 * 0 + digit_of c)).
    change (List.length (c :: r)) with (S (List.length r)). rewrite Nat2Z.inj_succ, Z.pow_succ_r by lia.
    ring.
Qed.

Lemma digits_value_cons c r :
  digits_value (c :: r) = digit_of c * 10 ^ Z.of_nat (List.length r) + digits_value r.
Proof.
  unfold digits_value at 1. cbn [fold_left]. rewrite fold_digits_acc. f_equal; lia.
Qed.

Lemma digits_value_app a b :
  digits_value (a ++ b) = digits_value a * 10 ^ Z.of_nat (List.length b) + digits_value b.
Proof.
  unfold digits_value at 1. rewrite fold_left_app. rewrite fold_digits_acc. reflexivity.
Qed.

Lemma digits_value_range ds : all_digits ds -> 0 <= digits_value ds < 10 ^ Z.of_nat (List.length ds).
Proof.
  induction 1 as [|c r Hc _ IH].
  - unfold digits_value. simpl. lia.
  - rewrite digits_value_cons. change (List.length (c :: r)) with (S (List.length r)).
    rewrite Nat2Z.inj_succ, Z.pow_succ_r by lia. apply digit_of_range in Hc. nia.
Qed.

Lemma numeral_tail_iff ds n : numeral_tail ds n <-> all_digits ds /\ n = digits_value ds.
Proof.
  split.
  - induction 1 as [|c d r n Hd Hr IH].
    + split; [constructor|reflexivity].
    + apply digit_is_inv in Hd as [Hc <-]. destruct IH as [IHa IHn]. split.
      * constructor; assumption.
      * rewrite digits_value_cons. lia.
  - intros [H ->]. induction H as [|c r Hc _ IH].
    + constructor.
    + rewrite digits_value_cons. constructor; [apply digit_spec|]; assumption.
Qed.

Lemma numeral_iff ds n : numeral ds n <-> ds <> [] /\ all_digits ds /\ n = digits_value ds.
Proof. unfold numeral. rewrite numeral_tail_iff. tauto. Qed.

(** ** Scanning *)

Lemma skip_ws_app w t : Forall ws_char w -> skip_ws (w ++ t) = skip_ws t.
Proof.
  induction 1 as [|c r Hc _ IH]; simpl; [reflexivity|].
  apply is_space_spec in Hc. rewrite Hc. exact IH.
Qed.

Lemma skip_ws_split t : exists w, Forall ws_char w /\ t = w ++ skip_ws t.
Proof.
  induction t as [|c r (w & Hw & E)]; simpl.
  - exists []. split; [constructor|reflexivity].
  - destruct (is_space c) eqn:Ec.
    + exists (c :: w). split; [constructor; [apply is_space_spec|]; assumption|]. simpl. congruence.
    + exists []. split; [constructor|reflexivity].
Qed.

Lemma skip_ws_head t c r : skip_ws t = c :: r -> is_space c = false.
Proof.
  induction t as [|c' r' IH]; simpl; [discriminate|].
  destruct (is_space c') eqn:E; [exact IH|]. intros H. injection H as <- <-. exact E.
Qed.

Lemma skip_ws_nonspace c r : is_space c = false -> skip_ws (c :: r) = c :: r.
Proof. simpl. intros ->. reflexivity. Qed.

Lemma skip_ws_nil t : skip_ws t = [] <-> Forall ws_char t.
Proof.
  split.
  - intros H. destruct (skip_ws_split t) as (w & Hw & E). rewrite H, app_nil_r in E. congruence.
  - intros H. rewrite <- (app_nil_r t), skip_ws_app by assumption. reflexivity.
Qed.

Lemma span_digits_spec t ds r :
  span_digits t = (ds, r) ->
  t = ds ++ r /\ all_digits ds /\ match r with c :: _ => is_digit c = false | [] => True end.
Proof.
  revert ds r. induction t as [|c t IH]; simpl; intros ds r H.
  - injection H as <- <-. repeat split. constructor.
  - destruct (is_digit c) eqn:Ec.
    + destruct (span_digits t) as [d q]. injection H as <- <-.
      destruct (IH d q eq_refl) as (-> & Hd & Hq). repeat split; [constructor; assumption|exact Hq].
    + injection H as <- <-. repeat split; [constructor|exact Ec].
Qed.

Lemma span_digits_app ds r :
  all_digits ds -> match r with c :: _ => is_digit c = false | [] => True end ->
  span_digits (ds ++ r) = (ds, r).
Proof.
  intros H Hr. induction H as [|c ds Hc _ IH]; simpl.
  - destruct r as [|c r]; [reflexivity|]. simpl. rewrite Hr. reflexivity.
  - rewrite Hc, IH. reflexivity.
Qed.

(** ** Printing *)

Lemma print_digits_spec fuel z acc :
  0 <= z -> (Z.to_nat (Z.log2 z) < fuel)%nat ->
  exists ds, print_digits fuel z acc = ds ++ acc /\ all_digits ds /\ ds <> [] /\ digits_value ds = z /\ canonical ds.
Proof.
  revert z acc. induction fuel as [|f IH]; intros z acc Hz Hf; [lia|].
  simpl print_digits.
  assert (Hm : 0 <= z mod 10 <= 9) by (pose proof (Z.mod_pos_bound z 10); lia).
  destruct (char_of_digit_spec (z mod 10) Hm) as [Hd Hv].
  destruct (z / 10 =? 0) eqn:E; bool_hyps.
  - exists [char_of_digit (z mod 10)]. repeat split.
    + constructor; [exact Hd|constructor].
    + discriminate.
    + unfold digits_value. cbn [fold_left]. rewrite Hv. pose proof (Z.div_mod z 10). lia.
    + unfold canonical. destruct (Z.eq_dec (z mod 10) 0) as [E0|E0].
      * left. rewrite E0. reflexivity.
      * right. exists (char_of_digit (z mod 10)), []. split; [reflexivity|].
        intros C. rewrite C in Hv. change (digit_of "0") with 0 in Hv. lia.
  - assert (Hq : 0 < z / 10) by (pose proof (Z.div_pos z 10); lia).
    assert (Hl : Z.log2 (z / 10) < Z.log2 z).
    { assert (2 * (z / 10) <= z) by (pose proof (Z.mul_div_le z 10); lia).
      assert (Z.log2 (2 * (z / 10)) <= Z.log2 z) by (apply Z.log2_le_mono; lia).
      rewrite Z.log2_double in H0 by lia. lia. }
    pose proof (Z.log2_nonneg (z / 10)).
    destruct (IH (z / 10) (char_of_digit (z mod 10) :: acc)) as (ds & -> & Ha & Hn & Hval & Hc); [lia|lia|].
    exists (ds ++ [char_of_digit (z mod 10)]). repeat split.
    + rewrite <- app_assoc. reflexivity.
    + apply Forall_app. split; [exact Ha|]. constructor; [exact Hd|constructor].
    + destruct ds; discriminate.
    + rewrite digits_value_app. unfold digits_value at 2. cbn [fold_left]. simpl List.length.
      rewrite Hval, Hv. pose proof (Z.div_mod z 10). change (10 ^ Z.of_nat 1) with 10. lia.
    + right. destruct Hc as [-> | (c & r & -> & Hc)].
      * exfalso. change (digits_value ["0"%char]) with 0 in Hval. lia.
      * exists c, (r ++ [char_of_digit (z mod 10)]). split; [reflexivity|exact Hc].
Qed.

Lemma print_nat_spec z : 0 <= z ->
  all_digits (print_nat z) /\ print_nat z <> [] /\ digits_value (print_nat z) = z /\ canonical (print_nat z).
Proof.
  intros Hz. unfold print_nat.
  destruct (print_digits_spec (S (Z.to_nat (Z.log2 z))) z [] Hz) as (ds & -> & H); [lia|].
  rewrite app_nil_r. exact H.
Qed.

Lemma numeral_print_nat z : 0 <= z -> numeral (print_nat z) z.
Proof.
  intros Hz. destruct (print_nat_spec z Hz) as (H1 & H2 & H3 & _). apply numeral_iff. auto.
Qed.

(** Canonical digit strings are determined by their value. *)
Lemma digits_value_lower c r : all_digits (c :: r) -> c <> "0"%char ->
  10 ^ Z.of_nat (List.length r) <= digits_value (c :: r).
Proof.
  intros H Hc. inversion H as [|? ? Hd Hr]; subst. rewrite digits_value_cons.
  pose proof (digits_value_range r Hr). pose proof (digit_of_range c Hd).
  assert (digit_of c <> 0).
  { intros E. apply Hc. apply code_inj. unfold digit_of in E. change (code "0") with 48. lia. }
  nia.
Qed.

Lemma same_length_digits a b :
  all_digits a -> all_digits b -> List.length a = List.length b -> digits_value a = digits_value b -> a = b.
Proof.
  intros Ha. revert b. induction Ha as [|c a Hc Ha IH]; intros [|d b] Hb Hl Hv; try discriminate; [reflexivity|].
  inversion Hb as [|? ? Hd Hb']; subst. simpl in Hl. injection Hl as Hl.
  rewrite !digits_value_cons in Hv. rewrite Hl in Hv.
  pose proof (digits_value_range a Ha). pose proof (digits_value_range b Hb').
  rewrite Hl in H. set (p := 10 ^ Z.of_nat (List.length b)) in *.
  assert (digit_of c = digit_of d) by nia.
  assert (digits_value a = digits_value b) by nia.
  f_equal.
  - apply code_inj. unfold digit_of in H1. lia.
  - apply IH; assumption.
Qed.

Lemma canonical_unique a b :
  all_digits a -> all_digits b -> canonical a -> canonical b -> digits_value a = digits_value b -> a = b.
Proof.
  intros Ha Hb Ca Cb E.
  assert (Hlen : forall a b c r, all_digits a -> all_digits b -> b = c :: r -> c <> "0"%char ->
             digits_value a = digits_value b -> (List.length b <= List.length a)%nat).
  { clear. intros a b c r Ha Hb -> Hc E.
    pose proof (digits_value_lower c r Hb Hc). pose proof (digits_value_range a Ha).
    assert (Hp : 10 ^ Z.of_nat (List.length r) < 10 ^ Z.of_nat (List.length a)) by lia.
    apply Z.pow_lt_mono_r_iff in Hp; [simpl; lia|lia|lia]. }
  destruct Ca as [-> | (c & r & -> & Hc)], Cb as [-> | (d & q & -> & Hd)].
  - reflexivity.
  - exfalso. pose proof (digits_value_lower d q Hb Hd).
    change (digits_value ["0"%char]) with 0 in E. pose proof (Z.pow_pos_nonneg 10 (Z.of_nat (List.length q))). lia.
  - exfalso. pose proof (digits_value_lower c r Ha Hc).
    change (digits_value ["0"%char]) with 0 in E. pose proof (Z.pow_pos_nonneg 10 (Z.of_nat (List.length r))). lia.
  - apply same_length_digits; auto. apply Nat.le_antisymm.
    + eapply Hlen; eauto.
    + eapply Hlen; eauto.
Qed.

Lemma print_nat_canonical ds : all_digits ds -> canonical ds -> print_nat (digits_value ds) = ds.
Proof.
  intros H C. pose proof (digits_value_range ds H).
  destruct (print_nat_spec (digits_value ds)) as (H1 & H2 & H3 & H4); [lia|].
  apply canonical_unique; auto.
Qed.

(** ** Reading *)

Lemma finish_read_app neg ds rest :
  all_digits ds -> ds <> [] -> match rest with c :: _ => is_digit c = false | [] => True end ->
  finish_read neg (ds ++ rest) =
    let v := if neg then - digits_value ds else digits_value ds in
      if v <? int_min then IntOverflow int_min rest
      else if int_max <? v then IntOverflow int_max rest
      else IntOk v rest.
Proof.
  intros H Hn Hr. unfold finish_read. rewrite span_digits_app by assumption.
  destruct ds; [congruence|reflexivity].
Qed.

Lemma read_int_digits ds rest :
  all_digits ds -> ds <> [] -> match rest with c :: _ => is_digit c = false | [] => True end ->
  digits_value ds <= int_max ->
  read_int (ds ++ rest) = IntOk (digits_value ds) rest.
Proof.
  intros H Hn Hr Hv. unfold read_int.
  destruct ds as [|c ds]; [congruence|].
  inversion H as [|? ? Hc Hds]; subst.
  change ((c :: ds) ++ rest) with (c :: (ds ++ rest)).
  rewrite skip_ws_nonspace by (apply digit_not_space; exact Hc).
  destruct (ascii_dec c "-"); [subst; discriminate|].
  destruct (ascii_dec c "+"); [subst; discriminate|].
  change (c :: ds ++ rest) with ((c :: ds) ++ rest).
  rewrite finish_read_app by assumption. cbv zeta.
  pose proof (digits_value_range _ H).
  assert (digits_value (c :: ds) <? int_min = false) as -> by (unfold int_min; lia).
  assert (int_max <? digits_value (c :: ds) = false) as -> by lia.
  reflexivity.
Qed.

Lemma read_int_neg_digits ds rest :
  all_digits ds -> ds <> [] -> match rest with c :: _ => is_digit c = false | [] => True end ->
  int_min <= - digits_value ds ->
  read_int ("-"%char :: ds ++ rest) = IntOk (- digits_value ds) rest.
Proof.
  intros H Hn Hr Hv. unfold read_int.
  rewrite skip_ws_nonspace by reflexivity.
  destruct (ascii_dec "-" "-"); [|congruence].
  rewrite finish_read_app by assumption. cbv zeta.
  pose proof (digits_value_range _ H).
  assert (- digits_value ds <? int_min = false) as -> by lia.
  assert (int_max <? - digits_value ds = false) as -> by (unfold int_max; lia).
  reflexivity.
Qed.

Lemma read_int_print z rest :
  int_min <= z <= int_max -> match rest with c :: _ => is_digit c = false | [] => True end ->
  read_int (print_int z ++ rest) = IntOk z rest.
Proof.
  intros Hz Hr. unfold print_int. destruct (z <? 0) eqn:E; bool_hyps.
  - destruct (print_nat_spec (- z)) as (H1 & H2 & H3 & _); [lia|].
    change (("-"%char :: print_nat (- z)) ++ rest) with ("-"%char :: print_nat (- z) ++ rest).
    rewrite read_int_neg_digits; auto; rewrite H3; [f_equal; lia|lia].
  - destruct (print_nat_spec z) as (H1 & H2 & H3 & _); [lia|].
    rewrite read_int_digits; auto; rewrite H3; [reflexivity|lia].
Qed.
