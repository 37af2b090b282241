From Coq Require Import List Ascii String ZArith QArith Qround Qabs Qpower Bool Lia Lqa.
From Verif Require Import Model.Base Model.Text Model.LongDouble Model.Decimals
  Spec.Numerals Spec.DecimalText Proofs.Tac Proofs.TextProofs Proofs.LongDoubleProofs Proofs.DecimalsProofs.
Import ListNotations.
Open Scope Z_scope.
Open Scope list_scope.

(** ** Reading *)

Lemma digit_not_special c : is_digit c = true ->
  is_space c = false /\ c <> "-"%char /\ c <> "+"%char /\ c <> "."%char /\ c <> "e"%char /\ c <> "E"%char.
Proof.
  intros H. split; [apply digit_not_space, H | ]. repeat split; intros ->; discriminate.
Qed.

Lemma read_sign_spec t neg r : read_sign t = (neg, r) ->
  (t = "-"%char :: r /\ neg = true) \/ (t = "+"%char :: r /\ neg = false) \/ (t = r /\ neg = false).
Proof.
  unfold read_sign. destruct t as [|c t]; [intros H; injection H as <- <-; auto | ].
  destruct (ascii_dec c "-") as [E|E]; [intros H; injection H as <- <-; left; subst; auto | ].
  destruct (ascii_dec c "+") as [E'|E']; intros H; injection H as <- <-; subst; auto.
Qed.

Lemma read_sign_none t : match t with c :: _ => c <> "-"%char /\ c <> "+"%char | [] => True end ->
  read_sign t = (false, t).
Proof.
  destruct t as [|c t]; [reflexivity | ]. intros [A B]. unfold read_sign.
  destruct (ascii_dec c "-"); [congruence | ]. destruct (ascii_dec c "+"); [congruence | reflexivity].
Qed.

Lemma ws_not_special c : ws_char c ->
  is_digit c = false /\ c <> "-"%char /\ c <> "+"%char /\ c <> "."%char /\ c <> "e"%char /\ c <> "E"%char.
Proof.
  unfold ws_char. cbn [In]. intros H.
  repeat (destruct H as [<- | H]; [repeat split; try reflexivity; discriminate | ]). contradiction.
Qed.

Lemma scan_sound t x rest : scan_decimal t = Some (x, rest) -> skip_ws rest = [] -> number_text t x.
Proof.
  unfold scan_decimal. intros H Hr.
  destruct (skip_ws_split t) as (w1 & Hw1 & Et). set (t0 := skip_ws t) in *. clearbody t0.
  destruct (read_sign t0) as [neg t1] eqn:E0.
  destruct (span_digits t1) as [ip t2] eqn:E1. apply span_digits_spec in E1. destruct E1 as (E1 & Hip & _).
  destruct (read_fraction t2) as [fp t3] eqn:E2.
  assert (F : exists point, t2 = point ++ fp ++ t3 /\ all_digits fp /\ (point = ["."%char] \/ (point = [] /\ fp = []))).
  { unfold read_fraction in E2. destruct t2 as [|c r].
    - injection E2 as <- <-. exists []. repeat split; [constructor | right; auto].
    - destruct (ascii_dec c ".") as [D|D].
      + apply span_digits_spec in E2. destruct E2 as (E2 & Hfp & _). exists ["."%char]. subst. repeat split; [assumption | left; auto].
      + injection E2 as <- <-. exists []. repeat split; [constructor | right; auto]. }
  destruct F as (point & E2' & Hfp & Hpoint).
  destruct (ip ++ fp) as [|c0 ds0] eqn:Eds; [discriminate | ]. rewrite <- Eds in H.
  destruct (read_exponent t3) as [[e t4]|] eqn:E3; [ | discriminate].
  injection H as Hx Hrest. subst t4.
  assert (X : exists ex, t3 = ex ++ rest /\
     ((ex = [] /\ e = 0) \/
     (exists c es ed m, ex = c :: es ++ ed /\ (c = "e"%char \/ c = "E"%char) /\ numeral ed m /\
        ((es = [] /\ e = m) \/ (es = ["+"%char] /\ e = m) \/ (es = ["-"%char] /\ e = - m))))).
  { unfold read_exponent in E3. destruct t3 as [|c r].
    - injection E3 as <- <-. exists []. auto.
    - destruct (Ascii.eqb c "e" || Ascii.eqb c "E") eqn:Ee.
      + assert (Hc : c = "e"%char \/ c = "E"%char).
        { apply orb_prop in Ee. destruct Ee as [Ee|Ee]; apply Ascii.eqb_eq in Ee; auto. }
        destruct (read_sign r) as [en r1] eqn:Er. destruct (span_digits r1) as [ed r2] eqn:Es.
        apply span_digits_spec in Es. destruct Es as (Es & Hed & _).
        destruct ed as [|c1 ed1] eqn:Eed; [discriminate | ]. rewrite <- Eed in *.
        injection E3 as <- <-.
        assert (Num : numeral ed (digits_value ed)) by (apply numeral_iff; repeat split; [congruence | assumption]).
        apply read_sign_spec in Er.
        destruct Er as [[-> ->] | [[-> ->] | [-> ->]]].
        * exists (c :: ["-"%char] ++ ed). split; [subst r1; cbn; rewrite <- ?app_assoc; reflexivity | ].
          right. exists c, ["-"%char], ed, (digits_value ed). auto 10.
        * exists (c :: ["+"%char] ++ ed). split; [subst r1; cbn; rewrite <- ?app_assoc; reflexivity | ].
          right. exists c, ["+"%char], ed, (digits_value ed). auto 10.
        * exists (c :: [] ++ ed). split; [subst r1; cbn; rewrite <- ?app_assoc; reflexivity | ].
          right. exists c, [], ed, (digits_value ed). auto 10.
      + injection E3 as <- <-. exists []. auto. }
  destruct X as (ex & E3' & Hex).
  apply skip_ws_nil in Hr.
  assert (Hn : numeral (ip ++ fp) (digits_value (ip ++ fp))).
  { apply numeral_iff. split; [congruence | ]. split; [apply Forall_app; auto | reflexivity]. }
  set (q := (inject_Z (digits_value (ip ++ fp)) * Qpower 10 (e - Z.of_nat (List.length fp)))%Q) in *.
  apply read_sign_spec in E0.
  destruct E0 as [[-> ->] | [[-> ->] | [-> ->]]].
  - exists w1, ["-"%char], ip, fp, point, ex, e, rest, (digits_value (ip ++ fp)), q.
    split; [subst; cbn [app]; rewrite <- ?app_assoc; reflexivity | ].
    do 6 (split; [first [assumption | reflexivity] | ]). auto.
  - exists w1, ["+"%char], ip, fp, point, ex, e, rest, (digits_value (ip ++ fp)), q.
    split; [subst; cbn [app]; rewrite <- ?app_assoc; reflexivity | ].
    do 6 (split; [first [assumption | reflexivity] | ]). auto.
  - exists w1, [], ip, fp, point, ex, e, rest, (digits_value (ip ++ fp)), q.
    split; [subst; cbn [app]; rewrite <- ?app_assoc; reflexivity | ].
    do 6 (split; [first [assumption | reflexivity] | ]). auto.
Qed.

Lemma head_not_digit_app w2 : Forall ws_char w2 ->
  match w2 with c :: _ => is_digit c = false | [] => True end.
Proof. intros H. destruct H as [|c r Hc _]; [exact I | ]. apply ws_not_special in Hc. tauto. Qed.

Lemma scan_complete t x : number_text t x ->
  exists rest, scan_decimal t = Some (x, rest) /\ skip_ws rest = [].
Proof.
  intros (w1 & sign & ip & fp & point & ex & e & w2 & n & q & Et & Hw1 & Hw2 & Hpoint & Hn & Hex & Hq & Hs).
  apply numeral_iff in Hn. destruct Hn as (Hne & Hd & Hnv). apply Forall_app in Hd. destruct Hd as [Hip Hfp].
  exists w2. split; [ | apply skip_ws_nil, Hw2].
  unfold scan_decimal. rewrite Et, skip_ws_app by exact Hw1.
  set (t2 := point ++ fp ++ ex ++ w2).
  (* what follows the exponent part *)
  assert (Hex' : match ex with c :: _ => (c = "e"%char \/ c = "E"%char) | [] => True end).
  { destruct Hex as [[-> _] | (c & es & ed & m & -> & Hc & _)]; [exact I | exact Hc]. }
  assert (Htail : match ex ++ w2 with c :: _ => is_digit c = false /\ c <> "."%char | [] => True end).
  { destruct ex as [|c r]; cbn [app].
    - destruct Hw2 as [|c r Hc _]; [exact I | ]. apply ws_not_special in Hc. tauto.
    - destruct Hex' as [-> | ->]; split; try reflexivity; discriminate. }
  assert (R3 : read_exponent (ex ++ w2) = Some (e, w2)).
  { destruct Hex as [[-> ->] | (c & es & ed & m & -> & Hc & Hm & Hes)].
    - cbn [app]. unfold read_exponent. destruct Hw2 as [|c r Hc _]; [reflexivity | ].
      apply ws_not_special in Hc. destruct Hc as (_ & _ & _ & _ & C1 & C2).
      apply Ascii.eqb_neq in C1. apply Ascii.eqb_neq in C2. rewrite C1, C2. reflexivity.
    - assert (Ec : (Ascii.eqb c "e" || Ascii.eqb c "E") = true) by (destruct Hc as [-> | ->]; reflexivity).
      cbn [app]. unfold read_exponent. rewrite Ec.
      apply numeral_iff in Hm. destruct Hm as (Hm1 & Hm2 & Hm3).
      assert (Hsd : span_digits (ed ++ w2) = (ed, w2)) by (apply span_digits_app; [exact Hm2 | apply head_not_digit_app, Hw2]).
      destruct Hes as [[-> He] | [[-> He] | [-> He]]].
      + cbn [app]. rewrite read_sign_none.
        * rewrite Hsd. destruct ed; [congruence | ]. cbv iota. rewrite He, Hm3. reflexivity.
        * destruct ed as [|c1 r1]; [congruence | ]. cbn [app]. inversion Hm2 as [|? ? Hc1 ?]; subst.
          apply digit_not_special in Hc1. tauto.
      + cbn [app]. change (read_sign ("+"%char :: ed ++ w2)) with (false, ed ++ w2). cbv iota beta. rewrite Hsd.
        destruct ed; [congruence | ]. cbv iota. rewrite He, Hm3. reflexivity.
      + cbn [app]. change (read_sign ("-"%char :: ed ++ w2)) with (true, ed ++ w2). cbv iota beta. rewrite Hsd.
        destruct ed; [congruence | ]. cbv iota. rewrite He, Hm3. reflexivity. }
  assert (R2 : read_fraction t2 = (fp, ex ++ w2)).
  { unfold t2. destruct Hpoint as [-> | [-> ->]]; cbn [app].
    - unfold read_fraction. destruct (ascii_dec "." "."); [ | congruence].
      apply span_digits_app; [exact Hfp | ]. destruct (ex ++ w2); tauto.
    - unfold read_fraction. destruct (ex ++ w2) as [|c r]; [reflexivity | ].
      destruct (ascii_dec c "."); [ destruct Htail; congruence | reflexivity]. }
  assert (R1 : span_digits (ip ++ t2) = (ip, t2)).
  { apply span_digits_app; [exact Hip | ]. unfold t2.
    destruct Hpoint as [-> | [-> ->]]; cbn [app]; [reflexivity | ]. destruct (ex ++ w2); tauto. }
  assert (Hhead : match ip ++ t2 with c :: _ => is_space c = false /\ c <> "-"%char /\ c <> "+"%char | [] => True end).
  { destruct Hip as [|c r Hc _]; cbn [app].
    - destruct Hpoint as [-> | [-> ->]]; unfold t2; cbn [app].
      + repeat split; try reflexivity; discriminate.
      + cbn in Hne. congruence.
    - apply digit_not_special in Hc. tauto. }
  assert (Hne2 : ip ++ t2 <> []).
  { intros E. apply app_eq_nil in E. destruct E as [-> E]. unfold t2 in E.
    apply app_eq_nil in E. destruct E as [-> E]. apply app_eq_nil in E. destruct E as [-> E]. apply Hne. reflexivity. }
  assert (R0 : exists neg, read_sign (skip_ws (sign ++ ip ++ t2)) = (neg, ip ++ t2) /\ x = (if neg then - q else q)%Q).
  { destruct Hs as [[-> Hs] | [[-> Hs] | [-> Hs]]]; cbn [app].
    - exists false. split; [ | exact Hs]. destruct (ip ++ t2) as [|c r]; [congruence | ].
      rewrite skip_ws_nonspace by tauto. apply read_sign_none. tauto.
    - exists false. split; [ | exact Hs]. rewrite skip_ws_nonspace by reflexivity. reflexivity.
    - exists true. split; [ | exact Hs]. rewrite skip_ws_nonspace by reflexivity. reflexivity. }
  destruct R0 as (neg & R0 & Ex). fold t2. rewrite R0, R1, R2.
  destruct (ip ++ fp) as [|c0 ds0] eqn:Eds; [congruence | ].
  rewrite R3. rewrite <- Hnv, <- Hq, <- Ex. reflexivity.
Qed.

(** ** Printing *)

Lemma drop_zeros_split t : exists z, t = repeat "0"%char z ++ drop_zeros t /\
  match drop_zeros t with c :: _ => c <> "0"%char | [] => True end.
Proof.
  induction t as [|c r (z & IH & H)]; [exists O; split; [reflexivity | exact I] | ].
  cbn [drop_zeros]. destruct (ascii_dec c "0") as [E|E].
  - exists (S z). cbn [repeat app]. rewrite <- IH. subst. auto.
  - exists O. auto.
Qed.

Lemma rev_repeat {A} (a : A) n : rev (repeat a n) = repeat a n.
Proof.
  induction n as [|n IH]; [reflexivity | ]. cbn [repeat rev]. rewrite IH.
  clear IH. induction n as [|n IH]; [reflexivity | ]. cbn [repeat app]. rewrite IH. reflexivity.
Qed.

Lemma strip_zeros_split t : exists z, t = strip_zeros t ++ repeat "0"%char z /\
  (strip_zeros t = [] \/ exists r c, strip_zeros t = r ++ [c] /\ c <> "0"%char).
Proof.
  destruct (drop_zeros_split (rev t)) as (z & E & H). exists z. unfold strip_zeros. split.
  - rewrite <- (rev_repeat "0"%char z), <- rev_app_distr, <- E, rev_involutive. reflexivity.
  - destruct (drop_zeros (rev t)) as [|c r]; [left; reflexivity | right].
    exists (rev r), c. cbn [rev]. auto.
Qed.

Lemma repeat_zero_digits n : all_digits (repeat "0"%char n) /\ digits_value (repeat "0"%char n) = 0.
Proof.
  induction n as [|n [IH1 IH2]]; [split; [constructor | reflexivity] | ].
  cbn [repeat]. split; [constructor; [reflexivity | exact IH1] | ].
  rewrite digits_value_cons, IH2. change (digit_of "0") with 0. lia.
Qed.

Lemma print_nat_length z g : 10 ^ g <= z < 10 ^ (g + 1) -> 0 <= g ->
  Z.of_nat (List.length (print_nat z)) = g + 1.
Proof.
  intros H Hg. pose proof (Z.pow_pos_nonneg 10 g).
  destruct (print_nat_spec z) as (A & B & C & D); [lia | ].
  pose proof (digits_value_range _ A) as R. rewrite C in R.
  destruct D as [D | (c & r & D & Hc)].
  - rewrite D in *. change (digits_value ["0"%char]) with 0 in C. lia.
  - rewrite D in A. pose proof (digits_value_lower c r A Hc) as L. rewrite <- D, C in L.
    assert (L1 : 10 ^ g < 10 ^ Z.of_nat (List.length (print_nat z))) by lia.
    assert (L2 : 10 ^ Z.of_nat (List.length r) < 10 ^ (g + 1)) by lia.
    apply Z.pow_lt_mono_r_iff in L1; [ | lia | lia].
    apply Z.pow_lt_mono_r_iff in L2; [ | lia | lia].
    rewrite D in *. cbn [List.length] in *. lia.
Qed.

Lemma count_digits_spec n g dec d :
  (1 <= d <= 19) -> 0 <= g < d -> d - g <= Z.of_nat n -> 10 ^ g <= dec < 10 ^ d ->
  count_digits n g (10 ^ g) dec = Z.of_nat (List.length (print_nat dec)).
Proof.
  intros Hd. revert g. induction n as [|n IH]; intros g Hg Hn Hdec; [lia | ].
  cbn [count_digits].
  assert (P : u64 (10 ^ g * 10) = 10 ^ (g + 1)).
  { rewrite Z.pow_add_r by lia. unfold u64. apply Z.mod_small.
    assert (10 ^ (g + 1) <= 10 ^ 19) by (apply Z.pow_le_mono_r; lia).
    rewrite Z.pow_add_r in H by lia. change (10 ^ 1) with 10 in *.
    assert (10 ^ 19 < 2 ^ 64) by reflexivity. pose proof (Z.pow_pos_nonneg 10 g). lia. }
  rewrite P. pose proof (Z.pow_pos_nonneg 10 (g + 1)).
  destruct (dec / 10 ^ (g + 1) <? 1) eqn:E; bool_hyps.
  - assert (dec < 10 ^ (g + 1)).
    { destruct (Z_lt_le_dec dec (10 ^ (g + 1))) as [L|L]; [exact L | ].
      assert (1 <= dec / 10 ^ (g + 1)) by (apply Z.div_le_lower_bound; lia). lia. }
    symmetry. apply print_nat_length; lia.
  - assert (10 ^ (g + 1) <= dec).
    { destruct (Z_lt_le_dec dec (10 ^ (g + 1))) as [L|L]; [ | exact L].
      rewrite Z.div_small in E by (pose proof (Z.pow_pos_nonneg 10 g); lia). lia. }
    assert (10 ^ (g + 1) < 10 ^ d) by lia.
    apply Z.pow_lt_mono_r_iff in H1; [ | lia | lia].
    apply IH; lia.
Qed.

(** The digits printed after the point. *)
Definition fraction_text (p : precise) : str :=
  repeat "0"%char (Z.to_nat (p_dec_digits p - count_digits (Z.to_nat (p_dec_digits p + 1)) 0 1 (p_decimal p))) ++
  strip_zeros (print_nat (p_decimal p)).

Lemma fraction_text_spec p :
  1 <= p_dec_digits p <= 19 -> 0 < p_decimal p < 10 ^ p_dec_digits p ->
  all_digits (fraction_text p) /\
  p_decimal p * 10 ^ Z.of_nat (List.length (fraction_text p)) = digits_value (fraction_text p) * 10 ^ p_dec_digits p /\
  exists r c, fraction_text p = r ++ [c] /\ c <> "0"%char.
Proof.
  intros Hd Hdec. unfold fraction_text.
  set (dec := p_decimal p) in *. set (d := p_dec_digits p) in *.
  assert (Hcount : count_digits (Z.to_nat (d + 1)) 0 1 dec = Z.of_nat (List.length (print_nat dec))).
  { apply (count_digits_spec _ 0 dec d); change (10 ^ 0) with 1; lia. }
  rewrite Hcount.
  destruct (print_nat_spec dec) as (A & B & C & D); [lia | ].
  destruct (strip_zeros_split (print_nat dec)) as (z & E & S).
  set (s := strip_zeros (print_nat dec)) in *.
  destruct (repeat_zero_digits z) as [Z1 Z2].
  assert (Ds : all_digits s) by (rewrite E in A; apply Forall_app in A; tauto).
  assert (V : dec = digits_value s * 10 ^ Z.of_nat z).
  { rewrite <- C at 1. rewrite E, digits_value_app, Z2, repeat_length. lia. }
  assert (L : Z.of_nat (List.length (print_nat dec)) = Z.of_nat (List.length s) + Z.of_nat z).
  { rewrite E, app_length, repeat_length. lia. }
  assert (Ld : Z.of_nat (List.length (print_nat dec)) <= d).
  { destruct D as [D | (c & r & D & Hc)].
    - rewrite D. cbn. lia.
    - rewrite D in A. pose proof (digits_value_lower c r A Hc) as L'. rewrite <- D, C in L'.
      assert (X : 10 ^ Z.of_nat (List.length r) < 10 ^ d) by lia.
      apply Z.pow_lt_mono_r_iff in X; [ | lia | lia]. rewrite D. cbn [List.length]. lia. }
  set (k := Z.to_nat (d - Z.of_nat (List.length (print_nat dec)))).
  assert (Hk : Z.of_nat k = d - Z.of_nat (List.length (print_nat dec))) by (unfold k; lia).
  destruct (repeat_zero_digits k) as [K1 K2].
  split; [apply Forall_app; auto | ]. split.
  - rewrite app_length, repeat_length, digits_value_app, K2, Nat2Z.inj_add.
    replace (Z.of_nat k + Z.of_nat (List.length s)) with (d - Z.of_nat z) by lia.
    assert (Ed : d = Z.of_nat z + (d - Z.of_nat z)) by lia.
    rewrite Ed at 2. rewrite (Z.pow_add_r 10 (Z.of_nat z)) by lia. rewrite V at 1. ring.
  - destruct S as [S | (r & c & S & Hc)].
    + exfalso. rewrite S in V. change (digits_value []) with 0 in V. lia.
    + exists (repeat "0"%char k ++ r), c. split; [rewrite S, app_assoc; reflexivity | exact Hc].
Qed.

Lemma p_toString_cases p :
  1 <= p_dec_digits p <= 19 -> 0 <= p_integer p -> 0 <= p_decimal p < 10 ^ p_dec_digits p ->
  (p_integer p = 0 /\ p_decimal p = 0 /\ p_toString p = ["0"%char]) \/
  (p_integer p <> 0 /\ p_decimal p = 0 /\
   p_toString p = (if p_negative p then ["-"%char] else []) ++ print_nat (p_integer p)) \/
  (p_decimal p <> 0 /\
   p_toString p = (if p_negative p then ["-"%char] else []) ++ print_nat (p_integer p) ++ "."%char :: fraction_text p).
Proof.
  intros Hd Hi Hdec. unfold p_toString, fraction_text.
  destruct (p_integer p =? 0) eqn:E1; destruct (p_decimal p =? 0) eqn:E2; cbn [andb]; bool_hyps.
  - left. auto.
  - right. right. split; [assumption | ]. destruct (p_negative p); reflexivity.
  - right. left. split; [assumption | ]. split; [assumption | ].
    destruct (p_negative p); cbn [lit list_ascii_of_string app]; rewrite app_nil_r; reflexivity.
  - right. right. split; [assumption | ]. destruct (p_negative p); reflexivity.
Qed.

Lemma toString_plain p :
  1 <= p_dec_digits p <= 19 -> 0 <= p_integer p -> 0 <= p_decimal p < 10 ^ p_dec_digits p ->
  plain_decimal (toString p) (amount p) /\ shortest_decimal (toString p).
Proof.
  intros Hd Hi Hdec. unfold toString, amount, units.
  pose proof (Z.pow_pos_nonneg 10 (p_dec_digits p)) as P10.
  assert (PQ : (0 < inject_Z (10 ^ p_dec_digits p))%Q) by (change 0%Q with (inject_Z 0); rewrite <- Zlt_Qlt; lia).
  assert (Sg : forall q : Q, let x := (if p_negative p then - q else q)%Q in
     (((if p_negative p then ["-"%char] else []) = [] /\ x == q) \/ ((if p_negative p then ["-"%char] else []) = ["-"%char] /\ x == - q))%Q).
  { intros q. destruct (p_negative p); cbv zeta; [right | left]; split; reflexivity. }
  destruct (p_toString_cases p Hd Hi Hdec) as [(E1 & E2 & ->) | [(E1 & E2 & ->) | (E2 & ->)]].
  - split; [ | left; reflexivity].
    exists [], ["0"%char], 0. split; [apply numeral_iff; repeat split; [discriminate | constructor; [reflexivity | constructor]] | ].
    left. exists 0%Q. split; [reflexivity | ]. split; [reflexivity | ]. left. split; [reflexivity | ].
    rewrite E1, E2, Z.mul_0_l, Z.add_0_l. destruct (p_negative p); cbn [Z.opp]; unfold Qdiv; apply Qmult_0_l.
  - destruct (print_nat_spec (p_integer p) Hi) as (A & B & C & D). split.
    + exists (if p_negative p then ["-"%char] else []), (print_nat (p_integer p)), (p_integer p).
      split; [apply numeral_print_nat, Hi | ]. left. exists (inject_Z (p_integer p)). split; [reflexivity | ]. split; [reflexivity | ].
      destruct (Sg (inject_Z (p_integer p))) as [[S1 S2] | [S1 S2]]; [left | right]; split; try exact S1; rewrite <- S2, E2, Z.add_0_r;
      destruct (p_negative p); try discriminate; rewrite ?inject_Z_opp, inject_Z_mult; field; lra.
    + right. exists (if p_negative p then ["-"%char] else []), (print_nat (p_integer p)), [].
      split; [rewrite app_nil_r; reflexivity | ]. split; [destruct (p_negative p); auto | ]. split; [exact D | ]. split; [exists (p_integer p); apply numeral_print_nat, Hi | ].
      left. split; [reflexivity | ]. intros E. rewrite E in C. change (digits_value ["0"%char]) with 0 in C. congruence.
  - destruct (print_nat_spec (p_integer p) Hi) as (A & B & C & D).
    destruct (fraction_text_spec p Hd) as (F1 & F2 & (r & c & F3 & F4)); [lia | ]. split.
    + exists (if p_negative p then ["-"%char] else []), (print_nat (p_integer p)), (p_integer p).
      split; [apply numeral_print_nat, Hi | ]. right.
      set (f := fraction_text p) in *.
      set (q := (inject_Z (p_integer p) + inject_Z (digits_value f) / inject_Z (10 ^ Z.of_nat (List.length f)))%Q).
      exists f, (digits_value f), q. split; [reflexivity | ].
      split; [apply numeral_iff; repeat split; [rewrite F3; destruct r; discriminate | exact F1] | ].
      split; [reflexivity | ].
      pose proof (Z.pow_pos_nonneg 10 (Z.of_nat (List.length f))) as PL.
      assert (PLQ : (0 < inject_Z (10 ^ Z.of_nat (List.length f)))%Q) by (change 0%Q with (inject_Z 0); rewrite <- Zlt_Qlt; lia).
      assert (F2q : (inject_Z (p_decimal p) * inject_Z (10 ^ Z.of_nat (List.length f)) == inject_Z (digits_value f) * inject_Z (10 ^ p_dec_digits p))%Q)
        by (rewrite <- !inject_Z_mult, F2; reflexivity).
      assert (Eq : (q == (inject_Z (p_integer p * 10 ^ p_dec_digits p + p_decimal p) / inject_Z (10 ^ p_dec_digits p)))%Q).
      { unfold q. rewrite inject_Z_plus, inject_Z_mult.
        set (M := inject_Z (10 ^ p_dec_digits p)) in *. set (Lf := inject_Z (10 ^ Z.of_nat (List.length f))) in *.
        assert (G : (inject_Z (digits_value f) / Lf == inject_Z (p_decimal p) / M)%Q).
        { apply (Qmult_inj_r _ _ (Lf * M)); [nra | ].
          transitivity (inject_Z (digits_value f) * M)%Q; [field; lra | ]. rewrite <- F2q. field; lra. }
        rewrite G. field. lra. }
      destruct (Sg q) as [[S1 S2] | [S1 S2]]; [left | right]; split; try exact S1; rewrite <- S2;
      destruct (p_negative p); try discriminate; rewrite Eq; rewrite ?inject_Z_opp; field; lra.
    + right. exists (if p_negative p then ["-"%char] else []), (print_nat (p_integer p)), ("."%char :: fraction_text p).
      split; [reflexivity | ]. split; [destruct (p_negative p); auto | ]. split; [exact D | ]. split; [exists (p_integer p); apply numeral_print_nat, Hi | ].
      right. exists r, c. rewrite F3. split; [reflexivity | ]. split; [ | exact F4]. exists (digits_value (r ++ [c])). apply numeral_iff. rewrite <- F3.
      repeat split; [rewrite F3; destruct r; discriminate | exact F1].
Qed.

Lemma pow10_neg n : (Qpower 10 (0 - Z.of_nat n) == / inject_Z (10 ^ Z.of_nat n))%Q.
Proof.
  replace (0 - Z.of_nat n)%Z with (- Z.of_nat n)%Z by lia. rewrite Qpower_opp.
  rewrite Zpower_Qpower by lia. reflexivity.
Qed.

Lemma plain_is_number t x : plain_decimal t x -> exists y, (x == y)%Q /\ number_text t y.
Proof.
  intros (sign & ip & n & Hn & H).
  assert (Sg : forall q : Q, ((sign = [] /\ x == q) \/ (sign = ["-"%char] /\ x == - q))%Q ->
    exists y, (x == y)%Q /\ forall q', (q == q')%Q -> exists y', (x == y')%Q /\
      ((sign = [] /\ y' = q') \/ (sign = ["+"%char] /\ y' = q') \/ (sign = ["-"%char] /\ y' = (- q')%Q))).
  { intros q [[-> E] | [-> E]]; exists x; (split; [reflexivity | ]); intros q' Eq.
    - exists q'. split; [rewrite E; exact Eq | auto].
    - exists (- q')%Q. split; [rewrite E, Eq; reflexivity | auto]. }
  destruct H as [(q & Et & Hq & Hs) | (fp & m & q & Et & Hm & Hq & Hs)].
  - destruct (Sg q Hs) as (_ & _ & G).
    destruct (G (inject_Z n * Qpower 10 (0 - Z.of_nat (List.length (@nil ascii))))%Q) as (y & E & Hy).
    { rewrite Hq. cbn. ring. }
    exists y. split; [exact E | ].
    exists [], sign, ip, [], [], [], 0, [], n, (inject_Z n * Qpower 10 (0 - Z.of_nat (List.length (@nil ascii))))%Q.
    split; [rewrite Et; cbn [app]; rewrite !app_nil_r; reflexivity | ].
    split; [constructor | ]. split; [constructor | ]. split; [right; auto | ].
    split; [rewrite app_nil_r; exact Hn | ]. split; [left; auto | ]. split; [reflexivity | exact Hy].
  - apply numeral_iff in Hm. destruct Hm as (M1 & M2 & M3).
    apply numeral_iff in Hn. destruct Hn as (N1 & N2 & N3).
    set (L := List.length fp) in *.
    pose proof (Z.pow_pos_nonneg 10 (Z.of_nat L)) as PL.
    assert (PLQ : (0 < inject_Z (10 ^ Z.of_nat L))%Q) by (change 0%Q with (inject_Z 0); rewrite <- Zlt_Qlt; lia).
    destruct (Sg q Hs) as (_ & _ & G).
    destruct (G (inject_Z (digits_value (ip ++ fp)) * Qpower 10 (0 - Z.of_nat L))%Q) as (y & E & Hy).
    { rewrite Hq, pow10_neg, digits_value_app, inject_Z_plus, inject_Z_mult. fold L. rewrite N3, M3. field. lra. }
    exists y. split; [exact E | ].
    exists [], sign, ip, fp, ["."%char], [], 0, [], (digits_value (ip ++ fp)), (inject_Z (digits_value (ip ++ fp)) * Qpower 10 (0 - Z.of_nat L))%Q.
    split; [rewrite Et; cbn [app]; rewrite !app_nil_r; reflexivity | ].
    split; [constructor | ]. split; [constructor | ]. split; [left; auto | ].
    split; [apply numeral_iff; repeat split; [destruct ip; [congruence | discriminate] | apply Forall_app; auto] | ].
    split; [left; auto | ]. split; [reflexivity | exact Hy].
Qed.
