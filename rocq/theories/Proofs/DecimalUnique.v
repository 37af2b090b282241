(** A number has one shortest text. *)
From Coq Require Import List Ascii String ZArith QArith Bool Lia Lqa.
From Verif Require Import Model.Base Model.Text Model.Decimals Spec.Numerals Spec.DecimalText Proofs.Tac Proofs.TextProofs Proofs.DecimalsText.
Import ListNotations.
Open Scope Z_scope.
Open Scope list_scope.

(** The parts of a shortest text. *)
Definition tail_of (fp : str) : str := match fp with [] => [] | _ => "."%char :: fp end.
Definition ends_well (fp : str) : Prop := fp = [] \/ exists r c, fp = r ++ [c] /\ c <> "0"%char.
Definition size_of (ip fp : str) : Q := (inject_Z (digits_value ip) + inject_Z (digits_value fp) / inject_Z (10 ^ Z.of_nat (List.length fp)))%Q.

Definition parts (t : str) (neg : bool) (ip fp : str) : Prop :=
  t = (if neg then ["-"%char] else []) ++ ip ++ tail_of fp /\ ip <> [] /\ all_digits ip /\ canonical ip /\ all_digits fp /\ ends_well fp /\
  (neg = true -> ip <> ["0"%char] \/ fp <> []).

Lemma shortest_parts t : shortest_decimal t -> exists neg ip fp, parts t neg ip fp.
Proof.
  intros [-> | (sign & ip & rest & -> & Hs & Hc & (n & Hn) & H)].
  - exists false, ["0"%char], []. split; [reflexivity | ]. split; [discriminate | ]. split; [constructor; [reflexivity | constructor] | ]. split; [left; reflexivity | ].
    split; [constructor | ]. split; [left; reflexivity | discriminate].
  - apply numeral_iff in Hn as (N1 & N2 & _).
    destruct H as [[-> H] | (fp & c & -> & (m & Hm) & H)].
    + exists (match sign with [] => false | _ => true end), ip, []. split; [destruct Hs as [-> | ->]; reflexivity | ]. split; [exact N1 | ]. split; [exact N2 | ]. split; [exact Hc | ].
      split; [constructor | ]. split; [left; reflexivity | auto].
    + apply numeral_iff in Hm as (M1 & M2 & _).
      exists (match sign with [] => false | _ => true end), ip, (fp ++ [c]). split; [destruct Hs as [-> | ->]; destruct fp; reflexivity | ]. split; [exact N1 | ].
      split; [exact N2 | ]. split; [exact Hc | ]. split; [exact M2 | ]. split; [right; eauto | auto].
Qed.

Lemma digits_start ip r r' : ip <> [] -> all_digits ip -> ip ++ r <> "-"%char :: r'.
Proof. intros N D E. destruct ip as [ | c ip]; [congruence | ]. inversion D as [ | ? ? Hc _]; subst. cbn in E. injection E as -> _. discriminate Hc. Qed.

Lemma point_tail fp : match tail_of fp with c :: _ => is_digit c = false | [] => True end.
Proof. destruct fp; [exact I | reflexivity]. Qed.

Lemma plain_parts t x neg ip fp : parts t neg ip fp -> plain_decimal t x -> (x == (if neg then - size_of ip fp else size_of ip fp))%Q.
Proof.
  intros (E & N & D & _ & F & _) (sign & ip' & n & Hn & H). apply numeral_iff in Hn as (N' & D' & ->).
  assert (A : forall tl q, match tl with c :: _ => is_digit c = false | [] => True end -> t = sign ++ ip' ++ tl -> ((sign = [] /\ x == q) \/ (sign = ["-"%char] /\ x == - q))%Q ->
    ip' = ip /\ tl = tail_of fp /\ (x == (if neg then - q else q))%Q).
  { intros tl q T Et Hx. rewrite E in Et.
    assert (Ei : ip ++ tail_of fp = ip' ++ tl /\ (x == (if neg then - q else q))%Q).
    { destruct Hx as [[-> Hx] | [-> Hx]], neg; cbn [app] in Et.
      - exfalso. symmetry in Et. exact (digits_start _ _ _ N' D' Et).
      - auto.
      - injection Et as Et. auto.
      - exfalso. exact (digits_start _ _ _ N D Et). }
    destruct Ei as [Ei Ex]. pose proof (span_digits_app ip (tail_of fp) D (point_tail fp)) as S1. pose proof (span_digits_app ip' tl D' T) as S2.
    rewrite Ei, S2 in S1. injection S1 as -> ->. auto. }
  destruct H as [(q & Et & -> & Hx) | (fp' & m & q & Et & Hm & -> & Hx)].
  - destruct (A [] (inject_Z (digits_value ip')) I ltac:(rewrite app_nil_r; exact Et) Hx) as (-> & T & Ex). assert (fp = []) as -> by (destruct fp; [reflexivity | discriminate T]).
    assert (S : (size_of ip [] == inject_Z (digits_value ip))%Q) by (unfold size_of; cbn [List.length Z.of_nat]; change (inject_Z (digits_value [])) with 0%Q; change (inject_Z (10 ^ 0)) with 1%Q; field).
    destruct neg; rewrite S; exact Ex.
  - apply numeral_iff in Hm as (M1 & M2 & ->). destruct (A ("."%char :: fp') _ eq_refl Et Hx) as (-> & T & Ex). assert (fp' = fp) as -> by (destruct fp; [discriminate T | injection T as ->; reflexivity]).
    exact Ex.
Qed.

Lemma pow10_pos n : (0 < inject_Z (10 ^ Z.of_nat n))%Q.
Proof. change 0%Q with (inject_Z 0). rewrite <- Zlt_Qlt. apply Z.pow_pos_nonneg; lia. Qed.

Lemma last_digit fp : all_digits fp -> ends_well fp -> fp = [] \/ digits_value fp mod 10 <> 0.
Proof.
  intros D [-> | (r & c & -> & Hc)]; [left; reflexivity | right]. rewrite digits_value_app. apply Forall_app in D as [D1 D2]. inversion D2 as [ | ? ? Hd _]; subst.
  assert (V : digits_value [c] = digit_of c) by (rewrite digits_value_cons; cbn [List.length Z.of_nat]; change (digits_value []) with 0; lia).
  rewrite V. cbn [List.length]. change (10 ^ Z.of_nat 1) with 10. pose proof (digit_of_range c Hd). intros M.
  assert (digit_of c = 0) by (rewrite Z.add_comm, Z.mod_add, Z.mod_small in M by lia; exact M).
  apply Hc. apply code_inj. unfold digit_of in *. change (code "0"%char) with 48. lia.
Qed.

Lemma size_unique ip fp ip' fp' : all_digits ip -> all_digits ip' -> canonical ip -> canonical ip' -> all_digits fp -> all_digits fp' -> ends_well fp -> ends_well fp' ->
  (size_of ip fp == size_of ip' fp')%Q -> ip = ip' /\ fp = fp'.
Proof.
  intros D D' C C' F F' W W' E. unfold size_of in E.
  pose proof (digits_value_range fp F) as R. pose proof (digits_value_range fp' F') as R'.
  set (l := List.length fp) in *. set (l' := List.length fp') in *. set (m := digits_value fp) in *. set (m' := digits_value fp') in *.
  pose proof (pow10_pos l) as P. pose proof (pow10_pos l') as P'.
  set (n := digits_value ip) in *. set (n' := digits_value ip') in *.
  assert (E' : (inject_Z (n * 10 ^ Z.of_nat l * 10 ^ Z.of_nat l' + m * 10 ^ Z.of_nat l') == inject_Z (n' * 10 ^ Z.of_nat l * 10 ^ Z.of_nat l' + m' * 10 ^ Z.of_nat l))%Q).
  { rewrite !inject_Z_plus, !inject_Z_mult. set (a := inject_Z (10 ^ Z.of_nat l)) in *. set (b := inject_Z (10 ^ Z.of_nat l')) in *.
    transitivity ((inject_Z n + inject_Z m / a) * (a * b))%Q; [field; lra | ]. rewrite E. field. lra. }
  assert (Ez : n * 10 ^ Z.of_nat l * 10 ^ Z.of_nat l' + m * 10 ^ Z.of_nat l' = n' * 10 ^ Z.of_nat l * 10 ^ Z.of_nat l' + m' * 10 ^ Z.of_nat l) by (unfold Qeq in E'; cbn in E'; lia).
  clear E E' P P'.
  assert (PZ : 0 < 10 ^ Z.of_nat l) by (apply Z.pow_pos_nonneg; lia). assert (PZ' : 0 < 10 ^ Z.of_nat l') by (apply Z.pow_pos_nonneg; lia).
  assert (En : n = n').
  { set (a := 10 ^ Z.of_nat l) in *. set (b := 10 ^ Z.of_nat l') in *. assert (0 < a * b) by nia.
    assert (X1 : 0 <= m * b < a * b) by nia. assert (X2 : 0 <= m' * a < a * b) by nia.
    rewrite <- !Z.mul_assoc in Ez. set (ab := a * b) in *. nia. }
  assert (Em : m * 10 ^ Z.of_nat l' = m' * 10 ^ Z.of_nat l) by (rewrite En in Ez; lia).
  split; [apply canonical_unique; auto | ].
  assert (Hlt : forall fp fp', all_digits fp' -> ends_well fp' -> digits_value fp * 10 ^ Z.of_nat (List.length fp') = digits_value fp' * 10 ^ Z.of_nat (List.length fp) ->
     (List.length fp' <= List.length fp)%nat).
  { clear. intros fp fp' F' W' Em. destruct (Nat.le_gt_cases (List.length fp') (List.length fp)) as [H | H]; [exact H | exfalso].
    destruct (last_digit fp' F' W') as [-> | L]; [cbn in H; lia | ]. apply L.
    replace (Z.of_nat (List.length fp')) with (Z.of_nat (List.length fp) + (1 + Z.of_nat (List.length fp' - List.length fp - 1))) in Em by lia.
    rewrite !Z.pow_add_r in Em by lia. change (10 ^ 1) with 10 in Em.
    assert (0 < 10 ^ Z.of_nat (List.length fp)) by (apply Z.pow_pos_nonneg; lia).
    assert (digits_value fp' = (digits_value fp * 10 ^ Z.of_nat (List.length fp' - List.length fp - 1)) * 10) as -> by nia.
    apply Z.mod_mul. lia. }
  assert (l = l') as El by (apply Nat.le_antisymm; [apply (Hlt fp' fp F W); symmetry; exact Em | apply (Hlt fp fp' F' W' Em)]).
  apply same_length_digits; auto. fold m m'. rewrite El in Em. nia.
Qed.

Lemma size_nonneg ip fp : all_digits ip -> all_digits fp -> (0 <= size_of ip fp)%Q.
Proof.
  intros D F. unfold size_of. pose proof (digits_value_range ip D) as R. pose proof (digits_value_range fp F) as R'. pose proof (pow10_pos (List.length fp)).
  assert (0 <= inject_Z (digits_value ip))%Q by (change 0%Q with (inject_Z 0); rewrite <- Zle_Qle; lia).
  assert (0 <= inject_Z (digits_value fp))%Q by (change 0%Q with (inject_Z 0); rewrite <- Zle_Qle; lia).
  assert (0 <= inject_Z (digits_value fp) / inject_Z (10 ^ Z.of_nat (List.length fp)))%Q by (apply Qle_shift_div_l; lra). lra.
Qed.

Lemma size_zero ip fp : all_digits ip -> all_digits fp -> canonical ip -> ends_well fp -> (size_of ip fp == 0)%Q -> ip = ["0"%char] /\ fp = [].
Proof.
  intros D F C W E. apply (size_unique ip fp ["0"%char] []); try assumption; try (left; reflexivity); try (constructor; [reflexivity | constructor]); try constructor; try (rewrite E; reflexivity).
Qed.

Lemma decimal_unique t t' x x' : plain_decimal t x -> shortest_decimal t -> plain_decimal t' x' -> shortest_decimal t' -> (x == x')%Q -> t = t'.
Proof.
  intros P S P' S' E. destruct (shortest_parts t S) as (neg & ip & fp & H). destruct (shortest_parts t' S') as (neg' & ip' & fp' & H').
  pose proof (plain_parts t x neg ip fp H P) as X. pose proof (plain_parts t' x' neg' ip' fp' H' P') as X'.
  destruct H as (-> & _ & D & C & F & W & Z). destruct H' as (-> & _ & D' & C' & F' & W' & Z').
  pose proof (size_nonneg ip fp D F) as G. pose proof (size_nonneg ip' fp' D' F') as G'.
  assert (Q : (size_of ip fp == size_of ip' fp')%Q /\ neg = neg').
  { destruct neg, neg'; try (split; [lra | reflexivity]); exfalso.
    - assert (size_of ip fp == 0)%Q as K by lra. destruct (size_zero ip fp D F C W K) as [-> ->]. destruct (Z eq_refl); congruence.
    - assert (size_of ip' fp' == 0)%Q as K by lra. destruct (size_zero ip' fp' D' F' C' W' K) as [-> ->]. destruct (Z' eq_refl); congruence. }
  destruct Q as [Q <-]. destruct (size_unique ip fp ip' fp' D D' C C' F F' W W' Q) as [-> ->]. reflexivity.
Qed.
