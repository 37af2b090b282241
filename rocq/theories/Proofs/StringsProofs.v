From Verif Require Import Proofs.Tac Model.Base Model.Text Model.Strings Spec.Numerals Spec.XmlText Proofs.TextProofs.
From Verif Require Import Proofs.IntegersProofs.
Open Scope Z_scope.

(** ** trim and reduce *)

Lemma space_false c : is_space c = false <-> ~ ws_char c.
Proof. rewrite <- is_space_spec. destruct (is_space c); split; intros; congruence. Qed.

Lemma skip_ws_length t : (List.length (skip_ws t) <= List.length t)%nat.
Proof. induction t as [|c r IH]; simpl; [lia|]. destruct (is_space c); simpl; lia. Qed.

Lemma reduce_loop_fuel f f' t : (List.length t <= f)%nat -> (List.length t <= f')%nat -> reduce_loop f t = reduce_loop f' t.
Proof.
  revert f' t. induction f as [|f IH]; intros f' t H H'.
  - destruct t; [|simpl in H; lia]. destruct f'; reflexivity.
  - destruct f' as [|f'].
    + destruct t; [reflexivity|simpl in H'; lia].
    + destruct t as [|c r]; [reflexivity|]. simpl in *. destruct (is_space c).
      * f_equal. pose proof (skip_ws_length r). apply IH; lia.
      * f_equal. apply IH; lia.
Qed.

(** The body of reduce without fuel. *)
Definition squeeze (t : str) : str := reduce_loop (List.length t) t.

Lemma squeeze_nil : squeeze [] = [].
Proof. reflexivity. Qed.

Lemma squeeze_char c r : is_space c = false -> squeeze (c :: r) = c :: squeeze r.
Proof. intros H. unfold squeeze. simpl. rewrite H. reflexivity. Qed.

Lemma squeeze_space c r : is_space c = true -> squeeze (c :: r) = " "%char :: squeeze (skip_ws r).
Proof.
  intros H. unfold squeeze. simpl. rewrite H. f_equal. apply reduce_loop_fuel; [apply skip_ws_length|lia].
Qed.

Lemma squeeze_word a r : Forall (fun c => ~ ws_char c) a -> squeeze (a ++ r) = a ++ squeeze r.
Proof.
  induction 1 as [|c a Hc _ IH]; [reflexivity|]. simpl. rewrite squeeze_char by (apply space_false; exact Hc).
  rewrite IH. reflexivity.
Qed.

(** What [trim] does to a text given by its words. *)
Inductive trimmed : str -> list str -> Prop :=
| tr_none : trimmed [] []
| tr_one a : a <> [] -> Forall (fun c => ~ ws_char c) a -> trimmed a [a]
| tr_more a w r b l : a <> [] -> Forall (fun c => ~ ws_char c) a -> w <> [] -> Forall ws_char w ->
    trimmed r (b :: l) -> trimmed (a ++ w ++ r) (a :: b :: l).

Lemma trimmed_head t a l : trimmed t (a :: l) -> exists c r, t = c :: r /\ ~ ws_char c.
Proof.
  intros H. inversion H as [|? Hn Hf|? w r b l' Hn Hf]; subst.
  - destruct a as [|c a]; [congruence|]. inversion Hf; subst. eauto.
  - destruct a as [|c a]; [congruence|]. inversion Hf; subst. simpl. eauto.
Qed.

Lemma squeeze_trimmed t l : trimmed t l -> squeeze t = join [" "%char] l.
Proof.
  induction 1 as [|a Hn Hf|a w r b l Hn Hf Hw1 Hw2 Ht IH].
  - reflexivity.
  - rewrite <- (app_nil_r a) at 1. rewrite squeeze_word by exact Hf. rewrite squeeze_nil, app_nil_r. reflexivity.
  - rewrite squeeze_word by exact Hf.
    destruct w as [|c w]; [congruence|]. inversion Hw2; subst.
    change ((c :: w) ++ r) with (c :: (w ++ r)). rewrite squeeze_space by (apply is_space_spec; assumption).
    rewrite skip_ws_app by assumption.
    destruct (trimmed_head _ _ _ Ht) as (d & r' & -> & Hd).
    rewrite skip_ws_nonspace by (apply space_false; exact Hd). rewrite IH.
    reflexivity.
Qed.

(** Words with the leading white space dropped, trailing white space explicit. *)
Lemma words_trimmed t l : words t l -> exists w1 u w2, t = w1 ++ u ++ w2 /\ Forall ws_char w1 /\ Forall ws_char w2 /\ trimmed u l.
Proof.
  induction 1 as [w Hw|w a r l Hw Hn Hf Hr Hwr (w1 & u & w2 & -> & H1 & H2 & Ht)].
  - exists w, [], []. simpl. rewrite app_nil_r. repeat split; auto. constructor.
  - destruct l as [|b l].
    + inversion Ht; subst. exists w, a, (w1 ++ w2). simpl. split; [reflexivity|]. split; [exact Hw|].
      split; [apply Forall_app; auto|]. constructor; assumption.
    + exists w, (a ++ w1 ++ u), w2. rewrite <- !app_assoc. split; [reflexivity|]. split; [exact Hw|]. split; [exact H2|].
      constructor; auto. intros ->. simpl in Hr. destruct (trimmed_head _ _ _ Ht) as (c & r & -> & Hc). simpl in Hr. contradiction.
Qed.

Lemma trimmed_last t l : trimmed t l -> t = [] \/ exists r c, t = r ++ [c] /\ ~ ws_char c.
Proof.
  induction 1 as [|a Hn Hf|a w r b l Hn Hf Hw1 Hw2 Ht IH].
  - left; reflexivity.
  - right. destruct (exists_last Hn) as (r & c & ->). exists r, c. split; [reflexivity|].
    apply Forall_app in Hf as [_ Hf]. inversion Hf; assumption.
  - right. destruct IH as [->|(r' & c & -> & Hc)].
    + destruct (trimmed_head _ _ _ Ht) as (c & r & E & _). discriminate.
    + exists (a ++ w ++ r'), c. rewrite <- !app_assoc. auto.
Qed.

Lemma trim_words t l : words t l -> trimmed (trim t) l.
Proof.
  intros H. destruct (words_trimmed t l H) as (w1 & u & w2 & -> & H1 & H2 & Ht).
  unfold trim. rewrite skip_ws_app by exact H1.
  assert (S : trim u = u /\ skip_ws (u ++ w2) = u ++ (if u then [] else w2)).
  { destruct l as [|b l].
    - inversion Ht; subst. simpl. split; [reflexivity|]. apply skip_ws_nil. exact H2.
    - destruct (trimmed_head _ _ _ Ht) as (c & r & E & Hc). subst u. split.
      + unfold trim. rewrite skip_ws_nonspace by (apply space_false; exact Hc).
        destruct (trimmed_last _ _ Ht) as [E|(r' & d & E & Hd)]; [discriminate|].
        rewrite E. rewrite rev_app_distr. simpl rev at 2.
        change ([d] ++ rev r') with (d :: rev r'). rewrite skip_ws_nonspace by (apply space_false; exact Hd).
        change (d :: rev r') with ([d] ++ rev r'). rewrite <- (rev_involutive [d]) at 1.
        rewrite <- rev_app_distr, rev_involutive. reflexivity.
      + change ((c :: r) ++ w2) with (c :: (r ++ w2)). rewrite skip_ws_nonspace by (apply space_false; exact Hc). reflexivity. }
  destruct S as [S1 S2]. rewrite S2.
  assert (R : rev (skip_ws (rev (u ++ (if u then [] else w2)))) = u).
  { destruct u as [|c r]; [reflexivity|]. rewrite rev_app_distr.
    rewrite skip_ws_app by (apply Forall_rev; exact H2).
    destruct (trimmed_last _ _ Ht) as [E|(r' & d & E & Hd)]; [discriminate|].
    rewrite E, rev_app_distr. simpl rev at 2. change ([d] ++ rev r') with (d :: rev r').
    rewrite skip_ws_nonspace by (apply space_false; exact Hd). simpl. rewrite rev_involutive. reflexivity. }
  rewrite R. exact Ht.
Qed.

Lemma reduce_words t l : words t l -> reduce t = join [" "%char] l.
Proof. intros H. unfold reduce. apply squeeze_trimmed, trim_words, H. Qed.

Lemma take_word t : exists a r, t = a ++ r /\ Forall (fun c => ~ ws_char c) a /\ match r with c :: _ => ws_char c | [] => True end.
Proof.
  induction t as [|c t (a & r & -> & Ha & Hr)].
  - exists [], []. repeat split; auto.
  - destruct (is_space c) eqn:E.
    + exists [], (c :: a ++ r). repeat split; auto. apply is_space_spec, E.
    + exists (c :: a), r. repeat split; auto. constructor; [apply space_false; exact E|exact Ha].
Qed.

Lemma words_exist t : exists l, words t l.
Proof.
  remember (List.length t) as n eqn:E. revert t E.
  induction n as [n IH] using lt_wf_ind. intros t ->.
  destruct (skip_ws_split t) as (w & Hw & E).
  destruct (take_word (skip_ws t)) as (a & r & E2 & Ha & Hr).
  destruct a as [|c a].
  - simpl in E2. subst r. destruct (skip_ws t) as [|c q] eqn:E3.
    + exists []. rewrite E, app_nil_r. constructor. exact Hw.
    + apply skip_ws_head in E3. apply space_false in E3. contradiction.
  - destruct (IH (List.length r)) with (t := r) as [l Hl]; [|reflexivity|].
    + rewrite E, E2, !app_length. simpl. lia.
    + exists ((c :: a) :: l). rewrite E, E2. constructor; auto. discriminate.
Qed.

Lemma words_clean t l : words t l -> Forall (fun a => a <> [] /\ Forall (fun c => ~ ws_char c) a) l.
Proof. induction 1; constructor; auto. Qed.

Lemma words_cons_ws c t l : ws_char c -> words t l -> words (c :: t) l.
Proof.
  intros Hc H. destruct H as [w Hw|w a r l Hw Hn Hf Hr Hl].
  - constructor. constructor; assumption.
  - change (c :: w ++ a ++ r) with ((c :: w) ++ a ++ r). constructor; auto.
Qed.

Lemma words_join l : Forall (fun a => a <> [] /\ Forall (fun c => ~ ws_char c) a) l -> words (join [" "%char] l) l.
Proof.
  induction 1 as [|a l [Hn Hf] Hl IH]; simpl.
  - constructor. constructor.
  - destruct l as [|b l].
    + pose proof (words_next [] a [] [] (Forall_nil _) Hn Hf I (words_none [] (Forall_nil _))) as W.
      simpl in W. rewrite app_nil_r in W. exact W.
    + pose proof (words_next [] a ([" "%char] ++ join [" "%char] (b :: l)) (b :: l) (Forall_nil _) Hn Hf) as W.
      apply W.
      * simpl. unfold ws_char. simpl. auto 10.
      * apply words_cons_ws; [unfold ws_char; simpl; auto 10|exact IH].
Qed.

Lemma reduce_idempotent t : reduce (reduce t) = reduce t.
Proof.
  destruct (words_exist t) as [l H]. rewrite (reduce_words t l H).
  apply reduce_words, words_join, (words_clean t), H.
Qed.

Lemma words_reduce t l : words t l -> words (reduce t) l.
Proof. intros H. rewrite (reduce_words t l H). apply words_join, (words_clean t), H. Qed.

(** A normalised text has no other white space than single inner blanks. *)
Lemma join_shape l : Forall (fun a => a <> [] /\ Forall (fun c => ~ ws_char c) a) l ->
  forall p c q, join [" "%char] l = p ++ c :: q -> ws_char c ->
  c = " "%char /\ (exists p' d, p = p' ++ [d] /\ ~ ws_char d) /\ (exists d q', q = d :: q' /\ ~ ws_char d).
Proof.
  intros H. induction H as [|a l [Hn Hf] Hl IH]; intros p c q E Hc.
  - destruct p; discriminate.
  - assert (F : forall r, a ++ r = p ++ c :: q -> exists p2, p = a ++ p2 /\ r = p2 ++ c :: q).
    { clear - Hf Hc. revert p. induction Hf as [|d a Hd _ IH]; intros p r E.
      - exists p. auto.
      - destruct p as [|d' p]; simpl in E; injection E as <- E; [contradiction|].
        destruct (IH p r E) as (p2 & -> & ->). exists p2. auto. }
    destruct l as [|b l].
    + simpl in E. rewrite <- (app_nil_r a) in E. destruct (F _ E) as (p2 & _ & E2). destruct p2; discriminate.
    + change (join [" "%char] (a :: b :: l)) with (a ++ [" "%char] ++ join [" "%char] (b :: l)) in E.
      destruct (F _ E) as (p2 & -> & E2).
      destruct p2 as [|d p2]; simpl in E2.
      * injection E2 as <- E2. split; [reflexivity|]. split.
        -- destruct (exists_last Hn) as (a' & d & ->). exists a', d. rewrite app_nil_r. split; [reflexivity|].
           apply Forall_app in Hf as [_ Hf]. inversion Hf; assumption.
        -- inversion Hl as [|? ? [Hn' Hf'] _]; subst. destruct b as [|e b]; [congruence|].
           inversion Hf'; subst. destruct l; simpl; eauto.
      * injection E2 as <- E2. destruct (IH p2 c q E2 Hc) as (-> & (p' & d & -> & Hd) & Hq).
        split; [reflexivity|]. split; [|exact Hq]. exists (a ++ " "%char :: p'), d. rewrite <- app_assoc. auto.
Qed.

Lemma reduce_shape t p c q : reduce t = p ++ c :: q -> ws_char c ->
  c = " "%char /\ (exists p' d, p = p' ++ [d] /\ ~ ws_char d) /\ (exists d q', q = d :: q' /\ ~ ws_char d).
Proof.
  destruct (words_exist t) as [l H]. rewrite (reduce_words t l H). apply join_shape, (words_clean t), H.
Qed.

(** ** onlyAllow and XsID *)

Lemma split_bad_none al t : split_bad al t = None <-> Forall (fun c => al c = true) t.
Proof.
  induction t as [|c t IH]; simpl; [split; constructor|].
  destruct (al c) eqn:E.
  - destruct (split_bad al t) as [[a b]|]; split; intros H; try discriminate.
    + inversion H; subst. apply IH in H3. discriminate.
    + constructor; [exact E|]. apply IH. reflexivity.
    + reflexivity.
  - split; [discriminate|]. intros H. inversion H; congruence.
Qed.

Lemma split_bad_some al t a b : split_bad al t = Some (a, b) ->
  exists c, t = a ++ c :: b /\ al c = false /\ Forall (fun c => al c = true) a.
Proof.
  revert a b. induction t as [|c t IH]; simpl; intros a b H; [discriminate|].
  destruct (al c) eqn:E.
  - destruct (split_bad al t) as [[a' b']|]; [|discriminate]. injection H as <- <-.
    destruct (IH _ _ eq_refl) as (d & -> & Hd & Ha). exists d. repeat split; auto.
  - injection H as <- <-. exists c. repeat split; auto.
Qed.

(** One character of the scrubbed text. *)
Definition scrub (fill : str) (al : ascii -> bool) (c : ascii) : str := if al c then [c] else fill.

Lemma flat_map_id al fill a : Forall (fun c => al c = true) a -> flat_map (scrub fill al) a = a.
Proof.
  induction 1 as [|c a Hc _ IH]; [reflexivity|]. simpl. unfold scrub at 1. rewrite Hc, IH. reflexivity.
Qed.

Definition count_bad (al : ascii -> bool) (t : str) : nat := List.length (filter (fun c => negb (al c)) t).

Lemma count_bad_good al a : Forall (fun c => al c = true) a -> count_bad al a = 0%nat.
Proof.
  unfold count_bad. induction 1 as [|c a Hc _ IH]; [reflexivity|]. simpl. rewrite Hc. exact IH.
Qed.

Lemma only_allow_loop_spec fuel fill al t :
  Forall (fun c => al c = true) fill -> (count_bad al t <= fuel)%nat ->
  only_allow_loop fuel fill al t = Ok (flat_map (scrub fill al) t).
Proof.
  intros Hf. revert t. induction fuel as [|f IH]; intros t H.
  - assert (G : split_bad al t = None).
    { destruct (split_bad al t) as [[a b]|] eqn:E; [|reflexivity]. exfalso.
      apply split_bad_some in E as (c & -> & Hc & Ha). unfold count_bad in H.
      rewrite filter_app, app_length in H. simpl in H. rewrite Hc in H. simpl in H. lia. }
    unfold only_allow_loop. rewrite G. rewrite flat_map_id; [reflexivity|]. apply split_bad_none, G.
  - simpl. destruct (split_bad al t) as [[a b]|] eqn:E.
    + apply split_bad_some in E as (c & -> & Hc & Ha).
      rewrite IH.
      * f_equal. rewrite !flat_map_app. simpl. rewrite (flat_map_id al fill fill) by exact Hf.
        unfold scrub at 4. rewrite Hc. reflexivity.
      * assert (C : forall x y, count_bad al (x ++ y) = (count_bad al x + count_bad al y)%nat)
          by (intros; unfold count_bad; rewrite filter_app, app_length; reflexivity).
        rewrite !C in *. rewrite !count_bad_good in * by assumption.
        change (c :: b) with ([c] ++ b) in H. rewrite C in H. unfold count_bad at 1 in H. simpl in H. rewrite Hc in H.
        simpl in H. lia.
    + apply split_bad_none in E. rewrite flat_map_id by exact E. reflexivity.
Qed.

Lemma count_bad_length al t : (count_bad al t <= List.length t)%nat.
Proof. unfold count_bad. induction t as [|c t IH]; simpl; [lia|]. destruct (negb (al c)); simpl; lia. Qed.

Lemma onlyAllow_spec t fill al : Forall (fun c => al c = true) fill ->
  onlyAllow t fill al = Ok (flat_map (scrub fill al) t).
Proof. intros H. apply only_allow_loop_spec; [exact H|apply count_bad_length]. Qed.

Lemma nc_allowed_spec c : nc_allowed c = true <-> name_char c.
Proof.
  unfold name_char, name_start, letter.
  assert (K : Bool.eqb (nc_allowed c)
     (((65 <=? code c) && (code c <=? 90) || (97 <=? code c) && (code c <=? 122)) || (Ascii.eqb c "_") ||
      ((48 <=? code c) && (code c <=? 57)) || Ascii.eqb c "-" || Ascii.eqb c ".") = true).
  { revert c. apply ascii_all. vm_compute. reflexivity. }
  apply Bool.eqb_prop in K. rewrite K. rewrite !orb_true_iff, !andb_true_iff, !Ascii.eqb_eq, !Z.leb_le. tauto.
Qed.

Lemma scrub_name_char t : Forall name_char (flat_map (scrub (lit "_") nc_allowed) t).
Proof.
  induction t as [|c t IH]; simpl; [constructor|]. apply Forall_app. split; [|exact IH].
  unfold scrub. destruct (nc_allowed c) eqn:E.
  - constructor; [apply nc_allowed_spec, E|constructor].
  - constructor; [|constructor]. left. right. reflexivity.
Qed.

Definition id_char (c : ascii) : ascii := if nc_allowed c then c else "_"%char.

Lemma scrub_map t : flat_map (scrub (lit "_") nc_allowed) t = map id_char t.
Proof.
  induction t as [|c t IH]; [reflexivity|]. cbn [flat_map map]. rewrite IH. unfold scrub, id_char. destruct (nc_allowed c); reflexivity.
Qed.

Lemma id_of_spec t : id_of t = Ok (match map id_char t with
                                   | [] => lit "ID"
                                   | c :: r => if is_digit c then lit "ID" ++ c :: r else c :: r end).
Proof.
  unfold id_of. rewrite onlyAllow_spec by (repeat constructor). simpl obind. rewrite scrub_map.
  destruct (map id_char t) as [|c r]; [reflexivity|]. destruct (is_digit c); reflexivity.
Qed.

Lemma is_digit_code c : is_digit c = true <-> 48 <= code c <= 57.
Proof. unfold is_digit. lia. Qed.

Lemma ID_name_chars : Forall name_char (lit "ID").
Proof. simpl. constructor; [|constructor; [|constructor]]; apply nc_allowed_spec; reflexivity. Qed.

Lemma id_chars t : exists u, id_of t = Ok u /\ u <> [] /\ Forall name_char u /\
  (forall c r, u = c :: r -> ~ (48 <= code c <= 57)).
Proof.
  rewrite id_of_spec. eexists. split; [reflexivity|].
  pose proof (scrub_name_char t) as F. rewrite scrub_map in F.
  destruct (map id_char t) as [|c r].
  - simpl. split; [discriminate|]. split.
    + exact ID_name_chars.
    + intros c r E. injection E as <- <-. vm_compute. intros [_ H]. apply H. reflexivity.
  - destruct (is_digit c) eqn:E.
    + simpl. split; [discriminate|]. split.
      * change ("I"%char :: "D"%char :: c :: r) with (lit "ID" ++ c :: r). apply Forall_app. split; [exact ID_name_chars|exact F].
      * intros d q Eq. injection Eq as <- <-. vm_compute. intros [_ H]. apply H. reflexivity.
    + split; [discriminate|]. split; [exact F|]. intros d q Eq. injection Eq as <- <-.
      rewrite <- is_digit_code. congruence.
Qed.

Lemma id_unchanged t : t <> [] -> Forall name_char t ->
  (forall c r, t = c :: r -> ~ (48 <= code c <= 57)) -> id_of t = Ok t.
Proof.
  intros Hn Hf Hd. rewrite id_of_spec.
  assert (E : map id_char t = t).
  { clear Hn Hd. induction Hf as [|c t Hc _ IH]; [reflexivity|]. simpl. unfold id_char at 1.
    apply nc_allowed_spec in Hc. rewrite Hc, IH. reflexivity. }
  rewrite E. destruct t as [|c r]; [congruence|]. destruct (is_digit c) eqn:D; [|reflexivity].
  apply is_digit_code in D. exfalso. exact (Hd c r eq_refl D).
Qed.

Lemma ncname_chars t : ncname t -> t <> [] /\ Forall name_char t /\ (forall c r, t = c :: r -> ~ (48 <= code c <= 57)).
Proof.
  intros (c & r & -> & Hc & Hr). split; [discriminate|]. split; [constructor; [left; exact Hc|exact Hr]|].
  intros d q E. injection E as <- <-. destruct Hc as [[H|H]| ->]; [lia|lia|]. vm_compute. intros [_ H]. apply H. reflexivity.
Qed.

Lemma id_idempotent t u : id_of t = Ok u -> id_of u = Ok u.
Proof.
  intros H. destruct (id_chars t) as (v & E & H1 & H2 & H3). rewrite H in E. injection E as <-. apply id_unchanged; auto.
Qed.

(** What XsID produces is an NCName exactly when the scrubbed text does not start
    with '-' or '.'. *)
Lemma id_ncname t u : id_of t = Ok u ->
  match t with c :: _ => c <> "-"%char /\ c <> "."%char | [] => True end -> ncname u.
Proof.
  intros H Ht. destruct (id_chars t) as (v & E & H1 & H2 & H3). rewrite H in E. injection E as <-.
  destruct u as [|c r]; [congruence|]. exists c, r. split; [reflexivity|].
  inversion H2 as [|? ? H4 H5]; subst. split; [|assumption].
  specialize (H3 c r eq_refl).
  destruct H4 as [H4|[H4|H4]]; [exact H4|contradiction|]. exfalso.
  rewrite id_of_spec in H. injection H as H.
  destruct t as [|d t]; simpl in H.
  - injection H as <- _. destruct H4; discriminate.
  - destruct (is_digit (id_char d)); simpl in H.
    + injection H as <- _. destruct H4; discriminate.
    + injection H as E _. unfold id_char in E. destruct (nc_allowed d); subst; destruct H4; subst; try discriminate; tauto.
Qed.

(** ** XML escaping *)

Lemma escape_chardata t : chardata (escape t) t.
Proof.
  induction t as [|c t IH]; simpl; [constructor|]. unfold escape_char.
  destruct (Ascii.eqb_spec c "<"); [subst; apply cd_lt, IH|].
  destruct (Ascii.eqb_spec c ">"); [subst; apply cd_gt, IH|].
  destruct (Ascii.eqb_spec c "&"); [subst; apply cd_amp, IH|].
  simpl. constructor; assumption.
Qed.

Lemma chardata_functional e t t' : chardata e t -> chardata e t' -> t = t'.
Proof.
  intros H. revert t'. induction H as [|c e t H1 H2 H3 H IH|e t H IH|e t H IH|e t H IH]; intros t' H'.
  - inversion H'; reflexivity.
  - inversion H'; subst; try congruence. f_equal. apply IH. assumption.
  - inversion H'; subst; try congruence. f_equal. apply IH. assumption.
  - inversion H'; subst; try congruence. f_equal. apply IH. assumption.
  - inversion H'; subst; try congruence. f_equal. apply IH. assumption.
Qed.

Lemma chardata_no_markup e t : chardata e t -> ~ In "<"%char e /\ ~ In ">"%char e.
Proof.
  induction 1 as [|c e t H1 H2 H3 H [IH1 IH2]|e t H [IH1 IH2]|e t H [IH1 IH2]|e t H [IH1 IH2]]; simpl; split; try tauto;
    intros K; repeat (destruct K as [K|K]; try discriminate; try congruence); tauto.
Qed.

Lemma escape_injective t t' : escape t = escape t' -> t = t'.
Proof.
  intros E. pose proof (escape_chardata t) as H. pose proof (escape_chardata t') as H'. rewrite <- E in H'.
  eapply chardata_functional; eassumption.
Qed.

Lemma escape_app a b : escape (a ++ b) = escape a ++ escape b.
Proof. apply flat_map_app. Qed.

Lemma escape_in c t : c <> "&"%char -> ~ In c (lit "ltgtamp;") -> In c (escape t) -> In c t.
Proof.
  intros Hc Hn. induction t as [|d t IH]; simpl; [tauto|]. intros H. apply in_app_iff in H as [H|H].
  - left. unfold escape_char in H.
    destruct (Ascii.eqb d "<") eqn:E1; [|destruct (Ascii.eqb d ">") eqn:E2; [|destruct (Ascii.eqb d "&") eqn:E3]].
    + exfalso. simpl in H, Hn. intuition congruence.
    + exfalso. simpl in H, Hn. intuition congruence.
    + exfalso. simpl in H, Hn. intuition congruence.
    + simpl in H. tauto.
  - right. apply IH, H.
Qed.

Lemma read_line_ends_id t : ~ In "013"%char t -> read_line_ends t = t.
Proof.
  induction t as [|c t IH]; [reflexivity|]. intros H. simpl.
  destruct (Ascii.eqb_spec c "013"); [subst; exfalso; apply H; left; reflexivity|].
  rewrite IH; [reflexivity|]. intros K. apply H. right. exact K.
Qed.

Lemma text_survives t : ~ In "013"%char t -> chardata (read_line_ends (escape t)) t.
Proof.
  intros H. rewrite read_line_ends_id; [apply escape_chardata|].
  intros K. apply H. apply escape_in in K; [exact K|discriminate|]. simpl. intuition discriminate.
Qed.

Lemma read_attr_ws_id t : ~ In "009"%char t -> ~ In "010"%char t -> ~ In "013"%char t -> read_attr_ws t = t.
Proof.
  induction t as [|c t IH]; [reflexivity|]. intros H1 H2 H3. cbn [read_attr_ws map existsb].
  destruct (Ascii.eqb_spec c "009"); [subst; exfalso; apply H1; left; reflexivity|].
  destruct (Ascii.eqb_spec c "010"); [subst; exfalso; apply H2; left; reflexivity|].
  destruct (Ascii.eqb_spec c "013"); [subst; exfalso; apply H3; left; reflexivity|].
  simpl. f_equal. apply IH; intros K; [apply H1|apply H2|apply H3]; right; exact K.
Qed.

Lemma attribute_survives name v rest :
  ~ In dquote v -> ~ In "009"%char v -> ~ In "010"%char v -> ~ In "013"%char v ->
  exists literal,
    stream_attribute name v true ++ rest = lit " " ++ name ++ ["="%char; dquote] ++ literal ++ [dquote] ++ rest /\
    attr_literal (literal ++ [dquote] ++ rest) literal rest /\
    chardata (read_attr_ws (read_line_ends literal)) v.
Proof.
  intros H1 H2 H3 H4.
  assert (E : forall c, c = dquote \/ c = "009"%char \/ c = "010"%char \/ c = "013"%char -> ~ In c v -> ~ In c (escape v)).
  { intros c Hc Hv K. apply Hv. apply escape_in in K; [exact K| |].
    - destruct Hc as [->|[->|[->| ->]]]; discriminate.
    - destruct Hc as [->|[->|[->| ->]]]; simpl; intuition discriminate. }
  exists (escape v). unfold stream_attribute. split.
  - rewrite <- !app_assoc. reflexivity.
  - split; [split; [reflexivity|apply E; auto]|].
    rewrite read_line_ends_id by (apply E; auto). rewrite read_attr_ws_id by (apply E; auto).
    apply escape_chardata.
Qed.

(** The reader's literal is unique. *)
Lemma attr_literal_unique t a b a' b' : attr_literal t a b -> attr_literal t a' b' -> a = a' /\ b = b'.
Proof.
  intros [-> Ha] [E Ha']. revert a' E Ha'. induction a as [|c a IH]; intros a' E Ha'.
  - destruct a' as [|c' a']; simpl in E.
    + injection E as E. auto.
    + injection E as E1 E2. exfalso. apply Ha'. left. auto.
  - destruct a' as [|c' a']; simpl in E; injection E as E1 E2.
    + exfalso. apply Ha. left. auto.
    + destruct (IH (fun K => Ha (or_intror K)) a' E2 (fun K => Ha' (or_intror K))). subst. auto.
Qed.

(** ** stringToInt *)

Lemma str_eqb_eq a b : str_eqb a b = true <-> a = b.
Proof. unfold str_eqb. destruct (list_eq_dec ascii_dec a b); split; intros; congruence. Qed.

Lemma c_str_no_nul t : (forall c, In c t -> code c <> 0) -> c_str t = t.
Proof.
  induction t as [|c t IH]; [reflexivity|]. intros H. simpl.
  destruct (code c =? 0) eqn:E; bool_hyps; [exfalso; apply (H c); simpl; auto|].
  rewrite IH; [reflexivity|]. intros d Hd. apply H. right. exact Hd.
Qed.

Lemma print_int_no_nul n c : In c (print_int n) -> code c <> 0.
Proof.
  assert (P : forall m, 0 <= m -> In c (print_nat m) -> code c <> 0).
  { intros m Hm H. destruct (print_nat_spec m Hm) as (F & _). unfold all_digits in F. rewrite Forall_forall in F. apply F in H.
    unfold is_digit in H. lia. }
  unfold print_int. destruct (n <? 0) eqn:E; bool_hyps.
  - intros [<-|H]; [vm_compute; discriminate|]. apply (P (- n)); [lia|exact H].
  - apply P. lia.
Qed.

Lemma stringToInt_success t n : stringToInt t = Ok (Some n) <-> is_int n /\ t = print_int n.
Proof.
  unfold stringToInt, atoi. split.
  - intros H. destruct (read_int (c_str t)) as [v r|v r|] eqn:E; simpl in H; try discriminate.
    + destruct (str_eqb (print_int v) t) eqn:Q; [|discriminate]. injection H as <-. apply str_eqb_eq in Q. split; [|auto].
      unfold read_int in E. unfold is_int.
      assert (F : forall neg q, finish_read neg q = IntOk v r -> -2147483648 <= v <= 2147483647).
      { clear. intros neg q. unfold finish_read. destruct (span_digits q) as [ds rest]. destruct ds; [discriminate|].
        cbv zeta. case_if; [discriminate|]. case_if; [discriminate|]. intros H. injection H as <- <-. bool_hyps.
        unfold int_min, int_max in *. lia. }
      destruct (skip_ws (c_str t)) as [|c q]; [discriminate|].
      destruct (ascii_dec c "-"); [eapply F; eassumption|]. destruct (ascii_dec c "+"); eapply F; eassumption.
    + destruct (str_eqb (print_int 0) t) eqn:Q; [|discriminate]. injection H as <-. apply str_eqb_eq in Q.
      split; [unfold is_int; lia|auto].
  - intros [Hn ->]. rewrite c_str_no_nul by apply print_int_no_nul.
    rewrite <- (app_nil_r (print_int n)) at 1. rewrite read_int_print; [|exact Hn|exact I]. simpl.
    assert (str_eqb (print_int n) (print_int n) = true) as -> by (apply str_eqb_eq; reflexivity). reflexivity.
Qed.

(** Undefined only when the text starts with a number that does not fit. *)
Lemma stringToInt_defined t :
  (forall v r, read_int (c_str t) <> IntOverflow v r) -> exists o, stringToInt t = Ok o.
Proof.
  intros H. unfold stringToInt, atoi. destruct (read_int (c_str t)) as [v r|v r|]; simpl; eauto. exfalso. eapply H. reflexivity.
Qed.

(** Texts of up to nine characters never overflow. *)
Lemma stringToInt_short t : (List.length t <= 9)%nat -> exists o, stringToInt t = Ok o.
Proof.
  intros L. apply stringToInt_defined. intros v r H.
  assert (Lc : (List.length (c_str t) <= List.length t)%nat).
  { clear. induction t as [|c t IH]; simpl; [lia|]. destruct (code c =? 0); simpl; lia. }
  assert (F : forall neg q, (List.length q <= 9)%nat -> finish_read neg q <> IntOverflow v r).
  { clear. intros neg q Hq E. unfold finish_read in E. destruct (span_digits q) as [ds rest] eqn:Es.
    apply span_digits_spec in Es as (-> & Hd & _). rewrite app_length in Hq. destruct ds as [|c ds]; [discriminate|].
    cbv zeta in E. pose proof (digits_value_range _ Hd) as B.
    assert (P : 10 ^ Z.of_nat (List.length (c :: ds)) <= 10 ^ 9) by (apply Z.pow_le_mono_r; lia).
    remember (c :: ds) as D. unfold int_min, int_max in E.
    set (w := if neg then - digits_value D else digits_value D) in *.
    assert (-1000000000 < w < 1000000000) by (unfold w; destruct neg; lia).
    assert (w <? -2147483648 = false) as Q1 by lia. assert (2147483647 <? w = false) as Q2 by lia.
    rewrite Q1, Q2 in E. discriminate. }
  unfold read_int in H.
  pose proof (skip_ws_length (c_str t)).
  destruct (skip_ws (c_str t)) as [|c q]; [discriminate|]. simpl in *.
  destruct (ascii_dec c "-"); [eapply F; [|exact H]; lia|]. destruct (ascii_dec c "+"); eapply F; try exact H; simpl; lia.
Qed.

(** The stored ID character by character. *)
Definition scrubbed_as (c d : ascii) : Prop := (name_char c /\ d = c) \/ (~ name_char c /\ d = "_"%char).

Lemma id_body t : exists body, Forall2 scrubbed_as t body /\
  (body = [] -> id_of t = Ok (lit "ID")) /\
  (forall c r, body = c :: r -> 48 <= code c <= 57 -> id_of t = Ok (lit "ID" ++ body)) /\
  (forall c r, body = c :: r -> ~ 48 <= code c <= 57 -> id_of t = Ok body).
Proof.
  exists (map id_char t). split.
  - induction t as [|c t IH]; simpl; constructor; [|exact IH]. unfold scrubbed_as, id_char.
    destruct (nc_allowed c) eqn:E; [left|right]; split; auto.
    + apply nc_allowed_spec, E.
    + intros K. apply nc_allowed_spec in K. congruence.
  - rewrite id_of_spec. destruct (map id_char t) as [|d r]; split; [reflexivity| |discriminate|].
    + split; intros; discriminate.
    + split; intros c q E Hc; injection E as -> ->.
      * apply is_digit_code in Hc. rewrite Hc. reflexivity.
      * destruct (is_digit c) eqn:D; [apply is_digit_code in D; contradiction|reflexivity].
Qed.

Lemma id_not_ncname : exists t u, id_of t = Ok u /\ ~ ncname u.
Proof.
  exists (lit "-a"), (lit "-a"). split; [reflexivity|]. intros (c & r & E & H & _). injection E as <- <-.
  destruct H as [[H|H]|H]; [| |discriminate H]; vm_compute in H; destruct H as [H K]; apply H; reflexivity.
Qed.

Lemma id_default_ncname : ncname id_default.
Proof.
  exists "I"%char, (lit "D"). split; [reflexivity|]. split; [left; left; vm_compute; split; discriminate|].
  constructor; [left; left; left; vm_compute; split; discriminate|constructor].
Qed.

(** A carriage return in element text is read back as a line feed. *)
Lemma text_cr_lost : exists t u, chardata (read_line_ends (escape t)) u /\ u <> t.
Proof.
  exists ["013"%char], ["010"%char]. split; [|discriminate]. simpl. constructor; try discriminate. constructor.
Qed.

(** An attribute value with a double quote ends early for the reader. *)
Lemma attribute_broken : exists name v rest literal rest',
  stream_attribute name v true ++ rest = lit " " ++ name ++ ["="%char; dquote] ++ literal ++ [dquote] ++ rest' /\
  attr_literal (literal ++ [dquote] ++ rest') literal rest' /\
  ~ chardata (read_attr_ws (read_line_ends literal)) v.
Proof.
  exists (lit "n"), (lit "a" ++ [dquote] ++ lit "b"), (lit ">"), (lit "a"), (lit "b" ++ [dquote] ++ lit ">").
  split; [reflexivity|]. split; [split; [reflexivity|]|].
  - simpl. intuition discriminate.
  - intros H. assert (K : chardata (lit "a") (lit "a")) by (simpl; constructor; try discriminate; constructor).
    pose proof (chardata_functional _ _ _ K H). discriminate.
Qed.

Lemma canonical_int_print t n : canonical_int t n <-> t = print_int n.
Proof.
  split.
  - intros (ds & m & H & Hc & D). apply numeral_iff in H as (Hn & Hd & ->).
    pose proof (digits_value_range ds Hd) as B. unfold print_int.
    destruct D as [[-> ->]|(-> & -> & Hz)].
    + assert (digits_value ds <? 0 = false) as -> by lia. symmetry. apply print_nat_canonical; assumption.
    + assert (- digits_value ds <? 0 = true) as -> by lia. rewrite Z.opp_involutive.
      rewrite print_nat_canonical by assumption. reflexivity.
  - intros ->. unfold print_int. destruct (n <? 0) eqn:E; bool_hyps.
    + exists (print_nat (- n)), (- n). split; [apply numeral_print_nat; lia|]. split; [apply print_nat_spec; lia|].
      right. repeat split; lia.
    + exists (print_nat n), n. split; [apply numeral_print_nat; lia|]. split; [apply print_nat_spec; lia|]. left. auto.
Qed.

Lemma read_int_overflow t v r : read_int t = IntOverflow v r -> exists n, starts_with_int t n /\ ~ is_int n.
Proof.
  intros H. unfold read_int in H.
  assert (F : forall neg q, finish_read neg q = IntOverflow v r ->
     exists ds rest m, q = ds ++ rest /\ numeral ds m /\ match rest with c :: _ => forall d, ~ digit_is c d | [] => True end /\
       ~ is_int (if neg then - m else m)).
  { clear. intros neg q. unfold finish_read. destruct (span_digits q) as [ds rest] eqn:E. destruct ds as [|c ds]; [discriminate|].
    cbv zeta. apply span_digits_spec in E as (-> & Hd & Hr). intros H.
    exists (c :: ds), rest, (digits_value (c :: ds)). split; [reflexivity|]. split; [apply numeral_iff; repeat split; auto; discriminate|].
    split.
    - destruct rest as [|d rest]; [exact I|]. intros k K. apply digit_is_inv in K as [K _]. congruence.
    - unfold is_int. remember (c :: ds) as D. unfold int_min, int_max in H.
      destruct ((if neg then - digits_value D else digits_value D) <? -2147483648) eqn:E1; [lia|].
      destruct (2147483647 <? (if neg then - digits_value D else digits_value D)) eqn:E2; [lia|]. discriminate. }
  destruct (skip_ws_split t) as (w & Hw & E).
  destruct (skip_ws t) as [|c q]; [discriminate|].
  destruct (ascii_dec c "-") as [->|N1].
  - destruct (F _ _ H) as (ds & rest & m & -> & Hm & Hr & Hi). exists (- m). split; [|exact Hi].
    exists w, ["-"%char], ds, rest, m. auto 10.
  - destruct (ascii_dec c "+") as [->|N2].
    + destruct (F _ _ H) as (ds & rest & m & -> & Hm & Hr & Hi). exists m. split; [|exact Hi].
      exists w, ["+"%char], ds, rest, m. auto 10.
    + destruct (F _ _ H) as (ds & rest & m & E2 & Hm & Hr & Hi). exists m. split; [|exact Hi].
      exists w, [], ds, rest, m. rewrite E2 in E. auto 10.
Qed.

Lemma stringToInt_canonical t n : stringToInt t = Ok (Some n) <-> canonical_int t n /\ is_int n.
Proof. rewrite stringToInt_success, canonical_int_print. tauto. Qed.

Lemma stringToInt_reject t :
  (forall n, starts_with_int (c_str t) n -> is_int n) -> (forall n, canonical_int t n -> ~ is_int n) -> stringToInt t = Ok None.
Proof.
  intros H1 H2. destruct (stringToInt_defined t) as [[n|] E].
  - intros v r K. apply read_int_overflow in K as (n & S & N). exact (N (H1 n S)).
  - apply stringToInt_canonical in E as [C I]. exfalso. exact (H2 n C I).
  - exact E.
Qed.

Lemma stringToInt_overflow : exists t, stringToInt t = UB /\ forall n, canonical_int t n -> ~ is_int n.
Proof.
  exists (lit "9999999999"). split; [vm_compute; reflexivity|]. intros n C I.
  assert (K : stringToInt (lit "9999999999") = Ok (Some n)) by (apply stringToInt_canonical; auto).
  vm_compute in K. discriminate.
Qed.
