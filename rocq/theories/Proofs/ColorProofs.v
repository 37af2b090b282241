From Verif Require Import Proofs.Tac Model.Base Model.Text Model.Integers Model.Color Spec.ColorText Proofs.TextProofs.
Open Scope Z_scope.

Definition byte_range (r : int_range) : Prop := ir_min r = 0 /\ ir_max r = 255 /\ byte (ir_value r).

(** The state of every reachable color. *)
Definition good (c : color) : Prop :=
  byte_range (myAlpha c) /\ byte_range (myRed c) /\ byte_range (myGreen c) /\ byte_range (myBlue c) /\
  (myColorType c = RGB -> getAlpha c = 255).

Lemma clamp_byte v : clamp 0 255 v = to_byte v.
Proof. unfold clamp, to_byte. destruct (v <? 0) eqn:A; [lia|]. destruct (255 <? v) eqn:B; lia. Qed.

Lemma to_byte_byte v : byte (to_byte v).
Proof. unfold byte, to_byte. lia. Qed.

Lemma to_byte_id v : byte v -> to_byte v = v.
Proof. unfold byte, to_byte. lia. Qed.

Lemma construct_byte v : construct Byte v = IntRange 0 255 (to_byte v).
Proof. unfold construct, mk_int_range. simpl. rewrite clamp_byte. reflexivity. Qed.

Lemma set_byte r v : byte_range r -> set_value r v = IntRange 0 255 (to_byte v).
Proof. intros (H1 & H2 & _). unfold set_value. rewrite H1, H2, clamp_byte. reflexivity. Qed.

Lemma byte_range_mk v : byte_range (IntRange 0 255 (to_byte v)).
Proof. repeat split; simpl; try apply to_byte_byte. Qed.

Lemma byte_range_eta r : byte_range r -> r = IntRange 0 255 (ir_value r).
Proof. destruct r; unfold byte_range; simpl; intros (-> & -> & _). reflexivity. Qed.

(** A good color is determined by what is seen of it. *)
Lemma see_inj c c' : good c -> good c' -> see c = see c' -> c = c'.
Proof.
  intros (A & R & G & B & T) (A' & R' & G' & B' & T') E.
  destruct c as [a r g b t], c' as [a' r' g' b' t']. unfold see, getAlpha, getRed, getGreen, getBlue in *. simpl in *.
  rewrite (byte_range_eta _ A), (byte_range_eta _ R), (byte_range_eta _ G), (byte_range_eta _ B).
  rewrite (byte_range_eta _ A'), (byte_range_eta _ R'), (byte_range_eta _ G'), (byte_range_eta _ B').
  destruct t, t'; try discriminate; injection E as; f_equal; f_equal; auto.
  rewrite T, T' by reflexivity. reflexivity.
Qed.

Lemma good4 a r g b : good (color4 a r g b).
Proof. unfold good, color4. simpl. rewrite !construct_byte. repeat split; simpl; try apply to_byte_byte; try discriminate. Qed.

Lemma good3 r g b : good (color3 r g b).
Proof. unfold good, color3. simpl. rewrite !construct_byte. repeat split; simpl; try apply to_byte_byte; unfold byte; simpl; try lia. Qed.

Lemma good0 : good color0.
Proof. exact (good3 255 255 255). Qed.

Ltac good_tac H :=
  destruct H as (?A & ?R & ?G & ?B & ?T);
  unfold good, setAlpha, setRed, setGreen, setBlue, setColorType, getAlpha; cbn [myAlpha myRed myGreen myBlue myColorType];
  rewrite ?set_byte by assumption; split; [|split; [|split; [|split]]]; try assumption; try apply byte_range_mk; try (intros; discriminate).

Lemma good_setAlpha c v : good c -> good (setAlpha c v).
Proof. intros H. good_tac H. Qed.
Lemma good_setRed c v : good c -> good (setRed c v).
Proof. intros H. good_tac H. Qed.
Lemma good_setGreen c v : good c -> good (setGreen c v).
Proof. intros H. good_tac H. Qed.
Lemma good_setBlue c v : good c -> good (setBlue c v).
Proof. intros H. good_tac H. Qed.
Lemma good_setType c t : good c -> good (setColorType c t).
Proof.
  intros H. destruct t; good_tac H; try assumption.
  cbn [ir_value]. intros _. reflexivity.
Qed.

Lemma good_parse c t : good c -> good (parse_color c t).
Proof.
  intros H. unfold parse_color. case_if; [assumption|]. case_if; [assumption|]. case_if; [assumption|].
  destruct (Nat.eqb (List.length t) 9); apply good_setType, good_setBlue, good_setGreen, good_setRed, good_setAlpha, H.
Qed.

Lemma good_step c o : good c -> good (color_step c o).
Proof.
  destruct o; simpl; [apply good_setAlpha|apply good_setRed|apply good_setGreen|apply good_setBlue|apply good_setType|apply good_parse].
Qed.

Lemma good_run c os : good c -> good (run_color c os).
Proof. unfold run_color. revert c. induction os as [|o os IH]; simpl; intros c H; [exact H|]. apply IH, good_step, H. Qed.

Lemma good_start s : good (start_color s).
Proof. destruct s; simpl; [apply good4|apply good3|apply good0|apply good_parse, good0]. Qed.

(** ** Hexadecimal digits *)

Lemma hex_is_iff c d : hex_is c d <-> hex_allowed c = true /\ d = hex_digit_value c.
Proof.
  split.
  - intros H. unfold hex_is in H. simpl in H.
    repeat (destruct H as [H|H]; [injection H as <- <-; split; reflexivity|]). contradiction.
  - intros [H ->]. revert H. pattern c.
    assert (K : forall c, implb (hex_allowed c)
       (existsb (fun p => Ascii.eqb c (fst p) && (hex_digit_value c =? snd p))
         [("0", 0); ("1", 1); ("2", 2); ("3", 3); ("4", 4); ("5", 5); ("6", 6); ("7", 7);
             ("8", 8); ("9", 9); ("A", 10); ("B", 11); ("C", 12); ("D", 13); ("E", 14); ("F", 15)]%char) = true)
      by (apply ascii_all; vm_compute; reflexivity).
    intros H. specialize (K c). rewrite H in K. unfold implb in K. apply existsb_exists in K as ([c' d'] & Hin & E).
    cbn [fst snd] in E. apply andb_true_iff in E as [E1 E2]. apply Ascii.eqb_eq in E1. apply Z.eqb_eq in E2.
    unfold hex_is. rewrite E2. rewrite E1 at 1. exact Hin.
Qed.

Lemma hex_digit_range c : hex_allowed c = true -> 0 <= hex_digit_value c <= 15.
Proof.
  assert (K : forall c, implb (hex_allowed c) ((0 <=? hex_digit_value c) && (hex_digit_value c <=? 15)) = true)
    by (apply ascii_all; vm_compute; reflexivity).
  intros H. specialize (K c). rewrite H in K. unfold implb in K. lia.
Qed.

Lemma hex_char_spec d : 0 <= d <= 15 -> hex_allowed (hex_char d) = true /\ hex_digit_value (hex_char d) = d.
Proof.
  intros H.
  assert (K : forallb (fun d => hex_allowed (hex_char d) && (hex_digit_value (hex_char d) =? d)) (map Z.of_nat (seq 0 16)) = true)
    by (vm_compute; reflexivity).
  rewrite forallb_forall in K. specialize (K d).
  assert (I : In d (map Z.of_nat (seq 0 16))) by (apply in_map_iff; exists (Z.to_nat d); split; [lia|apply in_seq; lia]).
  apply K in I. lia.
Qed.

Lemma print_hex2_spec v : byte v -> hex2 (print_hex2 v) v.
Proof.
  unfold byte. intros H. unfold print_hex2. destruct (v <? 16) eqn:E.
  - exists "0"%char, 0, (hex_char v), v. split; [reflexivity|].
    destruct (hex_char_spec v) as [H1 H2]; [lia|]. split; [unfold hex_is; simpl; auto|]. split; [apply hex_is_iff; auto|lia].
  - exists (hex_char (v / 16)), (v / 16), (hex_char (v mod 16)), (v mod 16). split; [reflexivity|].
    destruct (hex_char_spec (v / 16)) as [H1 H2]; [lia|]. destruct (hex_char_spec (v mod 16)) as [H3 H4]; [lia|].
    split; [apply hex_is_iff; auto|]. split; [apply hex_is_iff; auto|lia].
Qed.

Lemma hex2_byte t n : hex2 t n -> byte n.
Proof.
  intros (c1 & d1 & c2 & d2 & _ & H1 & H2 & ->). apply hex_is_iff in H1 as [H1 ->]. apply hex_is_iff in H2 as [H2 ->].
  apply hex_digit_range in H1, H2. unfold byte. lia.
Qed.

Lemma hex2_functional t n m : hex2 t n -> hex2 t m -> n = m.
Proof.
  intros (c1 & d1 & c2 & d2 & -> & H1 & H2 & ->) (c1' & d1' & c2' & d2' & E & H1' & H2' & ->). injection E as <- <-.
  apply hex_is_iff in H1 as [_ ->], H2 as [_ ->], H1' as [_ ->], H2' as [_ ->]. reflexivity.
Qed.

Lemma print_color_text c : good c -> color_text (print_color c) (see c).
Proof.
  intros ((_ & _ & A) & (_ & _ & R) & (_ & _ & G) & (_ & _ & B) & _). unfold print_color, see.
  destruct (myColorType c); simpl app; constructor; apply print_hex2_spec; assumption.
Qed.

Lemma parse_color_accepts c t s : good c -> color_text t s -> good (parse_color c t) /\ see (parse_color c t) = s.
Proof.
  intros H T. split; [apply good_parse, H|]. destruct H as (A & R & G & B & _).
  destruct T as [tr tg tb r g b Hr Hg Hb|ta tr tg tb a r g b Ha Hr Hg Hb].
  - pose proof (hex2_byte _ _ Hr) as Wr. pose proof (hex2_byte _ _ Hg) as Wg. pose proof (hex2_byte _ _ Hb) as Wb.
    destruct Hr as (c1 & d1 & c2 & d2 & -> & H1 & H2 & ->). destruct Hg as (c3 & d3 & c4 & d4 & -> & H3 & H4 & ->).
    destruct Hb as (c5 & d5 & c6 & d6 & -> & H5 & H6 & ->).
    apply hex_is_iff in H1 as [H1 ->], H2 as [H2 ->], H3 as [H3 ->], H4 as [H4 ->], H5 as [H5 ->], H6 as [H6 ->].
    unfold parse_color. cbn [app List.length Nat.eqb negb andb nth Ascii.eqb Bool.eqb skipn forallb].
    rewrite H1, H2, H3, H4, H5, H6. cbn [andb negb getInt nth].
    unfold see, setColorType, setBlue, setGreen, setRed, setAlpha, getRed, getGreen, getBlue, getInt.
    cbn [myAlpha myRed myGreen myBlue myColorType nth].
    rewrite !set_byte by assumption. cbn [ir_value]. rewrite !(Z.mul_comm _ 16). rewrite !to_byte_id by assumption. reflexivity.
  - pose proof (hex2_byte _ _ Ha) as Wa. pose proof (hex2_byte _ _ Hr) as Wr. pose proof (hex2_byte _ _ Hg) as Wg. pose proof (hex2_byte _ _ Hb) as Wb.
    destruct Ha as (c7 & d7 & c8 & d8 & -> & H7 & H8 & ->).
    destruct Hr as (c1 & d1 & c2 & d2 & -> & H1 & H2 & ->). destruct Hg as (c3 & d3 & c4 & d4 & -> & H3 & H4 & ->).
    destruct Hb as (c5 & d5 & c6 & d6 & -> & H5 & H6 & ->).
    apply hex_is_iff in H1 as [H1 ->], H2 as [H2 ->], H3 as [H3 ->], H4 as [H4 ->], H5 as [H5 ->], H6 as [H6 ->], H7 as [H7 ->], H8 as [H8 ->].
    unfold parse_color. cbn [app List.length Nat.eqb negb andb nth Ascii.eqb Bool.eqb skipn forallb].
    rewrite H1, H2, H3, H4, H5, H6, H7, H8. cbn [andb negb getInt nth].
    unfold see, setColorType, setBlue, setGreen, setRed, setAlpha, getAlpha, getRed, getGreen, getBlue, getInt.
    cbn [myAlpha myRed myGreen myBlue myColorType nth].
    rewrite !set_byte by assumption. cbn [ir_value]. rewrite !(Z.mul_comm _ 16). rewrite !to_byte_id by assumption. reflexivity.
Qed.

Lemma parse_color_rejects c t : (forall s, ~ color_text t s) -> parse_color c t = c.
Proof.
  intros N. unfold parse_color. case_if; [reflexivity|]. case_if; [reflexivity|]. case_if; [reflexivity|]. exfalso.
  assert (X : forall a b, hex_allowed a = true -> hex_allowed b = true -> exists n, hex2 [a; b] n).
  { intros a b Ha Hb. eexists. exists a, (hex_digit_value a), b, (hex_digit_value b). repeat split; try apply hex_is_iff; auto. }
  assert (L : List.length t = 7%nat \/ List.length t = 9%nat).
  { destruct (Nat.eqb_spec (List.length t) 7); [auto|]. destruct (Nat.eqb_spec (List.length t) 9); [auto|]. discriminate. }
  assert (F : exists r, t = "#"%char :: r /\ forallb hex_allowed r = true).
  { destruct t as [|c0 r]; [simpl in L; lia|]. simpl in *. exists r.
    destruct (Ascii.eqb_spec c0 "#"); [|discriminate]. subst. split; [reflexivity|].
    destruct (forallb hex_allowed r); [reflexivity|discriminate]. }
  destruct F as (r & -> & F).
  destruct L as [L|L]; simpl in L; injection L as L.
  - do 6 (destruct r as [|? r]; [discriminate|]). destruct r; [|discriminate]. simpl in F.
    repeat (apply andb_true_iff in F as [? F]).
    destruct (X a a0) as [n1 X1]; auto. destruct (X a1 a2) as [n2 X2]; auto. destruct (X a3 a4) as [n3 X3]; auto.
    exact (N _ (ct3 _ _ _ _ _ _ X1 X2 X3)).
  - do 8 (destruct r as [|? r]; [discriminate|]). destruct r; [|discriminate]. simpl in F.
    repeat (apply andb_true_iff in F as [? F]).
    destruct (X a a0) as [n1 X1]; auto. destruct (X a1 a2) as [n2 X2]; auto. destruct (X a3 a4) as [n3 X3]; auto.
    destruct (X a5 a6) as [n4 X4]; auto.
    exact (N _ (ct4 _ _ _ _ _ _ _ _ X1 X2 X3 X4)).
Qed.

Lemma color_roundtrip c c0 : good c -> good c0 -> parse_color c0 (print_color c) = c.
Proof.
  intros H H0. destruct (parse_color_accepts c0 _ _ H0 (print_color_text c H)) as [G E]. apply see_inj; auto.
Qed.

(** ** Setters as seen *)
Lemma setters_seen c v : good c ->
  see (setAlpha c v) = Seen4 (to_byte v) (getRed c) (getGreen c) (getBlue c) /\
  see (setRed c v) = with_red (see c) (to_byte v) /\
  see (setGreen c v) = with_green (see c) (to_byte v) /\
  see (setBlue c v) = with_blue (see c) (to_byte v) /\
  see (setColorType c RGB) = Seen3 (getRed c) (getGreen c) (getBlue c) /\
  see (setColorType c ARGB) = Seen4 (getAlpha c) (getRed c) (getGreen c) (getBlue c).
Proof.
  intros (A & R & G & B & T). unfold see, setAlpha, setRed, setGreen, setBlue, setColorType, getAlpha, getRed, getGreen, getBlue.
  cbn [myAlpha myRed myGreen myBlue myColorType]. rewrite !set_byte by assumption. cbn [ir_value].
  destruct (myColorType c); repeat split; reflexivity.
Qed.

Lemma constructors_seen a r g b :
  see (color4 a r g b) = Seen4 (to_byte a) (to_byte r) (to_byte g) (to_byte b) /\
  see (color3 r g b) = Seen3 (to_byte r) (to_byte g) (to_byte b) /\
  see color0 = Seen3 255 255 255.
Proof.
  unfold see, color4, color3, getAlpha, getRed, getGreen, getBlue. cbn [myAlpha myRed myGreen myBlue myColorType].
  rewrite !construct_byte. repeat split; reflexivity.
Qed.

Lemma see_bytes c : good c -> seen_bytes (see c) /\ (myColorType c = RGB -> getAlpha c = 255).
Proof.
  intros ((_ & _ & A) & (_ & _ & R) & (_ & _ & G) & (_ & _ & B) & T). split; [|exact T].
  unfold see. destruct (myColorType c); simpl; auto.
Qed.

Lemma text_seen t : (forall x, color_text t x -> see (start_color (StartText t)) = x) /\
  ((forall x, ~ color_text t x) -> see (start_color (StartText t)) = Seen3 255 255 255).
Proof.
  split.
  - intros x H. exact (proj2 (parse_color_accepts _ t x (good_start Start0) H)).
  - intros H. change (start_color (StartText t)) with (parse_color color0 t). rewrite (parse_color_rejects color0 t H).
    exact (proj2 (proj2 (constructors_seen 0 0 0 0))).
Qed.
