(** Directions that come back as they were, and what goes wrong. *)
From Coq Require Import List Ascii Bool String ZArith QArith Lia.
From Verif Require Import Model.Base Model.Text Model.Strings Model.LongDouble Model.Integers Model.Decimals Model.Ticks
  Model.EnumLookup Model.CoreEnums Model.ApiEnums Model.ConverterTables Model.MarkData Model.CustomEnums Model.Color Model.CommaInts
  Model.NumberOrWord Model.Notations Model.ChordSymbols Model.Directions Spec.Numerals Spec.MarkGroups Spec.Attachments Spec.NoteReading
  Spec.DirectionText Spec.DirectionExamples Proofs.StringsProofs Proofs.NotationsProofs Proofs.LayoutProofs Proofs.NoteProofs Proofs.DirectionProofs Proofs.DirectionBack.
Import ListNotations.
Local Open Scope Z_scope.

Lemma every_imp {A} (P Q : A -> Prop) o : (forall x, P x -> Q x) -> every P o -> every Q o.
Proof. destruct o; cbn [every]; auto. Qed.

Lemma exact_storable o t : every (exact t) o -> every storable o.
Proof. apply every_imp. intros x [S _]. exact S. Qed.

Lemma exact_same t o : every (exact t) o -> same_coordinate (option_map (stored t) o) o.
Proof. destruct o as [x | ]; cbn [every option_map same_coordinate]; [intros [_ E]; exact E | trivial]. Qed.

Lemma coordinates_ok p : coordinates_fit p -> position_ok storable p.
Proof. intros (A & B & C & D). repeat split; eapply exact_storable; eassumption. Qed.

Lemma coordinates_same h pl p : coordinates_fit p -> (h = false -> horizontalAlignment p = api_HorizontalAlignment_unspecified) ->
  verticalAlignment p = api_VerticalAlignment_unspecified -> placement p = pl -> same_position (kept_coordinates h pl p) p.
Proof.
  intros (A & B & C & D) H V P. unfold same_position, kept_coordinates.
  cbn [defaultX defaultY relativeX relativeY horizontalAlignment verticalAlignment placement].
  split; [apply exact_same, A | ]. split; [apply exact_same, B | ]. split; [apply exact_same, C | ]. split; [apply exact_same, D | ].
  split; [destruct h; [reflexivity | symmetry; apply H; reflexivity] | ]. split; symmetry; assumption.
Qed.

Lemma position_same p : coordinates_fit p -> same_position (kept_position true true p) p.
Proof.
  intros (A & B & C & D). unfold same_position, kept_position.
  cbn [defaultX defaultY relativeX relativeY horizontalAlignment verticalAlignment placement].
  split; [apply exact_same, A | ]. split; [apply exact_same, B | ]. split; [apply exact_same, C | ]. split; [apply exact_same, D | ].
  split; [reflexivity | ]. split; reflexivity.
Qed.

Lemma line_same (t : bool) l : line_fits l -> (t = false -> lineType l = api_LineType_unspecified) -> same_line (kept_line t l) l.
Proof.
  intros (A & B & C & D) T. unfold same_line, kept_line. cbn [lineType lineHook endLength dashLength spaceLength].
  split; [destruct t; [reflexivity | symmetry; apply T; reflexivity] | ]. split; [symmetry; exact A | ]. split; [rewrite B; exact I | ].
  split; [apply exact_same, C | apply exact_same, D].
Qed.

Lemma line_fits_ok l : line_fits l -> line_ok l.
Proof. intros (_ & _ & C & D). split; eapply exact_storable; eassumption. Qed.

Lemma no_comma t : ~ In ","%char t -> between_commas t = [t].
Proof.
  induction t as [ | c t IH]; intros H; [reflexivity | ]. cbn [between_commas]. rewrite IH by (intros X; apply H; right; exact X).
  destruct (Ascii.eqb_spec c ","); [exfalso; apply H; left; assumption | reflexivity].
Qed.

Lemma family_same l : family_ok l -> kept_families l = l.
Proof.
  intros [C L]. unfold kept_families.
  assert (T : map token_of l = l). { clear L. induction C as [ | t l [T _] _ IH]; [reflexivity | ]. cbn [map]. rewrite T, IH. reflexivity. }
  rewrite T. assert (F : flat_map between_commas l = l).
  { clear L T. induction C as [ | t l [_ N] _ IH]; [reflexivity | ]. cbn [flat_map]. rewrite (no_comma t N), IH. reflexivity. }
  rewrite F. clear F. unfold without_last_empty.
  destruct (rev l) as [ | t r] eqn:R; [exact T | ]. assert (E : l = rev r ++ [t]) by (rewrite <- (rev_involutive l), R; reflexivity).
  destruct t as [ | c t]; [destruct (L _ _ E eq_refl) | exact T].
Qed.

Lemma font_same f : font_fits f -> same_font (kept_font f) f.
Proof.
  intros (Z & F & U & O & L). unfold same_font, kept_font.
  cbn [sizeType sizePoint sizeCss fontStyle fontWeight fontFamily underline overline lineThrough].
  split; [reflexivity | ].
  split; [destruct (sizeType f); [destruct Z as [Z _]; symmetry; exact Z | destruct Z as [Z _]; symmetry; exact Z | destruct Z as [[_ Z] _]; exact Z] | ].
  split; [destruct (sizeType f); destruct Z as [_ Z]; [symmetry; exact Z | | symmetry; exact Z]; unfold kept_css; destruct (sizeCss f); congruence | ].
  split; [reflexivity | ]. split; [reflexivity | ].
  split; [destruct F as [F | F]; [rewrite F; reflexivity | apply family_same, F] | ]. unfold kept_lines. repeat split; lia.
Qed.

Lemma font_fits_ok f : font_fits f -> font_ok f.
Proof. intros (Z & _) E. rewrite E in Z. apply Z. Qed.

Lemma mark_fits_shown t p m : mark_fits t p m -> shown_mark m = true.
Proof.
  intros (_ & _ & _ & [(T & _) | (D & _)]); unfold shown_mark.
  - unfold is_pedal. destruct T as [-> | ->]; apply orb_true_r.
  - rewrite D. reflexivity.
Qed.

Lemma mark_same t p m : mark_fits t p m -> same_mark (kept_direction_mark t p m) m.
Proof.
  intros (T & P & C & [(K & N & V & L) | (D & N & O)]).
  - unfold kept_direction_mark. assert (E : is_pedal m = true) by (unfold is_pedal; destruct K as [-> | ->]; reflexivity). rewrite E.
    unfold same_mark. cbn [m_type m_name m_tick m_print m_position]. split; [reflexivity | ]. split; [symmetry; exact N | ]. split; [symmetry; exact T | ].
    split; [symmetry; exact P | ]. apply coordinates_same; [exact C | intros X; discriminate X | exact V | exact L].
  - unfold kept_direction_mark. unfold is_dynamic, is_pedal in *. rewrite (not_both _ D). unfold kept_mark.
    assert (W : written_as (m_type m) = Dynamic) by (unfold written_as; rewrite D; reflexivity). rewrite W.
    assert (S : same_mark (mkMark (m_type m) (m_name m) t 0 (kept_position true true (m_position m))) m).
    { unfold same_mark. cbn [m_type m_name m_tick m_print m_position]. split; [reflexivity | ]. split; [reflexivity | ]. split; [symmetry; exact T | ].
      split; [symmetry; exact P | apply position_same, C]. }
    cbv zeta. destruct (api_MarkType_value (m_type m) =? api_MarkType_value api_MarkType_otherDynamics) eqn:Q.
    + assert (E : m_type m = api_MarkType_otherDynamics) by (clear - Q; destruct (m_type m); try discriminate Q; reflexivity).
      rewrite E in S |- *. destruct (O E) as [O1 O2]. destruct (m_name m) as [ | c n] eqn:NM; [exact S | ]. rewrite O1.
      destruct (str_eqb (c :: n) (lit "other-dynamics")) eqn:X; [apply str_eqb_eq in X; contradiction | exact S].
    + assert (E : m_type m <> api_MarkType_otherDynamics) by (intros X; rewrite X in Q; discriminate Q).
      specialize (N E). rewrite N in S.
      revert S. generalize (kept_position true true (m_position m)). intros q S. destruct (m_type m); try exact S. destruct (E eq_refl).
Qed.

Lemma Forall2_map_l {A} (R : A -> A -> Prop) (g : A -> A) (P : A -> Prop) l : Forall P l -> (forall x, P x -> R (g x) x) -> Forall2 R (map g l) l.
Proof. intros F H. induction F; cbn [map]; constructor; auto. Qed.
Lemma map_same {A} (g : A -> A) (P : A -> Prop) l : Forall P l -> (forall x, P x -> g x = x) -> map g l = l.
Proof. intros F H. induction F as [ | x l X _ IH]; [reflexivity | ]. cbn [map]. rewrite (H x X), IH. reflexivity. Qed.

Lemma fits_numbers tick staff d : direction_fits tick staff d -> numbers_ok tick staff d.
Proof.
  intros (T1 & T2 & T3 & S & _ & _ & _ & TE & M & WS & WP & OS & OP & BS & WO & _).
  split; [exact T1 | ]. split; [exact T2 | ]. split; [exact T3 | ]. split; [exact S | ].
  split; [eapply Forall_impl; [ | exact M]; intros m (_ & _ & C & _); apply coordinates_ok, C | ].
  split; [eapply Forall_impl; [ | exact WS]; intros w (_ & _ & C & L & P & _); split; [apply coordinates_ok, P | ]; split; [eapply exact_storable, C | apply line_fits_ok, L] | ].
  split; [eapply Forall_impl; [ | exact WP]; intros w (_ & C & P & _); split; [apply coordinates_ok, P | eapply exact_storable, C] | ].
  split; [eapply Forall_impl; [ | exact OS]; intros o (_ & _ & _ & _ & _ & _ & L); apply line_fits_ok, L | ].
  split; [eapply Forall_impl; [ | exact WO]; intros w (C & _ & _ & F & _); split; [apply coordinates_ok, C | apply font_fits_ok, F] | ].
  eapply Forall_impl; [ | exact TE]. intros t (_ & _ & _ & I). exact I.
Qed.

Lemma fits_beats tick staff d : direction_fits tick staff d -> beats_only d.
Proof.
  intros (_ & _ & _ & _ & _ & _ & _ & TE & _). eapply Forall_impl; [ | exact TE]. intros t (E & _). rewrite E. reflexivity.
Qed.

Lemma same_placements t p l : Forall (mark_fits t p) l -> fold_left (fun old q => match q with api_Placement_unspecified => old | q => q end)
  (map (fun m => placement (m_position m)) (filter is_pedal l)) p = p.
Proof.
  intros F. assert (K : Forall (fun q => q = p) (map (fun m => placement (m_position m)) (filter is_pedal l))).
  { apply Forall_forall. intros q I. apply in_map_iff in I as (m & <- & I). apply filter_In in I as [I J]. rewrite Forall_forall in F.
    destruct (F m I) as (_ & _ & _ & [(_ & _ & _ & E) | (D & _)]); [exact E | ]. unfold is_dynamic, is_pedal in *. rewrite (not_both _ D) in J. discriminate J. }
  clear F. induction K as [ | q r -> _ IH]; [reflexivity | ]. cbn [fold_left]. destruct p; exact IH.
Qed.

Lemma fits_placement tick staff d : direction_fits tick staff d -> written_placement d = d_placement d.
Proof.
  intros (_ & _ & _ & _ & _ & _ & _ & _ & M & _). unfold written_placement, last_placement. cbn [fold_left].
  pose proof (same_placements _ _ _ M) as X. destruct (d_placement d); exact X.
Qed.

Lemma fits_same tick staff d : direction_fits tick staff d -> same_direction (kept_direction tick staff d) d.
Proof.
  intros F. pose proof (fits_placement tick staff d F) as PL.
  destruct F as (T1 & T2 & T3 & S & NE & V & SP & TE & M & WS & WP & OS & OP & BS & WO & E1 & E2 & E3 & E4).
  unfold same_direction, kept_direction.
  cbn [d_tick d_placement d_voice d_isStaffValueSpecified d_tempos d_marks d_wedgeStarts d_wedgeStops d_ottavaStarts d_ottavaStops d_bracketStarts d_bracketStops d_words d_segnos d_codas d_rehearsals].
  rewrite PL. split; [reflexivity | ]. split; [reflexivity | ]. split; [symmetry; exact V | ].
  split; [destruct (d_isStaffValueSpecified d); [reflexivity | ]; rewrite (SP eq_refl); reflexivity | ].
  split. { apply (map_same _ _ _ TE). intros t (E & D & DO & _). rewrite E at 2. unfold kept_tempo. f_equal.
           destruct (te_beats t) as [n dots b]. cbn [b_duration b_dots b_beats] in *. rewrite Z.max_r by exact DO. destruct n; try reflexivity. destruct (D eq_refl). }
  split. { unfold kept_direction_marks. change (fun m => is_dynamic m || is_pedal m) with shown_mark.
           assert (Q : filter shown_mark (d_marks d) = d_marks d).
           { clear - M. induction M as [ | m l X _ IH]; [reflexivity | ]. cbn [filter]. rewrite (mark_fits_shown _ _ _ X), IH. reflexivity. }
           rewrite Q. apply (Forall2_map_l _ _ _ _ M). intros m. apply mark_same. }
  split. { apply (Forall2_map_l _ _ _ _ WS). intros w (N & T & SPR & L & C & H & VA & P & CO). unfold same_wedgeStart, kept_wedgeStart.
           cbn [ws_number ws_type ws_spread ws_line ws_position ws_color]. split; [symmetry; exact N | ]. split; [destruct (ws_type w); congruence | ].
           split; [apply exact_same, SPR | ]. split; [apply line_same; [exact L | intros X; discriminate X] | ].
           split; [apply coordinates_same; auto | symmetry; exact CO]. }
  split. { apply (Forall2_map_l _ _ _ _ WP). intros w (N & SPR & C & H & VA & P). unfold same_wedgeStop, kept_wedgeStop.
           cbn [wp_number wp_spread wp_position]. split; [symmetry; exact N | ].
           split; [apply coordinates_same; auto | apply exact_same, SPR]. }
  split. { apply (Forall2_map_l _ _ _ _ OS). intros o (T & N & TI & P & PR & LT & L). unfold same_ottavaStart, kept_ottavaStart.
           cbn [os_type os_start ss_number ss_tick ss_position ss_print ss_line]. split; [destruct (os_type o); congruence | ].
           repeat (split; [symmetry; assumption | ]). apply line_same; auto. }
  split. { apply (map_same _ _ _ OP). intros s E. rewrite E. reflexivity. }
  split. { apply (map_same _ _ _ BS). intros s [E R]. rewrite E at 2. unfold kept_bracketStart. f_equal. lia. }
  split; [symmetry; exact E1 | ].
  split. { apply (Forall2_map_l _ _ _ _ WO). intros w (C & VA & P & FO & CS & CO). unfold same_words, kept_words.
           cbn [wo_text wo_position wo_font wo_isColorSpecified wo_color]. split; [reflexivity | ].
           split; [apply coordinates_same; [exact C | intros X; discriminate X | exact VA | exact P] | ].
           split; [apply font_same, FO | ]. split; symmetry; assumption. }
  split; [symmetry; exact E2 | ]. split; symmetry; assumption.
Qed.

Lemma fits_back tick staff d : direction_fits tick staff d -> exists e, direction_back tick staff d = Ok (Some e) /\ same_direction e d.
Proof.
  intros F. exists (kept_direction tick staff d). split; [ | apply fits_same, F]. pose proof F as (_ & _ & _ & _ & NE & _).
  apply back; [apply fits_numbers, F | exact (fits_beats tick staff d F) | exact NE].
Qed.

(** ** Reading what cannot be read or written *)

Lemma all_of_fails {A} (f : echild -> option A) l b : In b l -> f b = None -> fst (all_of f l) = false.
Proof.
  induction l as [ | a l IH]; [intros [] | ]. intros I N. cbn [all_of]. destruct I as [-> | I]; [rewrite N; reflexivity | ].
  destruct (f a); [ | reflexivity]. specialize (IH I N). destruct (all_of f l) as [ok q]. exact IH.
Qed.

Lemma metronome_alone v n m : fst (read_metronome (List.length (beat v n)) (beat v n) m) = false.
Proof.
  unfold beat. cbn [List.length read_metronome]. unfold import_unit.
  assert (D : dots_run (repeat MBeatUnitDot n) = (n, [])) by (pose proof (dots_run_repeat n [] I) as D; rewrite app_nil_r in D; exact D).
  destruct v as [v | ]; rewrite D; reflexivity.
Qed.

Lemma type_refused c : refused c -> fst (createDirectionType c) = false.
Proof.
  intros [-> | [(a & r & b & -> & R & I & K) | (v & n & r & ->)]]; [reflexivity | | ].
  - destruct a; try discriminate R; cbn [createDirectionType].
    all: match goal with |- fst (let (ok, q) := all_of ?f ?l in _) = false =>
           pose proof (all_of_fails f l b (or_intror I)) as X; destruct (all_of f l) as [ok q]; cbn [fst] in *; apply X; destruct b; try reflexivity; discriminate K end.
  - cbn [createDirectionType]. pose proof (metronome_alone v n newMetronome) as X. destruct (read_metronome (List.length (beat v n)) (beat v n) newMetronome). exact X.
Qed.

Lemma direction_refused tick f : Exists refused (f_types f) -> read_direction tick f = Throw.
Proof.
  intros E. unfold read_direction, read_types. apply Exists_exists in E as (c & I & R).
  rewrite (outcomes_throw _ _ c I); [reflexivity | | ].
  - pose proof (type_refused c R) as X. destruct (createDirectionType c) as [ok t]. cbn [fst] in X. rewrite X. reflexivity.
  - intros y _. destruct (createDirectionType y) as [[ | ] t]; discriminate.
Qed.

Lemma said_unwritable tick p l o s d : direction_said tick p l o s d ->
  Exists (fun m => me_second m = true \/ forall n, canonical_int (me_perMinute m) n -> ~ is_int n) (flat_map metronomes_in l) -> ~ beats_only d.
Proof.
  intros (_ & _ & _ & _ & T & _) E B. unfold beats_only in B. revert E B. induction T as [ | m t ms ts S T IH]; intros E B; [inversion E | ].
  inversion B as [ | ? ? B1 B2]; subst. inversion E as [? ? E1 | ? ? E1]; subst; [ | exact (IH E1 B2)].
  unfold tempo_said in S. destruct (me_second m); [rewrite S in B1; discriminate B1 | ].
  destruct E1 as [E1 | E1]; [discriminate E1 | ]. destruct S as [_ S]. rewrite (S E1) in B1. discriminate B1.
Qed.

Lemma read_unwritable tick f l t d : Forall2 type_read (f_types f) l -> offset_by (f_offset f) tick t -> Forall legible (flat_map metronomes_in l) ->
  Exists (fun m => me_second m = true \/ forall n, canonical_int (me_perMinute m) n -> ~ is_int n) (flat_map metronomes_in l) ->
  read_direction tick f = Ok d -> forall tick' staff, numbers_ok tick' staff d -> write_direction tick' staff d = Throw.
Proof.
  intros T O L E R tick' staff N. apply throws; [exact N | ].
  assert (X : Forall (fun m => me_relation m = false) (flat_map metronomes_in l)).
  { apply Forall_forall. intros m I. destruct (me_relation m) eqn:Q; [ | reflexivity].
    rewrite (direction_relation tick f l t T O L) in R; [discriminate R | ]. apply Exists_exists. exists m. split; assumption. }
  destruct (direction_any tick f l t T O L X) as (e & R2 & S & _). rewrite R in R2. injection R2 as <-.
  exact (said_unwritable _ _ _ _ _ _ S E).
Qed.

(** ** What is never written *)

Lemma unwritten tick staff tk pl vo vo' sp te ma ws wp os op bs bp bp' wo se se' co co' re re' :
  write_direction tick staff (mkDirection tk pl vo sp te ma ws wp os op bs bp wo se co re) =
  write_direction tick staff (mkDirection tk pl vo' sp te ma ws wp os op bs bp' wo se' co' re').
Proof. reflexivity. Qed.

(** ** Examples *)

Lemma exact_int t n : Z.abs n < 2 ^ 63 -> (stored t (inject_Z n) == inject_Z n)%Q -> exact t (inject_Z n).
Proof. intros A B. split; [apply storable_int, A | exact B]. Qed.

Lemma ten_left_fits : coordinates_fit ten_left.
Proof.
  split; [ | split; [exact I | split; exact I]]. cbn [ten_left defaultX every]. change (-10 # 1)%Q with (inject_Z (-10)).
  apply exact_int; [reflexivity | vm_compute; reflexivity].
Qed.

Lemma nowhere_fits p : defaultX p = None -> defaultY p = None -> relativeX p = None -> relativeY p = None -> coordinates_fit p.
Proof. intros A B C D. unfold coordinates_fit. rewrite A, B, C, D. repeat split. Qed.

Lemma full_fits : direction_fits 96 1 full_direction.
Proof.
  unfold direction_fits, full_direction.
  cbn [d_tick d_placement d_voice d_isStaffValueSpecified d_tempos d_marks d_wedgeStarts d_wedgeStops d_ottavaStarts d_ottavaStops d_bracketStarts d_bracketStops d_words d_segnos d_codas d_rehearsals].
  split; [unfold is_int; lia | ]. split; [unfold is_int; lia | ]. split; [unfold is_int; lia | ]. split; [lia | ].
  split; [intros [E _]; discriminate E | ]. split; [reflexivity | ]. split; [intros E; discriminate E | ].
  split. { constructor; [ | constructor]. split; [reflexivity | ]. cbn [te_beats tempo_at b_duration b_dots b_beats].
           split; [intros E; discriminate E | ]. split; [lia | unfold is_int; lia]. }
  split. { constructor; [ | constructor; [ | constructor]].
           - split; [reflexivity | ]. split; [reflexivity | ]. split; [exact ten_left_fits | ]. right. split; [reflexivity | ].
             split; [intros _; reflexivity | intros E; discriminate E].
           - split; [reflexivity | ]. split; [reflexivity | ]. split; [apply nowhere_fits; reflexivity | ]. left.
             split; [left; reflexivity | ]. split; [reflexivity | ]. split; reflexivity. }
  split. { constructor; [ | constructor]. split; [reflexivity | ]. split; [intros E; discriminate E | ].
           split; [cbn [ws_spread every]; change (15 # 1)%Q with (inject_Z 15); apply exact_int; [reflexivity | vm_compute; reflexivity] | ].
           split. { split; [reflexivity | ]. split; [reflexivity | ]. split; [ | exact I].
                    cbn [ws_line dashLength every]. change (3 # 1)%Q with (inject_Z 3). apply exact_int; [reflexivity | vm_compute; reflexivity]. }
           split; [exact ten_left_fits | ]. split; [reflexivity | ]. split; [reflexivity | ]. split; reflexivity. }
  split. { constructor; [ | constructor]. split; [reflexivity | ]. split; [exact I | ]. split; [exact ten_left_fits | ].
           split; [reflexivity | ]. split; reflexivity. }
  split. { constructor; [ | constructor]. split; [intros E; discriminate E | ]. split; [reflexivity | ]. split; [reflexivity | ].
           split; [reflexivity | ]. split; [reflexivity | ]. split; [reflexivity | ]. split; [reflexivity | ]. split; [reflexivity | ].
           split; exact I. }
  split. { constructor; [reflexivity | constructor]. }
  split. { constructor; [ | constructor]. split; [reflexivity | ]. cbn [ss_number]. lia. }
  split. { constructor; [ | constructor; [ | constructor]].
           - split; [exact ten_left_fits | ]. split; [reflexivity | ]. split; [reflexivity | ]. split; [ | split; reflexivity].
             unfold font_fits. cbn [wo_font dolce sizeType sizePoint sizeCss fontFamily underline overline lineThrough].
             split. { split; [ | reflexivity]. change (12 # 1)%Q with (inject_Z 12). apply exact_int; [reflexivity | vm_compute; reflexivity]. }
             split; [ | lia]. right. split.
             + constructor; [ | constructor; [ | constructor]].
               * split; [vm_compute; reflexivity | ]. intros H. cbn in H. repeat (destruct H as [H | H]; [discriminate H | ]). exact H.
               * split; [vm_compute; reflexivity | ]. intros H. cbn in H. repeat (destruct H as [H | H]; [discriminate H | ]). exact H.
             + intros m z E Z. destruct m as [ | a [ | b [ | c m]]]; cbn in E; try (injection E; intros; subst; discriminate).
           - split; [apply nowhere_fits; reflexivity | ]. split; [reflexivity | ]. split; [reflexivity | ]. split; [ | split; reflexivity].
             unfold font_fits. cbn [wo_font plain_font sizeType sizePoint sizeCss fontFamily underline overline lineThrough].
             split; [split; reflexivity | ]. split; [left; reflexivity | lia]. }
  split; [reflexivity | ]. split; [reflexivity | ]. split; reflexivity.
Qed.

Lemma segno_ok : numbers_ok 0 0 segno_direction /\ beats_only segno_direction /\ ~ nothing_to_write segno_direction.
Proof.
  split; [ | split; [constructor | intros (_ & _ & _ & _ & _ & _ & _ & E); discriminate E]].
  unfold numbers_ok, segno_direction, is_int. cbn [d_tick d_marks d_wedgeStarts d_wedgeStops d_ottavaStarts d_words d_tempos].
  split; [lia | ]. split; [lia | ]. split; [lia | ]. split; [lia | ]. split; [constructor | ]. split; [constructor | ]. split; [constructor | ].
  split; [constructor | ]. split; [ | constructor]. constructor; [ | constructor].
  split; [repeat split | intros E; discriminate E].
Qed.

Lemma back_refuted : ~ (forall tick staff d, numbers_ok tick staff d -> beats_only d -> ~ nothing_to_write d ->
  exists e, direction_back tick staff d = Ok (Some e) /\ same_direction e d).
Proof.
  intros H. destruct segno_ok as (A & B & C). destruct (H 0 0 segno_direction A B C) as (e & E & S).
  rewrite (back 0 0 segno_direction A B C) in E. injection E as <-.
  destruct S as (_ & _ & _ & _ & _ & _ & _ & _ & _ & _ & _ & _ & _ & S & _). discriminate S.
Qed.

Lemma lone_ok : numbers_ok 0 0 lone_segno /\ beats_only lone_segno /\ nothing_to_write lone_segno.
Proof.
  split; [ | split; [constructor | repeat split]].
  unfold numbers_ok, lone_segno, is_int. cbn [d_tick d_marks d_wedgeStarts d_wedgeStops d_ottavaStarts d_words d_tempos].
  split; [lia | ]. split; [lia | ]. split; [lia | ]. split; [lia | ]. repeat split; constructor.
Qed.

Lemma modulation_ok : numbers_ok 0 0 modulation_direction /\ ~ beats_only modulation_direction.
Proof.
  split; [ | intros B; inversion B as [ | ? ? E]; discriminate E].
  unfold numbers_ok, modulation_direction, is_int. cbn [d_tick d_marks d_wedgeStarts d_wedgeStops d_ottavaStarts d_words d_tempos].
  split; [lia | ]. split; [lia | ]. split; [lia | ]. split; [lia | ]. repeat split; try constructor; [ | constructor].
  unfold is_int. cbn [te_beats tempo_at b_beats no_beats]. lia.
Qed.

(** What the files of the examples say. *)
Lemma file_reads c m : metronome_read c m -> Forall2 type_read (f_types (file_direction c)) (file_types m).
Proof.
  intros M. unfold file_direction, file_types. cbn [f_types]. constructor; [exact (read_words [file_words; file_words] ltac:(discriminate)) | ].
  repeat (constructor; [constructor; try exact M | ]). constructor.
Qed.
Lemma file_offset c : offset_by (f_offset (file_direction c)) 96 95.
Proof.
  exists (-1). split; [vm_compute; discriminate | ]. split; [reflexivity | ]. unfold is_int. lia.
Qed.

Lemma numeral_tail_range ds n : numeral_tail ds n -> 0 <= n < 10 ^ Z.of_nat (List.length ds).
Proof.
  induction 1 as [ | c d r n D N IH]; [cbn; lia | ].
  assert (B : 0 <= d <= 9). { cbn in D. repeat (destruct D as [D | D]; [injection D as _ <-; lia | ]). destruct D. }
  cbn [List.length]. rewrite Nat2Z.inj_succ, Z.pow_succ_r by lia. set (p := 10 ^ Z.of_nat (List.length r)) in *. nia.
Qed.

(** A text of up to nine characters has no number that is too large. *)
Lemma short_legible t : (List.length (c_str t) <= 9)%nat -> forall n, starts_with_int (c_str t) n -> is_int n.
Proof.
  intros L n (w & sign & ds & r & m & E & _ & [_ N] & _ & S). rewrite E in L. rewrite !app_length in L.
  pose proof (numeral_tail_range ds m N) as B. assert (P : 10 ^ Z.of_nat (List.length ds) <= 10 ^ 9) by (apply Z.pow_le_mono_r; lia).
  unfold is_int. assert (Q : 10 ^ 9 = 1000000000) by reflexivity. destruct S as [[_ ->] | [[_ ->] | [_ ->]]]; lia.
Qed.

Lemma legible_96 : legible (mkXMetronome false NoteTypeValue_quarter 1 false (lit "96") NoteTypeValue_eighth 0).
Proof. intros _ _. apply short_legible. vm_compute. lia. Qed.
