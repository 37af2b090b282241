(** What the elements that hold a value make of their text. *)
From Coq Require Import List Ascii String ZArith QArith Qabs Bool Lia Lqa.
From Verif Require Import Model.Base Model.Text Model.Strings Model.Date Model.Integers Model.Decimals Model.LongDouble Model.NumberOrWord
  Model.EnumLookup Model.CoreEnums Model.CustomEnums Model.PlaybackSound Model.ElementTexts
  Spec.Numerals Spec.DecimalText Spec.Calendar Spec.DateText Spec.TextEnum Spec.SchemaTexts Spec.SoundTexts Spec.XmlText Spec.Ranges Spec.SchemaElementTexts
  Proofs.Tac Proofs.TextProofs Proofs.StringsProofs Proofs.IntegersProofs Proofs.LongDoubleProofs Proofs.DecimalsText Proofs.DecimalsRange Proofs.DecimalUnique
  Proofs.DateProofs3 Proofs.CustomEnumsProofs Proofs.PlaybackSoundProofs Proofs.EnumTables Proofs.NumberOrWordProofs.
Import ListNotations.
Open Scope Z_scope.
Open Scope list_scope.

(** ** Texts without markup *)
Definition unmarked (t : str) : Prop := ~ In "<"%char t /\ ~ In ">"%char t /\ ~ In "&"%char t.

Lemma unmarked_chardata t : unmarked t -> chardata t t.
Proof.
  induction t as [ | c t IH]; intros (A & B & C); [constructor | ]. cbn [In] in *.
  constructor; try (intros ->; auto; fail). apply IH. split; [ | split]; auto.
Qed.

Definition unmarkedb (t : str) : bool := forallb (fun c => negb (Ascii.eqb c "<" || Ascii.eqb c ">" || Ascii.eqb c "&")) t.

Lemma unmarkedb_ok t : unmarkedb t = true -> unmarked t.
Proof.
  unfold unmarkedb. rewrite forallb_forall. intros H. split; [ | split]; intros I; specialize (H _ I); discriminate H.
Qed.

Lemma digits_unmarked ds : all_digits ds -> unmarked ds.
Proof.
  intros D. unfold all_digits in D. rewrite Forall_forall in D. split; [ | split]; intros I; specialize (D _ I); discriminate D.
Qed.

Lemma unmarked_app a b : unmarked a -> unmarked b -> unmarked (a ++ b).
Proof. unfold unmarked. rewrite !in_app_iff. tauto. Qed.

Lemma unmarked_cons c b : unmarked [c] -> unmarked b -> unmarked (c :: b).
Proof. intros H. apply (unmarked_app [c] b H). Qed.

Lemma canonical_unmarked t n : canonical_int t n -> unmarked t.
Proof.
  intros (ds & m & N & _ & [[-> _] | (-> & _)]); apply numeral_iff in N as (_ & D & _).
  - apply digits_unmarked, D.
  - apply unmarked_cons; [apply unmarkedb_ok; reflexivity | apply digits_unmarked, D].
Qed.

Lemma shortest_unmarked t : shortest_decimal t -> unmarked t.
Proof.
  intros H. destruct (shortest_parts t H) as (neg & ip & fp & -> & _ & D & _ & F & _).
  apply unmarked_app; [destruct neg; apply unmarkedb_ok; reflexivity | ]. apply unmarked_app; [apply digits_unmarked, D | ].
  destruct fp; [apply unmarkedb_ok; reflexivity | ]. apply unmarked_cons; [apply unmarkedb_ok; reflexivity | apply digits_unmarked, F].
Qed.

(** ** How the types of the program go with the kinds of the schema *)
Definition same_bounds (n : str) (ty : int_type) (start : Z) (lo hi : option Z) : Prop :=
  (n = lit "accordion-middle" /\ ty = AccordionMiddleValue /\ start = 0 /\ lo = Some 1 /\ hi = Some 3) \/
  (n = lit "tremolo" /\ ty = TremoloMarks /\ start = 3 /\ lo = Some 0 /\ hi = Some 8) \/
  (n <> lit "accordion-middle" /\ n <> lit "tremolo" /\ documented_range ty = (lo, hi) /\ start = 0).

Definition same_ends (d : decimal_type) (start : Q) (lo : bound) (hi : option Z) : Prop :=
  d <> TrillBeats /\ upper_end d = hi /\
  match lo with
  | Anywhere => lower_end d = None /\ ~ exclusive d /\ start = 0%Q
  | From b => lower_end d = Some b /\ ~ exclusive d /\ start = 0%Q
  | Above b => b = 0 /\ exclusive d /\ start = 1%Q
  end.

Inductive fits : str -> text_type -> kind -> Prop :=
| fit_string n : n <> lit "mode" -> n <> lit "instrument-sound" -> fits n OfString AnyText
| fit_mode : fits (lit "mode") OfMode AnyText
| fit_sound : fits (lit "instrument-sound") OfSound AnyText
| fit_accidental : fits (lit "accidental") OfAccidental (OneOf schema_accidental_value)
| fit_date n : fits n OfDate Day
| fit_integer n : n <> lit "accordion-middle" -> n <> lit "tremolo" -> fits n OfInteger (Whole None None)
| fit_empty n : fits n OfIntegerOrEmpty WholeOrNothing
| fit_range n ty start lo hi : same_bounds n ty start lo hi -> fits n (OfRange ty start) (Whole lo hi)
| fit_number n d start lo hi : same_ends d start lo hi -> fits n (OfNumber d start) (Fraction lo hi)
| fit_enum n (A : Type) (members : list A) print try parse texts fb : n <> lit "accidental" ->
    text_enum members print try parse texts fb -> hd_error texts = Some (print fb) -> forallb unmarkedb texts = true ->
    fits n (OfEnum (fun t => print (parse t))) (OneOf texts).

Fixpoint find_kind (n : str) (l : list (str * kind)) : option kind :=
  match l with [] => None | (m, k) :: r => if str_eqb n m then Some k else find_kind n r end.

Ltac fit :=
  match goal with
  | |- fits _ OfString _ => apply fit_string; intros E; discriminate E
  | |- fits _ OfMode _ => apply fit_mode
  | |- fits _ OfSound _ => apply fit_sound
  | |- fits _ OfAccidental _ => apply fit_accidental
  | |- fits _ OfDate _ => apply fit_date
  | |- fits _ OfInteger _ => apply fit_integer; intros E; discriminate E
  | |- fits _ OfIntegerOrEmpty _ => apply fit_empty
  | |- fits _ (OfRange _ _) _ => apply fit_range; first
      [ right; right; split; [intros E; discriminate E | ]; split; [intros E; discriminate E | ]; split; reflexivity
      | left; repeat split; reflexivity | right; left; repeat split; reflexivity ]
  | |- fits _ (OfNumber _ _) _ => apply fit_number; split; [intros E; discriminate E | ]; split; [reflexivity | ];
      first [ split; [reflexivity | ]; split; [intros E; cbn in E; intuition discriminate | reflexivity]
            | split; [reflexivity | ]; split; [cbn; auto | reflexivity] ]
  end.

Definition row_fits (p : str * text_type) : Prop := exists k, find_kind (fst p) schema_element_texts = Some k /\ fits (fst p) (snd p) k.

Lemma fit_row n ty k : find_kind n schema_element_texts = Some k -> fits n ty k -> row_fits (n, ty).
Proof. intros A B. exists k. auto. Qed.

Lemma all_fit : Forall row_fits element_texts.
Proof.
  unfold element_texts.
  apply Forall_cons; [apply (fit_row _ _ (OneOf schema_accidental_value)); [vm_compute; reflexivity | fit] | ].
  apply Forall_cons; [apply (fit_row _ _ (OneOf schema_accidental_value)); [vm_compute; reflexivity | refine (fit_enum _ _ _ _ _ _ _ _ _ AccidentalValue_text eq_refl eq_refl); intros E; discriminate E] | ].
  apply Forall_cons; [apply (fit_row _ _ (OneOf schema_accidental_value)); [vm_compute; reflexivity | refine (fit_enum _ _ _ _ _ _ _ _ _ AccidentalValue_text eq_refl eq_refl); intros E; discriminate E] | ].
  apply Forall_cons; [apply (fit_row _ _ (Whole (Some 1) (Some 3))); [vm_compute; reflexivity | fit] | ].
  apply Forall_cons; [apply (fit_row _ _ (Whole (Some 0) None)); [vm_compute; reflexivity | fit] | ].
  apply Forall_cons; [apply (fit_row _ _ (Fraction Anywhere None)); [vm_compute; reflexivity | fit] | ].
  apply Forall_cons; [apply (fit_row _ _ (OneOf schema_arrow_direction)); [vm_compute; reflexivity | refine (fit_enum _ _ _ _ _ _ _ _ _ ArrowDirectionEnum_text eq_refl eq_refl); intros E; discriminate E] | ].
  apply Forall_cons; [apply (fit_row _ _ (OneOf schema_arrow_style)); [vm_compute; reflexivity | refine (fit_enum _ _ _ _ _ _ _ _ _ ArrowStyleEnum_text eq_refl eq_refl); intros E; discriminate E] | ].
  apply Forall_cons; [apply (fit_row _ _ (OneOf schema_bar_style)); [vm_compute; reflexivity | refine (fit_enum _ _ _ _ _ _ _ _ _ BarStyleEnum_text eq_refl eq_refl); intros E; discriminate E] | ].
  apply Forall_cons; [apply (fit_row _ _ (Fraction Anywhere None)); [vm_compute; reflexivity | fit] | ].
  apply Forall_cons; [apply (fit_row _ _ (OneOf schema_step)); [vm_compute; reflexivity | refine (fit_enum _ _ _ _ _ _ _ _ _ StepEnum_text eq_refl eq_refl); intros E; discriminate E] | ].
  apply Forall_cons; [apply (fit_row _ _ (OneOf schema_beam_value)); [vm_compute; reflexivity | refine (fit_enum _ _ _ _ _ _ _ _ _ BeamValue_text eq_refl eq_refl); intros E; discriminate E] | ].
  apply Forall_cons; [apply (fit_row _ _ (AnyText)); [vm_compute; reflexivity | fit] | ].
  apply Forall_cons; [apply (fit_row _ _ (OneOf schema_note_type_value)); [vm_compute; reflexivity | refine (fit_enum _ _ _ _ _ _ _ _ _ NoteTypeValue_text eq_refl eq_refl); intros E; discriminate E] | ].
  apply Forall_cons; [apply (fit_row _ _ (OneOf schema_beater_value)); [vm_compute; reflexivity | refine (fit_enum _ _ _ _ _ _ _ _ _ BeaterValue_text eq_refl eq_refl); intros E; discriminate E] | ].
  apply Forall_cons; [apply (fit_row _ _ (AnyText)); [vm_compute; reflexivity | fit] | ].
  apply Forall_cons; [apply (fit_row _ _ (Fraction Anywhere None)); [vm_compute; reflexivity | fit] | ].
  apply Forall_cons; [apply (fit_row _ _ (Fraction Anywhere None)); [vm_compute; reflexivity | fit] | ].
  apply Forall_cons; [apply (fit_row _ _ (OneOf schema_breath_mark_value)); [vm_compute; reflexivity | refine (fit_enum _ _ _ _ _ _ _ _ _ BreathMarkValue_text eq_refl eq_refl); intros E; discriminate E] | ].
  apply Forall_cons; [apply (fit_row _ _ (Whole None None)); [vm_compute; reflexivity | fit] | ].
  apply Forall_cons; [apply (fit_row _ _ (Whole (Some 0) None)); [vm_compute; reflexivity | fit] | ].
  apply Forall_cons; [apply (fit_row _ _ (Fraction Anywhere None)); [vm_compute; reflexivity | fit] | ].
  apply Forall_cons; [apply (fit_row _ _ (OneOf schema_circular_arrow)); [vm_compute; reflexivity | refine (fit_enum _ _ _ _ _ _ _ _ _ CircularArrowEnum_text eq_refl eq_refl); intros E; discriminate E] | ].
  apply Forall_cons; [apply (fit_row _ _ (Whole None None)); [vm_compute; reflexivity | fit] | ].
  apply Forall_cons; [apply (fit_row _ _ (AnyText)); [vm_compute; reflexivity | fit] | ].
  apply Forall_cons; [apply (fit_row _ _ (AnyText)); [vm_compute; reflexivity | fit] | ].
  apply Forall_cons; [apply (fit_row _ _ (AnyText)); [vm_compute; reflexivity | fit] | ].
  apply Forall_cons; [apply (fit_row _ _ (Fraction Anywhere None)); [vm_compute; reflexivity | fit] | ].
  apply Forall_cons; [apply (fit_row _ _ (OneOf schema_degree_type_value)); [vm_compute; reflexivity | refine (fit_enum _ _ _ _ _ _ _ _ _ DegreeTypeValue_text eq_refl eq_refl); intros E; discriminate E] | ].
  apply Forall_cons; [apply (fit_row _ _ (Whole (Some 1) None)); [vm_compute; reflexivity | fit] | ].
  apply Forall_cons; [apply (fit_row _ _ (Whole None None)); [vm_compute; reflexivity | fit] | ].
  apply Forall_cons; [apply (fit_row _ _ (AnyText)); [vm_compute; reflexivity | fit] | ].
  apply Forall_cons; [apply (fit_row _ _ (Whole (Some 0) (Some 9))); [vm_compute; reflexivity | fit] | ].
  apply Forall_cons; [apply (fit_row _ _ (OneOf schema_step)); [vm_compute; reflexivity | refine (fit_enum _ _ _ _ _ _ _ _ _ StepEnum_text eq_refl eq_refl); intros E; discriminate E] | ].
  apply Forall_cons; [apply (fit_row _ _ (AnyText)); [vm_compute; reflexivity | fit] | ].
  apply Forall_cons; [apply (fit_row _ _ (Fraction Anywhere None)); [vm_compute; reflexivity | fit] | ].
  apply Forall_cons; [apply (fit_row _ _ (Fraction (Above 0) None)); [vm_compute; reflexivity | fit] | ].
  apply Forall_cons; [apply (fit_row _ _ (Fraction (Above 0) None)); [vm_compute; reflexivity | fit] | ].
  apply Forall_cons; [apply (fit_row _ _ (OneOf schema_effect)); [vm_compute; reflexivity | refine (fit_enum _ _ _ _ _ _ _ _ _ EffectEnum_text eq_refl eq_refl); intros E; discriminate E] | ].
  apply Forall_cons; [apply (fit_row _ _ (Fraction (From (-180)) (Some 180))); [vm_compute; reflexivity | fit] | ].
  apply Forall_cons; [apply (fit_row _ _ (AnyText)); [vm_compute; reflexivity | fit] | ].
  apply Forall_cons; [apply (fit_row _ _ (AnyText)); [vm_compute; reflexivity | fit] | ].
  apply Forall_cons; [apply (fit_row _ _ (Day)); [vm_compute; reflexivity | fit] | ].
  apply Forall_cons; [apply (fit_row _ _ (AnyText)); [vm_compute; reflexivity | fit] | ].
  apply Forall_cons; [apply (fit_row _ _ (AnyText)); [vm_compute; reflexivity | fit] | ].
  apply Forall_cons; [apply (fit_row _ _ (WholeOrNothing)); [vm_compute; reflexivity | fit] | ].
  apply Forall_cons; [apply (fit_row _ _ (AnyText)); [vm_compute; reflexivity | fit] | ].
  apply Forall_cons; [apply (fit_row _ _ (OneOf schema_fermata_shape)); [vm_compute; reflexivity | refine (fit_enum _ _ _ _ _ _ _ _ _ FermataShape_text eq_refl eq_refl); intros E; discriminate E] | ].
  apply Forall_cons; [apply (fit_row _ _ (Whole None None)); [vm_compute; reflexivity | fit] | ].
  apply Forall_cons; [apply (fit_row _ _ (AnyText)); [vm_compute; reflexivity | fit] | ].
  apply Forall_cons; [apply (fit_row _ _ (AnyText)); [vm_compute; reflexivity | fit] | ].
  apply Forall_cons; [apply (fit_row _ _ (Whole (Some 1) None)); [vm_compute; reflexivity | fit] | ].
  apply Forall_cons; [apply (fit_row _ _ (AnyText)); [vm_compute; reflexivity | fit] | ].
  apply Forall_cons; [apply (fit_row _ _ (Whole (Some 1) None)); [vm_compute; reflexivity | fit] | ].
  apply Forall_cons; [apply (fit_row _ _ (Whole (Some 1) None)); [vm_compute; reflexivity | fit] | ].
  apply Forall_cons; [apply (fit_row _ _ (Whole (Some 0) None)); [vm_compute; reflexivity | fit] | ].
  apply Forall_cons; [apply (fit_row _ _ (AnyText)); [vm_compute; reflexivity | fit] | ].
  apply Forall_cons; [apply (fit_row _ _ (OneOf schema_glass)); [vm_compute; reflexivity | refine (fit_enum _ _ _ _ _ _ _ _ _ GlassEnum_text eq_refl eq_refl); intros E; discriminate E] | ].
  apply Forall_cons; [apply (fit_row _ _ (AnyText)); [vm_compute; reflexivity | fit] | ].
  apply Forall_cons; [apply (fit_row _ _ (AnyText)); [vm_compute; reflexivity | fit] | ].
  apply Forall_cons; [apply (fit_row _ _ (AnyText)); [vm_compute; reflexivity | fit] | ].
  apply Forall_cons; [apply (fit_row _ _ (OneOf schema_group_barline_value)); [vm_compute; reflexivity | refine (fit_enum _ _ _ _ _ _ _ _ _ GroupBarlineValue_text eq_refl eq_refl); intros E; discriminate E] | ].
  apply Forall_cons; [apply (fit_row _ _ (AnyText)); [vm_compute; reflexivity | fit] | ].
  apply Forall_cons; [apply (fit_row _ _ (OneOf schema_group_symbol_value)); [vm_compute; reflexivity | refine (fit_enum _ _ _ _ _ _ _ _ _ GroupSymbolValue_text eq_refl eq_refl); intros E; discriminate E] | ].
  apply Forall_cons; [apply (fit_row _ _ (AnyText)); [vm_compute; reflexivity | fit] | ].
  apply Forall_cons; [apply (fit_row _ _ (OneOf schema_handbell_value)); [vm_compute; reflexivity | refine (fit_enum _ _ _ _ _ _ _ _ _ HandbellValue_text eq_refl eq_refl); intros E; discriminate E] | ].
  apply Forall_cons; [apply (fit_row _ _ (OneOf schema_hole_closed_value)); [vm_compute; reflexivity | refine (fit_enum _ _ _ _ _ _ _ _ _ HoleClosedValue_text eq_refl eq_refl); intros E; discriminate E] | ].
  apply Forall_cons; [apply (fit_row _ _ (AnyText)); [vm_compute; reflexivity | fit] | ].
  apply Forall_cons; [apply (fit_row _ _ (AnyText)); [vm_compute; reflexivity | fit] | ].
  apply Forall_cons; [apply (fit_row _ _ (AnyText)); [vm_compute; reflexivity | fit] | ].
  apply Forall_cons; [apply (fit_row _ _ (AnyText)); [vm_compute; reflexivity | fit] | ].
  apply Forall_cons; [apply (fit_row _ _ (AnyText)); [vm_compute; reflexivity | fit] | ].
  apply Forall_cons; [apply (fit_row _ _ (Whole (Some 0) None)); [vm_compute; reflexivity | fit] | ].
  apply Forall_cons; [apply (fit_row _ _ (Whole (Some 0) None)); [vm_compute; reflexivity | fit] | ].
  apply Forall_cons; [apply (fit_row _ _ (AnyText)); [vm_compute; reflexivity | fit] | ].
  apply Forall_cons; [apply (fit_row _ _ (OneOf schema_accidental_value)); [vm_compute; reflexivity | refine (fit_enum _ _ _ _ _ _ _ _ _ AccidentalValue_text eq_refl eq_refl); intros E; discriminate E] | ].
  apply Forall_cons; [apply (fit_row _ _ (Fraction Anywhere None)); [vm_compute; reflexivity | fit] | ].
  apply Forall_cons; [apply (fit_row _ _ (Whole (Some 0) (Some 9))); [vm_compute; reflexivity | fit] | ].
  apply Forall_cons; [apply (fit_row _ _ (OneOf schema_step)); [vm_compute; reflexivity | refine (fit_enum _ _ _ _ _ _ _ _ _ StepEnum_text eq_refl eq_refl); intros E; discriminate E] | ].
  apply Forall_cons; [apply (fit_row _ _ (OneOf schema_kind_value)); [vm_compute; reflexivity | refine (fit_enum _ _ _ _ _ _ _ _ _ KindValue_text eq_refl eq_refl); intros E; discriminate E] | ].
  apply Forall_cons; [apply (fit_row _ _ (Fraction Anywhere None)); [vm_compute; reflexivity | fit] | ].
  apply Forall_cons; [apply (fit_row _ _ (AnyText)); [vm_compute; reflexivity | fit] | ].
  apply Forall_cons; [apply (fit_row _ _ (Whole None None)); [vm_compute; reflexivity | fit] | ].
  apply Forall_cons; [apply (fit_row _ _ (Fraction Anywhere None)); [vm_compute; reflexivity | fit] | ].
  apply Forall_cons; [apply (fit_row _ _ (Fraction Anywhere None)); [vm_compute; reflexivity | fit] | ].
  apply Forall_cons; [apply (fit_row _ _ (OneOf schema_measure_numbering_value)); [vm_compute; reflexivity | refine (fit_enum _ _ _ _ _ _ _ _ _ MeasureNumberingValue_text eq_refl eq_refl); intros E; discriminate E] | ].
  apply Forall_cons; [apply (fit_row _ _ (WholeOrNothing)); [vm_compute; reflexivity | fit] | ].
  apply Forall_cons; [apply (fit_row _ _ (OneOf schema_membrane)); [vm_compute; reflexivity | refine (fit_enum _ _ _ _ _ _ _ _ _ MembraneEnum_text eq_refl eq_refl); intros E; discriminate E] | ].
  apply Forall_cons; [apply (fit_row _ _ (OneOf schema_metal)); [vm_compute; reflexivity | refine (fit_enum _ _ _ _ _ _ _ _ _ MetalEnum_text eq_refl eq_refl); intros E; discriminate E] | ].
  apply Forall_cons; [apply (fit_row _ _ (OneOf schema_beam_value)); [vm_compute; reflexivity | refine (fit_enum _ _ _ _ _ _ _ _ _ BeamValue_text eq_refl eq_refl); intros E; discriminate E] | ].
  apply Forall_cons; [apply (fit_row _ _ (AnyText)); [vm_compute; reflexivity | fit] | ].
  apply Forall_cons; [apply (fit_row _ _ (OneOf schema_note_type_value)); [vm_compute; reflexivity | refine (fit_enum _ _ _ _ _ _ _ _ _ NoteTypeValue_text eq_refl eq_refl); intros E; discriminate E] | ].
  apply Forall_cons; [apply (fit_row _ _ (Whole (Some 1) (Some 16384))); [vm_compute; reflexivity | fit] | ].
  apply Forall_cons; [apply (fit_row _ _ (Whole (Some 1) (Some 16))); [vm_compute; reflexivity | fit] | ].
  apply Forall_cons; [apply (fit_row _ _ (AnyText)); [vm_compute; reflexivity | fit] | ].
  apply Forall_cons; [apply (fit_row _ _ (AnyText)); [vm_compute; reflexivity | fit] | ].
  apply Forall_cons; [apply (fit_row _ _ (Whole (Some 1) (Some 128))); [vm_compute; reflexivity | fit] | ].
  apply Forall_cons; [apply (fit_row _ _ (Whole (Some 1) (Some 128))); [vm_compute; reflexivity | fit] | ].
  apply Forall_cons; [apply (fit_row _ _ (Fraction Anywhere None)); [vm_compute; reflexivity | fit] | ].
  apply Forall_cons; [apply (fit_row _ _ (AnyText)); [vm_compute; reflexivity | fit] | ].
  apply Forall_cons; [apply (fit_row _ _ (AnyText)); [vm_compute; reflexivity | fit] | ].
  apply Forall_cons; [apply (fit_row _ _ (AnyText)); [vm_compute; reflexivity | fit] | ].
  apply Forall_cons; [apply (fit_row _ _ (AnyText)); [vm_compute; reflexivity | fit] | ].
  apply Forall_cons; [apply (fit_row _ _ (WholeOrNothing)); [vm_compute; reflexivity | fit] | ].
  apply Forall_cons; [apply (fit_row _ _ (OneOf schema_mute)); [vm_compute; reflexivity | refine (fit_enum _ _ _ _ _ _ _ _ _ MuteEnum_text eq_refl eq_refl); intros E; discriminate E] | ].
  apply Forall_cons; [apply (fit_row _ _ (Whole (Some 0) None)); [vm_compute; reflexivity | fit] | ].
  apply Forall_cons; [apply (fit_row _ _ (OneOf schema_note_type_value)); [vm_compute; reflexivity | refine (fit_enum _ _ _ _ _ _ _ _ _ NoteTypeValue_text eq_refl eq_refl); intros E; discriminate E] | ].
  apply Forall_cons; [apply (fit_row _ _ (Fraction (From 0) None)); [vm_compute; reflexivity | fit] | ].
  apply Forall_cons; [apply (fit_row _ _ (OneOf schema_notehead_value)); [vm_compute; reflexivity | refine (fit_enum _ _ _ _ _ _ _ _ _ NoteheadValue_text eq_refl eq_refl); intros E; discriminate E] | ].
  apply Forall_cons; [apply (fit_row _ _ (Whole (Some 0) (Some 9))); [vm_compute; reflexivity | fit] | ].
  apply Forall_cons; [apply (fit_row _ _ (Whole None None)); [vm_compute; reflexivity | fit] | ].
  apply Forall_cons; [apply (fit_row _ _ (Fraction Anywhere None)); [vm_compute; reflexivity | fit] | ].
  apply Forall_cons; [apply (fit_row _ _ (AnyText)); [vm_compute; reflexivity | fit] | ].
  apply Forall_cons; [apply (fit_row _ _ (AnyText)); [vm_compute; reflexivity | fit] | ].
  apply Forall_cons; [apply (fit_row _ _ (AnyText)); [vm_compute; reflexivity | fit] | ].
  apply Forall_cons; [apply (fit_row _ _ (AnyText)); [vm_compute; reflexivity | fit] | ].
  apply Forall_cons; [apply (fit_row _ _ (AnyText)); [vm_compute; reflexivity | fit] | ].
  apply Forall_cons; [apply (fit_row _ _ (AnyText)); [vm_compute; reflexivity | fit] | ].
  apply Forall_cons; [apply (fit_row _ _ (AnyText)); [vm_compute; reflexivity | fit] | ].
  apply Forall_cons; [apply (fit_row _ _ (AnyText)); [vm_compute; reflexivity | fit] | ].
  apply Forall_cons; [apply (fit_row _ _ (Fraction Anywhere None)); [vm_compute; reflexivity | fit] | ].
  apply Forall_cons; [apply (fit_row _ _ (Fraction Anywhere None)); [vm_compute; reflexivity | fit] | ].
  apply Forall_cons; [apply (fit_row _ _ (Fraction (From (-180)) (Some 180))); [vm_compute; reflexivity | fit] | ].
  apply Forall_cons; [apply (fit_row _ _ (AnyText)); [vm_compute; reflexivity | fit] | ].
  apply Forall_cons; [apply (fit_row _ _ (AnyText)); [vm_compute; reflexivity | fit] | ].
  apply Forall_cons; [apply (fit_row _ _ (OneOf schema_group_symbol_value)); [vm_compute; reflexivity | refine (fit_enum _ _ _ _ _ _ _ _ _ GroupSymbolValue_text eq_refl eq_refl); intros E; discriminate E] | ].
  apply Forall_cons; [apply (fit_row _ _ (Fraction Anywhere None)); [vm_compute; reflexivity | fit] | ].
  apply Forall_cons; [apply (fit_row _ _ (OneOf schema_step)); [vm_compute; reflexivity | refine (fit_enum _ _ _ _ _ _ _ _ _ StepEnum_text eq_refl eq_refl); intros E; discriminate E] | ].
  apply Forall_cons; [apply (fit_row _ _ (AnyText)); [vm_compute; reflexivity | fit] | ].
  apply Forall_cons; [apply (fit_row _ _ (OneOf schema_pitched)); [vm_compute; reflexivity | refine (fit_enum _ _ _ _ _ _ _ _ _ PitchedEnum_text eq_refl eq_refl); intros E; discriminate E] | ].
  apply Forall_cons; [apply (fit_row _ _ (AnyText)); [vm_compute; reflexivity | fit] | ].
  apply Forall_cons; [apply (fit_row _ _ (AnyText)); [vm_compute; reflexivity | fit] | ].
  apply Forall_cons; [apply (fit_row _ _ (AnyText)); [vm_compute; reflexivity | fit] | ].
  apply Forall_cons; [apply (fit_row _ _ (AnyText)); [vm_compute; reflexivity | fit] | ].
  apply Forall_cons; [apply (fit_row _ _ (AnyText)); [vm_compute; reflexivity | fit] | ].
  apply Forall_cons; [apply (fit_row _ _ (AnyText)); [vm_compute; reflexivity | fit] | ].
  apply Forall_cons; [apply (fit_row _ _ (Fraction Anywhere None)); [vm_compute; reflexivity | fit] | ].
  apply Forall_cons; [apply (fit_row _ _ (AnyText)); [vm_compute; reflexivity | fit] | ].
  apply Forall_cons; [apply (fit_row _ _ (Fraction Anywhere None)); [vm_compute; reflexivity | fit] | ].
  apply Forall_cons; [apply (fit_row _ _ (OneOf schema_step)); [vm_compute; reflexivity | refine (fit_enum _ _ _ _ _ _ _ _ _ StepEnum_text eq_refl eq_refl); intros E; discriminate E] | ].
  apply Forall_cons; [apply (fit_row _ _ (OneOf schema_semi_pitched)); [vm_compute; reflexivity | refine (fit_enum _ _ _ _ _ _ _ _ _ SemiPitchedEnum_text eq_refl eq_refl); intros E; discriminate E] | ].
  apply Forall_cons; [apply (fit_row _ _ (AnyText)); [vm_compute; reflexivity | fit] | ].
  apply Forall_cons; [apply (fit_row _ _ (OneOf schema_clef_sign)); [vm_compute; reflexivity | refine (fit_enum _ _ _ _ _ _ _ _ _ ClefSign_text eq_refl eq_refl); intros E; discriminate E] | ].
  apply Forall_cons; [apply (fit_row _ _ (OneOf schema_note_type_value)); [vm_compute; reflexivity | refine (fit_enum _ _ _ _ _ _ _ _ _ NoteTypeValue_text eq_refl eq_refl); intros E; discriminate E] | ].
  apply Forall_cons; [apply (fit_row _ _ (AnyText)); [vm_compute; reflexivity | fit] | ].
  apply Forall_cons; [apply (fit_row _ _ (AnyText)); [vm_compute; reflexivity | fit] | ].
  apply Forall_cons; [apply (fit_row _ _ (AnyText)); [vm_compute; reflexivity | fit] | ].
  apply Forall_cons; [apply (fit_row _ _ (Whole (Some 1) None)); [vm_compute; reflexivity | fit] | ].
  apply Forall_cons; [apply (fit_row _ _ (Fraction Anywhere None)); [vm_compute; reflexivity | fit] | ].
  apply Forall_cons; [apply (fit_row _ _ (Whole (Some 0) None)); [vm_compute; reflexivity | fit] | ].
  apply Forall_cons; [apply (fit_row _ _ (Fraction (From 0) None)); [vm_compute; reflexivity | fit] | ].
  apply Forall_cons; [apply (fit_row _ _ (OneOf schema_staff_type)); [vm_compute; reflexivity | refine (fit_enum _ _ _ _ _ _ _ _ _ StaffTypeEnum_text eq_refl eq_refl); intros E; discriminate E] | ].
  apply Forall_cons; [apply (fit_row _ _ (Whole (Some 0) None)); [vm_compute; reflexivity | fit] | ].
  apply Forall_cons; [apply (fit_row _ _ (OneOf schema_stem_value)); [vm_compute; reflexivity | refine (fit_enum _ _ _ _ _ _ _ _ _ StemValue_text eq_refl eq_refl); intros E; discriminate E] | ].
  apply Forall_cons; [apply (fit_row _ _ (OneOf schema_step)); [vm_compute; reflexivity | refine (fit_enum _ _ _ _ _ _ _ _ _ StepEnum_text eq_refl eq_refl); intros E; discriminate E] | ].
  apply Forall_cons; [apply (fit_row _ _ (OneOf schema_stick_location)); [vm_compute; reflexivity | refine (fit_enum _ _ _ _ _ _ _ _ _ StickLocationEnum_text eq_refl eq_refl); intros E; discriminate E] | ].
  apply Forall_cons; [apply (fit_row _ _ (OneOf schema_stick_material)); [vm_compute; reflexivity | refine (fit_enum _ _ _ _ _ _ _ _ _ StickMaterialEnum_text eq_refl eq_refl); intros E; discriminate E] | ].
  apply Forall_cons; [apply (fit_row _ _ (OneOf schema_stick_type)); [vm_compute; reflexivity | refine (fit_enum _ _ _ _ _ _ _ _ _ StickTypeEnum_text eq_refl eq_refl); intros E; discriminate E] | ].
  apply Forall_cons; [apply (fit_row _ _ (Whole (Some 1) None)); [vm_compute; reflexivity | fit] | ].
  apply Forall_cons; [apply (fit_row _ _ (AnyText)); [vm_compute; reflexivity | fit] | ].
  apply Forall_cons; [apply (fit_row _ _ (OneOf schema_syllabic)); [vm_compute; reflexivity | refine (fit_enum _ _ _ _ _ _ _ _ _ SyllabicEnum_text eq_refl eq_refl); intros E; discriminate E] | ].
  apply Forall_cons; [apply (fit_row _ _ (Fraction Anywhere None)); [vm_compute; reflexivity | fit] | ].
  apply Forall_cons; [apply (fit_row _ _ (AnyText)); [vm_compute; reflexivity | fit] | ].
  apply Forall_cons; [apply (fit_row _ _ (Fraction Anywhere None)); [vm_compute; reflexivity | fit] | ].
  apply Forall_cons; [apply (fit_row _ _ (AnyText)); [vm_compute; reflexivity | fit] | ].
  apply Forall_cons; [apply (fit_row _ _ (OneOf schema_time_relation)); [vm_compute; reflexivity | refine (fit_enum _ _ _ _ _ _ _ _ _ TimeRelationEnum_text eq_refl eq_refl); intros E; discriminate E] | ].
  apply Forall_cons; [apply (fit_row _ _ (Fraction Anywhere None)); [vm_compute; reflexivity | fit] | ].
  apply Forall_cons; [apply (fit_row _ _ (Fraction Anywhere None)); [vm_compute; reflexivity | fit] | ].
  apply Forall_cons; [apply (fit_row _ _ (Whole (Some 0) (Some 8))); [vm_compute; reflexivity | fit] | ].
  apply Forall_cons; [apply (fit_row _ _ (Fraction Anywhere None)); [vm_compute; reflexivity | fit] | ].
  apply Forall_cons; [apply (fit_row _ _ (Whole (Some 0) (Some 9))); [vm_compute; reflexivity | fit] | ].
  apply Forall_cons; [apply (fit_row _ _ (OneOf schema_step)); [vm_compute; reflexivity | refine (fit_enum _ _ _ _ _ _ _ _ _ StepEnum_text eq_refl eq_refl); intros E; discriminate E] | ].
  apply Forall_cons; [apply (fit_row _ _ (Whole (Some 0) None)); [vm_compute; reflexivity | fit] | ].
  apply Forall_cons; [apply (fit_row _ _ (OneOf schema_note_type_value)); [vm_compute; reflexivity | refine (fit_enum _ _ _ _ _ _ _ _ _ NoteTypeValue_text eq_refl eq_refl); intros E; discriminate E] | ].
  apply Forall_cons; [apply (fit_row _ _ (OneOf schema_note_type_value)); [vm_compute; reflexivity | refine (fit_enum _ _ _ _ _ _ _ _ _ NoteTypeValue_text eq_refl eq_refl); intros E; discriminate E] | ].
  apply Forall_cons; [apply (fit_row _ _ (AnyText)); [vm_compute; reflexivity | fit] | ].
  apply Forall_cons; [apply (fit_row _ _ (AnyText)); [vm_compute; reflexivity | fit] | ].
  apply Forall_cons; [apply (fit_row _ _ (AnyText)); [vm_compute; reflexivity | fit] | ].
  apply Forall_cons; [apply (fit_row _ _ (Fraction (From 0) (Some 100))); [vm_compute; reflexivity | fit] | ].
  apply Forall_cons; [apply (fit_row _ _ (AnyText)); [vm_compute; reflexivity | fit] | ].
  apply Forall_cons; [apply (fit_row _ _ (OneOf schema_wood)); [vm_compute; reflexivity | refine (fit_enum _ _ _ _ _ _ _ _ _ WoodEnum_text eq_refl eq_refl); intros E; discriminate E] | ].
  apply Forall_cons; [apply (fit_row _ _ (AnyText)); [vm_compute; reflexivity | fit] | ].
  apply Forall_cons; [apply (fit_row _ _ (AnyText)); [vm_compute; reflexivity | fit] | ].
  apply Forall_cons; [apply (fit_row _ _ (AnyText)); [vm_compute; reflexivity | fit] | ].
  apply Forall_nil.
Qed.
