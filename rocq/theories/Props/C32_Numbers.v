(** C32: measure numbers survive writing and reading. *)
From Coq Require Import String Ascii List ZArith Bool.
From Verif Require Import Model.Base Model.Text Model.ApiEnums Model.MeasureTypes Model.MeasureWriter Model.MeasureReader.
From Verif Require Import Spec.XmlText Spec.TimeSignatures.
From Verif Require Import Proofs.MeasureTimes.
Import ListNotations.
Open Scope Z_scope.

(** The full claim: [number_text] is the text, or the position if it is empty. *)
Definition C32_number_survives : Prop := forall wc rc m x m' transpose current,
  write_measure wc m = Ok x -> read_measure rc x = Ok (m', transpose, current) -> rc_measureIndex rc = wc_measureIndex wc ->
  number_text (wc_measureIndex wc) (m_number m') = number_text (wc_measureIndex wc) (m_number m).

(** It holds for texts without superfluous white space (the type of the number is a
    token). *)
Theorem C32_number_survives_partial wc rc m x m' transpose current :
  write_measure wc m = Ok x -> read_measure rc x = Ok (m', transpose, current) -> rc_measureIndex rc = wc_measureIndex wc ->
  tidy (m_number m) ->
  number_text (wc_measureIndex wc) (m_number m') = number_text (wc_measureIndex wc) (m_number m).
Proof. exact (tidy_number_back wc rc m x m' transpose current). Qed.

(** Even the text itself is the same, but for one that spells out the default. *)
Theorem C32_text_survives_partial wc rc m x m' transpose current :
  write_measure wc m = Ok x -> read_measure rc x = Ok (m', transpose, current) -> rc_measureIndex rc = wc_measureIndex wc ->
  tidy (m_number m) -> m_number m <> print_int (wc_measureIndex wc + 1) -> m_number m' = m_number m.
Proof. exact (number_kept wc rc m x m' transpose current). Qed.

(** What is read in general, and the implicit flag. *)
Theorem C32_in_general_partial wc rc m x m' transpose current :
  write_measure wc m = Ok x -> read_measure rc x = Ok (m', transpose, current) -> rc_measureIndex rc = wc_measureIndex wc ->
  (forall l, words (number_text (wc_measureIndex wc) (m_number m)) l -> l <> [] ->
    number_text (wc_measureIndex wc) (m_number m') = join [" "%char] l) /\ m_implicit m' = m_implicit m.
Proof. exact (number_in_general wc rc m x m' transpose current). Qed.

Example C32_back (index : Z) (t : string) : outcome str :=
  omap (fun q => m_number (fst (fst q)))
    (obind (write_measure (mkWctx 1 4 index true 0 None)
              (mkMeasure [mkStaff [] [] [] [(0, [mkNote 0 4 false NormalNote 0 60])]] default_time (lit t) BoolYes [] []))
       (read_measure (mkRctx 1 4 4 index default_time))).

Example C32_holds :
  C32_back 11 "12a"%string = Ok (lit "12a") /\ C32_back 11 "X 1"%string = Ok (lit "X 1") /\
  C32_back 11 "12"%string = Ok [] /\ C32_back 11 ""%string = Ok [].
Proof. repeat split; vm_compute; reflexivity. Qed.

Theorem C32_number_survives_refuted : ~ C32_number_survives.
Proof.
  intros H. pose (m := mkMeasure [mkStaff [] [] [] []] default_time (lit "a  b"%string) BoolYes [] []).
  destruct (write_measure (mkWctx 1 4 0 true 0 None) m) as [x| |] eqn:E; [|vm_compute in E; discriminate E|vm_compute in E; discriminate E].
  destruct (read_measure (mkRctx 1 4 4 0 default_time) x) as [[[m' tr] cur]| |] eqn:E2;
    [|vm_compute in E; injection E as <-; vm_compute in E2; discriminate E2|vm_compute in E; injection E as <-; vm_compute in E2; discriminate E2].
  specialize (H _ _ _ _ _ _ _ E E2 eq_refl). vm_compute in E. injection E as <-. vm_compute in E2. injection E2 as <- <- <-.
  vm_compute in H. discriminate H.
Qed.

Print Assumptions C32_number_survives_partial.
Print Assumptions C32_text_survives_partial.
Print Assumptions C32_in_general_partial.
Print Assumptions C32_number_survives_refuted.
