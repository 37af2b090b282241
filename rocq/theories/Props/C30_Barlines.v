(** C30: barlines and repeats survive writing and reading. *)
From Coq Require Import List ZArith Bool.
From Verif Require Import Model.Base Model.Text Model.ApiEnums Model.MeasureTypes Model.MeasureWriter Model.MeasureReader.
From Verif Require Import Spec.Numerals Spec.TimeSignatures Spec.Written.
From Verif Require Import Proofs.MeasureTimes Proofs.WrittenProofs.
Import ListNotations.
Open Scope Z_scope.

(** The full claim; ticks are ints. *)
Definition C30_barlines_survive : Prop := forall wc rc m x m' transpose current,
  write_measure wc m = Ok x -> read_measure rc x = Ok (m', transpose, current) -> Forall (fun b => is_int (b_tick b)) (m_barlines m) ->
  map bar_view (m_barlines m') = map bar_view (m_barlines m).

(** It holds for barlines that MusicXML can express. *)
Theorem C30_barlines_survive_partial wc rc m x m' transpose current :
  write_measure wc m = Ok x -> read_measure rc x = Ok (m', transpose, current) -> Forall (fun b => is_int (b_tick b)) (m_barlines m) ->
  Forall plain_barline (m_barlines m) ->
  map bar_view (m_barlines m') = map bar_view (m_barlines m).
Proof. exact (plain_barlines_back wc rc m x m' transpose current). Qed.

(** In general no barline is lost, added or moved in the list; [plain] says what changes. *)
Theorem C30_all_barlines_partial wc rc m x m' transpose current :
  write_measure wc m = Ok x -> read_measure rc x = Ok (m', transpose, current) -> Forall (fun b => is_int (b_tick b)) (m_barlines m) ->
  map bar_view (m_barlines m') = map (fun b => bar_view (plain b)) (m_barlines m).
Proof. exact (barlines_back wc rc m x m' transpose current). Qed.

(** What is written: one <barline> for each, in order, with its style, ending, repeat
    direction and side. *)
Theorem C30_written wc m x : write_measure wc m = Ok x -> Forall (fun b => is_int (b_tick b)) (m_barlines m) ->
  Forall2 written_barline (m_barlines m) (barlines_of (xm_data x)).
Proof. exact (barlines_written wc m x). Qed.

Example C30_measure (l : list BarlineData) : MeasureData :=
  mkMeasure [mkStaff [] [] [] [(0, [mkNote 0 4 false NormalNote 0 60])]] (mkTime 4 4 SymbolUnspecified BoolUnspecified false) [] BoolUnspecified [] l.
Example C30_barlines : list BarlineData :=
  [mkBarline 0 api_BarlineType_heavyLight api_EndingType_start 2 true api_HorizontalAlignment_left;
   mkBarline 4 api_BarlineType_lightHeavy api_EndingType_stop 2 true api_HorizontalAlignment_right].
Example C30_back (l : list BarlineData) : outcome (list BarlineData) :=
  omap (fun q => m_barlines (fst (fst q))) (obind (write_measure (mkWctx 1 4 0 true 0 None) (C30_measure l)) (read_measure (mkRctx 1 4 4 0 default_time))).

Example C30_barlines_survive_holds : Forall plain_barline C30_barlines /\
  exists l, C30_back C30_barlines = Ok l /\ map bar_view l = map bar_view C30_barlines.
Proof.
  split; [repeat constructor; try discriminate; reflexivity|]. eexists. split; vm_compute; reflexivity.
Qed.

Example C30_written_holds : exists x, write_measure (mkWctx 1 4 0 true 0 None) (C30_measure C30_barlines) = Ok x /\ List.length (barlines_of (xm_data x)) = 2%nat.
Proof. eexists. split; vm_compute; reflexivity. Qed.

(** An ending without a number is read back with number 1. *)
Theorem C30_barlines_survive_refuted : ~ C30_barlines_survive.
Proof.
  intros H. pose (l := [mkBarline 0 api_BarlineType_normal api_EndingType_start 0 false api_HorizontalAlignment_left]).
  destruct (write_measure (mkWctx 1 4 0 true 0 None) (C30_measure l)) as [x| |] eqn:E; [|vm_compute in E; discriminate E|vm_compute in E; discriminate E].
  destruct (read_measure (mkRctx 1 4 4 0 default_time) x) as [[[m tr] cur]| |] eqn:E2;
    [|vm_compute in E; injection E as <-; vm_compute in E2; discriminate E2|vm_compute in E; injection E as <-; vm_compute in E2; discriminate E2].
  specialize (H _ _ _ _ _ _ _ E E2). vm_compute in E. injection E as <-. vm_compute in E2. injection E2 as <- <- <-.
  assert (F : Forall (fun b => is_int (b_tick b)) (m_barlines (C30_measure l))) by (repeat constructor; vm_compute; discriminate).
  specialize (H F). vm_compute in H. discriminate H.
Qed.

Print Assumptions C30_barlines_survive_partial.
Print Assumptions C30_all_barlines_partial.
Print Assumptions C30_barlines_survive_refuted.
Print Assumptions C30_written.
