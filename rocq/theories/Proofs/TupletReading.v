(** What is read of a <tuplet>. *)
From Coq Require Import ZArith QArith.
From Verif Require Import Model.Base Model.LongDouble Model.CoreEnums Model.ApiEnums Model.EnumLookup Model.ConverterTables Model.Notations Spec.Attachments Spec.TupletText Proofs.NotationsProofs.
Local Open Scope Z_scope.

Lemma tuplet_read n x : xt_stop x = false -> exists t, parseTuplet n x = inl t /\ tuplet_said n x t.
Proof.
  destruct x as [st nu br sh po [[n1 t1 d1] | ] [[n2 t2 d2] | ]], n as [[[[a m] [[ty ds] | ]] | ] [nt | ]]; cbn [xt_stop]; intros ->; eexists; (split; [reflexivity | ]);
    unfold tuplet_said; repeat split; cbn -[durationMap_toApi getPositionData Z.of_nat]; try reflexivity; try (destruct sh as [[ | | ] | ]; reflexivity); try (destruct br as [[ | ] | ]; reflexivity).
Qed.

Lemma tuplet_numbers n x t : parseTuplet n x = inl t -> (xt_actual x = None <-> xt_normal x = None) -> numbers_said n x t.
Proof.
  destruct x as [[ | ] nu br sh po [[n1 t1 d1] | ] [[n2 t2 d2] | ]], n as [[[[a m] [[ty ds] | ]] | ] [nt | ]]; cbn [xt_actual xt_normal]; intros E [H1 H2];
    try discriminate E; try discriminate (H1 eq_refl); try discriminate (H2 eq_refl); injection E as <-; split; reflexivity.
Qed.

(** Only one of the two. *)
Lemma tuplet_half n x t a m g : nc_timeModification n = Some (a, m, g) -> parseTuplet n x = inl t ->
  (xt_actual x <> None -> xt_normal x = None -> actualNumber t = a /\ normalNumber t = -1) /\
  (forall p, xt_actual x = None -> xt_normal x = Some p -> actualNumber t = -1 /\ normalNumber t = match xp_number p with Some v => v | None => m end).
Proof.
  destruct x as [[ | ] nu br sh po [[n1 t1 d1] | ] [[n2 t2 d2] | ]], n as [[[[a' m'] [[ty ds] | ]] | ] [nt | ]]; cbn [xt_actual xt_normal nc_timeModification]; intros T E;
    try discriminate E; try discriminate T; injection T as -> -> <-; injection E as <-;
    (split; [intros A N | intros p A N]); try discriminate A; try discriminate N; try (destruct (A eq_refl)); try (injection N as <-); split; reflexivity.
Qed.

Lemma tuplet_numbers_refuted : ~ (forall n x t, parseTuplet n x = inl t -> numbers_said n x t).
Proof.
  intros H. specialize (H (mkNoteContext (Some (3, 2, None)) None) (mkXTuplet false None None None noXPosition (Some (mkXPortion (Some 6) None 0)) None) _ eq_refl).
  destruct H as [H _]. discriminate H.
Qed.

Lemma tuplet_stop_read n x : xt_stop x = true ->
  parseTuplet n x = inr (mkTupletStop (match xt_number x with Some v => v | None => -1 end) (getPositionData (xt_position x))).
Proof. unfold parseTuplet. intros ->. reflexivity. Qed.

(** The attributes of a written fermata. *)
Lemma fermata_written m : position_ok storable (m_position m) ->
  exists x, write_fermata m = Ok x /\ xm_print x = m_print m /\ getPositionData (xm_position x) = kept_position false false (m_position m).
Proof.
  intros P. destruct (position_ok_back fermata_declares _ P eq_refl) as (y & Y1 & Y2). unfold write_fermata. rewrite Y1. cbn [obind]. eexists. split; [reflexivity | ].
  split; [reflexivity | exact Y2].
Qed.
