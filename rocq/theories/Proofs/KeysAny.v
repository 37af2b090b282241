(** C29: the keys of a measure, wherever they are. *)
From Coq Require Import List ZArith Bool Permutation Lia.
From Verif Require Import Model.Base Model.MeasureTypes Model.MeasureWriter Model.MeasureReader.
From Verif Require Import Spec.Measures Spec.Voices Spec.RoundTrip Spec.Changes.
From Verif Require Import Proofs.MeasureSync Proofs.MeasureReadProofs Proofs.MeasureBack Proofs.DirectionsBack Proofs.ChangesBack.
Import ListNotations.
Open Scope Z_scope.

Section Any.
Variable rc : rctx.

Lemma rests_placed i t l : map k_rest (map (placed_key rc i t) l) = map k_rest l.
Proof. rewrite map_map. apply map_ext. intros k. apply placed_rest. Qed.

Lemma measure_keys_split t l : fst (measure_keys_at t l) ++ snd (measure_keys_at t l) = l.
Proof. destruct l as [ | k r]; [reflexivity | ]. cbn [measure_keys_at]. destruct (k_tick k <=? t); reflexivity. Qed.

Lemma notes_keys_any i notes : forall mk sk, exists a b, let q := notes_keys rc i notes mk sk in
  mk = a ++ fst (snd q) /\ sk = b ++ snd (snd q) /\ Permutation (map k_rest (fst q)) (map k_rest (a ++ b)).
Proof.
  induction notes as [ | n notes IH]; intros mk sk; [exists [], []; auto | ]. cbn [notes_keys].
  destruct (IH (snd (measure_keys_at (n_tick n) mk)) (snd (staff_keys_at (n_tick n) sk))) as (a & b & E1 & E2 & P). cbv zeta in *. cbn [fst snd].
  exists (fst (measure_keys_at (n_tick n) mk) ++ a), (fst (staff_keys_at (n_tick n) sk) ++ b). rewrite <- !app_assoc, <- E1, <- E2.
  split; [symmetry; apply measure_keys_split | ]. split; [symmetry; apply span_app | ].
  rewrite !map_app, !rests_placed in *. rewrite P. apply Permutation_app_head.
  rewrite !app_assoc. apply Permutation_app_tail, Permutation_app_comm.
Qed.

Lemma staff_keys_any i t st mk : exists a, let q := staff_keys rc i t st mk in
  mk = a ++ snd q /\ Permutation (map k_rest (fst q)) (map k_rest (a ++ s_keys st)) /\
  (Forall (fun k => k_tick k <> 0) mk -> mk = [] \/ a <> []).
Proof.
  unfold staff_keys. cbv zeta. destruct (notes_keys_any i (notes_of (s_voices st)) mk (s_keys st)) as (a & b & E1 & E2 & P). cbv zeta in *. cbn [fst snd].
  set (q := notes_keys rc i (notes_of (s_voices st)) mk (s_keys st)) in *. clearbody q. destruct q as [w [l s]]. cbn [fst snd] in *.
  exists (a ++ fst (last_measure_keys l)).
  assert (L : fst (last_measure_keys l) ++ snd (last_measure_keys l) = l) by (destruct l as [ | k r]; [reflexivity | cbn; destruct (k_tick k =? 0); reflexivity]).
  split; [rewrite <- app_assoc, L; exact E1 | ]. split.
  - rewrite E2, !map_app, !rests_placed, P, map_app, <- !app_assoc. apply Permutation_app_head. rewrite !app_assoc. apply Permutation_app_tail, Permutation_app_comm.
  - intros F. destruct mk as [ | k mk]; [left; reflexivity | right]. destruct a as [ | c a]; [ | discriminate]. cbn [app] in *. subst l.
    inversion F; subst. cbn [last_measure_keys]. destruct (k_tick k =? 0) eqn:Z; [apply Z.eqb_eq in Z; contradiction | discriminate].
Qed.

Lemma staves_keys_any l : forall i t mk, exists a lost, mk = a ++ lost /\
  Permutation (map k_rest (staves_keys rc i t l mk)) (map k_rest (a ++ flat_map s_keys l)) /\
  (Forall (fun k => k_tick k <> 0) mk -> (List.length mk <= List.length l)%nat -> lost = []).
Proof.
  induction l as [ | st l IH]; intros i t mk.
  - exists [], mk. split; [reflexivity | ]. split; [reflexivity | ]. intros _ H. destruct mk; [reflexivity | cbn in H; lia].
  - cbn [staves_keys flat_map]. destruct (staff_keys_any i t st mk) as (a & E & P & N). cbv zeta in *.
    set (q := staff_keys rc i t st mk) in *. clearbody q. destruct (IH (i + 1) (voices_end t (s_voices st)) (snd q)) as (b & lost & E2 & P2 & N2).
    exists (a ++ b), lost. split; [rewrite <- app_assoc, <- E2; exact E | ]. split.
    + rewrite !map_app in *. rewrite P, P2, <- !app_assoc. apply Permutation_app_head. rewrite !app_assoc. apply Permutation_app_tail, Permutation_app_comm.
    + intros F L. apply N2; [subst mk; apply Forall_app in F; apply F | ]. destruct (N F) as [-> | A].
      * symmetry in E. apply app_eq_nil in E. rewrite (proj2 E). cbn. lia.
      * subst mk. rewrite app_length in L. destruct a; [contradiction | ]. cbn [List.length] in L. lia.
Qed.
End Any.

Lemma leading_split l : fst (leading_keys l) ++ snd (leading_keys l) = l.
Proof. induction l as [ | k l IH]; [reflexivity | ]. cbn [leading_keys]. destruct (k_tick k =? 0); [cbn; f_equal; exact IH | reflexivity]. Qed.

Theorem keys_any wc rc m : agree wc rc -> measure_in_range wc m -> Forall chords_closed (m_staves m) ->
  exists x m' tr kept lost, write_measure wc m = Ok x /\ read_measure rc x = Ok (m', tr, rc_global rc) /\
    m_keys m = kept ++ lost /\ Permutation (map k_rest (m_keys m')) (map k_rest (kept ++ flat_map s_keys (m_staves m))) /\
    (forall a b, m_keys m = a ++ b -> Forall (fun k => k_tick k = 0) a -> Forall (fun k => k_tick k <> 0) b ->
       (List.length b <= List.length (m_staves m))%nat -> lost = []).
Proof.
  intros A R C. destruct (measure_back wc rc m A R C) as (x & m' & tr & B).
  destruct (staves_keys_any rc (m_staves m) 0 0 (snd (leading_keys (m_keys m)))) as (a & lost & E & P & N).
  exists x, m', tr, (fst (leading_keys (m_keys m)) ++ a), lost. split; [apply B | ]. split; [apply B | ].
  split; [rewrite <- app_assoc, <- E; symmetry; apply leading_split | ]. split.
  - rewrite (keys_read _ _ _ _ _ _ B). unfold first_keys. rewrite map_app, P, !map_app, map_map, app_assoc.
    rewrite (map_ext (fun k => k_rest (placed_key rc (k_staff k) 0 k)) k_rest) by (intros; apply placed_rest). reflexivity.
  - intros u v Q U V L. assert (G : leading_keys (m_keys m) = (u, v)).
    { rewrite Q. clear - U V. induction U as [ | k u H U IH]; cbn [app leading_keys].
      - destruct V as [ | k v H V]; [reflexivity | ]. cbn [leading_keys]. apply Z.eqb_neq in H. rewrite H. reflexivity.
      - rewrite H, IH. reflexivity. }
    rewrite G in N. cbn [snd] in N. apply N; assumption.
Qed.
