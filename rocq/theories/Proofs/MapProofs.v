From Coq Require Import List ZArith Bool Lia Sorted.
From Verif Require Import Model.EnumLookup.
Import ListNotations.
Open Scope Z_scope.

Section P.
  Context {C A : Type} (key : C -> Z).

  Definition lookup (k : Z) (m : list (C * A)) : option (C * A) := find (fun r => key (fst r) =? k) m.
  Definition increasing (m : list (C * A)) : Prop := Sorted (fun a b => key (fst a) < key (fst b)) m.

  Lemma insert_increasing e m : increasing m -> increasing (map_insert key e m).
  Proof.
    unfold increasing. induction m as [|f m IH]; intros S; [repeat constructor|]. cbn [map_insert].
    destruct (Z.ltb_spec (key (fst e)) (key (fst f))); [constructor; [exact S | constructor; exact H]|].
    destruct (Z.eqb_spec (key (fst e)) (key (fst f))); [exact S|].
    inversion S as [|? ? S1 S2]; subst. constructor; [exact (IH S1)|].
    destruct m as [|g m]; cbn [map_insert]; [constructor; lia|].
    inversion S2; subst. destruct (Z.ltb_spec (key (fst e)) (key (fst g))); [constructor; lia|].
    destruct (Z.eqb_spec (key (fst e)) (key (fst g))); constructor; assumption.
  Qed.

  Lemma lookup_above k f m : increasing (f :: m) -> k < key (fst f) -> lookup k (f :: m) = None.
  Proof.
    intros S. revert k. unfold increasing in S. apply Sorted_StronglySorted in S; [|intros x y z; lia].
    inversion S as [|? ? _ F]; subst. intros k H. unfold lookup. cbn [find].
    destruct (Z.eqb_spec (key (fst f)) k); [lia|].
    induction m as [|g m IH]; [reflexivity|]. cbn [find]. inversion F; subst.
    destruct (Z.eqb_spec (key (fst g)) k); [lia|]. apply IH; [|assumption].
    inversion S as [|? ? S1 _]; subst. inversion S1; subst. constructor; assumption.
  Qed.

  Lemma insert_lookup e m k : increasing m ->
    lookup k (map_insert key e m) =
    match lookup k m with Some r => Some r | None => if key (fst e) =? k then Some e else None end.
  Proof.
    induction m as [|f m IH]; intros S; [reflexivity|]. cbn [map_insert].
    destruct (Z.ltb_spec (key (fst e)) (key (fst f))).
    - unfold lookup at 1. cbn [find]. fold (lookup k m).
      destruct (Z.eqb_spec (key (fst e)) k).
      + rewrite (lookup_above k f m S) by lia. reflexivity.
      + unfold lookup. cbn [find]. destruct (key (fst f) =? k); [reflexivity|]. destruct (find _ m); reflexivity.
    - destruct (Z.eqb_spec (key (fst e)) (key (fst f))).
      + unfold lookup. cbn [find]. destruct (Z.eqb_spec (key (fst f)) k); [reflexivity|].
        destruct (find _ m); [reflexivity|]. destruct (Z.eqb_spec (key (fst e)) k); [lia|reflexivity].
      + unfold lookup in *. cbn [find]. destruct (key (fst f) =? k); [reflexivity|].
        apply IH. inversion S; assumption.
  Qed.

  Lemma std_map_spec rows : increasing (std_map key rows) /\ forall k, lookup k (std_map key rows) = lookup k rows.
  Proof.
    unfold std_map.
    assert (G : forall rows m, increasing m -> increasing (fold_left (fun m e => map_insert key e m) rows m) /\
      forall k, lookup k (fold_left (fun m e => map_insert key e m) rows m) = match lookup k m with Some r => Some r | None => lookup k rows end).
    { induction rows0 as [|e rows0 IH]; intros m S; cbn [fold_left].
      - split; [exact S|]. intros k. destruct (lookup k m); reflexivity.
      - destruct (IH (map_insert key e m) (insert_increasing e m S)) as (I1 & I2). split; [exact I1|].
        intros k. rewrite I2, insert_lookup by exact S. destruct (lookup k m); [reflexivity|].
        unfold lookup at 2. cbn [find]. destruct (key (fst e) =? k); reflexivity. }
    destruct (G rows [] (Sorted_nil _)) as (G1 & G2). split; [exact G1|]. intros k. rewrite G2. reflexivity.
  Qed.

  Lemma api_item (m : list (C * A)) d c : findApiItem key m d c = match lookup (key c) m with Some r => snd r | None => d end.
  Proof.
    unfold lookup. induction m as [|(x, a) m IH]; [reflexivity|]. cbn [findApiItem find fst]. rewrite IH. destruct (key x =? key c); reflexivity.
  Qed.

  Lemma first_entry (rows : list (C * A)) d c : findApiItem key (std_map key rows) d c =
    match find (fun r => key (fst r) =? key c) rows with Some r => snd r | None => d end.
  Proof. rewrite api_item. destruct (std_map_spec rows) as (_ & H). rewrite H. reflexivity. Qed.

  Context (val : A -> Z).

  Lemma lookup_in r (m : list (C * A)) : increasing m -> (In r m <-> lookup (key (fst r)) m = Some r).
  Proof.
    induction m as [|f m IH]; intros S; [cbn; split; [tauto|discriminate]|].
    assert (S' := S). apply Sorted_StronglySorted in S'; [|intros x y z; lia]. inversion S' as [|? ? _ F]; subst.
    rewrite Forall_forall in F. inversion S as [|? ? S1 _]; subst. specialize (IH S1).
    unfold lookup in *. cbn [find]. destruct (Z.eqb_spec (key (fst f)) (key (fst r))).
    - split; [|intros H; injection H as ->; left; reflexivity].
      intros [->|H]; [reflexivity|]. specialize (F r H). cbn beta in F. lia.
    - rewrite <- IH. split; [|right; assumption]. intros [->|H]; [congruence|exact H].
  Qed.

  Lemma core_item (m : list (C * A)) d a : findCoreItem val m d a = match find (fun r => val (snd r) =? val a) m with Some r => fst r | None => d end.
  Proof.
    induction m as [|(x, b) m IH]; [reflexivity|]. cbn [findCoreItem find snd]. rewrite IH. destruct (val b =? val a); reflexivity.
  Qed.

  (** Backwards: among the rows in force, the one with the smallest key. *)
  Lemma smallest_entry (rows : list (C * A)) d a :
    (exists r, In r rows /\ find (fun x => key (fst x) =? key (fst r)) rows = Some r /\ val (snd r) = val a /\ findCoreItem val (std_map key rows) d a = fst r /\
       forall r', In r' rows -> find (fun x => key (fst x) =? key (fst r')) rows = Some r' -> val (snd r') = val a -> key (fst r) <= key (fst r')) \/
    ((forall r, In r rows -> find (fun x => key (fst x) =? key (fst r)) rows = Some r -> val (snd r) <> val a) /\ findCoreItem val (std_map key rows) d a = d).
  Proof.
    destruct (std_map_spec rows) as (S & L). rewrite core_item.
    assert (IN : forall r, In r (std_map key rows) <-> In r rows /\ lookup (key (fst r)) rows = Some r).
    { intros r. rewrite (lookup_in r _ S), L. split; [|tauto]. intros H. split; [|exact H]. apply find_some in H. tauto. }
    destruct (find _ (std_map key rows)) as [r|] eqn:E.
    - left. exists r. assert (E' := find_some _ _ E). destruct E' as (E1 & E2). apply IN in E1. destruct E1 as (E0 & E1).
      split; [exact E0|]. split; [exact E1|]. split; [lia|]. split; [reflexivity|]. intros r' H1 H2 H3.
      assert (H4 : In r' (std_map key rows)) by (apply IN; auto). clear - S E H3 H4.
      apply Sorted_StronglySorted in S; [|intros x y z; lia].
      induction (std_map key rows) as [|f m IH]; [destruct H4|]. inversion S as [|? ? S1 F]; subst. cbn [find] in E.
      destruct (Z.eqb_spec (val (snd f)) (val a)).
      + injection E as ->. rewrite Forall_forall in F. destruct H4 as [->|H4]; [lia|]. specialize (F r' H4). cbn beta in F. lia.
      + destruct H4 as [->|H4]; [congruence|]. exact (IH S1 E H4).
    - right. split; [|reflexivity]. intros r H1 H2 H3.
      assert (H4 : In r (std_map key rows)) by (apply IN; auto). pose proof (find_none _ _ E r H4) as X. cbn beta in X. lia.
  Qed.
End P.
