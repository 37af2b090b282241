(** The sets of children stay within their bounds. *)
From Verif Require Import Proofs.Tac.
From Coq Require Import PeanoNat.
From Verif Require Import Model.Base Model.Text Model.ElementSets Spec.Cardinality.
From Verif Require Import Proofs.StringsProofs.
Import ListNotations.
Open Scope Z_scope.

Definition opt_eqb (a : option Z) (b : option nat) : bool :=
  match a, b with Some x, Some y => x =? Z.of_nat y | None, None => true | _, _ => false end.

(** The functions go by the bounds. *)
Definition sound (b : Z * option Z) (e : element_set) : bool :=
  (fst b =? Z.of_nat (es_initial e)) && (fst b =? Z.of_nat (es_floor e)) && (fst b =? Z.of_nat (es_refill e)) && opt_eqb (snd b) (es_limit e) &&
  match es_limit e with Some n => (es_initial e <=? n)%nat | None => true end.

Definition unguarded_b (e : element_set) : bool :=
  existsb (fun p => str_eqb (fst p) (es_class e) && str_eqb (snd p) (es_name e))
    [(lit "NoteheadText", lit "NoteheadTextChoice"); (lit "TimeChoice", lit "TimeSignatureGroup"); (lit "TimewiseMeasure", lit "TimewisePart")]%string.

Lemma all_sound : forallb (fun e => unguarded_b e || match bounds_of e with Some b => sound b e | None => false end) element_sets = true.
Proof. vm_compute. reflexivity. Qed.

Lemma unguarded_reflect e : unguarded_b e = true -> unguarded e.
Proof.
  unfold unguarded_b, unguarded. intros H. apply existsb_exists in H. destruct H as ([c n] & I & H). cbn [fst snd] in H. apply andb_prop in H. destruct H as [A B].
  apply str_eqb_eq in A. apply str_eqb_eq in B. subst. exact I.
Qed.

Lemma guarded_sound e : In e element_sets -> ~ unguarded e -> exists b, bounds_of e = Some b /\ sound b e = true.
Proof.
  intros I N. pose proof all_sound as A. rewrite forallb_forall in A. specialize (A _ I). apply orb_prop in A. destruct A as [A|A].
  - contradiction N. apply unguarded_reflect. exact A.
  - destruct (bounds_of e) as [b|]; [ | discriminate A]. exists b. auto.
Qed.

Lemma sound_facts b e : sound b e = true -> fst b = Z.of_nat (es_initial e) /\ fst b = Z.of_nat (es_floor e) /\ fst b = Z.of_nat (es_refill e) /\
  snd b = option_map Z.of_nat (es_limit e) /\ match es_limit e with Some n => (es_initial e <= n)%nat | None => True end.
Proof.
  unfold sound. intros H. repeat (apply andb_prop in H; destruct H as [H ?]). apply Z.eqb_eq in H. repeat split; try lia.
  - unfold opt_eqb in *. destruct (snd b), (es_limit e); try discriminate; cbn; [f_equal; lia | reflexivity].
  - destruct (es_limit e); [ | exact I]. apply Nat.leb_le. assumption.
Qed.

Lemma erase_split {A} (l : list A) i : (i < List.length l)%nat -> exists p x r, l = p ++ x :: r /\ List.length p = i /\ erase i l = p ++ r.
Proof.
  revert i. induction l as [|x l IH]; intros i H; [cbn in H; lia | ]. destruct i as [|i]; [exists [], x, l; auto | ].
  destruct (IH i) as (p & y & r & -> & L & E); [cbn in H; lia | ]. exists (x :: p), y, r. cbn. rewrite L, E. auto.
Qed.

Section Sets.
Context {A : Type}.

Lemma constructed_within b e : sound b e = true -> within b (@constructed A e).
Proof.
  intros H. destruct (sound_facts _ _ H) as (I & F & R & L & M). unfold within, constructed. rewrite repeat_length, L. split; [lia | ].
  destruct (es_limit e); cbn [option_map]; [lia | exact Logic.I].
Qed.

Lemma call_effect b e c l : sound b e = true -> within b l -> effect b c l (@call A e c l) /\ within b (call e c l).
Proof.
  intros H [W1 W2]. destruct (sound_facts _ _ H) as (I & F & R & L & M). rewrite L in W2. destruct c as [[a|]|i|]; cbn [call].
  - destruct (es_limit e) as [n|] eqn:E; cbn [option_map] in *.
    + destruct (Nat.ltb_spec (List.length l) n) as [Q|Q].
      * split; [apply effect_added; rewrite L; lia | ]. split; [rewrite app_length; lia | rewrite L, app_length; cbn; lia].
      * assert (List.length l = n) by lia. split; [apply (effect_full b a l (Z.of_nat n) L); lia | ]. split; [exact W1 | rewrite L; exact W2].
    + split; [apply effect_added; rewrite L; exact Logic.I | ]. split; [rewrite app_length; lia | rewrite L; exact Logic.I].
  - split; [apply effect_null | ]. split; [exact W1 | rewrite L; exact W2].
  - destruct (Nat.leb_spec (List.length l) i) as [Q|Q].
    { split; [apply effect_end; exact Q | ]. split; [exact W1 | rewrite L; exact W2]. }
    destruct (Nat.ltb_spec (es_floor e) (List.length l)) as [P|P].
    + destruct (erase_split l i Q) as (p & x & r & -> & Lp & E). rewrite E. split; [apply effect_removed; [exact Lp | lia] | ].
      rewrite app_length in *. cbn [List.length] in *. split; [rewrite app_length; lia | ]. rewrite L. destruct (es_limit e); cbn [option_map] in *; [rewrite app_length; lia | exact W2].
    + split; [apply effect_last; [exact Q | lia] | ]. split; [exact W1 | rewrite L; exact W2].
  - split.
    + apply effect_cleared; [ | rewrite repeat_length; lia]. apply Forall_forall. intros x X. apply repeat_spec in X. exact X.
    + split; [rewrite repeat_length; lia | ]. rewrite L. destruct (es_limit e); cbn [option_map] in *; [rewrite repeat_length; lia | exact Logic.I].
Qed.

Theorem sets_within e cs : In e element_sets -> ~ unguarded e -> exists b, bounds_of e = Some b /\ within b (@after_calls A e cs).
Proof.
  intros I N. destruct (guarded_sound e I N) as (b & B & H). exists b. split; [exact B | ]. unfold after_calls.
  assert (G : forall l, within b l -> within b (fold_left (fun l c => call e c l) cs l)).
  { induction cs as [|c cs IH]; intros l W; [exact W | ]. cbn [fold_left]. apply IH. apply call_effect; assumption. }
  apply G. apply constructed_within. exact H.
Qed.

Theorem sets_step e cs c : In e element_sets -> ~ unguarded e -> exists b, bounds_of e = Some b /\ effect b c (@after_calls A e cs) (after_calls e (cs ++ [c])).
Proof.
  intros I N. destruct (sets_within e cs I N) as (b & B & W). destruct (guarded_sound e I N) as (b' & B' & H). rewrite B in B'. injection B' as <-.
  exists b. split; [exact B | ]. unfold after_calls. rewrite fold_left_app. cbn [fold_left]. apply call_effect; assumption.
Qed.

(** The others keep the order too, and stay below their upper bound. *)
Lemma unguarded_list e : In e element_sets -> unguarded e ->
  es_limit e = None /\ es_floor e = O.
Proof.
  intros I U. assert (C : forallb (fun e => negb (unguarded_b e) || match es_limit e with None => Nat.eqb (es_floor e) 0 | _ => false end) element_sets = true) by (vm_compute; reflexivity).
  rewrite forallb_forall in C. specialize (C _ I). assert (B : unguarded_b e = true).
  { unfold unguarded in U. unfold unguarded_b. apply existsb_exists. exists (es_class e, es_name e). split; [exact U | ]. cbn [fst snd].
    rewrite !(proj2 (str_eqb_eq _ _) eq_refl). reflexivity. }
  rewrite B in C. cbn [negb orb] in C. destruct (es_limit e); [discriminate C | ]. apply Nat.eqb_eq in C. auto.
Qed.
End Sets.

Theorem sets_order {A} e cs c : In e element_sets -> unguarded e ->
  match c with
  | Add None => @after_calls A e (cs ++ [c]) = after_calls e cs
  | Add (Some a) => after_calls e (cs ++ [c]) = after_calls e cs ++ [Given a]
  | Remove i => (exists l x r, after_calls e cs = l ++ x :: r /\ List.length l = i /\ after_calls e (cs ++ [c]) = l ++ r) \/
                ((List.length (after_calls e cs) <= i)%nat /\ after_calls e (cs ++ [c]) = after_calls e cs)
  | Clear => Forall (fun x => x = Made) (after_calls e (cs ++ [c]))
  end.
Proof.
  intros I U. destruct (unguarded_list e I U) as [L F]. unfold after_calls. rewrite fold_left_app. cbn [fold_left]. set (l := fold_left _ cs _).
  destruct c as [[a|]|i|]; cbn [call]; rewrite ?L, ?F; auto.
  - destruct (Nat.leb_spec (List.length l) i) as [Q|Q]; [right; auto | ]. left. destruct (Nat.ltb_spec 0 (List.length l)) as [P|P]; [ | lia].
    destruct (erase_split l i Q) as (p & x & r & E1 & Lp & E). exists p, x, r. auto.
  - apply Forall_forall. intros x X. apply repeat_spec in X. exact X.
Qed.

Theorem sets_new {A} e : In e element_sets -> exists b, bounds_of e = Some b /\ Z.of_nat (List.length (@after_calls A e [])) = fst b /\
  Forall (fun x => x = Made) (@after_calls A e []).
Proof.
  intros I. assert (C : forallb (fun e => match bounds_of e with Some b => fst b =? Z.of_nat (es_initial e) | None => false end) element_sets = true) by (vm_compute; reflexivity).
  rewrite forallb_forall in C. specialize (C _ I). destruct (bounds_of e) as [b|]; [ | discriminate C]. exists b. split; [reflexivity | ].
  unfold after_calls, constructed. cbn [fold_left]. rewrite repeat_length. split; [lia | ]. apply Forall_forall. intros x X. apply repeat_spec in X. exact X.
Qed.

Theorem sets_listed : forall c n b, In ((c, n), b) declared_bounds -> exists e, In e element_sets /\ es_class e = lit c /\ es_name e = lit n /\ bounds_of e = Some b.
Proof.
  assert (C : forallb (fun r => existsb (fun e => str_eqb (es_class e) (lit (fst (fst r))) && str_eqb (es_name e) (lit (snd (fst r))) &&
    match bounds_of e, snd r with Some (x, None), (y, None) => x =? y | Some (x, Some u), (y, Some v) => (x =? y) && (u =? v) | _, _ => false end) element_sets) declared_bounds = true)
    by (vm_compute; reflexivity).
  rewrite forallb_forall in C. intros c n b H. specialize (C _ H). apply existsb_exists in C. destruct C as (e & I & C). cbn [fst snd] in C.
  apply andb_prop in C. destruct C as [C D]. apply andb_prop in C. destruct C as [C1 C2]. apply str_eqb_eq in C1. apply str_eqb_eq in C2.
  exists e. split; [exact I | ]. split; [exact C1 | ]. split; [exact C2 | ]. destruct (bounds_of e) as [[x [u|]]|], b as [y [v|]]; try discriminate D.
  - apply andb_prop in D. destruct D as [D1 D2]. apply Z.eqb_eq in D1. apply Z.eqb_eq in D2. subst. reflexivity.
  - apply Z.eqb_eq in D. subst. reflexivity.
Qed.
