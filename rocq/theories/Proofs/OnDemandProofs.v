(** Children made on demand, and threads that share the elements. *)
From Coq Require Import List Bool PeanoNat Lia.
From Verif Require Import Model.OnDemand Spec.Sharing.
Import ListNotations.

Lemma nth_replace {A} (l : list A) i a j :
  nth_error (replace l i a) j = if j =? i then match nth_error l i with Some _ => Some a | None => None end else nth_error l j.
Proof.
  revert i j. induction l as [ | b l IH]; intros i j.
  - destruct i, j; cbn; try reflexivity. destruct (j =? i); reflexivity.
  - destruct i, j; cbn; try reflexivity. apply IH.
Qed.
Lemma nth_replace_same {A} (l : list A) i a t : nth_error l i = Some t -> nth_error (replace l i a) i = Some a.
Proof. intros H. rewrite nth_replace, Nat.eqb_refl, H. reflexivity. Qed.
Lemma nth_replace_other {A} (l : list A) i a j : j <> i -> nth_error (replace l i a) j = nth_error l j.
Proof. intros H. rewrite nth_replace. destruct (Nat.eqb_spec j i); [contradiction | reflexivity]. Qed.

Lemma upd_same {V} (f : nat -> V) k v : upd f k v k = v.
Proof. unfold upd. rewrite Nat.eqb_refl. reflexivity. Qed.
Lemma upd_other {V} (f : nat -> V) k v x : x <> k -> upd f k v x = f x.
Proof. intros H. unfold upd. destruct (Nat.eqb_spec x k); [contradiction | reflexivity]. Qed.
Lemma upd2_same {V} (f : nat -> nat -> V) k l v : upd2 f k l v k l = v.
Proof. unfold upd2. rewrite !Nat.eqb_refl. reflexivity. Qed.
Lemma upd2_cases {V} (f : nat -> nat -> V) k l v x y : (x = k /\ y = l /\ upd2 f k l v x y = v) \/ (~ (x = k /\ y = l) /\ upd2 f k l v x y = f x y).
Proof.
  unfold upd2. destruct (Nat.eqb_spec x k), (Nat.eqb_spec y l); cbn; [left; auto | right; split; [tauto | reflexivity] ..].
Qed.

(** ** Where a thread that calls const functions can be *)
Inductive at_point (w : memory) (i : nat) (t : thread) : Prop :=
| idle : todo t = [] -> at_point w i t
| asked o m : calls t (got t) = Some (Get o m) -> todo t = [Lock o; Test o m; Copy o m; Unlock o] -> at_point w i t
| testing o m : calls t (got t) = Some (Get o m) -> todo t = [Test o m; Copy o m; Unlock o] -> lock w o = Some i -> at_point w i t
| making o m : calls t (got t) = Some (Get o m) -> todo t = [Make o m; Copy o m; Unlock o] -> lock w o = Some i -> child w o m = None -> at_point w i t
| copying o m x : calls t (got t) = Some (Get o m) -> todo t = [Copy o m; Unlock o] -> lock w o = Some i -> child w o m = Some x -> at_point w i t
| leaving o : todo t = [Unlock o] -> lock w o = Some i -> at_point w i t
| looking o f : calls t (got t) = Some (Has o f) -> todo t = [Look o f] -> at_point w i t.

Definition consistent (w : memory) (t : thread) : Prop :=
  forall k a, nth_error (got t) k = Some a -> exists c, calls t (firstn k (got t)) = Some c /\ holds_now w c a.
Definition inside (o : nat) (t : thread) : Prop :=
  (exists m, todo t = [Test o m; Copy o m; Unlock o]) \/ (exists m, todo t = [Make o m; Copy o m; Unlock o]) \/ (exists m, todo t = [Copy o m; Unlock o]) \/ todo t = [Unlock o].

Definition Inv (s : state) : Prop :=
  (forall i t, nth_error (snd s) i = Some t -> at_point (fst s) i t /\ only_const (calls t) /\ consistent (fst s) t) /\
  (forall o i, lock (fst s) o = Some i -> exists t, nth_error (snd s) i = Some t /\ inside o t).

Lemma holds_kept w w' c a : (forall o m x, child w o m = Some x -> child w' o m = Some x) -> plain w' = plain w -> holds_now w c a -> holds_now w' c a.
Proof. intros C P. destruct c; cbn; [intros (x & E & ->); eauto | rewrite P; auto | auto | auto]. Qed.

Lemma preserved w w' l i t t' : Inv (w, l) -> nth_error l i = Some t ->
  (forall o j, j <> i -> lock w o = Some j <-> lock w' o = Some j) ->
  (forall o m x, child w o m = Some x -> child w' o m = Some x) ->
  (forall o m j, j <> i -> lock w o = Some j -> child w o m = None -> child w' o m = None) ->
  plain w' = plain w -> calls t' = calls t ->
  at_point w' i t' -> (consistent w t -> consistent w' t') -> (forall o, lock w' o = Some i -> inside o t') ->
  Inv (w', replace l i t').
Proof.
  intros [I1 I2] T L C N P K A1 A2 A3. split; cbn [fst snd] in *.
  - intros j u U. destruct (Nat.eq_dec j i) as [-> | D].
    + rewrite (nth_replace_same l i t' t T) in U. injection U as <-. destruct (I1 i t T) as (_ & O & H). rewrite K. auto.
    + rewrite nth_replace_other in U by exact D. destruct (I1 j u U) as (X & O & H). repeat split; [ | exact O | ].
      * destruct X as [X | o m X1 X2 | o m X1 X2 X3 | o m X1 X2 X3 X4 | o m x X1 X2 X3 X4 | o X1 X2 | o f X1 X2].
        -- apply idle; exact X.
        -- eapply asked; eassumption.
        -- eapply testing; [eassumption .. | ]. apply (L o j D); exact X3.
        -- eapply making; [eassumption .. | | ]; [apply (L o j D); exact X3 | exact (N o m j D X3 X4)].
        -- eapply copying; [eassumption .. | | ]; [apply (L o j D); exact X3 | exact (C _ _ _ X4)].
        -- eapply leaving; [eassumption | ]. apply (L o j D); exact X2.
        -- eapply looking; eassumption.
      * intros k a E. destruct (H k a E) as (c & F & G). exists c. split; [exact F | ]. exact (holds_kept w w' c a C P G).
  - intros o j E. destruct (Nat.eq_dec j i) as [-> | D].
    + exists t'. split; [exact (nth_replace_same l i t' t T) | exact (A3 o E)].
    + apply (L o j D) in E. destruct (I2 o j E) as (u & U & X). exists u. rewrite nth_replace_other by exact D. auto.
Qed.

Lemma consistent_more w t (r : list action) a c : calls t (got t) = Some c -> holds_now w c a -> consistent w t -> consistent w (mkThread (calls t) r (got t ++ [a])).
Proof.
  intros E H X k b. cbn [got calls]. intros G. destruct (Nat.lt_ge_cases k (List.length (got t))) as [L | L].
  - rewrite nth_error_app1 in G by exact L. rewrite firstn_app. replace (k - List.length (got t)) with 0 by lia. cbn [firstn]. rewrite app_nil_r. exact (X k b G).
  - rewrite nth_error_app2 in G by exact L. destruct (k - List.length (got t)) as [ | n] eqn:Z; [ | destruct n; discriminate G]. cbn in G. injection G as <-.
    rewrite firstn_app, Z. cbn [firstn]. rewrite app_nil_r, firstn_all2 by lia. exists c. auto.
Qed.

Lemma not_inside_two o t : todo t = [] -> ~ inside o t.
Proof. intros E. unfold inside. rewrite E. intros [[m H] | [[m H] | [[m H] | H]]]; discriminate H. Qed.

(** What a step does. *)
Lemma step_inv i w l s' : Inv (w, l) -> step i (w, l) = Some s' -> Inv s' /\
  (forall o m x, child w o m = Some x -> child (fst s') o m = Some x) /\ plain (fst s') = plain w.
Proof.
  intros I S. unfold step in S. destruct (nth_error l i) as [t | ] eqn:T; [ | discriminate S].
  destruct I as [I1 I2]. cbn [fst snd] in I1, I2. destruct (I1 i t T) as (A & O & H). pose proof (conj I1 I2 : Inv (w, l)) as I.
  (* a lock that this thread has *)
  assert (Mine : forall o, lock w o = Some i -> inside o t) by (intros o E; destruct (I2 o i E) as (u & U & X); rewrite T in U; injection U as <-; exact X).
  destruct A as [A | o m A1 A2 | o m A1 A2 A3 | o m A1 A2 A3 A4 | o m x A1 A2 A3 A4 | o A1 A2 | o f A1 A2].
  - rewrite A in S. destruct (calls t (got t)) as [c | ] eqn:E; [ | discriminate S]. injection S as <-. cbn [fst]. split; [ | auto].
    eapply preserved; [exact I | exact T | tauto | auto | auto | reflexivity | reflexivity | | | ].
    + pose proof (O _ _ E) as Q. destruct c as [o m | o f | | ]; [ | | destruct Q | destruct Q]; cbn [code]; [eapply asked | eapply looking]; cbn; eauto.
    + intros X. exact X.
    + intros o L. destruct (not_inside_two o t A (Mine o L)).
  - rewrite A2 in S. cbn [perform] in S. destruct (lock w o) as [j | ] eqn:L; [discriminate S | ]. injection S as <-. cbn [fst child plain app]. split; [ | auto]. rewrite app_nil_r.
    eapply preserved; [exact I | exact T | .. ]; cbn [lock child plain calls]; auto.
    + intros o' j D. destruct (Nat.eq_dec o' o) as [-> | D']; [rewrite upd_same, L; split; intros Z; [discriminate Z | injection Z as Z; congruence] | rewrite upd_other by exact D'; tauto].
    + eapply testing; cbn [calls got todo lock]; [exact A1 | reflexivity | apply upd_same].
    + intros o' Z. destruct (Nat.eq_dec o' o) as [-> | D']; [left; exists m; reflexivity | ]. rewrite upd_other in Z by exact D'. apply Mine in Z.
      unfold inside in Z. rewrite A2 in Z. destruct Z as [[? Z] | [[? Z] | [[? Z] | Z]]]; discriminate Z.
  - rewrite A2 in S. cbn [perform] in S. injection S as <-. cbn [fst]. split; [ | auto]. rewrite app_nil_r.
    assert (Only : forall o', lock w o' = Some i -> o' = o) by (intros o' Z; apply Mine in Z; unfold inside in Z; rewrite A2 in Z; destruct Z as [[? Z] | [[? Z] | [[? Z] | Z]]]; congruence).
    eapply preserved; [exact I | exact T | .. ]; auto; [tauto | | ].
    + destruct (child w o m) as [x | ] eqn:C; [eapply copying | eapply making]; cbn [calls got todo app]; eauto.
    + intros o' Z. apply Only in Z. subst o'. destruct (child w o m); [right; right; left | right; left]; exists m; reflexivity.
  - rewrite A2 in S. cbn [perform] in S. injection S as <-. cbn [fst child plain app]. rewrite app_nil_r.
    assert (Only : forall o', lock w o' = Some i -> o' = o) by (intros o' Z; apply Mine in Z; unfold inside in Z; rewrite A2 in Z; destruct Z as [[? Z] | [[? Z] | [[? Z] | Z]]]; congruence).
    assert (C : forall o' m' x, child w o' m' = Some x -> upd2 (child w) o m (Some (next w)) o' m' = Some x).
    { intros o' m' x E. destruct (upd2_cases (child w) o m (Some (next w)) o' m') as [(-> & -> & _) | [_ ->]]; [congruence | exact E]. }
    split; [ | auto]. eapply preserved; [exact I | exact T | .. ]; cbn [lock child plain calls]; auto; [tauto | | | | ].
    + intros o' m' j D E N. destruct (upd2_cases (child w) o m (Some (next w)) o' m') as [(-> & _ & _) | [_ ->]]; [congruence | exact N].
    + eapply copying; cbn [calls got todo lock child]; [exact A1 | reflexivity | exact A3 | apply upd2_same].
    + intros X k a E. destruct (X k a E) as (c & F & G). exists c. split; [exact F | ]. apply (holds_kept w); [exact C | reflexivity | exact G].
    + intros o' Z. apply Only in Z. subst o'. right; right; left. exists m. reflexivity.
  - rewrite A2 in S. cbn [perform app] in S. injection S as <-. cbn [fst]. split; [ | auto].
    assert (Only : forall o', lock w o' = Some i -> o' = o) by (intros o' Z; apply Mine in Z; unfold inside in Z; rewrite A2 in Z; destruct Z as [[? Z] | [[? Z] | [[? Z] | Z]]]; congruence).
    eapply preserved; [exact I | exact T | .. ]; auto; [tauto | | | ].
    + eapply leaving; cbn [todo]; [reflexivity | exact A3].
    + apply (consistent_more w t _ _ _ A1). exists x. rewrite A4. auto.
    + intros o' Z. apply Only in Z. subst o'. right; right; right. reflexivity.
  - rewrite A1 in S. cbn [perform app] in S. injection S as <-. cbn [fst child plain]. split; [ | auto]. rewrite app_nil_r.
    assert (Only : forall o', lock w o' = Some i -> o' = o) by (intros o' Z; apply Mine in Z; unfold inside in Z; rewrite A1 in Z; destruct Z as [[? Z] | [[? Z] | [[? Z] | Z]]]; congruence).
    eapply preserved; [exact I | exact T | .. ]; cbn [lock child plain calls]; auto.
    + intros o' j D. destruct (Nat.eq_dec o' o) as [-> | D']; [rewrite upd_same, A2; split; intros Z; [injection Z as Z; congruence | discriminate Z] | rewrite upd_other by exact D'; tauto].
    + apply idle. reflexivity.
    + intros o' Z. destruct (Nat.eq_dec o' o) as [-> | D']; [rewrite upd_same in Z; discriminate Z | ]. rewrite upd_other in Z by exact D'. apply Only in Z. contradiction.
  - rewrite A2 in S. cbn [perform app] in S. injection S as <-. cbn [fst]. split; [ | auto].
    eapply preserved; [exact I | exact T | .. ]; auto; [tauto | | | ].
    + apply idle. reflexivity.
    + apply (consistent_more w t _ _ _ A1). reflexivity.
    + intros o' Z. apply Mine in Z. unfold inside in Z. rewrite A2 in Z. destruct Z as [[? Z] | [[? Z] | [[? Z] | Z]]]; discriminate Z.
Qed.

Lemma start_inv w programs s : fresh_start w programs s -> Forall only_const programs -> Inv s.
Proof.
  intros [-> L] F. split; cbn [fst snd]; [ | intros o i E; rewrite L in E; discriminate E].
  intros i t T. rewrite nth_error_map in T. destruct (nth_error programs i) as [p | ] eqn:P; [ | discriminate T]. injection T as <-.
  repeat split; [apply idle; reflexivity | | intros k a E; destruct k; discriminate E].
  rewrite Forall_forall in F. apply F. exact (nth_error_In _ _ P).
Qed.

Lemma run_inv turns s s' : runs turns s s' -> Inv s -> Inv s' /\ (forall o m x, child (fst s) o m = Some x -> child (fst s') o m = Some x) /\ plain (fst s') = plain (fst s).
Proof.
  induction 1 as [ | turns s [w l] i s'' _ IH S]; intros I; [auto | ]. destruct (IH I) as (J & C & P). destruct (step_inv i w l s'' J S) as (J' & C' & P'). cbn [fst] in *.
  split; [exact J' | split; [auto | congruence]].
Qed.

(** ** The theorems *)
Theorem no_race w programs s turns s' : fresh_start w programs s -> Forall only_const programs -> runs turns s s' -> ~ race s'.
Proof.
  intros F O R. destruct (run_inv _ _ _ R (start_inv _ _ _ F O)) as (I & _). destruct s' as [v l]. destruct I as [I1 I2]. cbn [fst snd] in *.
  intros (i & j & t & u & a & b & r & r' & p & x & y & D & T & U & Ea & Eb & Pa & Pb & W). cbn [snd] in T, U.
  destruct (I1 i t T) as (A & _), (I1 j u U) as (B & _).
  assert (Z : forall k (q : thread) c r p x, at_point v k q -> todo q = c :: r -> access c = Some (p, x) ->
    (exists o f, p = Plain_of o f /\ x = false) \/ (exists o m, p = Member_of o m /\ lock v o = Some k)).
  { clear. intros k q c r p x [X | o m X1 X2 | o m X1 X2 X3 | o m X1 X2 X3 X4 | o m z X1 X2 X3 X4 | o X1 X2 | o f X1 X2] E G;
    rewrite E in *; try discriminate; try (injection X2 as -> ->); try (injection X1 as -> ->); cbn in G; try discriminate G; injection G as <- <-; eauto. }
  destruct (Z i t a r p x A Ea Pa) as [(o & f & -> & ->) | (o & m & -> & L)], (Z j u b r' _ y B Eb Pb) as [(o' & f' & E' & ->) | (o' & m' & E' & L')]; try discriminate E'.
  - destruct W; discriminate.
  - injection E' as <- <-. rewrite L in L'. injection L' as L'. contradiction.
Qed.

Lemma same_calls i w l s' : step i (w, l) = Some s' -> map calls (snd s') = map calls l.
Proof.
  assert (R : forall (l : list thread) i t t', nth_error l i = Some t -> calls t' = calls t -> map calls (replace l i t') = map calls l).
  { clear. induction l as [ | b l IH]; intros [ | i] t t' T K; cbn in *; try discriminate; [injection T as ->; rewrite K; reflexivity | f_equal; eapply IH; eassumption]. }
  unfold step. destruct (nth_error l i) as [t | ] eqn:T; [ | discriminate]. destruct (todo t) as [ | a r].
  - destruct (calls t (got t)); [ | discriminate]. intros [= <-]. eapply R; [exact T | reflexivity].
  - destruct (perform i a w) as [[[w' more] ans] | ]; [ | discriminate]. intros [= <-]. eapply R; [exact T | reflexivity].
Qed.
Lemma run_calls turns s s' : runs turns s s' -> map calls (snd s') = map calls (snd s).
Proof. induction 1 as [ | turns s [w l] i s'' _ IH S]; [reflexivity | ]. rewrite (same_calls _ _ _ _ S). exact IH. Qed.

Theorem same_answers w programs s turns s' i p : fresh_start w programs s -> Forall only_const programs -> runs turns s s' -> nth_error programs i = Some p ->
  exists t, nth_error (snd s') i = Some t /\
  forall k a, nth_error (got t) k = Some a -> exists c, p (firstn k (got t)) = Some c /\ holds_now (fst s') c a.
Proof.
  intros F O R P. destruct (run_inv _ _ _ R (start_inv _ _ _ F O)) as ([I1 _] & _). pose proof (run_calls _ _ _ R) as C. destruct F as [-> _]. cbn [snd] in C. rewrite map_map in C. cbn in C. rewrite map_id in C.
  assert (E : nth_error (map calls (snd s')) i = Some p) by (rewrite C; exact P). rewrite nth_error_map in E. destruct (nth_error (snd s') i) as [t | ] eqn:T; [ | discriminate E]. injection E as <-.
  exists t. split; [reflexivity | ]. destruct (I1 i t T) as (_ & _ & H). exact H.
Qed.

Theorem children_kept w programs s turns s' : fresh_start w programs s -> Forall only_const programs -> runs turns s s' ->
  (forall o m x, child w o m = Some x -> child (fst s') o m = Some x) /\ plain (fst s') = plain w.
Proof. intros F O R. destruct (run_inv _ _ _ R (start_inv _ _ _ F O)) as (_ & C & P). destruct F as [-> _]. auto. Qed.

Theorem goes_on w programs s turns s' : fresh_start w programs s -> Forall only_const programs -> runs turns s s' ->
  (forall i, step i s' = None) -> Forall finished (snd s').
Proof.
  intros F O R N. destruct (run_inv _ _ _ R (start_inv _ _ _ F O)) as ([I1 I2] & _). destruct s' as [v l]. cbn [fst snd] in *.
  apply Forall_forall. intros t T. apply In_nth_error in T. destruct T as [i T]. destruct (I1 i t T) as (A & _).
  assert (Free : forall o, lock v o = None).
  { intros o. destruct (lock v o) as [j | ] eqn:L; [exfalso | reflexivity]. destruct (I2 o j L) as (u & U & X). specialize (N j). unfold step in N. rewrite U in N.
    destruct X as [[m X] | [[m X] | [[m X] | X]]]; rewrite X in N; discriminate N. }
  specialize (N i). unfold step in N. rewrite T in N.
  destruct A as [A | o m A1 A2 | o m A1 A2 A3 | o m A1 A2 A3 A4 | o m x A1 A2 A3 A4 | o A1 A2 | o f A1 A2].
  - split; [exact A | ]. rewrite A in N. destruct (calls t (got t)); [discriminate N | reflexivity].
  - rewrite A2 in N. cbn [perform] in N. rewrite Free in N. discriminate N.
  - rewrite Free in A3. discriminate A3.
  - rewrite Free in A3. discriminate A3.
  - rewrite Free in A3. discriminate A3.
  - rewrite Free in A2. discriminate A2.
  - rewrite A2 in N. discriminate N.
Qed.

(** A call takes six steps at most. *)
Definition done (l : list action) : nat := match List.length l with 4 => 1 | 3 => 3 | 2 => 4 | 1 => match l with [Look _ _] => 1 | _ => 5 end | _ => 0 end.
Definition spent (t : thread) : nat := match todo t with [Unlock _] => 6 * List.length (got t) - 1 | l => 6 * List.length (got t) + done l end.
Definition counted (turns : list nat) (s : state) : Prop := forall i t, nth_error (snd s) i = Some t ->
  count_occ Nat.eq_dec turns i <= spent t /\ (forall o, todo t = [Unlock o] -> got t <> []) /\
  (forall o m, todo t = [Test o m; Copy o m; Unlock o] -> count_occ Nat.eq_dec turns i <= 6 * List.length (got t) + 2).

Lemma step_counted turns i s s' : Inv s -> counted turns s -> step i s = Some s' -> counted (turns ++ [i]) s'.
Proof.
  intros I H S. destruct s as [w l]. pose proof S as S0. unfold step in S. destruct (nth_error l i) as [t | ] eqn:T; [ | discriminate S].
  assert (Other : forall w' t', s' = (w', replace l i t') ->
    (count_occ Nat.eq_dec (turns ++ [i]) i <= spent t' /\ (forall o, todo t' = [Unlock o] -> got t' <> []) /\
      (forall o m, todo t' = [Test o m; Copy o m; Unlock o] -> count_occ Nat.eq_dec (turns ++ [i]) i <= 6 * List.length (got t') + 2)) -> counted (turns ++ [i]) s').
  { intros w' t' -> X j u U. cbn [snd] in U. destruct (Nat.eq_dec j i) as [-> | D].
    - rewrite (nth_replace_same l i t' t T) in U. injection U as <-. exact X.
    - rewrite nth_replace_other in U by exact D. rewrite count_occ_app. cbn [count_occ]. destruct (Nat.eq_dec i j); [congruence | ]. rewrite Nat.add_0_r. exact (H j u U). }
  destruct (H i t T) as (H1 & H2 & H3).
  assert (Z : count_occ Nat.eq_dec (turns ++ [i]) i = count_occ Nat.eq_dec turns i + 1).
  { rewrite count_occ_app. cbn [count_occ]. destruct (Nat.eq_dec i i); [reflexivity | congruence]. }
  destruct I as [I1 _]. cbn [fst snd] in I1. destruct (I1 i t T) as (A & O & _). unfold spent in H1.
  destruct A as [A | o m A1 A2 | o m A1 A2 A3 | o m A1 A2 A3 A4 | o m x A1 A2 A3 A4 | o A1 A2 | o f A1 A2].
  - rewrite A in S, H1. destruct (calls t (got t)) as [c | ] eqn:E; [ | discriminate S]. injection S as <-. eapply Other; [reflexivity | ]. rewrite Z. cbn [todo got]. unfold spent. cbn [todo got].
    pose proof (O _ _ E) as Q. destruct c as [o m | o f | | ]; [ | | destruct Q | destruct Q]; cbn [code done List.length] in *; (split; [lia | split; intros; discriminate]).
  - rewrite A2 in S, H1. cbn [perform] in S. destruct (lock w o); [discriminate S | ]. injection S as <-. eapply Other; [reflexivity | ]. rewrite Z. unfold spent. cbn [todo got app]. rewrite app_nil_r. cbn [done List.length] in *.
    split; [lia | split; [intros; discriminate | intros; lia]].
  - specialize (H3 o m A2). rewrite A2 in S, H1. cbn [perform] in S. injection S as <-. eapply Other; [reflexivity | ]. rewrite Z. unfold spent. cbn [todo got app]. rewrite app_nil_r.
    destruct (child w o m); cbn [app done List.length] in *; (split; [lia | split; intros; discriminate]).
  - rewrite A2 in S, H1. cbn [perform] in S. injection S as <-. eapply Other; [reflexivity | ]. rewrite Z. unfold spent. cbn [todo got app]. rewrite app_nil_r. cbn [done List.length] in *. split; [lia | split; intros; discriminate].
  - rewrite A2 in S, H1. cbn [perform] in S. injection S as <-. eapply Other; [reflexivity | ]. rewrite Z. unfold spent. cbn [todo got app]. rewrite app_length. cbn [done List.length] in *.
    split; [lia | split; [intros _ _ C; destruct (got t); discriminate C | intros; discriminate]].
  - pose proof (H2 o A1) as N. rewrite A1 in S, H1. cbn [perform] in S. injection S as <-. eapply Other; [reflexivity | ]. rewrite Z. unfold spent. cbn [todo got app]. rewrite app_nil_r. cbn [done List.length] in *.
    destruct (got t); [congruence | ]. cbn [List.length] in *. split; [lia | split; intros; discriminate].
  - rewrite A2 in S, H1. cbn [perform] in S. injection S as <-. eapply Other; [reflexivity | ]. rewrite Z. unfold spent. cbn [todo got app]. rewrite app_length. cbn [done List.length] in *. split; [lia | split; intros; discriminate].
Qed.

Theorem few_steps w programs s turns s' i t : fresh_start w programs s -> Forall only_const programs -> runs turns s s' -> nth_error (snd s') i = Some t ->
  count_occ Nat.eq_dec turns i <= 6 * List.length (got t) + 5.
Proof.
  intros F O R T. pose proof (start_inv _ _ _ F O) as I.
  assert (C : counted turns s').
  { clear T. induction R as [s | turns s s' j s'' R IH S].
    - destruct F as [-> _]. intros j u U. cbn [snd] in U. rewrite nth_error_map in U. destruct (nth_error programs j); [ | discriminate U]. injection U as <-. cbn. repeat split; [lia | discriminate ..].
    - apply (step_counted turns j s'); [exact (proj1 (run_inv _ _ _ R I)) | exact (IH F I) | exact S]. }
  destruct (C i t T) as (X & _). unfold spent in X. assert (D : forall l, done l <= 5) by (intros [ | a [ | b [ | c [ | d [ | e l]]]]]; cbn; try lia; destruct a; lia).
  specialize (D (todo t)). destruct (todo t) as [ | [] []]; lia.
Qed.

(** Every child is an object of its own. *)
Theorem own_kept w programs s turns s' : fresh_start w programs s -> own_children w -> Forall only_const programs -> runs turns s s' -> own_children (fst s').
Proof.
  intros F W O R. pose proof (start_inv _ _ _ F O) as I.
  assert (X : own_children (fst s)) by (destruct F as [-> _]; exact W). clear F W O. induction R as [ | turns s [v l] i s'' R IH S]; [exact X | ]. specialize (IH I X). pose proof (proj1 (run_inv _ _ _ R I)) as J. cbn [fst] in IH.
  unfold step in S. destruct (nth_error l i) as [t | ] eqn:T; [ | discriminate S]. destruct J as [J1 _]. cbn [fst snd] in J1. destruct (J1 i t T) as (A & _).
  destruct A as [A | o m A1 A2 | o m A1 A2 A3 | o m A1 A2 A3 A4 | o m x A1 A2 A3 A4 | o A1 A2 | o f A1 A2].
  - rewrite A in S. destruct (calls t (got t)); [ | discriminate S]. injection S as <-. exact IH.
  - rewrite A2 in S. cbn [perform] in S. destruct (lock v o); [discriminate S | ]. injection S as <-. exact IH.
  - rewrite A2 in S. injection S as <-. exact IH.
  - rewrite A2 in S. injection S as <-. destruct IH as [B D]. split; cbn [fst child next].
    + intros o' m' x. destruct (upd2_cases (child v) o m (Some (next v)) o' m') as [(_ & _ & ->) | [_ ->]]; [intros [= <-]; lia | intros E; apply B in E; lia].
    + intros o1 m1 o2 m2 x. destruct (upd2_cases (child v) o m (Some (next v)) o1 m1) as [(-> & -> & ->) | [_ ->]], (upd2_cases (child v) o m (Some (next v)) o2 m2) as [(-> & -> & ->) | [_ ->]].
      * auto.
      * intros [= <-] E. apply B in E. lia.
      * intros E [= <-]. apply B in E. lia.
      * apply D.
  - rewrite A2 in S. injection S as <-. exact IH.
  - rewrite A1 in S. injection S as <-. exact IH.
  - rewrite A2 in S. injection S as <-. exact IH.
Qed.

(** No child is made that was not asked for. *)
Theorem made_for w programs s turns s' o m x : fresh_start w programs s -> Forall only_const programs -> runs turns s s' -> child (fst s') o m = Some x ->
  child w o m = Some x \/ exists i t k, nth_error (snd s') i = Some t /\ calls t (firstn k (got t)) = Some (Get o m).
Proof.
  intros F O R. pose proof (start_inv _ _ _ F O) as I. revert o m x. induction R as [s | turns s [v l] i s'' R IH S]; intros o m x C; [left; destruct F as [-> _]; exact C | ].
  specialize (IH F I). pose proof (proj1 (run_inv _ _ _ R I)) as J. unfold step in S. destruct (nth_error l i) as [t | ] eqn:T; [ | discriminate S]. destruct J as [J1 _]. cbn [fst snd] in J1, IH. destruct (J1 i t T) as (A & _).
  assert (Keep : forall w' t' more, s'' = (w', replace l i t') -> calls t' = calls t -> got t' = got t ++ more -> child w' o m = child v o m ->
    child w o m = Some x \/ exists i t k, nth_error (snd s'') i = Some t /\ calls t (firstn k (got t)) = Some (Get o m)).
  { intros w' t' more -> K G Z. cbn [fst] in C. rewrite Z in C. destruct (IH o m x C) as [E | (j & u & k & U & E)]; [left; exact E | right]. cbn [snd].
    destruct (Nat.eq_dec j i) as [-> | D].
    - rewrite T in U. injection U as <-. exists i, t', (Nat.min k (List.length (got t))). rewrite (nth_replace_same l i t' t T). split; [reflexivity | ]. rewrite K, G, firstn_app.
      replace (Nat.min k (List.length (got t)) - List.length (got t)) with 0 by lia. cbn [firstn]. rewrite app_nil_r.
      destruct (Nat.le_ge_cases k (List.length (got t))); [rewrite Nat.min_l by lia; exact E | rewrite Nat.min_r by lia]. rewrite firstn_all2 in E by lia. rewrite firstn_all. exact E.
    - exists j, u, k. rewrite nth_replace_other by exact D. auto. }
  destruct A as [A | o' m' A1 A2 | o' m' A1 A2 A3 | o' m' A1 A2 A3 A4 | o' m' y A1 A2 A3 A4 | o' A1 A2 | o' f A1 A2].
  - rewrite A in S. destruct (calls t (got t)); [ | discriminate S]. injection S as <-. eapply Keep; [reflexivity | reflexivity | symmetry; apply app_nil_r | reflexivity].
  - rewrite A2 in S. cbn [perform] in S. destruct (lock v o'); [discriminate S | ]. injection S as <-. eapply Keep; reflexivity.
  - rewrite A2 in S. injection S as <-. eapply Keep; reflexivity.
  - rewrite A2 in S. injection S as <-. cbn [fst snd child] in C |- *. destruct (upd2_cases (child v) o' m' (Some (next v)) o m) as [(-> & -> & _) | [_ Z]].
    + right. eexists i, _, (List.length (got t)). split; [exact (nth_replace_same l i _ t T) | ]. cbn [calls got]. rewrite app_nil_r, firstn_all. exact A1.
    + eapply Keep; [reflexivity | reflexivity | reflexivity | exact Z].
  - rewrite A2 in S. injection S as <-. eapply Keep; reflexivity.
  - rewrite A1 in S. injection S as <-. eapply Keep; reflexivity.
  - rewrite A2 in S. injection S as <-. eapply Keep; reflexivity.
Qed.

(** ** A thread of its own, which may also call set functions *)
Lemma one_more w l w' c a w'' : one_by_one w l w' -> one_by_one w' [(c, a)] w'' -> one_by_one w (l ++ [(c, a)]) w''.
Proof. induction 1; intros H'; cbn [app]; [exact H' | apply one_get; auto | apply one_make; auto | apply one_has; auto | apply one_set; auto | apply one_null; auto | apply one_change; auto]. Qed.

Definition same_but_lock (w v : memory) : Prop := child w = child v /\ plain w = plain v /\ next w = next v.

(** The call in progress has had no effect, or all but the unlocking is done. *)
Inductive progress (w0 v : memory) (t : thread) : Prop :=
| between h v0 : todo t = [] -> one_by_one w0 h v0 -> same_but_lock v0 v -> map snd h = got t -> (forall k c, nth_error (map fst h) k = Some c -> calls t (firstn k (got t)) = Some c) -> (forall o, lock v o = None) -> progress w0 v t
| called h v0 c : calls t (got t) = Some c -> todo t = code c -> one_by_one w0 h v0 -> same_but_lock v0 v -> map snd h = got t -> (forall k c, nth_error (map fst h) k = Some c -> calls t (firstn k (got t)) = Some c) -> (forall o, lock v o = None) -> progress w0 v t
| locked h v0 o m : calls t (got t) = Some (Get o m) -> todo t = [Test o m; Copy o m; Unlock o] -> one_by_one w0 h v0 -> same_but_lock v0 v -> map snd h = got t -> (forall k c, nth_error (map fst h) k = Some c -> calls t (firstn k (got t)) = Some c) -> (forall o', o' <> o -> lock v o' = None) -> progress w0 v t
| absent h v0 o m : calls t (got t) = Some (Get o m) -> todo t = [Make o m; Copy o m; Unlock o] -> child v o m = None -> one_by_one w0 h v0 -> same_but_lock v0 v -> map snd h = got t -> (forall k c, nth_error (map fst h) k = Some c -> calls t (firstn k (got t)) = Some c) -> (forall o', o' <> o -> lock v o' = None) -> progress w0 v t
| present h v0 o m x : calls t (got t) = Some (Get o m) -> todo t = [Copy o m; Unlock o] -> child v o m = Some x -> one_by_one w0 (h ++ [(Get o m, Child (Some x))]) v0 -> same_but_lock v0 v -> map snd h = got t -> (forall k c, nth_error (map fst h) k = Some c -> calls t (firstn k (got t)) = Some c) -> (forall o', o' <> o -> lock v o' = None) -> progress w0 v t
| unlocking h v0 o : todo t = [Unlock o] -> one_by_one w0 h v0 -> same_but_lock v0 v -> map snd h = got t -> (forall k c, nth_error (map fst h) k = Some c -> calls t (firstn k (got t)) = Some c) -> (forall o', o' <> o -> lock v o' = None) -> progress w0 v t.

Lemma history_more (p : list answer -> option call) h g c (a : answer) : map snd h = g -> (forall k c, nth_error (map fst h) k = Some c -> p (firstn k g) = Some c) -> p g = Some c ->
  map snd (h ++ [(c, a)]) = g ++ [a] /\ (forall k c', nth_error (map fst (h ++ [(c, a)])) k = Some c' -> p (firstn k (g ++ [a])) = Some c').
Proof.
  intros <- H E. rewrite !map_app. cbn [map fst snd]. split; [reflexivity | ]. intros k c' N. destruct (Nat.lt_ge_cases k (List.length h)) as [L | L].
  - rewrite nth_error_app1 in N by (rewrite map_length; exact L). rewrite firstn_app. rewrite map_length. replace (k - List.length h) with 0 by lia. cbn [firstn]. rewrite app_nil_r. exact (H k c' N).
  - rewrite nth_error_app2 in N by (rewrite map_length; exact L). rewrite map_length in N. destruct (k - List.length h) as [ | n] eqn:Z; [ | destruct n; discriminate N]. cbn in N. injection N as <-.
    rewrite firstn_app, map_length, Z. cbn [firstn]. rewrite app_nil_r, firstn_all2 by (rewrite map_length; lia). exact E.
Qed.

Lemma step_alone w0 v t i s' : progress w0 v t -> step i (v, [t]) = Some s' -> exists v' t', s' = (v', [t']) /\ progress w0 v' t' /\ calls t' = calls t.
Proof.
  intros P S. unfold step in S. destruct i as [ | i]; [ | destruct i; discriminate S]. cbn [nth_error replace] in S.
  destruct P as [h v0 A H B G Q L | h v0 c C A H B G Q L | h v0 o m C A H B G Q L | h v0 o m C A N H B G Q L | h v0 o m x C A N H B G Q L | h v0 o A H B G Q L].
  - rewrite A in S. destruct (calls t (got t)) as [c | ] eqn:E; [ | discriminate S]. injection S as <-. do 2 eexists. split; [reflexivity | split; [ | reflexivity]]. eapply called; cbn [calls got todo]; eauto.
  - rewrite A in S. destruct v0 as [k0 c0 p0 n0], v as [k1 c1 p1 n1]. destruct B as (B1 & B2 & B3). cbn in B1, B2, B3, L. subst c1 p1 n1. destruct c as [o m | o f | o m x | o f z]; cbn [code perform lock child plain next app] in S.
    + rewrite L in S. injection S as <-. do 2 eexists. split; [reflexivity | split; [ | reflexivity]]. eapply locked; cbn [calls got todo]; rewrite ?app_nil_r; eauto; [repeat split | ].
      intros o' D. cbn. rewrite upd_other by exact D. apply L.
    + injection S as <-. do 2 eexists. split; [reflexivity | split; [ | reflexivity]]. destruct (history_more _ _ _ _ (Value (p0 o f)) G Q C) as [G' Q'].
      eapply between; [reflexivity | | | exact G' | exact Q' | exact L]; [eapply one_more; [exact H | apply (one_has (mkMemory k0 c0 p0 n0)), one_none] | repeat split].
    + destruct x as [x | ]; injection S as <-; do 2 eexists; (split; [reflexivity | split; [ | reflexivity]]); destruct (history_more _ _ _ _ Nothing G Q C) as [G' Q'].
      * eapply between; [reflexivity | | | exact G' | exact Q' | exact L]; [eapply one_more; [exact H | apply (one_set (mkMemory k0 c0 p0 n0)), one_none] | repeat split].
      * eapply between; [reflexivity | | | exact G' | exact Q' | exact L]; [eapply one_more; [exact H | apply (one_null (mkMemory k0 c0 p0 n0)), one_none] | repeat split].
    + injection S as <-. do 2 eexists. split; [reflexivity | split; [ | reflexivity]]. destruct (history_more _ _ _ _ Nothing G Q C) as [G' Q'].
      eapply between; [reflexivity | | | exact G' | exact Q' | exact L]; [eapply one_more; [exact H | apply (one_change (mkMemory k0 c0 p0 n0)), one_none] | repeat split].
  - rewrite A in S. injection S as <-. do 2 eexists. split; [reflexivity | split; [ | reflexivity]]. pose proof B as (B1 & _ & _). destruct (child v o m) as [x | ] eqn:E.
    + eapply present; cbn [calls got todo app]; rewrite ?app_nil_r; eauto. eapply one_more; [exact H | ]. apply one_get; [rewrite B1; exact E | constructor].
    + eapply absent; cbn [calls got todo app]; rewrite ?app_nil_r; eauto.
  - rewrite A in S. injection S as <-. do 2 eexists. split; [reflexivity | split; [ | reflexivity]]. destruct B as (B1 & B2 & B3).
    eapply present with (x := next v); cbn [calls got todo app child]; rewrite ?app_nil_r; eauto; [apply upd2_same | | ].
    + eapply one_more; [exact H | ]. rewrite <- B3. apply one_make; [rewrite B1; exact N | constructor].
    + repeat split; cbn [child plain next]; [rewrite B1, B3; reflexivity | exact B2 | rewrite B3; lia].
  - rewrite A in S. injection S as <-. do 2 eexists. split; [reflexivity | split; [ | reflexivity]]. rewrite N. destruct (history_more _ _ _ _ (Child (Some x)) G Q C) as [G' Q'].
    eapply unlocking; [reflexivity | exact H | exact B | exact G' | exact Q' | exact L].
  - rewrite A in S. injection S as <-. do 2 eexists. split; [reflexivity | split; [ | reflexivity]]. eapply between; cbn [calls got todo app]; rewrite ?app_nil_r; eauto.
    intros o'. cbn [lock]. destruct (Nat.eq_dec o' o) as [-> | D]; [apply upd_same | rewrite upd_other by exact D; exact (L o' D)].
Qed.

Theorem alone w p s turns s' : fresh_start w [p] s -> runs turns s s' ->
  exists v t, s' = (v, [t]) /\ (todo t = [] -> exists h v', one_by_one w h v' /\ map snd h = got t /\ (forall k c, nth_error (map fst h) k = Some c -> p (firstn k (got t)) = Some c) /\
    child v' = child v /\ plain v' = plain v /\ next v' = next v).
Proof.
  intros [-> L] R. cbn [map] in R.
  assert (X : exists v t, s' = (v, [t]) /\ progress w v t /\ calls t = p).
  { remember (w, [starts_with p]) as s eqn:E. induction R as [ | turns s s' i s'' R IH S].
    - subst s. do 2 eexists. split; [reflexivity | split; [ | reflexivity]]. eapply between with (h := []); [reflexivity | constructor | repeat split | reflexivity | intros [ | k] c N; discriminate N | exact L].
    - destruct (IH E) as (v & t & -> & P & K). destruct (step_alone w v t i s'' P S) as (v' & t' & -> & P' & K'). exists v', t'. rewrite K', K. auto. }
  destruct X as (v & t & -> & P & K). exists v, t. split; [reflexivity | ]. intros E. destruct P as [h v0 A H B G Q _ | h v0 c C A | h v0 o m C A | h v0 o m C A | h v0 o m x C A | h v0 o A]; try congruence.
  - exists h, v0. rewrite <- K. destruct B as (B1 & B2 & B3). repeat split; assumption.
  - rewrite E in A. destruct c; discriminate A.
Qed.

(** ** With set functions *)
Fixpoint play (turns : list nat) (s : state) : option state :=
  match turns with
  | [] => Some s
  | i :: r => match step i s with Some s' => play r s' | None => None end
  end.
Lemma play_from r : forall dn s0 s s', runs dn s0 s -> play r s = Some s' -> runs (dn ++ r) s0 s'.
Proof.
  induction r as [ | i r IH]; intros dn s0 s s' D H; cbn [play] in H; [injection H as <-; rewrite app_nil_r; exact D | ].
  destruct (step i s) as [s1 | ] eqn:S; [ | discriminate H]. change (i :: r) with ([i] ++ r). rewrite app_assoc. apply (IH _ _ s1); [eapply runs_more; eassumption | exact H].
Qed.
Lemma play_runs turns s s' : play turns s = Some s' -> runs turns s s'.
Proof. apply (play_from turns []). constructor. Qed.

Lemma example_start l : fresh_start nothing_made l (nothing_made, map starts_with l).
Proof. split; reflexivity. Qed.

(** The first thread has just been told that there is no child; the second sets one. *)
Theorem set_race : ~ (forall w programs s turns s', fresh_start w programs s -> runs turns s s' -> ~ race s').
Proof.
  intros H. eapply (H nothing_made [asks_once; sets_once] _ [0; 0; 0; 1]); [apply example_start | apply play_runs; reflexivity | ].
  exists 0, 1. do 9 eexists. split; [discriminate | ]. repeat split; try reflexivity. left; reflexivity.
Qed.

Theorem set_lost : ~ (forall w programs s turns s' o m x i, fresh_start w programs s -> runs turns s s' -> Forall finished (snd s') ->
  (forall j p h y, nth_error programs j = Some p -> p h = Some (Set_child o m (Some y)) -> j = i /\ y = x /\ h = []) -> (exists p, nth_error programs i = Some p /\ p [] = Some (Set_child o m (Some x))) ->
  child (fst s') o m = Some x).
Proof.
  intros H.
  destruct (play [0; 0; 0; 1; 1; 0; 0; 0] (nothing_made, map starts_with [asks_once; sets_once])) as [s' | ] eqn:E; [ | vm_compute in E; discriminate E].
  specialize (H nothing_made [asks_once; sets_once] _ [0; 0; 0; 1; 1; 0; 0; 0] s' 0 3 9 1 (example_start _) (play_runs _ _ _ E)).
  assert (F : Forall finished (snd s') /\ child (fst s') 0 3 = Some 1) by (cbn in E; injection E as <-; split; [repeat constructor | reflexivity]).
  destruct F as [F1 F2]. rewrite H in F2; [discriminate F2 | exact F1 | | exists sets_once; split; reflexivity].
  intros j p h y P Q. destruct j as [ | [ | j]]; cbn in P; [injection P as <- | injection P as <- | destruct j; discriminate P].
  - destruct h; discriminate Q.
  - destruct h; [injection Q as <-; auto | discriminate Q].
Qed.

(** ** Examples *)
Lemma asks_const : Forall only_const [asks_twice; asks_once].
Proof.
  repeat constructor; intros h c E; [ | destruct h; [injection E as <-; exact I | discriminate E]].
  destruct h as [ | [[x | ] | | ] [ | ]]; try discriminate E; injection E as <-; exact I.
Qed.
Lemma asks_met : exists s', runs [0; 1; 1; 1; 1; 1; 1; 0; 0; 0; 0; 0; 0; 0; 0; 0; 0] (nothing_made, map starts_with [asks_twice; asks_once]) s' /\
  map got (snd s') = [[Child (Some 1); Child (Some 2)]; [Child (Some 1)]].
Proof.
  destruct (play [0; 1; 1; 1; 1; 1; 1; 0; 0; 0; 0; 0; 0; 0; 0; 0; 0] (nothing_made, map starts_with [asks_twice; asks_once])) as [s' | ] eqn:E; [ | vm_compute in E; discriminate E].
  exists s'. split; [exact (play_runs _ _ _ E) | ]. cbn in E. injection E as <-. reflexivity.
Qed.
