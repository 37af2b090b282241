(* What the elements keep of the attributes the schema gives them: the tables are
   compared by computation, the rest follows for any attributes. *)

From Coq Require Import String List Bool Arith Lia Permutation.
From Verif Require Import Model.Attributes Model.AttributeClasses Spec.SchemaAttributes
  Proofs.AttributeLoops.
Import ListNotations.
Open Scope string_scope.
Open Scope list_scope.

Lemma mem_In : forall s l, mem s l = true <-> In s l.
Proof.
  intros s l. unfold mem. rewrite existsb_exists. split.
  - intros [x [H E]]. apply String.eqb_eq in E. now subst.
  - intros H. exists s. split; [exact H|apply String.eqb_refl].
Qed.

(* The comparison, entry by entry. *)
Definition is_some_type (a : schemaAttribute) (t : string) : bool :=
  match class_of (sa_type a) with Some c => String.eqb c t | None => false end.

Definition check_name (e : elementClass) (a : schemaAttribute) : bool :=
  if lost (e_name e) (sa_name a) then
    match find_r (rs_of e) (sa_name a) with None => true | Some _ => false end
  else
    match find_r (rs_of e) (sa_name a) with
    | None => false
    | Some r =>
        is_some_type a (r_type r)
        && Bool.eqb (mem (sa_type a) checked_types) (negb (mem (r_type r) unchecked))
        && existsb (fun w => String.eqb (w_name w) (sa_name a)) (writes_of e)
        && Nat.eqb (length (filter (fun w => String.eqb (w_name w) (sa_name a)) (writes_of e)))
             (if doubled (e_name e) (sa_name a) then 2 else 1)
        && forallb (fun s => Bool.eqb (hits (rs_of e) (r_member r) (r_name s))
                               (String.eqb (r_name s) (sa_name a) || (alias (e_name e) (r_name s) && hits (rs_of e) (r_member r) (r_name s))))
             (rs_of e)
    end.

Definition check_write (e : elementClass) (w : writing) : bool :=
  let sch := schema_of (e_name e) in
  (mem (w_flag w) (has_of e) || existsb (fun f => mem f (initial_of e)) (has_of e))
  && (allowed (e_name e) (w_name w) || alias (e_name e) (w_name w))
  && forallb (fun s => negb (sets (rs_of e) (w_flag w) (r_name s))
                       || String.eqb (r_name s) (w_name w) || alias (e_name e) (r_name s)) (rs_of e)
  && forallb (fun a => negb (String.eqb (sa_name a) (w_name w))
                       || lost (e_name e) (sa_name a)
                       || (hits (rs_of e) (w_member w) (sa_name a)
                           && (sets (rs_of e) (w_flag w) (sa_name a) || sa_required a))) sch
  && (negb (mem (w_flag w) (initial_of e))
      || existsb (fun a => String.eqb (sa_name a) (w_name w) && sa_required a) sch)
  && forallb (fun a => negb (String.eqb (sa_name a) (w_name w)) || sets (rs_of e) (w_flag w) (sa_name a)
                       || mem (w_flag w) (initial_of e) || lost (e_name e) (sa_name a)) sch.

Definition check_known (e : elementClass) : bool :=
  forallb (fun r => allowed (e_name e) (r_name r) || alias (e_name e) (r_name r)) (rs_of e).

Definition check_found (e : elementClass) : bool :=
  mem (e_name e) unreadable
  || forallb (fun f => existsb (fun a => sa_required a && sets (rs_of e) f (sa_name a))
                         (schema_of (e_name e))) (found_of e).

Definition check_required (e : elementClass) : bool :=
  mem (e_name e) unreadable || String.eqb (e_name e) "bracket"
  || forallb (fun a => negb (sa_required a)
        || existsb (fun f => negb (mem f (initial_of e))
             && forallb (fun r => negb (String.eqb (r_flag r) f) || String.eqb (r_name r) (sa_name a)
                                  || alias (e_name e) (r_name r)) (rs_of e)) (found_of e))
       (schema_of (e_name e)).

Fixpoint distinct (l : list string) : bool :=
  match l with [] => true | x :: r => negb (mem x r) && distinct r end.

Definition check_element (e : elementClass) : bool :=
  distinct (map sa_name (schema_of (e_name e)))
  && forallb (fun a => negb (alias (e_name e) (sa_name a))) (schema_of (e_name e))
  && forallb (check_name e) (schema_of (e_name e))
  && forallb (check_write e) (writes_of e)
  && check_known e && check_found e && check_required e.


Lemma checked_elements : forallb check_element elements = true.
Proof. vm_compute. reflexivity. Qed.

Record good (e : elementClass) : Prop := mkGood
  { g_distinct : distinct (map sa_name (schema_of (e_name e))) = true;
    g_alias : forall a, In a (schema_of (e_name e)) -> alias (e_name e) (sa_name a) = false;
    g_name : forall a, In a (schema_of (e_name e)) -> check_name e a = true;
    g_write : forall w, In w (writes_of e) -> check_write e w = true;
    g_known : check_known e = true;
    g_found : check_found e = true;
    g_required : check_required e = true }.

Lemma all_good : forall e, In e elements -> good e.
Proof.
  intros e H. pose proof (proj1 (forallb_forall _ _) checked_elements e H) as C.
  unfold check_element in C.
  apply andb_prop in C. destruct C as [C C7]. apply andb_prop in C. destruct C as [C C6].
  apply andb_prop in C. destruct C as [C C5]. apply andb_prop in C. destruct C as [C C4].
  apply andb_prop in C. destruct C as [C C3]. apply andb_prop in C. destruct C as [C1 C2].
  constructor; try assumption.
  - intros a Ha. pose proof (proj1 (forallb_forall _ _) C2 a Ha) as Q. cbn beta in Q.
    now apply negb_true_iff in Q.
  - now apply forallb_forall.
  - now apply forallb_forall.
Qed.

Lemma find_r_name : forall rs n r, find_r rs n = Some r -> In r rs /\ r_name r = n.
Proof.
  intros rs n r H. apply find_some in H. destruct H as [Hi He]. split; [exact Hi|].
  apply String.eqb_eq in He. now symmetry.
Qed.

Lemma same_attribute : forall l a b,
  distinct (map sa_name l) = true -> In a l -> In b l -> sa_name a = sa_name b -> a = b.
Proof.
  induction l as [|x l IH]; intros a b D Ha Hb E; [destruct Ha|].
  cbn [map distinct] in D. apply andb_prop in D. destruct D as [D1 D2].
  apply negb_true_iff in D1.
  assert (N : forall y, In y l -> sa_name y <> sa_name x).
  { intros y Hy Q. assert (M : mem (sa_name x) (map sa_name l) = true);
      [apply mem_In; rewrite <- Q; now apply in_map|]. rewrite D1 in M. discriminate M. }
  destruct Ha as [<-|Ha]; destruct Hb as [<-|Hb]; [reflexivity| | |now apply IH].
  - symmetry in E. exfalso. now apply (N b Hb).
  - exfalso. now apply (N a Ha).
Qed.

Lemma allowed_in : forall n m, allowed n m = true -> exists a, In a (schema_of n) /\ sa_name a = m.
Proof.
  intros n m H. unfold allowed in H. apply existsb_exists in H. destruct H as [a [Ha E]].
  exists a. split; [exact Ha|now apply String.eqb_eq].
Qed.

Lemma in_allowed : forall n a, In a (schema_of n) -> allowed n (sa_name a) = true.
Proof.
  intros n a H. unfold allowed. apply existsb_exists. exists a. split; [exact H|apply String.eqb_refl].
Qed.

(* No name beside those of the schema. *)
Definition no_alias (e : elementClass) (attrs : given) : Prop :=
  forall n, In n (names attrs) -> alias (e_name e) n = false.

Lemma split_last : forall n attrs x, last_of n attrs = Some x ->
  exists l1 l2, attrs = l1 ++ (n, x) :: l2 /\ ~ In n (names l2).
Proof.
  intros n attrs. induction attrs as [|[m y] l IH]; intros x H; [discriminate H|].
  cbn [last_of] in H. destruct (last_of n l) as [z|] eqn:E.
  - injection H as ->. destruct (IH x eq_refl) as [l1 [l2 [-> N]]].
    exists ((m, y) :: l1), l2. split; [reflexivity|exact N].
  - destruct (String.eqb m n) eqn:Q; [|discriminate H]. injection H as ->.
    apply String.eqb_eq in Q. subst m. exists [], l. split; [reflexivity|].
    intros Hin. clear IH. induction l as [|[k z] l IH]; [destruct Hin|].
    cbn [last_of] in E. destruct (last_of n l); [discriminate E|].
    destruct (String.eqb k n) eqn:Q; [discriminate E|]. cbn in Hin.
    destruct Hin as [->|Hin]; [now rewrite String.eqb_refl in Q|]. now apply IH.
Qed.

Lemma last_present : forall n attrs, In n (names attrs) -> exists x, last_of n attrs = Some x.
Proof.
  intros n attrs. induction attrs as [|[m y] l IH]; intros H; [destruct H|]. cbn [last_of].
  destruct (last_of n l) as [z|] eqn:E; [now exists z|].
  cbn in H. destruct H as [->|H]; [rewrite String.eqb_refl; now exists y|].
  destruct (IH H) as [x Q]. discriminate Q.
Qed.

Lemma last_in : forall n attrs x, last_of n attrs = Some x -> In (n, x) attrs.
Proof.
  intros n attrs x H. destruct (split_last _ _ _ H) as [l1 [l2 [-> _]]].
  apply in_or_app. right. now left.
Qed.

Lemma last_only : forall n attrs x, NoDup (names attrs) -> In (n, x) attrs -> last_of n attrs = Some x.
Proof.
  intros n attrs x D H. induction attrs as [|[m y] l IH]; [destruct H|].
  cbn [names map fst] in D. inversion D as [|? ? N D2]; subst. cbn [last_of].
  destruct H as [E|H].
  - injection E as -> ->. destruct (last_of n l) as [z|] eqn:Q.
    + exfalso. apply N. apply last_in in Q. change n with (fst (n, z)). now apply in_map.
    + now rewrite String.eqb_refl.
  - now rewrite (IH D2 H).
Qed.

Section Element.
Variables (takes : taking) (initial : string -> string) (e : elementClass) (attrs : given).
Hypothesis G : good e.

Let v := final takes initial e attrs.

Lemma flag_set : forall f, is_set v f = mem f (initial_of e) || existsb (sets (rs_of e) f) (names attrs).
Proof. intros f. unfold v, final. rewrite loop_flags. reflexivity. Qed.

(* A name of the schema that is kept. *)
Lemma kept_name : forall a, In a (schema_of (e_name e)) -> lost (e_name e) (sa_name a) = false ->
  exists r c, find_r (rs_of e) (sa_name a) = Some r /\ class_of (sa_type a) = Some c /\ r_type r = c /\
    mem (sa_type a) checked_types = negb (mem c unchecked) /\
    (exists w, In w (writes_of e) /\ w_name w = sa_name a) /\
    length (filter (fun w => String.eqb (w_name w) (sa_name a)) (writes_of e)) =
      (if doubled (e_name e) (sa_name a) then 2 else 1) /\
    (forall s, In s (rs_of e) -> hits (rs_of e) (r_member r) (r_name s) = true ->
       r_name s = sa_name a \/ alias (e_name e) (r_name s) = true).
Proof.
  intros a Ha Hl. pose proof (g_name e G a Ha) as C. unfold check_name in C. rewrite Hl in C.
  destruct (find_r (rs_of e) (sa_name a)) as [r|] eqn:R; [|discriminate C].
  apply andb_prop in C. destruct C as [C C5]. apply andb_prop in C. destruct C as [C C4].
  apply andb_prop in C. destruct C as [C C3]. apply andb_prop in C. destruct C as [C1 C2].
  unfold is_some_type in C1. destruct (class_of (sa_type a)) as [c|]; [|discriminate C1].
  apply String.eqb_eq in C1. exists r, c. split; [reflexivity|]. split; [reflexivity|].
  split; [now symmetry|]. split; [rewrite C1; now apply eqb_prop|]. split.
  { apply existsb_exists in C3. destruct C3 as [w [Hw E]]. exists w. split; [exact Hw|].
    now apply String.eqb_eq. }
  split; [now apply Nat.eqb_eq|].
  intros s Hs Hh. pose proof (proj1 (forallb_forall _ _) C5 s Hs) as Q. cbn beta in Q.
  rewrite Hh in Q. apply eqb_prop in Q. symmetry in Q. apply orb_prop in Q.
  destruct Q as [Q|Q]; [left; now apply String.eqb_eq|]. apply andb_prop in Q. now right.
Qed.

Lemma lost_name : forall a, In a (schema_of (e_name e)) -> lost (e_name e) (sa_name a) = true ->
  find_r (rs_of e) (sa_name a) = None.
Proof.
  intros a Ha Hl. pose proof (g_name e G a Ha) as C. unfold check_name in C. rewrite Hl in C.
  now destruct (find_r (rs_of e) (sa_name a)).
Qed.

Record written_ok (w : writing) : Prop := mkWrittenOk
  { k_has : mem (w_flag w) (has_of e) = true \/ exists f, In f (has_of e) /\ mem f (initial_of e) = true;
    k_known : allowed (e_name e) (w_name w) = true \/ alias (e_name e) (w_name w) = true;
    k_sets : forall s, In s (rs_of e) -> sets (rs_of e) (w_flag w) (r_name s) = true ->
             r_name s = w_name w \/ alias (e_name e) (r_name s) = true;
    k_kept : forall a, In a (schema_of (e_name e)) -> sa_name a = w_name w ->
             lost (e_name e) (sa_name a) = false ->
             hits (rs_of e) (w_member w) (sa_name a) = true /\
             (sets (rs_of e) (w_flag w) (sa_name a) = true \/ mem (w_flag w) (initial_of e) = true);
    k_initial : mem (w_flag w) (initial_of e) = true ->
             exists a, In a (schema_of (e_name e)) /\ sa_name a = w_name w /\ sa_required a = true }.

Lemma write_ok : forall w, In w (writes_of e) -> written_ok w.
Proof.
  intros w Hw. pose proof (g_write e G w Hw) as C. unfold check_write in C. cbn zeta in C.
  apply andb_prop in C. destruct C as [C C6]. apply andb_prop in C. destruct C as [C C5].
  apply andb_prop in C. destruct C as [C C4]. apply andb_prop in C. destruct C as [C C3].
  apply andb_prop in C. destruct C as [C1 C2]. constructor.
  - apply orb_prop in C1. destruct C1 as [C1|C1]; [now left|right].
    apply existsb_exists in C1. exact C1.
  - now apply orb_prop in C2.
  - intros s Hs Hx. pose proof (proj1 (forallb_forall _ _) C3 s Hs) as Q. cbn beta in Q.
    rewrite Hx in Q. cbn [negb orb] in Q. apply orb_prop in Q.
    destruct Q as [Q|Q]; [left; now apply String.eqb_eq|now right].
  - intros a Ha En Hl. split.
    + pose proof (proj1 (forallb_forall _ _) C4 a Ha) as Q. cbn beta in Q.
      rewrite En, String.eqb_refl in Q. rewrite En in Hl. rewrite Hl in Q. cbn [negb orb] in Q.
      apply andb_prop in Q. rewrite En. now destruct Q.
    + pose proof (proj1 (forallb_forall _ _) C6 a Ha) as Q. cbn beta in Q.
      rewrite En, String.eqb_refl in Q. rewrite En in Hl. rewrite Hl in Q. cbn [negb orb] in Q.
      rewrite orb_false_r in Q. rewrite En. now apply orb_prop in Q.
  - intros Hi. rewrite Hi in C5. cbn [negb orb] in C5. apply existsb_exists in C5.
    destruct C5 as [a [Ha Q]]. apply andb_prop in Q. destruct Q as [Q1 Q2]. exists a.
    split; [exact Ha|]. split; [now apply String.eqb_eq|exact Q2].
Qed.

Lemma stream_in : forall n x, In (n, x) (flat_map (fun w => streamAttribute w v) (writes_of e)) <->
  exists w, In w (writes_of e) /\ w_name w = n /\ value v (w_member w) = x /\ is_set v (w_flag w) = true.
Proof.
  intros n x. rewrite in_flat_map. split.
  - intros [w [Hw H]]. unfold streamAttribute in H. destruct (is_set v (w_flag w)) eqn:F; [|destruct H].
    destruct H as [H|[]]. injection H as H1 H2. exists w. now repeat split.
  - intros [w [Hw [H1 [H2 H3]]]]. exists w. split; [exact Hw|]. unfold streamAttribute.
    rewrite H3, H1, H2. now left.
Qed.

Lemma written_in : forall n x, In (n, x) (rewritten takes initial e attrs) <->
  exists w, In w (writes_of e) /\ w_name w = n /\ value v (w_member w) = x /\ is_set v (w_flag w) = true.
Proof.
  intros n x. rewrite rewritten_final. fold v. cbn zeta.
  destruct (existsb (is_set v) (has_of e)) eqn:Hh; [apply stream_in|].
  split; [intros []|]. intros [w [Hw [_ [_ F]]]]. exfalso.
  assert (Q : existsb (is_set v) (has_of e) = true).
  { apply existsb_exists. destruct (k_has w (write_ok w Hw)) as [M|[f [M1 M2]]].
    - exists (w_flag w). split; [now apply mem_In|exact F].
    - exists f. split; [exact M1|]. rewrite flag_set, M2. reflexivity. }
  rewrite Hh in Q. discriminate Q.
Qed.

Hypothesis A : no_alias e attrs.

Lemma present_flag : forall f, existsb (sets (rs_of e) f) (names attrs) = true ->
  exists s, In s (rs_of e) /\ sets (rs_of e) f (r_name s) = true /\ In (r_name s) (names attrs).
Proof.
  intros f H. apply existsb_exists in H. destruct H as [n [Hn Hs]].
  pose proof Hs as Hs0. unfold sets in Hs. destruct (find_r (rs_of e) n) as [s|] eqn:R; [|discriminate Hs].
  apply find_r_name in R. destruct R as [Hi En]. exists s. rewrite En. now repeat split.
Qed.

Lemma absent_unset : forall w, In w (writes_of e) -> is_set v (w_flag w) = true ->
  ~ In (w_name w) (names attrs) ->
  exists a, In a (schema_of (e_name e)) /\ sa_name a = w_name w /\ sa_required a = true.
Proof.
  intros w Hw F N. rewrite flag_set in F. apply orb_prop in F. destruct F as [F|F].
  - now apply (k_initial w (write_ok w Hw)).
  - exfalso. apply present_flag in F. destruct F as [s [Hs [Hx Hn]]].
    destruct (k_sets w (write_ok w Hw) s Hs Hx) as [Q|Q]; [rewrite Q in Hn; now apply N|].
    rewrite (A _ Hn) in Q. discriminate Q.
Qed.

Lemma present_set : forall w a, In w (writes_of e) -> In a (schema_of (e_name e)) ->
  sa_name a = w_name w -> lost (e_name e) (sa_name a) = false -> In (w_name w) (names attrs) ->
  is_set v (w_flag w) = true.
Proof.
  intros w a Hw Ha En Hl Hn. rewrite flag_set.
  destruct (k_kept w (write_ok w Hw) a Ha En Hl) as [_ [Q|Q]]; [|now rewrite Q].
  apply orb_true_iff. right. apply existsb_exists. exists (w_name w). split; [exact Hn|].
  now rewrite <- En.
Qed.

Lemma present_value : forall w a x, In w (writes_of e) -> In a (schema_of (e_name e)) ->
  sa_name a = w_name w -> lost (e_name e) (sa_name a) = false -> last_of (w_name w) attrs = Some x ->
  exists c old, class_of (sa_type a) = Some c /\ value v (w_member w) = takes c old x.
Proof.
  intros w a x Hw Ha En Hl Hx.
  destruct (kept_name a Ha Hl) as [r [c [R [Hc [Ht [_ [_ [_ Hits]]]]]]]].
  destruct (k_kept w (write_ok w Hw) a Ha En Hl) as [Hh _]. unfold hits in Hh. rewrite R in Hh.
  apply String.eqb_eq in Hh. destruct (split_last _ _ _ Hx) as [l1 [l2 [E N]]].
  rewrite <- En in E, N.
  assert (Hl2 : existsb (hits (rs_of e) (r_member r)) (map fst l2) = false).
  { apply not_true_is_false. intros Q. apply existsb_exists in Q. destruct Q as [m [Hm Hq]].
    pose proof Hq as Hq0. unfold hits in Hq0. destruct (find_r (rs_of e) m) as [s|] eqn:R2; [|discriminate Hq0].
    apply find_r_name in R2. destruct R2 as [Hs Em]. rewrite <- Em in Hq.
    destruct (Hits s Hs Hq) as [Z|Z].
    - rewrite Em in Z. rewrite Z in Hm. now apply N.
    - rewrite Em in Z. rewrite (A m) in Z; [discriminate Z|]. unfold names. rewrite E, map_app.
      apply in_or_app. right. now right. }
  exists c. unfold v, final. rewrite Hh, E.
  destruct (loop_value takes (rs_of e) l1 (sa_name a) x l2 (start initial e) r R Hl2) as [old Ho].
  exists old. split; [exact Hc|]. now rewrite Ho, Ht.
Qed.

Lemma value_back : forall a x, In a (schema_of (e_name e)) -> lost (e_name e) (sa_name a) = false ->
  last_of (sa_name a) attrs = Some x ->
  exists c old, class_of (sa_type a) = Some c /\
    In (sa_name a, takes c old x) (rewritten takes initial e attrs).
Proof.
  intros a x Ha Hl Hx. destruct (kept_name a Ha Hl) as [r [c [_ [_ [_ [_ [[w [Hw Ew]] _]]]]]]].
  symmetry in Ew. rewrite Ew in Hx. destruct (present_value w a x Hw Ha Ew Hl Hx) as [d [old [Hd Hv]]].
  exists d, old. split; [exact Hd|]. apply written_in. exists w. repeat split; [exact Hw|now symmetry|exact Hv|].
  apply (present_set w a Hw Ha Ew Hl). apply last_in in Hx.
  change (w_name w) with (fst (w_name w, x)). now apply in_map.
Qed.

Lemma nothing_else : forall n x, In (n, x) (rewritten takes initial e attrs) ->
  In n (names attrs) \/
  exists a, In a (schema_of (e_name e)) /\ sa_name a = n /\ sa_required a = true.
Proof.
  intros n x H. apply written_in in H. destruct H as [w [Hw [En [_ F]]]].
  destruct (in_dec string_dec n (names attrs)) as [I|N]; [now left|right].
  rewrite <- En in N |- *. now apply absent_unset.
Qed.

End Element.

Lemma written_known : forall takes initial e attrs n x, In e elements ->
  In (n, x) (rewritten takes initial e attrs) ->
  allowed (e_name e) n = true \/ alias (e_name e) n = true.
Proof.
  intros takes initial e attrs n x He H. pose proof (all_good e He) as G.
  apply (written_in takes initial e attrs G) in H. destruct H as [w [Hw [<- _]]].
  exact (k_known e w (write_ok e G w Hw)).
Qed.

Lemma conforming_no_alias : forall takes e attrs, good e -> conforms takes (e_name e) attrs ->
  no_alias e attrs.
Proof.
  intros takes e attrs G [_ [C _]] n Hn. unfold names in Hn. apply in_map_iff in Hn.
  destruct Hn as [[m x] [<- Hn]]. destruct (C m x Hn) as [a [Ha [<- _]]]. cbn [fst].
  now apply (g_alias e G).
Qed.

Lemma unknown_ignored : forall takes initial e attrs, In e elements ->
  let known := filter (fun a => allowed (e_name e) (fst a) || alias (e_name e) (fst a)) attrs in
  accepted takes initial e attrs = accepted takes initial e known /\
  rewritten takes initial e attrs = rewritten takes initial e known.
Proof.
  intros takes initial e attrs He known. pose proof (all_good e He) as G.
  assert (E : final takes initial e known = final takes initial e attrs).
  { unfold known, final. apply (loop_filter takes (rs_of e) (fun n => allowed (e_name e) n || alias (e_name e) n)).
    intros n Hn.
    destruct (find_r (rs_of e) n) as [r|] eqn:R; [|reflexivity]. apply find_r_name in R.
    destruct R as [Hr En]. pose proof (proj1 (forallb_forall _ _) (g_known e G) r Hr) as Q.
    cbn beta in Q. rewrite En, Hn in Q. discriminate Q. }
  now rewrite !accepted_final, !rewritten_final, E.
Qed.

Lemma required_missing : forall takes initial e attrs a, In e elements ->
  mem (e_name e) unreadable = false -> e_name e <> "bracket" ->
  In a (schema_of (e_name e)) -> sa_required a = true -> ~ In (sa_name a) (names attrs) ->
  no_alias e attrs -> accepted takes initial e attrs = false.
Proof.
  intros takes initial e attrs a He Hu Hb Ha Hr N A. pose proof (all_good e He) as G.
  pose proof (g_required e G) as C. unfold check_required in C. rewrite Hu in C.
  destruct (String.eqb (e_name e) "bracket") eqn:Q; [apply String.eqb_eq in Q; now destruct Hb|].
  cbn [orb] in C. pose proof (proj1 (forallb_forall _ _) C a Ha) as D. cbn beta in D.
  rewrite Hr in D. cbn [negb orb] in D. apply existsb_exists in D. destruct D as [f [Hf D]].
  apply andb_prop in D. destruct D as [D1 D2]. apply negb_true_iff in D1.
  rewrite accepted_final. apply andb_false_iff. right. apply not_true_is_false. intros F.
  pose proof (proj1 (forallb_forall _ _) F f Hf) as S. rewrite flag_set, D1 in S. cbn [orb] in S.
  apply existsb_exists in S. destruct S as [n [Hn S]]. unfold sets in S.
  destruct (find_r (rs_of e) n) as [r|] eqn:R; [|discriminate S]. apply String.eqb_eq in S.
  apply find_r_name in R. destruct R as [Hri En].
  pose proof (proj1 (forallb_forall _ _) D2 r Hri) as Z. cbn beta in Z.
  rewrite <- S, String.eqb_refl in Z. cbn [negb orb] in Z. rewrite En in Z. apply orb_prop in Z.
  destruct Z as [Z|Z].
  - apply String.eqb_eq in Z. rewrite Z in Hn. exact (N Hn).
  - rewrite (A n Hn) in Z. discriminate Z.
Qed.

Lemma accepted_checked : forall takes initial e attrs n x a c, In e elements ->
  accepted takes initial e attrs = true -> In (n, x) attrs ->
  In a (schema_of (e_name e)) -> sa_name a = n -> lost (e_name e) n = false ->
  In (sa_type a) checked_types -> class_of (sa_type a) = Some c -> exists old, takes c old x = x.
Proof.
  intros takes initial e attrs n x a c He Hacc Hin Ha En Hl Ht Hc. pose proof (all_good e He) as G.
  rewrite accepted_final in Hacc. apply andb_prop in Hacc. destruct Hacc as [S _].
  rewrite <- En in Hl. destruct (kept_name e G a Ha Hl) as [r [d [R [Hd [Er [Hm _]]]]]].
  rewrite Hc in Hd. injection Hd as <-. apply mem_In in Ht. rewrite Ht in Hm. symmetry in Hm.
  apply negb_true_iff in Hm. subst c. rewrite <- En in Hin.
  exact (loop_succeeded takes (rs_of e) attrs _ S _ x r Hin R Hm).
Qed.

Lemma accepted_when : forall takes initial e attrs, In e elements ->
  mem (e_name e) unreadable = false -> no_alias e attrs ->
  (forall a, In a (schema_of (e_name e)) -> sa_required a = true -> In (sa_name a) (names attrs)) ->
  (forall n x a c, In (n, x) attrs -> In a (schema_of (e_name e)) -> sa_name a = n ->
     In (sa_type a) checked_types -> class_of (sa_type a) = Some c ->
     forall old, takes c old x = x) ->
  accepted takes initial e attrs = true.
Proof.
  intros takes initial e attrs He Hu A Hreq Hv. pose proof (all_good e He) as G.
  rewrite accepted_final. apply andb_true_intro. split.
  - unfold final. apply loop_success; [reflexivity|]. intros n x r Hin R U old.
    apply find_r_name in R as Hr. destruct Hr as [Hr En].
    pose proof (proj1 (forallb_forall _ _) (g_known e G) r Hr) as Q. cbn beta in Q. rewrite En in Q.
    rewrite (A n) in Q; [|change n with (fst (n, x)); unfold names; now apply in_map].
    rewrite orb_false_r in Q. destruct (allowed_in _ _ Q) as [a [Ha Ea]].
    destruct (lost (e_name e) (sa_name a)) eqn:L.
    + rewrite <- Ea, (lost_name e G a Ha L) in R. discriminate R.
    + destruct (kept_name e G a Ha L) as [s [c [S [Hc [Es [Hm _]]]]]]. rewrite Ea, R in S.
      injection S as <-. subst c. rewrite U in Hm. apply mem_In in Hm. now apply (Hv n x a (r_type r)).
  - apply forallb_forall. intros f Hf. rewrite flag_set. apply orb_true_iff. right.
    pose proof (g_found e G) as C. unfold check_found in C. rewrite Hu in C. cbn [orb] in C.
    pose proof (proj1 (forallb_forall _ _) C f Hf) as D. cbn beta in D. apply existsb_exists in D.
    destruct D as [a [Ha D]]. apply andb_prop in D. destruct D as [D1 D2].
    apply existsb_exists. exists (sa_name a). split; [now apply Hreq|exact D2].
Qed.

Lemma required_kept : forall e a, In e elements -> mem (e_name e) unreadable = false ->
  In a (schema_of (e_name e)) -> sa_required a = true -> lost (e_name e) (sa_name a) = false.
Proof.
  intros e a He Hu Ha Hr.
  assert (Q : forallb (fun e => mem (e_name e) unreadable
                || forallb (fun a => negb (sa_required a) || negb (lost (e_name e) (sa_name a)))
                     (schema_of (e_name e))) elements = true) by (vm_compute; reflexivity).
  pose proof (proj1 (forallb_forall _ _) Q e He) as Z. cbn beta in Z. rewrite Hu in Z. cbn [orb] in Z.
  pose proof (proj1 (forallb_forall _ _) Z a Ha) as Y. cbn beta in Y. rewrite Hr in Y. cbn [negb orb] in Y.
  now apply negb_true_iff in Y.
Qed.

Lemma kept_in : forall element n x attrs,
  In (n, x) (kept element attrs) <-> In (n, x) attrs /\ lost element n = false.
Proof.
  intros. unfold kept. rewrite filter_In. cbn [fst]. now rewrite negb_true_iff.
Qed.

Lemma conforming_back : forall takes initial e attrs, In e elements ->
  mem (e_name e) unreadable = false -> conforms takes (e_name e) attrs ->
  accepted takes initial e attrs = true /\
  forall n x, In (n, x) (rewritten takes initial e attrs) <-> In (n, x) (kept (e_name e) attrs).
Proof.
  intros takes initial e attrs He Hu C. pose proof (all_good e He) as G.
  pose proof (conforming_no_alias takes e attrs G C) as A. destruct C as [D [C R]].
  assert (V : forall n x a c, In (n, x) attrs -> In a (schema_of (e_name e)) -> sa_name a = n ->
                class_of (sa_type a) = Some c -> forall old, takes c old x = x).
  { intros n x a c Hin Ha En Hc old. destruct (C n x Hin) as [b [Hb [Eb Hv]]].
    rewrite <- En in Eb. rewrite (same_attribute _ b a (g_distinct e G) Hb Ha Eb) in Hv. now apply Hv. }
  split.
  { apply accepted_when; try assumption. intros n x a c Hin Ha En _ Hc old. now apply (V n x a c). }
  intros n x. rewrite kept_in. split.
  - intros H. pose proof H as H0. apply (written_in takes initial e attrs G) in H.
    destruct H as [w [Hw [En [Ev F]]]].
    assert (I : In (w_name w) (names attrs)).
    { destruct (in_dec string_dec (w_name w) (names attrs)) as [I|N]; [exact I|].
      destruct (absent_unset takes initial e attrs G A w Hw F N) as [a [Ha [Ea Hr]]].
      rewrite <- Ea. now apply R. }
    destruct (last_present _ _ I) as [y Hy]. pose proof (last_in _ _ _ Hy) as Hin.
    destruct (C _ _ Hin) as [a [Ha [Ea _]]].
    destruct (lost (e_name e) (sa_name a)) eqn:L.
    + exfalso. rewrite flag_set in F. apply orb_prop in F. destruct F as [F|F].
      * destruct (k_initial e w (write_ok e G w Hw) F) as [b [Hb [Eb Hr]]].
        assert (b = a) by (apply (same_attribute _ b a (g_distinct e G) Hb Ha); congruence). subst b.
        rewrite (required_kept e a He Hu Ha Hr) in L. discriminate L.
      * apply present_flag in F. destruct F as [s [Hs [Hx Hn]]].
        destruct (k_sets e w (write_ok e G w Hw) s Hs Hx) as [Z|Z].
        -- unfold sets in Hx. rewrite Z, <- Ea, (lost_name e G a Ha L) in Hx. discriminate Hx.
        -- rewrite (A _ Hn) in Z. discriminate Z.
    + destruct (present_value takes initial e attrs G A w a y Hw Ha Ea L Hy) as [c [old [Hc Hv]]].
      rewrite (V (w_name w) y a c Hin Ha Ea Hc old) in Hv. rewrite <- En.
      rewrite Ev in Hv. rewrite Hv. split; [exact Hin|]. now rewrite <- Ea.
  - intros [Hin L]. destruct (C n x Hin) as [a [Ha [Ea _]]]. subst n.
    destruct (value_back takes initial e attrs G A a x Ha L (last_only _ _ _ D Hin)) as [c [old [Hc H]]].
    now rewrite (V (sa_name a) x a c Hin Ha eq_refl Hc old) in H.
Qed.

Lemma times_in : forall n l, times n l = 0 <-> ~ In n (names l).
Proof.
  intros n l. unfold times. induction l as [|[m x] l IH]; [cbn; tauto|]. cbn [filter fst].
  destruct (String.eqb m n) eqn:E.
  - apply String.eqb_eq in E. subst m. cbn. split; [discriminate|intros H; exfalso; apply H; now left].
  - cbn. rewrite IH. apply String.eqb_neq in E. split; [intros H [Q|Q]; tauto|tauto].
Qed.

Lemma times_nodup : forall n l, NoDup (names l) -> In n (names l) -> times n l = 1.
Proof.
  intros n l D H. induction l as [|[m x] l IH]; [destruct H|]. cbn [names map fst] in D.
  inversion D as [|? ? N D2]; subst. unfold times. cbn [filter fst].
  destruct (String.eqb m n) eqn:E.
  - apply String.eqb_eq in E. subst m. apply times_in in N. unfold times in N. cbn [List.length].
    now rewrite N.
  - cbn in H. destruct H as [->|H]; [now rewrite String.eqb_refl in E|]. now apply IH.
Qed.

Lemma times_app : forall n l1 l2, times n (l1 ++ l2) = times n l1 + times n l2.
Proof. intros. unfold times. now rewrite filter_app, app_length. Qed.

Lemma times_stream : forall n v ws,
  (forall w, In w ws -> w_name w = n -> is_set v (w_flag w) = true) ->
  times n (flat_map (fun w => streamAttribute w v) ws) =
  List.length (filter (fun w => String.eqb (w_name w) n) ws).
Proof.
  intros n v ws. induction ws as [|w ws IH]; intros H; [reflexivity|]. cbn [flat_map filter].
  rewrite times_app, IH by (intros; apply H; [now right|assumption]).
  unfold streamAttribute, times. destruct (String.eqb (w_name w) n) eqn:E.
  - rewrite (H w (or_introl eq_refl)) by now apply String.eqb_eq. cbn [filter fst]. rewrite E. reflexivity.
  - destruct (is_set v (w_flag w)); [|reflexivity]. cbn [filter fst]. now rewrite E.
Qed.

Lemma conforming_times : forall takes initial e attrs n, In e elements ->
  mem (e_name e) unreadable = false -> conforms takes (e_name e) attrs ->
  times n (rewritten takes initial e attrs) =
  (if doubled (e_name e) n then 2 else 1) * times n (kept (e_name e) attrs).
Proof.
  intros takes initial e attrs n He Hu C. pose proof (all_good e He) as G.
  destruct (conforming_back takes initial e attrs He Hu C) as [_ B].
  pose proof (conforming_no_alias takes e attrs G C) as A.
  destruct (in_dec string_dec n (names (kept (e_name e) attrs))) as [I|N].
  - unfold names in I. apply in_map_iff in I. destruct I as [[m x] [<- I]]. cbn [fst].
    pose proof (proj1 (kept_in _ _ _ _) I) as [Hin L]. destruct C as [D [C R]].
    destruct (C m x Hin) as [a [Ha [<- _]]].
    assert (T : times (sa_name a) (kept (e_name e) attrs) = 1).
    { apply times_nodup.
      - unfold names, kept. clear - D. induction attrs as [|[k y] l IH]; [constructor|].
        cbn [names map fst] in D. inversion D as [|? ? N D2]; subst. cbn [filter fst].
        destruct (negb (lost (e_name e) k)); [|now apply IH]. cbn [map fst]. constructor; [|now apply IH].
        intros Q. apply N. apply in_map_iff in Q. destruct Q as [p [E Q]]. apply filter_In in Q.
        apply in_map_iff. exists p. tauto.
      - change (sa_name a) with (fst (sa_name a, x)). unfold names. now apply in_map. }
    rewrite T, Nat.mul_1_r. destruct (kept_name e G a Ha L) as [r [c [_ [_ [_ [_ [_ [Hlen _]]]]]]]].
    rewrite <- Hlen. pose proof (proj2 (B (sa_name a) x) I) as W. rewrite rewritten_final in W |- *.
    cbn zeta in W |- *. destruct (existsb _ (has_of e)); [|destruct W].
    apply times_stream. intros w Hw Ew. symmetry in Ew.
    apply (present_set takes initial e attrs G w a Hw Ha Ew L). rewrite <- Ew.
    change (sa_name a) with (fst (sa_name a, x)). unfold names. now apply in_map.
  - assert (Z1 : times n (kept (e_name e) attrs) = 0) by now apply times_in.
    assert (Z2 : times n (rewritten takes initial e attrs) = 0).
    { apply times_in. intros Q. unfold names in Q. apply in_map_iff in Q. destruct Q as [[m x] [<- Q]].
      apply N. unfold names. apply in_map_iff. exists (m, x). split; [reflexivity|]. now apply B. }
    rewrite Z1, Z2. now rewrite Nat.mul_0_r.
Qed.

Lemma nodup_times : forall l : given, (forall n, times n l <= 1) -> NoDup l.
Proof.
  induction l as [|[n x] l IH]; intros H; [constructor|]. constructor.
  - intros Q. pose proof (H n) as Z. unfold times in Z. cbn [filter fst] in Z.
    rewrite String.eqb_refl in Z. cbn [List.length] in Z.
    assert (T : times n l = 0) by (unfold times; lia). apply times_in in T. apply T.
    change n with (fst (n, x)). unfold names. now apply in_map.
  - apply IH. intros m. pose proof (H m) as Z. unfold times in *. cbn [filter fst] in Z.
    destruct (String.eqb n m); cbn [List.length] in Z; lia.
Qed.

Lemma nodup_given : forall l : given, NoDup (names l) -> NoDup l.
Proof. intros l H. unfold names in H. now apply NoDup_map_inv in H. Qed.

Lemma conforming_same : forall takes initial e attrs, In e elements ->
  mem (e_name e) unreadable = false -> conforms takes (e_name e) attrs ->
  (forall n, In n (names attrs) -> lost (e_name e) n = false /\ doubled (e_name e) n = false) ->
  Permutation (rewritten takes initial e attrs) attrs.
Proof.
  intros takes initial e attrs He Hu C H.
  assert (K : kept (e_name e) attrs = attrs).
  { unfold kept. clear - H. induction attrs as [|[n x] l IH]; [reflexivity|]. cbn [filter fst].
    rewrite (proj1 (H n (or_introl eq_refl))). cbn [negb]. f_equal. apply IH. intros m Hm. apply H. now right. }
  apply NoDup_Permutation.
  - apply nodup_times. intros n. rewrite (conforming_times takes initial e attrs n He Hu C), K.
    destruct (in_dec string_dec n (names attrs)) as [I|N].
    + destruct (H n I) as [_ ->]. rewrite times_nodup; [lia|now destruct C|exact I].
    + apply times_in in N. rewrite N. lia.
  - apply nodup_given. now destruct C.
  - intros [n x]. destruct (conforming_back takes initial e attrs He Hu C) as [_ B]. now rewrite B, K.
Qed.
