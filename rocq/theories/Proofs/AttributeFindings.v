(* The attributes that do not come back. *)

From Coq Require Import String List Bool Arith Lia Permutation.
From Verif Require Import Model.Attributes Model.AttributeClasses Spec.SchemaAttributes Spec.AttributeExamples
  Proofs.AttributeLoops Proofs.AttributeProofs.
Import ListNotations.
Open Scope string_scope.
Open Scope list_scope.

Lemma the_element_in : forall c,
  existsb (fun e => String.eqb (e_class e) c) elements = true -> In (the_element c) elements.
Proof.
  intros c H. unfold the_element. destruct (find _ elements) as [e|] eqn:F.
  - now apply find_some in F.
  - apply existsb_exists in H. destruct H as [e [He E]].
    pose proof (find_none _ _ F e He) as Q. cbn beta in Q. rewrite E in Q. discriminate Q.
Qed.

Lemma unreadable_refused : forall takes initial e attrs, In e elements ->
  In (e_name e) unreadable -> conforms takes (e_name e) attrs ->
  accepted takes initial e attrs = false.
Proof.
  intros takes initial e attrs He Hu C. pose proof (all_good e He) as G.
  pose proof (conforming_no_alias takes e attrs G C) as A.
  assert (Q : forallb (fun e => negb (mem (e_name e) unreadable)
                || existsb (fun f => negb (mem f (initial_of e))
                     && forallb (fun r => negb (String.eqb f (r_flag r)) || alias (e_name e) (r_name r))
                          (rs_of e)) (found_of e)) elements = true) by (vm_compute; reflexivity).
  pose proof (proj1 (forallb_forall _ _) Q e He) as Z. cbn beta in Z.
  apply mem_In in Hu. rewrite Hu in Z. cbn [negb orb] in Z. apply existsb_exists in Z.
  destruct Z as [f [Hf Z]]. apply andb_prop in Z. destruct Z as [Z1 Z2]. apply negb_true_iff in Z1.
  rewrite accepted_final. apply andb_false_iff. right. apply not_true_is_false. intros F.
  pose proof (proj1 (forallb_forall _ _) F f Hf) as S. rewrite flag_set, Z1 in S. cbn [orb] in S.
  apply present_flag in S. destruct S as [s [Hs [Hx Hn]]]. unfold sets in Hx.
  destruct (find_r (rs_of e) (r_name s)) as [r|] eqn:R; [|discriminate Hx].
  apply find_r_name in R. destruct R as [Hr En].
  pose proof (proj1 (forallb_forall _ _) Z2 r Hr) as Y. cbn beta in Y. rewrite Hx in Y.
  cbn [negb orb] in Y. rewrite En, (A _ Hn) in Y. discriminate Y.
Qed.

(* Each other name of an element fills the member it is written from. *)
Definition check_alias (e : elementClass) (n t : string) : bool :=
  match find_r (rs_of e) n with
  | None => false
  | Some r =>
      existsb (fun w => String.eqb (w_name w) t && String.eqb (w_member w) (r_member r)
                        && (String.eqb (w_flag w) (r_flag r) || mem (w_flag w) (initial_of e)))
        (writes_of e)
      && forallb (fun s => negb (hits (rs_of e) (r_member r) (r_name s))
                           || String.eqb (r_name s) n || String.eqb (r_name s) t) (rs_of e)
  end.

Lemma alias_back : forall takes initial e attrs l n t x, In e elements ->
  In (e_name e, l) also_known -> In (n, t) l ->
  NoDup (names attrs) -> In (n, x) attrs -> (In t (names attrs) -> t = n) ->
  exists c old, In (t, takes c old x) (rewritten takes initial e attrs).
Proof.
  intros takes initial e attrs l n t x He Hk Hl D Hin Ht. pose proof (all_good e He) as G.
  assert (Q : forallb (fun e => forallb (fun p => negb (String.eqb (fst p) (e_name e))
                || forallb (fun q => check_alias e (fst q) (snd q)) (snd p)) also_known) elements = true)
    by (vm_compute; reflexivity).
  pose proof (proj1 (forallb_forall _ _) Q e He) as Z. cbn beta in Z.
  pose proof (proj1 (forallb_forall _ _) Z _ Hk) as Y. cbn beta in Y. cbn [fst snd] in Y.
  rewrite String.eqb_refl in Y. cbn [negb orb] in Y.
  pose proof (proj1 (forallb_forall _ _) Y _ Hl) as X. cbn beta in X. cbn [fst snd] in X.
  unfold check_alias in X. destruct (find_r (rs_of e) n) as [r|] eqn:R; [|discriminate X].
  apply andb_prop in X. destruct X as [X1 X2]. apply existsb_exists in X1. destruct X1 as [w [Hw X1]].
  apply andb_prop in X1. destruct X1 as [X1 X5]. apply andb_prop in X1. destruct X1 as [X3 X4].
  apply String.eqb_eq in X3. apply String.eqb_eq in X4.
  pose proof (last_only _ _ _ D Hin) as La. destruct (split_last _ _ _ La) as [l1 [l2 [E N]]].
  assert (Hl2 : existsb (hits (rs_of e) (r_member r)) (map fst l2) = false).
  { apply not_true_is_false. intros P. apply existsb_exists in P. destruct P as [m [Hm Hq]].
    pose proof Hq as Hq0. unfold hits in Hq0.
    destruct (find_r (rs_of e) m) as [s|] eqn:R2; [|discriminate Hq0].
    apply find_r_name in R2. destruct R2 as [Hs Em].
    pose proof (proj1 (forallb_forall _ _) X2 s Hs) as V. cbn beta in V. rewrite Em, Hq in V.
    cbn [negb orb] in V. apply orb_prop in V.
    assert (V2 : m = n).
    { destruct V as [V|V]; apply String.eqb_eq in V; [exact V|]. rewrite V. apply Ht. unfold names.
      rewrite E, map_app. apply in_or_app. right. right. now rewrite <- V. }
    rewrite V2 in Hm. exact (N Hm). }
  destruct (loop_value takes (rs_of e) l1 n x l2 (start initial e) r R Hl2) as [old Ho].
  exists (r_type r), old. apply (written_in takes initial e attrs G). exists w.
  split; [exact Hw|]. split; [exact X3|]. split.
  - rewrite X4. unfold final. rewrite E. exact Ho.
  - rewrite flag_set. apply orb_true_iff. apply orb_prop in X5. destruct X5 as [X5|X5]; [right|now left].
    apply existsb_exists. exists n. split; [change n with (fst (n, x)); unfold names; now apply in_map|].
    unfold sets. now rewrite R.
Qed.

Lemma bracket_lenient : forall takes initial,
  accepted takes initial (the_element "Bracket") [] = true /\
  rewritten takes initial (the_element "Bracket") [] =
    [("type", initial "type"); ("line-end", initial "lineEnd")].
Proof. intros. split; vm_compute; reflexivity. Qed.

Lemma required_refuted :
  ~ (forall takes initial e attrs a, In e elements -> In a (schema_of (e_name e)) ->
       sa_required a = true -> ~ In (sa_name a) (names attrs) ->
       accepted takes initial e attrs = false).
Proof.
  intros H.
  assert (Q : accepted verbatim blank (the_element "Bracket") [] = false).
  { apply (H verbatim blank (the_element "Bracket") [] (mkSchema "type" true "start-stop-continue")).
    - apply the_element_in. vm_compute. reflexivity.
    - vm_compute. tauto.
    - reflexivity.
    - intros []. }
  rewrite (proj1 (bracket_lenient verbatim blank)) in Q. discriminate Q.
Qed.

Definition check_conforms (n : string) (attrs : given) : bool :=
  distinct (names attrs)
  && forallb (fun p => existsb (fun a => String.eqb (sa_name a) (fst p)) (schema_of n)) attrs
  && forallb (fun a => negb (sa_required a) || mem (sa_name a) (names attrs)) (schema_of n).

Lemma distinct_nodup : forall l, distinct l = true -> NoDup l.
Proof.
  induction l as [|x l IH]; intros H; [constructor|]. cbn [distinct] in H. apply andb_prop in H.
  destruct H as [H1 H2]. constructor; [|now apply IH]. intros Q. apply mem_In in Q.
  rewrite Q in H1. discriminate H1.
Qed.

Lemma conforms_by : forall n attrs, check_conforms n attrs = true -> conforms verbatim n attrs.
Proof.
  intros n attrs H. unfold check_conforms in H. apply andb_prop in H. destruct H as [H H3].
  apply andb_prop in H. destruct H as [H1 H2]. split; [now apply distinct_nodup|]. split.
  - intros m x Hm. pose proof (proj1 (forallb_forall _ _) H2 _ Hm) as Q. cbn beta in Q.
    apply existsb_exists in Q. destruct Q as [a [Ha E]]. exists a. split; [exact Ha|].
    split; [now apply String.eqb_eq|]. intros c old _. reflexivity.
  - intros a Ha Hr. pose proof (proj1 (forallb_forall _ _) H3 a Ha) as Q. cbn beta in Q.
    rewrite Hr in Q. cbn [negb orb] in Q. now apply mem_In.
Qed.

Lemma back_refuted :
  ~ (forall takes initial e attrs, In e elements -> conforms takes (e_name e) attrs ->
       accepted takes initial e attrs = true /\ Permutation (rewritten takes initial e attrs) attrs).
Proof.
  intros H. destruct (H verbatim blank (the_element "Beam") [("color", "#FF0000")]) as [_ P].
  - apply the_element_in. vm_compute. reflexivity.
  - apply conforms_by. vm_compute. reflexivity.
  - apply Permutation_length in P. vm_compute in P. discriminate P.
Qed.

Lemma written_allowed : forall takes initial e attrs n x, In e elements ->
  In (n, x) (rewritten takes initial e attrs) ->
  allowed (e_name e) n = true \/
  (n = "print-object" /\ In (e_name e) ["coda"; "damp"; "damp-all"; "eyeglasses"; "segno"]).
Proof.
  intros takes initial e attrs n x He H. pose proof (all_good e He) as G.
  apply (written_in takes initial e attrs G) in H. destruct H as [w [Hw [<- _]]].
  assert (Q : forallb (fun e => forallb (fun w => allowed (e_name e) (w_name w)
                || (String.eqb (w_name w) "print-object"
                    && mem (e_name e) ["coda"; "damp"; "damp-all"; "eyeglasses"; "segno"]))
                (writes_of e)) elements = true) by (vm_compute; reflexivity).
  pose proof (proj1 (forallb_forall _ _) Q e He) as Z. cbn beta in Z.
  pose proof (proj1 (forallb_forall _ _) Z w Hw) as Y. cbn beta in Y. apply orb_prop in Y.
  destruct Y as [Y|Y]; [now left|right]. apply andb_prop in Y. destruct Y as [Y1 Y2].
  split; [now apply String.eqb_eq|now apply mem_In].
Qed.
