(* Reading and writing attributes, for any attribute class. *)

From Coq Require Import String List Bool Arith Lia Permutation.
From Verif Require Import Model.Attributes Spec.SchemaAttributes.
Import ListNotations.
Open Scope string_scope.

Definition find_r (rs : list reading) (n : string) : option reading :=
  find (fun r => String.eqb n (r_name r)) rs.

Definition taken (takes : taking) (r : reading) (x : string) (v : values) : values :=
  let new := takes (r_type r) (value v (r_member r)) x in
  mkValues (fun f => if String.eqb f (r_flag r) then true else is_set v f)
           (fun m => if String.eqb m (r_member r) then new else value v m)
           (if mem (r_type r) unchecked then success v else success v && String.eqb x new).

Lemma parseOne_found : forall takes rs a v,
  parseOne takes rs a v =
  match find_r rs (fst a) with Some r => taken takes r (snd a) v | None => v end.
Proof.
  intros takes rs a v. induction rs as [|r rs IH]; [reflexivity|].
  cbn [parseOne find_r find]. unfold parseAttribute.
  destruct (String.eqb (fst a) (r_name r)); cbn [negb]; [reflexivity|]. exact IH.
Qed.

Definition sets (rs : list reading) (f n : string) : bool :=
  match find_r rs n with Some r => String.eqb f (r_flag r) | None => false end.

Definition hits (rs : list reading) (m n : string) : bool :=
  match find_r rs n with Some r => String.eqb m (r_member r) | None => false end.

Definition loop (takes : taking) (rs : list reading) (attrs : list attribute) (v : values)
  : values := fold_left (fun w a => parseOne takes rs a w) attrs v.

Lemma loop_cons : forall takes rs a l v,
  loop takes rs (a :: l) v = loop takes rs l (parseOne takes rs a v).
Proof. reflexivity. Qed.

Lemma loop_app : forall takes rs l1 l2 v,
  loop takes rs (l1 ++ l2) v = loop takes rs l2 (loop takes rs l1 v).
Proof. intros. unfold loop. apply fold_left_app. Qed.

Lemma loop_flags : forall takes rs attrs v f,
  is_set (loop takes rs attrs v) f = is_set v f || existsb (sets rs f) (map fst attrs).
Proof.
  intros takes rs attrs. induction attrs as [|a l IH]; intros v f.
  - cbn. now rewrite orb_false_r.
  - rewrite loop_cons, IH, parseOne_found. cbn [map existsb]. unfold sets at 2.
    destruct (find_r rs (fst a)) as [r|]; [|now rewrite ?orb_false_l].
    unfold taken. cbn [is_set]. destruct (String.eqb f (r_flag r));
      [now rewrite orb_true_r|]. reflexivity.
Qed.

Lemma loop_same : forall takes rs attrs v m,
  existsb (hits rs m) (map fst attrs) = false ->
  value (loop takes rs attrs v) m = value v m.
Proof.
  intros takes rs attrs. induction attrs as [|a l IH]; intros v m H; [reflexivity|].
  cbn [map existsb] in H. apply orb_false_iff in H. destruct H as [H1 H2].
  rewrite loop_cons, (IH _ _ H2), parseOne_found. unfold hits in H1.
  destruct (find_r rs (fst a)) as [r|]; [|reflexivity]. unfold taken. cbn [value].
  now rewrite H1.
Qed.

Lemma loop_value : forall takes rs l1 n x l2 v r,
  find_r rs n = Some r -> existsb (hits rs (r_member r)) (map fst l2) = false ->
  exists old, value (loop takes rs (l1 ++ (n, x) :: l2) v) (r_member r) = takes (r_type r) old x.
Proof.
  intros takes rs l1 n x l2 v r Hr Hl. rewrite loop_app, loop_cons, (loop_same _ _ _ _ _ Hl).
  rewrite parseOne_found. cbn [fst snd]. rewrite Hr. unfold taken. cbn [value].
  rewrite String.eqb_refl. eexists. reflexivity.
Qed.

Lemma loop_success : forall takes rs attrs v,
  success v = true ->
  (forall n x r, In (n, x) attrs -> find_r rs n = Some r -> mem (r_type r) unchecked = false ->
     forall old, takes (r_type r) old x = x) ->
  success (loop takes rs attrs v) = true.
Proof.
  intros takes rs attrs. induction attrs as [|[n x] l IH]; intros v Hv H; [exact Hv|].
  rewrite loop_cons. apply IH; [|intros; eapply H; eauto; now right].
  rewrite parseOne_found. cbn [fst snd]. destruct (find_r rs n) as [r|] eqn:E; [|exact Hv].
  unfold taken. cbn [success]. destruct (mem (r_type r) unchecked) eqn:U; [exact Hv|].
  rewrite Hv, (H n x r (or_introl eq_refl) E U). apply String.eqb_refl.
Qed.

Lemma loop_fails : forall takes rs attrs v, success v = false -> success (loop takes rs attrs v) = false.
Proof.
  intros takes rs attrs. induction attrs as [|[n x] l IH]; intros v Hv; [exact Hv|].
  rewrite loop_cons. apply IH. rewrite parseOne_found. destruct (find_r rs (fst (n, x))); [|exact Hv].
  unfold taken. cbn [success]. rewrite Hv. now destruct (mem _ _).
Qed.

Lemma loop_succeeded : forall takes rs attrs v,
  success (loop takes rs attrs v) = true ->
  forall n x r, In (n, x) attrs -> find_r rs n = Some r -> mem (r_type r) unchecked = false ->
  exists old, takes (r_type r) old x = x.
Proof.
  intros takes rs attrs. induction attrs as [|[n x] l IH]; intros v Hv n0 x0 r Hin Hr Hu; [destruct Hin|].
  rewrite loop_cons in Hv. destruct Hin as [E|Hin]; [|eapply IH; eauto].
  injection E as <- <-. rewrite parseOne_found in Hv. cbn [fst snd] in Hv. rewrite Hr in Hv.
  destruct (String.eqb x (takes (r_type r) (value v (r_member r)) x)) eqn:Q.
  - apply String.eqb_eq in Q. eexists. symmetry. exact Q.
  - rewrite loop_fails in Hv; [discriminate Hv|]. unfold taken. cbn [success].
    now rewrite Hu, Q, andb_false_r.
Qed.

Lemma loop_filter : forall takes rs (keep : string -> bool) attrs v,
  (forall n, keep n = false -> find_r rs n = None) ->
  loop takes rs (filter (fun a => keep (fst a)) attrs) v = loop takes rs attrs v.
Proof.
  intros takes rs keep attrs. induction attrs as [|[n x] l IH]; intros v H; [reflexivity|].
  cbn [filter fst]. destruct (keep n) eqn:K.
  - rewrite !loop_cons. now apply IH.
  - rewrite loop_cons, parseOne_found. cbn [fst]. rewrite (H n K). now apply IH.
Qed.

(* What an element reads with: nothing if it does not pass its attributes on. *)
Definition rs_of (e : elementClass) : list reading :=
  match e_attributes e with Some c => if e_reads e then c_reads c else [] | None => [] end.
Definition found_of (e : elementClass) : list string :=
  match e_attributes e with Some c => if e_reads e then c_found c else [] | None => [] end.
Definition writes_of (e : elementClass) : list writing :=
  match e_attributes e with Some c => c_writes c | None => [] end.
Definition has_of (e : elementClass) : list string :=
  match e_attributes e with Some c => c_has c | None => [] end.
Definition initial_of (e : elementClass) : list string :=
  match e_attributes e with Some c => c_initial c | None => [] end.

Definition start (initial : string -> string) (e : elementClass) : values :=
  mkValues (fun f => mem f (initial_of e)) initial true.

Definition final (takes : taking) (initial : string -> string) (e : elementClass)
  (attrs : list attribute) : values := loop takes (rs_of e) attrs (start initial e).

Lemma empty_loop : forall takes attrs v, loop takes [] attrs v = v.
Proof. intros takes attrs. induction attrs as [|a l IH]; intros v; [reflexivity|]. apply IH. Qed.

Lemma accepted_final : forall takes initial e attrs,
  accepted takes initial e attrs =
  success (final takes initial e attrs) && forallb (is_set (final takes initial e attrs)) (found_of e).
Proof.
  intros. unfold accepted, readElement, final, rs_of, found_of, start, initial_of.
  destruct (e_attributes e) as [c|]; [|now rewrite empty_loop].
  destruct (e_reads e); [reflexivity|]. now rewrite empty_loop.
Qed.

Lemma rewritten_final : forall takes initial e attrs,
  rewritten takes initial e attrs =
  let v := final takes initial e attrs in
  if existsb (is_set v) (has_of e) then flat_map (fun w => streamAttribute w v) (writes_of e) else [].
Proof.
  intros. unfold rewritten, readElement, final, rs_of, has_of, writes_of, start, initial_of, writeElement.
  destruct (e_attributes e) as [c|]; [|reflexivity].
  destruct (e_reads e); cbn [fst]; unfold toStream, hasValues, fromXElement, constructed, loop;
    cbn [is_set value success]; [|rewrite ?empty_loop].
  - set (v := fold_left _ _ _). cbn zeta.
    destruct (existsb (is_set v) (c_has c)) eqn:Q; [|reflexivity].
    apply flat_map_ext. intros w. reflexivity.
  - change (fold_left (fun (w : values) (a : attribute) => parseOne takes [] a w) attrs
              (mkValues (fun f => mem f (c_initial c)) initial true))
      with (loop takes [] attrs (mkValues (fun f => mem f (c_initial c)) initial true)).
    rewrite empty_loop. cbn zeta. cbn [is_set]. now destruct (existsb _ _).
Qed.
