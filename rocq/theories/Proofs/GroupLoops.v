(** Iterators over children, and loops over them. *)
From Coq Require Import List String Ascii Bool PeanoNat Lia.
From Verif Require Import Model.Base Model.Text Model.ElementReading Model.ElementGroups Spec.ContentModels.
Import ListNotations.
Local Open Scope list_scope.

Section Here.
Context {A : Type}.

Definition here (b : list (node A)) (l : list (str * A)) : iterator A := mkIter b (nodes l).
Definition node_of (p : str * A) : node A := NElement (fst p) (snd p).

Lemma skip_nodes b (l : list (str * A)) : skip_forward b (nodes l) = mkIter b (nodes l).
Proof. destruct l; reflexivity. Qed.

Lemma begin_nodes (l : list (str * A)) : begin (nodes l) = here [] l.
Proof. destruct l; reflexivity. Qed.

Lemma length_nodes (l : list (str * A)) : List.length (nodes l) = List.length l.
Proof. apply map_length. Qed.

Lemma at_end_here b p l : at_end (here b (p :: l)) = false.
Proof. reflexivity. Qed.
Lemma at_end_nil b : at_end (here b []) = true.
Proof. reflexivity. Qed.
Lemma left_here b l : left (here b l) = List.length l.
Proof. apply length_nodes. Qed.
Lemma increment_here b p l : increment (here b (p :: l)) = Ok (here (node_of p :: b) l).
Proof. unfold increment, here. cbn. f_equal. apply skip_nodes. Qed.
Lemma decrement_here b p l : decrement (here (node_of p :: b) l) = Ok (here b (p :: l)).
Proof. unfold decrement, here. cbn. destruct b; reflexivity. Qed.
Lemma name_here b p l : name_at (here b (p :: l)) = Ok (fst p).
Proof. reflexivity. Qed.
Lemma contents_here b p l : contents_at (here b (p :: l)) = Ok (snd p).
Proof. reflexivity. Qed.
Lemma named_here n b p l : named_now n (here b (p :: l)) = Ok (str_eqb (fst p) (lit n)).
Proof. reflexivity. Qed.
Lemma is_here_here n b p l : is_here n (here b (p :: l)) = Ok (str_eqb (fst p) (lit n)).
Proof. reflexivity. Qed.
Lemma is_here_nil n b : is_here n (here b []) = Ok false.
Proof. reflexivity. Qed.
Lemma import_here n b p l c :
  import n (here b (p :: l)) c = Ok (if str_eqb (fst p) (lit n) then (true, give true (Own (snd p)) c) else (false, c)).
Proof. unfold import. rewrite named_here. cbn [obind]. rewrite contents_here. destruct (str_eqb _ _); reflexivity. Qed.
Lemma take_here n m b p l c :
  take n m (here b (p :: l)) c = Ok (if str_eqb (fst p) (lit n) then (true, here (node_of p :: b) l, give m (Own (snd p)) c) else (false, here b (p :: l), c)).
Proof. unfold take. rewrite is_here_here. cbn [obind]. rewrite contents_here. cbn [obind]. rewrite increment_here. destruct (str_eqb _ _); reflexivity. Qed.
Lemma take_nil n m b c : take n m (here b []) c = Ok (false, here b [], c).
Proof. reflexivity. Qed.

(** The children do not start with one of that name. *)
Definition not_first (n : string) (l : list (str * A)) : Prop := match l with [] => True | p :: _ => str_eqb (fst p) (lit n) = false end.

Lemma take_not n m b l c : not_first n l -> take n m (here b l) c = Ok (false, here b l, c).
Proof. destruct l; [reflexivity | ]. cbn [not_first]. intros E. rewrite take_here, E. reflexivity. Qed.

(** The iterator after all of some children. *)
Fixpoint after (b : list (node A)) (l : list (str * A)) : list (node A) := match l with [] => b | p :: r => after (node_of p :: b) r end.

Lemma after_app b x y : after b (x ++ y) = after (after b x) y.
Proof. revert b; induction x; intros; cbn; auto. Qed.

Definition all_named (n : string) (l : list A) : list (str * A) := map (fun a => (lit n, a)) l.

Lemma str_eqb_refl s : str_eqb s s = true.
Proof. unfold str_eqb. destruct (list_eq_dec ascii_dec s s); congruence. Qed.
Lemma str_eqb_true s t : str_eqb s t = true -> s = t.
Proof. unfold str_eqb. destruct (list_eq_dec ascii_dec s t); congruence. Qed.

Lemma take_all_named n l r fuel b :
  List.length l <= fuel -> not_first n r -> take_all fuel n (here b (all_named n l ++ r)) = Ok (here (after b (all_named n l)) r, l).
Proof.
  revert fuel b. induction l as [ | a l IH]; intros fuel b F N.
  - cbn [all_named map app after]. destruct r as [ | p r].
    + destruct fuel; cbn [take_all]; rewrite is_here_nil; reflexivity.
    + cbn [not_first] in N. destruct fuel; cbn [take_all]; rewrite is_here_here, N; reflexivity.
  - destruct fuel as [ | fuel]; [cbn in F; lia | ]. cbn [all_named map app after take_all]. rewrite is_here_here. cbn [fst]. rewrite str_eqb_refl.
    cbn [obind]. rewrite contents_here. cbn [obind]. rewrite increment_here. cbn [obind snd]. fold (all_named n l). rewrite IH; [reflexivity | cbn in F; lia | exact N].
Qed.

Lemma all_named_length n l : List.length (all_named n l) = List.length l.
Proof. apply map_length. Qed.

(** take_all, whatever the children are. *)
Lemma take_all_any n l : forall b, exists l1 l2, l = all_named n l1 ++ l2 /\ forall fuel, List.length l <= fuel -> take_all fuel n (here b l) = Ok (here (after b (all_named n l1)) l2, l1).
Proof.
  intros b. assert (H : exists l1 l2, l = all_named n l1 ++ l2 /\ not_first n l2).
  { induction l as [ | [m a] l (l1 & l2 & E & N)]; [exists [], []; split; reflexivity | ].
    destruct (str_eqb m (lit n)) eqn:M.
    - apply str_eqb_true in M. subst m.
      exists (a :: l1), l2. split; [rewrite E; reflexivity | exact N].
    - exists [], ((m, a) :: l). split; [reflexivity | exact M]. }
  destruct H as (l1 & l2 & -> & N). exists l1, l2. split; [reflexivity | ]. intros fuel F. apply take_all_named; [ | exact N].
  rewrite app_length, all_named_length in F. lia.
Qed.

Section Loop.
Context {S : Type} (body : iterator A -> S -> outcome (bool * iterator A * S)).

Inductive Loop : list (node A) -> list (str * A) -> S -> S -> Prop :=
| Loop_end b s : Loop b [] s s
| Loop_stop b p l s i s' : body (here b (p :: l)) s = Ok (true, i, s') -> Loop b (p :: l) s s'
| Loop_next b p l s b' p' l' s' s'' :
    body (here b (p :: l)) s = Ok (false, here b' (p' :: l'), s') -> List.length l' <= List.length l -> Loop (node_of p' :: b') l' s' s'' -> Loop b (p :: l) s s''.

Lemma loop_ok b l s s' : Loop b l s s' -> forall fuel, List.length l <= fuel -> child_loop fuel body (here b l) s = Ok s'.
Proof.
  induction 1 as [b s | b p l s i s' B | b p l s b' p' l' s' s'' B F L IH]; intros fuel D.
  - destruct fuel; reflexivity.
  - destruct fuel as [ | fuel]; [cbn in D; lia | ]. cbn [child_loop]. rewrite at_end_here, B. reflexivity.
  - destruct fuel as [ | fuel]; [cbn in D; lia | ]. cbn [child_loop]. rewrite at_end_here, B. cbn [obind]. rewrite increment_here. cbn [obind].
    apply IH. cbn in D. lia.
Qed.

Lemma each_ok l s s' : Loop [] l s s' -> each_child body (nodes l) s = Ok s'.
Proof. intros L. unfold each_child. rewrite length_nodes, begin_nodes. apply (loop_ok _ _ _ _ L). constructor. Qed.

(** A body that stays where it is. *)
Lemma loop_still f : (forall b p l s, body (here b (p :: l)) s = Ok (false, here b (p :: l), f p s)) ->
  forall l s, each_child body (nodes l) s = Ok (fold_left (fun s p => f p s) l s).
Proof.
  intros H l s. apply each_ok. generalize (@nil (node A)). revert s. induction l as [ | p l IH]; intros s b; [constructor | ].
  eapply Loop_next; [apply H | constructor | ]. apply IH.
Qed.

(** A body that always ends ends the loop, and keeps what it keeps. *)
Lemma loop_keeps (P : list (str * A) -> S -> Prop) :
  (forall b p l s, P (p :: l) s ->
    (exists b' p' l' s', body (here b (p :: l)) s = Ok (false, here b' (p' :: l'), s') /\ List.length l' <= List.length l /\ P l' s')
    \/ (exists i s', body (here b (p :: l)) s = Ok (true, i, s') /\ P [] s')) ->
  forall l s, P l s -> exists s', each_child body (nodes l) s = Ok s' /\ P [] s'.
Proof.
  intros H l s P0. assert (G : forall k l b s, List.length l <= k -> P l s -> exists s', Loop b l s s' /\ P [] s').
  { clear P0 l s. induction k as [ | k IH]; intros r b t K P0.
    - destruct r; [exists t; split; [constructor | exact P0] | cbn in K; lia].
    - destruct r as [ | p r]; [exists t; split; [constructor | exact P0] | ].
      destruct (H b p r t P0) as [(b' & p' & l' & t' & E & D & P1) | (i & t' & E & P1)].
      + destruct (IH l' (node_of p' :: b') t') as (s' & L & P2); [cbn in D, K; lia | exact P1 | ]. exists s'. split; [ | exact P2]. eapply Loop_next; [exact E | exact D | exact L].
      + exists t'. split; [econstructor; exact E | exact P1]. }
  destruct (G (List.length l) l [] s (le_n _) P0) as (s' & L & P2). exists s'. split; [ | exact P2]. apply each_ok. exact L.
Qed.

Lemma loop_ends :
  (forall b p l s,
    (exists b' p' l' s', body (here b (p :: l)) s = Ok (false, here b' (p' :: l'), s') /\ List.length l' <= List.length l)
    \/ (exists i s', body (here b (p :: l)) s = Ok (true, i, s'))) ->
  forall l s, exists s', each_child body (nodes l) s = Ok s'.
Proof.
  intros H l s. destruct (loop_keeps (fun _ _ => True)) with (l := l) (s := s) as (s' & E & _); [ | exact I | eauto].
  intros b p r t _. destruct (H b p r t) as [(b' & p' & l' & t' & E & D) | (i & t' & E)]; [left; exists b', p', l', t'; auto | right; eauto].
Qed.
End Loop.
End Here.

Arguments here : simpl never.
Arguments node_of : simpl never.
