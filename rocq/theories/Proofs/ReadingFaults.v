(** Children that are not all kept. *)
From Coq Require Import List String Ascii ZArith Bool PeanoNat Lia.
From Verif Require Import Model.Base Model.Text Proofs.StringsProofs Model.ElementReading Model.ElementClasses Spec.ChildOrder Spec.Children
  Proofs.ReadingPlain Proofs.ReadingOrder Proofs.ReadingSub Proofs.ReadingProofs.
Import ListNotations.
Open Scope nat_scope.
Open Scope list_scope.

Lemma slash_example :
  let children := [NInstruction (lit "p") (lit "q"); NElement (lit "slash-type") 1; NElement (lit "slash-dot") 2; NInstruction (lit "p") []; NElement (lit "slash-dot") 3;
                   NElement (lit "slash-dot") 4] in
  in_order [(lit "slash-type", Some 1); (lit "slash-dot", None)] (map fst (elements children))
  /\ In (lit "slash", [(lit "slash-type", Some 1); (lit "slash-dot", None)]) schema_order
  /\ named (lit "slash-dot") children = [2; 3; 4].
Proof.
  split; [|split].
  - apply (in_order_next (lit "slash-type") (Some 1) 1 [(lit "slash-dot", None)] [lit "slash-dot"; lit "slash-dot"; lit "slash-dot"]); [lia|].
    apply (in_order_next (lit "slash-dot") None 3 [] []); [exact I | constructor].
  - vm_compute. tauto.
  - vm_compute. reflexivity.
Qed.

Lemma slash_written :
  let s := fun name => if str_eqb name (lit "slash-dot") then [2; 3; 4] else if str_eqb name (lit "slash-type") then [1] else [] in
  (forall n b, In (n, Some b) [(lit "slash-type", Some 1); (lit "slash-dot", None)] -> List.length (s n) <= b)
  /\ exists c, In c element_classes /\ cl_name c = lit "slash" /\ map fst (elements (write_children c s)) = map lit ["slash-type"; "slash-dot"; "slash-dot"; "slash-dot"]%string.
Proof.
  split.
  - intros n b [E|[E|[]]]; [|discriminate E]. injection E as <- <-. vm_compute. lia.
  - exists (class "slash" [one "slash-type"; many "slash-dot"] ["slash-type"; "slash-dot"]%string). split; [|split; vm_compute; reflexivity].
    unfold element_classes. cbn [In]. repeat ((left; reflexivity) || right).
Qed.

Theorem ornaments_lost : ~ (forall A (children : list (node A)) s,
  (forall name a, In (NElement name a) children -> In name (map lit ["trill-mark"; "turn"; "accidental-mark"]%string)) ->
  read_children (cl_steps ornaments_class) children = Ok s -> s (lit "accidental-mark") = map Some (named (lit "accidental-mark") children)).
Proof.
  intros C.
  specialize (C nat [NElement (lit "trill-mark") 1; NElement (lit "accidental-mark") 2; NElement (lit "turn") 3; NElement (lit "accidental-mark") 4]).
  destruct (read_total nat (cl_steps ornaments_class) [NElement (lit "trill-mark") 1; NElement (lit "accidental-mark") 2; NElement (lit "turn") 3; NElement (lit "accidental-mark") 4]) as [s R].
  specialize (C s). assert (X : s (lit "accidental-mark") = [Some 4]).
  { vm_compute in R. injection R as <-. vm_compute. reflexivity. }
  rewrite C in X; [vm_compute in X; discriminate X | | exact R].
  intros name a I. cbn [In] in I. cbn [map In].
  destruct I as [I|[I|[I|[I|[]]]]]; injection I as <- _; tauto.
Qed.

Definition plain {A} (l : list (str * A)) : list (node A) := map (fun p => NElement (fst p) (snd p)) l.
Lemma elements_plain : forall A (l : list (str * A)), elements (plain l) = l.
Proof. intros A. unfold plain. induction l as [|[n a] l IH]; cbn; congruence. Qed.
Lemma elements_app : forall A (a b : list (node A)), elements (a ++ b) = elements a ++ elements b.
Proof. intros A a b. induction a as [|[m x|m d] a IHa]; cbn; congruence. Qed.
Lemma elements_run : forall A n (l : list A), elements (map (NElement n) l) = map (pair n) l.
Proof. intros A n. induction l as [|a l IH]; cbn; congruence. Qed.

Definition ornament_names : list str := map lit ["trill-mark"; "turn"; "delayed-turn"; "inverted-turn"; "delayed-inverted-turn"; "vertical-turn"; "shake"; "wavy-line"; "mordent";
                       "inverted-mordent"; "schleifer"; "tremolo"; "other-ornament"]%string.

Definition mark : str := lit "accidental-mark".
Lemma mark_no_ornament : existsb (str_eqb mark) ornament_names = false.
Proof. vm_compute. reflexivity. Qed.
Lemma ornament_yes : forall n, In n ornament_names -> existsb (str_eqb n) ornament_names = true.
Proof. intros n I. apply existsb_exists. exists n. split; [exact I | apply str_eqb_refl]. Qed.

Lemma ornaments_steps : cl_steps ornaments_class = [Each ornament_names (lit "ornament"); Many mark mark 0 true].
Proof. vm_compute. reflexivity. Qed.

Lemma ornaments_loop : forall A (l : list (str * A)) tail fuel pre s, (forall n a, In (n, a) l -> In n ornament_names) -> List.length (l ++ tail) <= fuel ->
  exists fuel' pre' s', List.length tail <= fuel' /\ p_loop fuel [Each ornament_names (lit "ornament"); Many mark mark 0 true] (pre, l ++ tail) s
      = p_loop fuel' [Each ornament_names (lit "ornament"); Many mark mark 0 true] (pre', tail) s'
    /\ s' (lit "ornament") = s (lit "ornament") ++ map (fun p => Some (snd p)) l /\ s' mark = s mark.
Proof.
  intros A. induction l as [|[n a] l IH]; intros tail fuel pre s H L.
  - exists fuel, pre, s. cbn in L |- *. rewrite app_nil_r. auto.
  - destruct fuel as [|fuel]; [cbn in L; lia|]. cbn [p_loop app snd p_steps].
    rewrite (ornament_yes n) by (apply (H n a); now left).
    destruct (IH tail fuel ((n, a) :: pre) (put (lit "ornament") (s (lit "ornament") ++ [Some a]) s)) as (f' & pre' & s' & L' & E & E1 & E2).
    { intros m b I. apply (H m b). now right. }
    { cbn in L. lia. }
    exists f', pre', s'. split; [exact L'|]. unfold forth. cbn [fst snd]. split; [exact E|]. split.
    + rewrite E1, put_same, <- app_assoc. reflexivity.
    + rewrite E2, put_other; [reflexivity|]. intros X. vm_compute in X. discriminate X.
Qed.

Theorem ornaments_kept : forall A (ornaments : list (str * A)) marks rest,
  (forall name a, In (name, a) (ornaments ++ rest) ->
     In name (map lit ["trill-mark"; "turn"; "delayed-turn"; "inverted-turn"; "delayed-inverted-turn"; "vertical-turn"; "shake"; "wavy-line"; "mordent";
                       "inverted-mordent"; "schleifer"; "tremolo"; "other-ornament"]%string)) ->
  exists s, read_children (cl_steps ornaments_class)
      (map (fun p => NElement (fst p) (snd p)) ornaments ++ map (NElement (lit "accidental-mark")) marks ++ map (fun p => NElement (fst p) (snd p)) rest) = Ok s
    /\ s (lit "ornament") = map (fun p => Some (snd p)) (ornaments ++ rest) /\ s (lit "accidental-mark") = map Some marks.
Proof.
  intros A ornaments marks rest H. rewrite read_plain. eexists. split; [reflexivity|].
  rewrite !elements_app, elements_run. fold (plain ornaments) (plain rest). rewrite !elements_plain. rewrite ornaments_steps. fold mark.
  destruct (ornaments_loop A ornaments (map (pair mark) marks ++ rest) (List.length (ornaments ++ map (pair mark) marks ++ rest)) []
    (initial_contents [Each ornament_names (lit "ornament"); Many mark mark 0 true])) as (f1 & pre1 & s1 & L1 & E1 & A1 & B1).
  { intros n a I. apply (H n a). apply in_or_app. auto. }
  { auto. }
  rewrite E1. clear E1.
  assert (I1 : s1 (lit "ornament") = map (fun p => Some (snd p)) ornaments) by (rewrite A1; vm_compute; reflexivity).
  assert (I2 : s1 mark = []) by (rewrite B1; vm_compute; reflexivity). clear A1 B1.
  assert (HR : forall n a, In (n, a) rest -> In n ornament_names) by (intros n a I; apply (H n a); apply in_or_app; auto).
  assert (NM : match rest with (m, _) :: _ => m <> mark | [] => True end).
  { destruct rest as [|[m b] r]; [exact I|]. intros ->. specialize (HR mark b (or_introl eq_refl)). apply ornament_yes in HR. rewrite mark_no_ornament in HR. discriminate. }
  assert (FIN : forall fuel pre s, List.length rest <= fuel -> s (lit "ornament") = map (fun p => Some (snd p)) ornaments -> s mark = map Some marks ->
    p_loop fuel [Each ornament_names (lit "ornament"); Many mark mark 0 true] (pre, rest) s (lit "ornament") = map (fun p => Some (snd p)) (ornaments ++ rest)
    /\ p_loop fuel [Each ornament_names (lit "ornament"); Many mark mark 0 true] (pre, rest) s mark = map Some marks).
  { intros fuel pre s L X Y. rewrite <- (app_nil_r rest) in L |- * at 1. 
    destruct (ornaments_loop A rest [] fuel pre s HR L) as (f2 & pre2 & s2 & _ & E2 & A2 & B2). rewrite !app_nil_r in *. rewrite E2.
    assert (Z : p_loop f2 [Each ornament_names (lit "ornament"); Many mark mark 0 true] (pre2, []) s2 = s2) by (destruct f2; reflexivity).
    rewrite Z, A2, B2, X, Y, map_app. auto. }
  destruct marks as [|m marks].
  - cbn [map app] in *. apply FIN; auto.
  - destruct f1 as [|f1]; [cbn in L1; lia|]. cbn [map app p_loop snd p_steps]. rewrite mark_no_ornament. unfold p_many, p_run. cbn [fst snd].
    assert (RUN : run_of mark ((mark, m) :: map (pair mark) marks ++ rest) = m :: marks /\ rest_of mark ((mark, m) :: map (pair mark) marks ++ rest) = rest).
    { clear - NM. cbn [run_of rest_of]. rewrite str_eqb_refl. cbn [fst]. assert (X : run_of mark (map (pair mark) marks ++ rest) = marks /\ rest_of mark (map (pair mark) marks ++ rest) = rest).
      { induction marks as [|b l IH]; cbn [map app]; [apply run_none; exact NM|]. cbn [run_of rest_of]. rewrite str_eqb_refl. destruct IH as [-> ->]. auto. }
      destruct X as [-> ->]. auto. }
    destruct RUN as [-> ->]. cbn [nonempty andb]. rewrite back_forth by (cbn [fst]; apply passed_nonempty; reflexivity).
    apply FIN.
    + clear - L1. cbn in L1. rewrite app_length, map_length in L1. lia.
    + rewrite put_other; [exact I1|]. intros X. vm_compute in X. discriminate X.
    + rewrite put_same, I2. reflexivity.
Qed.

Theorem metronome_lost : ~ (forall A (left right : list A) relation s,
  left <> [] ->
  read_children (cl_steps note_relation_class)
    (map (NElement (lit "metronome-note")) left ++ match right with [] => [] | _ => NElement (lit "metronome-relation") relation :: map (NElement (lit "metronome-note")) right end) = Ok s ->
  s (lit "metronome-note") = map Some left).
Proof.
  intros C. specialize (C nat [1] [2; 3] 9).
  destruct (read_total nat (cl_steps note_relation_class) (map (NElement (lit "metronome-note")) [1] ++ NElement (lit "metronome-relation") 9 :: map (NElement (lit "metronome-note")) [2; 3])) as [s R].
  specialize (C s ltac:(discriminate) R). vm_compute in R. injection R as <-. vm_compute in C. discriminate C.
Qed.

Definition mn : str := lit "metronome-note".
Theorem metronome_twice : forall A (left : list A) a,
  exists s, read_children (cl_steps note_relation_class) (map (NElement (lit "metronome-note")) (left ++ [a])) = Ok s
    /\ s (lit "metronome-note") = map Some (left ++ [a]) /\ s (lit "related metronome-note") = [Some a].
Proof.
  intros A left a. rewrite read_plain. eexists. split; [reflexivity|]. rewrite elements_run. fold mn.
  rewrite map_length, app_length. cbn [List.length]. rewrite Nat.add_comm. cbn [Nat.add p_loop snd].
  assert (NE : map (pair mn) (left ++ [a]) <> []) by (rewrite map_app; intros X; now apply app_eq_nil in X as [_ X]).
  destruct (map (pair mn) (left ++ [a])) as [|y q] eqn:Q; [contradiction|]. rewrite <- Q. clear y q Q NE.
  change (cl_steps note_relation_class) with [Many mn mn 1 false; Group [mkMember (lit "metronome-relation") false (lit "metronome-relation"); mkMember mn false (lit "related metronome-note")] true].
  cbn [p_steps]. unfold p_many, p_run. cbn [fst snd].
  assert (RUN : run_of mn (map (pair mn) (left ++ [a])) = left ++ [a] /\ rest_of mn (map (pair mn) (left ++ [a])) = []).
  { induction (left ++ [a]) as [|b l IH]; [auto|]. cbn [map run_of rest_of]. rewrite str_eqb_refl. destruct IH as [-> ->]. auto. }
  destruct RUN as [-> ->].
  assert (NEb : nonempty (left ++ [a]) = true) by (destruct left; reflexivity). rewrite NEb. cbn [andb].
  unfold passed. rewrite map_app, rev_app_distr. cbn [map rev app back fst snd].
  cbn [p_group p_member gm_many gm_name gm_key snd fst]. rewrite (str_eqb_neq mn (lit "metronome-relation")) by (intros X; vm_compute in X; discriminate X).
  cbn [snd orb]. rewrite str_eqb_refl. cbn [snd orb back fst]. unfold forth. cbn [fst snd].
  assert (Z : forall fuel st (p : list (str * A)) s, p_loop fuel st (p, []) s = s) by (intros [|f] st p s; reflexivity). rewrite Z.
  assert (FI : forall l, nonempty l = true -> fill false (@initial_contents A [Many mn mn 1 false; Group [mkMember (lit "metronome-relation") false (lit "metronome-relation"); mkMember mn false (lit "related metronome-note")] true] mn) l = map Some l).
  { intros l NL. apply fill_fresh; [vm_compute; lia|]. intros ->. discriminate NL. }
  rewrite FI by exact NEb. split.
  - rewrite put_other by (intros X; vm_compute in X; discriminate X). now rewrite put_same.
  - rewrite put_same, put_other by (intros X; vm_compute in X; discriminate X). vm_compute. reflexivity.
Qed.

(** Names that no statement mentions. *)
Fixpoint keys (steps : list step) : list str :=
  match steps with
  | One _ k _ :: r => k :: keys r
  | Many _ k _ _ :: r => k :: keys r
  | Group ms _ :: r => map gm_key ms ++ keys r
  | Each _ k :: r => k :: keys r
  | [] => []
  end.

Lemma p_group_other : forall A bk ms k moved (p : @pos A) s, ~ In k (map gm_key ms) -> snd (p_group bk ms moved p s) k = s k.
Proof.
  intros A bk. induction ms as [|m r IH]; intros k moved p s H; cbn [p_group]; [reflexivity|]. cbn in H.
  assert (X : snd (p_member m p s) k = s k).
  { unfold p_member, p_run. destruct (gm_many m); cbn [fst snd].
    - destruct (nonempty _); [apply put_other; intros ->; tauto | reflexivity].
    - destruct (snd p) as [|[n a] q]; [reflexivity|]. destruct (str_eqb n (gm_name m)); cbn [snd]; [apply put_other; intros ->; tauto | reflexivity]. }
  destruct (p_member m p s) as [[found p'] s']. cbn [snd] in X. destruct (snd p'); [exact X|]. rewrite IH by tauto. exact X.
Qed.

Lemma p_steps_other : forall A st k (p : @pos A) s, ~ In k (keys st) -> snd (p_steps st p s) k = s k.
Proof.
  intros A. induction st as [|[n k' stop|n k' i stop|ms bk|ns k'] r IH]; intros k p s H; cbn [p_steps]; [reflexivity| | | |]; cbn in H.
  - unfold p_one. destruct (snd p) as [|[m a] q]; cbn [andb]; [apply IH; tauto|]. destruct (str_eqb m n); cbn [andb]; [|apply IH; tauto].
    destruct stop; cbn [snd]; [|rewrite IH by tauto]; apply put_other; intros ->; tauto.
  - unfold p_many, p_run. destruct (nonempty _); cbn [andb]; [|apply IH; tauto]. destruct stop; cbn [snd]; [|rewrite IH by tauto]; apply put_other; intros ->; tauto.
  - assert (X := p_group_other A bk ms k false p s ltac:(intros I; apply H; apply in_or_app; auto)). destruct (p_group bk ms false p s) as [p' s']. cbn [snd] in X. rewrite IH; [exact X|].
    intros I. apply H. apply in_or_app. auto.
  - destruct (snd p) as [|[m a] q]; [apply IH; tauto|]. destruct (existsb (str_eqb m) ns); cbn [snd]; [|apply IH; tauto]. apply put_other. intros ->. tauto.
Qed.

Lemma p_loop_other : forall A fuel st k (p : @pos A) s, ~ In k (keys st) -> p_loop fuel st p s k = s k.
Proof.
  intros A. induction fuel as [|fuel IH]; intros st k p s H; cbn [p_loop]; [reflexivity|]. destruct (snd p); [reflexivity|].
  pose proof (p_steps_other A st k p s H) as X. destruct (p_steps st p s) as [p' s']. cbn [snd] in X. rewrite IH; auto.
Qed.

Theorem metronome_tuplet_lost : forall A (children : list (node A)) s, read_children (cl_steps metronome_tuplet_class) children = Ok s ->
  s (lit "normal-type") = [] /\ s (lit "normal-dot") = [].
Proof.
  intros A children s E. rewrite read_plain in E. injection E as <-.
  split; rewrite p_loop_other; try (vm_compute; reflexivity); vm_compute; intros H; repeat (destruct H as [H|H]; [discriminate H|]); exact H.
Qed.

Theorem sound_offset_lost : forall A (children : list (node A)) s, read_children (cl_steps sound_class) children = Ok s -> s (lit "offset") = [].
Proof.
  intros A children s E. rewrite read_plain in E. injection E as <-.
  rewrite p_loop_other; [vm_compute; reflexivity|]. vm_compute. intros H. repeat (destruct H as [H|H]; [discriminate H|]). exact H.
Qed.
