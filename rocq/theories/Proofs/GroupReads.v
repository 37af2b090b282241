(** What is read of any part list. *)
From Coq Require Import List ZArith Bool Lia Permutation Sorted.
From Verif Require Import Model.Base Model.Text Model.Strings Model.ApiEnums Model.CoreEnums Model.EnumLookup Model.ConverterTables.
From Verif Require Import Model.ScoreData Model.PartGroups Spec.Sorting Spec.Groups Proofs.GroupProofs.
Import ListNotations.
Open Scope Z_scope.

(** The same group, but for the last part. *)
Definition alike (g h : PartGroupData) : Prop := ends_with (g_last h) g h.

Lemma alike_refl g : alike g g.
Proof. repeat split. Qed.

Lemma number_gives p n : parsePartGroupNumber p = Ok n <-> gives_number p n.
Proof.
  unfold parsePartGroupNumber, gives_number. destruct (xg_number p) as [t|].
  - destruct (stringToInt t) as [[m|]| |] eqn:E; cbn [obind]; split; intros H; try discriminate H.
    + injection H as <-. right. exists t. split; [reflexivity | exact E].
    + destruct H as [(H & _) | (u & H & K)]; [discriminate H|]. injection H as <-. rewrite E in K. injection K as <-. reflexivity.
    + destruct H as [(H & _) | (u & H & K)]; [discriminate H|]. injection H as <-. rewrite E in K. discriminate K.
    + destruct H as [(H & _) | (u & H & K)]; [discriminate H|]. injection H as <-. rewrite E in K. discriminate K.
    + destruct H as [(H & _) | (u & H & K)]; [discriminate H|]. injection H as <-. rewrite E in K. discriminate K.
  - split; intros H.
    + injection H as <-. left. split; reflexivity.
    + destruct H as [(_ & ->) | (u & H & _)]; [reflexivity | discriminate H].
Qed.

Lemma bracket_named y : api_BracketType_name (bracketMap_toApi y) = GroupSymbolValue_toString y.
Proof. destruct y; reflexivity. Qed.

Lemma bracket_one a b : api_BracketType_name a = api_BracketType_name b -> a = b.
Proof. destruct a, b; intros H; try reflexivity; vm_compute in H; discriminate H. Qed.

Lemma start_opens i p s s' : xg_start p = true -> handlePartGroup i p s = Ok s' ->
  exists g, opens i p g /\ s' = (g :: fst s, snd s).
Proof.
  intros T H. unfold handlePartGroup, startPartGroup in H. rewrite T in H.
  destruct (parsePartGroupNumber p) as [n| |] eqn:E; cbn [omap obind] in H; try discriminate H. injection H as <-.
  eexists. split; [|reflexivity]. apply number_gives in E. unfold opens. cbn.
  split; [exact T|]. split; [exact E|]. split; [reflexivity|].
  destruct (xg_name p), (xg_abbreviation p), (xg_symbol p); repeat split; intros; try congruence;
    eexists; (split; [reflexivity|]); match goal with H : Some _ = Some _ |- _ => injection H as <- end; apply bracket_named.
Qed.

Lemma opens_start i p g s : opens i p g -> exists g', alike g g' /\ handlePartGroup i p s = Ok (g' :: fst s, snd s).
Proof.
  intros (T & N & F & N0 & N1 & A0 & A1 & D & DA & B0 & B1). unfold handlePartGroup, startPartGroup. rewrite T.
  apply number_gives in N. rewrite N. cbn [omap obind]. eexists. split; [|reflexivity].
  unfold alike, ends_with. cbn [g_last g_first g_name g_displayName g_abbreviation g_displayAbbreviation g_bracket g_number]. repeat split; try congruence.
  - destruct (xg_name p) as [t|]; symmetry; auto.
  - destruct (xg_abbreviation p) as [t|]; symmetry; auto.
  - destruct (xg_symbol p) as [y|]; [|symmetry; auto]. destruct (B1 y eq_refl) as (b & -> & K). f_equal.
    apply bracket_one. rewrite bracket_named. symmetry. exact K.
Qed.

Lemma exists_number n l : groupNumberExistsOnStack n l = false <-> Forall (fun h => g_number h <> n) l.
Proof.
  unfold groupNumberExistsOnStack. induction l as [|h l IH]; cbn [existsb].
  - split; [constructor | reflexivity].
  - rewrite orb_false_iff, IH, Z.eqb_neq. split; [intros (A & B); constructor; assumption | intros H; inversion H; auto].
Qed.

Lemma pop_splits n l : groupNumberExistsOnStack n l = true ->
  exists a g b, l = a ++ g :: b /\ g_number g = n /\ Forall (fun h => g_number h <> n) a /\ popGroupFromStack n l = Some (g, a ++ b).
Proof.
  unfold groupNumberExistsOnStack. induction l as [|h l IH]; cbn [existsb popGroupFromStack]; [discriminate|].
  destruct (g_number h =? n) eqn:E; cbn [orb].
  - intros _. apply Z.eqb_eq in E. exists [], h, l. repeat split; [exact E | constructor].
  - intros H. destruct (IH H) as (a & g & b & -> & A & B & C). apply Z.eqb_neq in E.
    exists (h :: a), g, b. rewrite C. repeat split; [exact A | constructor; assumption].
Qed.

Lemma closes_app n a g b : g_number g = n -> Forall (fun h => g_number h <> n) a ->
  groupNumberExistsOnStack n (a ++ g :: b) = true /\ popGroupFromStack n (a ++ g :: b) = Some (g, a ++ b).
Proof.
  intros E. unfold groupNumberExistsOnStack. induction 1 as [|h a H F IH]; cbn.
  - rewrite (proj2 (Z.eqb_eq _ _) E). split; reflexivity.
  - rewrite (proj2 (Z.eqb_neq _ _) H), (proj2 IH). split; [exact (proj1 IH) | reflexivity].
Qed.

(** The group and the others, where one is taken. *)
Definition taken (n : Z) (l : list PartGroupData) : option (PartGroupData * list PartGroupData) :=
  if groupNumberExistsOnStack n l then popGroupFromStack n l else popMostRecentGroupFromStack l.

Lemma taken_closes n l g r : taken n l = Some (g, r) <-> closes n l g r.
Proof.
  unfold taken. split.
  - destruct (groupNumberExistsOnStack n l) eqn:E.
    + destruct (pop_splits n l E) as (a & h & b & -> & A & B & ->). intros H. injection H as <- <-. constructor; assumption.
    + destruct l as [|h l]; cbn [popMostRecentGroupFromStack]; [discriminate|]. intros H. injection H as <- <-.
      apply closes_latest, exists_number, E.
  - intros H. destruct H as [a g b E F | g b F].
    + destruct (closes_app n a g b E F) as (-> & ->). reflexivity.
    + rewrite (proj2 (exists_number n (g :: b)) F). reflexivity.
Qed.

Lemma taken_some n g l : exists h r, taken n (g :: l) = Some (h, r).
Proof.
  unfold taken. destruct (groupNumberExistsOnStack n (g :: l)) eqn:E.
  - destruct (pop_splits n _ E) as (a & h & b & _ & _ & _ & ->). eexists _, _. reflexivity.
  - eexists _, _. reflexivity.
Qed.

Lemma last_part i : 0 <= i -> (if 0 <? i then i - 1 else i) = Z.max 0 (i - 1).
Proof. intros H. destruct (0 <? i) eqn:E; [apply Z.ltb_lt in E | apply Z.ltb_ge in E]; lia. Qed.

Lemma stop_is i p s : xg_start p = false -> fst s <> [] ->
  handlePartGroup i p s = obind (parsePartGroupNumber p) (fun n =>
    match taken n (fst s) with
    | None => Throw
    | Some (g, r) =>
      Ok (r, snd s ++ [mkGroup (g_first g) (if 0 <? i then i - 1 else i) (g_name g) (g_displayName g)
                         (g_abbreviation g) (g_displayAbbreviation g) (g_bracket g) (g_number g)])
    end).
Proof.
  intros T N. unfold handlePartGroup, stopPartGroup. rewrite T. destruct s as [[|g o] f]; [destruct (N eq_refl)|]. reflexivity.
Qed.

Lemma all_gives l : forall i s s', 0 <= i -> handle_all i l s = Ok s' -> exists f, gives i (fst s) l f /\ snd s' = snd s ++ f.
Proof.
  induction l as [|[p|] r IH]; intros i s s' I H; cbn [handle_all] in H.
  - injection H as <-. exists []. split; [constructor | symmetry; apply app_nil_r].
  - destruct (handlePartGroup i p s) as [t| |] eqn:E; cbn [obind] in H; try discriminate H.
    destruct (IH i t s' I H) as (f & G & F). destruct (xg_start p) eqn:T.
    + destruct (start_opens i p s t T E) as (g & O & ->). exists f. split; [exact (gives_start i _ p g r f O G) | exact F].
    + destruct s as [[|g o] d].
      * unfold handlePartGroup, stopPartGroup in E. rewrite T in E. cbn [fst] in E. injection E as <-. exists f.
        split; [exact (gives_stray i p r f T G) | exact F].
      * rewrite (stop_is i p _ T) in E by discriminate. destruct (parsePartGroupNumber p) as [n| |] eqn:N; cbn [obind] in E; try discriminate E.
        apply number_gives in N. cbn [fst snd] in E. destruct (taken n (g :: o)) as [(h & o')|] eqn:K; [|discriminate E].
        injection E as <-. apply taken_closes in K. cbn [fst snd] in G, F. rewrite <- app_assoc in F. eexists. split; [|exact F].
        cbn [fst app]. eapply gives_stop; [exact T | exact N | exact K | | exact G].
        rewrite (last_part i I). repeat split.
  - destruct (IH (i + 1) s s' ltac:(lia) H) as (f & G & F). exists f. split; [constructor; exact G | exact F].
Qed.

Lemma alike_closes n l g r : closes n l g r -> forall l', Forall2 alike l l' -> exists g' r', closes n l' g' r' /\ alike g g' /\ Forall2 alike r r'.
Proof.
  assert (NUM : forall a b, alike a b -> g_number b = g_number a) by (intros a b (_ & _ & _ & _ & _ & _ & _ & H); exact H).
  assert (ALL : forall k m m', Forall2 alike m m' -> Forall (fun h => g_number h <> k) m -> Forall (fun h => g_number h <> k) m').
  { intros k m m'. induction 1 as [|x y m m' A F IH]; intros H; [constructor|]. inversion H; subst.
    constructor; [rewrite (NUM _ _ A); assumption | auto]. }
  intros H l' F. destruct H as [a g b E N | g b N].
  - apply Forall2_app_inv_l in F. destruct F as (a' & q & FA & FQ & ->). inversion FQ as [|? g' ? b' AG FB]; subst.
    exists g', (a' ++ b'). split; [|split; [exact AG | apply Forall2_app; assumption]].
    rewrite <- (NUM _ _ AG). rewrite <- (NUM _ _ AG) in N. constructor; [reflexivity | exact (ALL _ _ _ FA N)].
  - pose proof (ALL _ _ _ F N) as N'. inversion F as [|? g' ? b' AG FB]; subst.
    exists g', b'. split; [apply closes_latest; exact N' | split; assumption].
Qed.

Lemma gives_all i o l f : gives i o l f -> 0 <= i -> forall o' d, Forall2 alike o o' -> exists s', handle_all i l (o', d) = Ok s' /\ snd s' = d ++ f.
Proof.
  induction 1 as [i o | i o r f G IH | i o p g r f O G IH | i p r f T G IH | i o p n g o1 h r f T N C E G IH]; intros I o' d A; cbn [handle_all].
  - eexists. split; [reflexivity | symmetry; apply app_nil_r].
  - apply IH; [lia | exact A].
  - destruct (opens_start i p g (o', d) O) as (g' & AG & ->). cbn [obind fst snd]. apply IH; [exact I | constructor; assumption].
  - inversion A; subst. unfold handlePartGroup, stopPartGroup. rewrite T. cbn [fst obind]. apply IH; [exact I | constructor].
  - destruct (alike_closes n o g o1 C o' A) as (g' & r' & C' & AG & AR).
    assert (NE : o' <> []) by (intros ->; inversion C' as [a ? ? ? ? Z|]; destruct a; discriminate Z).
    rewrite (stop_is i p (o', d) T NE). apply number_gives in N. rewrite N. cbn [obind fst snd]. apply taken_closes in C'. rewrite C'. cbn [obind].
    rewrite (last_part i I).
    destruct AG as (_ & A1 & A2 & A3 & A4 & A5 & A6 & A7). destruct E as (E0 & E1 & E2 & E3 & E4 & E5 & E6 & E7).
    replace (mkGroup _ _ _ _ _ _ _ _) with h
      by (destruct h; cbn in *; rewrite A1, A2, A3, A4, A5, A6, A7; congruence).
    destruct (IH I r' (d ++ [h]) AR) as (s' & -> & K). exists s'. split; [reflexivity|]. rewrite K, <- app_assoc. reflexivity.
Qed.

Lemma groups_are_all i l : forall s, handle_groups i l s = handle_all i (map PartGroup l) s.
Proof. induction l as [|p l IH]; intros s; [reflexivity|]. cbn [handle_groups map handle_all]. destruct (handlePartGroup i p s); cbn [obind]; auto. Qed.

Lemma read_is_all S x : read_groups S x = omap (fun s => S PartGroupData sortingCompare (snd s)) (handle_all 0 (items_of x) ([], [])).
Proof.
  unfold read_groups, items_of. rewrite groups_are_all. generalize (([] : list PartGroupData), ([] : list PartGroupData)).
  induction (pl_before x) as [|p l IH]; intros s; [reflexivity|]. cbn [map app handle_all].
  destruct (handlePartGroup 0 p s) as [t| |]; cbn [obind omap]; [apply IH | reflexivity | reflexivity].
Qed.

Lemma groups_read S x : allowed S ->
  (forall l, read_groups S x = Ok l -> exists f, gives 0 [] (items_of x) f /\ Permutation l f /\ StronglySorted group_le l) /\
  (forall f, gives 0 [] (items_of x) f -> exists l, read_groups S x = Ok l /\ Permutation l f /\ StronglySorted group_le l).
Proof.
  intros A. rewrite read_is_all. split.
  - intros l H. destruct (handle_all 0 (items_of x) ([], [])) as [s| |] eqn:E; cbn [omap obind] in H; try discriminate H. injection H as <-.
    destruct (all_gives _ 0 _ s ltac:(lia) E) as (f & G & F). cbn [fst snd app] in G, F. exists f. split; [exact G|].
    destruct (A PartGroupData sortingCompare (snd s) sorting_weak) as (P & O). rewrite F in P at 2. split; [exact P | apply sorting_order, O].
  - intros f G. destruct (gives_all 0 [] _ f G ltac:(lia) [] [] ltac:(constructor)) as (s & -> & F). cbn [omap obind app] in *.
    eexists. split; [reflexivity|]. destruct (A PartGroupData sortingCompare (snd s) sorting_weak) as (P & O). rewrite F in P at 2.
    split; [exact P | apply sorting_order, O].
Qed.
