(** lyric, read and written again. *)
From Coq Require Import List String Ascii Bool PeanoNat Lia.
From Verif Require Import Model.Base Model.Text Model.ElementReading Model.ElementGroups Spec.ContentModels Proofs.GroupLoops Proofs.ChildrenProofs Proofs.GroupRuns Proofs.CreditHarmony.
Import ListNotations.
Local Open Scope list_scope.

(** ** lyric *)
Definition elision_names {A} (e : option (A * option A) * A) : list (str * A) :=
  match fst e with Some (x, s) => (lit "elision", x) :: opt_child "syllabic" s | None => [] end ++ [(lit "text", snd e)].
Definition not_has {A} (o : option A) : child A := match o with Some a => mkChild false [Own a] | None => new_child end.
Definition elision_of {A} (e : option (A * option A) * A) : elision_group A :=
  match fst e with Some (x, s) => mkElisionGroup true (own x) (not_has s) (own (snd e)) | None => mkElisionGroup false new_child new_child (own (snd e)) end.
Definition elisions {A} (l : list (option (A * option A) * A)) : list (str * A) := List.concat (map elision_names l).

Lemma elisions_some {A} x s (w : A) l : elisions ((Some (x, s), w) :: l) = (lit "elision", x) :: opt_child "syllabic" s ++ (lit "text", w) :: elisions l.
Proof. destruct s; reflexivity. Qed.
Lemma elisions_none {A} (w : A) l : elisions ((None, w) :: l) = (lit "text", w) :: elisions l.
Proof. reflexivity. Qed.

Lemma inv_elisions {A} (z : list (str * A)) :
  conforms (Many (Sequence [Optional (Sequence [Element "elision"; Optional (Element "syllabic")]); Element "text"])) z -> exists l, z = elisions l.
Proof.
  intros H. apply inv_many in H. destruct H as (zs & -> & F). induction F as [ | z zs C F (l & E)]; [exists []; reflexivity | ]. cbn [List.concat]. rewrite E.
  apply inv_sequence in C. destruct C as (x1 & y1 & -> & C1 & C). apply inv_sequence in C. destruct C as (x2 & y2 & -> & C2 & C). apply inv_nothing in C. subst y2.
  apply inv_element in C2. destruct C2 as [t ->]. rewrite app_nil_r. apply inv_optional in C1. destruct C1 as [-> | C1].
  - exists ((None, t) :: l). reflexivity.
  - apply inv_sequence in C1. destruct C1 as (x3 & y3 & -> & C3 & C). apply inv_sequence in C. destruct C as (x4 & y4 & -> & C4 & C). apply inv_nothing in C. subst y4.
    apply inv_element in C3. destruct C3 as [x ->]. apply inv_opt in C4. destruct C4 as [s ->]. rewrite app_nil_r. exists ((Some (x, s), t) :: l). reflexivity.
Qed.

Lemma read_elisions_ok {A} (l : list (option (A * option A) * A)) t : not_first "elision" t -> not_first "syllabic" t -> not_first "text" t ->
  forall fuel b, List.length l <= fuel -> read_elisions fuel (here b (elisions l ++ t)) = Ok (here (after b (elisions l)) t, map elision_of l).
Proof.
  intros N1 N2 N3. induction l as [ | [[[x s] | ] w] l IH]; intros fuel b F.
  - cbn [elisions map List.concat app after]. destruct fuel; cbn [read_elisions]; go; reflexivity.
  - destruct fuel as [ | fuel]; [cbn in F; lia | ]. cbn [List.length] in F. apply le_S_n in F. rewrite elisions_some.
    destruct s as [s | ]; cbn [opt_child app]; cbn [read_elisions]; go; rewrite (IH fuel _ F); reflexivity.
  - destruct fuel as [ | fuel]; [cbn in F; lia | ]. cbn [List.length] in F. apply le_S_n in F. rewrite elisions_none.
    cbn [app]. cbn [read_elisions]. go. rewrite (IH fuel _ F). reflexivity.
Qed.

Record syllable (A : Type) := mkSyllable { sl_s : option A; sl_t : A; sl_e : list (option (A * option A) * A); sl_x : option A }.
Arguments mkSyllable {A}.
Arguments sl_s {A}.
Arguments sl_t {A}.
Arguments sl_e {A}.
Arguments sl_x {A}.
Definition syllable_names {A} (y : syllable A) : list (str * A) := opt_child "syllabic" (sl_s y) ++ (lit "text", sl_t y) :: elisions (sl_e y) ++ opt_child "extend" (sl_x y).
Definition syllable_of {A} (y : syllable A) : syllabic_group A := mkSyllabicGroup (time_child (sl_s y)) (own (sl_t y)) (map elision_of (sl_e y)) (time_child (sl_x y)).

Definition lyric_tail {A} (e p n v : option A) : list (str * A) := opt_child "end-line" e ++ opt_child "end-paragraph" p ++ opt_child "footnote" n ++ opt_child "level" v.

Lemma tail_not {A} n (e p f v : option A) : ~ In n ["end-line"; "end-paragraph"; "footnote"; "level"]%string -> not_first n (lyric_tail e p f v).
Proof.
  intros N. assert (X : forall m, In m ["end-line"; "end-paragraph"; "footnote"; "level"]%string -> str_eqb (lit m) (lit n) = false).
  { intros m I. destruct (str_eqb (lit m) (lit n)) eqn:E; [ | reflexivity]. exfalso. apply N. apply str_eqb_true in E.
    assert (m = n) as <-; [ | exact I]. clear - E. unfold lit in E. rewrite <- (string_of_list_ascii_of_string m), E. apply string_of_list_ascii_of_string. }
  unfold lyric_tail. destruct e; [apply X; cbn; tauto | ]. destruct p; [apply X; cbn; tauto | ]. destruct f; [apply X; cbn; tauto | ]. destruct v; [apply X; cbn; tauto | exact I].
Qed.

(** The syllables are read in one turn, up to the last of their children. *)
Lemma import_syllable {A} (y : syllable A) e p n v b :
  exists b' q, after b (syllable_names y) = node_of q :: b' /\ In (fst q) [lit "text"; lit "extend"] /\
    import_syllabic (here b (syllable_names y ++ lyric_tail e p n v)) (mkSyllabicGroup new_child new_child [] new_child) = Ok (here b' (q :: lyric_tail e p n v), true, syllable_of y).
Proof.
  set (t := lyric_tail e p n v).
  assert (N1 : not_first "elision" t) by (apply tail_not; cbn; intuition discriminate). assert (N2 : not_first "syllabic" t) by (apply tail_not; cbn; intuition discriminate).
  assert (N3 : not_first "text" t) by (apply tail_not; cbn; intuition discriminate). assert (N4 : not_first "extend" t) by (apply tail_not; cbn; intuition discriminate).
  destruct y as [s w es x]. unfold syllable_names, syllable_of. cbn [sl_s sl_t sl_e sl_x].
  assert (F : exists i b0, take "syllabic" true (here b ((opt_child "syllabic" s ++ (lit "text", w) :: elisions es ++ opt_child "extend" x) ++ t)) new_child
      = Ok (i, here b0 ((lit "text", w) :: (elisions es ++ opt_child "extend" x) ++ t), time_child s) /\ b0 = after b (opt_child "syllabic" s)).
  { destruct s as [s | ]; cbn [opt_child app after]; rewrite take_here; cbn [fst snd]; lits; cbv iota; do 2 eexists; (split; reflexivity). }
  destruct F as (i & b0 & F & B0). unfold import_syllabic. cbn [sy_syllabic sy_text sy_more sy_extend]. rewrite F. cbn [obind]. rewrite at_end_here, take_here. cbn [fst snd]. lits. cbn [obind].
  rewrite after_app, <- B0. cbn [after]. set (b1 := node_of (lit "text", w) :: b0). clear F B0.
  (* the rest *)
  destruct ((elisions es ++ opt_child "extend" x) ++ t) as [ | r0 r] eqn:Z.
  - apply app_eq_nil in Z. destruct Z as [Z ZT]. apply app_eq_nil in Z. destruct Z as [ZE ZX]. rewrite at_end_nil. exists b0, (lit "text", w).
    rewrite ZE, ZX. destruct es as [ | [[[? ?] | ] ?] ?]; [ | discriminate ZE | discriminate ZE]. destruct x; [discriminate ZX | ]. rewrite ZT.
    split; [reflexivity | split; [left; reflexivity | ]]. unfold b1. rewrite orb_true_r. cbn [back_if]. rewrite decrement_here. reflexivity.
  - rewrite at_end_here, !named_here. cbn [obind]. rewrite left_here, <- Z. rewrite <- app_assoc.
    rewrite read_elisions_ok; [ | | | | ].
    2-4: destruct x; [reflexivity | assumption].
    2: { apply Nat.le_trans with (List.length (elisions es)); [ | rewrite app_length; lia]. clear. induction es as [ | [[[? ?] | ] ?] es IH]; [constructor | rewrite elisions_some | rewrite elisions_none];
           cbn [List.length]; rewrite ?app_length; cbn [List.length]; lia. }
    cbn [obind]. rewrite !orb_true_r. cbn [orb]. destruct x as [x | ].
    + cbn [opt_child app]. rewrite at_end_here, take_here. cbn [fst snd]. lits. cbn [obind back_if]. rewrite decrement_here. cbn [omap obind].
      exists (after b1 (elisions es)), (lit "extend", x). split; [rewrite after_app; reflexivity | split; [right; left; reflexivity | ]]. reflexivity.
    + cbn [opt_child app]. assert (LT : exists b' a', after b1 (elisions es) = node_of (lit "text", a') :: b').
      { destruct es as [ | e0 es] using rev_ind; [exists b0, w; reflexivity | ]. unfold elisions. rewrite map_app, concat_app. cbn [map List.concat]. rewrite app_nil_r, after_app.
        unfold elision_names. rewrite after_app. cbn [after]. eauto. }
      destruct LT as (b' & a' & LT). rewrite app_nil_r, LT. exists b', (lit "text", a'). split; [reflexivity | split; [left; reflexivity | ]].
      destruct t as [ | t0 t'] eqn:TT.
      * rewrite at_end_nil. cbn [back_if]. rewrite decrement_here. reflexivity.
      * rewrite at_end_here, take_not by exact N4. cbn [obind orb back_if]. rewrite decrement_here. reflexivity.
Qed.

Definition new_lyric {A} : lyric A := mkLyric SyllabicText (mkSyllabicGroup new_child new_child [] new_child) new_child new_child new_child new_child new_child new_child new_child.

Lemma syllable_turn {A} (y : syllable A) e p n v b :
  exists b' q, lyric_turn (here b (syllable_names y ++ lyric_tail e p n v)) (true, new_lyric)
    = Ok (false, here b' (q :: lyric_tail e p n v), (true, mkLyric SyllabicText (syllable_of y) new_child new_child new_child new_child new_child new_child new_child)).
Proof.
  destruct (import_syllable y e p n v b) as (b' & q & E & I & R). exists b', q. unfold lyric_turn, new_lyric. cbn [ly_extend ly_laughing ly_humming ly_group ly_endLine ly_endParagraph ly_footnote ly_level].
  assert (X : forall m c, str_eqb (lit "text") (lit m) = false -> str_eqb (lit "syllabic") (lit m) = false ->
     import m (here b (syllable_names y ++ lyric_tail e p n v)) c = Ok (false, c)).
  { intros m c E1 E2. unfold syllable_names. destruct (sl_s y) as [s | ]; cbn [opt_child app]; rewrite import_here; cbn [fst]; rewrite ?E1, ?E2; reflexivity. }
  rewrite !X by reflexivity. cbn [obind]. rewrite R. cbn [obind].
  assert (Y : forall m, str_eqb (lit "text") (lit m) = false -> str_eqb (lit "extend") (lit m) = false -> str_eqb (fst q) (lit m) = false).
  { intros m E1 E2. destruct I as [<- | [<- | []]]; assumption. }
  rewrite !import_here, !Y by reflexivity. cbn [obind]. unfold import_editorial. rewrite at_end_here, take_here, Y by reflexivity. cbn [obind]. rewrite at_end_here, take_here, Y by reflexivity.
  cbn [obind]. rewrite at_end_here. reflexivity.
Qed.

(** What follows the text: the footnote and the level are refused. *)
Lemma lyric_tail_loop {A} (e p n v : option A) b y : ly_endLine y = new_child -> ly_endParagraph y = new_child -> ly_footnote y = new_child -> ly_level y = new_child ->
  Loop lyric_turn b (lyric_tail e p n v) (true, y)
    (match n, v with None, None => true | _, _ => false end,
     mkLyric (match e, p, n, v with None, None, None, None => ly_choice y | _, _, _, _ => SyllabicText end) (ly_group y) (ly_extend y) (ly_laughing y) (ly_humming y)
       (time_child e) (time_child p) (time_child n) (time_child v)).
Proof.
  destruct y as [ch g x la hu el ep fo le]. destruct g as [gs gt gm gx]. cbn [ly_endLine ly_endParagraph ly_footnote ly_level ly_choice ly_group ly_extend ly_laughing ly_humming]. intros -> -> -> ->.
  assert (S : forall m b0 l a, str_eqb (lit m) (lit "syllabic") = false -> str_eqb (lit m) (lit "text") = false -> str_eqb (lit m) (lit "elision") = false -> str_eqb (lit m) (lit "extend") = false ->
     import_syllabic (here b0 ((lit m, a) :: l)) (mkSyllabicGroup gs gt gm gx)
     = Ok (here b0 ((lit m, a) :: l), str_eqb (lit m) (lit "end-line") || str_eqb (lit m) (lit "end-paragraph"), mkSyllabicGroup gs gt gm gx)).
  { intros m b0 l a E1 E2 E3 E4. unfold import_syllabic. rewrite take_here. cbn [fst snd]. rewrite E1. cbn [obind]. rewrite at_end_here, take_here. cbn [fst snd]. rewrite E2. cbn [obind].
    rewrite at_end_here, !named_here. cbn [obind fst]. rewrite left_here.
    rewrite (read_elisions_ok [] ((lit m, a) :: l)); [ | assumption | assumption | assumption | apply le_0_n]. cbn [obind elisions map List.concat after]. rewrite at_end_here, take_here. cbn [fst snd].
    rewrite E4. cbn [obind orb List.length Nat.eqb negb back_if omap sy_more sy_extend sy_text sy_syllabic]. rewrite app_nil_r, !orb_false_r. reflexivity. }
  assert (L2 : forall b0 ok ch0 e0 p0, Loop lyric_turn b0 (opt_child "footnote" n ++ opt_child "level" v) (ok, mkLyric ch0 (mkSyllabicGroup gs gt gm gx) x la hu e0 p0 new_child new_child)
    (ok && match n, v with None, None => true | _, _ => false end,
     mkLyric (match n, v with None, None => ch0 | _, _ => SyllabicText end) (mkSyllabicGroup gs gt gm gx) x la hu e0 p0 (time_child n) (time_child v))).
  { intros b0 ok ch0 e0 p0. destruct n as [n | ]; [ | destruct v as [v | ]]; [destruct v as [v | ] | | ]; cbn [opt_child app time_child].
    4: { rewrite andb_true_r. apply Loop_end. }
    all: eapply Loop_next; [unfold lyric_turn, import_editorial; go; cbn [ly_group]; rewrite S by reflexivity; cbn [obind]; go; reflexivity | cbn; lia | apply Loop_end]. }
  assert (L3 : forall b0 ok ch0 e0, Loop lyric_turn b0 (opt_child "end-paragraph" p ++ opt_child "footnote" n ++ opt_child "level" v) (ok, mkLyric ch0 (mkSyllabicGroup gs gt gm gx) x la hu e0 new_child new_child new_child)
    (ok && match n, v with None, None => true | _, _ => false end,
     mkLyric (match p, n, v with None, None, None => ch0 | _, _, _ => SyllabicText end) (mkSyllabicGroup gs gt gm gx) x la hu e0 (time_child p) (time_child n) (time_child v))).
  { intros b0 ok ch0 e0. destruct p as [p | ]; [ | apply L2]. cbn [opt_child app].
    eapply Loop_next; [unfold lyric_turn; go; cbn [ly_group]; rewrite S by reflexivity; cbn [obind]; go; cbn [ly_endLine ly_endParagraph]; go; reflexivity | cbn; lia | ].
    lits. cbn [orb]. rewrite andb_true_r. pose proof (L2 (node_of (lit "end-paragraph", p) :: b0) ok SyllabicText e0 (own p)) as L. destruct n, v; exact L. }
  unfold lyric_tail. destruct e as [e | ]; [ | apply (L3 b true ch new_child)]. cbn [opt_child app].
  eapply Loop_next; [unfold lyric_turn; go; cbn [ly_group]; rewrite S by reflexivity; cbn [obind]; go; reflexivity | cbn; lia | ].
  lits. cbn [orb andb]. pose proof (L3 (node_of (lit "end-line", e) :: b) true SyllabicText (own e)) as L. destruct p, n, v; exact L.
Qed.

Lemma elision_written {A} (l : list (option (A * option A) * A)) : Forall (fun e => match fst e with Some (_, Some _) => False | _ => True end) l ->
  Forall2 same_child (List.concat (map write_elision_group (map elision_of l))) (elisions l).
Proof.
  induction 1 as [ | [[[x [s | ]] | ] w] l H F IH]; [constructor | destruct H | rewrite elisions_some | rewrite elisions_none]; cbn [map List.concat elision_of fst snd opt_child app];
    unfold write_elision_group at 1; cbn [eg_has eg_elision eg_syllabic eg_text always if_has new_child not_has ch_has app]; repeat (constructor; [same | ]); exact IH.
Qed.

Lemma lyric_parts {A} (l : list (str * A)) : conforms lyric_content l ->
  exists h e p n v, l = h ++ lyric_tail e p n v /\ ((exists y, h = syllable_names y) \/ exists m a, In m ["extend"; "laughing"; "humming"]%string /\ h = [(lit m, a)]).
Proof.
  unfold lyric_content, editorial_content. cbn [app]. intros C.
  apply inv_sequence in C. destruct C as (x1 & y1 & -> & C1 & C). apply inv_sequence in C. destruct C as (x2 & y2 & -> & C2 & C).
  apply inv_sequence in C. destruct C as (x3 & y3 & -> & C3 & C). apply inv_sequence in C. destruct C as (x4 & y4 & -> & C4 & C).
  apply inv_sequence in C. destruct C as (x5 & y5 & -> & C5 & C). apply inv_nothing in C. subst y5. rewrite app_nil_r.
  apply inv_opt in C2. destruct C2 as [e ->]. apply inv_opt in C3. destruct C3 as [p ->]. apply inv_opt in C4. destruct C4 as [n ->]. apply inv_opt in C5. destruct C5 as [v ->].
  exists x1, e, p, n, v. split; [reflexivity | ]. apply inv_choice in C1. destruct C1 as (c & I & C).
  destruct I as [<- | [<- | [<- | [<- | []]]]].
  - left. unfold lyric_text_content in C. apply inv_sequence in C. destruct C as (u1 & w1 & -> & D1 & C). apply inv_sequence in C. destruct C as (u2 & w2 & -> & D2 & C).
    apply inv_sequence in C. destruct C as (u3 & w3 & -> & D3 & C). apply inv_sequence in C. destruct C as (u4 & w4 & -> & D4 & C). apply inv_nothing in C. subst w4. rewrite app_nil_r.
    apply inv_opt in D1. destruct D1 as [s ->]. apply inv_element in D2. destruct D2 as [t ->]. apply inv_elisions in D3. destruct D3 as [es ->]. apply inv_opt in D4. destruct D4 as [x ->].
    exists (mkSyllable s t es x). reflexivity.
  - right. apply inv_element in C. destruct C as [a ->]. exists "extend"%string, a. cbn. tauto.
  - right. apply inv_element in C. destruct C as [a ->]. exists "laughing"%string, a. cbn. tauto.
  - right. apply inv_element in C. destruct C as [a ->]. exists "humming"%string, a. cbn. tauto.
Qed.

(** What is read of a lyric the schema allows. *)
Lemma lyric_read {A} (y : syllable A) e p n v :
  read_lyric (nodes (syllable_names y ++ lyric_tail e p n v)) =
    Ok (match n, v with None, None => true | _, _ => false end, mkLyric SyllabicText (syllable_of y) new_child new_child new_child (time_child e) (time_child p) (time_child n) (time_child v)).
Proof.
  unfold read_lyric. fold (@new_lyric A). apply each_ok. destruct (syllable_turn y e p n v []) as (b' & q & T).
  pose proof (lyric_tail_loop e p n v (node_of q :: b') (mkLyric SyllabicText (syllable_of y) new_child new_child new_child new_child new_child new_child new_child) eq_refl eq_refl eq_refl eq_refl) as L.
  cbn [ly_choice ly_group ly_extend ly_laughing ly_humming] in L.
  assert (C : exists q0 z, syllable_names y ++ lyric_tail e p n v = q0 :: z /\ List.length (lyric_tail e p n v) <= List.length z).
  { generalize (lyric_tail e p n v). intros w. unfold syllable_names. destruct (sl_s y); cbn [opt_child app]; do 2 eexists; (split; [reflexivity | ]); cbn [List.length]; rewrite app_length; cbn [List.length]; rewrite ?app_length; lia. }
  destruct C as (q0 & z & Z & D). rewrite Z in *. eapply Loop_next; [exact T | exact D | ].
  destruct e, p, n, v; exact L.
Qed.

Lemma lyric_word_read {A} m (a : A) e p n v : In m ["extend"; "laughing"; "humming"]%string ->
  exists y, read_lyric (nodes ([(lit m, a)] ++ lyric_tail e p n v)) = Ok (match n, v with None, None => true | _, _ => false end, y) /\
    (lyric_tail e p n v = [] -> write_lyric y = [(lit m, [Own a])]).
Proof.
  intros I.
  set (y0 := if string_dec m "extend" then mkLyric LyricExtend (mkSyllabicGroup new_child new_child [] new_child) (own a) new_child new_child new_child new_child new_child new_child
    else if string_dec m "laughing" then mkLyric Laughing (mkSyllabicGroup new_child new_child [] new_child) new_child (own a) new_child new_child new_child new_child new_child
    else mkLyric Humming (mkSyllabicGroup new_child new_child [] new_child) new_child new_child (own a) new_child new_child new_child new_child).
  assert (T : lyric_turn (here [] ([(lit m, a)] ++ lyric_tail e p n v)) (true, new_lyric) = Ok (false, here [] ((lit m, a) :: lyric_tail e p n v), (true, y0))).
  { unfold y0. destruct I as [<- | [<- | [<- | []]]]; cbn [app]; unfold lyric_turn, new_lyric; go; reflexivity. }
  pose proof (lyric_tail_loop e p n v [node_of (lit m, a)] y0) as L.
  assert (H : ly_endLine y0 = new_child /\ ly_endParagraph y0 = new_child /\ ly_footnote y0 = new_child /\ ly_level y0 = new_child).
  { unfold y0. destruct (string_dec m "extend"), (string_dec m "laughing"); repeat split. }
  destruct H as (H1 & H2 & H3 & H4). specialize (L H1 H2 H3 H4).
  eexists. split.
  - unfold read_lyric. fold (@new_lyric A). apply each_ok. cbn [app] in *. eapply Loop_next; [exact T | constructor | exact L].
  - intros E. destruct e; [discriminate E | ]. destruct p; [discriminate E | ]. destruct n; [discriminate E | ]. destruct v; [discriminate E | ].
    clear - I. unfold y0. destruct I as [<- | [<- | [<- | []]]]; reflexivity.
Qed.

Lemma lyric_head_names {A} (h : list (str * A)) : (exists y, h = syllable_names y) \/ (exists m a, In m ["extend"; "laughing"; "humming"]%string /\ h = [(lit m, a)]) ->
  Forall (fun q => In (fst q) (map lit ["syllabic"; "text"; "elision"; "extend"; "laughing"; "humming"]%string)) h.
Proof.
  intros [[[s t es x] ->] | (m & a & I & ->)].
  - unfold syllable_names. cbn [sl_s sl_t sl_e sl_x]. apply Forall_app. split; [destruct s; [constructor; [cbn; tauto | constructor] | constructor] | ]. constructor; [cbn; tauto | ]. apply Forall_app. split.
    + induction es as [ | [[[e s0] | ] w] es IH]; [constructor | rewrite elisions_some | rewrite elisions_none].
      * constructor; [cbn; tauto | ]. apply Forall_app. split; [destruct s0; [constructor; [cbn; tauto | constructor] | constructor] | ]. constructor; [cbn; tauto | exact IH].
      * constructor; [cbn; tauto | exact IH].
    + destruct x; [constructor; [cbn; tauto | constructor] | constructor].
  - constructor; [ | constructor]. cbn [fst]. destruct I as [<- | [<- | [<- | []]]]; cbn; tauto.
Qed.

Theorem lyric_refused A (l : list (str * A)) : conforms lyric_content l -> has_child "footnote" l \/ has_child "level" l -> refused read_lyric l.
Proof.
  intros C H. destruct (lyric_parts l C) as (h & e & p & n & v & -> & P).
  assert (X : match n, v with None, None => true | _, _ => false end = false).
  { destruct n; [reflexivity | ]. destruct v; [reflexivity | ]. exfalso.
    assert (Y : Forall (fun q => In (fst q) (map lit ["syllabic"; "text"; "elision"; "extend"; "laughing"; "humming"; "end-line"; "end-paragraph"]%string)) (h ++ lyric_tail e p None None)).
    { apply Forall_app. split.
      - eapply Forall_impl; [ | exact (lyric_head_names h P)]. intros q I. cbn [map] in I |- *. repeat (destruct I as [I | I]; [rewrite <- I; cbn; tauto | ]). destruct I.
      - unfold lyric_tail. destruct e, p; cbn [opt_child app]; repeat (constructor; [cbn; tauto | ]); constructor. }
    rewrite Forall_forall in Y. destruct H as [[a H] | [a H]]; specialize (Y _ H); vm_compute in Y; repeat (destruct Y as [Y | Y]; [discriminate Y | ]); exact Y. }
  destruct P as [[y ->] | (m & a & I & ->)].
  - eexists. rewrite lyric_read, X. reflexivity.
  - destruct (lyric_word_read m a e p n v I) as (y & R & _). exists y. rewrite R, X. reflexivity.
Qed.

(** The lyrics that come back. *)
Theorem lyric_back A (l : list (str * A)) :
  conforms (Sequence [Optional (Element "syllabic"); Element "text"; Many (Sequence [Optional (Element "elision"); Element "text"]); Optional (Element "extend");
                      Optional (Element "end-line"); Optional (Element "end-paragraph")]) l -> comes_back read_lyric write_lyric l.
Proof.
  intros C. apply inv_sequence in C. destruct C as (u1 & w1 & -> & D1 & C). apply inv_sequence in C. destruct C as (u2 & w2 & -> & D2 & C).
  apply inv_sequence in C. destruct C as (u3 & w3 & -> & D3 & C). apply inv_sequence in C. destruct C as (u4 & w4 & -> & D4 & C).
  apply inv_sequence in C. destruct C as (u5 & w5 & -> & D5 & C). apply inv_sequence in C. destruct C as (u6 & w6 & -> & D6 & C). apply inv_nothing in C. subst w6. rewrite app_nil_r.
  apply inv_opt in D1. destruct D1 as [s ->]. apply inv_element in D2. destruct D2 as [t ->]. apply inv_opt in D4. destruct D4 as [x ->]. apply inv_opt in D5. destruct D5 as [e ->].
  apply inv_opt in D6. destruct D6 as [p ->].
  assert (E : exists es, u3 = elisions es /\ Forall (fun e => match fst e with Some (_, Some _) => False | _ => True end) es).
  { apply inv_many in D3. destruct D3 as (zs & -> & F). induction F as [ | z zs C F (es & E & G)]; [exists []; split; [reflexivity | constructor] | ]. cbn [List.concat]. rewrite E.
    apply inv_sequence in C. destruct C as (x1 & y1 & -> & C1 & C). apply inv_sequence in C. destruct C as (x2 & y2 & -> & C2 & C). apply inv_nothing in C. subst y2.
    apply inv_element in C2. destruct C2 as [w ->]. rewrite app_nil_r. apply inv_opt in C1. destruct C1 as [[o | ] ->].
    - exists ((Some (o, None), w) :: es). split; [reflexivity | constructor; [exact I | exact G]].
    - exists ((None, w) :: es). split; [reflexivity | constructor; [exact I | exact G]]. }
  destruct E as (es & -> & G).
  assert (Z : opt_child "syllabic" s ++ [(lit "text", t)] ++ elisions es ++ opt_child "extend" x ++ opt_child "end-line" e ++ opt_child "end-paragraph" p
    = syllable_names (mkSyllable s t es x) ++ lyric_tail e p None None).
  { unfold syllable_names, lyric_tail. cbn [sl_s sl_t sl_e sl_x opt_child app]. rewrite <- !app_assoc. cbn [app]. rewrite <- !app_assoc, !app_nil_r. reflexivity. }
  eexists. rewrite Z. split; [apply lyric_read | ]. unfold write_lyric. cbn [ly_choice ly_group ly_endLine ly_endParagraph ly_footnote ly_level].
  unfold syllable_of, syllable_names, lyric_tail. cbn [sy_syllabic sy_text sy_more sy_extend sl_s sl_t sl_e sl_x].
  apply Forall2_app.
  - apply Forall2_app; [apply opt_written | ]. constructor; [same | ]. apply Forall2_app; [apply elision_written; exact G | apply opt_written].
  - repeat (apply Forall2_app; [apply opt_written | ]). apply opt_written.
Qed.

Theorem lyric_word_back A m (a : A) : In m ["extend"; "laughing"; "humming"]%string -> comes_back read_lyric write_lyric [(lit m, a)].
Proof.
  intros I. destruct (lyric_word_read m a None None None None I) as (y & R & W). exists y. split; [exact R | ]. rewrite (W eq_refl). constructor; [same | constructor].
Qed.
