(** Proofs about the children of a note. *)
From Coq Require Import List Ascii Bool String ZArith QArith Qabs Lia Sorted.
From Verif Require Import Model.Base Model.Text Model.Strings Model.CoreEnums Model.ApiEnums.
From Verif Require Import Model.MeasureTypes Model.Notations Model.NoteContent Spec.Attachments Spec.NoteReading Proofs.NoteProofs.
Import ListNotations.
Open Scope nat_scope.
Open Scope list_scope.

(** ** The choice *)

Definition no_tie (l : list nchild) : Prop := match l with CTie _ :: _ => False | _ => True end.

Lemma ties_taken ts rest : no_tie rest -> forall g,
  parse_ties g (map CTie ts ++ rest) = (mkNoteGroup (ng_chord g) (ng_full g) (ng_duration g) (ng_ties g ++ ts), rest).
Proof.
  intros N. induction ts as [|t ts IH]; intros g; cbn [map app].
  - rewrite app_nil_r. destruct g as [a b c d]. cbn [ng_chord ng_full ng_duration ng_ties].
    destruct rest as [|[] rest]; cbn [parse_ties]; try reflexivity. destruct N.
  - cbn [parse_ties]. rewrite IH. cbn [ng_chord ng_full ng_duration ng_ties]. rewrite <- app_assoc. reflexivity.
Qed.

Lemma full_taken g0 chord f rest :
  parse_full g0 ((if chord : bool then [CChord] else []) ++ [CFull f] ++ rest) =
  Some (mkNoteGroup (chord || ng_chord g0) f (ng_duration g0) (ng_ties g0), rest).
Proof. destruct chord; reflexivity. Qed.

(** [joined]: what reading one choice after another makes of the group. *)
Lemma choice_taken c k g rest : no_tie rest ->
  exists g', parse_choice c (choice_children k g ++ rest) = Some (set_group k g' c, rest) /\
    (nc_normal c = new_group -> nc_grace c = new_group -> nc_cue c = new_group -> group_ok k g -> g' = g).
Proof.
  intros N. destruct g as [chord f d ts]. destruct k; unfold choice_children; cbn [ng_chord ng_full ng_duration ng_ties app].
  - (* normal *)
    eexists. split.
    + assert (E : parse_choice c (((if chord then [CChord] else []) ++ CFull f :: CDuration d :: map CTie ts) ++ rest) =
                  match parse_full (nc_normal c) ((if chord then [CChord] else []) ++ [CFull f] ++ CDuration d :: map CTie ts ++ rest) with
                  | Some (g, r1) =>
                      match parse_duration g r1 with
                      | Some (g2, r2) => let (g3, r3) := parse_ties g2 r2 in Some (set_group NormalNote g3 c, r3)
                      | None => None
                      end
                  | None => None
                  end) by (destruct chord; reflexivity).
      rewrite E, full_taken. cbn [parse_duration]. rewrite ties_taken by exact N. reflexivity.
    + intros H _ _ _. rewrite H. cbn [ng_chord ng_full ng_duration ng_ties new_group app]. rewrite orb_false_r. reflexivity.
  - (* cue *)
    eexists. split.
    + cbn [app]. cbn [parse_choice]. rewrite <- app_assoc. cbn [app].
      change (CFull f :: CDuration d :: rest) with ([CFull f] ++ CDuration d :: rest).
      rewrite full_taken. cbn [parse_duration]. reflexivity.
    + intros _ _ H G. rewrite H. cbn [group_ok ng_ties] in G. subst ts. cbn [ng_chord ng_full ng_duration ng_ties new_group app]. rewrite orb_false_r. reflexivity.
  - (* grace *)
    eexists. split.
    + cbn [app]. cbn [parse_choice]. rewrite <- app_assoc. cbn [app].
      change (CFull f :: map CTie ts ++ rest) with ([CFull f] ++ map CTie ts ++ rest).
      rewrite full_taken. rewrite ties_taken by exact N. reflexivity.
    + intros _ H _ G. rewrite H. cbn [group_ok ng_duration] in G. cbn [ng_chord ng_full ng_duration ng_ties new_group app] in *. subst d. rewrite orb_false_r. reflexivity.
Qed.

Lemma choice_head k g rest : exists c r, choice_children k g ++ rest = c :: r /\
  match c with CFull _ | CChord | CGrace | CCue => True | _ => False end /\ (List.length rest <= List.length r).
Proof.
  destruct g as [chord f d ts]. destruct k, chord; unfold choice_children; cbn [ng_chord ng_full ng_duration ng_ties app]; eexists _, _;
    (split; [reflexivity | split; [exact I | ]]); repeat (cbn [app List.length]; rewrite ?app_length, ?map_length); lia.
Qed.

(** ** The other children *)

Definition orlast {A} (l : list A) (o : option A) : option A := match last_one l with Some v => Some v | None => o end.

Lemma last_one_cons {A} (v : A) l : last_one (v :: l) = Some (match last_one l with Some w => w | None => v end).
Proof. unfold last_one. cbn [rev]. destruct (rev l); reflexivity. Qed.

Lemma orlast_cons {A} (v : A) l o : orlast (v :: l) o = orlast l (Some v).
Proof. unfold orlast. rewrite last_one_cons. destruct (last_one l); reflexivity. Qed.

Definition p_instrument c := match c with CInstrument v => Some v | _ => None end.
Definition p_footnote c := match c with CFootnote v f => Some (mkFootnote v (option_map family_parse f)) | _ => None end.
Definition p_level c := match c with CLevel v => Some v | _ => None end.
Definition p_voice c := match c with CVoice v => Some v | _ => None end.
Definition p_type c := match c with CType v => Some v | _ => None end.
Definition p_dot c := match c with CDot => Some tt | _ => None end.
Definition p_accidental c := match c with CAccidental v => Some v | _ => None end.
Definition p_time c := match c with CTime v => Some v | _ => None end.
Definition p_stem c := match c with CStem v => Some v | _ => None end.
Definition p_notehead c := match c with CNotehead v => Some v | _ => None end.
Definition p_noteheadText c := match c with CNoteheadText v => Some v | _ => None end.
Definition p_staff c := match c with CStaff v => Some v | _ => None end.
Definition p_beam c := match c with CBeam v => Some v | _ => None end.
Definition p_notations c := match c with CNotations v => Some v | _ => None end.
Definition p_lyric c := match c with CLyric v => Some v | _ => None end.
Definition p_play c := match c with CPlay v => Some v | _ => None end.

Definition applied (l : list nchild) (x : xnote) : xnote :=
  mkXNote (x_position x) (x_printObject x) (x_choice x)
    (orlast (select p_instrument l) (x_instrument x)) (orlast (select p_footnote l) (x_footnote x))
    (orlast (select p_level l) (x_level x)) (orlast (select p_voice l) (x_voice x)) (orlast (select p_type l) (x_type x))
    (x_dots x + List.length (select p_dot l)) (orlast (select p_accidental l) (x_accidental x)) (orlast (select p_time l) (x_time x))
    (orlast (select p_stem l) (x_stem x)) (orlast (select p_notehead l) (x_notehead x))
    (orlast (select p_noteheadText l) (x_noteheadText x)) (orlast (select p_staff l) (x_staff x)) (x_beams x ++ select p_beam l)
    (x_notations x ++ select p_notations l) (x_lyrics x ++ select p_lyric l) (orlast (select p_play l) (x_play x)).

Lemma applied_nil x : applied [] x = x.
Proof. destruct x. unfold applied. cbn. rewrite Nat.add_0_r, !app_nil_r. reflexivity. Qed.

Lemma applied_cons c l x : follows c = true ->
  exists y, read_child c x = Some y /\ applied (c :: l) x = applied l y /\ x_choice y = x_choice x.
Proof.
  intros F. destruct c; try discriminate F; (eexists; split; [reflexivity | split; [ | reflexivity]]); unfold applied;
    cbn [select flat_map p_instrument p_footnote p_level p_voice p_type p_dot p_accidental p_time p_stem p_notehead p_noteheadText p_staff
      p_beam p_notations p_lyric p_play app set_instrument set_footnote set_level set_voice set_type set_dots set_accidental set_time set_stem
      set_notehead set_noteheadText set_staff set_beams set_notations set_lyrics set_play
      x_position x_printObject x_choice x_instrument x_footnote x_level x_voice x_type x_dots x_accidental x_time x_stem x_notehead
      x_noteheadText x_staff x_beams x_notations x_lyrics x_play List.length];
    rewrite ?orlast_cons, <- ?app_assoc, ?Nat.add_succ_r; reflexivity.
Qed.

Lemma read_other fuel c l b x : follows c = true -> read_children (S fuel) (c :: l) b x =
  match read_child c x with Some y => read_children fuel l b y | None => None end.
Proof. intros F. destruct c; try discriminate F; reflexivity. Qed.

Lemma read_others l : forallb follows l = true -> forall fuel rest b x, (List.length (l ++ rest) <= fuel) ->
  exists fuel', (List.length rest <= fuel') /\ read_children fuel (l ++ rest) b x = read_children fuel' rest b (applied l x).
Proof.
  induction l as [|c l IH]; intros F fuel rest b x L; cbn [app] in *.
  - exists fuel. split; [exact L | ]. rewrite applied_nil. reflexivity.
  - cbn [forallb] in F. apply andb_prop in F as [F1 F2]. destruct fuel as [|fuel]; [cbn in L; lia | ].
    destruct (applied_cons c l x F1) as (y & Y1 & Y2 & _). rewrite read_other by exact F1. rewrite Y1.
    destruct (IH F2 fuel rest b y) as (f' & L' & E); [cbn [List.length] in L; lia | ].
    exists f'. split; [exact L' | ]. rewrite E, Y2. reflexivity.
Qed.

Lemma read_end fuel b x : read_children fuel [] b x = if b then Some x else None.
Proof. destruct fuel; reflexivity. Qed.

Lemma read_choice fuel k g rest b x : no_tie rest -> (List.length (choice_children k g ++ rest) <= fuel) ->
  exists fuel' g', (List.length rest <= fuel') /\
    read_children fuel (choice_children k g ++ rest) b x = read_children fuel' rest true (set_choice (set_group k g' (x_choice x)) x) /\
    (nc_normal (x_choice x) = new_group -> nc_grace (x_choice x) = new_group -> nc_cue (x_choice x) = new_group -> group_ok k g -> g' = g).
Proof.
  intros N L. destruct (choice_taken (x_choice x) k g rest N) as (g' & P & G).
  destruct (choice_head k g rest) as (c & r & E & C & Lr). rewrite E in *. destruct fuel as [|fuel]; [cbn in L; lia | ].
  exists fuel, g'. split; [cbn [List.length] in L; lia | ]. split; [ | exact G].
  destruct c; try contradiction; cbn [read_children]; rewrite P; reflexivity.
Qed.

Lemma follows_no_tie l : forallb follows l = true -> no_tie l.
Proof. destruct l as [|c l]; [intros _; exact I | ]. cbn [forallb]. intros H. apply andb_prop in H as [H _]. destruct c; try exact I. discriminate H. Qed.

Lemma select_app {A} (f : nchild -> option A) a b : select f (a ++ b) = select f a ++ select f b.
Proof. apply flat_map_app. Qed.

Lemma orlast_app {A} (a b : list A) o : orlast b (orlast a o) = orlast (a ++ b) o.
Proof. revert o. induction a as [|v a IH]; intros o; cbn [app]; [reflexivity | ]. rewrite !orlast_cons. apply IH. Qed.

Lemma applied_app a b x : applied b (applied a x) = applied (a ++ b) x.
Proof.
  unfold applied.
  cbn [x_position x_printObject x_choice x_instrument x_footnote x_level x_voice x_type x_dots x_accidental x_time x_stem x_notehead
      x_noteheadText x_staff x_beams x_notations x_lyrics x_play].
  rewrite !select_app, !orlast_app, !app_assoc, app_length, Nat.add_assoc. reflexivity.
Qed.

Lemma any_order p o k g before after : group_ok k g -> forallb follows before = true -> forallb follows after = true ->
  read_note p o (before ++ choice_children k g ++ after) = Some (collected p o (only_choice k g) (before ++ after)).
Proof.
  intros G B A. unfold read_note.
  match goal with |- read_children _ _ _ ?x0 = _ => set (x := x0) end.
  destruct (read_others before B _ (choice_children k g ++ after) false x (Nat.le_refl _)) as (f1 & L1 & ->).
  destruct (read_choice f1 k g after false (applied before x) (follows_no_tie _ A) L1) as (f2 & g' & L2 & -> & E).
  rewrite (E eq_refl eq_refl eq_refl G). clear E.
  rewrite <- (app_nil_r after) at 1. rewrite <- (app_nil_r after) in L2.
  destruct (read_others after A f2 [] true (set_choice (set_group k g (x_choice (applied before x))) (applied before x)) L2) as (f3 & _ & ->).
  rewrite read_end.
  assert (S : applied after (set_choice (set_group k g (x_choice (applied before x))) (applied before x)) =
              set_choice (set_group k g new_choice) (applied (before ++ after) x)).
  { rewrite <- applied_app. reflexivity. }
  rewrite S. f_equal. unfold set_choice, collected, applied, x.
  cbn [x_position x_printObject x_choice x_instrument x_footnote x_level x_voice x_type x_dots x_accidental x_time x_stem x_notehead
      x_noteheadText x_staff x_beams x_notations x_lyrics x_play app].
  assert (O : forall T (l : list T), orlast l None = last_one l) by (intros T l; unfold orlast; destruct (last_one l); reflexivity).
  rewrite !O. destruct k; reflexivity.
Qed.

(** ** What is written *)

Lemma stream_is k g x : x_choice x = only_choice k g -> stream_choice (x_choice x) = choice_children k g.
Proof.
  intros ->. destruct g as [chord f d ts]. destruct k, chord; unfold stream_choice, choice_children; cbn; rewrite ?app_nil_r; reflexivity.
Qed.

Definition opt {A} (o : option A) : list A := match o with Some v => [v] | None => [] end.

Lemma only_one {A} (f : nchild -> option A) (mk : A -> nchild) (o : option A) rest :
  (forall v, f (mk v) = Some v) -> select f (one mk o ++ rest) = opt o ++ select f rest.
Proof. intros H. destruct o as [v|]; cbn [one app select flat_map]; [rewrite H | ]; reflexivity. Qed.

Lemma none_one {A B} (f : nchild -> option A) (mk : B -> nchild) (o : option B) rest :
  (forall v, f (mk v) = None) -> select f (one mk o ++ rest) = select f rest.
Proof. intros H. destruct o as [v|]; cbn [one app select flat_map]; [rewrite H | ]; reflexivity. Qed.

Lemma all_map {A} (f : nchild -> option A) (mk : A -> nchild) l rest :
  (forall v, f (mk v) = Some v) -> select f (map mk l ++ rest) = l ++ select f rest.
Proof. intros H. induction l as [|v l IH]; cbn [map app select flat_map]; [ | rewrite H; cbn [app]; f_equal; apply IH]; reflexivity. Qed.

Lemma none_map {A B} (f : nchild -> option A) (mk : B -> nchild) l rest :
  (forall v, f (mk v) = None) -> select f (map mk l ++ rest) = select f rest.
Proof. intros H. induction l as [|v l IH]; cbn [map app select flat_map]; [ | rewrite H; apply IH]; reflexivity. Qed.

Lemma dots_select n rest : select p_dot (repeat CDot n ++ rest) = repeat tt n ++ select p_dot rest.
Proof. induction n as [|n IH]; cbn [repeat app select flat_map p_dot]; [ | f_equal; apply IH]; reflexivity. Qed.

Lemma dots_none {A} (f : nchild -> option A) n rest : f CDot = None -> select f (repeat CDot n ++ rest) = select f rest.
Proof. intros H. induction n as [|n IH]; cbn [repeat app select flat_map]; [ | rewrite H; apply IH]; reflexivity. Qed.

(** The children after the choice. *)
Definition others (x : xnote) : list nchild :=
  one CInstrument (x_instrument x) ++
  one (fun f => CFootnote (fn_value f) (option_map family_text (fn_family f))) (x_footnote x) ++ one CLevel (x_level x) ++
  one CVoice (x_voice x) ++ one CType (x_type x) ++ repeat CDot (x_dots x) ++ one CAccidental (x_accidental x) ++
  one CTime (x_time x) ++ one CStem (x_stem x) ++ one CNotehead (x_notehead x) ++ one CNoteheadText (x_noteheadText x) ++
  one CStaff (x_staff x) ++ map CBeam (x_beams x) ++ map CNotations (x_notations x) ++ map CLyric (x_lyrics x) ++
  one CPlay (x_play x) ++ [].

Lemma follows_one {A} (mk : A -> nchild) o : (forall v, follows (mk v) = true) -> forallb follows (one mk o) = true.
Proof. intros H. destruct o; cbn [one forallb]; [rewrite H | ]; reflexivity. Qed.
Lemma follows_map {A} (mk : A -> nchild) l : (forall v, follows (mk v) = true) -> forallb follows (map mk l) = true.
Proof. intros H. induction l; cbn [map forallb]; [ | rewrite H]; auto. Qed.

Lemma others_follow x : forallb follows (others x) = true.
Proof.
  unfold others. rewrite !forallb_app.
  repeat (apply andb_true_intro; split); try (apply follows_one; reflexivity); try (apply follows_map; reflexivity).
  2: reflexivity.
  induction (x_dots x); [reflexivity | assumption].
Qed.

Definition footnote_back (f : xfootnote) : xfootnote := mkFootnote (fn_value f) (option_map family_parse (option_map family_text (fn_family f))).

Lemma last_option {A} (o : option A) : last_one (opt o) = o.
Proof. destruct o; reflexivity. Qed.

Lemma rest_none {A} (f : nchild -> option A) l r : select f r = [] -> l ++ select f r = l.
Proof. intros ->. apply app_nil_r. Qed.

Lemma footnote_one (o : option xfootnote) rest :
  select p_footnote (one (fun f => CFootnote (fn_value f) (option_map family_text (fn_family f))) o ++ rest) =
  opt (option_map footnote_back o) ++ select p_footnote rest.
Proof. destruct o; reflexivity. Qed.

Ltac segment :=
  match goal with
  | |- select ?f (one ?mk ?o ++ ?r) = _ => first [rewrite (none_one f mk o r) by reflexivity | rewrite (only_one f mk o r) by reflexivity; apply rest_none]
  | |- select ?f (repeat CDot ?n ++ ?r) = _ => rewrite (dots_none f n r) by reflexivity
  | |- select ?f (map ?mk ?l ++ ?r) = _ => first [rewrite (none_map f mk l r) by reflexivity | rewrite (all_map f mk l r) by reflexivity; apply rest_none]
  end.

Lemma s_instrument x : select p_instrument (others x) = opt (x_instrument x). Proof. unfold others. repeat segment. reflexivity. Qed.
Lemma s_footnote x : select p_footnote (others x) = opt (option_map footnote_back (x_footnote x)).
Proof. unfold others. segment. rewrite footnote_one. apply rest_none. repeat segment. reflexivity. Qed.
Lemma s_level x : select p_level (others x) = opt (x_level x). Proof. unfold others. repeat segment. reflexivity. Qed.
Lemma s_voice x : select p_voice (others x) = opt (x_voice x). Proof. unfold others. repeat segment. reflexivity. Qed.
Lemma s_type x : select p_type (others x) = opt (x_type x). Proof. unfold others. repeat segment. reflexivity. Qed.
Lemma s_dot x : select p_dot (others x) = repeat tt (x_dots x).
Proof. unfold others. do 5 segment. rewrite dots_select. apply rest_none. repeat segment. reflexivity. Qed.
Lemma s_accidental x : select p_accidental (others x) = opt (x_accidental x). Proof. unfold others. repeat segment. reflexivity. Qed.
Lemma s_time x : select p_time (others x) = opt (x_time x). Proof. unfold others. repeat segment. reflexivity. Qed.
Lemma s_stem x : select p_stem (others x) = opt (x_stem x). Proof. unfold others. repeat segment. reflexivity. Qed.
Lemma s_notehead x : select p_notehead (others x) = opt (x_notehead x). Proof. unfold others. repeat segment. reflexivity. Qed.
Lemma s_noteheadText x : select p_noteheadText (others x) = opt (x_noteheadText x). Proof. unfold others. repeat segment. reflexivity. Qed.
Lemma s_staff x : select p_staff (others x) = opt (x_staff x). Proof. unfold others. repeat segment. reflexivity. Qed.
Lemma s_beam x : select p_beam (others x) = x_beams x. Proof. unfold others. repeat segment. reflexivity. Qed.
Lemma s_notations x : select p_notations (others x) = x_notations x. Proof. unfold others. repeat segment. reflexivity. Qed.
Lemma s_lyric x : select p_lyric (others x) = x_lyrics x. Proof. unfold others. repeat segment. reflexivity. Qed.
Lemma s_play x : select p_play (others x) = opt (x_play x). Proof. unfold others. repeat segment. reflexivity. Qed.

Lemma collected_others p o c x : collected p o c (others x) =
  mkXNote p o c (x_instrument x) (option_map footnote_back (x_footnote x)) (x_level x) (x_voice x) (x_type x) (x_dots x)
    (x_accidental x) (x_time x) (x_stem x) (x_notehead x) (x_noteheadText x) (x_staff x) (x_beams x) (x_notations x) (x_lyrics x) (x_play x).
Proof.
  unfold collected.
  fold p_instrument p_footnote p_level p_voice p_type p_dot p_accidental p_time p_stem p_notehead p_noteheadText p_staff p_beam p_notations p_lyric p_play.
  rewrite s_instrument, s_footnote, s_level, s_voice, s_type, s_dot, s_accidental, s_time, s_stem, s_notehead, s_noteheadText, s_staff,
    s_beam, s_notations, s_lyric, s_play, !last_option, repeat_length. reflexivity.
Qed.

Lemma stream_others x : stream_note x = stream_choice (x_choice x) ++ others x.
Proof. unfold stream_note, others. rewrite app_nil_r. reflexivity. Qed.

(** What is read of what is written: the note, but for the families of the footnote. *)
Lemma children_back x k g : x_choice x = only_choice k g -> group_ok k g ->
  read_note (x_position x) (x_printObject x) (stream_note x) =
  Some (mkXNote (x_position x) (x_printObject x) (x_choice x) (x_instrument x) (option_map footnote_back (x_footnote x)) (x_level x) (x_voice x)
    (x_type x) (x_dots x) (x_accidental x) (x_time x) (x_stem x) (x_notehead x) (x_noteheadText x) (x_staff x) (x_beams x) (x_notations x)
    (x_lyrics x) (x_play x)).
Proof.
  intros C G. rewrite stream_others, (stream_is k g x C).
  pose proof (any_order (x_position x) (x_printObject x) k g [] (others x) G eq_refl (others_follow x)) as A. cbn [app] in A.
  rewrite A, collected_others, C. reflexivity.
Qed.

Lemma clean_tokens l : Forall clean l -> map token_of l = l.
Proof. intros F. induction F as [|t l [C _] F IH]; [reflexivity | ]. cbn [map]. rewrite C, IH. reflexivity. Qed.

Lemma families_back l : family_ok l -> family_parse (family_text l) = l.
Proof.
  intros [F N]. destruct l as [|t l]; [reflexivity | ]. rewrite family_back.
  - unfold str in *. destruct (rev (t :: l)) as [|[|c b] q] eqn:Q.
    + destruct (app_cons_not_nil _ _ _ (eq_sym Q)).
    + exfalso. apply (N (rev q) []); [ | reflexivity]. rewrite <- (rev_involutive (t :: l)), Q. reflexivity.
    + exact (clean_tokens _ F).
  - discriminate.
  - revert F. apply Forall_impl. intros u [_ U]. exact U.
Qed.

Lemma note_children_back x : xnote_ok x -> read_note (x_position x) (x_printObject x) (stream_note x) = Some x.
Proof.
  intros [(k & g & C & G) F]. rewrite (children_back x k g C G). f_equal. destruct x as [a1 a2 a3 a4 a5 a6 a7 a8 a9 a10 a11 a12 a13 a14 a15 a16 a17 a18 a19].
  cbn [x_position x_printObject x_choice x_instrument x_footnote x_level x_voice x_type x_dots x_accidental x_time x_stem x_notehead
      x_noteheadText x_staff x_beams x_notations x_lyrics x_play] in *.
  assert (E : option_map footnote_back a5 = a5).
  { destruct a5 as [[v [fam|]]|]; try reflexivity. cbn in F. unfold footnote_back. cbn [option_map fn_value fn_family].
    rewrite (families_back fam F). reflexivity. }
  rewrite E. reflexivity.
Qed.

(** ** The order of what is written *)

Definition ranked (k : nat) (l : list nchild) : Prop := StronglySorted le (map rank l) /\ Forall (fun c => k <= rank c) l.

Lemma ranked_nil k : ranked k [].
Proof. split; constructor. Qed.

Lemma ranked_less j k l : j <= k -> ranked k l -> ranked j l.
Proof. intros L [S F]. split; [exact S | ]. revert F. apply Forall_impl. intros c H. lia. Qed.

Lemma ranked_app k l r : Forall (fun c => rank c = k) l -> ranked k r -> ranked k (l ++ r).
Proof.
  intros F R. induction F as [|c l C F IH]; [exact R | ]. destruct IH as [I1 I2]. split; cbn [app map].
  - constructor; [exact I1 | ]. rewrite Forall_map. revert I2. apply Forall_impl. intros d D. lia.
  - constructor; [lia | exact I2].
Qed.

Lemma rank_one {A} (mk : A -> nchild) o k : (forall v, rank (mk v) = k) -> Forall (fun c => rank c = k) (one mk o).
Proof. intros H. destruct o; constructor; [apply H | constructor]. Qed.
Lemma rank_map {A} (mk : A -> nchild) l k : (forall v, rank (mk v) = k) -> Forall (fun c => rank c = k) (map mk l).
Proof. intros H. induction l; constructor; [apply H | assumption]. Qed.
Lemma rank_dots n : Forall (fun c => rank c = 10) (repeat CDot n).
Proof. induction n; constructor; [reflexivity | assumption]. Qed.

Lemma stream_ranked x : ranked 0 (stream_note x).
Proof.
  assert (O : ranked 5 (others x)).
  { unfold others.
    apply ranked_app; [apply rank_one; reflexivity | ]. apply (ranked_less _ 6); [lia | ].
    apply ranked_app; [apply rank_one; reflexivity | ]. apply (ranked_less _ 7); [lia | ].
    apply ranked_app; [apply rank_one; reflexivity | ]. apply (ranked_less _ 8); [lia | ].
    apply ranked_app; [apply rank_one; reflexivity | ]. apply (ranked_less _ 9); [lia | ].
    apply ranked_app; [apply rank_one; reflexivity | ]. apply (ranked_less _ 10); [lia | ].
    apply ranked_app; [apply rank_dots | ]. apply (ranked_less _ 11); [lia | ].
    apply ranked_app; [apply rank_one; reflexivity | ]. apply (ranked_less _ 12); [lia | ].
    apply ranked_app; [apply rank_one; reflexivity | ]. apply (ranked_less _ 13); [lia | ].
    apply ranked_app; [apply rank_one; reflexivity | ]. apply (ranked_less _ 14); [lia | ].
    apply ranked_app; [apply rank_one; reflexivity | ]. apply (ranked_less _ 15); [lia | ].
    apply ranked_app; [apply rank_one; reflexivity | ]. apply (ranked_less _ 16); [lia | ].
    apply ranked_app; [apply rank_one; reflexivity | ]. apply (ranked_less _ 17); [lia | ].
    apply ranked_app; [apply rank_map; reflexivity | ]. apply (ranked_less _ 18); [lia | ].
    apply ranked_app; [apply rank_map; reflexivity | ]. apply (ranked_less _ 19); [lia | ].
    apply ranked_app; [apply rank_map; reflexivity | ]. apply (ranked_less _ 20); [lia | ].
    apply ranked_app; [apply rank_one; reflexivity | ]. apply ranked_nil. }
  assert (T : forall ts, ranked 4 (map CTie ts ++ others x)).
  { intros ts. apply ranked_app; [apply rank_map; reflexivity | ]. exact (ranked_less 4 5 _ ltac:(lia) O). }
  rewrite stream_others. unfold stream_choice. destruct (nc_kind (x_choice x)).
  - rewrite <- !app_assoc. apply (ranked_less 0 1); [lia | ].
    apply ranked_app; [destruct (ng_chord (group_of (x_choice x))); repeat constructor | ]. apply (ranked_less 1 2); [lia | ].
    apply (ranked_app 2); [repeat constructor | ]. apply (ranked_less 2 3); [lia | ].
    change (ranked 3 ([CDuration (ng_duration (group_of (x_choice x)))] ++ (map CTie (ng_ties (group_of (x_choice x))) ++ others x))).
    apply (ranked_app 3); [repeat constructor | ]. apply (ranked_less 3 4); [lia | ]. apply T.
  - cbn [app]. rewrite <- !app_assoc.
    match goal with |- ranked 0 (CCue :: ?r) => change (ranked 0 ([CCue] ++ r)) end.
    apply ranked_app; [repeat constructor | ]. apply (ranked_less 0 1); [lia | ].
    apply ranked_app; [destruct (ng_chord (group_of (x_choice x))); repeat constructor | ]. apply (ranked_less 1 2); [lia | ].
    apply (ranked_app 2); [repeat constructor | ]. apply (ranked_less 2 3); [lia | ].
    apply (ranked_app 3); [repeat constructor | ]. exact (ranked_less 3 5 _ ltac:(lia) O).
  - cbn [app]. rewrite <- !app_assoc.
    match goal with |- ranked 0 (CGrace :: ?r) => change (ranked 0 ([CGrace] ++ r)) end.
    apply ranked_app; [repeat constructor | ]. apply (ranked_less 0 1); [lia | ].
    apply ranked_app; [destruct (ng_chord (group_of (x_choice x))); repeat constructor | ]. apply (ranked_less 1 2); [lia | ].
    apply (ranked_app 2); [repeat constructor | ]. apply (ranked_less 2 4); [lia | ]. apply T.
Qed.

(** ** What is accepted *)

Lemma sequence_no_tie b l : sequence b l -> no_tie l.
Proof.
  intros H. destruct H as [|b c l F H|b k g l G H]; [exact I | | ].
  - destruct c; try exact I. discriminate F.
  - destruct g as [chord f d ts]. destruct k, chord; exact I.
Qed.

Lemma sequence_read l b : sequence b l -> forall fuel found x, (List.length l <= fuel) ->
  (exists y, read_children fuel l found x = Some y) <-> (found || b = true)%bool.
Proof.
  induction 1 as [|b c l F H IH|b k g l G H IH]; intros fuel found x L.
  - rewrite read_end, orb_false_r. destruct found; split; intros E; try reflexivity; try discriminate; [eexists; reflexivity | destruct E as [y E]; discriminate E].
  - destruct fuel as [|fuel]; [cbn in L; lia | ]. rewrite read_other by exact F.
    destruct (applied_cons c l x F) as (y & Y1 & _). rewrite Y1. apply IH. cbn [List.length] in L. lia.
  - destruct (read_choice fuel k g l found x (sequence_no_tie _ _ H) L) as (f' & g' & L' & E & _). rewrite E.
    rewrite IH by exact L'. rewrite orb_true_r. split; reflexivity.
Qed.

Lemma full_parsed g l g' r : parse_full g l = Some (g', r) -> exists chord f, l = (if chord : bool then [CChord] else []) ++ [CFull f] ++ r.
Proof.
  unfold parse_full. destruct l as [|c l]; [discriminate | ].
  destruct c; try discriminate.
  - destruct l as [|[] l]; try discriminate. intros E. injection E as _ <-. exists true. eexists. reflexivity.
  - intros E. injection E as _ <-. exists false. eexists. reflexivity.
Qed.

Lemma ties_parsed l : forall g g' r, parse_ties g l = (g', r) -> exists ts, l = map CTie ts ++ r.
Proof.
  induction l as [|c l IH]; intros g g' r; [cbn [parse_ties]; intros E; injection E as _ <-; exists []; reflexivity | ].
  destruct c; cbn [parse_ties]; intros E; try (injection E as _ <-; exists []; reflexivity).
  apply IH in E as [ts ->]. exists (t :: ts). reflexivity.
Qed.

Lemma choice_parsed c l c' r : parse_choice c l = Some (c', r) -> exists k g, group_ok k g /\ l = choice_children k g ++ r.
Proof.
  assert (N : match parse_full (nc_normal c) l with
      | Some (g, r1) =>
          match parse_duration g r1 with
          | Some (g2, r2) => let (g3, r3) := parse_ties g2 r2 in Some (set_group NormalNote g3 c, r3)
          | None => None
          end
      | None => None
      end = Some (c', r) -> exists k g, group_ok k g /\ l = choice_children k g ++ r).
  { destruct (parse_full _ l) as [[g1 r1]|] eqn:P; [ | discriminate]. apply full_parsed in P as (chord & f & ->).
    destruct r1 as [|[] r1]; try discriminate. cbn [parse_duration]. destruct (parse_ties _ r1) as [g3 r3] eqn:T.
    apply ties_parsed in T as [ts ->]. intros E. injection E as _ <-.
    exists NormalNote, (mkNoteGroup chord f d ts). split; [exact I | ]. unfold choice_children. cbn [ng_chord ng_full ng_duration ng_ties app].
    rewrite <- app_assoc. reflexivity. }
  unfold parse_choice. destruct l as [|a l]; [exact N | ]. destruct a; try exact N.
  - destruct (parse_full _ l) as [[g1 r1]|] eqn:P; [ | discriminate]. apply full_parsed in P as (chord & f & ->).
    destruct (parse_ties _ r1) as [g3 r3] eqn:T. apply ties_parsed in T as [ts ->]. intros E. injection E as _ <-.
    exists GraceNote, (mkNoteGroup chord f 1 ts). split; [reflexivity | ]. unfold choice_children. cbn [ng_chord ng_full ng_duration ng_ties app].
    rewrite <- app_assoc. reflexivity.
  - destruct (parse_full _ l) as [[g1 r1]|] eqn:P; [ | discriminate]. apply full_parsed in P as (chord & f & ->).
    destruct r1 as [|[] r1]; try discriminate. cbn [parse_duration]. intros E. injection E as _ <-.
    exists CueNote, (mkNoteGroup chord f d []). split; [reflexivity | ]. unfold choice_children. cbn [ng_chord ng_full ng_duration ng_ties app].
    rewrite <- app_assoc. reflexivity.
Qed.

Lemma read_sequence fuel : forall l found x y, read_children fuel l found x = Some y -> exists b, sequence b l /\ (found || b = true)%bool.
Proof.
  induction fuel as [|fuel IH]; intros l found x y E.
  - destruct l; [ | discriminate E]. cbn in E. destruct found; [ | discriminate E]. exists false. split; [constructor | reflexivity].
  - destruct l as [|c l].
    + cbn in E. destruct found; [ | discriminate E]. exists false. split; [constructor | reflexivity].
    + cbn [read_children] in E.
      assert (Ch : forall z, match parse_choice (x_choice x) (c :: l) with
                   | Some (ch, rest) => read_children fuel rest true (set_choice ch x)
                   | None => None
                   end = Some z -> exists b, sequence b (c :: l) /\ (found || b = true)%bool).
      { intros z. destruct (parse_choice _ (c :: l)) as [[ch rest]|] eqn:P; [ | discriminate].
        apply choice_parsed in P as (k & g & G & ->). intros R. apply IH in R as (b & B & _).
        exists true. split; [econstructor; eassumption | apply orb_true_r]. }
      destruct c; try (exact (Ch y E)); try discriminate E; cbn [read_child] in E;
        apply IH in E as (b' & B & Q); exists b'; (split; [constructor; [reflexivity | exact B] | exact Q]).
Qed.

Lemma accepted_iff p o l : (exists x, read_note p o l = Some x) <-> sequence true l.
Proof.
  unfold read_note. split.
  - intros [x E]. apply read_sequence in E as (b & B & Q). cbn in Q. subst b. exact B.
  - intros S. apply (proj2 (sequence_read l true S _ false _ (Nat.le_refl _))). reflexivity.
Qed.

(** ** Time modification *)

Lemma dots_time n : forall a b t d, fold_left read_time_child (repeat TDot n) (mkXTime a b (Some (t, d))) = mkXTime a b (Some (t, d + n)).
Proof.
  induction n as [|n IH]; intros a b t d; cbn [repeat fold_left read_time_child tm_actual tm_normal tm_group].
  - rewrite Nat.add_0_r. reflexivity.
  - rewrite IH, Nat.add_succ_r. reflexivity.
Qed.

Lemma time_back x : read_time (stream_time x) = x.
Proof.
  destruct x as [a b [[t d]|]]; unfold read_time, stream_time; cbn [tm_actual tm_normal tm_group fold_left read_time_child]; [apply dots_time | reflexivity].
Qed.
