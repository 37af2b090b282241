From Coq Require Import String Ascii List ZArith Bool Lia.
From Verif Require Import Model.Base Model.Text Model.Strings Model.Date Model.ScoreHeader.
From Verif Require Import Spec.Calendar Spec.XmlText Spec.TimeSignatures Spec.Headers.
From Verif Require Import Proofs.StringsProofs Proofs.DateProofs Proofs.DateProofs2 Proofs.DateProofs3 Proofs.MeasureTimes.
Import ListNotations.
Open Scope Z_scope.

(** The encoding. *)
Definition read_back_item (s : SupportedItem) : SupportedItem :=
  mkSupported (token_of (si_element s)) (token_of (si_attribute s)) (token_of (si_value s)) (si_supported s).

Lemma value_back t : value_or_empty (option_map token_of (unless_empty t)) = token_of t.
Proof. destruct t; reflexivity. Qed.

Lemma supports_read l : forall e f,
  fold_left read_choice (map supports_choice l) (e, f) =
  (mkEncoding (e_year e) (e_month e) (e_day e) (e_encoder e) (e_description e) (e_software e) (e_supported e ++ map read_back_item l) (e_misc e), f).
Proof.
  induction l as [|s l IH]; intros [y m d en de so su mi] f; cbn [map fold_left]; [rewrite app_nil_r; reflexivity|].
  unfold supports_choice at 2. cbn [read_choice]. rewrite IH, !value_back. cbn [e_year e_month e_day e_encoder e_description e_software e_supported e_misc].
  rewrite <- app_assoc. reflexivity.
Qed.

Lemma software_read l : forall e f r,
  fold_left read_choice (map XSoftware l ++ r) (e, f) =
  fold_left read_choice r (mkEncoding (e_year e) (e_month e) (e_day e) (e_encoder e) (e_description e) (e_software e ++ l) (e_supported e) (e_misc e), f).
Proof.
  induction l as [|s l IH]; intros [y m d en de so su mi] f r; cbn [map fold_left app]; [rewrite app_nil_r; reflexivity|].
  cbn [read_choice]. rewrite IH. cbn [e_year e_month e_day e_encoder e_description e_software e_supported e_misc].
  rewrite <- app_assoc. reflexivity.
Qed.

Definition date_agrees (e : EncodingData) : bool :=
  let '(y, m, d) := nearest_date e in (e_year e =? y) || (e_month e =? m) || (e_day e =? d).

Lemma date_choice_spec e : date_choice (e_year e) (e_month e) (e_day e) =
  if date_agrees e then [XDate (Date (fst (fst (nearest_date e))) (snd (fst (nearest_date e))) (snd (nearest_date e)))] else [].
Proof. unfold date_choice, date_agrees, nearest_date. rewrite mkDate_clamped. reflexivity. Qed.

Lemma encoding_read e :
  createEncoding (encoding_choices e) =
  let '(y, m, d) := if date_agrees e then nearest_date e else (-1, -1, -1) in
  mkEncoding y m d (e_encoder e) (e_description e) (e_software e) (map read_back_item (e_supported e)) [].
Proof.
  unfold createEncoding, encoding_choices. rewrite date_choice_spec. destruct (nearest_date e) as [[y m] d]. cbn [fst snd].
  destruct (e_encoder e) as [|c1 en]; destruct (date_agrees e); destruct (e_description e) as [|c2 de]; cbn [app fold_left read_choice f_date f_encoder f_description];
    rewrite software_read, supports_read; reflexivity.
Qed.

Lemma creators_read h : exists f, fold_left read_creator (creators h) ([], false, []) = (h_composer h, f, h_lyricist h).
Proof. unfold creators. destruct (h_composer h), (h_lyricist h); eexists; reflexivity. Qed.

Lemma rights_read h : exists f, fold_left read_rights (rights h) ([], false) = (h_copyright h, f).
Proof. unfold rights. destruct (h_copyright h); eexists; reflexivity. Qed.

Definition read_back_encoding (e : EncodingData) : EncodingData :=
  let '(y, m, d) := if date_agrees e then nearest_date e else (-1, -1, -1) in
  mkEncoding y m d (e_encoder e) (e_description e) (e_software e) (map read_back_item (e_supported e))
    (map (fun x => mkMisc (token_of (mf_key x)) (mf_value x)) (e_misc e)).

Lemma no_choices e : encoding_choices e = [] -> misc_fields e = [] -> read_back_encoding e = default_encoding.
Proof.
  unfold encoding_choices, misc_fields, read_back_encoding. rewrite date_choice_spec. intros H M. apply map_eq_nil in M. rewrite M.
  destruct (e_encoder e); [|discriminate H]. destruct (date_agrees e); [discriminate H|]. destruct (e_description e); [|discriminate H]. cbn [app] in H.
  apply app_eq_nil in H. destruct H as (H1 & H2). apply map_eq_nil in H1, H2. rewrite H1, H2. reflexivity.
Qed.

Lemma identification_read h :
  match write_identification h with
  | None => h_composer h = [] /\ h_lyricist h = [] /\ h_copyright h = [] /\ read_back_encoding (h_encoding h) = default_encoding
  | Some i =>
    i_creators i = creators h /\ i_rights i = rights h /\
    let e := match i_encoding i with Some l => createEncoding l | None => default_encoding end in
    let misc := match i_misc i with Some l => map (fun p => mkMisc (fst p) (snd p)) l | None => [] end in
    mkEncoding (e_year e) (e_month e) (e_day e) (e_encoder e) (e_description e) (e_software e) (e_supported e) (e_misc e ++ misc) = read_back_encoding (h_encoding h)
  end.
Proof.
  assert (K : forall c r l m, c = creators h -> r = rights h -> l = encoding_choices (h_encoding h) -> m = misc_fields (h_encoding h) ->
     let e := match (match l, m with [], [] => None | _, _ => Some l end) with Some l => createEncoding l | None => default_encoding end in
     let misc := match (match m with [] => None | _ => Some m end) with Some l => map (fun p => mkMisc (fst p) (snd p)) l | None => [] end in
     mkEncoding (e_year e) (e_month e) (e_day e) (e_encoder e) (e_description e) (e_software e) (e_supported e) (e_misc e ++ misc) = read_back_encoding (h_encoding h)).
  { intros c r l m _ _ El Em. cbv zeta.
    assert (M : (match (match m with [] => None | _ => Some m end) with Some l => map (fun p : str * str => mkMisc (fst p) (snd p)) l | None => [] end)
       = map (fun x => mkMisc (token_of (mf_key x)) (mf_value x)) (e_misc (h_encoding h))).
    { transitivity (map (fun p : str * str => mkMisc (fst p) (snd p)) m); [destruct m; reflexivity|]. rewrite Em. unfold misc_fields. rewrite map_map. reflexivity. }
    rewrite M. clear M.
    destruct l as [|x l], m as [|y m].
    - rewrite (no_choices _ (eq_sym El) (eq_sym Em)). unfold misc_fields in Em. symmetry in Em. apply map_eq_nil in Em. rewrite Em. reflexivity.
    - rewrite El, encoding_read. unfold read_back_encoding. destruct (if date_agrees _ then _ else _) as [[? ?] ?]. reflexivity.
    - rewrite El, encoding_read. unfold read_back_encoding. destruct (if date_agrees _ then _ else _) as [[? ?] ?]. reflexivity.
    - rewrite El, encoding_read. unfold read_back_encoding. destruct (if date_agrees _ then _ else _) as [[? ?] ?]. reflexivity. }
  specialize (K _ _ _ _ eq_refl eq_refl eq_refl eq_refl). unfold write_identification.
  destruct (creators h) as [|c cs] eqn:Ec, (rights h) as [|r rs] eqn:Er, (encoding_choices (h_encoding h)) as [|x l] eqn:El, (misc_fields (h_encoding h)) as [|y m] eqn:Em;
    try (split; [reflexivity|]; split; [reflexivity|]; exact K).
  unfold creators in Ec. unfold rights in Er.
  split; [destruct (h_composer h); [reflexivity|discriminate Ec]|].
  split; [destruct (h_composer h); [|discriminate Ec]; destruct (h_lyricist h); [reflexivity|discriminate Ec]|].
  split; [destruct (h_copyright h); [reflexivity|discriminate Er]|]. apply no_choices; assumption.
Qed.

Lemma page_texts_read l : flat_map read_credit (map write_page_text l) = map kept_page_text l.
Proof.
  induction l as [|p l IH]; [reflexivity|]. cbn [map flat_map]. rewrite IH. unfold write_page_text, kept_page_text, read_credit. cbn [cr_words cr_page cr_types app].
  f_equal. f_equal; [destruct (Z.ltb_spec 0 (pt_page p)); lia|]. destruct (pt_description p); reflexivity.
Qed.

Lemma unless_back t : value_or_empty (unless_empty t) = t.
Proof. destruct t; reflexivity. Qed.

Lemma header_read h : read_header (write_header h) =
  mkHeader (h_version h) (h_workTitle h) (h_workNumber h) (h_movementTitle h) (h_movementNumber h) (h_composer h) (h_lyricist h) [] []
    (h_copyright h) (read_back_encoding (h_encoding h)) (map kept_page_text (h_pageTexts h)).
Proof.
  unfold read_header, write_header. cbn [x_version x_work x_movementTitle x_movementNumber x_identification x_credits].
  rewrite page_texts_read, !unless_back.
  assert (W : (match (match h_workTitle h, h_workNumber h with [], [] => None | _, _ => Some (unless_empty (h_workTitle h), unless_empty (h_workNumber h)) end)
     with Some (t, _) => value_or_empty t | None => [] end) = h_workTitle h) by (destruct (h_workTitle h), (h_workNumber h); reflexivity).
  assert (W' : (match (match h_workTitle h, h_workNumber h with [], [] => None | _, _ => Some (unless_empty (h_workTitle h), unless_empty (h_workNumber h)) end)
     with Some (_, n) => value_or_empty n | None => [] end) = h_workNumber h) by (destruct (h_workTitle h), (h_workNumber h); reflexivity).
  rewrite W, W'.
  assert (V : (match (match h_version h with VersionUnspecified => None | ThreePointZero => Some (token_of (lit "3.0")) end) with
     Some t => if str_eqb t (lit "3.0") then ThreePointZero else VersionUnspecified | None => VersionUnspecified end) = h_version h)
    by (destruct (h_version h); vm_compute; reflexivity).
  rewrite V. pose proof (identification_read h) as I. destruct (write_identification h) as [i|].
  - destruct I as (I1 & I2 & I3). rewrite I1, I2. destruct (creators_read h) as (f1 & ->). destruct (rights_read h) as (f2 & ->).
    cbv zeta in I3. rewrite I3. reflexivity.
  - destruct I as (-> & -> & -> & ->). reflexivity.
Qed.

Lemma token_tidied t : tidied t (token_of t).
Proof. destruct (words_exist t) as (l & H). exists l. split; [exact H|]. exact (reduce_words t l H). Qed.

Lemma token_tidy t : tidy t -> token_of t = t.
Proof. intros (l & A & B). unfold token_of. rewrite (reduce_words t l A). symmetry. exact B. Qed.

Lemma encoding_in_general h : let e := h_encoding h in let e' := h_encoding (read_header (write_header h)) in
  e_encoder e' = e_encoder e /\ e_description e' = e_description e /\ e_software e' = e_software e /\
  Forall2 tidied_item (e_supported e) (e_supported e') /\ Forall2 tidied_misc (e_misc e) (e_misc e') /\
  (let '(y, m, d) := nearest_date e in
   ((e_year e = y \/ e_month e = m \/ e_day e = d) -> (e_year e', e_month e', e_day e') = (y, m, d)) /\
   (~ (e_year e = y \/ e_month e = m \/ e_day e = d) -> has_no_date e')).
Proof.
  cbv zeta. rewrite header_read. cbn [h_encoding]. unfold read_back_encoding.
  assert (A : date_agrees (h_encoding h) = true <-> let '(y, m, d) := nearest_date (h_encoding h) in (e_year (h_encoding h) = y \/ e_month (h_encoding h) = m \/ e_day (h_encoding h) = d)).
  { unfold date_agrees. destruct (nearest_date (h_encoding h)) as [[y m] d]. rewrite !orb_true_iff, !Z.eqb_eq. tauto. }
  destruct (nearest_date (h_encoding h)) as [[y m] d]. destruct (date_agrees (h_encoding h)); cbn [e_encoder e_description e_software e_supported e_misc e_year e_month e_day].
  - do 3 (split; [reflexivity|]). split; [|split; [|split]].
    + induction (e_supported (h_encoding h)) as [|s l IH]; constructor; auto. repeat split; apply token_tidied.
    + induction (e_misc (h_encoding h)) as [|s l IH]; constructor; auto. split; [apply token_tidied|reflexivity].
    + auto.
    + intros N. exfalso. apply N. apply A. reflexivity.
  - do 3 (split; [reflexivity|]). split; [|split; [|split]].
    + induction (e_supported (h_encoding h)) as [|s l IH]; constructor; auto. repeat split; apply token_tidied.
    + induction (e_misc (h_encoding h)) as [|s l IH]; constructor; auto. split; [apply token_tidied|reflexivity].
    + intros N. apply A in N. discriminate N.
    + intros _. repeat split; reflexivity.
Qed.

Lemma encoding_kept h : let e := h_encoding h in let e' := h_encoding (read_header (write_header h)) in
  tidy_encoding e -> same_but_date e' e.
Proof.
  cbv zeta. rewrite header_read. cbn [h_encoding]. unfold read_back_encoding, same_but_date. intros (T1 & T2).
  destruct (if date_agrees _ then _ else _) as [[? ?] ?]. cbn [e_encoder e_description e_software e_supported e_misc].
  do 3 (split; [reflexivity|]). split.
  - induction T1 as [|s l (H1 & H2 & H3) F IH]; [reflexivity|]. cbn [map]. rewrite IH. f_equal. unfold read_back_item. rewrite !token_tidy by assumption. destruct s; reflexivity.
  - induction T2 as [|s l H F IH]; [reflexivity|]. cbn [map]. rewrite IH. f_equal. rewrite token_tidy by assumption. destruct s; reflexivity.
Qed.

Lemma month_length_range y m : 28 <= month_length y m <= 31.
Proof. exact (month_length_bounds y m). Qed.

Lemma date_kept h : let e := h_encoding h in let e' := h_encoding (read_header (write_header h)) in
  (has_date e -> e_year e' = e_year e /\ e_month e' = e_month e /\ e_day e' = e_day e) /\ (hopeless_date e -> has_no_date e').
Proof.
  cbv zeta. destruct (encoding_in_general h) as (_ & _ & _ & _ & _ & D). unfold nearest_date in D. cbv zeta in D. destruct D as (D1 & D2).
  set (e := h_encoding h) in *. set (e' := h_encoding (read_header (write_header h))) in *. clearbody e e'.
  split.
  - unfold has_date, valid_ymd. intros (H1 & H2 & H3).
    rewrite (Z.min_r 9999 (e_year e)), (Z.max_r 1 (e_year e)), (Z.min_r 12 (e_month e)), (Z.max_r 1 (e_month e)) in D1 by lia.
    rewrite (Z.min_r _ (e_day e)), (Z.max_r 1 (e_day e)) in D1 by lia. specialize (D1 (or_introl eq_refl)). injection D1. auto.
  - intros (H1 & H2 & H3). apply D2. pose proof (month_length_range (Z.max 1 (Z.min 9999 (e_year e))) (Z.max 1 (Z.min 12 (e_month e)))). lia.
Qed.

(** Reading any header. *)
Lemma type_is_spec c t : t <> EmptyString -> type_is c t = true <-> fst c = Some (lit t).
Proof.
  intros N. unfold type_is. rewrite str_eqb_eq. destruct (fst c) as [u|]; cbn [value_or_empty]; [split; congruence|].
  split; [|discriminate]. destruct t; [contradiction|discriminate].
Qed.

Lemma lit_inj s t : lit s = lit t -> s = t.
Proof.
  unfold lit. revert t. induction s as [|c s IH]; destruct t as [|c' t]; cbn; intros H; try discriminate; [reflexivity|].
  injection H as -> H. f_equal. apply IH. exact H.
Qed.

Lemma first_typed_app t l u x : first_typed t l u -> first_typed t (l ++ [x]) u.
Proof. intros (a & b & -> & H). exists a, (b ++ [x]). rewrite <- app_assoc. auto. Qed.

Lemma no_typed_app t l x : no_typed t l -> fst x <> Some (lit t) -> no_typed t (l ++ [x]).
Proof. unfold no_typed. rewrite map_app, in_app_iff. cbn. intuition congruence. Qed.

Lemma last_untyped_app_none l u v : last_untyped l u -> last_untyped (l ++ [(None, v)]) v.
Proof. intros _. left. exists l, []. cbn. auto. Qed.

Lemma last_untyped_app_some l u t v : last_untyped l u -> last_untyped (l ++ [(Some t, v)]) u.
Proof.
  intros [(a & b & -> & H)|(H & ->)].
  - left. exists a, (b ++ [(Some t, v)]). rewrite <- app_assoc. split; [reflexivity|]. rewrite map_app, in_app_iff. cbn. intuition discriminate.
  - right. split; [|reflexivity]. rewrite map_app, in_app_iff. cbn. intuition discriminate.
Qed.

Lemma composer_read l : let '(c, f, ly) := fold_left read_creator l ([], false, []) in
  ((f = true /\ first_typed "composer" l c) \/ (f = false /\ no_typed "composer" l /\ last_untyped l c)) /\
  last_typed ["lyricist"; "arranger"; "publisher"]%string l ly.
Proof.
  induction l as [|x l IH] using rev_ind.
  - cbn. split; [right|right]; repeat split; try (intros []); auto. right. split; [intros []|reflexivity].
  - rewrite fold_left_app. cbn [fold_left]. destruct (fold_left read_creator l ([], false, [])) as [[c f] ly]. destruct IH as (IH1 & IH2).
    unfold read_creator. destruct (type_is x "composer" && negb f) eqn:E.
    + apply andb_true_iff in E. destruct E as (E1 & E2). apply type_is_spec in E1; [|discriminate]. apply negb_true_iff in E2. subst f.
      assert (T : forall t, t <> EmptyString -> t <> "composer"%string -> type_is x t = false).
      { intros t N N'. destruct (type_is x t) eqn:T; [|reflexivity]. apply type_is_spec in T; [|exact N]. rewrite E1 in T. injection T as T.
        exfalso. apply N'. symmetry. apply lit_inj. exact T. }
      rewrite !T by discriminate. cbn [negb andb]. split.
      * left. split; [reflexivity|]. destruct IH1 as [(X & _)|(_ & X & _)]; [discriminate X|]. exists l, []. split; [|exact X]. destruct x as [u v]. cbn [fst snd] in *. rewrite E1. reflexivity.
      * destruct IH2 as [(a & t & b & -> & H1 & H2)|(H & ->)].
        -- left. exists a, t, (b ++ [x]). rewrite <- app_assoc. split; [reflexivity|]. split; [exact H1|]. intros t' T'. rewrite map_app, in_app_iff. cbn. intros [X|[X|[]]]; [exact (H2 t' T' X)|].
           rewrite E1 in X. cbn [In] in T'. destruct T' as [<-|[<-|[<-|[]]]]; discriminate X.
        -- right. split; [|reflexivity]. intros t' T'. rewrite map_app, in_app_iff. cbn. intros [X|[X|[]]]; [exact (H t' T' X)|].
           rewrite E1 in X. cbn [In] in T'. destruct T' as [<-|[<-|[<-|[]]]]; discriminate X.
    + assert (C : ((f = true /\ first_typed "composer" (l ++ [x]) c) \/ (f = false /\ no_typed "composer" (l ++ [x]) /\ last_untyped (l ++ [x]) (if negb f && (match fst x with None => true | _ => false end) then snd x else c)))).
      { destruct IH1 as [(-> & H)|(-> & H1 & H2)]; [left; split; [reflexivity|apply first_typed_app; exact H]|]. right. split; [reflexivity|].
        assert (NX : fst x <> Some (lit "composer")). { intros X. apply type_is_spec in X; [|discriminate]. rewrite X in E. discriminate E. }
        split; [apply no_typed_app; assumption|]. cbn [negb andb]. destruct x as [[t|] v]; cbn [fst snd].
        - apply last_untyped_app_some. exact H2.
        - eapply last_untyped_app_none. exact H2. }
      split.
      { destruct C as [(-> & C)|(-> & C)]; [left|right]; split; auto. }
      clear C IH1 E.
      assert (D : (exists t, In t ["lyricist"; "arranger"; "publisher"]%string /\ fst x = Some (lit t) /\
         (let ly1 := if type_is x "lyricist" then snd x else ly in let ly2 := if type_is x "arranger" then snd x else ly1 in if type_is x "publisher" then snd x else ly2) = snd x) \/
         ((forall t, In t ["lyricist"; "arranger"; "publisher"]%string -> fst x <> Some (lit t)) /\
         (let ly1 := if type_is x "lyricist" then snd x else ly in let ly2 := if type_is x "arranger" then snd x else ly1 in if type_is x "publisher" then snd x else ly2) = ly)).
      { cbv zeta. destruct (type_is x "publisher") eqn:E3; [left; exists "publisher"%string; apply type_is_spec in E3; [|discriminate]; cbn; auto|].
        destruct (type_is x "arranger") eqn:E2; [left; exists "arranger"%string; apply type_is_spec in E2; [|discriminate]; cbn; auto|].
        destruct (type_is x "lyricist") eqn:E1; [left; exists "lyricist"%string; apply type_is_spec in E1; [|discriminate]; cbn; auto|].
        right. split; [|reflexivity]. intros t T X. cbn in T.
        destruct T as [<-|[<-|[<-|[]]]]; apply type_is_spec in X; try discriminate; congruence. }
      cbv zeta in D. destruct D as [(t & D1 & D2 & ->)|(D1 & ->)].
      * left. exists l, t, []. split; [destruct x; cbn in *; rewrite D2; reflexivity|]. split; [exact D1|]. intros t' _ [].
      * destruct IH2 as [(a & t & b & -> & H1 & H2)|(H & ->)].
        -- left. exists a, t, (b ++ [x]). rewrite <- app_assoc. split; [reflexivity|]. split; [exact H1|]. intros t' T'. rewrite map_app, in_app_iff. cbn. intros [X|[X|[]]]; [exact (H2 t' T' X)|exact (D1 t' T' X)].
        -- right. split; [|reflexivity]. intros t' T'. rewrite map_app, in_app_iff. cbn. intros [X|[X|[]]]; [exact (H t' T' X)|exact (D1 t' T' X)].
Qed.

Lemma copyright_read l : let '(c, f) := fold_left read_rights l ([], false) in
  (f = true /\ first_typed "copyright" l c) \/ (f = false /\ no_typed "copyright" l /\ last_untyped l c).
Proof.
  induction l as [|x l IH] using rev_ind.
  - cbn. right. repeat split; try (intros []); auto. right. split; [intros []|reflexivity].
  - rewrite fold_left_app. cbn [fold_left]. destruct (fold_left read_rights l ([], false)) as [c f].
    unfold read_rights. destruct (match fst x with None => false | _ => true end && type_is x "copyright" && negb f) eqn:E.
    + apply andb_true_iff in E. destruct E as (E1 & E2). apply andb_true_iff in E1. destruct E1 as (_ & E1). apply type_is_spec in E1; [|discriminate]. apply negb_true_iff in E2. subst f.
      cbn [negb andb]. left. split; [reflexivity|]. destruct IH as [(X & _)|(_ & X & _)]; [discriminate X|]. exists l, []. split; [|exact X]. destruct x as [u v]. cbn [fst snd] in *. rewrite E1. reflexivity.
    + assert (C : (f = true /\ first_typed "copyright" (l ++ [x]) c) \/ (f = false /\ no_typed "copyright" (l ++ [x]) /\ last_untyped (l ++ [x]) (if negb f && (match fst x with None => true | _ => false end) then snd x else c))).
      { destruct IH as [(-> & H)|(-> & H1 & H2)]; [left; split; [reflexivity|apply first_typed_app; exact H]|]. right. split; [reflexivity|].
        assert (NX : fst x <> Some (lit "copyright")). { intros X. pose proof X as Y. apply type_is_spec in X; [|discriminate]. rewrite X, Y in E. discriminate E. }
        split; [apply no_typed_app; assumption|]. cbn [negb andb]. destruct x as [[t|] v]; cbn [fst snd].
        - apply last_untyped_app_some. exact H2.
        - eapply last_untyped_app_none. exact H2. }
      destruct C as [(-> & C)|(-> & C)]; [left|right]; split; auto.
Qed.

Lemma people_read x i : x_identification x = Some i ->
  (forall u, first_typed "composer" (i_creators i) u -> h_composer (read_header x) = u) /\
  (no_typed "composer" (i_creators i) -> last_untyped (i_creators i) (h_composer (read_header x))) /\
  last_typed ["lyricist"; "arranger"; "publisher"]%string (i_creators i) (h_lyricist (read_header x)) /\
  (forall u, first_typed "copyright" (i_rights i) u -> h_copyright (read_header x) = u) /\
  (no_typed "copyright" (i_rights i) -> last_untyped (i_rights i) (h_copyright (read_header x))).
Proof.
  assert (U : forall t l a b, first_typed t l a -> first_typed t l b -> a = b).
  { intros t l a b (l1 & l2 & E1 & N1) (l3 & l4 & E2 & N2). subst l. revert l3 E2 N2. induction l1 as [|y l1 IH]; intros [|z l3] E N2; cbn in *.
    - congruence.
    - injection E as <- _. cbn in N2. tauto.
    - injection E as -> _. cbn in N1. tauto.
    - injection E as -> E. apply (IH ltac:(tauto) l3 E). tauto. }
  assert (D : forall t l a, first_typed t l a -> no_typed t l -> False).
  { intros t l a (l1 & l2 & -> & _) N. apply N. rewrite map_app, in_app_iff. cbn. auto. }
  intros E. unfold read_header. rewrite E. pose proof (composer_read (i_creators i)) as C. pose proof (copyright_read (i_rights i)) as R.
  destruct (fold_left read_creator (i_creators i) ([], false, [])) as [[c f] ly]. destruct (fold_left read_rights (i_rights i) ([], false)) as [r g].
  cbn [h_composer h_lyricist h_copyright]. destruct C as (C & L). split; [|split; [|split; [exact L|split]]].
  - intros u H. destruct C as [(_ & C)|(_ & C & _)]; [exact (U _ _ _ _ C H)|destruct (D _ _ _ H C)].
  - intros H. destruct C as [(_ & C)|(_ & _ & C)]; [destruct (D _ _ _ C H)|exact C].
  - intros u H. destruct R as [(_ & C')|(_ & C' & _)]; [exact (U _ _ _ _ C' H)|destruct (D _ _ _ H C')].
  - intros H. destruct R as [(_ & C')|(_ & _ & C')]; [destruct (D _ _ _ C' H)|exact C'].
Qed.

Lemma choices_read l : let e := createEncoding l in
  (e_year e, e_month e, e_day e) = hd (-1, -1, -1) (dates l) /\ e_encoder e = hd [] (encoders l) /\ e_description e = hd [] (descriptions l) /\
  e_software e = softwares l /\ e_supported e = supports l /\ e_misc e = [].
Proof.
  assert (G : forall l e f, let q := fold_left read_choice l (e, f) in
    (e_year (fst q), e_month (fst q), e_day (fst q)) = (if f_date f then (e_year e, e_month e, e_day e) else hd (e_year e, e_month e, e_day e) (dates l)) /\
    e_encoder (fst q) = (if f_encoder f then e_encoder e else hd (e_encoder e) (encoders l)) /\
    e_description (fst q) = (if f_description f then e_description e else hd (e_description e) (descriptions l)) /\
    e_software (fst q) = e_software e ++ softwares l /\ e_supported (fst q) = e_supported e ++ supports l /\ e_misc (fst q) = e_misc e).
  { clear l. induction l as [|c l IH]; intros e f; cbv zeta.
    - cbn [fold_left fst dates encoders descriptions softwares supports flat_map hd]. rewrite !app_nil_r. destruct (f_date f), (f_encoder f), (f_description f); auto 10.
    - cbn [fold_left]. destruct (read_choice (e, f) c) as [e1 f1] eqn:E. specialize (IH e1 f1). cbv zeta in IH. destruct IH as (I1 & I2 & I3 & I4 & I5 & I6).
      rewrite I1, I2, I3, I4, I5, I6. destruct c; cbn [read_choice] in E;
        try destruct (f_date f) eqn:F1; try destruct (f_encoder f) eqn:F2; try destruct (f_description f) eqn:F3;
        injection E as <- <-; try rewrite F1; try rewrite F2; try rewrite F3;
        cbn [e_year e_month e_day e_encoder e_description e_software e_supported e_misc f_date f_encoder f_description
             dates encoders descriptions softwares supports flat_map app hd];
        rewrite <- ?app_assoc; repeat split; reflexivity. }
  cbv zeta. unfold createEncoding. exact (G l default_encoding (mkFound false false false)).
Qed.

Lemma header_kept h : let h' := read_header (write_header h) in
  h_version h' = h_version h /\ h_workTitle h' = h_workTitle h /\ h_workNumber h' = h_workNumber h /\
  h_movementTitle h' = h_movementTitle h /\ h_movementNumber h' = h_movementNumber h /\
  h_composer h' = h_composer h /\ h_lyricist h' = h_lyricist h /\ h_arranger h' = [] /\
  h_publisher h' = [] /\ h_copyright h' = h_copyright h /\ h_pageTexts h' = map kept_page_text (h_pageTexts h).
Proof. cbv zeta. rewrite header_read. auto 12. Qed.

(** The credits. *)
Lemma credits_written h : Forall2 credit_of (h_pageTexts h) (x_credits (write_header h)).
Proof.
  cbn [write_header x_credits]. induction (h_pageTexts h) as [|p l IH]; constructor; [|exact IH].
  unfold credit_of, write_page_text. cbn [cr_words cr_page cr_types]. split; [reflexivity|].
  destruct (Z.ltb_spec 0 (pt_page p)); (split; [intros; (reflexivity || lia)|]); (split; [intros; (reflexivity || lia)|]);
    (split; [intros ->; reflexivity | destruct (pt_description p); [intros K; destruct (K eq_refl) | reflexivity]]).
Qed.

Lemma credits_read x : Forall2 page_text_of (filter has_words (x_credits x)) (h_pageTexts (read_header x)).
Proof.
  assert (E : h_pageTexts (read_header x) = flat_map read_credit (x_credits x)).
  { unfold read_header. destruct (match x_identification x with Some _ => _ | None => _ end) as [[[? ?] ?] ?]. reflexivity. }
  rewrite E. clear E. induction (x_credits x) as [|c l IH]; [constructor|]. cbn [filter flat_map]. unfold has_words at 1, read_credit at 1.
  destruct (cr_words c) as [t|] eqn:W; [|exact IH]. constructor; [|exact IH].
  unfold page_text_of. cbn [pt_text pt_page pt_description]. split; [exact W|].
  split; [intros ->; reflexivity|]. split; [intros n ->; reflexivity|]. split; [intros ->; reflexivity | intros d r ->; reflexivity].
Qed.

(** Whether there is an identification at all. *)
Lemma choices_empty e : encoding_choices e = [] <-> nothing_encoded e.
Proof.
  unfold encoding_choices, nothing_encoded. rewrite date_choice_spec. unfold date_agrees. destruct (nearest_date e) as [[y m] d].
  destruct (e_encoder e) as [|c t]; [|split; [discriminate | intros (K & _); discriminate K]]. cbn [app].
  destruct (Z.eqb_spec (e_year e) y); cbn [orb app]; [split; [discriminate | intros (_ & _ & _ & _ & K & _); contradiction]|].
  destruct (Z.eqb_spec (e_month e) m); cbn [orb app]; [split; [discriminate | intros (_ & _ & _ & _ & _ & K & _); contradiction]|].
  destruct (Z.eqb_spec (e_day e) d); cbn [orb app]; [split; [discriminate | intros (_ & _ & _ & _ & _ & _ & K); contradiction]|].
  destruct (e_description e) as [|c t]; [|split; [discriminate | intros (_ & K & _); discriminate K]]. cbn [app].
  destruct (e_software e) as [|c t]; [|split; [discriminate | intros (_ & _ & K & _); discriminate K]]. cbn [app map].
  destruct (e_supported e) as [|c t]; [|split; [discriminate | intros (_ & _ & _ & K & _); discriminate K]].
  split; [intros _; repeat split; assumption | reflexivity].
Qed.

Lemma people_empty h : creators h = [] /\ rights h = [] <-> nobody h.
Proof.
  unfold creators, rights, nobody. destruct (h_composer h), (h_lyricist h), (h_copyright h); cbn;
    (split; [intros (A & B) | intros (A & B & C)]); try discriminate A; try discriminate B; try discriminate C; repeat split.
Qed.

Lemma misc_empty e : misc_fields e = [] <-> e_misc e = [].
Proof. unfold misc_fields. destruct (e_misc e); cbn; (split; [intros H | intros H]); (reflexivity || discriminate H). Qed.

Lemma identification_written h :
  (x_identification (write_header h) = None <-> nobody h /\ nothing_encoded (h_encoding h) /\ e_misc (h_encoding h) = []) /\
  (forall i, x_identification (write_header h) = Some i ->
     (i_encoding i = None <-> nothing_encoded (h_encoding h) /\ e_misc (h_encoding h) = []) /\
     (i_misc i = None <-> e_misc (h_encoding h) = [])).
Proof.
  cbn [write_header x_identification]. unfold write_identification. cbv zeta.
  pose proof (people_empty h) as P1. pose proof (choices_empty (h_encoding h)) as P2. pose proof (misc_empty (h_encoding h)) as P3.
  set (X1 := nobody h) in *. set (X2 := nothing_encoded (h_encoding h)) in *. set (X3 := e_misc (h_encoding h) = []) in *. clearbody X1 X2 X3.
  destruct P1 as (P1 & P1'), P2 as (P2 & P2'), P3 as (P3 & P3').
  destruct (creators h), (rights h), (encoding_choices (h_encoding h)), (misc_fields (h_encoding h));
    (split; [split; [intros K; (discriminate K || (split; [apply P1; split; reflexivity | split; [apply P2 | apply P3]; reflexivity]))
                    | intros (K1 & K3 & K4); apply P1' in K1; apply P2' in K3; apply P3' in K4; destruct K1 as (K1 & K2);
                      (discriminate K1 || discriminate K2 || discriminate K3 || discriminate K4 || reflexivity)]
            | intros i K; (discriminate K || (injection K as <-; cbn [i_encoding i_misc];
              split;
              [split; [intros E; (discriminate E || (split; [apply P2 | apply P3]; reflexivity))
                      | intros (E1 & E2); apply P2' in E1; apply P3' in E2; (discriminate E1 || discriminate E2 || reflexivity)]
              |split; [intros E; (discriminate E || (apply P3; reflexivity)) | intros E; apply P3' in E; (discriminate E || reflexivity)]]))]).
Qed.

(** What is written of the titles and people. *)
Lemma unless_stands t : stands_for t (unless_empty t).
Proof. destruct t as [|c t]; split; intros H; try reflexivity; [destruct (H eq_refl) | discriminate H]. Qed.

Lemma titles_written h : let x := write_header h in
  stands_for (h_movementTitle h) (x_movementTitle x) /\ stands_for (h_movementNumber h) (x_movementNumber x) /\
  (h_workTitle h = [] -> h_workNumber h = [] -> x_work x = None) /\
  (h_workTitle h <> [] \/ h_workNumber h <> [] ->
    exists t n, x_work x = Some (t, n) /\ stands_for (h_workTitle h) t /\ stands_for (h_workNumber h) n) /\
  (h_version h = VersionUnspecified -> x_version x = None) /\ (h_version h = ThreePointZero -> x_version x = Some (lit "3.0"%string)).
Proof.
  cbv zeta. unfold write_header. cbn [x_movementTitle x_movementNumber x_work x_version].
  split; [apply unless_stands|]. split; [apply unless_stands|]. split; [intros -> ->; reflexivity|]. split.
  - intros H. exists (unless_empty (h_workTitle h)), (unless_empty (h_workNumber h)).
    split; [|split; apply unless_stands].
    destruct (h_workTitle h), (h_workNumber h); try reflexivity. destruct H as [H | H]; destruct (H eq_refl).
  - split; intros ->; vm_compute; reflexivity.
Qed.

Lemma people_written h i : x_identification (write_header h) = Some i ->
  (forall u, In (Some (lit "composer"%string), u) (i_creators i) <-> u = h_composer h /\ u <> []) /\
  (forall u, In (Some (lit "lyricist"%string), u) (i_creators i) <-> u = h_lyricist h /\ u <> []) /\
  (forall t u, In (t, u) (i_creators i) -> t = Some (lit "composer"%string) \/ t = Some (lit "lyricist"%string)) /\
  (forall t u, In (t, u) (i_rights i) <-> t = Some (lit "copyright"%string) /\ u = h_copyright h /\ u <> []).
Proof.
  intros H.
  assert (K : i_creators i = creators h /\ i_rights i = rights h).
  { unfold write_header in H. cbn [x_identification] in H. unfold write_identification in H.
    destruct (creators h), (rights h), (encoding_choices (h_encoding h)), (misc_fields (h_encoding h));
      try discriminate H; injection H as <-; split; reflexivity. }
  destruct K as (-> & ->). clear H. unfold creators, rights.
  replace (token_of (lit "composer"%string)) with (lit "composer"%string) by (vm_compute; reflexivity).
  replace (token_of (lit "lyricist"%string)) with (lit "lyricist"%string) by (vm_compute; reflexivity).
  replace (token_of (lit "copyright"%string)) with (lit "copyright"%string) by (vm_compute; reflexivity).
  assert (NE : lit "composer"%string <> lit "lyricist"%string) by (vm_compute; intros E; discriminate E).
  set (co := lit "composer"%string) in *. set (ly := lit "lyricist"%string) in *. set (ri := lit "copyright"%string) in *. clearbody co ly ri.
  destruct (h_composer h) as [|a c], (h_lyricist h) as [|b l], (h_copyright h) as [|r k];
    (split; [|split; [|split]]); intros; try split; cbn [In app]; intros; repeat match goal with H : In _ _ |- _ => cbn [In app] in H end;
    repeat match goal with H : _ \/ _ |- _ => destruct H | H : _ /\ _ |- _ => destruct H | H : False |- _ => destruct H end;
    try (subst; congruence); try match goal with H : (_, _) = (_, _) |- _ => inversion H end; subst;
    solve [congruence | split; congruence | repeat split; congruence | auto].
Qed.
