(** Elements with groups read from children of any kind. *)
From Coq Require Import List String Ascii Bool PeanoNat Lia.
From Verif Require Import Model.Base Model.Text Model.ElementReading Model.ElementGroups
  Spec.ContentModels Spec.MoreContents Spec.ScoreContents Spec.NoteContents Proofs.GroupLoops Proofs.ChildrenProofs Proofs.GroupRuns Proofs.CreditHarmony Proofs.ScoreElementProofs Proofs.MemberProofs.
Import ListNotations.
Local Open Scope list_scope.

Lemma gives_more {A} (c : child A) l a : give true (Own a) (gives c l) = gives c (l ++ [a]).
Proof. unfold gives, give. cbn. rewrite map_app, app_assoc. destruct l; reflexivity. Qed.
Lemma contents_last {A} n (l : list (str * A)) p : contents_of n (l ++ [p]) = if str_eqb (fst p) (lit n) then contents_of n l ++ [snd p] else contents_of n l.
Proof. rewrite contents_app, contents_cons. destruct (str_eqb _ _); [reflexivity | apply app_nil_r]. Qed.

(** The last of some names, as a value. *)
Definition last_of {A V} (names : list (string * V)) (l : list (str * A)) : option V :=
  match rev (filter (is_named (map fst names)) l) with
  | [] => None
  | p :: _ => option_map snd (find (fun q => str_eqb (fst p) (lit (fst q))) names)
  end.
Lemma last_of_last {A V} (names : list (string * V)) (l : list (str * A)) p :
  last_of names (l ++ [p]) = match find (fun q => str_eqb (fst p) (lit (fst q))) names with Some q => Some (snd q) | None => last_of names l end.
Proof.
  unfold last_of. rewrite filter_app. cbn [filter].
  assert (E : is_named (map fst names) p = match find (fun q => str_eqb (fst p) (lit (fst q))) names with Some _ => true | None => false end).
  { unfold is_named. induction names as [ | q names IH]; [reflexivity | ]. cbn. destruct (str_eqb (fst p) (lit (fst q))); [reflexivity | exact IH]. }
  rewrite E. destruct (find _ names) eqn:F; [ | rewrite app_nil_r; reflexivity]. rewrite rev_app_distr. cbn. rewrite F. reflexivity.
Qed.

Lemma chosen {A V} (names : list (string * V)) (l : list (str * A)) (write : V -> list (str * list (given A))) :
  (forall n v, In (n, v) names -> write v = [(lit n, map Own (contents_of n l))]) ->
  last_choice (map fst names) l = match last_of names l with Some v => write v | None => [] end.
Proof.
  intros W. unfold last_choice, last_of. destruct (rev (filter _ l)) as [ | p r] eqn:R; [reflexivity | ].
  assert (I : In p (filter (is_named (map fst names)) l)) by (apply in_rev; rewrite R; left; reflexivity).
  apply filter_In in I. destruct I as [_ I]. unfold is_named in I. apply existsb_exists in I. destruct I as (n & I & E).
  destruct (find _ names) as [[m v] | ] eqn:F.
  - cbn. pose proof (find_some _ _ F) as [J G]. cbn in G. apply str_eqb_true in G. rewrite (W m v J), G. unfold contents_of. rewrite map_map. f_equal. f_equal. f_equal.
    apply filter_ext. intros q. cbn. rewrite orb_false_r. reflexivity.
  - apply in_map_iff in I. destruct I as (q & <- & I). pose proof (find_none _ _ F q I) as N. cbn in N. rewrite E in N. discriminate N.
Qed.

(** ** bend *)
Definition bend_kinds := [("pre-bend", PreBend); ("release", Release)]%string.
Lemma bend_is {A} (l : list (str * A)) : read_bend (nodes l) =
  Ok (true, mkBend (gives new_child (contents_of "bend-alter" l)) (last_of bend_kinds l) (gives new_child (contents_of "pre-bend" l)) (gives new_child (contents_of "release" l)) (gives new_child (contents_of "with-bar" l))).
Proof.
  unfold read_bend.
  erewrite (loop_still _ (fun p r =>
    if str_eqb (fst p) (lit "bend-alter") then mkBend (give true (Own (snd p)) (bd_alter r)) (bd_which r) (bd_pre r) (bd_release r) (bd_withBar r)
    else if str_eqb (fst p) (lit "pre-bend") then mkBend (bd_alter r) (Some PreBend) (give true (Own (snd p)) (bd_pre r)) (bd_release r) (bd_withBar r)
    else if str_eqb (fst p) (lit "release") then mkBend (bd_alter r) (Some Release) (bd_pre r) (give true (Own (snd p)) (bd_release r)) (bd_withBar r)
    else mkBend (bd_alter r) (bd_which r) (bd_pre r) (bd_release r) (if str_eqb (fst p) (lit "with-bar") then give true (Own (snd p)) (bd_withBar r) else bd_withBar r))).
  2: { intros b p r s. rewrite ?import_here. cbn [obind]. destruct (str_eqb (fst p) (lit "bend-alter")); [reflexivity | ].
       rewrite ?import_here. cbn [obind]. destruct (str_eqb (fst p) (lit "pre-bend")); [reflexivity | ].
       rewrite ?import_here. cbn [obind]. destruct (str_eqb (fst p) (lit "release")); [reflexivity | ].
       rewrite ?import_here. cbn [obind]. destruct (str_eqb (fst p) (lit "with-bar")); reflexivity. }
  unfold omap, obind. f_equal. f_equal. induction l as [ | p l IH] using rev_ind; [reflexivity | ].
  rewrite fold_left_app. cbn [fold_left]. rewrite IH. cbn [bd_alter bd_which bd_pre bd_release bd_withBar]. rewrite last_of_last, !contents_last, !gives_more. destruct p as [n a]. cbn [fst snd bend_kinds find].
  destruct (str_eqb n (lit "bend-alter")) eqn:E1; [apply str_eqb_true in E1; subst n; reflexivity | ].
  destruct (str_eqb n (lit "pre-bend")) eqn:E2; [apply str_eqb_true in E2; subst n; reflexivity | ].
  destruct (str_eqb n (lit "release")) eqn:E3; [apply str_eqb_true in E3; subst n; reflexivity | ].
  destruct (str_eqb n (lit "with-bar")) eqn:E4; reflexivity.
Qed.
Theorem bend_exact A (l : list (str * A)) : exists s, read_bend (nodes l) = Ok (true, s) /\
  write_bend s = [(lit "bend-alter", map Own (contents_of "bend-alter" l))] ++ last_choice ["pre-bend"; "release"]%string l ++ one_from l "with-bar".
Proof.
  eexists. split; [apply bend_is | ]. unfold write_bend. cbn [bd_alter bd_which bd_pre bd_release bd_withBar]. rewrite if_has_gives. f_equal. f_equal. symmetry.
  apply (chosen bend_kinds l (fun v => match v with PreBend => _ | Release => _ end)). intros n v [I | [I | []]]; injection I as <- <-; reflexivity.
Qed.

(** ** harmonic *)
Definition harmonic_types := [("natural", Natural); ("artificial", Artificial)]%string.
Definition harmonic_infos := [("base-pitch", BasePitch); ("touching-pitch", TouchingPitch); ("sounding-pitch", SoundingPitch)]%string.
Lemma harmonic_is {A} (l : list (str * A)) : read_harmonic (nodes l) =
  Ok (true, mkHarmonic (last_of harmonic_types l) (gives new_child (contents_of "natural" l)) (gives new_child (contents_of "artificial" l))
              (last_of harmonic_infos l) (gives new_child (contents_of "base-pitch" l)) (gives new_child (contents_of "touching-pitch" l)) (gives new_child (contents_of "sounding-pitch" l))).
Proof.
  unfold read_harmonic.
  erewrite (loop_still _ (fun p r =>
    if str_eqb (fst p) (lit "natural") then mkHarmonic (Some Natural) (give true (Own (snd p)) (hn_natural r)) (hn_artificial r) (hn_info r) (hn_base r) (hn_touching r) (hn_sounding r)
    else if str_eqb (fst p) (lit "artificial") then mkHarmonic (Some Artificial) (hn_natural r) (give true (Own (snd p)) (hn_artificial r)) (hn_info r) (hn_base r) (hn_touching r) (hn_sounding r)
    else if str_eqb (fst p) (lit "base-pitch") then mkHarmonic (hn_type r) (hn_natural r) (hn_artificial r) (Some BasePitch) (give true (Own (snd p)) (hn_base r)) (hn_touching r) (hn_sounding r)
    else if str_eqb (fst p) (lit "touching-pitch") then mkHarmonic (hn_type r) (hn_natural r) (hn_artificial r) (Some TouchingPitch) (hn_base r) (give true (Own (snd p)) (hn_touching r)) (hn_sounding r)
    else if str_eqb (fst p) (lit "sounding-pitch") then mkHarmonic (hn_type r) (hn_natural r) (hn_artificial r) (Some SoundingPitch) (hn_base r) (hn_touching r) (give true (Own (snd p)) (hn_sounding r))
    else r)).
  2: { intros b p r s. rewrite ?import_here. cbn [obind]. destruct (str_eqb (fst p) (lit "natural")); [reflexivity | ].
       rewrite ?import_here. cbn [obind]. destruct (str_eqb (fst p) (lit "artificial")); [reflexivity | ].
       rewrite ?import_here. cbn [obind]. destruct (str_eqb (fst p) (lit "base-pitch")); [reflexivity | ].
       rewrite ?import_here. cbn [obind]. destruct (str_eqb (fst p) (lit "touching-pitch")); [reflexivity | ].
       rewrite ?import_here. cbn [obind]. destruct (str_eqb (fst p) (lit "sounding-pitch")); reflexivity. }
  unfold omap, obind. f_equal. f_equal. induction l as [ | p l IH] using rev_ind; [reflexivity | ].
  rewrite fold_left_app. cbn [fold_left]. rewrite IH. cbn [hn_type hn_natural hn_artificial hn_info hn_base hn_touching hn_sounding].
  rewrite !last_of_last, !contents_last, !gives_more. destruct p as [n a]. cbn [fst snd harmonic_types harmonic_infos find].
  destruct (str_eqb n (lit "natural")) eqn:E1; [apply str_eqb_true in E1; subst n; reflexivity | ].
  destruct (str_eqb n (lit "artificial")) eqn:E2; [apply str_eqb_true in E2; subst n; reflexivity | ].
  destruct (str_eqb n (lit "base-pitch")) eqn:E3; [apply str_eqb_true in E3; subst n; reflexivity | ].
  destruct (str_eqb n (lit "touching-pitch")) eqn:E4; [apply str_eqb_true in E4; subst n; reflexivity | ].
  destruct (str_eqb n (lit "sounding-pitch")) eqn:E5; reflexivity.
Qed.
Theorem harmonic_exact A (l : list (str * A)) : exists s, read_harmonic (nodes l) = Ok (true, s) /\
  write_harmonic s = last_choice ["natural"; "artificial"]%string l ++ last_choice ["base-pitch"; "touching-pitch"; "sounding-pitch"]%string l.
Proof.
  eexists. split; [apply harmonic_is | ]. unfold write_harmonic. cbn [hn_type hn_natural hn_artificial hn_info hn_base hn_touching hn_sounding]. symmetry. f_equal.
  - apply (chosen harmonic_types l (fun v => match v with Natural => _ | Artificial => _ end)). intros n v [I | [I | []]]; injection I as <- <-; reflexivity.
  - apply (chosen harmonic_infos l (fun v => match v with BasePitch => _ | TouchingPitch => _ | SoundingPitch => _ end)). intros n v [I | [I | [I | []]]]; injection I as <- <-; reflexivity.
Qed.

(** ** interchangeable *)
Theorem interchangeable_exact A (l : list (str * A)) : exists s, read_interchangeable (nodes l) = Ok (true, s) /\
  write_interchangeable s = one_from l "time-relation" ++ [(lit "beats", map Own (contents_of "beats" l)); (lit "beat-type", map Own (contents_of "beat-type" l))].
Proof.
  assert (E : read_interchangeable (nodes l) = Ok (true, mkInterchangeable (gives new_child (contents_of "time-relation" l)) (gives new_child (contents_of "beats" l)) (gives new_child (contents_of "beat-type" l)))).
  { unfold read_interchangeable.
    erewrite (loop_still _ (fun p r =>
      if str_eqb (fst p) (lit "time-relation") then mkInterchangeable (give true (Own (snd p)) (ic_relation r)) (ic_beats r) (ic_beatType r)
      else if str_eqb (fst p) (lit "beats") then mkInterchangeable (ic_relation r) (give true (Own (snd p)) (ic_beats r)) (ic_beatType r)
      else mkInterchangeable (ic_relation r) (ic_beats r) (if str_eqb (fst p) (lit "beat-type") then give true (Own (snd p)) (ic_beatType r) else ic_beatType r))).
    2: { intros b p r s. rewrite ?import_here. cbn [obind]. destruct (str_eqb (fst p) (lit "time-relation")); [reflexivity | ].
         rewrite ?import_here. cbn [obind]. destruct (str_eqb (fst p) (lit "beats")); [reflexivity | ].
         rewrite ?import_here. cbn [obind]. destruct (str_eqb (fst p) (lit "beat-type")); reflexivity. }
    unfold omap, obind. f_equal. f_equal. induction l as [ | p l IH] using rev_ind; [reflexivity | ].
    rewrite fold_left_app. cbn [fold_left]. rewrite IH. cbn [ic_relation ic_beats ic_beatType]. rewrite !contents_last, !gives_more. destruct p as [n a]. cbn [fst snd].
    destruct (str_eqb n (lit "time-relation")) eqn:E1; [apply str_eqb_true in E1; subst n; reflexivity | ].
    destruct (str_eqb n (lit "beats")) eqn:E2; [apply str_eqb_true in E2; subst n; reflexivity | ].
    destruct (str_eqb n (lit "beat-type")) eqn:E3; reflexivity. }
  eexists. split; [exact E | ]. unfold write_interchangeable. cbn [ic_relation ic_beats ic_beatType]. rewrite if_has_gives. reflexivity.
Qed.

(** ** credit *)
Lemma credit_other {A} words n (l : list A) t : is_named ["link"; "bookmark"]%string (lit n, tt) = false -> is_named ["credit-words"]%string (lit n, tt) = false ->
  credit_written words (all_named n l ++ t) = map (fun a => (lit n, [Own a])) l ++ credit_written words t.
Proof.
  intros N W. unfold is_named in N, W. cbn [fst] in N, W. induction l as [ | a l IH]; [reflexivity | ]. unfold all_named in *. cbn [map app credit_written]. unfold is_named at 1 2. cbn [fst snd]. rewrite N, W, andb_false_r, orb_false_r, IH. reflexivity.
Qed.
Lemma credit_link {A} (words : bool) n (l : list A) t : In n ["link"; "bookmark"]%string ->
  credit_written words (all_named n l ++ t) = map (fun a => (lit n, [if words then Parent else Own a])) l ++ credit_written words t.
Proof.
  intros I. assert (N : is_named ["link"; "bookmark"]%string (lit n, tt) = true /\ is_named ["credit-words"]%string (lit n, tt) = false) by (destruct I as [<- | [<- | []]]; split; reflexivity).
  destruct N as [N W]. unfold is_named in N, W. cbn [fst] in N, W. induction l as [ | a l IH]; [reflexivity | ]. unfold all_named in *. cbn [map app credit_written]. unfold is_named at 1 2. cbn [fst snd].
  rewrite N, W, andb_true_r, orb_false_r, IH. reflexivity.
Qed.
Lemma credit_groups {A} (gs : list (list A * list A * A)) : credit_written true (words_groups gs) = List.concat (map write_words_group (map words_of gs)).
Proof.
  induction gs as [ | [[ls bs] w] gs IH]; [reflexivity | ]. unfold words_groups in *. cbn [map List.concat words_names words_of]. unfold write_words_group at 1. cbn [wg_links wg_bookmarks wg_words].
  rewrite <- !app_assoc. rewrite !credit_link by (cbn; tauto). rewrite <- IH. rewrite (map_map (fun _ : A => Parent) (fun l0 => (lit "link", [l0]))), (map_map (fun _ : A => Parent) (fun l0 => (lit "bookmark", [l0]))). cbn [app credit_written]. reflexivity.
Qed.
Theorem credit_exact A (l : list (str * A)) : conforms credit_content l -> exists s, read_credit (nodes l) = Ok (true, s) /\ write_credit s = credit_written false l.
Proof.
  intros H. destruct (credit_parts l H) as (ts & ls & bs & t & -> & [[i ->] | (w & gs & ->)]); eexists.
  - split; [apply credit_image_read | ]. unfold write_credit. cbn [cr_types cr_links cr_bookmarks cr_isImage cr_image]. rewrite credit_other, !credit_link by (try reflexivity; cbn; tauto). reflexivity.
  - split; [apply credit_words_read | ]. unfold write_credit. cbn [cr_types cr_links cr_bookmarks cr_isImage cr_words cr_groups]. rewrite credit_other, !credit_link by (try reflexivity; cbn; tauto).
    cbn [credit_written]. unfold is_named at 1 2. cbn [fst snd existsb orb andb]. change (str_eqb (lit "credit-words") (lit "credit-words") || false) with true. rewrite credit_groups. reflexivity.
Qed.
Theorem credit_unfinished A (l : list (str * A)) p r : conforms (Sequence [Many (Element "credit-type"); Many (Element "link"); Many (Element "bookmark")]) l ->
  ~ In (fst p) (map lit ["credit-type"; "link"; "bookmark"; "credit-image"; "credit-words"]%string) ->
  exists s, read_credit (nodes (l ++ p :: r)) = Ok (true, s) /\ write_credit s = map as_read l ++ [(lit "credit-words", [])].
Proof.
  intros H N. apply inv_sequence in H. destruct H as (x1 & y1 & -> & C1 & H). apply inv_sequence in H. destruct H as (x2 & y2 & -> & C2 & H).
  apply inv_sequence in H. destruct H as (x3 & y3 & -> & C3 & H). apply inv_nothing in H. subst y3.
  apply inv_many_element in C1. destruct C1 as [ts ->]. apply inv_many_element in C2. destruct C2 as [ls ->]. apply inv_many_element in C3. destruct C3 as [bs ->].
  assert (D : forall n, In n ["credit-type"; "link"; "bookmark"; "credit-image"; "credit-words"]%string -> str_eqb (fst p) (lit n) = false).
  { intros n I. destruct (str_eqb (fst p) (lit n)) eqn:E; [ | reflexivity]. apply str_eqb_true in E. exfalso. apply N. rewrite E. apply in_map. exact I. }
  destruct (credit_start ts ls bs (p :: r)) as [b R]; try (apply D; cbn; tauto). rewrite app_nil_r, <- !app_assoc. rewrite R. unfold read_credit_choice.
  rewrite take_here, D by (cbn; tauto). cbn [obind]. rewrite take_here, D by (cbn; tauto). cbn [obind negb]. eexists. split; [rewrite at_end_here; reflexivity | ].
  unfold write_credit. cbn [cr_types cr_links cr_bookmarks cr_isImage cr_words cr_groups]. unfold all_named. rewrite !map_app, !map_map, <- !app_assoc. reflexivity.
Qed.
