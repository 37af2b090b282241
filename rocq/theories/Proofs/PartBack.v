(** Parts written and read back. *)
From Coq Require Import List Ascii Bool String ZArith QArith Lia Sorted Arith.
From Verif Require Import Model.Base Model.Text Model.Strings Model.Integers Model.Decimals Model.EnumLookup Model.CoreEnums Model.ApiEnums
  Model.SoundID Model.PlaybackSound Model.InstrumentTable Model.Ticks Model.MeasureTypes Model.Notations Model.PartInfo
  Spec.XmlText Spec.Numerals Spec.Conversion Spec.Attachments Spec.PartReading Proofs.TextProofs Proofs.StringsProofs Proofs.TicksProofs Proofs.InstrumentProofs
  Proofs.LayoutProofs Proofs.PartProofs.
Import ListNotations.
Local Open Scope Z_scope.

(** ** Any file *)

Lemma part_document id l : part_says id l (parseScorePart (read_part id l)).
Proof.
  pose proof (name_latest l PrevOther (mkXPart (read_id id) [] [] None None None None [] [] [])) as N.
  pose proof (abbreviation_latest l PrevOther (mkXPart (read_id id) [] [] None None None None [] [] [])) as B.
  pose proof (id_latest l PrevOther (mkXPart (read_id id) [] [] None None None None [] [] [])) as D.
  pose proof (shown_read l PrevOther (mkXPart (read_id id) [] [] None None None None [] [] [])) as S.
  pose proof (abbreviation_display l PrevOther (mkXPart (read_id id) [] [] None None None None [] [] [])) as A.
  pose proof (midi_first l PrevOther (mkXPart (read_id id) [] [] None None None None [] [] []) eq_refl) as M.
  pose proof (instruments_any_kept id l) as I.
  fold (read_part id l) in *. set (x := read_part id l) in *. unfold part_says. cbv zeta.
  unfold parseScorePart. cbn [uniqueId name abbreviation displayName displayAbbreviation displayNamePrintObject displayNamePosition
    displayAbbreviationPrintObject displayAbbreviationPosition instrumentData].
  assert (S' : extractDisplayText (match sp_nameDisplay x with Some k => k | None => [] end) = List.concat (map name_shown l)).
  { exact S. }
  rewrite S'. rewrite I.
  assert (H : hd_error (map read_pair (instruments_kept l)) = option_map read_pair (hd_error (instruments_kept l))).
  { destruct (instruments_kept l); reflexivity. }
  rewrite H. clear H.
  assert (Q : exists i, match hd_error (sp_midi x) with Some g => match mg_instrument g with Some i => i | None => new_midi end | None => new_midi end =
      match snd (first_midi l) with Some c => read_midi i c | None => new_midi end).
  { destruct (hd_error (sp_midi x)) as [g | ].
    - destruct M as [_ M]. destruct (snd (first_midi l)) as [c | ]; [destruct M as [i M]; exists i | exists None]; rewrite M; reflexivity.
    - exists None. rewrite M. reflexivity. }
  destruct Q as [i Q].
  assert (V : match hd_error (sp_midi x) with Some g => or_empty (mg_device g) | None => [] end = or_empty (fst (first_midi l))).
  { destruct (hd_error (sp_midi x)) as [g | ]; [destruct M as [M _]; rewrite M; reflexivity | rewrite M; reflexivity]. }
  destruct (instrument_document (hd_error (instruments_kept l)) (hd_error (sp_midi x)) (first_midi l) i Q V) as [J1 J2].
  split; [ | split; [ | split; [ | split; [ | split; [ | split; [ | split; [reflexivity | split; [reflexivity | split; [reflexivity | split; [reflexivity | split]]]]]]]]]].
  - rewrite D. cbn [sp_id]. destruct id; [apply read_id_some | reflexivity].
  - rewrite N. reflexivity.
  - exact B.
  - destruct (sp_nameDisplay x); [reflexivity | ]. exact S'.
  - intros E. destruct (sp_abbreviationDisplay x); [reflexivity | ]. destruct A as [A _]. destruct (A eq_refl) as [_ F]. contradiction.
  - intros E. destruct (sp_abbreviationDisplay x) eqn:X; [ | reflexivity]. destruct A as [_ A]. cbn in A. discriminate (A (conj eq_refl E)).
  - exact J1.
  - exact J2.
Qed.

Lemma file_accepted l : fst (read_part_list l) = true <->
  exists before id c after, l = before ++ LPart id c :: after /\ Forall (fun x => x = LGroup true \/ x = LOther) before /\ part_well id c.
Proof.
  induction l as [ | x l IH].
  - cbn. split; [discriminate | ]. intros (b & id & c & a & E & _). destruct b; discriminate E.
  - destruct x as [ok | id c | ]; cbn [read_part_list fst].
    + rewrite andb_true_iff, IH. split.
      * intros [-> (b & id & c & a & -> & F & W)]. exists (LGroup true :: b), id, c, a. split; [reflexivity | ]. split; [ | exact W]. constructor; [left; reflexivity | exact F].
      * intros (b & id & c & a & E & F & W). destruct b as [ | x b]; [discriminate E | ]. injection E as <- ->. inversion F as [ | ? ? [K | K] F']; subst; [ | discriminate K].
        injection K as ->. split; [reflexivity | ]. eauto 10.
    + rewrite well_iff. split.
      * intros W. exists [], id, c, l. split; [reflexivity | ]. split; [constructor | exact W].
      * intros (b & id' & c' & a & E & F & W). destruct b as [ | x b].
        -- injection E as -> -> _. exact W.
        -- injection E as <- ->. inversion F as [ | ? ? [K | K] _]; discriminate K.
    + rewrite IH. split.
      * intros (b & id & c & a & -> & F & W). exists (LOther :: b), id, c, a. split; [reflexivity | ]. split; [ | exact W]. constructor; [right; reflexivity | exact F].
      * intros (b & id & c & a & E & F & W). destruct b as [ | x b]; [discriminate E | ]. injection E as <- ->. inversion F; subst. eauto 10.
Qed.

(** ** The music *)

Lemma str_eqb_refl t : str_eqb t t = true.
Proof. apply str_eqb_eq. reflexivity. Qed.

Lemma found_music {A} id (l : list (str * A)) a : findPartwisePart id l = Some a <-> music_of id l a.
Proof.
  unfold findPartwisePart. induction l as [ | [j b] l IH]; cbn [find fst].
  - cbn. split; [discriminate | intros H; inversion H].
  - destruct (str_eqb j id) eqn:E.
    + apply str_eqb_eq in E. subst j. cbn. split.
      * intros K. injection K as ->. constructor.
      * intros K. inversion K; subst; [reflexivity | contradiction].
    + assert (N : j <> id) by (intros ->; rewrite str_eqb_refl in E; discriminate E). rewrite IH. split.
      * intros K. constructor; assumption.
      * intros K. inversion K; subst; [contradiction N; reflexivity | assumption].
Qed.

Lemma no_music {A} id (l : list (str * A)) : findPartwisePart id l = None -> forall a, ~ music_of id l a.
Proof. intros H a M. apply found_music in M. rewrite H in M. discriminate M. Qed.

Lemma rest_said {A} (music : list (str * A)) l : parts_said music l (reconcile (rest_parts l) music).
Proof.
  induction l as [ | x l IH]; [constructor | ]. destruct x as [ok | id c | ]; cbn [rest_parts]; [constructor; exact IH | | constructor; exact IH].
  cbn [reconcile flat_map]. fold (reconcile (rest_parts l) music). pose proof (part_document id c) as D.
  assert (E : uniqueId (parseScorePart (read_part id c)) = sp_id (read_part id c)) by reflexivity.
  destruct (findPartwisePart (sp_id (read_part id c)) music) as [a | ] eqn:F.
  - cbn [app]. apply parts_part; [exact D | rewrite E; apply found_music; exact F | exact IH].
  - cbn [app]. apply parts_silent with (parseScorePart (read_part id c)); [exact D | rewrite E; apply no_music; exact F | exact IH].
Qed.

Lemma list_parts l : Exists is_part l -> snd (read_part_list l) = rest_parts l.
Proof.
  induction l as [ | x l IH]; intros E; [inversion E | ]. destruct x as [ok | id c | ]; cbn [read_part_list rest_parts snd].
  - apply IH. inversion E as [? ? H | ? ? H]; [destruct H | exact H].
  - reflexivity.
  - apply IH. inversion E as [? ? H | ? ? H]; [destruct H | exact H].
Qed.

Lemma music_read {A} (a0 : A) l : l <> [] -> read_music a0 l = file_music l.
Proof.
  intros N. unfold read_music, file_music. destruct l as [ | q l]; [contradiction N; reflexivity | ]. apply map_ext. intros [[t | ] a]; cbn [fst snd]; [rewrite read_id_some | ]; reflexivity.
Qed.

Lemma file_parts {A} (a0 : A) l music : Exists is_part l -> music <> [] -> parts_said (file_music music) l (read_parts a0 l music).
Proof. intros E N. unfold read_parts. rewrite (list_parts _ E), (music_read _ _ N). apply rest_said. Qed.

(** ** Writing *)

Lemma said_given {C} (t : str) (f : str -> C) : given f (when_non_empty t) = said t (f t).
Proof. destruct t; reflexivity. Qed.

Lemma non_empty_iff t : non_empty t = true <-> t <> [].
Proof. destruct t; cbn; split; [discriminate | intros H; contradiction H; reflexivity | discriminate | reflexivity]. Qed.

Lemma adds_instrument_iff i : adds_instrument i = true <-> instrument_said i.
Proof.
  unfold adds_instrument, instrument_said. rewrite !orb_true_iff, !non_empty_iff.
  destruct (soloOrEnsemble i); split; intros H; repeat (destruct H as [H | H]); auto 6; try discriminate H; try (right; right; left; discriminate); try (left; left; right; reflexivity).
Qed.

Lemma has_midi_iff m : has_midi_instrument m = true <-> midi_said m.
Proof.
  unfold has_midi_instrument, midi_said. rewrite !orb_true_iff, !Z.leb_le. tauto.
Qed.

Lemma adds_midi_iff m : adds_midi m = true <-> device_said m \/ midi_said m.
Proof. unfold adds_midi. rewrite orb_true_iff, non_empty_iff, has_midi_iff. reflexivity. Qed.

Lemma false_iff b (P : Prop) : (b = true <-> P) -> (b = false <-> ~ P).
Proof. intros H. destruct b; split; intros K; try discriminate K; try reflexivity; try (contradiction K; apply H; reflexivity). intros Q. apply H in Q. discriminate Q. Qed.

Lemma int_written t most n : ctor_bounds t = (1, most) -> 1 <= most -> write_int t n = if 0 <=? n then Some (number_kept most n) else None.
Proof.
  intros E M. unfold write_int. destruct (Z.leb_spec 0 n) as [L | L]; [ | reflexivity]. f_equal. unfold Integers.construct. rewrite E. cbn.
  unfold number_kept, Integers.clamp. destruct (Z.ltb_spec n 0); [lia | ]. destruct (Z.ltb_spec n 1); [lia | ]. destruct (Z.ltb_spec most n); lia.
Qed.

Lemma number_written t b x : (b = true -> storable x) -> write_number t b x = Ok (if b then Some (stored t x) else None).
Proof. intros S. unfold write_number. destruct b; [ | reflexivity]. rewrite (decimal_any t x (S eq_refl)). reflexivity. Qed.

Definition midi_element (id : str) (m : MidiData) : xmidi :=
  mkXMidi id (if 0 <=? channel m then Some (number_kept 16 (channel m)) else None) None
    (if 0 <=? bank m then Some (number_kept 16384 (bank m)) else None) (if 0 <=? program m then Some (number_kept 128 (program m)) else None) None
    (if isVolumeSpecified m then Some (stored Percent (volume m)) else None)
    (if isPanSpecified m then Some (stored RotationDegrees (pan m)) else None)
    (if isElevationSpecified m then Some (stored RotationDegrees (elevation m)) else None).

Lemma midi_written next id p : part_sound next p -> write_midi id (midiData (instrumentData p)) = Ok (midi_element id (midiData (instrumentData p))).
Proof.
  intros (S1 & S2 & S3 & _). unfold write_midi. rewrite (number_written _ _ _ S3), (number_written _ _ _ S2), (number_written _ _ _ S1). cbn [obind].
  rewrite (int_written Midi16 16), (int_written Midi16384 16384), (int_written Midi128 128) by (first [reflexivity | lia]). reflexivity.
Qed.

Lemma number_id next : 0 <= next -> an_id (lit "ID" ++ print_int next).
Proof.
  intros N. assert (E : print_int next = print_nat next). { unfold print_int. destruct (Z.ltb_spec next 0); [lia | reflexivity]. }
  rewrite E. destruct (print_nat_spec next N) as (D & _). unfold an_id. apply id_unchanged.
  - discriminate.
  - apply Forall_app. split.
    + destruct (id_chars []) as (u & E1 & _ & F1 & _). assert (E2 : u = lit "ID") by (vm_compute in E1; injection E1 as <-; reflexivity). rewrite E2 in F1. exact F1.
    + unfold all_digits in D. eapply Forall_impl; [ | exact D]. intros c H. right. left. cbn beta in H. unfold is_digit in H. rewrite andb_true_iff, !Z.leb_le in H. exact H.
  - intros c r H. change (lit "ID" ++ print_nat next) with ("I"%char :: "D"%char :: print_nat next) in H. injection H as <- _. vm_compute. intros [H1 H2]. apply H2. reflexivity.
Qed.

Definition instrument_element (iid : str) (i : InstrumentData) : xinstrument :=
  mkXInstrument iid (instrumentName i) (when_non_empty (instrumentAbbreviation i)) (write_sound (soundID i)) (write_solo (soloOrEnsemble i))
    (write_virtual (midiData i)).

Definition part_element (iid : str) (p : PartInfo) : xpart :=
  let i := instrumentData p in
  let m := midiData i in
  mkXPart (id_kept (uniqueId p)) [] (name p) (Some YesNo_no)
    (option_map (fun t => [DisplayText t]) (when_non_empty (displayName p)))
    (option_map (fun t => (t, Some YesNo_no)) (when_non_empty (abbreviation p)))
    (option_map (fun t => [DisplayText t]) (when_non_empty (displayAbbreviation p)))
    []
    (if adds_instrument i || adds_midi m then [instrument_element iid i] else [])
    (if adds_midi m then [mkMidiGroup (when_non_empty (device m)) (if has_midi_instrument m then Some (midi_element (id_kept (instrumentId i)) m) else None)] else []).

Lemma part_written next p : part_sound next p ->
  exists iid n, getScorePart next p = Ok (part_element iid p, n) /\ an_id iid /\
    (instrument_said (instrumentData p) \/ midi_said (midiData (instrumentData p)) \/ device_said (midiData (instrumentData p)) ->
       instrument_id next (instrumentData p) iid) /\
    (unnamed (instrumentData p) -> n = next + 1) /\ (~ unnamed (instrumentData p) -> n = next).
Proof.
  intros S. pose proof S as (_ & _ & _ & N). unfold getScorePart. rewrite !id_of_kept. cbn [obind].
  set (i := instrumentData p) in *. set (m := midiData i) in *.
  pose proof (adds_instrument_iff i) as AI. pose proof (adds_midi_iff m) as AM. pose proof (non_empty_iff (instrumentId i)) as NE.
  destruct (adds_midi m && negb (adds_instrument i) && negb (non_empty (instrumentId i)))%bool eqn:F.
  - rewrite !andb_true_iff, !negb_true_iff in F. destruct F as [[F1 F2] F3].
    assert (U : unnamed i).
    { apply AM in F1. apply (false_iff _ _ AI) in F2. split; [exact F2 | ]. split; [destruct (instrumentId i); [reflexivity | discriminate F3] | tauto]. }
    rewrite (id_kept_same _ (number_id next (proj1 N))). cbn [obind]. rewrite as_int_ok by lia. cbn [omap obind fst snd].
    unfold m at 1. unfold i at 1. rewrite (midi_written next _ p S). cbn [obind]. exists (lit "ID" ++ print_int next), (next + 1).
    split; [reflexivity | ]. split; [apply number_id; lia | ]. split; [ | split; [reflexivity | intros K; contradiction]].
    intros _. destruct U as (U1 & U2 & U3). split; [intros [K | K]; contradiction | reflexivity].
  - cbn [obind fst snd]. unfold m at 1. unfold i at 1. rewrite (midi_written next _ p S). cbn [obind]. exists (id_kept (instrumentId i)), next.
    split; [reflexivity | ]. split; [apply id_kept_id | ].
    assert (U : ~ unnamed i).
    { intros (U1 & U2 & U3). apply (false_iff _ _ AI) in U1. assert (U4 : adds_midi m = true) by (apply AM; tauto). rewrite U1, U4, U2 in F. discriminate F. }
    split; [ | split; [intros K; contradiction | reflexivity]].
    intros K. split; [reflexivity | ]. intros K1 K2. contradiction U. split; [exact K1 | ]. split; [exact K2 | tauto].
Qed.

Lemma element_whole iid p : an_id iid -> whole_part (part_element iid p).
Proof.
  intros A. unfold part_element. cbv zeta. split; [apply id_kept_id | ]. cbn [sp_instruments sp_midi]. split; [ | split].
  - destruct (_ || _)%bool; repeat constructor. exact A.
  - destruct (adds_midi _); repeat constructor. cbn [mg_instrument]. destruct (has_midi_instrument _); [apply id_kept_id | exact I].
  - destruct (adds_midi _) eqn:E; [ | exact I]. split; [ | split; [ | exact I]].
    + cbn. unfold adds_midi in E. destruct (device _); [ | left; discriminate]. cbn in E. rewrite E. right. discriminate.
    + cbn [mg_instrument]. destruct (if has_midi_instrument _ then _ else _); exact I.
Qed.

Lemma part_back_is next p : part_sound next p -> exists iid n, getScorePart next p = Ok (part_element iid p, n) /\
  part_back next p = Ok (parseScorePart (part_element iid p)) /\
    (instrument_said (instrumentData p) \/ midi_said (midiData (instrumentData p)) \/ device_said (midiData (instrumentData p)) ->
       instrument_id next (instrumentData p) iid).
Proof.
  intros S. destruct (part_written next p S) as (iid & n & E & A & H & _). exists iid, n. split; [exact E | ]. split; [ | exact H].
  unfold part_back. rewrite E. transitivity (Ok (parseScorePart (read_part (Some (sp_id (part_element iid p))) (stream_part (part_element iid p))))); [reflexivity | ].
  rewrite (part_read _ (element_whole iid p A)). reflexivity.
Qed.

(** ** What comes back *)

Lemma or_empty_when t : or_empty (when_non_empty t) = t.
Proof. destruct t; reflexivity. Qed.

Lemma or_none_number n most : or_none (if 0 <=? n then Some (number_kept most n) else None) = number_kept most n.
Proof. unfold number_kept. destruct (Z.leb_spec 0 n), (Z.ltb_spec n 0); try lia; reflexivity. Qed.

Lemma or_zero_number (b : bool) x : or_zero (if b then Some x else None) = if b then x else 0%Q.
Proof. destruct b; reflexivity. Qed.
Lemma given_number {A} (b : bool) (x : A) : is_given (if b then Some x else None) = b.
Proof. destruct b; reflexivity. Qed.

Lemma sound_cases s : s = api_SoundID_unspecified \/ s = api_SoundID_errorBadString \/
  (write_sound s = Some (instrumentMap_toCore s) /\ sound_kept s = s /\ s <> api_SoundID_unspecified /\ s <> api_SoundID_errorBadString).
Proof.
  destruct (Z.eqb_spec (api_SoundID_value s) (api_SoundID_value api_SoundID_unspecified)) as [E1 | E1]; [left; apply sound_number; exact E1 | ].
  destruct (Z.eqb_spec (api_SoundID_value s) (api_SoundID_value api_SoundID_errorBadString)) as [E2 | E2]; [right; left; apply sound_number; exact E2 | ].
  right. right. split; [ | split; [ | split; [intros ->; apply E1; reflexivity | intros ->; apply E2; reflexivity]]].
  - destruct s; cbv beta iota delta [write_sound]; first [exact eq_refl | exfalso; apply E1; exact eq_refl | exfalso; apply E2; exact eq_refl].
  - destruct s; cbv beta iota delta [sound_kept]; first [exact eq_refl | exfalso; apply E2; exact eq_refl].
Qed.

Lemma sound_there b : b <> api_SoundID_unspecified -> b <> api_SoundID_errorBadString -> instrumentMap_toApi (instrumentMap_toCore b) = b.
Proof.
  intros N1 N2. destruct instrumentMap_converts as (_ & C & _). apply C; [reflexivity | ]. cbn [map fst In].
  intros [H | [H | H]]; [apply N1; symmetry; exact H | apply N2; symmetry; exact H | exact H].
Qed.

Lemma sound_back s : match write_sound s with Some c => instrumentMap_toApi c | None => api_SoundID_unspecified end = sound_kept s.
Proof.
  destruct (sound_cases s) as [-> | [-> | (E1 & E2 & N1 & N2)]]; [exact eq_refl | exact eq_refl | ]. rewrite E1, E2. apply sound_there; assumption.
Qed.

Lemma virtual_back m : (match write_virtual m with Some v => or_empty (vi_library v) | None => [] end) = virtualLibrary m /\
  (match write_virtual m with Some v => or_empty (vi_name v) | None => [] end) = virtualName m.
Proof.
  unfold write_virtual. destruct (virtualName m) as [ | a b] eqn:E1, (virtualLibrary m) as [ | c d] eqn:E2; cbn; split; reflexivity.
Qed.

Lemma midi_back p : let i := instrumentData p in let m := midiData i in
  forall v, match v with Some v => or_empty (vi_library v) | None => [] end = virtualLibrary m ->
    match v with Some v => or_empty (vi_name v) | None => [] end = virtualName m ->
  parse_midi v (hd_error (sp_midi (part_element [] p))) = midi_kept m.
Proof.
  intros i m v V1 V2. unfold part_element. cbv zeta. cbn [sp_midi]. fold i. fold m. unfold parse_midi, midi_kept. rewrite V1, V2.
  unfold adds_midi. destruct (has_midi_instrument m) eqn:E.
  - rewrite orb_true_r. cbn [hd_error mg_device mg_instrument midi_element mi_name mi_bank mi_channel mi_program mi_unpitched mi_volume mi_pan mi_elevation].
    rewrite or_empty_when, !or_none_number, !or_zero_number, !given_number. reflexivity.
  - apply (false_iff _ _ (has_midi_iff m)) in E. unfold midi_said in E.
    assert (B : forall most n, ~ 0 <= n -> number_kept most n = -1) by (intros most n L; unfold number_kept; destruct (Z.ltb_spec n 0); [reflexivity | lia]).
    rewrite !B by tauto. destruct (isVolumeSpecified m); [contradiction E; tauto | ]. destruct (isPanSpecified m); [contradiction E; tauto | ].
    destruct (isElevationSpecified m); [contradiction E; tauto | ]. destruct (device m); reflexivity.
Qed.

Lemma part_back_exactly next p : part_sound next p -> exists q, part_back next p = Ok q /\ part_returned next p q.
Proof.
  intros S. destruct (part_back_is next p S) as (iid & n & _ & E & H). eexists. split; [exact E | ].
  unfold part_returned. cbn [parseScorePart uniqueId name abbreviation displayName displayAbbreviation displayNamePrintObject displayNamePosition
    displayAbbreviationPrintObject displayAbbreviationPosition instrumentData part_element sp_id sp_name sp_abbreviation sp_nameDisplay sp_abbreviationDisplay].
  split; [reflexivity | ]. split; [reflexivity | ]. split; [destruct (abbreviation p); reflexivity | ].
  split; [ | split; [ | split; [reflexivity | split; [reflexivity | split; [reflexivity | split; [reflexivity | ]]]]]].
  - destruct (displayName p); [reflexivity | ]. cbn. rewrite app_nil_r. reflexivity.
  - destruct (displayAbbreviation p); [reflexivity | ]. cbn [when_non_empty option_map]. destruct (displayName p); [reflexivity | ]. cbn. rewrite app_nil_r. reflexivity.
  - change (hd_error (sp_midi (part_element iid p))) with (hd_error (sp_midi (part_element [] p))).
    change (sp_midi (part_element iid p)) with (sp_midi (part_element [] p)).
    set (g := hd_error (sp_midi (part_element [] p))). unfold part_element. cbv zeta. cbn [sp_instruments sp_midi].
    set (i := instrumentData p) in *. set (m := midiData i) in *.
    change (hd_error (if adds_midi m then [mkMidiGroup (when_non_empty (device m)) (if has_midi_instrument m then Some (midi_element (id_kept (instrumentId i)) m) else None)] else [])) with g.
    destruct (virtual_back m) as [V1 V2].
    pose proof (adds_instrument_iff i) as AI. pose proof (adds_midi_iff m) as AM.
    destruct (adds_instrument i || adds_midi m)%bool eqn:F; cbn [hd_error parse_instrument].
    + unfold instrument_back. cbn [instrumentId instrumentName instrumentAbbreviation soundID soloOrEnsemble midiData instrument_element
        si_id si_name si_abbreviation si_sound si_solo si_virtual].
      assert (K : instrument_said i \/ midi_said m \/ device_said m).
      { rewrite orb_true_iff, AI, AM in F. tauto. }
      split; [ | split; [intros K1 K2 K3; tauto | apply (midi_back p); assumption]].
      intros _. split; [apply H; exact K | ]. split; [reflexivity | ]. split; [apply or_empty_when | ]. split; [apply sound_back | ].
      destruct (soloOrEnsemble i); reflexivity.
    + unfold instrument_back. cbn [instrumentId instrumentName instrumentAbbreviation soundID soloOrEnsemble midiData].
      rewrite orb_false_iff in F. destruct F as [F1 F2]. apply (false_iff _ _ AI) in F1. apply (false_iff _ _ AM) in F2.
      split; [intros K; tauto | ]. split; [intros _ _ _; repeat split | ]. apply (midi_back p).
      * destruct (virtualLibrary (midiData (instrumentData p))) eqn:X; [reflexivity | ]. contradiction F1. right. right. right. right. fold i m. unfold m, i. rewrite X. discriminate.
      * destruct (virtualName (midiData (instrumentData p))) eqn:X; [reflexivity | ]. contradiction F1. right. right. right. left. fold i m. unfold m, i. rewrite X. discriminate.
Qed.

(** ** Nothing is lost *)

Lemma number_fits_kept most n : within most n -> number_kept most n = n.
Proof. unfold within, number_kept. intros [-> | H]; [reflexivity | ]. destruct (Z.ltb_spec n 0); lia. Qed.

Lemma instrument_same i j : instrumentId i = instrumentId j -> instrumentName i = instrumentName j -> instrumentAbbreviation i = instrumentAbbreviation j ->
  soundID i = soundID j -> soloOrEnsemble i = soloOrEnsemble j -> midiData i = midiData j -> i = j.
Proof. destruct i, j. cbn. intros -> -> -> -> -> ->. reflexivity. Qed.

Lemma part_same p q : uniqueId p = uniqueId q -> name p = name q -> abbreviation p = abbreviation q -> displayName p = displayName q ->
  displayNamePrintObject p = displayNamePrintObject q -> displayNamePosition p = displayNamePosition q ->
  displayAbbreviation p = displayAbbreviation q -> displayAbbreviationPrintObject p = displayAbbreviationPrintObject q ->
  displayAbbreviationPosition p = displayAbbreviationPosition q -> instrumentData p = instrumentData q -> p = q.
Proof. destruct p, q. cbn. intros -> -> -> -> -> -> -> -> -> ->. reflexivity. Qed.

Lemma said_or_not i : (instrument_said i \/ midi_said (midiData i) \/ device_said (midiData i)) \/
  (~ instrument_said i /\ ~ midi_said (midiData i) /\ ~ device_said (midiData i)).
Proof.
  pose proof (adds_instrument_iff i) as AI. pose proof (adds_midi_iff (midiData i)) as AM.
  destruct (adds_instrument i); [left; left; apply AI; reflexivity | ]. apply (false_iff false) in AI. destruct AI as [AI _]. specialize (AI eq_refl).
  destruct (adds_midi (midiData i)).
  - left. destruct (proj1 AM eq_refl) as [K | K]; auto.
  - right. apply (false_iff false) in AM. destruct AM as [AM _]. specialize (AM eq_refl). auto 6.
Qed.

Lemma returned_same next p q : part_fits p -> part_returned next p q -> same_part p q.
Proof.
  intros (F1 & F2 & F3 & F4 & F5 & F6 & F7 & F8 & F9 & F10 & F11 & F12 & F13 & F14 & F15 & F16 & F17)
    (R1 & R2 & R3 & R4 & R5 & R6 & R7 & R8 & R9 & B1 & B2 & B3).
  assert (M : same_midi (midiData (instrumentData p)) (midiData (instrumentData q))).
  { rewrite B3. unfold midi_kept, number_fits in *. rewrite !number_fits_kept by assumption. clear - F7 F8 F12 F13 F14.
    unfold same_midi. cbn [virtualLibrary virtualName device midiName bank channel program unpitched volume isVolumeSpecified pan isPanSpecified elevation isElevationSpecified].
    do 3 (split; [reflexivity | ]). split; [exact F7 | ]. do 3 (split; [reflexivity | ]). split; [exact F8 | ]. do 3 (split; [reflexivity | ]).
    split; [ | split].
    - destruct (isVolumeSpecified _); [destruct F12 as [_ X]; symmetry; exact X | exact F12].
    - destruct (isPanSpecified _); [destruct F13 as [_ X]; symmetry; exact X | exact F13].
    - destruct (isElevationSpecified _); [destruct F14 as [_ X]; symmetry; exact X | exact F14]. }
  assert (I : same_instrument (instrumentData p) (instrumentData q)).
  { destruct (said_or_not (instrumentData p)) as [D | (D1 & D2 & D3)].
    - destruct (B1 D) as (C1 & C2 & C3 & C4 & C5). specialize (F16 D).
      assert (C0 : instrumentId (instrumentData q) = instrumentId (instrumentData p)).
      { destruct C1 as [C1 _]. rewrite C1; [apply id_kept_same; exact F16 | ]. right. intros H. unfold an_id in F16. rewrite H in F16. discriminate F16. }
      assert (C6 : soundID (instrumentData q) = soundID (instrumentData p)).
      { rewrite C4. destruct (sound_cases (soundID (instrumentData p))) as [H | [H | (_ & H & _)]]; [rewrite H; exact eq_refl | contradiction (F15 H) | exact H]. }
      split; [symmetry; exact C0 | ]. split; [symmetry; exact C2 | ]. split; [symmetry; exact C3 | ]. split; [symmetry; exact C6 | ]. split; [symmetry; exact C5 | exact M].
    - destruct (B2 D1 D2 D3) as (C1 & C2 & C3 & C4 & C5). destruct (F17 D1 D2 D3) as [G1 G2].
      assert (G3 : instrumentName (instrumentData p) = [] /\ instrumentAbbreviation (instrumentData p) = [] /\ soloOrEnsemble (instrumentData p) = SoloUnspecified).
      { unfold instrument_said in D1. destruct (instrumentName (instrumentData p)); [ | exfalso; apply D1; left; discriminate].
        destruct (instrumentAbbreviation (instrumentData p)); [ | exfalso; apply D1; right; left; discriminate].
        destruct (soloOrEnsemble (instrumentData p)); [repeat split | exfalso; apply D1; right; right; left; discriminate | exfalso; apply D1; right; right; left; discriminate]. }
      destruct G3 as (G3 & G4 & G5). split; [congruence | ]. split; [congruence | ]. split; [congruence | ]. split; [congruence | ]. split; [congruence | exact M]. }
  rewrite (id_kept_same _ F1) in R1.
  assert (R5' : displayAbbreviation q = displayAbbreviation p).
  { rewrite R5. destruct F2 as [F2 | F2]; rewrite F2; [reflexivity | ]. destruct (displayName p); reflexivity. }
  unfold same_part. repeat (split; [congruence | ]). exact I.
Qed.

Lemma fits_sound next p : 0 <= next < 2 ^ 31 - 1 -> part_fits p -> part_sound next p.
Proof.
  intros N (_ & _ & _ & _ & _ & _ & _ & _ & _ & _ & _ & G1 & G2 & G3 & _). unfold number_fits in *.
  split; [ | split; [ | split; [ | exact N]]]; intros X; rewrite X in *; tauto.
Qed.

Lemma part_fits_back next p : 0 <= next < 2 ^ 31 - 1 -> part_fits p -> exists q, part_back next p = Ok q /\ same_part p q.
Proof.
  intros N F. destruct (part_back_exactly next p (fits_sound next p N F)) as (q & E & R). exists q. split; [exact E | ]. apply returned_same with next; assumption.
Qed.

(** ** The elements *)

Lemma said_in {C} t (c d : C) : In d (said t c) <-> d = c /\ t <> [].
Proof. destruct t; cbn; split; [tauto | intros [_ H]; contradiction H; reflexivity | intros [<- | []]; split; [reflexivity | discriminate] | intros [-> _]; left; reflexivity]. Qed.

Lemma if_in {C} (b : bool) (c d : C) : In d (if b then [c] else []) <-> d = c /\ b = true.
Proof. destruct b; cbn; split; [intros [<- | []]; auto | intros [-> _]; auto | tauto | intros [_ H]; discriminate H]. Qed.

Lemma sound_children s c : In (ISound c) (given ISound (write_sound s)) <-> instrumentMap_toApi c = s /\ s <> api_SoundID_unspecified.
Proof.
  destruct instrumentMap_converts as (C1 & _ & _ & _ & C5).
  assert (C1' : forall c, instrumentMap_toCore (instrumentMap_toApi c) = c) by (intros d; apply (C1 d); intros []).
  assert (L1 : forall d, instrumentMap_toApi d <> api_SoundID_errorBadString).
  { intros d H. destruct (C5 api_SoundID_errorBadString PlaybackSound_keyboardPiano) as [K1 K2]; [right; left; reflexivity | ].
    apply K2. rewrite <- H in K1. rewrite C1' in K1. rewrite <- K1. exact H. }
  destruct (sound_cases s) as [-> | [-> | (E1 & E2 & N1 & N2)]].
  - split; [intros [] | intros [_ H]; contradiction H; exact eq_refl].
  - split; [intros [] | intros [H _]; contradiction (L1 c H)].
  - rewrite E1. cbn [given In]. split.
    + intros [H | []]. injection H as <-. split; [apply sound_there; assumption | exact N1].
    + intros [<- _]. left. rewrite C1'. reflexivity.
Qed.

Lemma instrument_elements iid i : let m := midiData i in let c := stream_instrument (instrument_element iid i) in
  In (IName (instrumentName i)) c /\
  (forall t, In (IAbbreviation t) c <-> t = instrumentAbbreviation i /\ t <> []) /\
  (forall s, In (ISound s) c <-> instrumentMap_toApi s = soundID i /\ soundID i <> api_SoundID_unspecified) /\
  (In ISolo c <-> soloOrEnsemble i = Solo) /\ (In IEnsemble c <-> soloOrEnsemble i = Ensemble) /\
  (forall v, In (IVirtual v) c <-> v = said (virtualLibrary m) (VLibrary (virtualLibrary m)) ++ said (virtualName m) (VName (virtualName m)) /\ v <> []) /\
  ~ In IOther c.
Proof.
  intros m c. subst c. unfold stream_instrument, instrument_element.
  cbn [si_name si_abbreviation si_sound si_solo si_virtual]. rewrite said_given. fold m.
  assert (V : given (fun v => IVirtual (stream_virtual v)) (write_virtual m) =
     let v := said (virtualLibrary m) (VLibrary (virtualLibrary m)) ++ said (virtualName m) (VName (virtualName m)) in match v with [] => [] | _ => [IVirtual v] end).
  { unfold write_virtual, stream_virtual. destruct (virtualName m), (virtualLibrary m); reflexivity. }
  rewrite V. clear V. cbv zeta.
  set (v0 := said (virtualLibrary m) (VLibrary (virtualLibrary m)) ++ said (virtualName m) (VName (virtualName m))).
  set (vs := match v0 with [] => [] | _ => [IVirtual v0] end).
  set (so := given (fun s => match s with ChoiceSolo => ISolo | ChoiceEnsemble => IEnsemble end) (write_solo (soloOrEnsemble i))).
  set (sn := given ISound (write_sound (soundID i))).
  assert (HV : forall d, In d vs <-> d = IVirtual v0 /\ v0 <> []).
  { intros d. subst vs. destruct v0; cbn; split; [tauto | intros [_ H]; contradiction H; reflexivity | intros [<- | []]; split; [reflexivity | discriminate] | intros [-> _]; auto]. }
  assert (HS : forall d, In d so <-> (d = ISolo /\ soloOrEnsemble i = Solo) \/ (d = IEnsemble /\ soloOrEnsemble i = Ensemble)).
  { intros d. subst so. destruct (soloOrEnsemble i); cbn; split; intros H; repeat (destruct H as [H | H]); try (destruct H as [_ H]; discriminate H); try contradiction H; subst; auto;
      destruct H as [-> _]; auto. }
  assert (HN : forall d, In d sn -> exists s, d = ISound s).
  { intros d. subst sn. destruct (write_sound (soundID i)); cbn; [intros [<- | []]; eauto | intros []]. }
  split; [left; reflexivity | ].
  assert (IN : forall d, In d ([IName (instrumentName i)] ++ said (instrumentAbbreviation i) (IAbbreviation (instrumentAbbreviation i)) ++ sn ++ so ++ vs) <->
     d = IName (instrumentName i) \/ (d = IAbbreviation (instrumentAbbreviation i) /\ instrumentAbbreviation i <> []) \/ In d sn \/
     ((d = ISolo /\ soloOrEnsemble i = Solo) \/ (d = IEnsemble /\ soloOrEnsemble i = Ensemble)) \/ (d = IVirtual v0 /\ v0 <> [])).
  { intros d. rewrite !in_app_iff, said_in, HS, HV. cbn [In]. split; [intros [[H | []] | H]; [left; symmetry; exact H | right; exact H] | intros [-> | H]; [left; left; reflexivity | right; exact H]]. }
  assert (HC : forall s, In (ISound s) sn <-> instrumentMap_toApi s = soundID i /\ soundID i <> api_SoundID_unspecified) by (intros s; apply sound_children).
  clearbody so sn vs v0. clear HV HS.
  assert (NS : forall d, (forall s, d <> ISound s) -> ~ In d sn) by (intros d N H; destruct (HN d H) as [s E]; exact (N s E)).
  split; [ | split; [ | split; [ | split; [ | split]]]].
  - intros t. rewrite IN. split.
    + intros [H | [[H K] | [H | [[[H _] | [H _]] | [H _]]]]]; try discriminate H; [injection H as ->; split; [reflexivity | exact K] | ].
      exfalso. apply (NS (IAbbreviation t)); [discriminate | exact H].
    + intros [-> K]. right. left. split; [reflexivity | exact K].
  - intros s. rewrite IN, <- HC. split.
    + intros [H | [[H _] | [H | [[[H _] | [H _]] | [H _]]]]]; try discriminate H. exact H.
    + intros H. right. right. left. exact H.
  - rewrite IN. split.
    + intros [H | [[H _] | [H | [[[_ H] | [H _]] | [H _]]]]]; try discriminate H; [ | exact H]. exfalso. apply (NS ISolo); [discriminate | exact H].
    + intros H. right. right. right. left. left. split; [reflexivity | exact H].
  - rewrite IN. split.
    + intros [H | [[H _] | [H | [[[H _] | [_ H]] | [H _]]]]]; try discriminate H; [ | exact H]. exfalso. apply (NS IEnsemble); [discriminate | exact H].
    + intros H. right. right. right. left. right. split; [reflexivity | exact H].
  - intros v. rewrite IN. split.
    + intros [H | [[H _] | [H | [[[H _] | [H _]] | [H K]]]]]; try discriminate H; [exfalso; apply (NS (IVirtual v)); [discriminate | exact H] | ].
      injection H as ->. split; [reflexivity | exact K].
    + intros [-> K]. right. right. right. right. split; [reflexivity | exact K].
  - rewrite IN. intros [H | [[H _] | [H | [[[H _] | [H _]] | [H _]]]]]; try discriminate H. apply (NS IOther); [discriminate | exact H].
Qed.

Lemma given_if {A C} (f : A -> C) (b : bool) a : given f (if b then Some a else None) = if b then [f a] else [].
Proof. destruct b; reflexivity. Qed.

Lemma midi_elements id m : let c := stream_midi (midi_element id m) in
  (forall n, In (MChannel n) c <-> 0 <= channel m /\ n = number_kept 16 (channel m)) /\
  (forall n, In (MBank n) c <-> 0 <= bank m /\ n = number_kept 16384 (bank m)) /\
  (forall n, In (MProgram n) c <-> 0 <= program m /\ n = number_kept 128 (program m)) /\
  (forall x, In (MVolume x) c <-> isVolumeSpecified m = true /\ x = stored Percent (volume m)) /\
  (forall x, In (MPan x) c <-> isPanSpecified m = true /\ x = stored RotationDegrees (pan m)) /\
  (forall x, In (MElevation x) c <-> isElevationSpecified m = true /\ x = stored RotationDegrees (elevation m)) /\
  (forall t, ~ In (MName t) c) /\ (forall n, ~ In (MUnpitched n) c) /\ ~ In MOther c.
Proof.
  intros c. subst c. unfold stream_midi, midi_element.
  cbn [mi_channel mi_name mi_bank mi_program mi_unpitched mi_volume mi_pan mi_elevation]. rewrite !given_if. cbn [given app].
  generalize (number_kept 16 (channel m)) (number_kept 16384 (bank m)) (number_kept 128 (program m)) (stored Percent (volume m))
    (stored RotationDegrees (pan m)) (stored RotationDegrees (elevation m)). intros a1 a2 a3 a4 a5 a6.
  set (c := (if 0 <=? channel m then [MChannel a1] else []) ++ (if 0 <=? bank m then [MBank a2] else []) ++ (if 0 <=? program m then [MProgram a3] else []) ++
     (if isVolumeSpecified m then [MVolume a4] else []) ++ (if isPanSpecified m then [MPan a5] else []) ++ (if isElevationSpecified m then [MElevation a6] else [])).
  assert (IN : forall d, In d c <-> (d = MChannel a1 /\ 0 <= channel m) \/ (d = MBank a2 /\ 0 <= bank m) \/ (d = MProgram a3 /\ 0 <= program m) \/
     (d = MVolume a4 /\ isVolumeSpecified m = true) \/ (d = MPan a5 /\ isPanSpecified m = true) \/ (d = MElevation a6 /\ isElevationSpecified m = true)).
  { intros d. subst c. rewrite !in_app_iff, !if_in, !Z.leb_le. reflexivity. }
  clearbody c.
  repeat split; intros; repeat match goal with H : In _ c |- _ => apply IN in H | |- In _ c => apply IN | |- ~ In _ c => intros ? end;
    repeat match goal with H : In _ c |- _ => apply IN in H | H : _ \/ _ |- _ => destruct H as [H | H] | H : _ /\ _ |- _ => destruct H end; subst; try discriminate;
    try match goal with H : _ = _ |- _ => first [discriminate H | injection H as ->] end; auto 10.
Qed.

Lemma elements_written next p : part_sound next p ->
  exists x n iid, getScorePart next p = Ok (x, n) /\ sp_id x = id_kept (uniqueId p) /\ part_elements iid p (stream_part x) /\
    (instrument_said (instrumentData p) \/ midi_said (midiData (instrumentData p)) \/ device_said (midiData (instrumentData p)) ->
       instrument_id next (instrumentData p) iid) /\
    next_number next p n.
Proof.
  intros S. destruct (part_written next p S) as (iid & n & E & A & H & U1 & U2). exists (part_element iid p), n, iid.
  split; [exact E | ]. split; [reflexivity | ]. split; [ | split; [exact H | exact (conj U1 U2)]]. clear - E.
  unfold part_elements. cbv zeta. unfold stream_part, part_element. cbv zeta.
  cbn [sp_identification sp_name sp_namePrint sp_nameDisplay sp_abbreviation sp_abbreviationDisplay sp_groups sp_instruments sp_midi map app].
  set (i := instrumentData p). set (m := midiData i).
  exists (if adds_instrument i || adds_midi m then [PInstrument (Some iid) (stream_instrument (instrument_element iid i))] else []),
    (said (device m) (PDevice (device m))),
    (if has_midi_instrument m then [PMidi (Some (id_kept (instrumentId i))) (stream_midi (midi_element (id_kept (instrumentId i)) m))] else []).
  pose proof (adds_instrument_iff i) as AI. pose proof (adds_midi_iff m) as AM. pose proof (has_midi_iff m) as HM.
  split; [ | split; [ | split; [ | split; [reflexivity | split]]]].
  - f_equal. replace (given _ (option_map (fun t => [DisplayText t]) (when_non_empty (displayName p)))) with (said (displayName p) (PNameDisplay [DText (displayName p)])) by (destruct (displayName p); reflexivity).
    f_equal. replace (given _ (option_map (fun t => (t, Some YesNo_no)) (when_non_empty (abbreviation p)))) with (said (abbreviation p) (PAbbreviation (abbreviation p) (Some YesNo_no))) by (destruct (abbreviation p); reflexivity).
    f_equal. replace (given _ (option_map (fun t => [DisplayText t]) (when_non_empty (displayAbbreviation p)))) with (said (displayAbbreviation p) (PAbbreviationDisplay [DText (displayAbbreviation p)])) by (destruct (displayAbbreviation p); reflexivity).
    f_equal. f_equal.
    + destruct (adds_instrument i || adds_midi m)%bool; reflexivity.
    + unfold adds_midi in *. destruct (has_midi_instrument m), (device m) as [ | a b]; reflexivity.
  - intros K. replace (adds_instrument i || adds_midi m)%bool with true.
    + eexists. split; [reflexivity | ]. split; [apply instrument_strictly | ]. apply (instrument_elements iid i).
    + symmetry. rewrite orb_true_iff, AI, AM. clear - K. tauto.
  - intros K1 K2 K3. replace (adds_instrument i || adds_midi m)%bool with false; [reflexivity | ].
    symmetry. rewrite orb_false_iff, (false_iff _ _ AI), (false_iff _ _ AM). clear - K1 K2 K3. tauto.
  - intros K. apply HM in K. rewrite K. eexists. split; [reflexivity | ]. split; [apply midi_strictly | ]. apply midi_elements.
  - intros K. apply (false_iff _ _ HM) in K. rewrite K. reflexivity.
Qed.

(** ** All parts *)

Lemma sound_at n next p : part_sound n p -> 0 <= next < 2 ^ 31 - 1 -> part_sound next p.
Proof. intros (S1 & S2 & S3 & _) N. split; [exact S1 | split; [exact S2 | split; [exact S3 | exact N]]]. Qed.

Lemma part_returned_of next iid n p : part_sound next p -> getScorePart next p = Ok (part_element iid p, n) -> an_id iid ->
  part_returned next p (parseScorePart (part_element iid p)).
Proof.
  intros S E A. destruct (part_back_exactly next p S) as (q & B & R). unfold part_back in B. rewrite E in B.
  assert (X : Ok (parseScorePart (read_part (Some (sp_id (part_element iid p))) (stream_part (part_element iid p)))) = Ok q) by exact B.
  rewrite (part_read _ (element_whole iid p A)) in X. injection X as ->. exact R.
Qed.

Lemma all_written {A} (l : list (PartInfo * A)) : forall next, parts_sound next l ->
  exists xs, write_all next l = Ok (xs, music_written l) /\ List.length xs = List.length l /\
    Forall whole_part xs /\ forall music, (forall q, In q l -> exists b, music_of (id_kept (uniqueId (fst q))) music b) ->
      parts_returned music next l (reconcile xs music).
Proof.
  induction l as [ | [p a] l IH]; intros next (N1 & N2 & F).
  - exists []. split; [reflexivity | ]. split; [reflexivity | ]. split; [constructor | ]. intros music _. constructor.
  - inversion F as [ | ? ? [n0 S0] F']; subst. cbn [fst] in S0. cbn [List.length] in N2.
    pose proof (sound_at n0 next p S0 ltac:(lia)) as S.
    destruct (part_written next p S) as (iid & n & E & Ai & H & U1 & U2).
    assert (Nn : next <= n <= next + 1).
    { destruct (Z.eq_dec n next) as [ | D]; [lia | ]. destruct (Z.eq_dec n (next + 1)) as [ | D']; [lia | ]. exfalso. apply D. apply U2. intros U. apply D'. apply U1. exact U. }
    destruct (IH n) as (xs & W & L & Wh & R).
    { split; [lia | ]. split; [lia | exact F']. }
    exists (part_element iid p :: xs). cbn [write_all]. rewrite E, id_of_kept. cbn [obind fst snd]. rewrite W. cbn [omap fst snd].
    split; [reflexivity | ]. split; [cbn; rewrite L; reflexivity | ]. split; [constructor; [apply element_whole; exact Ai | exact Wh] | ].
    intros music M. cbn [reconcile flat_map]. fold (reconcile xs music).
    destruct (M (p, a)) as [b Mb]; [left; reflexivity | ]. cbn [fst] in Mb. pose proof Mb as Fb. apply found_music in Fb.
    change (sp_id (part_element iid p)) with (id_kept (uniqueId p)). rewrite Fb. cbn [app].
    apply returned_part with n; [apply part_returned_of with n; assumption | exact Mb | exact (conj U1 U2) | ].
    apply R. intros q I. apply M. right. exact I.
Qed.

Lemma rest_of_written xs : Forall whole_part xs -> rest_parts (map (fun x => LPart (Some (sp_id x)) (stream_part x)) xs) = xs.
Proof. induction 1 as [ | x xs W _ IH]; [reflexivity | ]. cbn [map rest_parts]. rewrite (part_read _ W), IH. reflexivity. Qed.

Lemma music_exists {A} (l : list (PartInfo * A)) q : In q l -> exists b, music_of (id_kept (uniqueId (fst q))) (music_written l) b.
Proof.
  unfold music_written, written_ids. induction l as [ | [p a] l IH]; intros I; [destruct I | ]. cbn [map fst combine snd].
  destruct I as [<- | I]; [exists a; constructor | ]. destruct (IH I) as [b M].
  destruct (list_eq_dec ascii_dec (id_kept (uniqueId p)) (id_kept (uniqueId (fst q)))) as [E | E].
  - rewrite E. exists a. constructor.
  - exists b. constructor; assumption.
Qed.

Lemma parts_back_any {A} (a0 : A) next l : l <> [] -> parts_sound next l ->
  exists s, parts_back a0 next l = Ok s /\ parts_returned (music_written l) next l s.
Proof.
  intros N S. destruct (all_written l next S) as (xs & W & L & Wh & R).
  exists (reconcile xs (music_written l)). split; [ | apply R; intros q I; apply music_exists; exact I].
  unfold parts_back, write_parts. destruct l as [ | q l]; [contradiction N; reflexivity | ]. rewrite W. cbn [omap obind fst snd]. f_equal. unfold read_parts.
  rewrite list_parts by (destruct xs as [ | x xs]; [discriminate L | left; exact I]). rewrite (rest_of_written _ Wh). f_equal.
  clear. assert (K : forall k : list (PartInfo * A), map (fun q => (read_id (fst q), snd q)) (map (fun q => (Some (fst q), snd q)) (music_written k)) = music_written k).
  { unfold music_written, written_ids. induction k as [ | [p a] k IH]; [reflexivity | ]. cbn [map fst snd combine]. rewrite IH.
    rewrite (read_id_same _ (id_kept_id _)). reflexivity. }
  symmetry. etransitivity; [symmetry; apply (K (q :: l)) | ]. reflexivity.
Qed.

Lemma music_unique {A} id (l : list (str * A)) a b : music_of id l a -> music_of id l b -> a = b.
Proof. intros H1 H2. apply found_music in H1, H2. rewrite H1 in H2. injection H2 as ->. reflexivity. Qed.

Lemma own_music {A} (l : list (PartInfo * A)) : NoDup (written_ids l) -> forall p a, In (p, a) l -> music_of (id_kept (uniqueId p)) (music_written l) a.
Proof.
  unfold music_written. induction l as [ | [p a] l IH]; intros D q b I; [destruct I | ]. inversion D as [ | ? ? D1 D2]; subst. cbn [written_ids map fst combine snd].
  destruct I as [E | I]; [injection E as -> ->; constructor | ]. constructor; [ | apply IH; assumption]. intros E. apply D1. cbn [fst] in E. rewrite E.
  apply in_map_iff. exists (q, b). split; [reflexivity | exact I].
Qed.

Lemma returned_music {A} music next (l s : list (PartInfo * A)) : parts_returned music next l s ->
  (forall p a, In (p, a) l -> music_of (id_kept (uniqueId p)) music a) -> map snd s = map snd l.
Proof.
  induction 1 as [ | next n p a q b r s R M N P IH]; intros O; [reflexivity | ]. cbn [map snd]. f_equal.
  - apply (music_unique _ _ _ _ M). apply O. left. reflexivity.
  - apply IH. intros p' a' I. apply O. right. exact I.
Qed.

Lemma parts_back_own {A} (a0 : A) next l : l <> [] -> parts_sound next l -> NoDup (written_ids l) ->
  exists s, parts_back a0 next l = Ok s /\ parts_returned (music_written l) next l s /\ map snd s = map snd l.
Proof.
  intros N S D. destruct (parts_back_any a0 next l N S) as (s & E & R). exists s. split; [exact E | ]. split; [exact R | ].
  apply (returned_music _ _ _ _ R). apply own_music. exact D.
Qed.

Lemma returned_fits {A} music next (l s : list (PartInfo * A)) : parts_returned music next l s ->
  (forall p a, In (p, a) l -> music_of (id_kept (uniqueId p)) music a) -> Forall (fun q => part_fits (fst q)) l ->
  Forall2 (fun q r => same_part (fst q) (fst r) /\ snd q = snd r) l s.
Proof.
  induction 1 as [ | next n p a q b r s R M N P IH]; intros O F; [constructor | ]. inversion F as [ | ? ? F1 F2]; subst. constructor.
  - cbn [fst snd] in *. split; [apply returned_same with next; assumption | ]. symmetry. apply (music_unique _ _ _ _ M). apply O. left. reflexivity.
  - apply IH; [intros p' a' I; apply O; right; exact I | exact F2].
Qed.

Lemma parts_kept {A} (a0 : A) next l : l <> [] -> 0 <= next -> next + Z.of_nat (List.length l) < 2 ^ 31 ->
  Forall (fun q => part_fits (fst q)) l -> NoDup (map (fun q => uniqueId (fst q)) l) ->
  exists s, parts_back a0 next l = Ok s /\ Forall2 (fun q r => same_part (fst q) (fst r) /\ snd q = snd r) l s.
Proof.
  intros N N1 N2 F D.
  assert (S : parts_sound next l).
  { split; [exact N1 | ]. split; [exact N2 | ]. eapply Forall_impl; [ | exact F]. intros q Fq. exists 0. apply fits_sound; [lia | exact Fq]. }
  assert (D' : NoDup (written_ids l)).
  { assert (X : written_ids l = map (fun q => uniqueId (fst q)) l); [ | rewrite X; exact D]. unfold written_ids. clear - F.
    induction F as [ | q l (Fq & _) _ IH]; [reflexivity | ]. cbn [map]. rewrite IH, (id_kept_same _ Fq). reflexivity. }
  destruct (parts_back_any a0 next l N S) as (s & E & R). exists s. split; [exact E | ]. apply (returned_fits _ _ _ _ R); [apply own_music; exact D' | exact F].
Qed.
