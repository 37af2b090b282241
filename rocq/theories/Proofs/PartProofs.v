(** Score-parts: their elements, and what is read of any file. *)
From Coq Require Import List Ascii Bool String ZArith QArith Lia Sorted Arith.
From Verif Require Import Model.Base Model.Text Model.Strings Model.Integers Model.Decimals Model.EnumLookup Model.CoreEnums Model.ApiEnums
  Model.SoundID Model.PlaybackSound Model.InstrumentTable Model.MeasureTypes Model.Notations Model.PartInfo
  Spec.XmlText Spec.Attachments Spec.PartReading Proofs.StringsProofs.
Import ListNotations.
Local Open Scope Z_scope.

(** ** Ids *)

Lemma id_of_kept t : id_of t = Ok (id_kept t).
Proof. unfold id_kept. destruct (id_chars t) as (u & E & _). rewrite E. reflexivity. Qed.

Lemma id_kept_id t : an_id (id_kept t).
Proof. unfold an_id. apply id_idempotent with t. apply id_of_kept. Qed.

Lemma id_kept_same t : an_id t -> id_kept t = t.
Proof. unfold an_id, id_kept. intros ->. reflexivity. Qed.

Lemma read_id_some t : read_id (Some t) = id_kept t.
Proof. unfold read_id. rewrite id_of_kept. reflexivity. Qed.

Lemma read_id_same t : an_id t -> read_id (Some t) = t.
Proof. intros A. rewrite read_id_some. apply id_kept_same, A. Qed.

(** ** Written elements, read *)

Lemma instrument_read x : an_id (si_id x) -> read_instrument (Some (si_id x)) (stream_instrument x) = x.
Proof.
  intros A. unfold read_instrument, stream_instrument. rewrite (read_id_same _ A). destruct x as [i n a s so v]. cbn [si_id si_name si_abbreviation si_sound si_solo si_virtual].
  destruct a, s, so as [[ | ] | ], v as [[[l | ] [m | ]] | ]; reflexivity.
Qed.

Lemma midi_read x : an_id (mi_id x) -> read_midi (Some (mi_id x)) (stream_midi x) = x.
Proof.
  intros A. unfold read_midi, stream_midi. rewrite (read_id_same _ A). destruct x as [i c n b p u v pn e].
  cbn [mi_id mi_channel mi_name mi_bank mi_program mi_unpitched mi_volume mi_pan mi_elevation].
  destruct c, n, b, p, u, v, pn, e; reflexivity.
Qed.

Lemma displays_read l : map read_display (map stream_display l) = l.
Proof. rewrite map_map. induction l as [ | d l IH]; [reflexivity | ]. cbn. rewrite IH. destruct d; reflexivity. Qed.

Lemma identifications_read l : forall p r x,
  read_part_children p (map PIdentification l ++ r) x =
  match l with [] => read_part_children p r x | _ =>
  read_part_children PrevOther r
    (mkXPart (sp_id x) (sp_identification x ++ l) (sp_name x) (sp_namePrint x) (sp_nameDisplay x) (sp_abbreviation x)
       (sp_abbreviationDisplay x) (sp_groups x) (sp_instruments x) (sp_midi x)) end.
Proof.
  induction l as [ | n l IH]; intros p r x; [reflexivity | ]. cbn [map app read_part_children]. rewrite IH. unfold add_identification. cbn.
  destruct l; [reflexivity | ]. rewrite <- app_assoc. reflexivity.
Qed.

Lemma groups_run l : forall r x,
  read_part_children PrevGroup (map PGroup l ++ r) x =
  read_part_children PrevGroup r
    (mkXPart (sp_id x) (sp_identification x) (sp_name x) (sp_namePrint x) (sp_nameDisplay x) (sp_abbreviation x)
       (sp_abbreviationDisplay x) (sp_groups x ++ l) (sp_instruments x) (sp_midi x)).
Proof.
  induction l as [ | n l IH]; intros r x.
  - cbn. rewrite app_nil_r. destruct x; reflexivity.
  - cbn [map app read_part_children]. rewrite IH. unfold add_group, add_run. cbn. rewrite <- app_assoc. reflexivity.
Qed.

Lemma groups_read l r x : sp_groups x = [] ->
  exists p, p <> PrevInstrument /\ read_part_children PrevOther (map PGroup l ++ r) x =
  read_part_children p r
    (mkXPart (sp_id x) (sp_identification x) (sp_name x) (sp_namePrint x) (sp_nameDisplay x) (sp_abbreviation x)
       (sp_abbreviationDisplay x) l (sp_instruments x) (sp_midi x)).
Proof.
  intros E. destruct l as [ | n l].
  - exists PrevOther. split; [discriminate | ]. cbn. rewrite <- E. destruct x; reflexivity.
  - exists PrevGroup. split; [discriminate | ]. cbn [map app read_part_children]. rewrite groups_run. unfold add_group, add_run. cbn. rewrite E. reflexivity.
Qed.

Definition streamed (i : xinstrument) : pchild := PInstrument (Some (si_id i)) (stream_instrument i).

Lemma instruments_run l : Forall (fun i => an_id (si_id i)) l -> forall r x,
  read_part_children PrevInstrument (map streamed l ++ r) x =
  read_part_children PrevInstrument r
    (mkXPart (sp_id x) (sp_identification x) (sp_name x) (sp_namePrint x) (sp_nameDisplay x) (sp_abbreviation x)
       (sp_abbreviationDisplay x) (sp_groups x) (sp_instruments x ++ l) (sp_midi x)).
Proof.
  induction 1 as [ | i l A _ IH]; intros r x.
  - cbn. rewrite app_nil_r. destruct x; reflexivity.
  - cbn [map app read_part_children streamed]. unfold streamed at 1. cbn [read_part_children]. rewrite (instrument_read _ A), IH. unfold add_instrument, add_run.
    cbn. rewrite <- app_assoc. reflexivity.
Qed.

Lemma instruments_read l p r x : Forall (fun i => an_id (si_id i)) l -> p <> PrevInstrument -> sp_instruments x = [] ->
  exists p', read_part_children p (map streamed l ++ r) x =
  read_part_children p' r
    (mkXPart (sp_id x) (sp_identification x) (sp_name x) (sp_namePrint x) (sp_nameDisplay x) (sp_abbreviation x)
       (sp_abbreviationDisplay x) (sp_groups x) l (sp_midi x)).
Proof.
  intros F N E. destruct l as [ | i l].
  - exists p. cbn. rewrite <- E. destruct x; reflexivity.
  - exists PrevInstrument. inversion F as [ | ? ? A F']; subst. cbn [map app read_part_children]. unfold streamed at 1. cbn [read_part_children].
    rewrite (instrument_read _ A), (instruments_run _ F'). unfold add_instrument, add_run. cbn. rewrite E.
    destruct p; [reflexivity | contradiction N; reflexivity | reflexivity].
Qed.

Lemma midis_read l : groups_apart l -> Forall (fun g => match mg_instrument g with Some m => an_id (mi_id m) | None => True end) l -> forall p x,
  read_part_children p (flat_map stream_group l) x =
    (mkXPart (sp_id x) (sp_identification x) (sp_name x) (sp_namePrint x) (sp_nameDisplay x) (sp_abbreviation x)
       (sp_abbreviationDisplay x) (sp_groups x) (sp_instruments x) (sp_midi x ++ l)).
Proof.
  induction l as [ | g l IH]; intros G F p x.
  - cbn. rewrite app_nil_r. destruct x; reflexivity.
  - inversion F as [ | ? ? A F']; subst. destruct G as (G1 & G2 & G3). specialize (IH G3 F').
    assert (K : forall q, read_part_children PrevOther (flat_map stream_group l) (add_midi g q) =
      mkXPart (sp_id q) (sp_identification q) (sp_name q) (sp_namePrint q) (sp_nameDisplay q) (sp_abbreviation q)
       (sp_abbreviationDisplay q) (sp_groups q) (sp_instruments q) (sp_midi q ++ g :: l)).
    { intros q. rewrite IH. unfold add_midi. cbn. rewrite <- app_assoc. reflexivity. }
    cbn [flat_map]. unfold stream_group at 1. destruct g as [[d | ] [m | ]]; cbn [mg_device mg_instrument given app read_part_children] in *.
    + rewrite (midi_read _ A). apply K.
    + rewrite <- K. destruct l as [ | h l]; [reflexivity | ]. cbn [flat_map]. unfold stream_group at 1 3. destruct h as [[d' | ] m'].
      * reflexivity.
      * contradiction G2. reflexivity.
    + rewrite (midi_read _ A). apply K.
    + destruct G1 as [G1 | G1]; contradiction G1; reflexivity.
Qed.

Lemma part_read x : whole_part x -> read_part (Some (sp_id x)) (stream_part x) = x.
Proof.
  intros (A & F1 & F2 & G). unfold read_part, stream_part. rewrite (read_id_same _ A).
  rewrite identifications_read. cbn [sp_id sp_identification sp_name sp_namePrint sp_nameDisplay sp_abbreviation sp_abbreviationDisplay sp_groups sp_instruments sp_midi app].
  set (y := mkXPart (sp_id x) (sp_identification x) [] None None None None [] [] []).
  assert (S1 : forall l, match sp_identification x with [] => read_part_children PrevOther l (mkXPart (sp_id x) [] [] None None None None [] [] [])
     | _ => read_part_children PrevOther l y end = read_part_children PrevOther l y).
  { intros l. unfold y. destruct (sp_identification x); reflexivity. }
  rewrite S1. subst y. clear S1. destruct x as [id ids nm np nd ab ad gr ins mid].
  cbn [sp_id sp_identification sp_name sp_namePrint sp_nameDisplay sp_abbreviation sp_abbreviationDisplay sp_groups sp_instruments sp_midi] in *.
  cbn [read_part_children app]. unfold add_name.
  cbn [sp_id sp_identification sp_name sp_namePrint sp_nameDisplay sp_abbreviation sp_abbreviationDisplay sp_groups sp_instruments sp_midi].
  replace (over np None) with np by (destruct np; reflexivity).
  assert (S2 : read_part_children PrevOther (given (fun l => PNameDisplay (map stream_display l)) nd ++
     given (fun q => PAbbreviation (fst q) (snd q)) ab ++ given (fun l => PAbbreviationDisplay (map stream_display l)) ad ++
     map PGroup gr ++ map streamed ins ++ flat_map stream_group mid) (mkXPart id ids nm np None None None [] [] []) =
     read_part_children PrevOther (map PGroup gr ++ map streamed ins ++ flat_map stream_group mid) (mkXPart id ids nm np nd ab ad [] [] [])).
  { destruct nd as [nd | ], ab as [[t o] | ], ad as [ad | ]; cbn [given app read_part_children];
      unfold add_nameDisplay, add_abbreviation, add_abbreviationDisplay, displayed; cbn; rewrite ?displays_read; try (destruct o; reflexivity); reflexivity. }
  fold streamed. etransitivity; [exact S2 | ]. clear S2.
  destruct (groups_read gr (map streamed ins ++ flat_map stream_group mid) (mkXPart id ids nm np nd ab ad [] [] []) eq_refl) as (p & N & ->).
  destruct (instruments_read ins p (flat_map stream_group mid) (mkXPart id ids nm np nd ab ad gr [] []) F1 N eq_refl) as (p' & E).
  etransitivity; [exact E | ]. rewrite (midis_read _ G F2). reflexivity.
Qed.

(** ** In the order of the format *)

Lemma sorted_app {C} (R : C -> C -> Prop) l1 l2 : StronglySorted R l1 -> StronglySorted R l2 ->
  (forall a b, In a l1 -> In b l2 -> R a b) -> StronglySorted R (l1 ++ l2).
Proof.
  induction 1 as [ | a l S IH F]; intros S2 H; [exact S2 | ]. cbn. constructor.
  - apply IH; [exact S2 | ]. intros x y Hx Hy. apply H; [right; exact Hx | exact Hy].
  - apply Forall_app. split; [exact F | ]. apply Forall_forall. intros y Hy. apply H; [left; reflexivity | exact Hy].
Qed.

Lemma same_rank {C} (rank : C -> Z) k l : Forall (fun c => rank c = k) l -> in_order rank l.
Proof.
  induction 1 as [ | a l E F IH]; constructor; [exact IH | ]. eapply Forall_impl; [ | exact F]. cbn. intros b Hb. lia.
Qed.

Lemma ranked_app {C} (rank : C -> Z) k l1 l2 : in_order rank l1 -> in_order rank l2 -> Forall (fun c => rank c <= k) l1 ->
  Forall (fun c => k <= rank c) l2 -> in_order rank (l1 ++ l2).
Proof.
  intros S1 S2 F1 F2. apply sorted_app; [exact S1 | exact S2 | ]. intros a b Ha Hb. rewrite Forall_forall in F1, F2. specialize (F1 _ Ha). specialize (F2 _ Hb). lia.
Qed.

Lemma given_all {A C} (P : C -> Prop) (f : A -> C) o : (forall a, P (f a)) -> Forall P (given f o).
Proof. intros H. destruct o; cbn; [constructor; [apply H | constructor] | constructor]. Qed.
Lemma map_all {A C} (P : C -> Prop) (f : A -> C) l : (forall a, P (f a)) -> Forall P (map f l).
Proof. intros H. induction l; cbn; constructor; [apply H | assumption]. Qed.

Ltac ranks := first [ apply Forall_app; split; ranks | apply given_all; intros; cbn; lia | apply map_all; intros; cbn; lia
  | constructor; [cbn; lia | ranks] | constructor ].

Lemma groups_rank l : Forall (fun c => part_rank c = 7) (flat_map stream_group l).
Proof.
  induction l as [ | g l IH]; [constructor | ]. cbn. apply Forall_app. split; [ | exact IH]. unfold stream_group.
  apply Forall_app; split; apply given_all; reflexivity.
Qed.

Lemma part_in_order x : in_order part_rank (stream_part x).
Proof.
  unfold stream_part. pose proof (groups_rank (sp_midi x)) as G. set (mid := flat_map stream_group (sp_midi x)) in *.
  assert (G' : forall k, k <= 7 -> Forall (fun c => k <= part_rank c) mid).
  { intros k K. eapply Forall_impl; [ | exact G]. cbn. lia. }
  set (ins := map (fun i => PInstrument (Some (si_id i)) (stream_instrument i)) (sp_instruments x)).
  assert (I : forall k, k <= 6 -> Forall (fun c => k <= part_rank c) (ins ++ mid)).
  { intros k K. apply Forall_app. split; [apply map_all; intros; cbn; lia | apply G'; lia]. }
  set (tl := map PGroup (sp_groups x) ++ ins ++ mid).
  assert (T : forall k, k <= 5 -> Forall (fun c => k <= part_rank c) tl).
  { intros k K. apply Forall_app. split; [apply map_all; intros; cbn; lia | apply I; lia]. }
  assert (T' : in_order part_rank tl).
  { apply ranked_app with 5; [apply same_rank with 5; apply map_all; reflexivity | | ranks | apply I; lia].
    apply ranked_app with 6; [apply same_rank with 6; apply map_all; reflexivity | apply same_rank with 7; exact G | ranks | apply G'; lia]. }
  apply ranked_app with 0; [apply same_rank with 0; apply map_all; reflexivity | | ranks | ].
  - apply ranked_app with 1; [apply same_rank with 1; ranks | | ranks | ].
    + apply ranked_app with 2; [apply same_rank with 2; apply given_all; reflexivity | | ranks | ].
      * apply ranked_app with 3; [apply same_rank with 3; apply given_all; reflexivity | | ranks | ].
        -- apply ranked_app with 4; [apply same_rank with 4; apply given_all; reflexivity | exact T' | ranks | apply T; lia].
        -- apply Forall_app. split; [ranks | apply T; lia].
      * repeat (apply Forall_app; split; [ranks | ]). apply G'; lia.
    + repeat (apply Forall_app; split; [ranks | ]). apply G'; lia.
  - repeat (apply Forall_app; split; [ranks | ]). apply G'; lia.
Qed.

Lemma instrument_strictly x : strictly instrument_rank (stream_instrument x).
Proof.
  unfold strictly, stream_instrument. destruct x as [i n a s so v]. cbn [si_name si_abbreviation si_sound si_solo si_virtual].
  destruct a, s, so as [[ | ] | ], v; cbn [given app]; repeat (constructor; [ | repeat (constructor; [cbn; lia | ]); constructor]); constructor.
Qed.

Lemma midi_strictly x : strictly midi_rank (stream_midi x).
Proof.
  unfold strictly, stream_midi. destruct x as [i c n b p u v pn e]. cbn [mi_channel mi_name mi_bank mi_program mi_unpitched mi_volume mi_pan mi_elevation].
  destruct c, n, b, p, u, v, pn, e; cbn [given app]; repeat (constructor; [ | repeat (constructor; [cbn; lia | ]); constructor]); constructor.
Qed.

Definition child_order (c : pchild) : Prop :=
  match c with PInstrument _ e => strictly instrument_rank e | PMidi _ e => strictly midi_rank e | _ => True end.

Lemma children_in_order x : Forall (fun c => match c with PInstrument _ e => strictly instrument_rank e | PMidi _ e => strictly midi_rank e | _ => True end) (stream_part x).
Proof.
  unfold stream_part. repeat (apply Forall_app; split); try (apply map_all; intros; exact I); try (apply given_all; intros; exact I).
  - repeat constructor.
  - apply map_all. intros i. apply instrument_strictly.
  - induction (sp_midi x) as [ | g l IH]; [constructor | ]. cbn. apply Forall_app. split; [ | exact IH]. unfold stream_group.
    apply Forall_app; split; apply given_all; intros; [exact I | apply midi_strictly].
Qed.

(** ** Any file *)

Lemma latest_app {C A} (f : C -> option A) l1 l2 : latest f (l1 ++ l2) = match latest f l2 with Some a => Some a | None => latest f l1 end.
Proof. induction l1 as [ | c l IH]; cbn; [destruct (latest f l2); reflexivity | ]. rewrite IH. destruct (latest f l2); [reflexivity | ]. reflexivity. Qed.

Lemma latest_map {C A B} (f : A -> B) (h : C -> option A) (k : C -> option B) l : (forall c, k c = option_map f (h c)) ->
  latest k l = option_map f (latest h l).
Proof. intros H. induction l as [ | c l IH]; [reflexivity | ]. cbn. rewrite IH, H. destruct (latest h l); reflexivity. Qed.

Lemma fold_latest {X C A} (step : X -> C -> X) (g : X -> A) (h : C -> option A) :
  (forall x c, g (step x c) = match h c with Some a => a | None => g x end) ->
  forall l x, g (fold_left step l x) = match latest h l with Some a => a | None => g x end.
Proof.
  intros H l. induction l as [ | c l IH]; intros x; [reflexivity | ]. cbn. rewrite IH, H. destruct (latest h l); [reflexivity | ]. destruct (h c); reflexivity.
Qed.

(** The same for values that are options. *)
Lemma fold_latest_option {X C A} (step : X -> C -> X) (g : X -> option A) (h : C -> option A) :
  (forall x c, g (step x c) = match h c with Some a => Some a | None => g x end) ->
  forall l x, g (fold_left step l x) = match latest h l with Some a => Some a | None => g x end.
Proof.
  intros H l. induction l as [ | c l IH]; intros x; [reflexivity | ]. cbn. rewrite IH, H. destruct (latest h l); [reflexivity | ]. destruct (h c); reflexivity.
Qed.

Lemma pairs_ind (P : list pchild -> Prop) : P [] -> (forall c r, P r -> (forall d s, r = d :: s -> P s) -> P (c :: r)) -> forall l, P l.
Proof.
  intros H0 H1 l. enough (P l /\ forall d s, l = d :: s -> P s) as [K _] by exact K.
  induction l as [ | c r [IH1 IH2]]; [split; [exact H0 | discriminate] | ]. split.
  - apply H1; [exact IH1 | exact IH2].
  - intros d s E. injection E as _ <-. exact IH1.
Qed.

(** A field that the children set one by one. *)
Lemma field {A} (g : xpart -> A) (h : pchild -> option A) :
  (forall n x, g (add_identification n x) = match h (PIdentification n) with Some a => a | None => g x end) ->
  (forall t o x, g (add_name t o x) = match h (PName t o) with Some a => a | None => g x end) ->
  (forall d x, g (add_nameDisplay d x) = match h (PNameDisplay d) with Some a => a | None => g x end) ->
  (forall t o x, g (add_abbreviation t o x) = match h (PAbbreviation t o) with Some a => a | None => g x end) ->
  (forall d x, g (add_abbreviationDisplay d x) = match h (PAbbreviationDisplay d) with Some a => a | None => g x end) ->
  (forall b t x, g (add_group b t x) = match h (PGroup t) with Some a => a | None => g x end) ->
  (forall b i c x, g (add_instrument b (read_instrument i c) x) = match h (PInstrument i c) with Some a => a | None => g x end) ->
  (forall m x, g (add_midi m x) = g x) -> (forall t, h (PDevice t) = None) -> (forall i c, h (PMidi i c) = None) -> h POther = None ->
  forall l p x, g (read_part_children p l x) = match latest h l with Some a => a | None => g x end.
Proof.
  intros H1 H2 H3 H4 H5 H6 H7 H8 H9 H10 H11 l.
  induction l as [ | c r IH1 IH2] using pairs_ind; intros p x; [reflexivity | ].
  destruct c; cbn [read_part_children latest]; try (rewrite IH1; first [rewrite H1 | rewrite H2 | rewrite H3 | rewrite H4 | rewrite H5 | rewrite H6 | rewrite H7];
    destruct (latest h r); [reflexivity | match goal with |- context [match h ?c with _ => _ end] => destruct (h c); reflexivity end]).
  - (* device *) rewrite H9. destruct r as [ | d s]; [cbn; apply H8 | ].
    specialize (IH2 d s eq_refl). destruct d; try (rewrite IH1, H8; match goal with |- _ = match (match ?u with _ => _ end) with _ => _ end => destruct u; reflexivity end).
    rewrite IH2, H8. cbn [latest]. rewrite H10. destruct (latest h s); reflexivity.
  - rewrite IH1, H8, H10. destruct (latest h r); reflexivity.
  - rewrite IH1, H11. destruct (latest h r); reflexivity.
Qed.

Lemma name_latest l p x : sp_name (read_part_children p l x) =
  match latest (fun c => match c with PName t _ => Some t | _ => None end) l with Some t => t | None => sp_name x end.
Proof. apply (field sp_name (fun c => match c with PName t _ => Some t | _ => None end)); reflexivity. Qed.

Definition abbreviated (x : xpart) : str := match sp_abbreviation x with Some q => fst q | None => [] end.
Lemma abbreviation_latest l p x : abbreviated (read_part_children p l x) =
  match latest (fun c => match c with PAbbreviation t _ => Some t | _ => None end) l with Some t => t | None => abbreviated x end.
Proof. apply (field abbreviated (fun c => match c with PAbbreviation t _ => Some t | _ => None end)); reflexivity. Qed.

Lemma id_latest l p x : sp_id (read_part_children p l x) = sp_id x.
Proof.
  rewrite (field sp_id (fun _ => None)); try reflexivity.
  replace (latest (fun _ : pchild => @None str) l) with (@None str); [reflexivity | ]. induction l as [ | c l IH]; [reflexivity | ]. cbn. rewrite <- IH. reflexivity.
Qed.

(** The display texts. *)
Definition shown (x : xpart) : str := extractDisplayText (match sp_nameDisplay x with Some l => l | None => [] end).

Lemma extract_app a b : extractDisplayText (a ++ b) = extractDisplayText a ++ extractDisplayText b.
Proof. unfold extractDisplayText. apply flat_map_app. Qed.

Lemma extract_read d : extractDisplayText (map read_display d) = List.concat (map shown_text d).
Proof.
  induction d as [ | c d IH]; [reflexivity | ]. cbn [map List.concat]. rewrite <- IH. unfold extractDisplayText. cbn [flat_map].
  destruct c; reflexivity.
Qed.

Lemma shown_add d x : shown (add_nameDisplay d x) = shown x ++ List.concat (map shown_text d).
Proof.
  unfold shown, add_nameDisplay, displayed. cbn [sp_nameDisplay]. rewrite extract_app, extract_read. reflexivity.
Qed.

Lemma shown_read l : forall p x, shown (read_part_children p l x) = shown x ++ List.concat (map name_shown l).
Proof.
  induction l as [ | c r IH1 IH2] using pairs_ind; intros p x; [cbn; rewrite app_nil_r; reflexivity | ].
  destruct c; cbn [read_part_children map name_shown List.concat]; try (rewrite IH1; cbn [app]; reflexivity).
  - rewrite IH1, shown_add, <- app_assoc. reflexivity.
  - destruct r as [ | d s]; [cbn; rewrite app_nil_r; reflexivity | ]. specialize (IH2 d s eq_refl).
    destruct d; try (rewrite IH1; reflexivity). rewrite IH2. reflexivity.
Qed.

Lemma display_there l : forall p x, sp_nameDisplay (read_part_children p l x) = None -> sp_nameDisplay x = None.
Proof.
  induction l as [ | c r IH1 IH2] using pairs_ind; intros p x; [auto | ].
  destruct c; cbn [read_part_children]; try (intros H; apply IH1 in H; exact H).
  - intros H. apply IH1 in H. discriminate H.
  - destruct r as [ | d s]; [intros H; exact H | ]. specialize (IH2 d s eq_refl).
    destruct d; try (intros H; apply IH1 in H; exact H). intros H; apply IH2 in H; exact H.
Qed.

Lemma names_dec c : {names_abbreviation c} + {~ names_abbreviation c}.
Proof. destruct c; cbn; auto. Qed.

Lemma abbreviation_display l : forall p x, sp_abbreviationDisplay (read_part_children p l x) = None <->
  sp_abbreviationDisplay x = None /\ ~ Exists names_abbreviation l.
Proof.
  induction l as [ | c r IH1 IH2] using pairs_ind; intros p x.
  - cbn. split; [intros H; split; [exact H | intros E; inversion E] | intros [H _]; exact H].
  - assert (K : forall y q, read_part_children p (c :: r) x = read_part_children q r y -> sp_abbreviationDisplay y = sp_abbreviationDisplay x ->
      ~ names_abbreviation c -> sp_abbreviationDisplay (read_part_children p (c :: r) x) = None <-> sp_abbreviationDisplay x = None /\ ~ Exists names_abbreviation (c :: r)).
    { intros y q -> E N. rewrite IH1, E, Exists_cons. tauto. }
    destruct c; try (first [ eapply (fun y => K y PrevOther); [reflexivity | reflexivity | intros F; exact F]
      | eapply (fun y => K y PrevGroup); [reflexivity | reflexivity | intros F; exact F]
      | eapply (fun y => K y PrevInstrument); [reflexivity | reflexivity | intros F; exact F]]).
    + cbn [read_part_children]. rewrite IH1, Exists_cons. cbn. split; [intros [H _]; discriminate H | intros [_ H]; contradiction H; left; exact I].
    + destruct r as [ | d s].
      * cbn. rewrite Exists_cons, Exists_nil. cbn. tauto.
      * specialize (IH2 d s eq_refl). destruct d; try (first [ eapply (fun y => K y PrevOther); [reflexivity | reflexivity | intros F; exact F]
      | eapply (fun y => K y PrevGroup); [reflexivity | reflexivity | intros F; exact F]
      | eapply (fun y => K y PrevInstrument); [reflexivity | reflexivity | intros F; exact F]]).
        cbn [read_part_children]. rewrite IH2, !Exists_cons. cbn. tauto.
Qed.

(** The instruments. *)
Definition read_pair (q : option str * list ichild) : xinstrument := read_instrument (fst q) (snd q).

Lemma join_map {A B} (f : A -> B) s r : map f (join_runs s r) = join_runs (map f s) (map f r).
Proof. unfold join_runs. rewrite map_length. destruct (List.length s =? 1)%nat; [reflexivity | apply map_app]. Qed.

Lemma fold_join_map {A B} (f : A -> B) rs : forall s, map f (fold_left join_runs rs s) = fold_left join_runs (map (map f) rs) (map f s).
Proof. induction rs as [ | r rs IH]; intros s; [reflexivity | ]. cbn. rewrite IH, join_map. reflexivity. Qed.

Lemma runs_nonempty l : Forall (fun r => r <> []) (instrument_runs l).
Proof.
  induction l as [ | c l IH]; [constructor | ]. destruct c; cbn; try exact IH. destruct (instrument_runs l) as [ | run rs]; [repeat constructor; discriminate | ].
  inversion IH; subst. destruct (starts_with_instrument l); repeat constructor; try discriminate; assumption.
Qed.

Lemma runs_start l : starts_with_instrument l = true -> exists run rs, instrument_runs l = run :: rs.
Proof.
  destruct l as [ | c l]; [discriminate | ]. destruct c; try discriminate. intros _. cbn. destruct (instrument_runs l) as [ | run rs]; [eauto | ].
  destruct (starts_with_instrument l); eauto.
Qed.

Definition runs_of (l : list pchild) : list (list xinstrument) := map (map read_pair) (instrument_runs l).

Lemma instruments_any l : forall p x,
  sp_instruments (read_part_children p l x) =
  if after_instrument p && starts_with_instrument l
  then match runs_of l with run :: rs => fold_left join_runs rs (sp_instruments x ++ run) | [] => [] end
  else fold_left join_runs (runs_of l) (sp_instruments x).
Proof.
  induction l as [ | c r IH1 IH2] using pairs_ind; intros p x.
  - cbn. rewrite andb_false_r. reflexivity.
  - assert (K : forall y q, read_part_children p (c :: r) x = read_part_children q r y -> sp_instruments y = sp_instruments x ->
      after_instrument q = false -> starts_with_instrument (c :: r) = false -> runs_of (c :: r) = runs_of r ->
      sp_instruments (read_part_children p (c :: r) x) = if after_instrument p && starts_with_instrument (c :: r)
        then match runs_of (c :: r) with run :: rs => fold_left join_runs rs (sp_instruments x ++ run) | [] => [] end
        else fold_left join_runs (runs_of (c :: r)) (sp_instruments x)).
    { intros y q -> E Q S R. rewrite IH1, E, Q, S, R. cbn [andb]. rewrite andb_false_r. reflexivity. }
    destruct c; try (first [ eapply (fun y => K y PrevOther); [reflexivity | reflexivity | reflexivity | reflexivity | reflexivity]
      | eapply (fun y => K y PrevGroup); [reflexivity | reflexivity | reflexivity | reflexivity | reflexivity]]).
    + (* instrument *) cbn [read_part_children starts_with_instrument]. rewrite IH1. cbn [after_instrument andb].
      unfold add_instrument. cbn [sp_instruments]. unfold runs_of. cbn [instrument_runs].
      change (read_instrument id l) with (read_pair (id, l)). set (a := read_pair (id, l)).
      assert (J : forall y (rest : list xinstrument), fold_left join_runs y (add_run (after_instrument p) a (sp_instruments x) ++ rest) =
        if after_instrument p && true then fold_left join_runs y (sp_instruments x ++ a :: rest)
        else fold_left join_runs y (join_runs (sp_instruments x) (a :: rest))).
      { intros y rest. unfold add_run, join_runs. destruct (after_instrument p); cbn [negb andb].
        - rewrite <- app_assoc. reflexivity.
        - destruct (List.length (sp_instruments x) =? 1)%nat; [reflexivity | ]. rewrite <- app_assoc. reflexivity. }
      destruct (starts_with_instrument r) eqn:S.
      * destruct (runs_start _ S) as (run & rs & E). rewrite E. cbn [map fold_left]. rewrite J. destruct (after_instrument p); reflexivity.
      * destruct (instrument_runs r) as [ | run rs].
        -- cbn [map fold_left]. rewrite <- (app_nil_r (add_run _ _ _)). pose proof (J [] []) as J'. cbn [fold_left] in J'. rewrite J'. destruct (after_instrument p); reflexivity.
        -- cbn [map fold_left]. rewrite <- (app_nil_r (add_run _ _ _)) at 1.
           pose proof (J (map read_pair run :: map (map read_pair) rs) []) as J'. cbn [fold_left] in J'. rewrite J'. destruct (after_instrument p); reflexivity.
    + (* device *) destruct r as [ | d s].
      * eapply (fun y => K y PrevOther); reflexivity.
      * specialize (IH2 d s eq_refl). destruct d; try (first [ eapply (fun y => K y PrevOther); [reflexivity | reflexivity | reflexivity | reflexivity | reflexivity]
      | eapply (fun y => K y PrevGroup); [reflexivity | reflexivity | reflexivity | reflexivity | reflexivity]]).
        cbn [read_part_children starts_with_instrument]. rewrite IH2. rewrite andb_false_r. cbn [after_instrument andb]. reflexivity.
Qed.

Lemma instruments_any_kept id l : sp_instruments (read_part id l) = map read_pair (instruments_kept l).
Proof.
  unfold read_part, instruments_kept. rewrite instruments_any, fold_join_map. reflexivity.
Qed.

(** The MIDI groups. *)
Lemma midi_grows l : forall p x, exists r, sp_midi (read_part_children p l x) = sp_midi x ++ r.
Proof.
  induction l as [ | c r IH1 IH2] using pairs_ind; intros p x; [exists []; cbn; rewrite app_nil_r; reflexivity | ].
  assert (M : forall q y m, exists s, sp_midi (read_part_children q y (add_midi m x)) = (sp_midi x ++ [m]) ++ s ->
     exists s, sp_midi (read_part_children q y (add_midi m x)) = sp_midi x ++ s).
  { intros q y m. eexists. intros ->. rewrite <- app_assoc. eauto. Unshelve. exact []. }
  destruct c; cbn [read_part_children]; try (match goal with |- context [read_part_children ?q r ?y] => destruct (IH1 q y) as [s ->] end;
    cbn [add_midi sp_midi]; rewrite <- ?app_assoc; eexists; reflexivity).
  destruct r as [ | d s]; [eexists; reflexivity | ]. specialize (IH2 d s eq_refl).
  destruct d; match goal with
  | |- context [read_part_children ?q (?d :: s) ?y] => destruct (IH1 q y) as [v ->]
  | |- context [read_part_children ?q s ?y] => destruct (IH2 q y) as [v ->] end;
    cbn [add_midi sp_midi]; rewrite <- ?app_assoc; eexists; reflexivity.
Qed.

Definition as_group (q : option str * option xmidi) : option midi_group :=
  match q with (None, None) => None | (d, m) => Some (mkMidiGroup d m) end.

Lemma midi_first l : forall p x, sp_midi x = [] ->
  match hd_error (sp_midi (read_part_children p l x)) with
  | None => first_midi l = (None, None)
  | Some g => fst (first_midi l) = mg_device g /\
      match snd (first_midi l) with Some c => exists i, mg_instrument g = Some (read_midi i c) | None => mg_instrument g = None end
  end.
Proof.
  induction l as [ | c r IH1 IH2] using pairs_ind; intros p x E; [cbn; rewrite E; reflexivity | ].
  assert (H : forall q y m, hd_error (sp_midi (read_part_children q y (add_midi m x))) = Some m).
  { intros q y m. destruct (midi_grows y q (add_midi m x)) as [s ->]. unfold add_midi. cbn [sp_midi]. rewrite E. reflexivity. }
  destruct c; cbn [read_part_children first_midi]; try (apply IH1; exact E).
  - destruct r as [ | d s]; [cbn; rewrite E; split; reflexivity | ].
    destruct d; rewrite H; cbn; (split; [reflexivity | ]); first [reflexivity | eexists; reflexivity].
  - rewrite H. cbn. split; [reflexivity | eexists; reflexivity].
Qed.

(** The answer. *)
Lemma well_iff id l : part_ok id l = true <-> part_well id l.
Proof.
  unfold part_ok, part_well. rewrite andb_true_iff, forallb_forall, Forall_forall. split; intros [H1 H2]; split.
  - destruct id; [discriminate | discriminate H1].
  - intros c I. specialize (H2 c I). destruct c; cbn in H2 |- *; try exact Logic.I.
    + rewrite forallb_forall in H2. intros J. specialize (H2 _ J). discriminate H2.
    + rewrite forallb_forall in H2. intros J. specialize (H2 _ J). discriminate H2.
    + unfold instrument_ok in H2. rewrite andb_true_iff, existsb_exists in H2. destruct H2 as [H2 (e & I' & K)]. split; [destruct id0; [discriminate | discriminate H2] | ].
      destruct e; try discriminate K. eauto.
    + destruct id0; [discriminate | discriminate H2].
  - destruct id; [reflexivity | contradiction H1; reflexivity].
  - intros c I. specialize (H2 c I). destruct c; cbn in H2 |- *; try reflexivity.
    + apply forallb_forall. intros d J. destruct d; [reflexivity | reflexivity | contradiction].
    + apply forallb_forall. intros d J. destruct d; [reflexivity | reflexivity | contradiction].
    + destruct H2 as [H2 [t K]]. unfold instrument_ok. rewrite andb_true_iff, existsb_exists. split; [destruct id0; [reflexivity | contradiction H2; reflexivity] | ].
      exists (IName t). split; [exact K | reflexivity].
    + destruct id0; [reflexivity | contradiction H2; reflexivity].
Qed.

(** An instrument and its MIDI data. *)
Definition library_of (x : xinstrument) : option str := match si_virtual x with Some v => vi_library v | None => None end.
Definition name_of (x : xinstrument) : option str := match si_virtual x with Some v => vi_name v | None => None end.

Lemma library_latest l : forall x, library_of (fold_left read_instrument_child l x) =
  match latest (fun c => match c with VLibrary t => Some t | _ => None end) (List.concat (map virtuals l)) with Some t => Some t | None => library_of x end.
Proof.
  induction l as [ | c l IH]; intros x; [reflexivity | ]. cbn [fold_left map List.concat]. rewrite IH, latest_app.
  destruct (latest _ (List.concat (map virtuals l))); [reflexivity | ]. destruct c; cbn [virtuals latest]; try reflexivity.
  unfold library_of at 1. cbn [read_instrument_child si_virtual].
  rewrite (fold_latest_option read_virtual_child vi_library (fun c => match c with VLibrary t => Some t | _ => None end)); [ | intros y [ | | ]; reflexivity].
  destruct (latest _ l0); [reflexivity | ]. unfold library_of. destruct (si_virtual x); reflexivity.
Qed.

Lemma vname_latest l : forall x, name_of (fold_left read_instrument_child l x) =
  match latest (fun c => match c with VName t => Some t | _ => None end) (List.concat (map virtuals l)) with Some t => Some t | None => name_of x end.
Proof.
  induction l as [ | c l IH]; intros x; [reflexivity | ]. cbn [fold_left map List.concat]. rewrite IH, latest_app.
  destruct (latest _ (List.concat (map virtuals l))); [reflexivity | ]. destruct c; cbn [virtuals latest]; try reflexivity.
  unfold name_of at 1. cbn [read_instrument_child si_virtual].
  rewrite (fold_latest_option read_virtual_child vi_name (fun c => match c with VName t => Some t | _ => None end)); [ | intros y [ | | ]; reflexivity].
  destruct (latest _ l0); [reflexivity | ]. unfold name_of. destruct (si_virtual x); reflexivity.
Qed.

Lemma text_latest o : text_or_empty o = or_empty o.
Proof. destruct o; reflexivity. Qed.

Lemma midi_document v g c i lib nm dev :
  or_empty (match v with Some v => vi_library v | None => None end) = lib -> or_empty (match v with Some v => vi_name v | None => None end) = nm ->
  match g with Some g => or_empty (mg_device g) | None => [] end = dev ->
  match g with Some g => match mg_instrument g with Some i => i | None => new_midi end | None => new_midi end = match c with Some c => read_midi i c | None => new_midi end ->
  let m := parse_midi v g in
  let c := match c with Some c => c | None => [] end in
  virtualLibrary m = lib /\ virtualName m = nm /\ device m = dev /\
  midiName m = text_or_empty (latest (fun x => match x with MName t => Some t | _ => None end) c) /\
  bank m = number_or_none (latest (fun x => match x with MBank n => Some n | _ => None end) c) /\
  channel m = number_or_none (latest (fun x => match x with MChannel n => Some n | _ => None end) c) /\
  program m = number_or_none (latest (fun x => match x with MProgram n => Some n | _ => None end) c) /\
  unpitched m = number_or_none (latest (fun x => match x with MUnpitched n => Some n | _ => None end) c) /\
  let vol := latest (fun x => match x with MVolume q => Some q | _ => None end) c in
  let pn := latest (fun x => match x with MPan q => Some q | _ => None end) c in
  let el := latest (fun x => match x with MElevation q => Some q | _ => None end) c in
  volume m = value_or_zero vol /\ isVolumeSpecified m = there vol /\ pan m = value_or_zero pn /\ isPanSpecified m = there pn /\
  elevation m = value_or_zero el /\ isElevationSpecified m = there el.
Proof.
  intros H1 H2 H3 H4 m c'. subst m. cbv zeta. unfold parse_midi. cbv zeta. rewrite H4. clear H4.
  set (mi := match c with Some c0 => read_midi i c0 | None => new_midi end).
  cbn [virtualLibrary virtualName device midiName bank channel program unpitched volume isVolumeSpecified pan isPanSpecified elevation isElevationSpecified].
  assert (F : forall {A} (pr : xmidi -> option A) h, (forall x e, pr (read_midi_child x e) = match h e with Some a => Some a | None => pr x end) ->
     (forall j, pr (mkXMidi j None None None None None None None None) = None) -> pr mi = latest h c').
  { intros A pr h S N. subst mi c'. destruct c as [c | ]; [ | cbn; apply N]. unfold read_midi. rewrite (fold_latest_option read_midi_child pr h S).
    rewrite N. destruct (latest h c); reflexivity. }
  rewrite (F _ mi_name (fun x => match x with MName t => Some t | _ => None end)) by (try reflexivity; intros x [ | | | | | | | | ]; reflexivity).
  rewrite (F _ mi_bank (fun x => match x with MBank t => Some t | _ => None end)) by (try reflexivity; intros x [ | | | | | | | | ]; reflexivity).
  rewrite (F _ mi_channel (fun x => match x with MChannel t => Some t | _ => None end)) by (try reflexivity; intros x [ | | | | | | | | ]; reflexivity).
  rewrite (F _ mi_program (fun x => match x with MProgram t => Some t | _ => None end)) by (try reflexivity; intros x [ | | | | | | | | ]; reflexivity).
  rewrite (F _ mi_unpitched (fun x => match x with MUnpitched t => Some t | _ => None end)) by (try reflexivity; intros x [ | | | | | | | | ]; reflexivity).
  rewrite (F _ mi_volume (fun x => match x with MVolume t => Some t | _ => None end)) by (try reflexivity; intros x [ | | | | | | | | ]; reflexivity).
  rewrite (F _ mi_pan (fun x => match x with MPan t => Some t | _ => None end)) by (try reflexivity; intros x [ | | | | | | | | ]; reflexivity).
  rewrite (F _ mi_elevation (fun x => match x with MElevation t => Some t | _ => None end)) by (try reflexivity; intros x [ | | | | | | | | ]; reflexivity).
  repeat split.
  - rewrite <- H1. destruct v; reflexivity.
  - rewrite <- H2. destruct v; reflexivity.
  - exact H3.
Qed.

Lemma instrument_document o g c i : 
  match g with Some g => match mg_instrument g with Some i => i | None => new_midi end | None => new_midi end = match snd c with Some c => read_midi i c | None => new_midi end ->
  match g with Some g => or_empty (mg_device g) | None => [] end = or_empty (fst c) ->
  let j := parse_instrument (option_map read_pair o) g in
  instrument_said_by o j /\ midi_said_by (List.concat (map virtuals (match o with Some q => snd q | None => [] end))) c (midiData j).
Proof.
  intros H1 H2 j. destruct o as [[id l] | ].
  - assert (L : forall {A} (pr : xinstrument -> option A) h, (forall x e, pr (read_instrument_child x e) = match h e with Some a => Some a | None => pr x end) ->
       (forall i, pr (mkXInstrument i [] None None None None) = None) -> pr (read_instrument id l) = latest h l).
    { intros A pr h S N. unfold read_instrument. rewrite (fold_latest_option read_instrument_child pr h S), N. destruct (latest h l); reflexivity. }
    assert (Id : forall k x, si_id (fold_left read_instrument_child k x) = si_id x).
    { induction k as [ | e k IH]; intros x; [reflexivity | ]. cbn. rewrite IH. destruct e; reflexivity. }
    subst j. split.
    + cbn [option_map parse_instrument]. unfold read_pair. cbn [fst snd]. unfold instrument_said_by.
      cbn [instrumentId instrumentName instrumentAbbreviation soundID soloOrEnsemble snd]. repeat split.
      * unfold read_instrument. rewrite Id. cbn [si_id]. destruct id; [apply read_id_some | reflexivity].
      * unfold read_instrument. rewrite (fold_latest read_instrument_child si_name (fun x => match x with IName t => Some t | _ => None end)); [reflexivity | ].
        intros x [ | | | | | | ]; reflexivity.
      * rewrite (L _ si_abbreviation (fun x => match x with IAbbreviation t => Some t | _ => None end)); [reflexivity | intros x [ | | | | | | ]; reflexivity | reflexivity].
      * rewrite (L _ si_sound (fun x => match x with ISound t => Some t | _ => None end)); [reflexivity | intros x [ | | | | | | ]; reflexivity | reflexivity].
      * rewrite (L _ si_solo (fun x => match x with ISolo => Some ChoiceSolo | IEnsemble => Some ChoiceEnsemble | _ => None end));
          [ | intros x [ | | | | | | ]; reflexivity | reflexivity].
        rewrite (latest_map (fun s => match s with ChoiceSolo => Solo | ChoiceEnsemble => Ensemble end)
          (fun x => match x with ISolo => Some ChoiceSolo | IEnsemble => Some ChoiceEnsemble | _ => None end)
          (fun x => match x with ISolo => Some Solo | IEnsemble => Some Ensemble | _ => None end)) by (intros [ | | | | | | ]; reflexivity).
        destruct (latest _ l) as [[ | ] | ]; reflexivity.
    + cbn [option_map parse_instrument midiData]. unfold midi_said_by. unfold read_pair. cbn [fst snd].
      apply (midi_document _ _ (snd c) i); [ | | exact H2 | exact H1].
      * pose proof (library_latest l (mkXInstrument (read_id id) [] None None None None)) as E. unfold library_of in E at 1. unfold read_instrument. rewrite E.
        destruct (latest _ _); reflexivity.
      * pose proof (vname_latest l (mkXInstrument (read_id id) [] None None None None)) as E. unfold name_of in E at 1. unfold read_instrument. rewrite E.
        destruct (latest _ _); reflexivity.
  - subst j. cbn [option_map parse_instrument]. split; [repeat split | ].
    apply (midi_document None _ (snd c) i); [reflexivity | reflexivity | exact H2 | exact H1].
Qed.
