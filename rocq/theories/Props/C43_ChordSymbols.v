(* C43: chord symbols. *)
From Coq Require Import List Ascii String Bool ZArith QArith.
From Verif Require Import Model.Base Model.Text Model.Strings Model.LongDouble Model.EnumLookup Model.CoreEnums Model.ApiEnums.
From Verif Require Import Model.Notations Model.ChordSymbols Spec.Attachments Spec.ChordReading Proofs.ChordProofs.
Import ListNotations.
Open Scope Z_scope.

(** The property: what the symbols say survives a write and a read. It is false: a chord
    whose kind is unspecified becomes one of the kind "none" (and C43_back says what else
    changes). *)
Definition C43_claim : Prop :=
  forall offset staff chords, Forall chord_ok chords -> an_int offset -> every (fun i => 0 <= i < 2 ^ 31 - 1) staff ->
  exists back, chords_back offset staff chords = Ok (Some back) /\ Forall2 same_symbol back chords.

Theorem C43_symbols_refuted : ~ C43_claim.
Proof. exact symbols_refuted. Qed.
Print Assumptions C43_symbols_refuted.

(** It holds of chords that have a root and a kind, a text without superfluous blanks and
    no alteration of a bass that is not there. *)
Theorem C43_symbols_partial : forall offset staff chords, Forall chord_ok chords -> Forall complete chords -> an_int offset ->
  every (fun i => 0 <= i < 2 ^ 31 - 1) staff ->
  exists back, chords_back offset staff chords = Ok (Some back) /\ Forall2 same_symbol back chords.
Proof. exact kept_symbols. Qed.
Print Assumptions C43_symbols_partial.

(** What comes back of any chords, to the last member: every chord gets the misc data of
    all of them, and the position of the first. *)
Theorem C43_back : forall offset staff c r, Forall chord_ok (c :: r) -> an_int offset -> every (fun i => 0 <= i < 2 ^ 31 - 1) staff ->
  chords_back offset staff (c :: r) =
  Ok (Some (map (read_back (kept_position false true (chordPosition c)) (all_misc (c :: r))) (c :: r))).
Proof. exact chords_read. Qed.
Print Assumptions C43_back.

(** Two chords: F sharp minor seventh over E flat with an added ninth and without the
    fifth, and one with a text and misc data. *)
Example C43_meets :
  let a := mkChord api_Step_f 1 api_ChordKind_minorSeventh [] api_Bool_yes api_Step_e (-1)
             [mkExtension Ext_add Ext_sharp Ext_ninth api_Bool_no; mkExtension Ext_remove Ext_none Ext_fifth api_Bool_unspecified] []
             (mkPosition (Some (-5 # 2)) None None None api_HorizontalAlignment_left api_VerticalAlignment_unspecified api_Placement_above) in
  let b := mkChord api_Step_g 0 api_ChordKind_power (lit "G 5") api_Bool_no api_Step_unspecified 0 [] [(lit "app", lit "x=1")] noPosition in
  Forall chord_ok [a; b] /\ Forall complete [a; b] /\ all_misc [a; b] = [(lit "app", lit "x=1")].
Proof.
  cbv zeta. split; [ | split].
  - constructor; [ | constructor; [ | constructor]]; (split; [cbv; split; congruence | split; [cbv; split; congruence | ]]).
    + split; [split; [exists (-5)%Z, (-1)%Z; split; reflexivity | split; reflexivity] | repeat split].
    + repeat split.
  - constructor; [ | constructor; [ | constructor]]; (split; [discriminate | split; [discriminate | split; [reflexivity | ]]]); intros E; (discriminate E || reflexivity).
  - reflexivity.
Qed.

(** The element that is written says what the chords are. *)
Theorem C43_written : forall offset staff chords, chords <> [] -> Forall chord_ok chords -> an_int offset ->
  every (fun i => 0 <= i < 2 ^ 31 - 1) staff ->
  exists h, createHarmonyElements offset staff chords = Ok (Some h) /\
    Forall2 group_says chords (h_groups h) /\
    h_frame h = false /\
    match h_offset h with None => offset = 0 | Some q => offset <> 0 /\ (q == inject_Z offset)%Q end /\
    h_staff h = option_map Z.succ staff /\
    h_instructions h = all_misc chords /\
    forall c r, chords = c :: r -> getPositionData (h_position h) = kept_position false true (chordPosition c).
Proof. exact write_all. Qed.
Print Assumptions C43_written.

(** The direction that is read from it takes its placement from the first chord. *)
Theorem C43_direction : forall offset staff c r, Forall chord_ok (c :: r) -> an_int offset -> every (fun i => 0 <= i < 2 ^ 31 - 1) staff ->
  exists h, createHarmonyElements offset staff (c :: r) = Ok (Some h) /\
    direction_placement h = placement (chordPosition c) /\
    (direction_staff_specified h = true <-> staff <> None).
Proof. exact direction_read. Qed.
Print Assumptions C43_direction.

(** Finding: misc data spread to the other chords. *)
Definition C43_misc_claim : Prop :=
  forall offset staff chords, Forall chord_ok chords -> Forall complete chords -> an_int offset ->
  every (fun i => 0 <= i < 2 ^ 31 - 1) staff ->
  exists back, chords_back offset staff chords = Ok (Some back) /\ map miscData back = map miscData chords.

Theorem C43_misc_refuted : ~ C43_misc_claim.
Proof. exact misc_refuted. Qed.
Print Assumptions C43_misc_refuted.

(** Finding: the placements of all but the first chord are lost. *)
Definition C43_placement_claim : Prop :=
  forall offset staff chords, Forall chord_ok chords -> Forall complete chords -> an_int offset ->
  every (fun i => 0 <= i < 2 ^ 31 - 1) staff ->
  exists back, chords_back offset staff chords = Ok (Some back) /\
    map (fun c => placement (chordPosition c)) back = map (fun c => placement (chordPosition c)) chords.

Theorem C43_placement_refuted : ~ C43_placement_claim.
Proof. exact position_refuted. Qed.
Print Assumptions C43_placement_refuted.

(** ** Documents of other programs *)

(** The children of a harmony are read group by group, whatever their number; of several
    offsets or staffs the last counts. *)
Theorem C43_children : forall p is gs l, gs <> [] -> Forall normal gs -> forallb trailing l = true ->
  read_harmony p is (flat_map group_children gs ++ l) =
  Some (mkHarmony p gs (existsb (fun x => match x with CFrame => true | _ => false end) l) (last_offset l) (last_staff l) is).
Proof. exact children_back. Qed.
Print Assumptions C43_children.

(** Two groups, the first with a function, an inversion and degrees. *)
Example C43_children_meets :
  let g := mkGroup (Some (lit "II")) (g_root default_group) (mkKind KindValue_minor None None) (Some 1) None
             [mkDegree 9 (1 # 1) DegreeTypeValue_add None] in
  let g' := mkGroup None (mkXStep StepEnum_b (Some (-1 # 1))) (mkKind KindValue_power None (Some true)) None (Some (mkXStep StepEnum_f None)) [] in
  Forall normal [g; g'] /\ List.length (flat_map group_children [g; g'] ++ [COffset (1 # 1); CStaff 2]) = 9%nat.
Proof. split; [ | reflexivity]. constructor; [intros _; reflexivity | constructor; [intros F; contradiction F; reflexivity | constructor]]. Qed.

(** Without a root or a function, or if the kind does not follow it, reading fails. *)
Theorem C43_no_chord : forall p is l, forallb trailing l = true -> read_harmony p is l = None.
Proof. exact children_none. Qed.
Print Assumptions C43_no_chord.

Theorem C43_kind_missing : forall p is gs x rest, Forall normal gs ->
  match x with CRoot _ | CFunction _ => True | _ => False end ->
  match rest with CKind _ :: _ => False | _ => True end ->
  read_harmony p is (flat_map group_children gs ++ x :: rest) = None.
Proof. exact children_no_kind. Qed.
Print Assumptions C43_kind_missing.

(** A chord for every group with a root, none for those with a function; degrees without
    a number in the API are left out; alterations are rounded. *)
Theorem C43_document : forall h, Forall group_small (filter is_root (h_groups h)) ->
  exists l, parse_groups h = Ok l /\ Forall2 (group_read h) (filter is_root (h_groups h)) l.
Proof. exact groups_any. Qed.
Print Assumptions C43_document.

(** A group with a quarter tone and an eighth degree that is dropped. *)
Example C43_document_meets :
  let g := mkGroup None (mkXStep StepEnum_b (Some (-3 # 2))) (mkKind KindValue_other (Some (lit "h")) None) None None
             [mkDegree 8 (0 # 1) DegreeTypeValue_add None; mkDegree 11 (7 # 1) DegreeTypeValue_alter (Some false)] in
  group_small g /\ is_root g = true /\ map dg_value (filter has_ordinal (g_degrees g)) = [11].
Proof.
  split; [ | split; reflexivity].
  split; [split; discriminate | ]. split; [exact I | ]. constructor; [split; discriminate | constructor; [split; discriminate | constructor]].
Qed.

(** Extension::getAlterValue and setAlterValue. *)
Theorem C43_alter_values : forall a n,
  setAlterValue (getAlterValue a) = a /\ getAlterValue a = semitones a /\ alteration n (setAlterValue n).
Proof. exact alter_values. Qed.
Print Assumptions C43_alter_values.
