(** C60: clefs and keys. *)
From Coq Require Import List Ascii Bool String ZArith QArith Qabs Lia.
From Verif Require Import Model.Base Model.Text Model.CoreEnums Model.ApiEnums Model.ClefsKeys Spec.Numerals Spec.ClefKeyText Spec.ClefKeyExamples
  Proofs.ClefKeyProofs Proofs.KeyBack.
Import ListNotations.
Local Open Scope Z_scope.

(** ** Clefs *)

(** A clef that was just made is a treble clef, at the start of the measure and nowhere in
    particular; a key is one without accidentals, of no mode, for all staves. *)
Theorem C60_new : newClef = set_named Treble newClef /\ cf_symbol newClef = api_ClefSymbol_g /\ cf_line newClef = 2 /\ cf_octaveChange newClef = 0 /\
  cf_tick newClef = 0 /\ cf_location newClef = Location_unspecified /\
  ky_fifths newKey = 0 /\ ky_cancel newKey = 0 /\ ky_mode newKey = Mode_unspecified /\ ky_tick newKey = 0 /\ ky_staff newKey = -1 /\ ky_nonTraditional newKey = [].
Proof. repeat split. Qed.

(** A clef is written with its sign, its line unless that is negative, and its change of octave
    if there is one. *)
Theorem C60_clef_written staff c : clef_ok staff c -> clef_written staff c (stream_clef (write_clef staff c)).
Proof. exact (clef_is_written staff c). Qed.

(** Any <clef>, with whatever children in whatever order, is read for what it says. *)
Theorem C60_clef_read tick f : let (c, staff) := read_clef tick f in clef_said tick f c staff.
Proof. exact (clef_any tick f). Qed.

(** What comes back of a clef that is written and read. *)
Theorem C60_clef_back tick staff c : clef_ok staff c -> clef_back tick staff c = (kept_clef tick c, Z.max 0 staff).
Proof. exact (clef_is_back tick staff c). Qed.

(** The full statement, that every clef comes back as it was, is false: where it is at the
    barline is lost. *)
Theorem C60_clef_back_refuted : ~ (forall tick staff c, clef_ok staff c -> cf_tick c = tick -> fst (clef_back tick staff c) = c).
Proof. exact clef_back_refuted. Qed.

(** It holds of the others, but for those on a line below zero. *)
Theorem C60_clef_back_partial staff c : clef_ok staff c -> 0 <= cf_line c -> 0 <= staff ->
  cf_location c = (if cf_tick c =? 0 then Location_unspecified else Location_midMeasure) -> clef_back (cf_tick c) staff c = (c, staff).
Proof. exact (clef_fits_back staff c). Qed.

(** A clef that is given a name has that name and no other, and keeps its place. *)
Theorem C60_clef_named n c : is_named n (set_named n c) = true /\ cf_tick (set_named n c) = cf_tick c /\
  cf_location (set_named n c) = cf_location c /\ forall m, is_named m (set_named n c) = true -> m = n.
Proof. exact (named_set n c). Qed.

(** The names are not those of music: the clef with C on the first line is not a soprano clef. *)
Theorem C60_clef_names_refuted : ~ (forall n c, is_named n c = true <-> (cf_symbol c, cf_line c) = standard n /\ cf_octaveChange c = 0).
Proof. exact named_refuted. Qed.

(** But for soprano and mezzo-soprano they are. *)
Theorem C60_clef_names_partial n c : n <> Soprano -> n <> MezzoSoprano ->
  (is_named n c = true <-> (cf_symbol c, cf_line c) = standard n /\ cf_octaveChange c = 0).
Proof. exact (named_standard n c). Qed.

(** The text of a clef. It tells the sign, the line and the change of octave. *)
Theorem C60_clef_text_form c : exists line change, canonical_int line (cf_line c) /\ canonical_int change (cf_octaveChange c) /\
  clef_toString c = lit "Symbol " ++ symbol_word (cf_symbol c) ++ lit ", Line " ++ line ++ lit ", OctaveChange " ++ change.
Proof. exact (clef_text_is c). Qed.

Theorem C60_clef_text a b : clef_toString a = clef_toString b ->
  cf_symbol a = cf_symbol b /\ cf_line a = cf_line b /\ cf_octaveChange a = cf_octaveChange b.
Proof. exact (clef_text_inj a b). Qed.

(** ** Keys *)

(** A key is written as a traditional one if it has no components, else as those. *)
Theorem C60_key_written staff k : key_ok staff k -> exists x, write_key staff k = Ok x /\ key_written staff k (stream_key x).
Proof. exact (key_is_written staff k). Qed.

(** Any <key> whose last child of either kind is of the traditional kind is read as the
    traditional key it says. *)
Theorem C60_key_read tick staves f : traditional_key (fk_children f) -> exists k, read_key tick staves f = Ok k /\ key_said tick staves f k.
Proof. exact (key_any tick staves f). Qed.

(** Any other is read as the components it has in its rows. *)
Theorem C60_key_read_components tick staves f : ~ traditional_key (fk_children f) ->
  exists rows, key_rows (fk_children f) rows /\
    (Forall component_sized rows -> exists ks, read_key tick staves f = Ok (mkKeyData 0 0 Mode_unspecified 0 (-1) ks) /\ Forall2 component_said rows ks).
Proof. exact (non_traditional_any tick staves f). Qed.

(** What comes back of a key that is written and read. *)
Theorem C60_key_back tick staves staff k : key_ok staff k -> ky_nonTraditional k = [] ->
  key_back tick staves staff k = Ok (kept_traditional tick staves staff k).
Proof. exact (traditional_back tick staves staff k). Qed.

Theorem C60_key_back_components tick staves staff k : key_ok staff k -> ky_nonTraditional k <> [] ->
  exists l, key_back tick staves staff k = Ok (mkKeyData 0 0 Mode_unspecified 0 (-1) l) /\ Forall2 component_back (ky_nonTraditional k) l.
Proof. exact (components_back tick staves staff k). Qed.

(** The full statement, that every key comes back as it was, is false: the staff of a key made of
    components is lost. *)
Theorem C60_key_back_refuted : ~ (forall tick staves staff k, key_ok staff k -> ky_tick k = tick -> ky_staff k = staff -> staff < staves ->
  exists r, key_back tick staves staff k = Ok r /\ same_key r k).
Proof. exact key_back_refuted. Qed.

(** It holds of keys that say no more than what is kept. *)
Theorem C60_key_back_partial tick staves staff k : key_fits tick staves staff k ->
  exists r, key_back tick staves staff k = Ok r /\ same_key r k.
Proof. exact (key_fits_back tick staves staff k). Qed.

(** The hypotheses can be met. *)
Example C60_clef_met : clef_ok 1 vocal_tenor /\ 0 <= cf_line vocal_tenor /\
  cf_location vocal_tenor = (if cf_tick vocal_tenor =? 0 then Location_unspecified else Location_midMeasure).
Proof. unfold clef_ok, is_int. cbn. repeat split; lia. Qed.
Example C60_clef_example : stream_clef (write_clef 1 vocal_tenor) =
  mkFClef (Some 2) None [CkSign (lit "G"); CkLine (lit "2"); CkOctaveChange (lit "-1")].
Proof. vm_compute. reflexivity. Qed.
Example C60_odd_clef : read_clef 0 odd_clef = (mkClef api_ClefSymbol_f 4 0 0 Location_afterBarline, 1).
Proof. vm_compute. reflexivity. Qed.
Example C60_clef_text_example : clef_toString (set_named Soprano newClef) = lit "Symbol C, Line 0, OctaveChange 0".
Proof. vm_compute. reflexivity. Qed.

Example C60_key_met : key_fits 0 2 1 a_flat_minor.
Proof. unfold key_fits, key_ok, is_int. cbn. repeat split; first [lia | discriminate | constructor]. Qed.
Example C60_key_example : match write_key 1 a_flat_minor with
  | Ok x => stream_key x = mkFKey (Some 2) [KkCancel (lit "4"); KkFifths (lit "-7"); KkMode (lit "minor")] | _ => False end.
Proof. vm_compute. reflexivity. Qed.
Example C60_components_met : key_fits 0 2 (-1) quarter_tone_key.
Proof.
  unfold key_fits, key_ok, is_int. cbn [quarter_tone_key ky_fifths ky_cancel ky_mode ky_tick ky_staff ky_nonTraditional].
  split; [repeat split; first [lia | discriminate | repeat constructor; cbn; (lia || discriminate)] | ].
  split; [discriminate | ]. do 5 (split; [reflexivity | ]).
  constructor; [ | constructor; [ | constructor]]; (split; [discriminate | ]; split; [discriminate | ]; split; discriminate).
Qed.
Example C60_components_example : match write_key (-1) quarter_tone_key with
  | Ok x => stream_key x = mkFKey None [KkStep (lit "B"); KkAlter (lit "-0.5"); KkAccidental (lit "quarter-flat"); KkStep (lit "F"); KkAlter (lit "1")]
  | _ => False end.
Proof. vm_compute. reflexivity. Qed.
Example C60_odd_key_met : traditional_key (fk_children odd_key).
Proof. left. eexists [_; _; _; _; _; _], _, []. split; [reflexivity | ]. split; [reflexivity | constructor]. Qed.
Example C60_odd_key : read_key 24 2 odd_key = Ok (mkKeyData (-3) 0 Mode_unspecified 24 (-1) []).
Proof. vm_compute. reflexivity. Qed.
Example C60_two_rows_met : ~ traditional_key (fk_children two_rows).
Proof. apply (kind_component [_; _; _] [_; _; _; _; _]); [discriminate | repeat constructor]. Qed.
Example C60_two_rows : exists c, (c == -50)%Q /\ read_key 24 2 two_rows = Ok (mkKeyData 0 0 Mode_unspecified 0 (-1)
  [mkComponent api_Step_e (-1) c api_Accidental_flat; mkComponent api_Step_a 1 0 api_Accidental_none; mkComponent api_Step_a 0 0 api_Accidental_none]).
Proof. eexists. split; [ | vm_compute; reflexivity]. vm_compute. reflexivity. Qed.

Print Assumptions C60_new.
Print Assumptions C60_clef_written.
Print Assumptions C60_clef_read.
Print Assumptions C60_clef_back.
Print Assumptions C60_clef_back_refuted.
Print Assumptions C60_clef_back_partial.
Print Assumptions C60_clef_named.
Print Assumptions C60_clef_names_refuted.
Print Assumptions C60_clef_names_partial.
Print Assumptions C60_clef_text_form.
Print Assumptions C60_clef_text.
Print Assumptions C60_key_written.
Print Assumptions C60_key_read.
Print Assumptions C60_key_read_components.
Print Assumptions C60_key_back.
Print Assumptions C60_key_back_components.
Print Assumptions C60_key_back_refuted.
Print Assumptions C60_key_back_partial.
