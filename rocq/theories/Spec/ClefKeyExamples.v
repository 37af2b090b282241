(** Clefs and keys that meet the hypotheses of C60. *)
From Coq Require Import List Ascii Bool String ZArith QArith Qabs.
From Verif Require Import Model.Base Model.Text Model.CoreEnums Model.ApiEnums Model.ClefsKeys Spec.ClefKeyText.
Import ListNotations.
Local Open Scope Z_scope.

(** A tenor voice's treble clef, an octave lower, in the middle of a measure. *)
Definition vocal_tenor : ClefData := mkClef api_ClefSymbol_g 2 (-1) 48 Location_midMeasure.
(** A clef in a file: a second sign and a line that is not a number. *)
Definition odd_clef : fclef :=
  mkFClef (Some 2) (Some YesNo_yes) [CkLine (lit " 4 "); CkSign (lit "G"); CkOther; CkLine (lit "four"); CkSign (lit "F")].

(** A flat minor that cancels four sharps. *)
Definition a_flat_minor : KeyData := mkKeyData (-7) 4 Mode_minor 0 1 [].
(** B a quarter tone flat, F sharp. *)
Definition quarter_tone_key : KeyData :=
  mkKeyData 0 0 Mode_unspecified 0 (-1)
    [mkComponent api_Step_b 0 (-50 # 1) api_Accidental_quarterFlat; mkComponent api_Step_f 1 0 api_Accidental_none].
(** A key in a file with everything in it: the fifths are the last to count. *)
Definition odd_key : fkey :=
  mkFKey (Some 3) [KkStep (lit "B"); KkAlter (lit "-1"); KkMode (lit "minor"); KkFifths (lit "-3"); KkFifths (lit "x"); KkOctave; KkMode (lit "dorian")].
(** Two rows of components. *)
Definition two_rows : fkey :=
  mkFKey (Some 1) [KkStep (lit "B"); KkAlter (lit "-1"); KkOctave; KkStep (lit "E"); KkAlter (lit "-1.5"); KkAccidental (lit "flat"); KkAlter (lit "1"); KkStep (lit "H")].
