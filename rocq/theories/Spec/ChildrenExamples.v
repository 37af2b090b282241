(** Examples of children. The number stands for what is in a child. *)
From Coq Require Import List String.
From Verif Require Import Model.Base Model.Text Spec.ContentModels.
Import ListNotations.

(** The children of these names, numbered from 1. *)
Definition named (l : list string) : list (str * nat) := combine (map lit l) (seq 1 (List.length l)).

Definition some_articulations := named ["accent"; "staccato"; "accent"; "other-articulation"]%string.
Definition wrong_articulations := named ["accent"; "fermata"]%string.
Definition some_technical := named ["up-bow"; "fingering"; "fingering"; "string"]%string.
Definition wrong_technical := named ["up-bow"; "accent"]%string.
Definition some_notations := named ["footnote"; "level"; "tied"; "slur"; "slur"; "tuplet"]%string.
Definition other_notations := named ["tied"; "other-notation"]%string.
Definition two_texts := named ["display-text"; "accidental-text"]%string.
Definition plain_arrow := named ["arrow-direction"; "arrow-style"]%string.
Definition circular_arrow := named ["circular-arrow"]%string.
Definition some_bend := named ["bend-alter"; "release"; "with-bar"]%string.
Definition some_harmonic := named ["artificial"; "touching-pitch"]%string.
Definition compound_time := named ["beats"; "beat-type"; "beats"; "beat-type"; "interchangeable"]%string.
Definition one_interchangeable := named ["time-relation"; "beats"; "beat-type"]%string.
Definition two_interchangeable := named ["beats"; "beat-type"; "beats"; "beat-type"]%string.
Definition major_key := named ["cancel"; "fifths"; "mode"; "key-octave"; "key-octave"]%string.
Definition strange_key := named ["key-step"; "key-alter"; "key-step"; "key-alter"; "key-accidental"; "key-octave"]%string.
Definition octaves_key := named ["key-octave"; "key-octave"]%string.
Definition two_chords := named ["root"; "kind"; "bass"; "degree"; "degree"; "function"; "kind"; "inversion"; "offset"; "level"; "staff"]%string.
Definition no_chord := named ["frame"; "staff"]%string.
Definition words_credit := named ["credit-type"; "credit-type"; "link"; "credit-words"; "credit-words"]%string.
Definition linked_credit := named ["credit-words"; "link"; "bookmark"; "credit-words"]%string.
Definition bare_credit := named ["credit-type"; "bookmark"]%string.
Definition two_syllables := named ["syllabic"; "text"; "elision"; "text"; "extend"; "end-line"]%string.
Definition second_syllabic := named ["syllabic"; "text"; "elision"; "syllabic"; "text"]%string.
Definition extend_end_line := named ["extend"; "end-line"]%string.
Definition level_lyric := named ["text"; "level"]%string.
