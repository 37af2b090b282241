(** The children MusicXML allows in a metronome, a time-modification and others, and examples. *)
From Coq Require Import List String Bool.
From Verif Require Import Model.Base Model.Text Model.ElementReading Model.ElementGroups Spec.ContentModels.
Import ListNotations.
Local Open Scope list_scope.

(** Documents/musicxml.xsd, the types of these names. *)
Definition beat_unit_content : content := Sequence [Element "beat-unit"; Many (Element "beat-unit-dot")].
Definition metronome_marks_content : content := Sequence [beat_unit_content; Choice [Element "per-minute"; beat_unit_content]].
Definition metronome_content : content :=
  Choice [metronome_marks_content;
          Sequence [Some_of (Element "metronome-note"); Optional (Sequence [Element "metronome-relation"; Some_of (Element "metronome-note")])]].
Definition time_modification_content : content :=
  Sequence [Element "actual-notes"; Element "normal-notes"; Optional (Sequence [Element "normal-type"; Many (Element "normal-dot")])].
Definition measure_style_content : content := one_of ["multiple-rest"; "measure-repeat"; "beat-repeat"; "slash"]%string.
Definition percussion_content : content :=
  one_of ["glass"; "metal"; "wood"; "pitched"; "membrane"; "effect"; "timpani"; "beater"; "stick"; "stick-location"; "other-percussion"]%string.
Definition play_content : content := Many (one_of ["ipa"; "mute"; "semi-pitched"; "other-play"]%string).
(** rest and unpitched *)
Definition display_content : content := Sequence [Optional (Sequence [Element "display-step"; Element "display-octave"])].
Definition standard_dynamics : list string :=
  ["p"; "pp"; "ppp"; "pppp"; "ppppp"; "pppppp"; "f"; "ff"; "fff"; "ffff"; "fffff"; "ffffff"; "mp"; "mf"; "sf"; "sfp"; "sfpp"; "fp"; "rf"; "rfz"; "sfz"; "sffz"; "fz"]%string.
Definition dynamics_content : content := Many (one_of (standard_dynamics ++ ["other-dynamics"]%string)).

(** All children can be read; one cannot. *)
Definition all_readable {A} (good : A -> bool) (l : list (str * A)) : Prop := Forall (fun p => good (snd p) = true) l.
Definition one_unreadable {A} (good : A -> bool) (l : list (str * A)) : Prop := Exists (fun p => good (snd p) = false) l.

Definition named {A} (n : string) (l : list A) : list (str * A) := map (fun a => (lit n, a)) l.

(** ** Examples *)
Definition dotted_quarter_equals_half : list (str * nat) :=
  [(lit "beat-unit", 1); (lit "beat-unit-dot", 2); (lit "beat-unit-dot", 3); (lit "beat-unit", 4); (lit "beat-unit-dot", 5)].
Definition quarter_120 : list (str * nat) := [(lit "beat-unit", 1); (lit "per-minute", 2)].
Definition swing : list (str * nat) :=
  named "metronome-note" [1; 2] ++ [(lit "metronome-relation", 3)] ++ named "metronome-note" [4; 5].
Definition triplet : list (str * nat) := [(lit "actual-notes", 3); (lit "normal-notes", 2); (lit "normal-type", 8); (lit "normal-dot", 0); (lit "normal-dot", 0)].
