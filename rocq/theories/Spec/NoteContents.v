(** The children MusicXML allows in notes, score-parts, score-instruments, encodings, ornaments
    and sounds, and examples. *)
From Coq Require Import List String Bool PeanoNat.
From Verif Require Import Model.Base Model.Text Model.ElementReading Model.ElementGroups Spec.ContentModels Spec.MoreContents Spec.ScoreContents.
Import ListNotations.
Local Open Scope list_scope.

(** Documents/musicxml.xsd, the types and groups of these names. *)
Definition sound_group_content : content := Sequence [Optional (Element "midi-device"); Optional (Element "midi-instrument"); Optional (Element "play")].
Definition sound_content : content := Sequence [Many sound_group_content; Optional (Element "offset")].
Definition score_instrument_content : content :=
  Sequence [Element "instrument-name"; Optional (Element "instrument-abbreviation"); Optional (Element "instrument-sound");
            Optional (one_of ["solo"; "ensemble"]%string); Optional (Element "virtual-instrument")].
Definition encoding_names : list string := ["encoding-date"; "encoder"; "software"; "encoding-description"; "supports"]%string.
Definition encoding_content : content := Many (one_of encoding_names).
Definition ornament_names : list string :=
  ["trill-mark"; "turn"; "delayed-turn"; "inverted-turn"; "delayed-inverted-turn"; "vertical-turn"; "shake"; "wavy-line"; "mordent"; "inverted-mordent";
   "schleifer"; "tremolo"; "other-ornament"]%string.
Definition ornaments_content : content := Many (Sequence [one_of ornament_names; Many (Element "accidental-mark")]).
Definition midi_content : content := Many (Sequence [Optional (Element "midi-device"); Optional (Element "midi-instrument")]).
Definition score_part_content : content :=
  Sequence [Optional (Element "identification"); Element "part-name"; Optional (Element "part-name-display"); Optional (Element "part-abbreviation");
            Optional (Element "part-abbreviation-display"); Many (Element "group"); Many (Element "score-instrument"); midi_content].
Definition full_note_content : list content := [Optional (Element "chord"); one_of ["pitch"; "unpitched"; "rest"]%string].
Definition two_ties : list content := [Optional (Element "tie"); Optional (Element "tie")].
Definition note_choice_content : content :=
  Choice [Sequence (Element "grace" :: full_note_content ++ two_ties);
          Sequence (Element "cue" :: full_note_content ++ [Element "duration"]);
          Sequence (full_note_content ++ Element "duration" :: two_ties)].
(** The members of a note after these in their order; whether there may be many. The
    schema has at most eight beams, and here there may be more. *)
Definition note_members : list (string * bool) :=
  [("instrument", false); ("footnote", false); ("level", false); ("voice", false); ("type", false); ("dot", true); ("accidental", false);
   ("time-modification", false); ("stem", false); ("notehead", false); ("notehead-text", false); ("staff", false); ("beam", true); ("notations", true);
   ("lyric", true); ("play", false)]%string.
Definition member_content (m : string * bool) : content := if snd m then Many (Element (fst m)) else Optional (Element (fst m)).
Definition note_content : content := Sequence (note_choice_content :: map member_content note_members).

(** ** Children of any kind *)
(** What is written for the children of these names. *)
Definition member_written {A} (l : list (str * A)) (m : string * bool) : list (str * list (given A)) := if snd m then each_from l (fst m) else one_from l (fst m).
Definition members_written {A} (l : list (str * A)) (ms : list (string * bool)) : list (str * list (given A)) := List.concat (map (member_written l) ms).

(** What is written for a child of an encoding. *)
Definition encoding_written {A} (p : str * A) : str * list (given A) := if is_named encoding_names p then as_read p else (lit "encoding-date", []).

Definition instrument_names : list string := ["instrument-name"; "instrument-abbreviation"; "instrument-sound"; "solo"; "ensemble"; "virtual-instrument"]%string.

(** What is written for the first children of a note. A chord is empty and nothing is read of it. *)
Definition note_read {A} (p : str * A) : str * list (given A) := if str_eqb (fst p) (lit "chord") then (lit "chord", []) else as_read p.

(** The first children of which it matters whether they could be read. *)
Definition read_well {A} (good : A -> bool) (p : str * A) : Prop := In (fst p) (map lit ["chord"; "duration"]%string) \/ good (snd p) = true.

Definition first_names : list string := ["pitch"; "unpitched"; "rest"; "chord"; "grace"; "cue"; "tie"]%string.

(** The runs of accidental marks in the children. *)
Definition is_mark {A} (p : str * A) : bool := str_eqb (fst p) (lit "accidental-mark").
Fixpoint mark_runs {A} (l : list (str * A)) : list (list A) :=
  match l with
  | [] => []
  | p :: r =>
      if is_mark p then
        match match r with q :: _ => is_mark q | [] => false end, mark_runs r with
        | true, run :: more => (snd p :: run) :: more
        | _, more => [snd p] :: more
        end
      else mark_runs r
  end.

(** The marks that are kept: a run replaces the marks before it if there is just one. *)
Definition marks_kept {A} (l : list (str * A)) : list A :=
  fold_left (fun kept run => if List.length kept =? 1 then run else kept ++ run) (mark_runs l) [].

(** ** Examples *)
Definition a_note : list (str * nat) :=
  [(lit "chord", 1); (lit "pitch", 2); (lit "duration", 3); (lit "tie", 4); (lit "tie", 5); (lit "instrument", 6); (lit "voice", 7); (lit "type", 8);
   (lit "dot", 9); (lit "dot", 10); (lit "accidental", 11); (lit "stem", 12); (lit "staff", 13); (lit "beam", 14); (lit "beam", 15); (lit "notations", 16);
   (lit "lyric", 17); (lit "lyric", 18)].
Definition a_grace_note : list (str * nat) := [(lit "grace", 1); (lit "unpitched", 2); (lit "tie", 3); (lit "voice", 4); (lit "type", 5)].
Definition a_cue_note : list (str * nat) := [(lit "cue", 1); (lit "rest", 2); (lit "duration", 3); (lit "footnote", 4); (lit "level", 5)].
Definition a_score_part : list (str * nat) :=
  [(lit "part-name", 1); (lit "part-abbreviation", 2); (lit "group", 3); (lit "group", 4); (lit "score-instrument", 5); (lit "score-instrument", 6);
   (lit "midi-device", 7); (lit "midi-instrument", 8); (lit "midi-instrument", 9); (lit "midi-device", 10)].
Definition a_score_instrument : list (str * nat) := [(lit "instrument-name", 1); (lit "instrument-sound", 2); (lit "ensemble", 3); (lit "virtual-instrument", 4)].
Definition an_encoding : list (str * nat) := [(lit "software", 1); (lit "encoding-date", 2); (lit "supports", 3); (lit "software", 4); (lit "supports", 5)].
Definition some_ornaments : list (str * nat) := [(lit "trill-mark", 1); (lit "turn", 2); (lit "accidental-mark", 3); (lit "accidental-mark", 4)].
Definition a_sound : list (str * nat) := [(lit "midi-device", 1); (lit "midi-instrument", 2)].
