(** The children MusicXML allows in an element, and what it means that an element read from
    a file and written again has the same children. *)
From Coq Require Import List String Bool.
From Verif Require Import Model.Base Model.Text Model.ElementReading Model.ElementGroups.
Import ListNotations.
Local Open Scope list_scope.

(** ** Content models, as an XML schema has them. *)
Inductive content :=
| Element (name : string)
| Sequence (l : list content)
| Choice (l : list content)
| Optional (c : content)      (** minOccurs="0" *)
| Many (c : content).         (** minOccurs="0" maxOccurs="unbounded" *)

(** maxOccurs="unbounded" *)
Definition Some_of (c : content) : content := Sequence [c; Many c].

(** Children, each a name and what is in it, that a content model allows. *)
Inductive conforms {A} : content -> list (str * A) -> Prop :=
| conforms_element n a : conforms (Element n) [(lit n, a)]
| conforms_nothing : conforms (Sequence []) []
| conforms_sequence c l x y : conforms c x -> conforms (Sequence l) y -> conforms (Sequence (c :: l)) (x ++ y)
| conforms_choice c l x : In c l -> conforms c x -> conforms (Choice l) x
| conforms_without c : conforms (Optional c) []
| conforms_with c x : conforms c x -> conforms (Optional c) x
| conforms_none c : conforms (Many c) []
| conforms_more c x y : conforms c x -> conforms (Many c) y -> conforms (Many c) (x ++ y).

Definition one_of (names : list string) : content := Choice (map Element names).

(** ** The schema: Documents/musicxml.xsd, the types of these names. *)
Definition editorial_content : list content := [Optional (Element "footnote"); Optional (Element "level")].

Definition articulation_names : list string :=
  ["accent"; "strong-accent"; "staccato"; "tenuto"; "detached-legato"; "staccatissimo"; "spiccato"; "scoop"; "plop"; "doit"; "falloff";
   "breath-mark"; "caesura"; "stress"; "unstress"; "other-articulation"]%string.
Definition articulations_content : content := Many (one_of articulation_names).

Definition technical_names : list string :=
  ["up-bow"; "down-bow"; "harmonic"; "open-string"; "thumb-position"; "fingering"; "pluck"; "double-tongue"; "triple-tongue"; "stopped";
   "snap-pizzicato"; "fret"; "string"; "hammer-on"; "pull-off"; "bend"; "tap"; "heel"; "toe"; "fingernails"; "hole"; "arrow"; "handbell";
   "other-technical"]%string.
Definition technical_content : content := Many (one_of technical_names).

Definition notation_names : list string :=
  ["tied"; "slur"; "tuplet"; "glissando"; "slide"; "ornaments"; "technical"; "articulations"; "dynamics"; "fermata"; "arpeggiate";
   "non-arpeggiate"; "accidental-mark"; "other-notation"]%string.
Definition notations_content : content := Sequence (editorial_content ++ [Many (one_of notation_names)]).

Definition notehead_text_content : content := Some_of (one_of ["display-text"; "accidental-text"]%string).

Definition arrow_content : content :=
  Choice [Sequence [Element "arrow-direction"; Optional (Element "arrow-style")]; Element "circular-arrow"].

Definition bend_content : content :=
  Sequence [Element "bend-alter"; Optional (one_of ["pre-bend"; "release"]%string); Optional (Element "with-bar")].

Definition harmonic_content : content :=
  Sequence [Optional (one_of ["natural"; "artificial"]%string); Optional (one_of ["base-pitch"; "touching-pitch"; "sounding-pitch"]%string)].

Definition time_signature_content : content := Sequence [Element "beats"; Element "beat-type"].
Definition time_content : content :=
  Choice [Sequence [Some_of time_signature_content; Optional (Element "interchangeable")]; Element "senza-misura"].
Definition interchangeable_content : content := Sequence [Optional (Element "time-relation"); Some_of time_signature_content].

Definition traditional_key_content : content := Sequence [Optional (Element "cancel"); Element "fifths"; Optional (Element "mode")].
Definition non_traditional_key_content : content := Sequence [Element "key-step"; Element "key-alter"; Optional (Element "key-accidental")].
Definition key_content : content := Sequence [Choice [traditional_key_content; Many non_traditional_key_content]; Many (Element "key-octave")].

Definition harmony_chord_content : content :=
  Sequence [one_of ["root"; "function"]%string; Element "kind"; Optional (Element "inversion"); Optional (Element "bass"); Many (Element "degree")].
Definition harmony_content : content :=
  Sequence ([Some_of harmony_chord_content; Optional (Element "frame"); Optional (Element "offset")] ++ editorial_content ++ [Optional (Element "staff")]).

Definition credit_content : content :=
  Sequence [Many (Element "credit-type"); Many (Element "link"); Many (Element "bookmark");
            Choice [Element "credit-image";
                    Sequence [Element "credit-words"; Many (Sequence [Many (Element "link"); Many (Element "bookmark"); Element "credit-words"])]]].

Definition lyric_text_content : content :=
  Sequence [Optional (Element "syllabic"); Element "text";
            Many (Sequence [Optional (Sequence [Element "elision"; Optional (Element "syllabic")]); Element "text"]);
            Optional (Element "extend")].
Definition lyric_content : content :=
  Sequence ([Choice [lyric_text_content; Element "extend"; Element "laughing"; Element "humming"];
             Optional (Element "end-line"); Optional (Element "end-paragraph")] ++ editorial_content).

(** ** Read and written again. *)
Definition nodes {A} (l : list (str * A)) : list (node A) := map (fun p => NElement (fst p) (snd p)) l.

(** The child is written from an object that has been read from that child of the file, once,
    and from nothing else. *)
Definition same_child {A} (written : str * list (given A)) (child : str * A) : Prop :=
  fst written = fst child /\ snd written = [Own (snd child)].

(** The element is accepted, and is written with the children the file has. *)
Definition comes_back {A S} (read : list (node A) -> outcome (bool * S)) (write : S -> list (str * list (given A))) (children : list (str * A)) : Prop :=
  exists s, read (nodes children) = Ok (true, s) /\ Forall2 same_child (write s) children.

(** The children of an arrow are written from objects that have been read from them as often as
    there are children. *)
Definition arrow_children {A} (children : list (str * A)) : list (str * list (given A)) :=
  map (fun p => (fst p, repeat (Own (snd p)) (List.length children))) children.

(** The element is accepted, and is written with children of the same names in the same
    order. *)
Definition names_come_back {A S} (read : list (node A) -> outcome (bool * S)) (write : S -> list (str * list (given A))) (children : list (str * A)) : Prop :=
  exists s, read (nodes children) = Ok (true, s) /\ map fst (write s) = map fst children.

(** The element, and so the file, is refused. *)
Definition refused {A S} (read : list (node A) -> outcome (bool * S)) (children : list (str * A)) : Prop :=
  exists s, read (nodes children) = Ok (false, s).

(** Whatever the children are, the element is accepted or refused: nothing beyond the
    children is touched, and there is no exception. *)
Definition always_ends {A S} (read : list (node A) -> outcome (bool * S)) : Prop :=
  forall children, exists b s, read (nodes children) = Ok (b, s).

(** A child of that name. *)
Definition has_child {A} (name : string) (children : list (str * A)) : Prop := exists a, In (lit name, a) children.
