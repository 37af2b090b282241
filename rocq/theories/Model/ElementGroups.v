(** Elements with alternatives or groups of children: how core/elements reads them from a
    file (fromXElementImpl and what it calls) and writes them again (streamContents).
    Left out: the attributes, whether the children themselves could be read, the white
    space between children and the texts of the messages. *)
From Coq Require Import List String Ascii Bool PeanoNat.
From Verif Require Import Model.Base Model.Text Model.ElementReading.
Import ListNotations.
Local Open Scope list_scope.

(** What the fromXElement of a child object has been called with: a child element, with
    what is in it, or the parent element. *)
Inductive given (A : Type) := Own (a : A) | Parent.
Arguments Own {A}.
Arguments Parent {A}.

(** A child object: its hasX flag in the parent, and what it has been read from, in order;
    [] is an object as its constructor made it. *)
Record child (A : Type) := mkChild { ch_has : bool; ch_given : list (given A) }.
Arguments mkChild {A}.
Arguments ch_has {A}.
Arguments ch_given {A}.

Definition new_child {A} : child A := mkChild false [].

(** fromXElement on the object, then hasX = true if [mark]. *)
Definition give {A} (mark : bool) (g : given A) (c : child A) : child A := mkChild (mark || ch_has c) (ch_given c ++ [g]).

(** x->toStream( .. ), always or if( hasX ). *)
Definition always {A} (name : string) (c : child A) : list (str * list (given A)) := [(lit name, ch_given c)].
Definition if_has {A} (name : string) (c : child A) : list (str * list (given A)) := if ch_has c then always name c else [].

(** it->getName() == name *)
Definition named_now {A} (name : string) (it : iterator A) : outcome bool := obind (name_at it) (fun n => Ok (str_eqb n (lit name))).

(** it != endIter && it->getName() == name *)
Definition is_here {A} (name : string) (it : iterator A) : outcome bool := if at_end it then Ok false else named_now name it.

(** if( it != endIter && it->getName() == name ) { x->fromXElement( *it ); ++it; } and
    whether that was so: checkSetGroupMemberAndIncrementIter, FromXElement.h:98-152, and
    the same written out. *)
Definition take {A} (name : string) (mark : bool) (it : iterator A) (c : child A) : outcome (bool * iterator A * child A) :=
  obind (is_here name it) (fun b =>
    if b then obind (contents_at it) (fun a => obind (increment it) (fun it' => Ok (true, it', give mark (Own a) c)))
    else Ok (false, it, c)).

(** importElement, FromXElement.cpp:56-70; checkSetChoiceMember without the setChoice,
    FromXElement.h:315-335. *)
Definition import {A} (name : string) (it : iterator A) (c : child A) : outcome (bool * child A) :=
  obind (named_now name it) (fun b => if b then obind (contents_at it) (fun a => Ok (true, give true (Own a) c)) else Ok (false, c)).

(** for( auto it = xelement.begin(); it != endIter; ++it ) { body }. The body tells whether
    it left the loop. The fuel is the number of children, which is enough. *)
Fixpoint child_loop {A S} (fuel : nat) (body : iterator A -> S -> outcome (bool * iterator A * S)) (it : iterator A) (s : S) : outcome S :=
  if at_end it then Ok s
  else match fuel with
  | O => UB
  | Datatypes.S fuel =>
      obind (body it s) (fun q => let '(stop, it', s') := q in
        if stop then Ok s' else obind (increment it') (fun it'' => child_loop fuel body it'' s'))
  end.

Definition each_child {A S} (body : iterator A -> S -> outcome (bool * iterator A * S)) (children : list (node A)) (s : S) : outcome S :=
  child_loop (List.length children) body (begin children) s.

(** while( it != endIter && it->getName() == name ) { make an item from *it; ++it; } *)
Fixpoint take_all {A} (fuel : nat) (name : string) (it : iterator A) : outcome (iterator A * list A) :=
  obind (is_here name it) (fun b =>
    if b then
      match fuel with
      | O => UB
      | S fuel => obind (contents_at it) (fun a => obind (increment it) (fun it' => omap (fun q => (fst q, a :: snd q)) (take_all fuel name it')))
      end
    else Ok (it, [])).

Definition left {A} (it : iterator A) : nat := List.length (it_after it).

(** if( isIterIncremented ) { --iter; } *)
Definition back_if {A} (moved : bool) (it : iterator A) : outcome (iterator A) := if moved then decrement it else Ok it.

(** importGroup for the EditorialGroup, FromXElement.cpp:86-104. *)
Definition import_editorial {A} (it : iterator A) (footnote level : child A) : outcome (iterator A * child A * child A) :=
  if at_end it then Ok (it, footnote, level)
  else
    obind (take "footnote" true it footnote) (fun q => let '(m1, it1, f) := q in
      if at_end it1 then omap (fun i => (i, f, level)) (back_if m1 it1)
      else obind (take "level" true it1 level) (fun q => let '(m2, it2, l) := q in
        if at_end it2 then omap (fun i => (i, f, l)) (back_if (m1 || m2) it2) else Ok (it2, f, l))).

(** EditorialGroup::streamContents, EditorialGroup.cpp:47-65. *)
Definition write_editorial {A} (footnote level : child A) := if_has "footnote" footnote ++ if_has "level" level.

(** A set of choices, each made from one child: the element name that is looked for and the
    name of the member that is written for the choice. *)
Definition choices := list (string * string).

Definition choose (table : choices) (name : str) : option string := option_map snd (find (fun p => str_eqb (lit (fst p)) name) table).

(** ** articulations: Articulations.cpp:14-16,43-60,103-116, ArticulationsChoice.cpp:29-47,75-165,420-520. *)
Definition articulations_choices : choices :=
  [("accent", "accent"); ("strong-accent", "strong-accent"); ("staccato", "staccato"); ("tenuto", "tenuto"); ("detached-legato", "detached-legato");
   ("staccatissimo", "staccatissimo"); ("spiccato", "spiccato"); ("scoop", "scoop"); ("plop", "plop"); ("doit", "doit"); ("falloff", "falloff");
   ("breath-mark", "breath-mark"); ("caesura", "caesura"); ("stress", "stress"); ("unstress", "unstress"); ("other-articulation", "other-articulation")]%string.

(** Another name: the choice stays what the constructor made it, accent, and is added. *)
Definition read_articulations {A} (children : list (node A)) : outcome (bool * list (str * list (given A))) :=
  each_child (fun it s => let '(ok, l) := s in
    obind (name_at it) (fun n => obind (contents_at it) (fun a =>
      Ok (false, it, match choose articulations_choices n with
                     | Some w => (ok, l ++ [(lit w, [Own a])])
                     | None => (false, l ++ [(lit "accent", [])])
                     end)))) children (true, []).

Definition write_articulations {A} (l : list (str * list (given A))) := l.

(** ** technical: Technical.cpp:38-40,68-84,127-314, TechnicalChoice.cpp:91-219. *)
Definition technical_choices : choices :=
  [("up-bow", "up-bow"); ("down-bow", "down-bow"); ("harmonic", "harmonic"); ("open-string", "open-string"); ("thumb-position", "thumb-position");
   ("fingering", "fingering"); ("pluck", "pluck"); ("double-tongue", "double-tongue"); ("triple-tongue", "triple-tongue"); ("stopped", "stopped");
   ("snap-pizzicato", "snap-pizzicato"); ("fret", "fret"); ("string", "string"); ("hammer-on", "hammer-on"); ("pull-off", "pull-off"); ("bend", "bend");
   ("tap", "tap"); ("heel", "heel"); ("toe", "toe"); ("fingernails", "fingernails"); ("hole", "hole"); ("arrow", "arrow"); ("handbell", "handbell");
   ("other-technical", "other-technical")]%string.

Definition read_technical {A} (children : list (node A)) : outcome (bool * list (str * list (given A))) :=
  each_child (fun it s => let '(ok, l) := s in
    obind (name_at it) (fun n => obind (contents_at it) (fun a =>
      Ok (false, it, match choose technical_choices n with Some w => (ok, l ++ [(lit w, [Own a])]) | None => (false, l) end)))) children (true, []).

Definition write_technical {A} (l : list (str * list (given A))) := l.

(** ** notations: Notations.cpp:31-36,63-85,158-282, NotationsChoice.cpp:70-120. *)
Definition notations_choices : choices :=
  [("tied", "tied"); ("tuplet", "tuplet"); ("slur", "slur"); ("glissando", "glissando"); ("slide", "slide"); ("ornaments", "ornaments"); ("technical", "technical");
   ("articulations", "articulations"); ("dynamics", "dynamics"); ("fermata", "fermata"); ("arpeggiate", "arpeggiate"); ("non-arpeggiate", "non-arpeggiate");
   ("accidental-mark", "accidental-mark"); ("other-notations", "other-notation")]%string.

Record notations (A : Type) := mkNotations { nt_footnote : child A; nt_level : child A; nt_choices : list (str * list (given A)) }.
Arguments mkNotations {A}.
Arguments nt_footnote {A}.
Arguments nt_level {A}.
Arguments nt_choices {A}.

Definition read_notations {A} (children : list (node A)) : outcome (bool * notations A) :=
  each_child (fun it s => let '(ok, t) := s in
    obind (name_at it) (fun n => obind (contents_at it) (fun a =>
      Ok (false, it,
          if str_eqb n (lit "footnote") then (ok, mkNotations (give true (Own a) (nt_footnote t)) (nt_level t) (nt_choices t))
          else if str_eqb n (lit "level") then (ok, mkNotations (nt_footnote t) (give true (Own a) (nt_level t)) (nt_choices t))
          else match choose notations_choices n with
               | Some w => (ok, mkNotations (nt_footnote t) (nt_level t) (nt_choices t ++ [(lit w, [Own a])]))
               | None => (false, t)
               end)))) children (true, mkNotations new_child new_child []).

Definition write_notations {A} (t : notations A) := write_editorial (nt_footnote t) (nt_level t) ++ nt_choices t.

(** ** notehead-text: NoteheadText.cpp:16-20,48-58,92-139, NoteheadTextChoice.cpp:15-19,47-63.
    The texts are read from xelement, the notehead-text. [first] is isFirstItemAdded; the
    constructor makes one display-text. *)
Definition read_notehead_text {A} (children : list (node A)) : outcome (bool * list (str * list (given A))) :=
  omap (fun s => (true, snd s))
    (each_child (fun it s => let '(first, l) := s in
      let add w := (true, if negb first && (List.length l =? 1) then [(lit w, [Parent])] else l ++ [(lit w, [Parent])]) in
      obind (named_now "accidental-text" it) (fun b1 =>
        if b1 then Ok (false, it, add "accidental-text"%string)
        else obind (named_now "display-text" it) (fun b2 => if b2 then Ok (false, it, add "display-text"%string) else Ok (false, it, s))))
      children (false, [(lit "display-text", [])])).

Definition write_notehead_text {A} (l : list (str * list (given A))) := l.

(** ** arrow: Arrow.cpp:15-20,48-72,132-152. *)
Record arrow (A : Type) := mkArrow { ar_isCircular : bool; ar_circular : child A; ar_direction : child A; ar_style : child A }.
Arguments mkArrow {A}.
Arguments ar_isCircular {A}.
Arguments ar_circular {A}.
Arguments ar_direction {A}.
Arguments ar_style {A}.

(** ArrowGroup::fromXElementImpl, ArrowGroup.cpp:101-131; the state is isSuccess,
    isArrowDirectionFound and the two members. *)
Definition read_arrow_group {A} (children : list (node A)) (direction style : child A) : outcome (bool * child A * child A) :=
  omap (fun s => let '(ok, _, d, y) := s in (ok, d, y))
    (each_child (fun it s => let '(ok, found, d, y) := s in
      obind (import "arrow-direction" it d) (fun q => let '(b1, d') := q in
        if b1 then Ok (false, it, (ok, true, d', y))
        else obind (import "arrow-style" it y) (fun q => let '(b2, y') := q in
          if b2 then Ok (false, it, (ok, found, d, y')) else Ok (true, it, (ok && found, found, d, y)))))
      children (true, false, direction, style)).

Definition read_arrow {A} (children : list (node A)) : outcome (bool * arrow A) :=
  each_child (fun it s => let '(ok, r) := s in
    obind (import "circular-arrow" it (ar_circular r)) (fun q =>
      obind (read_arrow_group children (ar_direction r) (ar_style r)) (fun g => let '(ok', d, y) := g in
        Ok (false, it, (ok', mkArrow false (snd q) d y)))))
    children (true, mkArrow false new_child new_child new_child).

(** Arrow::streamContents, :48-72, ArrowGroup.cpp:46-56. *)
Definition write_arrow {A} (r : arrow A) :=
  if ar_isCircular r then always "circular-arrow" (ar_circular r) else always "arrow-direction" (ar_direction r) ++ if_has "arrow-style" (ar_style r).

(** ** bend: Bend.cpp:18-25,53-73,161-188, BendChoice.cpp:15-19,46-65. [bd_which]: the choice
    of myBendChoice if myHasBendChoice. *)
Inductive bend_kind := PreBend | Release.
Record bend (A : Type) := mkBend { bd_alter : child A; bd_which : option bend_kind; bd_pre : child A; bd_release : child A; bd_withBar : child A }.
Arguments mkBend {A}.
Arguments bd_alter {A}.
Arguments bd_which {A}.
Arguments bd_pre {A}.
Arguments bd_release {A}.
Arguments bd_withBar {A}.

Definition read_bend {A} (children : list (node A)) : outcome (bool * bend A) :=
  omap (fun r => (true, r))
    (each_child (fun it r =>
      obind (import "bend-alter" it (bd_alter r)) (fun q => let '(b, c) := q in
        if b then Ok (false, it, mkBend c (bd_which r) (bd_pre r) (bd_release r) (bd_withBar r))
        else obind (import "pre-bend" it (bd_pre r)) (fun q => let '(b, c) := q in
          if b then Ok (false, it, mkBend (bd_alter r) (Some PreBend) c (bd_release r) (bd_withBar r))
          else obind (import "release" it (bd_release r)) (fun q => let '(b, c) := q in
            if b then Ok (false, it, mkBend (bd_alter r) (Some Release) (bd_pre r) c (bd_withBar r))
            else obind (import "with-bar" it (bd_withBar r)) (fun q =>
              Ok (false, it, mkBend (bd_alter r) (bd_which r) (bd_pre r) (bd_release r) (snd q)))))))
      children (mkBend new_child None new_child new_child new_child)).

Definition write_bend {A} (r : bend A) :=
  always "bend-alter" (bd_alter r)
  ++ match bd_which r with Some PreBend => always "pre-bend" (bd_pre r) | Some Release => always "release" (bd_release r) | None => [] end
  ++ if_has "with-bar" (bd_withBar r).

(** ** harmonic: Harmonic.cpp:20-26,54-76,148-189, HarmonicTypeChoice.cpp:15-61,
    HarmonicInfoChoice.cpp:16-66. *)
Inductive harmonic_type := Natural | Artificial.
Inductive harmonic_info := BasePitch | TouchingPitch | SoundingPitch.
Record harmonic (A : Type) := mkHarmonic {
  hn_type : option harmonic_type; hn_natural : child A; hn_artificial : child A;
  hn_info : option harmonic_info; hn_base : child A; hn_touching : child A; hn_sounding : child A }.
Arguments mkHarmonic {A}.
Arguments hn_type {A}.
Arguments hn_natural {A}.
Arguments hn_artificial {A}.
Arguments hn_info {A}.
Arguments hn_base {A}.
Arguments hn_touching {A}.
Arguments hn_sounding {A}.

Definition read_harmonic {A} (children : list (node A)) : outcome (bool * harmonic A) :=
  omap (fun r => (true, r))
    (each_child (fun it r =>
      obind (import "natural" it (hn_natural r)) (fun q => let '(b, c) := q in
        if b then Ok (false, it, mkHarmonic (Some Natural) c (hn_artificial r) (hn_info r) (hn_base r) (hn_touching r) (hn_sounding r))
        else obind (import "artificial" it (hn_artificial r)) (fun q => let '(b, c) := q in
          if b then Ok (false, it, mkHarmonic (Some Artificial) (hn_natural r) c (hn_info r) (hn_base r) (hn_touching r) (hn_sounding r))
          else obind (import "base-pitch" it (hn_base r)) (fun q => let '(b, c) := q in
            if b then Ok (false, it, mkHarmonic (hn_type r) (hn_natural r) (hn_artificial r) (Some BasePitch) c (hn_touching r) (hn_sounding r))
            else obind (import "touching-pitch" it (hn_touching r)) (fun q => let '(b, c) := q in
              if b then Ok (false, it, mkHarmonic (hn_type r) (hn_natural r) (hn_artificial r) (Some TouchingPitch) (hn_base r) c (hn_sounding r))
              else obind (import "sounding-pitch" it (hn_sounding r)) (fun q => let '(b, c) := q in
                Ok (false, it, if b then mkHarmonic (hn_type r) (hn_natural r) (hn_artificial r) (Some SoundingPitch) (hn_base r) (hn_touching r) c else r)))))))
      children (mkHarmonic None new_child new_child None new_child new_child new_child)).

Definition write_harmonic {A} (r : harmonic A) :=
  match hn_type r with Some Natural => always "natural" (hn_natural r) | Some Artificial => always "artificial" (hn_artificial r) | None => [] end
  ++ match hn_info r with
     | Some BasePitch => always "base-pitch" (hn_base r)
     | Some TouchingPitch => always "touching-pitch" (hn_touching r)
     | Some SoundingPitch => always "sounding-pitch" (hn_sounding r)
     | None => []
     end.

(** ** time: Time.cpp:16-20,47-55,84-120, TimeChoice.cpp:18-24,51-71, TimeSignatureGroup.cpp:16-22,48-61. *)
Record time_group (A : Type) := mkTimeGroup { tg_beats : child A; tg_beatType : child A; tg_interchangeable : child A }.
Arguments mkTimeGroup {A}.
Arguments tg_beats {A}.
Arguments tg_beatType {A}.
Arguments tg_interchangeable {A}.
Record time (A : Type) := mkTimeElement { tm_isSenza : bool; tm_senza : child A; tm_groups : list (time_group A) }.
Arguments mkTimeElement {A}.
Arguments tm_isSenza {A}.
Arguments tm_senza {A}.
Arguments tm_groups {A}.

Definition new_time_group {A} : time_group A := mkTimeGroup new_child new_child new_child.

(** importGroup for the TimeSignatureGroup, FromXElement.cpp:361-419, the iterator not at
    the end. *)
Definition import_time_group {A} (it : iterator A) : outcome (iterator A * bool * time_group A) :=
  obind (take "beats" true it new_child) (fun q => let '(b1, it1, beats) := q in
    obind (take "beat-type" true it1 new_child) (fun q => let '(b2, it2, beatType) := q in
      obind (take "interchangeable" true it2 new_child) (fun q => let '(b3, it3, interchangeable) := q in
        omap (fun it4 => (it4, b1 && b2, mkTimeGroup beats beatType interchangeable)) (back_if (b1 || b2 || b3) it3)))).

(** A turn of the loop; [first] is isFirstTimeSignatureAdded. *)
Definition time_turn {A} (it : iterator A) (s : bool * bool * time A) : outcome (bool * iterator A * (bool * bool * time A)) :=
  let '(ok, first, t) := s in
  obind (import "senza-misura" it (tm_senza t)) (fun q => let '(b, c) := q in
    if b then Ok (false, it, (ok, first, mkTimeElement true c (tm_groups t)))
    else obind (import_time_group it) (fun q => let '(it', ok', g) := q in
      Ok (false, it', (ok && ok', true,
        mkTimeElement false (tm_senza t) (if negb first && (List.length (tm_groups t) =? 1) then tl (tm_groups t ++ [g]) else tm_groups t ++ [g]))))).

Definition read_time {A} (children : list (node A)) : outcome (bool * time A) :=
  omap (fun s => (fst (fst s), snd s)) (each_child time_turn children (true, false, mkTimeElement false new_child [new_time_group])).

Definition write_time {A} (t : time A) :=
  if tm_isSenza t then always "senza-misura" (tm_senza t)
  else List.concat (map (fun g => always "beats" (tg_beats g) ++ always "beat-type" (tg_beatType g) ++ if_has "interchangeable" (tg_interchangeable g)) (tm_groups t)).

(** ** interchangeable: Interchangeable.cpp:16-22,50-64,139-165. *)
Record interchangeable (A : Type) := mkInterchangeable { ic_relation : child A; ic_beats : child A; ic_beatType : child A }.
Arguments mkInterchangeable {A}.
Arguments ic_relation {A}.
Arguments ic_beats {A}.
Arguments ic_beatType {A}.

Definition read_interchangeable {A} (children : list (node A)) : outcome (bool * interchangeable A) :=
  omap (fun r => (true, r))
    (each_child (fun it r =>
      obind (import "time-relation" it (ic_relation r)) (fun q => let '(b, c) := q in
        if b then Ok (false, it, mkInterchangeable c (ic_beats r) (ic_beatType r))
        else obind (import "beats" it (ic_beats r)) (fun q => let '(b, c) := q in
          if b then Ok (false, it, mkInterchangeable (ic_relation r) c (ic_beatType r))
          else obind (import "beat-type" it (ic_beatType r)) (fun q => Ok (false, it, mkInterchangeable (ic_relation r) (ic_beats r) (snd q))))))
      children (mkInterchangeable new_child new_child new_child)).

Definition write_interchangeable {A} (r : interchangeable A) :=
  if_has "time-relation" (ic_relation r) ++ always "beats" (ic_beats r) ++ always "beat-type" (ic_beatType r).

(** ** key: Key.cpp:23-27,55-86,149-278, KeyChoice.cpp:15-19,46-73, TraditionalKey.cpp:17-24,51-68,
    NonTraditionalKey.cpp:16-22,49-66. *)
Record key_component (A : Type) := mkKeyComponent { kc_step : child A; kc_alter : child A; kc_accidental : child A }.
Arguments mkKeyComponent {A}.
Arguments kc_step {A}.
Arguments kc_alter {A}.
Arguments kc_accidental {A}.
Record key (A : Type) := mkKeyElement {
  ky_isTraditional : bool; ky_cancel : child A; ky_fifths : child A; ky_mode : child A; ky_components : list (key_component A); ky_octaves : list A }.
Arguments mkKeyElement {A}.
Arguments ky_isTraditional {A}.
Arguments ky_cancel {A}.
Arguments ky_fifths {A}.
Arguments ky_mode {A}.
Arguments ky_components {A}.
Arguments ky_octaves {A}.

(** Key::importTraditionalKey, Key.cpp:166-214. *)
Definition import_traditional {A} (it : iterator A) (k : key A) : outcome (bool * iterator A * key A) :=
  obind (take "cancel" true it (ky_cancel k)) (fun q => let '(b1, it1, c) := q in
    obind (take "fifths" true it1 (ky_fifths k)) (fun q => let '(b2, it2, f) := q in
      obind (take "mode" true it2 (ky_mode k)) (fun q => let '(b3, it3, m) := q in
        let found := b1 || b2 || b3 in
        omap (fun it4 => (found, it4, mkKeyElement (found || ky_isTraditional k) c f m (ky_components k) (ky_octaves k))) (back_if found it3)))).

(** The loop of Key::importNonTraditionalKey, :233-270; [first] is isFirstItemAdded. *)
Fixpoint import_components {A} (fuel : nat) (first : bool) (it : iterator A) (l : list (key_component A)) : outcome (bool * iterator A * list (key_component A)) :=
  obind (take "key-step" true it new_child) (fun q => let '(b1, it1, s) := q in
    obind (take "key-alter" true it1 new_child) (fun q => let '(b2, it2, a) := q in
      obind (take "key-accidental" true it2 new_child) (fun q => let '(b3, it3, x) := q in
        if b1 || b2 || b3 then
          match fuel with
          | O => UB
          | S fuel =>
              let g := mkKeyComponent s a x in
              import_components fuel true it3 (if negb first && (List.length l =? 1) then tl (l ++ [g]) else l ++ [g])
          end
        else Ok (first, it, l)))).

(** Key::importNonTraditionalKey, :217-278. *)
Definition import_nontraditional {A} (it : iterator A) (k : key A) : outcome (bool * iterator A * key A) :=
  obind (import_components (left it) false it (ky_components k)) (fun q => let '(found, it', l) := q in
    omap (fun it'' => (found, it'', mkKeyElement (negb found && ky_isTraditional k) (ky_cancel k) (ky_fifths k) (ky_mode k) l (ky_octaves k))) (back_if found it')).

(** importElementSet for the key-octaves, FromXElement.h:61-95. *)
Definition import_octaves {A} (it : iterator A) (k : key A) : outcome (bool * iterator A * key A) :=
  obind (take_all (left it) "key-octave" it) (fun q => let '(it', l) := q in
    let found := negb (List.length l =? 0) in
    omap (fun it'' => (found, it'',
        mkKeyElement (ky_isTraditional k) (ky_cancel k) (ky_fifths k) (ky_mode k) (ky_components k)
          (if found && (List.length (ky_octaves k) =? 1) then l else ky_octaves k ++ l)))
      (back_if found it')).

Definition key_turn {A} (it : iterator A) (k : key A) : outcome (bool * iterator A * key A) :=
  obind (import_traditional it k) (fun q => let '(b1, it1, k1) := q in
    if b1 then Ok (false, it1, k1)
    else obind (import_nontraditional it k) (fun q => let '(b2, it2, k2) := q in
      if b2 then Ok (false, it2, k2)
      else obind (import_octaves it k) (fun q => let '(_, it3, k3) := q in Ok (false, it3, k3)))).

Definition read_key {A} (children : list (node A)) : outcome (bool * key A) :=
  omap (fun k => (true, k)) (each_child key_turn children (mkKeyElement true new_child new_child new_child [] [])).

Definition write_key {A} (k : key A) :=
  (if ky_isTraditional k then if_has "cancel" (ky_cancel k) ++ always "fifths" (ky_fifths k) ++ if_has "mode" (ky_mode k)
   else List.concat (map (fun c => always "key-step" (kc_step c) ++ always "key-alter" (kc_alter c) ++ if_has "key-accidental" (kc_accidental c)) (ky_components k)))
  ++ map (fun a => (lit "key-octave", [Own a])) (ky_octaves k).

(** ** harmony: Harmony.cpp:24-36,64-94,252-350, HarmonyChordGroup.cpp:19-29,56-88. *)
Record chord_group (A : Type) := mkChordGroup {
  cg_isFunction : bool; cg_root : child A; cg_function : child A; cg_kind : child A; cg_inversion : child A; cg_bass : child A; cg_degrees : list A }.
Arguments mkChordGroup {A}.
Arguments cg_isFunction {A}.
Arguments cg_root {A}.
Arguments cg_function {A}.
Arguments cg_kind {A}.
Arguments cg_inversion {A}.
Arguments cg_bass {A}.
Arguments cg_degrees {A}.
Record harmony (A : Type) := mkHarmony {
  hm_groups : list (chord_group A); hm_frame : child A; hm_offset : child A; hm_footnote : child A; hm_level : child A; hm_staff : child A }.
Arguments mkHarmony {A}.
Arguments hm_groups {A}.
Arguments hm_frame {A}.
Arguments hm_offset {A}.
Arguments hm_footnote {A}.
Arguments hm_level {A}.
Arguments hm_staff {A}.

Definition new_chord_group {A} : chord_group A := mkChordGroup false new_child new_child new_child new_child new_child [].

(** A chord from its root or function on, :264-314: the group unless kind is missing, and
    the iterator on its last child, or at the end. *)
Definition read_chord_group {A} (isFunction : bool) (it : iterator A) : outcome (option (chord_group A) * iterator A) :=
  obind (contents_at it) (fun r => obind (increment it) (fun it0 =>
    obind (take "kind" true it0 new_child) (fun q => let '(bk, it1, k) := q in
      if negb bk then Ok (None, it0)
      else
        let g i b d := mkChordGroup isFunction (if isFunction then new_child else give true (Own r) new_child) (if isFunction then give true (Own r) new_child else new_child) k i b d in
        if at_end it1 then Ok (Some (g new_child new_child []), it1)
        else obind (take "inversion" true it1 new_child) (fun q => let '(_, it2, i) := q in
          if at_end it2 then Ok (Some (g i new_child []), it2)
          else obind (take "bass" true it2 new_child) (fun q => let '(_, it3, b) := q in
            if at_end it3 then Ok (Some (g i b []), it3)
            else obind (take_all (left it3) "degree" it3) (fun q => omap (fun it4 => (Some (g i b (snd q)), it4)) (decrement (fst q)))))))).

(** Harmony::addGroup, :338-350. *)
Definition add_chord_group {A} (first : bool) (g : chord_group A) (l : list (chord_group A)) : list (chord_group A) :=
  if negb first && (List.length l =? 1) then [g] else l ++ [g].

(** A turn of the loop. The state: isSuccess, isChoiceFound, isFirstHarmonyChordGroupAdded,
    the element, and whether the function has returned from inside the loop. *)
Definition harmony_turn {A} (it : iterator A) (s : bool * bool * bool * harmony A * bool) : outcome (bool * iterator A * (bool * bool * bool * harmony A * bool)) :=
  let '(ok, found, first, h, returned) := s in
  let chord isFunction :=
    obind (read_chord_group isFunction it) (fun q => let '(g, it') := q in
      match g with
      | None => Ok (true, it', (false, true, first, h, true))
      | Some g =>
          let h' := mkHarmony (add_chord_group first g (hm_groups h)) (hm_frame h) (hm_offset h) (hm_footnote h) (hm_level h) (hm_staff h) in
          Ok (at_end it', it', (ok, true, true, h', at_end it'))
      end) in
  obind (named_now "root" it) (fun b => if b then chord false else
  obind (named_now "function" it) (fun b => if b then chord true else
  obind (import "frame" it (hm_frame h)) (fun q => let '(b, c) := q in
    if b then Ok (false, it, (ok, found, first, mkHarmony (hm_groups h) c (hm_offset h) (hm_footnote h) (hm_level h) (hm_staff h), false))
    else obind (import "offset" it (hm_offset h)) (fun q => let '(b, c) := q in
      if b then Ok (false, it, (ok, found, first, mkHarmony (hm_groups h) (hm_frame h) c (hm_footnote h) (hm_level h) (hm_staff h), false))
      else obind (import_editorial it (hm_footnote h) (hm_level h)) (fun q => let '(it1, f, l) := q in
        obind (import "staff" it1 (hm_staff h)) (fun q =>
          Ok (false, it1, (ok, found, first, mkHarmony (hm_groups h) (hm_frame h) (hm_offset h) f l (snd q), false)))))))).

Definition read_harmony {A} (children : list (node A)) : outcome (bool * harmony A) :=
  omap (fun s => let '(ok, found, _, h, returned) := s in (ok && (found || returned), h))
    (each_child harmony_turn children (true, false, false, mkHarmony [new_chord_group] new_child new_child new_child new_child new_child, false)).

Definition write_chord_group {A} (g : chord_group A) :=
  (if cg_isFunction g then always "function" (cg_function g) else always "root" (cg_root g))
  ++ always "kind" (cg_kind g) ++ if_has "inversion" (cg_inversion g) ++ if_has "bass" (cg_bass g) ++ map (fun a => (lit "degree", [Own a])) (cg_degrees g).

Definition write_harmony {A} (h : harmony A) :=
  List.concat (map write_chord_group (hm_groups h))
  ++ if_has "frame" (hm_frame h) ++ if_has "offset" (hm_offset h) ++ write_editorial (hm_footnote h) (hm_level h) ++ if_has "staff" (hm_staff h).

(** ** credit: Credit.cpp:20-26,54-76,229-337, CreditChoice.cpp:18-23,50-78, CreditWordsGroup.cpp:16-20,47-75. *)
Record words_group (A : Type) := mkWordsGroup { wg_links : list (given A); wg_bookmarks : list (given A); wg_words : child A }.
Arguments mkWordsGroup {A}.
Arguments wg_links {A}.
Arguments wg_bookmarks {A}.
Arguments wg_words {A}.
Record credit (A : Type) := mkCredit {
  cr_types : list A; cr_links : list A; cr_bookmarks : list A; cr_isImage : bool; cr_image : child A; cr_words : child A; cr_groups : list (words_group A) }.
Arguments mkCredit {A}.
Arguments cr_types {A}.
Arguments cr_links {A}.
Arguments cr_bookmarks {A}.
Arguments cr_isImage {A}.
Arguments cr_image {A}.
Arguments cr_words {A}.
Arguments cr_groups {A}.

(** The loop over the words groups, :299-333: the links and bookmarks are read from
    xelement, the credit. A group that does not come to its credit-words is not added. *)
Fixpoint read_words_groups {A} (fuel : nat) (it : iterator A) (g : words_group A) : outcome (list (words_group A)) :=
  obind (take_all (left it) "link" it) (fun q => let '(it1, links) := q in
    let g1 := mkWordsGroup (wg_links g ++ map (fun _ => Parent) links) (wg_bookmarks g) (wg_words g) in
    if at_end it1 then Ok []
    else obind (take_all (left it1) "bookmark" it1) (fun q => let '(it2, bookmarks) := q in
      let g2 := mkWordsGroup (wg_links g1) (wg_bookmarks g1 ++ map (fun _ => Parent) bookmarks) (wg_words g1) in
      if at_end it2 then Ok []
      else obind (take "credit-words" true it2 (wg_words g2)) (fun q => let '(b, it3, w) := q in
        let added := if b then [mkWordsGroup (wg_links g2) (wg_bookmarks g2) w] else [] in
        if at_end it3 then Ok added
        else if negb b && (List.length links =? 0) && (List.length bookmarks =? 0) then Ok added
        else match fuel with
        | O => UB
        | S fuel => omap (fun r => added ++ r) (read_words_groups fuel it3 (if b then mkWordsGroup [] [] new_child else g2))
        end))).

(** The image or the words, :287-337. *)
Definition read_credit_choice {A} (it : iterator A) (types links bookmarks : list A) : outcome (bool * credit A) :=
  obind (take "credit-image" true it new_child) (fun q => let '(b, _, image) := q in
    if b then Ok (true, mkCredit types links bookmarks true image new_child [])
    else obind (take "credit-words" true it new_child) (fun q => let '(b, it1, words) := q in
      if negb b then Ok (negb (at_end it), mkCredit types links bookmarks false new_child new_child [])
      else omap (fun gs => (true, mkCredit types links bookmarks false new_child words gs))
             (if at_end it1 then Ok [] else read_words_groups (left it1) it1 (mkWordsGroup [] [] new_child)))).

Definition read_credit {A} (children : list (node A)) : outcome (bool * credit A) :=
  let it := begin children in
  obind (take_all (left it) "credit-type" it) (fun q => let '(it1, types) := q in
    obind (take_all (left it1) "link" it1) (fun q => let '(it2, links) := q in
      obind (take_all (left it2) "bookmark" it2) (fun q => let '(it3, bookmarks) := q in read_credit_choice it3 types links bookmarks))).

Definition write_words_group {A} (g : words_group A) :=
  map (fun l => (lit "link", [l])) (wg_links g) ++ map (fun l => (lit "bookmark", [l])) (wg_bookmarks g) ++ always "credit-words" (wg_words g).

Definition write_credit {A} (c : credit A) :=
  map (fun a => (lit "credit-type", [Own a])) (cr_types c) ++ map (fun a => (lit "link", [Own a])) (cr_links c) ++ map (fun a => (lit "bookmark", [Own a])) (cr_bookmarks c)
  ++ if cr_isImage c then always "credit-image" (cr_image c) else always "credit-words" (cr_words c) ++ List.concat (map write_words_group (cr_groups c)).

(** ** lyric: Lyric.cpp:21-29,75-97,184-225, LyricTextChoice.cpp:17-23,50-78, SyllabicTextGroup.cpp:17-24,51-72,
    ElisionSyllabicTextGroup.cpp:15-19,46-57, ElisionSyllabicGroup.cpp:15-19,46-57. *)
Record elision_group (A : Type) := mkElisionGroup { eg_has : bool; eg_elision : child A; eg_syllabic : child A; eg_text : child A }.
Arguments mkElisionGroup {A}.
Arguments eg_has {A}.
Arguments eg_elision {A}.
Arguments eg_syllabic {A}.
Arguments eg_text {A}.
Record syllabic_group (A : Type) := mkSyllabicGroup { sy_syllabic : child A; sy_text : child A; sy_more : list (elision_group A); sy_extend : child A }.
Arguments mkSyllabicGroup {A}.
Arguments sy_syllabic {A}.
Arguments sy_text {A}.
Arguments sy_more {A}.
Arguments sy_extend {A}.
Inductive lyric_choice := SyllabicText | LyricExtend | Laughing | Humming.
Record lyric (A : Type) := mkLyric {
  ly_choice : lyric_choice; ly_group : syllabic_group A; ly_extend : child A; ly_laughing : child A; ly_humming : child A;
  ly_endLine : child A; ly_endParagraph : child A; ly_footnote : child A; ly_level : child A }.
Arguments mkLyric {A}.
Arguments ly_choice {A}.
Arguments ly_group {A}.
Arguments ly_extend {A}.
Arguments ly_laughing {A}.
Arguments ly_humming {A}.
Arguments ly_endLine {A}.
Arguments ly_endParagraph {A}.
Arguments ly_footnote {A}.
Arguments ly_level {A}.

(** The loop over the elisions, FromXElement.cpp:312-348: what follows is whether the loop
    ended at the end of the children. setHasElisionSyllabicGroup( true ) is called, but not
    the setHasSyllabic( true ) of that group. *)
Fixpoint read_elisions {A} (fuel : nat) (it : iterator A) : outcome (iterator A * list (elision_group A)) :=
  obind (take "elision" true it new_child) (fun q => let '(b1, it1, e) := q in
    obind (take "syllabic" false it1 new_child) (fun q => let '(b2, it2, s) := q in
      obind (take "text" true it2 new_child) (fun q => let '(b3, it3, t) := q in
        if b1 || b2 || b3 then
          match fuel with
          | O => UB
          | S fuel => omap (fun r => (fst r, mkElisionGroup (b1 || b2) e s t :: snd r)) (read_elisions fuel it3)
          end
        else Ok (it, [])))).

(** importGroup for the SyllabicTextGroup, :285-358, the iterator not at the end: where it is
    left, whether no text was missed, and the group. *)
Definition import_syllabic {A} (it : iterator A) (g : syllabic_group A) : outcome (iterator A * bool * syllabic_group A) :=
  obind (take "syllabic" true it (sy_syllabic g)) (fun q => let '(b1, it1, s) := q in
    if at_end it1 then omap (fun i => (i, true, mkSyllabicGroup s (sy_text g) (sy_more g) (sy_extend g))) (back_if b1 it1)
    else obind (take "text" true it1 (sy_text g)) (fun q => let '(b2, it2, t) := q in
      if at_end it2 then omap (fun i => (i, true, mkSyllabicGroup s t (sy_more g) (sy_extend g))) (back_if (b1 || b2) it2)
      else
        obind (named_now "end-line" it2) (fun n1 => obind (named_now "end-paragraph" it2) (fun n2 =>
          obind (read_elisions (left it2) it2) (fun q => let '(it3, more) := q in
            let moved := b1 || b2 || negb (List.length more =? 0) in
            if at_end it3 then omap (fun i => (i, n1 || n2 || b2, mkSyllabicGroup s t (sy_more g ++ more) (sy_extend g))) (back_if moved it3)
            else obind (take "extend" true it3 (sy_extend g)) (fun q => let '(b4, it4, x) := q in
              omap (fun i => (i, n1 || n2 || b2, mkSyllabicGroup s t (sy_more g ++ more) x)) (back_if (moved || b4) it4))))))).

Definition lyric_turn {A} (it : iterator A) (s : bool * lyric A) : outcome (bool * iterator A * (bool * lyric A)) :=
  let '(ok, y) := s in
  obind (import "extend" it (ly_extend y)) (fun q => let '(b, c) := q in
    if b then Ok (false, it, (ok, mkLyric LyricExtend (ly_group y) c (ly_laughing y) (ly_humming y) (ly_endLine y) (ly_endParagraph y) (ly_footnote y) (ly_level y)))
    else obind (import "laughing" it (ly_laughing y)) (fun q => let '(b, c) := q in
      if b then Ok (false, it, (ok, mkLyric Laughing (ly_group y) (ly_extend y) c (ly_humming y) (ly_endLine y) (ly_endParagraph y) (ly_footnote y) (ly_level y)))
      else obind (import "humming" it (ly_humming y)) (fun q => let '(b, c) := q in
        if b then Ok (false, it, (ok, mkLyric Humming (ly_group y) (ly_extend y) (ly_laughing y) c (ly_endLine y) (ly_endParagraph y) (ly_footnote y) (ly_level y)))
        else obind (import_syllabic it (ly_group y)) (fun q => let '(it1, ok', g) := q in
          let y1 := mkLyric SyllabicText g (ly_extend y) (ly_laughing y) (ly_humming y) in
          obind (import "end-line" it1 (ly_endLine y)) (fun q => let '(b, e) := q in
            if b then Ok (false, it1, (ok && ok', y1 e (ly_endParagraph y) (ly_footnote y) (ly_level y)))
            else obind (import "end-paragraph" it1 (ly_endParagraph y)) (fun q => let '(b, p) := q in
              if b then Ok (false, it1, (ok && ok', y1 (ly_endLine y) p (ly_footnote y) (ly_level y)))
              else omap (fun q => let '(it2, f, l) := q in (false, it2, (ok && ok', y1 (ly_endLine y) (ly_endParagraph y) f l)))
                     (import_editorial it1 (ly_footnote y) (ly_level y)))))))).

Definition read_lyric {A} (children : list (node A)) : outcome (bool * lyric A) :=
  each_child lyric_turn children
    (true, mkLyric SyllabicText (mkSyllabicGroup new_child new_child [] new_child) new_child new_child new_child new_child new_child new_child new_child).

Definition write_elision_group {A} (g : elision_group A) :=
  (if eg_has g then always "elision" (eg_elision g) ++ if_has "syllabic" (eg_syllabic g) else []) ++ always "text" (eg_text g).

Definition write_lyric {A} (y : lyric A) :=
  match ly_choice y with
  | SyllabicText =>
      if_has "syllabic" (sy_syllabic (ly_group y)) ++ always "text" (sy_text (ly_group y)) ++ List.concat (map write_elision_group (sy_more (ly_group y)))
      ++ if_has "extend" (sy_extend (ly_group y))
  | LyricExtend => always "extend" (ly_extend y)
  | Laughing => always "laughing" (ly_laughing y)
  | Humming => always "humming" (ly_humming y)
  end
  ++ if_has "end-line" (ly_endLine y) ++ if_has "end-paragraph" (ly_endParagraph y) ++ write_editorial (ly_footnote y) (ly_level y).
