(** Reading the children of an element: core/FromXElement.h and .cpp, the iterators of
    ezxml, and the fromXElementImpl functions built from them. *)
From Coq Require Import List String Ascii ZArith Bool PeanoNat.
From Verif Require Import Model.Base Model.Text.
Import ListNotations.
Open Scope nat_scope.

(** A child node: an element with its name and what it contains, or a processing
    instruction. *)
Inductive node (A : Type) := NElement (name : str) (a : A) | NInstruction (name : str) (data : str).
Arguments NElement {A}.
Arguments NInstruction {A}.

(** An XElementIterator over the children of a node with mySkipProcessingInstructions
    set: what lies before it, nearest first, and what lies at and after it. *)
Record iterator (A : Type) := mkIter { it_before : list (node A); it_after : list (node A) }.
Arguments mkIter {A}.
Arguments it_before {A}.
Arguments it_after {A}.

(** The loop of PugiElementIterImpl::increment, PugiElementIterImpl.cpp:213-223. *)
Fixpoint skip_forward {A} (before after : list (node A)) : iterator A :=
  match after with
  | (NInstruction _ _ as x) :: r => skip_forward (x :: before) r
  | _ => mkIter before after
  end.

(** PugiElementIterImpl::increment, :207-225. Stepping over the end is undefined. *)
Definition increment {A} (it : iterator A) : outcome (iterator A) :=
  match it_after it with
  | [] => UB
  | x :: r => Ok (skip_forward (x :: it_before it) r)
  end.

(** PugiElementIterImpl::decrement, :228-247: not past the first child. *)
Fixpoint skip_backward {A} (before : list (node A)) (x : node A) (after : list (node A)) : iterator A :=
  match x, before with
  | NInstruction _ _, y :: b => skip_backward b y (x :: after)
  | _, _ => mkIter before (x :: after)
  end.

Definition decrement {A} (it : iterator A) : outcome (iterator A) :=
  match it_before it with
  | [] => UB
  | x :: b => Ok (skip_backward b x (it_after it))
  end.

(** PugiElement::begin, PugiElement.cpp:218-231, for a node whose first child is an
    element or a processing instruction. *)
Definition begin {A} (children : list (node A)) : iterator A :=
  match children with
  | NInstruction _ _ :: _ => skip_forward [] children
  | _ => mkIter [] children
  end.

(** it == endIter, PugiElementIterImpl.cpp:151-165. *)
Definition at_end {A} (it : iterator A) : bool := match it_after it with [] => true | _ => false end.

(** it->getName(), which is also the name of a processing instruction
    (PugiElement.cpp:96-104). At the end: an exception (:168-181). *)
Definition name_at {A} (it : iterator A) : outcome str :=
  match it_after it with
  | [] => Throw
  | NElement n _ :: _ => Ok n
  | NInstruction n _ :: _ => Ok n
  end.

(** The contents handed to fromXElement of the item. For a processing instruction that
    would be those of the next sibling (ElementInterface.cpp:122-130), which is left out:
    the iterators never stop at one. *)
Definition contents_at {A} (it : iterator A) : outcome A :=
  match it_after it with
  | NElement _ a :: _ => Ok a
  | _ => Throw
  end.

(** What an object has read, by the name of the child: for a child that occurs once, what
    its fromXElement has been given, in order; for a set, its elements. None: an element
    made by the constructor of the object. *)
Definition contents (A : Type) := str -> list (option A).

Definition put {A} (key : str) (l : list (option A)) (s : contents A) : contents A := fun k => if str_eqb k key then l else s k.

(** importElement, FromXElement.cpp:56-70: whether the name was that. *)
Definition importElement {A} (name key : str) (it : iterator A) (s : contents A) : outcome (bool * contents A) :=
  obind (name_at it) (fun n =>
    if str_eqb n name then obind (contents_at it) (fun a => Ok (true, put key (s key ++ [Some a]) s))
    else Ok (false, s)).

(** The loop of importElementSet, FromXElement.h:72-89. [first] is isFirstItemAdded (and
    doDecrementIter). The fuel is the number of nodes left, which is enough. *)
Fixpoint import_run {A} (fuel : nat) (name : str) (first : bool) (set : list (option A)) (it : iterator A) : outcome (bool * list (option A) * iterator A) :=
  match fuel with
  | O => if at_end it then Ok (first, set, it) else UB
  | S fuel =>
      if at_end it then Ok (first, set, it)
      else
        obind (name_at it) (fun n =>
          if str_eqb n name then
            obind (contents_at it) (fun a =>
              obind (increment it) (fun it' =>
                import_run fuel name true (if negb first && (List.length set =? 1) then [Some a] else set ++ [Some a]) it'))
          else Ok (first, set, it))
  end.

(** importElementSet, FromXElement.h:61-95. *)
Definition importElementSet {A} (name key : str) (it : iterator A) (s : contents A) : outcome (bool * iterator A * contents A) :=
  obind (import_run (List.length (it_after it)) name false (s key) it) (fun r =>
    let '(found, set, it') := r in
    if found then obind (decrement it') (fun it'' => Ok (true, it'', put key set s))
    else Ok (false, it', s)).

(** checkSetGroupMemberAndIncrementIter, FromXElement.h:98-123 (with :126-152), the
    iterator not at the end: whether it has been moved. *)
Definition checkSetGroupMember {A} (name key : str) (it : iterator A) (s : contents A) : outcome (bool * iterator A * contents A) :=
  obind (name_at it) (fun n =>
    if str_eqb n name then
      obind (contents_at it) (fun a => obind (increment it) (fun it' => Ok (true, it', put key (s key ++ [Some a]) s)))
    else Ok (false, it, s)).

(** checkSetGroupMemberSetAndIncrementIter, FromXElement.h:155-197: the only element is
    replaced by adding and removing the first; add and remove are without limits for the
    groups concerned (LayoutGroup, BeatUnitGroup). *)
Fixpoint import_member_run {A} (fuel : nat) (name : str) (first : bool) (set : list (option A)) (it : iterator A) : outcome (bool * list (option A) * iterator A) :=
  match fuel with
  | O => if at_end it then Ok (first, set, it) else UB
  | S fuel =>
      if at_end it then Ok (first, set, it)
      else
        obind (name_at it) (fun n =>
          if str_eqb n name then
            obind (contents_at it) (fun a =>
              obind (increment it) (fun it' =>
                import_member_run fuel name true (if negb first && (List.length set =? 1) then tl (set ++ [Some a]) else set ++ [Some a]) it'))
          else Ok (first, set, it))
  end.

Definition checkSetGroupMemberSet {A} (name key : str) (it : iterator A) (s : contents A) : outcome (bool * iterator A * contents A) :=
  obind (import_member_run (List.length (it_after it)) name false (s key) it) (fun r =>
    let '(found, set, it') := r in Ok (found, it', if found then put key set s else s)).

(** A member of a group: the name, whether it is a set, and where it is kept. *)
Record group_member := mkMember { gm_name : str; gm_many : bool; gm_key : str }.

(** importGroup, FromXElement.cpp:86-104,152-182,211-241: the members in turn, each
    followed by isEndWithDecrementIfNeeded (:72-84). [back]: the function ends with
    if( isIterIncremented ) { --iter; }. *)
Fixpoint importGroup {A} (back : bool) (members : list group_member) (moved : bool) (it : iterator A) (s : contents A) : outcome (iterator A * contents A) :=
  match members with
  | [] => if back && moved then omap (fun it' => (it', s)) (decrement it) else Ok (it, s)
  | m :: r =>
      obind ((if gm_many m then checkSetGroupMemberSet else checkSetGroupMember) (gm_name m) (gm_key m) it s) (fun q =>
        let '(found, it', s') := q in
        if at_end it' then
          if moved || found then omap (fun it'' => (it'', s')) (decrement it') else Ok (it', s')
        else importGroup back r (moved || found) it' s')
  end.

(** The statements in the loop of a fromXElementImpl. [stop]: the statement is
    if( .. ) { continue; }. [Each]: an item for each child with one of the names. *)
Inductive step :=
| One (name key : str) (stop : bool)
| Many (name key : str) (initial : nat) (stop : bool)
| Group (members : list group_member) (back : bool)
| Each (names : list str) (key : str).

Fixpoint run_steps {A} (steps : list step) (it : iterator A) (s : contents A) : outcome (iterator A * contents A) :=
  match steps with
  | [] => Ok (it, s)
  | One name key stop :: r =>
      obind (importElement name key it s) (fun q =>
        let (found, s') := q in if found && stop then Ok (it, s') else run_steps r it s')
  | Many name key _ stop :: r =>
      obind (importElementSet name key it s) (fun q =>
        let '(found, it', s') := q in if found && stop then Ok (it', s') else run_steps r it' s')
  | Group members back :: r =>
      obind (importGroup back members false it s) (fun q => run_steps r (fst q) (snd q))
  | Each names key :: r =>
      obind (name_at it) (fun n =>
        if existsb (str_eqb n) names then obind (contents_at it) (fun a => Ok (it, put key (s key ++ [Some a]) s))
        else run_steps r it s)
  end.

(** for( auto it = xelement.begin(); it != endIter; ++it ) *)
Fixpoint read_loop {A} (fuel : nat) (steps : list step) (it : iterator A) (s : contents A) : outcome (contents A) :=
  match fuel with
  | O => if at_end it then Ok s else UB
  | S fuel =>
      if at_end it then Ok s
      else obind (run_steps steps it s) (fun q => obind (increment (fst q)) (fun it' => read_loop fuel steps it' (snd q)))
  end.

(** The constructor: default elements in the sets that have them. *)
Fixpoint initial_contents {A} (steps : list step) : contents A :=
  match steps with
  | Many _ key n _ :: r => put key (repeat None n) (initial_contents r)
  | _ :: r => initial_contents r
  | [] => fun _ => []
  end.

Definition read_children {A} (steps : list step) (children : list (node A)) : outcome (contents A) :=
  read_loop (List.length children) steps (begin children) (initial_contents steps).

(** The classes. [cl_writes]: the children in the order in which streamContents writes
    them. *)
Record element_class := mkClass { cl_name : str; cl_steps : list step; cl_writes : list str }.

Definition one (n : string) : step := One (lit n) (lit n) true.
Definition one_on (n : string) : step := One (lit n) (lit n) false.
Definition many (n : string) : step := Many (lit n) (lit n) 0 false.
Definition many_from (k : nat) (n : string) : step := Many (lit n) (lit n) k false.
Definition many_stop (n : string) : step := Many (lit n) (lit n) 0 true.
Definition single (n : string) : group_member := mkMember (lit n) false (lit n).

(** EditorialGroup, FromXElement.cpp:86-104; EditorialGroup.cpp:47-64. *)
Definition editorial : step := Group [single "footnote"; single "level"] false.
(** EditorialVoiceGroup, FromXElement.cpp:108-129; EditorialVoiceGroup.cpp:53-78. *)
Definition editorial_voice : step := Group [single "footnote"; single "level"; single "voice"] false.
(** LayoutGroup, FromXElement.cpp:153-182; LayoutGroup.cpp:50-96. *)
Definition layout : step := Group [single "page-layout"; single "system-layout"; mkMember (lit "staff-layout") true (lit "staff-layout")] true.

Definition class (name : string) (steps : list step) (writes : list string) : element_class := mkClass (lit name) steps (map lit writes).

Local Open Scope string_scope.
(** Ornaments.cpp:145-185, 47-62. *)
Definition ornaments_class : element_class := mkClass (lit "ornaments")
  [Each (map lit ["trill-mark"; "turn"; "delayed-turn"; "inverted-turn"; "delayed-inverted-turn"; "vertical-turn"; "shake"; "wavy-line"; "mordent";
                  "inverted-mordent"; "schleifer"; "tremolo"; "other-ornament"]) (lit "ornament");
   many_stop "accidental-mark"]
  [lit "ornament"; lit "accidental-mark"].

(** NoteRelationNote.cpp:131-143, 48-67, with MetronomeRelationGroup, FromXElement.cpp:211-241;
    the second metronome-note is that of the group. *)
Definition note_relation_class : element_class := mkClass (lit "metronome")
  [many_from 1 "metronome-note"; Group [single "metronome-relation"; mkMember (lit "metronome-note") false (lit "related metronome-note")] true]
  (map lit ["metronome-note"; "metronome-relation"; "related metronome-note"]).

(** MetronomeTuplet.cpp:139-163, 50-64. The third member is a
    TimeModificationNormalTypeNormalDot, whose name is empty
    (TimeModificationNormalTypeNormalDot.cpp:32-35) and whose streamContents writes a
    normal-type and the normal-dots. *)
Definition metronome_tuplet_class : element_class := mkClass (lit "metronome-tuplet")
  [one "actual-notes"; one "normal-notes"; one ""] (map lit ["actual-notes"; "normal-notes"; "normal-type"; "normal-dot"]).

(** Sound.cpp:178-192, 52-79. *)
Definition sound_class : element_class := mkClass (lit "sound")
  [one "midi-device"; one "midi-instrument"; one "play"] (map lit ["midi-device"; "midi-instrument"; "play"]).

(** streamContents of a class: all children that are there, in the order of [cl_writes]. *)
Definition write_children {A} (c : element_class) (s : str -> list A) : list (node A) :=
  flat_map (fun k => map (NElement k) (s k)) (cl_writes c).
