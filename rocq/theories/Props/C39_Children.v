(** C39: reading a run of repeated child elements keeps all of them in order. *)
From Coq Require Import List String Ascii ZArith Bool PeanoNat.
From Verif Require Import Model.Base Model.Text Model.ElementReading Model.ElementClasses Spec.ChildOrder Spec.Children Proofs.ReadingProofs Proofs.ReadingFaults.
Import ListNotations.
Open Scope nat_scope.
Open Scope list_scope.

(** Importing a run: exactly these children, in order, after those that are in the set
    (a single one is replaced); the cursor is left on the last of the run, whatever
    processing instructions and other elements follow. *)
Theorem C39_run : forall A name key (s : contents A) before run a after,
  match elements after with (n, _) :: _ => n <> name | [] => True end ->
  importElementSet name key (mkIter before (map (NElement name) (run ++ [a]) ++ after)) s
  = Ok (true, mkIter (rev (map (NElement name) run) ++ before) (NElement name a :: after),
        put key (if List.length (s key) =? 1 then map Some (run ++ [a]) else s key ++ map Some (run ++ [a])) s).
Proof. exact set_cursor. Qed.
Print Assumptions C39_run.

Theorem C39_no_run : forall A name key (s : contents A) it,
  match it_after it with NElement n _ :: _ => n <> name | NInstruction n _ :: _ => n <> name | [] => True end ->
  importElementSet name key it s = Ok (false, it, s).
Proof. exact set_no_match. Qed.
Print Assumptions C39_no_run.

(** Children in the order of the schema, with any processing instructions among them: all
    of them are kept, in order, under their names. *)
Theorem C39_in_order : forall c, In c element_classes -> forall o, In (cl_name c, o) schema_order ->
  forall A (children : list (node A)), in_order o (map fst (elements children)) ->
  exists s, read_children (cl_steps c) children = Ok s
    /\ forall name, match named name children with [] => Forall (eq None) (s name) | l => s name = map Some l end.
Proof. exact read_ordered. Qed.
Print Assumptions C39_in_order.

Theorem C39_covered : map cl_name element_classes = map fst schema_order.
Proof. exact classes_covered. Qed.
Print Assumptions C39_covered.

Example C39_in_order_nonvacuous :
  let children := [NInstruction (lit "p") (lit "q"); NElement (lit "slash-type") 1; NElement (lit "slash-dot") 2; NInstruction (lit "p") []; NElement (lit "slash-dot") 3;
                   NElement (lit "slash-dot") 4] in
  in_order [(lit "slash-type", Some 1); (lit "slash-dot", None)] (map fst (elements children))
  /\ In (lit "slash", [(lit "slash-type", Some 1); (lit "slash-dot", None)]) schema_order
  /\ named (lit "slash-dot") children = [2; 3; 4].
Proof. exact slash_example. Qed.

(** Any children, in any order: reading never fails, *)
Theorem C39_never_fails : forall A steps (children : list (node A)), exists s, read_children steps children = Ok s.
Proof. exact read_total. Qed.
Print Assumptions C39_never_fails.

(** nothing is made up, read twice or turned around, *)
Theorem C39_nothing_twice : forall c, In c element_classes -> forall A (children : list (node A)) s, read_children (cl_steps c) children = Ok s ->
  forall name, picked (given (s name)) (named name children).
Proof. exact read_picked. Qed.
Print Assumptions C39_nothing_twice.

(** and processing instructions among the children make no difference. *)
Theorem C39_instructions : forall A steps (children : list (node A)), read_children steps children = read_children steps (without_instructions children).
Proof. exact read_instructions. Qed.
Print Assumptions C39_instructions.

(** The children are written in the order of the schema, and so all of them are read back. *)
Theorem C39_written : forall c, In c element_classes -> forall o, In (cl_name c, o) schema_order ->
  forall A (s : str -> list A), (forall n b, In (n, Some b) o -> List.length (s n) <= b) ->
  in_order o (map fst (elements (write_children c s))) /\ forall name, In name (map fst o) -> named name (write_children c s) = s name.
Proof. exact write_ordered. Qed.
Print Assumptions C39_written.

Theorem C39_round_trip : forall c, In c element_classes -> forall o, In (cl_name c, o) schema_order ->
  forall A (s : str -> list A), (forall n b, In (n, Some b) o -> List.length (s n) <= b) ->
  exists s', read_children (cl_steps c) (write_children c s) = Ok s'
    /\ forall name, In name (map fst o) -> match s name with [] => Forall (eq None) (s' name) | l => s' name = map Some l end.
Proof. exact write_read. Qed.
Print Assumptions C39_round_trip.

Example C39_round_trip_nonvacuous :
  let s := fun name => if str_eqb name (lit "slash-dot") then [2; 3; 4] else if str_eqb name (lit "slash-type") then [1] else [] in
  (forall n b, In (n, Some b) [(lit "slash-type", Some 1); (lit "slash-dot", None)] -> List.length (s n) <= b)
  /\ exists c, In c element_classes /\ cl_name c = lit "slash" /\ map fst (elements (write_children c s)) = map lit ["slash-type"; "slash-dot"; "slash-dot"; "slash-dot"]%string.
Proof. exact slash_written. Qed.

(** The full statement for ornaments, whose children the schema lets alternate: all
    accidental marks are kept. False: the first of the second run replaces the only one
    of the first run. *)
Definition C39_ornaments_claim : Prop := forall A (children : list (node A)) s,
  (forall name a, In (NElement name a) children -> In name (map lit ["trill-mark"; "turn"; "accidental-mark"]%string)) ->
  read_children (cl_steps ornaments_class) children = Ok s -> s (lit "accidental-mark") = map Some (named (lit "accidental-mark") children).

Theorem C39_ornaments_refuted : ~ C39_ornaments_claim.
Proof. exact ornaments_lost. Qed.
Print Assumptions C39_ornaments_refuted.

(** Ornaments are all kept, and the accidental marks if they form one run. *)
Theorem C39_ornaments_partial : forall A (ornaments : list (str * A)) marks rest,
  (forall name a, In (name, a) (ornaments ++ rest) ->
     In name (map lit ["trill-mark"; "turn"; "delayed-turn"; "inverted-turn"; "delayed-inverted-turn"; "vertical-turn"; "shake"; "wavy-line"; "mordent";
                       "inverted-mordent"; "schleifer"; "tremolo"; "other-ornament"]%string)) ->
  exists s, read_children (cl_steps ornaments_class)
      (map (fun p => NElement (fst p) (snd p)) ornaments ++ map (NElement (lit "accidental-mark")) marks ++ map (fun p => NElement (fst p) (snd p)) rest) = Ok s
    /\ s (lit "ornament") = map (fun p => Some (snd p)) (ornaments ++ rest) /\ s (lit "accidental-mark") = map Some marks.
Proof. exact ornaments_kept. Qed.
Print Assumptions C39_ornaments_partial.

(** The metronome notes of a metronome: those before a metronome-relation and those after. *)
Definition C39_metronome_claim : Prop := forall A (left right : list A) relation s,
  left <> [] ->
  read_children (cl_steps note_relation_class)
    (map (NElement (lit "metronome-note")) left ++ match right with [] => [] | _ => NElement (lit "metronome-relation") relation :: map (NElement (lit "metronome-note")) right end) = Ok s ->
  s (lit "metronome-note") = map Some left.

Theorem C39_metronome_refuted : ~ C39_metronome_claim.
Proof. exact metronome_lost. Qed.
Print Assumptions C39_metronome_refuted.

(** With no metronome-relation the last metronome note is taken for the one after it. *)
Theorem C39_metronome_twice : forall A (left : list A) a,
  exists s, read_children (cl_steps note_relation_class) (map (NElement (lit "metronome-note")) (left ++ [a])) = Ok s
    /\ s (lit "metronome-note") = map Some (left ++ [a]) /\ s (lit "related metronome-note") = [Some a].
Proof. exact metronome_twice. Qed.
Print Assumptions C39_metronome_twice.

(** The normal-type and normal-dots of a metronome-tuplet are never read; *)
Theorem C39_metronome_tuplet_lost : forall A (children : list (node A)) s, read_children (cl_steps metronome_tuplet_class) children = Ok s ->
  s (lit "normal-type") = [] /\ s (lit "normal-dot") = [].
Proof. exact metronome_tuplet_lost. Qed.
Print Assumptions C39_metronome_tuplet_lost.

(** nor is the offset of a sound. *)
Theorem C39_sound_offset_lost : forall A (children : list (node A)) s, read_children (cl_steps sound_class) children = Ok s -> s (lit "offset") = [].
Proof. exact sound_offset_lost. Qed.
Print Assumptions C39_sound_offset_lost.

(** After a group of layouts reading goes on with the child that follows it, wherever that
    belongs. *)
Example C39_layout_misplaced :
  exists c s, In c element_classes /\ cl_name c = lit "defaults" /\ read_children (cl_steps c) [NElement (lit "page-layout") 1; NElement (lit "scaling") 2; NElement (lit "appearance") 3] = Ok s
    /\ s (lit "page-layout") = [Some 1] /\ s (lit "scaling") = [Some 2] /\ s (lit "appearance") = [Some 3].
Proof.
  destruct (find (fun c => str_eqb (cl_name c) (lit "defaults")) element_classes) as [c|] eqn:F; [|vm_compute in F; discriminate F].
  pose proof (find_some _ _ F) as (I & _). vm_compute in F. exists c. injection F as <-.
  eexists. split; [exact I|]. split; [reflexivity|]. split; [vm_compute; reflexivity|]. repeat split.
Qed.
