(* C62: what an element of a file keeps of its attributes when it is read and
   written again, against the attributes MusicXML gives it. *)

From Coq Require Import String List Bool Permutation.
From Verif Require Import Model.Attributes Model.AttributeClasses Spec.SchemaAttributes Spec.AttributeExamples
  Proofs.AttributeProofs Proofs.AttributeFindings.
Import ListNotations.
Open Scope string_scope.
Open Scope list_scope.

(* The full claim is false: the colour of a beam, for one, is dropped. *)
Theorem C62_back_refuted :
  ~ (forall takes initial e attrs, In e elements -> conforms takes (e_name e) attrs ->
       accepted takes initial e attrs = true /\ Permutation (rewritten takes initial e attrs) attrs).
Proof. exact back_refuted. Qed.
Print Assumptions C62_back_refuted.

(* Attributes as the schema has them come back, all of them and nothing else, if
   none of them is on the list of the lost or of the doubled. *)
Theorem C62_back_partial : forall takes initial e attrs, In e elements ->
  mem (e_name e) unreadable = false -> conforms takes (e_name e) attrs ->
  (forall n, In n (names attrs) -> lost (e_name e) n = false /\ doubled (e_name e) n = false) ->
  Permutation (rewritten takes initial e attrs) attrs.
Proof. exact conforming_same. Qed.
Print Assumptions C62_back_partial.

Example C62_back_example :
  let e := the_element "Slur" in
  let attrs := [("number", "2"); ("type", "start"); ("bezier-x", "12.5"); ("color", "#FF0000")] in
  In e elements /\ e_name e = "slur" /\ mem (e_name e) unreadable = false /\
  conforms verbatim (e_name e) attrs /\
  (forall n, In n (names attrs) -> lost (e_name e) n = false /\ doubled (e_name e) n = false) /\
  rewritten verbatim blank e attrs =
    [("type", "start"); ("number", "2"); ("bezier-x", "12.5"); ("color", "#FF0000")].
Proof.
  cbn zeta. split; [apply the_element_in; vm_compute; reflexivity|]. split; [reflexivity|].
  split; [reflexivity|]. split; [apply conforms_by; vm_compute; reflexivity|].
  split; [|vm_compute; reflexivity].
  intros n [<-|[<-|[<-|[<-|[]]]]]; vm_compute; split; reflexivity.
Qed.

(* For every element but link and opus: such attributes are accepted, and exactly
   those that are not lost are written again. *)
Theorem C62_kept : forall takes initial e attrs, In e elements ->
  mem (e_name e) unreadable = false -> conforms takes (e_name e) attrs ->
  accepted takes initial e attrs = true /\
  forall n x, In (n, x) (rewritten takes initial e attrs) <-> In (n, x) (kept (e_name e) attrs).
Proof. exact conforming_back. Qed.
Print Assumptions C62_kept.

(* Each is written once, but for dash-length, which four elements write twice:
   what they write is not well-formed. *)
Theorem C62_times : forall takes initial e attrs n, In e elements ->
  mem (e_name e) unreadable = false -> conforms takes (e_name e) attrs ->
  times n (rewritten takes initial e attrs) =
  (if doubled (e_name e) n then 2 else 1) * times n (kept (e_name e) attrs).
Proof. exact conforming_times. Qed.
Print Assumptions C62_times.

Example C62_times_example :
  let e := the_element "Doit" in
  let attrs := [("color", "#FF0000"); ("dash-length", "4"); ("line-type", "dashed")] in
  In e elements /\ conforms verbatim (e_name e) attrs /\
  rewritten verbatim blank e attrs =
    [("dash-length", "4"); ("line-type", "dashed"); ("dash-length", "4")].
Proof.
  cbn zeta. split; [apply the_element_in; vm_compute; reflexivity|].
  split; [apply conforms_by; vm_compute; reflexivity|vm_compute; reflexivity].
Qed.

(* A link or an opus of a file is always refused: their xlink:href is required
   and is looked for as href. *)
Theorem C62_links_refused : forall takes initial e attrs, In e elements ->
  In (e_name e) unreadable -> conforms takes (e_name e) attrs ->
  accepted takes initial e attrs = false.
Proof. exact unreadable_refused. Qed.
Print Assumptions C62_links_refused.

Example C62_links_example :
  let e := the_element "Link" in
  In e elements /\ In (e_name e) unreadable /\
  conforms verbatim (e_name e) [("xlink:href", "a.xml"); ("name", "A")] /\
  accepted verbatim blank e [("xlink:href", "a.xml"); ("name", "A")] = false /\
  accepted verbatim blank e [("href", "a.xml")] = true.
Proof.
  cbn zeta. split; [apply the_element_in; vm_compute; reflexivity|].
  split; [vm_compute; tauto|]. split; [apply conforms_by; vm_compute; reflexivity|].
  split; vm_compute; reflexivity.
Qed.

(* "An element without a required attribute is refused" is false for a bracket,
   which is accepted and written with values of the program's own. *)
Theorem C62_required_refuted :
  ~ (forall takes initial e attrs a, In e elements -> In a (schema_of (e_name e)) ->
       sa_required a = true -> ~ In (sa_name a) (names attrs) ->
       accepted takes initial e attrs = false).
Proof. exact required_refuted. Qed.
Print Assumptions C62_required_refuted.

Theorem C62_bracket : forall takes initial,
  accepted takes initial (the_element "Bracket") [] = true /\
  rewritten takes initial (the_element "Bracket") [] =
    [("type", initial "type"); ("line-end", initial "lineEnd")].
Proof. exact bracket_lenient. Qed.
Print Assumptions C62_bracket.

(* It is true for the others, as long as no other name is used for it. *)
Theorem C62_required_partial : forall takes initial e attrs a, In e elements ->
  mem (e_name e) unreadable = false -> e_name e <> "bracket" ->
  In a (schema_of (e_name e)) -> sa_required a = true -> ~ In (sa_name a) (names attrs) ->
  (forall n, In n (names attrs) -> alias (e_name e) n = false) ->
  accepted takes initial e attrs = false.
Proof. exact required_missing. Qed.
Print Assumptions C62_required_partial.

Example C62_required_example :
  let e := the_element "Tie" in let a := mkSchema "type" true "start-stop" in
  In e elements /\ mem (e_name e) unreadable = false /\ e_name e <> "bracket" /\
  In a (schema_of (e_name e)) /\ ~ In (sa_name a) (names [("time-only", "1")]) /\
  (forall n, In n (names [("time-only", "1")]) -> alias (e_name e) n = false).
Proof.
  cbn zeta. split; [apply the_element_in; vm_compute; reflexivity|]. split; [reflexivity|].
  split; [vm_compute; discriminate|]. split; [vm_compute; tauto|].
  split; [intros [Q|[]]; discriminate Q|]. intros n [<-|[]]; vm_compute; reflexivity.
Qed.

(* Names neither the schema nor the element knows are passed over. *)
Theorem C62_unknown : forall takes initial e attrs, In e elements ->
  let known := filter (fun a => allowed (e_name e) (fst a) || alias (e_name e) (fst a)) attrs in
  accepted takes initial e attrs = accepted takes initial e known /\
  rewritten takes initial e attrs = rewritten takes initial e known.
Proof. exact unknown_ignored. Qed.
Print Assumptions C62_unknown.

(* Any attributes are accepted if the required ones are there and the values of
   the checked types read as they stand; other values are not looked at. *)
Theorem C62_accepted : forall takes initial e attrs, In e elements ->
  mem (e_name e) unreadable = false ->
  (forall n, In n (names attrs) -> alias (e_name e) n = false) ->
  (forall a, In a (schema_of (e_name e)) -> sa_required a = true -> In (sa_name a) (names attrs)) ->
  (forall n x a c, In (n, x) attrs -> In a (schema_of (e_name e)) -> sa_name a = n ->
     In (sa_type a) checked_types -> class_of (sa_type a) = Some c ->
     forall old, takes c old x = x) ->
  accepted takes initial e attrs = true.
Proof. exact accepted_when. Qed.
Print Assumptions C62_accepted.

(* And a value of a checked type that no longer says the same is refused. *)
Theorem C62_checked : forall takes initial e attrs n x a c, In e elements ->
  accepted takes initial e attrs = true -> In (n, x) attrs ->
  In a (schema_of (e_name e)) -> sa_name a = n -> lost (e_name e) n = false ->
  In (sa_type a) checked_types -> class_of (sa_type a) = Some c -> exists old, takes c old x = x.
Proof. exact accepted_checked. Qed.
Print Assumptions C62_checked.

(* Accepted and refused, when whole numbers read as 0. *)
Example C62_checked_example :
  let takes := fun c _ x => if String.eqb c "NumberLevel" then "0" else if String.eqb c "TenthsValue" then "0" else x in
  let e := the_element "Slur" in
  accepted takes blank e [("type", "start"); ("number", "0")] = true /\
  accepted takes blank e [("type", "start"); ("number", "one")] = false /\
  accepted takes blank e [("type", "start"); ("default-x", "wide")] = true /\
  rewritten takes blank e [("type", "start"); ("default-x", "wide")] =
    [("type", "start"); ("default-x", "0")].
Proof. cbn zeta. repeat split; vm_compute; reflexivity. Qed.

(* Whatever the attributes are, one that is kept is written with the value its
   type made of the last text given for it. *)
Theorem C62_value : forall takes initial e attrs a x, In e elements ->
  (forall n, In n (names attrs) -> alias (e_name e) n = false) ->
  In a (schema_of (e_name e)) -> lost (e_name e) (sa_name a) = false ->
  last_of (sa_name a) attrs = Some x ->
  exists c old, class_of (sa_type a) = Some c /\
    In (sa_name a, takes c old x) (rewritten takes initial e attrs).
Proof.
  exact (fun takes initial e attrs a x He A Ha L Hx =>
           value_back takes initial e attrs (all_good e He) A a x Ha L Hx).
Qed.
Print Assumptions C62_value.

(* Nothing is written that was not there, except what is required. *)
Theorem C62_nothing_else : forall takes initial e attrs n x, In e elements ->
  (forall m, In m (names attrs) -> alias (e_name e) m = false) ->
  In (n, x) (rewritten takes initial e attrs) ->
  In n (names attrs) \/
  exists a, In a (schema_of (e_name e)) /\ sa_name a = n /\ sa_required a = true.
Proof.
  exact (fun takes initial e attrs n x He A H =>
           nothing_else takes initial e attrs (all_good e He) A n x H).
Qed.
Print Assumptions C62_nothing_else.

(* And nothing the schema does not have, but for print-object in five elements. *)
Theorem C62_written_allowed : forall takes initial e attrs n x, In e elements ->
  In (n, x) (rewritten takes initial e attrs) ->
  allowed (e_name e) n = true \/
  (n = "print-object" /\ In (e_name e) ["coda"; "damp"; "damp-all"; "eyeglasses"; "segno"]).
Proof. exact written_allowed. Qed.
Print Assumptions C62_written_allowed.

(* The other names an element knows stand for those of the schema. *)
Theorem C62_other_names : forall takes initial e attrs l n t x, In e elements ->
  In (e_name e, l) also_known -> In (n, t) l ->
  NoDup (names attrs) -> In (n, x) attrs -> (In t (names attrs) -> t = n) ->
  exists c old, In (t, takes c old x) (rewritten takes initial e attrs).
Proof. exact alias_back. Qed.
Print Assumptions C62_other_names.

Example C62_other_names_example :
  let e := the_element "Tied" in
  In e elements /\
  rewritten verbatim blank e [("type", "start"); ("bezier-x2", "1")] = [("type", "start")] /\
  rewritten verbatim blank e [("type", "start"); ("bezier-x-2", "1")] =
    [("type", "start"); ("bezier-x2", "1")].
Proof. cbn zeta. split; [apply the_element_in; vm_compute; reflexivity|]. split; vm_compute; reflexivity. Qed.
