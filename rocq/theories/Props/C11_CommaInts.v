(** C11: comma-separated positive integers. *)
From Verif Require Import Proofs.Tac Model.Base Model.Text Model.CommaInts
  Spec.Numerals Spec.XmlText Spec.CommaText Proofs.CommaProofs.
Open Scope Z_scope.

(** After any history (arguments being ints) the values are positive ints in
    ascending order without duplicates; no call fails. *)
Theorem C11_history s os : start_ints s -> Forall op_ints os ->
  exists c, ci_run s os = Ok c /\ ascending (ciValues c) /\ Forall (fun z => 0 < z <= int_max) (ciValues c).
Proof. exact (ci_run_good s os). Qed.

(** setValues keeps exactly the positive members. *)
Theorem C11_setValues c s z :
  (In z (ciValues (ci_setValues c s)) <-> In z s /\ 0 < z) /\ ciSpacing (ci_setValues c s) = ciSpacing c.
Proof. exact (conj (proj2 (copyPositives_spec s) z) eq_refl). Qed.

(** The text is the decimal numerals in ascending order, separated by "," or ", ". *)
Theorem C11_print_form c :
  ci_print c = join ([","%char] ++ if ciSpacing c then [" "%char] else []) (map print_int (ciValues c)).
Proof. exact (ci_print_join c). Qed.

(** Parsing the text of any reachable list into any other gives the same values. *)
Theorem C11_print_parse s os c c0 : start_ints s -> Forall op_ints os -> ci_run s os = Ok c ->
  exists r, ci_parse c0 (ci_print c) = Ok r /\ ciValues r = ciValues c.
Proof.
  exact (fun H1 H2 H3 => match ci_run_good s os H1 H2 with
    | ex_intro _ c' (conj E G) =>
        ci_roundtrip c c0 (eq_ind c' ci_good G c (f_equal (fun o => match o with Ok x => x | _ => c end) (eq_trans (eq_sym E) H3)))
    end).
Qed.

(** Parsing a comma-separated list of ints, with any other characters strewn in,
    stores exactly its positive members. *)
Theorem C11_parse_list c t ns : listing t ns -> (forall n, In (Some n) ns -> is_int n) ->
  exists r, ci_parse c t = Ok r /\ ciSpacing r = ciSpacing c /\
    forall z, In z (ciValues r) <-> 0 < z /\ In (Some z) ns.
Proof. exact (listing_parse c t ns). Qed.

Example C11_example :
  ci_parse ci_default (lit "3, 1,,2 , -7, 3,0") = Ok (CommaInts [1; 2; 3] false) /\
  ci_print (ci_of_set true [5; -1; 12]) = lit "5, 12" /\
  ci_run (CiFromSet true [5; -1; 12]) [CiSet [9; 4]; CiSpacing false] = Ok (CommaInts [4; 9] false) /\
  start_ints (CiFromSet true [5; -1; 12]).
Proof. repeat split; try reflexivity. simpl. repeat constructor; unfold is_int; lia. Qed.

Example C11_example_listing : listing (lit "3, -1") [Some 3; Some (-1)].
Proof.
  exists [lit "3"; lit "-1"]. split; [|split; [discriminate|]].
  - constructor; [|constructor; [|constructor]].
    + apply piece_pos. split; [discriminate|]. apply (nt_cons "3"%char 3 [] 0); [unfold digit_is; simpl; auto 10|constructor].
    + apply (piece_neg (lit "1") 1). split; [discriminate|]. apply (nt_cons "1"%char 1 [] 0); [unfold digit_is; simpl; auto 10|constructor].
  - assert (Y : forall c, ci_allowed c = true -> list_char c) by (intros; apply ci_allowed_spec; assumption).
    simpl. apply kept_yes; [apply Y; reflexivity|]. apply kept_yes; [apply Y; reflexivity|].
    apply kept_no; [apply space_ignored|]. apply kept_yes; [apply Y; reflexivity|]. apply kept_yes; [apply Y; reflexivity|]. constructor.
Qed.

Print Assumptions C11_history.
Print Assumptions C11_setValues.
Print Assumptions C11_print_form.
Print Assumptions C11_print_parse.
Print Assumptions C11_parse_list.
