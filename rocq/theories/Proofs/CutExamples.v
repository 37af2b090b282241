(** The examples of C55. *)
From Coq Require Import List Ascii String Lia.
From Verif Require Import Proofs.Tac Model.Base Model.Text Model.PugiText Model.XmlStream.
From Verif Require Import Spec.XmlGrammar Spec.XmlTrees Spec.Instructions Spec.StreamCases Spec.XmlCuts.
From Verif Require Import Proofs.PugiProofs Proofs.PugiReads Proofs.PugiCuts Proofs.StreamCuts Proofs.StreamReads Proofs.StreamExamples.
Import ListNotations.
Open Scope nat_scope.
Open Scope list_scope.

Lemma nm s : is_name (lit s) = true -> xml_name (lit s).
Proof. apply is_name_iff. Qed.
Lemma characters_b s : existsb (Ascii.eqb "000") s = false -> Forall character s.
Proof. intros H. apply characters_no_zero. apply existsb_not. exact H. Qed.

Lemma one_attribute n v : xml_name n -> forallb (fun c => negb (existsb (Ascii.eqb c) (lit "'<&" ++ ["000"; "009"; "010"; "013"; " "]))%char) v = true ->
  attributes_spelled [(n, v)] (lit " " ++ n ++ lit "='" ++ v ++ lit "'").
Proof.
  intros XN H.
  assert (V : value_spelled "'" v v).
  { induction v as [ | c v IH]; [constructor | ]. cbn [forallb] in H. apply andb_prop in H. destruct H as [H1 H2].
    apply Bool.negb_true_iff in H1. apply existsb_not in H1. cbn [In lit list_ascii_of_string app] in H1.
    apply value_char; [ | | | | | exact (IH H2)]; unfold character, blank; try (intros ->; apply H1; cbn; tauto).
    intros B. apply H1. intuition (subst; cbn; tauto). }
  pose proof (attributes_next n v [] (lit " ") [] [] "'" v []) as A. cbn [app] in A. rewrite ?app_nil_r in *.
  change (lit " " ++ n ++ lit "='" ++ v ++ lit "'") with (lit " " ++ n ++ "="%char :: "'"%char :: v ++ ["'"%char]).
  apply A; try exact XN; try (constructor; fail); try exact V.
  - discriminate.
  - constructor; [left; reflexivity | constructor].
  - right. reflexivity.
Qed.

Lemma plain_text t : forallb (fun c => negb (existsb (Ascii.eqb c) ["<"; "&"; "013"; "000"]))%char t = true -> text_spelled t t.
Proof.
  induction t as [ | c t IH]; intros H; [constructor | ]. cbn [forallb] in H. apply andb_prop in H. destruct H as [H1 H2].
  apply Bool.negb_true_iff in H1. apply existsb_not in H1. cbn [In] in H1.
  apply text_char; [ | | | | exact (IH H2)]; unfold character; intros ->; apply H1; tauto.
Qed.
Lemma text_content t : forallb (fun c => negb (existsb (Ascii.eqb c) ["<"; "&"; "013"; "000"]))%char t = true -> skip_space t <> [] ->
  content_spelled [XText t] t.
Proof.
  intros H NB. rewrite <- (app_nil_r t) at 2. apply XmlGrammar.content_text; [exact (plain_text t H) | | left; reflexivity | apply XmlGrammar.content_end; constructor].
  intros B. exact (NB (skip_all t B)).
Qed.

Lemma cut_case : outside [XInstruction (lit "i") (Some (lit "j"))] (lit "<?i j?><!--c-->") /\
  node_spelled (XElement (lit "a") [(lit "b", lit "c")] [XText (lit "d")]) (lit "<a b='c'>d</a>").
Proof.
  split.
  - left. apply (XmlGrammar.top_node [] (XInstruction (lit "i") (Some (lit "j"))) (lit "<?i j?>") [] (lit "<!--c-->")); [constructor | | exact I | ].
    + apply (node_instruction_data (lit "i") (lit " ") (lit "j")).
      * apply nm. reflexivity.
      * apply not_reserved_b. reflexivity.
      * discriminate.
      * constructor; [left; reflexivity | constructor].
      * intros ([ | x [ | y z]] & b & E); discriminate E.
      * apply characters_b. reflexivity.
      * intros c r E. injection E as <- _. unfold blank. intuition discriminate.
    + apply (XmlGrammar.top_comment [] (lit "c") [] []); [constructor | | apply characters_b; reflexivity | apply XmlGrammar.top_end; constructor].
      intros ([ | x [ | y z]] & b & E); discriminate E.
  - apply (node_element (lit "a") [(lit "b", lit "c")] (lit " b='c'") [] [XText (lit "d")] (lit "d") []).
    + apply nm. reflexivity.
    + apply (one_attribute (lit "b") (lit "c")); [apply nm; reflexivity | reflexivity].
    + constructor.
    + apply text_content; [reflexivity | discriminate].
    + constructor.
Qed.

Lemma written_case : exists t, write_stream Partwise (score [] [note [] (lit "t")]) = Ok t /\
  well_formed (score [] [note [] (lit "t")]) /\
  read_stream (firstn 200 t) = Throw /\ read_stream (removelast t) = Ok (Partwise, score [] [note [] (lit "t")]) /\
  200 < List.length t.
Proof.
  eexists. split; [vm_compute; reflexivity | ]. split; [apply well_formed_decided; vm_compute; reflexivity | ].
  split; [vm_compute; reflexivity | ]. split; [vm_compute; reflexivity | ]. apply PeanoNat.Nat.ltb_lt. vm_compute. reflexivity.
Qed.

Lemma open_case : left_open (lit "b") (lit "<a>x<b c='d'>y") /\ outside [] [] /\ lit "a" <> lit "b".
Proof.
  split; [ | split; [left; apply XmlGrammar.top_end; constructor | discriminate]].
  apply (open_more (lit "a") [] [] [] [XText (lit "x")] (lit "x") (lit "b") (lit "<b c='d'>y")).
  - apply nm. reflexivity.
  - constructor.
  - constructor.
  - apply text_content; [reflexivity | discriminate].
  - apply (open_last (lit "b") [(lit "c", lit "d")] (lit " c='d'") [] [XText (lit "y")] (lit "y")).
    + apply nm. reflexivity.
    + apply (one_attribute (lit "c") (lit "d")); [apply nm; reflexivity | reflexivity].
    + constructor.
    + apply text_content; [reflexivity | discriminate].
Qed.
