(** C68: the file that is written depends on the document only, not on the way it was spelled. *)
From Coq Require Import List String Ascii Bool.
From Verif Require Import Model.Base Model.Text Model.PugiText Model.XmlStream Model.Documents Model.Files
  Spec.XmlGrammar Spec.XmlTrees Spec.Instructions Spec.WholeFiles Proofs.StreamReads Proofs.FileProofs.
Import ListNotations.
Local Open Scope list_scope.

Lemma read_spelled t text text' : file_spelled t text -> file_spelled t text' -> read_stream text = read_stream text'.
Proof.
  assert (L : forall text, file_spelled t text -> exists y dt, load_stream text = Ok (XDeclaration (lit "xml") y [] :: dt ++ [element_tree t]) /\
    get_root (dt ++ [element_tree t]) = Some (element_tree t, [])).
  { clear. intros text (d & dt & D & HD & HT).
    assert (G : get_root (dt ++ [element_tree t]) = Some (element_tree t, [])).
    { destruct HT as [-> | (v & ->)]; cbn [app get_root]; destruct t; reflexivity. }
    destruct HD as [-> | (l & -> & (v & NV & [-> | (enc & r & ->)]))].
    - eexists. exists dt. split; [ | exact G]. cbn [app] in D. apply (load_undeclared _ _ D). intros n a k r E. destruct HT as [-> | (v & ->)]; [ | discriminate E].
      cbn [app] in E. destruct t. discriminate E.
    - eexists. exists dt. split; [exact (load_version_only v _ _ NV D) | exact G].
    - eexists. exists dt. split; [exact (load_declared v enc r _ _ NV D) | exact G]. }
  intros F F'. destruct (L text F) as (y & dt & E & G). destruct (L text' F') as (y' & dt' & E' & G').
  unfold read_stream. rewrite E, E'. cbn [obind get_root]. rewrite G, G'. reflexivity.
Qed.

Lemma file_spelling takes initial t text text' : file_spelled t text -> file_spelled t text' ->
  rewrite_file takes initial text = rewrite_file takes initial text'.
Proof. intros F F'. unfold rewrite_file. rewrite (read_spelled t text text' F F'). reflexivity. Qed.
