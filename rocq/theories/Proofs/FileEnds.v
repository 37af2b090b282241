(** C68: whatever the characters, reading a file and writing it again comes to a defined end. *)
From Coq Require Import List String Ascii Bool.
From Verif Require Import Model.Base Model.Text Model.Strings Model.Attributes Model.PugiText Model.XmlStream Model.Documents Model.Files Proofs.PugiProofs.
Import ListNotations.
Local Open Scope list_scope.

Fixpoint nodes_induction (P : PugiText.xml -> Prop) (element : forall n l kids, Forall P kids -> P (XElement n l kids))
  (other : forall x, (forall n l kids, x <> XElement n l kids) -> P x) (x : PugiText.xml) : P x.
Proof.
  destruct x as [n l kids | | | | | ]; [ | apply other; intros; discriminate ..].
  apply element. exact ((fix all k : Forall P k := match k with
    [] => Forall_nil P | y :: r => Forall_cons y (nodes_induction P element other y) (all r) end) kids).
Defined.

Lemma obind_ends {A B} (o : outcome A) (f : A -> outcome B) : o <> UB -> (forall a, f a <> UB) -> obind o f <> UB.
Proof. destruct o; cbn; auto. discriminate. Qed.

Lemma omap_ends {A B} (o : outcome A) (f : A -> B) : o <> UB -> omap f o <> UB.
Proof. destruct o; cbn; auto; discriminate. Qed.

Lemma leading_ends kids : leading_instructions kids <> UB.
Proof. induction kids as [ | [ | | | | | ] r IH]; cbn; try discriminate. apply omap_ends, IH. Qed.

Lemma element_ends x : forall following, read_element x following <> UB.
Proof.
  induction x as [n l kids IH | x O] using nodes_induction; intros following.
  - cbn [read_element]. destruct (type_of kids); try discriminate. apply obind_ends.
    + clear following. induction IH as [ | y r Y _ IHr]; [discriminate | ]. destruct y; try discriminate; [ | exact IHr].
      apply obind_ends; [apply Y | ]. intros e. apply obind_ends; [exact IHr | ]. discriminate.
    + intros es. apply obind_ends; [apply leading_ends | ]. discriminate.
  - destruct x; try discriminate. exfalso. eapply O. reflexivity.
Qed.

Lemma settle_ends l : settle_attributes l <> UB.
Proof. unfold settle_attributes. destruct (find_attribute (lit "encoding") _); discriminate. Qed.

Lemma load_ends text : load_stream text <> UB.
Proof.
  apply obind_ends; [apply parse_total | ]. intros [ | [ | | | | | ] r]; try discriminate.
  apply obind_ends; [apply settle_ends | ]. discriminate.
Qed.

Lemma read_ends text : read_stream text <> UB.
Proof.
  apply obind_ends; [apply load_ends | ]. intros doc. destruct (get_root doc) as [[[ n l kids | | | | | ] r] | ]; try discriminate.
  destruct (str_eqb n (lit "score-partwise")); [apply omap_ends, element_ends | ].
  destruct (str_eqb n (lit "score-timewise")); [apply omap_ends, element_ends | discriminate].
Qed.

Lemma doctype_ends v doc : set_doctype v doc <> UB.
Proof. destruct doc as [ | [ | | | | | ] [ | [ | | | | | ] r]]; discriminate. Qed.

Lemma file_ends takes initial text : rewrite_file takes initial text <> Some UB.
Proof.
  unfold rewrite_file. pose proof (read_ends text) as R. destruct (read_stream text) as [[c e] | | ]; try discriminate; [ | intros _; apply R; reflexivity].
  destruct (without_instructions e); [ | discriminate]. destruct (reread_document takes initial (xml_of e)) as [[[ | ] t] | ]; try discriminate.
  intros E. injection E as E. revert E. apply omap_ends, obind_ends; [apply load_ends | ]. intros doc. apply doctype_ends.
Qed.

Fixpoint elements_induction (P : core_element -> Prop) (text : forall n l i t, P (CoreElement n l i (CoreText t)))
  (children : forall n l i kids, Forall P kids -> P (CoreElement n l i (CoreChildren kids))) (e : core_element) : P e.
Proof.
  destruct e as [n l i [t | kids]]; [apply text | ].
  apply children. exact ((fix all k : Forall P k := match k with
    [] => Forall_nil P | y :: r => Forall_cons y (elements_induction P text children y) (all r) end) kids).
Defined.

Lemma stream_ends e : forall level, to_stream level e <> UB.
Proof.
  induction e as [n l i t | n l i kids IH] using elements_induction; intros level; cbn [to_stream].
  - cbn [obind fst]. destruct i as [ | p i].
    + apply omap_ends. destruct (escape t); discriminate.
    + apply obind_ends; [destruct (escape t); discriminate | ]. intros own. apply obind_ends; [apply load_ends | ].
      intros doc. destruct (get_root doc) as [[[ | | | | | ] r] | ]; try discriminate. destruct (escape t); discriminate.
  - assert (C : forall level, (match kids with [] => Ok ([], true) | _ => omap (fun s : str => (s ++ ["010"%char], false))
      ((fix go (kids : list core_element) : outcome str :=
                  match kids with
                  | [] => Ok []
                  | k :: r => obind (to_stream (S level) k) (fun s => obind (go r) (fun q => Ok (["010"%char] ++ s ++ q)))
                  end) kids) end) <> UB).
    { intros lev. assert (G : (fix go (kids : list core_element) : outcome str :=
                  match kids with
                  | [] => Ok []
                  | k :: r => obind (to_stream (S lev) k) (fun s => obind (go r) (fun q => Ok (["010"%char] ++ s ++ q)))
                  end) kids <> UB).
      { clear level. induction IH as [ | y r' Y _ IHr]; [discriminate | ].
        apply obind_ends; [apply Y | ]. intros a. apply obind_ends; [exact IHr | discriminate]. }
      destruct kids as [ | k r]; [discriminate | ]. apply omap_ends. exact G. }
    apply obind_ends; [apply (C 0%nat) | ]. intros c0. destruct i as [ | p i].
    + apply omap_ends. destruct (fst c0); [discriminate | apply omap_ends, C].
    + apply obind_ends; [destruct (fst c0); [discriminate | apply omap_ends, (C 0%nat)] | ]. intros own. apply obind_ends; [apply load_ends | ].
      intros doc. destruct (get_root doc) as [[[ | | | | | ] r] | ]; try discriminate. destruct (fst c0); [discriminate | apply omap_ends, C].
Qed.

Lemma write_ends c e : write_stream c e <> UB.
Proof.
  apply omap_ends, obind_ends; [apply omap_ends, stream_ends | ]. intros s. apply obind_ends; [apply load_ends | ]. intros doc. apply doctype_ends.
Qed.

Lemma file_total takes initial text : rewrite_file takes initial text <> Some UB /\
  (read_stream text = Throw -> rewrite_file takes initial text = Some Throw).
Proof. split; [apply file_ends | ]. intros E. unfold rewrite_file. rewrite E. reflexivity. Qed.
