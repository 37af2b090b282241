(** C12: token white-space normalisation. *)
From Verif Require Import Proofs.Tac Model.Text Model.Strings Spec.Numerals Spec.XmlText Proofs.StringsProofs.

(** Any white space in a token is a single blank with a word on both sides. *)
Theorem C12_only_single_inner_blanks t p c q :
  token_of t = p ++ c :: q -> ws_char c ->
  c = " "%char /\ (exists p' d, p = p' ++ [d] /\ ~ ws_char d) /\ (exists d q', q = d :: q' /\ ~ ws_char d).
Proof. exact (reduce_shape t p c q). Qed.

(** Normalising twice is normalising once. *)
Theorem C12_idempotent t : token_of (token_of t) = token_of t.
Proof. exact (reduce_idempotent t). Qed.

(** Every text is a sequence of words, and its token is these words joined by blanks. *)
Theorem C12_words t : exists l, words t l /\ token_of t = join [" "%char] l /\ words (token_of t) l.
Proof.
  destruct (words_exist t) as [l H]. exact (ex_intro _ l (conj H (conj (reduce_words t l H) (words_reduce t l H)))).
Qed.

Theorem C12_words_kept t l : words t l -> token_of t = join [" "%char] l /\ words (token_of t) l.
Proof. exact (fun H => conj (reduce_words t l H) (words_reduce t l H)). Qed.

Definition C12_input : str := [" "; "a"; "009"; "010"; "b"; "b"; " "; " "; "c"; "013"]%char.

Example C12_example : token_of C12_input = lit "a bb c" /\ words C12_input [lit "a"; lit "bb"; lit "c"].
Proof.
  split; [reflexivity|].
  assert (W : forall l, forallb is_space l = true -> Forall ws_char l).
  { intros l H. rewrite Forall_forall. rewrite forallb_forall in H. intros c Hc. apply TextProofs.is_space_spec, H, Hc. }
  assert (N : forall l, forallb (fun c => negb (is_space c)) l = true -> Forall (fun c => ~ ws_char c) l).
  { intros l H. rewrite Forall_forall. rewrite forallb_forall in H. intros c Hc. apply space_false.
    apply Bool.negb_true_iff, H, Hc. }
  apply (words_next [" "%char] (lit "a") (skipn 2 C12_input)); [apply W; reflexivity|discriminate|apply N; reflexivity| |].
  { apply TextProofs.is_space_spec. reflexivity. }
  apply (words_next ["009"; "010"]%char (lit "bb") (skipn 6 C12_input)); [apply W; reflexivity|discriminate|apply N; reflexivity| |].
  { apply TextProofs.is_space_spec. reflexivity. }
  apply (words_next [" "; " "]%char (lit "c") (skipn 9 C12_input)); [apply W; reflexivity|discriminate|apply N; reflexivity| |].
  { apply TextProofs.is_space_spec. reflexivity. }
  apply words_none. apply W. reflexivity.
Qed.

Print Assumptions C12_only_single_inner_blanks.
Print Assumptions C12_idempotent.
Print Assumptions C12_words.
Print Assumptions C12_words_kept.
