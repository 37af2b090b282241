(** C20: documents are isolated. *)
From Coq Require Import ZArith List String.
From Verif Require Import Model.Base Model.Text Model.Conversions Model.DocumentManager Spec.Scores Spec.Linearizable Spec.Documents
  Proofs.DocumentManagerProofs Proofs.DocumentManagerProofs2 Props.C19_Ids.
Import ListNotations.
Open Scope string_scope.
Open Scope list_scope.
Open Scope Z_scope.

(** A call leaves all documents it is not about as they are (ids below the next id are
    those that exist or existed). *)
Theorem C20_other_documents {A M Hd V PI Input Data Output} (sv : services A M Hd V PI Input Data Output) o s r s' i :
  call sv o s = Returns r s' -> about o <> Some i -> i < dm_next s ->
  call sv (GetDocument i) s' = Returns (RDoc (m_find i (dm_docs s))) s'.
Proof. intros C N B. cbn [call]. unfold getDocument. rewrite (call_other sv o s r s' i C N B). reflexivity. Qed.

(** Taking a call about id j out of a history changes no result of any call that is not
    about j, and no other document. *)
Theorem C20_noninterference {A M Hd V PI Input Data Output} (sv : services A M Hd V PI Input Data Output)
    j o h1 h2 r1 x r2 s q1 q2 s' : about o = Some j ->
  calls sv (h1 ++ o :: h2) initial = Some (r1 ++ x :: r2, s) -> List.length r1 = List.length h1 ->
  calls sv (h1 ++ h2) initial = Some (q1 ++ q2, s') -> List.length q1 = List.length h1 ->
  r1 = q1 /\ (forall k p, nth_error h2 k = Some p -> about p <> Some j -> nth_error r2 k = nth_error q2 k) /\
  (forall i, i <> j -> m_find i (dm_docs s) = m_find i (dm_docs s')).
Proof. exact (noninterference sv j o h1 h2 r1 x r2 s q1 q2 s'). Qed.

(** Writing and getDocument change nothing at all. *)
Theorem C20_writing_changes_nothing {A M Hd V PI Input Data Output} (sv : services A M Hd V PI Input Data Output) o id s r s' :
  o = Write id \/ o = GetDocument id -> call sv o s = Returns r s' -> s' = s.
Proof. intros [E | E] C; subst o; exact (read_only sv _ s r s' C I). Qed.

(** The full claim for getData: no document changes. *)
Definition C20_reading_changes_nothing : Prop :=
  forall (A M Hd V PI Input Data Output : Type) (sv : services A M Hd V PI Input Data Output) id s r s',
    call sv (GetData id) s = Returns r s' -> r <> RThrow -> forall i, m_find i (dm_docs s') = m_find i (dm_docs s).

(** It holds for partwise documents... *)
Theorem C20_reading_partwise_partial {A M Hd V PI Input Data Output} (sv : services A M Hd V PI Input Data Output) id p s r s' :
  m_find id (dm_docs s) = Some (Partwise p) -> call sv (GetData id) s = Returns r s' -> s' = s.
Proof. intros F C. apply (read_only sv _ s r s' C). rewrite F. exact I. Qed.

(** ...and for timewise documents whose measures all have exactly the listed parts in
    order and no processing instructions. *)
Theorem C20_reading_timewise_partial {A M Hd V PI Input Data Output} (sv : services A M Hd V PI Input Data Output) id t s r s' :
  m_find id (dm_docs s) = Some (Timewise t) ->
  rectangular_tw t -> plain_tw t -> (forall m, In m (tw_measures t) -> map tp_id (tm_parts m) = listed (tw_header t)) ->
  call sv (GetData id) s = Returns r s' -> r <> RThrow ->
  (forall i, m_find i (dm_docs s') = m_find i (dm_docs s)) /\ dm_next s' = dm_next s /\ dm_unique s' = dm_unique s.
Proof. exact (timewise_read_ok sv id s t r s'). Qed.

(** It fails for other timewise documents: here a processing instruction is lost. *)
Theorem C20_reading_changes_nothing_refuted : ~ C20_reading_changes_nothing.
Proof.
  intros H. specialize (H _ _ _ _ _ _ _ _ ex_services 1 (Manager 2 [(1, Timewise (ex_timewise (-3)))] 1000000) (RData (-3))
    (Manager 2 [(1, Timewise (ScoreTw (Header (lit "P1") [] 0%nat) (-3) [TwMeasure 1%nat [TwPart (lit "P1") 7%nat []] []] []))] 1000000)).
  assert (K : RData (A:=nat) (M:=nat) (Hd:=nat) (V:=Z) (PI:=nat) (Data:=Z) (Output:=Z) (-3) <> RThrow) by discriminate.
  specialize (H ltac:(vm_compute; reflexivity) K 1). vm_compute in H. discriminate.
Qed.

(** Unknown ids: nothing happens, and the neutral value is returned. *)
Theorem C20_unknown_id {A M Hd V PI Input Data Output} (sv : services A M Hd V PI Input Data Output) o id s :
  about o = Some id -> m_find id (dm_docs s) = None -> call sv o s = Returns (neutral sv o) s.
Proof. exact (unknown_neutral sv o id s). Qed.

(** A destroyed document stays unknown whatever is called afterwards. *)
Theorem C20_destroyed_forever {A M Hd V PI Input Data Output} (sv : services A M Hd V PI Input Data Output) h1 id h2 rs s o :
  calls sv (h1 ++ Destroy id :: h2) initial = Some (rs, s) -> In id (new_ids (combine h1 rs)) ->
  about o = Some id -> call sv o s = Returns (neutral sv o) s.
Proof. exact (destroyed_forever sv h1 id h2 rs s o). Qed.

(** A document is what it was made until it is destroyed (or, if timewise, read). *)
Theorem C20_document_stays {A M Hd V PI Input Data Output} (sv : services A M Hd V PI Input Data Output) h s s' rs id d :
  calls sv h s = Some (rs, s') -> m_find id (dm_docs s) = Some d -> id < dm_next s ->
  (forall o, In o h -> o <> Destroy id) ->
  (match d with Timewise _ => forall o, In o h -> o <> GetData id | Partwise _ => True end) ->
  m_find id (dm_docs s') = Some d.
Proof. exact (document_stays sv h s s' rs id d). Qed.

(** Each call does what the map of documents says, from any state reached. *)
Theorem C20_is_a_map {A M Hd V PI Input Data Output} (sv : services A M Hd V PI Input Data Output) o s l :
  rep s l ->
  match call sv o s with
  | Crash => undefined sv o l
  | Returns r s' => exists l', says sv o l r l' /\ rep s' l'
  end.
Proof. exact (call_refines sv o s l). Qed.

Theorem C20_starts_empty {A M Hd V PI} : rep (initial (A:=A) (M:=M) (Hd:=Hd) (V:=V) (PI:=PI)) empty.
Proof. exact rep_initial. Qed.

Example C20_example :
  option_map fst (calls ex_services [CreateFromInput 8; CreateFromInput 9; Destroy 1; GetData 1; GetDocument 1; GetData 2; Write 1; Write 2; Destroy 5] initial)
  = Some [RId 1; RId 2; RNothing; RData 0; RDoc None; RData 9; RNothing; RWritten 9; RNothing].
Proof. vm_compute. reflexivity. Qed.

Print Assumptions C20_other_documents.
Print Assumptions C20_noninterference.
Print Assumptions C20_writing_changes_nothing.
Print Assumptions C20_reading_partwise_partial.
Print Assumptions C20_reading_timewise_partial.
Print Assumptions C20_reading_changes_nothing_refuted.
Print Assumptions C20_unknown_id.
Print Assumptions C20_destroyed_forever.
Print Assumptions C20_document_stays.
Print Assumptions C20_is_a_map.
Print Assumptions C20_starts_empty.
