(** C19: document ids are never reused or confused. *)
From Coq Require Import ZArith List String.
From Verif Require Import Model.Base Model.Text Model.Conversions Model.DocumentManager Spec.Linearizable Spec.Documents
  Proofs.DocumentManagerProofs2 Proofs.DocumentManagerConc.
Import ListNotations.
Open Scope string_scope.
Open Scope list_scope.
Open Scope Z_scope.

(** Whatever is called in between, successful create calls return 1, 2, 3, ... and
    getUniqueId returns 1000000, 1000001, ...; so no id is returned twice. *)
Theorem C19_ids_count_up {A M Hd V PI Input Data Output} (sv : services A M Hd V PI Input Data Output) os rs s :
  calls sv os initial = Some (rs, s) ->
  new_ids (combine os rs) = map (fun k => 1 + Z.of_nat k) (seq 0 (List.length (new_ids (combine os rs)))) /\
  unique_ids (combine os rs) = map (fun k => 1000000 + Z.of_nat k) (seq 0 (List.length (unique_ids (combine os rs)))) /\
  NoDup (new_ids (combine os rs)) /\ NoDup (unique_ids (combine os rs)).
Proof. exact (history_ids sv os rs s). Qed.

(** The same for any number of threads and any schedule: no two create calls, and no
    two getUniqueId calls, return the same id. *)
Theorem C19_ids_distinct_concurrently {A M Hd V PI Input Data Output} (sv : services A M Hd V PI Input Data Output) prog ts c :
  schedule sv ts (start prog) = Some c ->
  NoDup (new_ids (returned (c_trace c))) /\ NoDup (unique_ids (returned (c_trace c))).
Proof. exact (concurrent_ids sv prog ts c). Qed.

(** Services for the examples: parsing fails on 0, input n > 0 gives a document whose
    version is n; scores are numbers. *)
Definition ex_score (n : Z) : score_pw nat nat nat Z nat :=
  ScorePw (Header (lit "P1") [] 0%nat) n [PwPart (lit "P1") [PwMeasure 0%nat 7%nat []] []] [].
Definition ex_timewise (n : Z) : score_tw nat nat nat Z nat :=
  ScoreTw (Header (lit "P1") [] 0%nat) n [TwMeasure 1%nat [TwPart (lit "P1") 7%nat []] [5%nat]] [].
Definition ex_services : services nat nat nat Z nat Z Z Z :=
  Services 0%nat 0%nat
    (fun n => if n =? 0 then Throw else if n <? 0 then Ok (Timewise (ex_timewise n)) else Ok (Partwise (ex_score n)))
    (fun n => Ok (ex_score n)) (fun n => n <? 0) (fun p => if pw_version p =? -13 then Throw else Ok (pw_version p))
    (fun n => n) 0 (fun d => Ok (match d with Partwise p => pw_version p | Timewise t => tw_version t end)).

Example C19_example :
  option_map fst (calls ex_services [CreateFromInput 8; CreateFromInput 0; Destroy 1; CreateFromScore 9; GetUniqueId; GetData 1; Write 2; GetUniqueId] initial)
  = Some [RId 1; RThrow; RNothing; RId 2; RId 1000000; RData 0; RWritten 9; RId 1000001].
Proof. vm_compute. reflexivity. Qed.

(** Three threads; threads 0 and 1 are inside create at the same time. *)
Example C19_concurrent_example :
  option_map (fun c => returned (c_trace c))
    (schedule ex_services [0;1;1;0;0;2;1;0;0;2;0;0;2;1;1;1;1;1;1;0;2;2;2;2;1;1;1;1;1;1]%nat
      (start (fun u => match u with O => [CreateFromInput 8] | 1%nat => [CreateFromInput 9] | 2%nat => [GetUniqueId] | _ => [] end)))
  = Some [(CreateFromInput 8, RId 1); (GetUniqueId, RId 1000000); (CreateFromInput 9, RId 2)].
Proof. vm_compute. reflexivity. Qed.

Print Assumptions C19_ids_count_up.
Print Assumptions C19_ids_distinct_concurrently.
