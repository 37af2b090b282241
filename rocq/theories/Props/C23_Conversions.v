(** C23: partwise to timewise conversion loses nothing. *)
From Coq Require Import List Permutation String.
From Verif Require Import Model.Base Model.Text Model.Conversions Spec.Scores Proofs.ConversionsProofs Proofs.ConversionsMore.
Import ListNotations.
Open Scope nat_scope.
Open Scope string_scope.
Open Scope list_scope.

(** The full claim, for any measure attributes A, music M, other header contents Hd,
    score attributes V and processing instructions PI: converting a rectangular
    score there and back gives it back; and no conversion reads out of bounds. *)
Definition C23_lossless : Prop :=
  forall (A M Hd V PI : Type) (a : A) (m : M) n (s : score_pw A M Hd V PI), rectangular_pw n s ->
    exists t, partwiseTimewise a m s = Ok t /\ timewisePartwise a m t = s.
Definition C23_in_bounds : Prop :=
  forall (A M Hd V PI : Type) (a : A) (m : M) (s : score_pw A M Hd V PI), partwiseTimewise a m s <> UB.

(** What holds of every rectangular score: the header, the score attributes, every
    part, and the music of every measure of every part come back. Parts come back in
    part list order, measure attributes are those of the last listed part. *)
Theorem C23_round_trip_partial {A M Hd V PI} (a : A) (m : M) (s : score_pw A M Hd V PI) n : rectangular_pw n s ->
  exists t, partwiseTimewise a m s = Ok t /\
    let s' := timewisePartwise a m t in
    pw_header s' = pw_header s /\ pw_version s' = pw_version s /\
    map pp_id (pw_parts s') = listed (pw_header s) /\
    (forall p, In p (pw_parts s) -> exists p', In p' (pw_parts s') /\ same_music p p') /\
    (forall p', In p' (pw_parts s') -> exists p, In p (pw_parts s) /\ same_music p p') /\
    (exists q, In q (pw_parts s) /\ pp_id q = last (listed (pw_header s)) (pp_id q) /\
      forall p', In p' (pw_parts s') -> map pm_attrs (pp_measures p') = map pm_attrs (pp_measures q)).
Proof. exact (round_trip a m s n). Qed.

(** If moreover the parts are in part list order, agree on their measure attributes
    and carry no processing instructions, the score itself comes back. *)
Theorem C23_round_trip_exact_partial {A M Hd V PI} (a : A) (m : M) (s : score_pw A M Hd V PI) n : rectangular_pw n s ->
  map pp_id (pw_parts s) = listed (pw_header s) -> agreeing s -> plain_pw s ->
  exists t, partwiseTimewise a m s = Ok t /\ timewisePartwise a m t = s.
Proof. exact (round_trip_exact a m s n). Qed.

(** The timewise form itself: measure i holds measure i of every part. *)
Theorem C23_timewise_contents {A M Hd V PI} (a : A) (m : M) (s : score_pw A M Hd V PI) n : rectangular_pw n s -> exists t,
  partwiseTimewise a m s = Ok t /\ tw_header t = pw_header s /\ tw_version t = pw_version s /\ tw_pis t = [] /\
  List.length (tw_measures t) = n /\
  (forall i tm, nth_error (tw_measures t) i = Some tm ->
    map tp_id (tm_parts tm) = listed (pw_header s) /\ tm_pis tm = [] /\
    (forall tp, In tp (tm_parts tm) -> tp_pis tp = [] /\
      exists p pm, In p (pw_parts s) /\ pp_id p = tp_id tp /\ nth_error (pp_measures p) i = Some pm /\ tp_music tp = pm_music pm) /\
    (exists p pm, In p (pw_parts s) /\ pp_id p = last (listed (pw_header s)) (pp_id p) /\ nth_error (pp_measures p) i = Some pm /\ tm_attrs tm = pm_attrs pm)).
Proof. exact (to_timewise_contents a m s n). Qed.

(** The other direction: contents, and there and back. *)
Theorem C23_partwise_contents {A M Hd V PI} (a : A) (m : M) (t : score_tw A M Hd V PI) : rectangular_tw t ->
  let s := timewisePartwise a m t in
  pw_header s = tw_header t /\ pw_version s = tw_version t /\
  rectangular_pw (List.length (tw_measures t)) s /\ map pp_id (pw_parts s) = listed (tw_header t) /\ agreeing s /\ plain_pw s /\
  (forall p i pm, In p (pw_parts s) -> nth_error (pp_measures p) i = Some pm ->
    exists tm tp, nth_error (tw_measures t) i = Some tm /\ In tp (tm_parts tm) /\ tp_id tp = pp_id p /\
      pm_music pm = tp_music tp /\ pm_attrs pm = tm_attrs tm).
Proof. exact (to_partwise_contents a m t). Qed.

Theorem C23_timewise_round_trip {A M Hd V PI} (a : A) (m : M) (t : score_tw A M Hd V PI) : rectangular_tw t -> plain_tw t ->
  exists t', partwiseTimewise a m (timewisePartwise a m t) = Ok t' /\
  tw_header t' = tw_header t /\ tw_version t' = tw_version t /\ tw_pis t' = tw_pis t /\
  Forall2 (fun m m' => tm_attrs m' = tm_attrs m /\ tm_pis m' = tm_pis m /\
    Permutation (tm_parts m') (tm_parts m) /\ map tp_id (tm_parts m') = listed (tw_header t)) (tw_measures t) (tw_measures t').
Proof. exact (reverse_round_trip a m t). Qed.

Theorem C23_timewise_round_trip_exact {A M Hd V PI} (a : A) (m : M) (t : score_tw A M Hd V PI) : rectangular_tw t -> plain_tw t ->
  (forall m, In m (tw_measures t) -> map tp_id (tm_parts m) = listed (tw_header t)) ->
  partwiseTimewise a m (timewisePartwise a m t) = Ok t.
Proof. exact (reverse_round_trip_exact a m t). Qed.

(** Out of bounds reads, exactly: some listed part is shorter than some part. *)
Theorem C23_out_of_bounds_iff_partial {A M Hd V PI} (a : A) (m : M) (s : score_pw A M Hd V PI) :
  partwiseTimewise a m s = UB <->
  exists p q, In (pp_id p) (listed (pw_header s)) /\ first_part (pp_id p) (pw_parts s) p /\
    In q (pw_parts s) /\ List.length (pp_measures p) < List.length (pp_measures q).
Proof. exact (to_timewise_ub a m s). Qed.

Theorem C23_no_exception {A M Hd V PI} (a : A) (m : M) (s : score_pw A M Hd V PI) : partwiseTimewise a m s <> Throw.
Proof. exact (to_timewise_nothrow a m s). Qed.

(** Scores that are not rectangular. From timewise: a part that is missing from a measure
    gets an empty measure there; parts that are not listed are dropped. *)
Theorem C23_partwise_gaps {A M Hd V PI} (a : A) (m : M) (t : score_tw A M Hd V PI) : tw_measures t <> [] ->
  let s := timewisePartwise a m t in
  pw_header s = tw_header t /\ pw_version s = tw_version t /\ pw_pis s = [] /\
  map pp_id (pw_parts s) = listed (tw_header t) /\
  (forall p, In p (pw_parts s) -> pp_pis p = [] /\
    Forall2 (fun tm pm => pm_attrs pm = tm_attrs tm /\ pm_pis pm = [] /\
      match_first tp_id tp_music (pp_id p) (tm_parts tm) m (pm_music pm)) (tw_measures t) (pp_measures p)).
Proof. exact (to_partwise_general a m t). Qed.

(** From partwise: listed parts that are missing are left out, parts that are not listed
    are dropped. *)
Theorem C23_timewise_gaps {A M Hd V PI} (a : A) (m : M) (s : score_pw A M Hd V PI) n : n <> 0 ->
  (forall p, In p (pw_parts s) -> List.length (pp_measures p) = n) ->
  (exists p, In p (pw_parts s) /\ In (pp_id p) (listed (pw_header s))) ->
  exists t, partwiseTimewise a m s = Ok t /\ tw_header t = pw_header s /\ tw_version t = pw_version s /\
    List.length (tw_measures t) = n /\
    (forall i tm, nth_error (tw_measures t) i = Some tm ->
      map tp_id (tm_parts tm) = filter (fun id => existsb (fun p => str_eqb (pp_id p) id) (pw_parts s)) (listed (pw_header s)) /\
      (forall tp, In tp (tm_parts tm) -> exists p pm, first_part (tp_id tp) (pw_parts s) p /\
         nth_error (pp_measures p) i = Some pm /\ tp_music tp = pm_music pm)).
Proof. exact (to_timewise_general a m s n). Qed.

(** Documents: converting changes the form, converting twice gives the document back. *)
Theorem C23_documents {A M Hd V PI} (a : A) (m : M) (d : document A M Hd V PI) : convertible d ->
  exists d', convertContents a m d = Ok d' /\ other_form d d' /\ convertContents a m d' = Ok d.
Proof. exact (convert_twice a m d). Qed.

(** Two parts, the second one measure shorter. *)
Theorem C23_in_bounds_refuted : ~ C23_in_bounds.
Proof.
  intros H. apply (H nat nat nat nat nat 0 0
    (ScorePw (Header (lit "P1") [ScorePartItem (lit "P2")] 0) 3
      [PwPart (lit "P1") [PwMeasure 1 11 []; PwMeasure 2 12 []] []; PwPart (lit "P2") [PwMeasure 1 21 []] []] [])).
  vm_compute. reflexivity.
Qed.

(** Two parts whose first measures differ in their attributes (say, width). *)
Theorem C23_lossless_refuted : ~ C23_lossless.
Proof.
  intros H. destruct (H nat nat nat nat nat 0 0 1
    (ScorePw (Header (lit "P1") [ScorePartItem (lit "P2")] 0) 3
      [PwPart (lit "P1") [PwMeasure 1 11 []] []; PwPart (lit "P2") [PwMeasure 2 21 []] []] [])) as (t & E & E1).
  - split; [discriminate|]. split; [|split].
    + constructor; [intros [E|[]]; discriminate|]. constructor; [intros []|constructor].
    + apply Permutation_refl.
    + intros p [<-|[<-|[]]]; reflexivity.
  - vm_compute in E. injection E as <-. vm_compute in E1. discriminate.
Qed.

(** A rectangular score with the parts out of order, and where it goes. *)
Definition C23_score : score_pw nat nat nat nat nat :=
  ScorePw (Header (lit "P1") [PartGroupItem; ScorePartItem (lit "P2")] 0) 3
    [PwPart (lit "P2") [PwMeasure 1 21 []; PwMeasure 2 22 []] []; PwPart (lit "P1") [PwMeasure 1 11 []; PwMeasure 2 12 []] []] [].
Example C23_example : rectangular_pw 2 C23_score /\ agreeing C23_score /\ plain_pw C23_score /\
  partwiseTimewise 0 0 C23_score = Ok (ScoreTw (pw_header C23_score) 3
    [TwMeasure 1 [TwPart (lit "P1") 11 []; TwPart (lit "P2") 21 []] []; TwMeasure 2 [TwPart (lit "P1") 12 []; TwPart (lit "P2") 22 []] []] []).
Proof.
  split; [|split; [|split]].
  - split; [discriminate|]. split; [|split].
    + constructor; [intros [E|[]]; discriminate|]. constructor; [intros []|constructor].
    + apply perm_swap.
    + intros p [<-|[<-|[]]]; reflexivity.
  - intros p q [<-|[<-|[]]] [<-|[<-|[]]]; reflexivity.
  - split; [reflexivity|]. intros p [<-|[<-|[]]]; (split; [reflexivity|]); intros m [<-|[<-|[]]]; reflexivity.
  - vm_compute. reflexivity.
Qed.

(** A timewise score of two measures; P2 is missing from the second, P9 is not listed. *)
Definition C23_gaps : score_tw nat nat nat nat nat :=
  ScoreTw (Header (lit "P1") [ScorePartItem (lit "P2")] 0) 3
    [TwMeasure 1 [TwPart (lit "P2") 21 []; TwPart (lit "P9") 99 []; TwPart (lit "P1") 11 []] []; TwMeasure 2 [TwPart (lit "P1") 12 []] []] [].
Example C23_gaps_meets : tw_measures C23_gaps <> [] /\
  map (fun p => map pm_music (pp_measures p)) (pw_parts (timewisePartwise 0 0 C23_gaps)) = [[11; 12]; [21; 0]].
Proof. split; [discriminate | reflexivity]. Qed.

Print Assumptions C23_round_trip_partial.
Print Assumptions C23_round_trip_exact_partial.
Print Assumptions C23_timewise_contents.
Print Assumptions C23_partwise_contents.
Print Assumptions C23_timewise_round_trip.
Print Assumptions C23_timewise_round_trip_exact.
Print Assumptions C23_partwise_gaps.
Print Assumptions C23_timewise_gaps.
Print Assumptions C23_documents.
Print Assumptions C23_out_of_bounds_iff_partial.
Print Assumptions C23_no_exception.
Print Assumptions C23_in_bounds_refuted.
Print Assumptions C23_lossless_refuted.
