(** What converting between partwise and timewise must keep. *)
From Coq Require Import List Permutation.
From Verif Require Import Model.Text Model.Conversions.
Import ListNotations.

Section Scores.
  Context {A M Hd V PI : Type}.

  (** [p] is the first part called [id]. *)
  Definition first_part (id : str) (l : list (pw_part A M PI)) (p : pw_part A M PI) : Prop :=
    pp_id p = id /\ exists l1 l2, l = l1 ++ p :: l2 /\ ~ In id (map pp_id l1).

  (** A partwise score of n >= 1 measures: the parts are those of the part list (in
      any order), each listed once and each with n measures. *)
  Definition rectangular_pw (n : nat) (s : score_pw A M Hd V PI) : Prop :=
    n <> 0 /\ NoDup (listed (pw_header s)) /\
    Permutation (map pp_id (pw_parts s)) (listed (pw_header s)) /\
    (forall p, In p (pw_parts s) -> List.length (pp_measures p) = n).

  (** A timewise score: every measure has exactly the listed parts (in any order). *)
  Definition rectangular_tw (t : score_tw A M Hd V PI) : Prop :=
    tw_measures t <> [] /\ NoDup (listed (tw_header t)) /\
    (forall m, In m (tw_measures t) -> Permutation (map tp_id (tm_parts m)) (listed (tw_header t))).

  (** Same part: id and music of every measure. *)
  Definition same_music (p q : pw_part A M PI) : Prop :=
    pp_id p = pp_id q /\ map pm_music (pp_measures p) = map pm_music (pp_measures q).

  (** The measures of all parts agree on number, implicit, width, ... *)
  Definition agreeing (s : score_pw A M Hd V PI) : Prop :=
    forall p q, In p (pw_parts s) -> In q (pw_parts s) ->
      map pm_attrs (pp_measures p) = map pm_attrs (pp_measures q).

  (** No processing instructions on the elements that are rebuilt. *)
  Definition plain_pw (s : score_pw A M Hd V PI) : Prop :=
    pw_pis s = [] /\ forall p, In p (pw_parts s) -> pp_pis p = [] /\ forall m, In m (pp_measures p) -> pm_pis m = [].
  Definition plain_tw (t : score_tw A M Hd V PI) : Prop :=
    tw_pis t = [] /\ forall m, In m (tw_measures t) -> tm_pis m = [] /\ forall p, In p (tm_parts m) -> tp_pis p = [].

  (** [x] is what the first of [l] called [id] holds, or [d] if there is none. *)
  Definition match_first {P X} (name : P -> str) (content : P -> X) (id : str) (l : list P) (d x : X) : Prop :=
    (exists l1 p l2, l = l1 ++ p :: l2 /\ name p = id /\ ~ In id (map name l1) /\ x = content p) \/
    (~ In id (map name l) /\ x = d).

  (** A document that loses nothing by conversion. *)
  Definition convertible (d : document A M Hd V PI) : Prop :=
    match d with
    | Partwise s => exists n, rectangular_pw n s /\ map pp_id (pw_parts s) = listed (pw_header s) /\ agreeing s /\ plain_pw s
    | Timewise t => rectangular_tw t /\ plain_tw t /\ forall m, In m (tw_measures t) -> map tp_id (tm_parts m) = listed (tw_header t)
    end.
  Definition other_form (d d' : document A M Hd V PI) : Prop :=
    match d, d' with Partwise _, Timewise _ => True | Timewise _, Partwise _ => True | _, _ => False end.
End Scores.
