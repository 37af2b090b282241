(** core/ScoreConversions.cpp: partwise <-> timewise.

    The contents that are only moved around are type parameters: measure attributes
    [A], music data [M], the header apart from the part list [Hd], score
    attributes [V], processing instructions [PI]. Shared pointers are replaced by
    the values they point to. *)
From Coq Require Import List ZArith Bool String.
From Verif Require Import Model.Base Model.Text.
Import ListNotations.
Open Scope string_scope.
Open Scope list_scope.

Section Conversions.
  Context {A M Hd V PI : Type}.
  (** MeasureAttributes() and makeMusicDataGroup(): what new elements hold,
      core/elements/TimewiseMeasure.cpp:15-20, TimewisePart.cpp:28-31,
      PartwiseMeasure.cpp:30-33. *)
  Context (defA : A) (defM : M).

  (** <measure> of a partwise score, core/elements/PartwiseMeasure.h. *)
  Record pw_measure := PwMeasure { pm_attrs : A; pm_music : M; pm_pis : list PI }.
  (** <part> of a partwise score, core/elements/PartwisePart.h. *)
  Record pw_part := PwPart { pp_id : str; pp_measures : list pw_measure; pp_pis : list PI }.
  (** <part> of a timewise score, core/elements/TimewisePart.h. *)
  Record tw_part := TwPart { tp_id : str; tp_music : M; tp_pis : list PI }.
  (** <measure> of a timewise score, core/elements/TimewiseMeasure.h. *)
  Record tw_measure := TwMeasure { tm_attrs : A; tm_parts : list tw_part; tm_pis : list PI }.

  (** An entry of the part list after the first score-part,
      core/elements/PartGroupOrScorePart.h; only ids matter here. *)
  Inductive list_item := ScorePartItem (id : str) | PartGroupItem.

  (** The header: first score-part, further entries, everything else. *)
  Record header := Header { h_first : str; h_items : list list_item; h_other : Hd }.

  Record score_pw := ScorePw { pw_header : header; pw_version : V; pw_parts : list pw_part; pw_pis : list PI }.
  Record score_tw := ScoreTw { tw_header : header; tw_version : V; tw_measures : list tw_measure; tw_pis : list PI }.

  (** "Create a simple list of parts from the score header",
      core/ScoreConversions.cpp:60-69 and :125-139. *)
  Definition listed (h : header) : list str :=
    h_first h :: flat_map (fun i => match i with ScorePartItem id => [id] | PartGroupItem => [] end) (h_items h).

  (** std::find_if by id, core/ScoreConversions.cpp:76-81. *)
  Definition find_pw (id : str) (l : list pw_part) : option pw_part := find (fun p => str_eqb (pp_id p) id) l.
  (** core/ScoreConversions.cpp:163-168. *)
  Definition find_tw (id : str) (l : list tw_part) : option tw_part := find (fun p => str_eqb (tp_id p) id) l.

  (** "find max number of measures", core/ScoreConversions.cpp:33-41. *)
  Definition measureCount (l : list pw_part) : nat :=
    fold_left (fun n p => if Nat.ltb n (List.length (pp_measures p)) then List.length (pp_measures p) else n) l 0%nat.

  (** makeTimewiseMeasure(): one default part with the default id,
      core/elements/TimewiseMeasure.cpp:15-20, core/XsID.cpp:12-16. *)
  Definition new_tw_part : tw_part := TwPart (lit "ID") defM [].
  Definition new_tw_measure : tw_measure := TwMeasure defA [new_tw_part] [].
  Definition new_pw_measure : pw_measure := PwMeasure defA defM [].

  (** "First Nested Loop, for each Part", core/ScoreConversions.cpp:71-107: the first
      part found takes the place of the default part. Advancing the iterator past the
      end of a part and dereferencing it is undefined. *)
  Fixpoint fill_measure (parts : list pw_part) (i : nat) (isFirst : bool) (m : tw_measure) (ids : list str) : outcome tw_measure :=
    match ids with
    | [] => Ok m
    | id :: r =>
        match find_pw id parts with
        | None => fill_measure parts i isFirst m r
        | Some p =>
            match nth_error (pp_measures p) i with
            | None => UB
            | Some pm =>
                let part := TwPart (pp_id p) (pm_music pm) [] in
                fill_measure parts i false
                  (TwMeasure (pm_attrs pm)
                     (if isFirst then part :: tl (tm_parts m) else tm_parts m ++ [part]) (tm_pis m)) r
            end
        end
    end.

  (** "Outer Loop, Once for each Measure", core/ScoreConversions.cpp:43-108. *)
  Fixpoint fill_measures (s : score_pw) (is : list nat) : outcome (list tw_measure) :=
    match is with
    | [] => Ok []
    | i :: r =>
        obind (fill_measure (pw_parts s) i true new_tw_measure (listed (pw_header s)))
          (fun m => obind (fill_measures s r) (fun ms => Ok (m :: ms)))
    end.

  (** partwiseTimewise, core/ScoreConversions.cpp:22-110. The new score starts with
      one measure, which is the one used for index 0. *)
  Definition partwiseTimewise (s : score_pw) : outcome score_tw :=
    obind (fill_measures s (seq 0 (measureCount (pw_parts s))))
      (fun ms => Ok (ScoreTw (pw_header s) (pw_version s) (match ms with [] => [new_tw_measure] | _ => ms end) [])).

  (** One measure of one part, core/ScoreConversions.cpp:146-173. *)
  Definition take_measure (id : str) (m : tw_measure) : pw_measure :=
    PwMeasure (tm_attrs m) (match find_tw id (tm_parts m) with Some p => tp_music p | None => defM end) [].

  (** timewisePartwise, core/ScoreConversions.cpp:113-177. A new part starts with one
      measure, which is the one used for the first measure. *)
  Definition timewisePartwise (t : score_tw) : score_pw :=
    ScorePw (tw_header t) (tw_version t)
      (map (fun id => PwPart id (match tw_measures t with
                                 | [] => [new_pw_measure]
                                 | ms => map (take_measure id) ms
                                 end) [])
           (listed (tw_header t))) [].

  (** Document, core/Document.h: the choice with the score it selects. The score that
      is not selected is always a new default one (core/Document.cpp:58-80) and never
      written, so it is left out. *)
  Inductive document := Partwise (s : score_pw) | Timewise (t : score_tw).

  (** Document::convertContents, core/Document.cpp:58-80. *)
  Definition convertContents (d : document) : outcome document :=
    match d with
    | Partwise s => omap Timewise (partwiseTimewise s)
    | Timewise t => Ok (Partwise (timewisePartwise t))
    end.
End Conversions.
Arguments header : clear implicits.
Arguments pw_measure : clear implicits.
Arguments pw_part : clear implicits.
Arguments tw_part : clear implicits.
Arguments tw_measure : clear implicits.
Arguments score_pw : clear implicits.
Arguments score_tw : clear implicits.
Arguments document : clear implicits.
