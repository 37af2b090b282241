(** The music of a whole score: the parts with all of their measures, as impl/PartWriter.cpp
    and impl/ScoreWriter.cpp write them, and as impl/PartReader.cpp and
    impl/ScoreReader.cpp read them. Parts are what C57 is about, part groups C33, the
    header C52, page and system layout C54. *)
From Coq Require Import List ZArith QArith Bool.
From Verif Require Import Model.Base Model.Text Model.Strings Model.Ticks Model.MeasureTypes Model.MeasureWriter Model.MeasureReader Model.PartInfo.
Import ListNotations.
Open Scope Z_scope.

(** api::PartData, PartData.h:40-90: the measures, and the transposition if there is one in use
    ([wc_transposition]). *)
Record PartMusic := mkMusic { pm_measures : list MeasureData; pm_transposition : option Z }.

(** api::MeasureData{}, MeasureData.h:25-50. *)
Definition newMeasure : MeasureData := mkMeasure [] default_time [] BoolUnspecified [] [].

(** The measure a core::PartwisePart is made with, PartwisePart.cpp:15-21 and
    MeasureAttributes.cpp:14-24: no number, nothing in it. *)
Definition new_xmeasure : xmeasure := mkXMeasure [] None [].

(** PartWriter::writeMeasures( inPartData ), PartWriter.cpp:265-288. [prints i]: the <print>
    elements of the measure with index i. The first measure written takes the place of
    the one that the part is made with. *)
Definition write_from (prints : Z -> nat) (ticks : Z) (transposition : option Z) (l : list MeasureData) : outcome (list xmeasure) :=
  match l with
  | [] => Throw
  | m :: _ => write_measures prints (mkWctx (Z.of_nat (List.length (m_staves m))) ticks 0 true (prints 0) transposition) l
  end.

(** PartWriter::writeMeasures, PartWriter.cpp:243-263. *)
Definition write_music (prints : Z -> nat) (ticks : Z) (p : PartMusic) : outcome (list xmeasure) :=
  match pm_measures p, pm_transposition p with
  | [], None => Ok [new_xmeasure]
  | [], t => write_from prints ticks t [newMeasure]
  | l, t => write_from prints ticks t l
  end.

(** The loop over the parts, ScoreWriter.cpp:116-122; [prints i] are those of the part with
    index i. *)
Fixpoint write_each (prints : Z -> Z -> nat) (i ticks : Z) (l : list PartMusic) : outcome (list (list xmeasure)) :=
  match l with
  | [] => Ok []
  | p :: r => obind (write_music (prints i) ticks p) (fun x => obind (write_each prints (i + 1) ticks r) (fun xs => Ok (x :: xs)))
  end.

(** PartReader::calculateNumStaves and updateNumStaves, PartReader.cpp:131-193 and
    PartReader.h:65-76: the greatest number among the staff elements of notes, directions and
    harmonies and the staves of attributes. The staff of a forward is left out, as
    [MForward] has none. *)
Definition staves_of (x : music_data) : option Z :=
  match x with
  | MNote n => xn_staff n
  | MDirection d => xd_staff d
  | MHarmony h => xh_staff h
  | MProperties p => p_staves p
  | _ => None
  end.
Definition calculateNumStaves (l : list xmeasure) : Z :=
  fold_left (fun n x => match staves_of x with Some k => if n <? k then k else n | None => n end) (flat_map xm_data l) 1.

(** The divisions that findMaxDivisionsPerQuarter looks at, ScoreReader.cpp:590-613. *)
Definition measure_divisions (x : xmeasure) : measure_divs :=
  flat_map (fun x => match x with MProperties p => match p_divisions p with Some d => [d] | None => [] end | _ => [] end) (xm_data x).

(** The loop of PartReader::getPartData, PartReader.cpp:96-116, with the transposition and the
    ticks per quarter of the cursor at the end. isFirstMeasureInPart is true for every
    measure. *)
Fixpoint read_all (c : rctx) (transposition : option Z) (l : list xmeasure) : outcome (PartMusic * Z) :=
  match l with
  | [] => Ok (mkMusic [] transposition, rc_current c)
  | x :: r =>
      obind (read_measure c x) (fun q =>
        let m := fst (fst q) in
        obind (read_all (mkRctx (rc_numStaves c) (rc_global c) (snd q) (rc_measureIndex c + 1) (m_time m))
                 (match snd (fst q) with Some t => Some t | None => transposition end) r) (fun s =>
          Ok (mkMusic (m :: pm_measures (fst s)) (pm_transposition (fst s)), snd s)))
  end.

(** PartReader::getPartData, PartReader.cpp:78-121. [divisions]: those at the end of the part
    before, negative for the first. *)
Definition read_part_music (global divisions : Z) (l : list xmeasure) : outcome (PartMusic * Z) :=
  read_all (mkRctx (Z.to_nat (calculateNumStaves l)) global (if 0 <? divisions then divisions else global) 0 default_time) None l.

(** The loop over the parts, ScoreReader.cpp:291-298. *)
Fixpoint read_each (global divisions : Z) (l : list (list xmeasure)) : outcome (list PartMusic) :=
  match l with
  | [] => Ok []
  | x :: r => obind (read_part_music global divisions x) (fun q => obind (read_each global (snd q) r) (fun s => Ok (fst q :: s)))
  end.

(** The music of a file, ScoreReader.cpp:174,291-298: the ticks per quarter, and the parts. *)
Definition read_score (l : list (list xmeasure)) : outcome (Z * list PartMusic) :=
  obind (findMaxDivisionsPerQuarter (map (map measure_divisions) l)) (fun g => omap (pair g) (read_each g (-1) l)).

(** A score, written (ScoreWriter.cpp:112-132) and read back (ScoreReader.cpp:168-305): what each
    part says of itself and its music. The divisions are looked for in all parts, whether
    or not a score-part goes with them. *)
Definition score_back (prints : Z -> Z -> nat) (next ticks : Z) (l : list (PartInfo * PartMusic)) : outcome (Z * list (PartInfo * PartMusic)) :=
  obind (write_each prints 0 ticks (map snd l)) (fun xs =>
  obind (write_parts [new_xmeasure] next (combine (map fst l) xs)) (fun s =>
  let parts := read_parts [new_xmeasure] (map (fun x => LPart (Some (sp_id x)) (stream_part x)) (fst s)) (map (fun q => (Some (fst q), snd q)) (snd s)) in
  obind (findMaxDivisionsPerQuarter (map (fun q => map measure_divisions (snd q)) (snd s))) (fun g =>
  obind (read_each g (-1) (map snd parts)) (fun ms => Ok (g, combine (map fst parts) ms))))).
