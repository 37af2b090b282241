(** C69: A whole score survives writing and reading: its parts, measures, staves, notes,
    ticks per quarter and transpositions. *)
From Coq Require Import List Ascii Bool String ZArith QArith Lia Sorted Permutation.
From Verif Require Import Model.Base Model.Text Model.Strings Model.Decimals Model.ApiEnums Model.MeasureTypes Model.MeasureWriter Model.MeasureReader Model.PartInfo Model.Scores.
From Verif Require Import Spec.XmlText Spec.Numerals Spec.Measures Spec.Voices Spec.RoundTrip Spec.Changes Spec.Directions Spec.TimeSignatures Spec.PartReading Spec.WholeScores.
From Verif Require Import Proofs.Meets Proofs.PartProofs Proofs.PartBack Proofs.PartFindings Proofs.ScoreBack Proofs.ScoreAgain Proofs.ScoreReads.
Import ListNotations.
Local Open Scope Z_scope.

(** Every score comes back with the measures it had: not so. *)
Theorem C69_measures_refuted : ~ (forall prints ticks l, l <> [] -> 1 <= ticks <= 2147483647 ->
  exists xs l', write_each prints 0 ticks l = Ok xs /\ read_score xs = Ok (ticks, l') /\
    map (fun p => List.length (pm_measures p)) l' = map (fun p => List.length (pm_measures p)) l).
Proof. exact scores_refuted. Qed.
Print Assumptions C69_measures_refuted.

(** A part without measures comes back with one, which is empty, whatever its transposition. *)
Theorem C69_no_measures : forall prints ticks t global divisions, 1 <= ticks <= 2147483647 ->
  exists xs e, write_music prints ticks (mkMusic [] t) = Ok xs /\ read_part_music global divisions xs = Ok (mkMusic [one_empty_measure] t, e).
Proof. exact no_measures_back. Qed.
Print Assumptions C69_no_measures.

Example C69_no_measures_ex : obind (write_music (fun _ => 1%nat) 6 (mkMusic [] (Some 2))) (read_part_music 12 4) = Ok (mkMusic [one_empty_measure] (Some 2), 6).
Proof. vm_compute. reflexivity. Qed.

(** A score of nothing but such parts also loses its ticks per quarter: they become 0. *)
Theorem C69_only_empty : forall prints ticks l, Forall (fun p => p = mkMusic [] None) l ->
  exists xs, write_each prints 0 ticks l = Ok xs /\ read_score xs = Ok (0, map (fun _ => mkMusic [one_empty_measure] None) l).
Proof. exact only_empty. Qed.
Print Assumptions C69_only_empty.

(** Scores that the format has a place for come back with all of their music and the same
    ticks per quarter; only do the notes ask for the voice they are in. *)
Theorem C69_music_partial : forall prints ticks l, l <> [] -> 1 <= ticks <= 2147483647 -> Forall music_fits l ->
  exists xs, write_each prints 0 ticks l = Ok xs /\ List.length xs = List.length l /\ read_score xs = Ok (ticks, map music_asking l).
Proof. exact scores_back. Qed.
Print Assumptions C69_music_partial.

(** If they ask for it already, then the score comes back as it was. *)
Theorem C69_same_partial : forall prints ticks l, l <> [] -> 1 <= ticks <= 2147483647 -> Forall music_fits l -> Forall (fun p => Forall all_asking (pm_measures p)) l ->
  exists xs, write_each prints 0 ticks l = Ok xs /\ read_score xs = Ok (ticks, l).
Proof. exact scores_same. Qed.
Print Assumptions C69_same_partial.

(** So writing and reading a second time changes nothing any more. *)
Theorem C69_again_partial : forall prints prints' ticks l, l <> [] -> 1 <= ticks <= 2147483647 -> Forall music_fits l ->
  exists xs ticks' l' ys, write_each prints 0 ticks l = Ok xs /\ read_score xs = Ok (ticks', l') /\ write_each prints' 0 ticks' l' = Ok ys /\ read_score ys = Ok (ticks', l').
Proof. exact scores_again. Qed.
Print Assumptions C69_again_partial.

(** The same with what the parts say of themselves: each part keeps its name, instrument and
    music. *)
Theorem C69_score_partial : forall prints next ticks l, l <> [] -> 1 <= ticks <= 2147483647 -> 0 <= next -> next + Z.of_nat (List.length l) < 2 ^ 31 ->
  Forall (fun q => part_fits (fst q)) l -> NoDup (map (fun q => uniqueId (fst q)) l) -> Forall (fun q => music_fits (snd q)) l ->
  exists s, score_back prints next ticks l = Ok (ticks, s) /\ Forall2 (fun q r => same_part (fst q) (fst r) /\ snd r = music_asking (snd q)) l s.
Proof. exact whole_scores_back. Qed.
Print Assumptions C69_score_partial.

(** For all scores with measures, whatever the overlaps, directions, clefs, keys, barlines and
    times: no part, measure, staff, note or transposition is lost, and the ticks per
    quarter stay. *)
Theorem C69_notes : forall prints ticks l, l <> [] -> 1 <= ticks <= 2147483647 -> Forall music_in_range l ->
  exists xs l', write_each prints 0 ticks l = Ok xs /\ read_score xs = Ok (ticks, l') /\
    Forall2 (fun p p' => pm_transposition p' = pm_transposition p /\ Forall2 (fun m m' => Forall2 same_notes (m_staves m) (m_staves m')) (pm_measures p) (pm_measures p')) l l'.
Proof. exact scores_notes. Qed.
Print Assumptions C69_notes.

Theorem C69_score_notes : forall prints next ticks l, l <> [] -> 1 <= ticks <= 2147483647 -> 0 <= next -> next + Z.of_nat (List.length l) < 2 ^ 31 ->
  Forall (fun q => part_fits (fst q)) l -> NoDup (map (fun q => uniqueId (fst q)) l) -> Forall (fun q => music_in_range (snd q)) l ->
  exists s, score_back prints next ticks l = Ok (ticks, s) /\
    Forall2 (fun q r => same_part (fst q) (fst r) /\ pm_transposition (snd r) = pm_transposition (snd q) /\
      Forall2 (fun m m' => Forall2 same_notes (m_staves m) (m_staves m')) (pm_measures (snd q)) (pm_measures (snd r))) l s.
Proof. exact whole_scores_notes. Qed.
Print Assumptions C69_score_notes.

(** * Files of others *)

(** A part has as many staves as the greatest staff number, or number of staves, anywhere in it,
    and at least one. *)
Theorem C69_staves_found : forall l, Forall (fun k => k <= calculateNumStaves l) (1 :: staff_numbers l) /\ In (calculateNumStaves l) (1 :: staff_numbers l).
Proof. exact staves_found. Qed.
Print Assumptions C69_staves_found.

(** All parts and measures of a file that is read are read; a part begins with the last
    divisions said in the parts before it. *)
Theorem C69_parts_read : forall g l ps, read_each g (-1) l = Ok ps ->
  List.length ps = List.length l /\ forall k x p, nth_error l k = Some x -> nth_error ps k = Some p -> List.length (pm_measures p) = List.length x /\
    exists e, read_all (mkRctx (Z.to_nat (calculateNumStaves x)) g (in_effect g (flat_map divisions_said (firstn k l))) 0 default_time) None x = Ok (p, e).
Proof. exact parts_read. Qed.
Print Assumptions C69_parts_read.

(** The transposition of a part is the last one said before any time has passed in its first
    measure; what later measures say is lost. *)
Theorem C69_transposition_read : forall g d x r p e a b, read_part_music g d (x :: r) = Ok (p, e) -> xm_data x = a ++ b -> Forall takes_no_time a ->
  flat_map says_transposition b = [] -> pm_transposition p = last_said a.
Proof. exact transposition_read. Qed.
Print Assumptions C69_transposition_read.

(** Two parts; only the first says divisions; the second has two staves and a transposition in
    each measure. *)
Example C69_file : list (list xmeasure) :=
  [[mkXMeasure (lit "1"%string) None [MProperties (mkProps (Some 4%Q) [] [] None [] [])]];
   [mkXMeasure (lit "1"%string) None [MProperties (mkProps None [] [] None [] [3; 5]); MNote (mkXNote NormalNote 4%Q false (Some 2) None 60)];
    mkXMeasure (lit "2"%string) None [MProperties (mkProps None [] [] None [] [7])]]].
Example C69_file_ex : exists p q, read_each 8 (-1) C69_file = Ok [p; q] /\ pm_transposition q = Some 3 /\ calculateNumStaves (nth 1 C69_file []) = 2 /\
  in_effect 8 (flat_map divisions_said (firstn 1 C69_file)) = 4 /\ map (fun m => map s_voices (m_staves m)) (pm_measures q) = [[[]; [(0, [mkNote 0 8 false NormalNote (-1) 60])]]; [[]; []]].
Proof. do 2 eexists. split; [vm_compute; reflexivity | ]. vm_compute. repeat split. Qed.

(** * A score *)

(** The piano has two staves and two measures, with clefs, a direction, keys, barlines, an ending and a
    change of time; the clarinet is transposed. *)
Example C69_time (implicit : bool) : TimeSignatureData := mkTime 3 4 SymbolUnspecified BoolUnspecified implicit.
Example C69_piano : PartMusic := mkMusic
  [mkMeasure [mkStaff [mkClef 0 1; mkClef 12 2] [] [mkDirection 6 false [] [] [] [] [] [] [] [] [5] [] [] [] []] [(0, [mkNote 0 6 false NormalNote 1 60; mkNote 12 6 false NormalNote 1 64]); (1, [mkNote 0 18 false NormalNote 0 48])];
              mkStaff [mkClef 0 3] [] [] [(2, [mkNote 0 6 true NormalNote 0 36; mkNote 0 6 true NormalNote 0 40])]]
     (C69_time false) (lit "1a"%string) BoolUnspecified [mkKey 0 0 false 3; mkKey 12 (-1) false 4]
     [mkBarline 0 api_BarlineType_heavyLight api_EndingType_none 0 true api_HorizontalAlignment_left];
   mkMeasure [mkStaff [] [] [] []; mkStaff [] [] [] [(0, [mkNote 0 18 false NormalNote 0 41])]]
     (C69_time true) [] BoolYes []
     [mkBarline 0 api_BarlineType_unspecified api_EndingType_start 1 false api_HorizontalAlignment_left;
      mkBarline 2147483647 api_BarlineType_lightHeavy api_EndingType_stop 1 true api_HorizontalAlignment_right]]
  None.
Example C69_clarinet : PartMusic := mkMusic
  [mkMeasure [mkStaff [] [] [] [(0, [mkNote 0 18 false NormalNote 1 60])]] (C69_time false) [] BoolUnspecified [] [];
   mkMeasure [mkStaff [] [] [] []] (C69_time true) [] BoolUnspecified [] []]
  (Some 2).

Example C69_tidy : tidy (lit "1a"%string) /\ tidy [].
Proof.
  split; [exists [lit "1a"%string] | exists []]; (split; [ | reflexivity]); [ | constructor; constructor].
  apply (words_next [] (lit "1a"%string) [] []); [constructor | intros E; discriminate E | | exact I | constructor; constructor].
  change (Forall (fun c => ~ ws_char c) ["1"%char; "a"%char]). constructor; [ | constructor; [ | constructor]]; intros H; unfold ws_char in H; cbn in H; intuition discriminate.
Qed.

Example C69_piano_fits : music_fits C69_piano.
Proof.
  exists 2%nat. split; [meets | ]. split; [meets | ]. split; [ | reflexivity]. intros [|[|[|i]]] m H; try discriminate H; injection H as <-; unfold measure_fits.
  - split; [meets | ]. split; [meets | ]. split; [intros [|[|[|k]]] st H; try discriminate H; injection H as <-; meets | ]. split; [meets; cbn; auto | ]. split; [meets | ].
    split; [exists [mkKey 0 0 false 3], [mkKey 12 (-1) false 4]; split; [reflexivity | ]; split; [meets | ]; split; [ | meets]; constructor; [ | constructor];
      split; [meets | ]; split; [meets | ]; split; [meets | ]; eexists; eexists; split; [reflexivity | cbn; auto] | ].
    split; [exists [mkBarline 0 api_BarlineType_heavyLight api_EndingType_none 0 true api_HorizontalAlignment_left], []; split; [reflexivity | ]; split; [ | constructor]; constructor; [ | constructor];
      split; [split; [intros E; discriminate E | ]; split; [intros E; contradiction E; reflexivity | reflexivity] | split; reflexivity] | ].
    split; [apply C69_tidy | meets].
  - split; [meets | ]. split; [meets | ]. split; [intros [|[|[|k]]] st H; try discriminate H; injection H as <-; meets | ]. split; [meets | ]. split; [meets | ].
    split; [exists [], []; split; [reflexivity | ]; split; [meets | ]; split; meets | ].
    split; [exists [mkBarline 0 api_BarlineType_unspecified api_EndingType_start 1 false api_HorizontalAlignment_left],
                   [mkBarline 2147483647 api_BarlineType_lightHeavy api_EndingType_stop 1 true api_HorizontalAlignment_right]; split; [reflexivity | ]; split; constructor; try constructor;
      (split; [intros E; discriminate E | ]; split; [intros _; reflexivity | intros E; discriminate E]) || (split; reflexivity) | ].
    split; [apply C69_tidy | meets].
Qed.

Example C69_clarinet_fits : music_fits C69_clarinet /\ Forall all_asking (pm_measures C69_clarinet).
Proof.
  split; [ | meets]. exists 1%nat. split; [meets | ]. split; [meets | ]. split; [ | reflexivity]. intros [|[|[|i]]] m H; try discriminate H; injection H as <-; unfold measure_fits.
  all: split; [meets | ]; split; [meets | ]; split; [intros [|[|k]] st H; try discriminate H; injection H as <-; meets | ]; split; [meets | ]; split; [meets | ];
    split; [exists [], []; split; [reflexivity | ]; split; [meets | ]; split; meets | ]; split; [exists [], []; split; [reflexivity | ]; split; meets | ]; split; [apply C69_tidy | meets].
Qed.

Example C69_music_ex_fits : Forall music_fits [C69_piano; C69_clarinet].
Proof. constructor; [exact C69_piano_fits | constructor; [apply C69_clarinet_fits | constructor]]. Qed.

Example C69_score_ex : Forall (fun q => part_fits (fst q)) [(viola, C69_piano)] /\ NoDup (map (fun q : PartInfo * PartMusic => uniqueId (fst q)) [(viola, C69_piano)]).
Proof. split; [constructor; [exact viola_fits | constructor] | constructor; [intros [] | constructor]]. Qed.

(** Overlapping notes in one voice. *)
Example C69_notes_ex : music_in_range (mkMusic [mkMeasure [mkStaff [mkClef 3 1] [] [] [(0, [mkNote 0 12 false NormalNote 0 60; mkNote 6 12 false NormalNote 0 64])]]
  (C69_time true) [] BoolUnspecified [] []] (Some 2)).
Proof. exists 1%nat. split; [meets | ]. split; meets. Qed.

Example C69_music_ex : exists xs, write_each (fun _ _ => 1%nat) 0 6 [C69_piano; C69_clarinet] = Ok xs /\ read_score xs = Ok (6, [music_asking C69_piano; music_asking C69_clarinet]) /\
  music_asking C69_clarinet = C69_clarinet /\ music_asking C69_piano <> C69_piano.
Proof. eexists. split; [vm_compute; reflexivity | ]. split; [vm_compute; reflexivity | ]. split; [reflexivity | intros E; discriminate E]. Qed.
