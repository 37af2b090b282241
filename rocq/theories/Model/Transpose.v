(** impl/Converter.cpp: the transposition of a part; core/elements/Transpose.cpp. *)
From Coq Require Import List ZArith QArith Qround Bool.
From Verif Require Import Model.Base Model.Text Model.Integers Model.Ticks Model.LongDouble Model.Decimals.
Import ListNotations.
Open Scope Z_scope.

(** static_cast<int>( long double ): truncates; undefined outside int. *)
Definition to_int (x : Q) : outcome Z := as_int (if Qle_bool 0 x then Qfloor x else Qceiling x).

(** core::Transpose, core/elements/Transpose.h: the members that are used. *)
Record transpose_element := mkTranspose {
  te_diatonic : option Z;
  te_chromatic : precise;
  te_octave : option Z
}.

(** The part of Converter::convertToTranspose on chromatic, impl/Converter.cpp:1845-1867:
    octave, octave-change and chromatic. *)
Definition transposeChromatic (chromatic : Z) : outcome (Z * option Z * precise) :=
  if chromatic =? 0 then omap (fun p => (0, None, p)) (construct_default Semitones)
  else
    let octave := Z.quot chromatic 12 in
    obind (abs_int chromatic) (fun a =>
      let absMod := Z.rem a 12 in
      let chr := if chromatic <? 0 then -1 * absMod else absMod in
      omap (fun p => (octave, if octave =? 0 then None else Some octave, p)) (construct Semitones (inject_Z chr))).

(** The part on diatonic, impl/Converter.cpp:1869-1882. *)
Definition transposeDiatonic (octave diatonic : Z) : outcome (option Z) :=
  if diatonic =? 0 then Ok None
  else
    omap (fun harmonic => if harmonic =? 0 then None else Some harmonic)
      (if octave =? 0 then Ok diatonic
       else obind (as_int (octave * -7)) (fun k => as_int (diatonic + k))).

(** Converter::convertToTranspose, impl/Converter.cpp:1840-1884. *)
Definition convertToTranspose (chromatic diatonic : Z) : outcome transpose_element :=
  obind (transposeChromatic chromatic) (fun x =>
    let '(octave, oc, chr) := x in
    omap (fun dia => mkTranspose dia chr oc) (transposeDiatonic octave diatonic)).

(** figureOutDiatonic, impl/Converter.cpp:1886-1917. *)
Definition figureOutDiatonic (c : Z) : Z :=
  match c with
  | -11 => -6 | -10 => -6 | -9 => -5 | -8 => -5 | -7 => -4 | -6 => -3 | -5 => -3
  | -4 => -2 | -3 => -2 | -2 => -1 | -1 => -1
  | 0 => 0
  | 1 => 1 | 2 => 1 | 3 => 2 | 4 => 2 | 5 => 3 | 6 => 3 | 7 => 4 | 8 => 5 | 9 => 5
  | 10 => 6 | 11 => 6
  | _ => -1
  end.

(** Lines 1938-1957: the diatonic steps before octave-change is added. *)
Definition readDiatonic (specifiedDiatonic : option Z) (c : Z) : outcome Z :=
  match specifiedDiatonic with
  | Some d => Ok d
  | None =>
      if (-11 <=? c) && (c <=? 11) then Ok (figureOutDiatonic c)
      else
        let octaves := Z.quot c 12 in
        obind (abs_int c) (fun a =>
          let semitones := Z.rem a 12 * (if c <? 0 then -1 else 1) in
          obind (as_int (octaves * 7)) (fun k => as_int (figureOutDiatonic semitones + k)))
  end.

(** Converter::convertToTransposeData, impl/Converter.cpp:1919-1963: chromatic and
    diatonic. *)
Definition convertToTransposeData (e : transpose_element) : outcome (Z * Z) :=
  obind (to_int (getValue (te_chromatic e))) (fun c =>
  obind (readDiatonic (te_diatonic e) c) (fun d =>
    let octaves := match te_octave e with Some o => o | None => 0 end in
    obind (as_int (octaves * 7)) (fun k7 => obind (as_int (d + k7)) (fun dia =>
    obind (as_int (octaves * 12)) (fun k12 => obind (as_int (c + k12)) (fun chr => Ok (chr, dia))))))).

(** The texts of the elements diatonic, chromatic and octave-change,
    core/elements/Transpose.cpp:54-76 and Diatonic.cpp, Chromatic.cpp,
    OctaveChange.cpp. *)
Record transpose_text := mkTransposeText {
  tt_diatonic : option str;
  tt_chromatic : option str;
  tt_octave : option str
}.

Definition transposeToText (e : transpose_element) : transpose_text :=
  mkTransposeText (option_map print_int (te_diatonic e)) (Some (Decimals.toString (te_chromatic e)))
    (option_map print_int (te_octave e)).

(** core/elements/Diatonic.cpp:69-75, OctaveChange.cpp:69-74: text that does not parse
    leaves the default. *)
Definition integerFromText (t : str) : Z :=
  match parse_int t with Some n => n | None => 0 end.

(** core/elements/Transpose.cpp:190-210 and Chromatic.cpp:69-75. Simplified: each child
    occurs at most once. *)
Definition transposeFromText (t : transpose_text) : outcome transpose_element :=
  obind (construct_default Semitones) (fun p0 =>
    omap (fun p => mkTranspose (option_map integerFromText (tt_diatonic t)) p (option_map integerFromText (tt_octave t)))
      (match tt_chromatic t with
       | None => Ok p0
       | Some s => omap snd (parse Semitones p0 s)
       end)).

(** What is written of PartData::transposition, impl/MeasureWriter.cpp:257-266 with
    TransposeData::isUsed, include/mx/api/TransposeData.h. *)
Definition writeTransposition (t : option (Z * Z)) : outcome (option transpose_text) :=
  match t with
  | Some (c, d) =>
      if negb (c =? 0) || negb (d =? 0) then omap (fun e => Some (transposeToText e)) (convertToTranspose c d)
      else Ok None
  | None => Ok None
  end.

(** What is read, impl/MeasureReader.cpp:537-546 and impl/PartReader.cpp:107-110, for a
    transpose element in the first measure at its start. *)
Definition readTransposition (t : option transpose_text) : outcome (option (Z * Z)) :=
  match t with
  | None => Ok None
  | Some x => obind (transposeFromText x) (fun e => omap Some (convertToTransposeData e))
  end.

(** Written and read back. *)
Definition transposition_roundtrip (t : option (Z * Z)) : outcome (option (Z * Z)) :=
  obind (writeTransposition t) readTransposition.
