(** impl/Converter.cpp: pitch alteration; core/elements/Alter.cpp, KeyAlter.cpp. *)
From Coq Require Import List ZArith QArith Qround Qabs Bool.
From Verif Require Import Model.Base Model.Text Model.Ticks Model.LongDouble Model.Decimals Model.Transpose.
Import ListNotations.
Open Scope Z_scope.

(** Converter::convertToAlter, impl/Converter.cpp:1811-1823: double arithmetic. *)
Definition convertToAlter (semitones : Z) (cents : Q) : Q :=
  if negb (semitones =? 0) || negb (Qeq_bool cents 0) then
    let microtones := if Qeq_bool cents 0 then 0%Q else dbl (cents / 100) in
    dbl (inject_Z semitones + microtones)
  else 0%Q.

(** Converter::convertToSemitonesAndCents, impl/Converter.cpp:1825-1838. *)
Definition convertToSemitonesAndCents (xmlAlter : Q) : outcome (Z * Q) :=
  obind (to_int xmlAlter) (fun intAlter =>
    let micro := ld (xmlAlter - inject_Z intAlter) in
    Ok (intAlter,
        if Qle_bool (dbl (1 # 1000000000000)) (Qabs micro) then dbl (ld (micro * 100)) else 0%Q)).

(** The text of the alter element of a note's pitch, impl/NoteWriter.cpp:373-378:
    absent if there is no alteration. *)
Definition writeAlter (semitones : Z) (cents : Q) : outcome (option str) :=
  if negb (semitones =? 0) || negb (Qeq_bool cents 0) then
    omap (fun p => Some (Decimals.toString p)) (construct Semitones (convertToAlter semitones cents))
  else Ok None.

(** impl/NoteReader.cpp:218-223 with core/elements/Alter.cpp:69-75. *)
Definition readAlter (t : option str) : outcome (Z * Q) :=
  match t with
  | None => Ok (0, 0%Q)
  | Some s =>
      obind (construct_default Semitones) (fun p0 =>
        obind (parse Semitones p0 s) (fun r => convertToSemitonesAndCents (getValue (snd r))))
  end.

(** The key-alter element of a key component, impl/PropertiesWriter.cpp:194-195: always
    written. *)
Definition writeKeyAlter (semitones : Z) (cents : Q) : outcome str :=
  omap Decimals.toString (construct Semitones (convertToAlter semitones cents)).

(** impl/MeasureReader.cpp:479-485. *)
Definition readKeyAlter (s : str) : outcome (Z * Q) :=
  obind (construct_default Semitones) (fun p0 =>
    obind (parse Semitones p0 s) (fun r =>
      if Qeq_bool (getValue (snd r)) 0 then Ok (0, 0%Q)
      else convertToSemitonesAndCents (getValue (snd r)))).

(** Written and read back. *)
Definition alter_roundtrip (semitones : Z) (cents : Q) : outcome (Z * Q) :=
  obind (writeAlter semitones cents) readAlter.

Definition key_alter_roundtrip (semitones : Z) (cents : Q) : outcome (Z * Q) :=
  obind (writeKeyAlter semitones cents) readKeyAlter.
