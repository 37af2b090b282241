(** core/Color.cpp. *)
From Coq Require Import List Ascii String ZArith Bool.
From Verif Require Import Model.Text Model.Integers.
Import ListNotations.
Open Scope Z_scope.

(** Color::ColorType, core/Color.h:20-24. *)
Inductive color_type := RGB | ARGB.

(** Color::impl, core/Color.cpp:13-151; each channel is a Byte (core/Integers.h). *)
Record color := Color { myAlpha : int_range; myRed : int_range; myGreen : int_range; myBlue : int_range;
                        myColorType : color_type }.

(** impl( alpha, red, green, blue ), core/Color.cpp:16-25. *)
Definition color4 (a r g b : Z) : color :=
  Color (construct Byte a) (construct Byte r) (construct Byte g) (construct Byte b) ARGB.

(** impl( red, green, blue ), core/Color.cpp:27-35. *)
Definition color3 (r g b : Z) : color :=
  Color (construct Byte 255) (construct Byte r) (construct Byte g) (construct Byte b) RGB.

(** impl(), core/Color.cpp:37-43. *)
Definition color0 : color :=
  Color (construct Byte 255) (construct Byte 255) (construct Byte 255) (construct Byte 255) RGB.

(** getAlpha .. getBlue, core/Color.cpp:45-60. The cast to short keeps 0..255. *)
Definition getAlpha (c : color) : Z := ir_value (myAlpha c).
Definition getRed (c : color) : Z := ir_value (myRed c).
Definition getGreen (c : color) : Z := ir_value (myGreen c).
Definition getBlue (c : color) : Z := ir_value (myBlue c).

(** core/Color.cpp:66-70. *)
Definition setAlpha (c : color) (v : Z) : color :=
  Color (set_value (myAlpha c) v) (myRed c) (myGreen c) (myBlue c) ARGB.

(** core/Color.cpp:71-82. *)
Definition setRed (c : color) (v : Z) : color :=
  Color (myAlpha c) (set_value (myRed c) v) (myGreen c) (myBlue c) (myColorType c).
Definition setGreen (c : color) (v : Z) : color :=
  Color (myAlpha c) (myRed c) (set_value (myGreen c) v) (myBlue c) (myColorType c).
Definition setBlue (c : color) (v : Z) : color :=
  Color (myAlpha c) (myRed c) (myGreen c) (set_value (myBlue c) v) (myColorType c).

(** core/Color.cpp:83-90. *)
Definition setColorType (c : color) (t : color_type) : color :=
  Color (match t with RGB => set_value (myAlpha c) 255 | ARGB => myAlpha c end)
        (myRed c) (myGreen c) (myBlue c) t.

(** The literal "ABCDEF0123456789", core/Color.cpp:103. *)
Definition hex_allowed (c : ascii) : bool := existsb (Ascii.eqb c) (lit "ABCDEF0123456789").

(** The value of an upper case hexadecimal digit, as read by operator>> with
    std::hex. *)
Definition hex_digit_value (c : ascii) : Z := if is_digit c then code c - 48 else code c - 55.

(** getInt, core/Color.cpp:142-150, on two characters that are hexadecimal digits
    (the only case it is called in). *)
Definition getInt (t : str) (startpos : nat) : Z :=
  hex_digit_value (nth startpos t "0"%char) * 16 + hex_digit_value (nth (S startpos) t "0"%char).

(** parse, core/Color.cpp:91-134. *)
Definition parse_color (c : color) (t : str) : color :=
  let len := List.length t in
  if negb (Nat.eqb len 7) && negb (Nat.eqb len 9) then c
  else if negb (Ascii.eqb (nth 0 t "0"%char) "#") then c
  else if negb (forallb hex_allowed (skipn 1 t)) then c
  else
    let '(ty, a, r, g, b) :=
      if Nat.eqb len 9 then (ARGB, getInt t 1, getInt t 3, getInt t 5, getInt t 7)
      else (RGB, 255, getInt t 1, getInt t 3, getInt t 5) in
    setColorType (setBlue (setGreen (setRed (setAlpha c a) r) g) b) ty.

(** Color( const std::string& ), core/Color.cpp:170-172. *)
Definition color_of_text (t : str) : color := parse_color color0 t.

(** One upper case hexadecimal digit. *)
Definition hex_char (d : Z) : ascii := if d <? 10 then chr (48 + d) else chr (55 + d).

(** os << hex << setfill('0') << setw(2) << uppercase << v for 0 <= v <= 255
    (no other value can occur): the shortest numeral, padded to two digits. *)
Definition print_hex2 (v : Z) : str :=
  if v <? 16 then ["0"%char; hex_char v] else [hex_char (v / 16); hex_char (v mod 16)].

(** toStream, core/Color.cpp:242-261. *)
Definition print_color (c : color) : str :=
  lit "#" ++ (match myColorType c with ARGB => print_hex2 (getAlpha c) | RGB => [] end) ++
  print_hex2 (getRed c) ++ print_hex2 (getGreen c) ++ print_hex2 (getBlue c).

(** The calls a user can make on a color. *)
Inductive color_op :=
| CSetAlpha (v : Z) | CSetRed (v : Z) | CSetGreen (v : Z) | CSetBlue (v : Z)
| CSetType (t : color_type) | CParse (t : str).

Definition color_step (c : color) (o : color_op) : color :=
  match o with
  | CSetAlpha v => setAlpha c v
  | CSetRed v => setRed c v
  | CSetGreen v => setGreen c v
  | CSetBlue v => setBlue c v
  | CSetType t => setColorType c t
  | CParse t => parse_color c t
  end.

Definition run_color (c : color) (os : list color_op) : color := fold_left color_step os c.

(** The four public constructors, core/Color.cpp:154-172. *)
Inductive color_start := Start4 (a r g b : Z) | Start3 (r g b : Z) | Start0 | StartText (t : str).

Definition start_color (s : color_start) : color :=
  match s with
  | Start4 a r g b => color4 a r g b
  | Start3 r g b => color3 r g b
  | Start0 => color0
  | StartText t => color_of_text t
  end.
