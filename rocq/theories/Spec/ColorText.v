(** The text form of colors. *)
From Coq Require Import List Ascii String ZArith.
From Verif Require Import Model.Text Model.Color.
Import ListNotations.
Open Scope Z_scope.

(** Upper case hexadecimal digits and their values. *)
Definition hex_is (c : ascii) (d : Z) : Prop :=
  In (c, d) [("0", 0); ("1", 1); ("2", 2); ("3", 3); ("4", 4); ("5", 5); ("6", 6); ("7", 7);
             ("8", 8); ("9", 9); ("A", 10); ("B", 11); ("C", 12); ("D", 13); ("E", 14); ("F", 15)]%char.

(** Two hexadecimal digits denoting [n]. *)
Definition hex2 (t : str) (n : Z) : Prop :=
  exists c1 d1 c2 d2, t = [c1; c2] /\ hex_is c1 d1 /\ hex_is c2 d2 /\ n = 16 * d1 + d2.

(** What a color looks like from outside: with or without alpha. *)
Inductive seen := Seen3 (r g b : Z) | Seen4 (a r g b : Z).

Definition see (c : color) : seen :=
  match myColorType c with
  | RGB => Seen3 (getRed c) (getGreen c) (getBlue c)
  | ARGB => Seen4 (getAlpha c) (getRed c) (getGreen c) (getBlue c)
  end.

Definition with_red (s : seen) (v : Z) : seen :=
  match s with Seen3 _ g b => Seen3 v g b | Seen4 a _ g b => Seen4 a v g b end.
Definition with_green (s : seen) (v : Z) : seen :=
  match s with Seen3 r _ b => Seen3 r v b | Seen4 a r _ b => Seen4 a r v b end.
Definition with_blue (s : seen) (v : Z) : seen :=
  match s with Seen3 r g _ => Seen3 r g v | Seen4 a r g _ => Seen4 a r g v end.

(** [color_text t s]: [t] is "#RRGGBB" or "#AARRGGBB" for the color [s]. *)
Inductive color_text : str -> seen -> Prop :=
| ct3 tr tg tb r g b : hex2 tr r -> hex2 tg g -> hex2 tb b ->
    color_text ("#"%char :: tr ++ tg ++ tb) (Seen3 r g b)
| ct4 ta tr tg tb a r g b : hex2 ta a -> hex2 tr r -> hex2 tg g -> hex2 tb b ->
    color_text ("#"%char :: ta ++ tr ++ tg ++ tb) (Seen4 a r g b).

Definition byte (z : Z) : Prop := 0 <= z <= 255.

(** The nearest byte. *)
Definition to_byte (w : Z) : Z := Z.max 0 (Z.min 255 w).

Definition seen_bytes (s : seen) : Prop :=
  match s with
  | Seen3 r g b => byte r /\ byte g /\ byte b
  | Seen4 a r g b => byte a /\ byte r /\ byte g /\ byte b
  end.
