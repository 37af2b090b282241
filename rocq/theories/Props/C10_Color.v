(** C10: color text round trip. *)
From Verif Require Import Proofs.Tac Model.Text Model.Color Spec.ColorText Proofs.ColorProofs.
Open Scope Z_scope.

(** After any history the channels are bytes, and a color without alpha is opaque. *)
Theorem C10_channels_in_range s os :
  let c := run_color (start_color s) os in
  seen_bytes (see c) /\ (myColorType c = RGB -> getAlpha c = 255).
Proof. exact (see_bytes _ (good_run _ os (good_start s))). Qed.

(** A color prints in one of the two forms. *)
Theorem C10_print_form s os :
  let c := run_color (start_color s) os in color_text (print_color c) (see c).
Proof. exact (print_color_text _ (good_run _ os (good_start s))). Qed.

(** Parsing the printed text into any color object gives the same color. *)
Theorem C10_print_parse s os s0 os0 :
  let c := run_color (start_color s) os in
  parse_color (run_color (start_color s0) os0) (print_color c) = c.
Proof. exact (color_roundtrip _ _ (good_run _ os (good_start s)) (good_run _ os0 (good_start s0))). Qed.

(** A text of one of the two forms is taken over entirely. *)
Theorem C10_parse_accepts s os t x :
  color_text t x -> see (parse_color (run_color (start_color s) os) t) = x.
Proof. exact (fun H => proj2 (parse_color_accepts _ t x (good_run _ os (good_start s)) H)). Qed.

(** Any other text leaves the color unchanged. *)
Theorem C10_parse_rejects c t : (forall x, ~ color_text t x) -> parse_color c t = c.
Proof. exact (parse_color_rejects c t). Qed.

(** Constructors and setters store the nearest byte and change nothing else. *)
Theorem C10_constructors a r g b :
  see (start_color (Start4 a r g b)) = Seen4 (to_byte a) (to_byte r) (to_byte g) (to_byte b) /\
  see (start_color (Start3 r g b)) = Seen3 (to_byte r) (to_byte g) (to_byte b) /\
  see (start_color Start0) = Seen3 255 255 255.
Proof. exact (constructors_seen a r g b). Qed.

(** One made from a text is white until the text is taken over. *)
Theorem C10_from_text t : (forall x, color_text t x -> see (start_color (StartText t)) = x) /\
  ((forall x, ~ color_text t x) -> see (start_color (StartText t)) = Seen3 255 255 255).
Proof. exact (text_seen t). Qed.

Theorem C10_setters s os v :
  let c := run_color (start_color s) os in
  see (setAlpha c v) = Seen4 (to_byte v) (getRed c) (getGreen c) (getBlue c) /\
  see (setRed c v) = with_red (see c) (to_byte v) /\
  see (setGreen c v) = with_green (see c) (to_byte v) /\
  see (setBlue c v) = with_blue (see c) (to_byte v) /\
  see (setColorType c RGB) = Seen3 (getRed c) (getGreen c) (getBlue c) /\
  see (setColorType c ARGB) = Seen4 (getAlpha c) (getRed c) (getGreen c) (getBlue c).
Proof. exact (setters_seen _ v (good_run _ os (good_start s))). Qed.

Example C10_example :
  print_color (color4 64 0 300 10) = lit "#4000FF0A" /\
  see (color_of_text (lit "#40FF000A")) = Seen4 64 255 0 10 /\
  see (color_of_text (lit "#FF000A")) = Seen3 255 0 10 /\
  see (color_of_text (lit "#ff000a")) = Seen3 255 255 255 /\
  color_text (lit "#FF000A") (Seen3 255 0 10).
Proof.
  repeat split; try reflexivity.
  apply (ct3 (lit "FF") (lit "00") (lit "0A")).
  - exists "F"%char, 15, "F"%char, 15. unfold hex_is. simpl. intuition.
  - exists "0"%char, 0, "0"%char, 0. unfold hex_is. simpl. intuition.
  - exists "0"%char, 0, "A"%char, 10. unfold hex_is. simpl. intuition.
Qed.

Print Assumptions C10_channels_in_range.
Print Assumptions C10_print_form.
Print Assumptions C10_print_parse.
Print Assumptions C10_parse_accepts.
Print Assumptions C10_parse_rejects.
Print Assumptions C10_constructors.
Print Assumptions C10_from_text.
Print Assumptions C10_setters.
