(** The texts MusicXML allows in its elements, and when two texts say the same. *)
From Coq Require Import List Ascii String ZArith QArith Qabs.
From Verif Require Import Model.Text Spec.Numerals Spec.DecimalText Spec.Calendar Spec.DateText Spec.SchemaTexts Spec.SoundTexts Spec.XmlText.
Import ListNotations.
Open Scope list_scope.

(** What the schema has in an element: any text, one of a list of texts, an integer or
    a decimal number within bounds, a positive integer or nothing, a date. *)
Inductive bound := Anywhere | From (b : Z) | Above (b : Z).

Inductive kind :=
| AnyText
| OneOf (texts : list str)
| Whole (lowest highest : option Z)
| Fraction (lowest : bound) (highest : option Z)
| WholeOrNothing
| Day.

Definition no_less (lowest : option Z) (n : Z) : Prop := match lowest with Some b => (b <= n)%Z | None => True end.
Definition no_more (highest : option Z) (n : Z) : Prop := match highest with Some b => (n <= b)%Z | None => True end.

Definition bounded (lowest : bound) (highest : option Z) (x : Q) : Prop :=
  match lowest with Anywhere => True | From b => (inject_Z b <= x)%Q | Above b => (inject_Z b < x)%Q end /\
  match highest with Some b => (x <= inject_Z b)%Q | None => True end.

(** [decimal_text t x]: white space, an optional sign, digits with an optional point
    among, before or after them, white space. *)
Definition decimal_text (t : str) (x : Q) : Prop :=
  exists w1 sign ip fp point w2 n q,
    t = w1 ++ sign ++ ip ++ point ++ fp ++ w2 /\
    Forall ws_char w1 /\ Forall ws_char w2 /\
    (point = ["."%char] \/ (point = [] /\ fp = [])) /\
    numeral (ip ++ fp) n /\
    q = (inject_Z n / inject_Z (10 ^ Z.of_nat (List.length fp)))%Q /\
    ((sign = [] /\ x == q) \/ (sign = ["+"%char] /\ x == q) \/ (sign = ["-"%char] /\ x == - q))%Q.

(** The texts of each kind. Of the dates these are those of the years 1 to 9999. *)
Definition admits (k : kind) (t : str) : Prop :=
  match k with
  | AnyText => True
  | OneOf texts => In t texts
  | Whole lowest highest => exists n, int_text t n /\ no_less lowest n /\ no_more highest n
  | Fraction lowest highest => exists x, decimal_text t x /\ bounded lowest highest x
  | WholeOrNothing => t = [] \/ exists n, int_text t n /\ (1 <= n)%Z
  | Day => exists y m d, date_text t y m d /\ valid_ymd y m d
  end.

(** [says k t u]: the text [u] is the shortest that says what [t] does. *)
Definition says (k : kind) (t u : str) : Prop :=
  match k with
  | AnyText | OneOf _ | Day => u = t
  | Whole _ _ => exists n, int_text t n /\ canonical_int u n
  | Fraction _ _ => exists x, decimal_text t x /\ plain_decimal u x /\ shortest_decimal u
  | WholeOrNothing => (t = [] /\ u = []) \/ exists n, int_text t n /\ canonical_int u n
  end.

(** The texts that are the shortest themselves. *)
Definition shortest (k : kind) (t : str) : Prop :=
  match k with
  | Whole _ _ => exists n, canonical_int t n
  | Fraction _ _ => exists x, plain_decimal t x /\ shortest_decimal t
  | WholeOrNothing => t = [] \/ exists n, canonical_int t n
  | _ => True
  end.

(** The texts the program can hold: integers of 32 bits, decimal numbers of at most six
    places and 2^44, the instrument sounds it knows and the modes other than "other" that
    need no escaping. *)
Definition held (name : str) (k : kind) (t : str) : Prop :=
  (name = lit "instrument-sound" -> In t standard_sounds) /\
  (name = lit "mode" -> t <> lit "other" /\ ~ In "<"%char t /\ ~ In ">"%char t /\ ~ In "&"%char t) /\
  match k with
  | Whole _ _ => exists n, int_text t n /\ is_int n
  | Fraction _ _ => exists z, decimal_text t (inject_Z z / 1000000) /\ (Z.abs z <= 2 ^ 44 * 10 ^ 6)%Z
  | WholeOrNothing => t = [] \/ exists n, int_text t n /\ is_int n
  | _ => True
  end.

(** [nearest lowest highest n m]: of the integers within the bounds m is next to n. *)
Definition nearest (lowest highest : option Z) (n m : Z) : Prop :=
  no_less lowest m /\ no_more highest m /\
  forall k, no_less lowest k -> no_more highest k -> (Z.abs (m - n) <= Z.abs (k - n))%Z.

(** What the program makes of a text that is not of the kind of its element: the first of
    a list, the nearest number in the bounds or, of a text that is no number, the number
    next to 0 (1 where a number must be positive, 3 for a tremolo); 1900-01-01 for a date.
    "double-flat" is taken for "flat-flat", and an accordion-middle may be 0. *)
Definition taken_whole (lowest highest : option Z) (start : Z) (t u : str) : Prop :=
  (forall n, int_text t n -> is_int n -> exists m, nearest lowest highest n m /\ canonical_int u m) /\
  ((forall n, int_text t n -> ~ is_int n) -> exists m, nearest lowest highest start m /\ canonical_int u m).

Definition taken_for (name : str) (k : kind) (t u : str) : Prop :=
  match k with
  | AnyText => u = t
  | OneOf texts =>
      (name = lit "accidental" /\ t = lit "double-flat" /\ u = lit "flat-flat") \/
      (~ (name = lit "accidental" /\ t = lit "double-flat") /\ hd_error texts = Some u)
  | Whole lowest highest =>
      (name = lit "accordion-middle" /\ taken_whole (Some 0%Z) highest 0 t u) \/
      (name = lit "tremolo" /\ taken_whole lowest highest 3 t u) \/
      (name <> lit "accordion-middle" /\ name <> lit "tremolo" /\ taken_whole lowest highest 0 t u)
  | WholeOrNothing => taken_whole (Some 1%Z) None 1 t u
  | Fraction lowest highest =>
      (forall x, number_text t x -> (Qabs x < inject_Z (2 ^ 64))%Q ->
        (forall b, lowest = From b -> (x < inject_Z b)%Q -> canonical_int u b) /\
        (forall b, lowest = Above b -> (x <= inject_Z b)%Q -> u = lit "0.000001") /\
        (forall b, highest = Some b -> (inject_Z b < x)%Q -> canonical_int u b)) /\
      ((forall x, ~ number_text t x) -> u = match lowest with Above _ => lit "1" | _ => lit "0" end)
  | Day => u = lit "1900-01-01"
  end.

(** Documents/musicxml.xsd, at the lines of the element and of its type. *)
Definition schema_element_texts : list (str * kind) :=
  [
    (* 2162, 190 *) (lit "midi-channel", Whole (Some 1) (Some 16));
    (* 2167 *) (lit "midi-name", AnyText);
    (* 2172, 210 *) (lit "midi-bank", Whole (Some 1) (Some 16384));
    (* 2177, 200 *) (lit "midi-program", Whole (Some 1) (Some 128));
    (* 2182, 200 *) (lit "midi-unpitched", Whole (Some 1) (Some 128));
    (* 2187, 295 *) (lit "volume", Fraction (From 0) (Some 100));
    (* 2192, 336 *) (lit "pan", Fraction (From (-180)) (Some 180));
    (* 2197, 336 *) (lit "elevation", Fraction (From (-180)) (Some 180));
    (* 2212, 2110 *) (lit "display-text", AnyText);
    (* 2213, 1980 *) (lit "accidental-text", OneOf schema_accidental_value);
    (* 2236 *) (lit "ipa", AnyText);
    (* 2241, 220 *) (lit "mute", OneOf schema_mute);
    (* 2242, 346 *) (lit "semi-pitched", OneOf schema_semi_pitched);
    (* 2243, 2219 *) (lit "other-play", AnyText);
    (* 2293, 314 *) (lit "divisions", Fraction (Above 0) None);
    (* 2311 *) (lit "staves", Whole (Some 0) None);
    (* 2317, 2514 *) (lit "part-symbol", OneOf schema_group_symbol_value);
    (* 2323 *) (lit "instruments", Whole (Some 0) None);
    (* 2347 *) (lit "directive", AnyText);
    (* 2404, 578 *) (lit "sign", OneOf schema_clef_sign);
    (* 2409, 617 *) (lit "line", Whole None None);
    (* 2414 *) (lit "clef-octave-change", Whole None None);
    (* 2433, 644 *) (lit "time-relation", OneOf schema_time_relation);
    (* 2449, 2460 *) (lit "key-octave", Whole (Some 0) (Some 9));
    (* 2493, 2503 *) (lit "multiple-rest", WholeOrNothing);
    (* 2494, 2472 *) (lit "measure-repeat", WholeOrNothing);
    (* 2543, 631 *) (lit "staff-type", OneOf schema_staff_type);
    (* 2544 *) (lit "staff-lines", Whole (Some 0) None);
    (* 2550 *) (lit "capo", Whole (Some 0) None);
    (* 2555, 243 *) (lit "staff-size", Fraction (From 0) None);
    (* 2586 *) (lit "senza-misura", AnyText);
    (* 2604 *) (lit "diatonic", Whole None None);
    (* 2609, 1453 *) (lit "chromatic", Fraction Anywhere None);
    (* 2614 *) (lit "octave-change", Whole None None);
    (* 2648, 2630 *) (lit "bar-style", OneOf schema_bar_style);
    (* 2653, 2084 *) (lit "fermata", OneOf schema_fermata_shape);
    (* 2654, 2663 *) (lit "ending", AnyText);
    (* 2711, 762 *) (lit "accordion-middle", Whole (Some 1) (Some 3));
    (* 2738, 2756 *) (lit "bass-step", OneOf schema_step);
    (* 2739, 2743 *) (lit "bass-alter", Fraction Anywhere None);
    (* 2811, 2842 *) (lit "degree-value", Whole (Some 1) None);
    (* 2812, 2818 *) (lit "degree-alter", Fraction Anywhere None);
    (* 2813, 2830 *) (lit "degree-type", OneOf schema_degree_type_value);
    (* 2863, 3183 *) (lit "offset", Fraction Anywhere None);
    (* 2877, 2110 *) (lit "rehearsal", AnyText);
    (* 2887, 2110 *) (lit "words", AnyText);
    (* 2923, 3266 *) (lit "principal-voice", AnyText);
    (* 2926, 3194 *) (lit "other-direction", AnyText);
    (* 2958 *) (lit "frame-strings", Whole (Some 1) None);
    (* 2963 *) (lit "frame-frets", Whole (Some 1) None);
    (* 2968, 2941 *) (lit "first-fret", Whole (Some 1) None);
    (* 2985, 2249 *) (lit "string", Whole (Some 1) None);
    (* 2986, 2121 *) (lit "fret", Whole (Some 0) None);
    (* 2987, 2096 *) (lit "fingering", AnyText);
    (* 2999, 2930 *) (lit "feature", AnyText);
    (* 3107, 3234 *) (lit "per-minute", AnyText);
    (* 3114 *) (lit "metronome-relation", AnyText);
    (* 3144, 1384 *) (lit "metronome-type", OneOf schema_note_type_value);
    (* 3154, 3128 *) (lit "metronome-beam", OneOf schema_beam_value);
    (* 3221, 1483 *) (lit "pedal-step", OneOf schema_step);
    (* 3226, 1453 *) (lit "pedal-alter", Fraction Anywhere None);
    (* 3250, 843 *) (lit "glass", OneOf schema_glass);
    (* 3251, 991 *) (lit "metal", OneOf schema_metal);
    (* 3252, 1150 *) (lit "wood", OneOf schema_wood);
    (* 3253, 1032 *) (lit "pitched", OneOf schema_pitched);
    (* 3254, 971 *) (lit "membrane", OneOf schema_membrane);
    (* 3255, 821 *) (lit "effect", OneOf schema_effect);
    (* 3257, 2768 *) (lit "beater", OneOf schema_beater_value);
    (* 3259, 1087 *) (lit "stick-location", OneOf schema_stick_location);
    (* 3260 *) (lit "other-percussion", AnyText);
    (* 3288, 3088 *) (lit "measure-numbering", OneOf schema_measure_numbering_value);
    (* 3300, 3318 *) (lit "root-step", OneOf schema_step);
    (* 3301, 3305 *) (lit "root-alter", Fraction Anywhere None);
    (* 3371, 2145 *) (lit "midi-device", AnyText);
    (* 3401, 1112 *) (lit "stick-type", OneOf schema_stick_type);
    (* 3402, 1099 *) (lit "stick-material", OneOf schema_stick_material);
    (* 3436, 556 *) (lit "encoding-date", Day);
    (* 3437, 2261 *) (lit "encoder", AnyText);
    (* 3438 *) (lit "software", AnyText);
    (* 3439 *) (lit "encoding-description", AnyText);
    (* 3449, 2261 *) (lit "creator", AnyText);
    (* 3454, 2261 *) (lit "rights", AnyText);
    (* 3460 *) (lit "source", AnyText);
    (* 3465, 2261 *) (lit "relation", AnyText);
    (* 3479, 3483 *) (lit "miscellaneous-field", AnyText);
    (* 3511, 3529 *) (lit "line-width", Fraction Anywhere None);
    (* 3512, 3553 *) (lit "note-size", Fraction (From 0) None);
    (* 3513, 3518 *) (lit "distance", Fraction Anywhere None);
    (* 3514, 3564 *) (lit "other-appearance", AnyText);
    (* 3545, 425 *) (lit "measure-distance", Fraction Anywhere None);
    (* 3581, 425 *) (lit "page-height", Fraction Anywhere None);
    (* 3582, 425 *) (lit "page-width", Fraction Anywhere None);
    (* 3601, 1199 *) (lit "millimeters", Fraction Anywhere None);
    (* 3602, 425 *) (lit "tenths", Fraction Anywhere None);
    (* 3611, 425 *) (lit "staff-distance", Fraction Anywhere None);
    (* 3636, 425 *) (lit "system-distance", Fraction Anywhere None);
    (* 3637, 425 *) (lit "top-system-distance", Fraction Anywhere None);
    (* 3769, 3870 *) (lit "breath-mark", OneOf schema_breath_mark_value);
    (* 3785, 4388 *) (lit "other-articulation", AnyText);
    (* 3799, 1261 *) (lit "arrow-direction", OneOf schema_arrow_direction);
    (* 3800, 1282 *) (lit "arrow-style", OneOf schema_arrow_style);
    (* 3802, 1321 *) (lit "circular-arrow", OneOf schema_circular_arrow);
    (* 3843, 1453 *) (lit "bend-alter", Fraction Anywhere None);
    (* 3860, 4388 *) (lit "with-bar", AnyText);
    (* 3906, 4464 *) (lit "prefix", AnyText);
    (* 3911, 4464 *) (lit "figure-number", AnyText);
    (* 3916, 4464 *) (lit "suffix", AnyText);
    (* 4059 *) (lit "hole-type", AnyText);
    (* 4064, 4075 *) (lit "hole-closed", OneOf schema_hole_closed_value);
    (* 4065 *) (lit "hole-shape", AnyText);
    (* 4100, 1498 *) (lit "syllabic", OneOf schema_syllabic);
    (* 4101, 4555 *) (lit "text", AnyText);
    (* 4104, 4572 *) (lit "elision", AnyText);
    (* 4178, 3952 *) (lit "glissando", AnyText);
    (* 4179, 4410 *) (lit "slide", AnyText);
    (* 4187, 3686 *) (lit "accidental-mark", OneOf schema_accidental_value);
    (* 4188, 4362 *) (lit "other-notation", AnyText);
    (* 4224, 4253 *) (lit "type", OneOf schema_note_type_value);
    (* 4230, 3672 *) (lit "accidental", OneOf schema_accidental_value);
    (* 4232, 4441 *) (lit "stem", OneOf schema_stem_value);
    (* 4233, 4264 *) (lit "notehead", OneOf schema_notehead_value);
    (* 4236, 3818 *) (lit "beam", OneOf schema_beam_value);
    (* 4351, 4644 *) (lit "tremolo", Whole (Some 0) (Some 8));
    (* 4352, 4388 *) (lit "other-ornament", AnyText);
    (* 4382, 1483 *) (lit "step", OneOf schema_step);
    (* 4383, 1453 *) (lit "alter", Fraction Anywhere None);
    (* 4384, 1443 *) (lit "octave", Whole (Some 0) (Some 9));
    (* 4502, 4388 *) (lit "pluck", AnyText);
    (* 4529, 3977 *) (lit "hammer-on", AnyText);
    (* 4530, 3977 *) (lit "pull-off", AnyText);
    (* 4532, 4388 *) (lit "tap", AnyText);
    (* 4546, 3991 *) (lit "handbell", OneOf schema_handbell_value);
    (* 4547, 4388 *) (lit "other-technical", AnyText);
    (* 4619 *) (lit "actual-notes", Whole (Some 0) None);
    (* 4624 *) (lit "normal-notes", Whole (Some 0) None);
    (* 4630, 1384 *) (lit "normal-type", OneOf schema_note_type_value);
    (* 4716, 4699 *) (lit "tuplet-number", Whole (Some 0) None);
    (* 4717, 4722 *) (lit "tuplet-type", OneOf schema_note_type_value);
    (* 4757 *) (lit "credit-type", AnyText);
    (* 4763, 2110 *) (lit "credit-words", AnyText);
    (* 4865, 4808 *) (lit "group-name", AnyText);
    (* 4871, 4808 *) (lit "group-abbreviation", AnyText);
    (* 4877, 4819 *) (lit "group-symbol", OneOf schema_group_symbol_value);
    (* 4878, 4797 *) (lit "group-barline", OneOf schema_group_barline_value);
    (* 4922 *) (lit "instrument-name", AnyText);
    (* 4927 *) (lit "instrument-abbreviation", AnyText);
    (* 4932 *) (lit "instrument-sound", AnyText);
    (* 4943, 323 *) (lit "ensemble", WholeOrNothing);
    (* 4960, 4904 *) (lit "part-name", AnyText);
    (* 4962, 4904 *) (lit "part-abbreviation", AnyText);
    (* 4964 *) (lit "group", AnyText);
    (* 4983 *) (lit "virtual-library", AnyText);
    (* 4988 *) (lit "virtual-name", AnyText);
    (* 5001 *) (lit "work-number", AnyText);
    (* 5006 *) (lit "work-title", AnyText);
    (* 5054, 2110 *) (lit "footnote", AnyText);
    (* 5063, 2133 *) (lit "level", AnyText);
    (* 5072 *) (lit "staff", Whole (Some 1) None);
    (* 5085, 1483 *) (lit "tuning-step", OneOf schema_step);
    (* 5090, 1453 *) (lit "tuning-alter", Fraction Anywhere None);
    (* 5095, 1443 *) (lit "tuning-octave", Whole (Some 0) (Some 9));
    (* 5108 *) (lit "voice", AnyText);
    (* 5119, 1483 *) (lit "key-step", OneOf schema_step);
    (* 5124, 1453 *) (lit "key-alter", Fraction Anywhere None);
    (* 5129, 1219 *) (lit "key-accidental", OneOf schema_accidental_value);
    (* 5142, 1384 *) (lit "slash-type", OneOf schema_note_type_value);
    (* 5160 *) (lit "beats", AnyText);
    (* 5165 *) (lit "beat-type", AnyText);
    (* 5178, 2382 *) (lit "cancel", Whole None None);
    (* 5179, 593 *) (lit "fifths", Whole None None);
    (* 5180, 600 *) (lit "mode", AnyText);
    (* 5191, 1384 *) (lit "beat-unit", OneOf schema_note_type_value);
    (* 5213, 4464 *) (lit "function", AnyText);
    (* 5219, 3056 *) (lit "kind", OneOf schema_kind_value);
    (* 5220, 3045 *) (lit "inversion", Whole (Some 0) None);
    (* 5234, 425 *) (lit "top-margin", Fraction Anywhere None);
    (* 5235, 425 *) (lit "bottom-margin", Fraction Anywhere None);
    (* 5255, 425 *) (lit "left-margin", Fraction Anywhere None);
    (* 5256, 425 *) (lit "right-margin", Fraction Anywhere None);
    (* 5267, 314 *) (lit "duration", Fraction (Above 0) None);
    (* 5280, 1483 *) (lit "display-step", OneOf schema_step);
    (* 5281, 1443 *) (lit "display-octave", Whole (Some 0) (Some 9));
    (* 5344 *) (lit "movement-number", AnyText);
    (* 5349 *) (lit "movement-title", AnyText)
  ].
