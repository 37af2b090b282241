(** Musical intervals and note lengths. *)
From Coq Require Import ZArith QArith Qabs.
From Verif Require Import Model.Base Model.Dots.
Open Scope Z_scope.

(** [usual_diatonic c d]: d letter names are the usual spelling of an interval of c
    semitones: an octave has 7 and 12 of them, so d is the whole number nearest to
    7c/12; the tritone, half way, goes to the smaller interval. *)
Definition usual_diatonic (c d : Z) : Prop :=
  Z.abs (12 * d - 7 * c) < 6 \/ (Z.abs (12 * d - 7 * c) = 6 /\ Z.abs (12 * d) < Z.abs (7 * c)).

(** The whole octaves in an interval of c semitones. *)
Definition octaves_in (c o : Z) : Prop :=
  exists r, c = 12 * o + r /\ Z.abs r < 12 /\ 0 <= r * c.

(** The length of a note value with n dots: each dot adds half of what the one before
    it added. *)
Fixpoint dots_add (half : Q) (n : nat) : Q :=
  match n with O => 0 | S m => (half + dots_add (half / 2) m)%Q end.
Definition dotted_length (base : Q) (n : nat) : Q := (base + dots_add (base / 2) n)%Q.

(** [kept s c r]: r is what is read back of s semitones and c cents.
    - The sounding pitch is the same up to the precision of the file, six decimals.
    - What is read has one sign and less than 100 cents.
    - Semitones and cents are the same up to that precision if they have one sign and
      the cents leave room for rounding.
    - They are the same, as MXAPI_DOUBLES_EQUALS_MEMBER compares, for cents of at most
      four decimals.
    - Without cents they are the same. *)
Definition kept (s : Z) (c : Q) (r : outcome (Z * Q)%type) : Prop :=
  exists (s' : Z) (c' : Q), r = Ok (s', c') /\
    (Qabs ((inject_Z s' + c' / 100) - (inject_Z s + c / 100)) < 6 # 10000000)%Q /\
    (0 <= inject_Z s' * c')%Q /\ (Qabs c' < 100)%Q /\
    ((0 <= inject_Z s * c)%Q -> (Qabs c <= 999999 # 10000)%Q -> s' = s /\ (Qabs (c' - c) < 6 # 100000)%Q) /\
    (forall k, (Qabs (c - inject_Z k / 10000) <= 1 # 10000000000)%Q -> (0 <= inject_Z s * c)%Q -> (Z.abs k < 1000000)%Z ->
       s' = s /\ (Qabs (c' - c) < 1 # 1000000000)%Q) /\
    ((c == 0)%Q -> s' = s /\ c' = 0%Q).

(** [alter_said x s c]: s semitones and c cents are the alteration x. The sounding pitch is the
    same up to six decimals, semitones and cents have one sign, there are less than 100 cents,
    and none if x is whole. *)
Definition alter_said (x : Q) (s : Z) (c : Q) : Prop :=
  (Qabs ((inject_Z s + c / 100) - x) < 6 # 10000000)%Q /\ (0 <= inject_Z s * c)%Q /\ (Qabs c < 100)%Q /\
  (forall n, (x == inject_Z n)%Q -> s = n /\ c = 0%Q).

(** The next shorter note. *)
Definition half_of (n : duration_name) : option duration_name :=
  match n with
  | Maxima => Some Longa | Longa => Some Breve | Breve => Some Whole | Whole => Some Half | Half => Some Quarter
  | Quarter => Some Eighth | Eighth => Some Dur16th | Dur16th => Some Dur32nd | Dur32nd => Some Dur64th
  | Dur64th => Some Dur128th | Dur128th => Some Dur256th | Dur256th => Some Dur512th | Dur512th => Some Dur1024th
  | Dur1024th => None
  end.
