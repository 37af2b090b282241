(** What is kept of the header of a score. *)
From Coq Require Import String Ascii List ZArith Bool.
From Verif Require Import Model.Base Model.Text Model.Strings Model.Date Model.ScoreHeader Spec.Calendar Spec.XmlText Spec.TimeSignatures.
Import ListNotations.
Open Scope Z_scope.

(** The date of the encoding exists; there is none. *)
Definition has_date (e : EncodingData) : Prop := valid_ymd (e_year e) (e_month e) (e_day e).
Definition has_no_date (e : EncodingData) : Prop := e_year e = -1 /\ e_month e = -1 /\ e_day e = -1.

(** Nothing of the date could be part of a date. *)
Definition hopeless_date (e : EncodingData) : Prop :=
  ~ (1 <= e_year e <= 9999) /\ ~ (1 <= e_month e <= 12) /\ ~ (1 <= e_day e <= 31).

(** No superfluous white space where the schema has tokens. *)
Definition tidy_item (s : SupportedItem) : Prop := tidy (si_element s) /\ tidy (si_attribute s) /\ tidy (si_value s).
Definition tidy_encoding (e : EncodingData) : Prop := Forall tidy_item (e_supported e) /\ Forall (fun m => tidy (mf_key m)) (e_misc e).

(** Everything but the date. *)
Definition same_but_date (a b : EncodingData) : Prop :=
  e_encoder a = e_encoder b /\ e_description a = e_description b /\ e_software a = e_software b /\
  e_supported a = e_supported b /\ e_misc a = e_misc b.

(** The nearest date that exists. *)
Definition nearest_date (e : EncodingData) : Z * Z * Z :=
  let y := Z.max 1 (Z.min 9999 (e_year e)) in
  let m := Z.max 1 (Z.min 12 (e_month e)) in
  (y, m, Z.max 1 (Z.min (month_length y m) (e_day e))).

(** The text with superfluous white space removed. *)
Definition tidied (t u : str) : Prop := exists l, words t l /\ u = join [" "%char] l.
Definition tidied_item (s r : SupportedItem) : Prop :=
  tidied (si_element s) (si_element r) /\ tidied (si_attribute s) (si_attribute r) /\ tidied (si_value s) (si_value r) /\
  si_supported r = si_supported s.
Definition tidied_misc (m r : MiscellaneousField) : Prop := tidied (mf_key m) (mf_key r) /\ mf_value r = mf_value m.

(** The first of the texts with the type; the last text without a type. *)
Definition first_typed (t : string) (l : list typed_text) (u : str) : Prop :=
  exists a b, l = a ++ (Some (lit t), u) :: b /\ ~ In (Some (lit t)) (map fst a).
Definition no_typed (t : string) (l : list typed_text) : Prop := ~ In (Some (lit t)) (map fst l).
Definition last_untyped (l : list typed_text) (u : str) : Prop :=
  (exists a b, l = a ++ (None, u) :: b /\ ~ In None (map fst b)) \/ (~ In None (map fst l) /\ u = []).
(** The last text with one of the types. *)
Definition last_typed (ts : list string) (l : list typed_text) (u : str) : Prop :=
  (exists a t b, l = a ++ (Some (lit t), u) :: b /\ In t ts /\ forall t', In t' ts -> ~ In (Some (lit t')) (map fst b)) \/
  ((forall t', In t' ts -> ~ In (Some (lit t')) (map fst l)) /\ u = []).

(** Page numbers below 1 are not written. *)
Definition kept_page_text (p : PageTextData) : PageTextData := mkPageText (pt_text p) (Z.max 0 (pt_page p)) (pt_description p).

(** The dates, encoders, descriptions, software and supports among the choices. *)
Definition dates (l : list encoding_choice) : list (Z * Z * Z) :=
  flat_map (fun c => match c with XDate d => [(myYear d, myMonth d, myDay d)] | _ => [] end) l.
Definition encoders (l : list encoding_choice) : list str := flat_map (fun c => match c with XEncoder t => [t] | _ => [] end) l.
Definition descriptions (l : list encoding_choice) : list str := flat_map (fun c => match c with XDescription t => [t] | _ => [] end) l.
Definition softwares (l : list encoding_choice) : list str := flat_map (fun c => match c with XSoftware t => [t] | _ => [] end) l.
Definition supports (l : list encoding_choice) : list SupportedItem :=
  flat_map (fun c => match c with
                     | XSupports e a v t => [mkSupported e (match a with Some u => u | None => [] end) (match v with Some u => u | None => [] end) t]
                     | _ => [] end) l.

(** What is written for a page text. *)
Definition credit_of (p : PageTextData) (c : credit) : Prop :=
  cr_words c = Some (pt_text p) /\ (0 < pt_page p -> cr_page c = Some (pt_page p)) /\ (pt_page p <= 0 -> cr_page c = None) /\
  (pt_description p = [] -> cr_types c = []) /\ (pt_description p <> [] -> cr_types c = [pt_description p]).

(** What is read of a credit with words. *)
Definition page_text_of (c : credit) (p : PageTextData) : Prop :=
  cr_words c = Some (pt_text p) /\
  (cr_page c = None -> pt_page p = 0) /\ (forall n, cr_page c = Some n -> pt_page p = n) /\
  (cr_types c = [] -> pt_description p = []) /\ (forall d r, cr_types c = d :: r -> pt_description p = d).
Definition has_words (c : credit) : bool := match cr_words c with Some _ => true | None => false end.

(** There is nothing to say about who made the score, or how. *)
Definition nobody (h : HeaderData) : Prop := h_composer h = [] /\ h_lyricist h = [] /\ h_copyright h = [].
Definition nothing_encoded (e : EncodingData) : Prop :=
  e_encoder e = [] /\ e_description e = [] /\ e_software e = [] /\ e_supported e = [] /\
  (let '(y, m, d) := nearest_date e in e_year e <> y /\ e_month e <> m /\ e_day e <> d).

(** There is an element with the text if and only if it is not empty. *)
Definition stands_for (t : str) (x : option str) : Prop := (t = [] -> x = None) /\ (t <> [] -> x = Some t).
