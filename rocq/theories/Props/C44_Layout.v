(* C44: the page layout in the defaults of a score. *)
From Coq Require Import List Ascii String Bool ZArith QArith Qabs.
From Verif Require Import Model.Base Model.Text Model.LongDouble Model.Decimals Model.CoreEnums Model.ApiEnums Spec.DecimalText
  Spec.Attachments Model.Layout Spec.Layouts Proofs.StoredProofs Proofs.LayoutProofs Spec.FixedText Proofs.FixedProofs.
Import ListNotations.
Open Scope Z_scope.

(** The claim: everything comes back as it was, with its numbers as they are stored. *)
Definition C44_claim : Prop := forall d, every_in_defaults storable d ->
  exists h, addDefaultsData d None = Ok h /\ createDefaults h = rounded_defaults d.

(** Finding: margins without a page size come back with a page of size 0. *)
Theorem C44_refuted : ~ C44_claim.
Proof. exact defaults_refuted. Qed.
Print Assumptions C44_refuted.

(** What comes back of any defaults. *)
Theorem C44_defaults_partial : forall d, every_in_defaults storable d ->
  exists h, addDefaultsData d None = Ok h /\ createDefaults h = kept_defaults d.
Proof.
  exact (fun d S => match defaults_written d S with
                    | ex_intro _ h (conj E W) => ex_intro _ h (conj E (defaults_read d h S W))
                    end).
Qed.
Print Assumptions C44_defaults_partial.

(** The claim holds where page margins are not negative and come with a page size, the
    top system distance comes with system margins, both scaling numbers are given, and
    the appearances are line widths, note sizes and distances in this order. *)
Theorem C44_plain_partial : forall d, every_in_defaults storable d -> plain_defaults d ->
  exists h, addDefaultsData d None = Ok h /\ createDefaults h = rounded_defaults d.
Proof.
  exact (fun d S P => match defaults_written d S with
                      | ex_intro _ h (conj E W) => ex_intro _ h (conj E (eq_trans (defaults_read d h S W) (plain_defaults_kept d S P)))
                      end).
Qed.
Print Assumptions C44_plain_partial.

(** A number comes back to six decimals. *)
Theorem C44_numbers : forall x, is_ld x -> (Qabs x <= 33000000)%Q ->
  (Qabs (stored TenthsValue x - x) < 6 # 10000000)%Q /\ (Qabs (stored MillimetersValue x - x) < 6 # 10000000)%Q.
Proof.
  exact (fun x L B => conj (proj1 (stored_near TenthsValue x eq_refl eq_refl L B)) (proj1 (stored_near MillimetersValue x eq_refl eq_refl L B))).
Qed.
Print Assumptions C44_numbers.

(** The elements that are written: only those for which there is something. *)
Theorem C44_written : forall d, every_in_defaults storable d ->
  exists h, addDefaultsData d None = Ok h /\ defaults_element d h.
Proof. exact defaults_written. Qed.
Print Assumptions C44_written.

(** The page layout that is read from any element: of several margins for a kind of page
    the last ones count, and margins without a type are for both kinds. *)
Theorem C44_page_read : forall g, readPageLayout g = page_layout_in g.
Proof. exact readPageLayout_any. Qed.
Print Assumptions C44_page_read.

(** The value of an other appearance is written with six decimals. *)
Theorem C44_other_text : forall x, six_decimals (to_string_ld x) x.
Proof. exact to_string_six. Qed.
Print Assumptions C44_other_text.
Example C44_other_text_case : to_string_ld (-(5 # 2)) = lit "-2.500000" /\ to_string_ld (1 # 2000000) = lit "0.000000" /\ to_string_ld (3 # 2000000) = lit "0.000002".
Proof. split; [vm_compute; reflexivity | split; vm_compute; reflexivity]. Qed.

(** Of several staff layouts the first is read. *)
Theorem C44_staff_read : forall g s, readStaffLayout g s =
  mkSystemLayout (systemMargins s) (systemDistance s) (topSystemDistance s)
    (match g_staff g with Some q :: _ => Some q | _ => staffDistance s end).
Proof. exact staff_first. Qed.
Print Assumptions C44_staff_read.

(** A plain layout: different margins of odd and even pages, system margins and
    distances, two appearances. *)
Example C44_meets :
  let d := mkDefaults (inject_Z 7) (inject_Z 40)
             (mkPageLayout (Some (mkSize (inject_Z 1600) (inject_Z 1200)))
                (mkPageMargins (Some (mkMargins (inject_Z 80) (inject_Z 70) (inject_Z 60) (inject_Z 50)))
                               (Some (mkMargins (inject_Z 70) (inject_Z 80) (inject_Z 60) (inject_Z 50)))))
             (mkSystemLayout (Some (mkLeftRight (inject_Z 0) (inject_Z (-3)))) None (Some (inject_Z 110)) (Some (inject_Z 65)))
             [mkAppearance LineWidth (lit "stem") (5 # 4); mkAppearance Distance (lit "hyphen") (inject_Z 120)] in
  every_in_defaults storable d /\ plain_defaults d.
Proof.
  split.
  - split; [apply storable_int; reflexivity | ]. split; [apply storable_int; reflexivity | ]. split; [ | split; [ | ]].
    + split; [split; apply storable_int; reflexivity | ].
      split; (split; [apply storable_int; reflexivity | split; [apply storable_int; reflexivity | split; apply storable_int; reflexivity]]).
    + split; [split; apply storable_int; reflexivity | ]. split; [exact I | ]. split; apply storable_int; reflexivity.
    + apply Forall_cons; [ | apply Forall_cons; [apply storable_int; reflexivity | apply Forall_nil]].
      split; [exists 5, (-2); split; reflexivity | split; reflexivity].
  - split; [reflexivity | ]. split; [reflexivity | ]. split; [ | split].
    + split; [intros H; discriminate H | ]. split; (split; [discriminate | split; [discriminate | split; discriminate]]).
    + intros H; discriminate H.
    + exists [mkAppearance LineWidth (lit "stem") (5 # 4)], [], [mkAppearance Distance (lit "hyphen") (inject_Z 120)].
      split; [reflexivity | ]. split; [ | split; [apply Forall_nil | ]];
        (apply Forall_cons; [split; [reflexivity | discriminate] | apply Forall_nil]).
Qed.

(** Further findings: a top system distance alone brings system margins of 0, negative
    page margins become 0, an other appearance becomes a distance of 0. *)
Example C44_losses :
  kept_system_layout (mkSystemLayout None None (Some (inject_Z 110)) None) =
    mkSystemLayout (Some (mkLeftRight 0 0)) None (Some (tenths (inject_Z 110))) None /\
  kept_margins (mkMargins (inject_Z (-5)) (inject_Z 5) (inject_Z 0) (inject_Z 1)) = mkMargins (tenths 0) (tenths 5) (tenths 0) (tenths 1) /\
  kept_appearance (mkAppearance OtherAppearance (lit "slur") (inject_Z 3)) = mkAppearance Distance (lit "slur") 0.
Proof. split; [vm_compute; reflexivity | split; vm_compute; reflexivity]. Qed.
