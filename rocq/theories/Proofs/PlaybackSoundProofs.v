(* The playback sounds print and parse the standard sound names. *)
From Coq Require Import List.
From Verif Require Import Model.Base Model.Text Model.EnumLookup Model.PlaybackSound
  Spec.TextEnum Spec.SoundTexts Proofs.EnumProofs.
Import ListNotations.

Lemma PlaybackSound_text :
  text_enum PlaybackSound_members PlaybackSoundToString (lookup_text PlaybackSound_chain)
    (fun s => value_or (lookup_text PlaybackSound_chain s) PlaybackSound_keyboardPiano)
    standard_sounds PlaybackSound_keyboardPiano.
Proof. enum_text. Qed.

Lemma PlaybackSound_total :
  (forall v, In v PlaybackSound_members) /\
  map PlaybackSoundToString PlaybackSound_members = standard_sounds /\
  (forall v, PlaybackSoundFromString (PlaybackSoundToString v) = Ok v) /\
  (forall v w, PlaybackSoundToString v = PlaybackSoundToString w -> v = w) /\
  (forall s v, PlaybackSoundFromString s = Ok v -> s = PlaybackSoundToString v) /\
  (forall s, ~ In s standard_sounds -> PlaybackSoundFromString s = Throw).
Proof.
  destruct PlaybackSound_text as [H1 [H2 [H3 [H4 [H5 H6]]]]].
  unfold PlaybackSoundFromString.
  repeat split; auto.
  - intro v. destruct (H3 v) as [-> _]. reflexivity.
  - intros s v H. destruct (lookup_text PlaybackSound_chain s) eqn:E; [| discriminate H].
    injection H as <-. apply H5. exact E.
  - intros s H. destruct (H6 s H) as [-> _]. reflexivity.
Qed.
