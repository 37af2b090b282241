(* The instrument table and the text form of the API sounds. *)
From Coq Require Import Ascii String List Bool ZArith.
From Verif Require Import Model.Base Model.Text Model.EnumLookup Model.PlaybackSound Model.SoundID
  Model.InstrumentTable Spec.Conversion Spec.SoundTexts Proofs.StringsProofs
  Proofs.ConversionProofs Proofs.PlaybackSoundProofs.
Import ListNotations.

Lemma PlaybackSound_numbered : numbered PlaybackSound_members PlaybackSound_value.
Proof. number_all. Qed.

Lemma api_SoundID_numbered : numbered api_SoundID_members api_SoundID_value.
Proof. number_all. Qed.

Lemma instrumentMap_converts :
  converts instrumentMap_toApi instrumentMap_toCore PlaybackSoundToString api_SoundID_name (lit "") []
    everything PlaybackSound_keyboardPiano
    []
    [(api_SoundID_unspecified, PlaybackSound_keyboardPiano);
     (api_SoundID_errorBadString, PlaybackSound_keyboardPiano)].
Proof. convert_check PlaybackSound_numbered api_SoundID_numbered. Qed.

Lemma sound_number : forall a b, api_SoundID_value a = api_SoundID_value b -> a = b.
Proof. exact (numbered_inj _ _ _ api_SoundID_numbered). Qed.

Definition sound_check (a : api_SoundID) : bool :=
  Z.eqb (api_SoundID_value (SoundIDFromString (SoundIDToString a)))
        (if Z.eqb (api_SoundID_value a) (api_SoundID_value api_SoundID_unspecified)
         then api_SoundID_value api_SoundID_errorBadString else api_SoundID_value a).

Lemma sound_checked : forallb sound_check api_SoundID_members = true.
Proof. vm_compute. reflexivity. Qed.

Lemma sound_roundtrip : forall a, a <> api_SoundID_unspecified ->
  SoundIDFromString (SoundIDToString a) = a.
Proof.
  intros a Ha. pose proof sound_checked as H. rewrite forallb_forall in H.
  specialize (H a (numbered_in _ _ _ api_SoundID_numbered a)). unfold sound_check in H.
  destruct (Z.eqb (api_SoundID_value a) (api_SoundID_value api_SoundID_unspecified)) eqn:E.
  - exfalso. apply Ha. apply sound_number. apply Z.eqb_eq. exact E.
  - apply sound_number. apply Z.eqb_eq. exact H.
Qed.

Lemma sound_unspecified :
  SoundIDFromString (SoundIDToString api_SoundID_unspecified) = api_SoundID_errorBadString.
Proof. vm_compute. reflexivity. Qed.

Definition core_text_check (p : PlaybackSound) : bool :=
  str_eqb (SoundIDToString (instrumentMap_toApi p)) (PlaybackSoundToString p).

Lemma core_text_checked : forallb core_text_check PlaybackSound_members = true.
Proof. vm_compute. reflexivity. Qed.

Lemma sound_text_roundtrip : forall s, In s standard_sounds ->
  SoundIDToString (SoundIDFromString s) = s.
Proof.
  intros s Hs. destruct PlaybackSound_total as [Hin [Hmap [Hrt _]]].
  rewrite <- Hmap in Hs. apply in_map_iff in Hs. destruct Hs as [p [<- _]].
  unfold SoundIDFromString. rewrite Hrt.
  pose proof core_text_checked as H. rewrite forallb_forall in H.
  specialize (H p (Hin p)). apply str_eqb_eq. exact H.
Qed.

Lemma sound_text_other : forall s, ~ In s standard_sounds ->
  SoundIDFromString s = api_SoundID_errorBadString.
Proof.
  intros s Hs. destruct PlaybackSound_total as [_ [_ [_ [_ [_ H]]]]].
  unfold SoundIDFromString. rewrite (H s Hs). reflexivity.
Qed.
