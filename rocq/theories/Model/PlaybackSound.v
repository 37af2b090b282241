(* The playback sounds: core/PlaybackSound.h (the X-macro list) expanded by
   utility/EnumWithString.h.  [PlaybackSound_table] is the macro list, from which
   the enumeration, the switch and the chain of comparisons all expand. *)
From Coq Require Import Ascii String List ZArith.
From Verif Require Import Model.Text Model.EnumLookup.
Import ListNotations.

From Verif Require Import Model.Base.
(** Sourcecode/private/mx/core/PlaybackSound.h:17-902 *)
Unset Elimination Schemes.
Inductive PlaybackSound : Set :=
  | PlaybackSound_brassAlphorn | PlaybackSound_brassAltoHorn | PlaybackSound_brassBaritoneHorn | PlaybackSound_brassBugle | PlaybackSound_brassBugleAlto
  | PlaybackSound_brassBugleBaritone | PlaybackSound_brassBugleContrabass | PlaybackSound_brassBugleEuphoniumBugle | PlaybackSound_brassBugleMellophoneBugle | PlaybackSound_brassBugleSoprano
  | PlaybackSound_brassCimbasso | PlaybackSound_brassConchShell | PlaybackSound_brassCornet | PlaybackSound_brassCornetSoprano | PlaybackSound_brassCornett
  | PlaybackSound_brassCornettTenor | PlaybackSound_brassCornettino | PlaybackSound_brassDidgeridoo | PlaybackSound_brassEuphonium | PlaybackSound_brassFiscorn
  | PlaybackSound_brassFlugelhorn | PlaybackSound_brassFrenchHorn | PlaybackSound_brassGroup | PlaybackSound_brassGroupSynth | PlaybackSound_brassHelicon
  | PlaybackSound_brassHoragai | PlaybackSound_brassKuhlohorn | PlaybackSound_brassMellophone | PlaybackSound_brassNaturalHorn | PlaybackSound_brassOphicleide
  | PlaybackSound_brassPosthorn | PlaybackSound_brassRagDung | PlaybackSound_brassSackbutt | PlaybackSound_brassSackbuttAlto | PlaybackSound_brassSackbuttBass
  | PlaybackSound_brassSackbuttTenor | PlaybackSound_brassSaxhorn | PlaybackSound_brassSerpent | PlaybackSound_brassShofar | PlaybackSound_brassSousaphone
  | PlaybackSound_brassTrombone | PlaybackSound_brassTromboneAlto | PlaybackSound_brassTromboneBass | PlaybackSound_brassTromboneContrabass | PlaybackSound_brassTromboneTenor
  | PlaybackSound_brassTrumpet | PlaybackSound_brassTrumpetBaroque | PlaybackSound_brassTrumpetBass | PlaybackSound_brassTrumpetBflat | PlaybackSound_brassTrumpetC
  | PlaybackSound_brassTrumpetD | PlaybackSound_brassTrumpetPiccolo | PlaybackSound_brassTrumpetPocket | PlaybackSound_brassTrumpetSlide | PlaybackSound_brassTrumpetTenor
  | PlaybackSound_brassTuba | PlaybackSound_brassTubaBass | PlaybackSound_brassTubaSubcontrabass | PlaybackSound_brassViennaHorn | PlaybackSound_brassVuvuzela
  | PlaybackSound_brassWagnerTuba | PlaybackSound_drumApentemma | PlaybackSound_drumAshiko | PlaybackSound_drumAtabaque | PlaybackSound_drumAtoke
  | PlaybackSound_drumAtsimevu | PlaybackSound_drumAxatse | PlaybackSound_drumBassDrum | PlaybackSound_drumBata | PlaybackSound_drumBataItotele
  | PlaybackSound_drumBataIya | PlaybackSound_drumBataOkonkolo | PlaybackSound_drumBendir | PlaybackSound_drumBodhran | PlaybackSound_drumBombo
  | PlaybackSound_drumBongo | PlaybackSound_drumBougarabou | PlaybackSound_drumBuffaloDrum | PlaybackSound_drumCajon | PlaybackSound_drumChenda
  | PlaybackSound_drumChuDaiko | PlaybackSound_drumConga | PlaybackSound_drumCuica | PlaybackSound_drumDabakan | PlaybackSound_drumDaff
  | PlaybackSound_drumDafli | PlaybackSound_drumDaibyosi | PlaybackSound_drumDamroo | PlaybackSound_drumDarabuka | PlaybackSound_drumDef
  | PlaybackSound_drumDhol | PlaybackSound_drumDholak | PlaybackSound_drumDjembe | PlaybackSound_drumDoira | PlaybackSound_drumDondo
  | PlaybackSound_drumDounDounBa | PlaybackSound_drumDuff | PlaybackSound_drumDumbek | PlaybackSound_drumFontomfrom | PlaybackSound_drumFrameDrum
  | PlaybackSound_drumFrameDrumArabian | PlaybackSound_drumGeduk | PlaybackSound_drumGhatam | PlaybackSound_drumGome | PlaybackSound_drumGroup
  | PlaybackSound_drumGroupChinese | PlaybackSound_drumGroupEwe | PlaybackSound_drumGroupIndian | PlaybackSound_drumGroupSet | PlaybackSound_drumHandDrum
  | PlaybackSound_drumHiraDaiko | PlaybackSound_drumIbo | PlaybackSound_drumIgihumurizo | PlaybackSound_drumInyahura | PlaybackSound_drumIshakwe
  | PlaybackSound_drumJangGu | PlaybackSound_drumKagan | PlaybackSound_drumKakko | PlaybackSound_drumKanjira | PlaybackSound_drumKendhang
  | PlaybackSound_drumKendhangAgeng | PlaybackSound_drumKendhangCiblon | PlaybackSound_drumKenkeni | PlaybackSound_drumKhol | PlaybackSound_drumKickDrum
  | PlaybackSound_drumKidi | PlaybackSound_drumKoDaiko | PlaybackSound_drumKpanlogo | PlaybackSound_drumKudum | PlaybackSound_drumLambeg
  | PlaybackSound_drumLionDrum | PlaybackSound_drumLogDrum | PlaybackSound_drumLogDrumAfrican | PlaybackSound_drumLogDrumNative | PlaybackSound_drumLogDrumNigerian
  | PlaybackSound_drumMadal | PlaybackSound_drumMaddale | PlaybackSound_drumMridangam | PlaybackSound_drumNaal | PlaybackSound_drumNagadoDaiko
  | PlaybackSound_drumNagara | PlaybackSound_drumNaqara | PlaybackSound_drumODaiko | PlaybackSound_drumOkawa | PlaybackSound_drumOkedoDaiko
  | PlaybackSound_drumPahuHula | PlaybackSound_drumPakhawaj | PlaybackSound_drumPandeiro | PlaybackSound_drumPandero | PlaybackSound_drumPowwow
  | PlaybackSound_drumPueblo | PlaybackSound_drumRepinique | PlaybackSound_drumRiq | PlaybackSound_drumRototom | PlaybackSound_drumSabar
  | PlaybackSound_drumSakara | PlaybackSound_drumSampho | PlaybackSound_drumSangban | PlaybackSound_drumShimeDaiko | PlaybackSound_drumSlitDrum
  | PlaybackSound_drumSlitDrumKrin | PlaybackSound_drumSnareDrum | PlaybackSound_drumSnareDrumElectric | PlaybackSound_drumSogo | PlaybackSound_drumSurdo
  | PlaybackSound_drumTabla | PlaybackSound_drumTablaBayan | PlaybackSound_drumTablaDayan | PlaybackSound_drumTaiko | PlaybackSound_drumTalking
  | PlaybackSound_drumTama | PlaybackSound_drumTamborita | PlaybackSound_drumTambourine | PlaybackSound_drumTamte | PlaybackSound_drumTangku
  | PlaybackSound_drumTanTan | PlaybackSound_drumTaphon | PlaybackSound_drumTar | PlaybackSound_drumTasha | PlaybackSound_drumTenorDrum
  | PlaybackSound_drumTeponaxtli | PlaybackSound_drumThavil | PlaybackSound_drumTheBox | PlaybackSound_drumTimbale | PlaybackSound_drumTimpani
  | PlaybackSound_drumTinaja | PlaybackSound_drumToere | PlaybackSound_drumTombak | PlaybackSound_drumTomTom | PlaybackSound_drumTomTomSynth
  | PlaybackSound_drumTsuzumi | PlaybackSound_drumTumbak | PlaybackSound_drumUchiwaDaiko | PlaybackSound_drumUdaku | PlaybackSound_drumUdu
  | PlaybackSound_drumZarb | PlaybackSound_effectAeolianHarp | PlaybackSound_effectAirHorn | PlaybackSound_effectApplause | PlaybackSound_effectBassStringSlap
  | PlaybackSound_effectBird | PlaybackSound_effectBirdNightingale | PlaybackSound_effectBirdTweet | PlaybackSound_effectBreath | PlaybackSound_effectBubble
  | PlaybackSound_effectBullroarer | PlaybackSound_effectBurst | PlaybackSound_effectCar | PlaybackSound_effectCarCrash | PlaybackSound_effectCarEngine
  | PlaybackSound_effectCarPass | PlaybackSound_effectCarStop | PlaybackSound_effectCrickets | PlaybackSound_effectDog | PlaybackSound_effectDoorCreak
  | PlaybackSound_effectDoorSlam | PlaybackSound_effectExplosion | PlaybackSound_effectFluteKeyClick | PlaybackSound_effectFootsteps | PlaybackSound_effectFrogs
  | PlaybackSound_effectGuitarCutting | PlaybackSound_effectGuitarFret | PlaybackSound_effectGunshot | PlaybackSound_effectHandClap | PlaybackSound_effectHeartbeat
  | PlaybackSound_effectHelicopter | PlaybackSound_effectHighQ | PlaybackSound_effectHorseGallop | PlaybackSound_effectJetPlane | PlaybackSound_effectLaserGun
  | PlaybackSound_effectLaugh | PlaybackSound_effectLionsRoar | PlaybackSound_effectMachineGun | PlaybackSound_effectMarchingMachine | PlaybackSound_effectMetronomeBell
  | PlaybackSound_effectMetronomeClick | PlaybackSound_effectPat | PlaybackSound_effectPunch | PlaybackSound_effectRain | PlaybackSound_effectScratch
  | PlaybackSound_effectScream | PlaybackSound_effectSeashore | PlaybackSound_effectSiren | PlaybackSound_effectSlap | PlaybackSound_effectSnap
  | PlaybackSound_effectStamp | PlaybackSound_effectStarship | PlaybackSound_effectStream | PlaybackSound_effectTelephoneRing | PlaybackSound_effectThunder
  | PlaybackSound_effectTrain | PlaybackSound_effectTrashCan | PlaybackSound_effectWhip | PlaybackSound_effectWhistle | PlaybackSound_effectWhistleMouthSiren
  | PlaybackSound_effectWhistlePolice | PlaybackSound_effectWhistleSlide | PlaybackSound_effectWhistleTrain | PlaybackSound_effectWind | PlaybackSound_keyboardAccordion
  | PlaybackSound_keyboardBandoneon | PlaybackSound_keyboardCelesta | PlaybackSound_keyboardClavichord | PlaybackSound_keyboardClavichordSynth | PlaybackSound_keyboardConcertina
  | PlaybackSound_keyboardFortepiano | PlaybackSound_keyboardHarmonium | PlaybackSound_keyboardHarpsichord | PlaybackSound_keyboardOndesMartenot | PlaybackSound_keyboardOrgan
  | PlaybackSound_keyboardOrganDrawbar | PlaybackSound_keyboardOrganPercussive | PlaybackSound_keyboardOrganPipe | PlaybackSound_keyboardOrganReed | PlaybackSound_keyboardOrganRotary
  | PlaybackSound_keyboardPiano | PlaybackSound_keyboardPianoElectric | PlaybackSound_keyboardPianoGrand | PlaybackSound_keyboardPianoHonkyTonk | PlaybackSound_keyboardPianoPrepared
  | PlaybackSound_keyboardPianoToy | PlaybackSound_keyboardPianoUpright | PlaybackSound_keyboardVirginal | PlaybackSound_metalAdodo | PlaybackSound_metalAnvil
  | PlaybackSound_metalBabendil | PlaybackSound_metalBellsAgogo | PlaybackSound_metalBellsAlmglocken | PlaybackSound_metalBellsBellPlate | PlaybackSound_metalBellsBellTree
  | PlaybackSound_metalBellsCarillon | PlaybackSound_metalBellsChimes | PlaybackSound_metalBellsChimta | PlaybackSound_metalBellsChippli | PlaybackSound_metalBellsChurch
  | PlaybackSound_metalBellsCowbell | PlaybackSound_metalBellsDawuro | PlaybackSound_metalBellsGankokwe | PlaybackSound_metalBellsGhungroo | PlaybackSound_metalBellsHatheli
  | PlaybackSound_metalBellsJingleBell | PlaybackSound_metalBellsKhartal | PlaybackSound_metalBellsMarkTree | PlaybackSound_metalBellsSistrum | PlaybackSound_metalBellsSleighBells
  | PlaybackSound_metalBellsTemple | PlaybackSound_metalBellsTibetan | PlaybackSound_metalBellsTinklebell | PlaybackSound_metalBellsTrychel | PlaybackSound_metalBellsWindChimes
  | PlaybackSound_metalBellsZills | PlaybackSound_metalBerimbau | PlaybackSound_metalBrakeDrums | PlaybackSound_metalCrotales | PlaybackSound_metalCymbalBo
  | PlaybackSound_metalCymbalCengCeng | PlaybackSound_metalCymbalChabara | PlaybackSound_metalCymbalChinese | PlaybackSound_metalCymbalChing | PlaybackSound_metalCymbalClash
  | PlaybackSound_metalCymbalCrash | PlaybackSound_metalCymbalFinger | PlaybackSound_metalCymbalHand | PlaybackSound_metalCymbalKesi | PlaybackSound_metalCymbalManjeera
  | PlaybackSound_metalCymbalReverse | PlaybackSound_metalCymbalRide | PlaybackSound_metalCymbalSizzle | PlaybackSound_metalCymbalSplash | PlaybackSound_metalCymbalSuspended
  | PlaybackSound_metalCymbalTebyoshi | PlaybackSound_metalCymbalTibetan | PlaybackSound_metalCymbalTingsha | PlaybackSound_metalFlexatone | PlaybackSound_metalGong
  | PlaybackSound_metalGongAgeng | PlaybackSound_metalGongAgung | PlaybackSound_metalGongChanchiki | PlaybackSound_metalGongChinese | PlaybackSound_metalGongGandingan
  | PlaybackSound_metalGongKempul | PlaybackSound_metalGongKempyang | PlaybackSound_metalGongKetuk | PlaybackSound_metalGongKkwenggwari | PlaybackSound_metalGongLuo
  | PlaybackSound_metalGongSinging | PlaybackSound_metalGongThai | PlaybackSound_metalGuira | PlaybackSound_metalHang | PlaybackSound_metalHiHat
  | PlaybackSound_metalJawHarp | PlaybackSound_metalKengong | PlaybackSound_metalMurchang | PlaybackSound_metalMusicalSaw | PlaybackSound_metalSingingBowl
  | PlaybackSound_metalSpoons | PlaybackSound_metalSteelDrums | PlaybackSound_metalTamtam | PlaybackSound_metalThundersheet | PlaybackSound_metalTriangle
  | PlaybackSound_metalWashboard | PlaybackSound_pitchedPercussionAngklung | PlaybackSound_pitchedPercussionBalafon | PlaybackSound_pitchedPercussionBellLyre | PlaybackSound_pitchedPercussionBells
  | PlaybackSound_pitchedPercussionBianqing | PlaybackSound_pitchedPercussionBianzhong | PlaybackSound_pitchedPercussionBonang | PlaybackSound_pitchedPercussionCimbalom | PlaybackSound_pitchedPercussionCrystalGlasses
  | PlaybackSound_pitchedPercussionDanTamThapLuc | PlaybackSound_pitchedPercussionFangxiang | PlaybackSound_pitchedPercussionGandinganAKayo | PlaybackSound_pitchedPercussionGangsa | PlaybackSound_pitchedPercussionGender
  | PlaybackSound_pitchedPercussionGiying | PlaybackSound_pitchedPercussionGlassHarmonica | PlaybackSound_pitchedPercussionGlockenspiel | PlaybackSound_pitchedPercussionGlockenspielAlto | PlaybackSound_pitchedPercussionGlockenspielSoprano
  | PlaybackSound_pitchedPercussionGyil | PlaybackSound_pitchedPercussionHammerDulcimer | PlaybackSound_pitchedPercussionHandbells | PlaybackSound_pitchedPercussionKalimba | PlaybackSound_pitchedPercussionKantil
  | PlaybackSound_pitchedPercussionKhim | PlaybackSound_pitchedPercussionKulintang | PlaybackSound_pitchedPercussionKulintangAKayo | PlaybackSound_pitchedPercussionKulintangATiniok | PlaybackSound_pitchedPercussionLikembe
  | PlaybackSound_pitchedPercussionLuntang | PlaybackSound_pitchedPercussionMarimba | PlaybackSound_pitchedPercussionMarimbaBass | PlaybackSound_pitchedPercussionMbira | PlaybackSound_pitchedPercussionMbiraArray
  | PlaybackSound_pitchedPercussionMetallophone | PlaybackSound_pitchedPercussionMetallophoneAlto | PlaybackSound_pitchedPercussionMetallophoneBass | PlaybackSound_pitchedPercussionMetallophoneSoprano | PlaybackSound_pitchedPercussionMusicBox
  | PlaybackSound_pitchedPercussionPelogPanerus | PlaybackSound_pitchedPercussionPemade | PlaybackSound_pitchedPercussionPenyacah | PlaybackSound_pitchedPercussionRanatEk | PlaybackSound_pitchedPercussionRanatEkLek
  | PlaybackSound_pitchedPercussionRanatThum | PlaybackSound_pitchedPercussionRanatThumLek | PlaybackSound_pitchedPercussionReyong | PlaybackSound_pitchedPercussionSanza | PlaybackSound_pitchedPercussionSaronBarung
  | PlaybackSound_pitchedPercussionSaronDemong | PlaybackSound_pitchedPercussionSaronPanerus | PlaybackSound_pitchedPercussionSlendroPanerus | PlaybackSound_pitchedPercussionSlentem | PlaybackSound_pitchedPercussionTsymbaly
  | PlaybackSound_pitchedPercussionTubes | PlaybackSound_pitchedPercussionTubularBells | PlaybackSound_pitchedPercussionVibraphone | PlaybackSound_pitchedPercussionXylophone | PlaybackSound_pitchedPercussionXylophoneAlto
  | PlaybackSound_pitchedPercussionXylophoneBass | PlaybackSound_pitchedPercussionXylophoneSoprano | PlaybackSound_pitchedPercussionXylorimba | PlaybackSound_pitchedPercussionYangqin | PlaybackSound_pluckArchlute
  | PlaybackSound_pluckAutoharp | PlaybackSound_pluckBaglama | PlaybackSound_pluckBajo | PlaybackSound_pluckBalalaika | PlaybackSound_pluckBalalaikaAlto
  | PlaybackSound_pluckBalalaikaBass | PlaybackSound_pluckBalalaikaContrabass | PlaybackSound_pluckBalalaikaPiccolo | PlaybackSound_pluckBalalaikaPrima | PlaybackSound_pluckBalalaikaSecunda
  | PlaybackSound_pluckBandola | PlaybackSound_pluckBandura | PlaybackSound_pluckBandurria | PlaybackSound_pluckBanjo | PlaybackSound_pluckBanjoTenor
  | PlaybackSound_pluckBanjolele | PlaybackSound_pluckBarbat | PlaybackSound_pluckBass | PlaybackSound_pluckBassAcoustic | PlaybackSound_pluckBassBolon
  | PlaybackSound_pluckBassElectric | PlaybackSound_pluckBassFretless | PlaybackSound_pluckBassGuitarron | PlaybackSound_pluckBassSynth | PlaybackSound_pluckBassSynthLead
  | PlaybackSound_pluckBassWashtub | PlaybackSound_pluckBassWhamola | PlaybackSound_pluckBegena | PlaybackSound_pluckBiwa | PlaybackSound_pluckBordonua
  | PlaybackSound_pluckBouzouki | PlaybackSound_pluckBouzoukiIrish | PlaybackSound_pluckCelticHarp | PlaybackSound_pluckCharango | PlaybackSound_pluckChitarraBattente
  | PlaybackSound_pluckCithara | PlaybackSound_pluckCittern | PlaybackSound_pluckCuatro | PlaybackSound_pluckDanBau | PlaybackSound_pluckDanNguyet
  | PlaybackSound_pluckDanTranh | PlaybackSound_pluckDanTyBa | PlaybackSound_pluckDiddleyBow | PlaybackSound_pluckDomra | PlaybackSound_pluckDomu
  | PlaybackSound_pluckDulcimer | PlaybackSound_pluckDutar | PlaybackSound_pluckDuxianqin | PlaybackSound_pluckEktara | PlaybackSound_pluckGeomungo
  | PlaybackSound_pluckGottuvadhyam | PlaybackSound_pluckGuitar | PlaybackSound_pluckGuitarAcoustic | PlaybackSound_pluckGuitarElectric | PlaybackSound_pluckGuitarNylonString
  | PlaybackSound_pluckGuitarPedalSteel | PlaybackSound_pluckGuitarPortuguese | PlaybackSound_pluckGuitarRequinto | PlaybackSound_pluckGuitarResonator | PlaybackSound_pluckGuitarSteelString
  | PlaybackSound_pluckGuitjo | PlaybackSound_pluckGuitjoDoubleNeck | PlaybackSound_pluckGuqin | PlaybackSound_pluckGuzheng | PlaybackSound_pluckGuzhengChoazhou
  | PlaybackSound_pluckHarp | PlaybackSound_pluckHarpGuitar | PlaybackSound_pluckHuapanguera | PlaybackSound_pluckJaranaHuasteca | PlaybackSound_pluckJaranaJarocha
  | PlaybackSound_pluckJaranaJarochaMosquito | PlaybackSound_pluckJaranaJarochaPrimera | PlaybackSound_pluckJaranaJarochaSegunda | PlaybackSound_pluckJaranaJarochaTercera | PlaybackSound_pluckKabosy
  | PlaybackSound_pluckKantele | PlaybackSound_pluckKanun | PlaybackSound_pluckKayagum | PlaybackSound_pluckKobza | PlaybackSound_pluckKomuz
  | PlaybackSound_pluckKora | PlaybackSound_pluckKoto | PlaybackSound_pluckKutiyapi | PlaybackSound_pluckLangeleik | PlaybackSound_pluckLaud
  | PlaybackSound_pluckLute | PlaybackSound_pluckLyre | PlaybackSound_pluckMandobass | PlaybackSound_pluckMandocello | PlaybackSound_pluckMandola
  | PlaybackSound_pluckMandolin | PlaybackSound_pluckMandolinOctave | PlaybackSound_pluckMandora | PlaybackSound_pluckMandore | PlaybackSound_pluckMarovany
  | PlaybackSound_pluckMusicalBow | PlaybackSound_pluckNgoni | PlaybackSound_pluckOud | PlaybackSound_pluckPipa | PlaybackSound_pluckPsaltery
  | PlaybackSound_pluckRuan | PlaybackSound_pluckSallaneh | PlaybackSound_pluckSanshin | PlaybackSound_pluckSantoor | PlaybackSound_pluckSanxian
  | PlaybackSound_pluckSarod | PlaybackSound_pluckSaung | PlaybackSound_pluckSaz | PlaybackSound_pluckSe | PlaybackSound_pluckSetar
  | PlaybackSound_pluckShamisen | PlaybackSound_pluckSitar | PlaybackSound_pluckSynth | PlaybackSound_pluckSynthCharang | PlaybackSound_pluckSynthChiff
  | PlaybackSound_pluckSynthStick | PlaybackSound_pluckTambura | PlaybackSound_pluckTamburaBulgarian | PlaybackSound_pluckTamburaFemale | PlaybackSound_pluckTamburaMale
  | PlaybackSound_pluckTar | PlaybackSound_pluckTheorbo | PlaybackSound_pluckTimple | PlaybackSound_pluckTiple | PlaybackSound_pluckTres
  | PlaybackSound_pluckUkulele | PlaybackSound_pluckUkuleleTenor | PlaybackSound_pluckValiha | PlaybackSound_pluckVeena | PlaybackSound_pluckVeenaMohan
  | PlaybackSound_pluckVeenaRudra | PlaybackSound_pluckVeenaVichitra | PlaybackSound_pluckVihuela | PlaybackSound_pluckVihuelaMexican | PlaybackSound_pluckXalam
  | PlaybackSound_pluckYueqin | PlaybackSound_pluckZither | PlaybackSound_pluckZitherOvertone | PlaybackSound_rattleAfoxe | PlaybackSound_rattleBirds
  | PlaybackSound_rattleCabasa | PlaybackSound_rattleCaxixi | PlaybackSound_rattleCog | PlaybackSound_rattleGanza | PlaybackSound_rattleHosho
  | PlaybackSound_rattleJawbone | PlaybackSound_rattleKayamba | PlaybackSound_rattleKpokoKpoko | PlaybackSound_rattleLavaStones | PlaybackSound_rattleMaraca
  | PlaybackSound_rattleRainStick | PlaybackSound_rattleRatchet | PlaybackSound_rattleRattle | PlaybackSound_rattleShaker | PlaybackSound_rattleShakerEgg
  | PlaybackSound_rattleShekere | PlaybackSound_rattleSistre | PlaybackSound_rattleTelevi | PlaybackSound_rattleVibraslap | PlaybackSound_rattleWasembe
  | PlaybackSound_stringsAjaeng | PlaybackSound_stringsArpeggione | PlaybackSound_stringsBaryton | PlaybackSound_stringsCello | PlaybackSound_stringsCelloPiccolo
  | PlaybackSound_stringsContrabass | PlaybackSound_stringsCrwth | PlaybackSound_stringsDanGao | PlaybackSound_stringsDihu | PlaybackSound_stringsErhu
  | PlaybackSound_stringsErxian | PlaybackSound_stringsEsraj | PlaybackSound_stringsFiddle | PlaybackSound_stringsFiddleHardanger | PlaybackSound_stringsGadulka
  | PlaybackSound_stringsGaohu | PlaybackSound_stringsGehu | PlaybackSound_stringsGroup | PlaybackSound_stringsGroupSynth | PlaybackSound_stringsHaegeum
  | PlaybackSound_stringsHurdyGurdy | PlaybackSound_stringsIgil | PlaybackSound_stringsKamancha | PlaybackSound_stringsKokyu | PlaybackSound_stringsLaruan
  | PlaybackSound_stringsLeiqin | PlaybackSound_stringsLirone | PlaybackSound_stringsLyraByzantine | PlaybackSound_stringsLyraCretan | PlaybackSound_stringsMorinKhuur
  | PlaybackSound_stringsNyckelharpa | PlaybackSound_stringsOctobass | PlaybackSound_stringsRebab | PlaybackSound_stringsRebec | PlaybackSound_stringsSarangi
  | PlaybackSound_stringsStrohViolin | PlaybackSound_stringsTrombaMarina | PlaybackSound_stringsVielle | PlaybackSound_stringsViol | PlaybackSound_stringsViolAlto
  | PlaybackSound_stringsViolBass | PlaybackSound_stringsViolTenor | PlaybackSound_stringsViolTreble | PlaybackSound_stringsViolViolone | PlaybackSound_stringsViola
  | PlaybackSound_stringsViolaDamore | PlaybackSound_stringsViolin | PlaybackSound_stringsViolonoPiccolo | PlaybackSound_stringsViolotta | PlaybackSound_stringsYayliTanbur
  | PlaybackSound_stringsYazheng | PlaybackSound_stringsZhonghu | PlaybackSound_synthEffects | PlaybackSound_synthEffectsAtmosphere | PlaybackSound_synthEffectsBrightness
  | PlaybackSound_synthEffectsCrystal | PlaybackSound_synthEffectsEchoes | PlaybackSound_synthEffectsGoblins | PlaybackSound_synthEffectsRain | PlaybackSound_synthEffectsSciFi
  | PlaybackSound_synthEffectsSoundtrack | PlaybackSound_synthGroup | PlaybackSound_synthGroupFifths | PlaybackSound_synthGroupOrchestra | PlaybackSound_synthPad
  | PlaybackSound_synthPadBowed | PlaybackSound_synthPadChoir | PlaybackSound_synthPadHalo | PlaybackSound_synthPadMetallic | PlaybackSound_synthPadPolysynth
  | PlaybackSound_synthPadSweep | PlaybackSound_synthPadWarm | PlaybackSound_synthTheremin | PlaybackSound_synthToneSawtooth | PlaybackSound_synthToneSine
  | PlaybackSound_synthToneSquare | PlaybackSound_voiceAa | PlaybackSound_voiceAlto | PlaybackSound_voiceAw | PlaybackSound_voiceBaritone
  | PlaybackSound_voiceBass | PlaybackSound_voiceChild | PlaybackSound_voiceCountertenor | PlaybackSound_voiceDoo | PlaybackSound_voiceEe
  | PlaybackSound_voiceFemale | PlaybackSound_voiceKazoo | PlaybackSound_voiceMale | PlaybackSound_voiceMezzoSoprano | PlaybackSound_voiceMm
  | PlaybackSound_voiceOo | PlaybackSound_voicePercussion | PlaybackSound_voicePercussionBeatbox | PlaybackSound_voiceSoprano | PlaybackSound_voiceSynth
  | PlaybackSound_voiceTalkBox | PlaybackSound_voiceTenor | PlaybackSound_voiceVocals | PlaybackSound_windFlutesBansuri | PlaybackSound_windFlutesBlownBottle
  | PlaybackSound_windFlutesCalliope | PlaybackSound_windFlutesDanso | PlaybackSound_windFlutesDiZi | PlaybackSound_windFlutesDvojnice | PlaybackSound_windFlutesFife
  | PlaybackSound_windFlutesFlageolet | PlaybackSound_windFlutesFlute | PlaybackSound_windFlutesFluteAlto | PlaybackSound_windFlutesFluteBass | PlaybackSound_windFlutesFluteContraAlto
  | PlaybackSound_windFlutesFluteContrabass | PlaybackSound_windFlutesFluteDoubleContrabass | PlaybackSound_windFlutesFluteIrish | PlaybackSound_windFlutesFlutePiccolo | PlaybackSound_windFlutesFluteSubcontrabass
  | PlaybackSound_windFlutesFujara | PlaybackSound_windFlutesGemshorn | PlaybackSound_windFlutesHocchiku | PlaybackSound_windFlutesHun | PlaybackSound_windFlutesKaval
  | PlaybackSound_windFlutesKawala | PlaybackSound_windFlutesKhlui | PlaybackSound_windFlutesKnotweed | PlaybackSound_windFlutesKoncovkaAlto | PlaybackSound_windFlutesKoudi
  | PlaybackSound_windFlutesNey | PlaybackSound_windFlutesNohkan | PlaybackSound_windFlutesNose | PlaybackSound_windFlutesOcarina | PlaybackSound_windFlutesOvertoneTenor
  | PlaybackSound_windFlutesPalendag | PlaybackSound_windFlutesPanpipes | PlaybackSound_windFlutesQuena | PlaybackSound_windFlutesRecorder | PlaybackSound_windFlutesRecorderAlto
  | PlaybackSound_windFlutesRecorderBass | PlaybackSound_windFlutesRecorderContrabass | PlaybackSound_windFlutesRecorderDescant | PlaybackSound_windFlutesRecorderGarklein | PlaybackSound_windFlutesRecorderGreatBass
  | PlaybackSound_windFlutesRecorderSopranino | PlaybackSound_windFlutesRecorderSoprano | PlaybackSound_windFlutesRecorderTenor | PlaybackSound_windFlutesRyuteki | PlaybackSound_windFlutesShakuhachi
  | PlaybackSound_windFlutesShepherdsPipe | PlaybackSound_windFlutesShinobue | PlaybackSound_windFlutesShvi | PlaybackSound_windFlutesSuling | PlaybackSound_windFlutesTarka
  | PlaybackSound_windFlutesTumpong | PlaybackSound_windFlutesVenu | PlaybackSound_windFlutesWhistle | PlaybackSound_windFlutesWhistleAlto | PlaybackSound_windFlutesWhistleLowIrish
  | PlaybackSound_windFlutesWhistleShiva | PlaybackSound_windFlutesWhistleSlide | PlaybackSound_windFlutesWhistleTin | PlaybackSound_windFlutesWhistleTinBflat | PlaybackSound_windFlutesWhistleTinD
  | PlaybackSound_windFlutesXiao | PlaybackSound_windFlutesXun | PlaybackSound_windGroup | PlaybackSound_windJug | PlaybackSound_windPipesBagpipes
  | PlaybackSound_windPipesGaida | PlaybackSound_windPipesHighland | PlaybackSound_windPipesUilleann | PlaybackSound_windPungi | PlaybackSound_windReedAlbogue
  | PlaybackSound_windReedAlboka | PlaybackSound_windReedAlgaita | PlaybackSound_windReedArghul | PlaybackSound_windReedBassetHorn | PlaybackSound_windReedBassoon
  | PlaybackSound_windReedBawu | PlaybackSound_windReedBifora | PlaybackSound_windReedBombarde | PlaybackSound_windReedChalumeau | PlaybackSound_windReedClarinet
  | PlaybackSound_windReedClarinetA | PlaybackSound_windReedClarinetAlto | PlaybackSound_windReedClarinetBass | PlaybackSound_windReedClarinetBasset | PlaybackSound_windReedClarinetBflat
  | PlaybackSound_windReedClarinetContraAlto | PlaybackSound_windReedClarinetContrabass | PlaybackSound_windReedClarinetEflat | PlaybackSound_windReedClarinetPiccoloAflat | PlaybackSound_windReedClarinetteDamour
  | PlaybackSound_windReedContrabass | PlaybackSound_windReedContrabassoon | PlaybackSound_windReedCornamuse | PlaybackSound_windReedCromorne | PlaybackSound_windReedCrumhorn
  | PlaybackSound_windReedCrumhornAlto | PlaybackSound_windReedCrumhornBass | PlaybackSound_windReedCrumhornGreatBass | PlaybackSound_windReedCrumhornSoprano | PlaybackSound_windReedCrumhornTenor
  | PlaybackSound_windReedDiple | PlaybackSound_windReedDiplica | PlaybackSound_windReedDuduk | PlaybackSound_windReedDulcian | PlaybackSound_windReedDulzaina
  | PlaybackSound_windReedEnglishHorn | PlaybackSound_windReedGuanzi | PlaybackSound_windReedHarmonica | PlaybackSound_windReedHarmonicaBass | PlaybackSound_windReedHeckelClarina
  | PlaybackSound_windReedHeckelphone | PlaybackSound_windReedHeckelphonePiccolo | PlaybackSound_windReedHeckelphoneClarinet | PlaybackSound_windReedHichiriki | PlaybackSound_windReedHirtenschalmei
  | PlaybackSound_windReedHne | PlaybackSound_windReedHornpipe | PlaybackSound_windReedHouguan | PlaybackSound_windReedHulusi | PlaybackSound_windReedJogiBaja
  | PlaybackSound_windReedKenBau | PlaybackSound_windReedKhaenMouthOrgan | PlaybackSound_windReedLauneddas | PlaybackSound_windReedMaqrunah | PlaybackSound_windReedMelodica
  | PlaybackSound_windReedMijwiz | PlaybackSound_windReedMizmar | PlaybackSound_windReedNadaswaram | PlaybackSound_windReedOboe | PlaybackSound_windReedOboeBass
  | PlaybackSound_windReedOboePiccolo | PlaybackSound_windReedOboeDaCaccia | PlaybackSound_windReedOboeDamore | PlaybackSound_windReedOctavin | PlaybackSound_windReedPi
  | PlaybackSound_windReedPibgorn | PlaybackSound_windReedPiri | PlaybackSound_windReedRackett | PlaybackSound_windReedRauschpfeife | PlaybackSound_windReedRhaita
  | PlaybackSound_windReedRothphone | PlaybackSound_windReedSarrusaphone | PlaybackSound_windReedSaxonette | PlaybackSound_windReedSaxophone | PlaybackSound_windReedSaxophoneAlto
  | PlaybackSound_windReedSaxophoneAulochrome | PlaybackSound_windReedSaxophoneBaritone | PlaybackSound_windReedSaxophoneBass | PlaybackSound_windReedSaxophoneContrabass | PlaybackSound_windReedSaxophoneMelody
  | PlaybackSound_windReedSaxophoneMezzoSoprano | PlaybackSound_windReedSaxophoneSopranino | PlaybackSound_windReedSaxophoneSopranissimo | PlaybackSound_windReedSaxophoneSoprano | PlaybackSound_windReedSaxophoneSubcontrabass
  | PlaybackSound_windReedSaxophoneTenor | PlaybackSound_windReedShawm | PlaybackSound_windReedShenai | PlaybackSound_windReedSheng | PlaybackSound_windReedSipsi
  | PlaybackSound_windReedSopila | PlaybackSound_windReedSorna | PlaybackSound_windReedSralai | PlaybackSound_windReedSuona | PlaybackSound_windReedSurnai
  | PlaybackSound_windReedTaepyeongso | PlaybackSound_windReedTarogato | PlaybackSound_windReedTarogatoAncient | PlaybackSound_windReedTrompetaChina | PlaybackSound_windReedTubax
  | PlaybackSound_windReedXaphoon | PlaybackSound_windReedZhaleika | PlaybackSound_windReedZurla | PlaybackSound_windReedZurna | PlaybackSound_woodAgogoBlock
  | PlaybackSound_woodAgungATamlang | PlaybackSound_woodAhoko | PlaybackSound_woodBones | PlaybackSound_woodCastanets | PlaybackSound_woodClaves
  | PlaybackSound_woodDrumSticks | PlaybackSound_woodGourd | PlaybackSound_woodGraniteBlock | PlaybackSound_woodGuban | PlaybackSound_woodGuiro
  | PlaybackSound_woodHyoushigi | PlaybackSound_woodIpu | PlaybackSound_woodJamBlock | PlaybackSound_woodKaekeeke | PlaybackSound_woodKagul
  | PlaybackSound_woodKalaau | PlaybackSound_woodKashiklar | PlaybackSound_woodKubing | PlaybackSound_woodPanClappers | PlaybackSound_woodSandBlock
  | PlaybackSound_woodSlapstick | PlaybackSound_woodStirDrum | PlaybackSound_woodTempleBlock | PlaybackSound_woodTicTocBlock | PlaybackSound_woodTonetang
  | PlaybackSound_woodWoodBlock.
Set Elimination Schemes.

Definition PlaybackSound_members : list PlaybackSound :=
  [ PlaybackSound_brassAlphorn; PlaybackSound_brassAltoHorn; PlaybackSound_brassBaritoneHorn; PlaybackSound_brassBugle;
    PlaybackSound_brassBugleAlto; PlaybackSound_brassBugleBaritone; PlaybackSound_brassBugleContrabass; PlaybackSound_brassBugleEuphoniumBugle;
    PlaybackSound_brassBugleMellophoneBugle; PlaybackSound_brassBugleSoprano; PlaybackSound_brassCimbasso; PlaybackSound_brassConchShell;
    PlaybackSound_brassCornet; PlaybackSound_brassCornetSoprano; PlaybackSound_brassCornett; PlaybackSound_brassCornettTenor;
    PlaybackSound_brassCornettino; PlaybackSound_brassDidgeridoo; PlaybackSound_brassEuphonium; PlaybackSound_brassFiscorn;
    PlaybackSound_brassFlugelhorn; PlaybackSound_brassFrenchHorn; PlaybackSound_brassGroup; PlaybackSound_brassGroupSynth;
    PlaybackSound_brassHelicon; PlaybackSound_brassHoragai; PlaybackSound_brassKuhlohorn; PlaybackSound_brassMellophone;
    PlaybackSound_brassNaturalHorn; PlaybackSound_brassOphicleide; PlaybackSound_brassPosthorn; PlaybackSound_brassRagDung;
    PlaybackSound_brassSackbutt; PlaybackSound_brassSackbuttAlto; PlaybackSound_brassSackbuttBass; PlaybackSound_brassSackbuttTenor;
    PlaybackSound_brassSaxhorn; PlaybackSound_brassSerpent; PlaybackSound_brassShofar; PlaybackSound_brassSousaphone;
    PlaybackSound_brassTrombone; PlaybackSound_brassTromboneAlto; PlaybackSound_brassTromboneBass; PlaybackSound_brassTromboneContrabass;
    PlaybackSound_brassTromboneTenor; PlaybackSound_brassTrumpet; PlaybackSound_brassTrumpetBaroque; PlaybackSound_brassTrumpetBass;
    PlaybackSound_brassTrumpetBflat; PlaybackSound_brassTrumpetC; PlaybackSound_brassTrumpetD; PlaybackSound_brassTrumpetPiccolo;
    PlaybackSound_brassTrumpetPocket; PlaybackSound_brassTrumpetSlide; PlaybackSound_brassTrumpetTenor; PlaybackSound_brassTuba;
    PlaybackSound_brassTubaBass; PlaybackSound_brassTubaSubcontrabass; PlaybackSound_brassViennaHorn; PlaybackSound_brassVuvuzela;
    PlaybackSound_brassWagnerTuba; PlaybackSound_drumApentemma; PlaybackSound_drumAshiko; PlaybackSound_drumAtabaque;
    PlaybackSound_drumAtoke; PlaybackSound_drumAtsimevu; PlaybackSound_drumAxatse; PlaybackSound_drumBassDrum;
    PlaybackSound_drumBata; PlaybackSound_drumBataItotele; PlaybackSound_drumBataIya; PlaybackSound_drumBataOkonkolo;
    PlaybackSound_drumBendir; PlaybackSound_drumBodhran; PlaybackSound_drumBombo; PlaybackSound_drumBongo;
    PlaybackSound_drumBougarabou; PlaybackSound_drumBuffaloDrum; PlaybackSound_drumCajon; PlaybackSound_drumChenda;
    PlaybackSound_drumChuDaiko; PlaybackSound_drumConga; PlaybackSound_drumCuica; PlaybackSound_drumDabakan;
    PlaybackSound_drumDaff; PlaybackSound_drumDafli; PlaybackSound_drumDaibyosi; PlaybackSound_drumDamroo;
    PlaybackSound_drumDarabuka; PlaybackSound_drumDef; PlaybackSound_drumDhol; PlaybackSound_drumDholak;
    PlaybackSound_drumDjembe; PlaybackSound_drumDoira; PlaybackSound_drumDondo; PlaybackSound_drumDounDounBa;
    PlaybackSound_drumDuff; PlaybackSound_drumDumbek; PlaybackSound_drumFontomfrom; PlaybackSound_drumFrameDrum;
    PlaybackSound_drumFrameDrumArabian; PlaybackSound_drumGeduk; PlaybackSound_drumGhatam; PlaybackSound_drumGome;
    PlaybackSound_drumGroup; PlaybackSound_drumGroupChinese; PlaybackSound_drumGroupEwe; PlaybackSound_drumGroupIndian;
    PlaybackSound_drumGroupSet; PlaybackSound_drumHandDrum; PlaybackSound_drumHiraDaiko; PlaybackSound_drumIbo;
    PlaybackSound_drumIgihumurizo; PlaybackSound_drumInyahura; PlaybackSound_drumIshakwe; PlaybackSound_drumJangGu;
    PlaybackSound_drumKagan; PlaybackSound_drumKakko; PlaybackSound_drumKanjira; PlaybackSound_drumKendhang;
    PlaybackSound_drumKendhangAgeng; PlaybackSound_drumKendhangCiblon; PlaybackSound_drumKenkeni; PlaybackSound_drumKhol;
    PlaybackSound_drumKickDrum; PlaybackSound_drumKidi; PlaybackSound_drumKoDaiko; PlaybackSound_drumKpanlogo;
    PlaybackSound_drumKudum; PlaybackSound_drumLambeg; PlaybackSound_drumLionDrum; PlaybackSound_drumLogDrum;
    PlaybackSound_drumLogDrumAfrican; PlaybackSound_drumLogDrumNative; PlaybackSound_drumLogDrumNigerian; PlaybackSound_drumMadal;
    PlaybackSound_drumMaddale; PlaybackSound_drumMridangam; PlaybackSound_drumNaal; PlaybackSound_drumNagadoDaiko;
    PlaybackSound_drumNagara; PlaybackSound_drumNaqara; PlaybackSound_drumODaiko; PlaybackSound_drumOkawa;
    PlaybackSound_drumOkedoDaiko; PlaybackSound_drumPahuHula; PlaybackSound_drumPakhawaj; PlaybackSound_drumPandeiro;
    PlaybackSound_drumPandero; PlaybackSound_drumPowwow; PlaybackSound_drumPueblo; PlaybackSound_drumRepinique;
    PlaybackSound_drumRiq; PlaybackSound_drumRototom; PlaybackSound_drumSabar; PlaybackSound_drumSakara;
    PlaybackSound_drumSampho; PlaybackSound_drumSangban; PlaybackSound_drumShimeDaiko; PlaybackSound_drumSlitDrum;
    PlaybackSound_drumSlitDrumKrin; PlaybackSound_drumSnareDrum; PlaybackSound_drumSnareDrumElectric; PlaybackSound_drumSogo;
    PlaybackSound_drumSurdo; PlaybackSound_drumTabla; PlaybackSound_drumTablaBayan; PlaybackSound_drumTablaDayan;
    PlaybackSound_drumTaiko; PlaybackSound_drumTalking; PlaybackSound_drumTama; PlaybackSound_drumTamborita;
    PlaybackSound_drumTambourine; PlaybackSound_drumTamte; PlaybackSound_drumTangku; PlaybackSound_drumTanTan;
    PlaybackSound_drumTaphon; PlaybackSound_drumTar; PlaybackSound_drumTasha; PlaybackSound_drumTenorDrum;
    PlaybackSound_drumTeponaxtli; PlaybackSound_drumThavil; PlaybackSound_drumTheBox; PlaybackSound_drumTimbale;
    PlaybackSound_drumTimpani; PlaybackSound_drumTinaja; PlaybackSound_drumToere; PlaybackSound_drumTombak;
    PlaybackSound_drumTomTom; PlaybackSound_drumTomTomSynth; PlaybackSound_drumTsuzumi; PlaybackSound_drumTumbak;
    PlaybackSound_drumUchiwaDaiko; PlaybackSound_drumUdaku; PlaybackSound_drumUdu; PlaybackSound_drumZarb;
    PlaybackSound_effectAeolianHarp; PlaybackSound_effectAirHorn; PlaybackSound_effectApplause; PlaybackSound_effectBassStringSlap;
    PlaybackSound_effectBird; PlaybackSound_effectBirdNightingale; PlaybackSound_effectBirdTweet; PlaybackSound_effectBreath;
    PlaybackSound_effectBubble; PlaybackSound_effectBullroarer; PlaybackSound_effectBurst; PlaybackSound_effectCar;
    PlaybackSound_effectCarCrash; PlaybackSound_effectCarEngine; PlaybackSound_effectCarPass; PlaybackSound_effectCarStop;
    PlaybackSound_effectCrickets; PlaybackSound_effectDog; PlaybackSound_effectDoorCreak; PlaybackSound_effectDoorSlam;
    PlaybackSound_effectExplosion; PlaybackSound_effectFluteKeyClick; PlaybackSound_effectFootsteps; PlaybackSound_effectFrogs;
    PlaybackSound_effectGuitarCutting; PlaybackSound_effectGuitarFret; PlaybackSound_effectGunshot; PlaybackSound_effectHandClap;
    PlaybackSound_effectHeartbeat; PlaybackSound_effectHelicopter; PlaybackSound_effectHighQ; PlaybackSound_effectHorseGallop;
    PlaybackSound_effectJetPlane; PlaybackSound_effectLaserGun; PlaybackSound_effectLaugh; PlaybackSound_effectLionsRoar;
    PlaybackSound_effectMachineGun; PlaybackSound_effectMarchingMachine; PlaybackSound_effectMetronomeBell; PlaybackSound_effectMetronomeClick;
    PlaybackSound_effectPat; PlaybackSound_effectPunch; PlaybackSound_effectRain; PlaybackSound_effectScratch;
    PlaybackSound_effectScream; PlaybackSound_effectSeashore; PlaybackSound_effectSiren; PlaybackSound_effectSlap;
    PlaybackSound_effectSnap; PlaybackSound_effectStamp; PlaybackSound_effectStarship; PlaybackSound_effectStream;
    PlaybackSound_effectTelephoneRing; PlaybackSound_effectThunder; PlaybackSound_effectTrain; PlaybackSound_effectTrashCan;
    PlaybackSound_effectWhip; PlaybackSound_effectWhistle; PlaybackSound_effectWhistleMouthSiren; PlaybackSound_effectWhistlePolice;
    PlaybackSound_effectWhistleSlide; PlaybackSound_effectWhistleTrain; PlaybackSound_effectWind; PlaybackSound_keyboardAccordion;
    PlaybackSound_keyboardBandoneon; PlaybackSound_keyboardCelesta; PlaybackSound_keyboardClavichord; PlaybackSound_keyboardClavichordSynth;
    PlaybackSound_keyboardConcertina; PlaybackSound_keyboardFortepiano; PlaybackSound_keyboardHarmonium; PlaybackSound_keyboardHarpsichord;
    PlaybackSound_keyboardOndesMartenot; PlaybackSound_keyboardOrgan; PlaybackSound_keyboardOrganDrawbar; PlaybackSound_keyboardOrganPercussive;
    PlaybackSound_keyboardOrganPipe; PlaybackSound_keyboardOrganReed; PlaybackSound_keyboardOrganRotary; PlaybackSound_keyboardPiano;
    PlaybackSound_keyboardPianoElectric; PlaybackSound_keyboardPianoGrand; PlaybackSound_keyboardPianoHonkyTonk; PlaybackSound_keyboardPianoPrepared;
    PlaybackSound_keyboardPianoToy; PlaybackSound_keyboardPianoUpright; PlaybackSound_keyboardVirginal; PlaybackSound_metalAdodo;
    PlaybackSound_metalAnvil; PlaybackSound_metalBabendil; PlaybackSound_metalBellsAgogo; PlaybackSound_metalBellsAlmglocken;
    PlaybackSound_metalBellsBellPlate; PlaybackSound_metalBellsBellTree; PlaybackSound_metalBellsCarillon; PlaybackSound_metalBellsChimes;
    PlaybackSound_metalBellsChimta; PlaybackSound_metalBellsChippli; PlaybackSound_metalBellsChurch; PlaybackSound_metalBellsCowbell;
    PlaybackSound_metalBellsDawuro; PlaybackSound_metalBellsGankokwe; PlaybackSound_metalBellsGhungroo; PlaybackSound_metalBellsHatheli;
    PlaybackSound_metalBellsJingleBell; PlaybackSound_metalBellsKhartal; PlaybackSound_metalBellsMarkTree; PlaybackSound_metalBellsSistrum;
    PlaybackSound_metalBellsSleighBells; PlaybackSound_metalBellsTemple; PlaybackSound_metalBellsTibetan; PlaybackSound_metalBellsTinklebell;
    PlaybackSound_metalBellsTrychel; PlaybackSound_metalBellsWindChimes; PlaybackSound_metalBellsZills; PlaybackSound_metalBerimbau;
    PlaybackSound_metalBrakeDrums; PlaybackSound_metalCrotales; PlaybackSound_metalCymbalBo; PlaybackSound_metalCymbalCengCeng;
    PlaybackSound_metalCymbalChabara; PlaybackSound_metalCymbalChinese; PlaybackSound_metalCymbalChing; PlaybackSound_metalCymbalClash;
    PlaybackSound_metalCymbalCrash; PlaybackSound_metalCymbalFinger; PlaybackSound_metalCymbalHand; PlaybackSound_metalCymbalKesi;
    PlaybackSound_metalCymbalManjeera; PlaybackSound_metalCymbalReverse; PlaybackSound_metalCymbalRide; PlaybackSound_metalCymbalSizzle;
    PlaybackSound_metalCymbalSplash; PlaybackSound_metalCymbalSuspended; PlaybackSound_metalCymbalTebyoshi; PlaybackSound_metalCymbalTibetan;
    PlaybackSound_metalCymbalTingsha; PlaybackSound_metalFlexatone; PlaybackSound_metalGong; PlaybackSound_metalGongAgeng;
    PlaybackSound_metalGongAgung; PlaybackSound_metalGongChanchiki; PlaybackSound_metalGongChinese; PlaybackSound_metalGongGandingan;
    PlaybackSound_metalGongKempul; PlaybackSound_metalGongKempyang; PlaybackSound_metalGongKetuk; PlaybackSound_metalGongKkwenggwari;
    PlaybackSound_metalGongLuo; PlaybackSound_metalGongSinging; PlaybackSound_metalGongThai; PlaybackSound_metalGuira;
    PlaybackSound_metalHang; PlaybackSound_metalHiHat; PlaybackSound_metalJawHarp; PlaybackSound_metalKengong;
    PlaybackSound_metalMurchang; PlaybackSound_metalMusicalSaw; PlaybackSound_metalSingingBowl; PlaybackSound_metalSpoons;
    PlaybackSound_metalSteelDrums; PlaybackSound_metalTamtam; PlaybackSound_metalThundersheet; PlaybackSound_metalTriangle;
    PlaybackSound_metalWashboard; PlaybackSound_pitchedPercussionAngklung; PlaybackSound_pitchedPercussionBalafon; PlaybackSound_pitchedPercussionBellLyre;
    PlaybackSound_pitchedPercussionBells; PlaybackSound_pitchedPercussionBianqing; PlaybackSound_pitchedPercussionBianzhong; PlaybackSound_pitchedPercussionBonang;
    PlaybackSound_pitchedPercussionCimbalom; PlaybackSound_pitchedPercussionCrystalGlasses; PlaybackSound_pitchedPercussionDanTamThapLuc; PlaybackSound_pitchedPercussionFangxiang;
    PlaybackSound_pitchedPercussionGandinganAKayo; PlaybackSound_pitchedPercussionGangsa; PlaybackSound_pitchedPercussionGender; PlaybackSound_pitchedPercussionGiying;
    PlaybackSound_pitchedPercussionGlassHarmonica; PlaybackSound_pitchedPercussionGlockenspiel; PlaybackSound_pitchedPercussionGlockenspielAlto; PlaybackSound_pitchedPercussionGlockenspielSoprano;
    PlaybackSound_pitchedPercussionGyil; PlaybackSound_pitchedPercussionHammerDulcimer; PlaybackSound_pitchedPercussionHandbells; PlaybackSound_pitchedPercussionKalimba;
    PlaybackSound_pitchedPercussionKantil; PlaybackSound_pitchedPercussionKhim; PlaybackSound_pitchedPercussionKulintang; PlaybackSound_pitchedPercussionKulintangAKayo;
    PlaybackSound_pitchedPercussionKulintangATiniok; PlaybackSound_pitchedPercussionLikembe; PlaybackSound_pitchedPercussionLuntang; PlaybackSound_pitchedPercussionMarimba;
    PlaybackSound_pitchedPercussionMarimbaBass; PlaybackSound_pitchedPercussionMbira; PlaybackSound_pitchedPercussionMbiraArray; PlaybackSound_pitchedPercussionMetallophone;
    PlaybackSound_pitchedPercussionMetallophoneAlto; PlaybackSound_pitchedPercussionMetallophoneBass; PlaybackSound_pitchedPercussionMetallophoneSoprano; PlaybackSound_pitchedPercussionMusicBox;
    PlaybackSound_pitchedPercussionPelogPanerus; PlaybackSound_pitchedPercussionPemade; PlaybackSound_pitchedPercussionPenyacah; PlaybackSound_pitchedPercussionRanatEk;
    PlaybackSound_pitchedPercussionRanatEkLek; PlaybackSound_pitchedPercussionRanatThum; PlaybackSound_pitchedPercussionRanatThumLek; PlaybackSound_pitchedPercussionReyong;
    PlaybackSound_pitchedPercussionSanza; PlaybackSound_pitchedPercussionSaronBarung; PlaybackSound_pitchedPercussionSaronDemong; PlaybackSound_pitchedPercussionSaronPanerus;
    PlaybackSound_pitchedPercussionSlendroPanerus; PlaybackSound_pitchedPercussionSlentem; PlaybackSound_pitchedPercussionTsymbaly; PlaybackSound_pitchedPercussionTubes;
    PlaybackSound_pitchedPercussionTubularBells; PlaybackSound_pitchedPercussionVibraphone; PlaybackSound_pitchedPercussionXylophone; PlaybackSound_pitchedPercussionXylophoneAlto;
    PlaybackSound_pitchedPercussionXylophoneBass; PlaybackSound_pitchedPercussionXylophoneSoprano; PlaybackSound_pitchedPercussionXylorimba; PlaybackSound_pitchedPercussionYangqin;
    PlaybackSound_pluckArchlute; PlaybackSound_pluckAutoharp; PlaybackSound_pluckBaglama; PlaybackSound_pluckBajo;
    PlaybackSound_pluckBalalaika; PlaybackSound_pluckBalalaikaAlto; PlaybackSound_pluckBalalaikaBass; PlaybackSound_pluckBalalaikaContrabass;
    PlaybackSound_pluckBalalaikaPiccolo; PlaybackSound_pluckBalalaikaPrima; PlaybackSound_pluckBalalaikaSecunda; PlaybackSound_pluckBandola;
    PlaybackSound_pluckBandura; PlaybackSound_pluckBandurria; PlaybackSound_pluckBanjo; PlaybackSound_pluckBanjoTenor;
    PlaybackSound_pluckBanjolele; PlaybackSound_pluckBarbat; PlaybackSound_pluckBass; PlaybackSound_pluckBassAcoustic;
    PlaybackSound_pluckBassBolon; PlaybackSound_pluckBassElectric; PlaybackSound_pluckBassFretless; PlaybackSound_pluckBassGuitarron;
    PlaybackSound_pluckBassSynth; PlaybackSound_pluckBassSynthLead; PlaybackSound_pluckBassWashtub; PlaybackSound_pluckBassWhamola;
    PlaybackSound_pluckBegena; PlaybackSound_pluckBiwa; PlaybackSound_pluckBordonua; PlaybackSound_pluckBouzouki;
    PlaybackSound_pluckBouzoukiIrish; PlaybackSound_pluckCelticHarp; PlaybackSound_pluckCharango; PlaybackSound_pluckChitarraBattente;
    PlaybackSound_pluckCithara; PlaybackSound_pluckCittern; PlaybackSound_pluckCuatro; PlaybackSound_pluckDanBau;
    PlaybackSound_pluckDanNguyet; PlaybackSound_pluckDanTranh; PlaybackSound_pluckDanTyBa; PlaybackSound_pluckDiddleyBow;
    PlaybackSound_pluckDomra; PlaybackSound_pluckDomu; PlaybackSound_pluckDulcimer; PlaybackSound_pluckDutar;
    PlaybackSound_pluckDuxianqin; PlaybackSound_pluckEktara; PlaybackSound_pluckGeomungo; PlaybackSound_pluckGottuvadhyam;
    PlaybackSound_pluckGuitar; PlaybackSound_pluckGuitarAcoustic; PlaybackSound_pluckGuitarElectric; PlaybackSound_pluckGuitarNylonString;
    PlaybackSound_pluckGuitarPedalSteel; PlaybackSound_pluckGuitarPortuguese; PlaybackSound_pluckGuitarRequinto; PlaybackSound_pluckGuitarResonator;
    PlaybackSound_pluckGuitarSteelString; PlaybackSound_pluckGuitjo; PlaybackSound_pluckGuitjoDoubleNeck; PlaybackSound_pluckGuqin;
    PlaybackSound_pluckGuzheng; PlaybackSound_pluckGuzhengChoazhou; PlaybackSound_pluckHarp; PlaybackSound_pluckHarpGuitar;
    PlaybackSound_pluckHuapanguera; PlaybackSound_pluckJaranaHuasteca; PlaybackSound_pluckJaranaJarocha; PlaybackSound_pluckJaranaJarochaMosquito;
    PlaybackSound_pluckJaranaJarochaPrimera; PlaybackSound_pluckJaranaJarochaSegunda; PlaybackSound_pluckJaranaJarochaTercera; PlaybackSound_pluckKabosy;
    PlaybackSound_pluckKantele; PlaybackSound_pluckKanun; PlaybackSound_pluckKayagum; PlaybackSound_pluckKobza;
    PlaybackSound_pluckKomuz; PlaybackSound_pluckKora; PlaybackSound_pluckKoto; PlaybackSound_pluckKutiyapi;
    PlaybackSound_pluckLangeleik; PlaybackSound_pluckLaud; PlaybackSound_pluckLute; PlaybackSound_pluckLyre;
    PlaybackSound_pluckMandobass; PlaybackSound_pluckMandocello; PlaybackSound_pluckMandola; PlaybackSound_pluckMandolin;
    PlaybackSound_pluckMandolinOctave; PlaybackSound_pluckMandora; PlaybackSound_pluckMandore; PlaybackSound_pluckMarovany;
    PlaybackSound_pluckMusicalBow; PlaybackSound_pluckNgoni; PlaybackSound_pluckOud; PlaybackSound_pluckPipa;
    PlaybackSound_pluckPsaltery; PlaybackSound_pluckRuan; PlaybackSound_pluckSallaneh; PlaybackSound_pluckSanshin;
    PlaybackSound_pluckSantoor; PlaybackSound_pluckSanxian; PlaybackSound_pluckSarod; PlaybackSound_pluckSaung;
    PlaybackSound_pluckSaz; PlaybackSound_pluckSe; PlaybackSound_pluckSetar; PlaybackSound_pluckShamisen;
    PlaybackSound_pluckSitar; PlaybackSound_pluckSynth; PlaybackSound_pluckSynthCharang; PlaybackSound_pluckSynthChiff;
    PlaybackSound_pluckSynthStick; PlaybackSound_pluckTambura; PlaybackSound_pluckTamburaBulgarian; PlaybackSound_pluckTamburaFemale;
    PlaybackSound_pluckTamburaMale; PlaybackSound_pluckTar; PlaybackSound_pluckTheorbo; PlaybackSound_pluckTimple;
    PlaybackSound_pluckTiple; PlaybackSound_pluckTres; PlaybackSound_pluckUkulele; PlaybackSound_pluckUkuleleTenor;
    PlaybackSound_pluckValiha; PlaybackSound_pluckVeena; PlaybackSound_pluckVeenaMohan; PlaybackSound_pluckVeenaRudra;
    PlaybackSound_pluckVeenaVichitra; PlaybackSound_pluckVihuela; PlaybackSound_pluckVihuelaMexican; PlaybackSound_pluckXalam;
    PlaybackSound_pluckYueqin; PlaybackSound_pluckZither; PlaybackSound_pluckZitherOvertone; PlaybackSound_rattleAfoxe;
    PlaybackSound_rattleBirds; PlaybackSound_rattleCabasa; PlaybackSound_rattleCaxixi; PlaybackSound_rattleCog;
    PlaybackSound_rattleGanza; PlaybackSound_rattleHosho; PlaybackSound_rattleJawbone; PlaybackSound_rattleKayamba;
    PlaybackSound_rattleKpokoKpoko; PlaybackSound_rattleLavaStones; PlaybackSound_rattleMaraca; PlaybackSound_rattleRainStick;
    PlaybackSound_rattleRatchet; PlaybackSound_rattleRattle; PlaybackSound_rattleShaker; PlaybackSound_rattleShakerEgg;
    PlaybackSound_rattleShekere; PlaybackSound_rattleSistre; PlaybackSound_rattleTelevi; PlaybackSound_rattleVibraslap;
    PlaybackSound_rattleWasembe; PlaybackSound_stringsAjaeng; PlaybackSound_stringsArpeggione; PlaybackSound_stringsBaryton;
    PlaybackSound_stringsCello; PlaybackSound_stringsCelloPiccolo; PlaybackSound_stringsContrabass; PlaybackSound_stringsCrwth;
    PlaybackSound_stringsDanGao; PlaybackSound_stringsDihu; PlaybackSound_stringsErhu; PlaybackSound_stringsErxian;
    PlaybackSound_stringsEsraj; PlaybackSound_stringsFiddle; PlaybackSound_stringsFiddleHardanger; PlaybackSound_stringsGadulka;
    PlaybackSound_stringsGaohu; PlaybackSound_stringsGehu; PlaybackSound_stringsGroup; PlaybackSound_stringsGroupSynth;
    PlaybackSound_stringsHaegeum; PlaybackSound_stringsHurdyGurdy; PlaybackSound_stringsIgil; PlaybackSound_stringsKamancha;
    PlaybackSound_stringsKokyu; PlaybackSound_stringsLaruan; PlaybackSound_stringsLeiqin; PlaybackSound_stringsLirone;
    PlaybackSound_stringsLyraByzantine; PlaybackSound_stringsLyraCretan; PlaybackSound_stringsMorinKhuur; PlaybackSound_stringsNyckelharpa;
    PlaybackSound_stringsOctobass; PlaybackSound_stringsRebab; PlaybackSound_stringsRebec; PlaybackSound_stringsSarangi;
    PlaybackSound_stringsStrohViolin; PlaybackSound_stringsTrombaMarina; PlaybackSound_stringsVielle; PlaybackSound_stringsViol;
    PlaybackSound_stringsViolAlto; PlaybackSound_stringsViolBass; PlaybackSound_stringsViolTenor; PlaybackSound_stringsViolTreble;
    PlaybackSound_stringsViolViolone; PlaybackSound_stringsViola; PlaybackSound_stringsViolaDamore; PlaybackSound_stringsViolin;
    PlaybackSound_stringsViolonoPiccolo; PlaybackSound_stringsViolotta; PlaybackSound_stringsYayliTanbur; PlaybackSound_stringsYazheng;
    PlaybackSound_stringsZhonghu; PlaybackSound_synthEffects; PlaybackSound_synthEffectsAtmosphere; PlaybackSound_synthEffectsBrightness;
    PlaybackSound_synthEffectsCrystal; PlaybackSound_synthEffectsEchoes; PlaybackSound_synthEffectsGoblins; PlaybackSound_synthEffectsRain;
    PlaybackSound_synthEffectsSciFi; PlaybackSound_synthEffectsSoundtrack; PlaybackSound_synthGroup; PlaybackSound_synthGroupFifths;
    PlaybackSound_synthGroupOrchestra; PlaybackSound_synthPad; PlaybackSound_synthPadBowed; PlaybackSound_synthPadChoir;
    PlaybackSound_synthPadHalo; PlaybackSound_synthPadMetallic; PlaybackSound_synthPadPolysynth; PlaybackSound_synthPadSweep;
    PlaybackSound_synthPadWarm; PlaybackSound_synthTheremin; PlaybackSound_synthToneSawtooth; PlaybackSound_synthToneSine;
    PlaybackSound_synthToneSquare; PlaybackSound_voiceAa; PlaybackSound_voiceAlto; PlaybackSound_voiceAw;
    PlaybackSound_voiceBaritone; PlaybackSound_voiceBass; PlaybackSound_voiceChild; PlaybackSound_voiceCountertenor;
    PlaybackSound_voiceDoo; PlaybackSound_voiceEe; PlaybackSound_voiceFemale; PlaybackSound_voiceKazoo;
    PlaybackSound_voiceMale; PlaybackSound_voiceMezzoSoprano; PlaybackSound_voiceMm; PlaybackSound_voiceOo;
    PlaybackSound_voicePercussion; PlaybackSound_voicePercussionBeatbox; PlaybackSound_voiceSoprano; PlaybackSound_voiceSynth;
    PlaybackSound_voiceTalkBox; PlaybackSound_voiceTenor; PlaybackSound_voiceVocals; PlaybackSound_windFlutesBansuri;
    PlaybackSound_windFlutesBlownBottle; PlaybackSound_windFlutesCalliope; PlaybackSound_windFlutesDanso; PlaybackSound_windFlutesDiZi;
    PlaybackSound_windFlutesDvojnice; PlaybackSound_windFlutesFife; PlaybackSound_windFlutesFlageolet; PlaybackSound_windFlutesFlute;
    PlaybackSound_windFlutesFluteAlto; PlaybackSound_windFlutesFluteBass; PlaybackSound_windFlutesFluteContraAlto; PlaybackSound_windFlutesFluteContrabass;
    PlaybackSound_windFlutesFluteDoubleContrabass; PlaybackSound_windFlutesFluteIrish; PlaybackSound_windFlutesFlutePiccolo; PlaybackSound_windFlutesFluteSubcontrabass;
    PlaybackSound_windFlutesFujara; PlaybackSound_windFlutesGemshorn; PlaybackSound_windFlutesHocchiku; PlaybackSound_windFlutesHun;
    PlaybackSound_windFlutesKaval; PlaybackSound_windFlutesKawala; PlaybackSound_windFlutesKhlui; PlaybackSound_windFlutesKnotweed;
    PlaybackSound_windFlutesKoncovkaAlto; PlaybackSound_windFlutesKoudi; PlaybackSound_windFlutesNey; PlaybackSound_windFlutesNohkan;
    PlaybackSound_windFlutesNose; PlaybackSound_windFlutesOcarina; PlaybackSound_windFlutesOvertoneTenor; PlaybackSound_windFlutesPalendag;
    PlaybackSound_windFlutesPanpipes; PlaybackSound_windFlutesQuena; PlaybackSound_windFlutesRecorder; PlaybackSound_windFlutesRecorderAlto;
    PlaybackSound_windFlutesRecorderBass; PlaybackSound_windFlutesRecorderContrabass; PlaybackSound_windFlutesRecorderDescant; PlaybackSound_windFlutesRecorderGarklein;
    PlaybackSound_windFlutesRecorderGreatBass; PlaybackSound_windFlutesRecorderSopranino; PlaybackSound_windFlutesRecorderSoprano; PlaybackSound_windFlutesRecorderTenor;
    PlaybackSound_windFlutesRyuteki; PlaybackSound_windFlutesShakuhachi; PlaybackSound_windFlutesShepherdsPipe; PlaybackSound_windFlutesShinobue;
    PlaybackSound_windFlutesShvi; PlaybackSound_windFlutesSuling; PlaybackSound_windFlutesTarka; PlaybackSound_windFlutesTumpong;
    PlaybackSound_windFlutesVenu; PlaybackSound_windFlutesWhistle; PlaybackSound_windFlutesWhistleAlto; PlaybackSound_windFlutesWhistleLowIrish;
    PlaybackSound_windFlutesWhistleShiva; PlaybackSound_windFlutesWhistleSlide; PlaybackSound_windFlutesWhistleTin; PlaybackSound_windFlutesWhistleTinBflat;
    PlaybackSound_windFlutesWhistleTinD; PlaybackSound_windFlutesXiao; PlaybackSound_windFlutesXun; PlaybackSound_windGroup;
    PlaybackSound_windJug; PlaybackSound_windPipesBagpipes; PlaybackSound_windPipesGaida; PlaybackSound_windPipesHighland;
    PlaybackSound_windPipesUilleann; PlaybackSound_windPungi; PlaybackSound_windReedAlbogue; PlaybackSound_windReedAlboka;
    PlaybackSound_windReedAlgaita; PlaybackSound_windReedArghul; PlaybackSound_windReedBassetHorn; PlaybackSound_windReedBassoon;
    PlaybackSound_windReedBawu; PlaybackSound_windReedBifora; PlaybackSound_windReedBombarde; PlaybackSound_windReedChalumeau;
    PlaybackSound_windReedClarinet; PlaybackSound_windReedClarinetA; PlaybackSound_windReedClarinetAlto; PlaybackSound_windReedClarinetBass;
    PlaybackSound_windReedClarinetBasset; PlaybackSound_windReedClarinetBflat; PlaybackSound_windReedClarinetContraAlto; PlaybackSound_windReedClarinetContrabass;
    PlaybackSound_windReedClarinetEflat; PlaybackSound_windReedClarinetPiccoloAflat; PlaybackSound_windReedClarinetteDamour; PlaybackSound_windReedContrabass;
    PlaybackSound_windReedContrabassoon; PlaybackSound_windReedCornamuse; PlaybackSound_windReedCromorne; PlaybackSound_windReedCrumhorn;
    PlaybackSound_windReedCrumhornAlto; PlaybackSound_windReedCrumhornBass; PlaybackSound_windReedCrumhornGreatBass; PlaybackSound_windReedCrumhornSoprano;
    PlaybackSound_windReedCrumhornTenor; PlaybackSound_windReedDiple; PlaybackSound_windReedDiplica; PlaybackSound_windReedDuduk;
    PlaybackSound_windReedDulcian; PlaybackSound_windReedDulzaina; PlaybackSound_windReedEnglishHorn; PlaybackSound_windReedGuanzi;
    PlaybackSound_windReedHarmonica; PlaybackSound_windReedHarmonicaBass; PlaybackSound_windReedHeckelClarina; PlaybackSound_windReedHeckelphone;
    PlaybackSound_windReedHeckelphonePiccolo; PlaybackSound_windReedHeckelphoneClarinet; PlaybackSound_windReedHichiriki; PlaybackSound_windReedHirtenschalmei;
    PlaybackSound_windReedHne; PlaybackSound_windReedHornpipe; PlaybackSound_windReedHouguan; PlaybackSound_windReedHulusi;
    PlaybackSound_windReedJogiBaja; PlaybackSound_windReedKenBau; PlaybackSound_windReedKhaenMouthOrgan; PlaybackSound_windReedLauneddas;
    PlaybackSound_windReedMaqrunah; PlaybackSound_windReedMelodica; PlaybackSound_windReedMijwiz; PlaybackSound_windReedMizmar;
    PlaybackSound_windReedNadaswaram; PlaybackSound_windReedOboe; PlaybackSound_windReedOboeBass; PlaybackSound_windReedOboePiccolo;
    PlaybackSound_windReedOboeDaCaccia; PlaybackSound_windReedOboeDamore; PlaybackSound_windReedOctavin; PlaybackSound_windReedPi;
    PlaybackSound_windReedPibgorn; PlaybackSound_windReedPiri; PlaybackSound_windReedRackett; PlaybackSound_windReedRauschpfeife;
    PlaybackSound_windReedRhaita; PlaybackSound_windReedRothphone; PlaybackSound_windReedSarrusaphone; PlaybackSound_windReedSaxonette;
    PlaybackSound_windReedSaxophone; PlaybackSound_windReedSaxophoneAlto; PlaybackSound_windReedSaxophoneAulochrome; PlaybackSound_windReedSaxophoneBaritone;
    PlaybackSound_windReedSaxophoneBass; PlaybackSound_windReedSaxophoneContrabass; PlaybackSound_windReedSaxophoneMelody; PlaybackSound_windReedSaxophoneMezzoSoprano;
    PlaybackSound_windReedSaxophoneSopranino; PlaybackSound_windReedSaxophoneSopranissimo; PlaybackSound_windReedSaxophoneSoprano; PlaybackSound_windReedSaxophoneSubcontrabass;
    PlaybackSound_windReedSaxophoneTenor; PlaybackSound_windReedShawm; PlaybackSound_windReedShenai; PlaybackSound_windReedSheng;
    PlaybackSound_windReedSipsi; PlaybackSound_windReedSopila; PlaybackSound_windReedSorna; PlaybackSound_windReedSralai;
    PlaybackSound_windReedSuona; PlaybackSound_windReedSurnai; PlaybackSound_windReedTaepyeongso; PlaybackSound_windReedTarogato;
    PlaybackSound_windReedTarogatoAncient; PlaybackSound_windReedTrompetaChina; PlaybackSound_windReedTubax; PlaybackSound_windReedXaphoon;
    PlaybackSound_windReedZhaleika; PlaybackSound_windReedZurla; PlaybackSound_windReedZurna; PlaybackSound_woodAgogoBlock;
    PlaybackSound_woodAgungATamlang; PlaybackSound_woodAhoko; PlaybackSound_woodBones; PlaybackSound_woodCastanets;
    PlaybackSound_woodClaves; PlaybackSound_woodDrumSticks; PlaybackSound_woodGourd; PlaybackSound_woodGraniteBlock;
    PlaybackSound_woodGuban; PlaybackSound_woodGuiro; PlaybackSound_woodHyoushigi; PlaybackSound_woodIpu;
    PlaybackSound_woodJamBlock; PlaybackSound_woodKaekeeke; PlaybackSound_woodKagul; PlaybackSound_woodKalaau;
    PlaybackSound_woodKashiklar; PlaybackSound_woodKubing; PlaybackSound_woodPanClappers; PlaybackSound_woodSandBlock;
    PlaybackSound_woodSlapstick; PlaybackSound_woodStirDrum; PlaybackSound_woodTempleBlock; PlaybackSound_woodTicTocBlock;
    PlaybackSound_woodTonetang; PlaybackSound_woodWoodBlock ].

(* EnumWithString.h:39-46: PlaybackSoundToString, the switch *)
Definition PlaybackSoundToString (inValue : PlaybackSound) : str :=
  match inValue with
  | PlaybackSound_brassAlphorn => lit "brass.alphorn"
  | PlaybackSound_brassAltoHorn => lit "brass.alto-horn"
  | PlaybackSound_brassBaritoneHorn => lit "brass.baritone-horn"
  | PlaybackSound_brassBugle => lit "brass.bugle"
  | PlaybackSound_brassBugleAlto => lit "brass.bugle.alto"
  | PlaybackSound_brassBugleBaritone => lit "brass.bugle.baritone"
  | PlaybackSound_brassBugleContrabass => lit "brass.bugle.contrabass"
  | PlaybackSound_brassBugleEuphoniumBugle => lit "brass.bugle.euphonium-bugle"
  | PlaybackSound_brassBugleMellophoneBugle => lit "brass.bugle.mellophone-bugle"
  | PlaybackSound_brassBugleSoprano => lit "brass.bugle.soprano"
  | PlaybackSound_brassCimbasso => lit "brass.cimbasso"
  | PlaybackSound_brassConchShell => lit "brass.conch-shell"
  | PlaybackSound_brassCornet => lit "brass.cornet"
  | PlaybackSound_brassCornetSoprano => lit "brass.cornet.soprano"
  | PlaybackSound_brassCornett => lit "brass.cornett"
  | PlaybackSound_brassCornettTenor => lit "brass.cornett.tenor"
  | PlaybackSound_brassCornettino => lit "brass.cornettino"
  | PlaybackSound_brassDidgeridoo => lit "brass.didgeridoo"
  | PlaybackSound_brassEuphonium => lit "brass.euphonium"
  | PlaybackSound_brassFiscorn => lit "brass.fiscorn"
  | PlaybackSound_brassFlugelhorn => lit "brass.flugelhorn"
  | PlaybackSound_brassFrenchHorn => lit "brass.french-horn"
  | PlaybackSound_brassGroup => lit "brass.group"
  | PlaybackSound_brassGroupSynth => lit "brass.group.synth"
  | PlaybackSound_brassHelicon => lit "brass.helicon"
  | PlaybackSound_brassHoragai => lit "brass.horagai"
  | PlaybackSound_brassKuhlohorn => lit "brass.kuhlohorn"
  | PlaybackSound_brassMellophone => lit "brass.mellophone"
  | PlaybackSound_brassNaturalHorn => lit "brass.natural-horn"
  | PlaybackSound_brassOphicleide => lit "brass.ophicleide"
  | PlaybackSound_brassPosthorn => lit "brass.posthorn"
  | PlaybackSound_brassRagDung => lit "brass.rag-dung"
  | PlaybackSound_brassSackbutt => lit "brass.sackbutt"
  | PlaybackSound_brassSackbuttAlto => lit "brass.sackbutt.alto"
  | PlaybackSound_brassSackbuttBass => lit "brass.sackbutt.bass"
  | PlaybackSound_brassSackbuttTenor => lit "brass.sackbutt.tenor"
  | PlaybackSound_brassSaxhorn => lit "brass.saxhorn"
  | PlaybackSound_brassSerpent => lit "brass.serpent"
  | PlaybackSound_brassShofar => lit "brass.shofar"
  | PlaybackSound_brassSousaphone => lit "brass.sousaphone"
  | PlaybackSound_brassTrombone => lit "brass.trombone"
  | PlaybackSound_brassTromboneAlto => lit "brass.trombone.alto"
  | PlaybackSound_brassTromboneBass => lit "brass.trombone.bass"
  | PlaybackSound_brassTromboneContrabass => lit "brass.trombone.contrabass"
  | PlaybackSound_brassTromboneTenor => lit "brass.trombone.tenor"
  | PlaybackSound_brassTrumpet => lit "brass.trumpet"
  | PlaybackSound_brassTrumpetBaroque => lit "brass.trumpet.baroque"
  | PlaybackSound_brassTrumpetBass => lit "brass.trumpet.bass"
  | PlaybackSound_brassTrumpetBflat => lit "brass.trumpet.bflat"
  | PlaybackSound_brassTrumpetC => lit "brass.trumpet.c"
  | PlaybackSound_brassTrumpetD => lit "brass.trumpet.d"
  | PlaybackSound_brassTrumpetPiccolo => lit "brass.trumpet.piccolo"
  | PlaybackSound_brassTrumpetPocket => lit "brass.trumpet.pocket"
  | PlaybackSound_brassTrumpetSlide => lit "brass.trumpet.slide"
  | PlaybackSound_brassTrumpetTenor => lit "brass.trumpet.tenor"
  | PlaybackSound_brassTuba => lit "brass.tuba"
  | PlaybackSound_brassTubaBass => lit "brass.tuba.bass"
  | PlaybackSound_brassTubaSubcontrabass => lit "brass.tuba.subcontrabass"
  | PlaybackSound_brassViennaHorn => lit "brass.vienna-horn"
  | PlaybackSound_brassVuvuzela => lit "brass.vuvuzela"
  | PlaybackSound_brassWagnerTuba => lit "brass.wagner-tuba"
  | PlaybackSound_drumApentemma => lit "drum.apentemma"
  | PlaybackSound_drumAshiko => lit "drum.ashiko"
  | PlaybackSound_drumAtabaque => lit "drum.atabaque"
  | PlaybackSound_drumAtoke => lit "drum.atoke"
  | PlaybackSound_drumAtsimevu => lit "drum.atsimevu"
  | PlaybackSound_drumAxatse => lit "drum.axatse"
  | PlaybackSound_drumBassDrum => lit "drum.bass-drum"
  | PlaybackSound_drumBata => lit "drum.bata"
  | PlaybackSound_drumBataItotele => lit "drum.bata.itotele"
  | PlaybackSound_drumBataIya => lit "drum.bata.iya"
  | PlaybackSound_drumBataOkonkolo => lit "drum.bata.okonkolo"
  | PlaybackSound_drumBendir => lit "drum.bendir"
  | PlaybackSound_drumBodhran => lit "drum.bodhran"
  | PlaybackSound_drumBombo => lit "drum.bombo"
  | PlaybackSound_drumBongo => lit "drum.bongo"
  | PlaybackSound_drumBougarabou => lit "drum.bougarabou"
  | PlaybackSound_drumBuffaloDrum => lit "drum.buffalo-drum"
  | PlaybackSound_drumCajon => lit "drum.cajon"
  | PlaybackSound_drumChenda => lit "drum.chenda"
  | PlaybackSound_drumChuDaiko => lit "drum.chu-daiko"
  | PlaybackSound_drumConga => lit "drum.conga"
  | PlaybackSound_drumCuica => lit "drum.cuica"
  | PlaybackSound_drumDabakan => lit "drum.dabakan"
  | PlaybackSound_drumDaff => lit "drum.daff"
  | PlaybackSound_drumDafli => lit "drum.dafli"
  | PlaybackSound_drumDaibyosi => lit "drum.daibyosi"
  | PlaybackSound_drumDamroo => lit "drum.damroo"
  | PlaybackSound_drumDarabuka => lit "drum.darabuka"
  | PlaybackSound_drumDef => lit "drum.def"
  | PlaybackSound_drumDhol => lit "drum.dhol"
  | PlaybackSound_drumDholak => lit "drum.dholak"
  | PlaybackSound_drumDjembe => lit "drum.djembe"
  | PlaybackSound_drumDoira => lit "drum.doira"
  | PlaybackSound_drumDondo => lit "drum.dondo"
  | PlaybackSound_drumDounDounBa => lit "drum.doun-doun-ba"
  | PlaybackSound_drumDuff => lit "drum.duff"
  | PlaybackSound_drumDumbek => lit "drum.dumbek"
  | PlaybackSound_drumFontomfrom => lit "drum.fontomfrom"
  | PlaybackSound_drumFrameDrum => lit "drum.frame-drum"
  | PlaybackSound_drumFrameDrumArabian => lit "drum.frame-drum.arabian"
  | PlaybackSound_drumGeduk => lit "drum.geduk"
  | PlaybackSound_drumGhatam => lit "drum.ghatam"
  | PlaybackSound_drumGome => lit "drum.gome"
  | PlaybackSound_drumGroup => lit "drum.group"
  | PlaybackSound_drumGroupChinese => lit "drum.group.chinese"
  | PlaybackSound_drumGroupEwe => lit "drum.group.ewe"
  | PlaybackSound_drumGroupIndian => lit "drum.group.indian"
  | PlaybackSound_drumGroupSet => lit "drum.group.set"
  | PlaybackSound_drumHandDrum => lit "drum.hand-drum"
  | PlaybackSound_drumHiraDaiko => lit "drum.hira-daiko"
  | PlaybackSound_drumIbo => lit "drum.ibo"
  | PlaybackSound_drumIgihumurizo => lit "drum.igihumurizo"
  | PlaybackSound_drumInyahura => lit "drum.inyahura"
  | PlaybackSound_drumIshakwe => lit "drum.ishakwe"
  | PlaybackSound_drumJangGu => lit "drum.jang-gu"
  | PlaybackSound_drumKagan => lit "drum.kagan"
  | PlaybackSound_drumKakko => lit "drum.kakko"
  | PlaybackSound_drumKanjira => lit "drum.kanjira"
  | PlaybackSound_drumKendhang => lit "drum.kendhang"
  | PlaybackSound_drumKendhangAgeng => lit "drum.kendhang.ageng"
  | PlaybackSound_drumKendhangCiblon => lit "drum.kendhang.ciblon"
  | PlaybackSound_drumKenkeni => lit "drum.kenkeni"
  | PlaybackSound_drumKhol => lit "drum.khol"
  | PlaybackSound_drumKickDrum => lit "drum.kick-drum"
  | PlaybackSound_drumKidi => lit "drum.kidi"
  | PlaybackSound_drumKoDaiko => lit "drum.ko-daiko"
  | PlaybackSound_drumKpanlogo => lit "drum.kpanlogo"
  | PlaybackSound_drumKudum => lit "drum.kudum"
  | PlaybackSound_drumLambeg => lit "drum.lambeg"
  | PlaybackSound_drumLionDrum => lit "drum.lion-drum"
  | PlaybackSound_drumLogDrum => lit "drum.log-drum"
  | PlaybackSound_drumLogDrumAfrican => lit "drum.log-drum.african"
  | PlaybackSound_drumLogDrumNative => lit "drum.log-drum.native"
  | PlaybackSound_drumLogDrumNigerian => lit "drum.log-drum.nigerian"
  | PlaybackSound_drumMadal => lit "drum.madal"
  | PlaybackSound_drumMaddale => lit "drum.maddale"
  | PlaybackSound_drumMridangam => lit "drum.mridangam"
  | PlaybackSound_drumNaal => lit "drum.naal"
  | PlaybackSound_drumNagadoDaiko => lit "drum.nagado-daiko"
  | PlaybackSound_drumNagara => lit "drum.nagara"
  | PlaybackSound_drumNaqara => lit "drum.naqara"
  | PlaybackSound_drumODaiko => lit "drum.o-daiko"
  | PlaybackSound_drumOkawa => lit "drum.okawa"
  | PlaybackSound_drumOkedoDaiko => lit "drum.okedo-daiko"
  | PlaybackSound_drumPahuHula => lit "drum.pahu-hula"
  | PlaybackSound_drumPakhawaj => lit "drum.pakhawaj"
  | PlaybackSound_drumPandeiro => lit "drum.pandeiro"
  | PlaybackSound_drumPandero => lit "drum.pandero"
  | PlaybackSound_drumPowwow => lit "drum.powwow"
  | PlaybackSound_drumPueblo => lit "drum.pueblo"
  | PlaybackSound_drumRepinique => lit "drum.repinique"
  | PlaybackSound_drumRiq => lit "drum.riq"
  | PlaybackSound_drumRototom => lit "drum.rototom"
  | PlaybackSound_drumSabar => lit "drum.sabar"
  | PlaybackSound_drumSakara => lit "drum.sakara"
  | PlaybackSound_drumSampho => lit "drum.sampho"
  | PlaybackSound_drumSangban => lit "drum.sangban"
  | PlaybackSound_drumShimeDaiko => lit "drum.shime-daiko"
  | PlaybackSound_drumSlitDrum => lit "drum.slit-drum"
  | PlaybackSound_drumSlitDrumKrin => lit "drum.slit-drum.krin"
  | PlaybackSound_drumSnareDrum => lit "drum.snare-drum"
  | PlaybackSound_drumSnareDrumElectric => lit "drum.snare-drum.electric"
  | PlaybackSound_drumSogo => lit "drum.sogo"
  | PlaybackSound_drumSurdo => lit "drum.surdo"
  | PlaybackSound_drumTabla => lit "drum.tabla"
  | PlaybackSound_drumTablaBayan => lit "drum.tabla.bayan"
  | PlaybackSound_drumTablaDayan => lit "drum.tabla.dayan"
  | PlaybackSound_drumTaiko => lit "drum.taiko"
  | PlaybackSound_drumTalking => lit "drum.talking"
  | PlaybackSound_drumTama => lit "drum.tama"
  | PlaybackSound_drumTamborita => lit "drum.tamborita"
  | PlaybackSound_drumTambourine => lit "drum.tambourine"
  | PlaybackSound_drumTamte => lit "drum.tamte"
  | PlaybackSound_drumTangku => lit "drum.tangku"
  | PlaybackSound_drumTanTan => lit "drum.tan-tan"
  | PlaybackSound_drumTaphon => lit "drum.taphon"
  | PlaybackSound_drumTar => lit "drum.tar"
  | PlaybackSound_drumTasha => lit "drum.tasha"
  | PlaybackSound_drumTenorDrum => lit "drum.tenor-drum"
  | PlaybackSound_drumTeponaxtli => lit "drum.teponaxtli"
  | PlaybackSound_drumThavil => lit "drum.thavil"
  | PlaybackSound_drumTheBox => lit "drum.the-box"
  | PlaybackSound_drumTimbale => lit "drum.timbale"
  | PlaybackSound_drumTimpani => lit "drum.timpani"
  | PlaybackSound_drumTinaja => lit "drum.tinaja"
  | PlaybackSound_drumToere => lit "drum.toere"
  | PlaybackSound_drumTombak => lit "drum.tombak"
  | PlaybackSound_drumTomTom => lit "drum.tom-tom"
  | PlaybackSound_drumTomTomSynth => lit "drum.tom-tom.synth"
  | PlaybackSound_drumTsuzumi => lit "drum.tsuzumi"
  | PlaybackSound_drumTumbak => lit "drum.tumbak"
  | PlaybackSound_drumUchiwaDaiko => lit "drum.uchiwa-daiko"
  | PlaybackSound_drumUdaku => lit "drum.udaku"
  | PlaybackSound_drumUdu => lit "drum.udu"
  | PlaybackSound_drumZarb => lit "drum.zarb"
  | PlaybackSound_effectAeolianHarp => lit "effect.aeolian-harp"
  | PlaybackSound_effectAirHorn => lit "effect.air-horn"
  | PlaybackSound_effectApplause => lit "effect.applause"
  | PlaybackSound_effectBassStringSlap => lit "effect.bass-string-slap"
  | PlaybackSound_effectBird => lit "effect.bird"
  | PlaybackSound_effectBirdNightingale => lit "effect.bird.nightingale"
  | PlaybackSound_effectBirdTweet => lit "effect.bird.tweet"
  | PlaybackSound_effectBreath => lit "effect.breath"
  | PlaybackSound_effectBubble => lit "effect.bubble"
  | PlaybackSound_effectBullroarer => lit "effect.bullroarer"
  | PlaybackSound_effectBurst => lit "effect.burst"
  | PlaybackSound_effectCar => lit "effect.car"
  | PlaybackSound_effectCarCrash => lit "effect.car.crash"
  | PlaybackSound_effectCarEngine => lit "effect.car.engine"
  | PlaybackSound_effectCarPass => lit "effect.car.pass"
  | PlaybackSound_effectCarStop => lit "effect.car.stop"
  | PlaybackSound_effectCrickets => lit "effect.crickets"
  | PlaybackSound_effectDog => lit "effect.dog"
  | PlaybackSound_effectDoorCreak => lit "effect.door.creak"
  | PlaybackSound_effectDoorSlam => lit "effect.door.slam"
  | PlaybackSound_effectExplosion => lit "effect.explosion"
  | PlaybackSound_effectFluteKeyClick => lit "effect.flute-key-click"
  | PlaybackSound_effectFootsteps => lit "effect.footsteps"
  | PlaybackSound_effectFrogs => lit "effect.frogs"
  | PlaybackSound_effectGuitarCutting => lit "effect.guitar-cutting"
  | PlaybackSound_effectGuitarFret => lit "effect.guitar-fret"
  | PlaybackSound_effectGunshot => lit "effect.gunshot"
  | PlaybackSound_effectHandClap => lit "effect.hand-clap"
  | PlaybackSound_effectHeartbeat => lit "effect.heartbeat"
  | PlaybackSound_effectHelicopter => lit "effect.helicopter"
  | PlaybackSound_effectHighQ => lit "effect.high-q"
  | PlaybackSound_effectHorseGallop => lit "effect.horse-gallop"
  | PlaybackSound_effectJetPlane => lit "effect.jet-plane"
  | PlaybackSound_effectLaserGun => lit "effect.laser-gun"
  | PlaybackSound_effectLaugh => lit "effect.laugh"
  | PlaybackSound_effectLionsRoar => lit "effect.lions-roar"
  | PlaybackSound_effectMachineGun => lit "effect.machine-gun"
  | PlaybackSound_effectMarchingMachine => lit "effect.marching-machine"
  | PlaybackSound_effectMetronomeBell => lit "effect.metronome-bell"
  | PlaybackSound_effectMetronomeClick => lit "effect.metronome-click"
  | PlaybackSound_effectPat => lit "effect.pat"
  | PlaybackSound_effectPunch => lit "effect.punch"
  | PlaybackSound_effectRain => lit "effect.rain"
  | PlaybackSound_effectScratch => lit "effect.scratch"
  | PlaybackSound_effectScream => lit "effect.scream"
  | PlaybackSound_effectSeashore => lit "effect.seashore"
  | PlaybackSound_effectSiren => lit "effect.siren"
  | PlaybackSound_effectSlap => lit "effect.slap"
  | PlaybackSound_effectSnap => lit "effect.snap"
  | PlaybackSound_effectStamp => lit "effect.stamp"
  | PlaybackSound_effectStarship => lit "effect.starship"
  | PlaybackSound_effectStream => lit "effect.stream"
  | PlaybackSound_effectTelephoneRing => lit "effect.telephone-ring"
  | PlaybackSound_effectThunder => lit "effect.thunder"
  | PlaybackSound_effectTrain => lit "effect.train"
  | PlaybackSound_effectTrashCan => lit "effect.trash-can"
  | PlaybackSound_effectWhip => lit "effect.whip"
  | PlaybackSound_effectWhistle => lit "effect.whistle"
  | PlaybackSound_effectWhistleMouthSiren => lit "effect.whistle.mouth-siren"
  | PlaybackSound_effectWhistlePolice => lit "effect.whistle.police"
  | PlaybackSound_effectWhistleSlide => lit "effect.whistle.slide"
  | PlaybackSound_effectWhistleTrain => lit "effect.whistle.train"
  | PlaybackSound_effectWind => lit "effect.wind"
  | PlaybackSound_keyboardAccordion => lit "keyboard.accordion"
  | PlaybackSound_keyboardBandoneon => lit "keyboard.bandoneon"
  | PlaybackSound_keyboardCelesta => lit "keyboard.celesta"
  | PlaybackSound_keyboardClavichord => lit "keyboard.clavichord"
  | PlaybackSound_keyboardClavichordSynth => lit "keyboard.clavichord.synth"
  | PlaybackSound_keyboardConcertina => lit "keyboard.concertina"
  | PlaybackSound_keyboardFortepiano => lit "keyboard.fortepiano"
  | PlaybackSound_keyboardHarmonium => lit "keyboard.harmonium"
  | PlaybackSound_keyboardHarpsichord => lit "keyboard.harpsichord"
  | PlaybackSound_keyboardOndesMartenot => lit "keyboard.ondes-martenot"
  | PlaybackSound_keyboardOrgan => lit "keyboard.organ"
  | PlaybackSound_keyboardOrganDrawbar => lit "keyboard.organ.drawbar"
  | PlaybackSound_keyboardOrganPercussive => lit "keyboard.organ.percussive"
  | PlaybackSound_keyboardOrganPipe => lit "keyboard.organ.pipe"
  | PlaybackSound_keyboardOrganReed => lit "keyboard.organ.reed"
  | PlaybackSound_keyboardOrganRotary => lit "keyboard.organ.rotary"
  | PlaybackSound_keyboardPiano => lit "keyboard.piano"
  | PlaybackSound_keyboardPianoElectric => lit "keyboard.piano.electric"
  | PlaybackSound_keyboardPianoGrand => lit "keyboard.piano.grand"
  | PlaybackSound_keyboardPianoHonkyTonk => lit "keyboard.piano.honky-tonk"
  | PlaybackSound_keyboardPianoPrepared => lit "keyboard.piano.prepared"
  | PlaybackSound_keyboardPianoToy => lit "keyboard.piano.toy"
  | PlaybackSound_keyboardPianoUpright => lit "keyboard.piano.upright"
  | PlaybackSound_keyboardVirginal => lit "keyboard.virginal"
  | PlaybackSound_metalAdodo => lit "metal.adodo"
  | PlaybackSound_metalAnvil => lit "metal.anvil"
  | PlaybackSound_metalBabendil => lit "metal.babendil"
  | PlaybackSound_metalBellsAgogo => lit "metal.bells.agogo"
  | PlaybackSound_metalBellsAlmglocken => lit "metal.bells.almglocken"
  | PlaybackSound_metalBellsBellPlate => lit "metal.bells.bell-plate"
  | PlaybackSound_metalBellsBellTree => lit "metal.bells.bell-tree"
  | PlaybackSound_metalBellsCarillon => lit "metal.bells.carillon"
  | PlaybackSound_metalBellsChimes => lit "metal.bells.chimes"
  | PlaybackSound_metalBellsChimta => lit "metal.bells.chimta"
  | PlaybackSound_metalBellsChippli => lit "metal.bells.chippli"
  | PlaybackSound_metalBellsChurch => lit "metal.bells.church"
  | PlaybackSound_metalBellsCowbell => lit "metal.bells.cowbell"
  | PlaybackSound_metalBellsDawuro => lit "metal.bells.dawuro"
  | PlaybackSound_metalBellsGankokwe => lit "metal.bells.gankokwe"
  | PlaybackSound_metalBellsGhungroo => lit "metal.bells.ghungroo"
  | PlaybackSound_metalBellsHatheli => lit "metal.bells.hatheli"
  | PlaybackSound_metalBellsJingleBell => lit "metal.bells.jingle-bell"
  | PlaybackSound_metalBellsKhartal => lit "metal.bells.khartal"
  | PlaybackSound_metalBellsMarkTree => lit "metal.bells.mark-tree"
  | PlaybackSound_metalBellsSistrum => lit "metal.bells.sistrum"
  | PlaybackSound_metalBellsSleighBells => lit "metal.bells.sleigh-bells"
  | PlaybackSound_metalBellsTemple => lit "metal.bells.temple"
  | PlaybackSound_metalBellsTibetan => lit "metal.bells.tibetan"
  | PlaybackSound_metalBellsTinklebell => lit "metal.bells.tinklebell"
  | PlaybackSound_metalBellsTrychel => lit "metal.bells.trychel"
  | PlaybackSound_metalBellsWindChimes => lit "metal.bells.wind-chimes"
  | PlaybackSound_metalBellsZills => lit "metal.bells.zills"
  | PlaybackSound_metalBerimbau => lit "metal.berimbau"
  | PlaybackSound_metalBrakeDrums => lit "metal.brake-drums"
  | PlaybackSound_metalCrotales => lit "metal.crotales"
  | PlaybackSound_metalCymbalBo => lit "metal.cymbal.bo"
  | PlaybackSound_metalCymbalCengCeng => lit "metal.cymbal.ceng-ceng"
  | PlaybackSound_metalCymbalChabara => lit "metal.cymbal.chabara"
  | PlaybackSound_metalCymbalChinese => lit "metal.cymbal.chinese"
  | PlaybackSound_metalCymbalChing => lit "metal.cymbal.ching"
  | PlaybackSound_metalCymbalClash => lit "metal.cymbal.clash"
  | PlaybackSound_metalCymbalCrash => lit "metal.cymbal.crash"
  | PlaybackSound_metalCymbalFinger => lit "metal.cymbal.finger"
  | PlaybackSound_metalCymbalHand => lit "metal.cymbal.hand"
  | PlaybackSound_metalCymbalKesi => lit "metal.cymbal.kesi"
  | PlaybackSound_metalCymbalManjeera => lit "metal.cymbal.manjeera"
  | PlaybackSound_metalCymbalReverse => lit "metal.cymbal.reverse"
  | PlaybackSound_metalCymbalRide => lit "metal.cymbal.ride"
  | PlaybackSound_metalCymbalSizzle => lit "metal.cymbal.sizzle"
  | PlaybackSound_metalCymbalSplash => lit "metal.cymbal.splash"
  | PlaybackSound_metalCymbalSuspended => lit "metal.cymbal.suspended"
  | PlaybackSound_metalCymbalTebyoshi => lit "metal.cymbal.tebyoshi"
  | PlaybackSound_metalCymbalTibetan => lit "metal.cymbal.tibetan"
  | PlaybackSound_metalCymbalTingsha => lit "metal.cymbal.tingsha"
  | PlaybackSound_metalFlexatone => lit "metal.flexatone"
  | PlaybackSound_metalGong => lit "metal.gong"
  | PlaybackSound_metalGongAgeng => lit "metal.gong.ageng"
  | PlaybackSound_metalGongAgung => lit "metal.gong.agung"
  | PlaybackSound_metalGongChanchiki => lit "metal.gong.chanchiki"
  | PlaybackSound_metalGongChinese => lit "metal.gong.chinese"
  | PlaybackSound_metalGongGandingan => lit "metal.gong.gandingan"
  | PlaybackSound_metalGongKempul => lit "metal.gong.kempul"
  | PlaybackSound_metalGongKempyang => lit "metal.gong.kempyang"
  | PlaybackSound_metalGongKetuk => lit "metal.gong.ketuk"
  | PlaybackSound_metalGongKkwenggwari => lit "metal.gong.kkwenggwari"
  | PlaybackSound_metalGongLuo => lit "metal.gong.luo"
  | PlaybackSound_metalGongSinging => lit "metal.gong.singing"
  | PlaybackSound_metalGongThai => lit "metal.gong.thai"
  | PlaybackSound_metalGuira => lit "metal.guira"
  | PlaybackSound_metalHang => lit "metal.hang"
  | PlaybackSound_metalHiHat => lit "metal.hi-hat"
  | PlaybackSound_metalJawHarp => lit "metal.jaw-harp"
  | PlaybackSound_metalKengong => lit "metal.kengong"
  | PlaybackSound_metalMurchang => lit "metal.murchang"
  | PlaybackSound_metalMusicalSaw => lit "metal.musical-saw"
  | PlaybackSound_metalSingingBowl => lit "metal.singing-bowl"
  | PlaybackSound_metalSpoons => lit "metal.spoons"
  | PlaybackSound_metalSteelDrums => lit "metal.steel-drums"
  | PlaybackSound_metalTamtam => lit "metal.tamtam"
  | PlaybackSound_metalThundersheet => lit "metal.thundersheet"
  | PlaybackSound_metalTriangle => lit "metal.triangle"
  | PlaybackSound_metalWashboard => lit "metal.washboard"
  | PlaybackSound_pitchedPercussionAngklung => lit "pitched-percussion.angklung"
  | PlaybackSound_pitchedPercussionBalafon => lit "pitched-percussion.balafon"
  | PlaybackSound_pitchedPercussionBellLyre => lit "pitched-percussion.bell-lyre"
  | PlaybackSound_pitchedPercussionBells => lit "pitched-percussion.bells"
  | PlaybackSound_pitchedPercussionBianqing => lit "pitched-percussion.bianqing"
  | PlaybackSound_pitchedPercussionBianzhong => lit "pitched-percussion.bianzhong"
  | PlaybackSound_pitchedPercussionBonang => lit "pitched-percussion.bonang"
  | PlaybackSound_pitchedPercussionCimbalom => lit "pitched-percussion.cimbalom"
  | PlaybackSound_pitchedPercussionCrystalGlasses => lit "pitched-percussion.crystal-glasses"
  | PlaybackSound_pitchedPercussionDanTamThapLuc => lit "pitched-percussion.dan-tam-thap-luc"
  | PlaybackSound_pitchedPercussionFangxiang => lit "pitched-percussion.fangxiang"
  | PlaybackSound_pitchedPercussionGandinganAKayo => lit "pitched-percussion.gandingan-a-kayo"
  | PlaybackSound_pitchedPercussionGangsa => lit "pitched-percussion.gangsa"
  | PlaybackSound_pitchedPercussionGender => lit "pitched-percussion.gender"
  | PlaybackSound_pitchedPercussionGiying => lit "pitched-percussion.giying"
  | PlaybackSound_pitchedPercussionGlassHarmonica => lit "pitched-percussion.glass-harmonica"
  | PlaybackSound_pitchedPercussionGlockenspiel => lit "pitched-percussion.glockenspiel"
  | PlaybackSound_pitchedPercussionGlockenspielAlto => lit "pitched-percussion.glockenspiel.alto"
  | PlaybackSound_pitchedPercussionGlockenspielSoprano => lit "pitched-percussion.glockenspiel.soprano"
  | PlaybackSound_pitchedPercussionGyil => lit "pitched-percussion.gyil"
  | PlaybackSound_pitchedPercussionHammerDulcimer => lit "pitched-percussion.hammer-dulcimer"
  | PlaybackSound_pitchedPercussionHandbells => lit "pitched-percussion.handbells"
  | PlaybackSound_pitchedPercussionKalimba => lit "pitched-percussion.kalimba"
  | PlaybackSound_pitchedPercussionKantil => lit "pitched-percussion.kantil"
  | PlaybackSound_pitchedPercussionKhim => lit "pitched-percussion.khim"
  | PlaybackSound_pitchedPercussionKulintang => lit "pitched-percussion.kulintang"
  | PlaybackSound_pitchedPercussionKulintangAKayo => lit "pitched-percussion.kulintang-a-kayo"
  | PlaybackSound_pitchedPercussionKulintangATiniok => lit "pitched-percussion.kulintang-a-tiniok"
  | PlaybackSound_pitchedPercussionLikembe => lit "pitched-percussion.likembe"
  | PlaybackSound_pitchedPercussionLuntang => lit "pitched-percussion.luntang"
  | PlaybackSound_pitchedPercussionMarimba => lit "pitched-percussion.marimba"
  | PlaybackSound_pitchedPercussionMarimbaBass => lit "pitched-percussion.marimba.bass"
  | PlaybackSound_pitchedPercussionMbira => lit "pitched-percussion.mbira"
  | PlaybackSound_pitchedPercussionMbiraArray => lit "pitched-percussion.mbira.array"
  | PlaybackSound_pitchedPercussionMetallophone => lit "pitched-percussion.metallophone"
  | PlaybackSound_pitchedPercussionMetallophoneAlto => lit "pitched-percussion.metallophone.alto"
  | PlaybackSound_pitchedPercussionMetallophoneBass => lit "pitched-percussion.metallophone.bass"
  | PlaybackSound_pitchedPercussionMetallophoneSoprano => lit "pitched-percussion.metallophone.soprano"
  | PlaybackSound_pitchedPercussionMusicBox => lit "pitched-percussion.music-box"
  | PlaybackSound_pitchedPercussionPelogPanerus => lit "pitched-percussion.pelog-panerus"
  | PlaybackSound_pitchedPercussionPemade => lit "pitched-percussion.pemade"
  | PlaybackSound_pitchedPercussionPenyacah => lit "pitched-percussion.penyacah"
  | PlaybackSound_pitchedPercussionRanatEk => lit "pitched-percussion.ranat.ek"
  | PlaybackSound_pitchedPercussionRanatEkLek => lit "pitched-percussion.ranat.ek-lek"
  | PlaybackSound_pitchedPercussionRanatThum => lit "pitched-percussion.ranat.thum"
  | PlaybackSound_pitchedPercussionRanatThumLek => lit "pitched-percussion.ranat.thum-lek"
  | PlaybackSound_pitchedPercussionReyong => lit "pitched-percussion.reyong"
  | PlaybackSound_pitchedPercussionSanza => lit "pitched-percussion.sanza"
  | PlaybackSound_pitchedPercussionSaronBarung => lit "pitched-percussion.saron-barung"
  | PlaybackSound_pitchedPercussionSaronDemong => lit "pitched-percussion.saron-demong"
  | PlaybackSound_pitchedPercussionSaronPanerus => lit "pitched-percussion.saron-panerus"
  | PlaybackSound_pitchedPercussionSlendroPanerus => lit "pitched-percussion.slendro-panerus"
  | PlaybackSound_pitchedPercussionSlentem => lit "pitched-percussion.slentem"
  | PlaybackSound_pitchedPercussionTsymbaly => lit "pitched-percussion.tsymbaly"
  | PlaybackSound_pitchedPercussionTubes => lit "pitched-percussion.tubes"
  | PlaybackSound_pitchedPercussionTubularBells => lit "pitched-percussion.tubular-bells"
  | PlaybackSound_pitchedPercussionVibraphone => lit "pitched-percussion.vibraphone"
  | PlaybackSound_pitchedPercussionXylophone => lit "pitched-percussion.xylophone"
  | PlaybackSound_pitchedPercussionXylophoneAlto => lit "pitched-percussion.xylophone.alto"
  | PlaybackSound_pitchedPercussionXylophoneBass => lit "pitched-percussion.xylophone.bass"
  | PlaybackSound_pitchedPercussionXylophoneSoprano => lit "pitched-percussion.xylophone.soprano"
  | PlaybackSound_pitchedPercussionXylorimba => lit "pitched-percussion.xylorimba"
  | PlaybackSound_pitchedPercussionYangqin => lit "pitched-percussion.yangqin"
  | PlaybackSound_pluckArchlute => lit "pluck.archlute"
  | PlaybackSound_pluckAutoharp => lit "pluck.autoharp"
  | PlaybackSound_pluckBaglama => lit "pluck.baglama"
  | PlaybackSound_pluckBajo => lit "pluck.bajo"
  | PlaybackSound_pluckBalalaika => lit "pluck.balalaika"
  | PlaybackSound_pluckBalalaikaAlto => lit "pluck.balalaika.alto"
  | PlaybackSound_pluckBalalaikaBass => lit "pluck.balalaika.bass"
  | PlaybackSound_pluckBalalaikaContrabass => lit "pluck.balalaika.contrabass"
  | PlaybackSound_pluckBalalaikaPiccolo => lit "pluck.balalaika.piccolo"
  | PlaybackSound_pluckBalalaikaPrima => lit "pluck.balalaika.prima"
  | PlaybackSound_pluckBalalaikaSecunda => lit "pluck.balalaika.secunda"
  | PlaybackSound_pluckBandola => lit "pluck.bandola"
  | PlaybackSound_pluckBandura => lit "pluck.bandura"
  | PlaybackSound_pluckBandurria => lit "pluck.bandurria"
  | PlaybackSound_pluckBanjo => lit "pluck.banjo"
  | PlaybackSound_pluckBanjoTenor => lit "pluck.banjo.tenor"
  | PlaybackSound_pluckBanjolele => lit "pluck.banjolele"
  | PlaybackSound_pluckBarbat => lit "pluck.barbat"
  | PlaybackSound_pluckBass => lit "pluck.bass"
  | PlaybackSound_pluckBassAcoustic => lit "pluck.bass.acoustic"
  | PlaybackSound_pluckBassBolon => lit "pluck.bass.bolon"
  | PlaybackSound_pluckBassElectric => lit "pluck.bass.electric"
  | PlaybackSound_pluckBassFretless => lit "pluck.bass.fretless"
  | PlaybackSound_pluckBassGuitarron => lit "pluck.bass.guitarron"
  | PlaybackSound_pluckBassSynth => lit "pluck.bass.synth"
  | PlaybackSound_pluckBassSynthLead => lit "pluck.bass.synth.lead"
  | PlaybackSound_pluckBassWashtub => lit "pluck.bass.washtub"
  | PlaybackSound_pluckBassWhamola => lit "pluck.bass.whamola"
  | PlaybackSound_pluckBegena => lit "pluck.begena"
  | PlaybackSound_pluckBiwa => lit "pluck.biwa"
  | PlaybackSound_pluckBordonua => lit "pluck.bordonua"
  | PlaybackSound_pluckBouzouki => lit "pluck.bouzouki"
  | PlaybackSound_pluckBouzoukiIrish => lit "pluck.bouzouki.irish"
  | PlaybackSound_pluckCelticHarp => lit "pluck.celtic-harp"
  | PlaybackSound_pluckCharango => lit "pluck.charango"
  | PlaybackSound_pluckChitarraBattente => lit "pluck.chitarra-battente"
  | PlaybackSound_pluckCithara => lit "pluck.cithara"
  | PlaybackSound_pluckCittern => lit "pluck.cittern"
  | PlaybackSound_pluckCuatro => lit "pluck.cuatro"
  | PlaybackSound_pluckDanBau => lit "pluck.dan-bau"
  | PlaybackSound_pluckDanNguyet => lit "pluck.dan-nguyet"
  | PlaybackSound_pluckDanTranh => lit "pluck.dan-tranh"
  | PlaybackSound_pluckDanTyBa => lit "pluck.dan-ty-ba"
  | PlaybackSound_pluckDiddleyBow => lit "pluck.diddley-bow"
  | PlaybackSound_pluckDomra => lit "pluck.domra"
  | PlaybackSound_pluckDomu => lit "pluck.domu"
  | PlaybackSound_pluckDulcimer => lit "pluck.dulcimer"
  | PlaybackSound_pluckDutar => lit "pluck.dutar"
  | PlaybackSound_pluckDuxianqin => lit "pluck.duxianqin"
  | PlaybackSound_pluckEktara => lit "pluck.ektara"
  | PlaybackSound_pluckGeomungo => lit "pluck.geomungo"
  | PlaybackSound_pluckGottuvadhyam => lit "pluck.gottuvadhyam"
  | PlaybackSound_pluckGuitar => lit "pluck.guitar"
  | PlaybackSound_pluckGuitarAcoustic => lit "pluck.guitar.acoustic"
  | PlaybackSound_pluckGuitarElectric => lit "pluck.guitar.electric"
  | PlaybackSound_pluckGuitarNylonString => lit "pluck.guitar.nylon-string"
  | PlaybackSound_pluckGuitarPedalSteel => lit "pluck.guitar.pedal-steel"
  | PlaybackSound_pluckGuitarPortuguese => lit "pluck.guitar.portuguese"
  | PlaybackSound_pluckGuitarRequinto => lit "pluck.guitar.requinto"
  | PlaybackSound_pluckGuitarResonator => lit "pluck.guitar.resonator"
  | PlaybackSound_pluckGuitarSteelString => lit "pluck.guitar.steel-string"
  | PlaybackSound_pluckGuitjo => lit "pluck.guitjo"
  | PlaybackSound_pluckGuitjoDoubleNeck => lit "pluck.guitjo.double-neck"
  | PlaybackSound_pluckGuqin => lit "pluck.guqin"
  | PlaybackSound_pluckGuzheng => lit "pluck.guzheng"
  | PlaybackSound_pluckGuzhengChoazhou => lit "pluck.guzheng.choazhou"
  | PlaybackSound_pluckHarp => lit "pluck.harp"
  | PlaybackSound_pluckHarpGuitar => lit "pluck.harp-guitar"
  | PlaybackSound_pluckHuapanguera => lit "pluck.huapanguera"
  | PlaybackSound_pluckJaranaHuasteca => lit "pluck.jarana-huasteca"
  | PlaybackSound_pluckJaranaJarocha => lit "pluck.jarana-jarocha"
  | PlaybackSound_pluckJaranaJarochaMosquito => lit "pluck.jarana-jarocha.mosquito"
  | PlaybackSound_pluckJaranaJarochaPrimera => lit "pluck.jarana-jarocha.primera"
  | PlaybackSound_pluckJaranaJarochaSegunda => lit "pluck.jarana-jarocha.segunda"
  | PlaybackSound_pluckJaranaJarochaTercera => lit "pluck.jarana-jarocha.tercera"
  | PlaybackSound_pluckKabosy => lit "pluck.kabosy"
  | PlaybackSound_pluckKantele => lit "pluck.kantele"
  | PlaybackSound_pluckKanun => lit "pluck.kanun"
  | PlaybackSound_pluckKayagum => lit "pluck.kayagum"
  | PlaybackSound_pluckKobza => lit "pluck.kobza"
  | PlaybackSound_pluckKomuz => lit "pluck.komuz"
  | PlaybackSound_pluckKora => lit "pluck.kora"
  | PlaybackSound_pluckKoto => lit "pluck.koto"
  | PlaybackSound_pluckKutiyapi => lit "pluck.kutiyapi"
  | PlaybackSound_pluckLangeleik => lit "pluck.langeleik"
  | PlaybackSound_pluckLaud => lit "pluck.laud"
  | PlaybackSound_pluckLute => lit "pluck.lute"
  | PlaybackSound_pluckLyre => lit "pluck.lyre"
  | PlaybackSound_pluckMandobass => lit "pluck.mandobass"
  | PlaybackSound_pluckMandocello => lit "pluck.mandocello"
  | PlaybackSound_pluckMandola => lit "pluck.mandola"
  | PlaybackSound_pluckMandolin => lit "pluck.mandolin"
  | PlaybackSound_pluckMandolinOctave => lit "pluck.mandolin.octave"
  | PlaybackSound_pluckMandora => lit "pluck.mandora"
  | PlaybackSound_pluckMandore => lit "pluck.mandore"
  | PlaybackSound_pluckMarovany => lit "pluck.marovany"
  | PlaybackSound_pluckMusicalBow => lit "pluck.musical-bow"
  | PlaybackSound_pluckNgoni => lit "pluck.ngoni"
  | PlaybackSound_pluckOud => lit "pluck.oud"
  | PlaybackSound_pluckPipa => lit "pluck.pipa"
  | PlaybackSound_pluckPsaltery => lit "pluck.psaltery"
  | PlaybackSound_pluckRuan => lit "pluck.ruan"
  | PlaybackSound_pluckSallaneh => lit "pluck.sallaneh"
  | PlaybackSound_pluckSanshin => lit "pluck.sanshin"
  | PlaybackSound_pluckSantoor => lit "pluck.santoor"
  | PlaybackSound_pluckSanxian => lit "pluck.sanxian"
  | PlaybackSound_pluckSarod => lit "pluck.sarod"
  | PlaybackSound_pluckSaung => lit "pluck.saung"
  | PlaybackSound_pluckSaz => lit "pluck.saz"
  | PlaybackSound_pluckSe => lit "pluck.se"
  | PlaybackSound_pluckSetar => lit "pluck.setar"
  | PlaybackSound_pluckShamisen => lit "pluck.shamisen"
  | PlaybackSound_pluckSitar => lit "pluck.sitar"
  | PlaybackSound_pluckSynth => lit "pluck.synth"
  | PlaybackSound_pluckSynthCharang => lit "pluck.synth.charang"
  | PlaybackSound_pluckSynthChiff => lit "pluck.synth.chiff"
  | PlaybackSound_pluckSynthStick => lit "pluck.synth.stick"
  | PlaybackSound_pluckTambura => lit "pluck.tambura"
  | PlaybackSound_pluckTamburaBulgarian => lit "pluck.tambura.bulgarian"
  | PlaybackSound_pluckTamburaFemale => lit "pluck.tambura.female"
  | PlaybackSound_pluckTamburaMale => lit "pluck.tambura.male"
  | PlaybackSound_pluckTar => lit "pluck.tar"
  | PlaybackSound_pluckTheorbo => lit "pluck.theorbo"
  | PlaybackSound_pluckTimple => lit "pluck.timple"
  | PlaybackSound_pluckTiple => lit "pluck.tiple"
  | PlaybackSound_pluckTres => lit "pluck.tres"
  | PlaybackSound_pluckUkulele => lit "pluck.ukulele"
  | PlaybackSound_pluckUkuleleTenor => lit "pluck.ukulele.tenor"
  | PlaybackSound_pluckValiha => lit "pluck.valiha"
  | PlaybackSound_pluckVeena => lit "pluck.veena"
  | PlaybackSound_pluckVeenaMohan => lit "pluck.veena.mohan"
  | PlaybackSound_pluckVeenaRudra => lit "pluck.veena.rudra"
  | PlaybackSound_pluckVeenaVichitra => lit "pluck.veena.vichitra"
  | PlaybackSound_pluckVihuela => lit "pluck.vihuela"
  | PlaybackSound_pluckVihuelaMexican => lit "pluck.vihuela.mexican"
  | PlaybackSound_pluckXalam => lit "pluck.xalam"
  | PlaybackSound_pluckYueqin => lit "pluck.yueqin"
  | PlaybackSound_pluckZither => lit "pluck.zither"
  | PlaybackSound_pluckZitherOvertone => lit "pluck.zither.overtone"
  | PlaybackSound_rattleAfoxe => lit "rattle.afoxe"
  | PlaybackSound_rattleBirds => lit "rattle.birds"
  | PlaybackSound_rattleCabasa => lit "rattle.cabasa"
  | PlaybackSound_rattleCaxixi => lit "rattle.caxixi"
  | PlaybackSound_rattleCog => lit "rattle.cog"
  | PlaybackSound_rattleGanza => lit "rattle.ganza"
  | PlaybackSound_rattleHosho => lit "rattle.hosho"
  | PlaybackSound_rattleJawbone => lit "rattle.jawbone"
  | PlaybackSound_rattleKayamba => lit "rattle.kayamba"
  | PlaybackSound_rattleKpokoKpoko => lit "rattle.kpoko-kpoko"
  | PlaybackSound_rattleLavaStones => lit "rattle.lava-stones"
  | PlaybackSound_rattleMaraca => lit "rattle.maraca"
  | PlaybackSound_rattleRainStick => lit "rattle.rain-stick"
  | PlaybackSound_rattleRatchet => lit "rattle.ratchet"
  | PlaybackSound_rattleRattle => lit "rattle.rattle"
  | PlaybackSound_rattleShaker => lit "rattle.shaker"
  | PlaybackSound_rattleShakerEgg => lit "rattle.shaker.egg"
  | PlaybackSound_rattleShekere => lit "rattle.shekere"
  | PlaybackSound_rattleSistre => lit "rattle.sistre"
  | PlaybackSound_rattleTelevi => lit "rattle.televi"
  | PlaybackSound_rattleVibraslap => lit "rattle.vibraslap"
  | PlaybackSound_rattleWasembe => lit "rattle.wasembe"
  | PlaybackSound_stringsAjaeng => lit "strings.ajaeng"
  | PlaybackSound_stringsArpeggione => lit "strings.arpeggione"
  | PlaybackSound_stringsBaryton => lit "strings.baryton"
  | PlaybackSound_stringsCello => lit "strings.cello"
  | PlaybackSound_stringsCelloPiccolo => lit "strings.cello.piccolo"
  | PlaybackSound_stringsContrabass => lit "strings.contrabass"
  | PlaybackSound_stringsCrwth => lit "strings.crwth"
  | PlaybackSound_stringsDanGao => lit "strings.dan-gao"
  | PlaybackSound_stringsDihu => lit "strings.dihu"
  | PlaybackSound_stringsErhu => lit "strings.erhu"
  | PlaybackSound_stringsErxian => lit "strings.erxian"
  | PlaybackSound_stringsEsraj => lit "strings.esraj"
  | PlaybackSound_stringsFiddle => lit "strings.fiddle"
  | PlaybackSound_stringsFiddleHardanger => lit "strings.fiddle.hardanger"
  | PlaybackSound_stringsGadulka => lit "strings.gadulka"
  | PlaybackSound_stringsGaohu => lit "strings.gaohu"
  | PlaybackSound_stringsGehu => lit "strings.gehu"
  | PlaybackSound_stringsGroup => lit "strings.group"
  | PlaybackSound_stringsGroupSynth => lit "strings.group.synth"
  | PlaybackSound_stringsHaegeum => lit "strings.haegeum"
  | PlaybackSound_stringsHurdyGurdy => lit "strings.hurdy-gurdy"
  | PlaybackSound_stringsIgil => lit "strings.igil"
  | PlaybackSound_stringsKamancha => lit "strings.kamancha"
  | PlaybackSound_stringsKokyu => lit "strings.kokyu"
  | PlaybackSound_stringsLaruan => lit "strings.laruan"
  | PlaybackSound_stringsLeiqin => lit "strings.leiqin"
  | PlaybackSound_stringsLirone => lit "strings.lirone"
  | PlaybackSound_stringsLyraByzantine => lit "strings.lyra.byzantine"
  | PlaybackSound_stringsLyraCretan => lit "strings.lyra.cretan"
  | PlaybackSound_stringsMorinKhuur => lit "strings.morin-khuur"
  | PlaybackSound_stringsNyckelharpa => lit "strings.nyckelharpa"
  | PlaybackSound_stringsOctobass => lit "strings.octobass"
  | PlaybackSound_stringsRebab => lit "strings.rebab"
  | PlaybackSound_stringsRebec => lit "strings.rebec"
  | PlaybackSound_stringsSarangi => lit "strings.sarangi"
  | PlaybackSound_stringsStrohViolin => lit "strings.stroh-violin"
  | PlaybackSound_stringsTrombaMarina => lit "strings.tromba-marina"
  | PlaybackSound_stringsVielle => lit "strings.vielle"
  | PlaybackSound_stringsViol => lit "strings.viol"
  | PlaybackSound_stringsViolAlto => lit "strings.viol.alto"
  | PlaybackSound_stringsViolBass => lit "strings.viol.bass"
  | PlaybackSound_stringsViolTenor => lit "strings.viol.tenor"
  | PlaybackSound_stringsViolTreble => lit "strings.viol.treble"
  | PlaybackSound_stringsViolViolone => lit "strings.viol.violone"
  | PlaybackSound_stringsViola => lit "strings.viola"
  | PlaybackSound_stringsViolaDamore => lit "strings.viola-damore"
  | PlaybackSound_stringsViolin => lit "strings.violin"
  | PlaybackSound_stringsViolonoPiccolo => lit "strings.violono.piccolo"
  | PlaybackSound_stringsViolotta => lit "strings.violotta"
  | PlaybackSound_stringsYayliTanbur => lit "strings.yayli-tanbur"
  | PlaybackSound_stringsYazheng => lit "strings.yazheng"
  | PlaybackSound_stringsZhonghu => lit "strings.zhonghu"
  | PlaybackSound_synthEffects => lit "synth.effects"
  | PlaybackSound_synthEffectsAtmosphere => lit "synth.effects.atmosphere"
  | PlaybackSound_synthEffectsBrightness => lit "synth.effects.brightness"
  | PlaybackSound_synthEffectsCrystal => lit "synth.effects.crystal"
  | PlaybackSound_synthEffectsEchoes => lit "synth.effects.echoes"
  | PlaybackSound_synthEffectsGoblins => lit "synth.effects.goblins"
  | PlaybackSound_synthEffectsRain => lit "synth.effects.rain"
  | PlaybackSound_synthEffectsSciFi => lit "synth.effects.sci-fi"
  | PlaybackSound_synthEffectsSoundtrack => lit "synth.effects.soundtrack"
  | PlaybackSound_synthGroup => lit "synth.group"
  | PlaybackSound_synthGroupFifths => lit "synth.group.fifths"
  | PlaybackSound_synthGroupOrchestra => lit "synth.group.orchestra"
  | PlaybackSound_synthPad => lit "synth.pad"
  | PlaybackSound_synthPadBowed => lit "synth.pad.bowed"
  | PlaybackSound_synthPadChoir => lit "synth.pad.choir"
  | PlaybackSound_synthPadHalo => lit "synth.pad.halo"
  | PlaybackSound_synthPadMetallic => lit "synth.pad.metallic"
  | PlaybackSound_synthPadPolysynth => lit "synth.pad.polysynth"
  | PlaybackSound_synthPadSweep => lit "synth.pad.sweep"
  | PlaybackSound_synthPadWarm => lit "synth.pad.warm"
  | PlaybackSound_synthTheremin => lit "synth.theremin"
  | PlaybackSound_synthToneSawtooth => lit "synth.tone.sawtooth"
  | PlaybackSound_synthToneSine => lit "synth.tone.sine"
  | PlaybackSound_synthToneSquare => lit "synth.tone.square"
  | PlaybackSound_voiceAa => lit "voice.aa"
  | PlaybackSound_voiceAlto => lit "voice.alto"
  | PlaybackSound_voiceAw => lit "voice.aw"
  | PlaybackSound_voiceBaritone => lit "voice.baritone"
  | PlaybackSound_voiceBass => lit "voice.bass"
  | PlaybackSound_voiceChild => lit "voice.child"
  | PlaybackSound_voiceCountertenor => lit "voice.countertenor"
  | PlaybackSound_voiceDoo => lit "voice.doo"
  | PlaybackSound_voiceEe => lit "voice.ee"
  | PlaybackSound_voiceFemale => lit "voice.female"
  | PlaybackSound_voiceKazoo => lit "voice.kazoo"
  | PlaybackSound_voiceMale => lit "voice.male"
  | PlaybackSound_voiceMezzoSoprano => lit "voice.mezzo-soprano"
  | PlaybackSound_voiceMm => lit "voice.mm"
  | PlaybackSound_voiceOo => lit "voice.oo"
  | PlaybackSound_voicePercussion => lit "voice.percussion"
  | PlaybackSound_voicePercussionBeatbox => lit "voice.percussion.beatbox"
  | PlaybackSound_voiceSoprano => lit "voice.soprano"
  | PlaybackSound_voiceSynth => lit "voice.synth"
  | PlaybackSound_voiceTalkBox => lit "voice.talk-box"
  | PlaybackSound_voiceTenor => lit "voice.tenor"
  | PlaybackSound_voiceVocals => lit "voice.vocals"
  | PlaybackSound_windFlutesBansuri => lit "wind.flutes.bansuri"
  | PlaybackSound_windFlutesBlownBottle => lit "wind.flutes.blown-bottle"
  | PlaybackSound_windFlutesCalliope => lit "wind.flutes.calliope"
  | PlaybackSound_windFlutesDanso => lit "wind.flutes.danso"
  | PlaybackSound_windFlutesDiZi => lit "wind.flutes.di-zi"
  | PlaybackSound_windFlutesDvojnice => lit "wind.flutes.dvojnice"
  | PlaybackSound_windFlutesFife => lit "wind.flutes.fife"
  | PlaybackSound_windFlutesFlageolet => lit "wind.flutes.flageolet"
  | PlaybackSound_windFlutesFlute => lit "wind.flutes.flute"
  | PlaybackSound_windFlutesFluteAlto => lit "wind.flutes.flute.alto"
  | PlaybackSound_windFlutesFluteBass => lit "wind.flutes.flute.bass"
  | PlaybackSound_windFlutesFluteContraAlto => lit "wind.flutes.flute.contra-alto"
  | PlaybackSound_windFlutesFluteContrabass => lit "wind.flutes.flute.contrabass"
  | PlaybackSound_windFlutesFluteDoubleContrabass => lit "wind.flutes.flute.double-contrabass"
  | PlaybackSound_windFlutesFluteIrish => lit "wind.flutes.flute.irish"
  | PlaybackSound_windFlutesFlutePiccolo => lit "wind.flutes.flute.piccolo"
  | PlaybackSound_windFlutesFluteSubcontrabass => lit "wind.flutes.flute.subcontrabass"
  | PlaybackSound_windFlutesFujara => lit "wind.flutes.fujara"
  | PlaybackSound_windFlutesGemshorn => lit "wind.flutes.gemshorn"
  | PlaybackSound_windFlutesHocchiku => lit "wind.flutes.hocchiku"
  | PlaybackSound_windFlutesHun => lit "wind.flutes.hun"
  | PlaybackSound_windFlutesKaval => lit "wind.flutes.kaval"
  | PlaybackSound_windFlutesKawala => lit "wind.flutes.kawala"
  | PlaybackSound_windFlutesKhlui => lit "wind.flutes.khlui"
  | PlaybackSound_windFlutesKnotweed => lit "wind.flutes.knotweed"
  | PlaybackSound_windFlutesKoncovkaAlto => lit "wind.flutes.koncovka.alto"
  | PlaybackSound_windFlutesKoudi => lit "wind.flutes.koudi"
  | PlaybackSound_windFlutesNey => lit "wind.flutes.ney"
  | PlaybackSound_windFlutesNohkan => lit "wind.flutes.nohkan"
  | PlaybackSound_windFlutesNose => lit "wind.flutes.nose"
  | PlaybackSound_windFlutesOcarina => lit "wind.flutes.ocarina"
  | PlaybackSound_windFlutesOvertoneTenor => lit "wind.flutes.overtone.tenor"
  | PlaybackSound_windFlutesPalendag => lit "wind.flutes.palendag"
  | PlaybackSound_windFlutesPanpipes => lit "wind.flutes.panpipes"
  | PlaybackSound_windFlutesQuena => lit "wind.flutes.quena"
  | PlaybackSound_windFlutesRecorder => lit "wind.flutes.recorder"
  | PlaybackSound_windFlutesRecorderAlto => lit "wind.flutes.recorder.alto"
  | PlaybackSound_windFlutesRecorderBass => lit "wind.flutes.recorder.bass"
  | PlaybackSound_windFlutesRecorderContrabass => lit "wind.flutes.recorder.contrabass"
  | PlaybackSound_windFlutesRecorderDescant => lit "wind.flutes.recorder.descant"
  | PlaybackSound_windFlutesRecorderGarklein => lit "wind.flutes.recorder.garklein"
  | PlaybackSound_windFlutesRecorderGreatBass => lit "wind.flutes.recorder.great-bass"
  | PlaybackSound_windFlutesRecorderSopranino => lit "wind.flutes.recorder.sopranino"
  | PlaybackSound_windFlutesRecorderSoprano => lit "wind.flutes.recorder.soprano"
  | PlaybackSound_windFlutesRecorderTenor => lit "wind.flutes.recorder.tenor"
  | PlaybackSound_windFlutesRyuteki => lit "wind.flutes.ryuteki"
  | PlaybackSound_windFlutesShakuhachi => lit "wind.flutes.shakuhachi"
  | PlaybackSound_windFlutesShepherdsPipe => lit "wind.flutes.shepherds-pipe"
  | PlaybackSound_windFlutesShinobue => lit "wind.flutes.shinobue"
  | PlaybackSound_windFlutesShvi => lit "wind.flutes.shvi"
  | PlaybackSound_windFlutesSuling => lit "wind.flutes.suling"
  | PlaybackSound_windFlutesTarka => lit "wind.flutes.tarka"
  | PlaybackSound_windFlutesTumpong => lit "wind.flutes.tumpong"
  | PlaybackSound_windFlutesVenu => lit "wind.flutes.venu"
  | PlaybackSound_windFlutesWhistle => lit "wind.flutes.whistle"
  | PlaybackSound_windFlutesWhistleAlto => lit "wind.flutes.whistle.alto"
  | PlaybackSound_windFlutesWhistleLowIrish => lit "wind.flutes.whistle.low-irish"
  | PlaybackSound_windFlutesWhistleShiva => lit "wind.flutes.whistle.shiva"
  | PlaybackSound_windFlutesWhistleSlide => lit "wind.flutes.whistle.slide"
  | PlaybackSound_windFlutesWhistleTin => lit "wind.flutes.whistle.tin"
  | PlaybackSound_windFlutesWhistleTinBflat => lit "wind.flutes.whistle.tin.bflat"
  | PlaybackSound_windFlutesWhistleTinD => lit "wind.flutes.whistle.tin.d"
  | PlaybackSound_windFlutesXiao => lit "wind.flutes.xiao"
  | PlaybackSound_windFlutesXun => lit "wind.flutes.xun"
  | PlaybackSound_windGroup => lit "wind.group"
  | PlaybackSound_windJug => lit "wind.jug"
  | PlaybackSound_windPipesBagpipes => lit "wind.pipes.bagpipes"
  | PlaybackSound_windPipesGaida => lit "wind.pipes.gaida"
  | PlaybackSound_windPipesHighland => lit "wind.pipes.highland"
  | PlaybackSound_windPipesUilleann => lit "wind.pipes.uilleann"
  | PlaybackSound_windPungi => lit "wind.pungi"
  | PlaybackSound_windReedAlbogue => lit "wind.reed.albogue"
  | PlaybackSound_windReedAlboka => lit "wind.reed.alboka"
  | PlaybackSound_windReedAlgaita => lit "wind.reed.algaita"
  | PlaybackSound_windReedArghul => lit "wind.reed.arghul"
  | PlaybackSound_windReedBassetHorn => lit "wind.reed.basset-horn"
  | PlaybackSound_windReedBassoon => lit "wind.reed.bassoon"
  | PlaybackSound_windReedBawu => lit "wind.reed.bawu"
  | PlaybackSound_windReedBifora => lit "wind.reed.bifora"
  | PlaybackSound_windReedBombarde => lit "wind.reed.bombarde"
  | PlaybackSound_windReedChalumeau => lit "wind.reed.chalumeau"
  | PlaybackSound_windReedClarinet => lit "wind.reed.clarinet"
  | PlaybackSound_windReedClarinetA => lit "wind.reed.clarinet.a"
  | PlaybackSound_windReedClarinetAlto => lit "wind.reed.clarinet.alto"
  | PlaybackSound_windReedClarinetBass => lit "wind.reed.clarinet.bass"
  | PlaybackSound_windReedClarinetBasset => lit "wind.reed.clarinet.basset"
  | PlaybackSound_windReedClarinetBflat => lit "wind.reed.clarinet.bflat"
  | PlaybackSound_windReedClarinetContraAlto => lit "wind.reed.clarinet.contra-alto"
  | PlaybackSound_windReedClarinetContrabass => lit "wind.reed.clarinet.contrabass"
  | PlaybackSound_windReedClarinetEflat => lit "wind.reed.clarinet.eflat"
  | PlaybackSound_windReedClarinetPiccoloAflat => lit "wind.reed.clarinet.piccolo.aflat"
  | PlaybackSound_windReedClarinetteDamour => lit "wind.reed.clarinette-damour"
  | PlaybackSound_windReedContrabass => lit "wind.reed.contrabass"
  | PlaybackSound_windReedContrabassoon => lit "wind.reed.contrabassoon"
  | PlaybackSound_windReedCornamuse => lit "wind.reed.cornamuse"
  | PlaybackSound_windReedCromorne => lit "wind.reed.cromorne"
  | PlaybackSound_windReedCrumhorn => lit "wind.reed.crumhorn"
  | PlaybackSound_windReedCrumhornAlto => lit "wind.reed.crumhorn.alto"
  | PlaybackSound_windReedCrumhornBass => lit "wind.reed.crumhorn.bass"
  | PlaybackSound_windReedCrumhornGreatBass => lit "wind.reed.crumhorn.great-bass"
  | PlaybackSound_windReedCrumhornSoprano => lit "wind.reed.crumhorn.soprano"
  | PlaybackSound_windReedCrumhornTenor => lit "wind.reed.crumhorn.tenor"
  | PlaybackSound_windReedDiple => lit "wind.reed.diple"
  | PlaybackSound_windReedDiplica => lit "wind.reed.diplica"
  | PlaybackSound_windReedDuduk => lit "wind.reed.duduk"
  | PlaybackSound_windReedDulcian => lit "wind.reed.dulcian"
  | PlaybackSound_windReedDulzaina => lit "wind.reed.dulzaina"
  | PlaybackSound_windReedEnglishHorn => lit "wind.reed.english-horn"
  | PlaybackSound_windReedGuanzi => lit "wind.reed.guanzi"
  | PlaybackSound_windReedHarmonica => lit "wind.reed.harmonica"
  | PlaybackSound_windReedHarmonicaBass => lit "wind.reed.harmonica.bass"
  | PlaybackSound_windReedHeckelClarina => lit "wind.reed.heckel-clarina"
  | PlaybackSound_windReedHeckelphone => lit "wind.reed.heckelphone"
  | PlaybackSound_windReedHeckelphonePiccolo => lit "wind.reed.heckelphone.piccolo"
  | PlaybackSound_windReedHeckelphoneClarinet => lit "wind.reed.heckelphone-clarinet"
  | PlaybackSound_windReedHichiriki => lit "wind.reed.hichiriki"
  | PlaybackSound_windReedHirtenschalmei => lit "wind.reed.hirtenschalmei"
  | PlaybackSound_windReedHne => lit "wind.reed.hne"
  | PlaybackSound_windReedHornpipe => lit "wind.reed.hornpipe"
  | PlaybackSound_windReedHouguan => lit "wind.reed.houguan"
  | PlaybackSound_windReedHulusi => lit "wind.reed.hulusi"
  | PlaybackSound_windReedJogiBaja => lit "wind.reed.jogi-baja"
  | PlaybackSound_windReedKenBau => lit "wind.reed.ken-bau"
  | PlaybackSound_windReedKhaenMouthOrgan => lit "wind.reed.khaen-mouth-organ"
  | PlaybackSound_windReedLauneddas => lit "wind.reed.launeddas"
  | PlaybackSound_windReedMaqrunah => lit "wind.reed.maqrunah"
  | PlaybackSound_windReedMelodica => lit "wind.reed.melodica"
  | PlaybackSound_windReedMijwiz => lit "wind.reed.mijwiz"
  | PlaybackSound_windReedMizmar => lit "wind.reed.mizmar"
  | PlaybackSound_windReedNadaswaram => lit "wind.reed.nadaswaram"
  | PlaybackSound_windReedOboe => lit "wind.reed.oboe"
  | PlaybackSound_windReedOboeBass => lit "wind.reed.oboe.bass"
  | PlaybackSound_windReedOboePiccolo => lit "wind.reed.oboe.piccolo"
  | PlaybackSound_windReedOboeDaCaccia => lit "wind.reed.oboe-da-caccia"
  | PlaybackSound_windReedOboeDamore => lit "wind.reed.oboe-damore"
  | PlaybackSound_windReedOctavin => lit "wind.reed.octavin"
  | PlaybackSound_windReedPi => lit "wind.reed.pi"
  | PlaybackSound_windReedPibgorn => lit "wind.reed.pibgorn"
  | PlaybackSound_windReedPiri => lit "wind.reed.piri"
  | PlaybackSound_windReedRackett => lit "wind.reed.rackett"
  | PlaybackSound_windReedRauschpfeife => lit "wind.reed.rauschpfeife"
  | PlaybackSound_windReedRhaita => lit "wind.reed.rhaita"
  | PlaybackSound_windReedRothphone => lit "wind.reed.rothphone"
  | PlaybackSound_windReedSarrusaphone => lit "wind.reed.sarrusaphone"
  | PlaybackSound_windReedSaxonette => lit "wind.reed.saxonette"
  | PlaybackSound_windReedSaxophone => lit "wind.reed.saxophone"
  | PlaybackSound_windReedSaxophoneAlto => lit "wind.reed.saxophone.alto"
  | PlaybackSound_windReedSaxophoneAulochrome => lit "wind.reed.saxophone.aulochrome"
  | PlaybackSound_windReedSaxophoneBaritone => lit "wind.reed.saxophone.baritone"
  | PlaybackSound_windReedSaxophoneBass => lit "wind.reed.saxophone.bass"
  | PlaybackSound_windReedSaxophoneContrabass => lit "wind.reed.saxophone.contrabass"
  | PlaybackSound_windReedSaxophoneMelody => lit "wind.reed.saxophone.melody"
  | PlaybackSound_windReedSaxophoneMezzoSoprano => lit "wind.reed.saxophone.mezzo-soprano"
  | PlaybackSound_windReedSaxophoneSopranino => lit "wind.reed.saxophone.sopranino"
  | PlaybackSound_windReedSaxophoneSopranissimo => lit "wind.reed.saxophone.sopranissimo"
  | PlaybackSound_windReedSaxophoneSoprano => lit "wind.reed.saxophone.soprano"
  | PlaybackSound_windReedSaxophoneSubcontrabass => lit "wind.reed.saxophone.subcontrabass"
  | PlaybackSound_windReedSaxophoneTenor => lit "wind.reed.saxophone.tenor"
  | PlaybackSound_windReedShawm => lit "wind.reed.shawm"
  | PlaybackSound_windReedShenai => lit "wind.reed.shenai"
  | PlaybackSound_windReedSheng => lit "wind.reed.sheng"
  | PlaybackSound_windReedSipsi => lit "wind.reed.sipsi"
  | PlaybackSound_windReedSopila => lit "wind.reed.sopila"
  | PlaybackSound_windReedSorna => lit "wind.reed.sorna"
  | PlaybackSound_windReedSralai => lit "wind.reed.sralai"
  | PlaybackSound_windReedSuona => lit "wind.reed.suona"
  | PlaybackSound_windReedSurnai => lit "wind.reed.surnai"
  | PlaybackSound_windReedTaepyeongso => lit "wind.reed.taepyeongso"
  | PlaybackSound_windReedTarogato => lit "wind.reed.tarogato"
  | PlaybackSound_windReedTarogatoAncient => lit "wind.reed.tarogato.ancient"
  | PlaybackSound_windReedTrompetaChina => lit "wind.reed.trompeta-china"
  | PlaybackSound_windReedTubax => lit "wind.reed.tubax"
  | PlaybackSound_windReedXaphoon => lit "wind.reed.xaphoon"
  | PlaybackSound_windReedZhaleika => lit "wind.reed.zhaleika"
  | PlaybackSound_windReedZurla => lit "wind.reed.zurla"
  | PlaybackSound_windReedZurna => lit "wind.reed.zurna"
  | PlaybackSound_woodAgogoBlock => lit "wood.agogo-block"
  | PlaybackSound_woodAgungATamlang => lit "wood.agung-a-tamlang"
  | PlaybackSound_woodAhoko => lit "wood.ahoko"
  | PlaybackSound_woodBones => lit "wood.bones"
  | PlaybackSound_woodCastanets => lit "wood.castanets"
  | PlaybackSound_woodClaves => lit "wood.claves"
  | PlaybackSound_woodDrumSticks => lit "wood.drum-sticks"
  | PlaybackSound_woodGourd => lit "wood.gourd"
  | PlaybackSound_woodGraniteBlock => lit "wood.granite-block"
  | PlaybackSound_woodGuban => lit "wood.guban"
  | PlaybackSound_woodGuiro => lit "wood.guiro"
  | PlaybackSound_woodHyoushigi => lit "wood.hyoushigi"
  | PlaybackSound_woodIpu => lit "wood.ipu"
  | PlaybackSound_woodJamBlock => lit "wood.jam-block"
  | PlaybackSound_woodKaekeeke => lit "wood.kaekeeke"
  | PlaybackSound_woodKagul => lit "wood.kagul"
  | PlaybackSound_woodKalaau => lit "wood.kalaau"
  | PlaybackSound_woodKashiklar => lit "wood.kashiklar"
  | PlaybackSound_woodKubing => lit "wood.kubing"
  | PlaybackSound_woodPanClappers => lit "wood.pan-clappers"
  | PlaybackSound_woodSandBlock => lit "wood.sand-block"
  | PlaybackSound_woodSlapstick => lit "wood.slapstick"
  | PlaybackSound_woodStirDrum => lit "wood.stir-drum"
  | PlaybackSound_woodTempleBlock => lit "wood.temple-block"
  | PlaybackSound_woodTicTocBlock => lit "wood.tic-toc-block"
  | PlaybackSound_woodTonetang => lit "wood.tonetang"
  | PlaybackSound_woodWoodBlock => lit "wood.wood-block"
  end.

(* EnumWithString.h:49-59: PlaybackSoundFromString, the chain of comparisons *)
Definition PlaybackSound_chain : list (str * PlaybackSound) :=
  [ (lit "brass.alphorn", PlaybackSound_brassAlphorn); (lit "brass.alto-horn", PlaybackSound_brassAltoHorn);
    (lit "brass.baritone-horn", PlaybackSound_brassBaritoneHorn); (lit "brass.bugle", PlaybackSound_brassBugle);
    (lit "brass.bugle.alto", PlaybackSound_brassBugleAlto); (lit "brass.bugle.baritone", PlaybackSound_brassBugleBaritone);
    (lit "brass.bugle.contrabass", PlaybackSound_brassBugleContrabass); (lit "brass.bugle.euphonium-bugle", PlaybackSound_brassBugleEuphoniumBugle);
    (lit "brass.bugle.mellophone-bugle", PlaybackSound_brassBugleMellophoneBugle); (lit "brass.bugle.soprano", PlaybackSound_brassBugleSoprano);
    (lit "brass.cimbasso", PlaybackSound_brassCimbasso); (lit "brass.conch-shell", PlaybackSound_brassConchShell);
    (lit "brass.cornet", PlaybackSound_brassCornet); (lit "brass.cornet.soprano", PlaybackSound_brassCornetSoprano);
    (lit "brass.cornett", PlaybackSound_brassCornett); (lit "brass.cornett.tenor", PlaybackSound_brassCornettTenor);
    (lit "brass.cornettino", PlaybackSound_brassCornettino); (lit "brass.didgeridoo", PlaybackSound_brassDidgeridoo);
    (lit "brass.euphonium", PlaybackSound_brassEuphonium); (lit "brass.fiscorn", PlaybackSound_brassFiscorn);
    (lit "brass.flugelhorn", PlaybackSound_brassFlugelhorn); (lit "brass.french-horn", PlaybackSound_brassFrenchHorn);
    (lit "brass.group", PlaybackSound_brassGroup); (lit "brass.group.synth", PlaybackSound_brassGroupSynth);
    (lit "brass.helicon", PlaybackSound_brassHelicon); (lit "brass.horagai", PlaybackSound_brassHoragai);
    (lit "brass.kuhlohorn", PlaybackSound_brassKuhlohorn); (lit "brass.mellophone", PlaybackSound_brassMellophone);
    (lit "brass.natural-horn", PlaybackSound_brassNaturalHorn); (lit "brass.ophicleide", PlaybackSound_brassOphicleide);
    (lit "brass.posthorn", PlaybackSound_brassPosthorn); (lit "brass.rag-dung", PlaybackSound_brassRagDung);
    (lit "brass.sackbutt", PlaybackSound_brassSackbutt); (lit "brass.sackbutt.alto", PlaybackSound_brassSackbuttAlto);
    (lit "brass.sackbutt.bass", PlaybackSound_brassSackbuttBass); (lit "brass.sackbutt.tenor", PlaybackSound_brassSackbuttTenor);
    (lit "brass.saxhorn", PlaybackSound_brassSaxhorn); (lit "brass.serpent", PlaybackSound_brassSerpent);
    (lit "brass.shofar", PlaybackSound_brassShofar); (lit "brass.sousaphone", PlaybackSound_brassSousaphone);
    (lit "brass.trombone", PlaybackSound_brassTrombone); (lit "brass.trombone.alto", PlaybackSound_brassTromboneAlto);
    (lit "brass.trombone.bass", PlaybackSound_brassTromboneBass); (lit "brass.trombone.contrabass", PlaybackSound_brassTromboneContrabass);
    (lit "brass.trombone.tenor", PlaybackSound_brassTromboneTenor); (lit "brass.trumpet", PlaybackSound_brassTrumpet);
    (lit "brass.trumpet.baroque", PlaybackSound_brassTrumpetBaroque); (lit "brass.trumpet.bass", PlaybackSound_brassTrumpetBass);
    (lit "brass.trumpet.bflat", PlaybackSound_brassTrumpetBflat); (lit "brass.trumpet.c", PlaybackSound_brassTrumpetC);
    (lit "brass.trumpet.d", PlaybackSound_brassTrumpetD); (lit "brass.trumpet.piccolo", PlaybackSound_brassTrumpetPiccolo);
    (lit "brass.trumpet.pocket", PlaybackSound_brassTrumpetPocket); (lit "brass.trumpet.slide", PlaybackSound_brassTrumpetSlide);
    (lit "brass.trumpet.tenor", PlaybackSound_brassTrumpetTenor); (lit "brass.tuba", PlaybackSound_brassTuba);
    (lit "brass.tuba.bass", PlaybackSound_brassTubaBass); (lit "brass.tuba.subcontrabass", PlaybackSound_brassTubaSubcontrabass);
    (lit "brass.vienna-horn", PlaybackSound_brassViennaHorn); (lit "brass.vuvuzela", PlaybackSound_brassVuvuzela);
    (lit "brass.wagner-tuba", PlaybackSound_brassWagnerTuba); (lit "drum.apentemma", PlaybackSound_drumApentemma);
    (lit "drum.ashiko", PlaybackSound_drumAshiko); (lit "drum.atabaque", PlaybackSound_drumAtabaque);
    (lit "drum.atoke", PlaybackSound_drumAtoke); (lit "drum.atsimevu", PlaybackSound_drumAtsimevu);
    (lit "drum.axatse", PlaybackSound_drumAxatse); (lit "drum.bass-drum", PlaybackSound_drumBassDrum);
    (lit "drum.bata", PlaybackSound_drumBata); (lit "drum.bata.itotele", PlaybackSound_drumBataItotele);
    (lit "drum.bata.iya", PlaybackSound_drumBataIya); (lit "drum.bata.okonkolo", PlaybackSound_drumBataOkonkolo);
    (lit "drum.bendir", PlaybackSound_drumBendir); (lit "drum.bodhran", PlaybackSound_drumBodhran);
    (lit "drum.bombo", PlaybackSound_drumBombo); (lit "drum.bongo", PlaybackSound_drumBongo);
    (lit "drum.bougarabou", PlaybackSound_drumBougarabou); (lit "drum.buffalo-drum", PlaybackSound_drumBuffaloDrum);
    (lit "drum.cajon", PlaybackSound_drumCajon); (lit "drum.chenda", PlaybackSound_drumChenda);
    (lit "drum.chu-daiko", PlaybackSound_drumChuDaiko); (lit "drum.conga", PlaybackSound_drumConga);
    (lit "drum.cuica", PlaybackSound_drumCuica); (lit "drum.dabakan", PlaybackSound_drumDabakan);
    (lit "drum.daff", PlaybackSound_drumDaff); (lit "drum.dafli", PlaybackSound_drumDafli);
    (lit "drum.daibyosi", PlaybackSound_drumDaibyosi); (lit "drum.damroo", PlaybackSound_drumDamroo);
    (lit "drum.darabuka", PlaybackSound_drumDarabuka); (lit "drum.def", PlaybackSound_drumDef);
    (lit "drum.dhol", PlaybackSound_drumDhol); (lit "drum.dholak", PlaybackSound_drumDholak);
    (lit "drum.djembe", PlaybackSound_drumDjembe); (lit "drum.doira", PlaybackSound_drumDoira);
    (lit "drum.dondo", PlaybackSound_drumDondo); (lit "drum.doun-doun-ba", PlaybackSound_drumDounDounBa);
    (lit "drum.duff", PlaybackSound_drumDuff); (lit "drum.dumbek", PlaybackSound_drumDumbek);
    (lit "drum.fontomfrom", PlaybackSound_drumFontomfrom); (lit "drum.frame-drum", PlaybackSound_drumFrameDrum);
    (lit "drum.frame-drum.arabian", PlaybackSound_drumFrameDrumArabian); (lit "drum.geduk", PlaybackSound_drumGeduk);
    (lit "drum.ghatam", PlaybackSound_drumGhatam); (lit "drum.gome", PlaybackSound_drumGome);
    (lit "drum.group", PlaybackSound_drumGroup); (lit "drum.group.chinese", PlaybackSound_drumGroupChinese);
    (lit "drum.group.ewe", PlaybackSound_drumGroupEwe); (lit "drum.group.indian", PlaybackSound_drumGroupIndian);
    (lit "drum.group.set", PlaybackSound_drumGroupSet); (lit "drum.hand-drum", PlaybackSound_drumHandDrum);
    (lit "drum.hira-daiko", PlaybackSound_drumHiraDaiko); (lit "drum.ibo", PlaybackSound_drumIbo);
    (lit "drum.igihumurizo", PlaybackSound_drumIgihumurizo); (lit "drum.inyahura", PlaybackSound_drumInyahura);
    (lit "drum.ishakwe", PlaybackSound_drumIshakwe); (lit "drum.jang-gu", PlaybackSound_drumJangGu);
    (lit "drum.kagan", PlaybackSound_drumKagan); (lit "drum.kakko", PlaybackSound_drumKakko);
    (lit "drum.kanjira", PlaybackSound_drumKanjira); (lit "drum.kendhang", PlaybackSound_drumKendhang);
    (lit "drum.kendhang.ageng", PlaybackSound_drumKendhangAgeng); (lit "drum.kendhang.ciblon", PlaybackSound_drumKendhangCiblon);
    (lit "drum.kenkeni", PlaybackSound_drumKenkeni); (lit "drum.khol", PlaybackSound_drumKhol);
    (lit "drum.kick-drum", PlaybackSound_drumKickDrum); (lit "drum.kidi", PlaybackSound_drumKidi);
    (lit "drum.ko-daiko", PlaybackSound_drumKoDaiko); (lit "drum.kpanlogo", PlaybackSound_drumKpanlogo);
    (lit "drum.kudum", PlaybackSound_drumKudum); (lit "drum.lambeg", PlaybackSound_drumLambeg);
    (lit "drum.lion-drum", PlaybackSound_drumLionDrum); (lit "drum.log-drum", PlaybackSound_drumLogDrum);
    (lit "drum.log-drum.african", PlaybackSound_drumLogDrumAfrican); (lit "drum.log-drum.native", PlaybackSound_drumLogDrumNative);
    (lit "drum.log-drum.nigerian", PlaybackSound_drumLogDrumNigerian); (lit "drum.madal", PlaybackSound_drumMadal);
    (lit "drum.maddale", PlaybackSound_drumMaddale); (lit "drum.mridangam", PlaybackSound_drumMridangam);
    (lit "drum.naal", PlaybackSound_drumNaal); (lit "drum.nagado-daiko", PlaybackSound_drumNagadoDaiko);
    (lit "drum.nagara", PlaybackSound_drumNagara); (lit "drum.naqara", PlaybackSound_drumNaqara);
    (lit "drum.o-daiko", PlaybackSound_drumODaiko); (lit "drum.okawa", PlaybackSound_drumOkawa);
    (lit "drum.okedo-daiko", PlaybackSound_drumOkedoDaiko); (lit "drum.pahu-hula", PlaybackSound_drumPahuHula);
    (lit "drum.pakhawaj", PlaybackSound_drumPakhawaj); (lit "drum.pandeiro", PlaybackSound_drumPandeiro);
    (lit "drum.pandero", PlaybackSound_drumPandero); (lit "drum.powwow", PlaybackSound_drumPowwow);
    (lit "drum.pueblo", PlaybackSound_drumPueblo); (lit "drum.repinique", PlaybackSound_drumRepinique);
    (lit "drum.riq", PlaybackSound_drumRiq); (lit "drum.rototom", PlaybackSound_drumRototom);
    (lit "drum.sabar", PlaybackSound_drumSabar); (lit "drum.sakara", PlaybackSound_drumSakara);
    (lit "drum.sampho", PlaybackSound_drumSampho); (lit "drum.sangban", PlaybackSound_drumSangban);
    (lit "drum.shime-daiko", PlaybackSound_drumShimeDaiko); (lit "drum.slit-drum", PlaybackSound_drumSlitDrum);
    (lit "drum.slit-drum.krin", PlaybackSound_drumSlitDrumKrin); (lit "drum.snare-drum", PlaybackSound_drumSnareDrum);
    (lit "drum.snare-drum.electric", PlaybackSound_drumSnareDrumElectric); (lit "drum.sogo", PlaybackSound_drumSogo);
    (lit "drum.surdo", PlaybackSound_drumSurdo); (lit "drum.tabla", PlaybackSound_drumTabla);
    (lit "drum.tabla.bayan", PlaybackSound_drumTablaBayan); (lit "drum.tabla.dayan", PlaybackSound_drumTablaDayan);
    (lit "drum.taiko", PlaybackSound_drumTaiko); (lit "drum.talking", PlaybackSound_drumTalking);
    (lit "drum.tama", PlaybackSound_drumTama); (lit "drum.tamborita", PlaybackSound_drumTamborita);
    (lit "drum.tambourine", PlaybackSound_drumTambourine); (lit "drum.tamte", PlaybackSound_drumTamte);
    (lit "drum.tangku", PlaybackSound_drumTangku); (lit "drum.tan-tan", PlaybackSound_drumTanTan);
    (lit "drum.taphon", PlaybackSound_drumTaphon); (lit "drum.tar", PlaybackSound_drumTar);
    (lit "drum.tasha", PlaybackSound_drumTasha); (lit "drum.tenor-drum", PlaybackSound_drumTenorDrum);
    (lit "drum.teponaxtli", PlaybackSound_drumTeponaxtli); (lit "drum.thavil", PlaybackSound_drumThavil);
    (lit "drum.the-box", PlaybackSound_drumTheBox); (lit "drum.timbale", PlaybackSound_drumTimbale);
    (lit "drum.timpani", PlaybackSound_drumTimpani); (lit "drum.tinaja", PlaybackSound_drumTinaja);
    (lit "drum.toere", PlaybackSound_drumToere); (lit "drum.tombak", PlaybackSound_drumTombak);
    (lit "drum.tom-tom", PlaybackSound_drumTomTom); (lit "drum.tom-tom.synth", PlaybackSound_drumTomTomSynth);
    (lit "drum.tsuzumi", PlaybackSound_drumTsuzumi); (lit "drum.tumbak", PlaybackSound_drumTumbak);
    (lit "drum.uchiwa-daiko", PlaybackSound_drumUchiwaDaiko); (lit "drum.udaku", PlaybackSound_drumUdaku);
    (lit "drum.udu", PlaybackSound_drumUdu); (lit "drum.zarb", PlaybackSound_drumZarb);
    (lit "effect.aeolian-harp", PlaybackSound_effectAeolianHarp); (lit "effect.air-horn", PlaybackSound_effectAirHorn);
    (lit "effect.applause", PlaybackSound_effectApplause); (lit "effect.bass-string-slap", PlaybackSound_effectBassStringSlap);
    (lit "effect.bird", PlaybackSound_effectBird); (lit "effect.bird.nightingale", PlaybackSound_effectBirdNightingale);
    (lit "effect.bird.tweet", PlaybackSound_effectBirdTweet); (lit "effect.breath", PlaybackSound_effectBreath);
    (lit "effect.bubble", PlaybackSound_effectBubble); (lit "effect.bullroarer", PlaybackSound_effectBullroarer);
    (lit "effect.burst", PlaybackSound_effectBurst); (lit "effect.car", PlaybackSound_effectCar);
    (lit "effect.car.crash", PlaybackSound_effectCarCrash); (lit "effect.car.engine", PlaybackSound_effectCarEngine);
    (lit "effect.car.pass", PlaybackSound_effectCarPass); (lit "effect.car.stop", PlaybackSound_effectCarStop);
    (lit "effect.crickets", PlaybackSound_effectCrickets); (lit "effect.dog", PlaybackSound_effectDog);
    (lit "effect.door.creak", PlaybackSound_effectDoorCreak); (lit "effect.door.slam", PlaybackSound_effectDoorSlam);
    (lit "effect.explosion", PlaybackSound_effectExplosion); (lit "effect.flute-key-click", PlaybackSound_effectFluteKeyClick);
    (lit "effect.footsteps", PlaybackSound_effectFootsteps); (lit "effect.frogs", PlaybackSound_effectFrogs);
    (lit "effect.guitar-cutting", PlaybackSound_effectGuitarCutting); (lit "effect.guitar-fret", PlaybackSound_effectGuitarFret);
    (lit "effect.gunshot", PlaybackSound_effectGunshot); (lit "effect.hand-clap", PlaybackSound_effectHandClap);
    (lit "effect.heartbeat", PlaybackSound_effectHeartbeat); (lit "effect.helicopter", PlaybackSound_effectHelicopter);
    (lit "effect.high-q", PlaybackSound_effectHighQ); (lit "effect.horse-gallop", PlaybackSound_effectHorseGallop);
    (lit "effect.jet-plane", PlaybackSound_effectJetPlane); (lit "effect.laser-gun", PlaybackSound_effectLaserGun);
    (lit "effect.laugh", PlaybackSound_effectLaugh); (lit "effect.lions-roar", PlaybackSound_effectLionsRoar);
    (lit "effect.machine-gun", PlaybackSound_effectMachineGun); (lit "effect.marching-machine", PlaybackSound_effectMarchingMachine);
    (lit "effect.metronome-bell", PlaybackSound_effectMetronomeBell); (lit "effect.metronome-click", PlaybackSound_effectMetronomeClick);
    (lit "effect.pat", PlaybackSound_effectPat); (lit "effect.punch", PlaybackSound_effectPunch);
    (lit "effect.rain", PlaybackSound_effectRain); (lit "effect.scratch", PlaybackSound_effectScratch);
    (lit "effect.scream", PlaybackSound_effectScream); (lit "effect.seashore", PlaybackSound_effectSeashore);
    (lit "effect.siren", PlaybackSound_effectSiren); (lit "effect.slap", PlaybackSound_effectSlap);
    (lit "effect.snap", PlaybackSound_effectSnap); (lit "effect.stamp", PlaybackSound_effectStamp);
    (lit "effect.starship", PlaybackSound_effectStarship); (lit "effect.stream", PlaybackSound_effectStream);
    (lit "effect.telephone-ring", PlaybackSound_effectTelephoneRing); (lit "effect.thunder", PlaybackSound_effectThunder);
    (lit "effect.train", PlaybackSound_effectTrain); (lit "effect.trash-can", PlaybackSound_effectTrashCan);
    (lit "effect.whip", PlaybackSound_effectWhip); (lit "effect.whistle", PlaybackSound_effectWhistle);
    (lit "effect.whistle.mouth-siren", PlaybackSound_effectWhistleMouthSiren); (lit "effect.whistle.police", PlaybackSound_effectWhistlePolice);
    (lit "effect.whistle.slide", PlaybackSound_effectWhistleSlide); (lit "effect.whistle.train", PlaybackSound_effectWhistleTrain);
    (lit "effect.wind", PlaybackSound_effectWind); (lit "keyboard.accordion", PlaybackSound_keyboardAccordion);
    (lit "keyboard.bandoneon", PlaybackSound_keyboardBandoneon); (lit "keyboard.celesta", PlaybackSound_keyboardCelesta);
    (lit "keyboard.clavichord", PlaybackSound_keyboardClavichord); (lit "keyboard.clavichord.synth", PlaybackSound_keyboardClavichordSynth);
    (lit "keyboard.concertina", PlaybackSound_keyboardConcertina); (lit "keyboard.fortepiano", PlaybackSound_keyboardFortepiano);
    (lit "keyboard.harmonium", PlaybackSound_keyboardHarmonium); (lit "keyboard.harpsichord", PlaybackSound_keyboardHarpsichord);
    (lit "keyboard.ondes-martenot", PlaybackSound_keyboardOndesMartenot); (lit "keyboard.organ", PlaybackSound_keyboardOrgan);
    (lit "keyboard.organ.drawbar", PlaybackSound_keyboardOrganDrawbar); (lit "keyboard.organ.percussive", PlaybackSound_keyboardOrganPercussive);
    (lit "keyboard.organ.pipe", PlaybackSound_keyboardOrganPipe); (lit "keyboard.organ.reed", PlaybackSound_keyboardOrganReed);
    (lit "keyboard.organ.rotary", PlaybackSound_keyboardOrganRotary); (lit "keyboard.piano", PlaybackSound_keyboardPiano);
    (lit "keyboard.piano.electric", PlaybackSound_keyboardPianoElectric); (lit "keyboard.piano.grand", PlaybackSound_keyboardPianoGrand);
    (lit "keyboard.piano.honky-tonk", PlaybackSound_keyboardPianoHonkyTonk); (lit "keyboard.piano.prepared", PlaybackSound_keyboardPianoPrepared);
    (lit "keyboard.piano.toy", PlaybackSound_keyboardPianoToy); (lit "keyboard.piano.upright", PlaybackSound_keyboardPianoUpright);
    (lit "keyboard.virginal", PlaybackSound_keyboardVirginal); (lit "metal.adodo", PlaybackSound_metalAdodo);
    (lit "metal.anvil", PlaybackSound_metalAnvil); (lit "metal.babendil", PlaybackSound_metalBabendil);
    (lit "metal.bells.agogo", PlaybackSound_metalBellsAgogo); (lit "metal.bells.almglocken", PlaybackSound_metalBellsAlmglocken);
    (lit "metal.bells.bell-plate", PlaybackSound_metalBellsBellPlate); (lit "metal.bells.bell-tree", PlaybackSound_metalBellsBellTree);
    (lit "metal.bells.carillon", PlaybackSound_metalBellsCarillon); (lit "metal.bells.chimes", PlaybackSound_metalBellsChimes);
    (lit "metal.bells.chimta", PlaybackSound_metalBellsChimta); (lit "metal.bells.chippli", PlaybackSound_metalBellsChippli);
    (lit "metal.bells.church", PlaybackSound_metalBellsChurch); (lit "metal.bells.cowbell", PlaybackSound_metalBellsCowbell);
    (lit "metal.bells.dawuro", PlaybackSound_metalBellsDawuro); (lit "metal.bells.gankokwe", PlaybackSound_metalBellsGankokwe);
    (lit "metal.bells.ghungroo", PlaybackSound_metalBellsGhungroo); (lit "metal.bells.hatheli", PlaybackSound_metalBellsHatheli);
    (lit "metal.bells.jingle-bell", PlaybackSound_metalBellsJingleBell); (lit "metal.bells.khartal", PlaybackSound_metalBellsKhartal);
    (lit "metal.bells.mark-tree", PlaybackSound_metalBellsMarkTree); (lit "metal.bells.sistrum", PlaybackSound_metalBellsSistrum);
    (lit "metal.bells.sleigh-bells", PlaybackSound_metalBellsSleighBells); (lit "metal.bells.temple", PlaybackSound_metalBellsTemple);
    (lit "metal.bells.tibetan", PlaybackSound_metalBellsTibetan); (lit "metal.bells.tinklebell", PlaybackSound_metalBellsTinklebell);
    (lit "metal.bells.trychel", PlaybackSound_metalBellsTrychel); (lit "metal.bells.wind-chimes", PlaybackSound_metalBellsWindChimes);
    (lit "metal.bells.zills", PlaybackSound_metalBellsZills); (lit "metal.berimbau", PlaybackSound_metalBerimbau);
    (lit "metal.brake-drums", PlaybackSound_metalBrakeDrums); (lit "metal.crotales", PlaybackSound_metalCrotales);
    (lit "metal.cymbal.bo", PlaybackSound_metalCymbalBo); (lit "metal.cymbal.ceng-ceng", PlaybackSound_metalCymbalCengCeng);
    (lit "metal.cymbal.chabara", PlaybackSound_metalCymbalChabara); (lit "metal.cymbal.chinese", PlaybackSound_metalCymbalChinese);
    (lit "metal.cymbal.ching", PlaybackSound_metalCymbalChing); (lit "metal.cymbal.clash", PlaybackSound_metalCymbalClash);
    (lit "metal.cymbal.crash", PlaybackSound_metalCymbalCrash); (lit "metal.cymbal.finger", PlaybackSound_metalCymbalFinger);
    (lit "metal.cymbal.hand", PlaybackSound_metalCymbalHand); (lit "metal.cymbal.kesi", PlaybackSound_metalCymbalKesi);
    (lit "metal.cymbal.manjeera", PlaybackSound_metalCymbalManjeera); (lit "metal.cymbal.reverse", PlaybackSound_metalCymbalReverse);
    (lit "metal.cymbal.ride", PlaybackSound_metalCymbalRide); (lit "metal.cymbal.sizzle", PlaybackSound_metalCymbalSizzle);
    (lit "metal.cymbal.splash", PlaybackSound_metalCymbalSplash); (lit "metal.cymbal.suspended", PlaybackSound_metalCymbalSuspended);
    (lit "metal.cymbal.tebyoshi", PlaybackSound_metalCymbalTebyoshi); (lit "metal.cymbal.tibetan", PlaybackSound_metalCymbalTibetan);
    (lit "metal.cymbal.tingsha", PlaybackSound_metalCymbalTingsha); (lit "metal.flexatone", PlaybackSound_metalFlexatone);
    (lit "metal.gong", PlaybackSound_metalGong); (lit "metal.gong.ageng", PlaybackSound_metalGongAgeng);
    (lit "metal.gong.agung", PlaybackSound_metalGongAgung); (lit "metal.gong.chanchiki", PlaybackSound_metalGongChanchiki);
    (lit "metal.gong.chinese", PlaybackSound_metalGongChinese); (lit "metal.gong.gandingan", PlaybackSound_metalGongGandingan);
    (lit "metal.gong.kempul", PlaybackSound_metalGongKempul); (lit "metal.gong.kempyang", PlaybackSound_metalGongKempyang);
    (lit "metal.gong.ketuk", PlaybackSound_metalGongKetuk); (lit "metal.gong.kkwenggwari", PlaybackSound_metalGongKkwenggwari);
    (lit "metal.gong.luo", PlaybackSound_metalGongLuo); (lit "metal.gong.singing", PlaybackSound_metalGongSinging);
    (lit "metal.gong.thai", PlaybackSound_metalGongThai); (lit "metal.guira", PlaybackSound_metalGuira);
    (lit "metal.hang", PlaybackSound_metalHang); (lit "metal.hi-hat", PlaybackSound_metalHiHat);
    (lit "metal.jaw-harp", PlaybackSound_metalJawHarp); (lit "metal.kengong", PlaybackSound_metalKengong);
    (lit "metal.murchang", PlaybackSound_metalMurchang); (lit "metal.musical-saw", PlaybackSound_metalMusicalSaw);
    (lit "metal.singing-bowl", PlaybackSound_metalSingingBowl); (lit "metal.spoons", PlaybackSound_metalSpoons);
    (lit "metal.steel-drums", PlaybackSound_metalSteelDrums); (lit "metal.tamtam", PlaybackSound_metalTamtam);
    (lit "metal.thundersheet", PlaybackSound_metalThundersheet); (lit "metal.triangle", PlaybackSound_metalTriangle);
    (lit "metal.washboard", PlaybackSound_metalWashboard); (lit "pitched-percussion.angklung", PlaybackSound_pitchedPercussionAngklung);
    (lit "pitched-percussion.balafon", PlaybackSound_pitchedPercussionBalafon); (lit "pitched-percussion.bell-lyre", PlaybackSound_pitchedPercussionBellLyre);
    (lit "pitched-percussion.bells", PlaybackSound_pitchedPercussionBells); (lit "pitched-percussion.bianqing", PlaybackSound_pitchedPercussionBianqing);
    (lit "pitched-percussion.bianzhong", PlaybackSound_pitchedPercussionBianzhong); (lit "pitched-percussion.bonang", PlaybackSound_pitchedPercussionBonang);
    (lit "pitched-percussion.cimbalom", PlaybackSound_pitchedPercussionCimbalom); (lit "pitched-percussion.crystal-glasses", PlaybackSound_pitchedPercussionCrystalGlasses);
    (lit "pitched-percussion.dan-tam-thap-luc", PlaybackSound_pitchedPercussionDanTamThapLuc); (lit "pitched-percussion.fangxiang", PlaybackSound_pitchedPercussionFangxiang);
    (lit "pitched-percussion.gandingan-a-kayo", PlaybackSound_pitchedPercussionGandinganAKayo); (lit "pitched-percussion.gangsa", PlaybackSound_pitchedPercussionGangsa);
    (lit "pitched-percussion.gender", PlaybackSound_pitchedPercussionGender); (lit "pitched-percussion.giying", PlaybackSound_pitchedPercussionGiying);
    (lit "pitched-percussion.glass-harmonica", PlaybackSound_pitchedPercussionGlassHarmonica); (lit "pitched-percussion.glockenspiel", PlaybackSound_pitchedPercussionGlockenspiel);
    (lit "pitched-percussion.glockenspiel.alto", PlaybackSound_pitchedPercussionGlockenspielAlto); (lit "pitched-percussion.glockenspiel.soprano", PlaybackSound_pitchedPercussionGlockenspielSoprano);
    (lit "pitched-percussion.gyil", PlaybackSound_pitchedPercussionGyil); (lit "pitched-percussion.hammer-dulcimer", PlaybackSound_pitchedPercussionHammerDulcimer);
    (lit "pitched-percussion.handbells", PlaybackSound_pitchedPercussionHandbells); (lit "pitched-percussion.kalimba", PlaybackSound_pitchedPercussionKalimba);
    (lit "pitched-percussion.kantil", PlaybackSound_pitchedPercussionKantil); (lit "pitched-percussion.khim", PlaybackSound_pitchedPercussionKhim);
    (lit "pitched-percussion.kulintang", PlaybackSound_pitchedPercussionKulintang); (lit "pitched-percussion.kulintang-a-kayo", PlaybackSound_pitchedPercussionKulintangAKayo);
    (lit "pitched-percussion.kulintang-a-tiniok", PlaybackSound_pitchedPercussionKulintangATiniok); (lit "pitched-percussion.likembe", PlaybackSound_pitchedPercussionLikembe);
    (lit "pitched-percussion.luntang", PlaybackSound_pitchedPercussionLuntang); (lit "pitched-percussion.marimba", PlaybackSound_pitchedPercussionMarimba);
    (lit "pitched-percussion.marimba.bass", PlaybackSound_pitchedPercussionMarimbaBass); (lit "pitched-percussion.mbira", PlaybackSound_pitchedPercussionMbira);
    (lit "pitched-percussion.mbira.array", PlaybackSound_pitchedPercussionMbiraArray); (lit "pitched-percussion.metallophone", PlaybackSound_pitchedPercussionMetallophone);
    (lit "pitched-percussion.metallophone.alto", PlaybackSound_pitchedPercussionMetallophoneAlto); (lit "pitched-percussion.metallophone.bass", PlaybackSound_pitchedPercussionMetallophoneBass);
    (lit "pitched-percussion.metallophone.soprano", PlaybackSound_pitchedPercussionMetallophoneSoprano); (lit "pitched-percussion.music-box", PlaybackSound_pitchedPercussionMusicBox);
    (lit "pitched-percussion.pelog-panerus", PlaybackSound_pitchedPercussionPelogPanerus); (lit "pitched-percussion.pemade", PlaybackSound_pitchedPercussionPemade);
    (lit "pitched-percussion.penyacah", PlaybackSound_pitchedPercussionPenyacah); (lit "pitched-percussion.ranat.ek", PlaybackSound_pitchedPercussionRanatEk);
    (lit "pitched-percussion.ranat.ek-lek", PlaybackSound_pitchedPercussionRanatEkLek); (lit "pitched-percussion.ranat.thum", PlaybackSound_pitchedPercussionRanatThum);
    (lit "pitched-percussion.ranat.thum-lek", PlaybackSound_pitchedPercussionRanatThumLek); (lit "pitched-percussion.reyong", PlaybackSound_pitchedPercussionReyong);
    (lit "pitched-percussion.sanza", PlaybackSound_pitchedPercussionSanza); (lit "pitched-percussion.saron-barung", PlaybackSound_pitchedPercussionSaronBarung);
    (lit "pitched-percussion.saron-demong", PlaybackSound_pitchedPercussionSaronDemong); (lit "pitched-percussion.saron-panerus", PlaybackSound_pitchedPercussionSaronPanerus);
    (lit "pitched-percussion.slendro-panerus", PlaybackSound_pitchedPercussionSlendroPanerus); (lit "pitched-percussion.slentem", PlaybackSound_pitchedPercussionSlentem);
    (lit "pitched-percussion.tsymbaly", PlaybackSound_pitchedPercussionTsymbaly); (lit "pitched-percussion.tubes", PlaybackSound_pitchedPercussionTubes);
    (lit "pitched-percussion.tubular-bells", PlaybackSound_pitchedPercussionTubularBells); (lit "pitched-percussion.vibraphone", PlaybackSound_pitchedPercussionVibraphone);
    (lit "pitched-percussion.xylophone", PlaybackSound_pitchedPercussionXylophone); (lit "pitched-percussion.xylophone.alto", PlaybackSound_pitchedPercussionXylophoneAlto);
    (lit "pitched-percussion.xylophone.bass", PlaybackSound_pitchedPercussionXylophoneBass); (lit "pitched-percussion.xylophone.soprano", PlaybackSound_pitchedPercussionXylophoneSoprano);
    (lit "pitched-percussion.xylorimba", PlaybackSound_pitchedPercussionXylorimba); (lit "pitched-percussion.yangqin", PlaybackSound_pitchedPercussionYangqin);
    (lit "pluck.archlute", PlaybackSound_pluckArchlute); (lit "pluck.autoharp", PlaybackSound_pluckAutoharp);
    (lit "pluck.baglama", PlaybackSound_pluckBaglama); (lit "pluck.bajo", PlaybackSound_pluckBajo);
    (lit "pluck.balalaika", PlaybackSound_pluckBalalaika); (lit "pluck.balalaika.alto", PlaybackSound_pluckBalalaikaAlto);
    (lit "pluck.balalaika.bass", PlaybackSound_pluckBalalaikaBass); (lit "pluck.balalaika.contrabass", PlaybackSound_pluckBalalaikaContrabass);
    (lit "pluck.balalaika.piccolo", PlaybackSound_pluckBalalaikaPiccolo); (lit "pluck.balalaika.prima", PlaybackSound_pluckBalalaikaPrima);
    (lit "pluck.balalaika.secunda", PlaybackSound_pluckBalalaikaSecunda); (lit "pluck.bandola", PlaybackSound_pluckBandola);
    (lit "pluck.bandura", PlaybackSound_pluckBandura); (lit "pluck.bandurria", PlaybackSound_pluckBandurria);
    (lit "pluck.banjo", PlaybackSound_pluckBanjo); (lit "pluck.banjo.tenor", PlaybackSound_pluckBanjoTenor);
    (lit "pluck.banjolele", PlaybackSound_pluckBanjolele); (lit "pluck.barbat", PlaybackSound_pluckBarbat);
    (lit "pluck.bass", PlaybackSound_pluckBass); (lit "pluck.bass.acoustic", PlaybackSound_pluckBassAcoustic);
    (lit "pluck.bass.bolon", PlaybackSound_pluckBassBolon); (lit "pluck.bass.electric", PlaybackSound_pluckBassElectric);
    (lit "pluck.bass.fretless", PlaybackSound_pluckBassFretless); (lit "pluck.bass.guitarron", PlaybackSound_pluckBassGuitarron);
    (lit "pluck.bass.synth", PlaybackSound_pluckBassSynth); (lit "pluck.bass.synth.lead", PlaybackSound_pluckBassSynthLead);
    (lit "pluck.bass.washtub", PlaybackSound_pluckBassWashtub); (lit "pluck.bass.whamola", PlaybackSound_pluckBassWhamola);
    (lit "pluck.begena", PlaybackSound_pluckBegena); (lit "pluck.biwa", PlaybackSound_pluckBiwa);
    (lit "pluck.bordonua", PlaybackSound_pluckBordonua); (lit "pluck.bouzouki", PlaybackSound_pluckBouzouki);
    (lit "pluck.bouzouki.irish", PlaybackSound_pluckBouzoukiIrish); (lit "pluck.celtic-harp", PlaybackSound_pluckCelticHarp);
    (lit "pluck.charango", PlaybackSound_pluckCharango); (lit "pluck.chitarra-battente", PlaybackSound_pluckChitarraBattente);
    (lit "pluck.cithara", PlaybackSound_pluckCithara); (lit "pluck.cittern", PlaybackSound_pluckCittern);
    (lit "pluck.cuatro", PlaybackSound_pluckCuatro); (lit "pluck.dan-bau", PlaybackSound_pluckDanBau);
    (lit "pluck.dan-nguyet", PlaybackSound_pluckDanNguyet); (lit "pluck.dan-tranh", PlaybackSound_pluckDanTranh);
    (lit "pluck.dan-ty-ba", PlaybackSound_pluckDanTyBa); (lit "pluck.diddley-bow", PlaybackSound_pluckDiddleyBow);
    (lit "pluck.domra", PlaybackSound_pluckDomra); (lit "pluck.domu", PlaybackSound_pluckDomu);
    (lit "pluck.dulcimer", PlaybackSound_pluckDulcimer); (lit "pluck.dutar", PlaybackSound_pluckDutar);
    (lit "pluck.duxianqin", PlaybackSound_pluckDuxianqin); (lit "pluck.ektara", PlaybackSound_pluckEktara);
    (lit "pluck.geomungo", PlaybackSound_pluckGeomungo); (lit "pluck.gottuvadhyam", PlaybackSound_pluckGottuvadhyam);
    (lit "pluck.guitar", PlaybackSound_pluckGuitar); (lit "pluck.guitar.acoustic", PlaybackSound_pluckGuitarAcoustic);
    (lit "pluck.guitar.electric", PlaybackSound_pluckGuitarElectric); (lit "pluck.guitar.nylon-string", PlaybackSound_pluckGuitarNylonString);
    (lit "pluck.guitar.pedal-steel", PlaybackSound_pluckGuitarPedalSteel); (lit "pluck.guitar.portuguese", PlaybackSound_pluckGuitarPortuguese);
    (lit "pluck.guitar.requinto", PlaybackSound_pluckGuitarRequinto); (lit "pluck.guitar.resonator", PlaybackSound_pluckGuitarResonator);
    (lit "pluck.guitar.steel-string", PlaybackSound_pluckGuitarSteelString); (lit "pluck.guitjo", PlaybackSound_pluckGuitjo);
    (lit "pluck.guitjo.double-neck", PlaybackSound_pluckGuitjoDoubleNeck); (lit "pluck.guqin", PlaybackSound_pluckGuqin);
    (lit "pluck.guzheng", PlaybackSound_pluckGuzheng); (lit "pluck.guzheng.choazhou", PlaybackSound_pluckGuzhengChoazhou);
    (lit "pluck.harp", PlaybackSound_pluckHarp); (lit "pluck.harp-guitar", PlaybackSound_pluckHarpGuitar);
    (lit "pluck.huapanguera", PlaybackSound_pluckHuapanguera); (lit "pluck.jarana-huasteca", PlaybackSound_pluckJaranaHuasteca);
    (lit "pluck.jarana-jarocha", PlaybackSound_pluckJaranaJarocha); (lit "pluck.jarana-jarocha.mosquito", PlaybackSound_pluckJaranaJarochaMosquito);
    (lit "pluck.jarana-jarocha.primera", PlaybackSound_pluckJaranaJarochaPrimera); (lit "pluck.jarana-jarocha.segunda", PlaybackSound_pluckJaranaJarochaSegunda);
    (lit "pluck.jarana-jarocha.tercera", PlaybackSound_pluckJaranaJarochaTercera); (lit "pluck.kabosy", PlaybackSound_pluckKabosy);
    (lit "pluck.kantele", PlaybackSound_pluckKantele); (lit "pluck.kanun", PlaybackSound_pluckKanun);
    (lit "pluck.kayagum", PlaybackSound_pluckKayagum); (lit "pluck.kobza", PlaybackSound_pluckKobza);
    (lit "pluck.komuz", PlaybackSound_pluckKomuz); (lit "pluck.kora", PlaybackSound_pluckKora);
    (lit "pluck.koto", PlaybackSound_pluckKoto); (lit "pluck.kutiyapi", PlaybackSound_pluckKutiyapi);
    (lit "pluck.langeleik", PlaybackSound_pluckLangeleik); (lit "pluck.laud", PlaybackSound_pluckLaud);
    (lit "pluck.lute", PlaybackSound_pluckLute); (lit "pluck.lyre", PlaybackSound_pluckLyre);
    (lit "pluck.mandobass", PlaybackSound_pluckMandobass); (lit "pluck.mandocello", PlaybackSound_pluckMandocello);
    (lit "pluck.mandola", PlaybackSound_pluckMandola); (lit "pluck.mandolin", PlaybackSound_pluckMandolin);
    (lit "pluck.mandolin.octave", PlaybackSound_pluckMandolinOctave); (lit "pluck.mandora", PlaybackSound_pluckMandora);
    (lit "pluck.mandore", PlaybackSound_pluckMandore); (lit "pluck.marovany", PlaybackSound_pluckMarovany);
    (lit "pluck.musical-bow", PlaybackSound_pluckMusicalBow); (lit "pluck.ngoni", PlaybackSound_pluckNgoni);
    (lit "pluck.oud", PlaybackSound_pluckOud); (lit "pluck.pipa", PlaybackSound_pluckPipa);
    (lit "pluck.psaltery", PlaybackSound_pluckPsaltery); (lit "pluck.ruan", PlaybackSound_pluckRuan);
    (lit "pluck.sallaneh", PlaybackSound_pluckSallaneh); (lit "pluck.sanshin", PlaybackSound_pluckSanshin);
    (lit "pluck.santoor", PlaybackSound_pluckSantoor); (lit "pluck.sanxian", PlaybackSound_pluckSanxian);
    (lit "pluck.sarod", PlaybackSound_pluckSarod); (lit "pluck.saung", PlaybackSound_pluckSaung);
    (lit "pluck.saz", PlaybackSound_pluckSaz); (lit "pluck.se", PlaybackSound_pluckSe);
    (lit "pluck.setar", PlaybackSound_pluckSetar); (lit "pluck.shamisen", PlaybackSound_pluckShamisen);
    (lit "pluck.sitar", PlaybackSound_pluckSitar); (lit "pluck.synth", PlaybackSound_pluckSynth);
    (lit "pluck.synth.charang", PlaybackSound_pluckSynthCharang); (lit "pluck.synth.chiff", PlaybackSound_pluckSynthChiff);
    (lit "pluck.synth.stick", PlaybackSound_pluckSynthStick); (lit "pluck.tambura", PlaybackSound_pluckTambura);
    (lit "pluck.tambura.bulgarian", PlaybackSound_pluckTamburaBulgarian); (lit "pluck.tambura.female", PlaybackSound_pluckTamburaFemale);
    (lit "pluck.tambura.male", PlaybackSound_pluckTamburaMale); (lit "pluck.tar", PlaybackSound_pluckTar);
    (lit "pluck.theorbo", PlaybackSound_pluckTheorbo); (lit "pluck.timple", PlaybackSound_pluckTimple);
    (lit "pluck.tiple", PlaybackSound_pluckTiple); (lit "pluck.tres", PlaybackSound_pluckTres);
    (lit "pluck.ukulele", PlaybackSound_pluckUkulele); (lit "pluck.ukulele.tenor", PlaybackSound_pluckUkuleleTenor);
    (lit "pluck.valiha", PlaybackSound_pluckValiha); (lit "pluck.veena", PlaybackSound_pluckVeena);
    (lit "pluck.veena.mohan", PlaybackSound_pluckVeenaMohan); (lit "pluck.veena.rudra", PlaybackSound_pluckVeenaRudra);
    (lit "pluck.veena.vichitra", PlaybackSound_pluckVeenaVichitra); (lit "pluck.vihuela", PlaybackSound_pluckVihuela);
    (lit "pluck.vihuela.mexican", PlaybackSound_pluckVihuelaMexican); (lit "pluck.xalam", PlaybackSound_pluckXalam);
    (lit "pluck.yueqin", PlaybackSound_pluckYueqin); (lit "pluck.zither", PlaybackSound_pluckZither);
    (lit "pluck.zither.overtone", PlaybackSound_pluckZitherOvertone); (lit "rattle.afoxe", PlaybackSound_rattleAfoxe);
    (lit "rattle.birds", PlaybackSound_rattleBirds); (lit "rattle.cabasa", PlaybackSound_rattleCabasa);
    (lit "rattle.caxixi", PlaybackSound_rattleCaxixi); (lit "rattle.cog", PlaybackSound_rattleCog);
    (lit "rattle.ganza", PlaybackSound_rattleGanza); (lit "rattle.hosho", PlaybackSound_rattleHosho);
    (lit "rattle.jawbone", PlaybackSound_rattleJawbone); (lit "rattle.kayamba", PlaybackSound_rattleKayamba);
    (lit "rattle.kpoko-kpoko", PlaybackSound_rattleKpokoKpoko); (lit "rattle.lava-stones", PlaybackSound_rattleLavaStones);
    (lit "rattle.maraca", PlaybackSound_rattleMaraca); (lit "rattle.rain-stick", PlaybackSound_rattleRainStick);
    (lit "rattle.ratchet", PlaybackSound_rattleRatchet); (lit "rattle.rattle", PlaybackSound_rattleRattle);
    (lit "rattle.shaker", PlaybackSound_rattleShaker); (lit "rattle.shaker.egg", PlaybackSound_rattleShakerEgg);
    (lit "rattle.shekere", PlaybackSound_rattleShekere); (lit "rattle.sistre", PlaybackSound_rattleSistre);
    (lit "rattle.televi", PlaybackSound_rattleTelevi); (lit "rattle.vibraslap", PlaybackSound_rattleVibraslap);
    (lit "rattle.wasembe", PlaybackSound_rattleWasembe); (lit "strings.ajaeng", PlaybackSound_stringsAjaeng);
    (lit "strings.arpeggione", PlaybackSound_stringsArpeggione); (lit "strings.baryton", PlaybackSound_stringsBaryton);
    (lit "strings.cello", PlaybackSound_stringsCello); (lit "strings.cello.piccolo", PlaybackSound_stringsCelloPiccolo);
    (lit "strings.contrabass", PlaybackSound_stringsContrabass); (lit "strings.crwth", PlaybackSound_stringsCrwth);
    (lit "strings.dan-gao", PlaybackSound_stringsDanGao); (lit "strings.dihu", PlaybackSound_stringsDihu);
    (lit "strings.erhu", PlaybackSound_stringsErhu); (lit "strings.erxian", PlaybackSound_stringsErxian);
    (lit "strings.esraj", PlaybackSound_stringsEsraj); (lit "strings.fiddle", PlaybackSound_stringsFiddle);
    (lit "strings.fiddle.hardanger", PlaybackSound_stringsFiddleHardanger); (lit "strings.gadulka", PlaybackSound_stringsGadulka);
    (lit "strings.gaohu", PlaybackSound_stringsGaohu); (lit "strings.gehu", PlaybackSound_stringsGehu);
    (lit "strings.group", PlaybackSound_stringsGroup); (lit "strings.group.synth", PlaybackSound_stringsGroupSynth);
    (lit "strings.haegeum", PlaybackSound_stringsHaegeum); (lit "strings.hurdy-gurdy", PlaybackSound_stringsHurdyGurdy);
    (lit "strings.igil", PlaybackSound_stringsIgil); (lit "strings.kamancha", PlaybackSound_stringsKamancha);
    (lit "strings.kokyu", PlaybackSound_stringsKokyu); (lit "strings.laruan", PlaybackSound_stringsLaruan);
    (lit "strings.leiqin", PlaybackSound_stringsLeiqin); (lit "strings.lirone", PlaybackSound_stringsLirone);
    (lit "strings.lyra.byzantine", PlaybackSound_stringsLyraByzantine); (lit "strings.lyra.cretan", PlaybackSound_stringsLyraCretan);
    (lit "strings.morin-khuur", PlaybackSound_stringsMorinKhuur); (lit "strings.nyckelharpa", PlaybackSound_stringsNyckelharpa);
    (lit "strings.octobass", PlaybackSound_stringsOctobass); (lit "strings.rebab", PlaybackSound_stringsRebab);
    (lit "strings.rebec", PlaybackSound_stringsRebec); (lit "strings.sarangi", PlaybackSound_stringsSarangi);
    (lit "strings.stroh-violin", PlaybackSound_stringsStrohViolin); (lit "strings.tromba-marina", PlaybackSound_stringsTrombaMarina);
    (lit "strings.vielle", PlaybackSound_stringsVielle); (lit "strings.viol", PlaybackSound_stringsViol);
    (lit "strings.viol.alto", PlaybackSound_stringsViolAlto); (lit "strings.viol.bass", PlaybackSound_stringsViolBass);
    (lit "strings.viol.tenor", PlaybackSound_stringsViolTenor); (lit "strings.viol.treble", PlaybackSound_stringsViolTreble);
    (lit "strings.viol.violone", PlaybackSound_stringsViolViolone); (lit "strings.viola", PlaybackSound_stringsViola);
    (lit "strings.viola-damore", PlaybackSound_stringsViolaDamore); (lit "strings.violin", PlaybackSound_stringsViolin);
    (lit "strings.violono.piccolo", PlaybackSound_stringsViolonoPiccolo); (lit "strings.violotta", PlaybackSound_stringsViolotta);
    (lit "strings.yayli-tanbur", PlaybackSound_stringsYayliTanbur); (lit "strings.yazheng", PlaybackSound_stringsYazheng);
    (lit "strings.zhonghu", PlaybackSound_stringsZhonghu); (lit "synth.effects", PlaybackSound_synthEffects);
    (lit "synth.effects.atmosphere", PlaybackSound_synthEffectsAtmosphere); (lit "synth.effects.brightness", PlaybackSound_synthEffectsBrightness);
    (lit "synth.effects.crystal", PlaybackSound_synthEffectsCrystal); (lit "synth.effects.echoes", PlaybackSound_synthEffectsEchoes);
    (lit "synth.effects.goblins", PlaybackSound_synthEffectsGoblins); (lit "synth.effects.rain", PlaybackSound_synthEffectsRain);
    (lit "synth.effects.sci-fi", PlaybackSound_synthEffectsSciFi); (lit "synth.effects.soundtrack", PlaybackSound_synthEffectsSoundtrack);
    (lit "synth.group", PlaybackSound_synthGroup); (lit "synth.group.fifths", PlaybackSound_synthGroupFifths);
    (lit "synth.group.orchestra", PlaybackSound_synthGroupOrchestra); (lit "synth.pad", PlaybackSound_synthPad);
    (lit "synth.pad.bowed", PlaybackSound_synthPadBowed); (lit "synth.pad.choir", PlaybackSound_synthPadChoir);
    (lit "synth.pad.halo", PlaybackSound_synthPadHalo); (lit "synth.pad.metallic", PlaybackSound_synthPadMetallic);
    (lit "synth.pad.polysynth", PlaybackSound_synthPadPolysynth); (lit "synth.pad.sweep", PlaybackSound_synthPadSweep);
    (lit "synth.pad.warm", PlaybackSound_synthPadWarm); (lit "synth.theremin", PlaybackSound_synthTheremin);
    (lit "synth.tone.sawtooth", PlaybackSound_synthToneSawtooth); (lit "synth.tone.sine", PlaybackSound_synthToneSine);
    (lit "synth.tone.square", PlaybackSound_synthToneSquare); (lit "voice.aa", PlaybackSound_voiceAa);
    (lit "voice.alto", PlaybackSound_voiceAlto); (lit "voice.aw", PlaybackSound_voiceAw);
    (lit "voice.baritone", PlaybackSound_voiceBaritone); (lit "voice.bass", PlaybackSound_voiceBass);
    (lit "voice.child", PlaybackSound_voiceChild); (lit "voice.countertenor", PlaybackSound_voiceCountertenor);
    (lit "voice.doo", PlaybackSound_voiceDoo); (lit "voice.ee", PlaybackSound_voiceEe);
    (lit "voice.female", PlaybackSound_voiceFemale); (lit "voice.kazoo", PlaybackSound_voiceKazoo);
    (lit "voice.male", PlaybackSound_voiceMale); (lit "voice.mezzo-soprano", PlaybackSound_voiceMezzoSoprano);
    (lit "voice.mm", PlaybackSound_voiceMm); (lit "voice.oo", PlaybackSound_voiceOo);
    (lit "voice.percussion", PlaybackSound_voicePercussion); (lit "voice.percussion.beatbox", PlaybackSound_voicePercussionBeatbox);
    (lit "voice.soprano", PlaybackSound_voiceSoprano); (lit "voice.synth", PlaybackSound_voiceSynth);
    (lit "voice.talk-box", PlaybackSound_voiceTalkBox); (lit "voice.tenor", PlaybackSound_voiceTenor);
    (lit "voice.vocals", PlaybackSound_voiceVocals); (lit "wind.flutes.bansuri", PlaybackSound_windFlutesBansuri);
    (lit "wind.flutes.blown-bottle", PlaybackSound_windFlutesBlownBottle); (lit "wind.flutes.calliope", PlaybackSound_windFlutesCalliope);
    (lit "wind.flutes.danso", PlaybackSound_windFlutesDanso); (lit "wind.flutes.di-zi", PlaybackSound_windFlutesDiZi);
    (lit "wind.flutes.dvojnice", PlaybackSound_windFlutesDvojnice); (lit "wind.flutes.fife", PlaybackSound_windFlutesFife);
    (lit "wind.flutes.flageolet", PlaybackSound_windFlutesFlageolet); (lit "wind.flutes.flute", PlaybackSound_windFlutesFlute);
    (lit "wind.flutes.flute.alto", PlaybackSound_windFlutesFluteAlto); (lit "wind.flutes.flute.bass", PlaybackSound_windFlutesFluteBass);
    (lit "wind.flutes.flute.contra-alto", PlaybackSound_windFlutesFluteContraAlto); (lit "wind.flutes.flute.contrabass", PlaybackSound_windFlutesFluteContrabass);
    (lit "wind.flutes.flute.double-contrabass", PlaybackSound_windFlutesFluteDoubleContrabass); (lit "wind.flutes.flute.irish", PlaybackSound_windFlutesFluteIrish);
    (lit "wind.flutes.flute.piccolo", PlaybackSound_windFlutesFlutePiccolo); (lit "wind.flutes.flute.subcontrabass", PlaybackSound_windFlutesFluteSubcontrabass);
    (lit "wind.flutes.fujara", PlaybackSound_windFlutesFujara); (lit "wind.flutes.gemshorn", PlaybackSound_windFlutesGemshorn);
    (lit "wind.flutes.hocchiku", PlaybackSound_windFlutesHocchiku); (lit "wind.flutes.hun", PlaybackSound_windFlutesHun);
    (lit "wind.flutes.kaval", PlaybackSound_windFlutesKaval); (lit "wind.flutes.kawala", PlaybackSound_windFlutesKawala);
    (lit "wind.flutes.khlui", PlaybackSound_windFlutesKhlui); (lit "wind.flutes.knotweed", PlaybackSound_windFlutesKnotweed);
    (lit "wind.flutes.koncovka.alto", PlaybackSound_windFlutesKoncovkaAlto); (lit "wind.flutes.koudi", PlaybackSound_windFlutesKoudi);
    (lit "wind.flutes.ney", PlaybackSound_windFlutesNey); (lit "wind.flutes.nohkan", PlaybackSound_windFlutesNohkan);
    (lit "wind.flutes.nose", PlaybackSound_windFlutesNose); (lit "wind.flutes.ocarina", PlaybackSound_windFlutesOcarina);
    (lit "wind.flutes.overtone.tenor", PlaybackSound_windFlutesOvertoneTenor); (lit "wind.flutes.palendag", PlaybackSound_windFlutesPalendag);
    (lit "wind.flutes.panpipes", PlaybackSound_windFlutesPanpipes); (lit "wind.flutes.quena", PlaybackSound_windFlutesQuena);
    (lit "wind.flutes.recorder", PlaybackSound_windFlutesRecorder); (lit "wind.flutes.recorder.alto", PlaybackSound_windFlutesRecorderAlto);
    (lit "wind.flutes.recorder.bass", PlaybackSound_windFlutesRecorderBass); (lit "wind.flutes.recorder.contrabass", PlaybackSound_windFlutesRecorderContrabass);
    (lit "wind.flutes.recorder.descant", PlaybackSound_windFlutesRecorderDescant); (lit "wind.flutes.recorder.garklein", PlaybackSound_windFlutesRecorderGarklein);
    (lit "wind.flutes.recorder.great-bass", PlaybackSound_windFlutesRecorderGreatBass); (lit "wind.flutes.recorder.sopranino", PlaybackSound_windFlutesRecorderSopranino);
    (lit "wind.flutes.recorder.soprano", PlaybackSound_windFlutesRecorderSoprano); (lit "wind.flutes.recorder.tenor", PlaybackSound_windFlutesRecorderTenor);
    (lit "wind.flutes.ryuteki", PlaybackSound_windFlutesRyuteki); (lit "wind.flutes.shakuhachi", PlaybackSound_windFlutesShakuhachi);
    (lit "wind.flutes.shepherds-pipe", PlaybackSound_windFlutesShepherdsPipe); (lit "wind.flutes.shinobue", PlaybackSound_windFlutesShinobue);
    (lit "wind.flutes.shvi", PlaybackSound_windFlutesShvi); (lit "wind.flutes.suling", PlaybackSound_windFlutesSuling);
    (lit "wind.flutes.tarka", PlaybackSound_windFlutesTarka); (lit "wind.flutes.tumpong", PlaybackSound_windFlutesTumpong);
    (lit "wind.flutes.venu", PlaybackSound_windFlutesVenu); (lit "wind.flutes.whistle", PlaybackSound_windFlutesWhistle);
    (lit "wind.flutes.whistle.alto", PlaybackSound_windFlutesWhistleAlto); (lit "wind.flutes.whistle.low-irish", PlaybackSound_windFlutesWhistleLowIrish);
    (lit "wind.flutes.whistle.shiva", PlaybackSound_windFlutesWhistleShiva); (lit "wind.flutes.whistle.slide", PlaybackSound_windFlutesWhistleSlide);
    (lit "wind.flutes.whistle.tin", PlaybackSound_windFlutesWhistleTin); (lit "wind.flutes.whistle.tin.bflat", PlaybackSound_windFlutesWhistleTinBflat);
    (lit "wind.flutes.whistle.tin.d", PlaybackSound_windFlutesWhistleTinD); (lit "wind.flutes.xiao", PlaybackSound_windFlutesXiao);
    (lit "wind.flutes.xun", PlaybackSound_windFlutesXun); (lit "wind.group", PlaybackSound_windGroup);
    (lit "wind.jug", PlaybackSound_windJug); (lit "wind.pipes.bagpipes", PlaybackSound_windPipesBagpipes);
    (lit "wind.pipes.gaida", PlaybackSound_windPipesGaida); (lit "wind.pipes.highland", PlaybackSound_windPipesHighland);
    (lit "wind.pipes.uilleann", PlaybackSound_windPipesUilleann); (lit "wind.pungi", PlaybackSound_windPungi);
    (lit "wind.reed.albogue", PlaybackSound_windReedAlbogue); (lit "wind.reed.alboka", PlaybackSound_windReedAlboka);
    (lit "wind.reed.algaita", PlaybackSound_windReedAlgaita); (lit "wind.reed.arghul", PlaybackSound_windReedArghul);
    (lit "wind.reed.basset-horn", PlaybackSound_windReedBassetHorn); (lit "wind.reed.bassoon", PlaybackSound_windReedBassoon);
    (lit "wind.reed.bawu", PlaybackSound_windReedBawu); (lit "wind.reed.bifora", PlaybackSound_windReedBifora);
    (lit "wind.reed.bombarde", PlaybackSound_windReedBombarde); (lit "wind.reed.chalumeau", PlaybackSound_windReedChalumeau);
    (lit "wind.reed.clarinet", PlaybackSound_windReedClarinet); (lit "wind.reed.clarinet.a", PlaybackSound_windReedClarinetA);
    (lit "wind.reed.clarinet.alto", PlaybackSound_windReedClarinetAlto); (lit "wind.reed.clarinet.bass", PlaybackSound_windReedClarinetBass);
    (lit "wind.reed.clarinet.basset", PlaybackSound_windReedClarinetBasset); (lit "wind.reed.clarinet.bflat", PlaybackSound_windReedClarinetBflat);
    (lit "wind.reed.clarinet.contra-alto", PlaybackSound_windReedClarinetContraAlto); (lit "wind.reed.clarinet.contrabass", PlaybackSound_windReedClarinetContrabass);
    (lit "wind.reed.clarinet.eflat", PlaybackSound_windReedClarinetEflat); (lit "wind.reed.clarinet.piccolo.aflat", PlaybackSound_windReedClarinetPiccoloAflat);
    (lit "wind.reed.clarinette-damour", PlaybackSound_windReedClarinetteDamour); (lit "wind.reed.contrabass", PlaybackSound_windReedContrabass);
    (lit "wind.reed.contrabassoon", PlaybackSound_windReedContrabassoon); (lit "wind.reed.cornamuse", PlaybackSound_windReedCornamuse);
    (lit "wind.reed.cromorne", PlaybackSound_windReedCromorne); (lit "wind.reed.crumhorn", PlaybackSound_windReedCrumhorn);
    (lit "wind.reed.crumhorn.alto", PlaybackSound_windReedCrumhornAlto); (lit "wind.reed.crumhorn.bass", PlaybackSound_windReedCrumhornBass);
    (lit "wind.reed.crumhorn.great-bass", PlaybackSound_windReedCrumhornGreatBass); (lit "wind.reed.crumhorn.soprano", PlaybackSound_windReedCrumhornSoprano);
    (lit "wind.reed.crumhorn.tenor", PlaybackSound_windReedCrumhornTenor); (lit "wind.reed.diple", PlaybackSound_windReedDiple);
    (lit "wind.reed.diplica", PlaybackSound_windReedDiplica); (lit "wind.reed.duduk", PlaybackSound_windReedDuduk);
    (lit "wind.reed.dulcian", PlaybackSound_windReedDulcian); (lit "wind.reed.dulzaina", PlaybackSound_windReedDulzaina);
    (lit "wind.reed.english-horn", PlaybackSound_windReedEnglishHorn); (lit "wind.reed.guanzi", PlaybackSound_windReedGuanzi);
    (lit "wind.reed.harmonica", PlaybackSound_windReedHarmonica); (lit "wind.reed.harmonica.bass", PlaybackSound_windReedHarmonicaBass);
    (lit "wind.reed.heckel-clarina", PlaybackSound_windReedHeckelClarina); (lit "wind.reed.heckelphone", PlaybackSound_windReedHeckelphone);
    (lit "wind.reed.heckelphone.piccolo", PlaybackSound_windReedHeckelphonePiccolo); (lit "wind.reed.heckelphone-clarinet", PlaybackSound_windReedHeckelphoneClarinet);
    (lit "wind.reed.hichiriki", PlaybackSound_windReedHichiriki); (lit "wind.reed.hirtenschalmei", PlaybackSound_windReedHirtenschalmei);
    (lit "wind.reed.hne", PlaybackSound_windReedHne); (lit "wind.reed.hornpipe", PlaybackSound_windReedHornpipe);
    (lit "wind.reed.houguan", PlaybackSound_windReedHouguan); (lit "wind.reed.hulusi", PlaybackSound_windReedHulusi);
    (lit "wind.reed.jogi-baja", PlaybackSound_windReedJogiBaja); (lit "wind.reed.ken-bau", PlaybackSound_windReedKenBau);
    (lit "wind.reed.khaen-mouth-organ", PlaybackSound_windReedKhaenMouthOrgan); (lit "wind.reed.launeddas", PlaybackSound_windReedLauneddas);
    (lit "wind.reed.maqrunah", PlaybackSound_windReedMaqrunah); (lit "wind.reed.melodica", PlaybackSound_windReedMelodica);
    (lit "wind.reed.mijwiz", PlaybackSound_windReedMijwiz); (lit "wind.reed.mizmar", PlaybackSound_windReedMizmar);
    (lit "wind.reed.nadaswaram", PlaybackSound_windReedNadaswaram); (lit "wind.reed.oboe", PlaybackSound_windReedOboe);
    (lit "wind.reed.oboe.bass", PlaybackSound_windReedOboeBass); (lit "wind.reed.oboe.piccolo", PlaybackSound_windReedOboePiccolo);
    (lit "wind.reed.oboe-da-caccia", PlaybackSound_windReedOboeDaCaccia); (lit "wind.reed.oboe-damore", PlaybackSound_windReedOboeDamore);
    (lit "wind.reed.octavin", PlaybackSound_windReedOctavin); (lit "wind.reed.pi", PlaybackSound_windReedPi);
    (lit "wind.reed.pibgorn", PlaybackSound_windReedPibgorn); (lit "wind.reed.piri", PlaybackSound_windReedPiri);
    (lit "wind.reed.rackett", PlaybackSound_windReedRackett); (lit "wind.reed.rauschpfeife", PlaybackSound_windReedRauschpfeife);
    (lit "wind.reed.rhaita", PlaybackSound_windReedRhaita); (lit "wind.reed.rothphone", PlaybackSound_windReedRothphone);
    (lit "wind.reed.sarrusaphone", PlaybackSound_windReedSarrusaphone); (lit "wind.reed.saxonette", PlaybackSound_windReedSaxonette);
    (lit "wind.reed.saxophone", PlaybackSound_windReedSaxophone); (lit "wind.reed.saxophone.alto", PlaybackSound_windReedSaxophoneAlto);
    (lit "wind.reed.saxophone.aulochrome", PlaybackSound_windReedSaxophoneAulochrome); (lit "wind.reed.saxophone.baritone", PlaybackSound_windReedSaxophoneBaritone);
    (lit "wind.reed.saxophone.bass", PlaybackSound_windReedSaxophoneBass); (lit "wind.reed.saxophone.contrabass", PlaybackSound_windReedSaxophoneContrabass);
    (lit "wind.reed.saxophone.melody", PlaybackSound_windReedSaxophoneMelody); (lit "wind.reed.saxophone.mezzo-soprano", PlaybackSound_windReedSaxophoneMezzoSoprano);
    (lit "wind.reed.saxophone.sopranino", PlaybackSound_windReedSaxophoneSopranino); (lit "wind.reed.saxophone.sopranissimo", PlaybackSound_windReedSaxophoneSopranissimo);
    (lit "wind.reed.saxophone.soprano", PlaybackSound_windReedSaxophoneSoprano); (lit "wind.reed.saxophone.subcontrabass", PlaybackSound_windReedSaxophoneSubcontrabass);
    (lit "wind.reed.saxophone.tenor", PlaybackSound_windReedSaxophoneTenor); (lit "wind.reed.shawm", PlaybackSound_windReedShawm);
    (lit "wind.reed.shenai", PlaybackSound_windReedShenai); (lit "wind.reed.sheng", PlaybackSound_windReedSheng);
    (lit "wind.reed.sipsi", PlaybackSound_windReedSipsi); (lit "wind.reed.sopila", PlaybackSound_windReedSopila);
    (lit "wind.reed.sorna", PlaybackSound_windReedSorna); (lit "wind.reed.sralai", PlaybackSound_windReedSralai);
    (lit "wind.reed.suona", PlaybackSound_windReedSuona); (lit "wind.reed.surnai", PlaybackSound_windReedSurnai);
    (lit "wind.reed.taepyeongso", PlaybackSound_windReedTaepyeongso); (lit "wind.reed.tarogato", PlaybackSound_windReedTarogato);
    (lit "wind.reed.tarogato.ancient", PlaybackSound_windReedTarogatoAncient); (lit "wind.reed.trompeta-china", PlaybackSound_windReedTrompetaChina);
    (lit "wind.reed.tubax", PlaybackSound_windReedTubax); (lit "wind.reed.xaphoon", PlaybackSound_windReedXaphoon);
    (lit "wind.reed.zhaleika", PlaybackSound_windReedZhaleika); (lit "wind.reed.zurla", PlaybackSound_windReedZurla);
    (lit "wind.reed.zurna", PlaybackSound_windReedZurna); (lit "wood.agogo-block", PlaybackSound_woodAgogoBlock);
    (lit "wood.agung-a-tamlang", PlaybackSound_woodAgungATamlang); (lit "wood.ahoko", PlaybackSound_woodAhoko);
    (lit "wood.bones", PlaybackSound_woodBones); (lit "wood.castanets", PlaybackSound_woodCastanets);
    (lit "wood.claves", PlaybackSound_woodClaves); (lit "wood.drum-sticks", PlaybackSound_woodDrumSticks);
    (lit "wood.gourd", PlaybackSound_woodGourd); (lit "wood.granite-block", PlaybackSound_woodGraniteBlock);
    (lit "wood.guban", PlaybackSound_woodGuban); (lit "wood.guiro", PlaybackSound_woodGuiro);
    (lit "wood.hyoushigi", PlaybackSound_woodHyoushigi); (lit "wood.ipu", PlaybackSound_woodIpu);
    (lit "wood.jam-block", PlaybackSound_woodJamBlock); (lit "wood.kaekeeke", PlaybackSound_woodKaekeeke);
    (lit "wood.kagul", PlaybackSound_woodKagul); (lit "wood.kalaau", PlaybackSound_woodKalaau);
    (lit "wood.kashiklar", PlaybackSound_woodKashiklar); (lit "wood.kubing", PlaybackSound_woodKubing);
    (lit "wood.pan-clappers", PlaybackSound_woodPanClappers); (lit "wood.sand-block", PlaybackSound_woodSandBlock);
    (lit "wood.slapstick", PlaybackSound_woodSlapstick); (lit "wood.stir-drum", PlaybackSound_woodStirDrum);
    (lit "wood.temple-block", PlaybackSound_woodTempleBlock); (lit "wood.tic-toc-block", PlaybackSound_woodTicTocBlock);
    (lit "wood.tonetang", PlaybackSound_woodTonetang); (lit "wood.wood-block", PlaybackSound_woodWoodBlock) ].

(* EnumWithString.h:56-59: a text that is none of them throws runtime_error *)
Definition PlaybackSoundFromString (inValue : str) : outcome PlaybackSound :=
  match lookup_text PlaybackSound_chain inValue with
  | Some v => Ok v
  | None => Throw
  end.

