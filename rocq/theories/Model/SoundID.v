(* The API sound identifiers: include/mx/api/SoundID.h. *)
From Coq Require Import Ascii String List ZArith.
From Verif Require Import Model.Text Model.EnumLookup.
Import ListNotations.
Open Scope Z_scope.

(** Sourcecode/include/mx/api/SoundID.h:23-913 *)
Unset Elimination Schemes.
Inductive api_SoundID : Set :=
  | api_SoundID_unspecified | api_SoundID_errorBadString | api_SoundID_brassAlphorn | api_SoundID_brassAltoHorn | api_SoundID_brassBaritoneHorn
  | api_SoundID_brassBugle | api_SoundID_brassBugleAlto | api_SoundID_brassBugleBaritone | api_SoundID_brassBugleContrabass | api_SoundID_brassBugleEuphoniumBugle
  | api_SoundID_brassBugleMellophoneBugle | api_SoundID_brassBugleSoprano | api_SoundID_brassCimbasso | api_SoundID_brassConchShell | api_SoundID_brassCornet
  | api_SoundID_brassCornetSoprano | api_SoundID_brassCornett | api_SoundID_brassCornettTenor | api_SoundID_brassCornettino | api_SoundID_brassDidgeridoo
  | api_SoundID_brassEuphonium | api_SoundID_brassFiscorn | api_SoundID_brassFlugelhorn | api_SoundID_brassFrenchHorn | api_SoundID_brassGroup
  | api_SoundID_brassGroupSynth | api_SoundID_brassHelicon | api_SoundID_brassHoragai | api_SoundID_brassKuhlohorn | api_SoundID_brassMellophone
  | api_SoundID_brassNaturalHorn | api_SoundID_brassOphicleide | api_SoundID_brassPosthorn | api_SoundID_brassRagDung | api_SoundID_brassSackbutt
  | api_SoundID_brassSackbuttAlto | api_SoundID_brassSackbuttBass | api_SoundID_brassSackbuttTenor | api_SoundID_brassSaxhorn | api_SoundID_brassSerpent
  | api_SoundID_brassShofar | api_SoundID_brassSousaphone | api_SoundID_brassTrombone | api_SoundID_brassTromboneAlto | api_SoundID_brassTromboneBass
  | api_SoundID_brassTromboneContrabass | api_SoundID_brassTromboneTenor | api_SoundID_brassTrumpet | api_SoundID_brassTrumpetBaroque | api_SoundID_brassTrumpetBass
  | api_SoundID_brassTrumpetBflat | api_SoundID_brassTrumpetC | api_SoundID_brassTrumpetD | api_SoundID_brassTrumpetPiccolo | api_SoundID_brassTrumpetPocket
  | api_SoundID_brassTrumpetSlide | api_SoundID_brassTrumpetTenor | api_SoundID_brassTuba | api_SoundID_brassTubaBass | api_SoundID_brassTubaSubcontrabass
  | api_SoundID_brassViennaHorn | api_SoundID_brassVuvuzela | api_SoundID_brassWagnerTuba | api_SoundID_drumApentemma | api_SoundID_drumAshiko
  | api_SoundID_drumAtabaque | api_SoundID_drumAtoke | api_SoundID_drumAtsimevu | api_SoundID_drumAxatse | api_SoundID_drumBassDrum
  | api_SoundID_drumBata | api_SoundID_drumBataItotele | api_SoundID_drumBataIya | api_SoundID_drumBataOkonkolo | api_SoundID_drumBendir
  | api_SoundID_drumBodhran | api_SoundID_drumBombo | api_SoundID_drumBongo | api_SoundID_drumBougarabou | api_SoundID_drumBuffaloDrum
  | api_SoundID_drumCajon | api_SoundID_drumChenda | api_SoundID_drumChuDaiko | api_SoundID_drumConga | api_SoundID_drumCuica
  | api_SoundID_drumDabakan | api_SoundID_drumDaff | api_SoundID_drumDafli | api_SoundID_drumDaibyosi | api_SoundID_drumDamroo
  | api_SoundID_drumDarabuka | api_SoundID_drumDef | api_SoundID_drumDhol | api_SoundID_drumDholak | api_SoundID_drumDjembe
  | api_SoundID_drumDoira | api_SoundID_drumDondo | api_SoundID_drumDounDounBa | api_SoundID_drumDuff | api_SoundID_drumDumbek
  | api_SoundID_drumFontomfrom | api_SoundID_drumFrameDrum | api_SoundID_drumFrameDrumArabian | api_SoundID_drumGeduk | api_SoundID_drumGhatam
  | api_SoundID_drumGome | api_SoundID_drumGroup | api_SoundID_drumGroupChinese | api_SoundID_drumGroupEwe | api_SoundID_drumGroupIndian
  | api_SoundID_drumGroupSet | api_SoundID_drumHandDrum | api_SoundID_drumHiraDaiko | api_SoundID_drumIbo | api_SoundID_drumIgihumurizo
  | api_SoundID_drumInyahura | api_SoundID_drumIshakwe | api_SoundID_drumJangGu | api_SoundID_drumKagan | api_SoundID_drumKakko
  | api_SoundID_drumKanjira | api_SoundID_drumKendhang | api_SoundID_drumKendhangAgeng | api_SoundID_drumKendhangCiblon | api_SoundID_drumKenkeni
  | api_SoundID_drumKhol | api_SoundID_drumKickDrum | api_SoundID_drumKidi | api_SoundID_drumKoDaiko | api_SoundID_drumKpanlogo
  | api_SoundID_drumKudum | api_SoundID_drumLambeg | api_SoundID_drumLionDrum | api_SoundID_drumLogDrum | api_SoundID_drumLogDrumAfrican
  | api_SoundID_drumLogDrumNative | api_SoundID_drumLogDrumNigerian | api_SoundID_drumMadal | api_SoundID_drumMaddale | api_SoundID_drumMridangam
  | api_SoundID_drumNaal | api_SoundID_drumNagadoDaiko | api_SoundID_drumNagara | api_SoundID_drumNaqara | api_SoundID_drumODaiko
  | api_SoundID_drumOkawa | api_SoundID_drumOkedoDaiko | api_SoundID_drumPahuHula | api_SoundID_drumPakhawaj | api_SoundID_drumPandeiro
  | api_SoundID_drumPandero | api_SoundID_drumPowwow | api_SoundID_drumPueblo | api_SoundID_drumRepinique | api_SoundID_drumRiq
  | api_SoundID_drumRototom | api_SoundID_drumSabar | api_SoundID_drumSakara | api_SoundID_drumSampho | api_SoundID_drumSangban
  | api_SoundID_drumShimeDaiko | api_SoundID_drumSlitDrum | api_SoundID_drumSlitDrumKrin | api_SoundID_drumSnareDrum | api_SoundID_drumSnareDrumElectric
  | api_SoundID_drumSogo | api_SoundID_drumSurdo | api_SoundID_drumTabla | api_SoundID_drumTablaBayan | api_SoundID_drumTablaDayan
  | api_SoundID_drumTaiko | api_SoundID_drumTalking | api_SoundID_drumTama | api_SoundID_drumTamborita | api_SoundID_drumTambourine
  | api_SoundID_drumTamte | api_SoundID_drumTangku | api_SoundID_drumTanTan | api_SoundID_drumTaphon | api_SoundID_drumTar
  | api_SoundID_drumTasha | api_SoundID_drumTenorDrum | api_SoundID_drumTeponaxtli | api_SoundID_drumThavil | api_SoundID_drumTheBox
  | api_SoundID_drumTimbale | api_SoundID_drumTimpani | api_SoundID_drumTinaja | api_SoundID_drumToere | api_SoundID_drumTombak
  | api_SoundID_drumTomTom | api_SoundID_drumTomTomSynth | api_SoundID_drumTsuzumi | api_SoundID_drumTumbak | api_SoundID_drumUchiwaDaiko
  | api_SoundID_drumUdaku | api_SoundID_drumUdu | api_SoundID_drumZarb | api_SoundID_effectAeolianHarp | api_SoundID_effectAirHorn
  | api_SoundID_effectApplause | api_SoundID_effectBassStringSlap | api_SoundID_effectBird | api_SoundID_effectBirdNightingale | api_SoundID_effectBirdTweet
  | api_SoundID_effectBreath | api_SoundID_effectBubble | api_SoundID_effectBullroarer | api_SoundID_effectBurst | api_SoundID_effectCar
  | api_SoundID_effectCarCrash | api_SoundID_effectCarEngine | api_SoundID_effectCarPass | api_SoundID_effectCarStop | api_SoundID_effectCrickets
  | api_SoundID_effectDog | api_SoundID_effectDoorCreak | api_SoundID_effectDoorSlam | api_SoundID_effectExplosion | api_SoundID_effectFluteKeyClick
  | api_SoundID_effectFootsteps | api_SoundID_effectFrogs | api_SoundID_effectGuitarCutting | api_SoundID_effectGuitarFret | api_SoundID_effectGunshot
  | api_SoundID_effectHandClap | api_SoundID_effectHeartbeat | api_SoundID_effectHelicopter | api_SoundID_effectHighQ | api_SoundID_effectHorseGallop
  | api_SoundID_effectJetPlane | api_SoundID_effectLaserGun | api_SoundID_effectLaugh | api_SoundID_effectLionsRoar | api_SoundID_effectMachineGun
  | api_SoundID_effectMarchingMachine | api_SoundID_effectMetronomeBell | api_SoundID_effectMetronomeClick | api_SoundID_effectPat | api_SoundID_effectPunch
  | api_SoundID_effectRain | api_SoundID_effectScratch | api_SoundID_effectScream | api_SoundID_effectSeashore | api_SoundID_effectSiren
  | api_SoundID_effectSlap | api_SoundID_effectSnap | api_SoundID_effectStamp | api_SoundID_effectStarship | api_SoundID_effectStream
  | api_SoundID_effectTelephoneRing | api_SoundID_effectThunder | api_SoundID_effectTrain | api_SoundID_effectTrashCan | api_SoundID_effectWhip
  | api_SoundID_effectWhistle | api_SoundID_effectWhistleMouthSiren | api_SoundID_effectWhistlePolice | api_SoundID_effectWhistleSlide | api_SoundID_effectWhistleTrain
  | api_SoundID_effectWind | api_SoundID_keyboardAccordion | api_SoundID_keyboardBandoneon | api_SoundID_keyboardCelesta | api_SoundID_keyboardClavichord
  | api_SoundID_keyboardClavichordSynth | api_SoundID_keyboardConcertina | api_SoundID_keyboardFortepiano | api_SoundID_keyboardHarmonium | api_SoundID_keyboardHarpsichord
  | api_SoundID_keyboardOndesMartenot | api_SoundID_keyboardOrgan | api_SoundID_keyboardOrganDrawbar | api_SoundID_keyboardOrganPercussive | api_SoundID_keyboardOrganPipe
  | api_SoundID_keyboardOrganReed | api_SoundID_keyboardOrganRotary | api_SoundID_keyboardPiano | api_SoundID_keyboardPianoElectric | api_SoundID_keyboardPianoGrand
  | api_SoundID_keyboardPianoHonkyTonk | api_SoundID_keyboardPianoPrepared | api_SoundID_keyboardPianoToy | api_SoundID_keyboardPianoUpright | api_SoundID_keyboardVirginal
  | api_SoundID_metalAdodo | api_SoundID_metalAnvil | api_SoundID_metalBabendil | api_SoundID_metalBellsAgogo | api_SoundID_metalBellsAlmglocken
  | api_SoundID_metalBellsBellPlate | api_SoundID_metalBellsBellTree | api_SoundID_metalBellsCarillon | api_SoundID_metalBellsChimes | api_SoundID_metalBellsChimta
  | api_SoundID_metalBellsChippli | api_SoundID_metalBellsChurch | api_SoundID_metalBellsCowbell | api_SoundID_metalBellsDawuro | api_SoundID_metalBellsGankokwe
  | api_SoundID_metalBellsGhungroo | api_SoundID_metalBellsHatheli | api_SoundID_metalBellsJingleBell | api_SoundID_metalBellsKhartal | api_SoundID_metalBellsMarkTree
  | api_SoundID_metalBellsSistrum | api_SoundID_metalBellsSleighBells | api_SoundID_metalBellsTemple | api_SoundID_metalBellsTibetan | api_SoundID_metalBellsTinklebell
  | api_SoundID_metalBellsTrychel | api_SoundID_metalBellsWindChimes | api_SoundID_metalBellsZills | api_SoundID_metalBerimbau | api_SoundID_metalBrakeDrums
  | api_SoundID_metalCrotales | api_SoundID_metalCymbalBo | api_SoundID_metalCymbalCengCeng | api_SoundID_metalCymbalChabara | api_SoundID_metalCymbalChinese
  | api_SoundID_metalCymbalChing | api_SoundID_metalCymbalClash | api_SoundID_metalCymbalCrash | api_SoundID_metalCymbalFinger | api_SoundID_metalCymbalHand
  | api_SoundID_metalCymbalKesi | api_SoundID_metalCymbalManjeera | api_SoundID_metalCymbalReverse | api_SoundID_metalCymbalRide | api_SoundID_metalCymbalSizzle
  | api_SoundID_metalCymbalSplash | api_SoundID_metalCymbalSuspended | api_SoundID_metalCymbalTebyoshi | api_SoundID_metalCymbalTibetan | api_SoundID_metalCymbalTingsha
  | api_SoundID_metalFlexatone | api_SoundID_metalGong | api_SoundID_metalGongAgeng | api_SoundID_metalGongAgung | api_SoundID_metalGongChanchiki
  | api_SoundID_metalGongChinese | api_SoundID_metalGongGandingan | api_SoundID_metalGongKempul | api_SoundID_metalGongKempyang | api_SoundID_metalGongKetuk
  | api_SoundID_metalGongKkwenggwari | api_SoundID_metalGongLuo | api_SoundID_metalGongSinging | api_SoundID_metalGongThai | api_SoundID_metalGuira
  | api_SoundID_metalHang | api_SoundID_metalHiHat | api_SoundID_metalJawHarp | api_SoundID_metalKengong | api_SoundID_metalMurchang
  | api_SoundID_metalMusicalSaw | api_SoundID_metalSingingBowl | api_SoundID_metalSpoons | api_SoundID_metalSteelDrums | api_SoundID_metalTamtam
  | api_SoundID_metalThundersheet | api_SoundID_metalTriangle | api_SoundID_metalWashboard | api_SoundID_pitchedPercussionAngklung | api_SoundID_pitchedPercussionBalafon
  | api_SoundID_pitchedPercussionBellLyre | api_SoundID_pitchedPercussionBells | api_SoundID_pitchedPercussionBianqing | api_SoundID_pitchedPercussionBianzhong | api_SoundID_pitchedPercussionBonang
  | api_SoundID_pitchedPercussionCimbalom | api_SoundID_pitchedPercussionCrystalGlasses | api_SoundID_pitchedPercussionDanTamThapLuc | api_SoundID_pitchedPercussionFangxiang | api_SoundID_pitchedPercussionGandinganAKayo
  | api_SoundID_pitchedPercussionGangsa | api_SoundID_pitchedPercussionGender | api_SoundID_pitchedPercussionGiying | api_SoundID_pitchedPercussionGlassHarmonica | api_SoundID_pitchedPercussionGlockenspiel
  | api_SoundID_pitchedPercussionGlockenspielAlto | api_SoundID_pitchedPercussionGlockenspielSoprano | api_SoundID_pitchedPercussionGyil | api_SoundID_pitchedPercussionHammerDulcimer | api_SoundID_pitchedPercussionHandbells
  | api_SoundID_pitchedPercussionKalimba | api_SoundID_pitchedPercussionKantil | api_SoundID_pitchedPercussionKhim | api_SoundID_pitchedPercussionKulintang | api_SoundID_pitchedPercussionKulintangAKayo
  | api_SoundID_pitchedPercussionKulintangATiniok | api_SoundID_pitchedPercussionLikembe | api_SoundID_pitchedPercussionLuntang | api_SoundID_pitchedPercussionMarimba | api_SoundID_pitchedPercussionMarimbaBass
  | api_SoundID_pitchedPercussionMbira | api_SoundID_pitchedPercussionMbiraArray | api_SoundID_pitchedPercussionMetallophone | api_SoundID_pitchedPercussionMetallophoneAlto | api_SoundID_pitchedPercussionMetallophoneBass
  | api_SoundID_pitchedPercussionMetallophoneSoprano | api_SoundID_pitchedPercussionMusicBox | api_SoundID_pitchedPercussionPelogPanerus | api_SoundID_pitchedPercussionPemade | api_SoundID_pitchedPercussionPenyacah
  | api_SoundID_pitchedPercussionRanatEk | api_SoundID_pitchedPercussionRanatEkLek | api_SoundID_pitchedPercussionRanatThum | api_SoundID_pitchedPercussionRanatThumLek | api_SoundID_pitchedPercussionReyong
  | api_SoundID_pitchedPercussionSanza | api_SoundID_pitchedPercussionSaronBarung | api_SoundID_pitchedPercussionSaronDemong | api_SoundID_pitchedPercussionSaronPanerus | api_SoundID_pitchedPercussionSlendroPanerus
  | api_SoundID_pitchedPercussionSlentem | api_SoundID_pitchedPercussionTsymbaly | api_SoundID_pitchedPercussionTubes | api_SoundID_pitchedPercussionTubularBells | api_SoundID_pitchedPercussionVibraphone
  | api_SoundID_pitchedPercussionXylophone | api_SoundID_pitchedPercussionXylophoneAlto | api_SoundID_pitchedPercussionXylophoneBass | api_SoundID_pitchedPercussionXylophoneSoprano | api_SoundID_pitchedPercussionXylorimba
  | api_SoundID_pitchedPercussionYangqin | api_SoundID_pluckArchlute | api_SoundID_pluckAutoharp | api_SoundID_pluckBaglama | api_SoundID_pluckBajo
  | api_SoundID_pluckBalalaika | api_SoundID_pluckBalalaikaAlto | api_SoundID_pluckBalalaikaBass | api_SoundID_pluckBalalaikaContrabass | api_SoundID_pluckBalalaikaPiccolo
  | api_SoundID_pluckBalalaikaPrima | api_SoundID_pluckBalalaikaSecunda | api_SoundID_pluckBandola | api_SoundID_pluckBandura | api_SoundID_pluckBandurria
  | api_SoundID_pluckBanjo | api_SoundID_pluckBanjoTenor | api_SoundID_pluckBanjolele | api_SoundID_pluckBarbat | api_SoundID_pluckBass
  | api_SoundID_pluckBassAcoustic | api_SoundID_pluckBassBolon | api_SoundID_pluckBassElectric | api_SoundID_pluckBassFretless | api_SoundID_pluckBassGuitarron
  | api_SoundID_pluckBassSynth | api_SoundID_pluckBassSynthLead | api_SoundID_pluckBassWashtub | api_SoundID_pluckBassWhamola | api_SoundID_pluckBegena
  | api_SoundID_pluckBiwa | api_SoundID_pluckBordonua | api_SoundID_pluckBouzouki | api_SoundID_pluckBouzoukiIrish | api_SoundID_pluckCelticHarp
  | api_SoundID_pluckCharango | api_SoundID_pluckChitarraBattente | api_SoundID_pluckCithara | api_SoundID_pluckCittern | api_SoundID_pluckCuatro
  | api_SoundID_pluckDanBau | api_SoundID_pluckDanNguyet | api_SoundID_pluckDanTranh | api_SoundID_pluckDanTyBa | api_SoundID_pluckDiddleyBow
  | api_SoundID_pluckDomra | api_SoundID_pluckDomu | api_SoundID_pluckDulcimer | api_SoundID_pluckDutar | api_SoundID_pluckDuxianqin
  | api_SoundID_pluckEktara | api_SoundID_pluckGeomungo | api_SoundID_pluckGottuvadhyam | api_SoundID_pluckGuitar | api_SoundID_pluckGuitarAcoustic
  | api_SoundID_pluckGuitarElectric | api_SoundID_pluckGuitarNylonString | api_SoundID_pluckGuitarPedalSteel | api_SoundID_pluckGuitarPortuguese | api_SoundID_pluckGuitarRequinto
  | api_SoundID_pluckGuitarResonator | api_SoundID_pluckGuitarSteelString | api_SoundID_pluckGuitjo | api_SoundID_pluckGuitjoDoubleNeck | api_SoundID_pluckGuqin
  | api_SoundID_pluckGuzheng | api_SoundID_pluckGuzhengChoazhou | api_SoundID_pluckHarp | api_SoundID_pluckHarpGuitar | api_SoundID_pluckHuapanguera
  | api_SoundID_pluckJaranaHuasteca | api_SoundID_pluckJaranaJarocha | api_SoundID_pluckJaranaJarochaMosquito | api_SoundID_pluckJaranaJarochaPrimera | api_SoundID_pluckJaranaJarochaSegunda
  | api_SoundID_pluckJaranaJarochaTercera | api_SoundID_pluckKabosy | api_SoundID_pluckKantele | api_SoundID_pluckKanun | api_SoundID_pluckKayagum
  | api_SoundID_pluckKobza | api_SoundID_pluckKomuz | api_SoundID_pluckKora | api_SoundID_pluckKoto | api_SoundID_pluckKutiyapi
  | api_SoundID_pluckLangeleik | api_SoundID_pluckLaud | api_SoundID_pluckLute | api_SoundID_pluckLyre | api_SoundID_pluckMandobass
  | api_SoundID_pluckMandocello | api_SoundID_pluckMandola | api_SoundID_pluckMandolin | api_SoundID_pluckMandolinOctave | api_SoundID_pluckMandora
  | api_SoundID_pluckMandore | api_SoundID_pluckMarovany | api_SoundID_pluckMusicalBow | api_SoundID_pluckNgoni | api_SoundID_pluckOud
  | api_SoundID_pluckPipa | api_SoundID_pluckPsaltery | api_SoundID_pluckRuan | api_SoundID_pluckSallaneh | api_SoundID_pluckSanshin
  | api_SoundID_pluckSantoor | api_SoundID_pluckSanxian | api_SoundID_pluckSarod | api_SoundID_pluckSaung | api_SoundID_pluckSaz
  | api_SoundID_pluckSe | api_SoundID_pluckSetar | api_SoundID_pluckShamisen | api_SoundID_pluckSitar | api_SoundID_pluckSynth
  | api_SoundID_pluckSynthCharang | api_SoundID_pluckSynthChiff | api_SoundID_pluckSynthStick | api_SoundID_pluckTambura | api_SoundID_pluckTamburaBulgarian
  | api_SoundID_pluckTamburaFemale | api_SoundID_pluckTamburaMale | api_SoundID_pluckTar | api_SoundID_pluckTheorbo | api_SoundID_pluckTimple
  | api_SoundID_pluckTiple | api_SoundID_pluckTres | api_SoundID_pluckUkulele | api_SoundID_pluckUkuleleTenor | api_SoundID_pluckValiha
  | api_SoundID_pluckVeena | api_SoundID_pluckVeenaMohan | api_SoundID_pluckVeenaRudra | api_SoundID_pluckVeenaVichitra | api_SoundID_pluckVihuela
  | api_SoundID_pluckVihuelaMexican | api_SoundID_pluckXalam | api_SoundID_pluckYueqin | api_SoundID_pluckZither | api_SoundID_pluckZitherOvertone
  | api_SoundID_rattleAfoxe | api_SoundID_rattleBirds | api_SoundID_rattleCabasa | api_SoundID_rattleCaxixi | api_SoundID_rattleCog
  | api_SoundID_rattleGanza | api_SoundID_rattleHosho | api_SoundID_rattleJawbone | api_SoundID_rattleKayamba | api_SoundID_rattleKpokoKpoko
  | api_SoundID_rattleLavaStones | api_SoundID_rattleMaraca | api_SoundID_rattleRainStick | api_SoundID_rattleRatchet | api_SoundID_rattleRattle
  | api_SoundID_rattleShaker | api_SoundID_rattleShakerEgg | api_SoundID_rattleShekere | api_SoundID_rattleSistre | api_SoundID_rattleTelevi
  | api_SoundID_rattleVibraslap | api_SoundID_rattleWasembe | api_SoundID_stringsAjaeng | api_SoundID_stringsArpeggione | api_SoundID_stringsBaryton
  | api_SoundID_stringsCello | api_SoundID_stringsCelloPiccolo | api_SoundID_stringsContrabass | api_SoundID_stringsCrwth | api_SoundID_stringsDanGao
  | api_SoundID_stringsDihu | api_SoundID_stringsErhu | api_SoundID_stringsErxian | api_SoundID_stringsEsraj | api_SoundID_stringsFiddle
  | api_SoundID_stringsFiddleHardanger | api_SoundID_stringsGadulka | api_SoundID_stringsGaohu | api_SoundID_stringsGehu | api_SoundID_stringsGroup
  | api_SoundID_stringsGroupSynth | api_SoundID_stringsHaegeum | api_SoundID_stringsHurdyGurdy | api_SoundID_stringsIgil | api_SoundID_stringsKamancha
  | api_SoundID_stringsKokyu | api_SoundID_stringsLaruan | api_SoundID_stringsLeiqin | api_SoundID_stringsLirone | api_SoundID_stringsLyraByzantine
  | api_SoundID_stringsLyraCretan | api_SoundID_stringsMorinKhuur | api_SoundID_stringsNyckelharpa | api_SoundID_stringsOctobass | api_SoundID_stringsRebab
  | api_SoundID_stringsRebec | api_SoundID_stringsSarangi | api_SoundID_stringsStrohViolin | api_SoundID_stringsTrombaMarina | api_SoundID_stringsVielle
  | api_SoundID_stringsViol | api_SoundID_stringsViolAlto | api_SoundID_stringsViolBass | api_SoundID_stringsViolTenor | api_SoundID_stringsViolTreble
  | api_SoundID_stringsViolViolone | api_SoundID_stringsViola | api_SoundID_stringsViolaDamore | api_SoundID_stringsViolin | api_SoundID_stringsViolonoPiccolo
  | api_SoundID_stringsViolotta | api_SoundID_stringsYayliTanbur | api_SoundID_stringsYazheng | api_SoundID_stringsZhonghu | api_SoundID_synthEffects
  | api_SoundID_synthEffectsAtmosphere | api_SoundID_synthEffectsBrightness | api_SoundID_synthEffectsCrystal | api_SoundID_synthEffectsEchoes | api_SoundID_synthEffectsGoblins
  | api_SoundID_synthEffectsRain | api_SoundID_synthEffectsSciFi | api_SoundID_synthEffectsSoundtrack | api_SoundID_synthGroup | api_SoundID_synthGroupFifths
  | api_SoundID_synthGroupOrchestra | api_SoundID_synthPad | api_SoundID_synthPadBowed | api_SoundID_synthPadChoir | api_SoundID_synthPadHalo
  | api_SoundID_synthPadMetallic | api_SoundID_synthPadPolysynth | api_SoundID_synthPadSweep | api_SoundID_synthPadWarm | api_SoundID_synthTheremin
  | api_SoundID_synthToneSawtooth | api_SoundID_synthToneSine | api_SoundID_synthToneSquare | api_SoundID_voiceAa | api_SoundID_voiceAlto
  | api_SoundID_voiceAw | api_SoundID_voiceBaritone | api_SoundID_voiceBass | api_SoundID_voiceChild | api_SoundID_voiceCountertenor
  | api_SoundID_voiceDoo | api_SoundID_voiceEe | api_SoundID_voiceFemale | api_SoundID_voiceKazoo | api_SoundID_voiceMale
  | api_SoundID_voiceMezzoSoprano | api_SoundID_voiceMm | api_SoundID_voiceOo | api_SoundID_voicePercussion | api_SoundID_voicePercussionBeatbox
  | api_SoundID_voiceSoprano | api_SoundID_voiceSynth | api_SoundID_voiceTalkBox | api_SoundID_voiceTenor | api_SoundID_voiceVocals
  | api_SoundID_windFlutesBansuri | api_SoundID_windFlutesBlownBottle | api_SoundID_windFlutesCalliope | api_SoundID_windFlutesDanso | api_SoundID_windFlutesDiZi
  | api_SoundID_windFlutesDvojnice | api_SoundID_windFlutesFife | api_SoundID_windFlutesFlageolet | api_SoundID_windFlutesFlute | api_SoundID_windFlutesFluteAlto
  | api_SoundID_windFlutesFluteBass | api_SoundID_windFlutesFluteContraAlto | api_SoundID_windFlutesFluteContrabass | api_SoundID_windFlutesFluteDoubleContrabass | api_SoundID_windFlutesFluteIrish
  | api_SoundID_windFlutesFlutePiccolo | api_SoundID_windFlutesFluteSubcontrabass | api_SoundID_windFlutesFujara | api_SoundID_windFlutesGemshorn | api_SoundID_windFlutesHocchiku
  | api_SoundID_windFlutesHun | api_SoundID_windFlutesKaval | api_SoundID_windFlutesKawala | api_SoundID_windFlutesKhlui | api_SoundID_windFlutesKnotweed
  | api_SoundID_windFlutesKoncovkaAlto | api_SoundID_windFlutesKoudi | api_SoundID_windFlutesNey | api_SoundID_windFlutesNohkan | api_SoundID_windFlutesNose
  | api_SoundID_windFlutesOcarina | api_SoundID_windFlutesOvertoneTenor | api_SoundID_windFlutesPalendag | api_SoundID_windFlutesPanpipes | api_SoundID_windFlutesQuena
  | api_SoundID_windFlutesRecorder | api_SoundID_windFlutesRecorderAlto | api_SoundID_windFlutesRecorderBass | api_SoundID_windFlutesRecorderContrabass | api_SoundID_windFlutesRecorderDescant
  | api_SoundID_windFlutesRecorderGarklein | api_SoundID_windFlutesRecorderGreatBass | api_SoundID_windFlutesRecorderSopranino | api_SoundID_windFlutesRecorderSoprano | api_SoundID_windFlutesRecorderTenor
  | api_SoundID_windFlutesRyuteki | api_SoundID_windFlutesShakuhachi | api_SoundID_windFlutesShepherdsPipe | api_SoundID_windFlutesShinobue | api_SoundID_windFlutesShvi
  | api_SoundID_windFlutesSuling | api_SoundID_windFlutesTarka | api_SoundID_windFlutesTumpong | api_SoundID_windFlutesVenu | api_SoundID_windFlutesWhistle
  | api_SoundID_windFlutesWhistleAlto | api_SoundID_windFlutesWhistleLowIrish | api_SoundID_windFlutesWhistleShiva | api_SoundID_windFlutesWhistleSlide | api_SoundID_windFlutesWhistleTin
  | api_SoundID_windFlutesWhistleTinBflat | api_SoundID_windFlutesWhistleTinD | api_SoundID_windFlutesXiao | api_SoundID_windFlutesXun | api_SoundID_windGroup
  | api_SoundID_windJug | api_SoundID_windPipesBagpipes | api_SoundID_windPipesGaida | api_SoundID_windPipesHighland | api_SoundID_windPipesUilleann
  | api_SoundID_windPungi | api_SoundID_windReedAlbogue | api_SoundID_windReedAlboka | api_SoundID_windReedAlgaita | api_SoundID_windReedArghul
  | api_SoundID_windReedBassetHorn | api_SoundID_windReedBassoon | api_SoundID_windReedBawu | api_SoundID_windReedBifora | api_SoundID_windReedBombarde
  | api_SoundID_windReedChalumeau | api_SoundID_windReedClarinet | api_SoundID_windReedClarinetA | api_SoundID_windReedClarinetAlto | api_SoundID_windReedClarinetBass
  | api_SoundID_windReedClarinetBasset | api_SoundID_windReedClarinetBflat | api_SoundID_windReedClarinetContraAlto | api_SoundID_windReedClarinetContrabass | api_SoundID_windReedClarinetEflat
  | api_SoundID_windReedClarinetPiccoloAflat | api_SoundID_windReedClarinetteDamour | api_SoundID_windReedContrabass | api_SoundID_windReedContrabassoon | api_SoundID_windReedCornamuse
  | api_SoundID_windReedCromorne | api_SoundID_windReedCrumhorn | api_SoundID_windReedCrumhornAlto | api_SoundID_windReedCrumhornBass | api_SoundID_windReedCrumhornGreatBass
  | api_SoundID_windReedCrumhornSoprano | api_SoundID_windReedCrumhornTenor | api_SoundID_windReedDiple | api_SoundID_windReedDiplica | api_SoundID_windReedDuduk
  | api_SoundID_windReedDulcian | api_SoundID_windReedDulzaina | api_SoundID_windReedEnglishHorn | api_SoundID_windReedGuanzi | api_SoundID_windReedHarmonica
  | api_SoundID_windReedHarmonicaBass | api_SoundID_windReedHeckelClarina | api_SoundID_windReedHeckelphone | api_SoundID_windReedHeckelphonePiccolo | api_SoundID_windReedHeckelphoneClarinet
  | api_SoundID_windReedHichiriki | api_SoundID_windReedHirtenschalmei | api_SoundID_windReedHne | api_SoundID_windReedHornpipe | api_SoundID_windReedHouguan
  | api_SoundID_windReedHulusi | api_SoundID_windReedJogiBaja | api_SoundID_windReedKenBau | api_SoundID_windReedKhaenMouthOrgan | api_SoundID_windReedLauneddas
  | api_SoundID_windReedMaqrunah | api_SoundID_windReedMelodica | api_SoundID_windReedMijwiz | api_SoundID_windReedMizmar | api_SoundID_windReedNadaswaram
  | api_SoundID_windReedOboe | api_SoundID_windReedOboeBass | api_SoundID_windReedOboePiccolo | api_SoundID_windReedOboeDaCaccia | api_SoundID_windReedOboeDamore
  | api_SoundID_windReedOctavin | api_SoundID_windReedPi | api_SoundID_windReedPibgorn | api_SoundID_windReedPiri | api_SoundID_windReedRackett
  | api_SoundID_windReedRauschpfeife | api_SoundID_windReedRhaita | api_SoundID_windReedRothphone | api_SoundID_windReedSarrusaphone | api_SoundID_windReedSaxonette
  | api_SoundID_windReedSaxophone | api_SoundID_windReedSaxophoneAlto | api_SoundID_windReedSaxophoneAulochrome | api_SoundID_windReedSaxophoneBaritone | api_SoundID_windReedSaxophoneBass
  | api_SoundID_windReedSaxophoneContrabass | api_SoundID_windReedSaxophoneMelody | api_SoundID_windReedSaxophoneMezzoSoprano | api_SoundID_windReedSaxophoneSopranino | api_SoundID_windReedSaxophoneSopranissimo
  | api_SoundID_windReedSaxophoneSoprano | api_SoundID_windReedSaxophoneSubcontrabass | api_SoundID_windReedSaxophoneTenor | api_SoundID_windReedShawm | api_SoundID_windReedShenai
  | api_SoundID_windReedSheng | api_SoundID_windReedSipsi | api_SoundID_windReedSopila | api_SoundID_windReedSorna | api_SoundID_windReedSralai
  | api_SoundID_windReedSuona | api_SoundID_windReedSurnai | api_SoundID_windReedTaepyeongso | api_SoundID_windReedTarogato | api_SoundID_windReedTarogatoAncient
  | api_SoundID_windReedTrompetaChina | api_SoundID_windReedTubax | api_SoundID_windReedXaphoon | api_SoundID_windReedZhaleika | api_SoundID_windReedZurla
  | api_SoundID_windReedZurna | api_SoundID_woodAgogoBlock | api_SoundID_woodAgungATamlang | api_SoundID_woodAhoko | api_SoundID_woodBones
  | api_SoundID_woodCastanets | api_SoundID_woodClaves | api_SoundID_woodDrumSticks | api_SoundID_woodGourd | api_SoundID_woodGraniteBlock
  | api_SoundID_woodGuban | api_SoundID_woodGuiro | api_SoundID_woodHyoushigi | api_SoundID_woodIpu | api_SoundID_woodJamBlock
  | api_SoundID_woodKaekeeke | api_SoundID_woodKagul | api_SoundID_woodKalaau | api_SoundID_woodKashiklar | api_SoundID_woodKubing
  | api_SoundID_woodPanClappers | api_SoundID_woodSandBlock | api_SoundID_woodSlapstick | api_SoundID_woodStirDrum | api_SoundID_woodTempleBlock
  | api_SoundID_woodTicTocBlock | api_SoundID_woodTonetang | api_SoundID_woodWoodBlock.

Set Elimination Schemes.
Definition api_SoundID_members : list api_SoundID :=
  [ api_SoundID_unspecified; api_SoundID_errorBadString; api_SoundID_brassAlphorn; api_SoundID_brassAltoHorn;
    api_SoundID_brassBaritoneHorn; api_SoundID_brassBugle; api_SoundID_brassBugleAlto; api_SoundID_brassBugleBaritone;
    api_SoundID_brassBugleContrabass; api_SoundID_brassBugleEuphoniumBugle; api_SoundID_brassBugleMellophoneBugle; api_SoundID_brassBugleSoprano;
    api_SoundID_brassCimbasso; api_SoundID_brassConchShell; api_SoundID_brassCornet; api_SoundID_brassCornetSoprano;
    api_SoundID_brassCornett; api_SoundID_brassCornettTenor; api_SoundID_brassCornettino; api_SoundID_brassDidgeridoo;
    api_SoundID_brassEuphonium; api_SoundID_brassFiscorn; api_SoundID_brassFlugelhorn; api_SoundID_brassFrenchHorn;
    api_SoundID_brassGroup; api_SoundID_brassGroupSynth; api_SoundID_brassHelicon; api_SoundID_brassHoragai;
    api_SoundID_brassKuhlohorn; api_SoundID_brassMellophone; api_SoundID_brassNaturalHorn; api_SoundID_brassOphicleide;
    api_SoundID_brassPosthorn; api_SoundID_brassRagDung; api_SoundID_brassSackbutt; api_SoundID_brassSackbuttAlto;
    api_SoundID_brassSackbuttBass; api_SoundID_brassSackbuttTenor; api_SoundID_brassSaxhorn; api_SoundID_brassSerpent;
    api_SoundID_brassShofar; api_SoundID_brassSousaphone; api_SoundID_brassTrombone; api_SoundID_brassTromboneAlto;
    api_SoundID_brassTromboneBass; api_SoundID_brassTromboneContrabass; api_SoundID_brassTromboneTenor; api_SoundID_brassTrumpet;
    api_SoundID_brassTrumpetBaroque; api_SoundID_brassTrumpetBass; api_SoundID_brassTrumpetBflat; api_SoundID_brassTrumpetC;
    api_SoundID_brassTrumpetD; api_SoundID_brassTrumpetPiccolo; api_SoundID_brassTrumpetPocket; api_SoundID_brassTrumpetSlide;
    api_SoundID_brassTrumpetTenor; api_SoundID_brassTuba; api_SoundID_brassTubaBass; api_SoundID_brassTubaSubcontrabass;
    api_SoundID_brassViennaHorn; api_SoundID_brassVuvuzela; api_SoundID_brassWagnerTuba; api_SoundID_drumApentemma;
    api_SoundID_drumAshiko; api_SoundID_drumAtabaque; api_SoundID_drumAtoke; api_SoundID_drumAtsimevu;
    api_SoundID_drumAxatse; api_SoundID_drumBassDrum; api_SoundID_drumBata; api_SoundID_drumBataItotele;
    api_SoundID_drumBataIya; api_SoundID_drumBataOkonkolo; api_SoundID_drumBendir; api_SoundID_drumBodhran;
    api_SoundID_drumBombo; api_SoundID_drumBongo; api_SoundID_drumBougarabou; api_SoundID_drumBuffaloDrum;
    api_SoundID_drumCajon; api_SoundID_drumChenda; api_SoundID_drumChuDaiko; api_SoundID_drumConga;
    api_SoundID_drumCuica; api_SoundID_drumDabakan; api_SoundID_drumDaff; api_SoundID_drumDafli;
    api_SoundID_drumDaibyosi; api_SoundID_drumDamroo; api_SoundID_drumDarabuka; api_SoundID_drumDef;
    api_SoundID_drumDhol; api_SoundID_drumDholak; api_SoundID_drumDjembe; api_SoundID_drumDoira;
    api_SoundID_drumDondo; api_SoundID_drumDounDounBa; api_SoundID_drumDuff; api_SoundID_drumDumbek;
    api_SoundID_drumFontomfrom; api_SoundID_drumFrameDrum; api_SoundID_drumFrameDrumArabian; api_SoundID_drumGeduk;
    api_SoundID_drumGhatam; api_SoundID_drumGome; api_SoundID_drumGroup; api_SoundID_drumGroupChinese;
    api_SoundID_drumGroupEwe; api_SoundID_drumGroupIndian; api_SoundID_drumGroupSet; api_SoundID_drumHandDrum;
    api_SoundID_drumHiraDaiko; api_SoundID_drumIbo; api_SoundID_drumIgihumurizo; api_SoundID_drumInyahura;
    api_SoundID_drumIshakwe; api_SoundID_drumJangGu; api_SoundID_drumKagan; api_SoundID_drumKakko;
    api_SoundID_drumKanjira; api_SoundID_drumKendhang; api_SoundID_drumKendhangAgeng; api_SoundID_drumKendhangCiblon;
    api_SoundID_drumKenkeni; api_SoundID_drumKhol; api_SoundID_drumKickDrum; api_SoundID_drumKidi;
    api_SoundID_drumKoDaiko; api_SoundID_drumKpanlogo; api_SoundID_drumKudum; api_SoundID_drumLambeg;
    api_SoundID_drumLionDrum; api_SoundID_drumLogDrum; api_SoundID_drumLogDrumAfrican; api_SoundID_drumLogDrumNative;
    api_SoundID_drumLogDrumNigerian; api_SoundID_drumMadal; api_SoundID_drumMaddale; api_SoundID_drumMridangam;
    api_SoundID_drumNaal; api_SoundID_drumNagadoDaiko; api_SoundID_drumNagara; api_SoundID_drumNaqara;
    api_SoundID_drumODaiko; api_SoundID_drumOkawa; api_SoundID_drumOkedoDaiko; api_SoundID_drumPahuHula;
    api_SoundID_drumPakhawaj; api_SoundID_drumPandeiro; api_SoundID_drumPandero; api_SoundID_drumPowwow;
    api_SoundID_drumPueblo; api_SoundID_drumRepinique; api_SoundID_drumRiq; api_SoundID_drumRototom;
    api_SoundID_drumSabar; api_SoundID_drumSakara; api_SoundID_drumSampho; api_SoundID_drumSangban;
    api_SoundID_drumShimeDaiko; api_SoundID_drumSlitDrum; api_SoundID_drumSlitDrumKrin; api_SoundID_drumSnareDrum;
    api_SoundID_drumSnareDrumElectric; api_SoundID_drumSogo; api_SoundID_drumSurdo; api_SoundID_drumTabla;
    api_SoundID_drumTablaBayan; api_SoundID_drumTablaDayan; api_SoundID_drumTaiko; api_SoundID_drumTalking;
    api_SoundID_drumTama; api_SoundID_drumTamborita; api_SoundID_drumTambourine; api_SoundID_drumTamte;
    api_SoundID_drumTangku; api_SoundID_drumTanTan; api_SoundID_drumTaphon; api_SoundID_drumTar;
    api_SoundID_drumTasha; api_SoundID_drumTenorDrum; api_SoundID_drumTeponaxtli; api_SoundID_drumThavil;
    api_SoundID_drumTheBox; api_SoundID_drumTimbale; api_SoundID_drumTimpani; api_SoundID_drumTinaja;
    api_SoundID_drumToere; api_SoundID_drumTombak; api_SoundID_drumTomTom; api_SoundID_drumTomTomSynth;
    api_SoundID_drumTsuzumi; api_SoundID_drumTumbak; api_SoundID_drumUchiwaDaiko; api_SoundID_drumUdaku;
    api_SoundID_drumUdu; api_SoundID_drumZarb; api_SoundID_effectAeolianHarp; api_SoundID_effectAirHorn;
    api_SoundID_effectApplause; api_SoundID_effectBassStringSlap; api_SoundID_effectBird; api_SoundID_effectBirdNightingale;
    api_SoundID_effectBirdTweet; api_SoundID_effectBreath; api_SoundID_effectBubble; api_SoundID_effectBullroarer;
    api_SoundID_effectBurst; api_SoundID_effectCar; api_SoundID_effectCarCrash; api_SoundID_effectCarEngine;
    api_SoundID_effectCarPass; api_SoundID_effectCarStop; api_SoundID_effectCrickets; api_SoundID_effectDog;
    api_SoundID_effectDoorCreak; api_SoundID_effectDoorSlam; api_SoundID_effectExplosion; api_SoundID_effectFluteKeyClick;
    api_SoundID_effectFootsteps; api_SoundID_effectFrogs; api_SoundID_effectGuitarCutting; api_SoundID_effectGuitarFret;
    api_SoundID_effectGunshot; api_SoundID_effectHandClap; api_SoundID_effectHeartbeat; api_SoundID_effectHelicopter;
    api_SoundID_effectHighQ; api_SoundID_effectHorseGallop; api_SoundID_effectJetPlane; api_SoundID_effectLaserGun;
    api_SoundID_effectLaugh; api_SoundID_effectLionsRoar; api_SoundID_effectMachineGun; api_SoundID_effectMarchingMachine;
    api_SoundID_effectMetronomeBell; api_SoundID_effectMetronomeClick; api_SoundID_effectPat; api_SoundID_effectPunch;
    api_SoundID_effectRain; api_SoundID_effectScratch; api_SoundID_effectScream; api_SoundID_effectSeashore;
    api_SoundID_effectSiren; api_SoundID_effectSlap; api_SoundID_effectSnap; api_SoundID_effectStamp;
    api_SoundID_effectStarship; api_SoundID_effectStream; api_SoundID_effectTelephoneRing; api_SoundID_effectThunder;
    api_SoundID_effectTrain; api_SoundID_effectTrashCan; api_SoundID_effectWhip; api_SoundID_effectWhistle;
    api_SoundID_effectWhistleMouthSiren; api_SoundID_effectWhistlePolice; api_SoundID_effectWhistleSlide; api_SoundID_effectWhistleTrain;
    api_SoundID_effectWind; api_SoundID_keyboardAccordion; api_SoundID_keyboardBandoneon; api_SoundID_keyboardCelesta;
    api_SoundID_keyboardClavichord; api_SoundID_keyboardClavichordSynth; api_SoundID_keyboardConcertina; api_SoundID_keyboardFortepiano;
    api_SoundID_keyboardHarmonium; api_SoundID_keyboardHarpsichord; api_SoundID_keyboardOndesMartenot; api_SoundID_keyboardOrgan;
    api_SoundID_keyboardOrganDrawbar; api_SoundID_keyboardOrganPercussive; api_SoundID_keyboardOrganPipe; api_SoundID_keyboardOrganReed;
    api_SoundID_keyboardOrganRotary; api_SoundID_keyboardPiano; api_SoundID_keyboardPianoElectric; api_SoundID_keyboardPianoGrand;
    api_SoundID_keyboardPianoHonkyTonk; api_SoundID_keyboardPianoPrepared; api_SoundID_keyboardPianoToy; api_SoundID_keyboardPianoUpright;
    api_SoundID_keyboardVirginal; api_SoundID_metalAdodo; api_SoundID_metalAnvil; api_SoundID_metalBabendil;
    api_SoundID_metalBellsAgogo; api_SoundID_metalBellsAlmglocken; api_SoundID_metalBellsBellPlate; api_SoundID_metalBellsBellTree;
    api_SoundID_metalBellsCarillon; api_SoundID_metalBellsChimes; api_SoundID_metalBellsChimta; api_SoundID_metalBellsChippli;
    api_SoundID_metalBellsChurch; api_SoundID_metalBellsCowbell; api_SoundID_metalBellsDawuro; api_SoundID_metalBellsGankokwe;
    api_SoundID_metalBellsGhungroo; api_SoundID_metalBellsHatheli; api_SoundID_metalBellsJingleBell; api_SoundID_metalBellsKhartal;
    api_SoundID_metalBellsMarkTree; api_SoundID_metalBellsSistrum; api_SoundID_metalBellsSleighBells; api_SoundID_metalBellsTemple;
    api_SoundID_metalBellsTibetan; api_SoundID_metalBellsTinklebell; api_SoundID_metalBellsTrychel; api_SoundID_metalBellsWindChimes;
    api_SoundID_metalBellsZills; api_SoundID_metalBerimbau; api_SoundID_metalBrakeDrums; api_SoundID_metalCrotales;
    api_SoundID_metalCymbalBo; api_SoundID_metalCymbalCengCeng; api_SoundID_metalCymbalChabara; api_SoundID_metalCymbalChinese;
    api_SoundID_metalCymbalChing; api_SoundID_metalCymbalClash; api_SoundID_metalCymbalCrash; api_SoundID_metalCymbalFinger;
    api_SoundID_metalCymbalHand; api_SoundID_metalCymbalKesi; api_SoundID_metalCymbalManjeera; api_SoundID_metalCymbalReverse;
    api_SoundID_metalCymbalRide; api_SoundID_metalCymbalSizzle; api_SoundID_metalCymbalSplash; api_SoundID_metalCymbalSuspended;
    api_SoundID_metalCymbalTebyoshi; api_SoundID_metalCymbalTibetan; api_SoundID_metalCymbalTingsha; api_SoundID_metalFlexatone;
    api_SoundID_metalGong; api_SoundID_metalGongAgeng; api_SoundID_metalGongAgung; api_SoundID_metalGongChanchiki;
    api_SoundID_metalGongChinese; api_SoundID_metalGongGandingan; api_SoundID_metalGongKempul; api_SoundID_metalGongKempyang;
    api_SoundID_metalGongKetuk; api_SoundID_metalGongKkwenggwari; api_SoundID_metalGongLuo; api_SoundID_metalGongSinging;
    api_SoundID_metalGongThai; api_SoundID_metalGuira; api_SoundID_metalHang; api_SoundID_metalHiHat;
    api_SoundID_metalJawHarp; api_SoundID_metalKengong; api_SoundID_metalMurchang; api_SoundID_metalMusicalSaw;
    api_SoundID_metalSingingBowl; api_SoundID_metalSpoons; api_SoundID_metalSteelDrums; api_SoundID_metalTamtam;
    api_SoundID_metalThundersheet; api_SoundID_metalTriangle; api_SoundID_metalWashboard; api_SoundID_pitchedPercussionAngklung;
    api_SoundID_pitchedPercussionBalafon; api_SoundID_pitchedPercussionBellLyre; api_SoundID_pitchedPercussionBells; api_SoundID_pitchedPercussionBianqing;
    api_SoundID_pitchedPercussionBianzhong; api_SoundID_pitchedPercussionBonang; api_SoundID_pitchedPercussionCimbalom; api_SoundID_pitchedPercussionCrystalGlasses;
    api_SoundID_pitchedPercussionDanTamThapLuc; api_SoundID_pitchedPercussionFangxiang; api_SoundID_pitchedPercussionGandinganAKayo; api_SoundID_pitchedPercussionGangsa;
    api_SoundID_pitchedPercussionGender; api_SoundID_pitchedPercussionGiying; api_SoundID_pitchedPercussionGlassHarmonica; api_SoundID_pitchedPercussionGlockenspiel;
    api_SoundID_pitchedPercussionGlockenspielAlto; api_SoundID_pitchedPercussionGlockenspielSoprano; api_SoundID_pitchedPercussionGyil; api_SoundID_pitchedPercussionHammerDulcimer;
    api_SoundID_pitchedPercussionHandbells; api_SoundID_pitchedPercussionKalimba; api_SoundID_pitchedPercussionKantil; api_SoundID_pitchedPercussionKhim;
    api_SoundID_pitchedPercussionKulintang; api_SoundID_pitchedPercussionKulintangAKayo; api_SoundID_pitchedPercussionKulintangATiniok; api_SoundID_pitchedPercussionLikembe;
    api_SoundID_pitchedPercussionLuntang; api_SoundID_pitchedPercussionMarimba; api_SoundID_pitchedPercussionMarimbaBass; api_SoundID_pitchedPercussionMbira;
    api_SoundID_pitchedPercussionMbiraArray; api_SoundID_pitchedPercussionMetallophone; api_SoundID_pitchedPercussionMetallophoneAlto; api_SoundID_pitchedPercussionMetallophoneBass;
    api_SoundID_pitchedPercussionMetallophoneSoprano; api_SoundID_pitchedPercussionMusicBox; api_SoundID_pitchedPercussionPelogPanerus; api_SoundID_pitchedPercussionPemade;
    api_SoundID_pitchedPercussionPenyacah; api_SoundID_pitchedPercussionRanatEk; api_SoundID_pitchedPercussionRanatEkLek; api_SoundID_pitchedPercussionRanatThum;
    api_SoundID_pitchedPercussionRanatThumLek; api_SoundID_pitchedPercussionReyong; api_SoundID_pitchedPercussionSanza; api_SoundID_pitchedPercussionSaronBarung;
    api_SoundID_pitchedPercussionSaronDemong; api_SoundID_pitchedPercussionSaronPanerus; api_SoundID_pitchedPercussionSlendroPanerus; api_SoundID_pitchedPercussionSlentem;
    api_SoundID_pitchedPercussionTsymbaly; api_SoundID_pitchedPercussionTubes; api_SoundID_pitchedPercussionTubularBells; api_SoundID_pitchedPercussionVibraphone;
    api_SoundID_pitchedPercussionXylophone; api_SoundID_pitchedPercussionXylophoneAlto; api_SoundID_pitchedPercussionXylophoneBass; api_SoundID_pitchedPercussionXylophoneSoprano;
    api_SoundID_pitchedPercussionXylorimba; api_SoundID_pitchedPercussionYangqin; api_SoundID_pluckArchlute; api_SoundID_pluckAutoharp;
    api_SoundID_pluckBaglama; api_SoundID_pluckBajo; api_SoundID_pluckBalalaika; api_SoundID_pluckBalalaikaAlto;
    api_SoundID_pluckBalalaikaBass; api_SoundID_pluckBalalaikaContrabass; api_SoundID_pluckBalalaikaPiccolo; api_SoundID_pluckBalalaikaPrima;
    api_SoundID_pluckBalalaikaSecunda; api_SoundID_pluckBandola; api_SoundID_pluckBandura; api_SoundID_pluckBandurria;
    api_SoundID_pluckBanjo; api_SoundID_pluckBanjoTenor; api_SoundID_pluckBanjolele; api_SoundID_pluckBarbat;
    api_SoundID_pluckBass; api_SoundID_pluckBassAcoustic; api_SoundID_pluckBassBolon; api_SoundID_pluckBassElectric;
    api_SoundID_pluckBassFretless; api_SoundID_pluckBassGuitarron; api_SoundID_pluckBassSynth; api_SoundID_pluckBassSynthLead;
    api_SoundID_pluckBassWashtub; api_SoundID_pluckBassWhamola; api_SoundID_pluckBegena; api_SoundID_pluckBiwa;
    api_SoundID_pluckBordonua; api_SoundID_pluckBouzouki; api_SoundID_pluckBouzoukiIrish; api_SoundID_pluckCelticHarp;
    api_SoundID_pluckCharango; api_SoundID_pluckChitarraBattente; api_SoundID_pluckCithara; api_SoundID_pluckCittern;
    api_SoundID_pluckCuatro; api_SoundID_pluckDanBau; api_SoundID_pluckDanNguyet; api_SoundID_pluckDanTranh;
    api_SoundID_pluckDanTyBa; api_SoundID_pluckDiddleyBow; api_SoundID_pluckDomra; api_SoundID_pluckDomu;
    api_SoundID_pluckDulcimer; api_SoundID_pluckDutar; api_SoundID_pluckDuxianqin; api_SoundID_pluckEktara;
    api_SoundID_pluckGeomungo; api_SoundID_pluckGottuvadhyam; api_SoundID_pluckGuitar; api_SoundID_pluckGuitarAcoustic;
    api_SoundID_pluckGuitarElectric; api_SoundID_pluckGuitarNylonString; api_SoundID_pluckGuitarPedalSteel; api_SoundID_pluckGuitarPortuguese;
    api_SoundID_pluckGuitarRequinto; api_SoundID_pluckGuitarResonator; api_SoundID_pluckGuitarSteelString; api_SoundID_pluckGuitjo;
    api_SoundID_pluckGuitjoDoubleNeck; api_SoundID_pluckGuqin; api_SoundID_pluckGuzheng; api_SoundID_pluckGuzhengChoazhou;
    api_SoundID_pluckHarp; api_SoundID_pluckHarpGuitar; api_SoundID_pluckHuapanguera; api_SoundID_pluckJaranaHuasteca;
    api_SoundID_pluckJaranaJarocha; api_SoundID_pluckJaranaJarochaMosquito; api_SoundID_pluckJaranaJarochaPrimera; api_SoundID_pluckJaranaJarochaSegunda;
    api_SoundID_pluckJaranaJarochaTercera; api_SoundID_pluckKabosy; api_SoundID_pluckKantele; api_SoundID_pluckKanun;
    api_SoundID_pluckKayagum; api_SoundID_pluckKobza; api_SoundID_pluckKomuz; api_SoundID_pluckKora;
    api_SoundID_pluckKoto; api_SoundID_pluckKutiyapi; api_SoundID_pluckLangeleik; api_SoundID_pluckLaud;
    api_SoundID_pluckLute; api_SoundID_pluckLyre; api_SoundID_pluckMandobass; api_SoundID_pluckMandocello;
    api_SoundID_pluckMandola; api_SoundID_pluckMandolin; api_SoundID_pluckMandolinOctave; api_SoundID_pluckMandora;
    api_SoundID_pluckMandore; api_SoundID_pluckMarovany; api_SoundID_pluckMusicalBow; api_SoundID_pluckNgoni;
    api_SoundID_pluckOud; api_SoundID_pluckPipa; api_SoundID_pluckPsaltery; api_SoundID_pluckRuan;
    api_SoundID_pluckSallaneh; api_SoundID_pluckSanshin; api_SoundID_pluckSantoor; api_SoundID_pluckSanxian;
    api_SoundID_pluckSarod; api_SoundID_pluckSaung; api_SoundID_pluckSaz; api_SoundID_pluckSe;
    api_SoundID_pluckSetar; api_SoundID_pluckShamisen; api_SoundID_pluckSitar; api_SoundID_pluckSynth;
    api_SoundID_pluckSynthCharang; api_SoundID_pluckSynthChiff; api_SoundID_pluckSynthStick; api_SoundID_pluckTambura;
    api_SoundID_pluckTamburaBulgarian; api_SoundID_pluckTamburaFemale; api_SoundID_pluckTamburaMale; api_SoundID_pluckTar;
    api_SoundID_pluckTheorbo; api_SoundID_pluckTimple; api_SoundID_pluckTiple; api_SoundID_pluckTres;
    api_SoundID_pluckUkulele; api_SoundID_pluckUkuleleTenor; api_SoundID_pluckValiha; api_SoundID_pluckVeena;
    api_SoundID_pluckVeenaMohan; api_SoundID_pluckVeenaRudra; api_SoundID_pluckVeenaVichitra; api_SoundID_pluckVihuela;
    api_SoundID_pluckVihuelaMexican; api_SoundID_pluckXalam; api_SoundID_pluckYueqin; api_SoundID_pluckZither;
    api_SoundID_pluckZitherOvertone; api_SoundID_rattleAfoxe; api_SoundID_rattleBirds; api_SoundID_rattleCabasa;
    api_SoundID_rattleCaxixi; api_SoundID_rattleCog; api_SoundID_rattleGanza; api_SoundID_rattleHosho;
    api_SoundID_rattleJawbone; api_SoundID_rattleKayamba; api_SoundID_rattleKpokoKpoko; api_SoundID_rattleLavaStones;
    api_SoundID_rattleMaraca; api_SoundID_rattleRainStick; api_SoundID_rattleRatchet; api_SoundID_rattleRattle;
    api_SoundID_rattleShaker; api_SoundID_rattleShakerEgg; api_SoundID_rattleShekere; api_SoundID_rattleSistre;
    api_SoundID_rattleTelevi; api_SoundID_rattleVibraslap; api_SoundID_rattleWasembe; api_SoundID_stringsAjaeng;
    api_SoundID_stringsArpeggione; api_SoundID_stringsBaryton; api_SoundID_stringsCello; api_SoundID_stringsCelloPiccolo;
    api_SoundID_stringsContrabass; api_SoundID_stringsCrwth; api_SoundID_stringsDanGao; api_SoundID_stringsDihu;
    api_SoundID_stringsErhu; api_SoundID_stringsErxian; api_SoundID_stringsEsraj; api_SoundID_stringsFiddle;
    api_SoundID_stringsFiddleHardanger; api_SoundID_stringsGadulka; api_SoundID_stringsGaohu; api_SoundID_stringsGehu;
    api_SoundID_stringsGroup; api_SoundID_stringsGroupSynth; api_SoundID_stringsHaegeum; api_SoundID_stringsHurdyGurdy;
    api_SoundID_stringsIgil; api_SoundID_stringsKamancha; api_SoundID_stringsKokyu; api_SoundID_stringsLaruan;
    api_SoundID_stringsLeiqin; api_SoundID_stringsLirone; api_SoundID_stringsLyraByzantine; api_SoundID_stringsLyraCretan;
    api_SoundID_stringsMorinKhuur; api_SoundID_stringsNyckelharpa; api_SoundID_stringsOctobass; api_SoundID_stringsRebab;
    api_SoundID_stringsRebec; api_SoundID_stringsSarangi; api_SoundID_stringsStrohViolin; api_SoundID_stringsTrombaMarina;
    api_SoundID_stringsVielle; api_SoundID_stringsViol; api_SoundID_stringsViolAlto; api_SoundID_stringsViolBass;
    api_SoundID_stringsViolTenor; api_SoundID_stringsViolTreble; api_SoundID_stringsViolViolone; api_SoundID_stringsViola;
    api_SoundID_stringsViolaDamore; api_SoundID_stringsViolin; api_SoundID_stringsViolonoPiccolo; api_SoundID_stringsViolotta;
    api_SoundID_stringsYayliTanbur; api_SoundID_stringsYazheng; api_SoundID_stringsZhonghu; api_SoundID_synthEffects;
    api_SoundID_synthEffectsAtmosphere; api_SoundID_synthEffectsBrightness; api_SoundID_synthEffectsCrystal; api_SoundID_synthEffectsEchoes;
    api_SoundID_synthEffectsGoblins; api_SoundID_synthEffectsRain; api_SoundID_synthEffectsSciFi; api_SoundID_synthEffectsSoundtrack;
    api_SoundID_synthGroup; api_SoundID_synthGroupFifths; api_SoundID_synthGroupOrchestra; api_SoundID_synthPad;
    api_SoundID_synthPadBowed; api_SoundID_synthPadChoir; api_SoundID_synthPadHalo; api_SoundID_synthPadMetallic;
    api_SoundID_synthPadPolysynth; api_SoundID_synthPadSweep; api_SoundID_synthPadWarm; api_SoundID_synthTheremin;
    api_SoundID_synthToneSawtooth; api_SoundID_synthToneSine; api_SoundID_synthToneSquare; api_SoundID_voiceAa;
    api_SoundID_voiceAlto; api_SoundID_voiceAw; api_SoundID_voiceBaritone; api_SoundID_voiceBass;
    api_SoundID_voiceChild; api_SoundID_voiceCountertenor; api_SoundID_voiceDoo; api_SoundID_voiceEe;
    api_SoundID_voiceFemale; api_SoundID_voiceKazoo; api_SoundID_voiceMale; api_SoundID_voiceMezzoSoprano;
    api_SoundID_voiceMm; api_SoundID_voiceOo; api_SoundID_voicePercussion; api_SoundID_voicePercussionBeatbox;
    api_SoundID_voiceSoprano; api_SoundID_voiceSynth; api_SoundID_voiceTalkBox; api_SoundID_voiceTenor;
    api_SoundID_voiceVocals; api_SoundID_windFlutesBansuri; api_SoundID_windFlutesBlownBottle; api_SoundID_windFlutesCalliope;
    api_SoundID_windFlutesDanso; api_SoundID_windFlutesDiZi; api_SoundID_windFlutesDvojnice; api_SoundID_windFlutesFife;
    api_SoundID_windFlutesFlageolet; api_SoundID_windFlutesFlute; api_SoundID_windFlutesFluteAlto; api_SoundID_windFlutesFluteBass;
    api_SoundID_windFlutesFluteContraAlto; api_SoundID_windFlutesFluteContrabass; api_SoundID_windFlutesFluteDoubleContrabass; api_SoundID_windFlutesFluteIrish;
    api_SoundID_windFlutesFlutePiccolo; api_SoundID_windFlutesFluteSubcontrabass; api_SoundID_windFlutesFujara; api_SoundID_windFlutesGemshorn;
    api_SoundID_windFlutesHocchiku; api_SoundID_windFlutesHun; api_SoundID_windFlutesKaval; api_SoundID_windFlutesKawala;
    api_SoundID_windFlutesKhlui; api_SoundID_windFlutesKnotweed; api_SoundID_windFlutesKoncovkaAlto; api_SoundID_windFlutesKoudi;
    api_SoundID_windFlutesNey; api_SoundID_windFlutesNohkan; api_SoundID_windFlutesNose; api_SoundID_windFlutesOcarina;
    api_SoundID_windFlutesOvertoneTenor; api_SoundID_windFlutesPalendag; api_SoundID_windFlutesPanpipes; api_SoundID_windFlutesQuena;
    api_SoundID_windFlutesRecorder; api_SoundID_windFlutesRecorderAlto; api_SoundID_windFlutesRecorderBass; api_SoundID_windFlutesRecorderContrabass;
    api_SoundID_windFlutesRecorderDescant; api_SoundID_windFlutesRecorderGarklein; api_SoundID_windFlutesRecorderGreatBass; api_SoundID_windFlutesRecorderSopranino;
    api_SoundID_windFlutesRecorderSoprano; api_SoundID_windFlutesRecorderTenor; api_SoundID_windFlutesRyuteki; api_SoundID_windFlutesShakuhachi;
    api_SoundID_windFlutesShepherdsPipe; api_SoundID_windFlutesShinobue; api_SoundID_windFlutesShvi; api_SoundID_windFlutesSuling;
    api_SoundID_windFlutesTarka; api_SoundID_windFlutesTumpong; api_SoundID_windFlutesVenu; api_SoundID_windFlutesWhistle;
    api_SoundID_windFlutesWhistleAlto; api_SoundID_windFlutesWhistleLowIrish; api_SoundID_windFlutesWhistleShiva; api_SoundID_windFlutesWhistleSlide;
    api_SoundID_windFlutesWhistleTin; api_SoundID_windFlutesWhistleTinBflat; api_SoundID_windFlutesWhistleTinD; api_SoundID_windFlutesXiao;
    api_SoundID_windFlutesXun; api_SoundID_windGroup; api_SoundID_windJug; api_SoundID_windPipesBagpipes;
    api_SoundID_windPipesGaida; api_SoundID_windPipesHighland; api_SoundID_windPipesUilleann; api_SoundID_windPungi;
    api_SoundID_windReedAlbogue; api_SoundID_windReedAlboka; api_SoundID_windReedAlgaita; api_SoundID_windReedArghul;
    api_SoundID_windReedBassetHorn; api_SoundID_windReedBassoon; api_SoundID_windReedBawu; api_SoundID_windReedBifora;
    api_SoundID_windReedBombarde; api_SoundID_windReedChalumeau; api_SoundID_windReedClarinet; api_SoundID_windReedClarinetA;
    api_SoundID_windReedClarinetAlto; api_SoundID_windReedClarinetBass; api_SoundID_windReedClarinetBasset; api_SoundID_windReedClarinetBflat;
    api_SoundID_windReedClarinetContraAlto; api_SoundID_windReedClarinetContrabass; api_SoundID_windReedClarinetEflat; api_SoundID_windReedClarinetPiccoloAflat;
    api_SoundID_windReedClarinetteDamour; api_SoundID_windReedContrabass; api_SoundID_windReedContrabassoon; api_SoundID_windReedCornamuse;
    api_SoundID_windReedCromorne; api_SoundID_windReedCrumhorn; api_SoundID_windReedCrumhornAlto; api_SoundID_windReedCrumhornBass;
    api_SoundID_windReedCrumhornGreatBass; api_SoundID_windReedCrumhornSoprano; api_SoundID_windReedCrumhornTenor; api_SoundID_windReedDiple;
    api_SoundID_windReedDiplica; api_SoundID_windReedDuduk; api_SoundID_windReedDulcian; api_SoundID_windReedDulzaina;
    api_SoundID_windReedEnglishHorn; api_SoundID_windReedGuanzi; api_SoundID_windReedHarmonica; api_SoundID_windReedHarmonicaBass;
    api_SoundID_windReedHeckelClarina; api_SoundID_windReedHeckelphone; api_SoundID_windReedHeckelphonePiccolo; api_SoundID_windReedHeckelphoneClarinet;
    api_SoundID_windReedHichiriki; api_SoundID_windReedHirtenschalmei; api_SoundID_windReedHne; api_SoundID_windReedHornpipe;
    api_SoundID_windReedHouguan; api_SoundID_windReedHulusi; api_SoundID_windReedJogiBaja; api_SoundID_windReedKenBau;
    api_SoundID_windReedKhaenMouthOrgan; api_SoundID_windReedLauneddas; api_SoundID_windReedMaqrunah; api_SoundID_windReedMelodica;
    api_SoundID_windReedMijwiz; api_SoundID_windReedMizmar; api_SoundID_windReedNadaswaram; api_SoundID_windReedOboe;
    api_SoundID_windReedOboeBass; api_SoundID_windReedOboePiccolo; api_SoundID_windReedOboeDaCaccia; api_SoundID_windReedOboeDamore;
    api_SoundID_windReedOctavin; api_SoundID_windReedPi; api_SoundID_windReedPibgorn; api_SoundID_windReedPiri;
    api_SoundID_windReedRackett; api_SoundID_windReedRauschpfeife; api_SoundID_windReedRhaita; api_SoundID_windReedRothphone;
    api_SoundID_windReedSarrusaphone; api_SoundID_windReedSaxonette; api_SoundID_windReedSaxophone; api_SoundID_windReedSaxophoneAlto;
    api_SoundID_windReedSaxophoneAulochrome; api_SoundID_windReedSaxophoneBaritone; api_SoundID_windReedSaxophoneBass; api_SoundID_windReedSaxophoneContrabass;
    api_SoundID_windReedSaxophoneMelody; api_SoundID_windReedSaxophoneMezzoSoprano; api_SoundID_windReedSaxophoneSopranino; api_SoundID_windReedSaxophoneSopranissimo;
    api_SoundID_windReedSaxophoneSoprano; api_SoundID_windReedSaxophoneSubcontrabass; api_SoundID_windReedSaxophoneTenor; api_SoundID_windReedShawm;
    api_SoundID_windReedShenai; api_SoundID_windReedSheng; api_SoundID_windReedSipsi; api_SoundID_windReedSopila;
    api_SoundID_windReedSorna; api_SoundID_windReedSralai; api_SoundID_windReedSuona; api_SoundID_windReedSurnai;
    api_SoundID_windReedTaepyeongso; api_SoundID_windReedTarogato; api_SoundID_windReedTarogatoAncient; api_SoundID_windReedTrompetaChina;
    api_SoundID_windReedTubax; api_SoundID_windReedXaphoon; api_SoundID_windReedZhaleika; api_SoundID_windReedZurla;
    api_SoundID_windReedZurna; api_SoundID_woodAgogoBlock; api_SoundID_woodAgungATamlang; api_SoundID_woodAhoko;
    api_SoundID_woodBones; api_SoundID_woodCastanets; api_SoundID_woodClaves; api_SoundID_woodDrumSticks;
    api_SoundID_woodGourd; api_SoundID_woodGraniteBlock; api_SoundID_woodGuban; api_SoundID_woodGuiro;
    api_SoundID_woodHyoushigi; api_SoundID_woodIpu; api_SoundID_woodJamBlock; api_SoundID_woodKaekeeke;
    api_SoundID_woodKagul; api_SoundID_woodKalaau; api_SoundID_woodKashiklar; api_SoundID_woodKubing;
    api_SoundID_woodPanClappers; api_SoundID_woodSandBlock; api_SoundID_woodSlapstick; api_SoundID_woodStirDrum;
    api_SoundID_woodTempleBlock; api_SoundID_woodTicTocBlock; api_SoundID_woodTonetang; api_SoundID_woodWoodBlock ].

Definition api_SoundID_value (v : api_SoundID) : Z :=
  match v with
  | api_SoundID_unspecified => 0
  | api_SoundID_errorBadString => 1
  | api_SoundID_brassAlphorn => 2
  | api_SoundID_brassAltoHorn => 3
  | api_SoundID_brassBaritoneHorn => 4
  | api_SoundID_brassBugle => 5
  | api_SoundID_brassBugleAlto => 6
  | api_SoundID_brassBugleBaritone => 7
  | api_SoundID_brassBugleContrabass => 8
  | api_SoundID_brassBugleEuphoniumBugle => 9
  | api_SoundID_brassBugleMellophoneBugle => 10
  | api_SoundID_brassBugleSoprano => 11
  | api_SoundID_brassCimbasso => 12
  | api_SoundID_brassConchShell => 13
  | api_SoundID_brassCornet => 14
  | api_SoundID_brassCornetSoprano => 15
  | api_SoundID_brassCornett => 16
  | api_SoundID_brassCornettTenor => 17
  | api_SoundID_brassCornettino => 18
  | api_SoundID_brassDidgeridoo => 19
  | api_SoundID_brassEuphonium => 20
  | api_SoundID_brassFiscorn => 21
  | api_SoundID_brassFlugelhorn => 22
  | api_SoundID_brassFrenchHorn => 23
  | api_SoundID_brassGroup => 24
  | api_SoundID_brassGroupSynth => 25
  | api_SoundID_brassHelicon => 26
  | api_SoundID_brassHoragai => 27
  | api_SoundID_brassKuhlohorn => 28
  | api_SoundID_brassMellophone => 29
  | api_SoundID_brassNaturalHorn => 30
  | api_SoundID_brassOphicleide => 31
  | api_SoundID_brassPosthorn => 32
  | api_SoundID_brassRagDung => 33
  | api_SoundID_brassSackbutt => 34
  | api_SoundID_brassSackbuttAlto => 35
  | api_SoundID_brassSackbuttBass => 36
  | api_SoundID_brassSackbuttTenor => 37
  | api_SoundID_brassSaxhorn => 38
  | api_SoundID_brassSerpent => 39
  | api_SoundID_brassShofar => 40
  | api_SoundID_brassSousaphone => 41
  | api_SoundID_brassTrombone => 42
  | api_SoundID_brassTromboneAlto => 43
  | api_SoundID_brassTromboneBass => 44
  | api_SoundID_brassTromboneContrabass => 45
  | api_SoundID_brassTromboneTenor => 46
  | api_SoundID_brassTrumpet => 47
  | api_SoundID_brassTrumpetBaroque => 48
  | api_SoundID_brassTrumpetBass => 49
  | api_SoundID_brassTrumpetBflat => 50
  | api_SoundID_brassTrumpetC => 51
  | api_SoundID_brassTrumpetD => 52
  | api_SoundID_brassTrumpetPiccolo => 53
  | api_SoundID_brassTrumpetPocket => 54
  | api_SoundID_brassTrumpetSlide => 55
  | api_SoundID_brassTrumpetTenor => 56
  | api_SoundID_brassTuba => 57
  | api_SoundID_brassTubaBass => 58
  | api_SoundID_brassTubaSubcontrabass => 59
  | api_SoundID_brassViennaHorn => 60
  | api_SoundID_brassVuvuzela => 61
  | api_SoundID_brassWagnerTuba => 62
  | api_SoundID_drumApentemma => 63
  | api_SoundID_drumAshiko => 64
  | api_SoundID_drumAtabaque => 65
  | api_SoundID_drumAtoke => 66
  | api_SoundID_drumAtsimevu => 67
  | api_SoundID_drumAxatse => 68
  | api_SoundID_drumBassDrum => 69
  | api_SoundID_drumBata => 70
  | api_SoundID_drumBataItotele => 71
  | api_SoundID_drumBataIya => 72
  | api_SoundID_drumBataOkonkolo => 73
  | api_SoundID_drumBendir => 74
  | api_SoundID_drumBodhran => 75
  | api_SoundID_drumBombo => 76
  | api_SoundID_drumBongo => 77
  | api_SoundID_drumBougarabou => 78
  | api_SoundID_drumBuffaloDrum => 79
  | api_SoundID_drumCajon => 80
  | api_SoundID_drumChenda => 81
  | api_SoundID_drumChuDaiko => 82
  | api_SoundID_drumConga => 83
  | api_SoundID_drumCuica => 84
  | api_SoundID_drumDabakan => 85
  | api_SoundID_drumDaff => 86
  | api_SoundID_drumDafli => 87
  | api_SoundID_drumDaibyosi => 88
  | api_SoundID_drumDamroo => 89
  | api_SoundID_drumDarabuka => 90
  | api_SoundID_drumDef => 91
  | api_SoundID_drumDhol => 92
  | api_SoundID_drumDholak => 93
  | api_SoundID_drumDjembe => 94
  | api_SoundID_drumDoira => 95
  | api_SoundID_drumDondo => 96
  | api_SoundID_drumDounDounBa => 97
  | api_SoundID_drumDuff => 98
  | api_SoundID_drumDumbek => 99
  | api_SoundID_drumFontomfrom => 100
  | api_SoundID_drumFrameDrum => 101
  | api_SoundID_drumFrameDrumArabian => 102
  | api_SoundID_drumGeduk => 103
  | api_SoundID_drumGhatam => 104
  | api_SoundID_drumGome => 105
  | api_SoundID_drumGroup => 106
  | api_SoundID_drumGroupChinese => 107
  | api_SoundID_drumGroupEwe => 108
  | api_SoundID_drumGroupIndian => 109
  | api_SoundID_drumGroupSet => 110
  | api_SoundID_drumHandDrum => 111
  | api_SoundID_drumHiraDaiko => 112
  | api_SoundID_drumIbo => 113
  | api_SoundID_drumIgihumurizo => 114
  | api_SoundID_drumInyahura => 115
  | api_SoundID_drumIshakwe => 116
  | api_SoundID_drumJangGu => 117
  | api_SoundID_drumKagan => 118
  | api_SoundID_drumKakko => 119
  | api_SoundID_drumKanjira => 120
  | api_SoundID_drumKendhang => 121
  | api_SoundID_drumKendhangAgeng => 122
  | api_SoundID_drumKendhangCiblon => 123
  | api_SoundID_drumKenkeni => 124
  | api_SoundID_drumKhol => 125
  | api_SoundID_drumKickDrum => 126
  | api_SoundID_drumKidi => 127
  | api_SoundID_drumKoDaiko => 128
  | api_SoundID_drumKpanlogo => 129
  | api_SoundID_drumKudum => 130
  | api_SoundID_drumLambeg => 131
  | api_SoundID_drumLionDrum => 132
  | api_SoundID_drumLogDrum => 133
  | api_SoundID_drumLogDrumAfrican => 134
  | api_SoundID_drumLogDrumNative => 135
  | api_SoundID_drumLogDrumNigerian => 136
  | api_SoundID_drumMadal => 137
  | api_SoundID_drumMaddale => 138
  | api_SoundID_drumMridangam => 139
  | api_SoundID_drumNaal => 140
  | api_SoundID_drumNagadoDaiko => 141
  | api_SoundID_drumNagara => 142
  | api_SoundID_drumNaqara => 143
  | api_SoundID_drumODaiko => 144
  | api_SoundID_drumOkawa => 145
  | api_SoundID_drumOkedoDaiko => 146
  | api_SoundID_drumPahuHula => 147
  | api_SoundID_drumPakhawaj => 148
  | api_SoundID_drumPandeiro => 149
  | api_SoundID_drumPandero => 150
  | api_SoundID_drumPowwow => 151
  | api_SoundID_drumPueblo => 152
  | api_SoundID_drumRepinique => 153
  | api_SoundID_drumRiq => 154
  | api_SoundID_drumRototom => 155
  | api_SoundID_drumSabar => 156
  | api_SoundID_drumSakara => 157
  | api_SoundID_drumSampho => 158
  | api_SoundID_drumSangban => 159
  | api_SoundID_drumShimeDaiko => 160
  | api_SoundID_drumSlitDrum => 161
  | api_SoundID_drumSlitDrumKrin => 162
  | api_SoundID_drumSnareDrum => 163
  | api_SoundID_drumSnareDrumElectric => 164
  | api_SoundID_drumSogo => 165
  | api_SoundID_drumSurdo => 166
  | api_SoundID_drumTabla => 167
  | api_SoundID_drumTablaBayan => 168
  | api_SoundID_drumTablaDayan => 169
  | api_SoundID_drumTaiko => 170
  | api_SoundID_drumTalking => 171
  | api_SoundID_drumTama => 172
  | api_SoundID_drumTamborita => 173
  | api_SoundID_drumTambourine => 174
  | api_SoundID_drumTamte => 175
  | api_SoundID_drumTangku => 176
  | api_SoundID_drumTanTan => 177
  | api_SoundID_drumTaphon => 178
  | api_SoundID_drumTar => 179
  | api_SoundID_drumTasha => 180
  | api_SoundID_drumTenorDrum => 181
  | api_SoundID_drumTeponaxtli => 182
  | api_SoundID_drumThavil => 183
  | api_SoundID_drumTheBox => 184
  | api_SoundID_drumTimbale => 185
  | api_SoundID_drumTimpani => 186
  | api_SoundID_drumTinaja => 187
  | api_SoundID_drumToere => 188
  | api_SoundID_drumTombak => 189
  | api_SoundID_drumTomTom => 190
  | api_SoundID_drumTomTomSynth => 191
  | api_SoundID_drumTsuzumi => 192
  | api_SoundID_drumTumbak => 193
  | api_SoundID_drumUchiwaDaiko => 194
  | api_SoundID_drumUdaku => 195
  | api_SoundID_drumUdu => 196
  | api_SoundID_drumZarb => 197
  | api_SoundID_effectAeolianHarp => 198
  | api_SoundID_effectAirHorn => 199
  | api_SoundID_effectApplause => 200
  | api_SoundID_effectBassStringSlap => 201
  | api_SoundID_effectBird => 202
  | api_SoundID_effectBirdNightingale => 203
  | api_SoundID_effectBirdTweet => 204
  | api_SoundID_effectBreath => 205
  | api_SoundID_effectBubble => 206
  | api_SoundID_effectBullroarer => 207
  | api_SoundID_effectBurst => 208
  | api_SoundID_effectCar => 209
  | api_SoundID_effectCarCrash => 210
  | api_SoundID_effectCarEngine => 211
  | api_SoundID_effectCarPass => 212
  | api_SoundID_effectCarStop => 213
  | api_SoundID_effectCrickets => 214
  | api_SoundID_effectDog => 215
  | api_SoundID_effectDoorCreak => 216
  | api_SoundID_effectDoorSlam => 217
  | api_SoundID_effectExplosion => 218
  | api_SoundID_effectFluteKeyClick => 219
  | api_SoundID_effectFootsteps => 220
  | api_SoundID_effectFrogs => 221
  | api_SoundID_effectGuitarCutting => 222
  | api_SoundID_effectGuitarFret => 223
  | api_SoundID_effectGunshot => 224
  | api_SoundID_effectHandClap => 225
  | api_SoundID_effectHeartbeat => 226
  | api_SoundID_effectHelicopter => 227
  | api_SoundID_effectHighQ => 228
  | api_SoundID_effectHorseGallop => 229
  | api_SoundID_effectJetPlane => 230
  | api_SoundID_effectLaserGun => 231
  | api_SoundID_effectLaugh => 232
  | api_SoundID_effectLionsRoar => 233
  | api_SoundID_effectMachineGun => 234
  | api_SoundID_effectMarchingMachine => 235
  | api_SoundID_effectMetronomeBell => 236
  | api_SoundID_effectMetronomeClick => 237
  | api_SoundID_effectPat => 238
  | api_SoundID_effectPunch => 239
  | api_SoundID_effectRain => 240
  | api_SoundID_effectScratch => 241
  | api_SoundID_effectScream => 242
  | api_SoundID_effectSeashore => 243
  | api_SoundID_effectSiren => 244
  | api_SoundID_effectSlap => 245
  | api_SoundID_effectSnap => 246
  | api_SoundID_effectStamp => 247
  | api_SoundID_effectStarship => 248
  | api_SoundID_effectStream => 249
  | api_SoundID_effectTelephoneRing => 250
  | api_SoundID_effectThunder => 251
  | api_SoundID_effectTrain => 252
  | api_SoundID_effectTrashCan => 253
  | api_SoundID_effectWhip => 254
  | api_SoundID_effectWhistle => 255
  | api_SoundID_effectWhistleMouthSiren => 256
  | api_SoundID_effectWhistlePolice => 257
  | api_SoundID_effectWhistleSlide => 258
  | api_SoundID_effectWhistleTrain => 259
  | api_SoundID_effectWind => 260
  | api_SoundID_keyboardAccordion => 261
  | api_SoundID_keyboardBandoneon => 262
  | api_SoundID_keyboardCelesta => 263
  | api_SoundID_keyboardClavichord => 264
  | api_SoundID_keyboardClavichordSynth => 265
  | api_SoundID_keyboardConcertina => 266
  | api_SoundID_keyboardFortepiano => 267
  | api_SoundID_keyboardHarmonium => 268
  | api_SoundID_keyboardHarpsichord => 269
  | api_SoundID_keyboardOndesMartenot => 270
  | api_SoundID_keyboardOrgan => 271
  | api_SoundID_keyboardOrganDrawbar => 272
  | api_SoundID_keyboardOrganPercussive => 273
  | api_SoundID_keyboardOrganPipe => 274
  | api_SoundID_keyboardOrganReed => 275
  | api_SoundID_keyboardOrganRotary => 276
  | api_SoundID_keyboardPiano => 277
  | api_SoundID_keyboardPianoElectric => 278
  | api_SoundID_keyboardPianoGrand => 279
  | api_SoundID_keyboardPianoHonkyTonk => 280
  | api_SoundID_keyboardPianoPrepared => 281
  | api_SoundID_keyboardPianoToy => 282
  | api_SoundID_keyboardPianoUpright => 283
  | api_SoundID_keyboardVirginal => 284
  | api_SoundID_metalAdodo => 285
  | api_SoundID_metalAnvil => 286
  | api_SoundID_metalBabendil => 287
  | api_SoundID_metalBellsAgogo => 288
  | api_SoundID_metalBellsAlmglocken => 289
  | api_SoundID_metalBellsBellPlate => 290
  | api_SoundID_metalBellsBellTree => 291
  | api_SoundID_metalBellsCarillon => 292
  | api_SoundID_metalBellsChimes => 293
  | api_SoundID_metalBellsChimta => 294
  | api_SoundID_metalBellsChippli => 295
  | api_SoundID_metalBellsChurch => 296
  | api_SoundID_metalBellsCowbell => 297
  | api_SoundID_metalBellsDawuro => 298
  | api_SoundID_metalBellsGankokwe => 299
  | api_SoundID_metalBellsGhungroo => 300
  | api_SoundID_metalBellsHatheli => 301
  | api_SoundID_metalBellsJingleBell => 302
  | api_SoundID_metalBellsKhartal => 303
  | api_SoundID_metalBellsMarkTree => 304
  | api_SoundID_metalBellsSistrum => 305
  | api_SoundID_metalBellsSleighBells => 306
  | api_SoundID_metalBellsTemple => 307
  | api_SoundID_metalBellsTibetan => 308
  | api_SoundID_metalBellsTinklebell => 309
  | api_SoundID_metalBellsTrychel => 310
  | api_SoundID_metalBellsWindChimes => 311
  | api_SoundID_metalBellsZills => 312
  | api_SoundID_metalBerimbau => 313
  | api_SoundID_metalBrakeDrums => 314
  | api_SoundID_metalCrotales => 315
  | api_SoundID_metalCymbalBo => 316
  | api_SoundID_metalCymbalCengCeng => 317
  | api_SoundID_metalCymbalChabara => 318
  | api_SoundID_metalCymbalChinese => 319
  | api_SoundID_metalCymbalChing => 320
  | api_SoundID_metalCymbalClash => 321
  | api_SoundID_metalCymbalCrash => 322
  | api_SoundID_metalCymbalFinger => 323
  | api_SoundID_metalCymbalHand => 324
  | api_SoundID_metalCymbalKesi => 325
  | api_SoundID_metalCymbalManjeera => 326
  | api_SoundID_metalCymbalReverse => 327
  | api_SoundID_metalCymbalRide => 328
  | api_SoundID_metalCymbalSizzle => 329
  | api_SoundID_metalCymbalSplash => 330
  | api_SoundID_metalCymbalSuspended => 331
  | api_SoundID_metalCymbalTebyoshi => 332
  | api_SoundID_metalCymbalTibetan => 333
  | api_SoundID_metalCymbalTingsha => 334
  | api_SoundID_metalFlexatone => 335
  | api_SoundID_metalGong => 336
  | api_SoundID_metalGongAgeng => 337
  | api_SoundID_metalGongAgung => 338
  | api_SoundID_metalGongChanchiki => 339
  | api_SoundID_metalGongChinese => 340
  | api_SoundID_metalGongGandingan => 341
  | api_SoundID_metalGongKempul => 342
  | api_SoundID_metalGongKempyang => 343
  | api_SoundID_metalGongKetuk => 344
  | api_SoundID_metalGongKkwenggwari => 345
  | api_SoundID_metalGongLuo => 346
  | api_SoundID_metalGongSinging => 347
  | api_SoundID_metalGongThai => 348
  | api_SoundID_metalGuira => 349
  | api_SoundID_metalHang => 350
  | api_SoundID_metalHiHat => 351
  | api_SoundID_metalJawHarp => 352
  | api_SoundID_metalKengong => 353
  | api_SoundID_metalMurchang => 354
  | api_SoundID_metalMusicalSaw => 355
  | api_SoundID_metalSingingBowl => 356
  | api_SoundID_metalSpoons => 357
  | api_SoundID_metalSteelDrums => 358
  | api_SoundID_metalTamtam => 359
  | api_SoundID_metalThundersheet => 360
  | api_SoundID_metalTriangle => 361
  | api_SoundID_metalWashboard => 362
  | api_SoundID_pitchedPercussionAngklung => 363
  | api_SoundID_pitchedPercussionBalafon => 364
  | api_SoundID_pitchedPercussionBellLyre => 365
  | api_SoundID_pitchedPercussionBells => 366
  | api_SoundID_pitchedPercussionBianqing => 367
  | api_SoundID_pitchedPercussionBianzhong => 368
  | api_SoundID_pitchedPercussionBonang => 369
  | api_SoundID_pitchedPercussionCimbalom => 370
  | api_SoundID_pitchedPercussionCrystalGlasses => 371
  | api_SoundID_pitchedPercussionDanTamThapLuc => 372
  | api_SoundID_pitchedPercussionFangxiang => 373
  | api_SoundID_pitchedPercussionGandinganAKayo => 374
  | api_SoundID_pitchedPercussionGangsa => 375
  | api_SoundID_pitchedPercussionGender => 376
  | api_SoundID_pitchedPercussionGiying => 377
  | api_SoundID_pitchedPercussionGlassHarmonica => 378
  | api_SoundID_pitchedPercussionGlockenspiel => 379
  | api_SoundID_pitchedPercussionGlockenspielAlto => 380
  | api_SoundID_pitchedPercussionGlockenspielSoprano => 381
  | api_SoundID_pitchedPercussionGyil => 382
  | api_SoundID_pitchedPercussionHammerDulcimer => 383
  | api_SoundID_pitchedPercussionHandbells => 384
  | api_SoundID_pitchedPercussionKalimba => 385
  | api_SoundID_pitchedPercussionKantil => 386
  | api_SoundID_pitchedPercussionKhim => 387
  | api_SoundID_pitchedPercussionKulintang => 388
  | api_SoundID_pitchedPercussionKulintangAKayo => 389
  | api_SoundID_pitchedPercussionKulintangATiniok => 390
  | api_SoundID_pitchedPercussionLikembe => 391
  | api_SoundID_pitchedPercussionLuntang => 392
  | api_SoundID_pitchedPercussionMarimba => 393
  | api_SoundID_pitchedPercussionMarimbaBass => 394
  | api_SoundID_pitchedPercussionMbira => 395
  | api_SoundID_pitchedPercussionMbiraArray => 396
  | api_SoundID_pitchedPercussionMetallophone => 397
  | api_SoundID_pitchedPercussionMetallophoneAlto => 398
  | api_SoundID_pitchedPercussionMetallophoneBass => 399
  | api_SoundID_pitchedPercussionMetallophoneSoprano => 400
  | api_SoundID_pitchedPercussionMusicBox => 401
  | api_SoundID_pitchedPercussionPelogPanerus => 402
  | api_SoundID_pitchedPercussionPemade => 403
  | api_SoundID_pitchedPercussionPenyacah => 404
  | api_SoundID_pitchedPercussionRanatEk => 405
  | api_SoundID_pitchedPercussionRanatEkLek => 406
  | api_SoundID_pitchedPercussionRanatThum => 407
  | api_SoundID_pitchedPercussionRanatThumLek => 408
  | api_SoundID_pitchedPercussionReyong => 409
  | api_SoundID_pitchedPercussionSanza => 410
  | api_SoundID_pitchedPercussionSaronBarung => 411
  | api_SoundID_pitchedPercussionSaronDemong => 412
  | api_SoundID_pitchedPercussionSaronPanerus => 413
  | api_SoundID_pitchedPercussionSlendroPanerus => 414
  | api_SoundID_pitchedPercussionSlentem => 415
  | api_SoundID_pitchedPercussionTsymbaly => 416
  | api_SoundID_pitchedPercussionTubes => 417
  | api_SoundID_pitchedPercussionTubularBells => 418
  | api_SoundID_pitchedPercussionVibraphone => 419
  | api_SoundID_pitchedPercussionXylophone => 420
  | api_SoundID_pitchedPercussionXylophoneAlto => 421
  | api_SoundID_pitchedPercussionXylophoneBass => 422
  | api_SoundID_pitchedPercussionXylophoneSoprano => 423
  | api_SoundID_pitchedPercussionXylorimba => 424
  | api_SoundID_pitchedPercussionYangqin => 425
  | api_SoundID_pluckArchlute => 426
  | api_SoundID_pluckAutoharp => 427
  | api_SoundID_pluckBaglama => 428
  | api_SoundID_pluckBajo => 429
  | api_SoundID_pluckBalalaika => 430
  | api_SoundID_pluckBalalaikaAlto => 431
  | api_SoundID_pluckBalalaikaBass => 432
  | api_SoundID_pluckBalalaikaContrabass => 433
  | api_SoundID_pluckBalalaikaPiccolo => 434
  | api_SoundID_pluckBalalaikaPrima => 435
  | api_SoundID_pluckBalalaikaSecunda => 436
  | api_SoundID_pluckBandola => 437
  | api_SoundID_pluckBandura => 438
  | api_SoundID_pluckBandurria => 439
  | api_SoundID_pluckBanjo => 440
  | api_SoundID_pluckBanjoTenor => 441
  | api_SoundID_pluckBanjolele => 442
  | api_SoundID_pluckBarbat => 443
  | api_SoundID_pluckBass => 444
  | api_SoundID_pluckBassAcoustic => 445
  | api_SoundID_pluckBassBolon => 446
  | api_SoundID_pluckBassElectric => 447
  | api_SoundID_pluckBassFretless => 448
  | api_SoundID_pluckBassGuitarron => 449
  | api_SoundID_pluckBassSynth => 450
  | api_SoundID_pluckBassSynthLead => 451
  | api_SoundID_pluckBassWashtub => 452
  | api_SoundID_pluckBassWhamola => 453
  | api_SoundID_pluckBegena => 454
  | api_SoundID_pluckBiwa => 455
  | api_SoundID_pluckBordonua => 456
  | api_SoundID_pluckBouzouki => 457
  | api_SoundID_pluckBouzoukiIrish => 458
  | api_SoundID_pluckCelticHarp => 459
  | api_SoundID_pluckCharango => 460
  | api_SoundID_pluckChitarraBattente => 461
  | api_SoundID_pluckCithara => 462
  | api_SoundID_pluckCittern => 463
  | api_SoundID_pluckCuatro => 464
  | api_SoundID_pluckDanBau => 465
  | api_SoundID_pluckDanNguyet => 466
  | api_SoundID_pluckDanTranh => 467
  | api_SoundID_pluckDanTyBa => 468
  | api_SoundID_pluckDiddleyBow => 469
  | api_SoundID_pluckDomra => 470
  | api_SoundID_pluckDomu => 471
  | api_SoundID_pluckDulcimer => 472
  | api_SoundID_pluckDutar => 473
  | api_SoundID_pluckDuxianqin => 474
  | api_SoundID_pluckEktara => 475
  | api_SoundID_pluckGeomungo => 476
  | api_SoundID_pluckGottuvadhyam => 477
  | api_SoundID_pluckGuitar => 478
  | api_SoundID_pluckGuitarAcoustic => 479
  | api_SoundID_pluckGuitarElectric => 480
  | api_SoundID_pluckGuitarNylonString => 481
  | api_SoundID_pluckGuitarPedalSteel => 482
  | api_SoundID_pluckGuitarPortuguese => 483
  | api_SoundID_pluckGuitarRequinto => 484
  | api_SoundID_pluckGuitarResonator => 485
  | api_SoundID_pluckGuitarSteelString => 486
  | api_SoundID_pluckGuitjo => 487
  | api_SoundID_pluckGuitjoDoubleNeck => 488
  | api_SoundID_pluckGuqin => 489
  | api_SoundID_pluckGuzheng => 490
  | api_SoundID_pluckGuzhengChoazhou => 491
  | api_SoundID_pluckHarp => 492
  | api_SoundID_pluckHarpGuitar => 493
  | api_SoundID_pluckHuapanguera => 494
  | api_SoundID_pluckJaranaHuasteca => 495
  | api_SoundID_pluckJaranaJarocha => 496
  | api_SoundID_pluckJaranaJarochaMosquito => 497
  | api_SoundID_pluckJaranaJarochaPrimera => 498
  | api_SoundID_pluckJaranaJarochaSegunda => 499
  | api_SoundID_pluckJaranaJarochaTercera => 500
  | api_SoundID_pluckKabosy => 501
  | api_SoundID_pluckKantele => 502
  | api_SoundID_pluckKanun => 503
  | api_SoundID_pluckKayagum => 504
  | api_SoundID_pluckKobza => 505
  | api_SoundID_pluckKomuz => 506
  | api_SoundID_pluckKora => 507
  | api_SoundID_pluckKoto => 508
  | api_SoundID_pluckKutiyapi => 509
  | api_SoundID_pluckLangeleik => 510
  | api_SoundID_pluckLaud => 511
  | api_SoundID_pluckLute => 512
  | api_SoundID_pluckLyre => 513
  | api_SoundID_pluckMandobass => 514
  | api_SoundID_pluckMandocello => 515
  | api_SoundID_pluckMandola => 516
  | api_SoundID_pluckMandolin => 517
  | api_SoundID_pluckMandolinOctave => 518
  | api_SoundID_pluckMandora => 519
  | api_SoundID_pluckMandore => 520
  | api_SoundID_pluckMarovany => 521
  | api_SoundID_pluckMusicalBow => 522
  | api_SoundID_pluckNgoni => 523
  | api_SoundID_pluckOud => 524
  | api_SoundID_pluckPipa => 525
  | api_SoundID_pluckPsaltery => 526
  | api_SoundID_pluckRuan => 527
  | api_SoundID_pluckSallaneh => 528
  | api_SoundID_pluckSanshin => 529
  | api_SoundID_pluckSantoor => 530
  | api_SoundID_pluckSanxian => 531
  | api_SoundID_pluckSarod => 532
  | api_SoundID_pluckSaung => 533
  | api_SoundID_pluckSaz => 534
  | api_SoundID_pluckSe => 535
  | api_SoundID_pluckSetar => 536
  | api_SoundID_pluckShamisen => 537
  | api_SoundID_pluckSitar => 538
  | api_SoundID_pluckSynth => 539
  | api_SoundID_pluckSynthCharang => 540
  | api_SoundID_pluckSynthChiff => 541
  | api_SoundID_pluckSynthStick => 542
  | api_SoundID_pluckTambura => 543
  | api_SoundID_pluckTamburaBulgarian => 544
  | api_SoundID_pluckTamburaFemale => 545
  | api_SoundID_pluckTamburaMale => 546
  | api_SoundID_pluckTar => 547
  | api_SoundID_pluckTheorbo => 548
  | api_SoundID_pluckTimple => 549
  | api_SoundID_pluckTiple => 550
  | api_SoundID_pluckTres => 551
  | api_SoundID_pluckUkulele => 552
  | api_SoundID_pluckUkuleleTenor => 553
  | api_SoundID_pluckValiha => 554
  | api_SoundID_pluckVeena => 555
  | api_SoundID_pluckVeenaMohan => 556
  | api_SoundID_pluckVeenaRudra => 557
  | api_SoundID_pluckVeenaVichitra => 558
  | api_SoundID_pluckVihuela => 559
  | api_SoundID_pluckVihuelaMexican => 560
  | api_SoundID_pluckXalam => 561
  | api_SoundID_pluckYueqin => 562
  | api_SoundID_pluckZither => 563
  | api_SoundID_pluckZitherOvertone => 564
  | api_SoundID_rattleAfoxe => 565
  | api_SoundID_rattleBirds => 566
  | api_SoundID_rattleCabasa => 567
  | api_SoundID_rattleCaxixi => 568
  | api_SoundID_rattleCog => 569
  | api_SoundID_rattleGanza => 570
  | api_SoundID_rattleHosho => 571
  | api_SoundID_rattleJawbone => 572
  | api_SoundID_rattleKayamba => 573
  | api_SoundID_rattleKpokoKpoko => 574
  | api_SoundID_rattleLavaStones => 575
  | api_SoundID_rattleMaraca => 576
  | api_SoundID_rattleRainStick => 577
  | api_SoundID_rattleRatchet => 578
  | api_SoundID_rattleRattle => 579
  | api_SoundID_rattleShaker => 580
  | api_SoundID_rattleShakerEgg => 581
  | api_SoundID_rattleShekere => 582
  | api_SoundID_rattleSistre => 583
  | api_SoundID_rattleTelevi => 584
  | api_SoundID_rattleVibraslap => 585
  | api_SoundID_rattleWasembe => 586
  | api_SoundID_stringsAjaeng => 587
  | api_SoundID_stringsArpeggione => 588
  | api_SoundID_stringsBaryton => 589
  | api_SoundID_stringsCello => 590
  | api_SoundID_stringsCelloPiccolo => 591
  | api_SoundID_stringsContrabass => 592
  | api_SoundID_stringsCrwth => 593
  | api_SoundID_stringsDanGao => 594
  | api_SoundID_stringsDihu => 595
  | api_SoundID_stringsErhu => 596
  | api_SoundID_stringsErxian => 597
  | api_SoundID_stringsEsraj => 598
  | api_SoundID_stringsFiddle => 599
  | api_SoundID_stringsFiddleHardanger => 600
  | api_SoundID_stringsGadulka => 601
  | api_SoundID_stringsGaohu => 602
  | api_SoundID_stringsGehu => 603
  | api_SoundID_stringsGroup => 604
  | api_SoundID_stringsGroupSynth => 605
  | api_SoundID_stringsHaegeum => 606
  | api_SoundID_stringsHurdyGurdy => 607
  | api_SoundID_stringsIgil => 608
  | api_SoundID_stringsKamancha => 609
  | api_SoundID_stringsKokyu => 610
  | api_SoundID_stringsLaruan => 611
  | api_SoundID_stringsLeiqin => 612
  | api_SoundID_stringsLirone => 613
  | api_SoundID_stringsLyraByzantine => 614
  | api_SoundID_stringsLyraCretan => 615
  | api_SoundID_stringsMorinKhuur => 616
  | api_SoundID_stringsNyckelharpa => 617
  | api_SoundID_stringsOctobass => 618
  | api_SoundID_stringsRebab => 619
  | api_SoundID_stringsRebec => 620
  | api_SoundID_stringsSarangi => 621
  | api_SoundID_stringsStrohViolin => 622
  | api_SoundID_stringsTrombaMarina => 623
  | api_SoundID_stringsVielle => 624
  | api_SoundID_stringsViol => 625
  | api_SoundID_stringsViolAlto => 626
  | api_SoundID_stringsViolBass => 627
  | api_SoundID_stringsViolTenor => 628
  | api_SoundID_stringsViolTreble => 629
  | api_SoundID_stringsViolViolone => 630
  | api_SoundID_stringsViola => 631
  | api_SoundID_stringsViolaDamore => 632
  | api_SoundID_stringsViolin => 633
  | api_SoundID_stringsViolonoPiccolo => 634
  | api_SoundID_stringsViolotta => 635
  | api_SoundID_stringsYayliTanbur => 636
  | api_SoundID_stringsYazheng => 637
  | api_SoundID_stringsZhonghu => 638
  | api_SoundID_synthEffects => 639
  | api_SoundID_synthEffectsAtmosphere => 640
  | api_SoundID_synthEffectsBrightness => 641
  | api_SoundID_synthEffectsCrystal => 642
  | api_SoundID_synthEffectsEchoes => 643
  | api_SoundID_synthEffectsGoblins => 644
  | api_SoundID_synthEffectsRain => 645
  | api_SoundID_synthEffectsSciFi => 646
  | api_SoundID_synthEffectsSoundtrack => 647
  | api_SoundID_synthGroup => 648
  | api_SoundID_synthGroupFifths => 649
  | api_SoundID_synthGroupOrchestra => 650
  | api_SoundID_synthPad => 651
  | api_SoundID_synthPadBowed => 652
  | api_SoundID_synthPadChoir => 653
  | api_SoundID_synthPadHalo => 654
  | api_SoundID_synthPadMetallic => 655
  | api_SoundID_synthPadPolysynth => 656
  | api_SoundID_synthPadSweep => 657
  | api_SoundID_synthPadWarm => 658
  | api_SoundID_synthTheremin => 659
  | api_SoundID_synthToneSawtooth => 660
  | api_SoundID_synthToneSine => 661
  | api_SoundID_synthToneSquare => 662
  | api_SoundID_voiceAa => 663
  | api_SoundID_voiceAlto => 664
  | api_SoundID_voiceAw => 665
  | api_SoundID_voiceBaritone => 666
  | api_SoundID_voiceBass => 667
  | api_SoundID_voiceChild => 668
  | api_SoundID_voiceCountertenor => 669
  | api_SoundID_voiceDoo => 670
  | api_SoundID_voiceEe => 671
  | api_SoundID_voiceFemale => 672
  | api_SoundID_voiceKazoo => 673
  | api_SoundID_voiceMale => 674
  | api_SoundID_voiceMezzoSoprano => 675
  | api_SoundID_voiceMm => 676
  | api_SoundID_voiceOo => 677
  | api_SoundID_voicePercussion => 678
  | api_SoundID_voicePercussionBeatbox => 679
  | api_SoundID_voiceSoprano => 680
  | api_SoundID_voiceSynth => 681
  | api_SoundID_voiceTalkBox => 682
  | api_SoundID_voiceTenor => 683
  | api_SoundID_voiceVocals => 684
  | api_SoundID_windFlutesBansuri => 685
  | api_SoundID_windFlutesBlownBottle => 686
  | api_SoundID_windFlutesCalliope => 687
  | api_SoundID_windFlutesDanso => 688
  | api_SoundID_windFlutesDiZi => 689
  | api_SoundID_windFlutesDvojnice => 690
  | api_SoundID_windFlutesFife => 691
  | api_SoundID_windFlutesFlageolet => 692
  | api_SoundID_windFlutesFlute => 693
  | api_SoundID_windFlutesFluteAlto => 694
  | api_SoundID_windFlutesFluteBass => 695
  | api_SoundID_windFlutesFluteContraAlto => 696
  | api_SoundID_windFlutesFluteContrabass => 697
  | api_SoundID_windFlutesFluteDoubleContrabass => 698
  | api_SoundID_windFlutesFluteIrish => 699
  | api_SoundID_windFlutesFlutePiccolo => 700
  | api_SoundID_windFlutesFluteSubcontrabass => 701
  | api_SoundID_windFlutesFujara => 702
  | api_SoundID_windFlutesGemshorn => 703
  | api_SoundID_windFlutesHocchiku => 704
  | api_SoundID_windFlutesHun => 705
  | api_SoundID_windFlutesKaval => 706
  | api_SoundID_windFlutesKawala => 707
  | api_SoundID_windFlutesKhlui => 708
  | api_SoundID_windFlutesKnotweed => 709
  | api_SoundID_windFlutesKoncovkaAlto => 710
  | api_SoundID_windFlutesKoudi => 711
  | api_SoundID_windFlutesNey => 712
  | api_SoundID_windFlutesNohkan => 713
  | api_SoundID_windFlutesNose => 714
  | api_SoundID_windFlutesOcarina => 715
  | api_SoundID_windFlutesOvertoneTenor => 716
  | api_SoundID_windFlutesPalendag => 717
  | api_SoundID_windFlutesPanpipes => 718
  | api_SoundID_windFlutesQuena => 719
  | api_SoundID_windFlutesRecorder => 720
  | api_SoundID_windFlutesRecorderAlto => 721
  | api_SoundID_windFlutesRecorderBass => 722
  | api_SoundID_windFlutesRecorderContrabass => 723
  | api_SoundID_windFlutesRecorderDescant => 724
  | api_SoundID_windFlutesRecorderGarklein => 725
  | api_SoundID_windFlutesRecorderGreatBass => 726
  | api_SoundID_windFlutesRecorderSopranino => 727
  | api_SoundID_windFlutesRecorderSoprano => 728
  | api_SoundID_windFlutesRecorderTenor => 729
  | api_SoundID_windFlutesRyuteki => 730
  | api_SoundID_windFlutesShakuhachi => 731
  | api_SoundID_windFlutesShepherdsPipe => 732
  | api_SoundID_windFlutesShinobue => 733
  | api_SoundID_windFlutesShvi => 734
  | api_SoundID_windFlutesSuling => 735
  | api_SoundID_windFlutesTarka => 736
  | api_SoundID_windFlutesTumpong => 737
  | api_SoundID_windFlutesVenu => 738
  | api_SoundID_windFlutesWhistle => 739
  | api_SoundID_windFlutesWhistleAlto => 740
  | api_SoundID_windFlutesWhistleLowIrish => 741
  | api_SoundID_windFlutesWhistleShiva => 742
  | api_SoundID_windFlutesWhistleSlide => 743
  | api_SoundID_windFlutesWhistleTin => 744
  | api_SoundID_windFlutesWhistleTinBflat => 745
  | api_SoundID_windFlutesWhistleTinD => 746
  | api_SoundID_windFlutesXiao => 747
  | api_SoundID_windFlutesXun => 748
  | api_SoundID_windGroup => 749
  | api_SoundID_windJug => 750
  | api_SoundID_windPipesBagpipes => 751
  | api_SoundID_windPipesGaida => 752
  | api_SoundID_windPipesHighland => 753
  | api_SoundID_windPipesUilleann => 754
  | api_SoundID_windPungi => 755
  | api_SoundID_windReedAlbogue => 756
  | api_SoundID_windReedAlboka => 757
  | api_SoundID_windReedAlgaita => 758
  | api_SoundID_windReedArghul => 759
  | api_SoundID_windReedBassetHorn => 760
  | api_SoundID_windReedBassoon => 761
  | api_SoundID_windReedBawu => 762
  | api_SoundID_windReedBifora => 763
  | api_SoundID_windReedBombarde => 764
  | api_SoundID_windReedChalumeau => 765
  | api_SoundID_windReedClarinet => 766
  | api_SoundID_windReedClarinetA => 767
  | api_SoundID_windReedClarinetAlto => 768
  | api_SoundID_windReedClarinetBass => 769
  | api_SoundID_windReedClarinetBasset => 770
  | api_SoundID_windReedClarinetBflat => 771
  | api_SoundID_windReedClarinetContraAlto => 772
  | api_SoundID_windReedClarinetContrabass => 773
  | api_SoundID_windReedClarinetEflat => 774
  | api_SoundID_windReedClarinetPiccoloAflat => 775
  | api_SoundID_windReedClarinetteDamour => 776
  | api_SoundID_windReedContrabass => 777
  | api_SoundID_windReedContrabassoon => 778
  | api_SoundID_windReedCornamuse => 779
  | api_SoundID_windReedCromorne => 780
  | api_SoundID_windReedCrumhorn => 781
  | api_SoundID_windReedCrumhornAlto => 782
  | api_SoundID_windReedCrumhornBass => 783
  | api_SoundID_windReedCrumhornGreatBass => 784
  | api_SoundID_windReedCrumhornSoprano => 785
  | api_SoundID_windReedCrumhornTenor => 786
  | api_SoundID_windReedDiple => 787
  | api_SoundID_windReedDiplica => 788
  | api_SoundID_windReedDuduk => 789
  | api_SoundID_windReedDulcian => 790
  | api_SoundID_windReedDulzaina => 791
  | api_SoundID_windReedEnglishHorn => 792
  | api_SoundID_windReedGuanzi => 793
  | api_SoundID_windReedHarmonica => 794
  | api_SoundID_windReedHarmonicaBass => 795
  | api_SoundID_windReedHeckelClarina => 796
  | api_SoundID_windReedHeckelphone => 797
  | api_SoundID_windReedHeckelphonePiccolo => 798
  | api_SoundID_windReedHeckelphoneClarinet => 799
  | api_SoundID_windReedHichiriki => 800
  | api_SoundID_windReedHirtenschalmei => 801
  | api_SoundID_windReedHne => 802
  | api_SoundID_windReedHornpipe => 803
  | api_SoundID_windReedHouguan => 804
  | api_SoundID_windReedHulusi => 805
  | api_SoundID_windReedJogiBaja => 806
  | api_SoundID_windReedKenBau => 807
  | api_SoundID_windReedKhaenMouthOrgan => 808
  | api_SoundID_windReedLauneddas => 809
  | api_SoundID_windReedMaqrunah => 810
  | api_SoundID_windReedMelodica => 811
  | api_SoundID_windReedMijwiz => 812
  | api_SoundID_windReedMizmar => 813
  | api_SoundID_windReedNadaswaram => 814
  | api_SoundID_windReedOboe => 815
  | api_SoundID_windReedOboeBass => 816
  | api_SoundID_windReedOboePiccolo => 817
  | api_SoundID_windReedOboeDaCaccia => 818
  | api_SoundID_windReedOboeDamore => 819
  | api_SoundID_windReedOctavin => 820
  | api_SoundID_windReedPi => 821
  | api_SoundID_windReedPibgorn => 822
  | api_SoundID_windReedPiri => 823
  | api_SoundID_windReedRackett => 824
  | api_SoundID_windReedRauschpfeife => 825
  | api_SoundID_windReedRhaita => 826
  | api_SoundID_windReedRothphone => 827
  | api_SoundID_windReedSarrusaphone => 828
  | api_SoundID_windReedSaxonette => 829
  | api_SoundID_windReedSaxophone => 830
  | api_SoundID_windReedSaxophoneAlto => 831
  | api_SoundID_windReedSaxophoneAulochrome => 832
  | api_SoundID_windReedSaxophoneBaritone => 833
  | api_SoundID_windReedSaxophoneBass => 834
  | api_SoundID_windReedSaxophoneContrabass => 835
  | api_SoundID_windReedSaxophoneMelody => 836
  | api_SoundID_windReedSaxophoneMezzoSoprano => 837
  | api_SoundID_windReedSaxophoneSopranino => 838
  | api_SoundID_windReedSaxophoneSopranissimo => 839
  | api_SoundID_windReedSaxophoneSoprano => 840
  | api_SoundID_windReedSaxophoneSubcontrabass => 841
  | api_SoundID_windReedSaxophoneTenor => 842
  | api_SoundID_windReedShawm => 843
  | api_SoundID_windReedShenai => 844
  | api_SoundID_windReedSheng => 845
  | api_SoundID_windReedSipsi => 846
  | api_SoundID_windReedSopila => 847
  | api_SoundID_windReedSorna => 848
  | api_SoundID_windReedSralai => 849
  | api_SoundID_windReedSuona => 850
  | api_SoundID_windReedSurnai => 851
  | api_SoundID_windReedTaepyeongso => 852
  | api_SoundID_windReedTarogato => 853
  | api_SoundID_windReedTarogatoAncient => 854
  | api_SoundID_windReedTrompetaChina => 855
  | api_SoundID_windReedTubax => 856
  | api_SoundID_windReedXaphoon => 857
  | api_SoundID_windReedZhaleika => 858
  | api_SoundID_windReedZurla => 859
  | api_SoundID_windReedZurna => 860
  | api_SoundID_woodAgogoBlock => 861
  | api_SoundID_woodAgungATamlang => 862
  | api_SoundID_woodAhoko => 863
  | api_SoundID_woodBones => 864
  | api_SoundID_woodCastanets => 865
  | api_SoundID_woodClaves => 866
  | api_SoundID_woodDrumSticks => 867
  | api_SoundID_woodGourd => 868
  | api_SoundID_woodGraniteBlock => 869
  | api_SoundID_woodGuban => 870
  | api_SoundID_woodGuiro => 871
  | api_SoundID_woodHyoushigi => 872
  | api_SoundID_woodIpu => 873
  | api_SoundID_woodJamBlock => 874
  | api_SoundID_woodKaekeeke => 875
  | api_SoundID_woodKagul => 876
  | api_SoundID_woodKalaau => 877
  | api_SoundID_woodKashiklar => 878
  | api_SoundID_woodKubing => 879
  | api_SoundID_woodPanClappers => 880
  | api_SoundID_woodSandBlock => 881
  | api_SoundID_woodSlapstick => 882
  | api_SoundID_woodStirDrum => 883
  | api_SoundID_woodTempleBlock => 884
  | api_SoundID_woodTicTocBlock => 885
  | api_SoundID_woodTonetang => 886
  | api_SoundID_woodWoodBlock => 887
  end.

Definition api_SoundID_name (v : api_SoundID) : str :=
  match v with
  | api_SoundID_unspecified => lit "unspecified"
  | api_SoundID_errorBadString => lit "errorBadString"
  | api_SoundID_brassAlphorn => lit "brassAlphorn"
  | api_SoundID_brassAltoHorn => lit "brassAltoHorn"
  | api_SoundID_brassBaritoneHorn => lit "brassBaritoneHorn"
  | api_SoundID_brassBugle => lit "brassBugle"
  | api_SoundID_brassBugleAlto => lit "brassBugleAlto"
  | api_SoundID_brassBugleBaritone => lit "brassBugleBaritone"
  | api_SoundID_brassBugleContrabass => lit "brassBugleContrabass"
  | api_SoundID_brassBugleEuphoniumBugle => lit "brassBugleEuphoniumBugle"
  | api_SoundID_brassBugleMellophoneBugle => lit "brassBugleMellophoneBugle"
  | api_SoundID_brassBugleSoprano => lit "brassBugleSoprano"
  | api_SoundID_brassCimbasso => lit "brassCimbasso"
  | api_SoundID_brassConchShell => lit "brassConchShell"
  | api_SoundID_brassCornet => lit "brassCornet"
  | api_SoundID_brassCornetSoprano => lit "brassCornetSoprano"
  | api_SoundID_brassCornett => lit "brassCornett"
  | api_SoundID_brassCornettTenor => lit "brassCornettTenor"
  | api_SoundID_brassCornettino => lit "brassCornettino"
  | api_SoundID_brassDidgeridoo => lit "brassDidgeridoo"
  | api_SoundID_brassEuphonium => lit "brassEuphonium"
  | api_SoundID_brassFiscorn => lit "brassFiscorn"
  | api_SoundID_brassFlugelhorn => lit "brassFlugelhorn"
  | api_SoundID_brassFrenchHorn => lit "brassFrenchHorn"
  | api_SoundID_brassGroup => lit "brassGroup"
  | api_SoundID_brassGroupSynth => lit "brassGroupSynth"
  | api_SoundID_brassHelicon => lit "brassHelicon"
  | api_SoundID_brassHoragai => lit "brassHoragai"
  | api_SoundID_brassKuhlohorn => lit "brassKuhlohorn"
  | api_SoundID_brassMellophone => lit "brassMellophone"
  | api_SoundID_brassNaturalHorn => lit "brassNaturalHorn"
  | api_SoundID_brassOphicleide => lit "brassOphicleide"
  | api_SoundID_brassPosthorn => lit "brassPosthorn"
  | api_SoundID_brassRagDung => lit "brassRagDung"
  | api_SoundID_brassSackbutt => lit "brassSackbutt"
  | api_SoundID_brassSackbuttAlto => lit "brassSackbuttAlto"
  | api_SoundID_brassSackbuttBass => lit "brassSackbuttBass"
  | api_SoundID_brassSackbuttTenor => lit "brassSackbuttTenor"
  | api_SoundID_brassSaxhorn => lit "brassSaxhorn"
  | api_SoundID_brassSerpent => lit "brassSerpent"
  | api_SoundID_brassShofar => lit "brassShofar"
  | api_SoundID_brassSousaphone => lit "brassSousaphone"
  | api_SoundID_brassTrombone => lit "brassTrombone"
  | api_SoundID_brassTromboneAlto => lit "brassTromboneAlto"
  | api_SoundID_brassTromboneBass => lit "brassTromboneBass"
  | api_SoundID_brassTromboneContrabass => lit "brassTromboneContrabass"
  | api_SoundID_brassTromboneTenor => lit "brassTromboneTenor"
  | api_SoundID_brassTrumpet => lit "brassTrumpet"
  | api_SoundID_brassTrumpetBaroque => lit "brassTrumpetBaroque"
  | api_SoundID_brassTrumpetBass => lit "brassTrumpetBass"
  | api_SoundID_brassTrumpetBflat => lit "brassTrumpetBflat"
  | api_SoundID_brassTrumpetC => lit "brassTrumpetC"
  | api_SoundID_brassTrumpetD => lit "brassTrumpetD"
  | api_SoundID_brassTrumpetPiccolo => lit "brassTrumpetPiccolo"
  | api_SoundID_brassTrumpetPocket => lit "brassTrumpetPocket"
  | api_SoundID_brassTrumpetSlide => lit "brassTrumpetSlide"
  | api_SoundID_brassTrumpetTenor => lit "brassTrumpetTenor"
  | api_SoundID_brassTuba => lit "brassTuba"
  | api_SoundID_brassTubaBass => lit "brassTubaBass"
  | api_SoundID_brassTubaSubcontrabass => lit "brassTubaSubcontrabass"
  | api_SoundID_brassViennaHorn => lit "brassViennaHorn"
  | api_SoundID_brassVuvuzela => lit "brassVuvuzela"
  | api_SoundID_brassWagnerTuba => lit "brassWagnerTuba"
  | api_SoundID_drumApentemma => lit "drumApentemma"
  | api_SoundID_drumAshiko => lit "drumAshiko"
  | api_SoundID_drumAtabaque => lit "drumAtabaque"
  | api_SoundID_drumAtoke => lit "drumAtoke"
  | api_SoundID_drumAtsimevu => lit "drumAtsimevu"
  | api_SoundID_drumAxatse => lit "drumAxatse"
  | api_SoundID_drumBassDrum => lit "drumBassDrum"
  | api_SoundID_drumBata => lit "drumBata"
  | api_SoundID_drumBataItotele => lit "drumBataItotele"
  | api_SoundID_drumBataIya => lit "drumBataIya"
  | api_SoundID_drumBataOkonkolo => lit "drumBataOkonkolo"
  | api_SoundID_drumBendir => lit "drumBendir"
  | api_SoundID_drumBodhran => lit "drumBodhran"
  | api_SoundID_drumBombo => lit "drumBombo"
  | api_SoundID_drumBongo => lit "drumBongo"
  | api_SoundID_drumBougarabou => lit "drumBougarabou"
  | api_SoundID_drumBuffaloDrum => lit "drumBuffaloDrum"
  | api_SoundID_drumCajon => lit "drumCajon"
  | api_SoundID_drumChenda => lit "drumChenda"
  | api_SoundID_drumChuDaiko => lit "drumChuDaiko"
  | api_SoundID_drumConga => lit "drumConga"
  | api_SoundID_drumCuica => lit "drumCuica"
  | api_SoundID_drumDabakan => lit "drumDabakan"
  | api_SoundID_drumDaff => lit "drumDaff"
  | api_SoundID_drumDafli => lit "drumDafli"
  | api_SoundID_drumDaibyosi => lit "drumDaibyosi"
  | api_SoundID_drumDamroo => lit "drumDamroo"
  | api_SoundID_drumDarabuka => lit "drumDarabuka"
  | api_SoundID_drumDef => lit "drumDef"
  | api_SoundID_drumDhol => lit "drumDhol"
  | api_SoundID_drumDholak => lit "drumDholak"
  | api_SoundID_drumDjembe => lit "drumDjembe"
  | api_SoundID_drumDoira => lit "drumDoira"
  | api_SoundID_drumDondo => lit "drumDondo"
  | api_SoundID_drumDounDounBa => lit "drumDounDounBa"
  | api_SoundID_drumDuff => lit "drumDuff"
  | api_SoundID_drumDumbek => lit "drumDumbek"
  | api_SoundID_drumFontomfrom => lit "drumFontomfrom"
  | api_SoundID_drumFrameDrum => lit "drumFrameDrum"
  | api_SoundID_drumFrameDrumArabian => lit "drumFrameDrumArabian"
  | api_SoundID_drumGeduk => lit "drumGeduk"
  | api_SoundID_drumGhatam => lit "drumGhatam"
  | api_SoundID_drumGome => lit "drumGome"
  | api_SoundID_drumGroup => lit "drumGroup"
  | api_SoundID_drumGroupChinese => lit "drumGroupChinese"
  | api_SoundID_drumGroupEwe => lit "drumGroupEwe"
  | api_SoundID_drumGroupIndian => lit "drumGroupIndian"
  | api_SoundID_drumGroupSet => lit "drumGroupSet"
  | api_SoundID_drumHandDrum => lit "drumHandDrum"
  | api_SoundID_drumHiraDaiko => lit "drumHiraDaiko"
  | api_SoundID_drumIbo => lit "drumIbo"
  | api_SoundID_drumIgihumurizo => lit "drumIgihumurizo"
  | api_SoundID_drumInyahura => lit "drumInyahura"
  | api_SoundID_drumIshakwe => lit "drumIshakwe"
  | api_SoundID_drumJangGu => lit "drumJangGu"
  | api_SoundID_drumKagan => lit "drumKagan"
  | api_SoundID_drumKakko => lit "drumKakko"
  | api_SoundID_drumKanjira => lit "drumKanjira"
  | api_SoundID_drumKendhang => lit "drumKendhang"
  | api_SoundID_drumKendhangAgeng => lit "drumKendhangAgeng"
  | api_SoundID_drumKendhangCiblon => lit "drumKendhangCiblon"
  | api_SoundID_drumKenkeni => lit "drumKenkeni"
  | api_SoundID_drumKhol => lit "drumKhol"
  | api_SoundID_drumKickDrum => lit "drumKickDrum"
  | api_SoundID_drumKidi => lit "drumKidi"
  | api_SoundID_drumKoDaiko => lit "drumKoDaiko"
  | api_SoundID_drumKpanlogo => lit "drumKpanlogo"
  | api_SoundID_drumKudum => lit "drumKudum"
  | api_SoundID_drumLambeg => lit "drumLambeg"
  | api_SoundID_drumLionDrum => lit "drumLionDrum"
  | api_SoundID_drumLogDrum => lit "drumLogDrum"
  | api_SoundID_drumLogDrumAfrican => lit "drumLogDrumAfrican"
  | api_SoundID_drumLogDrumNative => lit "drumLogDrumNative"
  | api_SoundID_drumLogDrumNigerian => lit "drumLogDrumNigerian"
  | api_SoundID_drumMadal => lit "drumMadal"
  | api_SoundID_drumMaddale => lit "drumMaddale"
  | api_SoundID_drumMridangam => lit "drumMridangam"
  | api_SoundID_drumNaal => lit "drumNaal"
  | api_SoundID_drumNagadoDaiko => lit "drumNagadoDaiko"
  | api_SoundID_drumNagara => lit "drumNagara"
  | api_SoundID_drumNaqara => lit "drumNaqara"
  | api_SoundID_drumODaiko => lit "drumODaiko"
  | api_SoundID_drumOkawa => lit "drumOkawa"
  | api_SoundID_drumOkedoDaiko => lit "drumOkedoDaiko"
  | api_SoundID_drumPahuHula => lit "drumPahuHula"
  | api_SoundID_drumPakhawaj => lit "drumPakhawaj"
  | api_SoundID_drumPandeiro => lit "drumPandeiro"
  | api_SoundID_drumPandero => lit "drumPandero"
  | api_SoundID_drumPowwow => lit "drumPowwow"
  | api_SoundID_drumPueblo => lit "drumPueblo"
  | api_SoundID_drumRepinique => lit "drumRepinique"
  | api_SoundID_drumRiq => lit "drumRiq"
  | api_SoundID_drumRototom => lit "drumRototom"
  | api_SoundID_drumSabar => lit "drumSabar"
  | api_SoundID_drumSakara => lit "drumSakara"
  | api_SoundID_drumSampho => lit "drumSampho"
  | api_SoundID_drumSangban => lit "drumSangban"
  | api_SoundID_drumShimeDaiko => lit "drumShimeDaiko"
  | api_SoundID_drumSlitDrum => lit "drumSlitDrum"
  | api_SoundID_drumSlitDrumKrin => lit "drumSlitDrumKrin"
  | api_SoundID_drumSnareDrum => lit "drumSnareDrum"
  | api_SoundID_drumSnareDrumElectric => lit "drumSnareDrumElectric"
  | api_SoundID_drumSogo => lit "drumSogo"
  | api_SoundID_drumSurdo => lit "drumSurdo"
  | api_SoundID_drumTabla => lit "drumTabla"
  | api_SoundID_drumTablaBayan => lit "drumTablaBayan"
  | api_SoundID_drumTablaDayan => lit "drumTablaDayan"
  | api_SoundID_drumTaiko => lit "drumTaiko"
  | api_SoundID_drumTalking => lit "drumTalking"
  | api_SoundID_drumTama => lit "drumTama"
  | api_SoundID_drumTamborita => lit "drumTamborita"
  | api_SoundID_drumTambourine => lit "drumTambourine"
  | api_SoundID_drumTamte => lit "drumTamte"
  | api_SoundID_drumTangku => lit "drumTangku"
  | api_SoundID_drumTanTan => lit "drumTanTan"
  | api_SoundID_drumTaphon => lit "drumTaphon"
  | api_SoundID_drumTar => lit "drumTar"
  | api_SoundID_drumTasha => lit "drumTasha"
  | api_SoundID_drumTenorDrum => lit "drumTenorDrum"
  | api_SoundID_drumTeponaxtli => lit "drumTeponaxtli"
  | api_SoundID_drumThavil => lit "drumThavil"
  | api_SoundID_drumTheBox => lit "drumTheBox"
  | api_SoundID_drumTimbale => lit "drumTimbale"
  | api_SoundID_drumTimpani => lit "drumTimpani"
  | api_SoundID_drumTinaja => lit "drumTinaja"
  | api_SoundID_drumToere => lit "drumToere"
  | api_SoundID_drumTombak => lit "drumTombak"
  | api_SoundID_drumTomTom => lit "drumTomTom"
  | api_SoundID_drumTomTomSynth => lit "drumTomTomSynth"
  | api_SoundID_drumTsuzumi => lit "drumTsuzumi"
  | api_SoundID_drumTumbak => lit "drumTumbak"
  | api_SoundID_drumUchiwaDaiko => lit "drumUchiwaDaiko"
  | api_SoundID_drumUdaku => lit "drumUdaku"
  | api_SoundID_drumUdu => lit "drumUdu"
  | api_SoundID_drumZarb => lit "drumZarb"
  | api_SoundID_effectAeolianHarp => lit "effectAeolianHarp"
  | api_SoundID_effectAirHorn => lit "effectAirHorn"
  | api_SoundID_effectApplause => lit "effectApplause"
  | api_SoundID_effectBassStringSlap => lit "effectBassStringSlap"
  | api_SoundID_effectBird => lit "effectBird"
  | api_SoundID_effectBirdNightingale => lit "effectBirdNightingale"
  | api_SoundID_effectBirdTweet => lit "effectBirdTweet"
  | api_SoundID_effectBreath => lit "effectBreath"
  | api_SoundID_effectBubble => lit "effectBubble"
  | api_SoundID_effectBullroarer => lit "effectBullroarer"
  | api_SoundID_effectBurst => lit "effectBurst"
  | api_SoundID_effectCar => lit "effectCar"
  | api_SoundID_effectCarCrash => lit "effectCarCrash"
  | api_SoundID_effectCarEngine => lit "effectCarEngine"
  | api_SoundID_effectCarPass => lit "effectCarPass"
  | api_SoundID_effectCarStop => lit "effectCarStop"
  | api_SoundID_effectCrickets => lit "effectCrickets"
  | api_SoundID_effectDog => lit "effectDog"
  | api_SoundID_effectDoorCreak => lit "effectDoorCreak"
  | api_SoundID_effectDoorSlam => lit "effectDoorSlam"
  | api_SoundID_effectExplosion => lit "effectExplosion"
  | api_SoundID_effectFluteKeyClick => lit "effectFluteKeyClick"
  | api_SoundID_effectFootsteps => lit "effectFootsteps"
  | api_SoundID_effectFrogs => lit "effectFrogs"
  | api_SoundID_effectGuitarCutting => lit "effectGuitarCutting"
  | api_SoundID_effectGuitarFret => lit "effectGuitarFret"
  | api_SoundID_effectGunshot => lit "effectGunshot"
  | api_SoundID_effectHandClap => lit "effectHandClap"
  | api_SoundID_effectHeartbeat => lit "effectHeartbeat"
  | api_SoundID_effectHelicopter => lit "effectHelicopter"
  | api_SoundID_effectHighQ => lit "effectHighQ"
  | api_SoundID_effectHorseGallop => lit "effectHorseGallop"
  | api_SoundID_effectJetPlane => lit "effectJetPlane"
  | api_SoundID_effectLaserGun => lit "effectLaserGun"
  | api_SoundID_effectLaugh => lit "effectLaugh"
  | api_SoundID_effectLionsRoar => lit "effectLionsRoar"
  | api_SoundID_effectMachineGun => lit "effectMachineGun"
  | api_SoundID_effectMarchingMachine => lit "effectMarchingMachine"
  | api_SoundID_effectMetronomeBell => lit "effectMetronomeBell"
  | api_SoundID_effectMetronomeClick => lit "effectMetronomeClick"
  | api_SoundID_effectPat => lit "effectPat"
  | api_SoundID_effectPunch => lit "effectPunch"
  | api_SoundID_effectRain => lit "effectRain"
  | api_SoundID_effectScratch => lit "effectScratch"
  | api_SoundID_effectScream => lit "effectScream"
  | api_SoundID_effectSeashore => lit "effectSeashore"
  | api_SoundID_effectSiren => lit "effectSiren"
  | api_SoundID_effectSlap => lit "effectSlap"
  | api_SoundID_effectSnap => lit "effectSnap"
  | api_SoundID_effectStamp => lit "effectStamp"
  | api_SoundID_effectStarship => lit "effectStarship"
  | api_SoundID_effectStream => lit "effectStream"
  | api_SoundID_effectTelephoneRing => lit "effectTelephoneRing"
  | api_SoundID_effectThunder => lit "effectThunder"
  | api_SoundID_effectTrain => lit "effectTrain"
  | api_SoundID_effectTrashCan => lit "effectTrashCan"
  | api_SoundID_effectWhip => lit "effectWhip"
  | api_SoundID_effectWhistle => lit "effectWhistle"
  | api_SoundID_effectWhistleMouthSiren => lit "effectWhistleMouthSiren"
  | api_SoundID_effectWhistlePolice => lit "effectWhistlePolice"
  | api_SoundID_effectWhistleSlide => lit "effectWhistleSlide"
  | api_SoundID_effectWhistleTrain => lit "effectWhistleTrain"
  | api_SoundID_effectWind => lit "effectWind"
  | api_SoundID_keyboardAccordion => lit "keyboardAccordion"
  | api_SoundID_keyboardBandoneon => lit "keyboardBandoneon"
  | api_SoundID_keyboardCelesta => lit "keyboardCelesta"
  | api_SoundID_keyboardClavichord => lit "keyboardClavichord"
  | api_SoundID_keyboardClavichordSynth => lit "keyboardClavichordSynth"
  | api_SoundID_keyboardConcertina => lit "keyboardConcertina"
  | api_SoundID_keyboardFortepiano => lit "keyboardFortepiano"
  | api_SoundID_keyboardHarmonium => lit "keyboardHarmonium"
  | api_SoundID_keyboardHarpsichord => lit "keyboardHarpsichord"
  | api_SoundID_keyboardOndesMartenot => lit "keyboardOndesMartenot"
  | api_SoundID_keyboardOrgan => lit "keyboardOrgan"
  | api_SoundID_keyboardOrganDrawbar => lit "keyboardOrganDrawbar"
  | api_SoundID_keyboardOrganPercussive => lit "keyboardOrganPercussive"
  | api_SoundID_keyboardOrganPipe => lit "keyboardOrganPipe"
  | api_SoundID_keyboardOrganReed => lit "keyboardOrganReed"
  | api_SoundID_keyboardOrganRotary => lit "keyboardOrganRotary"
  | api_SoundID_keyboardPiano => lit "keyboardPiano"
  | api_SoundID_keyboardPianoElectric => lit "keyboardPianoElectric"
  | api_SoundID_keyboardPianoGrand => lit "keyboardPianoGrand"
  | api_SoundID_keyboardPianoHonkyTonk => lit "keyboardPianoHonkyTonk"
  | api_SoundID_keyboardPianoPrepared => lit "keyboardPianoPrepared"
  | api_SoundID_keyboardPianoToy => lit "keyboardPianoToy"
  | api_SoundID_keyboardPianoUpright => lit "keyboardPianoUpright"
  | api_SoundID_keyboardVirginal => lit "keyboardVirginal"
  | api_SoundID_metalAdodo => lit "metalAdodo"
  | api_SoundID_metalAnvil => lit "metalAnvil"
  | api_SoundID_metalBabendil => lit "metalBabendil"
  | api_SoundID_metalBellsAgogo => lit "metalBellsAgogo"
  | api_SoundID_metalBellsAlmglocken => lit "metalBellsAlmglocken"
  | api_SoundID_metalBellsBellPlate => lit "metalBellsBellPlate"
  | api_SoundID_metalBellsBellTree => lit "metalBellsBellTree"
  | api_SoundID_metalBellsCarillon => lit "metalBellsCarillon"
  | api_SoundID_metalBellsChimes => lit "metalBellsChimes"
  | api_SoundID_metalBellsChimta => lit "metalBellsChimta"
  | api_SoundID_metalBellsChippli => lit "metalBellsChippli"
  | api_SoundID_metalBellsChurch => lit "metalBellsChurch"
  | api_SoundID_metalBellsCowbell => lit "metalBellsCowbell"
  | api_SoundID_metalBellsDawuro => lit "metalBellsDawuro"
  | api_SoundID_metalBellsGankokwe => lit "metalBellsGankokwe"
  | api_SoundID_metalBellsGhungroo => lit "metalBellsGhungroo"
  | api_SoundID_metalBellsHatheli => lit "metalBellsHatheli"
  | api_SoundID_metalBellsJingleBell => lit "metalBellsJingleBell"
  | api_SoundID_metalBellsKhartal => lit "metalBellsKhartal"
  | api_SoundID_metalBellsMarkTree => lit "metalBellsMarkTree"
  | api_SoundID_metalBellsSistrum => lit "metalBellsSistrum"
  | api_SoundID_metalBellsSleighBells => lit "metalBellsSleighBells"
  | api_SoundID_metalBellsTemple => lit "metalBellsTemple"
  | api_SoundID_metalBellsTibetan => lit "metalBellsTibetan"
  | api_SoundID_metalBellsTinklebell => lit "metalBellsTinklebell"
  | api_SoundID_metalBellsTrychel => lit "metalBellsTrychel"
  | api_SoundID_metalBellsWindChimes => lit "metalBellsWindChimes"
  | api_SoundID_metalBellsZills => lit "metalBellsZills"
  | api_SoundID_metalBerimbau => lit "metalBerimbau"
  | api_SoundID_metalBrakeDrums => lit "metalBrakeDrums"
  | api_SoundID_metalCrotales => lit "metalCrotales"
  | api_SoundID_metalCymbalBo => lit "metalCymbalBo"
  | api_SoundID_metalCymbalCengCeng => lit "metalCymbalCengCeng"
  | api_SoundID_metalCymbalChabara => lit "metalCymbalChabara"
  | api_SoundID_metalCymbalChinese => lit "metalCymbalChinese"
  | api_SoundID_metalCymbalChing => lit "metalCymbalChing"
  | api_SoundID_metalCymbalClash => lit "metalCymbalClash"
  | api_SoundID_metalCymbalCrash => lit "metalCymbalCrash"
  | api_SoundID_metalCymbalFinger => lit "metalCymbalFinger"
  | api_SoundID_metalCymbalHand => lit "metalCymbalHand"
  | api_SoundID_metalCymbalKesi => lit "metalCymbalKesi"
  | api_SoundID_metalCymbalManjeera => lit "metalCymbalManjeera"
  | api_SoundID_metalCymbalReverse => lit "metalCymbalReverse"
  | api_SoundID_metalCymbalRide => lit "metalCymbalRide"
  | api_SoundID_metalCymbalSizzle => lit "metalCymbalSizzle"
  | api_SoundID_metalCymbalSplash => lit "metalCymbalSplash"
  | api_SoundID_metalCymbalSuspended => lit "metalCymbalSuspended"
  | api_SoundID_metalCymbalTebyoshi => lit "metalCymbalTebyoshi"
  | api_SoundID_metalCymbalTibetan => lit "metalCymbalTibetan"
  | api_SoundID_metalCymbalTingsha => lit "metalCymbalTingsha"
  | api_SoundID_metalFlexatone => lit "metalFlexatone"
  | api_SoundID_metalGong => lit "metalGong"
  | api_SoundID_metalGongAgeng => lit "metalGongAgeng"
  | api_SoundID_metalGongAgung => lit "metalGongAgung"
  | api_SoundID_metalGongChanchiki => lit "metalGongChanchiki"
  | api_SoundID_metalGongChinese => lit "metalGongChinese"
  | api_SoundID_metalGongGandingan => lit "metalGongGandingan"
  | api_SoundID_metalGongKempul => lit "metalGongKempul"
  | api_SoundID_metalGongKempyang => lit "metalGongKempyang"
  | api_SoundID_metalGongKetuk => lit "metalGongKetuk"
  | api_SoundID_metalGongKkwenggwari => lit "metalGongKkwenggwari"
  | api_SoundID_metalGongLuo => lit "metalGongLuo"
  | api_SoundID_metalGongSinging => lit "metalGongSinging"
  | api_SoundID_metalGongThai => lit "metalGongThai"
  | api_SoundID_metalGuira => lit "metalGuira"
  | api_SoundID_metalHang => lit "metalHang"
  | api_SoundID_metalHiHat => lit "metalHiHat"
  | api_SoundID_metalJawHarp => lit "metalJawHarp"
  | api_SoundID_metalKengong => lit "metalKengong"
  | api_SoundID_metalMurchang => lit "metalMurchang"
  | api_SoundID_metalMusicalSaw => lit "metalMusicalSaw"
  | api_SoundID_metalSingingBowl => lit "metalSingingBowl"
  | api_SoundID_metalSpoons => lit "metalSpoons"
  | api_SoundID_metalSteelDrums => lit "metalSteelDrums"
  | api_SoundID_metalTamtam => lit "metalTamtam"
  | api_SoundID_metalThundersheet => lit "metalThundersheet"
  | api_SoundID_metalTriangle => lit "metalTriangle"
  | api_SoundID_metalWashboard => lit "metalWashboard"
  | api_SoundID_pitchedPercussionAngklung => lit "pitchedPercussionAngklung"
  | api_SoundID_pitchedPercussionBalafon => lit "pitchedPercussionBalafon"
  | api_SoundID_pitchedPercussionBellLyre => lit "pitchedPercussionBellLyre"
  | api_SoundID_pitchedPercussionBells => lit "pitchedPercussionBells"
  | api_SoundID_pitchedPercussionBianqing => lit "pitchedPercussionBianqing"
  | api_SoundID_pitchedPercussionBianzhong => lit "pitchedPercussionBianzhong"
  | api_SoundID_pitchedPercussionBonang => lit "pitchedPercussionBonang"
  | api_SoundID_pitchedPercussionCimbalom => lit "pitchedPercussionCimbalom"
  | api_SoundID_pitchedPercussionCrystalGlasses => lit "pitchedPercussionCrystalGlasses"
  | api_SoundID_pitchedPercussionDanTamThapLuc => lit "pitchedPercussionDanTamThapLuc"
  | api_SoundID_pitchedPercussionFangxiang => lit "pitchedPercussionFangxiang"
  | api_SoundID_pitchedPercussionGandinganAKayo => lit "pitchedPercussionGandinganAKayo"
  | api_SoundID_pitchedPercussionGangsa => lit "pitchedPercussionGangsa"
  | api_SoundID_pitchedPercussionGender => lit "pitchedPercussionGender"
  | api_SoundID_pitchedPercussionGiying => lit "pitchedPercussionGiying"
  | api_SoundID_pitchedPercussionGlassHarmonica => lit "pitchedPercussionGlassHarmonica"
  | api_SoundID_pitchedPercussionGlockenspiel => lit "pitchedPercussionGlockenspiel"
  | api_SoundID_pitchedPercussionGlockenspielAlto => lit "pitchedPercussionGlockenspielAlto"
  | api_SoundID_pitchedPercussionGlockenspielSoprano => lit "pitchedPercussionGlockenspielSoprano"
  | api_SoundID_pitchedPercussionGyil => lit "pitchedPercussionGyil"
  | api_SoundID_pitchedPercussionHammerDulcimer => lit "pitchedPercussionHammerDulcimer"
  | api_SoundID_pitchedPercussionHandbells => lit "pitchedPercussionHandbells"
  | api_SoundID_pitchedPercussionKalimba => lit "pitchedPercussionKalimba"
  | api_SoundID_pitchedPercussionKantil => lit "pitchedPercussionKantil"
  | api_SoundID_pitchedPercussionKhim => lit "pitchedPercussionKhim"
  | api_SoundID_pitchedPercussionKulintang => lit "pitchedPercussionKulintang"
  | api_SoundID_pitchedPercussionKulintangAKayo => lit "pitchedPercussionKulintangAKayo"
  | api_SoundID_pitchedPercussionKulintangATiniok => lit "pitchedPercussionKulintangATiniok"
  | api_SoundID_pitchedPercussionLikembe => lit "pitchedPercussionLikembe"
  | api_SoundID_pitchedPercussionLuntang => lit "pitchedPercussionLuntang"
  | api_SoundID_pitchedPercussionMarimba => lit "pitchedPercussionMarimba"
  | api_SoundID_pitchedPercussionMarimbaBass => lit "pitchedPercussionMarimbaBass"
  | api_SoundID_pitchedPercussionMbira => lit "pitchedPercussionMbira"
  | api_SoundID_pitchedPercussionMbiraArray => lit "pitchedPercussionMbiraArray"
  | api_SoundID_pitchedPercussionMetallophone => lit "pitchedPercussionMetallophone"
  | api_SoundID_pitchedPercussionMetallophoneAlto => lit "pitchedPercussionMetallophoneAlto"
  | api_SoundID_pitchedPercussionMetallophoneBass => lit "pitchedPercussionMetallophoneBass"
  | api_SoundID_pitchedPercussionMetallophoneSoprano => lit "pitchedPercussionMetallophoneSoprano"
  | api_SoundID_pitchedPercussionMusicBox => lit "pitchedPercussionMusicBox"
  | api_SoundID_pitchedPercussionPelogPanerus => lit "pitchedPercussionPelogPanerus"
  | api_SoundID_pitchedPercussionPemade => lit "pitchedPercussionPemade"
  | api_SoundID_pitchedPercussionPenyacah => lit "pitchedPercussionPenyacah"
  | api_SoundID_pitchedPercussionRanatEk => lit "pitchedPercussionRanatEk"
  | api_SoundID_pitchedPercussionRanatEkLek => lit "pitchedPercussionRanatEkLek"
  | api_SoundID_pitchedPercussionRanatThum => lit "pitchedPercussionRanatThum"
  | api_SoundID_pitchedPercussionRanatThumLek => lit "pitchedPercussionRanatThumLek"
  | api_SoundID_pitchedPercussionReyong => lit "pitchedPercussionReyong"
  | api_SoundID_pitchedPercussionSanza => lit "pitchedPercussionSanza"
  | api_SoundID_pitchedPercussionSaronBarung => lit "pitchedPercussionSaronBarung"
  | api_SoundID_pitchedPercussionSaronDemong => lit "pitchedPercussionSaronDemong"
  | api_SoundID_pitchedPercussionSaronPanerus => lit "pitchedPercussionSaronPanerus"
  | api_SoundID_pitchedPercussionSlendroPanerus => lit "pitchedPercussionSlendroPanerus"
  | api_SoundID_pitchedPercussionSlentem => lit "pitchedPercussionSlentem"
  | api_SoundID_pitchedPercussionTsymbaly => lit "pitchedPercussionTsymbaly"
  | api_SoundID_pitchedPercussionTubes => lit "pitchedPercussionTubes"
  | api_SoundID_pitchedPercussionTubularBells => lit "pitchedPercussionTubularBells"
  | api_SoundID_pitchedPercussionVibraphone => lit "pitchedPercussionVibraphone"
  | api_SoundID_pitchedPercussionXylophone => lit "pitchedPercussionXylophone"
  | api_SoundID_pitchedPercussionXylophoneAlto => lit "pitchedPercussionXylophoneAlto"
  | api_SoundID_pitchedPercussionXylophoneBass => lit "pitchedPercussionXylophoneBass"
  | api_SoundID_pitchedPercussionXylophoneSoprano => lit "pitchedPercussionXylophoneSoprano"
  | api_SoundID_pitchedPercussionXylorimba => lit "pitchedPercussionXylorimba"
  | api_SoundID_pitchedPercussionYangqin => lit "pitchedPercussionYangqin"
  | api_SoundID_pluckArchlute => lit "pluckArchlute"
  | api_SoundID_pluckAutoharp => lit "pluckAutoharp"
  | api_SoundID_pluckBaglama => lit "pluckBaglama"
  | api_SoundID_pluckBajo => lit "pluckBajo"
  | api_SoundID_pluckBalalaika => lit "pluckBalalaika"
  | api_SoundID_pluckBalalaikaAlto => lit "pluckBalalaikaAlto"
  | api_SoundID_pluckBalalaikaBass => lit "pluckBalalaikaBass"
  | api_SoundID_pluckBalalaikaContrabass => lit "pluckBalalaikaContrabass"
  | api_SoundID_pluckBalalaikaPiccolo => lit "pluckBalalaikaPiccolo"
  | api_SoundID_pluckBalalaikaPrima => lit "pluckBalalaikaPrima"
  | api_SoundID_pluckBalalaikaSecunda => lit "pluckBalalaikaSecunda"
  | api_SoundID_pluckBandola => lit "pluckBandola"
  | api_SoundID_pluckBandura => lit "pluckBandura"
  | api_SoundID_pluckBandurria => lit "pluckBandurria"
  | api_SoundID_pluckBanjo => lit "pluckBanjo"
  | api_SoundID_pluckBanjoTenor => lit "pluckBanjoTenor"
  | api_SoundID_pluckBanjolele => lit "pluckBanjolele"
  | api_SoundID_pluckBarbat => lit "pluckBarbat"
  | api_SoundID_pluckBass => lit "pluckBass"
  | api_SoundID_pluckBassAcoustic => lit "pluckBassAcoustic"
  | api_SoundID_pluckBassBolon => lit "pluckBassBolon"
  | api_SoundID_pluckBassElectric => lit "pluckBassElectric"
  | api_SoundID_pluckBassFretless => lit "pluckBassFretless"
  | api_SoundID_pluckBassGuitarron => lit "pluckBassGuitarron"
  | api_SoundID_pluckBassSynth => lit "pluckBassSynth"
  | api_SoundID_pluckBassSynthLead => lit "pluckBassSynthLead"
  | api_SoundID_pluckBassWashtub => lit "pluckBassWashtub"
  | api_SoundID_pluckBassWhamola => lit "pluckBassWhamola"
  | api_SoundID_pluckBegena => lit "pluckBegena"
  | api_SoundID_pluckBiwa => lit "pluckBiwa"
  | api_SoundID_pluckBordonua => lit "pluckBordonua"
  | api_SoundID_pluckBouzouki => lit "pluckBouzouki"
  | api_SoundID_pluckBouzoukiIrish => lit "pluckBouzoukiIrish"
  | api_SoundID_pluckCelticHarp => lit "pluckCelticHarp"
  | api_SoundID_pluckCharango => lit "pluckCharango"
  | api_SoundID_pluckChitarraBattente => lit "pluckChitarraBattente"
  | api_SoundID_pluckCithara => lit "pluckCithara"
  | api_SoundID_pluckCittern => lit "pluckCittern"
  | api_SoundID_pluckCuatro => lit "pluckCuatro"
  | api_SoundID_pluckDanBau => lit "pluckDanBau"
  | api_SoundID_pluckDanNguyet => lit "pluckDanNguyet"
  | api_SoundID_pluckDanTranh => lit "pluckDanTranh"
  | api_SoundID_pluckDanTyBa => lit "pluckDanTyBa"
  | api_SoundID_pluckDiddleyBow => lit "pluckDiddleyBow"
  | api_SoundID_pluckDomra => lit "pluckDomra"
  | api_SoundID_pluckDomu => lit "pluckDomu"
  | api_SoundID_pluckDulcimer => lit "pluckDulcimer"
  | api_SoundID_pluckDutar => lit "pluckDutar"
  | api_SoundID_pluckDuxianqin => lit "pluckDuxianqin"
  | api_SoundID_pluckEktara => lit "pluckEktara"
  | api_SoundID_pluckGeomungo => lit "pluckGeomungo"
  | api_SoundID_pluckGottuvadhyam => lit "pluckGottuvadhyam"
  | api_SoundID_pluckGuitar => lit "pluckGuitar"
  | api_SoundID_pluckGuitarAcoustic => lit "pluckGuitarAcoustic"
  | api_SoundID_pluckGuitarElectric => lit "pluckGuitarElectric"
  | api_SoundID_pluckGuitarNylonString => lit "pluckGuitarNylonString"
  | api_SoundID_pluckGuitarPedalSteel => lit "pluckGuitarPedalSteel"
  | api_SoundID_pluckGuitarPortuguese => lit "pluckGuitarPortuguese"
  | api_SoundID_pluckGuitarRequinto => lit "pluckGuitarRequinto"
  | api_SoundID_pluckGuitarResonator => lit "pluckGuitarResonator"
  | api_SoundID_pluckGuitarSteelString => lit "pluckGuitarSteelString"
  | api_SoundID_pluckGuitjo => lit "pluckGuitjo"
  | api_SoundID_pluckGuitjoDoubleNeck => lit "pluckGuitjoDoubleNeck"
  | api_SoundID_pluckGuqin => lit "pluckGuqin"
  | api_SoundID_pluckGuzheng => lit "pluckGuzheng"
  | api_SoundID_pluckGuzhengChoazhou => lit "pluckGuzhengChoazhou"
  | api_SoundID_pluckHarp => lit "pluckHarp"
  | api_SoundID_pluckHarpGuitar => lit "pluckHarpGuitar"
  | api_SoundID_pluckHuapanguera => lit "pluckHuapanguera"
  | api_SoundID_pluckJaranaHuasteca => lit "pluckJaranaHuasteca"
  | api_SoundID_pluckJaranaJarocha => lit "pluckJaranaJarocha"
  | api_SoundID_pluckJaranaJarochaMosquito => lit "pluckJaranaJarochaMosquito"
  | api_SoundID_pluckJaranaJarochaPrimera => lit "pluckJaranaJarochaPrimera"
  | api_SoundID_pluckJaranaJarochaSegunda => lit "pluckJaranaJarochaSegunda"
  | api_SoundID_pluckJaranaJarochaTercera => lit "pluckJaranaJarochaTercera"
  | api_SoundID_pluckKabosy => lit "pluckKabosy"
  | api_SoundID_pluckKantele => lit "pluckKantele"
  | api_SoundID_pluckKanun => lit "pluckKanun"
  | api_SoundID_pluckKayagum => lit "pluckKayagum"
  | api_SoundID_pluckKobza => lit "pluckKobza"
  | api_SoundID_pluckKomuz => lit "pluckKomuz"
  | api_SoundID_pluckKora => lit "pluckKora"
  | api_SoundID_pluckKoto => lit "pluckKoto"
  | api_SoundID_pluckKutiyapi => lit "pluckKutiyapi"
  | api_SoundID_pluckLangeleik => lit "pluckLangeleik"
  | api_SoundID_pluckLaud => lit "pluckLaud"
  | api_SoundID_pluckLute => lit "pluckLute"
  | api_SoundID_pluckLyre => lit "pluckLyre"
  | api_SoundID_pluckMandobass => lit "pluckMandobass"
  | api_SoundID_pluckMandocello => lit "pluckMandocello"
  | api_SoundID_pluckMandola => lit "pluckMandola"
  | api_SoundID_pluckMandolin => lit "pluckMandolin"
  | api_SoundID_pluckMandolinOctave => lit "pluckMandolinOctave"
  | api_SoundID_pluckMandora => lit "pluckMandora"
  | api_SoundID_pluckMandore => lit "pluckMandore"
  | api_SoundID_pluckMarovany => lit "pluckMarovany"
  | api_SoundID_pluckMusicalBow => lit "pluckMusicalBow"
  | api_SoundID_pluckNgoni => lit "pluckNgoni"
  | api_SoundID_pluckOud => lit "pluckOud"
  | api_SoundID_pluckPipa => lit "pluckPipa"
  | api_SoundID_pluckPsaltery => lit "pluckPsaltery"
  | api_SoundID_pluckRuan => lit "pluckRuan"
  | api_SoundID_pluckSallaneh => lit "pluckSallaneh"
  | api_SoundID_pluckSanshin => lit "pluckSanshin"
  | api_SoundID_pluckSantoor => lit "pluckSantoor"
  | api_SoundID_pluckSanxian => lit "pluckSanxian"
  | api_SoundID_pluckSarod => lit "pluckSarod"
  | api_SoundID_pluckSaung => lit "pluckSaung"
  | api_SoundID_pluckSaz => lit "pluckSaz"
  | api_SoundID_pluckSe => lit "pluckSe"
  | api_SoundID_pluckSetar => lit "pluckSetar"
  | api_SoundID_pluckShamisen => lit "pluckShamisen"
  | api_SoundID_pluckSitar => lit "pluckSitar"
  | api_SoundID_pluckSynth => lit "pluckSynth"
  | api_SoundID_pluckSynthCharang => lit "pluckSynthCharang"
  | api_SoundID_pluckSynthChiff => lit "pluckSynthChiff"
  | api_SoundID_pluckSynthStick => lit "pluckSynthStick"
  | api_SoundID_pluckTambura => lit "pluckTambura"
  | api_SoundID_pluckTamburaBulgarian => lit "pluckTamburaBulgarian"
  | api_SoundID_pluckTamburaFemale => lit "pluckTamburaFemale"
  | api_SoundID_pluckTamburaMale => lit "pluckTamburaMale"
  | api_SoundID_pluckTar => lit "pluckTar"
  | api_SoundID_pluckTheorbo => lit "pluckTheorbo"
  | api_SoundID_pluckTimple => lit "pluckTimple"
  | api_SoundID_pluckTiple => lit "pluckTiple"
  | api_SoundID_pluckTres => lit "pluckTres"
  | api_SoundID_pluckUkulele => lit "pluckUkulele"
  | api_SoundID_pluckUkuleleTenor => lit "pluckUkuleleTenor"
  | api_SoundID_pluckValiha => lit "pluckValiha"
  | api_SoundID_pluckVeena => lit "pluckVeena"
  | api_SoundID_pluckVeenaMohan => lit "pluckVeenaMohan"
  | api_SoundID_pluckVeenaRudra => lit "pluckVeenaRudra"
  | api_SoundID_pluckVeenaVichitra => lit "pluckVeenaVichitra"
  | api_SoundID_pluckVihuela => lit "pluckVihuela"
  | api_SoundID_pluckVihuelaMexican => lit "pluckVihuelaMexican"
  | api_SoundID_pluckXalam => lit "pluckXalam"
  | api_SoundID_pluckYueqin => lit "pluckYueqin"
  | api_SoundID_pluckZither => lit "pluckZither"
  | api_SoundID_pluckZitherOvertone => lit "pluckZitherOvertone"
  | api_SoundID_rattleAfoxe => lit "rattleAfoxe"
  | api_SoundID_rattleBirds => lit "rattleBirds"
  | api_SoundID_rattleCabasa => lit "rattleCabasa"
  | api_SoundID_rattleCaxixi => lit "rattleCaxixi"
  | api_SoundID_rattleCog => lit "rattleCog"
  | api_SoundID_rattleGanza => lit "rattleGanza"
  | api_SoundID_rattleHosho => lit "rattleHosho"
  | api_SoundID_rattleJawbone => lit "rattleJawbone"
  | api_SoundID_rattleKayamba => lit "rattleKayamba"
  | api_SoundID_rattleKpokoKpoko => lit "rattleKpokoKpoko"
  | api_SoundID_rattleLavaStones => lit "rattleLavaStones"
  | api_SoundID_rattleMaraca => lit "rattleMaraca"
  | api_SoundID_rattleRainStick => lit "rattleRainStick"
  | api_SoundID_rattleRatchet => lit "rattleRatchet"
  | api_SoundID_rattleRattle => lit "rattleRattle"
  | api_SoundID_rattleShaker => lit "rattleShaker"
  | api_SoundID_rattleShakerEgg => lit "rattleShakerEgg"
  | api_SoundID_rattleShekere => lit "rattleShekere"
  | api_SoundID_rattleSistre => lit "rattleSistre"
  | api_SoundID_rattleTelevi => lit "rattleTelevi"
  | api_SoundID_rattleVibraslap => lit "rattleVibraslap"
  | api_SoundID_rattleWasembe => lit "rattleWasembe"
  | api_SoundID_stringsAjaeng => lit "stringsAjaeng"
  | api_SoundID_stringsArpeggione => lit "stringsArpeggione"
  | api_SoundID_stringsBaryton => lit "stringsBaryton"
  | api_SoundID_stringsCello => lit "stringsCello"
  | api_SoundID_stringsCelloPiccolo => lit "stringsCelloPiccolo"
  | api_SoundID_stringsContrabass => lit "stringsContrabass"
  | api_SoundID_stringsCrwth => lit "stringsCrwth"
  | api_SoundID_stringsDanGao => lit "stringsDanGao"
  | api_SoundID_stringsDihu => lit "stringsDihu"
  | api_SoundID_stringsErhu => lit "stringsErhu"
  | api_SoundID_stringsErxian => lit "stringsErxian"
  | api_SoundID_stringsEsraj => lit "stringsEsraj"
  | api_SoundID_stringsFiddle => lit "stringsFiddle"
  | api_SoundID_stringsFiddleHardanger => lit "stringsFiddleHardanger"
  | api_SoundID_stringsGadulka => lit "stringsGadulka"
  | api_SoundID_stringsGaohu => lit "stringsGaohu"
  | api_SoundID_stringsGehu => lit "stringsGehu"
  | api_SoundID_stringsGroup => lit "stringsGroup"
  | api_SoundID_stringsGroupSynth => lit "stringsGroupSynth"
  | api_SoundID_stringsHaegeum => lit "stringsHaegeum"
  | api_SoundID_stringsHurdyGurdy => lit "stringsHurdyGurdy"
  | api_SoundID_stringsIgil => lit "stringsIgil"
  | api_SoundID_stringsKamancha => lit "stringsKamancha"
  | api_SoundID_stringsKokyu => lit "stringsKokyu"
  | api_SoundID_stringsLaruan => lit "stringsLaruan"
  | api_SoundID_stringsLeiqin => lit "stringsLeiqin"
  | api_SoundID_stringsLirone => lit "stringsLirone"
  | api_SoundID_stringsLyraByzantine => lit "stringsLyraByzantine"
  | api_SoundID_stringsLyraCretan => lit "stringsLyraCretan"
  | api_SoundID_stringsMorinKhuur => lit "stringsMorinKhuur"
  | api_SoundID_stringsNyckelharpa => lit "stringsNyckelharpa"
  | api_SoundID_stringsOctobass => lit "stringsOctobass"
  | api_SoundID_stringsRebab => lit "stringsRebab"
  | api_SoundID_stringsRebec => lit "stringsRebec"
  | api_SoundID_stringsSarangi => lit "stringsSarangi"
  | api_SoundID_stringsStrohViolin => lit "stringsStrohViolin"
  | api_SoundID_stringsTrombaMarina => lit "stringsTrombaMarina"
  | api_SoundID_stringsVielle => lit "stringsVielle"
  | api_SoundID_stringsViol => lit "stringsViol"
  | api_SoundID_stringsViolAlto => lit "stringsViolAlto"
  | api_SoundID_stringsViolBass => lit "stringsViolBass"
  | api_SoundID_stringsViolTenor => lit "stringsViolTenor"
  | api_SoundID_stringsViolTreble => lit "stringsViolTreble"
  | api_SoundID_stringsViolViolone => lit "stringsViolViolone"
  | api_SoundID_stringsViola => lit "stringsViola"
  | api_SoundID_stringsViolaDamore => lit "stringsViolaDamore"
  | api_SoundID_stringsViolin => lit "stringsViolin"
  | api_SoundID_stringsViolonoPiccolo => lit "stringsViolonoPiccolo"
  | api_SoundID_stringsViolotta => lit "stringsViolotta"
  | api_SoundID_stringsYayliTanbur => lit "stringsYayliTanbur"
  | api_SoundID_stringsYazheng => lit "stringsYazheng"
  | api_SoundID_stringsZhonghu => lit "stringsZhonghu"
  | api_SoundID_synthEffects => lit "synthEffects"
  | api_SoundID_synthEffectsAtmosphere => lit "synthEffectsAtmosphere"
  | api_SoundID_synthEffectsBrightness => lit "synthEffectsBrightness"
  | api_SoundID_synthEffectsCrystal => lit "synthEffectsCrystal"
  | api_SoundID_synthEffectsEchoes => lit "synthEffectsEchoes"
  | api_SoundID_synthEffectsGoblins => lit "synthEffectsGoblins"
  | api_SoundID_synthEffectsRain => lit "synthEffectsRain"
  | api_SoundID_synthEffectsSciFi => lit "synthEffectsSciFi"
  | api_SoundID_synthEffectsSoundtrack => lit "synthEffectsSoundtrack"
  | api_SoundID_synthGroup => lit "synthGroup"
  | api_SoundID_synthGroupFifths => lit "synthGroupFifths"
  | api_SoundID_synthGroupOrchestra => lit "synthGroupOrchestra"
  | api_SoundID_synthPad => lit "synthPad"
  | api_SoundID_synthPadBowed => lit "synthPadBowed"
  | api_SoundID_synthPadChoir => lit "synthPadChoir"
  | api_SoundID_synthPadHalo => lit "synthPadHalo"
  | api_SoundID_synthPadMetallic => lit "synthPadMetallic"
  | api_SoundID_synthPadPolysynth => lit "synthPadPolysynth"
  | api_SoundID_synthPadSweep => lit "synthPadSweep"
  | api_SoundID_synthPadWarm => lit "synthPadWarm"
  | api_SoundID_synthTheremin => lit "synthTheremin"
  | api_SoundID_synthToneSawtooth => lit "synthToneSawtooth"
  | api_SoundID_synthToneSine => lit "synthToneSine"
  | api_SoundID_synthToneSquare => lit "synthToneSquare"
  | api_SoundID_voiceAa => lit "voiceAa"
  | api_SoundID_voiceAlto => lit "voiceAlto"
  | api_SoundID_voiceAw => lit "voiceAw"
  | api_SoundID_voiceBaritone => lit "voiceBaritone"
  | api_SoundID_voiceBass => lit "voiceBass"
  | api_SoundID_voiceChild => lit "voiceChild"
  | api_SoundID_voiceCountertenor => lit "voiceCountertenor"
  | api_SoundID_voiceDoo => lit "voiceDoo"
  | api_SoundID_voiceEe => lit "voiceEe"
  | api_SoundID_voiceFemale => lit "voiceFemale"
  | api_SoundID_voiceKazoo => lit "voiceKazoo"
  | api_SoundID_voiceMale => lit "voiceMale"
  | api_SoundID_voiceMezzoSoprano => lit "voiceMezzoSoprano"
  | api_SoundID_voiceMm => lit "voiceMm"
  | api_SoundID_voiceOo => lit "voiceOo"
  | api_SoundID_voicePercussion => lit "voicePercussion"
  | api_SoundID_voicePercussionBeatbox => lit "voicePercussionBeatbox"
  | api_SoundID_voiceSoprano => lit "voiceSoprano"
  | api_SoundID_voiceSynth => lit "voiceSynth"
  | api_SoundID_voiceTalkBox => lit "voiceTalkBox"
  | api_SoundID_voiceTenor => lit "voiceTenor"
  | api_SoundID_voiceVocals => lit "voiceVocals"
  | api_SoundID_windFlutesBansuri => lit "windFlutesBansuri"
  | api_SoundID_windFlutesBlownBottle => lit "windFlutesBlownBottle"
  | api_SoundID_windFlutesCalliope => lit "windFlutesCalliope"
  | api_SoundID_windFlutesDanso => lit "windFlutesDanso"
  | api_SoundID_windFlutesDiZi => lit "windFlutesDiZi"
  | api_SoundID_windFlutesDvojnice => lit "windFlutesDvojnice"
  | api_SoundID_windFlutesFife => lit "windFlutesFife"
  | api_SoundID_windFlutesFlageolet => lit "windFlutesFlageolet"
  | api_SoundID_windFlutesFlute => lit "windFlutesFlute"
  | api_SoundID_windFlutesFluteAlto => lit "windFlutesFluteAlto"
  | api_SoundID_windFlutesFluteBass => lit "windFlutesFluteBass"
  | api_SoundID_windFlutesFluteContraAlto => lit "windFlutesFluteContraAlto"
  | api_SoundID_windFlutesFluteContrabass => lit "windFlutesFluteContrabass"
  | api_SoundID_windFlutesFluteDoubleContrabass => lit "windFlutesFluteDoubleContrabass"
  | api_SoundID_windFlutesFluteIrish => lit "windFlutesFluteIrish"
  | api_SoundID_windFlutesFlutePiccolo => lit "windFlutesFlutePiccolo"
  | api_SoundID_windFlutesFluteSubcontrabass => lit "windFlutesFluteSubcontrabass"
  | api_SoundID_windFlutesFujara => lit "windFlutesFujara"
  | api_SoundID_windFlutesGemshorn => lit "windFlutesGemshorn"
  | api_SoundID_windFlutesHocchiku => lit "windFlutesHocchiku"
  | api_SoundID_windFlutesHun => lit "windFlutesHun"
  | api_SoundID_windFlutesKaval => lit "windFlutesKaval"
  | api_SoundID_windFlutesKawala => lit "windFlutesKawala"
  | api_SoundID_windFlutesKhlui => lit "windFlutesKhlui"
  | api_SoundID_windFlutesKnotweed => lit "windFlutesKnotweed"
  | api_SoundID_windFlutesKoncovkaAlto => lit "windFlutesKoncovkaAlto"
  | api_SoundID_windFlutesKoudi => lit "windFlutesKoudi"
  | api_SoundID_windFlutesNey => lit "windFlutesNey"
  | api_SoundID_windFlutesNohkan => lit "windFlutesNohkan"
  | api_SoundID_windFlutesNose => lit "windFlutesNose"
  | api_SoundID_windFlutesOcarina => lit "windFlutesOcarina"
  | api_SoundID_windFlutesOvertoneTenor => lit "windFlutesOvertoneTenor"
  | api_SoundID_windFlutesPalendag => lit "windFlutesPalendag"
  | api_SoundID_windFlutesPanpipes => lit "windFlutesPanpipes"
  | api_SoundID_windFlutesQuena => lit "windFlutesQuena"
  | api_SoundID_windFlutesRecorder => lit "windFlutesRecorder"
  | api_SoundID_windFlutesRecorderAlto => lit "windFlutesRecorderAlto"
  | api_SoundID_windFlutesRecorderBass => lit "windFlutesRecorderBass"
  | api_SoundID_windFlutesRecorderContrabass => lit "windFlutesRecorderContrabass"
  | api_SoundID_windFlutesRecorderDescant => lit "windFlutesRecorderDescant"
  | api_SoundID_windFlutesRecorderGarklein => lit "windFlutesRecorderGarklein"
  | api_SoundID_windFlutesRecorderGreatBass => lit "windFlutesRecorderGreatBass"
  | api_SoundID_windFlutesRecorderSopranino => lit "windFlutesRecorderSopranino"
  | api_SoundID_windFlutesRecorderSoprano => lit "windFlutesRecorderSoprano"
  | api_SoundID_windFlutesRecorderTenor => lit "windFlutesRecorderTenor"
  | api_SoundID_windFlutesRyuteki => lit "windFlutesRyuteki"
  | api_SoundID_windFlutesShakuhachi => lit "windFlutesShakuhachi"
  | api_SoundID_windFlutesShepherdsPipe => lit "windFlutesShepherdsPipe"
  | api_SoundID_windFlutesShinobue => lit "windFlutesShinobue"
  | api_SoundID_windFlutesShvi => lit "windFlutesShvi"
  | api_SoundID_windFlutesSuling => lit "windFlutesSuling"
  | api_SoundID_windFlutesTarka => lit "windFlutesTarka"
  | api_SoundID_windFlutesTumpong => lit "windFlutesTumpong"
  | api_SoundID_windFlutesVenu => lit "windFlutesVenu"
  | api_SoundID_windFlutesWhistle => lit "windFlutesWhistle"
  | api_SoundID_windFlutesWhistleAlto => lit "windFlutesWhistleAlto"
  | api_SoundID_windFlutesWhistleLowIrish => lit "windFlutesWhistleLowIrish"
  | api_SoundID_windFlutesWhistleShiva => lit "windFlutesWhistleShiva"
  | api_SoundID_windFlutesWhistleSlide => lit "windFlutesWhistleSlide"
  | api_SoundID_windFlutesWhistleTin => lit "windFlutesWhistleTin"
  | api_SoundID_windFlutesWhistleTinBflat => lit "windFlutesWhistleTinBflat"
  | api_SoundID_windFlutesWhistleTinD => lit "windFlutesWhistleTinD"
  | api_SoundID_windFlutesXiao => lit "windFlutesXiao"
  | api_SoundID_windFlutesXun => lit "windFlutesXun"
  | api_SoundID_windGroup => lit "windGroup"
  | api_SoundID_windJug => lit "windJug"
  | api_SoundID_windPipesBagpipes => lit "windPipesBagpipes"
  | api_SoundID_windPipesGaida => lit "windPipesGaida"
  | api_SoundID_windPipesHighland => lit "windPipesHighland"
  | api_SoundID_windPipesUilleann => lit "windPipesUilleann"
  | api_SoundID_windPungi => lit "windPungi"
  | api_SoundID_windReedAlbogue => lit "windReedAlbogue"
  | api_SoundID_windReedAlboka => lit "windReedAlboka"
  | api_SoundID_windReedAlgaita => lit "windReedAlgaita"
  | api_SoundID_windReedArghul => lit "windReedArghul"
  | api_SoundID_windReedBassetHorn => lit "windReedBassetHorn"
  | api_SoundID_windReedBassoon => lit "windReedBassoon"
  | api_SoundID_windReedBawu => lit "windReedBawu"
  | api_SoundID_windReedBifora => lit "windReedBifora"
  | api_SoundID_windReedBombarde => lit "windReedBombarde"
  | api_SoundID_windReedChalumeau => lit "windReedChalumeau"
  | api_SoundID_windReedClarinet => lit "windReedClarinet"
  | api_SoundID_windReedClarinetA => lit "windReedClarinetA"
  | api_SoundID_windReedClarinetAlto => lit "windReedClarinetAlto"
  | api_SoundID_windReedClarinetBass => lit "windReedClarinetBass"
  | api_SoundID_windReedClarinetBasset => lit "windReedClarinetBasset"
  | api_SoundID_windReedClarinetBflat => lit "windReedClarinetBflat"
  | api_SoundID_windReedClarinetContraAlto => lit "windReedClarinetContraAlto"
  | api_SoundID_windReedClarinetContrabass => lit "windReedClarinetContrabass"
  | api_SoundID_windReedClarinetEflat => lit "windReedClarinetEflat"
  | api_SoundID_windReedClarinetPiccoloAflat => lit "windReedClarinetPiccoloAflat"
  | api_SoundID_windReedClarinetteDamour => lit "windReedClarinetteDamour"
  | api_SoundID_windReedContrabass => lit "windReedContrabass"
  | api_SoundID_windReedContrabassoon => lit "windReedContrabassoon"
  | api_SoundID_windReedCornamuse => lit "windReedCornamuse"
  | api_SoundID_windReedCromorne => lit "windReedCromorne"
  | api_SoundID_windReedCrumhorn => lit "windReedCrumhorn"
  | api_SoundID_windReedCrumhornAlto => lit "windReedCrumhornAlto"
  | api_SoundID_windReedCrumhornBass => lit "windReedCrumhornBass"
  | api_SoundID_windReedCrumhornGreatBass => lit "windReedCrumhornGreatBass"
  | api_SoundID_windReedCrumhornSoprano => lit "windReedCrumhornSoprano"
  | api_SoundID_windReedCrumhornTenor => lit "windReedCrumhornTenor"
  | api_SoundID_windReedDiple => lit "windReedDiple"
  | api_SoundID_windReedDiplica => lit "windReedDiplica"
  | api_SoundID_windReedDuduk => lit "windReedDuduk"
  | api_SoundID_windReedDulcian => lit "windReedDulcian"
  | api_SoundID_windReedDulzaina => lit "windReedDulzaina"
  | api_SoundID_windReedEnglishHorn => lit "windReedEnglishHorn"
  | api_SoundID_windReedGuanzi => lit "windReedGuanzi"
  | api_SoundID_windReedHarmonica => lit "windReedHarmonica"
  | api_SoundID_windReedHarmonicaBass => lit "windReedHarmonicaBass"
  | api_SoundID_windReedHeckelClarina => lit "windReedHeckelClarina"
  | api_SoundID_windReedHeckelphone => lit "windReedHeckelphone"
  | api_SoundID_windReedHeckelphonePiccolo => lit "windReedHeckelphonePiccolo"
  | api_SoundID_windReedHeckelphoneClarinet => lit "windReedHeckelphoneClarinet"
  | api_SoundID_windReedHichiriki => lit "windReedHichiriki"
  | api_SoundID_windReedHirtenschalmei => lit "windReedHirtenschalmei"
  | api_SoundID_windReedHne => lit "windReedHne"
  | api_SoundID_windReedHornpipe => lit "windReedHornpipe"
  | api_SoundID_windReedHouguan => lit "windReedHouguan"
  | api_SoundID_windReedHulusi => lit "windReedHulusi"
  | api_SoundID_windReedJogiBaja => lit "windReedJogiBaja"
  | api_SoundID_windReedKenBau => lit "windReedKenBau"
  | api_SoundID_windReedKhaenMouthOrgan => lit "windReedKhaenMouthOrgan"
  | api_SoundID_windReedLauneddas => lit "windReedLauneddas"
  | api_SoundID_windReedMaqrunah => lit "windReedMaqrunah"
  | api_SoundID_windReedMelodica => lit "windReedMelodica"
  | api_SoundID_windReedMijwiz => lit "windReedMijwiz"
  | api_SoundID_windReedMizmar => lit "windReedMizmar"
  | api_SoundID_windReedNadaswaram => lit "windReedNadaswaram"
  | api_SoundID_windReedOboe => lit "windReedOboe"
  | api_SoundID_windReedOboeBass => lit "windReedOboeBass"
  | api_SoundID_windReedOboePiccolo => lit "windReedOboePiccolo"
  | api_SoundID_windReedOboeDaCaccia => lit "windReedOboeDaCaccia"
  | api_SoundID_windReedOboeDamore => lit "windReedOboeDamore"
  | api_SoundID_windReedOctavin => lit "windReedOctavin"
  | api_SoundID_windReedPi => lit "windReedPi"
  | api_SoundID_windReedPibgorn => lit "windReedPibgorn"
  | api_SoundID_windReedPiri => lit "windReedPiri"
  | api_SoundID_windReedRackett => lit "windReedRackett"
  | api_SoundID_windReedRauschpfeife => lit "windReedRauschpfeife"
  | api_SoundID_windReedRhaita => lit "windReedRhaita"
  | api_SoundID_windReedRothphone => lit "windReedRothphone"
  | api_SoundID_windReedSarrusaphone => lit "windReedSarrusaphone"
  | api_SoundID_windReedSaxonette => lit "windReedSaxonette"
  | api_SoundID_windReedSaxophone => lit "windReedSaxophone"
  | api_SoundID_windReedSaxophoneAlto => lit "windReedSaxophoneAlto"
  | api_SoundID_windReedSaxophoneAulochrome => lit "windReedSaxophoneAulochrome"
  | api_SoundID_windReedSaxophoneBaritone => lit "windReedSaxophoneBaritone"
  | api_SoundID_windReedSaxophoneBass => lit "windReedSaxophoneBass"
  | api_SoundID_windReedSaxophoneContrabass => lit "windReedSaxophoneContrabass"
  | api_SoundID_windReedSaxophoneMelody => lit "windReedSaxophoneMelody"
  | api_SoundID_windReedSaxophoneMezzoSoprano => lit "windReedSaxophoneMezzoSoprano"
  | api_SoundID_windReedSaxophoneSopranino => lit "windReedSaxophoneSopranino"
  | api_SoundID_windReedSaxophoneSopranissimo => lit "windReedSaxophoneSopranissimo"
  | api_SoundID_windReedSaxophoneSoprano => lit "windReedSaxophoneSoprano"
  | api_SoundID_windReedSaxophoneSubcontrabass => lit "windReedSaxophoneSubcontrabass"
  | api_SoundID_windReedSaxophoneTenor => lit "windReedSaxophoneTenor"
  | api_SoundID_windReedShawm => lit "windReedShawm"
  | api_SoundID_windReedShenai => lit "windReedShenai"
  | api_SoundID_windReedSheng => lit "windReedSheng"
  | api_SoundID_windReedSipsi => lit "windReedSipsi"
  | api_SoundID_windReedSopila => lit "windReedSopila"
  | api_SoundID_windReedSorna => lit "windReedSorna"
  | api_SoundID_windReedSralai => lit "windReedSralai"
  | api_SoundID_windReedSuona => lit "windReedSuona"
  | api_SoundID_windReedSurnai => lit "windReedSurnai"
  | api_SoundID_windReedTaepyeongso => lit "windReedTaepyeongso"
  | api_SoundID_windReedTarogato => lit "windReedTarogato"
  | api_SoundID_windReedTarogatoAncient => lit "windReedTarogatoAncient"
  | api_SoundID_windReedTrompetaChina => lit "windReedTrompetaChina"
  | api_SoundID_windReedTubax => lit "windReedTubax"
  | api_SoundID_windReedXaphoon => lit "windReedXaphoon"
  | api_SoundID_windReedZhaleika => lit "windReedZhaleika"
  | api_SoundID_windReedZurla => lit "windReedZurla"
  | api_SoundID_windReedZurna => lit "windReedZurna"
  | api_SoundID_woodAgogoBlock => lit "woodAgogoBlock"
  | api_SoundID_woodAgungATamlang => lit "woodAgungATamlang"
  | api_SoundID_woodAhoko => lit "woodAhoko"
  | api_SoundID_woodBones => lit "woodBones"
  | api_SoundID_woodCastanets => lit "woodCastanets"
  | api_SoundID_woodClaves => lit "woodClaves"
  | api_SoundID_woodDrumSticks => lit "woodDrumSticks"
  | api_SoundID_woodGourd => lit "woodGourd"
  | api_SoundID_woodGraniteBlock => lit "woodGraniteBlock"
  | api_SoundID_woodGuban => lit "woodGuban"
  | api_SoundID_woodGuiro => lit "woodGuiro"
  | api_SoundID_woodHyoushigi => lit "woodHyoushigi"
  | api_SoundID_woodIpu => lit "woodIpu"
  | api_SoundID_woodJamBlock => lit "woodJamBlock"
  | api_SoundID_woodKaekeeke => lit "woodKaekeeke"
  | api_SoundID_woodKagul => lit "woodKagul"
  | api_SoundID_woodKalaau => lit "woodKalaau"
  | api_SoundID_woodKashiklar => lit "woodKashiklar"
  | api_SoundID_woodKubing => lit "woodKubing"
  | api_SoundID_woodPanClappers => lit "woodPanClappers"
  | api_SoundID_woodSandBlock => lit "woodSandBlock"
  | api_SoundID_woodSlapstick => lit "woodSlapstick"
  | api_SoundID_woodStirDrum => lit "woodStirDrum"
  | api_SoundID_woodTempleBlock => lit "woodTempleBlock"
  | api_SoundID_woodTicTocBlock => lit "woodTicTocBlock"
  | api_SoundID_woodTonetang => lit "woodTonetang"
  | api_SoundID_woodWoodBlock => lit "woodWoodBlock"
  end.
