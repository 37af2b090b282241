(* The instrument table of impl/Converter.cpp and the text form of the API sounds. *)
From Coq Require Import Ascii String List ZArith.
From Verif Require Import Model.Text Model.EnumLookup.
Import ListNotations.
Open Scope Z_scope.

From Verif Require Import Model.Base Model.PlaybackSound Model.SoundID.

Definition PlaybackSound_value (v : PlaybackSound) : Z :=
  match v with
  | PlaybackSound_brassAlphorn => 0
  | PlaybackSound_brassAltoHorn => 1
  | PlaybackSound_brassBaritoneHorn => 2
  | PlaybackSound_brassBugle => 3
  | PlaybackSound_brassBugleAlto => 4
  | PlaybackSound_brassBugleBaritone => 5
  | PlaybackSound_brassBugleContrabass => 6
  | PlaybackSound_brassBugleEuphoniumBugle => 7
  | PlaybackSound_brassBugleMellophoneBugle => 8
  | PlaybackSound_brassBugleSoprano => 9
  | PlaybackSound_brassCimbasso => 10
  | PlaybackSound_brassConchShell => 11
  | PlaybackSound_brassCornet => 12
  | PlaybackSound_brassCornetSoprano => 13
  | PlaybackSound_brassCornett => 14
  | PlaybackSound_brassCornettTenor => 15
  | PlaybackSound_brassCornettino => 16
  | PlaybackSound_brassDidgeridoo => 17
  | PlaybackSound_brassEuphonium => 18
  | PlaybackSound_brassFiscorn => 19
  | PlaybackSound_brassFlugelhorn => 20
  | PlaybackSound_brassFrenchHorn => 21
  | PlaybackSound_brassGroup => 22
  | PlaybackSound_brassGroupSynth => 23
  | PlaybackSound_brassHelicon => 24
  | PlaybackSound_brassHoragai => 25
  | PlaybackSound_brassKuhlohorn => 26
  | PlaybackSound_brassMellophone => 27
  | PlaybackSound_brassNaturalHorn => 28
  | PlaybackSound_brassOphicleide => 29
  | PlaybackSound_brassPosthorn => 30
  | PlaybackSound_brassRagDung => 31
  | PlaybackSound_brassSackbutt => 32
  | PlaybackSound_brassSackbuttAlto => 33
  | PlaybackSound_brassSackbuttBass => 34
  | PlaybackSound_brassSackbuttTenor => 35
  | PlaybackSound_brassSaxhorn => 36
  | PlaybackSound_brassSerpent => 37
  | PlaybackSound_brassShofar => 38
  | PlaybackSound_brassSousaphone => 39
  | PlaybackSound_brassTrombone => 40
  | PlaybackSound_brassTromboneAlto => 41
  | PlaybackSound_brassTromboneBass => 42
  | PlaybackSound_brassTromboneContrabass => 43
  | PlaybackSound_brassTromboneTenor => 44
  | PlaybackSound_brassTrumpet => 45
  | PlaybackSound_brassTrumpetBaroque => 46
  | PlaybackSound_brassTrumpetBass => 47
  | PlaybackSound_brassTrumpetBflat => 48
  | PlaybackSound_brassTrumpetC => 49
  | PlaybackSound_brassTrumpetD => 50
  | PlaybackSound_brassTrumpetPiccolo => 51
  | PlaybackSound_brassTrumpetPocket => 52
  | PlaybackSound_brassTrumpetSlide => 53
  | PlaybackSound_brassTrumpetTenor => 54
  | PlaybackSound_brassTuba => 55
  | PlaybackSound_brassTubaBass => 56
  | PlaybackSound_brassTubaSubcontrabass => 57
  | PlaybackSound_brassViennaHorn => 58
  | PlaybackSound_brassVuvuzela => 59
  | PlaybackSound_brassWagnerTuba => 60
  | PlaybackSound_drumApentemma => 61
  | PlaybackSound_drumAshiko => 62
  | PlaybackSound_drumAtabaque => 63
  | PlaybackSound_drumAtoke => 64
  | PlaybackSound_drumAtsimevu => 65
  | PlaybackSound_drumAxatse => 66
  | PlaybackSound_drumBassDrum => 67
  | PlaybackSound_drumBata => 68
  | PlaybackSound_drumBataItotele => 69
  | PlaybackSound_drumBataIya => 70
  | PlaybackSound_drumBataOkonkolo => 71
  | PlaybackSound_drumBendir => 72
  | PlaybackSound_drumBodhran => 73
  | PlaybackSound_drumBombo => 74
  | PlaybackSound_drumBongo => 75
  | PlaybackSound_drumBougarabou => 76
  | PlaybackSound_drumBuffaloDrum => 77
  | PlaybackSound_drumCajon => 78
  | PlaybackSound_drumChenda => 79
  | PlaybackSound_drumChuDaiko => 80
  | PlaybackSound_drumConga => 81
  | PlaybackSound_drumCuica => 82
  | PlaybackSound_drumDabakan => 83
  | PlaybackSound_drumDaff => 84
  | PlaybackSound_drumDafli => 85
  | PlaybackSound_drumDaibyosi => 86
  | PlaybackSound_drumDamroo => 87
  | PlaybackSound_drumDarabuka => 88
  | PlaybackSound_drumDef => 89
  | PlaybackSound_drumDhol => 90
  | PlaybackSound_drumDholak => 91
  | PlaybackSound_drumDjembe => 92
  | PlaybackSound_drumDoira => 93
  | PlaybackSound_drumDondo => 94
  | PlaybackSound_drumDounDounBa => 95
  | PlaybackSound_drumDuff => 96
  | PlaybackSound_drumDumbek => 97
  | PlaybackSound_drumFontomfrom => 98
  | PlaybackSound_drumFrameDrum => 99
  | PlaybackSound_drumFrameDrumArabian => 100
  | PlaybackSound_drumGeduk => 101
  | PlaybackSound_drumGhatam => 102
  | PlaybackSound_drumGome => 103
  | PlaybackSound_drumGroup => 104
  | PlaybackSound_drumGroupChinese => 105
  | PlaybackSound_drumGroupEwe => 106
  | PlaybackSound_drumGroupIndian => 107
  | PlaybackSound_drumGroupSet => 108
  | PlaybackSound_drumHandDrum => 109
  | PlaybackSound_drumHiraDaiko => 110
  | PlaybackSound_drumIbo => 111
  | PlaybackSound_drumIgihumurizo => 112
  | PlaybackSound_drumInyahura => 113
  | PlaybackSound_drumIshakwe => 114
  | PlaybackSound_drumJangGu => 115
  | PlaybackSound_drumKagan => 116
  | PlaybackSound_drumKakko => 117
  | PlaybackSound_drumKanjira => 118
  | PlaybackSound_drumKendhang => 119
  | PlaybackSound_drumKendhangAgeng => 120
  | PlaybackSound_drumKendhangCiblon => 121
  | PlaybackSound_drumKenkeni => 122
  | PlaybackSound_drumKhol => 123
  | PlaybackSound_drumKickDrum => 124
  | PlaybackSound_drumKidi => 125
  | PlaybackSound_drumKoDaiko => 126
  | PlaybackSound_drumKpanlogo => 127
  | PlaybackSound_drumKudum => 128
  | PlaybackSound_drumLambeg => 129
  | PlaybackSound_drumLionDrum => 130
  | PlaybackSound_drumLogDrum => 131
  | PlaybackSound_drumLogDrumAfrican => 132
  | PlaybackSound_drumLogDrumNative => 133
  | PlaybackSound_drumLogDrumNigerian => 134
  | PlaybackSound_drumMadal => 135
  | PlaybackSound_drumMaddale => 136
  | PlaybackSound_drumMridangam => 137
  | PlaybackSound_drumNaal => 138
  | PlaybackSound_drumNagadoDaiko => 139
  | PlaybackSound_drumNagara => 140
  | PlaybackSound_drumNaqara => 141
  | PlaybackSound_drumODaiko => 142
  | PlaybackSound_drumOkawa => 143
  | PlaybackSound_drumOkedoDaiko => 144
  | PlaybackSound_drumPahuHula => 145
  | PlaybackSound_drumPakhawaj => 146
  | PlaybackSound_drumPandeiro => 147
  | PlaybackSound_drumPandero => 148
  | PlaybackSound_drumPowwow => 149
  | PlaybackSound_drumPueblo => 150
  | PlaybackSound_drumRepinique => 151
  | PlaybackSound_drumRiq => 152
  | PlaybackSound_drumRototom => 153
  | PlaybackSound_drumSabar => 154
  | PlaybackSound_drumSakara => 155
  | PlaybackSound_drumSampho => 156
  | PlaybackSound_drumSangban => 157
  | PlaybackSound_drumShimeDaiko => 158
  | PlaybackSound_drumSlitDrum => 159
  | PlaybackSound_drumSlitDrumKrin => 160
  | PlaybackSound_drumSnareDrum => 161
  | PlaybackSound_drumSnareDrumElectric => 162
  | PlaybackSound_drumSogo => 163
  | PlaybackSound_drumSurdo => 164
  | PlaybackSound_drumTabla => 165
  | PlaybackSound_drumTablaBayan => 166
  | PlaybackSound_drumTablaDayan => 167
  | PlaybackSound_drumTaiko => 168
  | PlaybackSound_drumTalking => 169
  | PlaybackSound_drumTama => 170
  | PlaybackSound_drumTamborita => 171
  | PlaybackSound_drumTambourine => 172
  | PlaybackSound_drumTamte => 173
  | PlaybackSound_drumTangku => 174
  | PlaybackSound_drumTanTan => 175
  | PlaybackSound_drumTaphon => 176
  | PlaybackSound_drumTar => 177
  | PlaybackSound_drumTasha => 178
  | PlaybackSound_drumTenorDrum => 179
  | PlaybackSound_drumTeponaxtli => 180
  | PlaybackSound_drumThavil => 181
  | PlaybackSound_drumTheBox => 182
  | PlaybackSound_drumTimbale => 183
  | PlaybackSound_drumTimpani => 184
  | PlaybackSound_drumTinaja => 185
  | PlaybackSound_drumToere => 186
  | PlaybackSound_drumTombak => 187
  | PlaybackSound_drumTomTom => 188
  | PlaybackSound_drumTomTomSynth => 189
  | PlaybackSound_drumTsuzumi => 190
  | PlaybackSound_drumTumbak => 191
  | PlaybackSound_drumUchiwaDaiko => 192
  | PlaybackSound_drumUdaku => 193
  | PlaybackSound_drumUdu => 194
  | PlaybackSound_drumZarb => 195
  | PlaybackSound_effectAeolianHarp => 196
  | PlaybackSound_effectAirHorn => 197
  | PlaybackSound_effectApplause => 198
  | PlaybackSound_effectBassStringSlap => 199
  | PlaybackSound_effectBird => 200
  | PlaybackSound_effectBirdNightingale => 201
  | PlaybackSound_effectBirdTweet => 202
  | PlaybackSound_effectBreath => 203
  | PlaybackSound_effectBubble => 204
  | PlaybackSound_effectBullroarer => 205
  | PlaybackSound_effectBurst => 206
  | PlaybackSound_effectCar => 207
  | PlaybackSound_effectCarCrash => 208
  | PlaybackSound_effectCarEngine => 209
  | PlaybackSound_effectCarPass => 210
  | PlaybackSound_effectCarStop => 211
  | PlaybackSound_effectCrickets => 212
  | PlaybackSound_effectDog => 213
  | PlaybackSound_effectDoorCreak => 214
  | PlaybackSound_effectDoorSlam => 215
  | PlaybackSound_effectExplosion => 216
  | PlaybackSound_effectFluteKeyClick => 217
  | PlaybackSound_effectFootsteps => 218
  | PlaybackSound_effectFrogs => 219
  | PlaybackSound_effectGuitarCutting => 220
  | PlaybackSound_effectGuitarFret => 221
  | PlaybackSound_effectGunshot => 222
  | PlaybackSound_effectHandClap => 223
  | PlaybackSound_effectHeartbeat => 224
  | PlaybackSound_effectHelicopter => 225
  | PlaybackSound_effectHighQ => 226
  | PlaybackSound_effectHorseGallop => 227
  | PlaybackSound_effectJetPlane => 228
  | PlaybackSound_effectLaserGun => 229
  | PlaybackSound_effectLaugh => 230
  | PlaybackSound_effectLionsRoar => 231
  | PlaybackSound_effectMachineGun => 232
  | PlaybackSound_effectMarchingMachine => 233
  | PlaybackSound_effectMetronomeBell => 234
  | PlaybackSound_effectMetronomeClick => 235
  | PlaybackSound_effectPat => 236
  | PlaybackSound_effectPunch => 237
  | PlaybackSound_effectRain => 238
  | PlaybackSound_effectScratch => 239
  | PlaybackSound_effectScream => 240
  | PlaybackSound_effectSeashore => 241
  | PlaybackSound_effectSiren => 242
  | PlaybackSound_effectSlap => 243
  | PlaybackSound_effectSnap => 244
  | PlaybackSound_effectStamp => 245
  | PlaybackSound_effectStarship => 246
  | PlaybackSound_effectStream => 247
  | PlaybackSound_effectTelephoneRing => 248
  | PlaybackSound_effectThunder => 249
  | PlaybackSound_effectTrain => 250
  | PlaybackSound_effectTrashCan => 251
  | PlaybackSound_effectWhip => 252
  | PlaybackSound_effectWhistle => 253
  | PlaybackSound_effectWhistleMouthSiren => 254
  | PlaybackSound_effectWhistlePolice => 255
  | PlaybackSound_effectWhistleSlide => 256
  | PlaybackSound_effectWhistleTrain => 257
  | PlaybackSound_effectWind => 258
  | PlaybackSound_keyboardAccordion => 259
  | PlaybackSound_keyboardBandoneon => 260
  | PlaybackSound_keyboardCelesta => 261
  | PlaybackSound_keyboardClavichord => 262
  | PlaybackSound_keyboardClavichordSynth => 263
  | PlaybackSound_keyboardConcertina => 264
  | PlaybackSound_keyboardFortepiano => 265
  | PlaybackSound_keyboardHarmonium => 266
  | PlaybackSound_keyboardHarpsichord => 267
  | PlaybackSound_keyboardOndesMartenot => 268
  | PlaybackSound_keyboardOrgan => 269
  | PlaybackSound_keyboardOrganDrawbar => 270
  | PlaybackSound_keyboardOrganPercussive => 271
  | PlaybackSound_keyboardOrganPipe => 272
  | PlaybackSound_keyboardOrganReed => 273
  | PlaybackSound_keyboardOrganRotary => 274
  | PlaybackSound_keyboardPiano => 275
  | PlaybackSound_keyboardPianoElectric => 276
  | PlaybackSound_keyboardPianoGrand => 277
  | PlaybackSound_keyboardPianoHonkyTonk => 278
  | PlaybackSound_keyboardPianoPrepared => 279
  | PlaybackSound_keyboardPianoToy => 280
  | PlaybackSound_keyboardPianoUpright => 281
  | PlaybackSound_keyboardVirginal => 282
  | PlaybackSound_metalAdodo => 283
  | PlaybackSound_metalAnvil => 284
  | PlaybackSound_metalBabendil => 285
  | PlaybackSound_metalBellsAgogo => 286
  | PlaybackSound_metalBellsAlmglocken => 287
  | PlaybackSound_metalBellsBellPlate => 288
  | PlaybackSound_metalBellsBellTree => 289
  | PlaybackSound_metalBellsCarillon => 290
  | PlaybackSound_metalBellsChimes => 291
  | PlaybackSound_metalBellsChimta => 292
  | PlaybackSound_metalBellsChippli => 293
  | PlaybackSound_metalBellsChurch => 294
  | PlaybackSound_metalBellsCowbell => 295
  | PlaybackSound_metalBellsDawuro => 296
  | PlaybackSound_metalBellsGankokwe => 297
  | PlaybackSound_metalBellsGhungroo => 298
  | PlaybackSound_metalBellsHatheli => 299
  | PlaybackSound_metalBellsJingleBell => 300
  | PlaybackSound_metalBellsKhartal => 301
  | PlaybackSound_metalBellsMarkTree => 302
  | PlaybackSound_metalBellsSistrum => 303
  | PlaybackSound_metalBellsSleighBells => 304
  | PlaybackSound_metalBellsTemple => 305
  | PlaybackSound_metalBellsTibetan => 306
  | PlaybackSound_metalBellsTinklebell => 307
  | PlaybackSound_metalBellsTrychel => 308
  | PlaybackSound_metalBellsWindChimes => 309
  | PlaybackSound_metalBellsZills => 310
  | PlaybackSound_metalBerimbau => 311
  | PlaybackSound_metalBrakeDrums => 312
  | PlaybackSound_metalCrotales => 313
  | PlaybackSound_metalCymbalBo => 314
  | PlaybackSound_metalCymbalCengCeng => 315
  | PlaybackSound_metalCymbalChabara => 316
  | PlaybackSound_metalCymbalChinese => 317
  | PlaybackSound_metalCymbalChing => 318
  | PlaybackSound_metalCymbalClash => 319
  | PlaybackSound_metalCymbalCrash => 320
  | PlaybackSound_metalCymbalFinger => 321
  | PlaybackSound_metalCymbalHand => 322
  | PlaybackSound_metalCymbalKesi => 323
  | PlaybackSound_metalCymbalManjeera => 324
  | PlaybackSound_metalCymbalReverse => 325
  | PlaybackSound_metalCymbalRide => 326
  | PlaybackSound_metalCymbalSizzle => 327
  | PlaybackSound_metalCymbalSplash => 328
  | PlaybackSound_metalCymbalSuspended => 329
  | PlaybackSound_metalCymbalTebyoshi => 330
  | PlaybackSound_metalCymbalTibetan => 331
  | PlaybackSound_metalCymbalTingsha => 332
  | PlaybackSound_metalFlexatone => 333
  | PlaybackSound_metalGong => 334
  | PlaybackSound_metalGongAgeng => 335
  | PlaybackSound_metalGongAgung => 336
  | PlaybackSound_metalGongChanchiki => 337
  | PlaybackSound_metalGongChinese => 338
  | PlaybackSound_metalGongGandingan => 339
  | PlaybackSound_metalGongKempul => 340
  | PlaybackSound_metalGongKempyang => 341
  | PlaybackSound_metalGongKetuk => 342
  | PlaybackSound_metalGongKkwenggwari => 343
  | PlaybackSound_metalGongLuo => 344
  | PlaybackSound_metalGongSinging => 345
  | PlaybackSound_metalGongThai => 346
  | PlaybackSound_metalGuira => 347
  | PlaybackSound_metalHang => 348
  | PlaybackSound_metalHiHat => 349
  | PlaybackSound_metalJawHarp => 350
  | PlaybackSound_metalKengong => 351
  | PlaybackSound_metalMurchang => 352
  | PlaybackSound_metalMusicalSaw => 353
  | PlaybackSound_metalSingingBowl => 354
  | PlaybackSound_metalSpoons => 355
  | PlaybackSound_metalSteelDrums => 356
  | PlaybackSound_metalTamtam => 357
  | PlaybackSound_metalThundersheet => 358
  | PlaybackSound_metalTriangle => 359
  | PlaybackSound_metalWashboard => 360
  | PlaybackSound_pitchedPercussionAngklung => 361
  | PlaybackSound_pitchedPercussionBalafon => 362
  | PlaybackSound_pitchedPercussionBellLyre => 363
  | PlaybackSound_pitchedPercussionBells => 364
  | PlaybackSound_pitchedPercussionBianqing => 365
  | PlaybackSound_pitchedPercussionBianzhong => 366
  | PlaybackSound_pitchedPercussionBonang => 367
  | PlaybackSound_pitchedPercussionCimbalom => 368
  | PlaybackSound_pitchedPercussionCrystalGlasses => 369
  | PlaybackSound_pitchedPercussionDanTamThapLuc => 370
  | PlaybackSound_pitchedPercussionFangxiang => 371
  | PlaybackSound_pitchedPercussionGandinganAKayo => 372
  | PlaybackSound_pitchedPercussionGangsa => 373
  | PlaybackSound_pitchedPercussionGender => 374
  | PlaybackSound_pitchedPercussionGiying => 375
  | PlaybackSound_pitchedPercussionGlassHarmonica => 376
  | PlaybackSound_pitchedPercussionGlockenspiel => 377
  | PlaybackSound_pitchedPercussionGlockenspielAlto => 378
  | PlaybackSound_pitchedPercussionGlockenspielSoprano => 379
  | PlaybackSound_pitchedPercussionGyil => 380
  | PlaybackSound_pitchedPercussionHammerDulcimer => 381
  | PlaybackSound_pitchedPercussionHandbells => 382
  | PlaybackSound_pitchedPercussionKalimba => 383
  | PlaybackSound_pitchedPercussionKantil => 384
  | PlaybackSound_pitchedPercussionKhim => 385
  | PlaybackSound_pitchedPercussionKulintang => 386
  | PlaybackSound_pitchedPercussionKulintangAKayo => 387
  | PlaybackSound_pitchedPercussionKulintangATiniok => 388
  | PlaybackSound_pitchedPercussionLikembe => 389
  | PlaybackSound_pitchedPercussionLuntang => 390
  | PlaybackSound_pitchedPercussionMarimba => 391
  | PlaybackSound_pitchedPercussionMarimbaBass => 392
  | PlaybackSound_pitchedPercussionMbira => 393
  | PlaybackSound_pitchedPercussionMbiraArray => 394
  | PlaybackSound_pitchedPercussionMetallophone => 395
  | PlaybackSound_pitchedPercussionMetallophoneAlto => 396
  | PlaybackSound_pitchedPercussionMetallophoneBass => 397
  | PlaybackSound_pitchedPercussionMetallophoneSoprano => 398
  | PlaybackSound_pitchedPercussionMusicBox => 399
  | PlaybackSound_pitchedPercussionPelogPanerus => 400
  | PlaybackSound_pitchedPercussionPemade => 401
  | PlaybackSound_pitchedPercussionPenyacah => 402
  | PlaybackSound_pitchedPercussionRanatEk => 403
  | PlaybackSound_pitchedPercussionRanatEkLek => 404
  | PlaybackSound_pitchedPercussionRanatThum => 405
  | PlaybackSound_pitchedPercussionRanatThumLek => 406
  | PlaybackSound_pitchedPercussionReyong => 407
  | PlaybackSound_pitchedPercussionSanza => 408
  | PlaybackSound_pitchedPercussionSaronBarung => 409
  | PlaybackSound_pitchedPercussionSaronDemong => 410
  | PlaybackSound_pitchedPercussionSaronPanerus => 411
  | PlaybackSound_pitchedPercussionSlendroPanerus => 412
  | PlaybackSound_pitchedPercussionSlentem => 413
  | PlaybackSound_pitchedPercussionTsymbaly => 414
  | PlaybackSound_pitchedPercussionTubes => 415
  | PlaybackSound_pitchedPercussionTubularBells => 416
  | PlaybackSound_pitchedPercussionVibraphone => 417
  | PlaybackSound_pitchedPercussionXylophone => 418
  | PlaybackSound_pitchedPercussionXylophoneAlto => 419
  | PlaybackSound_pitchedPercussionXylophoneBass => 420
  | PlaybackSound_pitchedPercussionXylophoneSoprano => 421
  | PlaybackSound_pitchedPercussionXylorimba => 422
  | PlaybackSound_pitchedPercussionYangqin => 423
  | PlaybackSound_pluckArchlute => 424
  | PlaybackSound_pluckAutoharp => 425
  | PlaybackSound_pluckBaglama => 426
  | PlaybackSound_pluckBajo => 427
  | PlaybackSound_pluckBalalaika => 428
  | PlaybackSound_pluckBalalaikaAlto => 429
  | PlaybackSound_pluckBalalaikaBass => 430
  | PlaybackSound_pluckBalalaikaContrabass => 431
  | PlaybackSound_pluckBalalaikaPiccolo => 432
  | PlaybackSound_pluckBalalaikaPrima => 433
  | PlaybackSound_pluckBalalaikaSecunda => 434
  | PlaybackSound_pluckBandola => 435
  | PlaybackSound_pluckBandura => 436
  | PlaybackSound_pluckBandurria => 437
  | PlaybackSound_pluckBanjo => 438
  | PlaybackSound_pluckBanjoTenor => 439
  | PlaybackSound_pluckBanjolele => 440
  | PlaybackSound_pluckBarbat => 441
  | PlaybackSound_pluckBass => 442
  | PlaybackSound_pluckBassAcoustic => 443
  | PlaybackSound_pluckBassBolon => 444
  | PlaybackSound_pluckBassElectric => 445
  | PlaybackSound_pluckBassFretless => 446
  | PlaybackSound_pluckBassGuitarron => 447
  | PlaybackSound_pluckBassSynth => 448
  | PlaybackSound_pluckBassSynthLead => 449
  | PlaybackSound_pluckBassWashtub => 450
  | PlaybackSound_pluckBassWhamola => 451
  | PlaybackSound_pluckBegena => 452
  | PlaybackSound_pluckBiwa => 453
  | PlaybackSound_pluckBordonua => 454
  | PlaybackSound_pluckBouzouki => 455
  | PlaybackSound_pluckBouzoukiIrish => 456
  | PlaybackSound_pluckCelticHarp => 457
  | PlaybackSound_pluckCharango => 458
  | PlaybackSound_pluckChitarraBattente => 459
  | PlaybackSound_pluckCithara => 460
  | PlaybackSound_pluckCittern => 461
  | PlaybackSound_pluckCuatro => 462
  | PlaybackSound_pluckDanBau => 463
  | PlaybackSound_pluckDanNguyet => 464
  | PlaybackSound_pluckDanTranh => 465
  | PlaybackSound_pluckDanTyBa => 466
  | PlaybackSound_pluckDiddleyBow => 467
  | PlaybackSound_pluckDomra => 468
  | PlaybackSound_pluckDomu => 469
  | PlaybackSound_pluckDulcimer => 470
  | PlaybackSound_pluckDutar => 471
  | PlaybackSound_pluckDuxianqin => 472
  | PlaybackSound_pluckEktara => 473
  | PlaybackSound_pluckGeomungo => 474
  | PlaybackSound_pluckGottuvadhyam => 475
  | PlaybackSound_pluckGuitar => 476
  | PlaybackSound_pluckGuitarAcoustic => 477
  | PlaybackSound_pluckGuitarElectric => 478
  | PlaybackSound_pluckGuitarNylonString => 479
  | PlaybackSound_pluckGuitarPedalSteel => 480
  | PlaybackSound_pluckGuitarPortuguese => 481
  | PlaybackSound_pluckGuitarRequinto => 482
  | PlaybackSound_pluckGuitarResonator => 483
  | PlaybackSound_pluckGuitarSteelString => 484
  | PlaybackSound_pluckGuitjo => 485
  | PlaybackSound_pluckGuitjoDoubleNeck => 486
  | PlaybackSound_pluckGuqin => 487
  | PlaybackSound_pluckGuzheng => 488
  | PlaybackSound_pluckGuzhengChoazhou => 489
  | PlaybackSound_pluckHarp => 490
  | PlaybackSound_pluckHarpGuitar => 491
  | PlaybackSound_pluckHuapanguera => 492
  | PlaybackSound_pluckJaranaHuasteca => 493
  | PlaybackSound_pluckJaranaJarocha => 494
  | PlaybackSound_pluckJaranaJarochaMosquito => 495
  | PlaybackSound_pluckJaranaJarochaPrimera => 496
  | PlaybackSound_pluckJaranaJarochaSegunda => 497
  | PlaybackSound_pluckJaranaJarochaTercera => 498
  | PlaybackSound_pluckKabosy => 499
  | PlaybackSound_pluckKantele => 500
  | PlaybackSound_pluckKanun => 501
  | PlaybackSound_pluckKayagum => 502
  | PlaybackSound_pluckKobza => 503
  | PlaybackSound_pluckKomuz => 504
  | PlaybackSound_pluckKora => 505
  | PlaybackSound_pluckKoto => 506
  | PlaybackSound_pluckKutiyapi => 507
  | PlaybackSound_pluckLangeleik => 508
  | PlaybackSound_pluckLaud => 509
  | PlaybackSound_pluckLute => 510
  | PlaybackSound_pluckLyre => 511
  | PlaybackSound_pluckMandobass => 512
  | PlaybackSound_pluckMandocello => 513
  | PlaybackSound_pluckMandola => 514
  | PlaybackSound_pluckMandolin => 515
  | PlaybackSound_pluckMandolinOctave => 516
  | PlaybackSound_pluckMandora => 517
  | PlaybackSound_pluckMandore => 518
  | PlaybackSound_pluckMarovany => 519
  | PlaybackSound_pluckMusicalBow => 520
  | PlaybackSound_pluckNgoni => 521
  | PlaybackSound_pluckOud => 522
  | PlaybackSound_pluckPipa => 523
  | PlaybackSound_pluckPsaltery => 524
  | PlaybackSound_pluckRuan => 525
  | PlaybackSound_pluckSallaneh => 526
  | PlaybackSound_pluckSanshin => 527
  | PlaybackSound_pluckSantoor => 528
  | PlaybackSound_pluckSanxian => 529
  | PlaybackSound_pluckSarod => 530
  | PlaybackSound_pluckSaung => 531
  | PlaybackSound_pluckSaz => 532
  | PlaybackSound_pluckSe => 533
  | PlaybackSound_pluckSetar => 534
  | PlaybackSound_pluckShamisen => 535
  | PlaybackSound_pluckSitar => 536
  | PlaybackSound_pluckSynth => 537
  | PlaybackSound_pluckSynthCharang => 538
  | PlaybackSound_pluckSynthChiff => 539
  | PlaybackSound_pluckSynthStick => 540
  | PlaybackSound_pluckTambura => 541
  | PlaybackSound_pluckTamburaBulgarian => 542
  | PlaybackSound_pluckTamburaFemale => 543
  | PlaybackSound_pluckTamburaMale => 544
  | PlaybackSound_pluckTar => 545
  | PlaybackSound_pluckTheorbo => 546
  | PlaybackSound_pluckTimple => 547
  | PlaybackSound_pluckTiple => 548
  | PlaybackSound_pluckTres => 549
  | PlaybackSound_pluckUkulele => 550
  | PlaybackSound_pluckUkuleleTenor => 551
  | PlaybackSound_pluckValiha => 552
  | PlaybackSound_pluckVeena => 553
  | PlaybackSound_pluckVeenaMohan => 554
  | PlaybackSound_pluckVeenaRudra => 555
  | PlaybackSound_pluckVeenaVichitra => 556
  | PlaybackSound_pluckVihuela => 557
  | PlaybackSound_pluckVihuelaMexican => 558
  | PlaybackSound_pluckXalam => 559
  | PlaybackSound_pluckYueqin => 560
  | PlaybackSound_pluckZither => 561
  | PlaybackSound_pluckZitherOvertone => 562
  | PlaybackSound_rattleAfoxe => 563
  | PlaybackSound_rattleBirds => 564
  | PlaybackSound_rattleCabasa => 565
  | PlaybackSound_rattleCaxixi => 566
  | PlaybackSound_rattleCog => 567
  | PlaybackSound_rattleGanza => 568
  | PlaybackSound_rattleHosho => 569
  | PlaybackSound_rattleJawbone => 570
  | PlaybackSound_rattleKayamba => 571
  | PlaybackSound_rattleKpokoKpoko => 572
  | PlaybackSound_rattleLavaStones => 573
  | PlaybackSound_rattleMaraca => 574
  | PlaybackSound_rattleRainStick => 575
  | PlaybackSound_rattleRatchet => 576
  | PlaybackSound_rattleRattle => 577
  | PlaybackSound_rattleShaker => 578
  | PlaybackSound_rattleShakerEgg => 579
  | PlaybackSound_rattleShekere => 580
  | PlaybackSound_rattleSistre => 581
  | PlaybackSound_rattleTelevi => 582
  | PlaybackSound_rattleVibraslap => 583
  | PlaybackSound_rattleWasembe => 584
  | PlaybackSound_stringsAjaeng => 585
  | PlaybackSound_stringsArpeggione => 586
  | PlaybackSound_stringsBaryton => 587
  | PlaybackSound_stringsCello => 588
  | PlaybackSound_stringsCelloPiccolo => 589
  | PlaybackSound_stringsContrabass => 590
  | PlaybackSound_stringsCrwth => 591
  | PlaybackSound_stringsDanGao => 592
  | PlaybackSound_stringsDihu => 593
  | PlaybackSound_stringsErhu => 594
  | PlaybackSound_stringsErxian => 595
  | PlaybackSound_stringsEsraj => 596
  | PlaybackSound_stringsFiddle => 597
  | PlaybackSound_stringsFiddleHardanger => 598
  | PlaybackSound_stringsGadulka => 599
  | PlaybackSound_stringsGaohu => 600
  | PlaybackSound_stringsGehu => 601
  | PlaybackSound_stringsGroup => 602
  | PlaybackSound_stringsGroupSynth => 603
  | PlaybackSound_stringsHaegeum => 604
  | PlaybackSound_stringsHurdyGurdy => 605
  | PlaybackSound_stringsIgil => 606
  | PlaybackSound_stringsKamancha => 607
  | PlaybackSound_stringsKokyu => 608
  | PlaybackSound_stringsLaruan => 609
  | PlaybackSound_stringsLeiqin => 610
  | PlaybackSound_stringsLirone => 611
  | PlaybackSound_stringsLyraByzantine => 612
  | PlaybackSound_stringsLyraCretan => 613
  | PlaybackSound_stringsMorinKhuur => 614
  | PlaybackSound_stringsNyckelharpa => 615
  | PlaybackSound_stringsOctobass => 616
  | PlaybackSound_stringsRebab => 617
  | PlaybackSound_stringsRebec => 618
  | PlaybackSound_stringsSarangi => 619
  | PlaybackSound_stringsStrohViolin => 620
  | PlaybackSound_stringsTrombaMarina => 621
  | PlaybackSound_stringsVielle => 622
  | PlaybackSound_stringsViol => 623
  | PlaybackSound_stringsViolAlto => 624
  | PlaybackSound_stringsViolBass => 625
  | PlaybackSound_stringsViolTenor => 626
  | PlaybackSound_stringsViolTreble => 627
  | PlaybackSound_stringsViolViolone => 628
  | PlaybackSound_stringsViola => 629
  | PlaybackSound_stringsViolaDamore => 630
  | PlaybackSound_stringsViolin => 631
  | PlaybackSound_stringsViolonoPiccolo => 632
  | PlaybackSound_stringsViolotta => 633
  | PlaybackSound_stringsYayliTanbur => 634
  | PlaybackSound_stringsYazheng => 635
  | PlaybackSound_stringsZhonghu => 636
  | PlaybackSound_synthEffects => 637
  | PlaybackSound_synthEffectsAtmosphere => 638
  | PlaybackSound_synthEffectsBrightness => 639
  | PlaybackSound_synthEffectsCrystal => 640
  | PlaybackSound_synthEffectsEchoes => 641
  | PlaybackSound_synthEffectsGoblins => 642
  | PlaybackSound_synthEffectsRain => 643
  | PlaybackSound_synthEffectsSciFi => 644
  | PlaybackSound_synthEffectsSoundtrack => 645
  | PlaybackSound_synthGroup => 646
  | PlaybackSound_synthGroupFifths => 647
  | PlaybackSound_synthGroupOrchestra => 648
  | PlaybackSound_synthPad => 649
  | PlaybackSound_synthPadBowed => 650
  | PlaybackSound_synthPadChoir => 651
  | PlaybackSound_synthPadHalo => 652
  | PlaybackSound_synthPadMetallic => 653
  | PlaybackSound_synthPadPolysynth => 654
  | PlaybackSound_synthPadSweep => 655
  | PlaybackSound_synthPadWarm => 656
  | PlaybackSound_synthTheremin => 657
  | PlaybackSound_synthToneSawtooth => 658
  | PlaybackSound_synthToneSine => 659
  | PlaybackSound_synthToneSquare => 660
  | PlaybackSound_voiceAa => 661
  | PlaybackSound_voiceAlto => 662
  | PlaybackSound_voiceAw => 663
  | PlaybackSound_voiceBaritone => 664
  | PlaybackSound_voiceBass => 665
  | PlaybackSound_voiceChild => 666
  | PlaybackSound_voiceCountertenor => 667
  | PlaybackSound_voiceDoo => 668
  | PlaybackSound_voiceEe => 669
  | PlaybackSound_voiceFemale => 670
  | PlaybackSound_voiceKazoo => 671
  | PlaybackSound_voiceMale => 672
  | PlaybackSound_voiceMezzoSoprano => 673
  | PlaybackSound_voiceMm => 674
  | PlaybackSound_voiceOo => 675
  | PlaybackSound_voicePercussion => 676
  | PlaybackSound_voicePercussionBeatbox => 677
  | PlaybackSound_voiceSoprano => 678
  | PlaybackSound_voiceSynth => 679
  | PlaybackSound_voiceTalkBox => 680
  | PlaybackSound_voiceTenor => 681
  | PlaybackSound_voiceVocals => 682
  | PlaybackSound_windFlutesBansuri => 683
  | PlaybackSound_windFlutesBlownBottle => 684
  | PlaybackSound_windFlutesCalliope => 685
  | PlaybackSound_windFlutesDanso => 686
  | PlaybackSound_windFlutesDiZi => 687
  | PlaybackSound_windFlutesDvojnice => 688
  | PlaybackSound_windFlutesFife => 689
  | PlaybackSound_windFlutesFlageolet => 690
  | PlaybackSound_windFlutesFlute => 691
  | PlaybackSound_windFlutesFluteAlto => 692
  | PlaybackSound_windFlutesFluteBass => 693
  | PlaybackSound_windFlutesFluteContraAlto => 694
  | PlaybackSound_windFlutesFluteContrabass => 695
  | PlaybackSound_windFlutesFluteDoubleContrabass => 696
  | PlaybackSound_windFlutesFluteIrish => 697
  | PlaybackSound_windFlutesFlutePiccolo => 698
  | PlaybackSound_windFlutesFluteSubcontrabass => 699
  | PlaybackSound_windFlutesFujara => 700
  | PlaybackSound_windFlutesGemshorn => 701
  | PlaybackSound_windFlutesHocchiku => 702
  | PlaybackSound_windFlutesHun => 703
  | PlaybackSound_windFlutesKaval => 704
  | PlaybackSound_windFlutesKawala => 705
  | PlaybackSound_windFlutesKhlui => 706
  | PlaybackSound_windFlutesKnotweed => 707
  | PlaybackSound_windFlutesKoncovkaAlto => 708
  | PlaybackSound_windFlutesKoudi => 709
  | PlaybackSound_windFlutesNey => 710
  | PlaybackSound_windFlutesNohkan => 711
  | PlaybackSound_windFlutesNose => 712
  | PlaybackSound_windFlutesOcarina => 713
  | PlaybackSound_windFlutesOvertoneTenor => 714
  | PlaybackSound_windFlutesPalendag => 715
  | PlaybackSound_windFlutesPanpipes => 716
  | PlaybackSound_windFlutesQuena => 717
  | PlaybackSound_windFlutesRecorder => 718
  | PlaybackSound_windFlutesRecorderAlto => 719
  | PlaybackSound_windFlutesRecorderBass => 720
  | PlaybackSound_windFlutesRecorderContrabass => 721
  | PlaybackSound_windFlutesRecorderDescant => 722
  | PlaybackSound_windFlutesRecorderGarklein => 723
  | PlaybackSound_windFlutesRecorderGreatBass => 724
  | PlaybackSound_windFlutesRecorderSopranino => 725
  | PlaybackSound_windFlutesRecorderSoprano => 726
  | PlaybackSound_windFlutesRecorderTenor => 727
  | PlaybackSound_windFlutesRyuteki => 728
  | PlaybackSound_windFlutesShakuhachi => 729
  | PlaybackSound_windFlutesShepherdsPipe => 730
  | PlaybackSound_windFlutesShinobue => 731
  | PlaybackSound_windFlutesShvi => 732
  | PlaybackSound_windFlutesSuling => 733
  | PlaybackSound_windFlutesTarka => 734
  | PlaybackSound_windFlutesTumpong => 735
  | PlaybackSound_windFlutesVenu => 736
  | PlaybackSound_windFlutesWhistle => 737
  | PlaybackSound_windFlutesWhistleAlto => 738
  | PlaybackSound_windFlutesWhistleLowIrish => 739
  | PlaybackSound_windFlutesWhistleShiva => 740
  | PlaybackSound_windFlutesWhistleSlide => 741
  | PlaybackSound_windFlutesWhistleTin => 742
  | PlaybackSound_windFlutesWhistleTinBflat => 743
  | PlaybackSound_windFlutesWhistleTinD => 744
  | PlaybackSound_windFlutesXiao => 745
  | PlaybackSound_windFlutesXun => 746
  | PlaybackSound_windGroup => 747
  | PlaybackSound_windJug => 748
  | PlaybackSound_windPipesBagpipes => 749
  | PlaybackSound_windPipesGaida => 750
  | PlaybackSound_windPipesHighland => 751
  | PlaybackSound_windPipesUilleann => 752
  | PlaybackSound_windPungi => 753
  | PlaybackSound_windReedAlbogue => 754
  | PlaybackSound_windReedAlboka => 755
  | PlaybackSound_windReedAlgaita => 756
  | PlaybackSound_windReedArghul => 757
  | PlaybackSound_windReedBassetHorn => 758
  | PlaybackSound_windReedBassoon => 759
  | PlaybackSound_windReedBawu => 760
  | PlaybackSound_windReedBifora => 761
  | PlaybackSound_windReedBombarde => 762
  | PlaybackSound_windReedChalumeau => 763
  | PlaybackSound_windReedClarinet => 764
  | PlaybackSound_windReedClarinetA => 765
  | PlaybackSound_windReedClarinetAlto => 766
  | PlaybackSound_windReedClarinetBass => 767
  | PlaybackSound_windReedClarinetBasset => 768
  | PlaybackSound_windReedClarinetBflat => 769
  | PlaybackSound_windReedClarinetContraAlto => 770
  | PlaybackSound_windReedClarinetContrabass => 771
  | PlaybackSound_windReedClarinetEflat => 772
  | PlaybackSound_windReedClarinetPiccoloAflat => 773
  | PlaybackSound_windReedClarinetteDamour => 774
  | PlaybackSound_windReedContrabass => 775
  | PlaybackSound_windReedContrabassoon => 776
  | PlaybackSound_windReedCornamuse => 777
  | PlaybackSound_windReedCromorne => 778
  | PlaybackSound_windReedCrumhorn => 779
  | PlaybackSound_windReedCrumhornAlto => 780
  | PlaybackSound_windReedCrumhornBass => 781
  | PlaybackSound_windReedCrumhornGreatBass => 782
  | PlaybackSound_windReedCrumhornSoprano => 783
  | PlaybackSound_windReedCrumhornTenor => 784
  | PlaybackSound_windReedDiple => 785
  | PlaybackSound_windReedDiplica => 786
  | PlaybackSound_windReedDuduk => 787
  | PlaybackSound_windReedDulcian => 788
  | PlaybackSound_windReedDulzaina => 789
  | PlaybackSound_windReedEnglishHorn => 790
  | PlaybackSound_windReedGuanzi => 791
  | PlaybackSound_windReedHarmonica => 792
  | PlaybackSound_windReedHarmonicaBass => 793
  | PlaybackSound_windReedHeckelClarina => 794
  | PlaybackSound_windReedHeckelphone => 795
  | PlaybackSound_windReedHeckelphonePiccolo => 796
  | PlaybackSound_windReedHeckelphoneClarinet => 797
  | PlaybackSound_windReedHichiriki => 798
  | PlaybackSound_windReedHirtenschalmei => 799
  | PlaybackSound_windReedHne => 800
  | PlaybackSound_windReedHornpipe => 801
  | PlaybackSound_windReedHouguan => 802
  | PlaybackSound_windReedHulusi => 803
  | PlaybackSound_windReedJogiBaja => 804
  | PlaybackSound_windReedKenBau => 805
  | PlaybackSound_windReedKhaenMouthOrgan => 806
  | PlaybackSound_windReedLauneddas => 807
  | PlaybackSound_windReedMaqrunah => 808
  | PlaybackSound_windReedMelodica => 809
  | PlaybackSound_windReedMijwiz => 810
  | PlaybackSound_windReedMizmar => 811
  | PlaybackSound_windReedNadaswaram => 812
  | PlaybackSound_windReedOboe => 813
  | PlaybackSound_windReedOboeBass => 814
  | PlaybackSound_windReedOboePiccolo => 815
  | PlaybackSound_windReedOboeDaCaccia => 816
  | PlaybackSound_windReedOboeDamore => 817
  | PlaybackSound_windReedOctavin => 818
  | PlaybackSound_windReedPi => 819
  | PlaybackSound_windReedPibgorn => 820
  | PlaybackSound_windReedPiri => 821
  | PlaybackSound_windReedRackett => 822
  | PlaybackSound_windReedRauschpfeife => 823
  | PlaybackSound_windReedRhaita => 824
  | PlaybackSound_windReedRothphone => 825
  | PlaybackSound_windReedSarrusaphone => 826
  | PlaybackSound_windReedSaxonette => 827
  | PlaybackSound_windReedSaxophone => 828
  | PlaybackSound_windReedSaxophoneAlto => 829
  | PlaybackSound_windReedSaxophoneAulochrome => 830
  | PlaybackSound_windReedSaxophoneBaritone => 831
  | PlaybackSound_windReedSaxophoneBass => 832
  | PlaybackSound_windReedSaxophoneContrabass => 833
  | PlaybackSound_windReedSaxophoneMelody => 834
  | PlaybackSound_windReedSaxophoneMezzoSoprano => 835
  | PlaybackSound_windReedSaxophoneSopranino => 836
  | PlaybackSound_windReedSaxophoneSopranissimo => 837
  | PlaybackSound_windReedSaxophoneSoprano => 838
  | PlaybackSound_windReedSaxophoneSubcontrabass => 839
  | PlaybackSound_windReedSaxophoneTenor => 840
  | PlaybackSound_windReedShawm => 841
  | PlaybackSound_windReedShenai => 842
  | PlaybackSound_windReedSheng => 843
  | PlaybackSound_windReedSipsi => 844
  | PlaybackSound_windReedSopila => 845
  | PlaybackSound_windReedSorna => 846
  | PlaybackSound_windReedSralai => 847
  | PlaybackSound_windReedSuona => 848
  | PlaybackSound_windReedSurnai => 849
  | PlaybackSound_windReedTaepyeongso => 850
  | PlaybackSound_windReedTarogato => 851
  | PlaybackSound_windReedTarogatoAncient => 852
  | PlaybackSound_windReedTrompetaChina => 853
  | PlaybackSound_windReedTubax => 854
  | PlaybackSound_windReedXaphoon => 855
  | PlaybackSound_windReedZhaleika => 856
  | PlaybackSound_windReedZurla => 857
  | PlaybackSound_windReedZurna => 858
  | PlaybackSound_woodAgogoBlock => 859
  | PlaybackSound_woodAgungATamlang => 860
  | PlaybackSound_woodAhoko => 861
  | PlaybackSound_woodBones => 862
  | PlaybackSound_woodCastanets => 863
  | PlaybackSound_woodClaves => 864
  | PlaybackSound_woodDrumSticks => 865
  | PlaybackSound_woodGourd => 866
  | PlaybackSound_woodGraniteBlock => 867
  | PlaybackSound_woodGuban => 868
  | PlaybackSound_woodGuiro => 869
  | PlaybackSound_woodHyoushigi => 870
  | PlaybackSound_woodIpu => 871
  | PlaybackSound_woodJamBlock => 872
  | PlaybackSound_woodKaekeeke => 873
  | PlaybackSound_woodKagul => 874
  | PlaybackSound_woodKalaau => 875
  | PlaybackSound_woodKashiklar => 876
  | PlaybackSound_woodKubing => 877
  | PlaybackSound_woodPanClappers => 878
  | PlaybackSound_woodSandBlock => 879
  | PlaybackSound_woodSlapstick => 880
  | PlaybackSound_woodStirDrum => 881
  | PlaybackSound_woodTempleBlock => 882
  | PlaybackSound_woodTicTocBlock => 883
  | PlaybackSound_woodTonetang => 884
  | PlaybackSound_woodWoodBlock => 885
  end.

(** Sourcecode/private/mx/impl/Converter.cpp:423-1311 *)
Definition instrumentMap_rows : list (PlaybackSound * api_SoundID) :=
  [ (PlaybackSound_brassAlphorn, api_SoundID_brassAlphorn);
    (PlaybackSound_brassAltoHorn, api_SoundID_brassAltoHorn);
    (PlaybackSound_brassBaritoneHorn, api_SoundID_brassBaritoneHorn);
    (PlaybackSound_brassBugle, api_SoundID_brassBugle);
    (PlaybackSound_brassBugleAlto, api_SoundID_brassBugleAlto);
    (PlaybackSound_brassBugleBaritone, api_SoundID_brassBugleBaritone);
    (PlaybackSound_brassBugleContrabass, api_SoundID_brassBugleContrabass);
    (PlaybackSound_brassBugleEuphoniumBugle, api_SoundID_brassBugleEuphoniumBugle);
    (PlaybackSound_brassBugleMellophoneBugle, api_SoundID_brassBugleMellophoneBugle);
    (PlaybackSound_brassBugleSoprano, api_SoundID_brassBugleSoprano);
    (PlaybackSound_brassCimbasso, api_SoundID_brassCimbasso);
    (PlaybackSound_brassConchShell, api_SoundID_brassConchShell);
    (PlaybackSound_brassCornet, api_SoundID_brassCornet);
    (PlaybackSound_brassCornetSoprano, api_SoundID_brassCornetSoprano);
    (PlaybackSound_brassCornett, api_SoundID_brassCornett);
    (PlaybackSound_brassCornettTenor, api_SoundID_brassCornettTenor);
    (PlaybackSound_brassCornettino, api_SoundID_brassCornettino);
    (PlaybackSound_brassDidgeridoo, api_SoundID_brassDidgeridoo);
    (PlaybackSound_brassEuphonium, api_SoundID_brassEuphonium);
    (PlaybackSound_brassFiscorn, api_SoundID_brassFiscorn);
    (PlaybackSound_brassFlugelhorn, api_SoundID_brassFlugelhorn);
    (PlaybackSound_brassFrenchHorn, api_SoundID_brassFrenchHorn);
    (PlaybackSound_brassGroup, api_SoundID_brassGroup);
    (PlaybackSound_brassGroupSynth, api_SoundID_brassGroupSynth);
    (PlaybackSound_brassHelicon, api_SoundID_brassHelicon);
    (PlaybackSound_brassHoragai, api_SoundID_brassHoragai);
    (PlaybackSound_brassKuhlohorn, api_SoundID_brassKuhlohorn);
    (PlaybackSound_brassMellophone, api_SoundID_brassMellophone);
    (PlaybackSound_brassNaturalHorn, api_SoundID_brassNaturalHorn);
    (PlaybackSound_brassOphicleide, api_SoundID_brassOphicleide);
    (PlaybackSound_brassPosthorn, api_SoundID_brassPosthorn);
    (PlaybackSound_brassRagDung, api_SoundID_brassRagDung);
    (PlaybackSound_brassSackbutt, api_SoundID_brassSackbutt);
    (PlaybackSound_brassSackbuttAlto, api_SoundID_brassSackbuttAlto);
    (PlaybackSound_brassSackbuttBass, api_SoundID_brassSackbuttBass);
    (PlaybackSound_brassSackbuttTenor, api_SoundID_brassSackbuttTenor);
    (PlaybackSound_brassSaxhorn, api_SoundID_brassSaxhorn);
    (PlaybackSound_brassSerpent, api_SoundID_brassSerpent);
    (PlaybackSound_brassShofar, api_SoundID_brassShofar);
    (PlaybackSound_brassSousaphone, api_SoundID_brassSousaphone);
    (PlaybackSound_brassTrombone, api_SoundID_brassTrombone);
    (PlaybackSound_brassTromboneAlto, api_SoundID_brassTromboneAlto);
    (PlaybackSound_brassTromboneBass, api_SoundID_brassTromboneBass);
    (PlaybackSound_brassTromboneContrabass, api_SoundID_brassTromboneContrabass);
    (PlaybackSound_brassTromboneTenor, api_SoundID_brassTromboneTenor);
    (PlaybackSound_brassTrumpet, api_SoundID_brassTrumpet);
    (PlaybackSound_brassTrumpetBaroque, api_SoundID_brassTrumpetBaroque);
    (PlaybackSound_brassTrumpetBass, api_SoundID_brassTrumpetBass);
    (PlaybackSound_brassTrumpetBflat, api_SoundID_brassTrumpetBflat);
    (PlaybackSound_brassTrumpetC, api_SoundID_brassTrumpetC);
    (PlaybackSound_brassTrumpetD, api_SoundID_brassTrumpetD);
    (PlaybackSound_brassTrumpetPiccolo, api_SoundID_brassTrumpetPiccolo);
    (PlaybackSound_brassTrumpetPocket, api_SoundID_brassTrumpetPocket);
    (PlaybackSound_brassTrumpetSlide, api_SoundID_brassTrumpetSlide);
    (PlaybackSound_brassTrumpetTenor, api_SoundID_brassTrumpetTenor);
    (PlaybackSound_brassTuba, api_SoundID_brassTuba);
    (PlaybackSound_brassTubaBass, api_SoundID_brassTubaBass);
    (PlaybackSound_brassTubaSubcontrabass, api_SoundID_brassTubaSubcontrabass);
    (PlaybackSound_brassViennaHorn, api_SoundID_brassViennaHorn);
    (PlaybackSound_brassVuvuzela, api_SoundID_brassVuvuzela);
    (PlaybackSound_brassWagnerTuba, api_SoundID_brassWagnerTuba);
    (PlaybackSound_drumApentemma, api_SoundID_drumApentemma);
    (PlaybackSound_drumAshiko, api_SoundID_drumAshiko);
    (PlaybackSound_drumAtabaque, api_SoundID_drumAtabaque);
    (PlaybackSound_drumAtoke, api_SoundID_drumAtoke);
    (PlaybackSound_drumAtsimevu, api_SoundID_drumAtsimevu);
    (PlaybackSound_drumAxatse, api_SoundID_drumAxatse);
    (PlaybackSound_drumBassDrum, api_SoundID_drumBassDrum);
    (PlaybackSound_drumBata, api_SoundID_drumBata);
    (PlaybackSound_drumBataItotele, api_SoundID_drumBataItotele);
    (PlaybackSound_drumBataIya, api_SoundID_drumBataIya);
    (PlaybackSound_drumBataOkonkolo, api_SoundID_drumBataOkonkolo);
    (PlaybackSound_drumBendir, api_SoundID_drumBendir);
    (PlaybackSound_drumBodhran, api_SoundID_drumBodhran);
    (PlaybackSound_drumBombo, api_SoundID_drumBombo);
    (PlaybackSound_drumBongo, api_SoundID_drumBongo);
    (PlaybackSound_drumBougarabou, api_SoundID_drumBougarabou);
    (PlaybackSound_drumBuffaloDrum, api_SoundID_drumBuffaloDrum);
    (PlaybackSound_drumCajon, api_SoundID_drumCajon);
    (PlaybackSound_drumChenda, api_SoundID_drumChenda);
    (PlaybackSound_drumChuDaiko, api_SoundID_drumChuDaiko);
    (PlaybackSound_drumConga, api_SoundID_drumConga);
    (PlaybackSound_drumCuica, api_SoundID_drumCuica);
    (PlaybackSound_drumDabakan, api_SoundID_drumDabakan);
    (PlaybackSound_drumDaff, api_SoundID_drumDaff);
    (PlaybackSound_drumDafli, api_SoundID_drumDafli);
    (PlaybackSound_drumDaibyosi, api_SoundID_drumDaibyosi);
    (PlaybackSound_drumDamroo, api_SoundID_drumDamroo);
    (PlaybackSound_drumDarabuka, api_SoundID_drumDarabuka);
    (PlaybackSound_drumDef, api_SoundID_drumDef);
    (PlaybackSound_drumDhol, api_SoundID_drumDhol);
    (PlaybackSound_drumDholak, api_SoundID_drumDholak);
    (PlaybackSound_drumDjembe, api_SoundID_drumDjembe);
    (PlaybackSound_drumDoira, api_SoundID_drumDoira);
    (PlaybackSound_drumDondo, api_SoundID_drumDondo);
    (PlaybackSound_drumDounDounBa, api_SoundID_drumDounDounBa);
    (PlaybackSound_drumDuff, api_SoundID_drumDuff);
    (PlaybackSound_drumDumbek, api_SoundID_drumDumbek);
    (PlaybackSound_drumFontomfrom, api_SoundID_drumFontomfrom);
    (PlaybackSound_drumFrameDrum, api_SoundID_drumFrameDrum);
    (PlaybackSound_drumFrameDrumArabian, api_SoundID_drumFrameDrumArabian);
    (PlaybackSound_drumGeduk, api_SoundID_drumGeduk);
    (PlaybackSound_drumGhatam, api_SoundID_drumGhatam);
    (PlaybackSound_drumGome, api_SoundID_drumGome);
    (PlaybackSound_drumGroup, api_SoundID_drumGroup);
    (PlaybackSound_drumGroupChinese, api_SoundID_drumGroupChinese);
    (PlaybackSound_drumGroupEwe, api_SoundID_drumGroupEwe);
    (PlaybackSound_drumGroupIndian, api_SoundID_drumGroupIndian);
    (PlaybackSound_drumGroupSet, api_SoundID_drumGroupSet);
    (PlaybackSound_drumHandDrum, api_SoundID_drumHandDrum);
    (PlaybackSound_drumHiraDaiko, api_SoundID_drumHiraDaiko);
    (PlaybackSound_drumIbo, api_SoundID_drumIbo);
    (PlaybackSound_drumIgihumurizo, api_SoundID_drumIgihumurizo);
    (PlaybackSound_drumInyahura, api_SoundID_drumInyahura);
    (PlaybackSound_drumIshakwe, api_SoundID_drumIshakwe);
    (PlaybackSound_drumJangGu, api_SoundID_drumJangGu);
    (PlaybackSound_drumKagan, api_SoundID_drumKagan);
    (PlaybackSound_drumKakko, api_SoundID_drumKakko);
    (PlaybackSound_drumKanjira, api_SoundID_drumKanjira);
    (PlaybackSound_drumKendhang, api_SoundID_drumKendhang);
    (PlaybackSound_drumKendhangAgeng, api_SoundID_drumKendhangAgeng);
    (PlaybackSound_drumKendhangCiblon, api_SoundID_drumKendhangCiblon);
    (PlaybackSound_drumKenkeni, api_SoundID_drumKenkeni);
    (PlaybackSound_drumKhol, api_SoundID_drumKhol);
    (PlaybackSound_drumKickDrum, api_SoundID_drumKickDrum);
    (PlaybackSound_drumKidi, api_SoundID_drumKidi);
    (PlaybackSound_drumKoDaiko, api_SoundID_drumKoDaiko);
    (PlaybackSound_drumKpanlogo, api_SoundID_drumKpanlogo);
    (PlaybackSound_drumKudum, api_SoundID_drumKudum);
    (PlaybackSound_drumLambeg, api_SoundID_drumLambeg);
    (PlaybackSound_drumLionDrum, api_SoundID_drumLionDrum);
    (PlaybackSound_drumLogDrum, api_SoundID_drumLogDrum);
    (PlaybackSound_drumLogDrumAfrican, api_SoundID_drumLogDrumAfrican);
    (PlaybackSound_drumLogDrumNative, api_SoundID_drumLogDrumNative);
    (PlaybackSound_drumLogDrumNigerian, api_SoundID_drumLogDrumNigerian);
    (PlaybackSound_drumMadal, api_SoundID_drumMadal);
    (PlaybackSound_drumMaddale, api_SoundID_drumMaddale);
    (PlaybackSound_drumMridangam, api_SoundID_drumMridangam);
    (PlaybackSound_drumNaal, api_SoundID_drumNaal);
    (PlaybackSound_drumNagadoDaiko, api_SoundID_drumNagadoDaiko);
    (PlaybackSound_drumNagara, api_SoundID_drumNagara);
    (PlaybackSound_drumNaqara, api_SoundID_drumNaqara);
    (PlaybackSound_drumODaiko, api_SoundID_drumODaiko);
    (PlaybackSound_drumOkawa, api_SoundID_drumOkawa);
    (PlaybackSound_drumOkedoDaiko, api_SoundID_drumOkedoDaiko);
    (PlaybackSound_drumPahuHula, api_SoundID_drumPahuHula);
    (PlaybackSound_drumPakhawaj, api_SoundID_drumPakhawaj);
    (PlaybackSound_drumPandeiro, api_SoundID_drumPandeiro);
    (PlaybackSound_drumPandero, api_SoundID_drumPandero);
    (PlaybackSound_drumPowwow, api_SoundID_drumPowwow);
    (PlaybackSound_drumPueblo, api_SoundID_drumPueblo);
    (PlaybackSound_drumRepinique, api_SoundID_drumRepinique);
    (PlaybackSound_drumRiq, api_SoundID_drumRiq);
    (PlaybackSound_drumRototom, api_SoundID_drumRototom);
    (PlaybackSound_drumSabar, api_SoundID_drumSabar);
    (PlaybackSound_drumSakara, api_SoundID_drumSakara);
    (PlaybackSound_drumSampho, api_SoundID_drumSampho);
    (PlaybackSound_drumSangban, api_SoundID_drumSangban);
    (PlaybackSound_drumShimeDaiko, api_SoundID_drumShimeDaiko);
    (PlaybackSound_drumSlitDrum, api_SoundID_drumSlitDrum);
    (PlaybackSound_drumSlitDrumKrin, api_SoundID_drumSlitDrumKrin);
    (PlaybackSound_drumSnareDrum, api_SoundID_drumSnareDrum);
    (PlaybackSound_drumSnareDrumElectric, api_SoundID_drumSnareDrumElectric);
    (PlaybackSound_drumSogo, api_SoundID_drumSogo);
    (PlaybackSound_drumSurdo, api_SoundID_drumSurdo);
    (PlaybackSound_drumTabla, api_SoundID_drumTabla);
    (PlaybackSound_drumTablaBayan, api_SoundID_drumTablaBayan);
    (PlaybackSound_drumTablaDayan, api_SoundID_drumTablaDayan);
    (PlaybackSound_drumTaiko, api_SoundID_drumTaiko);
    (PlaybackSound_drumTalking, api_SoundID_drumTalking);
    (PlaybackSound_drumTama, api_SoundID_drumTama);
    (PlaybackSound_drumTamborita, api_SoundID_drumTamborita);
    (PlaybackSound_drumTambourine, api_SoundID_drumTambourine);
    (PlaybackSound_drumTamte, api_SoundID_drumTamte);
    (PlaybackSound_drumTangku, api_SoundID_drumTangku);
    (PlaybackSound_drumTanTan, api_SoundID_drumTanTan);
    (PlaybackSound_drumTaphon, api_SoundID_drumTaphon);
    (PlaybackSound_drumTar, api_SoundID_drumTar);
    (PlaybackSound_drumTasha, api_SoundID_drumTasha);
    (PlaybackSound_drumTenorDrum, api_SoundID_drumTenorDrum);
    (PlaybackSound_drumTeponaxtli, api_SoundID_drumTeponaxtli);
    (PlaybackSound_drumThavil, api_SoundID_drumThavil);
    (PlaybackSound_drumTheBox, api_SoundID_drumTheBox);
    (PlaybackSound_drumTimbale, api_SoundID_drumTimbale);
    (PlaybackSound_drumTimpani, api_SoundID_drumTimpani);
    (PlaybackSound_drumTinaja, api_SoundID_drumTinaja);
    (PlaybackSound_drumToere, api_SoundID_drumToere);
    (PlaybackSound_drumTombak, api_SoundID_drumTombak);
    (PlaybackSound_drumTomTom, api_SoundID_drumTomTom);
    (PlaybackSound_drumTomTomSynth, api_SoundID_drumTomTomSynth);
    (PlaybackSound_drumTsuzumi, api_SoundID_drumTsuzumi);
    (PlaybackSound_drumTumbak, api_SoundID_drumTumbak);
    (PlaybackSound_drumUchiwaDaiko, api_SoundID_drumUchiwaDaiko);
    (PlaybackSound_drumUdaku, api_SoundID_drumUdaku);
    (PlaybackSound_drumUdu, api_SoundID_drumUdu);
    (PlaybackSound_drumZarb, api_SoundID_drumZarb);
    (PlaybackSound_effectAeolianHarp, api_SoundID_effectAeolianHarp);
    (PlaybackSound_effectAirHorn, api_SoundID_effectAirHorn);
    (PlaybackSound_effectApplause, api_SoundID_effectApplause);
    (PlaybackSound_effectBassStringSlap, api_SoundID_effectBassStringSlap);
    (PlaybackSound_effectBird, api_SoundID_effectBird);
    (PlaybackSound_effectBirdNightingale, api_SoundID_effectBirdNightingale);
    (PlaybackSound_effectBirdTweet, api_SoundID_effectBirdTweet);
    (PlaybackSound_effectBreath, api_SoundID_effectBreath);
    (PlaybackSound_effectBubble, api_SoundID_effectBubble);
    (PlaybackSound_effectBullroarer, api_SoundID_effectBullroarer);
    (PlaybackSound_effectBurst, api_SoundID_effectBurst);
    (PlaybackSound_effectCar, api_SoundID_effectCar);
    (PlaybackSound_effectCarCrash, api_SoundID_effectCarCrash);
    (PlaybackSound_effectCarEngine, api_SoundID_effectCarEngine);
    (PlaybackSound_effectCarPass, api_SoundID_effectCarPass);
    (PlaybackSound_effectCarStop, api_SoundID_effectCarStop);
    (PlaybackSound_effectCrickets, api_SoundID_effectCrickets);
    (PlaybackSound_effectDog, api_SoundID_effectDog);
    (PlaybackSound_effectDoorCreak, api_SoundID_effectDoorCreak);
    (PlaybackSound_effectDoorSlam, api_SoundID_effectDoorSlam);
    (PlaybackSound_effectExplosion, api_SoundID_effectExplosion);
    (PlaybackSound_effectFluteKeyClick, api_SoundID_effectFluteKeyClick);
    (PlaybackSound_effectFootsteps, api_SoundID_effectFootsteps);
    (PlaybackSound_effectFrogs, api_SoundID_effectFrogs);
    (PlaybackSound_effectGuitarCutting, api_SoundID_effectGuitarCutting);
    (PlaybackSound_effectGuitarFret, api_SoundID_effectGuitarFret);
    (PlaybackSound_effectGunshot, api_SoundID_effectGunshot);
    (PlaybackSound_effectHandClap, api_SoundID_effectHandClap);
    (PlaybackSound_effectHeartbeat, api_SoundID_effectHeartbeat);
    (PlaybackSound_effectHelicopter, api_SoundID_effectHelicopter);
    (PlaybackSound_effectHighQ, api_SoundID_effectHighQ);
    (PlaybackSound_effectHorseGallop, api_SoundID_effectHorseGallop);
    (PlaybackSound_effectJetPlane, api_SoundID_effectJetPlane);
    (PlaybackSound_effectLaserGun, api_SoundID_effectLaserGun);
    (PlaybackSound_effectLaugh, api_SoundID_effectLaugh);
    (PlaybackSound_effectLionsRoar, api_SoundID_effectLionsRoar);
    (PlaybackSound_effectMachineGun, api_SoundID_effectMachineGun);
    (PlaybackSound_effectMarchingMachine, api_SoundID_effectMarchingMachine);
    (PlaybackSound_effectMetronomeBell, api_SoundID_effectMetronomeBell);
    (PlaybackSound_effectMetronomeClick, api_SoundID_effectMetronomeClick);
    (PlaybackSound_effectPat, api_SoundID_effectPat);
    (PlaybackSound_effectPunch, api_SoundID_effectPunch);
    (PlaybackSound_effectRain, api_SoundID_effectRain);
    (PlaybackSound_effectScratch, api_SoundID_effectScratch);
    (PlaybackSound_effectScream, api_SoundID_effectScream);
    (PlaybackSound_effectSeashore, api_SoundID_effectSeashore);
    (PlaybackSound_effectSiren, api_SoundID_effectSiren);
    (PlaybackSound_effectSlap, api_SoundID_effectSlap);
    (PlaybackSound_effectSnap, api_SoundID_effectSnap);
    (PlaybackSound_effectStamp, api_SoundID_effectStamp);
    (PlaybackSound_effectStarship, api_SoundID_effectStarship);
    (PlaybackSound_effectStream, api_SoundID_effectStream);
    (PlaybackSound_effectTelephoneRing, api_SoundID_effectTelephoneRing);
    (PlaybackSound_effectThunder, api_SoundID_effectThunder);
    (PlaybackSound_effectTrain, api_SoundID_effectTrain);
    (PlaybackSound_effectTrashCan, api_SoundID_effectTrashCan);
    (PlaybackSound_effectWhip, api_SoundID_effectWhip);
    (PlaybackSound_effectWhistle, api_SoundID_effectWhistle);
    (PlaybackSound_effectWhistleMouthSiren, api_SoundID_effectWhistleMouthSiren);
    (PlaybackSound_effectWhistlePolice, api_SoundID_effectWhistlePolice);
    (PlaybackSound_effectWhistleSlide, api_SoundID_effectWhistleSlide);
    (PlaybackSound_effectWhistleTrain, api_SoundID_effectWhistleTrain);
    (PlaybackSound_effectWind, api_SoundID_effectWind);
    (PlaybackSound_keyboardAccordion, api_SoundID_keyboardAccordion);
    (PlaybackSound_keyboardBandoneon, api_SoundID_keyboardBandoneon);
    (PlaybackSound_keyboardCelesta, api_SoundID_keyboardCelesta);
    (PlaybackSound_keyboardClavichord, api_SoundID_keyboardClavichord);
    (PlaybackSound_keyboardClavichordSynth, api_SoundID_keyboardClavichordSynth);
    (PlaybackSound_keyboardConcertina, api_SoundID_keyboardConcertina);
    (PlaybackSound_keyboardFortepiano, api_SoundID_keyboardFortepiano);
    (PlaybackSound_keyboardHarmonium, api_SoundID_keyboardHarmonium);
    (PlaybackSound_keyboardHarpsichord, api_SoundID_keyboardHarpsichord);
    (PlaybackSound_keyboardOndesMartenot, api_SoundID_keyboardOndesMartenot);
    (PlaybackSound_keyboardOrgan, api_SoundID_keyboardOrgan);
    (PlaybackSound_keyboardOrganDrawbar, api_SoundID_keyboardOrganDrawbar);
    (PlaybackSound_keyboardOrganPercussive, api_SoundID_keyboardOrganPercussive);
    (PlaybackSound_keyboardOrganPipe, api_SoundID_keyboardOrganPipe);
    (PlaybackSound_keyboardOrganReed, api_SoundID_keyboardOrganReed);
    (PlaybackSound_keyboardOrganRotary, api_SoundID_keyboardOrganRotary);
    (PlaybackSound_keyboardPiano, api_SoundID_keyboardPiano);
    (PlaybackSound_keyboardPianoElectric, api_SoundID_keyboardPianoElectric);
    (PlaybackSound_keyboardPianoGrand, api_SoundID_keyboardPianoGrand);
    (PlaybackSound_keyboardPianoHonkyTonk, api_SoundID_keyboardPianoHonkyTonk);
    (PlaybackSound_keyboardPianoPrepared, api_SoundID_keyboardPianoPrepared);
    (PlaybackSound_keyboardPianoToy, api_SoundID_keyboardPianoToy);
    (PlaybackSound_keyboardPianoUpright, api_SoundID_keyboardPianoUpright);
    (PlaybackSound_keyboardVirginal, api_SoundID_keyboardVirginal);
    (PlaybackSound_metalAdodo, api_SoundID_metalAdodo);
    (PlaybackSound_metalAnvil, api_SoundID_metalAnvil);
    (PlaybackSound_metalBabendil, api_SoundID_metalBabendil);
    (PlaybackSound_metalBellsAgogo, api_SoundID_metalBellsAgogo);
    (PlaybackSound_metalBellsAlmglocken, api_SoundID_metalBellsAlmglocken);
    (PlaybackSound_metalBellsBellPlate, api_SoundID_metalBellsBellPlate);
    (PlaybackSound_metalBellsBellTree, api_SoundID_metalBellsBellTree);
    (PlaybackSound_metalBellsCarillon, api_SoundID_metalBellsCarillon);
    (PlaybackSound_metalBellsChimes, api_SoundID_metalBellsChimes);
    (PlaybackSound_metalBellsChimta, api_SoundID_metalBellsChimta);
    (PlaybackSound_metalBellsChippli, api_SoundID_metalBellsChippli);
    (PlaybackSound_metalBellsChurch, api_SoundID_metalBellsChurch);
    (PlaybackSound_metalBellsCowbell, api_SoundID_metalBellsCowbell);
    (PlaybackSound_metalBellsDawuro, api_SoundID_metalBellsDawuro);
    (PlaybackSound_metalBellsGankokwe, api_SoundID_metalBellsGankokwe);
    (PlaybackSound_metalBellsGhungroo, api_SoundID_metalBellsGhungroo);
    (PlaybackSound_metalBellsHatheli, api_SoundID_metalBellsHatheli);
    (PlaybackSound_metalBellsJingleBell, api_SoundID_metalBellsJingleBell);
    (PlaybackSound_metalBellsKhartal, api_SoundID_metalBellsKhartal);
    (PlaybackSound_metalBellsMarkTree, api_SoundID_metalBellsMarkTree);
    (PlaybackSound_metalBellsSistrum, api_SoundID_metalBellsSistrum);
    (PlaybackSound_metalBellsSleighBells, api_SoundID_metalBellsSleighBells);
    (PlaybackSound_metalBellsTemple, api_SoundID_metalBellsTemple);
    (PlaybackSound_metalBellsTibetan, api_SoundID_metalBellsTibetan);
    (PlaybackSound_metalBellsTinklebell, api_SoundID_metalBellsTinklebell);
    (PlaybackSound_metalBellsTrychel, api_SoundID_metalBellsTrychel);
    (PlaybackSound_metalBellsWindChimes, api_SoundID_metalBellsWindChimes);
    (PlaybackSound_metalBellsZills, api_SoundID_metalBellsZills);
    (PlaybackSound_metalBerimbau, api_SoundID_metalBerimbau);
    (PlaybackSound_metalBrakeDrums, api_SoundID_metalBrakeDrums);
    (PlaybackSound_metalCrotales, api_SoundID_metalCrotales);
    (PlaybackSound_metalCymbalBo, api_SoundID_metalCymbalBo);
    (PlaybackSound_metalCymbalCengCeng, api_SoundID_metalCymbalCengCeng);
    (PlaybackSound_metalCymbalChabara, api_SoundID_metalCymbalChabara);
    (PlaybackSound_metalCymbalChinese, api_SoundID_metalCymbalChinese);
    (PlaybackSound_metalCymbalChing, api_SoundID_metalCymbalChing);
    (PlaybackSound_metalCymbalClash, api_SoundID_metalCymbalClash);
    (PlaybackSound_metalCymbalCrash, api_SoundID_metalCymbalCrash);
    (PlaybackSound_metalCymbalFinger, api_SoundID_metalCymbalFinger);
    (PlaybackSound_metalCymbalHand, api_SoundID_metalCymbalHand);
    (PlaybackSound_metalCymbalKesi, api_SoundID_metalCymbalKesi);
    (PlaybackSound_metalCymbalManjeera, api_SoundID_metalCymbalManjeera);
    (PlaybackSound_metalCymbalReverse, api_SoundID_metalCymbalReverse);
    (PlaybackSound_metalCymbalRide, api_SoundID_metalCymbalRide);
    (PlaybackSound_metalCymbalSizzle, api_SoundID_metalCymbalSizzle);
    (PlaybackSound_metalCymbalSplash, api_SoundID_metalCymbalSplash);
    (PlaybackSound_metalCymbalSuspended, api_SoundID_metalCymbalSuspended);
    (PlaybackSound_metalCymbalTebyoshi, api_SoundID_metalCymbalTebyoshi);
    (PlaybackSound_metalCymbalTibetan, api_SoundID_metalCymbalTibetan);
    (PlaybackSound_metalCymbalTingsha, api_SoundID_metalCymbalTingsha);
    (PlaybackSound_metalFlexatone, api_SoundID_metalFlexatone);
    (PlaybackSound_metalGong, api_SoundID_metalGong);
    (PlaybackSound_metalGongAgeng, api_SoundID_metalGongAgeng);
    (PlaybackSound_metalGongAgung, api_SoundID_metalGongAgung);
    (PlaybackSound_metalGongChanchiki, api_SoundID_metalGongChanchiki);
    (PlaybackSound_metalGongChinese, api_SoundID_metalGongChinese);
    (PlaybackSound_metalGongGandingan, api_SoundID_metalGongGandingan);
    (PlaybackSound_metalGongKempul, api_SoundID_metalGongKempul);
    (PlaybackSound_metalGongKempyang, api_SoundID_metalGongKempyang);
    (PlaybackSound_metalGongKetuk, api_SoundID_metalGongKetuk);
    (PlaybackSound_metalGongKkwenggwari, api_SoundID_metalGongKkwenggwari);
    (PlaybackSound_metalGongLuo, api_SoundID_metalGongLuo);
    (PlaybackSound_metalGongSinging, api_SoundID_metalGongSinging);
    (PlaybackSound_metalGongThai, api_SoundID_metalGongThai);
    (PlaybackSound_metalGuira, api_SoundID_metalGuira);
    (PlaybackSound_metalHang, api_SoundID_metalHang);
    (PlaybackSound_metalHiHat, api_SoundID_metalHiHat);
    (PlaybackSound_metalJawHarp, api_SoundID_metalJawHarp);
    (PlaybackSound_metalKengong, api_SoundID_metalKengong);
    (PlaybackSound_metalMurchang, api_SoundID_metalMurchang);
    (PlaybackSound_metalMusicalSaw, api_SoundID_metalMusicalSaw);
    (PlaybackSound_metalSingingBowl, api_SoundID_metalSingingBowl);
    (PlaybackSound_metalSpoons, api_SoundID_metalSpoons);
    (PlaybackSound_metalSteelDrums, api_SoundID_metalSteelDrums);
    (PlaybackSound_metalTamtam, api_SoundID_metalTamtam);
    (PlaybackSound_metalThundersheet, api_SoundID_metalThundersheet);
    (PlaybackSound_metalTriangle, api_SoundID_metalTriangle);
    (PlaybackSound_metalWashboard, api_SoundID_metalWashboard);
    (PlaybackSound_pitchedPercussionAngklung, api_SoundID_pitchedPercussionAngklung);
    (PlaybackSound_pitchedPercussionBalafon, api_SoundID_pitchedPercussionBalafon);
    (PlaybackSound_pitchedPercussionBellLyre, api_SoundID_pitchedPercussionBellLyre);
    (PlaybackSound_pitchedPercussionBells, api_SoundID_pitchedPercussionBells);
    (PlaybackSound_pitchedPercussionBianqing, api_SoundID_pitchedPercussionBianqing);
    (PlaybackSound_pitchedPercussionBianzhong, api_SoundID_pitchedPercussionBianzhong);
    (PlaybackSound_pitchedPercussionBonang, api_SoundID_pitchedPercussionBonang);
    (PlaybackSound_pitchedPercussionCimbalom, api_SoundID_pitchedPercussionCimbalom);
    (PlaybackSound_pitchedPercussionCrystalGlasses, api_SoundID_pitchedPercussionCrystalGlasses);
    (PlaybackSound_pitchedPercussionDanTamThapLuc, api_SoundID_pitchedPercussionDanTamThapLuc);
    (PlaybackSound_pitchedPercussionFangxiang, api_SoundID_pitchedPercussionFangxiang);
    (PlaybackSound_pitchedPercussionGandinganAKayo, api_SoundID_pitchedPercussionGandinganAKayo);
    (PlaybackSound_pitchedPercussionGangsa, api_SoundID_pitchedPercussionGangsa);
    (PlaybackSound_pitchedPercussionGender, api_SoundID_pitchedPercussionGender);
    (PlaybackSound_pitchedPercussionGiying, api_SoundID_pitchedPercussionGiying);
    (PlaybackSound_pitchedPercussionGlassHarmonica, api_SoundID_pitchedPercussionGlassHarmonica);
    (PlaybackSound_pitchedPercussionGlockenspiel, api_SoundID_pitchedPercussionGlockenspiel);
    (PlaybackSound_pitchedPercussionGlockenspielAlto, api_SoundID_pitchedPercussionGlockenspielAlto);
    (PlaybackSound_pitchedPercussionGlockenspielSoprano, api_SoundID_pitchedPercussionGlockenspielSoprano);
    (PlaybackSound_pitchedPercussionGyil, api_SoundID_pitchedPercussionGyil);
    (PlaybackSound_pitchedPercussionHammerDulcimer, api_SoundID_pitchedPercussionHammerDulcimer);
    (PlaybackSound_pitchedPercussionHandbells, api_SoundID_pitchedPercussionHandbells);
    (PlaybackSound_pitchedPercussionKalimba, api_SoundID_pitchedPercussionKalimba);
    (PlaybackSound_pitchedPercussionKantil, api_SoundID_pitchedPercussionKantil);
    (PlaybackSound_pitchedPercussionKhim, api_SoundID_pitchedPercussionKhim);
    (PlaybackSound_pitchedPercussionKulintang, api_SoundID_pitchedPercussionKulintang);
    (PlaybackSound_pitchedPercussionKulintangAKayo, api_SoundID_pitchedPercussionKulintangAKayo);
    (PlaybackSound_pitchedPercussionKulintangATiniok, api_SoundID_pitchedPercussionKulintangATiniok);
    (PlaybackSound_pitchedPercussionLikembe, api_SoundID_pitchedPercussionLikembe);
    (PlaybackSound_pitchedPercussionLuntang, api_SoundID_pitchedPercussionLuntang);
    (PlaybackSound_pitchedPercussionMarimba, api_SoundID_pitchedPercussionMarimba);
    (PlaybackSound_pitchedPercussionMarimbaBass, api_SoundID_pitchedPercussionMarimbaBass);
    (PlaybackSound_pitchedPercussionMbira, api_SoundID_pitchedPercussionMbira);
    (PlaybackSound_pitchedPercussionMbiraArray, api_SoundID_pitchedPercussionMbiraArray);
    (PlaybackSound_pitchedPercussionMetallophone, api_SoundID_pitchedPercussionMetallophone);
    (PlaybackSound_pitchedPercussionMetallophoneAlto, api_SoundID_pitchedPercussionMetallophoneAlto);
    (PlaybackSound_pitchedPercussionMetallophoneBass, api_SoundID_pitchedPercussionMetallophoneBass);
    (PlaybackSound_pitchedPercussionMetallophoneSoprano, api_SoundID_pitchedPercussionMetallophoneSoprano);
    (PlaybackSound_pitchedPercussionMusicBox, api_SoundID_pitchedPercussionMusicBox);
    (PlaybackSound_pitchedPercussionPelogPanerus, api_SoundID_pitchedPercussionPelogPanerus);
    (PlaybackSound_pitchedPercussionPemade, api_SoundID_pitchedPercussionPemade);
    (PlaybackSound_pitchedPercussionPenyacah, api_SoundID_pitchedPercussionPenyacah);
    (PlaybackSound_pitchedPercussionRanatEk, api_SoundID_pitchedPercussionRanatEk);
    (PlaybackSound_pitchedPercussionRanatEkLek, api_SoundID_pitchedPercussionRanatEkLek);
    (PlaybackSound_pitchedPercussionRanatThum, api_SoundID_pitchedPercussionRanatThum);
    (PlaybackSound_pitchedPercussionRanatThumLek, api_SoundID_pitchedPercussionRanatThumLek);
    (PlaybackSound_pitchedPercussionReyong, api_SoundID_pitchedPercussionReyong);
    (PlaybackSound_pitchedPercussionSanza, api_SoundID_pitchedPercussionSanza);
    (PlaybackSound_pitchedPercussionSaronBarung, api_SoundID_pitchedPercussionSaronBarung);
    (PlaybackSound_pitchedPercussionSaronDemong, api_SoundID_pitchedPercussionSaronDemong);
    (PlaybackSound_pitchedPercussionSaronPanerus, api_SoundID_pitchedPercussionSaronPanerus);
    (PlaybackSound_pitchedPercussionSlendroPanerus, api_SoundID_pitchedPercussionSlendroPanerus);
    (PlaybackSound_pitchedPercussionSlentem, api_SoundID_pitchedPercussionSlentem);
    (PlaybackSound_pitchedPercussionTsymbaly, api_SoundID_pitchedPercussionTsymbaly);
    (PlaybackSound_pitchedPercussionTubes, api_SoundID_pitchedPercussionTubes);
    (PlaybackSound_pitchedPercussionTubularBells, api_SoundID_pitchedPercussionTubularBells);
    (PlaybackSound_pitchedPercussionVibraphone, api_SoundID_pitchedPercussionVibraphone);
    (PlaybackSound_pitchedPercussionXylophone, api_SoundID_pitchedPercussionXylophone);
    (PlaybackSound_pitchedPercussionXylophoneAlto, api_SoundID_pitchedPercussionXylophoneAlto);
    (PlaybackSound_pitchedPercussionXylophoneBass, api_SoundID_pitchedPercussionXylophoneBass);
    (PlaybackSound_pitchedPercussionXylophoneSoprano, api_SoundID_pitchedPercussionXylophoneSoprano);
    (PlaybackSound_pitchedPercussionXylorimba, api_SoundID_pitchedPercussionXylorimba);
    (PlaybackSound_pitchedPercussionYangqin, api_SoundID_pitchedPercussionYangqin);
    (PlaybackSound_pluckArchlute, api_SoundID_pluckArchlute);
    (PlaybackSound_pluckAutoharp, api_SoundID_pluckAutoharp);
    (PlaybackSound_pluckBaglama, api_SoundID_pluckBaglama);
    (PlaybackSound_pluckBajo, api_SoundID_pluckBajo);
    (PlaybackSound_pluckBalalaika, api_SoundID_pluckBalalaika);
    (PlaybackSound_pluckBalalaikaAlto, api_SoundID_pluckBalalaikaAlto);
    (PlaybackSound_pluckBalalaikaBass, api_SoundID_pluckBalalaikaBass);
    (PlaybackSound_pluckBalalaikaContrabass, api_SoundID_pluckBalalaikaContrabass);
    (PlaybackSound_pluckBalalaikaPiccolo, api_SoundID_pluckBalalaikaPiccolo);
    (PlaybackSound_pluckBalalaikaPrima, api_SoundID_pluckBalalaikaPrima);
    (PlaybackSound_pluckBalalaikaSecunda, api_SoundID_pluckBalalaikaSecunda);
    (PlaybackSound_pluckBandola, api_SoundID_pluckBandola);
    (PlaybackSound_pluckBandura, api_SoundID_pluckBandura);
    (PlaybackSound_pluckBandurria, api_SoundID_pluckBandurria);
    (PlaybackSound_pluckBanjo, api_SoundID_pluckBanjo);
    (PlaybackSound_pluckBanjoTenor, api_SoundID_pluckBanjoTenor);
    (PlaybackSound_pluckBanjolele, api_SoundID_pluckBanjolele);
    (PlaybackSound_pluckBarbat, api_SoundID_pluckBarbat);
    (PlaybackSound_pluckBass, api_SoundID_pluckBass);
    (PlaybackSound_pluckBassAcoustic, api_SoundID_pluckBassAcoustic);
    (PlaybackSound_pluckBassBolon, api_SoundID_pluckBassBolon);
    (PlaybackSound_pluckBassElectric, api_SoundID_pluckBassElectric);
    (PlaybackSound_pluckBassFretless, api_SoundID_pluckBassFretless);
    (PlaybackSound_pluckBassGuitarron, api_SoundID_pluckBassGuitarron);
    (PlaybackSound_pluckBassSynth, api_SoundID_pluckBassSynth);
    (PlaybackSound_pluckBassSynthLead, api_SoundID_pluckBassSynthLead);
    (PlaybackSound_pluckBassWashtub, api_SoundID_pluckBassWashtub);
    (PlaybackSound_pluckBassWhamola, api_SoundID_pluckBassWhamola);
    (PlaybackSound_pluckBegena, api_SoundID_pluckBegena);
    (PlaybackSound_pluckBiwa, api_SoundID_pluckBiwa);
    (PlaybackSound_pluckBordonua, api_SoundID_pluckBordonua);
    (PlaybackSound_pluckBouzouki, api_SoundID_pluckBouzouki);
    (PlaybackSound_pluckBouzoukiIrish, api_SoundID_pluckBouzoukiIrish);
    (PlaybackSound_pluckCelticHarp, api_SoundID_pluckCelticHarp);
    (PlaybackSound_pluckCharango, api_SoundID_pluckCharango);
    (PlaybackSound_pluckChitarraBattente, api_SoundID_pluckChitarraBattente);
    (PlaybackSound_pluckCithara, api_SoundID_pluckCithara);
    (PlaybackSound_pluckCittern, api_SoundID_pluckCittern);
    (PlaybackSound_pluckCuatro, api_SoundID_pluckCuatro);
    (PlaybackSound_pluckDanBau, api_SoundID_pluckDanBau);
    (PlaybackSound_pluckDanNguyet, api_SoundID_pluckDanNguyet);
    (PlaybackSound_pluckDanTranh, api_SoundID_pluckDanTranh);
    (PlaybackSound_pluckDanTyBa, api_SoundID_pluckDanTyBa);
    (PlaybackSound_pluckDiddleyBow, api_SoundID_pluckDiddleyBow);
    (PlaybackSound_pluckDomra, api_SoundID_pluckDomra);
    (PlaybackSound_pluckDomu, api_SoundID_pluckDomu);
    (PlaybackSound_pluckDulcimer, api_SoundID_pluckDulcimer);
    (PlaybackSound_pluckDutar, api_SoundID_pluckDutar);
    (PlaybackSound_pluckDuxianqin, api_SoundID_pluckDuxianqin);
    (PlaybackSound_pluckEktara, api_SoundID_pluckEktara);
    (PlaybackSound_pluckGeomungo, api_SoundID_pluckGeomungo);
    (PlaybackSound_pluckGottuvadhyam, api_SoundID_pluckGottuvadhyam);
    (PlaybackSound_pluckGuitar, api_SoundID_pluckGuitar);
    (PlaybackSound_pluckGuitarAcoustic, api_SoundID_pluckGuitarAcoustic);
    (PlaybackSound_pluckGuitarElectric, api_SoundID_pluckGuitarElectric);
    (PlaybackSound_pluckGuitarNylonString, api_SoundID_pluckGuitarNylonString);
    (PlaybackSound_pluckGuitarPedalSteel, api_SoundID_pluckGuitarPedalSteel);
    (PlaybackSound_pluckGuitarPortuguese, api_SoundID_pluckGuitarPortuguese);
    (PlaybackSound_pluckGuitarRequinto, api_SoundID_pluckGuitarRequinto);
    (PlaybackSound_pluckGuitarResonator, api_SoundID_pluckGuitarResonator);
    (PlaybackSound_pluckGuitarSteelString, api_SoundID_pluckGuitarSteelString);
    (PlaybackSound_pluckGuitjo, api_SoundID_pluckGuitjo);
    (PlaybackSound_pluckGuitjoDoubleNeck, api_SoundID_pluckGuitjoDoubleNeck);
    (PlaybackSound_pluckGuqin, api_SoundID_pluckGuqin);
    (PlaybackSound_pluckGuzheng, api_SoundID_pluckGuzheng);
    (PlaybackSound_pluckGuzhengChoazhou, api_SoundID_pluckGuzhengChoazhou);
    (PlaybackSound_pluckHarp, api_SoundID_pluckHarp);
    (PlaybackSound_pluckHarpGuitar, api_SoundID_pluckHarpGuitar);
    (PlaybackSound_pluckHuapanguera, api_SoundID_pluckHuapanguera);
    (PlaybackSound_pluckJaranaHuasteca, api_SoundID_pluckJaranaHuasteca);
    (PlaybackSound_pluckJaranaJarocha, api_SoundID_pluckJaranaJarocha);
    (PlaybackSound_pluckJaranaJarochaMosquito, api_SoundID_pluckJaranaJarochaMosquito);
    (PlaybackSound_pluckJaranaJarochaPrimera, api_SoundID_pluckJaranaJarochaPrimera);
    (PlaybackSound_pluckJaranaJarochaSegunda, api_SoundID_pluckJaranaJarochaSegunda);
    (PlaybackSound_pluckJaranaJarochaTercera, api_SoundID_pluckJaranaJarochaTercera);
    (PlaybackSound_pluckKabosy, api_SoundID_pluckKabosy);
    (PlaybackSound_pluckKantele, api_SoundID_pluckKantele);
    (PlaybackSound_pluckKanun, api_SoundID_pluckKanun);
    (PlaybackSound_pluckKayagum, api_SoundID_pluckKayagum);
    (PlaybackSound_pluckKobza, api_SoundID_pluckKobza);
    (PlaybackSound_pluckKomuz, api_SoundID_pluckKomuz);
    (PlaybackSound_pluckKora, api_SoundID_pluckKora);
    (PlaybackSound_pluckKoto, api_SoundID_pluckKoto);
    (PlaybackSound_pluckKutiyapi, api_SoundID_pluckKutiyapi);
    (PlaybackSound_pluckLangeleik, api_SoundID_pluckLangeleik);
    (PlaybackSound_pluckLaud, api_SoundID_pluckLaud);
    (PlaybackSound_pluckLute, api_SoundID_pluckLute);
    (PlaybackSound_pluckLyre, api_SoundID_pluckLyre);
    (PlaybackSound_pluckMandobass, api_SoundID_pluckMandobass);
    (PlaybackSound_pluckMandocello, api_SoundID_pluckMandocello);
    (PlaybackSound_pluckMandola, api_SoundID_pluckMandola);
    (PlaybackSound_pluckMandolin, api_SoundID_pluckMandolin);
    (PlaybackSound_pluckMandolinOctave, api_SoundID_pluckMandolinOctave);
    (PlaybackSound_pluckMandora, api_SoundID_pluckMandora);
    (PlaybackSound_pluckMandore, api_SoundID_pluckMandore);
    (PlaybackSound_pluckMarovany, api_SoundID_pluckMarovany);
    (PlaybackSound_pluckMusicalBow, api_SoundID_pluckMusicalBow);
    (PlaybackSound_pluckNgoni, api_SoundID_pluckNgoni);
    (PlaybackSound_pluckOud, api_SoundID_pluckOud);
    (PlaybackSound_pluckPipa, api_SoundID_pluckPipa);
    (PlaybackSound_pluckPsaltery, api_SoundID_pluckPsaltery);
    (PlaybackSound_pluckRuan, api_SoundID_pluckRuan);
    (PlaybackSound_pluckSallaneh, api_SoundID_pluckSallaneh);
    (PlaybackSound_pluckSanshin, api_SoundID_pluckSanshin);
    (PlaybackSound_pluckSantoor, api_SoundID_pluckSantoor);
    (PlaybackSound_pluckSanxian, api_SoundID_pluckSanxian);
    (PlaybackSound_pluckSarod, api_SoundID_pluckSarod);
    (PlaybackSound_pluckSaung, api_SoundID_pluckSaung);
    (PlaybackSound_pluckSaz, api_SoundID_pluckSaz);
    (PlaybackSound_pluckSe, api_SoundID_pluckSe);
    (PlaybackSound_pluckSetar, api_SoundID_pluckSetar);
    (PlaybackSound_pluckShamisen, api_SoundID_pluckShamisen);
    (PlaybackSound_pluckSitar, api_SoundID_pluckSitar);
    (PlaybackSound_pluckSynth, api_SoundID_pluckSynth);
    (PlaybackSound_pluckSynthCharang, api_SoundID_pluckSynthCharang);
    (PlaybackSound_pluckSynthChiff, api_SoundID_pluckSynthChiff);
    (PlaybackSound_pluckSynthStick, api_SoundID_pluckSynthStick);
    (PlaybackSound_pluckTambura, api_SoundID_pluckTambura);
    (PlaybackSound_pluckTamburaBulgarian, api_SoundID_pluckTamburaBulgarian);
    (PlaybackSound_pluckTamburaFemale, api_SoundID_pluckTamburaFemale);
    (PlaybackSound_pluckTamburaMale, api_SoundID_pluckTamburaMale);
    (PlaybackSound_pluckTar, api_SoundID_pluckTar);
    (PlaybackSound_pluckTheorbo, api_SoundID_pluckTheorbo);
    (PlaybackSound_pluckTimple, api_SoundID_pluckTimple);
    (PlaybackSound_pluckTiple, api_SoundID_pluckTiple);
    (PlaybackSound_pluckTres, api_SoundID_pluckTres);
    (PlaybackSound_pluckUkulele, api_SoundID_pluckUkulele);
    (PlaybackSound_pluckUkuleleTenor, api_SoundID_pluckUkuleleTenor);
    (PlaybackSound_pluckValiha, api_SoundID_pluckValiha);
    (PlaybackSound_pluckVeena, api_SoundID_pluckVeena);
    (PlaybackSound_pluckVeenaMohan, api_SoundID_pluckVeenaMohan);
    (PlaybackSound_pluckVeenaRudra, api_SoundID_pluckVeenaRudra);
    (PlaybackSound_pluckVeenaVichitra, api_SoundID_pluckVeenaVichitra);
    (PlaybackSound_pluckVihuela, api_SoundID_pluckVihuela);
    (PlaybackSound_pluckVihuelaMexican, api_SoundID_pluckVihuelaMexican);
    (PlaybackSound_pluckXalam, api_SoundID_pluckXalam);
    (PlaybackSound_pluckYueqin, api_SoundID_pluckYueqin);
    (PlaybackSound_pluckZither, api_SoundID_pluckZither);
    (PlaybackSound_pluckZitherOvertone, api_SoundID_pluckZitherOvertone);
    (PlaybackSound_rattleAfoxe, api_SoundID_rattleAfoxe);
    (PlaybackSound_rattleBirds, api_SoundID_rattleBirds);
    (PlaybackSound_rattleCabasa, api_SoundID_rattleCabasa);
    (PlaybackSound_rattleCaxixi, api_SoundID_rattleCaxixi);
    (PlaybackSound_rattleCog, api_SoundID_rattleCog);
    (PlaybackSound_rattleGanza, api_SoundID_rattleGanza);
    (PlaybackSound_rattleHosho, api_SoundID_rattleHosho);
    (PlaybackSound_rattleJawbone, api_SoundID_rattleJawbone);
    (PlaybackSound_rattleKayamba, api_SoundID_rattleKayamba);
    (PlaybackSound_rattleKpokoKpoko, api_SoundID_rattleKpokoKpoko);
    (PlaybackSound_rattleLavaStones, api_SoundID_rattleLavaStones);
    (PlaybackSound_rattleMaraca, api_SoundID_rattleMaraca);
    (PlaybackSound_rattleRainStick, api_SoundID_rattleRainStick);
    (PlaybackSound_rattleRatchet, api_SoundID_rattleRatchet);
    (PlaybackSound_rattleRattle, api_SoundID_rattleRattle);
    (PlaybackSound_rattleShaker, api_SoundID_rattleShaker);
    (PlaybackSound_rattleShakerEgg, api_SoundID_rattleShakerEgg);
    (PlaybackSound_rattleShekere, api_SoundID_rattleShekere);
    (PlaybackSound_rattleSistre, api_SoundID_rattleSistre);
    (PlaybackSound_rattleTelevi, api_SoundID_rattleTelevi);
    (PlaybackSound_rattleVibraslap, api_SoundID_rattleVibraslap);
    (PlaybackSound_rattleWasembe, api_SoundID_rattleWasembe);
    (PlaybackSound_stringsAjaeng, api_SoundID_stringsAjaeng);
    (PlaybackSound_stringsArpeggione, api_SoundID_stringsArpeggione);
    (PlaybackSound_stringsBaryton, api_SoundID_stringsBaryton);
    (PlaybackSound_stringsCello, api_SoundID_stringsCello);
    (PlaybackSound_stringsCelloPiccolo, api_SoundID_stringsCelloPiccolo);
    (PlaybackSound_stringsContrabass, api_SoundID_stringsContrabass);
    (PlaybackSound_stringsCrwth, api_SoundID_stringsCrwth);
    (PlaybackSound_stringsDanGao, api_SoundID_stringsDanGao);
    (PlaybackSound_stringsDihu, api_SoundID_stringsDihu);
    (PlaybackSound_stringsErhu, api_SoundID_stringsErhu);
    (PlaybackSound_stringsErxian, api_SoundID_stringsErxian);
    (PlaybackSound_stringsEsraj, api_SoundID_stringsEsraj);
    (PlaybackSound_stringsFiddle, api_SoundID_stringsFiddle);
    (PlaybackSound_stringsFiddleHardanger, api_SoundID_stringsFiddleHardanger);
    (PlaybackSound_stringsGadulka, api_SoundID_stringsGadulka);
    (PlaybackSound_stringsGaohu, api_SoundID_stringsGaohu);
    (PlaybackSound_stringsGehu, api_SoundID_stringsGehu);
    (PlaybackSound_stringsGroup, api_SoundID_stringsGroup);
    (PlaybackSound_stringsGroupSynth, api_SoundID_stringsGroupSynth);
    (PlaybackSound_stringsHaegeum, api_SoundID_stringsHaegeum);
    (PlaybackSound_stringsHurdyGurdy, api_SoundID_stringsHurdyGurdy);
    (PlaybackSound_stringsIgil, api_SoundID_stringsIgil);
    (PlaybackSound_stringsKamancha, api_SoundID_stringsKamancha);
    (PlaybackSound_stringsKokyu, api_SoundID_stringsKokyu);
    (PlaybackSound_stringsLaruan, api_SoundID_stringsLaruan);
    (PlaybackSound_stringsLeiqin, api_SoundID_stringsLeiqin);
    (PlaybackSound_stringsLirone, api_SoundID_stringsLirone);
    (PlaybackSound_stringsLyraByzantine, api_SoundID_stringsLyraByzantine);
    (PlaybackSound_stringsLyraCretan, api_SoundID_stringsLyraCretan);
    (PlaybackSound_stringsMorinKhuur, api_SoundID_stringsMorinKhuur);
    (PlaybackSound_stringsNyckelharpa, api_SoundID_stringsNyckelharpa);
    (PlaybackSound_stringsOctobass, api_SoundID_stringsOctobass);
    (PlaybackSound_stringsRebab, api_SoundID_stringsRebab);
    (PlaybackSound_stringsRebec, api_SoundID_stringsRebec);
    (PlaybackSound_stringsSarangi, api_SoundID_stringsSarangi);
    (PlaybackSound_stringsStrohViolin, api_SoundID_stringsStrohViolin);
    (PlaybackSound_stringsTrombaMarina, api_SoundID_stringsTrombaMarina);
    (PlaybackSound_stringsVielle, api_SoundID_stringsVielle);
    (PlaybackSound_stringsViol, api_SoundID_stringsViol);
    (PlaybackSound_stringsViolAlto, api_SoundID_stringsViolAlto);
    (PlaybackSound_stringsViolBass, api_SoundID_stringsViolBass);
    (PlaybackSound_stringsViolTenor, api_SoundID_stringsViolTenor);
    (PlaybackSound_stringsViolTreble, api_SoundID_stringsViolTreble);
    (PlaybackSound_stringsViolViolone, api_SoundID_stringsViolViolone);
    (PlaybackSound_stringsViola, api_SoundID_stringsViola);
    (PlaybackSound_stringsViolaDamore, api_SoundID_stringsViolaDamore);
    (PlaybackSound_stringsViolin, api_SoundID_stringsViolin);
    (PlaybackSound_stringsViolonoPiccolo, api_SoundID_stringsViolonoPiccolo);
    (PlaybackSound_stringsViolotta, api_SoundID_stringsViolotta);
    (PlaybackSound_stringsYayliTanbur, api_SoundID_stringsYayliTanbur);
    (PlaybackSound_stringsYazheng, api_SoundID_stringsYazheng);
    (PlaybackSound_stringsZhonghu, api_SoundID_stringsZhonghu);
    (PlaybackSound_synthEffects, api_SoundID_synthEffects);
    (PlaybackSound_synthEffectsAtmosphere, api_SoundID_synthEffectsAtmosphere);
    (PlaybackSound_synthEffectsBrightness, api_SoundID_synthEffectsBrightness);
    (PlaybackSound_synthEffectsCrystal, api_SoundID_synthEffectsCrystal);
    (PlaybackSound_synthEffectsEchoes, api_SoundID_synthEffectsEchoes);
    (PlaybackSound_synthEffectsGoblins, api_SoundID_synthEffectsGoblins);
    (PlaybackSound_synthEffectsRain, api_SoundID_synthEffectsRain);
    (PlaybackSound_synthEffectsSciFi, api_SoundID_synthEffectsSciFi);
    (PlaybackSound_synthEffectsSoundtrack, api_SoundID_synthEffectsSoundtrack);
    (PlaybackSound_synthGroup, api_SoundID_synthGroup);
    (PlaybackSound_synthGroupFifths, api_SoundID_synthGroupFifths);
    (PlaybackSound_synthGroupOrchestra, api_SoundID_synthGroupOrchestra);
    (PlaybackSound_synthPad, api_SoundID_synthPad);
    (PlaybackSound_synthPadBowed, api_SoundID_synthPadBowed);
    (PlaybackSound_synthPadChoir, api_SoundID_synthPadChoir);
    (PlaybackSound_synthPadHalo, api_SoundID_synthPadHalo);
    (PlaybackSound_synthPadMetallic, api_SoundID_synthPadMetallic);
    (PlaybackSound_synthPadPolysynth, api_SoundID_synthPadPolysynth);
    (PlaybackSound_synthPadSweep, api_SoundID_synthPadSweep);
    (PlaybackSound_synthPadWarm, api_SoundID_synthPadWarm);
    (PlaybackSound_synthTheremin, api_SoundID_synthTheremin);
    (PlaybackSound_synthToneSawtooth, api_SoundID_synthToneSawtooth);
    (PlaybackSound_synthToneSine, api_SoundID_synthToneSine);
    (PlaybackSound_synthToneSquare, api_SoundID_synthToneSquare);
    (PlaybackSound_voiceAa, api_SoundID_voiceAa);
    (PlaybackSound_voiceAlto, api_SoundID_voiceAlto);
    (PlaybackSound_voiceAw, api_SoundID_voiceAw);
    (PlaybackSound_voiceBaritone, api_SoundID_voiceBaritone);
    (PlaybackSound_voiceBass, api_SoundID_voiceBass);
    (PlaybackSound_voiceChild, api_SoundID_voiceChild);
    (PlaybackSound_voiceCountertenor, api_SoundID_voiceCountertenor);
    (PlaybackSound_voiceDoo, api_SoundID_voiceDoo);
    (PlaybackSound_voiceEe, api_SoundID_voiceEe);
    (PlaybackSound_voiceFemale, api_SoundID_voiceFemale);
    (PlaybackSound_voiceKazoo, api_SoundID_voiceKazoo);
    (PlaybackSound_voiceMale, api_SoundID_voiceMale);
    (PlaybackSound_voiceMezzoSoprano, api_SoundID_voiceMezzoSoprano);
    (PlaybackSound_voiceMm, api_SoundID_voiceMm);
    (PlaybackSound_voiceOo, api_SoundID_voiceOo);
    (PlaybackSound_voicePercussion, api_SoundID_voicePercussion);
    (PlaybackSound_voicePercussionBeatbox, api_SoundID_voicePercussionBeatbox);
    (PlaybackSound_voiceSoprano, api_SoundID_voiceSoprano);
    (PlaybackSound_voiceSynth, api_SoundID_voiceSynth);
    (PlaybackSound_voiceTalkBox, api_SoundID_voiceTalkBox);
    (PlaybackSound_voiceTenor, api_SoundID_voiceTenor);
    (PlaybackSound_voiceVocals, api_SoundID_voiceVocals);
    (PlaybackSound_windFlutesBansuri, api_SoundID_windFlutesBansuri);
    (PlaybackSound_windFlutesBlownBottle, api_SoundID_windFlutesBlownBottle);
    (PlaybackSound_windFlutesCalliope, api_SoundID_windFlutesCalliope);
    (PlaybackSound_windFlutesDanso, api_SoundID_windFlutesDanso);
    (PlaybackSound_windFlutesDiZi, api_SoundID_windFlutesDiZi);
    (PlaybackSound_windFlutesDvojnice, api_SoundID_windFlutesDvojnice);
    (PlaybackSound_windFlutesFife, api_SoundID_windFlutesFife);
    (PlaybackSound_windFlutesFlageolet, api_SoundID_windFlutesFlageolet);
    (PlaybackSound_windFlutesFlute, api_SoundID_windFlutesFlute);
    (PlaybackSound_windFlutesFluteAlto, api_SoundID_windFlutesFluteAlto);
    (PlaybackSound_windFlutesFluteBass, api_SoundID_windFlutesFluteBass);
    (PlaybackSound_windFlutesFluteContraAlto, api_SoundID_windFlutesFluteContraAlto);
    (PlaybackSound_windFlutesFluteContrabass, api_SoundID_windFlutesFluteContrabass);
    (PlaybackSound_windFlutesFluteDoubleContrabass, api_SoundID_windFlutesFluteDoubleContrabass);
    (PlaybackSound_windFlutesFluteIrish, api_SoundID_windFlutesFluteIrish);
    (PlaybackSound_windFlutesFlutePiccolo, api_SoundID_windFlutesFlutePiccolo);
    (PlaybackSound_windFlutesFluteSubcontrabass, api_SoundID_windFlutesFluteSubcontrabass);
    (PlaybackSound_windFlutesFujara, api_SoundID_windFlutesFujara);
    (PlaybackSound_windFlutesGemshorn, api_SoundID_windFlutesGemshorn);
    (PlaybackSound_windFlutesHocchiku, api_SoundID_windFlutesHocchiku);
    (PlaybackSound_windFlutesHun, api_SoundID_windFlutesHun);
    (PlaybackSound_windFlutesKaval, api_SoundID_windFlutesKaval);
    (PlaybackSound_windFlutesKawala, api_SoundID_windFlutesKawala);
    (PlaybackSound_windFlutesKhlui, api_SoundID_windFlutesKhlui);
    (PlaybackSound_windFlutesKnotweed, api_SoundID_windFlutesKnotweed);
    (PlaybackSound_windFlutesKoncovkaAlto, api_SoundID_windFlutesKoncovkaAlto);
    (PlaybackSound_windFlutesKoudi, api_SoundID_windFlutesKoudi);
    (PlaybackSound_windFlutesNey, api_SoundID_windFlutesNey);
    (PlaybackSound_windFlutesNohkan, api_SoundID_windFlutesNohkan);
    (PlaybackSound_windFlutesNose, api_SoundID_windFlutesNose);
    (PlaybackSound_windFlutesOcarina, api_SoundID_windFlutesOcarina);
    (PlaybackSound_windFlutesOvertoneTenor, api_SoundID_windFlutesOvertoneTenor);
    (PlaybackSound_windFlutesPalendag, api_SoundID_windFlutesPalendag);
    (PlaybackSound_windFlutesPanpipes, api_SoundID_windFlutesPanpipes);
    (PlaybackSound_windFlutesQuena, api_SoundID_windFlutesQuena);
    (PlaybackSound_windFlutesRecorder, api_SoundID_windFlutesRecorder);
    (PlaybackSound_windFlutesRecorderAlto, api_SoundID_windFlutesRecorderAlto);
    (PlaybackSound_windFlutesRecorderBass, api_SoundID_windFlutesRecorderBass);
    (PlaybackSound_windFlutesRecorderContrabass, api_SoundID_windFlutesRecorderContrabass);
    (PlaybackSound_windFlutesRecorderDescant, api_SoundID_windFlutesRecorderDescant);
    (PlaybackSound_windFlutesRecorderGarklein, api_SoundID_windFlutesRecorderGarklein);
    (PlaybackSound_windFlutesRecorderGreatBass, api_SoundID_windFlutesRecorderGreatBass);
    (PlaybackSound_windFlutesRecorderSopranino, api_SoundID_windFlutesRecorderSopranino);
    (PlaybackSound_windFlutesRecorderSoprano, api_SoundID_windFlutesRecorderSoprano);
    (PlaybackSound_windFlutesRecorderTenor, api_SoundID_windFlutesRecorderTenor);
    (PlaybackSound_windFlutesRyuteki, api_SoundID_windFlutesRyuteki);
    (PlaybackSound_windFlutesShakuhachi, api_SoundID_windFlutesShakuhachi);
    (PlaybackSound_windFlutesShepherdsPipe, api_SoundID_windFlutesShepherdsPipe);
    (PlaybackSound_windFlutesShinobue, api_SoundID_windFlutesShinobue);
    (PlaybackSound_windFlutesShvi, api_SoundID_windFlutesShvi);
    (PlaybackSound_windFlutesSuling, api_SoundID_windFlutesSuling);
    (PlaybackSound_windFlutesTarka, api_SoundID_windFlutesTarka);
    (PlaybackSound_windFlutesTumpong, api_SoundID_windFlutesTumpong);
    (PlaybackSound_windFlutesVenu, api_SoundID_windFlutesVenu);
    (PlaybackSound_windFlutesWhistle, api_SoundID_windFlutesWhistle);
    (PlaybackSound_windFlutesWhistleAlto, api_SoundID_windFlutesWhistleAlto);
    (PlaybackSound_windFlutesWhistleLowIrish, api_SoundID_windFlutesWhistleLowIrish);
    (PlaybackSound_windFlutesWhistleShiva, api_SoundID_windFlutesWhistleShiva);
    (PlaybackSound_windFlutesWhistleSlide, api_SoundID_windFlutesWhistleSlide);
    (PlaybackSound_windFlutesWhistleTin, api_SoundID_windFlutesWhistleTin);
    (PlaybackSound_windFlutesWhistleTinBflat, api_SoundID_windFlutesWhistleTinBflat);
    (PlaybackSound_windFlutesWhistleTinD, api_SoundID_windFlutesWhistleTinD);
    (PlaybackSound_windFlutesXiao, api_SoundID_windFlutesXiao);
    (PlaybackSound_windFlutesXun, api_SoundID_windFlutesXun);
    (PlaybackSound_windGroup, api_SoundID_windGroup);
    (PlaybackSound_windJug, api_SoundID_windJug);
    (PlaybackSound_windPipesBagpipes, api_SoundID_windPipesBagpipes);
    (PlaybackSound_windPipesGaida, api_SoundID_windPipesGaida);
    (PlaybackSound_windPipesHighland, api_SoundID_windPipesHighland);
    (PlaybackSound_windPipesUilleann, api_SoundID_windPipesUilleann);
    (PlaybackSound_windPungi, api_SoundID_windPungi);
    (PlaybackSound_windReedAlbogue, api_SoundID_windReedAlbogue);
    (PlaybackSound_windReedAlboka, api_SoundID_windReedAlboka);
    (PlaybackSound_windReedAlgaita, api_SoundID_windReedAlgaita);
    (PlaybackSound_windReedArghul, api_SoundID_windReedArghul);
    (PlaybackSound_windReedBassetHorn, api_SoundID_windReedBassetHorn);
    (PlaybackSound_windReedBassoon, api_SoundID_windReedBassoon);
    (PlaybackSound_windReedBawu, api_SoundID_windReedBawu);
    (PlaybackSound_windReedBifora, api_SoundID_windReedBifora);
    (PlaybackSound_windReedBombarde, api_SoundID_windReedBombarde);
    (PlaybackSound_windReedChalumeau, api_SoundID_windReedChalumeau);
    (PlaybackSound_windReedClarinet, api_SoundID_windReedClarinet);
    (PlaybackSound_windReedClarinetA, api_SoundID_windReedClarinetA);
    (PlaybackSound_windReedClarinetAlto, api_SoundID_windReedClarinetAlto);
    (PlaybackSound_windReedClarinetBass, api_SoundID_windReedClarinetBass);
    (PlaybackSound_windReedClarinetBasset, api_SoundID_windReedClarinetBasset);
    (PlaybackSound_windReedClarinetBflat, api_SoundID_windReedClarinetBflat);
    (PlaybackSound_windReedClarinetContraAlto, api_SoundID_windReedClarinetContraAlto);
    (PlaybackSound_windReedClarinetContrabass, api_SoundID_windReedClarinetContrabass);
    (PlaybackSound_windReedClarinetEflat, api_SoundID_windReedClarinetEflat);
    (PlaybackSound_windReedClarinetPiccoloAflat, api_SoundID_windReedClarinetPiccoloAflat);
    (PlaybackSound_windReedClarinetteDamour, api_SoundID_windReedClarinetteDamour);
    (PlaybackSound_windReedContrabass, api_SoundID_windReedContrabass);
    (PlaybackSound_windReedContrabassoon, api_SoundID_windReedContrabassoon);
    (PlaybackSound_windReedCornamuse, api_SoundID_windReedCornamuse);
    (PlaybackSound_windReedCromorne, api_SoundID_windReedCromorne);
    (PlaybackSound_windReedCrumhorn, api_SoundID_windReedCrumhorn);
    (PlaybackSound_windReedCrumhornAlto, api_SoundID_windReedCrumhornAlto);
    (PlaybackSound_windReedCrumhornBass, api_SoundID_windReedCrumhornBass);
    (PlaybackSound_windReedCrumhornGreatBass, api_SoundID_windReedCrumhornGreatBass);
    (PlaybackSound_windReedCrumhornSoprano, api_SoundID_windReedCrumhornSoprano);
    (PlaybackSound_windReedCrumhornTenor, api_SoundID_windReedCrumhornTenor);
    (PlaybackSound_windReedDiple, api_SoundID_windReedDiple);
    (PlaybackSound_windReedDiplica, api_SoundID_windReedDiplica);
    (PlaybackSound_windReedDuduk, api_SoundID_windReedDuduk);
    (PlaybackSound_windReedDulcian, api_SoundID_windReedDulcian);
    (PlaybackSound_windReedDulzaina, api_SoundID_windReedDulzaina);
    (PlaybackSound_windReedEnglishHorn, api_SoundID_windReedEnglishHorn);
    (PlaybackSound_windReedGuanzi, api_SoundID_windReedGuanzi);
    (PlaybackSound_windReedHarmonica, api_SoundID_windReedHarmonica);
    (PlaybackSound_windReedHarmonicaBass, api_SoundID_windReedHarmonicaBass);
    (PlaybackSound_windReedHeckelClarina, api_SoundID_windReedHeckelClarina);
    (PlaybackSound_windReedHeckelphone, api_SoundID_windReedHeckelphone);
    (PlaybackSound_windReedHeckelphonePiccolo, api_SoundID_windReedHeckelphonePiccolo);
    (PlaybackSound_windReedHeckelphoneClarinet, api_SoundID_windReedHeckelphoneClarinet);
    (PlaybackSound_windReedHichiriki, api_SoundID_windReedHichiriki);
    (PlaybackSound_windReedHirtenschalmei, api_SoundID_windReedHirtenschalmei);
    (PlaybackSound_windReedHne, api_SoundID_windReedHne);
    (PlaybackSound_windReedHornpipe, api_SoundID_windReedHornpipe);
    (PlaybackSound_windReedHouguan, api_SoundID_windReedHouguan);
    (PlaybackSound_windReedHulusi, api_SoundID_windReedHulusi);
    (PlaybackSound_windReedJogiBaja, api_SoundID_windReedJogiBaja);
    (PlaybackSound_windReedKenBau, api_SoundID_windReedKenBau);
    (PlaybackSound_windReedKhaenMouthOrgan, api_SoundID_windReedKhaenMouthOrgan);
    (PlaybackSound_windReedLauneddas, api_SoundID_windReedLauneddas);
    (PlaybackSound_windReedMaqrunah, api_SoundID_windReedMaqrunah);
    (PlaybackSound_windReedMelodica, api_SoundID_windReedMelodica);
    (PlaybackSound_windReedMijwiz, api_SoundID_windReedMijwiz);
    (PlaybackSound_windReedMizmar, api_SoundID_windReedMizmar);
    (PlaybackSound_windReedNadaswaram, api_SoundID_windReedNadaswaram);
    (PlaybackSound_windReedOboe, api_SoundID_windReedOboe);
    (PlaybackSound_windReedOboeBass, api_SoundID_windReedOboeBass);
    (PlaybackSound_windReedOboePiccolo, api_SoundID_windReedOboePiccolo);
    (PlaybackSound_windReedOboeDaCaccia, api_SoundID_windReedOboeDaCaccia);
    (PlaybackSound_windReedOboeDamore, api_SoundID_windReedOboeDamore);
    (PlaybackSound_windReedOctavin, api_SoundID_windReedOctavin);
    (PlaybackSound_windReedPi, api_SoundID_windReedPi);
    (PlaybackSound_windReedPibgorn, api_SoundID_windReedPibgorn);
    (PlaybackSound_windReedPiri, api_SoundID_windReedPiri);
    (PlaybackSound_windReedRackett, api_SoundID_windReedRackett);
    (PlaybackSound_windReedRauschpfeife, api_SoundID_windReedRauschpfeife);
    (PlaybackSound_windReedRhaita, api_SoundID_windReedRhaita);
    (PlaybackSound_windReedRothphone, api_SoundID_windReedRothphone);
    (PlaybackSound_windReedSarrusaphone, api_SoundID_windReedSarrusaphone);
    (PlaybackSound_windReedSaxonette, api_SoundID_windReedSaxonette);
    (PlaybackSound_windReedSaxophone, api_SoundID_windReedSaxophone);
    (PlaybackSound_windReedSaxophoneAlto, api_SoundID_windReedSaxophoneAlto);
    (PlaybackSound_windReedSaxophoneAulochrome, api_SoundID_windReedSaxophoneAulochrome);
    (PlaybackSound_windReedSaxophoneBaritone, api_SoundID_windReedSaxophoneBaritone);
    (PlaybackSound_windReedSaxophoneBass, api_SoundID_windReedSaxophoneBass);
    (PlaybackSound_windReedSaxophoneContrabass, api_SoundID_windReedSaxophoneContrabass);
    (PlaybackSound_windReedSaxophoneMelody, api_SoundID_windReedSaxophoneMelody);
    (PlaybackSound_windReedSaxophoneMezzoSoprano, api_SoundID_windReedSaxophoneMezzoSoprano);
    (PlaybackSound_windReedSaxophoneSopranino, api_SoundID_windReedSaxophoneSopranino);
    (PlaybackSound_windReedSaxophoneSopranissimo, api_SoundID_windReedSaxophoneSopranissimo);
    (PlaybackSound_windReedSaxophoneSoprano, api_SoundID_windReedSaxophoneSoprano);
    (PlaybackSound_windReedSaxophoneSubcontrabass, api_SoundID_windReedSaxophoneSubcontrabass);
    (PlaybackSound_windReedSaxophoneTenor, api_SoundID_windReedSaxophoneTenor);
    (PlaybackSound_windReedShawm, api_SoundID_windReedShawm);
    (PlaybackSound_windReedShenai, api_SoundID_windReedShenai);
    (PlaybackSound_windReedSheng, api_SoundID_windReedSheng);
    (PlaybackSound_windReedSipsi, api_SoundID_windReedSipsi);
    (PlaybackSound_windReedSopila, api_SoundID_windReedSopila);
    (PlaybackSound_windReedSorna, api_SoundID_windReedSorna);
    (PlaybackSound_windReedSralai, api_SoundID_windReedSralai);
    (PlaybackSound_windReedSuona, api_SoundID_windReedSuona);
    (PlaybackSound_windReedSurnai, api_SoundID_windReedSurnai);
    (PlaybackSound_windReedTaepyeongso, api_SoundID_windReedTaepyeongso);
    (PlaybackSound_windReedTarogato, api_SoundID_windReedTarogato);
    (PlaybackSound_windReedTarogatoAncient, api_SoundID_windReedTarogatoAncient);
    (PlaybackSound_windReedTrompetaChina, api_SoundID_windReedTrompetaChina);
    (PlaybackSound_windReedTubax, api_SoundID_windReedTubax);
    (PlaybackSound_windReedXaphoon, api_SoundID_windReedXaphoon);
    (PlaybackSound_windReedZhaleika, api_SoundID_windReedZhaleika);
    (PlaybackSound_windReedZurla, api_SoundID_windReedZurla);
    (PlaybackSound_windReedZurna, api_SoundID_windReedZurna);
    (PlaybackSound_woodAgogoBlock, api_SoundID_woodAgogoBlock);
    (PlaybackSound_woodAgungATamlang, api_SoundID_woodAgungATamlang);
    (PlaybackSound_woodAhoko, api_SoundID_woodAhoko);
    (PlaybackSound_woodBones, api_SoundID_woodBones);
    (PlaybackSound_woodCastanets, api_SoundID_woodCastanets);
    (PlaybackSound_woodClaves, api_SoundID_woodClaves);
    (PlaybackSound_woodDrumSticks, api_SoundID_woodDrumSticks);
    (PlaybackSound_woodGourd, api_SoundID_woodGourd);
    (PlaybackSound_woodGraniteBlock, api_SoundID_woodGraniteBlock);
    (PlaybackSound_woodGuban, api_SoundID_woodGuban);
    (PlaybackSound_woodGuiro, api_SoundID_woodGuiro);
    (PlaybackSound_woodHyoushigi, api_SoundID_woodHyoushigi);
    (PlaybackSound_woodIpu, api_SoundID_woodIpu);
    (PlaybackSound_woodJamBlock, api_SoundID_woodJamBlock);
    (PlaybackSound_woodKaekeeke, api_SoundID_woodKaekeeke);
    (PlaybackSound_woodKagul, api_SoundID_woodKagul);
    (PlaybackSound_woodKalaau, api_SoundID_woodKalaau);
    (PlaybackSound_woodKashiklar, api_SoundID_woodKashiklar);
    (PlaybackSound_woodKubing, api_SoundID_woodKubing);
    (PlaybackSound_woodPanClappers, api_SoundID_woodPanClappers);
    (PlaybackSound_woodSandBlock, api_SoundID_woodSandBlock);
    (PlaybackSound_woodSlapstick, api_SoundID_woodSlapstick);
    (PlaybackSound_woodStirDrum, api_SoundID_woodStirDrum);
    (PlaybackSound_woodTempleBlock, api_SoundID_woodTempleBlock);
    (PlaybackSound_woodTicTocBlock, api_SoundID_woodTicTocBlock);
    (PlaybackSound_woodTonetang, api_SoundID_woodTonetang);
    (PlaybackSound_woodWoodBlock, api_SoundID_woodWoodBlock) ].

Definition instrumentMap : list (PlaybackSound * api_SoundID) := std_map PlaybackSound_value instrumentMap_rows.

(** Converter.cpp:1794-1797: convert( core::PlaybackSound ) *)
Definition instrumentMap_toApi (value : PlaybackSound) : api_SoundID :=
  findApiItem PlaybackSound_value instrumentMap api_SoundID_unspecified value.

(** Converter.cpp:1788-1791: convert( api::SoundID ) *)
Definition instrumentMap_toCore (value : api_SoundID) : PlaybackSound :=
  findCoreItem api_SoundID_value instrumentMap PlaybackSound_keyboardPiano value.

(** Sourcecode/private/mx/api/SoundID.cpp:13-26 (SoundIDToString) *)
Definition SoundIDToString (inSoundID : api_SoundID) : str :=
  if api_SoundID_value inSoundID =? api_SoundID_value api_SoundID_unspecified then lit "unspecified"
  else if api_SoundID_value inSoundID =? api_SoundID_value api_SoundID_errorBadString then lit "error.bad.string"
  else PlaybackSoundToString (instrumentMap_toCore inSoundID).

(** Sourcecode/private/mx/api/SoundID.cpp:29-45 (SoundIDFromString) *)
Definition SoundIDFromString (inString : str) : api_SoundID :=
  match PlaybackSoundFromString inString with
  | Ok p => instrumentMap_toApi p
  | _ => api_SoundID_errorBadString
  end.
