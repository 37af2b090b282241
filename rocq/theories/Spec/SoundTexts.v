(* The standard sound names of MusicXML, from
   Documents/DevNotes/MusicXML Standard Sounds.xml (not from the C++ code). *)
From Coq Require Import Ascii String List.
From Verif Require Import Model.Text.
Import ListNotations.

Definition standard_sounds : list str :=
  [ lit "brass.alphorn"; lit "brass.alto-horn"; lit "brass.baritone-horn";
    lit "brass.bugle"; lit "brass.bugle.alto"; lit "brass.bugle.baritone";
    lit "brass.bugle.contrabass"; lit "brass.bugle.euphonium-bugle"; lit "brass.bugle.mellophone-bugle";
    lit "brass.bugle.soprano"; lit "brass.cimbasso"; lit "brass.conch-shell";
    lit "brass.cornet"; lit "brass.cornet.soprano"; lit "brass.cornett";
    lit "brass.cornett.tenor"; lit "brass.cornettino"; lit "brass.didgeridoo";
    lit "brass.euphonium"; lit "brass.fiscorn"; lit "brass.flugelhorn";
    lit "brass.french-horn"; lit "brass.group"; lit "brass.group.synth";
    lit "brass.helicon"; lit "brass.horagai"; lit "brass.kuhlohorn";
    lit "brass.mellophone"; lit "brass.natural-horn"; lit "brass.ophicleide";
    lit "brass.posthorn"; lit "brass.rag-dung"; lit "brass.sackbutt";
    lit "brass.sackbutt.alto"; lit "brass.sackbutt.bass"; lit "brass.sackbutt.tenor";
    lit "brass.saxhorn"; lit "brass.serpent"; lit "brass.shofar";
    lit "brass.sousaphone"; lit "brass.trombone"; lit "brass.trombone.alto";
    lit "brass.trombone.bass"; lit "brass.trombone.contrabass"; lit "brass.trombone.tenor";
    lit "brass.trumpet"; lit "brass.trumpet.baroque"; lit "brass.trumpet.bass";
    lit "brass.trumpet.bflat"; lit "brass.trumpet.c"; lit "brass.trumpet.d";
    lit "brass.trumpet.piccolo"; lit "brass.trumpet.pocket"; lit "brass.trumpet.slide";
    lit "brass.trumpet.tenor"; lit "brass.tuba"; lit "brass.tuba.bass";
    lit "brass.tuba.subcontrabass"; lit "brass.vienna-horn"; lit "brass.vuvuzela";
    lit "brass.wagner-tuba"; lit "drum.apentemma"; lit "drum.ashiko";
    lit "drum.atabaque"; lit "drum.atoke"; lit "drum.atsimevu";
    lit "drum.axatse"; lit "drum.bass-drum"; lit "drum.bata";
    lit "drum.bata.itotele"; lit "drum.bata.iya"; lit "drum.bata.okonkolo";
    lit "drum.bendir"; lit "drum.bodhran"; lit "drum.bombo";
    lit "drum.bongo"; lit "drum.bougarabou"; lit "drum.buffalo-drum";
    lit "drum.cajon"; lit "drum.chenda"; lit "drum.chu-daiko";
    lit "drum.conga"; lit "drum.cuica"; lit "drum.dabakan";
    lit "drum.daff"; lit "drum.dafli"; lit "drum.daibyosi";
    lit "drum.damroo"; lit "drum.darabuka"; lit "drum.def";
    lit "drum.dhol"; lit "drum.dholak"; lit "drum.djembe";
    lit "drum.doira"; lit "drum.dondo"; lit "drum.doun-doun-ba";
    lit "drum.duff"; lit "drum.dumbek"; lit "drum.fontomfrom";
    lit "drum.frame-drum"; lit "drum.frame-drum.arabian"; lit "drum.geduk";
    lit "drum.ghatam"; lit "drum.gome"; lit "drum.group";
    lit "drum.group.chinese"; lit "drum.group.ewe"; lit "drum.group.indian";
    lit "drum.group.set"; lit "drum.hand-drum"; lit "drum.hira-daiko";
    lit "drum.ibo"; lit "drum.igihumurizo"; lit "drum.inyahura";
    lit "drum.ishakwe"; lit "drum.jang-gu"; lit "drum.kagan";
    lit "drum.kakko"; lit "drum.kanjira"; lit "drum.kendhang";
    lit "drum.kendhang.ageng"; lit "drum.kendhang.ciblon"; lit "drum.kenkeni";
    lit "drum.khol"; lit "drum.kick-drum"; lit "drum.kidi";
    lit "drum.ko-daiko"; lit "drum.kpanlogo"; lit "drum.kudum";
    lit "drum.lambeg"; lit "drum.lion-drum"; lit "drum.log-drum";
    lit "drum.log-drum.african"; lit "drum.log-drum.native"; lit "drum.log-drum.nigerian";
    lit "drum.madal"; lit "drum.maddale"; lit "drum.mridangam";
    lit "drum.naal"; lit "drum.nagado-daiko"; lit "drum.nagara";
    lit "drum.naqara"; lit "drum.o-daiko"; lit "drum.okawa";
    lit "drum.okedo-daiko"; lit "drum.pahu-hula"; lit "drum.pakhawaj";
    lit "drum.pandeiro"; lit "drum.pandero"; lit "drum.powwow";
    lit "drum.pueblo"; lit "drum.repinique"; lit "drum.riq";
    lit "drum.rototom"; lit "drum.sabar"; lit "drum.sakara";
    lit "drum.sampho"; lit "drum.sangban"; lit "drum.shime-daiko";
    lit "drum.slit-drum"; lit "drum.slit-drum.krin"; lit "drum.snare-drum";
    lit "drum.snare-drum.electric"; lit "drum.sogo"; lit "drum.surdo";
    lit "drum.tabla"; lit "drum.tabla.bayan"; lit "drum.tabla.dayan";
    lit "drum.taiko"; lit "drum.talking"; lit "drum.tama";
    lit "drum.tamborita"; lit "drum.tambourine"; lit "drum.tamte";
    lit "drum.tangku"; lit "drum.tan-tan"; lit "drum.taphon";
    lit "drum.tar"; lit "drum.tasha"; lit "drum.tenor-drum";
    lit "drum.teponaxtli"; lit "drum.thavil"; lit "drum.the-box";
    lit "drum.timbale"; lit "drum.timpani"; lit "drum.tinaja";
    lit "drum.toere"; lit "drum.tombak"; lit "drum.tom-tom";
    lit "drum.tom-tom.synth"; lit "drum.tsuzumi"; lit "drum.tumbak";
    lit "drum.uchiwa-daiko"; lit "drum.udaku"; lit "drum.udu";
    lit "drum.zarb"; lit "effect.aeolian-harp"; lit "effect.air-horn";
    lit "effect.applause"; lit "effect.bass-string-slap"; lit "effect.bird";
    lit "effect.bird.nightingale"; lit "effect.bird.tweet"; lit "effect.breath";
    lit "effect.bubble"; lit "effect.bullroarer"; lit "effect.burst";
    lit "effect.car"; lit "effect.car.crash"; lit "effect.car.engine";
    lit "effect.car.pass"; lit "effect.car.stop"; lit "effect.crickets";
    lit "effect.dog"; lit "effect.door.creak"; lit "effect.door.slam";
    lit "effect.explosion"; lit "effect.flute-key-click"; lit "effect.footsteps";
    lit "effect.frogs"; lit "effect.guitar-cutting"; lit "effect.guitar-fret";
    lit "effect.gunshot"; lit "effect.hand-clap"; lit "effect.heartbeat";
    lit "effect.helicopter"; lit "effect.high-q"; lit "effect.horse-gallop";
    lit "effect.jet-plane"; lit "effect.laser-gun"; lit "effect.laugh";
    lit "effect.lions-roar"; lit "effect.machine-gun"; lit "effect.marching-machine";
    lit "effect.metronome-bell"; lit "effect.metronome-click"; lit "effect.pat";
    lit "effect.punch"; lit "effect.rain"; lit "effect.scratch";
    lit "effect.scream"; lit "effect.seashore"; lit "effect.siren";
    lit "effect.slap"; lit "effect.snap"; lit "effect.stamp";
    lit "effect.starship"; lit "effect.stream"; lit "effect.telephone-ring";
    lit "effect.thunder"; lit "effect.train"; lit "effect.trash-can";
    lit "effect.whip"; lit "effect.whistle"; lit "effect.whistle.mouth-siren";
    lit "effect.whistle.police"; lit "effect.whistle.slide"; lit "effect.whistle.train";
    lit "effect.wind"; lit "keyboard.accordion"; lit "keyboard.bandoneon";
    lit "keyboard.celesta"; lit "keyboard.clavichord"; lit "keyboard.clavichord.synth";
    lit "keyboard.concertina"; lit "keyboard.fortepiano"; lit "keyboard.harmonium";
    lit "keyboard.harpsichord"; lit "keyboard.ondes-martenot"; lit "keyboard.organ";
    lit "keyboard.organ.drawbar"; lit "keyboard.organ.percussive"; lit "keyboard.organ.pipe";
    lit "keyboard.organ.reed"; lit "keyboard.organ.rotary"; lit "keyboard.piano";
    lit "keyboard.piano.electric"; lit "keyboard.piano.grand"; lit "keyboard.piano.honky-tonk";
    lit "keyboard.piano.prepared"; lit "keyboard.piano.toy"; lit "keyboard.piano.upright";
    lit "keyboard.virginal"; lit "metal.adodo"; lit "metal.anvil";
    lit "metal.babendil"; lit "metal.bells.agogo"; lit "metal.bells.almglocken";
    lit "metal.bells.bell-plate"; lit "metal.bells.bell-tree"; lit "metal.bells.carillon";
    lit "metal.bells.chimes"; lit "metal.bells.chimta"; lit "metal.bells.chippli";
    lit "metal.bells.church"; lit "metal.bells.cowbell"; lit "metal.bells.dawuro";
    lit "metal.bells.gankokwe"; lit "metal.bells.ghungroo"; lit "metal.bells.hatheli";
    lit "metal.bells.jingle-bell"; lit "metal.bells.khartal"; lit "metal.bells.mark-tree";
    lit "metal.bells.sistrum"; lit "metal.bells.sleigh-bells"; lit "metal.bells.temple";
    lit "metal.bells.tibetan"; lit "metal.bells.tinklebell"; lit "metal.bells.trychel";
    lit "metal.bells.wind-chimes"; lit "metal.bells.zills"; lit "metal.berimbau";
    lit "metal.brake-drums"; lit "metal.crotales"; lit "metal.cymbal.bo";
    lit "metal.cymbal.ceng-ceng"; lit "metal.cymbal.chabara"; lit "metal.cymbal.chinese";
    lit "metal.cymbal.ching"; lit "metal.cymbal.clash"; lit "metal.cymbal.crash";
    lit "metal.cymbal.finger"; lit "metal.cymbal.hand"; lit "metal.cymbal.kesi";
    lit "metal.cymbal.manjeera"; lit "metal.cymbal.reverse"; lit "metal.cymbal.ride";
    lit "metal.cymbal.sizzle"; lit "metal.cymbal.splash"; lit "metal.cymbal.suspended";
    lit "metal.cymbal.tebyoshi"; lit "metal.cymbal.tibetan"; lit "metal.cymbal.tingsha";
    lit "metal.flexatone"; lit "metal.gong"; lit "metal.gong.ageng";
    lit "metal.gong.agung"; lit "metal.gong.chanchiki"; lit "metal.gong.chinese";
    lit "metal.gong.gandingan"; lit "metal.gong.kempul"; lit "metal.gong.kempyang";
    lit "metal.gong.ketuk"; lit "metal.gong.kkwenggwari"; lit "metal.gong.luo";
    lit "metal.gong.singing"; lit "metal.gong.thai"; lit "metal.guira";
    lit "metal.hang"; lit "metal.hi-hat"; lit "metal.jaw-harp";
    lit "metal.kengong"; lit "metal.murchang"; lit "metal.musical-saw";
    lit "metal.singing-bowl"; lit "metal.spoons"; lit "metal.steel-drums";
    lit "metal.tamtam"; lit "metal.thundersheet"; lit "metal.triangle";
    lit "metal.washboard"; lit "pitched-percussion.angklung"; lit "pitched-percussion.balafon";
    lit "pitched-percussion.bell-lyre"; lit "pitched-percussion.bells"; lit "pitched-percussion.bianqing";
    lit "pitched-percussion.bianzhong"; lit "pitched-percussion.bonang"; lit "pitched-percussion.cimbalom";
    lit "pitched-percussion.crystal-glasses"; lit "pitched-percussion.dan-tam-thap-luc"; lit "pitched-percussion.fangxiang";
    lit "pitched-percussion.gandingan-a-kayo"; lit "pitched-percussion.gangsa"; lit "pitched-percussion.gender";
    lit "pitched-percussion.giying"; lit "pitched-percussion.glass-harmonica"; lit "pitched-percussion.glockenspiel";
    lit "pitched-percussion.glockenspiel.alto"; lit "pitched-percussion.glockenspiel.soprano"; lit "pitched-percussion.gyil";
    lit "pitched-percussion.hammer-dulcimer"; lit "pitched-percussion.handbells"; lit "pitched-percussion.kalimba";
    lit "pitched-percussion.kantil"; lit "pitched-percussion.khim"; lit "pitched-percussion.kulintang";
    lit "pitched-percussion.kulintang-a-kayo"; lit "pitched-percussion.kulintang-a-tiniok"; lit "pitched-percussion.likembe";
    lit "pitched-percussion.luntang"; lit "pitched-percussion.marimba"; lit "pitched-percussion.marimba.bass";
    lit "pitched-percussion.mbira"; lit "pitched-percussion.mbira.array"; lit "pitched-percussion.metallophone";
    lit "pitched-percussion.metallophone.alto"; lit "pitched-percussion.metallophone.bass"; lit "pitched-percussion.metallophone.soprano";
    lit "pitched-percussion.music-box"; lit "pitched-percussion.pelog-panerus"; lit "pitched-percussion.pemade";
    lit "pitched-percussion.penyacah"; lit "pitched-percussion.ranat.ek"; lit "pitched-percussion.ranat.ek-lek";
    lit "pitched-percussion.ranat.thum"; lit "pitched-percussion.ranat.thum-lek"; lit "pitched-percussion.reyong";
    lit "pitched-percussion.sanza"; lit "pitched-percussion.saron-barung"; lit "pitched-percussion.saron-demong";
    lit "pitched-percussion.saron-panerus"; lit "pitched-percussion.slendro-panerus"; lit "pitched-percussion.slentem";
    lit "pitched-percussion.tsymbaly"; lit "pitched-percussion.tubes"; lit "pitched-percussion.tubular-bells";
    lit "pitched-percussion.vibraphone"; lit "pitched-percussion.xylophone"; lit "pitched-percussion.xylophone.alto";
    lit "pitched-percussion.xylophone.bass"; lit "pitched-percussion.xylophone.soprano"; lit "pitched-percussion.xylorimba";
    lit "pitched-percussion.yangqin"; lit "pluck.archlute"; lit "pluck.autoharp";
    lit "pluck.baglama"; lit "pluck.bajo"; lit "pluck.balalaika";
    lit "pluck.balalaika.alto"; lit "pluck.balalaika.bass"; lit "pluck.balalaika.contrabass";
    lit "pluck.balalaika.piccolo"; lit "pluck.balalaika.prima"; lit "pluck.balalaika.secunda";
    lit "pluck.bandola"; lit "pluck.bandura"; lit "pluck.bandurria";
    lit "pluck.banjo"; lit "pluck.banjo.tenor"; lit "pluck.banjolele";
    lit "pluck.barbat"; lit "pluck.bass"; lit "pluck.bass.acoustic";
    lit "pluck.bass.bolon"; lit "pluck.bass.electric"; lit "pluck.bass.fretless";
    lit "pluck.bass.guitarron"; lit "pluck.bass.synth"; lit "pluck.bass.synth.lead";
    lit "pluck.bass.washtub"; lit "pluck.bass.whamola"; lit "pluck.begena";
    lit "pluck.biwa"; lit "pluck.bordonua"; lit "pluck.bouzouki";
    lit "pluck.bouzouki.irish"; lit "pluck.celtic-harp"; lit "pluck.charango";
    lit "pluck.chitarra-battente"; lit "pluck.cithara"; lit "pluck.cittern";
    lit "pluck.cuatro"; lit "pluck.dan-bau"; lit "pluck.dan-nguyet";
    lit "pluck.dan-tranh"; lit "pluck.dan-ty-ba"; lit "pluck.diddley-bow";
    lit "pluck.domra"; lit "pluck.domu"; lit "pluck.dulcimer";
    lit "pluck.dutar"; lit "pluck.duxianqin"; lit "pluck.ektara";
    lit "pluck.geomungo"; lit "pluck.gottuvadhyam"; lit "pluck.guitar";
    lit "pluck.guitar.acoustic"; lit "pluck.guitar.electric"; lit "pluck.guitar.nylon-string";
    lit "pluck.guitar.pedal-steel"; lit "pluck.guitar.portuguese"; lit "pluck.guitar.requinto";
    lit "pluck.guitar.resonator"; lit "pluck.guitar.steel-string"; lit "pluck.guitjo";
    lit "pluck.guitjo.double-neck"; lit "pluck.guqin"; lit "pluck.guzheng";
    lit "pluck.guzheng.choazhou"; lit "pluck.harp"; lit "pluck.harp-guitar";
    lit "pluck.huapanguera"; lit "pluck.jarana-huasteca"; lit "pluck.jarana-jarocha";
    lit "pluck.jarana-jarocha.mosquito"; lit "pluck.jarana-jarocha.primera"; lit "pluck.jarana-jarocha.segunda";
    lit "pluck.jarana-jarocha.tercera"; lit "pluck.kabosy"; lit "pluck.kantele";
    lit "pluck.kanun"; lit "pluck.kayagum"; lit "pluck.kobza";
    lit "pluck.komuz"; lit "pluck.kora"; lit "pluck.koto";
    lit "pluck.kutiyapi"; lit "pluck.langeleik"; lit "pluck.laud";
    lit "pluck.lute"; lit "pluck.lyre"; lit "pluck.mandobass";
    lit "pluck.mandocello"; lit "pluck.mandola"; lit "pluck.mandolin";
    lit "pluck.mandolin.octave"; lit "pluck.mandora"; lit "pluck.mandore";
    lit "pluck.marovany"; lit "pluck.musical-bow"; lit "pluck.ngoni";
    lit "pluck.oud"; lit "pluck.pipa"; lit "pluck.psaltery";
    lit "pluck.ruan"; lit "pluck.sallaneh"; lit "pluck.sanshin";
    lit "pluck.santoor"; lit "pluck.sanxian"; lit "pluck.sarod";
    lit "pluck.saung"; lit "pluck.saz"; lit "pluck.se";
    lit "pluck.setar"; lit "pluck.shamisen"; lit "pluck.sitar";
    lit "pluck.synth"; lit "pluck.synth.charang"; lit "pluck.synth.chiff";
    lit "pluck.synth.stick"; lit "pluck.tambura"; lit "pluck.tambura.bulgarian";
    lit "pluck.tambura.female"; lit "pluck.tambura.male"; lit "pluck.tar";
    lit "pluck.theorbo"; lit "pluck.timple"; lit "pluck.tiple";
    lit "pluck.tres"; lit "pluck.ukulele"; lit "pluck.ukulele.tenor";
    lit "pluck.valiha"; lit "pluck.veena"; lit "pluck.veena.mohan";
    lit "pluck.veena.rudra"; lit "pluck.veena.vichitra"; lit "pluck.vihuela";
    lit "pluck.vihuela.mexican"; lit "pluck.xalam"; lit "pluck.yueqin";
    lit "pluck.zither"; lit "pluck.zither.overtone"; lit "rattle.afoxe";
    lit "rattle.birds"; lit "rattle.cabasa"; lit "rattle.caxixi";
    lit "rattle.cog"; lit "rattle.ganza"; lit "rattle.hosho";
    lit "rattle.jawbone"; lit "rattle.kayamba"; lit "rattle.kpoko-kpoko";
    lit "rattle.lava-stones"; lit "rattle.maraca"; lit "rattle.rain-stick";
    lit "rattle.ratchet"; lit "rattle.rattle"; lit "rattle.shaker";
    lit "rattle.shaker.egg"; lit "rattle.shekere"; lit "rattle.sistre";
    lit "rattle.televi"; lit "rattle.vibraslap"; lit "rattle.wasembe";
    lit "strings.ajaeng"; lit "strings.arpeggione"; lit "strings.baryton";
    lit "strings.cello"; lit "strings.cello.piccolo"; lit "strings.contrabass";
    lit "strings.crwth"; lit "strings.dan-gao"; lit "strings.dihu";
    lit "strings.erhu"; lit "strings.erxian"; lit "strings.esraj";
    lit "strings.fiddle"; lit "strings.fiddle.hardanger"; lit "strings.gadulka";
    lit "strings.gaohu"; lit "strings.gehu"; lit "strings.group";
    lit "strings.group.synth"; lit "strings.haegeum"; lit "strings.hurdy-gurdy";
    lit "strings.igil"; lit "strings.kamancha"; lit "strings.kokyu";
    lit "strings.laruan"; lit "strings.leiqin"; lit "strings.lirone";
    lit "strings.lyra.byzantine"; lit "strings.lyra.cretan"; lit "strings.morin-khuur";
    lit "strings.nyckelharpa"; lit "strings.octobass"; lit "strings.rebab";
    lit "strings.rebec"; lit "strings.sarangi"; lit "strings.stroh-violin";
    lit "strings.tromba-marina"; lit "strings.vielle"; lit "strings.viol";
    lit "strings.viol.alto"; lit "strings.viol.bass"; lit "strings.viol.tenor";
    lit "strings.viol.treble"; lit "strings.viol.violone"; lit "strings.viola";
    lit "strings.viola-damore"; lit "strings.violin"; lit "strings.violono.piccolo";
    lit "strings.violotta"; lit "strings.yayli-tanbur"; lit "strings.yazheng";
    lit "strings.zhonghu"; lit "synth.effects"; lit "synth.effects.atmosphere";
    lit "synth.effects.brightness"; lit "synth.effects.crystal"; lit "synth.effects.echoes";
    lit "synth.effects.goblins"; lit "synth.effects.rain"; lit "synth.effects.sci-fi";
    lit "synth.effects.soundtrack"; lit "synth.group"; lit "synth.group.fifths";
    lit "synth.group.orchestra"; lit "synth.pad"; lit "synth.pad.bowed";
    lit "synth.pad.choir"; lit "synth.pad.halo"; lit "synth.pad.metallic";
    lit "synth.pad.polysynth"; lit "synth.pad.sweep"; lit "synth.pad.warm";
    lit "synth.theremin"; lit "synth.tone.sawtooth"; lit "synth.tone.sine";
    lit "synth.tone.square"; lit "voice.aa"; lit "voice.alto";
    lit "voice.aw"; lit "voice.baritone"; lit "voice.bass";
    lit "voice.child"; lit "voice.countertenor"; lit "voice.doo";
    lit "voice.ee"; lit "voice.female"; lit "voice.kazoo";
    lit "voice.male"; lit "voice.mezzo-soprano"; lit "voice.mm";
    lit "voice.oo"; lit "voice.percussion"; lit "voice.percussion.beatbox";
    lit "voice.soprano"; lit "voice.synth"; lit "voice.talk-box";
    lit "voice.tenor"; lit "voice.vocals"; lit "wind.flutes.bansuri";
    lit "wind.flutes.blown-bottle"; lit "wind.flutes.calliope"; lit "wind.flutes.danso";
    lit "wind.flutes.di-zi"; lit "wind.flutes.dvojnice"; lit "wind.flutes.fife";
    lit "wind.flutes.flageolet"; lit "wind.flutes.flute"; lit "wind.flutes.flute.alto";
    lit "wind.flutes.flute.bass"; lit "wind.flutes.flute.contra-alto"; lit "wind.flutes.flute.contrabass";
    lit "wind.flutes.flute.double-contrabass"; lit "wind.flutes.flute.irish"; lit "wind.flutes.flute.piccolo";
    lit "wind.flutes.flute.subcontrabass"; lit "wind.flutes.fujara"; lit "wind.flutes.gemshorn";
    lit "wind.flutes.hocchiku"; lit "wind.flutes.hun"; lit "wind.flutes.kaval";
    lit "wind.flutes.kawala"; lit "wind.flutes.khlui"; lit "wind.flutes.knotweed";
    lit "wind.flutes.koncovka.alto"; lit "wind.flutes.koudi"; lit "wind.flutes.ney";
    lit "wind.flutes.nohkan"; lit "wind.flutes.nose"; lit "wind.flutes.ocarina";
    lit "wind.flutes.overtone.tenor"; lit "wind.flutes.palendag"; lit "wind.flutes.panpipes";
    lit "wind.flutes.quena"; lit "wind.flutes.recorder"; lit "wind.flutes.recorder.alto";
    lit "wind.flutes.recorder.bass"; lit "wind.flutes.recorder.contrabass"; lit "wind.flutes.recorder.descant";
    lit "wind.flutes.recorder.garklein"; lit "wind.flutes.recorder.great-bass"; lit "wind.flutes.recorder.sopranino";
    lit "wind.flutes.recorder.soprano"; lit "wind.flutes.recorder.tenor"; lit "wind.flutes.ryuteki";
    lit "wind.flutes.shakuhachi"; lit "wind.flutes.shepherds-pipe"; lit "wind.flutes.shinobue";
    lit "wind.flutes.shvi"; lit "wind.flutes.suling"; lit "wind.flutes.tarka";
    lit "wind.flutes.tumpong"; lit "wind.flutes.venu"; lit "wind.flutes.whistle";
    lit "wind.flutes.whistle.alto"; lit "wind.flutes.whistle.low-irish"; lit "wind.flutes.whistle.shiva";
    lit "wind.flutes.whistle.slide"; lit "wind.flutes.whistle.tin"; lit "wind.flutes.whistle.tin.bflat";
    lit "wind.flutes.whistle.tin.d"; lit "wind.flutes.xiao"; lit "wind.flutes.xun";
    lit "wind.group"; lit "wind.jug"; lit "wind.pipes.bagpipes";
    lit "wind.pipes.gaida"; lit "wind.pipes.highland"; lit "wind.pipes.uilleann";
    lit "wind.pungi"; lit "wind.reed.albogue"; lit "wind.reed.alboka";
    lit "wind.reed.algaita"; lit "wind.reed.arghul"; lit "wind.reed.basset-horn";
    lit "wind.reed.bassoon"; lit "wind.reed.bawu"; lit "wind.reed.bifora";
    lit "wind.reed.bombarde"; lit "wind.reed.chalumeau"; lit "wind.reed.clarinet";
    lit "wind.reed.clarinet.a"; lit "wind.reed.clarinet.alto"; lit "wind.reed.clarinet.bass";
    lit "wind.reed.clarinet.basset"; lit "wind.reed.clarinet.bflat"; lit "wind.reed.clarinet.contra-alto";
    lit "wind.reed.clarinet.contrabass"; lit "wind.reed.clarinet.eflat"; lit "wind.reed.clarinet.piccolo.aflat";
    lit "wind.reed.clarinette-damour"; lit "wind.reed.contrabass"; lit "wind.reed.contrabassoon";
    lit "wind.reed.cornamuse"; lit "wind.reed.cromorne"; lit "wind.reed.crumhorn";
    lit "wind.reed.crumhorn.alto"; lit "wind.reed.crumhorn.bass"; lit "wind.reed.crumhorn.great-bass";
    lit "wind.reed.crumhorn.soprano"; lit "wind.reed.crumhorn.tenor"; lit "wind.reed.diple";
    lit "wind.reed.diplica"; lit "wind.reed.duduk"; lit "wind.reed.dulcian";
    lit "wind.reed.dulzaina"; lit "wind.reed.english-horn"; lit "wind.reed.guanzi";
    lit "wind.reed.harmonica"; lit "wind.reed.harmonica.bass"; lit "wind.reed.heckel-clarina";
    lit "wind.reed.heckelphone"; lit "wind.reed.heckelphone.piccolo"; lit "wind.reed.heckelphone-clarinet";
    lit "wind.reed.hichiriki"; lit "wind.reed.hirtenschalmei"; lit "wind.reed.hne";
    lit "wind.reed.hornpipe"; lit "wind.reed.houguan"; lit "wind.reed.hulusi";
    lit "wind.reed.jogi-baja"; lit "wind.reed.ken-bau"; lit "wind.reed.khaen-mouth-organ";
    lit "wind.reed.launeddas"; lit "wind.reed.maqrunah"; lit "wind.reed.melodica";
    lit "wind.reed.mijwiz"; lit "wind.reed.mizmar"; lit "wind.reed.nadaswaram";
    lit "wind.reed.oboe"; lit "wind.reed.oboe.bass"; lit "wind.reed.oboe.piccolo";
    lit "wind.reed.oboe-da-caccia"; lit "wind.reed.oboe-damore"; lit "wind.reed.octavin";
    lit "wind.reed.pi"; lit "wind.reed.pibgorn"; lit "wind.reed.piri";
    lit "wind.reed.rackett"; lit "wind.reed.rauschpfeife"; lit "wind.reed.rhaita";
    lit "wind.reed.rothphone"; lit "wind.reed.sarrusaphone"; lit "wind.reed.saxonette";
    lit "wind.reed.saxophone"; lit "wind.reed.saxophone.alto"; lit "wind.reed.saxophone.aulochrome";
    lit "wind.reed.saxophone.baritone"; lit "wind.reed.saxophone.bass"; lit "wind.reed.saxophone.contrabass";
    lit "wind.reed.saxophone.melody"; lit "wind.reed.saxophone.mezzo-soprano"; lit "wind.reed.saxophone.sopranino";
    lit "wind.reed.saxophone.sopranissimo"; lit "wind.reed.saxophone.soprano"; lit "wind.reed.saxophone.subcontrabass";
    lit "wind.reed.saxophone.tenor"; lit "wind.reed.shawm"; lit "wind.reed.shenai";
    lit "wind.reed.sheng"; lit "wind.reed.sipsi"; lit "wind.reed.sopila";
    lit "wind.reed.sorna"; lit "wind.reed.sralai"; lit "wind.reed.suona";
    lit "wind.reed.surnai"; lit "wind.reed.taepyeongso"; lit "wind.reed.tarogato";
    lit "wind.reed.tarogato.ancient"; lit "wind.reed.trompeta-china"; lit "wind.reed.tubax";
    lit "wind.reed.xaphoon"; lit "wind.reed.zhaleika"; lit "wind.reed.zurla";
    lit "wind.reed.zurna"; lit "wood.agogo-block"; lit "wood.agung-a-tamlang";
    lit "wood.ahoko"; lit "wood.bones"; lit "wood.castanets";
    lit "wood.claves"; lit "wood.drum-sticks"; lit "wood.gourd";
    lit "wood.granite-block"; lit "wood.guban"; lit "wood.guiro";
    lit "wood.hyoushigi"; lit "wood.ipu"; lit "wood.jam-block";
    lit "wood.kaekeeke"; lit "wood.kagul"; lit "wood.kalaau";
    lit "wood.kashiklar"; lit "wood.kubing"; lit "wood.pan-clappers";
    lit "wood.sand-block"; lit "wood.slapstick"; lit "wood.stir-drum";
    lit "wood.temple-block"; lit "wood.tic-toc-block"; lit "wood.tonetang";
    lit "wood.wood-block" ].
