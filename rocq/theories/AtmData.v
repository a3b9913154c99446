(** The atmosphere tables of /repo/aviary/subsystems/atmosphere/data, written by tools/atmdata.py.

    Every number is the decimal that stands in the file (a float there).  Altitudes in metres; the four coefficients of a
    row are those of the cubic in the distance from the lower end of the bin. *)
From Coq Require Import List ZArith QArith.
From Verif Require Import AtmModel.
Import ListNotations.
Open Scope list_scope.
Open Scope Z_scope.

(** MIL_SPEC_210A_Cold.py *)
(** L241-293 *)
Definition MIL_SPEC_210A_Cold_alt : list decimal := [dec 0 0; dec 1524 1; dec 3048 1; dec 45720000000000005 14; dec 6096 1; dec 762 0; dec 9144000000000001 13; dec 10091928 4; dec 10668 1; dec 12192 1; dec 13716000000000001 13; dec 1524 0; dec 16764 1; dec 18288000000000002 13; dec 19812 1; dec 21336 1; dec 2286 0; dec 24384 1; dec 25908 1; dec 27432000000000003 13; dec 28956000000000004 13; dec 3048 0; dec 32004 1; dec 32747712 4; dec 33528 1; dec 35052000000000003 13; dec 36576000000000004 13; dec 3810 0; dec 39624 1; dec 41148 1; dec 42672 1; dec 44196 1; dec 4572 0; dec 4724400000000001 12; dec 48768 1; dec 50292 1; dec 51816 1; dec 5334 0; dec 5486400000000001 12; dec 56388 1; dec 5791200000000001 12; dec 59436 1; dec 6096 0; dec 6248400000000001 12; dec 64008 1; dec 6553200000000001 12; dec 67056 1; dec 6858 0; dec 7010400000000001 12; dec 71628 1; dec 7315200000000001 12; dec 74676 1; dec 7620 0; dec 7772400000000001 12; dec 79248 1; dec 8077200000000001 12; dec 82296 1; dec 8382 0; dec 85344 1; dec 8686800000000001 12; dec 88392 1; dec 89916 1; dec 9144 0; dec 92964 1; dec 9361932 3; dec 9448800000000001 12; dec 96012 1; dec 97536 1; dec 9906 0; dec 100584 1; dec 10210800000000001 12; dec 103632 1; dec 105156 1; dec 10668 0; dec 108204 1; dec 10972800000000001 12; dec 111252 1; dec 112776 1; dec 11430 0; dec 11582400000000001 12; dec 11734800000000001 12; dec 118872 1; dec 120396 1; dec 12192 0; dec 12344400000000001 12; dec 12496800000000001 12; dec 126492 1; dec 128016 1; dec 12916509600000001 12; dec 12954 0; dec 13106400000000001 12; dec 13258800000000001 12; dec 134112 1; dec 135636 1; dec 13716 0; dec 13868400000000001 12; dec 14020800000000001 12; dec 141732 1; dec 143256 1; dec 14478 0; dec 14630400000000001 12; dec 14782800000000001 12; dec 149352 1; dec 150876 1; dec 15240 0; dec 15392400000000001 12; dec 15417698400000001 12; dec 15544800000000001 12; dec 156972 1; dec 158496 1; dec 16002 0; dec 16154400000000001 12; dec 16306800000000001 12; dec 164592 1; dec 16611600000000002 12; dec 16764 0; dec 169164 1; dec 170688 1; dec 172212 1; dec 17373600000000002 12; dec 17526 0; dec 176784 1; dec 178308 1; dec 179832 1; dec 18135600000000002 12; dec 18288 0; dec 184404 1; dec 185928 1; dec 18619317600000002 12; dec 187452 1; dec 18897600000000002 12; dec 19050 0; dec 192024 1; dec 193548 1; dec 195072 1; dec 19659600000000002 12; dec 19812 0; dec 199644 1; dec 201168 1; dec 202692 1; dec 20421600000000002 12; dec 20574 0; dec 207264 1; dec 208788 1; dec 210312 1; dec 21183600000000002 12; dec 21336 0; dec 214884 1; dec 216408 1; dec 217932 1; dec 21945600000000002 12; dec 22098 0; dec 222504 1; dec 22267164 3; dec 22402800000000003 12; dec 225552 1; dec 22707600000000002 12; dec 22860 0; dec 230124 1; dec 23164800000000003 12; dec 233172 1; dec 23469600000000002 12; dec 23622 0; dec 237744 1; dec 23926800000000003 12; dec 240792 1; dec 24231600000000002 12; dec 24384 0; dec 245364 1; dec 24688800000000003 12; dec 248412 1; dec 24993600000000002 12; dec 25146 0; dec 252984 1; dec 25450800000000003 12; dec 256032 1; dec 25755600000000002 12; dec 25908 0; dec 260604 1; dec 26212800000000003 12; dec 263652 1; dec 26517600000000002 12; dec 26670 0; dec 268224 1; dec 26974800000000003 12; dec 271272 1; dec 27279600000000002 12; dec 27432 0; dec 275844 1; dec 27736800000000003 12; dec 278892 1; dec 28041600000000002 12; dec 28194 0; dec 283464 1; dec 28498800000000003 12; dec 286512 1; dec 28803600000000002 12; dec 28956 0; dec 291084 1; dec 29260800000000003 12; dec 294132 1; dec 29565600000000002 12; dec 29718 0; dec 298704 1; dec 30022800000000003 12; dec 301752 1; dec 30327600000000002 12; dec 30480 0].
(** L295-504 *)
Definition MIL_SPEC_210A_Cold_akima_T : list coefD := [
  q4 (dec 22203888888888886 14) (dec 24241761446485939 18) (dec 0 0) (dec 0 0);
  q4 (dec 22203888888888886 14) (dec 24241761446485939 18) (dec 11959900463007551 22) (dec 2987585294908424 37);
  q4 (dec 22576111111111109 14) (dec 24606299212598427 18) (dec 35879701389024705 22) (dec (-15695407431769337) 24);
  q4 (dec 22953888888888886 14) (dec 24606299212598427 18) (dec (-35879701389022647) 22) (dec 15695407431767835 24);
  q4 (dec 23326111111111109 14) (dec 24606299212598378 18) (dec 11959900463011424 22) (dec (-29875852949084249) 38);
  q4 (dec 23703888888888886 14) (dec 24970836978710963 18) (dec 3514009970129187 21) (dec (-15210104487056927) 24);
  q4 (dec 24087222222222221 14) (dec 24982108508432414 18) (dec (-25785037492408969) 22) (dec 85863092792893257 25);
  q4 (dec 24464999999999998 14) (dec 24794451241483443 18) (dec 2744363411858165 19) (dec (-28498556583947867) 22);
  q4 (dec 24703888888888886 14) (dec 0 0) (dec 0 0) (dec 0 0);
  q4 (dec 24703888888888886 14) (dec 0 0) (dec 0 0) (dec 0 0);
  q4 (dec 24703888888888886 14) (dec 0 0) (dec 0 0) (dec 0 0);
  q4 (dec 24703888888888886 14) (dec 0 0) (dec 0 0) (dec 0 0);
  q4 (dec 24703888888888886 14) (dec 0 0) (dec 0 0) (dec 0 0);
  q4 (dec 24703888888888886 14) (dec 0 0) (dec 0 0) (dec 0 0);
  q4 (dec 24703888888888886 14) (dec 0 0) (dec 0 0) (dec 0 0);
  q4 (dec 24703888888888886 14) (dec 0 0) (dec 0 0) (dec 0 0);
  q4 (dec 24703888888888886 14) (dec 0 0) (dec 0 0) (dec 0 0);
  q4 (dec 24703888888888886 14) (dec 0 0) (dec 0 0) (dec 0 0);
  q4 (dec 24703888888888886 14) (dec 0 0) (dec 0 0) (dec 0 0);
  q4 (dec 24703888888888886 14) (dec 0 0) (dec 0 0) (dec 0 0);
  q4 (dec 24703888888888886 14) (dec 0 0) (dec 0 0) (dec 0 0);
  q4 (dec 24703888888888886 14) (dec 0 0) (dec 0 0) (dec 0 0);
  q4 (dec 24703888888888886 14) (dec 0 0) (dec 0 0) (dec 0 0);
  q4 (dec 24703888888888886 14) (dec 0 0) (dec 0 0) (dec 0 0);
  q4 (dec 24703888888888886 14) (dec 0 0) (dec (-139957496497021) 18) (dec 85814541743039067 23);
  q4 (dec 24659444444444443 14) (dec (-61669922838593081) 19) (dec (-17804964599077617) 22) (dec 10384931233057249 24);
  q4 (dec 24564999999999998 14) (dec (-59860938435327138) 19) (dec 32102890716509171 22) (dec (-14456296318741352) 24);
  q4 (dec 24476111111111109 14) (dec (-60148731408574251) 19) (dec (-3587970138904818) 21) (dec 15695407431780316 24);
  q4 (dec 24381666666666663 14) (dec (-60148731408573792) 19) (dec 35879701389034645 22) (dec (-15695407431773728) 24);
  q4 (dec 24292777777777775 14) (dec (-60148731408573826) 19) (dec (-47839601852013958) 22) (dec 23543111147644047 24);
  q4 (dec 24198333333333332 14) (dec (-58326042578012533) 19) (dec 23277621446014296 34) (dec (-87386869876071831) 37);
  q4 (dec 24109444444444443 14) (dec (-58326042578011527) 19) (dec 68296199841606332 35) (dec (-87386869876070793) 37);
  q4 (dec 24020555555555552 14) (dec (-58326042578015578) 19) (dec (-11162573765471786) 21) (dec 4185441981804659 23);
  q4 (dec 23920555555555552 14) (dec (-63186546126177768) 19) (dec 39866334876781241 23) (dec 2615901238625042 24);
  q4 (dec 23826111111111109 14) (dec (-60148731408573176) 19) (dec 47839601852026511 22) (dec (-23543111147651131) 24);
  q4 (dec 23737222222222221 14) (dec (-61971420239135518) 19) (dec (-43766481398496318) 34) (dec 19195235519786716 36);
  q4 (dec 23642777777777775 14) (dec (-61971420239135518) 19) (dec 72280144832366705 35) (dec (-47801364718534445) 37);
  q4 (dec 23548333333333332 14) (dec (-61971420239136628) 19) (dec (-14569855966209438) 34) (dec 47801364718535017 37);
  q4 (dec 23453888888888886 14) (dec (-61971420239137747) 19) (dec 43823394898364064 34) (dec (-1919523551978649) 35);
  q4 (dec 23359444444444443 14) (dec (-61971420239137747) 19) (dec (-71759402778049012) 22) (dec 31390814863538529 24);
  q4 (dec 23259444444444443 14) (dec (-61971420239137747) 19) (dec 71711009833686655 35) (dec (-31369645596538231) 37);
  q4 (dec 23164999999999998 14) (dec (-61971420239137747) 19) (dec 11382699973601123 36) (dec 0 0);
  q4 (dec 23070555555555552 14) (dec (-61971420239137747) 19) (dec 36766120914731625 34) (dec (-16058270960132858) 36);
  q4 (dec 22976111111111109 14) (dec (-61971420239137747) 19) (dec (-59799502315037092) 22) (dec 23543111147653089 24);
  q4 (dec 22876111111111109 14) (dec (-63794109069699526) 19) (dec 47839601852018879 22) (dec (-23543111147647696) 24);
  q4 (dec 22781666666666663 14) (dec (-65616797900261833) 19) (dec (-40408584906283747) 35) (dec 8962755884725209 37);
  q4 (dec 22681666666666663 14) (dec (-65616797900262423) 19) (dec (-52929554877245226) 35) (dec 25394475006721728 37);
  q4 (dec 22581666666666663 14) (dec (-65616797900262232) 19) (dec 71759402778075422 22) (dec (-31390814863549501) 24);
  q4 (dec 22487222222222221 14) (dec (-65616797900261842) 19) (dec (-26180209939282429) 35) (dec 0 0);
  q4 (dec 22387222222222221 14) (dec (-65616797900262622) 19) (dec (-14228374967001405) 35) (dec 89627558847253162 38);
  q4 (dec 22287222222222221 14) (dec (-65616797900262423) 19) (dec 50083879883844645 35) (dec (-24647578682994323) 37);
  q4 (dec 22187222222222221 14) (dec (-65616797900262622) 19) (dec (-11382699973601123) 36) (dec 0 0);
  q4 (dec 22087222222222221 14) (dec (-65616797900262622) 19) (dec (-11382699973601123) 36) (dec 0 0);
  q4 (dec 21987222222222221 14) (dec (-65616797900262622) 19) (dec 63173984853485857 35) (dec (-24647578682994323) 37);
  q4 (dec 21887222222222221 14) (dec (-65616797900262423) 19) (dec (-40408584906283987) 35) (dec 17178615445723521 37);
  q4 (dec 21787222222222221 14) (dec (-65616797900262423) 19) (dec 24472804943242267 35) (dec (-82158595609981079) 38);
  q4 (dec 21687222222222221 14) (dec (-65616797900262232) 19) (dec (-26749344937962638) 35) (dec 0 0);
  q4 (dec 21587222222222221 14) (dec (-65616797900263013) 19) (dec (-59799502315070686) 22) (dec 23543111147667188 24);
  q4 (dec 21481666666666663 14) (dec (-6743948673082532) 18) (dec 47839601852012848 22) (dec (-23543111147639924) 24);
  q4 (dec 21381666666666663 14) (dec (-69262175561383985) 19) (dec (-26407863938754294) 34) (dec 57511016926986066 37);
  q4 (dec 21276111111111109 14) (dec (-69262175561388018) 19) (dec (-3528636991816348) 33) (dec 17327994710468942 36);
  q4 (dec 21170555555555552 14) (dec (-69262175561386682) 19) (dec 71759402778038085 22) (dec (-31390814863535015) 24);
  q4 (dec 21070555555555552 14) (dec (-69262175561387498) 19) (dec 11382699973601123 36) (dec 0 0);
  q4 (dec 20964999999999998 14) (dec (-69262175561387498) 19) (dec 11382699973601123 36) (dec 0 0);
  q4 (dec 20859444444444443 14) (dec (-69262175561387498) 19) (dec (-99094470034252714) 21) (dec 15457134615918174 22);
  q4 (dec 20814999999999998 14) (dec 0 0) (dec 0 0) (dec 0 0);
  q4 (dec 20814999999999998 14) (dec 0 0) (dec 0 0) (dec 0 0);
  q4 (dec 20814999999999998 14) (dec 0 0) (dec 0 0) (dec 0 0);
  q4 (dec 20814999999999998 14) (dec 0 0) (dec 0 0) (dec 0 0);
  q4 (dec 20814999999999998 14) (dec 0 0) (dec 0 0) (dec 0 0);
  q4 (dec 20814999999999998 14) (dec 0 0) (dec 0 0) (dec 0 0);
  q4 (dec 20814999999999998 14) (dec 0 0) (dec 0 0) (dec 0 0);
  q4 (dec 20814999999999998 14) (dec 0 0) (dec 0 0) (dec 0 0);
  q4 (dec 20814999999999998 14) (dec 0 0) (dec 0 0) (dec 0 0);
  q4 (dec 20814999999999998 14) (dec 0 0) (dec 0 0) (dec 0 0);
  q4 (dec 20814999999999998 14) (dec 0 0) (dec 0 0) (dec 0 0);
  q4 (dec 20814999999999998 14) (dec 0 0) (dec 0 0) (dec 0 0);
  q4 (dec 20814999999999998 14) (dec 0 0) (dec 0 0) (dec 0 0);
  q4 (dec 20814999999999998 14) (dec 0 0) (dec 0 0) (dec 0 0);
  q4 (dec 20814999999999998 14) (dec 0 0) (dec 0 0) (dec 0 0);
  q4 (dec 20814999999999998 14) (dec 0 0) (dec 0 0) (dec 0 0);
  q4 (dec 20814999999999998 14) (dec 0 0) (dec 0 0) (dec 0 0);
  q4 (dec 20814999999999998 14) (dec 0 0) (dec 0 0) (dec 0 0);
  q4 (dec 20814999999999998 14) (dec 0 0) (dec 0 0) (dec 0 0);
  q4 (dec 20814999999999998 14) (dec 0 0) (dec 0 0) (dec 0 0);
  q4 (dec 20814999999999998 14) (dec 0 0) (dec 0 0) (dec 0 0);
  q4 (dec 20814999999999998 14) (dec 0 0) (dec 0 0) (dec 0 0);
  q4 (dec 20814999999999998 14) (dec 0 0) (dec 0 0) (dec 0 0);
  q4 (dec 20814999999999998 14) (dec 0 0) (dec 0 0) (dec 0 0);
  q4 (dec 20814999999999998 14) (dec 0 0) (dec (-45928091103216806) 20) (dec 59247824619871502 22);
  q4 (dec 20781666666666666 14) (dec (-9454870014447038) 18) (dec (-17787328060744326) 22) (dec 10676377227956529 24);
  q4 (dec 20637222222222221 14) (dec (-92531268482405615) 19) (dec 30290962854879354 22) (dec (-13861831797203595) 24);
  q4 (dec 20498333333333329 14) (dec (-92957130358704947) 19) (dec (-11959900463005645) 22) (dec (-89627558847253162) 38);
  q4 (dec 20353888888888886 14) (dec (-96602508019829631) 19) (dec (-47839601852064585) 22) (dec 23543111147666814 24);
  q4 (dec 20203888888888886 14) (dec (-94779819189267939) 19) (dec 12179488971753202 34) (dec (-47801364718535017) 37);
  q4 (dec 20059444444444443 14) (dec (-94779819189267558) 19) (dec 23919800926018291 22) (dec (-15695407431772176) 24);
  q4 (dec 19914999999999998 14) (dec (-98425196850393942) 19) (dec 0 0) (dec 0 0);
  q4 (dec 19764999999999998 14) (dec (-98425196850393942) 19) (dec 0 0) (dec 0 0);
  q4 (dec 19614999999999998 14) (dec (-98425196850393942) 19) (dec 0 0) (dec 0 0);
  q4 (dec 19464999999999998 14) (dec (-98425196850393942) 19) (dec 0 0) (dec 0 0);
  q4 (dec 19314999999999998 14) (dec (-98425196850393942) 19) (dec 12407142971225076 34) (dec (-29875852949083674) 37);
  q4 (dec 19164999999999998 14) (dec (-98425196850392294) 19) (dec 35879701389020008 22) (dec 78477037158885895 25);
  q4 (dec 19026111111111109 14) (dec (-82020997375329002) 19) (dec 79732669753410025 22) (dec (-13079506193144562) 24);
  q4 (dec 18914999999999998 14) (dec (-66831923787304352) 19) (dec 31893067901356544 22) (dec (-1569540743176986) 23);
  q4 (dec 18814999999999998 14) (dec (-68047049674345907) 19) (dec (-38253764027701668) 22) (dec 19869092554044205 24);
  q4 (dec 18709444444444443 14) (dec (-65862553697648941) 19) (dec 33218864081891733 23) (dec (-11215981359530562) 25);
  q4 (dec 18609444444444443 14) (dec (-65631541794095678) 19) (dec (-97049646359293069) 22) (dec 34474878382146213 23);
  q4 (dec 18592777777777775 14) (dec (-63922673169288773) 19) (dec 87753112145005059 21) (dec (-32178571715034935) 23);
  q4 (dec 18587222222222221 14) (dec 31968674678599997 20) (dec 29805761467550058 22) (dec (-17626496848282961) 24);
  q4 (dec 18592777777777775 14) (dec 0 0) (dec 0 0) (dec 0 0);
  q4 (dec 18592777777777775 14) (dec 0 0) (dec 0 0) (dec 0 0);
  q4 (dec 18592777777777775 14) (dec 0 0) (dec 0 0) (dec 0 0);
  q4 (dec 18592777777777775 14) (dec 0 0) (dec 0 0) (dec 0 0);
  q4 (dec 18592777777777775 14) (dec 0 0) (dec 0 0) (dec 0 0);
  q4 (dec 18592777777777775 14) (dec 0 0) (dec 0 0) (dec 0 0);
  q4 (dec 18592777777777775 14) (dec 0 0) (dec 0 0) (dec 0 0);
  q4 (dec 18592777777777775 14) (dec 0 0) (dec 0 0) (dec 0 0);
  q4 (dec 18592777777777775 14) (dec 0 0) (dec 0 0) (dec 0 0);
  q4 (dec 18592777777777775 14) (dec 0 0) (dec 0 0) (dec 0 0);
  q4 (dec 18592777777777775 14) (dec 0 0) (dec 0 0) (dec 0 0);
  q4 (dec 18592777777777775 14) (dec 0 0) (dec 0 0) (dec 0 0);
  q4 (dec 18592777777777775 14) (dec 0 0) (dec 0 0) (dec 0 0);
  q4 (dec 18592777777777775 14) (dec 0 0) (dec 0 0) (dec 0 0);
  q4 (dec 18592777777777775 14) (dec 0 0) (dec 0 0) (dec 0 0);
  q4 (dec 18592777777777775 14) (dec 0 0) (dec 0 0) (dec 0 0);
  q4 (dec 18592777777777775 14) (dec 0 0) (dec 0 0) (dec 0 0);
  q4 (dec 18592777777777775 14) (dec 0 0) (dec 0 0) (dec 0 0);
  q4 (dec 18592777777777775 14) (dec 0 0) (dec 0 0) (dec 0 0);
  q4 (dec 18592777777777775 14) (dec 0 0) (dec 0 0) (dec 0 0);
  q4 (dec 18592777777777775 14) (dec 0 0) (dec 90395697207079062 21) (dec (-35604034557592087) 23);
  q4 (dec 18664999999999998 14) (dec 58326042578010287 19) (dec (-14797509965681284) 35) (dec 11203444855906378 37);
  q4 (dec 18753888888888886 14) (dec 58326042578010617 19) (dec 12345703703769386 22) (dec (-81008554486629853) 25);
  q4 (dec 18842777777777775 14) (dec 56444557333559468 19) (dec (-23148194444548593) 22) (dec 75945519831223464 25);
  q4 (dec 18926111111111109 14) (dec 54680664916886782 19) (dec 0 0) (dec 0 0);
  q4 (dec 19009444444444443 14) (dec 54680664916886799 19) (dec 17254401853704744 22) (dec (-1132178599325818) 23);
  q4 (dec 19092777777777775 14) (dec 5205109407437263 18) (dec (-13330798144546505) 22) (dec 43736214385021193 25);
  q4 (dec 19170555555555552 14) (dec 51035287255760007 19) (dec (-28456749934003146) 35) (dec 18672408093178184 37);
  q4 (dec 19248333333333329 14) (dec 51035287255760441 19) (dec 28456749934002472 35) (dec (-89627558847251018) 38);
  q4 (dec 19326111111111109 14) (dec 51035287255760658 19) (dec 61861554118942403 23) (dec (-40591570944216517) 25);
  q4 (dec 19403888888888886 14) (dec 50101868754295212 19) (dec (-35590015218638843) 22) (dec 11676514179339382 24);
  q4 (dec 19476111111111109 14) (dec 47389909594632105 19) (dec 0 0) (dec 0 0);
  q4 (dec 19548333333333329 14) (dec 47389909594632105 19) (dec 58848558863518509 34) (dec (-25767923168585895) 36);
  q4 (dec 19620555555555552 14) (dec 47389909594632105 19) (dec (-5979950231501551) 21) (dec 23543111147645493 24);
  q4 (dec 19687222222222221 14) (dec 45567220764071653 19) (dec 35879701389049519 22) (dec (-1569540743178151) 23);
  q4 (dec 19759444444444443 14) (dec 45567220764070908 19) (dec (-11959900463020699) 22) (dec 31369645596537859 37);
  q4 (dec 19826111111111109 14) (dec 41921843102944367 19) (dec (-35879701389018899) 22) (dec 15695407431767693 24);
  q4 (dec 19887222222222221 14) (dec 41921843102945121 19) (dec 4783960185204324 21) (dec (-2354311114765789) 23);
  q4 (dec 19953888888888886 14) (dec 40099154272383404 19) (dec (-18952195456045646) 34) (dec 82905491933707192 37);
  q4 (dec 20014999999999998 14) (dec 40099154272383395 19) (dec 2105799495116233 34) (dec (-13444133827088291) 37);
  q4 (dec 20076111111111109 14) (dec 40099154272383074 19) (dec (-83093709807287214) 35) (dec 26888267654175307 37);
  q4 (dec 20137222222222221 14) (dec 40099154272382441 19) (dec 163003397752197 20) (dec (-10695761007369916) 24);
  q4 (dec 20198333333333329 14) (dec 37611039360821046 19) (dec (-15187175191107043) 22) (dec 4982669025952854 24);
  q4 (dec 20253888888888886 14) (dec 36453776611258025 19) (dec (-49514744885164296) 35) (dec 14564478312678291 37);
  q4 (dec 20309444444444443 14) (dec 3645377661125754 18) (dec 73554846730506694 21) (dec (-5566886020515664) 21);
  q4 (dec 20314999999999998 14) (dec 14181103029538851 19) (dec (-24804715511751493) 21) (dec 83529852445156021 24);
  q4 (dec 20309444444444443 14) (dec (-7005871996517897) 19) (dec (-27658427248031637) 22) (dec 16921990870759062 24);
  q4 (dec 20298333333333329 14) (dec (-36453776611249284) 20) (dec 18745884019024126 35) (dec (-79824544598332939) 38);
  q4 (dec 20292777777777775 14) (dec (-3645377661124916) 19) (dec 35570937417503934 38) (dec 0 0);
  q4 (dec 20287222222222221 14) (dec (-3645377661124916) 19) (dec 17109620897818984 35) (dec (-74689632372709184) 38);
  q4 (dec 20281666666666666 14) (dec (-36453776611249154) 20) (dec (-71759402778118274) 22) (dec 3139081486356838 23);
  q4 (dec 20270555555555552 14) (dec (-36453776611250033) 20) (dec 86081668550359519 36) (dec (-18672408093178182) 38);
  q4 (dec 20264999999999998 14) (dec (-36453776611248726) 20) (dec 1141827091101849 34) (dec (-56017224279531888) 38);
  q4 (dec 20259444444444443 14) (dec (-36453776611249154) 20) (dec (-59799502315110005) 22) (dec 23543111147683199 24);
  q4 (dec 20248333333333329 14) (dec (-54680664916882194) 20) (dec 35879701389045974 22) (dec (-15695407431779191) 24);
  q4 (dec 20242777777777775 14) (dec (-54680664916887073) 20) (dec (-4783960185199883) 21) (dec 23543111147637955 24);
  q4 (dec 20231666666666666 14) (dec (-36453776611268675) 20) (dec 85725959176184481 36) (dec (-18672408093178182) 38);
  q4 (dec 20226111111111109 14) (dec (-36453776611267374) 20) (dec 1141827091101849 34) (dec (-56017224279531888) 38);
  q4 (dec 20220555555555552 14) (dec (-36453776611267808) 20) (dec (-59799502315009022) 22) (dec 23543111147641036 24);
  q4 (dec 20209444444444443 14) (dec (-54680664916886867) 20) (dec 47839601852014797 22) (dec (-23543111147643947) 24);
  q4 (dec 20203888888888886 14) (dec (-7290755322249833) 19) (dec (-33265940672848886) 34) (dec 14555142108631702 36);
  q4 (dec 20192777777777775 14) (dec (-7290755322249833) 19) (dec 75410387325108337 35) (dec (-493885194064563) 35);
  q4 (dec 20181666666666666 14) (dec (-7290755322250978) 19) (dec (-43289830837101256) 34) (dec 1802821001396268 35);
  q4 (dec 20170555555555552 14) (dec (-72907553222516101) 20) (dec 34731463294450838 34) (dec (-15133986759520918) 36);
  q4 (dec 20159444444444443 14) (dec (-72907553222515678) 20) (dec (-39433941221043922) 34) (dec 18046882422055855 36);
  q4 (dec 20148333333333329 14) (dec (-72907553222510181) 20) (dec 30633691303953657 34) (dec (-14237711171047687) 36);
  q4 (dec 20137222222222221 14) (dec (-72907553222516057) 20) (dec (-2240969057302748) 34) (dec 10829996694043347 37);
  q4 (dec 20126111111111109 14) (dec (-72907553222515363) 20) (dec 74698968576756485 36) (dec (-42946538614307777) 38);
  q4 (dec 20114999999999998 14) (dec (-72907553222516101) 20) (dec (-12236402471621353) 35) (dec 43880159018968726 38);
  q4 (dec 20103888888888886 14) (dec (-72907553222516827) 20) (dec 20986853076326821 35) (dec (-68154289540097129) 38);
  q4 (dec 20092777777777775 14) (dec (-72907553222515244) 20) (dec 12257745034071563 34) (dec (-93362040465886472) 40);
  q4 (dec 20081666666666666 14) (dec (-72907553222477915) 20) (dec 71759402777997021 22) (dec (-31390814863521317) 24);
  q4 (dec 20076111111111109 14) (dec (-72907553222513488) 20) (dec (-11453841848435993) 35) (dec 93362040465886472 40);
  q4 (dec 20064999999999998 14) (dec (-72907553222516968) 20) (dec (-85370249802009441) 37) (dec 65353428326123647 39);
  q4 (dec 20053888888888886 14) (dec (-72907553222516827) 20) (dec 1579349621337137 34) (dec (-34543954972378) 35);
  q4 (dec 20042777777777775 14) (dec (-72907553222514442) 20) (dec 31715047801445754 34) (dec (-13117366685457052) 36);
  q4 (dec 20031666666666666 14) (dec (-72907553222509194) 20) (dec (-47472973077400749) 34) (dec 19783416374722284 36);
  q4 (dec 20020555555555552 14) (dec (-72907553222516101) 20) (dec 38423726598386839 34) (dec (-16805167283859565) 36);
  q4 (dec 20009444444444443 14) (dec (-72907553222516101) 20) (dec (-42941235650410749) 34) (dec 19783416374722284 36);
  q4 (dec 19998333333333329 14) (dec (-72907553222509194) 20) (dec 28271781059431454 34) (dec (-13117366685457052) 36);
  q4 (dec 19987222222222221 14) (dec (-72907553222514442) 20) (dec 14228374967001235 37) (dec (-34543954972378) 35);
  q4 (dec 19976111111111109 14) (dec (-72907553222516827) 20) (dec (-74698968576758266) 36) (dec 43880159018968726 38);
  q4 (dec 19964999999999998 14) (dec (-72907553222516101) 20) (dec 12307544346456069 35) (dec (-42946538614307777) 38);
  q4 (dec 19953888888888886 14) (dec (-72907553222515363) 20) (dec (-26962770562467981) 35) (dec 10829996694043347 37);
  q4 (dec 19942777777777775 14) (dec (-72907553222516068) 20) (dec 34496695107494494 34) (dec (-14237711171047687) 36);
  q4 (dec 19931666666666666 14) (dec (-72907553222510181) 20) (dec (-43040834275178735) 34) (dec 18046882422055855 36);
  q4 (dec 19920555555555552 14) (dec (-72907553222515678) 20) (dec 34454009982594309 34) (dec (-15133986759520918) 36);
  q4 (dec 19909444444444443 14) (dec (-72907553222516101) 20) (dec (-39142259534220398) 34) (dec 1802821001396268 35);
  q4 (dec 19898333333333329 14) (dec (-7290755322250978) 19) (dec 26144639001865391 34) (dec (-1222109109698512) 35);
  q4 (dec 19887222222222221 14) (dec (-72907553222515233) 20) (dec 14228374967001235 37) (dec (-93362040465886472) 40);
  q4 (dec 19876111111111109 14) (dec (-72907553222515244) 20) (dec 2845674993400247 36) (dec (-93362040465886472) 40);
  q4 (dec 19864999999999998 14) (dec (-72907553222515244) 20) (dec (-11240416223931243) 35) (dec 0 0);
  q4 (dec 19853888888888886 14) (dec (-72907553222518692) 20) (dec (-71759402778040313) 22) (dec 31390814863534393 24);
  q4 (dec 19837222222222221 14) (dec (-72907553222518692) 20) (dec 11382699973601258 35) (dec 0 0);
  q4 (dec 19826111111111109 14) (dec (-72907553222515244) 20) (dec 21342562450501852 37) (dec (-93362040465886472) 40);
  q4 (dec 19814999999999998 14) (dec (-72907553222515233) 20) (dec 14228374967001235 37) (dec (-93362040465886472) 40);
  q4 (dec 19803888888888886 14) (dec (-72907553222515244) 20) (dec (-11240416223931243) 35) (dec 0 0);
  q4 (dec 19792777777777775 14) (dec (-72907553222518692) 20) (dec (-5979950231503417) 21) (dec 23543111147651167 24);
  q4 (dec 19776111111111109 14) (dec (-91134441528140239) 20) (dec 11959900463007572 22) (dec 0 0);
  q4 (dec 19764999999999998 14) (dec (-54680664916893697) 20) (dec 0 0) (dec 0 0)].
(** L507-716 *)
Definition MIL_SPEC_210A_Cold_akima_P : list coefD := [
  q4 (dec 10096781499999999 11) (dec (-11078904199474941) 15) (dec 0 0) (dec 0 0);
  q4 (dec 10096781499999999 11) (dec (-11078904199474941) 15) (dec (-61776189296727866) 32) (dec 19885367722910472 34);
  q4 (dec 99279389999999999 12) (dec (-11078904199474989) 15) (dec (-64107366251321373) 32) (dec 0 0);
  q4 (dec 97590964999999997 12) (dec (-11078904199475181) 15) (dec (-43617733068797154) 18) (dec 19080373170952375 20);
  q4 (dec 95564854999999996 12) (dec (-11078904199475183) 15) (dec 65272954728618136 32) (dec 0 0);
  q4 (dec 93876429999999993 12) (dec (-11078904199474991) 15) (dec 11655884772967524 33) (dec 0 0);
  q4 (dec 92188005000000005 12) (dec (-11078904199474993) 15) (dec (-13520826336642319) 31) (dec 50478241142772681 34);
  q4 (dec 90499580000000002 12) (dec (-11078904199475046) 15) (dec 12401522517257801 18) (dec (-8721845623477704) 20);
  q4 (dec 89486524999999994 12) (dec (-1107890419947508) 14) (dec (-25953847058812256) 18) (dec 25623070050083939 20);
  q4 (dec 88811154999999999 12) (dec (-11518187585541229) 15) (dec 24875851460260784 19) (dec 25908908820108787 22);
  q4 (dec 87122729999999996 12) (dec (-10579445403597154) 15) (dec 37063155695072424 18) (dec (-16929921276685736) 20);
  q4 (dec 85771989999999991 12) (dec (-11078904199474982) 15) (dec (-1853285678901838) 30) (dec 73422896207669559 34);
  q4 (dec 84083564999999988 12) (dec (-11078904199475039) 15) (dec 0 0) (dec 24474298735889786 34);
  q4 (dec 82395139999999999 12) (dec (-1107890419947487) 14) (dec 36348110890662907 18) (dec (-14310279878213843) 20);
  q4 (dec 81044399999999994 12) (dec (-99710137795275386) 16) (dec (-29078488712533667) 18) (dec 14310279878215307 20);
  q4 (dec 79355974999999991 12) (dec (-88631233595800811) 16) (dec 13637385184372015 31) (dec (-5353752848475906) 33);
  q4 (dec 78005235000000001 12) (dec (-8863123359580042) 15) (dec 11655884772967516 33) (dec (-1835572405191734) 33);
  q4 (dec 76654494999999995 12) (dec (-88631233595801628) 16) (dec (-43617733068798063) 18) (dec 19080373170952885 20);
  q4 (dec 74966069999999992 12) (dec (-88631233595800811) 16) (dec 18532856789018352 31) (dec (-81071114562634918) 34);
  q4 (dec 73615330000000002 12) (dec (-88631233595800829) 16) (dec (-11655884772967516) 33) (dec 0 0);
  q4 (dec 72264589999999997 12) (dec (-88631233595800829) 16) (dec (-11655884772967516) 33) (dec 0 0);
  q4 (dec 70913849999999991 12) (dec (-88631233595800811) 16) (dec 90915901229146891 32) (dec (-30592873419862406) 34);
  q4 (dec 69563110000000001 12) (dec (-88631233595800119) 16) (dec (-68769720160508347) 32) (dec 15296436709931114 34);
  q4 (dec 68212369999999995 12) (dec (-88631233595801167) 16) (dec (-87915344804031653) 19) (dec 78807696889864669 21);
  q4 (dec 67537 0) (dec (-8863123359580106) 15) (dec 79866454593788654 19) (dec (-68236731902225541) 21);
  q4 (dec 66861630000000005 12) (dec (-88631233595800598) 16) (dec (-97909432092927135) 32) (dec 33652160761848454 34);
  q4 (dec 65510889999999992 12) (dec (-88631233595801184) 16) (dec 79260016456179109 32) (dec 45889310129793349 35);
  q4 (dec 64160150000000001 12) (dec (-88631233595798449) 16) (dec 43617733068794191 18) (dec (-19080373170951139) 20);
  q4 (dec 63147094999999994 12) (dec (-88631233595798449) 16) (dec (-1398706172756102) 30) (dec 30592873419862229 34);
  q4 (dec 61796355000000003 12) (dec (-8863123359580058) 15) (dec (-18649415636748024) 31) (dec 91778620259586694 34);
  q4 (dec 60445614999999991 12) (dec (-8863123359579987) 15) (dec 36348110890667092 18) (dec (-14310279878215578) 20);
  q4 (dec 59432560000000005 12) (dec (-77552329396325632) 16) (dec (-21808866534400593) 18) (dec 95401865854770969 21);
  q4 (dec 58081819999999992 12) (dec (-77552329396325206) 16) (dec 21808866534399184 18) (dec (-95401865854765291) 21);
  q4 (dec 57068764999999992 12) (dec (-77552329396325561) 16) (dec (-29078488712529889) 18) (dec 14310279878213417 20);
  q4 (dec 55718025000000001 12) (dec (-66473425196851998) 16) (dec 61776189296728014 32) (dec 0 0);
  q4 (dec 54704969999999994 12) (dec (-66473425196850089) 16) (dec 34967654318902654 33) (dec (-22944655064896809) 35);
  q4 (dec 53691915000000001 12) (dec (-66473425196850151) 16) (dec (-29139711932418702) 33) (dec 76482183549655113 36);
  q4 (dec 52678860000000001 12) (dec (-66473425196850178) 16) (dec (-25060152261880235) 32) (dec 0 0);
  q4 (dec 51665805 3) (dec (-66473425196850959) 16) (dec (-43617733068796342) 18) (dec 1908037317095176 19);
  q4 (dec 50315065000000002 12) (dec (-66473425196852398) 16) (dec 88001930035905002 32) (dec 0 0);
  q4 (dec 49302009999999995 12) (dec (-66473425196849698) 16) (dec (-58279423864837405) 34) (dec 0 0);
  q4 (dec 48288955000000002 12) (dec (-66473425196849698) 16) (dec (-17075871192397461) 31) (dec 74952539878662914 34);
  q4 (dec 47275900000000001 12) (dec (-66473425196849698) 16) (dec 43617733068797716 18) (dec (-19080373170952689) 20);
  q4 (dec 46600529999999999 12) (dec (-66473425196849787) 16) (dec (-25060152261880082) 32) (dec 0 0);
  q4 (dec 45587474999999999 12) (dec (-66473425196850568) 16) (dec (-12238679011615929) 32) (dec 84130401904621626 35);
  q4 (dec 44574419999999998 12) (dec (-66473425196850373) 16) (dec 2622574073917683 31) (dec (-84130401904620625) 35);
  q4 (dec 43561364999999998 12) (dec (-66473425196850178) 16) (dec (-76346045262937457) 32) (dec 33652160761848651 34);
  q4 (dec 42548309999999998 12) (dec (-66473425196850178) 16) (dec 436177330687995 16) (dec (-1908037317095344) 19);
  q4 (dec 41872940000000002 12) (dec (-66473425196850098) 16) (dec (-90333106990497976) 32) (dec 35181804432841355 34);
  q4 (dec 40859884999999995 12) (dec (-66473425196850373) 16) (dec 0 0) (dec 11472327532448402 34);
  q4 (dec 39846830000000002 12) (dec (-66473425196849538) 16) (dec 36348110890664975 18) (dec (-14310279878214583) 20);
  q4 (dec 39171459999999999 12) (dec (-55394520997375363) 16) (dec (-29078488712532678) 18) (dec 14310279878214819 20);
  q4 (dec 38158404999999999 12) (dec (-44315616797901276) 16) (dec 72849279831047187 32) (dec (-16061258545427767) 34);
  q4 (dec 37483034999999996 12) (dec (-44315616797900175) 16) (dec 96743843615630096 32) (dec (-48183775636282725) 34);
  q4 (dec 36807665000000001 12) (dec (-44315616797900539) 16) (dec (-43617733068799361) 18) (dec 19080373170953402 20);
  q4 (dec 35794610000000001 12) (dec (-44315616797900548) 16) (dec 44292362137276426 32) (dec (-16826080380924125) 34);
  q4 (dec 35119239999999998 12) (dec (-44315616797900397) 16) (dec (-58279423864837752) 34) (dec (-61185746839724822) 35);
  q4 (dec 34443869999999995 12) (dec (-44315616797900805) 16) (dec (-43617733068797113) 18) (dec 1908037317095224 19);
  q4 (dec 33430815000000002 12) (dec (-44315616797902013) 16) (dec 81008399172124471 32) (dec 76482183549656027 36);
  q4 (dec 32755444999999996 12) (dec (-44315616797899535) 16) (dec 42543979421331054 32) (dec (-27533586077875515) 34);
  q4 (dec 32080075000000001 12) (dec (-44315616797900175) 16) (dec (-46623539091870201) 33) (dec (-22944655064896809) 35);
  q4 (dec 31404705000000002 12) (dec (-44315616797900486) 16) (dec (-14569855966209438) 32) (dec 76482183549656015 35);
  q4 (dec 30729334999999999 12) (dec (-44315616797900423) 16) (dec 15735444443506192 32) (dec (-5353752848475922) 34);
  q4 (dec 30053965 3) (dec (-44315616797900299) 16) (dec (-22146181068638346) 32) (dec 45889310129793619 35);
  q4 (dec 29378594999999998 12) (dec (-44315616797900681) 16) (dec (-33025866033699586) 18) (dec 33597698868440213 20);
  q4 (dec 29040909999999996 12) (dec (-44315616797900272) 16) (dec 18794960386679639 18) (dec (-14424153417966903) 20);
  q4 (dec 28703224999999999 12) (dec (-44315616797899748) 16) (dec 64107366251321528 33) (dec (-17590902216420885) 34);
  q4 (dec 28027855000000003 12) (dec (-44315616797900779) 16) (dec (-27391329216473742) 32) (dec 18355724051917448 34);
  q4 (dec 27352484999999997 12) (dec (-44315616797900352) 16) (dec 37881625512144538 32) (dec (-12237149367944964) 34);
  q4 (dec 26677115000000002 12) (dec (-4431561679790005) 15) (dec (-95578255138333904) 32) (dec 41300379116814252 34);
  q4 (dec 26001744999999999 12) (dec (-44315616797900059) 16) (dec 43617733068798584 18) (dec (-19080373170952763) 20);
  q4 (dec 25664059999999998 12) (dec (-4431561679789958) 15) (dec (-31470888887012384) 32) (dec 0 0);
  q4 (dec 24988690000000002 12) (dec (-44315616797900539) 16) (dec 0 0) (dec 0 0);
  q4 (dec 2431332 2) (dec (-44315616797900539) 16) (dec 15152650204857815 32) (dec 0 0);
  q4 (dec 23637950000000001 12) (dec (-44315616797900059) 16) (dec 36348110890665745 18) (dec (-14310279878214892) 20);
  q4 (dec 23300264999999999 12) (dec (-33236712598425155) 16) (dec (-2180886653439865) 17) (dec 95401865854761333 21);
  q4 (dec 22624895 3) (dec (-33236712598425155) 16) (dec 29078488712532748 18) (dec (-14310279878214998) 20);
  q4 (dec 22287209999999999 12) (dec (-44315616797900299) 16) (dec (-58279423864837752) 34) (dec 0 0);
  q4 (dec 2161184 2) (dec (-44315616797900299) 16) (dec (-58279423864837752) 34) (dec 0 0);
  q4 (dec 20936470000000001 12) (dec (-44315616797900299) 16) (dec 29078488712532994 18) (dec (-95401865854766429) 21);
  q4 (dec 20598785 3) (dec (-22157808398950136) 16) (dec (-29139711932418876) 34) (dec (-5353752848475922) 34);
  q4 (dec 20261099999999999 12) (dec (-22157808398950531) 16) (dec (-36348110890665801) 18) (dec 14310279878214935 20);
  q4 (dec 1958573 2) (dec (-33236712598425289) 16) (dec 21808866534400086 18) (dec (-9540186585476857) 20);
  q4 (dec 19248045000000002 12) (dec (-33236712598425164) 16) (dec (-29078488712533546) 18) (dec 14310279878215309 20);
  q4 (dec 18572674999999999 12) (dec (-22157808398950265) 16) (dec 9849222633157463 31) (dec (-43212433705554629) 34);
  q4 (dec 18234990000000002 12) (dec (-22157808398950269) 16) (dec 0 0) (dec 0 0);
  q4 (dec 17897305 3) (dec (-22157808398950269) 16) (dec 0 0) (dec 0 0);
  q4 (dec 17559619999999999 12) (dec (-22157808398950269) 16) (dec (-3328939870853273) 17) (dec 12303250887313853 20);
  q4 (dec 1688425 2) (dec (-37898189963996609) 16) (dec 45192320054126805 19) (dec 25129433724284555 21);
  q4 (dec 16546565000000002 12) (dec (-17557692867630375) 16) (dec 15276762620354206 17) (dec (-28256599761267882) 19);
  q4 (dec 16546565000000002 12) (dec (-2215780839895011) 15) (dec (-87419135797255587) 34) (dec 0 0);
  q4 (dec 16208879999999999 12) (dec (-2215780839895015) 15) (dec 1165588477296755 32) (dec (-11472327532448405) 35);
  q4 (dec 15871195 3) (dec (-22157808398950172) 16) (dec (-16609635801478759) 32) (dec 68833965194690414 35);
  q4 (dec 15533509999999998 12) (dec (-22157808398950212) 16) (dec 34967654318902654 33) (dec 38241091774828014 36);
  q4 (dec 15195824999999999 12) (dec (-22157808398950083) 16) (dec 10198899176346607 32) (dec (-45889310129793619) 35);
  q4 (dec 14858140000000001 12) (dec (-22157808398950083) 16) (dec (-78677222217530022) 33) (dec 30592873419861679 35);
  q4 (dec 14520454999999998 12) (dec (-22157808398950096) 16) (dec 15444047324182003 32) (dec (-72658074372173224) 35);
  q4 (dec 1418277 2) (dec (-22157808398950132) 16) (dec (-25934343619852797) 32) (dec 11089916614700123 34);
  q4 (dec 13845084999999999 12) (dec (-2215780839895015) 15) (dec (-58279423864837752) 34) (dec 38241091774828014 36);
  q4 (dec 135074 1) (dec (-22157808398950145) 16) (dec (-87419135797256635) 34) (dec 38241091774828014 36);
  q4 (dec 13169715 3) (dec (-2215780839895015) 15) (dec 18940812756072045 32) (dec (-65009856017206072) 35);
  q4 (dec 12832029999999999 12) (dec (-22157808398950016) 16) (dec 87419135797256635 34) (dec (-11472327532448405) 35);
  q4 (dec 12494345000000001 12) (dec (-2215780839895007) 15) (dec (-31470888887012384) 32) (dec 12237149367944964 34);
  q4 (dec 1215666 2) (dec (-22157808398950189) 16) (dec 67021337444563412 33) (dec (-2676876424237961) 34);
  q4 (dec 11818975 3) (dec (-22157808398950176) 16) (dec (-12238679011615929) 32) (dec 38241091774828008 35);
  q4 (dec 11481289999999999 12) (dec (-22157808398950269) 16) (dec (-1453924435626569) 17) (dec 95401865854762485 21);
  q4 (dec 11143605 3) (dec 0 0) (dec 0 0) (dec 0 0);
  q4 (dec 11143605 3) (dec 0 0) (dec 87165733550758438 19) (dec (-68579572208971769) 21);
  q4 (dec 11143605 3) (dec (-11078904199475075) 16) (dec (-14539244356266542) 18) (dec 4770093292738375 20);
  q4 (dec 1080592 2) (dec (-2215780839895015) 15) (dec (-29139711932418876) 34) (dec 0 0);
  q4 (dec 10468235000000001 12) (dec (-2215780839895015) 15) (dec (-2360316666525929) 31) (dec 10325094779203563 34);
  q4 (dec 10130549999999999 12) (dec (-2215780839895015) 15) (dec 43617733068799014 18) (dec (-19080373170953001) 20);
  q4 (dec 10130549999999999 12) (dec (-2215780839895003) 15) (dec (-11947281892291738) 32) (dec 2676876424237961 34);
  q4 (dec 97928649999999998 13) (dec (-22157808398950212) 16) (dec (-15444047324182003) 32) (dec 76482183549656015 35);
  q4 (dec 94551799999999985 13) (dec (-2215780839895015) 15) (dec 43617733068799 15) (dec (-1908037317095299) 19);
  q4 (dec 94551799999999985 13) (dec (-22157808398950007) 16) (dec (-47497730449843333) 32) (dec 18738134969666172 34);
  q4 (dec 91174950000000008 13) (dec (-2215780839895015) 15) (dec (-58279423864837058) 34) (dec 65009856017206072 35);
  q4 (dec 87798099999999995 13) (dec (-22157808398949719) 16) (dec 43617733068799354 18) (dec (-19080373170953635) 20);
  q4 (dec 87798099999999995 13) (dec (-2215780839894983) 15) (dec (-55365452671595205) 33) (dec 1147232753244813 34);
  q4 (dec 8442125 3) (dec (-22157808398949919) 16) (dec (-6993530863780447) 32) (dec 34416982597344393 35);
  q4 (dec 81044399999999996 13) (dec (-22157808398949888) 16) (dec 36348110890666363 18) (dec (-14310279878215312) 20);
  q4 (dec 81044399999999996 13) (dec (-11078904199474973) 16) (dec (-21808866534399361) 18) (dec 95401865854764518 21);
  q4 (dec 77667549999999992 13) (dec (-11078904199474942) 16) (dec 21808866534399805 18) (dec (-95401865854768652) 21);
  q4 (dec 77667549999999992 13) (dec (-11078904199474942) 16) (dec (-21808866534399087) 18) (dec 95401865854763041 21);
  q4 (dec 74290700000000006 13) (dec (-11078904199475075) 16) (dec 21808866534399549 18) (dec (-9540186585476525) 20);
  q4 (dec 74290700000000006 13) (dec (-11078904199475075) 16) (dec (-21808866534400593) 18) (dec 95401865854771891 21);
  q4 (dec 70913850000000002 13) (dec (-11078904199475237) 16) (dec 21808866534399864 18) (dec (-95401865854766659) 21);
  q4 (dec 70913850000000002 13) (dec (-11078904199475237) 16) (dec (-29078488712533844) 18) (dec 14310279878215681 20);
  q4 (dec 67536999999999998 13) (dec 0 0) (dec 0 0) (dec 0 0);
  q4 (dec 67536999999999998 13) (dec 0 0) (dec 0 0) (dec 0 0);
  q4 (dec 67536999999999998 13) (dec 0 0) (dec (-36348110890665579) 18) (dec 14310279878214664 20);
  q4 (dec 64160149999999994 13) (dec (-11078904199474959) 16) (dec 2180886653439984 17) (dec (-95401865854768801) 21);
  q4 (dec 64160149999999994 13) (dec (-11078904199474959) 16) (dec (-21808866534399257) 18) (dec 95401865854763989 21);
  q4 (dec 60783299999999999 13) (dec (-11078904199474959) 16) (dec 2180886653439984 17) (dec (-95401865854768801) 21);
  q4 (dec 60783299999999999 13) (dec (-11078904199474959) 16) (dec (-29078488712532477) 18) (dec 14310279878214664 20);
  q4 (dec 57406449999999995 13) (dec 0 0) (dec 0 0) (dec 0 0);
  q4 (dec 57406449999999995 13) (dec 0 0) (dec 0 0) (dec 0 0);
  q4 (dec 57406449999999995 13) (dec 0 0) (dec (-36348110890665468) 18) (dec 14310279878214613 20);
  q4 (dec 540296 2) (dec (-11078904199474959) 16) (dec 2180886653439984 17) (dec (-95401865854768801) 21);
  q4 (dec 540296 2) (dec (-11078904199474959) 16) (dec (-29078488712532477) 18) (dec 14310279878214664 20);
  q4 (dec 50652749999999996 13) (dec 0 0) (dec 0 0) (dec 0 0);
  q4 (dec 50652749999999996 13) (dec 0 0) (dec 0 0) (dec 0 0);
  q4 (dec 50652749999999996 13) (dec 0 0) (dec (-43617733068798688) 18) (dec 19080373170952877 20);
  q4 (dec 47275899999999992 13) (dec 0 0) (dec 0 0) (dec 0 0);
  q4 (dec 47275899999999992 13) (dec 0 0) (dec 0 0) (dec 0 0);
  q4 (dec 47275899999999992 13) (dec 0 0) (dec (-43617733068798577) 18) (dec 19080373170952825 20);
  q4 (dec 43899049999999997 13) (dec 0 0) (dec 0 0) (dec 0 0);
  q4 (dec 43899049999999997 13) (dec 0 0) (dec 0 0) (dec 0 0);
  q4 (dec 43899049999999997 13) (dec 0 0) (dec (-436177330688007) 16) (dec 1908037317095421 19);
  q4 (dec 40522199999999998 13) (dec 0 0) (dec 0 0) (dec 0 0);
  q4 (dec 40522199999999998 13) (dec 0 0) (dec 0 0) (dec 0 0);
  q4 (dec 40522199999999998 13) (dec 0 0) (dec 0 0) (dec 0 0);
  q4 (dec 40522199999999998 13) (dec 0 0) (dec (-43617733068798577) 18) (dec 19080373170952825 20);
  q4 (dec 37145350000000003 13) (dec 0 0) (dec 0 0) (dec 0 0);
  q4 (dec 37145350000000003 13) (dec 0 0) (dec 0 0) (dec 0 0);
  q4 (dec 37145350000000003 13) (dec 0 0) (dec 0 0) (dec 0 0);
  q4 (dec 37145350000000003 13) (dec 0 0) (dec 0 0) (dec 0 0);
  q4 (dec 37145350000000003 13) (dec 0 0) (dec (-41194525676089652) 18) (dec 17490342073374747 20);
  q4 (dec 33768499999999999 13) (dec (-36929680664916803) 17) (dec 77542636566753495 19) (dec (-3498068414674702) 20);
  q4 (dec 33768499999999999 13) (dec (-44315616797899854) 17) (dec 29503958331573761 33) (dec (-25812736948008291) 35);
  q4 (dec 33093129999999996 13) (dec (-44315616797900764) 17) (dec (-36424639915524028) 35) (dec 0 0);
  q4 (dec 32417759999999998 13) (dec (-44315616797900775) 17) (dec 1507980092502659 31) (dec (-65487869664391409) 35);
  q4 (dec 31742389999999996 13) (dec (-4431561679790077) 16) (dec (-43617733068800589) 19) (dec 19080373170954228 21);
  q4 (dec 30729335000000001 13) (dec (-44315616797900304) 17) (dec 19669305554382506 33) (dec 0 0);
  q4 (dec 30053964999999998 13) (dec (-44315616797899715) 17) (dec 14934102365364497 33) (dec (-10516300238077453) 35);
  q4 (dec 29378595 4) (dec (-44315616797899954) 17) (dec (-19596456274551928) 32) (dec 80784306374326098 35);
  q4 (dec 28703224999999998 13) (dec (-44315616797900309) 17) (dec 12165829731784736 32) (dec (-54493555779128623) 35);
  q4 (dec 28027855 4) (dec (-44315616797900392) 17) (dec (-88147628595568147) 33) (dec 41587187305126449 35);
  q4 (dec 27352485000000001 13) (dec (-44315616797900181) 17) (dec 16026841562830191 33) (dec (-28680818831120326) 36);
  q4 (dec 26677114999999999 13) (dec (-44315616797899904) 17) (dec 24404508743400517 33) (dec (-86042456493360983) 36);
  q4 (dec 26001745000000001 13) (dec (-44315616797899715) 17) (dec (-26626411778248065) 32) (dec 11615731626604285 34);
  q4 (dec 25326374999999998 13) (dec (-44315616797899715) 17) (dec 43617733068798421 19) (dec (-19080373170952798) 21);
  q4 (dec 24988689999999997 13) (dec (-44315616797900009) 17) (dec (-14934102365364852) 32) (dec 65009856017209163 35);
  q4 (dec 24313319999999999 13) (dec (-44315616797900015) 17) (dec 10927391974656948 34) (dec (-47801364718533874) 37);
  q4 (dec 23637949999999996 13) (dec (-44315616797900009) 17) (dec 38974364709609785 33) (dec 0 0);
  q4 (dec 22962580000000003 13) (dec (-44315616797898821) 17) (dec 36348110890663961 19) (dec (-14310279878214426) 21);
  q4 (dec 22624895000000001 13) (dec (-3323671259842505) 16) (dec (-21808866534399219) 19) (dec 95401865854763634 22);
  q4 (dec 21949524999999999 13) (dec (-33236712598425194) 17) (dec 21808866534399748 19) (dec (-95401865854768225) 22);
  q4 (dec 21611840000000002 13) (dec (-33236712598425061) 17) (dec (-21808866534399141) 19) (dec 95401865854763176 22);
  q4 (dec 20936469999999999 13) (dec (-33236712598425294) 17) (dec 21808866534399904 19) (dec (-95401865854766683) 22);
  q4 (dec 20598784999999998 13) (dec (-33236712598425194) 17) (dec (-2907848871253442) 18) (dec 1431027987821585 20);
  q4 (dec 19923414999999998 13) (dec (-22157808398950538) 17) (dec 11127727494192325 32) (dec (-43977255541051164) 35);
  q4 (dec 19585729999999999 13) (dec (-22157808398950199) 17) (dec 54636959873286042 35) (dec (-14818423062746208) 35);
  q4 (dec 19248044999999997 13) (dec (-22157808398951212) 17) (dec (-43617733068796096) 19) (dec 19080373170951859 21);
  q4 (dec 18572675000000002 13) (dec (-22157808398950385) 17) (dec 75034758225977711 33) (dec (-32743934832195705) 35);
  q4 (dec 1823499 3) (dec (-22157808398950385) 17) (dec (-18212319957762014) 35) (dec 0 0);
  q4 (dec 17897305000000001 13) (dec (-22157808398950382) 17) (dec 74852635026400098 33) (dec (-32743934832195705) 35);
  q4 (dec 1755962 3) (dec (-22157808398950388) 17) (dec (-4361773306880104) 18) (dec 1908037317095439 20);
  q4 (dec 1688425 3) (dec (-22157808398950152) 17) (dec 98346527771912528 34) (dec 0 0);
  q4 (dec 16546564999999998 13) (dec (-22157808398949858) 17) (dec 63743119852165529 34) (dec (-43021228246680491) 36);
  q4 (dec 16208879999999999 13) (dec (-2215780839894996) 16) (dec (-99621390168958217) 33) (dec 40631160010755732 35);
  q4 (dec 15871194999999998 13) (dec (-22157808398950163) 17) (dec 89604614192186982 33) (dec (-39197119069197781) 35);
  q4 (dec 15533510000000001 13) (dec (-2215780839895016) 16) (dec (-86508519799369568) 33) (dec 40631160010755732 35);
  q4 (dec 15195825 4) (dec (-2215780839894996) 16) (dec 18576566356916812 33) (dec (-8126232002150759) 35);
  q4 (dec 14858140000000001 13) (dec (-22157808398949941) 17) (dec (-21854783949313897) 34) (dec (-1195034117963347) 35);
  q4 (dec 14520454999999999 13) (dec (-22157808398950099) 17) (dec (-79041468616687147) 33) (dec 33221948479382625 35);
  q4 (dec 14182769999999998 13) (dec (-22157808398950196) 17) (dec 63560996652587912 33) (dec (-27246777889564311) 35);
  q4 (dec 13845084999999999 13) (dec (-22157808398950155) 17) (dec (-57368807866950348) 33) (dec 27724791536750968 35);
  q4 (dec 135074 2) (dec (-22157808398949971) 17) (dec 19487182354804892 33) (dec (-8126232002150759) 35);
  q4 (dec 13169715000000001 13) (dec (-22157808398949932) 17) (dec (-92882831784584058) 34) (dec 31070887067047022 36);
  q4 (dec 1283203 3) (dec (-22157808398950005) 17) (dec (-1039923469588211) 31) (dec 45411296482609351 35);
  q4 (dec 12494344999999998 13) (dec (-22157808398950005) 17) (dec 43617733068798802 19) (dec (-19080373170952927) 21);
  q4 (dec 12494344999999998 13) (dec (-22157808398950005) 17) (dec (-74852635026401873) 33) (dec 32743934832197265 35);
  q4 (dec 12156659999999999 13) (dec (-22157808398950005) 17) (dec (-58279423864837058) 34) (dec 40631160010753795 36);
  q4 (dec 11818974999999998 13) (dec (-22157808398949913) 17) (dec 26954233537487141 33) (dec (-88432524729287679) 36);
  q4 (dec 11481290000000001 13) (dec (-2215780839894971) 16) (dec (-16208964762408193) 32) (dec 70985026607026192 35);
  q4 (dec 11143605 4) (dec (-22157808398949708) 17) (dec 36348110890665427 19) (dec (-14310279878214664) 21);
  q4 (dec 11143605 4) (dec (-1107890419947523) 16) (dec (-72696221781333805) 20) (dec (-16730477651487654) 36);
  q4 (dec 10805920000000001 13) (dec (-33236712598425577) 17) (dec 0 0) (dec 0 0)].
(** L719-928 *)
Definition MIL_SPEC_210A_Cold_akima_rho : list coefD := [
  q4 (dec 15925192972241529 16) (dec (-38890048774016994) 20) (dec 0 0) (dec 0 0);
  q4 (dec 15925192972241529 16) (dec (-38890048774016994) 20) (dec 10344787559249077 27) (dec 72792731182752311 26);
  q4 (dec 15358276789104974 16) (dec (-3381773395230683) 19) (dec 15516996456969987 27) (dec (-33938378598637322) 30);
  q4 (dec 14842896926327349 16) (dec (-33817497467645647) 20) (dec (-15128358360053269) 23) (dec 99270837461767865 26);
  q4 (dec 14327519466317273 16) (dec (-31511699158131792) 20) (dec 14121249374710892 23) (dec (-46331142202966785) 26);
  q4 (dec 13863679447957644 16) (dec (-30435770316715824) 20) (dec (-31931923806880576) 32) (dec 14060650061304406 34);
  q4 (dec 133998383083065 14) (dec (-30435770316651612) 20) (dec 7966033607573075 27) (dec (-20592849585406252) 30);
  q4 (dec 12935998289946873 16) (dec (-3043567099732192) 19) (dec 26759464791430721 23) (dec 79532670899682793 26);
  q4 (dec 12678309640034087 16) (dec (-23218497627662961) 20) (dec 12932797245688018 22) (dec (-64022851639652257) 25);
  q4 (dec 12575233475257157 16) (dec (-14692019758496432) 20) (dec 27793386094008701 23) (dec (-13221031141582609) 25);
  q4 (dec 12369082106810318 16) (dec (-15432650564450295) 20) (dec (-41561660535282944) 23) (dec 20915825708847127 25);
  q4 (dec 12111392175421505 16) (dec (-13527066252139129) 20) (dec 27587111871757377 27) (dec (-10861153182897769) 29);
  q4 (dec 11905242248635193 16) (dec (-13526982172580731) 20) (dec (-37724615394383567) 32) (dec (-36200093263837813) 30);
  q4 (dec 11699089758896835 16) (dec (-13527234416482633) 20) (dec (-66565880337019458) 23) (dec 29119264632570202 25);
  q4 (dec 11441401108984048 16) (dec (-1352700319122926) 19) (dec 68972539651960092 29) (dec (-18285422435446578) 35);
  q4 (dec 11235249740537208 16) (dec (-13526982169673253) 20) (dec 32188285491464637 29) (dec (-2111993765408538) 30);
  q4 (dec 11029098532274872 16) (dec (-1352698707448193) 19) (dec (-13839672102590843) 27) (dec 61244962939266731 30);
  q4 (dec 10822946202721015 16) (dec (-13526982169444492) 20) (dec 12727816803235839 27) (dec (-51837429264445486) 30);
  q4 (dec 106167961157502 14) (dec (-13526955414695674) 20) (dec (-35110018448219844) 28) (dec 11518641100696466 30);
  q4 (dec 10410644907487867 16) (dec (-13526982171273768) 20) (dec (-16552243166241476) 27) (dec 72407388048345834 30);
  q4 (dec 10204492417749507 16) (dec (-1352698216866037) 19) (dec 66568845841282511 23) (dec (-29120079184178396) 25);
  q4 (dec 10049878811322126 16) (dec (-13526877065619177) 20) (dec (-52596367131826176) 28) (dec 28353950578400574 31);
  q4 (dec 9843728083613299 16) (dec (-13527017623084662) 20) (dec (-64339445364335446) 29) (dec 13845811262273854 31);
  q4 (dec 96375762346129512 17) (dec (-13527027586362919) 20) (dec (-17324659961657764) 23) (dec 17280456451645593 25);
  q4 (dec 95345000698360227 17) (dec (-13236553866304202) 20) (dec 21535088037666034 22) (dec (-16706829471999383) 24);
  q4 (dec 94829626281855706 17) (dec (-10145239759358107) 20) (dec (-54512271379403953) 28) (dec 26935475705461215 30);
  q4 (dec 93283488615736876 17) (dec (-10145218233693008) 20) (dec 99819431363028697 33) (dec (-44001529671573088) 35);
  q4 (dec 9173735735699815 16) (dec (-10145218233716424) 20) (dec (-82761472648929411) 28) (dec 36203693846785249 30);
  q4 (dec 90191219690879321 17) (dec (-10145218233193731) 20) (dec 66568432020631638 23) (dec (-29119988664536253) 25);
  q4 (dec 89160458043110036 17) (dec (-10145176191062404) 20) (dec (-27586357327160171) 28) (dec (-22504686449201172) 35);
  q4 (dec 87614326784371321 17) (dec (-10145260275847599) 20) (dec (-10289329391996255) 32) (dec 45010073113706111 35);
  q4 (dec 86068189118252492 17) (dec (-10145260275847604) 20) (dec 27587386210299976 28) (dec (-22504336341549293) 35);
  q4 (dec 84522057859513766 17) (dec (-10145176191062475) 20) (dec 55474147400527951 23) (dec (-21840274342381549) 25);
  q4 (dec 83491302619124619 17) (dec (-84543651696908793) 21) (dec (-33285285018906811) 23) (dec 14560480820442318 25);
  q4 (dec 81945164953005778 17) (dec (-84543730528477534) 21) (dec 44379897245306677 23) (dec (-21840489299193583) 25);
  q4 (dec 80914408110771585 17) (dec (-1014523925484739) 19) (dec (-10345210864253506) 28) (dec 22627343794108152 31);
  q4 (dec 79368272046497779 17) (dec (-10145255020932411) 20) (dec (-44381345480431443) 24) (dec 29121391493060982 26);
  q4 (dec 77822134380378938 17) (dec (-94688990821243288) 21) (dec 35504662677061939 23) (dec (-11648556631957883) 25);
  q4 (dec 76791383945524871 17) (dec (-67634753185636984) 21) (dec (-64305407445393093) 33) (dec (-90505437223915958) 31);
  q4 (dec 75760627103290679 17) (dec (-67635383822506397) 21) (dec (-55475216411958377) 23) (dec 21840704264059539 25);
  q4 (dec 74214484631636746 17) (dec (-84543756805748787) 21) (dec 33285836766205565 23) (dec (-14560729722245644) 25);
  q4 (dec 7318373419678269 16) (dec (-84543730528477764) 21) (dec (-44380173119599053) 23) (dec 2184062506417146 24);
  q4 (dec 7163759653066385 16) (dec (-676349633998868) 19) (dec 20690346600019363 28) (dec (-90509093409794484) 31);
  q4 (dec 7060684129027468 16) (dec (-67634963400866837) 21) (dec (-64305140663362463) 34) (dec 28131149817877754 36);
  q4 (dec 69576084448040487 17) (dec (-67634963400866824) 21) (dec 20690410905160028 28) (dec (-90509093409794484) 31);
  q4 (dec 68545329207651318 17) (dec (-676349633998868) 19) (dec (-66569949327729042) 23) (dec 29120667488015072 25);
  q4 (dec 66999191541532499 17) (dec (-67635278715871927) 21) (dec 14483212723529929 27) (dec (-63356168967127304) 30);
  q4 (dec 65968441106678422 17) (dec (-67635278718158645) 21) (dec (-18105122548400472) 28) (dec 11879706301524368 30);
  q4 (dec 64937679458909137 17) (dec (-67635002816671645) 21) (dec 88927343543758245 38) (dec 16970586975745334 31);
  q4 (dec 63906922616674944 17) (dec (-67634884570237354) 21) (dec 68968465579106754 29) (dec (-33941174033182859) 31);
  q4 (dec 62876167376285785 17) (dec (-67634910847222946) 21) (dec (-80463209479170753) 29) (dec 30169932301479528 31);
  q4 (dec 61845410534051592 17) (dec (-6763494588320337) 20) (dec 14943167429350284 28) (dec (-60339864439576196) 31);
  q4 (dec 60814655293662423 17) (dec (-67634910847223136) 21) (dec (-93107428529570935) 28) (dec 40729408807142719 30);
  q4 (dec 59783892044048115 17) (dec (-67634910847222987) 21) (dec 8793479353310367 27) (dec (-37335291362978093) 30);
  q4 (dec 58753143211039061 17) (dec (-67634832016266237) 21) (dec (-4310529080575226) 28) (dec (-28284311797406303) 31);
  q4 (dec 57722386368804879 17) (dec (-67635160478583871) 21) (dec (-31035809571513085) 28) (dec 15273528328352898 30);
  q4 (dec 56691624721035594 17) (dec (-67635042232149715) 21) (dec 51726348853075717 29) (dec 58351275291180432 40);
  q4 (dec 55660867878801401 17) (dec (-67634884570237977) 21) (dec 10345269739490572 28) (dec (-5656862277789475) 30);
  q4 (dec 54630112638412232 17) (dec (-67634963401193128) 21) (dec (-10404499194619777) 36) (dec 33843739668884653 39);
  q4 (dec 53599355796178039 17) (dec (-67634963401193914) 21) (dec 52467132690817052 37) (dec 0 0);
  q4 (dec 52568598953943846 17) (dec (-67634963401192315) 21) (dec 66570225196020878 23) (dec (-29120803249618457) 25);
  q4 (dec 52053224537439335 17) (dec (-67634753188577652) 21) (dec (-10345194817847928) 27) (dec 45254547064341097 30);
  q4 (dec 51022462889670051 17) (dec (-6763475319021103) 20) (dec 80383471158105066 33) (dec (-31647164261823456) 35);
  q4 (dec 49991709251125915 17) (dec (-6763475318776099) 20) (dec (-53174315807562921) 28) (dec 21314919214208831 30);
  q4 (dec 48960950807046688 17) (dec (-67634888775312539) 21) (dec 30962712271830157 22) (dec (-31498836177001693) 24);
  q4 (dec 48960950807046688 17) (dec (-67635068509135606) 21) (dec (-17620902618690903) 22) (dec 13523119226388798 24);
  q4 (dec 47930190761122432 17) (dec (-67635204098299011) 21) (dec (-28965583158742094) 29) (dec 77385072566637756 31);
  q4 (dec 4689943231704321 16) (dec (-6763475318725956) 20) (dec 15518160486550987 28) (dec (-10182436101583344) 30);
  q4 (dec 45868678678499075 17) (dec (-67634989678179303) 21) (dec (-15517904761746252) 28) (dec 67882348066365718 31);
  q4 (dec 44837920234419854 17) (dec (-6763498967817914) 20) (dec 51726348853075717 29) (dec (-22627449188181586) 31);
  q4 (dec 43807163392185661 17) (dec (-67634989678179127) 21) (dec (-17242116245823183) 28) (dec 7919607198941496 30);
  q4 (dec 42776404948106439 17) (dec (-67634963401194036) 21) (dec 27587514905951715 28) (dec (-90510641469127968) 31);
  q4 (dec 41745651309562309 17) (dec (-67634753187270592) 21) (dec (-4138069363933981) 27) (dec 18101790743368287 30);
  q4 (dec 40714894467328111 17) (dec (-67634753187270592) 21) (dec 66569673448724728 23) (dec (-29120622229460732) 25);
  q4 (dec 40199516847133532 17) (dec (-67634963401193114) 21) (dec (-2069051839164017) 27) (dec 90509657374870169 31);
  q4 (dec 3916875840305431 16) (dec (-67634963401519798) 21) (dec 17242545364719455 29) (dec (-11313865494914968) 31);
  q4 (dec 38138001560820117 17) (dec (-67634989678178883) 21) (dec (-10345334247385578) 28) (dec 3394159632136214 30);
  q4 (dec 3710724311674089 16) (dec (-67635068508155731) 21) (dec 20690604024225635 28) (dec (-84393449453634273) 36);
  q4 (dec 3607648947819676 16) (dec (-67634437864425365) 21) (dec 5547385427508693 22) (dec (-21840127260988059) 25);
  q4 (dec 35561108654312118 17) (dec (-50726196273909853) 21) (dec (-33284560849211949) 23) (dec 14560175349611392 25);
  q4 (dec 34530355015767988 17) (dec (-50726196273909853) 21) (dec 44379207562149517 23) (dec (-21840127260987744) 25);
  q4 (dec 3401497419188334 16) (dec (-67634437864425365) 21) (dec (-31035488036027946) 28) (dec 67881504225233227 31);
  q4 (dec 32984220553339211 17) (dec (-67634910846243098) 21) (dec (-16642694201369868) 23) (dec 1092033513650147 24);
  q4 (dec 31953462109259984 17) (dec (-4227191787203361) 20) (dec 11094957139791198 23) (dec (-36400664880615688) 26);
  q4 (dec 3143808288722037 16) (dec (-33817481700678238) 21) (dec 13793661108202425 28) (dec (-67882102582548952) 31);
  q4 (dec 30922705267025796 17) (dec (-33817534253914537) 21) (dec (-55475009493859889) 23) (dec 21840568495248917 25);
  q4 (dec 29891946822946569 17) (dec (-50726222550936076) 21) (dec 35447962125492927 23) (dec (-15979582914401801) 25);
  q4 (dec 29376570804597019 17) (dec (-5402222129343241) 20) (dec (-24291447769808409) 23) (dec 10078171472315659 25);
  q4 (dec 28345812360517797 17) (dec (-57840596539353568) 21) (dec 68973495427166339 24) (dec 38352734590316814 26);
  q4 (dec 27830434740323218 17) (dec (-26796629049357541) 21) (dec 23315492259841788 22) (dec (-43125426051412313) 24);
  q4 (dec 27830434740323218 17) (dec (-338174550031193) 19) (dec (-17297299049289963) 28) (dec 79377118041956078 31);
  q4 (dec 27315055518283604 17) (dec (-33817429146626382) 21) (dec 13339101531563818 38) (dec (-58351275291180441) 41);
  q4 (dec 26799677898089019 17) (dec (-33817429146626382) 21) (dec 4891003894906733 36) (dec (-58351275291180441) 41);
  q4 (dec 26284300277894446 17) (dec (-33817429146624925) 21) (dec 66569742414616846 23) (dec (-29120622228616515) 25);
  q4 (dec 26284300277894446 17) (dec (-33817429146625976) 21) (dec (-20690539749764906) 28) (dec 90509797680511604 31);
  q4 (dec 25768921055854832 17) (dec (-33817429146625976) 21) (dec 7558824201219406 37) (dec (-46681020232943236) 40);
  q4 (dec 25253543435660247 17) (dec (-33817429146626084) 21) (dec (-13783738249282611) 37) (dec 46681020232944353 40);
  q4 (dec 24738165815465665 17) (dec (-33817429146626206) 21) (dec (-20690496796524064) 28) (dec 90509516018905783 31);
  q4 (dec 24222786593426054 17) (dec (-33817429147279567) 21) (dec 66569742415904421 23) (dec (-29120622229179519) 25);
  q4 (dec 24222786593426054 17) (dec (-33817429147278977) 21) (dec (-41380950911924954) 28) (dec 18101903286056452 30);
  q4 (dec 23707405769541409 17) (dec (-33817429147278977) 21) (dec 12861517233061907 33) (dec (-56262299635754834) 36);
  q4 (dec 2319202814934683 16) (dec (-33817429147278977) 21) (dec (-20690475514432207) 28) (dec 90509657339859402 31);
  q4 (dec 22676648927307216 17) (dec (-33817429146298919) 21) (dec 6656946654354165 22) (dec (-29120441210991009) 25);
  q4 (dec 22676648927307216 17) (dec (-3381700871975941) 20) (dec (-20690025247724369) 28) (dec (-12658842364219266) 35);
  q4 (dec 22161272908957669 17) (dec (-33817639360549318) 21) (dec (-38587219519492494) 33) (dec 16880265375159715 35);
  q4 (dec 21645892085073026 17) (dec (-33817639360548959) 21) (dec 16083284334697882 28) (dec (-15024408356984035) 31);
  q4 (dec 21130514464878442 17) (dec (-33817253828033263) 21) (dec 40094607323606274 22) (dec (-10565791242065742) 23);
  q4 (dec 21130498446428134 17) (dec (-33817429146626308) 21) (dec (-15884710280492889) 23) (dec 83317615810948705 26);
  q4 (dec 20615135242838833 17) (dec (-33817446594771904) 21) (dec 91865217090820547 29) (dec (-52766602825781079) 31);
  q4 (dec 20099757622644249 17) (dec (-33817534252926165) 21) (dec (-2368628705326964) 32) (dec 84744140618134269 36);
  q4 (dec 19584378400604638 17) (dec (-33817534254241038) 21) (dec 68968465681373198 29) (dec (-14065574908939045) 36);
  q4 (dec 19069000780410059 17) (dec (-33817324039337678) 21) (dec 66569604478543574 23) (dec (-29120576973998873) 25);
  q4 (dec 19069000780410059 17) (dec (-33817429146626016) 21) (dec (-20690539741316807) 28) (dec 90509797639665712 31);
  q4 (dec 18553621558370445 17) (dec (-33817429146626023) 21) (dec (-66695507657819079) 38) (dec 40845892703826309 40);
  q4 (dec 18038243938175866 17) (dec (-33817429146625908) 21) (dec 22676472603658217 37) (dec (-99197167995004383) 40);
  q4 (dec 17522866317981284 17) (dec (-33817429146625908) 21) (dec (-13793736100186927) 28) (dec 45255180353066955 31);
  q4 (dec 1700748709594167 16) (dec (-33817534253914937) 21) (dec 13793821804358576 28) (dec (-11252343224600384) 35);
  q4 (dec 1649211107759212 16) (dec (-33817113826066687) 21) (dec 66569328607681798 23) (dec (-29120486465046074) 25);
  q4 (dec 1649211107759212 16) (dec (-33817429145972236) 21) (dec (-41381122285586753) 28) (dec 18101959498757074 30);
  q4 (dec 15976730253707477 17) (dec (-33817429147278977) 21) (dec 12861517233061907 33) (dec (-56262299635754834) 36);
  q4 (dec 15461352633512898 17) (dec (-33817429147278977) 21) (dec (-20690475593133151) 28) (dec 90509657684134078 31);
  q4 (dec 14945973411473285 17) (dec (-33817429146298926) 21) (dec 66569466543541915 23) (dec (-29120441210990992) 25);
  q4 (dec 14945973411473285 17) (dec (-33817008719760975) 21) (dec (-31035214619128582) 28) (dec 67880554558229469 31);
  q4 (dec 14430597393123734 17) (dec (-33817481699861915) 21) (dec (-41381111437340114) 28) (dec 20364693822150613 30);
  q4 (dec 13915216569239092 17) (dec (-33817324039664945) 21) (dec 66569604478972797 23) (dec (-29120576974139605) 25);
  q4 (dec 13915216569239092 17) (dec (-3381742914662561) 20) (dec (-16184776524964291) 36) (dec 63602890067388188 39);
  q4 (dec 1339983894904451 16) (dec (-33817429146626104) 21) (dec (-22189914138204924) 23) (dec 14560311114307763 25);
  q4 (dec 1288446132884993 16) (dec 0 0) (dec 0 0) (dec 0 0);
  q4 (dec 1288446132884993 16) (dec 0 0) (dec 0 0) (dec 0 0);
  q4 (dec 1288446132884993 16) (dec 0 0) (dec (-82858260156904593) 23) (dec 3998556591432117 24);
  q4 (dec 12369082106810318 17) (dec (-18520007806444807) 21) (dec 46494398325800229 23) (dec (-22534227186569746) 25);
  q4 (dec 12369082106810318 17) (dec (-33817447435630604) 21) (dec (-1484199005121795) 27) (dec 60007935444937584 31);
  q4 (dec 11853702884770705 17) (dec (-3381748170051533) 20) (dec 32153904241834195 34) (dec 22627203418444646 31);
  q4 (dec 11338325264576124 17) (dec (-33817324039336472) 21) (dec 66569673447008872 23) (dec (-29120622228898224) 25);
  q4 (dec 11338325264576124 17) (dec (-33817534254567132) 21) (dec (-17340831991032754) 37) (dec 40845892703825332 40);
  q4 (dec 10822946042536513 17) (dec (-3381753425456741) 20) (dec (-23565746039095796) 37) (dec 1167025505823581 38);
  q4 (dec 103075668204969 15) (dec (-33817534254567315) 21) (dec 55474940524536281 23) (dec (-21840523240068882) 25);
  q4 (dec 103075668204969 15) (dec (-16908740850257465) 21) (dec (-33284819481039552) 23) (dec 14560288486893812 25);
  q4 (dec 97921892003023189 18) (dec (-16908740850257418) 21) (dec 33284922933578067 23) (dec (-14560333741722898) 25);
  q4 (dec 97921892003023189 18) (dec (-16908740850257418) 21) (dec (-3328504362863314) 22) (dec 14560390310468575 25);
  q4 (dec 92768099782627081 18) (dec (-16908714573149707) 21) (dec 33284871206987292 23) (dec (-14560311114167531) 25);
  q4 (dec 92768099782627081 18) (dec (-16908714573149707) 21) (dec (-3328466430223493) 22) (dec 14560220604652378 25);
  q4 (dec 87614339599131577 18) (dec (-16908714573149937) 21) (dec 33284871206987747 23) (dec (-1456031111416773) 24);
  q4 (dec 87614339599131577 18) (dec (-16908714573149937) 21) (dec (-33285060870831902) 23) (dec 14560390310469837 25);
  q4 (dec 82460547378735455 18) (dec (-16908740850257665) 21) (dec 3328492293357776 22) (dec (-14560333741722418) 25);
  q4 (dec 82460547378735455 18) (dec (-16908740850257665) 21) (dec (-39118278607946379) 23) (dec 18388017572790691 25);
  q4 (dec 77306771176789635 18) (dec (-80185491408511914) 22) (dec 78922758953577655 24) (dec (-17262209390237335) 26);
  q4 (dec 77306771176789635 18) (dec 40092698171773187 22) (dec 1542903074854954 22) (dec (-7324762898143525) 25);
  q4 (dec 78908616207542984 18) (dec 0 0) (dec (-87260489014994513) 23) (dec 3817169248250033 24);
  q4 (dec 72152978956393513 18) (dec 0 0) (dec 0 0) (dec 0 0);
  q4 (dec 72152978956393513 18) (dec 0 0) (dec 0 0) (dec 0 0);
  q4 (dec 72152978956393513 18) (dec 0 0) (dec (-66569742414619875) 23) (dec 29120622228618033 25);
  q4 (dec 6699920275444772 17) (dec 0 0) (dec 0 0) (dec 0 0);
  q4 (dec 6699920275444772 17) (dec 0 0) (dec 0 0) (dec 0 0);
  q4 (dec 6699920275444772 17) (dec 0 0) (dec (-84042354904700304) 23) (dec 41307791886470113 25);
  q4 (dec 61845410534051591 18) (dec 0 0) (dec 0 0) (dec 0 0);
  q4 (dec 61845410534051591 18) (dec 0 0) (dec 0 0) (dec 0 0);
  q4 (dec 61845410534051591 18) (dec 0 0) (dec 0 0) (dec 0 0);
  q4 (dec 61845410534051591 18) (dec 0 0) (dec (-66569949320013959) 23) (dec 29120712738413527 25);
  q4 (dec 56691618313655469 18) (dec 0 0) (dec 0 0) (dec 0 0);
  q4 (dec 56691618313655469 18) (dec 0 0) (dec 0 0) (dec 0 0);
  q4 (dec 56691618313655469 18) (dec 0 0) (dec 0 0) (dec 0 0);
  q4 (dec 56691618313655469 18) (dec 0 0) (dec (-6656974241462015) 22) (dec 29120622228618153 25);
  q4 (dec 51537842111709656 18) (dec 0 0) (dec 0 0) (dec 0 0);
  q4 (dec 51537842111709656 18) (dec 0 0) (dec 0 0) (dec 0 0);
  q4 (dec 51537842111709656 18) (dec 0 0) (dec 0 0) (dec 0 0);
  q4 (dec 51537842111709656 18) (dec 0 0) (dec (-66569949320013853) 23) (dec 29120712738413485 25);
  q4 (dec 4638404989131354 17) (dec 0 0) (dec 0 0) (dec 0 0);
  q4 (dec 4638404989131354 17) (dec 0 0) (dec 0 0) (dec 0 0);
  q4 (dec 4638404989131354 17) (dec 0 0) (dec 0 0) (dec 0 0);
  q4 (dec 4638404989131354 17) (dec 0 0) (dec 0 0) (dec 0 0);
  q4 (dec 4638404989131354 17) (dec 0 0) (dec (-66569742414616973) 23) (dec 29120622228616069 25);
  q4 (dec 41230273689367727 18) (dec 0 0) (dec 0 0) (dec 0 0);
  q4 (dec 41230273689367727 18) (dec 0 0) (dec 0 0) (dec 0 0);
  q4 (dec 41230273689367727 18) (dec 0 0) (dec 0 0) (dec 0 0);
  q4 (dec 41230273689367727 18) (dec 0 0) (dec 0 0) (dec 0 0);
  q4 (dec 41230273689367727 18) (dec 0 0) (dec (-66569742414616973) 23) (dec 29120622228616069 25);
  q4 (dec 36076497487421914 18) (dec 0 0) (dec 0 0) (dec 0 0);
  q4 (dec 36076497487421914 18) (dec 0 0) (dec 0 0) (dec 0 0);
  q4 (dec 36076497487421914 18) (dec 0 0) (dec 0 0) (dec 0 0);
  q4 (dec 36076497487421914 18) (dec 0 0) (dec 0 0) (dec 0 0);
  q4 (dec 36076497487421914 18) (dec 0 0) (dec 0 0) (dec 0 0);
  q4 (dec 36076497487421914 18) (dec 0 0) (dec (-66569949320017072) 23) (dec 29120712738415582 25);
  q4 (dec 30922705267025796 18) (dec 0 0) (dec 0 0) (dec 0 0);
  q4 (dec 30922705267025796 18) (dec 0 0) (dec 0 0) (dec 0 0);
  q4 (dec 30922705267025796 18) (dec 0 0) (dec 0 0) (dec 0 0);
  q4 (dec 30922705267025796 18) (dec 0 0) (dec 0 0) (dec 0 0);
  q4 (dec 30922705267025796 18) (dec 0 0) (dec 0 0) (dec 0 0);
  q4 (dec 30922705267025796 18) (dec 0 0) (dec 0 0) (dec 0 0);
  q4 (dec 30922705267025796 18) (dec 0 0) (dec 0 0) (dec 0 0);
  q4 (dec 30922705267025796 18) (dec 0 0) (dec (-66569949320017072) 23) (dec 29120712738415582 25);
  q4 (dec 25768913046629677 18) (dec 0 0) (dec 0 0) (dec 0 0);
  q4 (dec 25768913046629677 18) (dec 0 0) (dec 0 0) (dec 0 0);
  q4 (dec 25768913046629677 18) (dec 0 0) (dec 0 0) (dec 0 0);
  q4 (dec 25768913046629677 18) (dec 0 0) (dec 0 0) (dec 0 0);
  q4 (dec 25768913046629677 18) (dec 0 0) (dec 0 0) (dec 0 0);
  q4 (dec 25768913046629677 18) (dec 0 0) (dec 0 0) (dec 0 0);
  q4 (dec 25768913046629677 18) (dec 0 0) (dec 0 0) (dec 0 0);
  q4 (dec 25768913046629677 18) (dec 0 0) (dec 0 0) (dec 0 0);
  q4 (dec 25768913046629677 18) (dec 0 0) (dec (-66569742414616973) 23) (dec 29120622228616069 25);
  q4 (dec 20615136844683864 18) (dec 0 0) (dec 0 0) (dec 0 0);
  q4 (dec 20615136844683864 18) (dec 0 0) (dec 0 0) (dec 0 0);
  q4 (dec 20615136844683864 18) (dec 0 0) (dec 0 0) (dec 0 0);
  q4 (dec 20615136844683864 18) (dec 0 0) (dec 0 0) (dec 0 0);
  q4 (dec 20615136844683864 18) (dec 0 0) (dec 62857859593334151 25) (dec (-27496876462525612) 27);
  q4 (dec 20663800896718147 18) (dec 0 0) (dec (-62857859593337137) 25) (dec 27496876462527576 27);
  q4 (dec 20615136844683864 18) (dec 0 0) (dec 0 0) (dec 0 0);
  q4 (dec 20615136844683864 18) (dec 0 0) (dec 0 0) (dec 0 0);
  q4 (dec 20615136844683864 18) (dec 0 0) (dec 0 0) (dec 0 0)].
(** L930-1139 *)
Definition MIL_SPEC_210A_Cold_akima_dT : list coefD := [
  q4 (dec 24241761446485939 18) (dec 35879701389024819 22) (dec 0 0) (dec 0 0);
  q4 (dec 24241761446485939 18) (dec 35879701389024819 22) (dec (-16438575396841325) 37) (dec (-51494118870624003) 27);
  q4 (dec 2460629921259843 17) (dec 22765399947199568 35) (dec (-24647578682992269) 37) (dec 53909839639092245 40);
  q4 (dec 24606299212598427 18) (dec (-1479750996567957) 34) (dec (-33387718776294374) 37) (dec 16516967989038712 39);
  q4 (dec 24606299212598385 18) (dec (-14775364634960667) 36) (dec 4123107492203265 23) (dec (-16755687329567076) 26);
  q4 (dec 24970836978710945 18) (dec 89232445968856316 23) (dec (-10664098709394383) 24) (dec 34739201317812735 27);
  q4 (dec 24982108508432417 18) (dec 62440230262761633 24) (dec (-84964776498069208) 25) (dec 46330780008047746 30);
  q4 (dec 24794451241483429 18) (dec (-25240579546671505) 22) (dec (-82247387361860111) 22) (dec 5793725746608705 23);
  q4 (dec (-34694469519536142) 34) (dec (-28486170920496395) 38) (dec 31462647165138731 37) (dec (-36381936837496901) 39);
  q4 (dec 0 0) (dec 0 0) (dec 0 0) (dec 0 0);
  q4 (dec 0 0) (dec 0 0) (dec 0 0) (dec 0 0);
  q4 (dec 0 0) (dec 0 0) (dec 0 0) (dec 0 0);
  q4 (dec 0 0) (dec 0 0) (dec 0 0) (dec 0 0);
  q4 (dec 0 0) (dec 0 0) (dec 0 0) (dec 0 0);
  q4 (dec 0 0) (dec 0 0) (dec 0 0) (dec 0 0);
  q4 (dec 0 0) (dec 0 0) (dec 0 0) (dec 0 0);
  q4 (dec 0 0) (dec 0 0) (dec 0 0) (dec 0 0);
  q4 (dec 0 0) (dec 0 0) (dec 0 0) (dec 0 0);
  q4 (dec 0 0) (dec 0 0) (dec 0 0) (dec 0 0);
  q4 (dec 0 0) (dec 0 0) (dec 0 0) (dec 0 0);
  q4 (dec 0 0) (dec 0 0) (dec 0 0) (dec 0 0);
  q4 (dec 0 0) (dec 0 0) (dec 0 0) (dec 0 0);
  q4 (dec 0 0) (dec 0 0) (dec 0 0) (dec 0 0);
  q4 (dec 0 0) (dec 0 0) (dec 0 0) (dec 0 0);
  q4 (dec 0 0) (dec 0 0) (dec (-30363001252021694) 22) (dec 25931542885203312 24);
  q4 (dec (-61669922838593098) 19) (dec (-18560944441825198) 23) (dec 27019824495206976 24) (dec (-11819695754683704) 26);
  q4 (dec (-59860938435327181) 19) (dec (-18560944441824676) 23) (dec (-12815138585552913) 25) (dec 82697669671686414 28);
  q4 (dec (-60148731408574251) 19) (dec 26124412390382971 35) (dec 90529559309722793 38) (dec (-39558779994547838) 40);
  q4 (dec (-60148731408573783) 19) (dec 26154340166601451 35) (dec (-60091204227123542) 37) (dec 26943781422926333 39);
  q4 (dec (-60148731408573826) 19) (dec 30733289928732622 35) (dec 23543111147609394 24) (dec (-10298823774102145) 26);
  q4 (dec (-58326042578012516) 19) (dec 39270314908815298 34) (dec (-37154697121989328) 36) (dec 10265146324619325 38);
  q4 (dec (-58326042578011527) 19) (dec (-24524544488610742) 35) (dec (-18050864998627521) 36) (dec 15792532807327075 39);
  q4 (dec (-58326042578015535) 19) (dec (-4646768366142473) 33) (dec (-58857777869014506) 24) (dec 24888824120759531 26);
  q4 (dec (-63186546126177828) 19) (dec (-59799502315115449) 23) (dec 51010074153264208 24) (dec (-22314118177279296) 26);
  q4 (dec (-60148731408573219) 19) (dec (-59799502315006987) 23) (dec (-15695407431770525) 24) (dec 77241178305948199 27);
  q4 (dec (-61971420239135544) 19) (dec (-26109068064436398) 35) (dec 92148333939815171 37) (dec (-47508046181946986) 39);
  q4 (dec (-61971420239135483) 19) (dec (-76264089823124007) 35) (dec (-15956421461481262) 38) (dec 10470092822481086 40);
  q4 (dec (-61971420239136646) 19) (dec (-73832331192403441) 35) (dec (-38046446066220243) 37) (dec 25878208146315198 39);
  q4 (dec (-61971420239137738) 19) (dec (-94855833113348347) 36) (dec 98515046110214543 38) (dec (-31152972871079452) 40);
  q4 (dec (-61971420239137764) 19) (dec (-11647413926475561) 36) (dec (-22059496072869831) 38) (dec 1458870924694311 39);
  q4 (dec (-61971420239137782) 19) (dec 22765399947201296 36) (dec 10228343495658881 51) (dec (-31873201237498298) 54);
  q4 (dec (-61971420239137747) 19) (dec 22765399947202187 36) (dec 80957931143246442 53) (dec (-259131717378038) 53);
  q4 (dec (-61971420239137712) 19) (dec 2276539994720225 35) (dec 76872400861492948 26) (dec (-50441207914380265) 28);
  q4 (dec (-6197142023913773) 18) (dec (-11715353891299464) 23) (dec (-14157959414531767) 24) (dec 46449998079168917 27);
  q4 (dec (-63794109069699543) 19) (dec (-11959900463005554) 22) (dec (-29647695831019112) 25) (dec 19453868655517644 27);
  q4 (dec (-65616797900261824) 19) (dec (-74415916183629658) 23) (dec 9765868265559459 24) (dec (-32040250215078833) 27);
  q4 (dec (-6561679790026244) 18) (dec 11382699973592743 35) (dec (-47745810446412247) 38) (dec 31329271946500883 40);
  q4 (dec (-65616797900262267) 19) (dec 18659161485651092 35) (dec 28214879775530125 37) (dec (-13315107163268718) 39);
  q4 (dec (-65616797900261798) 19) (dec 11882070036959112 35) (dec (-12285482017375535) 36) (dec 51728159180099484 39);
  q4 (dec (-6561679790026264) 18) (dec (-21516787450097432) 36) (dec 35591757166435021 37) (dec (-16546678863604866) 39);
  q4 (dec (-65616797900262432) 19) (dec (-89607605266633103) 36) (dec (-93029480788899525) 38) (dec 48164703443979704 40);
  q4 (dec (-65616797900262614) 19) (dec (-37562909912883654) 36) (dec 51603746002963349 39) (dec 53464303774311524 42);
  q4 (dec (-65616797900262657) 19) (dec (-18108840867092709) 36) (dec 10006266537970886 38) (dec 12310859421715931 41);
  q4 (dec (-65616797900262657) 19) (dec 20968131530317825 36) (dec 24215165021889151 37) (dec (-99307599335174959) 40);
  q4 (dec (-65616797900262414) 19) (dec 67098020897016719 36) (dec (-14938586043884862) 37) (dec 56880498411154624 40);
  q4 (dec (-65616797900262458) 19) (dec 80977597127629274 37) (dec 16862813644421892 37) (dec (-55324191746810401) 40);
  q4 (dec (-65616797900262249) 19) (dec 13659239968312158 35) (dec 17405740014935841 25) (dec (-11421089248674018) 27);
  q4 (dec (-65616797900263047) 19) (dec (-26526347782946558) 23) (dec (-12214259428764001) 24) (dec 40073029621954163 27);
  q4 (dec (-67439486730825312) 19) (dec (-1195990046299543) 21) (dec (-31344963434686344) 25) (dec 20567561308899243 27);
  q4 (dec (-69262175561384046) 19) (dec (-71829280355144906) 23) (dec 9426414744712445 24) (dec (-30926557561317261) 27);
  q4 (dec (-69262175561388027) 19) (dec 87077654797635891 35) (dec 79481869400071384 37) (dec (-52153457611417827) 39);
  q4 (dec (-692621755613867) 17) (dec (-34052714166834491) 35) (dec (-64643070710230496) 37) (dec 33554033993264604 39);
  q4 (dec (-69262175561387532) 19) (dec 27105884762038471 36) (dec 24179678651399213 38) (dec (-7932965436810838) 40);
  q4 (dec (-69262175561387463) 19) (dec 45530799894404235 36) (dec (-89627558847252786) 38) (dec 39207156101160571 40);
  q4 (dec (-69262175561387463) 19) (dec 45530799894404451 36) (dec 48384976939481165 22) (dec (-49222748112352623) 24);
  q4 (dec 43368086899420177 34) (dec 0 0) (dec (-17241374047255296) 37) (dec 13231856799784512 39);
  q4 (dec 0 0) (dec 0 0) (dec 0 0) (dec 0 0);
  q4 (dec 0 0) (dec 0 0) (dec 0 0) (dec 0 0);
  q4 (dec 0 0) (dec 0 0) (dec 0 0) (dec 0 0);
  q4 (dec 0 0) (dec 0 0) (dec 0 0) (dec 0 0);
  q4 (dec 0 0) (dec 0 0) (dec 0 0) (dec 0 0);
  q4 (dec 0 0) (dec 0 0) (dec 0 0) (dec 0 0);
  q4 (dec 0 0) (dec 0 0) (dec 0 0) (dec 0 0);
  q4 (dec 0 0) (dec 0 0) (dec 0 0) (dec 0 0);
  q4 (dec 0 0) (dec 0 0) (dec 0 0) (dec 0 0);
  q4 (dec 0 0) (dec 0 0) (dec 0 0) (dec 0 0);
  q4 (dec 0 0) (dec 0 0) (dec 0 0) (dec 0 0);
  q4 (dec 0 0) (dec 0 0) (dec 0 0) (dec 0 0);
  q4 (dec 0 0) (dec 0 0) (dec 0 0) (dec 0 0);
  q4 (dec 0 0) (dec 0 0) (dec 0 0) (dec 0 0);
  q4 (dec 0 0) (dec 0 0) (dec 0 0) (dec 0 0);
  q4 (dec 0 0) (dec 0 0) (dec 0 0) (dec 0 0);
  q4 (dec 0 0) (dec 0 0) (dec 0 0) (dec 0 0);
  q4 (dec 0 0) (dec 0 0) (dec 0 0) (dec 0 0);
  q4 (dec 0 0) (dec 0 0) (dec 0 0) (dec 0 0);
  q4 (dec 0 0) (dec 0 0) (dec 0 0) (dec 0 0);
  q4 (dec 0 0) (dec 0 0) (dec 0 0) (dec 0 0);
  q4 (dec 0 0) (dec 0 0) (dec 0 0) (dec 0 0);
  q4 (dec 0 0) (dec 0 0) (dec 0 0) (dec 0 0);
  q4 (dec 0 0) (dec 0 0) (dec (-20173314094325583) 21) (dec 35866267731165543 23);
  q4 (dec (-94548700144470414) 19) (dec (-27767175524717532) 23) (dec 31449170630378172 24) (dec (-13740811032015801) 26);
  q4 (dec (-9253126848240565) 18) (dec (-26618792415653928) 23) (dec 41071275353707336 25) (dec (-27520100050096874) 27);
  q4 (dec (-92957130358704947) 19) (dec (-93186116819414745) 23) (dec (-34194260292566641) 24) (dec 16150542949637688 26);
  q4 (dec (-96602508019829683) 19) (dec (-10101267282917853) 23) (dec 21729655288969511 24) (dec (-86739755638111174) 27);
  q4 (dec (-94779819189267939) 19) (dec 47839601852049021 23) (dec (-10463604954510028) 25) (dec (-1373176503216725) 26);
  q4 (dec (-94779819189267558) 19) (dec (-79732669753349665) 23) (dec (-36622617340819552) 24) (dec 17164706290221395 26);
  q4 (dec (-98425196850394029) 19) (dec 59605265205251559 49) (dec 11203444855905862 37) (dec (-49008945126448302) 40);
  q4 (dec (-98425196850393942) 19) (dec 0 0) (dec 0 0) (dec 0 0);
  q4 (dec (-98425196850393942) 19) (dec 0 0) (dec 0 0) (dec 0 0);
  q4 (dec (-98425196850393942) 19) (dec 0 0) (dec 0 0) (dec 0 0);
  q4 (dec (-98425196850393942) 19) (dec 0 0) (dec (-84175215684144204) 36) (dec 60035957779966417 38);
  q4 (dec (-98425196850392242) 19) (dec 16174816662502388 33) (dec 1438745681243442 22) (dec (-48061177612521648) 26);
  q4 (dec (-8202099737532895) 18) (dec 10365247067942314 21) (dec 13365862245901913 24) (dec (-10486721446538153) 26);
  q4 (dec (-66831923787304317) 19) (dec 71322996153688027 22) (dec (-1171430392203132) 22) (dec 42723996391390665 26);
  q4 (dec (-68047049674345942) 19) (dec 11960198538364537 22) (dec 5239050513209101 24) (dec (-24156576227466501) 27);
  q4 (dec (-6586255369764888) 18) (dec 11097179246200647 22) (dec (-13747280058063494) 24) (dec 48952119117258705 27);
  q4 (dec (-65631541794095678) 19) (dec 33039747324892492 23) (dec 31246609729424058 23) (dec (-23131566346127115) 25);
  q4 (dec (-63922673169288713) 19) (dec 11698858615796686 21) (dec 10600288670463418 22) (dec (-5795326527207943) 24);
  q4 (dec 31968674678599807 20) (dec 29427502804808042 23) (dec (-45154831054271398) 24) (dec 19330429484752957 26);
  q4 (dec (-16263032587282567) 35) (dec 10263581297990816 37) (dec 753719230956139 38) (dec (-47701264253619019) 42);
  q4 (dec 0 0) (dec 0 0) (dec 0 0) (dec 0 0);
  q4 (dec 0 0) (dec 0 0) (dec 0 0) (dec 0 0);
  q4 (dec 0 0) (dec 0 0) (dec 0 0) (dec 0 0);
  q4 (dec 0 0) (dec 0 0) (dec 0 0) (dec 0 0);
  q4 (dec 0 0) (dec 0 0) (dec 0 0) (dec 0 0);
  q4 (dec 0 0) (dec 0 0) (dec 0 0) (dec 0 0);
  q4 (dec 0 0) (dec 0 0) (dec 0 0) (dec 0 0);
  q4 (dec 0 0) (dec 0 0) (dec 0 0) (dec 0 0);
  q4 (dec 0 0) (dec 0 0) (dec 0 0) (dec 0 0);
  q4 (dec 0 0) (dec 0 0) (dec 0 0) (dec 0 0);
  q4 (dec 0 0) (dec 0 0) (dec 0 0) (dec 0 0);
  q4 (dec 0 0) (dec 0 0) (dec 0 0) (dec 0 0);
  q4 (dec 0 0) (dec 0 0) (dec 0 0) (dec 0 0);
  q4 (dec 0 0) (dec 0 0) (dec 0 0) (dec 0 0);
  q4 (dec 0 0) (dec 0 0) (dec 0 0) (dec 0 0);
  q4 (dec 0 0) (dec 0 0) (dec 0 0) (dec 0 0);
  q4 (dec 0 0) (dec 0 0) (dec 0 0) (dec 0 0);
  q4 (dec 0 0) (dec 0 0) (dec 0 0) (dec 0 0);
  q4 (dec 0 0) (dec 0 0) (dec 0 0) (dec 0 0);
  q4 (dec 0 0) (dec 0 0) (dec 10946624441900604 22) (dec (-57719800202398644) 25);
  q4 (dec 58326042578010261 19) (dec 12025287966327249 22) (dec (-76938304636765288) 25) (dec (-12911971004684778) 28);
  q4 (dec 58326042578010617 19) (dec (-12325178306004355) 22) (dec (-28825413521045416) 26) (dec 18030579163705271 28);
  q4 (dec 56444557333559468 19) (dec (-11947455197174185) 22) (dec 1648849520890091 25) (dec 5255944603278294 28);
  q4 (dec 54680664916886799 19) (dec (-11078665939419759) 22) (dec 20451437230763253 24) (dec (-86495875270663605) 27);
  q4 (dec 54680664916886782 19) (dec (-90106584608435763) 23) (dec (-15830576816898809) 24) (dec 68381209811993222 27);
  q4 (dec 52051094074372622 19) (dec (-96160895706607071) 23) (dec (-50132419649856512) 26) (dec 159939161252996 25);
  q4 (dec 51035287255760025 19) (dec 20153476828285976 35) (dec 13276634328054145 37) (dec (-56267642512441179) 40);
  q4 (dec 51035287255760441 19) (dec 21414895437402878 35) (dec (-31892099493854258) 38) (dec (-26641087805008066) 41);
  q4 (dec 51035287255760684 19) (dec 98379049771818339 36) (dec (-6158721108787336) 24) (dec 13776666760888151 27);
  q4 (dec 50092517170986037 19) (dec (-91725752659318529) 23) (dec (-22871250663080255) 24) (dec 11321358595943911 26);
  q4 (dec 47389909594632148 19) (dec (-54677612373190068) 36) (dec 277196343954607 36) (dec (-68991759061897678) 41);
  q4 (dec 47389909594632105 19) (dec (-18259747874309781) 36) (dec 20228442100935483 38) (dec (-10312298870356622) 40);
  q4 (dec 47389909594632088 19) (dec (-28456749934009451) 36) (dec (-18311308670372761) 24) (dec 68658825160742414 27);
  q4 (dec 45567220764071679 19) (dec (-79732669753351423) 23) (dec 15695407431751391 24) (dec (-68658825160766609) 27);
  q4 (dec 4556722076407089 18) (dec (-79732669753340295) 23) (dec (-31390814863565813) 24) (dec 13731765032180314 26);
  q4 (dec 4192184310294435 18) (dec (-79732669753380254) 23) (dec 15695407431776458 24) (dec (-68658825160874492) 27);
  q4 (dec 41921843102945095 19) (dec (-7973266975336813) 22) (dec (-13079506193133671) 24) (dec 68658825160808576 27);
  q4 (dec 4009915427238336 18) (dec (-19919724953789098) 35) (dec 44813779423606116 37) (dec (-19603578050572365) 39);
  q4 (dec 40099154272383404 19) (dec (-19919724953797435) 35) (dec (-39602250414852931) 50) (dec 54728618710242933 53);
  q4 (dec 400991542723831 17) (dec (-199197249538057) 33) (dec (-20091184952873809) 38) (dec (-94636487051875953) 40);
  q4 (dec 40099154272382415 19) (dec (-91983648192742316) 35) (dec (-25273184884319665) 24) (dec 95652387643961556 27);
  q4 (dec 37614982490633353 19) (dec (-10384685562046524) 22) (dec 35964485555234273 25) (dec (-11692892664558682) 27);
  q4 (dec 3645377661125803 18) (dec (-75699999267950549) 23) (dec 15563574665771119 24) (dec (-69530072918360131) 27);
  q4 (dec 36453776611257531 19) (dec (-85788879370551172) 23) (dec (-2191453015736315) 20) (dec 83753162870638978 23);
  q4 (dec 14181103029538835 19) (dec (-29489453702811958) 21) (dec 75507497729472178 24) (dec 19717499421264521 26);
  q4 (dec (-70058719965178915) 20) (dec 18759749693424582 22) (dec 18787377892578186 24) (dec (-10910827390220189) 26);
  q4 (dec (-36453776611249279) 20) (dec 10924210118517195 36) (dec 5269794746501405 38) (dec (-40262295870875288) 41);
  q4 (dec (-36453776611249133) 20) (dec (-10671281225251126) 37) (dec (-11173648460014265) 40) (dec 73317903280932188 43);
  q4 (dec (-36453776611249149) 20) (dec (-89684171999451377) 38) (dec 1453542682668256 38) (dec (-5676272072009287) 41);
  q4 (dec (-36453776611249149) 20) (dec (-4215156083974155) 37) (dec (-10383164601146571) 37) (dec 44114320913595873 40);
  q4 (dec (-36453776611250005) 20) (dec (-95237836206945424) 37) (dec 12406604205844752 37) (dec (-4070408204017654) 39);
  q4 (dec (-3645377661124871) 19) (dec 85014540427820973 36) (dec (-74689632372681791) 38) (dec (-13049873287157684) 52);
  q4 (dec (-36453776611249149) 20) (dec (-14263945904420626) 35) (dec (-19619259289719488) 24) (dec 77241178305984569 27);
  q4 (dec (-54680664916882183) 20) (dec (-59799502315069879) 23) (dec 3923851857940938 24) (dec 74956046721384641 40);
  q4 (dec (-54680664916887062) 20) (dec 5979950231502326 22) (dec 15695407431762071 24) (dec (-77241178305913431) 27);
  q4 (dec (-36453776611268659) 20) (dec 19848583078962206 35) (dec (-11168434090725872) 37) (dec 24427896086446178 40);
  q4 (dec (-36453776611267364) 20) (dec 28278895246918947 36) (dec 14093240174884079 25) (dec (-9247532923154638) 27);
  q4 (dec (-36453776611267797) 20) (dec (-21485298548284607) 23) (dec (-1287581444642749) 23) (dec 42243485716631804 27);
  q4 (dec (-54680664916886812) 20) (dec (-11959900463002183) 22) (dec (-31951987644963815) 25) (dec 20965871158123698 27);
  q4 (dec (-72907553222498363) 20) (dec (-70904175459018753) 23) (dec 93050099027632774 25) (dec (-30528247712493901) 27);
  q4 (dec (-72907553222498309) 20) (dec (-75125819825747208) 35) (dec (-13806894637965887) 37) (dec 9059642150887296 39);
  q4 (dec (-72907553222509758) 20) (dec (-54084112397550801) 35) (dec 17403637119200908 38) (dec 41947645404373253 40);
  q4 (dec (-72907553222516111) 20) (dec (-19551505461805484) 35) (dec 2107246236981518 36) (dec (-42144558762457595) 40);
  q4 (dec (-72907553222515689) 20) (dec 15312177627709005 35) (dec 49455153369631976 37) (dec (-23330151337424339) 39);
  q4 (dec (-72907553222510127) 20) (dec 34933363803366245 36) (dec (-80426368164862212) 37) (dec 34636718310834461 39);
  q4 (dec (-72907553222516014) 20) (dec (-30700178364713897) 37) (dec 12220009619806302 37) (dec (-59871008040930861) 40);
  q4 (dec (-72907553222515342) 20) (dec (-47769023739787953) 36) (dec (-15090313192035188) 39) (dec 72863604138246198 42);
  q4 (dec (-72907553222516079) 20) (dec (-47291613453370499) 36) (dec 21910622028708671 39) (dec (-67957528115753178) 42);
  q4 (dec (-72907553222516773) 20) (dec (-45348351573649262) 36) (dec 15000895016193653 37) (dec (-33879077569768894) 40);
  q4 (dec (-72907553222515179) 20) (dec 17581873112288234 35) (dec 4622566306096647 35) (dec (-2057025388956072) 37);
  q4 (dec (-72907553222477947) 20) (dec (-67392567234786794) 36) (dec (-4296110893289941) 35) (dec 18429970236806362 38);
  q4 (dec (-7290755322251352) 19) (dec (-32043660416647419) 35) (dec (-14095714376041547) 38) (dec 5134144357041069 39);
  q4 (dec (-72907553222516914) 20) (dec (-56671276586719629) 37) (dec (-32777775684634841) 38) (dec 27929721796232988 40);
  q4 (dec (-72907553222516773) 20) (dec 89032916646379777 36) (dec 66521384539347826 38) (dec (-15514514182693158) 40);
  q4 (dec (-7290755322251442) 19) (dec 18368918184516362 35) (dec 36598368287564685 37) (dec (-17098327044894001) 39);
  q4 (dec (-72907553222509172) 20) (dec 10784252621147125 35) (dec (-92044549967180289) 37) (dec 36333662658806888 39);
  q4 (dec (-72907553222516046) 20) (dec (-16604457028498454) 35) (dec 10736916247140258 37) (dec 12043112195909 39);
  q4 (dec (-72907553222516079) 20) (dec 16205576822839941 35) (dec 75658077463918998 37) (dec (-37018244821029869) 39);
  q4 (dec (-7290755322250914) 19) (dec (-11121664017475696) 35) (dec (-40784966889556507) 37) (dec 16633195431500052 39);
  q4 (dec (-7290755322251442) 19) (dec (-19538661559307921) 35) (dec (-8187005607497016) 37) (dec 70458170761395201 40);
  q4 (dec (-72907553222516805) 20) (dec 46006822733373402 36) (dec 65924735070325683 39) (dec (-26928892632945344) 41);
  q4 (dec (-72907553222516046) 20) (dec 47337362062052213 36) (dec (-94681729271101279) 40) (dec 14975016309193343 42);
  q4 (dec (-72907553222515342) 20) (dec 45494881358249228 36) (dec (-15050883710360629) 37) (dec 59567388319367116 40);
  q4 (dec (-72907553222516035) 20) (dec 17933053461791592 37) (dec 78571373385482994 37) (dec (-34939559260500081) 39);
  q4 (dec (-72907553222510127) 20) (dec (-37844687534779657) 36) (dec (-558728792424585) 35) (dec 22761712072128695 39);
  q4 (dec (-72907553222515623) 20) (dec (-15487586151580903) 35) (dec 73743708443339976 38) (dec 45107700124376053 41);
  q4 (dec (-72907553222516111) 20) (dec 10132478033670894 35) (dec 69307039498689436 37) (dec (-31982029092208202) 39);
  q4 (dec (-7290755322250979) 19) (dec (-14617451769196725) 36) (dec (-68390681893042922) 37) (dec 30097952161698312 39);
  q4 (dec (-72907553222515244) 20) (dec (-20219956719160643) 37) (dec 58096839351478761 40) (dec 18306444734185219 42);
  q4 (dec (-72907553222515255) 20) (dec 10243392670653986 37) (dec 33414402492608575 39) (dec (-17146642184749745) 41);
  q4 (dec (-72907553222515222) 20) (dec (-73826473885383704) 38) (dec (-36864526194509354) 37) (dec 14480580268109761 39);
  q4 (dec (-7290755322251867) 19) (dec (-11540157724395278) 35) (dec 72813729045406097 38) (dec 68362851650603706 42);
  q4 (dec (-72907553222518713) 20) (dec 11129800644250484 35) (dec 30534937240618829 37) (dec (-14965004935072678) 39);
  q4 (dec (-72907553222515222) 20) (dec (-71794552585786029) 38) (dec (-11621185681757883) 39) (dec 45904923113716613 42);
  q4 (dec (-72907553222515244) 20) (dec (-10615527404847316) 37) (dec 45949342799833735 40) (dec (-1507524370073557) 41);
  q4 (dec (-72907553222515255) 20) (dec (-71141874835019481) 38) (dec (-24429733921909709) 37) (dec 64120036540452612 40);
  q4 (dec (-7290755322251867) 19) (dec (-2985587347242254) 34) (dec (-21581185218674316) 24) (dec 901147080235754 25);
  q4 (dec (-91134441528140282) 20) (dec (-29899751157526353) 23) (dec 23543111147654486 24) (dec (-38620589152980891) 27);
  q4 (dec (-54680664916893686) 20) (dec 41859651620525854 22) (dec 0 0) (dec 0 0)].
Definition MIL_SPEC_210A_Cold_D : tableD := {| t_alt := MIL_SPEC_210A_Cold_alt; t_T := MIL_SPEC_210A_Cold_akima_T; t_P := MIL_SPEC_210A_Cold_akima_P; t_rho := MIL_SPEC_210A_Cold_akima_rho; t_dT := MIL_SPEC_210A_Cold_akima_dT |}.
Definition MIL_SPEC_210A_Cold : tableQ := tableQ_of MIL_SPEC_210A_Cold_D.

(** MIL_SPEC_210A_Hot.py *)
(** L237-288 *)
Definition MIL_SPEC_210A_Hot_alt : list decimal := [dec 0 0; dec 1524 1; dec 3048 1; dec 45720000000000005 14; dec 6096 1; dec 762 0; dec 9144000000000001 13; dec 10668 1; dec 12192 1; dec 13716000000000001 13; dec 1524 0; dec 16764 1; dec 18288000000000002 13; dec 19812 1; dec 21336 1; dec 2286 0; dec 24384 1; dec 25908 1; dec 27432000000000003 13; dec 28956000000000004 13; dec 3048 0; dec 32004 1; dec 33528 1; dec 35052000000000003 13; dec 36576000000000004 13; dec 3810 0; dec 39624 1; dec 41148 1; dec 42672 1; dec 44196 1; dec 4572 0; dec 4724400000000001 12; dec 48768 1; dec 50292 1; dec 51816 1; dec 5334 0; dec 5486400000000001 12; dec 56388 1; dec 5791200000000001 12; dec 59436 1; dec 6096 0; dec 6248400000000001 12; dec 64008 1; dec 6553200000000001 12; dec 67056 1; dec 6858 0; dec 7010400000000001 12; dec 71628 1; dec 7315200000000001 12; dec 74676 1; dec 7620 0; dec 7772400000000001 12; dec 79248 1; dec 8077200000000001 12; dec 82296 1; dec 8382 0; dec 85344 1; dec 8686800000000001 12; dec 88392 1; dec 89916 1; dec 9144 0; dec 92964 1; dec 9448800000000001 12; dec 96012 1; dec 97536 1; dec 9906 0; dec 100584 1; dec 10210800000000001 12; dec 103632 1; dec 105156 1; dec 10668 0; dec 108204 1; dec 10972800000000001 12; dec 111252 1; dec 112776 1; dec 11430 0; dec 11582400000000001 12; dec 11734800000000001 12; dec 118872 1; dec 1200912 2; dec 120396 1; dec 12192 0; dec 12344400000000001 12; dec 12496800000000001 12; dec 126492 1; dec 128016 1; dec 12954 0; dec 13106400000000001 12; dec 13258800000000001 12; dec 134112 1; dec 135636 1; dec 13716 0; dec 13868400000000001 12; dec 14020800000000001 12; dec 141732 1; dec 143256 1; dec 14478 0; dec 14630400000000001 12; dec 14782800000000001 12; dec 149352 1; dec 150876 1; dec 15240 0; dec 1536192 2; dec 15392400000000001 12; dec 15544800000000001 12; dec 156972 1; dec 158496 1; dec 16002 0; dec 16154400000000001 12; dec 16306800000000001 12; dec 164592 1; dec 16611600000000002 12; dec 16764 0; dec 169164 1; dec 170688 1; dec 172212 1; dec 17373600000000002 12; dec 17526 0; dec 176784 1; dec 178308 1; dec 179832 1; dec 18135600000000002 12; dec 18288 0; dec 184404 1; dec 185928 1; dec 187452 1; dec 18897600000000002 12; dec 19050 0; dec 192024 1; dec 193548 1; dec 195072 1; dec 19659600000000002 12; dec 19812 0; dec 199644 1; dec 201168 1; dec 2023872 2; dec 202692 1; dec 20421600000000002 12; dec 20574 0; dec 207264 1; dec 208788 1; dec 210312 1; dec 21183600000000002 12; dec 21336 0; dec 214884 1; dec 216408 1; dec 217932 1; dec 21945600000000002 12; dec 22098 0; dec 222504 1; dec 22402800000000003 12; dec 225552 1; dec 22707600000000002 12; dec 22860 0; dec 230124 1; dec 23164800000000003 12; dec 233172 1; dec 23469600000000002 12; dec 23622 0; dec 237744 1; dec 23926800000000003 12; dec 240792 1; dec 24231600000000002 12; dec 24384 0; dec 245364 1; dec 24688800000000003 12; dec 248412 1; dec 24993600000000002 12; dec 25146 0; dec 252984 1; dec 25450800000000003 12; dec 256032 1; dec 25755600000000002 12; dec 25908 0; dec 260604 1; dec 26212800000000003 12; dec 263652 1; dec 26517600000000002 12; dec 26670 0; dec 268224 1; dec 26974800000000003 12; dec 271272 1; dec 27279600000000002 12; dec 27432 0; dec 275844 1; dec 27736800000000003 12; dec 278892 1; dec 28041600000000002 12; dec 28194 0; dec 283464 1; dec 28498800000000003 12; dec 286512 1; dec 28803600000000002 12; dec 28956 0; dec 291084 1; dec 29260800000000003 12; dec 294132 1; dec 29565600000000002 12; dec 29718 0; dec 298704 1; dec 30022800000000003 12; dec 301752 1; dec 30327600000000002 12; dec 30480 0].
(** L290-495 *)
Definition MIL_SPEC_210A_Hot_akima_T : list coefD := [
  q4 (dec 31259444444444443 14) (dec (-69262175561385477) 19) (dec 0 0) (dec 0 0);
  q4 (dec 31259444444444443 14) (dec (-69262175561385477) 19) (dec (-12065661972017161) 34) (dec (-746896323727106) 37);
  q4 (dec 31153888888888889 14) (dec (-69262175561389198) 19) (dec (-48945609886484718) 34) (dec 24050061624012817 36);
  q4 (dec 31048333333333329 14) (dec (-69262175561387342) 19) (dec 34148099920803277 36) (dec (-14937926474542113) 38);
  q4 (dec 30942777777777775 14) (dec (-69262175561387324) 19) (dec (-56913499868005489) 37) (dec 0 0);
  q4 (dec 30837222222222221 14) (dec (-69262175561387368) 19) (dec (-71759402778121188) 22) (dec 31390814863570054 24);
  q4 (dec 30726111111111106 14) (dec (-69262175561387385) 19) (dec 17643184959081689 35) (dec (-67220669135439472) 38);
  q4 (dec 30620555555555552 14) (dec (-6926217556138735) 18) (dec (-56913499868005534) 37) (dec (-2240688971181322) 37);
  q4 (dec 30514999999999998 14) (dec (-69262175561387489) 19) (dec (-59799502315031349) 22) (dec 23543111147648527 24);
  q4 (dec 30403888888888889 14) (dec (-71084864391950707) 19) (dec 47839601851948736 22) (dec (-23543111147610662) 24);
  q4 (dec 30298333333333329 14) (dec (-72907553222508635) 19) (dec (-35741677917107474) 34) (dec 78424113991346284 37);
  q4 (dec 30187222222222221 14) (dec (-72907553222514082) 19) (dec (-47465858889916549) 34) (dec 23377854932658395 36);
  q4 (dec 30076111111111106 14) (dec (-72907553222512252) 19) (dec 71759402778026091 22) (dec (-31390814863523104) 24);
  q4 (dec 29970555555555552 14) (dec (-72907553222508531) 19) (dec (-24529718443110386) 34) (dec 0 0);
  q4 (dec 29859444444444443 14) (dec (-7290755322251599) 18) (dec (-12520969970961217) 34) (dec 82905491933708922 37);
  q4 (dec 29748333333333329 14) (dec (-72907553222514073) 19) (dec 3750599641301559 33) (dec (-16357029489623604) 36);
  q4 (dec 29637222222222221 14) (dec (-72907553222514047) 19) (dec (-48604128887276654) 34) (dec 23975371991640078 36);
  q4 (dec 29526111111111106 14) (dec (-72907553222512174) 19) (dec 1138269997360109 35) (dec (-74689632372710529) 39);
  q4 (dec 29414999999999998 14) (dec (-72907553222512148) 19) (dec (-17074049960401635) 36) (dec 74689632372710529 39);
  q4 (dec 29303888888888889 14) (dec (-72907553222512148) 19) (dec (-22658097140978508) 22) (dec 14867517809024912 24);
  q4 (dec 29192777777777775 14) (dec (-69454882750522029) 19) (dec 25289657366730754 23) (dec (-82971316819956848) 26);
  q4 (dec 29087222222222221 14) (dec (-69262175561387394) 19) (dec 1138269997360109 35) (dec 44813779423626318 38);
  q4 (dec 28981666666666666 14) (dec (-69262175561387081) 19) (dec 71759402778045615 22) (dec (-31390814863537298) 24);
  q4 (dec 28881666666666666 14) (dec (-6926217556138729) 18) (dec (-73475328329595042) 34) (dec 32116541920265524 36);
  q4 (dec 28776111111111106 14) (dec (-69262175561387281) 19) (dec 125209699709612 33) (dec (-7468963237271052) 37);
  q4 (dec 28670555555555552 14) (dec (-6926217556138748) 18) (dec (-15366644964361515) 35) (dec 10456548532179535 37);
  q4 (dec 28564999999999998 14) (dec (-69262175561387281) 19) (dec (-56913499868005451) 37) (dec 74689632372710529 39);
  q4 (dec 28459444444444443 14) (dec (-69262175561387281) 19) (dec 0 0) (dec 0 0);
  q4 (dec 28353888888888889 14) (dec (-6926217556138729) 18) (dec (-25781815440206545) 34) (dec 0 0);
  q4 (dec 28248333333333329 14) (dec (-69262175561395174) 19) (dec (-7175940277791723) 21) (dec 31390814863486992 24);
  q4 (dec 28137222222222221 14) (dec (-69262175561390811) 19) (dec 54523132873549381 34) (dec (-21435924490968045) 36);
  q4 (dec 28031666666666666 14) (dec (-69262175561389163) 19) (dec 23919800925972788 22) (dec (-15695407431747715) 24);
  q4 (dec 27926111111111106 14) (dec (-72898035265172622) 19) (dec (-12490757663704433) 24) (dec 40980176061947823 27);
  q4 (dec 27814999999999998 14) (dec (-72907553222512373) 19) (dec 0 0) (dec 0 0);
  q4 (dec 27703888888888889 14) (dec (-72907553222512373) 19) (dec 71759402777961674 22) (dec (-3139081486349543) 23);
  q4 (dec 27598333333333329 14) (dec (-72907553222509068) 19) (dec (-32497608424631206) 34) (dec 7095515075407541 36);
  q4 (dec 27487222222222221 14) (dec (-72907553222514021) 19) (dec (-43140432899947999) 34) (dec 2121185559384966 35);
  q4 (dec 27376111111111106 14) (dec (-72907553222512373) 19) (dec 59799502315045529 22) (dec (-23543111147656954) 24);
  q4 (dec 27270555555555552 14) (dec (-71084864391950647) 19) (dec (-35879701389006875) 22) (dec 15695407431762726 24);
  q4 (dec 27159444444444443 14) (dec (-71084864391949823) 19) (dec 11959900463012987 22) (dec (-35851023538901265) 37);
  q4 (dec 27053888888888889 14) (dec (-67439486730826005) 19) (dec 3587970138904215 21) (dec (-15695407431776881) 24);
  q4 (dec 26953888888888889 14) (dec (-67439486730825884) 19) (dec (-35879701389073863) 22) (dec 15695407431790884 24);
  q4 (dec 26848333333333329 14) (dec (-67439486730825789) 19) (dec 47839601852036582 22) (dec (-23543111147653443) 24);
  q4 (dec 26748333333333329 14) (dec (-69262175561386665) 19) (dec (-39839449907603696) 35) (dec 8962755884725209 37);
  q4 (dec 26642777777777775 14) (dec (-6926217556138729) 18) (dec (-53498689875925276) 35) (dec 26888267654175943 37);
  q4 (dec 26537222222222221 14) (dec (-69262175561387081) 19) (dec 71759402778013386 22) (dec (-31390814863517088) 24);
  q4 (dec 26437222222222221 14) (dec (-69262175561382935) 19) (dec (-27147739437038517) 34) (dec 0 0);
  q4 (dec 26331666666666666 14) (dec (-69262175561391219) 19) (dec (-24871199442318453) 34) (dec 16282339857250988 36);
  q4 (dec 26226111111111106 14) (dec (-69262175561387454) 19) (dec 7740235982048718 34) (dec (-34357230891446636) 37);
  q4 (dec 26120555555555552 14) (dec (-69262175561387498) 19) (dec 56913499868005617 37) (dec 0 0);
  q4 (dec 26014999999999998 14) (dec (-69262175561387489) 19) (dec 0 0) (dec 0 0);
  q4 (dec 25909444444444443 14) (dec (-69262175561387498) 19) (dec 80248034813887443 35) (dec (-34357230891446636) 37);
  q4 (dec 25803888888888889 14) (dec (-69262175561387454) 19) (dec (-49514744885164889) 34) (dec 16282339857250988 36);
  q4 (dec 25698333333333329 14) (dec (-69262175561391227) 19) (dec 81727785810455578 34) (dec (-35701644274155418) 36);
  q4 (dec 25592777777777775 14) (dec (-69262175561391227) 19) (dec (-5979950231502293) 21) (dec 23543111147650231 24);
  q4 (dec 25481666666666663 14) (dec (-71084864391950768) 19) (dec 35879701389040214 22) (dec (-15695407431775981) 24);
  q4 (dec 25376111111111109 14) (dec (-71084864391950664) 19) (dec (-4783960185204728) 21) (dec 23543111147658671 24);
  q4 (dec 25264999999999998 14) (dec (-69262175561389371) 19) (dec 44278702897307842 34) (dec (-17402684342841239) 36);
  q4 (dec 25159444444444443 14) (dec (-69262175561388018) 19) (dec (-23919800926046294) 22) (dec 15695407431783082 24);
  q4 (dec 25053888888888886 14) (dec (-65616797900262614) 19) (dec (-22765399947202247) 36) (dec 0 0);
  q4 (dec 24953888888888886 14) (dec (-65616797900262622) 19) (dec (-11382699973601123) 36) (dec 0 0);
  q4 (dec 24853888888888886 14) (dec (-65616797900262622) 19) (dec (-11382699973601123) 36) (dec 0 0);
  q4 (dec 24753888888888886 14) (dec (-65616797900262622) 19) (dec 15366644964361333 34) (dec (-67220669135438266) 37);
  q4 (dec 24653888888888886 14) (dec (-65616797900262622) 19) (dec (-11382699973601123) 36) (dec 0 0);
  q4 (dec 24553888888888886 14) (dec (-65616797900262622) 19) (dec (-56913499868005617) 37) (dec 0 0);
  q4 (dec 24453888888888886 14) (dec (-65616797900262631) 19) (dec 0 0) (dec 0 0);
  q4 (dec 24353888888888886 14) (dec (-65616797900262622) 19) (dec (-71759402778048783) 22) (dec 31390814863538529 24);
  q4 (dec 24248333333333332 14) (dec (-65616797900262622) 19) (dec 11894921472413032 34) (dec (-44813779423625511) 37);
  q4 (dec 24148333333333332 14) (dec (-65616797900262093) 19) (dec (-17358617459741712) 34) (dec 90374455170980262 37);
  q4 (dec 24048333333333332 14) (dec (-65616797900261052) 19) (dec 11959900463009743 21) (dec (-47086222295317051) 24);
  q4 (dec 23959444444444443 14) (dec (-61971420239137747) 19) (dec 11382699973601123 36) (dec 0 0);
  q4 (dec 23864999999999998 14) (dec (-61971420239137747) 19) (dec 11382699973601123 36) (dec 0 0);
  q4 (dec 23770555555555552 14) (dec (-61971420239137747) 19) (dec 4783960185206777 21) (dec (-15695407431781361) 24);
  q4 (dec 23681666666666663 14) (dec (-58326042578010669) 19) (dec 64867256748473011 23) (dec (-42563816764104942) 25);
  q4 (dec 23592777777777775 14) (dec (-59314619570858436) 19) (dec (-34866150502316482) 22) (dec 11439025755349208 24);
  q4 (dec 23498333333333332 14) (dec (-61971420239137747) 19) (dec (-70003604837646908) 35) (dec 46307572071080794 37);
  q4 (dec 23403888888888886 14) (dec (-61971420239136663) 19) (dec 36879947914467202 34) (dec (-17776132504704787) 36);
  q4 (dec 23309444444444443 14) (dec (-61971420239137747) 19) (dec 17074049960401687 36) (dec 0 0);
  q4 (dec 23214999999999998 14) (dec (-61971420239137756) 19) (dec 22765399947202247 36) (dec 0 0);
  q4 (dec 23120555555555552 14) (dec (-61971420239137747) 19) (dec (-36627195167959654) 21) (dec 25750277817744857 23);
  q4 (dec 23037222222222221 14) (dec (-36453776611263442) 19) (dec 2152782083342396 19) (dec (-31390814863553097) 22);
  q4 (dec 23037222222222221 14) (dec 72907553222516003 20) (dec 50510731132854984 36) (dec (-28942232544425496) 38);
  q4 (dec 23048333333333332 14) (dec 72907553222515515 20) (dec (-93907274782208156) 36) (dec 49481881446919833 38);
  q4 (dec 23059444444444443 14) (dec 7290755322251609 19) (dec 71759402778048851 22) (dec (-31390814863538502) 24);
  q4 (dec 23076111111111109 14) (dec 7290755322251609 19) (dec 71141874835007021 38) (dec (-93362040465888705) 40);
  q4 (dec 23087222222222221 14) (dec 72907553222516101 20) (dec (-71141874835007021) 38) (dec 0 0);
  q4 (dec 23098333333333332 14) (dec 72907553222516101 20) (dec (-71141874835007021) 38) (dec 0 0);
  q4 (dec 23109444444444443 14) (dec 72907553222516101 20) (dec (-38423726598386839) 34) (dec 16805167283859565 36);
  q4 (dec 23120555555555552 14) (dec 72907553222516101 20) (dec (-71141874835007021) 38) (dec 0 0);
  q4 (dec 23131666666666663 14) (dec 72907553222516101 20) (dec (-71141874835007021) 38) (dec 0 0);
  q4 (dec 23142777777777775 14) (dec 72907553222516101 20) (dec 0 0) (dec (-93362040465888705) 40);
  q4 (dec 23153888888888886 14) (dec 7290755322251609 19) (dec 59799502315037795 22) (dec (-23543111147651968) 24);
  q4 (dec 23170555555555552 14) (dec 91134441528144901 20) (dec (-35879701389034442) 22) (dec 15695407431773447 24);
  q4 (dec 23181666666666663 14) (dec 91134441528144901 20) (dec 47839601852051202 22) (dec (-23543111147659988) 24);
  q4 (dec 23198333333333332 14) (dec 72907553222534749 20) (dec (-18361717894915311) 34) (dec 40145677400332146 37);
  q4 (dec 23209444444444443 14) (dec 72907553222506776 20) (dec (-24479919130725916) 34) (dec 12043703220099643 36);
  q4 (dec 23220555555555552 14) (dec 72907553222516101 20) (dec 59799502315077547 22) (dec (-23543111147670027) 24);
  q4 (dec 23237222222222221 14) (dec 91134441528140239 20) (dec (-35879701389028326) 22) (dec 15695407431771438 24);
  q4 (dec 23248333333333332 14) (dec 91134441528144901 20) (dec 35879701389018738 22) (dec (-15695407431767431) 24);
  q4 (dec 23264999999999998 14) (dec 91134441528140239 20) (dec (-35879701389024129) 22) (dec 15695407431769149 24);
  q4 (dec 23276111111111109 14) (dec 91134441528140455 20) (dec 31893067901353685 22) (dec (-13079506193140155) 24);
  q4 (dec 23292777777777775 14) (dec 97210070963350652 20) (dec 15946533950687037 22) (dec (-20927209909032807) 24);
  q4 (dec 23303888888888886 14) (dec 0 0) (dec 0 0) (dec 0 0);
  q4 (dec 23303888888888886 14) (dec 0 0) (dec 0 0) (dec 0 0);
  q4 (dec 23303888888888886 14) (dec 0 0) (dec 19135840740814657 21) (dec (-7847703715884893) 23);
  q4 (dec 23320555555555552 14) (dec 36453776611279805 20) (dec (-40799865217876528) 35) (dec (-26748224593477114) 37);
  q4 (dec 23326111111111109 14) (dec 36453776611248726 20) (dec (-60506164547173476) 35) (dec 396788671980027 35);
  q4 (dec 23331666666666663 14) (dec 36453776611257942 20) (dec 18564472238195081 34) (dec (-81224975205323168) 37);
  q4 (dec 23337222222222221 14) (dec 36453776611257942 20) (dec (-18998437674688397) 34) (dec 83092216014638964 37);
  q4 (dec 23342777777777775 14) (dec 36453776611257942 20) (dec 18639171206771841 34) (dec (-81738466427885564) 37);
  q4 (dec 23348333333333332 14) (dec 36453776611257828 20) (dec (-18066479114350035) 34) (dec 7931105337577245 36);
  q4 (dec 23353888888888886 14) (dec 3645377661125805 19) (dec 22797413790877727 34) (dec (-11133423325556962) 36);
  q4 (dec 23359444444444443 14) (dec 36453776611249973 20) (dec (-10706852162668684) 35) (dec 35010765174709095 38);
  q4 (dec 23364999999999998 14) (dec 36453776611249165 20) (dec (-57624918616355003) 36) (dec 0 0);
  q4 (dec 23370555555555552 14) (dec 36453776611247414 20) (dec (-7175940277804769) 21) (dec 31390814863538496 24);
  q4 (dec 23370555555555552 14) (dec 36453776611248287 20) (dec 36716321602346685 34) (dec (-16062939062155768) 36);
  q4 (dec 23376111111111109 14) (dec 36453776611248292 20) (dec (-62604849854805431) 35) (dec 41032616784757108 37);
  q4 (dec 23381666666666663 14) (dec 36453776611257823 20) (dec 19503544986017409 34) (dec (-85006137844193684) 37);
  q4 (dec 23387222222222221 14) (dec 3645377661125805 19) (dec (-19211863299193419) 34) (dec 84025836419297825 37);
  q4 (dec 23392777777777775 14) (dec 3645377661125805 19) (dec 1935414704886389 33) (dec (-85006137844193684) 37);
  q4 (dec 23398333333333332 14) (dec 36453776611257828 20) (dec (-18920181612369892) 34) (dec 83045534994406028 37);
  q4 (dec 23403888888888886 14) (dec 3645377661125805 19) (dec 2280808507210298 33) (dec (-11142759529603551) 36);
  q4 (dec 23409444444444443 14) (dec 36453776611249957 20) (dec (-77544643570158579) 36) (dec 1633835708153091 37);
  q4 (dec 23414999999999998 14) (dec 36453776611248748 20) (dec (-11489412785853498) 35) (dec 55550414077202458 38);
  q4 (dec 23420555555555552 14) (dec 36453776611249122 20) (dec 31071213834189685 34) (dec (-12347129851614073) 36);
  q4 (dec 23426111111111109 14) (dec 36453776611257828 20) (dec (-18920181612369892) 34) (dec 83045534994406028 37);
  q4 (dec 23431666666666663 14) (dec 3645377661125805 19) (dec 17636070771598029 34) (dec (-77443812566452832) 37);
  q4 (dec 23437222222222221 14) (dec 36453776611257839 20) (dec (-17227004991297154) 34) (dec 75669933797604592 37);
  q4 (dec 23442777777777775 14) (dec 3645377661125805 19) (dec 1749734411566977 33) (dec (-76556873182026922) 37);
  q4 (dec 23448333333333332 14) (dec 3645377661125805 19) (dec (-17365731647225419) 34) (dec 75669933797604592 37);
  q4 (dec 23453888888888886 14) (dec 36453776611257839 20) (dec 23608431163996798 34) (dec (-11572224915746629) 36);
  q4 (dec 23459444444444443 14) (dec 36453776611249165 20) (dec (-14406229654088751) 35) (dec 56484034481861319 38);
  q4 (dec 23464999999999998 14) (dec 36453776611248737 20) (dec 551349529971311 34) (dec (-18205597890848731) 38);
  q4 (dec 23470555555555552 14) (dec 3645377661124916 19) (dec 32664791830493084 34) (dec (-13780237172764846) 36);
  q4 (dec 23476111111111109 14) (dec 36453776611252716 20) (dec (-61128380144273376) 22) (dec 24415078227201261 24);
  q4 (dec 23476111111111109 14) (dec 20252098117365866 20) (dec 52519987735826345 22) (dec (-26046810740009872) 24);
  q4 (dec 23481666666666663 14) (dec 32165097009928051 20) (dec (-56985408088452188) 21) (dec 15233777801423481 22);
  q4 (dec 23481666666666663 14) (dec 10936132983374366 19) (dec 61082413733336299 34) (dec (-23489889381217037) 36);
  q4 (dec 23498333333333332 14) (dec 1093613298337661 18) (dec 75410387325108342 36) (dec (-48548261042263276) 38);
  q4 (dec 23514999999999998 14) (dec 10936132983376502 19) (dec (-34859518669153025) 35) (dec 1643171912199602 36);
  q4 (dec 23531666666666663 14) (dec 10936132983376584 19) (dec 24842742692384746 34) (dec (-81411699286256881) 37);
  q4 (dec 23548333333333332 14) (dec 10936132983378477 19) (dec (-20562635883806301) 22) (dec 13492543230834761 24);
  q4 (dec 23564999999999998 14) (dec 14069878692064212 19) (dec 67143300844979252 23) (dec (-22028642009503731) 25);
  q4 (dec 23587222222222221 14) (dec 1458151064450322 18) (dec 4553079989440503 34) (dec (-22593613792745603) 37);
  q4 (dec 23609444444444443 14) (dec 14581510644503044 19) (dec (-59799502315070982) 22) (dec 23543111147665805 24);
  q4 (dec 23626111111111109 14) (dec 12758821813939872 19) (dec 35879701389046757 22) (dec (-15695407431779326) 24);
  q4 (dec 23648333333333332 14) (dec 12758821813939787 19) (dec (-35879701389044085) 22) (dec 15695407431777758 24);
  q4 (dec 23664999999999998 14) (dec 12758821813939852 19) (dec 35879701389039473 22) (dec (-15695407431775779) 24);
  q4 (dec 23687222222222221 14) (dec 12758821813939765 19) (dec (-35879701389038961) 22) (dec 15695407431775796 24);
  q4 (dec 23703888888888886 14) (dec 12758821813939765 19) (dec 35879701389040041 22) (dec (-15695407431775779) 24);
  q4 (dec 23726111111111109 14) (dec 12758821813939852 19) (dec (-35879701389044509) 22) (dec 15695407431777758 24);
  q4 (dec 23742777777777775 14) (dec 12758821813939787 19) (dec 35879701389047312 22) (dec (-15695407431779326) 24);
  q4 (dec 23764999999999998 14) (dec 12758821813939872 19) (dec (-47839601852058148) 22) (dec 23543111147665805 24);
  q4 (dec 23781666666666663 14) (dec 14581510644503044 19) (dec 57055783617676312 35) (dec (-22593613792745603) 37);
  q4 (dec 23803888888888886 14) (dec 1458151064450322 18) (dec 0 0) (dec (-76556873182026916) 38);
  q4 (dec 23826111111111109 14) (dec 14581510644502698 19) (dec (-59799502315065874) 22) (dec 23543111147663959 24);
  q4 (dec 23842777777777775 14) (dec 12758821813939787 19) (dec 47839601852048763 22) (dec (-23543111147659664) 24);
  q4 (dec 23864999999999998 14) (dec 10936132983378477 19) (dec (-34859518669153028) 34) (dec 13724219948485312 36);
  q4 (dec 23881666666666663 14) (dec 10936132983377415 19) (dec 0 0) (dec 45747399828286546 37);
  q4 (dec 23898333333333332 14) (dec 10936132983380602 19) (dec 59799502314973336 22) (dec (-23543111147628069) 24);
  q4 (dec 23920555555555552 14) (dec 12758821813940316 19) (dec (-47839601852015051) 22) (dec 2354311114764366 23);
  q4 (dec 23937222222222221 14) (dec 14581510644501182 19) (dec 36253899415920008 34) (dec (-14284392191281311) 36);
  q4 (dec 23959444444444443 14) (dec 1458151064450229 18) (dec (-42685124901003705) 37) (dec (-47614640637602109) 37);
  q4 (dec 23981666666666663 14) (dec 1458151064449897 18) (dec (-71759402777965748) 22) (dec 31390814863503007 24);
  q4 (dec 23998333333333332 14) (dec 14581510644499315 19) (dec 12250630846588064 34) (dec (-18672408093177294) 39);
  q4 (dec 24020555555555552 14) (dec 14581510644503047 19) (dec (-19350589955121679) 35) (dec 12510513422428787 37);
  q4 (dec 24042777777777775 14) (dec 14581510644503339 19) (dec 69719037338307715 36) (dec (-24274130521131638) 38);
  q4 (dec 24064999999999998 14) (dec 14581510644503394 19) (dec (-22907683696871986) 35) (dec 0 0);
  q4 (dec 24087222222222221 14) (dec 145815106445027 17) (dec (-71759402778075888) 22) (dec 31390814863551208 24);
  q4 (dec 24103888888888886 14) (dec 14581510644503047 19) (dec (-14228374967001235) 37) (dec 0 0);
  q4 (dec 24126111111111109 14) (dec 14581510644503047 19) (dec (-14228374967001235) 37) (dec 0 0);
  q4 (dec 24148333333333332 14) (dec 14581510644503047 19) (dec (-280441270599601) 32) (dec 11856979139168148 36);
  q4 (dec 24170555555555552 14) (dec 14581510644502765 19) (dec 18212319957761581 35) (dec 18672408093177294 39);
  q4 (dec 24192777777777775 14) (dec 14581510644503331 19) (dec 30875573678393417 35) (dec (-17738787688519278) 37);
  q4 (dec 24214999999999998 14) (dec 14581510644503047 19) (dec (-14228374967001235) 37) (dec 0 0);
  q4 (dec 24237222222222221 14) (dec 14581510644503047 19) (dec (-14228374967001235) 37) (dec 0 0);
  q4 (dec 24259444444444443 14) (dec 14581510644503047 19) (dec (-280441270599601) 32) (dec 11856979139168148 36);
  q4 (dec 24281666666666663 14) (dec 14581510644502765 19) (dec 36993774914203212 35) (dec (-12137065260565242) 37);
  q4 (dec 24303888888888886 14) (dec 14581510644503044 19) (dec 2304996744654255 34) (dec (-18672408093178185) 39);
  q4 (dec 24326111111111109 14) (dec 14581510644503738 19) (dec 71759402778035781 22) (dec (-31390814863532904) 24);
  q4 (dec 24353888888888886 14) (dec 14581510644503391 19) (dec (-68011632342265907) 35) (dec 29689128868151902 37);
  q4 (dec 24376111111111109 14) (dec 14581510644503391 19) (dec 14228374967001573 37) (dec (-18672408093178185) 39);
  q4 (dec 24398333333333332 14) (dec 14581510644503394 19) (dec (-14541399216275262) 34) (dec 18672408093177294 39);
  q4 (dec 24420555555555552 14) (dec 14581510644498972 19) (dec (-59799502314976419) 22) (dec 2354311114763063 23);
  q4 (dec 24437222222222221 14) (dec 12758821813939763 19) (dec 35879701389037012 22) (dec (-15695407431773781) 24);
  q4 (dec 24459444444444443 14) (dec 12758821813940318 19) (dec (-47839601852051803) 22) (dec 2354311114765972 23);
  q4 (dec 24476111111111109 14) (dec 14581510644501184 19) (dec 36225442665986004 34) (dec (-14265719783188134) 36);
  q4 (dec 24498333333333332 14) (dec 1458151064450229 18) (dec (-5691349986800494) 36) (dec (-47427916556670329) 37);
  q4 (dec 24520555555555552 14) (dec 14581510644498972 19) (dec (-71759402777978014) 22) (dec 31390814863511053 24);
  q4 (dec 24537222222222221 14) (dec 1458151064450118 18) (dec 36723435789830184 34) (dec (-16076943368225653) 36);
  q4 (dec 24559444444444443 14) (dec 14581510644501182 19) (dec (-12250630846588064) 34) (dec 80291354800662366 37);
  q4 (dec 24581666666666663 14) (dec 14581510644503047 19) (dec 4538851614473502 34) (dec (-14937926474542546) 37);
  q4 (dec 24603888888888886 14) (dec 14581510644503394 19) (dec (-68296199841605928) 35) (dec 29689128868151902 37);
  q4 (dec 24626111111111109 14) (dec 14581510644503391 19) (dec 7175940277805284 21) (dec (-31390814863541116) 24);
  q4 (dec 24653888888888886 14) (dec 14581510644503047 19) (dec 0 0) (dec (-18672408093177294) 39);
  q4 (dec 24676111111111109 14) (dec 14581510644503044 19) (dec 14228374967001235 37) (dec (-18672408093177294) 39);
  q4 (dec 24698333333333332 14) (dec 14581510644503047 19) (dec (-19933953328769206) 34) (dec 65353428326123651 37);
  q4 (dec 24720555555555552 14) (dec 14581510644501529 19) (dec 99456341019338633 35) (dec 0 0);
  q4 (dec 24742777777777775 14) (dec 14581510644504565 19) (dec 59799502315028597 22) (dec (-23543111147650886) 24);
  q4 (dec 24770555555555552 14) (dec 16404199475065571 19) (dec (-35879701389026285) 22) (dec 15695407431769992 24);
  q4 (dec 24792777777777775 14) (dec 16404199475065653 19) (dec 35879701389020449 22) (dec (-15695407431767471) 24);
  q4 (dec 24820555555555552 14) (dec 16404199475065549 19) (dec (-35879701389019894) 22) (dec 15695407431767564 24);
  q4 (dec 24842777777777775 14) (dec 16404199475065634 19) (dec 35879701389020152 22) (dec (-1569540743176719) 23);
  q4 (dec 24870555555555552 14) (dec 16404199475065634 19) (dec (-11959900463007011) 22) (dec 0 0);
  q4 (dec 24892777777777775 14) (dec 12758821813941153 19) (dec 0 0) (dec 0 0)].
(** L497-702 *)
Definition MIL_SPEC_210A_Hot_akima_P : list coefD := [
  q4 (dec 10096781499999999 11) (dec (-11078904199474941) 15) (dec 0 0) (dec 0 0);
  q4 (dec 10096781499999999 11) (dec (-11078904199474941) 15) (dec (-61776189296727866) 32) (dec 19885367722910472 34);
  q4 (dec 99279389999999999 12) (dec (-11078904199474989) 15) (dec (-64107366251321373) 32) (dec 0 0);
  q4 (dec 97590964999999997 12) (dec (-11078904199475181) 15) (dec (-43617733068797154) 18) (dec 19080373170952375 20);
  q4 (dec 95564854999999996 12) (dec (-11078904199475183) 15) (dec 65272954728618136 32) (dec 0 0);
  q4 (dec 93876429999999993 12) (dec (-11078904199474991) 15) (dec 50120304523760351 32) (dec (-33652160761848497) 34);
  q4 (dec 92188005000000005 12) (dec (-11078904199475067) 15) (dec (-58279423864837576) 33) (dec (-15296436709931116) 35);
  q4 (dec 90499580000000002 12) (dec (-11078904199475092) 15) (dec (-46623539091870133) 33) (dec 1529643670993116 34);
  q4 (dec 88811154999999999 12) (dec (-11078904199475094) 15) (dec 93247078183740131 33) (dec 0 0);
  q4 (dec 87122729999999996 12) (dec (-11078904199475062) 15) (dec 43617733068798251 18) (dec (-19080373170952749) 20);
  q4 (dec 85771989999999991 12) (dec (-11078904199474982) 15) (dec (-1853285678901838) 30) (dec 73422896207669559 34);
  q4 (dec 84083564999999988 12) (dec (-11078904199475039) 15) (dec 0 0) (dec 24474298735889786 34);
  q4 (dec 82395139999999999 12) (dec (-1107890419947487) 14) (dec 36348110890662907 18) (dec (-14310279878213843) 20);
  q4 (dec 81044399999999994 12) (dec (-99710137795275386) 16) (dec (-29078488712533667) 18) (dec 14310279878215307 20);
  q4 (dec 79355974999999991 12) (dec (-88631233595800811) 16) (dec 13637385184372015 31) (dec (-5353752848475906) 33);
  q4 (dec 78005235000000001 12) (dec (-8863123359580042) 15) (dec 11655884772967516 33) (dec (-1835572405191734) 33);
  q4 (dec 76654494999999995 12) (dec (-88631233595801628) 16) (dec (-43617733068798063) 18) (dec 19080373170952885 20);
  q4 (dec 74966069999999992 12) (dec (-88631233595800811) 16) (dec 18532856789018352 31) (dec (-81071114562634918) 34);
  q4 (dec 73615330000000002 12) (dec (-88631233595800829) 16) (dec (-11655884772967516) 33) (dec 0 0);
  q4 (dec 72264589999999997 12) (dec (-88631233595800829) 16) (dec (-11655884772967516) 33) (dec 0 0);
  q4 (dec 70913849999999991 12) (dec (-88631233595800811) 16) (dec 11073090534319173 31) (dec (-42830022787807376) 34);
  q4 (dec 69563110000000001 12) (dec (-8863123359580042) 15) (dec (-74597662546992105) 32) (dec 30592873419862229 34);
  q4 (dec 68212369999999995 12) (dec (-88631233595800509) 16) (dec 12122120163886217 31) (dec (-5200788481376579) 33);
  q4 (dec 66861630000000005 12) (dec (-88631233595800438) 16) (dec (-11073090534319141) 31) (dec 36711448103834679 34);
  q4 (dec 65510889999999992 12) (dec (-88631233595801309) 16) (dec 95578255138333628 32) (dec 0 0);
  q4 (dec 64160150000000001 12) (dec (-88631233595798449) 16) (dec 43617733068794191 18) (dec (-19080373170951139) 20);
  q4 (dec 63147094999999994 12) (dec (-88631233595798449) 16) (dec (-1398706172756102) 30) (dec 30592873419862229 34);
  q4 (dec 61796355000000003 12) (dec (-8863123359580058) 15) (dec (-18649415636748024) 31) (dec 91778620259586694 34);
  q4 (dec 60445614999999991 12) (dec (-8863123359579987) 15) (dec 36348110890667092 18) (dec (-14310279878215578) 20);
  q4 (dec 59432560000000005 12) (dec (-77552329396325632) 16) (dec (-21808866534400593) 18) (dec 95401865854770969 21);
  q4 (dec 58081819999999992 12) (dec (-77552329396325206) 16) (dec 21808866534399184 18) (dec (-95401865854765291) 21);
  q4 (dec 57068764999999992 12) (dec (-77552329396325561) 16) (dec (-29078488712529889) 18) (dec 14310279878213417 20);
  q4 (dec 55718025000000001 12) (dec (-66473425196851998) 16) (dec 61776189296728014 32) (dec 0 0);
  q4 (dec 54704969999999994 12) (dec (-66473425196850089) 16) (dec 34967654318902654 33) (dec (-22944655064896809) 35);
  q4 (dec 53691915000000001 12) (dec (-66473425196850151) 16) (dec (-29139711932418702) 33) (dec 76482183549655113 36);
  q4 (dec 52678860000000001 12) (dec (-66473425196850178) 16) (dec (-25060152261880235) 32) (dec 0 0);
  q4 (dec 51665805 3) (dec (-66473425196850959) 16) (dec (-43617733068796342) 18) (dec 1908037317095176 19);
  q4 (dec 50315065000000002 12) (dec (-66473425196852398) 16) (dec 88001930035905002 32) (dec 0 0);
  q4 (dec 49302009999999995 12) (dec (-66473425196849698) 16) (dec (-58279423864837405) 34) (dec 0 0);
  q4 (dec 48288955000000002 12) (dec (-66473425196849698) 16) (dec (-17075871192397461) 31) (dec 74952539878662914 34);
  q4 (dec 47275900000000001 12) (dec (-66473425196849698) 16) (dec 43617733068797716 18) (dec (-19080373170952689) 20);
  q4 (dec 46600529999999999 12) (dec (-66473425196849787) 16) (dec (-25060152261880082) 32) (dec 0 0);
  q4 (dec 45587474999999999 12) (dec (-66473425196850568) 16) (dec (-12238679011615929) 32) (dec 84130401904621626 35);
  q4 (dec 44574419999999998 12) (dec (-66473425196850373) 16) (dec 2622574073917683 31) (dec (-84130401904620625) 35);
  q4 (dec 43561364999999998 12) (dec (-66473425196850178) 16) (dec (-76346045262937457) 32) (dec 33652160761848651 34);
  q4 (dec 42548309999999998 12) (dec (-66473425196850178) 16) (dec 436177330687995 16) (dec (-1908037317095344) 19);
  q4 (dec 41872940000000002 12) (dec (-66473425196850098) 16) (dec (-90333106990497976) 32) (dec 35181804432841355 34);
  q4 (dec 40859884999999995 12) (dec (-66473425196850373) 16) (dec 0 0) (dec 11472327532448402 34);
  q4 (dec 39846830000000002 12) (dec (-66473425196849538) 16) (dec 36348110890664975 18) (dec (-14310279878214583) 20);
  q4 (dec 39171459999999999 12) (dec (-55394520997375363) 16) (dec (-29078488712532678) 18) (dec 14310279878214819 20);
  q4 (dec 38158404999999999 12) (dec (-44315616797901276) 16) (dec 72849279831047187 32) (dec (-16061258545427767) 34);
  q4 (dec 37483034999999996 12) (dec (-44315616797900175) 16) (dec 96743843615630096 32) (dec (-48183775636282725) 34);
  q4 (dec 36807665000000001 12) (dec (-44315616797900539) 16) (dec (-43617733068799361) 18) (dec 19080373170953402 20);
  q4 (dec 35794610000000001 12) (dec (-44315616797900548) 16) (dec 44292362137276426 32) (dec (-16826080380924125) 34);
  q4 (dec 35119239999999998 12) (dec (-44315616797900397) 16) (dec (-58279423864837752) 34) (dec (-61185746839724822) 35);
  q4 (dec 34443869999999995 12) (dec (-44315616797900805) 16) (dec (-43617733068797113) 18) (dec 1908037317095224 19);
  q4 (dec 33430815000000002 12) (dec (-44315616797902013) 16) (dec 81008399172124471 32) (dec 76482183549656027 36);
  q4 (dec 32755444999999996 12) (dec (-44315616797899535) 16) (dec 42543979421331054 32) (dec (-27533586077875515) 34);
  q4 (dec 32080075000000001 12) (dec (-44315616797900175) 16) (dec (-46623539091870201) 33) (dec (-22944655064896809) 35);
  q4 (dec 31404705000000002 12) (dec (-44315616797900486) 16) (dec (-14569855966209438) 32) (dec 76482183549656015 35);
  q4 (dec 30729334999999999 12) (dec (-44315616797900423) 16) (dec 19232209875396457 32) (dec (-76482183549656015) 35);
  q4 (dec 30053965 3) (dec (-44315616797900352) 16) (dec (-47789127569166952) 32) (dec 22944655064896805 34);
  q4 (dec 29378594999999998 12) (dec (-44315616797900184) 16) (dec 6352457201267239 31) (dec (-24474298735889343) 34);
  q4 (dec 28703224999999999 12) (dec (-44315616797899926) 16) (dec (-40795596705386428) 33) (dec (-30592873419862411) 35);
  q4 (dec 28027855000000003 12) (dec (-44315616797900264) 16) (dec (-94995460899685543) 32) (dec 4053555728131769 33);
  q4 (dec 27352484999999997 12) (dec (-44315616797900352) 16) (dec 37881625512144538 32) (dec (-12237149367944964) 34);
  q4 (dec 26677115000000002 12) (dec (-4431561679790005) 15) (dec (-95578255138333904) 32) (dec 41300379116814252 34);
  q4 (dec 26001744999999999 12) (dec (-44315616797900059) 16) (dec 43617733068798584 18) (dec (-19080373170952763) 20);
  q4 (dec 25664059999999998 12) (dec (-4431561679789958) 15) (dec (-31470888887012384) 32) (dec 0 0);
  q4 (dec 24988690000000002 12) (dec (-44315616797900539) 16) (dec 0 0) (dec 0 0);
  q4 (dec 2431332 2) (dec (-44315616797900539) 16) (dec 15152650204857815 32) (dec 0 0);
  q4 (dec 23637950000000001 12) (dec (-44315616797900059) 16) (dec 36348110890665745 18) (dec (-14310279878214892) 20);
  q4 (dec 23300264999999999 12) (dec (-33236712598425155) 16) (dec (-2180886653439865) 17) (dec 95401865854761333 21);
  q4 (dec 22624895 3) (dec (-33236712598425155) 16) (dec 29078488712532748 18) (dec (-14310279878214998) 20);
  q4 (dec 22287209999999999 12) (dec (-44315616797900299) 16) (dec (-58279423864837752) 34) (dec 0 0);
  q4 (dec 2161184 2) (dec (-44315616797900299) 16) (dec (-58279423864837752) 34) (dec 0 0);
  q4 (dec 20936470000000001 12) (dec (-44315616797900299) 16) (dec 29078488712532994 18) (dec (-95401865854766429) 21);
  q4 (dec 20598785 3) (dec (-22157808398950136) 16) (dec 52451481478353975 33) (dec (-91778620259587238) 35);
  q4 (dec 20261099999999999 12) (dec (-22157808398950616) 16) (dec (-33924903497954718) 18) (dec 12720248780635518 20);
  q4 (dec 1958573 2) (dec (-36929680664916802) 16) (dec 89493454844445462 19) (dec (-11292834499854958) 21);
  q4 (dec 19248045000000002 12) (dec (-20143462180863554) 16) (dec 21294852845036871 17) (dec (-48182760532711512) 19);
  q4 (dec 19248045000000002 12) (dec (-24619787109944347) 16) (dec (-40386789878519055) 18) (dec 18020352439234241 20);
  q4 (dec 18572674999999999 12) (dec (-22157808398950021) 16) (dec 66438543205914249 32) (dec (-32504928008603033) 34);
  q4 (dec 18234990000000002 12) (dec (-22157808398950269) 16) (dec 0 0) (dec 0 0);
  q4 (dec 17897305 3) (dec (-22157808398950269) 16) (dec 0 0) (dec 0 0);
  q4 (dec 17559619999999999 12) (dec (-22157808398950269) 16) (dec (-43617733068799472) 18) (dec 19080373170953462 20);
  q4 (dec 1688425 2) (dec (-22157808398950123) 16) (dec 18358018517423892 32) (dec (-80306292727138835) 35);
  q4 (dec 16546565000000002 12) (dec (-22157808398950127) 16) (dec 58279423864837058 34) (dec (-38241091774827099) 36);
  q4 (dec 16208879999999999 12) (dec (-22157808398950132) 16) (dec (-1165588477296755) 32) (dec (-38241091774828014) 36);
  q4 (dec 15871195 3) (dec (-22157808398950172) 16) (dec (-16609635801478759) 32) (dec 68833965194690414 35);
  q4 (dec 15533509999999998 12) (dec (-22157808398950212) 16) (dec 34967654318902654 33) (dec 38241091774828014 36);
  q4 (dec 15195824999999999 12) (dec (-22157808398950083) 16) (dec 10198899176346607 32) (dec (-45889310129793619) 35);
  q4 (dec 14858140000000001 12) (dec (-22157808398950083) 16) (dec (-78677222217530022) 33) (dec 30592873419861679 35);
  q4 (dec 14520454999999998 12) (dec (-22157808398950096) 16) (dec 15444047324182003 32) (dec (-72658074372173224) 35);
  q4 (dec 1418277 2) (dec (-22157808398950132) 16) (dec (-25934343619852797) 32) (dec 11089916614700123 34);
  q4 (dec 13845084999999999 12) (dec (-2215780839895015) 15) (dec (-58279423864837752) 34) (dec 38241091774828014 36);
  q4 (dec 135074 1) (dec (-22157808398950145) 16) (dec (-87419135797256635) 34) (dec 38241091774828014 36);
  q4 (dec 13169715 3) (dec (-2215780839895015) 15) (dec 18940812756072045 32) (dec (-65009856017206072) 35);
  q4 (dec 12832029999999999 12) (dec (-22157808398950016) 16) (dec 87419135797256635 34) (dec (-11472327532448405) 35);
  q4 (dec 12494345000000001 12) (dec (-2215780839895007) 15) (dec (-31470888887012384) 32) (dec 12237149367944964 34);
  q4 (dec 1215666 2) (dec (-22157808398950189) 16) (dec 49537510285112091 33) (dec (-19120545887414004) 35);
  q4 (dec 11818975 3) (dec (-2215780839895015) 15) (dec (-1427845884688525) 31) (dec 42065200952310813 35);
  q4 (dec 11481289999999999 12) (dec (-22157808398950292) 16) (dec (-31804597029332526) 18) (dec 22359812309710801 20);
  q4 (dec 11143605 3) (dec 0 0) (dec 0 0) (dec 0 0);
  q4 (dec 11143605 3) (dec 0 0) (dec 72696221781332684 19) (dec (-47700932927383763) 21);
  q4 (dec 11143605 3) (dec (-11078904199475075) 16) (dec (-14539244356266542) 18) (dec 4770093292738375 20);
  q4 (dec 1080592 2) (dec (-2215780839895015) 15) (dec (-29139711932418876) 34) (dec 0 0);
  q4 (dec 10468235000000001 12) (dec (-2215780839895015) 15) (dec (-2360316666525929) 31) (dec 10325094779203563 34);
  q4 (dec 10130549999999999 12) (dec (-2215780839895015) 15) (dec 43617733068799014 18) (dec (-19080373170953001) 20);
  q4 (dec 10130549999999999 12) (dec (-2215780839895003) 15) (dec (-11947281892291738) 32) (dec 2676876424237961 34);
  q4 (dec 97928649999999998 13) (dec (-22157808398950212) 16) (dec (-15444047324182003) 32) (dec 76482183549656015 35);
  q4 (dec 94551799999999985 13) (dec (-2215780839895015) 15) (dec 43617733068799 15) (dec (-1908037317095299) 19);
  q4 (dec 94551799999999985 13) (dec (-22157808398950007) 16) (dec (-47497730449843333) 32) (dec 18738134969666172 34);
  q4 (dec 91174950000000008 13) (dec (-2215780839895015) 15) (dec (-58279423864837058) 34) (dec 65009856017206072 35);
  q4 (dec 87798099999999995 13) (dec (-22157808398949719) 16) (dec 43617733068799354 18) (dec (-19080373170953635) 20);
  q4 (dec 87798099999999995 13) (dec (-2215780839894983) 15) (dec (-55365452671595205) 33) (dec 1147232753244813 34);
  q4 (dec 8442125 3) (dec (-22157808398949919) 16) (dec (-6993530863780447) 32) (dec 34416982597344393 35);
  q4 (dec 81044399999999996 13) (dec (-22157808398949888) 16) (dec 36348110890666363 18) (dec (-14310279878215312) 20);
  q4 (dec 81044399999999996 13) (dec (-11078904199474973) 16) (dec (-21808866534399361) 18) (dec 95401865854764518 21);
  q4 (dec 77667549999999992 13) (dec (-11078904199474942) 16) (dec 21808866534399805 18) (dec (-95401865854768652) 21);
  q4 (dec 77667549999999992 13) (dec (-11078904199474942) 16) (dec (-21808866534399087) 18) (dec 95401865854763041 21);
  q4 (dec 74290700000000006 13) (dec (-11078904199475075) 16) (dec 21808866534399549 18) (dec (-9540186585476525) 20);
  q4 (dec 74290700000000006 13) (dec (-11078904199475075) 16) (dec (-21808866534400593) 18) (dec 95401865854771891 21);
  q4 (dec 70913850000000002 13) (dec (-11078904199475237) 16) (dec 21808866534399864 18) (dec (-95401865854766659) 21);
  q4 (dec 70913850000000002 13) (dec (-11078904199475237) 16) (dec (-21808866534400468) 18) (dec 95401865854771769 21);
  q4 (dec 67536999999999998 13) (dec (-11078904199475106) 16) (dec 21808866534399604 18) (dec (-95401865854765534) 21);
  q4 (dec 67536999999999998 13) (dec (-11078904199475106) 16) (dec (-21808866534399174) 18) (dec 95401865854763868 21);
  q4 (dec 64160149999999994 13) (dec (-11078904199474959) 16) (dec 2180886653439984 17) (dec (-95401865854768801) 21);
  q4 (dec 64160149999999994 13) (dec (-11078904199474959) 16) (dec (-21808866534399257) 18) (dec 95401865854763989 21);
  q4 (dec 60783299999999999 13) (dec (-11078904199474959) 16) (dec 2180886653439984 17) (dec (-95401865854768801) 21);
  q4 (dec 60783299999999999 13) (dec (-11078904199474959) 16) (dec (-29078488712532477) 18) (dec 14310279878214664 20);
  q4 (dec 57406449999999995 13) (dec 0 0) (dec 0 0) (dec 0 0);
  q4 (dec 57406449999999995 13) (dec 0 0) (dec 0 0) (dec 0 0);
  q4 (dec 57406449999999995 13) (dec 0 0) (dec (-43617733068798577) 18) (dec 19080373170952825 20);
  q4 (dec 540296 2) (dec 0 0) (dec 0 0) (dec 0 0);
  q4 (dec 540296 2) (dec 0 0) (dec 0 0) (dec 0 0);
  q4 (dec 540296 2) (dec 0 0) (dec (-10904433267200193) 16) (dec 23850466463692804 18);
  q4 (dec 50652749999999996 13) (dec 0 0) (dec 0 0) (dec 0 0);
  q4 (dec 50652749999999996 13) (dec 0 0) (dec 0 0) (dec 0 0);
  q4 (dec 50652749999999996 13) (dec 0 0) (dec (-43617733068798688) 18) (dec 19080373170952877 20);
  q4 (dec 47275899999999992 13) (dec 0 0) (dec 0 0) (dec 0 0);
  q4 (dec 47275899999999992 13) (dec 0 0) (dec 0 0) (dec 0 0);
  q4 (dec 47275899999999992 13) (dec 0 0) (dec (-43617733068798577) 18) (dec 19080373170952825 20);
  q4 (dec 43899049999999997 13) (dec 0 0) (dec 0 0) (dec 0 0);
  q4 (dec 43899049999999997 13) (dec 0 0) (dec 0 0) (dec 0 0);
  q4 (dec 43899049999999997 13) (dec 0 0) (dec (-436177330688007) 16) (dec 1908037317095421 19);
  q4 (dec 40522199999999998 13) (dec 0 0) (dec 0 0) (dec 0 0);
  q4 (dec 40522199999999998 13) (dec 0 0) (dec 0 0) (dec 0 0);
  q4 (dec 40522199999999998 13) (dec 0 0) (dec 0 0) (dec 0 0);
  q4 (dec 40522199999999998 13) (dec 0 0) (dec (-43617733068798577) 18) (dec 19080373170952825 20);
  q4 (dec 37145350000000003 13) (dec 0 0) (dec 0 0) (dec 0 0);
  q4 (dec 37145350000000003 13) (dec 0 0) (dec 0 0) (dec 0 0);
  q4 (dec 37145350000000003 13) (dec 0 0) (dec (-43617733068798688) 18) (dec 19080373170952877 20);
  q4 (dec 33768499999999999 13) (dec 0 0) (dec 0 0) (dec 0 0);
  q4 (dec 33768499999999999 13) (dec 0 0) (dec 0 0) (dec 0 0);
  q4 (dec 33768499999999999 13) (dec 0 0) (dec (-58156977425064572) 19) (dec 19080373170952601 21);
  q4 (dec 33093129999999996 13) (dec (-44315616797900764) 17) (dec (-36424639915524028) 35) (dec 0 0);
  q4 (dec 32417759999999998 13) (dec (-44315616797900775) 17) (dec 1507980092502659 31) (dec (-65487869664391409) 35);
  q4 (dec 31742389999999996 13) (dec (-4431561679790077) 16) (dec (-43617733068800589) 19) (dec 19080373170954228 21);
  q4 (dec 30729335000000001 13) (dec (-44315616797900304) 17) (dec 19669305554382506 33) (dec 0 0);
  q4 (dec 30053964999999998 13) (dec (-44315616797899715) 17) (dec 14934102365364497 33) (dec (-10516300238077453) 35);
  q4 (dec 29378595 4) (dec (-44315616797899954) 17) (dec (-19596456274551928) 32) (dec 80784306374326098 35);
  q4 (dec 28703224999999998 13) (dec (-44315616797900309) 17) (dec 12165829731784736 32) (dec (-54493555779128623) 35);
  q4 (dec 28027855 4) (dec (-44315616797900392) 17) (dec (-88147628595568147) 33) (dec 41587187305126449 35);
  q4 (dec 27352485000000001 13) (dec (-44315616797900181) 17) (dec 16026841562830191 33) (dec (-28680818831120326) 36);
  q4 (dec 26677114999999999 13) (dec (-44315616797899904) 17) (dec 24404508743400517 33) (dec (-86042456493360983) 36);
  q4 (dec 26001745000000001 13) (dec (-44315616797899715) 17) (dec (-26626411778248065) 32) (dec 11615731626604285 34);
  q4 (dec 25326374999999998 13) (dec (-44315616797899715) 17) (dec 43617733068798421 19) (dec (-19080373170952798) 21);
  q4 (dec 24988689999999997 13) (dec (-44315616797900009) 17) (dec (-14934102365364852) 32) (dec 65009856017209163 35);
  q4 (dec 24313319999999999 13) (dec (-44315616797900015) 17) (dec 10927391974656948 34) (dec (-47801364718533874) 37);
  q4 (dec 23637949999999996 13) (dec (-44315616797900009) 17) (dec 38974364709609785 33) (dec 0 0);
  q4 (dec 22962580000000003 13) (dec (-44315616797898821) 17) (dec 36348110890663961 19) (dec (-14310279878214426) 21);
  q4 (dec 22624895000000001 13) (dec (-3323671259842505) 16) (dec (-21808866534399219) 19) (dec 95401865854763634 22);
  q4 (dec 21949524999999999 13) (dec (-33236712598425194) 17) (dec 21808866534399748 19) (dec (-95401865854768225) 22);
  q4 (dec 21611840000000002 13) (dec (-33236712598425061) 17) (dec (-21808866534399141) 19) (dec 95401865854763176 22);
  q4 (dec 20936469999999999 13) (dec (-33236712598425294) 17) (dec 21808866534399904 19) (dec (-95401865854766683) 22);
  q4 (dec 20598784999999998 13) (dec (-33236712598425194) 17) (dec (-2907848871253442) 18) (dec 1431027987821585 20);
  q4 (dec 19923414999999998 13) (dec (-22157808398950538) 17) (dec 11127727494192325 32) (dec (-43977255541051164) 35);
  q4 (dec 19585729999999999 13) (dec (-22157808398950199) 17) (dec 54636959873286042 35) (dec (-14818423062746208) 35);
  q4 (dec 19248044999999997 13) (dec (-22157808398951212) 17) (dec (-43617733068796096) 19) (dec 19080373170951859 21);
  q4 (dec 18572675000000002 13) (dec (-22157808398950385) 17) (dec 75034758225977711 33) (dec (-32743934832195705) 35);
  q4 (dec 1823499 3) (dec (-22157808398950385) 17) (dec (-18212319957762014) 35) (dec 0 0);
  q4 (dec 17897305000000001 13) (dec (-22157808398950382) 17) (dec 74852635026400098 33) (dec (-32743934832195705) 35);
  q4 (dec 1755962 3) (dec (-22157808398950388) 17) (dec (-4361773306880104) 18) (dec 1908037317095439 20);
  q4 (dec 1688425 3) (dec (-22157808398950152) 17) (dec 98346527771912528 34) (dec 0 0);
  q4 (dec 16546564999999998 13) (dec (-22157808398949858) 17) (dec 63743119852165529 34) (dec (-43021228246680491) 36);
  q4 (dec 16208879999999999 13) (dec (-2215780839894996) 16) (dec (-99621390168958217) 33) (dec 40631160010755732 35);
  q4 (dec 15871194999999998 13) (dec (-22157808398950163) 17) (dec 89604614192186982 33) (dec (-39197119069197781) 35);
  q4 (dec 15533510000000001 13) (dec (-2215780839895016) 16) (dec (-86508519799369568) 33) (dec 40631160010755732 35);
  q4 (dec 15195825 4) (dec (-2215780839894996) 16) (dec 18576566356916812 33) (dec (-8126232002150759) 35);
  q4 (dec 14858140000000001 13) (dec (-22157808398949941) 17) (dec (-21854783949313897) 34) (dec (-1195034117963347) 35);
  q4 (dec 14520454999999999 13) (dec (-22157808398950099) 17) (dec (-79041468616687147) 33) (dec 33221948479382625 35);
  q4 (dec 14182769999999998 13) (dec (-22157808398950196) 17) (dec 63560996652587912 33) (dec (-27246777889564311) 35);
  q4 (dec 13845084999999999 13) (dec (-22157808398950155) 17) (dec (-57368807866950348) 33) (dec 27724791536750968 35);
  q4 (dec 135074 2) (dec (-22157808398949971) 17) (dec 19487182354804892 33) (dec (-8126232002150759) 35);
  q4 (dec 13169715000000001 13) (dec (-22157808398949932) 17) (dec (-92882831784584058) 34) (dec 31070887067047022 36);
  q4 (dec 1283203 3) (dec (-22157808398950005) 17) (dec (-1039923469588211) 31) (dec 45411296482609351 35);
  q4 (dec 12494344999999998 13) (dec (-22157808398950005) 17) (dec 43617733068798802 19) (dec (-19080373170952927) 21);
  q4 (dec 12494344999999998 13) (dec (-22157808398950005) 17) (dec (-74852635026401873) 33) (dec 32743934832197265 35);
  q4 (dec 12156659999999999 13) (dec (-22157808398950005) 17) (dec (-58279423864837058) 34) (dec 40631160010753795 36);
  q4 (dec 11818974999999998 13) (dec (-22157808398949913) 17) (dec 26954233537487141 33) (dec (-88432524729287679) 36);
  q4 (dec 11481290000000001 13) (dec (-2215780839894971) 16) (dec (-16208964762408193) 32) (dec 70985026607026192 35);
  q4 (dec 11143605 4) (dec (-22157808398949708) 17) (dec 36348110890665427 19) (dec (-14310279878214664) 21);
  q4 (dec 11143605 4) (dec (-1107890419947523) 16) (dec (-72696221781333805) 20) (dec (-16730477651487654) 36);
  q4 (dec 10805920000000001 13) (dec (-33236712598425577) 17) (dec 0 0) (dec 0 0)].
(** L704-909 *)
Definition MIL_SPEC_210A_Hot_akima_rho : list coefD := [
  q4 (dec 11286787342372164 16) (dec (-10145260276370347) 20) (dec 0 0) (dec 0 0);
  q4 (dec 11286787342372164 16) (dec (-10145260276370347) 20) (dec 0 0) (dec (-11670255058236031) 40);
  q4 (dec 1113217357576028 15) (dec (-10145260276370348) 20) (dec 88927343543758565 39) (dec (-11670255058236031) 40);
  q4 (dec 10977559809148396 16) (dec (-10145260276370347) 20) (dec 78821103849280498 29) (dec (-64649855723652432) 32);
  q4 (dec 10822946202721015 16) (dec (-10145240756323996) 20) (dec 10640848988706156 27) (dec (-46547895856114997) 30);
  q4 (dec 10668333557400653 16) (dec (-10145240756324111) 20) (dec (-49263189554537328) 29) (dec (-64649852572683615) 32);
  q4 (dec 10513719950973273 16) (dec (-10145260276370168) 20) (dec 16896195273314119 37) (dec (-23340510116472037) 39);
  q4 (dec 10359106184361391 16) (dec (-10145260276370276) 20) (dec (-12183046065494934) 36) (dec 45513994727120604 39);
  q4 (dec 10204492417749507 16) (dec (-10145260276370331) 20) (dec 10031776827109115 28) (dec (-20570408485508762) 31);
  q4 (dec 10049878811322126 16) (dec (-10145244032415679) 20) (dec 12121730309880288 27) (dec (-54854422625300309) 30);
  q4 (dec 98952661660017627 17) (dec (-10145256772772279) 20) (dec (-66669516687045313) 28) (dec 28661435809526992 30);
  q4 (dec 97406519188363705 17) (dec (-10145260276370342) 20) (dec (-88927343543758518) 39) (dec 0 0);
  q4 (dec 95860381522244864 17) (dec (-1014526027637034) 19) (dec (-44463671771879254) 38) (dec 1167025505823602 39);
  q4 (dec 94314243856126023 17) (dec (-1014526027637034) 19) (dec 66569811389947008 23) (dec (-29120531723322328) 25);
  q4 (dec 93283488615736876 17) (dec (-10145176191062597) 20) (dec (-27586357264021798) 28) (dec (-22504336341549495) 35);
  q4 (dec 9173735735699815 16) (dec (-10145260275847576) 20) (dec (-10289258250121389) 32) (dec 45009956411155264 35);
  q4 (dec 90191219690879321 17) (dec (-10145260275847569) 20) (dec 27587386218303522 28) (dec (-22504569746650594) 35);
  q4 (dec 88645088432140606 17) (dec (-10145176191062433) 20) (dec 55473319780224152 23) (dec (-21839912304034796) 25);
  q4 (dec 87614326784371321 17) (dec (-84543651698868949) 21) (dec (-33285285015047576) 23) (dec 14560480818754164 25);
  q4 (dec 86068189118252492 17) (dec (-84543730530437609) 21) (dec 33285819527971097 23) (dec (-14560729724072735) 25);
  q4 (dec 85037438683398414 17) (dec (-84543756808035626) 21) (dec (-33284991897273426) 23) (dec 14560378994581568 25);
  q4 (dec 83491302619124619 17) (dec (-84543651699767427) 21) (dec 33284043589097288 23) (dec (-14559960390091591) 25);
  q4 (dec 824605393695103 15) (dec (-84543730529131064) 21) (dec (-33284336700601684) 23) (dec 14560073525650596 25);
  q4 (dec 80914408110771585 17) (dec (-84543756805830617) 21) (dec 33285095355116406 23) (dec (-14560378996691325) 25);
  q4 (dec 79883652870382416 17) (dec (-8454354658929388) 20) (dec (-3328547468151659) 22) (dec 14560560016215823 25);
  q4 (dec 78337515204263586 17) (dec (-84543651697888966) 21) (dec 33285716072808829 23) (dec (-14560695781967453) 25);
  q4 (dec 77306764769409519 17) (dec (-84543756807463886) 21) (dec (-44379448968232396) 23) (dec 21840161213818885 25);
  q4 (dec 75760627103290679 17) (dec (-67636014448596305) 21) (dec 72412912708886697 28) (dec (-15837983860515374) 30);
  q4 (dec 74729865455521394 17) (dec (-6763491085065305) 20) (dec 96556452114782042 28) (dec (-47517889803644869) 30);
  q4 (dec 73699115020667327 17) (dec (-67635278727305422) 21) (dec (-66568638948961448) 23) (dec 29119988680569048 25);
  q4 (dec 72152978956393521 17) (dec (-67636329754455188) 21) (dec 62066024569110621 28) (dec 15190027324310209 34);
  q4 (dec 71122215706779202 17) (dec (-67634437876186302) 21) (dec 28938273713823379 32) (dec (-12658854034474174) 34);
  q4 (dec 70091466873770158 17) (dec (-67634437876185895) 21) (dec (-34482517960902696) 28) (dec (-49227819994303213) 35);
  q4 (dec 69060710031535977 17) (dec (-67635488937634018) 21) (dec (-66568776875394776) 23) (dec 29120124435984886 25);
  q4 (dec 67514572365417136 17) (dec (-676360144577417) 19) (dec 48275375081438391 28) (dec 68919274759165305 35);
  q4 (dec 66483810717647851 17) (dec (-67634542976288168) 21) (dec 18105122476369324 28) (dec (-11879706247841197) 30);
  q4 (dec 65453060282793774 17) (dec (-67634818877773637) 21) (dec (-17242116343643363) 29) (dec (-56568623174682747) 32);
  q4 (dec 64422305042404615 17) (dec (-67634910847222282) 21) (dec (-17242116343643467) 29) (dec (-11313724751639236) 31);
  q4 (dec 63391548200170433 17) (dec (-67635042232149661) 21) (dec (-46553714233660624) 28) (dec 20364704369727377 30);
  q4 (dec 62360786552401148 17) (dec (-67635042232151084) 21) (dec 5172634906650134 28) (dec 1983943359900135 38);
  q4 (dec 61330029710166944 17) (dec (-67634884570237733) 21) (dec 10345269798182619 28) (dec (-5656862295294857) 30);
  q4 (dec 60299274469777786 17) (dec (-67634963401192369) 21) (dec (-1111591794296978) 35) (dec 24507535622295493 39);
  q4 (dec 59268517627543593 17) (dec (-67634963401194077) 21) (dec (-14850866371807716) 36) (dec 73522606866887353 39);
  q4 (dec 58237760785309389 17) (dec (-67634963401193507) 21) (dec 17242116625543043 28) (dec (-6788234907000684) 30);
  q4 (dec 57207005544920242 17) (dec (-67634910847223055) 21) (dec (-80463211222147165) 29) (dec 30169933001695187 31);
  q4 (dec 56176248702686038 17) (dec (-67634945883203912) 21) (dec 11494851518157083 28) (dec (-37713119084477172) 31);
  q4 (dec 5514549346229688 16) (dec (-67634858294885424) 21) (dec (-10345237695233683) 27) (dec 45254758071888217 30);
  q4 (dec 5411473021268256 16) (dec (-67634858294885424) 21) (dec 66570156228627044 23) (dec (-29120803249618201) 25);
  q4 (dec 53599355796178039 17) (dec (-67634858294885424) 21) (dec (-20690303868652123) 28) (dec 90508953378402973 31);
  q4 (dec 52568598953943846 17) (dec (-67634858293578703) 21) (dec 34484661521615705 29) (dec (-22627590013149372) 31);
  q4 (dec 51537843713554687 17) (dec (-67634910847222865) 21) (dec (-68968680311963215) 29) (dec 22627590118181665 31);
  q4 (dec 50507086871320495 17) (dec (-6763496340086723) 20) (dec 68968894555718866 29) (dec (-4219730823956954) 35);
  q4 (dec 49476331630931331 17) (dec (-67634753186616818) 21) (dec 66569328605110016 23) (dec (-29120486464201969) 25);
  q4 (dec 48960950807046688 17) (dec (-67635068508482076) 21) (dec (-17242191411660417) 28) (dec 67882558959544069 31);
  q4 (dec 47930190761122432 17) (dec (-67635121063269529) 21) (dec 42872761595881547 34) (dec 22627238341683449 31);
  q4 (dec 4689943231704321 16) (dec (-67634963401520638) 21) (dec 55475181914648407 23) (dec (-21840636377491238) 25);
  q4 (dec 4638405629869366 16) (dec (-50726222550936171) 21) (dec (-33285147081118932) 23) (dec 14560435565262734 25);
  q4 (dec 45353297854614433 17) (dec (-50726196273909948) 21) (dec 44379897245307196 23) (dec (-21840489299193442) 25);
  q4 (dec 44837920234419854 17) (dec (-67634858293905752) 21) (dec (-10345194811089449) 28) (dec 22627238353353703 31);
  q4 (dec 43807163392185661 17) (dec (-6763501595500133) 20) (dec (-13793693114932077) 28) (dec 6788227768305746 30);
  q4 (dec 42776404948106439 17) (dec (-67634963401520584) 21) (dec 55475164672504443 23) (dec (-21840625063748642) 25);
  q4 (dec 42261028929756883 17) (dec (-50726196273909955) 21) (dec (-33285181565403859) 23) (dec 14560446879004347 25);
  q4 (dec 41230270485677667 17) (dec (-50726196273909948) 21) (dec 33285198807547337 23) (dec (-14560458192746539) 25);
  q4 (dec 40714894467328111 17) (dec (-50726222550936083) 21) (dec (-44380069666417407) 23) (dec 21840568495248747 25);
  q4 (dec 39684136023248889 17) (dec (-33817534253914185) 21) (dec 10345189450993817 28) (dec (-22627203185040087) 31);
  q4 (dec 3916875840305431 16) (dec (-33817376592736919) 21) (dec 1379374670343857 27) (dec (-67882664476155985) 31);
  q4 (dec 3865338238470476 16) (dec (-3381742914727939) 20) (dec (-55475164671219748) 23) (dec 21840625063327318 25);
  q4 (dec 37622623940625533 17) (dec (-50726196273909955) 21) (dec 33284612575322187 23) (dec (-1456020929062813) 24);
  q4 (dec 3710724311674089 16) (dec (-50726275104498666) 21) (dec (-44379104109934473) 23) (dec 21840093319972478 25);
  q4 (dec 3607648947819676 16) (dec (-33817954683394193) 21) (dec 31035520153916614 28) (dec (-67881715124247507) 31);
  q4 (dec 35561108654312118 17) (dec (-33817481702067047) 21) (dec 413811436984023 26) (dec (-2036468332650721) 29);
  q4 (dec 35045732635962568 17) (dec (-33817639360549338) 21) (dec (-6656981138608638) 22) (dec 29120667484641722 25);
  q4 (dec 3401497419188334 16) (dec (-33817534253913365) 21) (dec 10345189410087117 28) (dec (-22627203097512632) 31);
  q4 (dec 33499596571688761 17) (dec (-33817376592736716) 21) (dec 13793725213701366 28) (dec (-67882523557826157) 31);
  q4 (dec 32984220553339211 17) (dec (-33817429146952293) 21) (dec (-66570018288695918) 23) (dec 29120712738695794 25);
  q4 (dec 31953462109259984 17) (dec (-33817639361530521) 21) (dec 68967180165480395 29) (dec 42196141214064222 36);
  q4 (dec 3143808288722037 16) (dec (-33817429146625244) 21) (dec 25344292909970951 37) (dec (-16338357081530133) 39);
  q4 (dec 30922705267025796 17) (dec (-33817429146625623) 21) (dec (-99153988051291036) 37) (dec 32676714163061048 39);
  q4 (dec 30407327646831211 17) (dec (-33817429146626369) 21) (dec (-26667846320584314) 28) (dec 8447607090906524 30);
  q4 (dec 29891946822946569 17) (dec (-33817653376297624) 21) (dec (-77497878697156507) 24) (dec 66907101391640699 27);
  q4 (dec 29376570804597019 17) (dec (-49731117021713881) 21) (dec (-12269728988324831) 21) (dec 27407640358455931 23);
  q4 (dec 28861193184402439 17) (dec (-33817863591833032) 21) (dec 18391476178335234 28) (dec (-24135603467410184) 31);
  q4 (dec 28345812360517797 17) (dec (-3381747118995918) 20) (dec 1931110526395495 27) (dec (-10861126208970214) 30);
  q4 (dec 27830434740323218 17) (dec (-33817639361202699) 21) (dec (-66569604479617104) 23) (dec 29120576974421918 25);
  q4 (dec 26799677898089019 17) (dec (-33817534254241221) 21) (dec 20690475505984108 28) (dec (-90509516649099545) 31);
  q4 (dec 26284300277894446 17) (dec (-33817534254241214) 21) (dec (-68968893915442399) 29) (dec 45255039072958148 31);
  q4 (dec 25768921055854832 17) (dec (-33817429146626958) 21) (dec 76477515447632552 37) (dec (-2509104837520759) 38);
  q4 (dec 25253543435660247 17) (dec (-33817429146626375) 21) (dec 11471627317144746 36) (dec (-50182096750413981) 39);
  q4 (dec 24738165815465665 17) (dec (-33817429146626375) 21) (dec (-66570294162557895) 23) (dec 29120848503251292 25);
  q4 (dec 23707405769541409 17) (dec (-33817534254241221) 21) (dec 20690453998016799 28) (dec (-90509375684088707) 31);
  q4 (dec 2319202814934683 16) (dec (-33817534253914544) 21) (dec (-34485090378176309) 29) (dec 22627730750590247 31);
  q4 (dec 22676648927307216 17) (dec (-33817481700596889) 21) (dec 31035809572402543 28) (dec (-13576469630778526) 30);
  q4 (dec 22161272908957669 17) (dec (-33817481700597018) 21) (dec (-31035809459464448) 28) (dec 13576469581763133 30);
  q4 (dec 21645892085073026 17) (dec (-33817481700596882) 21) (dec 11494744214422631 28) (dec (-52797381583023512) 31);
  q4 (dec 21130514464878442 17) (dec (-33817499218587189) 21) (dec (-80463209465832123) 29) (dec 37712415385602545 31);
  q4 (dec 20615135242838833 17) (dec (-33817481700597011) 21) (dec 10345269796848708 28) (dec (-45254898469725208) 31);
  q4 (dec 20099757622644249 17) (dec (-33817481700596808) 21) (dec (-10345269858208576) 28) (dec 45254898755646462 31);
  q4 (dec 19584378400604638 17) (dec (-33817481700596903) 21) (dec 10345269932907422 28) (dec (-45254899082412521) 31);
  q4 (dec 19069000780410059 17) (dec (-33817481700596808) 21) (dec (-68968680365319615) 29) (dec 22627590129851919 31);
  q4 (dec 18553621558370445 17) (dec (-33817534254241221) 21) (dec 68968251446509869 29) (dec (-58351275291180441) 41);
  q4 (dec 18038243938175866 17) (dec (-33817324039010819) 21) (dec 62131566475873268 23) (dec (-26208478547190747) 25);
  q4 (dec 18038243938175866 17) (dec (-27053859231208983) 21) (dec (-64104959306855672) 24) (dec 12942637325743448 26);
  q4 (dec 17522866317981284 17) (dec (-37574973179095831) 21) (dec (-14639434852127069) 23) (dec 88475672678468109 26);
  q4 (dec 1700748709594167 16) (dec (-33817408124724241) 21) (dec 33284748444196178 22) (dec (-72801175433208837) 24);
  q4 (dec 1700748709594167 16) (dec (-33817097008466057) 21) (dec (-20483288128848407) 28) (dec 36655460422806037 31);
  q4 (dec 1649211107759212 16) (dec (-3381746593381027) 20) (dec (-37242980117904231) 28) (dec 18328214036253711 30);
  q4 (dec 15976730734260988 17) (dec (-3381732403974294) 20) (dec 66569542408070716 23) (dec (-2912053624516783) 24);
  q4 (dec 15976730734260988 17) (dec (-33817334550413649) 21) (dec (-75864557276372486) 29) (dec (-9283104386073897) 36);
  q4 (dec 154613527936974 15) (dec (-33817565786231036) 21) (dec (-14147762330078817) 33) (dec 61888529599330329 36);
  q4 (dec 14945973091104281 17) (dec (-33817565786231029) 21) (dec 1379376596821364 27) (dec (-78766635977305742) 36);
  q4 (dec 1443059659220122 16) (dec (-33817145357732569) 21) (dec 66569390678596045 23) (dec (-29120513617831189) 25);
  q4 (dec 1443059659220122 16) (dec (-33817460678715002) 21) (dec (-15517947588710081) 28) (dec 61094267923283925 31);
  q4 (dec 139152170497926 15) (dec (-33817507977516277) 21) (dec 86819765501772721 35) (dec 20364618831426625 31);
  q4 (dec 1339983894904451 16) (dec (-33817366082126816) 21) (dec 55474712928974628 23) (dec (-21840446306872353) 25);
  q4 (dec 1339983894904451 16) (dec (-16908730339504509) 21) (dec (-33284902243119707) 23) (dec 14560324690778767 25);
  q4 (dec 1288446084829642 16) (dec (-16908730339504309) 21) (dec 4437980758604491 22) (dec (-21840446306871257) 25);
  q4 (dec 1288446084829642 16) (dec (-33817366082124492) 21) (dec (-93107125615470248) 29) (dec 20364619158192798 31);
  q4 (dec 12369082747548329 17) (dec (-3381750797751623) 20) (dec (-1241432489466645) 27) (dec 61094091673259818 31);
  q4 (dec 11853703205139711 17) (dec (-3381746067912582) 20) (dec 55474859486762585 23) (dec (-21840501744054968) 25);
  q4 (dec 11853703205139711 17) (dec (-16908764499575355) 21) (dec (-33284933278946978) 23) (dec 14560341661373016 25);
  q4 (dec 11338324463653608 17) (dec (-16908740850291926) 21) (dec 33284922933645205 23) (dec (-1456033374175192) 24);
  q4 (dec 11338324463653608 17) (dec (-16908740850291926) 21) (dec (-33284879828381501) 23) (dec 14560314508432474 25);
  q4 (dec 10822946362905519 17) (dec (-16908743477986612) 21) (dec 33284928106273333 23) (dec (-14560336004494228) 25);
  q4 (dec 10822946362905519 17) (dec (-16908743477986612) 21) (dec (-3328497983266217) 22) (dec 14560358631960559 25);
  q4 (dec 10307567461234912 17) (dec (-16908743477986635) 21) (dec 33284928106273381 23) (dec (-14560336004494249) 25);
  q4 (dec 10307567461234912 17) (dec (-16908743477986635) 21) (dec (-33284878104172563) 23) (dec 14560314508432548 25);
  q4 (dec 97921893604868221 18) (dec (-16908740850291926) 21) (dec 33284922933645205 23) (dec (-1456033374175192) 24);
  q4 (dec 97921893604868221 18) (dec (-16908740850291922) 21) (dec (-33284972935827306) 23) (dec 14560357500597338 25);
  q4 (dec 92768106190007207 18) (dec (-16908727711772892) 21) (dec 33284897070418766 23) (dec (-14560322428004568) 25);
  q4 (dec 92768106190007207 18) (dec (-16908727711772892) 21) (dec (-44379769653261124) 23) (dec 21840442912656067 25);
  q4 (dec 87614333191751451 18) (dec 0 0) (dec 0 0) (dec 0 0);
  q4 (dec 87614333191751451 18) (dec 0 0) (dec 0 0) (dec 0 0);
  q4 (dec 87614333191751451 18) (dec 0 0) (dec (-55474828450814659) 23) (dec 2184048137931015 24);
  q4 (dec 82460552184270536 18) (dec (-16908743477987015) 21) (dec 33284928106273333 23) (dec (-14560336004493883) 25);
  q4 (dec 82460552184270536 18) (dec (-16908743477987015) 21) (dec (-44379955868088116) 23) (dec 21840526634208741 25);
  q4 (dec 77306763167564491 18) (dec 0 0) (dec 0 0) (dec 0 0);
  q4 (dec 77306763167564491 18) (dec 0 0) (dec 0 0) (dec 0 0);
  q4 (dec 77306763167564491 18) (dec 0 0) (dec 0 0) (dec 0 0);
  q4 (dec 77306763167564491 18) (dec 0 0) (dec (-66569804486239361) 23) (dec 29120649381557438 25);
  q4 (dec 72152982160083576 18) (dec 0 0) (dec 0 0) (dec 0 0);
  q4 (dec 72152982160083576 18) (dec 0 0) (dec 0 0) (dec 0 0);
  q4 (dec 72152982160083576 18) (dec 0 0) (dec (-66569887248394822) 23) (dec 29120685585474279 25);
  q4 (dec 66999194745222548 18) (dec 0 0) (dec 0 0) (dec 0 0);
  q4 (dec 66999194745222548 18) (dec 0 0) (dec 0 0) (dec 0 0);
  q4 (dec 66999194745222548 18) (dec 0 0) (dec (-66569804486236015) 23) (dec 29120649381555283 25);
  q4 (dec 61845413737741647 18) (dec 0 0) (dec 0 0) (dec 0 0);
  q4 (dec 61845413737741647 18) (dec 0 0) (dec 0 0) (dec 0 0);
  q4 (dec 61845413737741647 18) (dec 0 0) (dec 0 0) (dec 0 0);
  q4 (dec 61845413737741647 18) (dec 0 0) (dec (-6656994932001703) 22) (dec 29120712738415561 25);
  q4 (dec 56691621517345532 18) (dec 0 0) (dec 0 0) (dec 0 0);
  q4 (dec 56691621517345532 18) (dec 0 0) (dec 0 0) (dec 0 0);
  q4 (dec 56691621517345532 18) (dec 0 0) (dec (-66569845867318669) 23) (dec 29120667483516897 25);
  q4 (dec 51537837306174561 18) (dec 0 0) (dec 0 0) (dec 0 0);
  q4 (dec 51537837306174561 18) (dec 0 0) (dec 0 0) (dec 0 0);
  q4 (dec 51537837306174561 18) (dec 0 0) (dec 0 0) (dec 0 0);
  q4 (dec 51537837306174561 18) (dec 0 0) (dec (-66569845867315323) 23) (dec 29120667483514742 25);
  q4 (dec 46384053095003604 18) (dec 0 0) (dec 0 0) (dec 0 0);
  q4 (dec 46384053095003604 18) (dec 0 0) (dec 0 0) (dec 0 0);
  q4 (dec 46384053095003604 18) (dec 0 0) (dec 0 0) (dec 0 0);
  q4 (dec 46384053095003604 18) (dec 0 0) (dec 0 0) (dec 0 0);
  q4 (dec 46384053095003604 18) (dec 0 0) (dec (-66569763105156686) 23) (dec 29120631279595825 25);
  q4 (dec 41230275291212759 18) (dec 0 0) (dec 0 0) (dec 0 0);
  q4 (dec 41230275291212759 18) (dec 0 0) (dec 0 0) (dec 0 0);
  q4 (dec 41230275291212759 18) (dec 0 0) (dec 0 0) (dec 0 0);
  q4 (dec 41230275291212759 18) (dec 0 0) (dec 0 0) (dec 0 0);
  q4 (dec 41230275291212759 18) (dec 0 0) (dec (-66569845867315503) 23) (dec 29120667483514816 25);
  q4 (dec 36076491080041788 18) (dec 0 0) (dec 0 0) (dec 0 0);
  q4 (dec 36076491080041788 18) (dec 0 0) (dec 0 0) (dec 0 0);
  q4 (dec 36076491080041788 18) (dec 0 0) (dec 0 0) (dec 0 0);
  q4 (dec 36076491080041788 18) (dec 0 0) (dec 0 0) (dec 0 0);
  q4 (dec 36076491080041788 18) (dec 0 0) (dec (-66569845867315419) 23) (dec 29120667483514783 25);
  q4 (dec 30922706868870824 18) (dec 0 0) (dec 0 0) (dec 0 0);
  q4 (dec 30922706868870824 18) (dec 0 0) (dec 0 0) (dec 0 0);
  q4 (dec 30922706868870824 18) (dec 0 0) (dec 0 0) (dec 0 0);
  q4 (dec 30922706868870824 18) (dec 0 0) (dec 0 0) (dec 0 0);
  q4 (dec 30922706868870824 18) (dec 0 0) (dec 0 0) (dec 0 0);
  q4 (dec 30922706868870824 18) (dec 0 0) (dec 0 0) (dec 0 0);
  q4 (dec 30922706868870824 18) (dec 0 0) (dec (-66569887248394822) 23) (dec 29120685585474279 25);
  q4 (dec 25768919454009796 18) (dec 0 0) (dec 0 0) (dec 0 0);
  q4 (dec 25768919454009796 18) (dec 0 0) (dec 0 0) (dec 0 0);
  q4 (dec 25768919454009796 18) (dec 0 0) (dec 0 0) (dec 0 0);
  q4 (dec 25768919454009796 18) (dec 0 0) (dec 0 0) (dec 0 0);
  q4 (dec 25768919454009796 18) (dec 0 0) (dec 0 0) (dec 0 0);
  q4 (dec 25768919454009796 18) (dec 0 0) (dec 0 0) (dec 0 0);
  q4 (dec 25768919454009796 18) (dec 0 0) (dec 0 0) (dec 0 0);
  q4 (dec 25768919454009796 18) (dec 0 0) (dec 0 0) (dec 0 0);
  q4 (dec 25768919454009796 18) (dec 0 0) (dec (-6656980448623917) 22) (dec 29120649381557359 25);
  q4 (dec 20615138446528895 18) (dec 0 0) (dec 0 0) (dec 0 0);
  q4 (dec 20615138446528895 18) (dec 0 0) (dec 0 0) (dec 0 0);
  q4 (dec 20615138446528895 18) (dec 0 0) (dec 0 0) (dec 0 0);
  q4 (dec 20615138446528895 18) (dec 0 0) (dec 0 0) (dec 0 0);
  q4 (dec 20615138446528895 18) (dec 0 0) (dec 0 0) (dec 0 0);
  q4 (dec 20615138446528895 18) (dec 0 0) (dec 0 0) (dec 0 0);
  q4 (dec 20615138446528895 18) (dec 0 0) (dec 0 0) (dec 0 0);
  q4 (dec 20615138446528895 18) (dec 0 0) (dec 0 0) (dec 0 0);
  q4 (dec 20615138446528895 18) (dec 0 0) (dec 0 0) (dec 0 0);
  q4 (dec 20615138446528895 18) (dec 0 0) (dec (-66569856212588488) 23) (dec 2912067200900675 24);
  q4 (dec 15461353434435412 18) (dec 0 0) (dec 0 0) (dec 0 0);
  q4 (dec 15461353434435412 18) (dec 0 0) (dec 0 0) (dec 0 0);
  q4 (dec 15461353434435412 18) (dec 0 0) (dec 0 0) (dec 0 0);
  q4 (dec 15461353434435412 18) (dec 0 0) (dec 0 0) (dec 0 0);
  q4 (dec 15461353434435412 18) (dec 0 0) (dec 0 0) (dec 0 0);
  q4 (dec 15461353434435412 18) (dec 0 0) (dec 0 0) (dec 0 0);
  q4 (dec 15461353434435412 18) (dec 0 0) (dec 0 0) (dec 0 0);
  q4 (dec 15461353434435412 18) (dec 0 0) (dec 0 0) (dec 0 0)].
(** L911-1116 *)
Definition MIL_SPEC_210A_Hot_akima_dT : list coefD := [
  q4 (dec (-69262175561385477) 19) (dec (-42770495150806125) 34) (dec 0 0) (dec 0 0);
  q4 (dec (-69262175561385477) 19) (dec (-42770495150806125) 34) (dec 59328843635262112 37) (dec 39852191866056537 39);
  q4 (dec (-69262175561389206) 19) (dec 30808597018712241 35) (dec 19721091589767739 36) (dec (-90473800697122909) 39);
  q4 (dec (-69262175561387359) 19) (dec 15106342910701606 36) (dec 24094000486123519 39) (dec (-31842095204573444) 41);
  q4 (dec (-69262175561387342) 19) (dec 26348842531484018 38) (dec 21438690773648424 39) (dec (-15201848719778645) 41);
  q4 (dec (-69262175561387342) 19) (dec (-37942333245336998) 37) (dec (-38926083178029815) 38) (dec 14923444552018274 40);
  q4 (dec (-69262175561387385) 19) (dec (-18458432389623413) 36) (dec 83975370451487377 38) (dec (-27550974557577002) 40);
  q4 (dec (-69262175561387316) 19) (dec 455307998943931 34) (dec 38634326663341236 26) (dec (-25350608046890271) 28);
  q4 (dec (-69262175561387524) 19) (dec (-5887871383543283) 23) (dec (-14922720898514188) 24) (dec 48959058066029257 27);
  q4 (dec (-71084864391950759) 19) (dec (-11959900462995765) 22) (dec (-33401656428308665) 25) (dec 21917097393979035 27);
  q4 (dec (-72907553222508635) 19) (dec (-6869488023268762) 22) (dec 90150761459441054 25) (dec (-29577021476092412) 27);
  q4 (dec (-72907553222514064) 19) (dec 11838007972494765 34) (dec (-32638456784915681) 37) (dec 21416310226539503 39);
  q4 (dec (-7290755322251226) 18) (dec 16812108786667026 34) (dec 18329234293937507 36) (dec (-87041902643949737) 39);
  q4 (dec (-72907553222508522) 19) (dec 12031184692036233 34) (dec (-11486311075349682) 35) (dec 49042031653734556 38);
  q4 (dec (-72907553222516007) 19) (dec 36399602459901978 35) (dec 19380110087207843 36) (dec (-86967961646851118) 39);
  q4 (dec (-7290755322251403) 18) (dec 21136256448306717 35) (dec (-69914274870798727) 37) (dec 36530112881606654 39);
  q4 (dec (-72907553222514038) 19) (dec 6256943701044371 34) (dec 15922422839163054 36) (dec (-78242807281964841) 39);
  q4 (dec (-72907553222512156) 19) (dec 27102860509829905 36) (dec (-65443911360953119) 38) (dec 21471099527877867 40);
  q4 (dec (-72907553222512191) 19) (dec (-22765399947173746) 36) (dec 31628398376954319 38) (dec 13004830647944599 41);
  q4 (dec (-72907553222512148) 19) (dec 82699370569877255 36) (dec 43034111987784994 24) (dec (-18482017177685566) 26);
  q4 (dec (-69454459218238236) 19) (dec 23903047533287301 23) (dec (-6532140100574072) 25) (dec (-57308271888841712) 29);
  q4 (dec (-69262175561387359) 19) (dec 22636750266911249 35) (dec 21081928665762584 37) (dec (-14758074483268338) 39);
  q4 (dec (-69262175561387047) 19) (dec (-15935779962998808) 35) (dec (-82855698846020813) 38) (dec 54367256460459634 40);
  q4 (dec (-6926217556138729) 18) (dec (-33085714589933837) 36) (dec 4570844878344565 37) (dec (-2064804825746861) 39);
  q4 (dec (-69262175561387307) 19) (dec (-376363466869068) 34) (dec (-87674037512308211) 38) (dec 41877652239262508 40);
  q4 (dec (-6926217556138742) 18) (dec (-130747229426499) 34) (dec 28341687527374636 37) (dec (-1239793855090757) 38);
  q4 (dec (-6926217556138722) 18) (dec (-13074722942649898) 36) (dec (-51439434066249) 36) (dec 16533550393806759 41);
  q4 (dec (-69262175561387246) 19) (dec (-17233334244208754) 36) (dec (-48631718843645455) 39) (dec 80919128105092792 42);
  q4 (dec (-69262175561387281) 19) (dec (-26418057401417462) 36) (dec (-10667903225484017) 35) (dec 47887553023069934 38);
  q4 (dec (-69262175561395148) 19) (dec 82455731635611433 35) (dec 2644916439711596 35) (dec (-86775473743943042) 39);
  q4 (dec (-6926217556139082) 18) (dec 28399836434076752 34) (dec (-11352824120578804) 36) (dec (-23078892665809773) 50);
  q4 (dec (-69262175561389128) 19) (dec (-62035714856081614) 35) (dec (-47086222295277466) 24) (dec 20597647548241058 26);
  q4 (dec (-72907553222512373) 19) (dec (-85370249801979989) 36) (dec 37344816186351672 38) (dec (-97433525734142296) 53);
  q4 (dec (-72907553222512416) 19) (dec 28456749933951752 36) (dec (-14589632852011716) 38) (dec 95732499029168332 41);
  q4 (dec (-72907553222512373) 19) (dec 50691350400570721 36) (dec 39670800060599476 36) (dec (-16888255043874233) 38);
  q4 (dec (-7290755322250906) 18) (dec 37507445483688061 35) (dec (-47719396289809259) 36) (dec 15655969911397212 38);
  q4 (dec (-7290755322251403) 18) (dec (-3261143542417013) 33) (dec 28456749933859801 36) (dec 88859375469536712 51);
  q4 (dec (-7290755322251239) 18) (dec 54124738374296764 34) (dec 18311308670317334 24) (dec (-68658825160571408) 27);
  q4 (dec (-71084864391950612) 19) (dec 79732669753396707 23) (dec (-15695407431758677) 24) (dec 68658825160795548 27);
  q4 (dec (-71084864391949779) 19) (dec 79732669753373573 23) (dec 36622617340782567 24) (dec (-17164706290205679) 26);
  q4 (dec (-67439486730825971) 19) (dec 6829619984161315 35) (dec (-59751705898179426) 38) (dec 24504472563229676 40);
  q4 (dec (-67439486730825919) 19) (dec 56913499868009044 36) (dec 37344816186357437 38) (dec (-19603578050583191) 40);
  q4 (dec (-67439486730825815) 19) (dec 34148099920791992 36) (dec (-23543111147628611) 24) (dec 10298823774114487 26);
  q4 (dec (-692621755613867) 17) (dec (-86508519799329009) 35) (dec 3286343824401092 36) (dec (-2893568408930089) 50);
  q4 (dec (-69262175561387255) 19) (dec 13659239968215052 35) (dec (-97195579950997569) 38) (dec 63776627264891912 40);
  q4 (dec (-69262175561387047) 19) (dec 28471846353065936 35) (dec 44298894065831118 36) (dec (-1877628730068279) 37);
  q4 (dec (-6926217556138297) 18) (dec 70421509869482694 35) (dec (-11969062093228454) 35) (dec 52225860613064178 38);
  q4 (dec (-6926217556139121) 18) (dec 61207297030907048 35) (dec 40569053322766813 36) (dec (-18644996557331587) 38);
  q4 (dec (-69262175561387454) 19) (dec (-13806034153859738) 36) (dec (-30345038066282981) 38) (dec 16053929869107742 40);
  q4 (dec (-69262175561387489) 19) (dec 55617064791285676 37) (dec 35651191265085687 39) (dec (-22834981680371606) 41);
  q4 (dec (-6926217556138748) 18) (dec 51739545334550514 38) (dec (-82498093938948926) 39) (dec 27400455684333895 41);
  q4 (dec (-69262175561387489) 19) (dec (-55361313507969102) 37) (dec 66915120639368952 38) (dec (-2927170631643426) 39);
  q4 (dec (-69262175561387446) 19) (dec (-5536131350796911) 36) (dec (-32267958175018713) 36) (dec 10586600451132735 38);
  q4 (dec (-69262175561391201) 19) (dec (-24643545442794949) 34) (dec 48622950674532354 36) (dec (-21269882184834533) 38);
  q4 (dec (-69262175561391193) 19) (dec (-24643545442793658) 34) (dec (-19619259289647259) 24) (dec 77241178305715722 27);
  q4 (dec (-71084864391950785) 19) (dec (-59799502314968034) 23) (dec 39238518579369552 25) (dec 77857696936871193 40);
  q4 (dec (-71084864391950647) 19) (dec 59799502315004329 23) (dec 10463604954503164 24) (dec (-42911765725482144) 27);
  q4 (dec (-69262175561389371) 19) (dec 79732669753379184 23) (dec (-15695407431749544) 24) (dec 68658825160758169 27);
  q4 (dec (-69262175561388001) 19) (dec 79732669753376781 23) (dec 36622617340802313 24) (dec (-17164706290214437) 26);
  q4 (dec (-65616797900262657) 19) (dec 17074049960414274 36) (dec (-67220669135456239) 38) (dec 29405367075875848 40);
  q4 (dec (-65616797900262683) 19) (dec 17074049960401443 36) (dec 67220669135443393 39) (dec (-44108050613807059) 41);
  q4 (dec (-65616797900262657) 19) (dec 68296199841606247 37) (dec (-13036735832327637) 38) (dec 56137518963025143 41);
  q4 (dec (-65616797900262657) 19) (dec 62087454401460211 37) (dec 33678234233512453 38) (dec (-14970005056806258) 40);
  q4 (dec (-65616797900262622) 19) (dec 45530799894404174 37) (dec (-5576825883829079) 37) (dec 24831198864068422 40);
  q4 (dec (-65616797900262657) 19) (dec 75884666490673965 37) (dec 72199977960287531 39) (dec (-31038998580085629) 41);
  q4 (dec (-6561679790026264) 18) (dec 79678899815207869 37) (dec (-3286343824399286) 38) (dec 11762146830348247 41);
  q4 (dec (-65616797900262631) 19) (dec 6146657985744613 36) (dec 18670243176297601 38) (dec (-2645062487694405) 40);
  q4 (dec (-65616797900262588) 19) (dec 44623483229841713 36) (dec 3447630131986362 36) (dec (-11311122480269184) 39);
  q4 (dec (-65616797900262119) 19) (dec 30733289928726979 35) (dec 2427413052113586 36) (dec (-48426535343607744) 52);
  q4 (dec (-65616797900261087) 19) (dec 10472083975711514 34) (dec 47086222295273356 24) (dec (-20597647548240003) 26);
  q4 (dec (-61971420239137773) 19) (dec 79678899815217821 36) (dec (-39212056995693027) 38) (dec 85765653971375931 41);
  q4 (dec (-61971420239137712) 19) (dec 19919724953812201 36) (dec (-46705916777082792) 38) (dec 22070361621949957 40);
  q4 (dec (-61971420239137712) 19) (dec 31340367260649596 36) (dec 45078670181965233 24) (dec (-19280356135293266) 26);
  q4 (dec (-58326042578010669) 19) (dec 30595094207744246 23) (dec (-79626276988763582) 25) (dec 11146285492741677 27);
  q4 (dec (-59314619570858436) 19) (dec (-13444151253023701) 22) (dec (-16673834151880542) 24) (dec 9223379234657201 26);
  q4 (dec (-6197142023913773) 18) (dec (-16237210721575136) 34) (dec 40167807661736347 36) (dec (-16327239311556821) 38);
  q4 (dec (-61971420239136654) 19) (dec (-75694954824376847) 35) (dec (-52091159589102569) 37) (dec 34180550911454283 39);
  q4 (dec (-61971420239137808) 19) (dec 36919723892070752 36) (dec 48645440861335941 38) (dec (-15959790308837871) 40);
  q4 (dec (-61971420239137695) 19) (dec 73987549828404592 36) (dec (-97278691919572579) 38) (dec 34425795601015704 40);
  q4 (dec (-61971420239137686) 19) (dec 1735167678902078 35) (dec 2153659599302276 22) (dec (-35841077054832415) 26);
  q4 (dec (-36453776611263442) 19) (dec 36532059596099481 21) (dec 11728749917200385 21) (dec (-26964193154090046) 23);
  q4 (dec 72907553222516198 20) (dec 51673293477712813 36) (dec (-17938035945609749) 37) (dec 76464413623354245 40);
  q4 (dec 72907553222515526 20) (dec 37705193662553256 36) (dec 22881352540409899 38) (dec (-15014010853287184) 40);
  q4 (dec 72907553222516101 20) (dec 28340123909682982 37) (dec 14315731726549677 53) (dec (-91389631280882066) 42);
  q4 (dec 72907553222516111 20) (dec (-35337685368864075) 37) (dec (-39051351844051737) 39) (dec 22460759380185971 41);
  q4 (dec 72907553222516046 20) (dec 21342562450502107 38) (dec 39212056995673259 39) (dec (-17459436701298125) 41);
  q4 (dec 72907553222516079 20) (dec 0 0) (dec 0 0) (dec 0 0);
  q4 (dec 72907553222516079 20) (dec 0 0) (dec 0 0) (dec 0 0);
  q4 (dec 72907553222516079 20) (dec 0 0) (dec 0 0) (dec 0 0);
  q4 (dec 72907553222516079 20) (dec 0 0) (dec 0 0) (dec 0 0);
  q4 (dec 72907553222516079 20) (dec 0 0) (dec (-56017224279533238) 39) (dec 24504472563225444 41);
  q4 (dec 72907553222516035 20) (dec 17996758818016259 52) (dec 19619259289718413 24) (dec (-7724117830598347) 26);
  q4 (dec 9113444152814489 19) (dec 59799502315024721 23) (dec (-3923851857938191) 24) (dec (-19827755686294964) 39);
  q4 (dec 91134441528144901 20) (dec (-5979950231507062) 22) (dec (-15695407431718826) 24) (dec 77241178305673381 27);
  q4 (dec 7290755322253476 19) (dec (-4287009377548742) 33) (dec 24108412899196078 36) (dec (-52730561896659938) 39);
  q4 (dec 72907553222506755 20) (dec (-61288725170468354) 35) (dec 51426373462529106 48) (dec 52730561896700587 39);
  q4 (dec 72907553222516079 20) (dec 30612348741447111 34) (dec 23543111147607399 24) (dec (-10298823774109571) 26);
  q4 (dec 91134441528140228 20) (dec 91844160411977663 35) (dec (-40145677400321516) 37) (dec 24462034120486206 53);
  q4 (dec 91134441528144901 20) (dec (-3051986430420178) 34) (dec (-53250572855391957) 49) (dec 27953056617003715 51);
  q4 (dec 91134441528140249 20) (dec (-30519864304169318) 35) (dec 40414779752199282 37) (dec (-12857640897859642) 39);
  q4 (dec 91134441528140434 20) (dec 3075839882572441 35) (dec 7847703715886811 24) (dec (-34329412580432612) 27);
  q4 (dec 97210070963350619 20) (dec 11501976387641571 36) (dec (-1255632594541809) 22) (dec 54927060128688168 26);
  q4 (dec (-21684043449710089) 35) (dec 1046204041691401 37) (dec 38068746446650189 39) (dec (-19963118941462786) 41);
  q4 (dec 0 0) (dec 48505823751163619 38) (dec (-9017924363178471) 38) (dec 24365242605463516 40);
  q4 (dec 0 0) (dec 17785468708736497 37) (dec 47086222295343991 24) (dec (-20597647548268644) 26);
  q4 (dec 36453776611279864 20) (dec 60363880797436665 35) (dec (-5209601857995274) 35) (dec 22789159483793906 38);
  q4 (dec 36453776611248732 20) (dec 60363880797436674 35) (dec 39608845667740919 37) (dec (-25990056212399733) 39);
  q4 (dec 36453776611257931 20) (dec 0 0) (dec 0 0) (dec 0 0);
  q4 (dec 36453776611257931 20) (dec 0 0) (dec 0 0) (dec 0 0);
  q4 (dec 36453776611257931 20) (dec 0 0) (dec (-11438053076149537) 38) (dec 38296132862179981 41);
  q4 (dec 36453776611257801 20) (dec (-81794820525506753) 37) (dec 46408250311270568 38) (dec (-20650608238718251) 40);
  q4 (dec 36453776611258023 20) (dec (-10614956345745512) 36) (dec (-96087069847018949) 37) (dec 40732447998086565 39);
  q4 (dec 36453776611249962 20) (dec (-10122266103473913) 35) (dec 92201358628004626 38) (dec (-39890455959502063) 40);
  q4 (dec 36453776611249149 20) (dec (-98138766858366491) 36) (dec (-79519808170176415) 38) (dec 45270529532523184 40);
  q4 (dec 36453776611247409 20) (dec (-25082405962471744) 36) (dec 11447961108060618 37) (dec (-40120297550958943) 40);
  q4 (dec 36453776611248265 20) (dec 44304127997070807 36) (dec (-91398568027787899) 38) (dec 4120369297953115 39);
  q4 (dec 36453776611248276 20) (dec 5281741792525867 35) (dec 11409153847204958 36) (dec (-5022832810697087) 38);
  q4 (dec 36453776611257801 20) (dec 30554229112018042 36) (dec (-95337137556997094) 39) (dec (-16087175818150541) 42);
  q4 (dec 36453776611258039 20) (dec 37455893075526412 38) (dec 29591138623971459 39) (dec (-21029445137848938) 41);
  q4 (dec 36453776611258039 20) (dec (-52588073878038219) 37) (dec (-13209181786904873) 38) (dec 44992313343869933 41);
  q4 (dec 36453776611257812 20) (dec (-14170973327204576) 36) (dec 58209701478841977 38) (dec (-26120973493967083) 40);
  q4 (dec 36453776611258023 20) (dec (-1875164162086826) 35) (dec (-92170181790412548) 37) (dec 38420749911453083 39);
  q4 (dec 3645377661124993 19) (dec (-1510454332023263) 34) (dec 64117878049812109 38) (dec (-10885320712118963) 40);
  q4 (dec 36453776611248732 20) (dec (-31460094821310766) 36) (dec 18094749929089025 38) (dec 12546009902713819 40);
  q4 (dec 36453776611249116 20) (dec 11110988744997116 35) (dec 94842451536709723 37) (dec (-42496699389608649) 39);
  q4 (dec 36453776611257795 20) (dec 40853387843336044 36) (dec (-1727472858948036) 37) (dec 17785951563417819 42);
  q4 (dec 36453776611258023 20) (dec (-10560708170249874) 36) (dec (-12318082733731933) 38) (dec 75756646536781428 41);
  q4 (dec 36453776611257844 20) (dec 46789463833793327 37) (dec 18787315219905437 38) (dec (-83692198600557453) 41);
  q4 (dec 36453776611258056 20) (dec 36282356165854596 37) (dec (-59605882175972899) 39) (dec 18895281379415445 41);
  q4 (dec 36453776611258039 20) (dec (-1373919157127841) 36) (dec (-7225216383696723) 38) (dec (-18100098529388822) 42);
  q4 (dec 36453776611257844 20) (dec (-24657544327894919) 36) (dec (-1035309480022486) 35) (dec 4447555144925008 38);
  q4 (dec 36453776611249165 20) (dec (-81345387952599751) 36) (dec 39613812674936601 38) (dec (-38343847498237425) 41);
  q4 (dec 3645377661124871 19) (dec 12680563096487763 36) (dec 21170467469402908 38) (dec (-69456914269671218) 41);
  q4 (dec 36453776611249149 20) (dec 28812459308189478 36) (dec 33834796944701113 37) (dec (-13395015503760183) 39);
  q4 (dec 36453776611252705 20) (dec 12676882432283199 35) (dec (-14511506266251204) 24) (dec 49447307282867785 27);
  q4 (dec 20252098117365841 20) (dec (-97775323515885686) 23) (dec 17178993787683366 24) (dec (-93910837401293407) 28);
  q4 (dec 32165097009928013 20) (dec 27923917004206655 22) (dec 23095722020041488 22) (dec (-51517479275379491) 24);
  q4 (dec 10936132983374364 19) (dec 30944157643119177 34) (dec (-11013363937561905) 36) (dec 26844787358501708 40);
  q4 (dec 10936132983376617 19) (dec (-75410387325100397) 36) (dec (-48070324793670161) 38) (dec 31542207869859329 40);
  q4 (dec 10936132983376502 19) (dec (-21512123395719797) 37) (dec 73778264060549339 38) (dec (-24205467211449926) 40);
  q4 (dec 10936132983376584 19) (dec 54067824874679768 36) (dec 62971557732867848 37) (dec 10016950247732374 39);
  q4 (dec 10936132983378484 19) (dec 26713947517297622 34) (dec 36690249136391088 24) (dec (-15221591801569518) 26);
  q4 (dec 14069878692064219 19) (dec 5771967967379426 22) (dec (-1869501311020018) 24) (dec 18699800259096217 28);
  q4 (dec 14581510644503216 19) (dec 13766791899875013 23) (dec (-86620953601215453) 27) (dec (-53590016287969975) 28);
  q4 (dec 14581510644503034 19) (dec (-26213480466903378) 23) (dec (-20103021847543329) 24) (dec 91701855523063404 27);
  q4 (dec 12758821813939865 19) (dec (-14086091217331296) 35) (dec 59751705898172524 38) (dec (-26586914202987337) 53);
  q4 (dec 12758821813939789 19) (dec 41262287404295784 36) (dec 39469016740084273 38) (dec (-25898304947558258) 40);
  q4 (dec 12758821813939852 19) (dec (-18888494107569825) 36) (dec (-83511916930494425) 38) (dec 36588100088667763 40);
  q4 (dec 12758821813939759 19) (dec (-18496887457101539) 36) (dec 14258929816608471 38) (dec (-16707594929473007) 42);
  q4 (dec 12758821813939763 19) (dec 23800190853893023 36) (dec 60931709798848012 38) (dec (-26949512830896542) 40);
  q4 (dec 12758821813939846 19) (dec 21743167182582795 36) (dec (-78949841986206346) 38) (dec 25902179129334131 40);
  q4 (dec 12758821813939787 19) (dec (-38416612410895959) 36) (dec 625525671121388 36) (dec 17620956781707007 53);
  q4 (dec 12758821813939874 19) (dec 15224361214691264 35) (dec 2354311114765704 23) (dec (-10298823774127499) 26);
  q4 (dec 1458151064450304 18) (dec 56486648618976165 35) (dec (-44673736362900177) 37) (dec 97711584345763567 40);
  q4 (dec 14581510644503209 19) (dec (-11596125598109735) 35) (dec 24309670699086101 25) (dec (-15951227492848266) 27);
  q4 (dec 14581510644502687 19) (dec (-37042584715987396) 23) (dec (-10834175841751638) 24) (dec 35545196331216709 27);
  q4 (dec 12758821813939787 19) (dec (-11959900463005978) 22) (dec (-20904611181919232) 25) (dec 13716936471097587 27);
  q4 (dec 10936132983378473 19) (dec (-87745270107028967) 23) (dec 11515127310615361 24) (dec (-37779289076791701) 27);
  q4 (dec 10936132983377415 19) (dec 69861321088122825 35) (dec (-61609132883089562) 25) (dec 40425940212061578 27);
  q4 (dec 10936132983380602 19) (dec 93892318514314905 23) (dec 33735808550612838 25) (dec (-11068178658329221) 27);
  q4 (dec 12758821813940314 19) (dec 11959900462993937 22) (dec 16369102187335361 25) (dec (-10740880700334778) 27);
  q4 (dec 14581510644501188 19) (dec 94652492896554394 23) (dec (-12421586994270273) 24) (dec 40753238170116339 27);
  q4 (dec 14581510644502279 19) (dec (-21783642074420705) 34) (dec (-89245906457901537) 37) (dec 5856030607448745 38);
  q4 (dec 14581510644498959 19) (dec (-81825659304109395) 35) (dec 61841344427871463 37) (dec 43927805133469882 40);
  q4 (dec 14581510644499304 19) (dec 13727445829274152 34) (dec 27953253987534765 36) (dec (-13709420741481789) 38);
  q4 (dec 14581510644503036 19) (dec 34054492190756862 35) (dec (-11035081228663072) 37) (dec 84874630891624282 41);
  q4 (dec 14581510644503329 19) (dec 6333398027323963 35) (dec 23095729409771695 38) (dec (-27108234338178409) 40);
  q4 (dec 14581510644503383 19) (dec (-55153039914459027) 36) (dec (-82123508527910153) 37) (dec 36841671636401404 39);
  q4 (dec 14581510644502695 19) (dec 87498904324634256 37) (dec 44689582842189144 37) (dec (-19715032833599576) 39);
  q4 (dec 14581510644503049 19) (dec (-28014874935027049) 37) (dec (-3495982902706392) 38) (dec 16623150101985264 41);
  q4 (dec 14581510644503042 19) (dec (-18746845395711094) 37) (dec 33773745151174795 39) (dec (-14089675521782349) 41);
  q4 (dec 14581510644503042 19) (dec (-13977496818968691) 37) (dec (-33096355513693627) 37) (dec 13812996136168169 39);
  q4 (dec 1458151064450276 18) (dec (-47722666320583988) 36) (dec 83180899976605361 37) (dec (-36352961117054734) 39);
  q4 (dec 14581510644503333 19) (dec (-45344285615812037) 36) (dec (-32604131555490723) 37) (dec 149533325701106 37);
  q4 (dec 14581510644503036 19) (dec 27893249935309127 37) (dec 33934893476269703 39) (dec (-15898253788956843) 41);
  q4 (dec 14581510644503042 19) (dec 20552097174557347 37) (dec (-1323118225470409) 38) (dec (-16695919461327172) 43);
  q4 (dec 14581510644503042 19) (dec (-20939872592945469) 37) (dec (-34094284911051948) 37) (dec 14497782407667515 39);
  q4 (dec 1458151064450276 18) (dec (-31121747150048105) 36) (dec 22574983725713095 37) (dec (-53865387081156464) 40);
  q4 (dec 14581510644503047 19) (dec 28164439101347425 35) (dec 46472598556748325 37) (dec (-23200416544576974) 39);
  q4 (dec 14581510644503734 19) (dec 81587275330066846 36) (dec (-53967226583405187) 37) (dec 22342029208766772 39);
  q4 (dec 14581510644503396 19) (dec (-66019659846885365) 37) (dec 10650200991743445 39) (dec (-30676052506082055) 42);
  q4 (dec 14581510644503387 19) (dec (-54932086221661254) 37) (dec 34744535810620556 39) (dec (-11399125922134572) 41);
  q4 (dec 14581510644503383 19) (dec (-28456749934071909) 37) (dec (-18961830418718921) 36) (dec 63926343539543149 50);
  q4 (dec 14581510644498974 19) (dec (-57824115865744475) 34) (dec (-19619259289596827) 24) (dec 77241178305537956 27);
  q4 (dec 12758821813939757 19) (dec (-59799502315007018) 23) (dec 39238518579472081 25) (dec (-31191932173905544) 39);
  q4 (dec 12758821813940314 19) (dec 59799502315007707 23) (dec 15695407431729017 24) (dec (-7724117830571739) 26);
  q4 (dec 1458151064450118 18) (dec 36282356165774309 34) (dec (-19045856254995226) 36) (dec 3790371456432128 50);
  q4 (dec 14581510644502286 19) (dec (-21769413699423901) 34) (dec (-15859098607254108) 36) (dec 10406232681887286 38);
  q4 (dec 14581510644498968 19) (dec 23998525777676284 35) (dec 22968509937031842 36) (dec (-98680844051590587) 39);
  q4 (dec 14581510644501175 19) (dec 3649742849651523 34) (dec (-96078419703611707) 37) (dec 4720685808879808 38);
  q4 (dec 14581510644501171 19) (dec 72574952137255104 35) (dec 1210731362620085 35) (dec (-57823526909489544) 39);
  q4 (dec 14581510644503042 19) (dec 38707263957849058 35) (dec (-82725545052487351) 38) (dec (-14356864725407244) 40);
  q4 (dec 14581510644503389 19) (dec 34890449919083244 36) (dec 20317182606183601 38) (dec (-30804238999157174) 40);
  q4 (dec 14581510644503381 19) (dec (-11781833609039207) 35) (dec (-2559378740148984) 36) (dec 12554868240723924 39);
  q4 (dec 14581510644503051 19) (dec (-23127906315788017) 36) (dec 13976635186594399 38) (dec (-41140465079217446) 41);
  q4 (dec 14581510644503034 19) (dec (-91926793135969951) 37) (dec 16716026313782044 38) (dec (-63979423243444665) 41);
  q4 (dec 14581510644503036 19) (dec (-28213529849097143) 37) (dec (-12977642811238224) 36) (dec 42577568278394572 39);
  q4 (dec 14581510644501524 19) (dec (-9917177351975323) 34) (dec 19578019885744601 36) (dec (-42197423468586516) 50);
  q4 (dec 1458151064450456 18) (dec 49756627259480768 34) (dec 23543111147569557 24) (dec (-10298823774096961) 26);
  q4 (dec 16404199475065569 19) (dec 17358617459759678 35) (dec (-78424113991590476) 38) (dec 83077628591397015 52);
  q4 (dec 16404199475065651 19) (dec (-65450524848194444) 36) (dec (-56322772775616956) 38) (dec 3695719998399544 39);
  q4 (dec 16404199475065552 19) (dec 20385380861812919 36) (dec 34866478384899634 38) (dec (-11439133328379681) 40);
  q4 (dec 16404199475065623 19) (dec 46953637391103464 36) (dec (-2427413052112932) 37) (dec (-50012421453960148) 54);
  q4 (dec 16404199475065638 19) (dec (-27033912437302897) 36) (dec (-23543111147651577) 24) (dec 51494118870629192 27);
  q4 (dec 12758821813941149 19) (dec (-35879701389021126) 22) (dec 0 0) (dec 0 0)].
Definition MIL_SPEC_210A_Hot_D : tableD := {| t_alt := MIL_SPEC_210A_Hot_alt; t_T := MIL_SPEC_210A_Hot_akima_T; t_P := MIL_SPEC_210A_Hot_akima_P; t_rho := MIL_SPEC_210A_Hot_akima_rho; t_dT := MIL_SPEC_210A_Hot_akima_dT |}.
Definition MIL_SPEC_210A_Hot : tableQ := tableQ_of MIL_SPEC_210A_Hot_D.

(** MIL_SPEC_210A_Polar.py *)
(** L238-290 *)
Definition MIL_SPEC_210A_Polar_alt : list decimal := [dec 0 0; dec 1524 1; dec 3048 1; dec 45720000000000005 14; dec 6096 1; dec 762 0; dec 9144000000000001 13; dec 9884664 4; dec 10668 1; dec 12192 1; dec 13716000000000001 13; dec 1524 0; dec 16764 1; dec 18288000000000002 13; dec 19812 1; dec 21336 1; dec 2286 0; dec 24384 1; dec 25908 1; dec 27432000000000003 13; dec 28956000000000004 13; dec 30120336 4; dec 3048 0; dec 32004 1; dec 33528 1; dec 35052000000000003 13; dec 36576000000000004 13; dec 3810 0; dec 39624 1; dec 41148 1; dec 42672 1; dec 44196 1; dec 4572 0; dec 4724400000000001 12; dec 48768 1; dec 50292 1; dec 51816 1; dec 5334 0; dec 5486400000000001 12; dec 56388 1; dec 5791200000000001 12; dec 59436 1; dec 6096 0; dec 6248400000000001 12; dec 64008 1; dec 6553200000000001 12; dec 67056 1; dec 6858 0; dec 7010400000000001 12; dec 71628 1; dec 7315200000000001 12; dec 74676 1; dec 7620 0; dec 7772400000000001 12; dec 79248 1; dec 8077200000000001 12; dec 82296 1; dec 8382 0; dec 85344 1; dec 8686800000000001 12; dec 88392 1; dec 89916 1; dec 9144 0; dec 9163812 3; dec 92964 1; dec 9448800000000001 12; dec 96012 1; dec 97536 1; dec 9906 0; dec 100584 1; dec 10210800000000001 12; dec 103632 1; dec 105156 1; dec 10668 0; dec 108204 1; dec 10972800000000001 12; dec 111252 1; dec 112776 1; dec 11430 0; dec 11582400000000001 12; dec 11734800000000001 12; dec 118872 1; dec 120396 1; dec 12192 0; dec 12344400000000001 12; dec 12496800000000001 12; dec 126492 1; dec 128016 1; dec 12954 0; dec 13106400000000001 12; dec 13258800000000001 12; dec 134112 1; dec 135636 1; dec 13716 0; dec 13868400000000001 12; dec 14020800000000001 12; dec 141732 1; dec 143256 1; dec 14478 0; dec 14630400000000001 12; dec 14782800000000001 12; dec 149352 1; dec 150876 1; dec 15240 0; dec 15392400000000001 12; dec 15544800000000001 12; dec 156972 1; dec 158496 1; dec 16002 0; dec 16154400000000001 12; dec 16306800000000001 12; dec 164592 1; dec 16611600000000002 12; dec 16764 0; dec 169164 1; dec 170688 1; dec 172212 1; dec 17373600000000002 12; dec 17526 0; dec 176784 1; dec 178308 1; dec 179832 1; dec 18135600000000002 12; dec 18288 0; dec 184404 1; dec 185928 1; dec 187452 1; dec 18897600000000002 12; dec 19050 0; dec 192024 1; dec 193548 1; dec 195072 1; dec 19659600000000002 12; dec 19812 0; dec 199644 1; dec 201168 1; dec 202692 1; dec 20421600000000002 12; dec 20574 0; dec 207264 1; dec 208788 1; dec 210312 1; dec 21183600000000002 12; dec 21336 0; dec 214884 1; dec 216408 1; dec 217932 1; dec 21945600000000002 12; dec 22098 0; dec 222504 1; dec 22402800000000003 12; dec 225552 1; dec 22707600000000002 12; dec 22860 0; dec 230124 1; dec 23164800000000003 12; dec 233172 1; dec 23469600000000002 12; dec 23622 0; dec 237744 1; dec 23926800000000003 12; dec 240792 1; dec 24231600000000002 12; dec 24384 0; dec 245364 1; dec 24688800000000003 12; dec 248412 1; dec 24993600000000002 12; dec 25146 0; dec 252984 1; dec 25450800000000003 12; dec 256032 1; dec 25755600000000002 12; dec 25908 0; dec 260604 1; dec 26212800000000003 12; dec 262408416 4; dec 263652 1; dec 26517600000000002 12; dec 26670 0; dec 268224 1; dec 26974800000000003 12; dec 271272 1; dec 27279600000000002 12; dec 27432 0; dec 275844 1; dec 27736800000000003 12; dec 278892 1; dec 28041600000000002 12; dec 28194 0; dec 283464 1; dec 28498800000000003 12; dec 286512 1; dec 28803600000000002 12; dec 28956 0; dec 291084 1; dec 29260800000000003 12; dec 294132 1; dec 29565600000000002 12; dec 29718 0; dec 298704 1; dec 30022800000000003 12; dec 301752 1; dec 30327600000000002 12; dec 30480 0].
(** L292-498 *)
Definition MIL_SPEC_210A_Polar_akima_T : list coefD := [
  q4 (dec 24664999999999998 14) (dec 54680664916886938 19) (dec 0 0) (dec 0 0);
  q4 (dec 24664999999999998 14) (dec 54680664916886938 19) (dec (-59190039862725705) 35) (dec (-746896323727106) 37);
  q4 (dec 24748333333333332 14) (dec 54680664916885065 19) (dec (-11951834972281151) 34) (dec 39585505157536619 37);
  q4 (dec 24831666666666663 14) (dec 54680664916884145 19) (dec 12065661972017159 34) (dec 0 0);
  q4 (dec 24914999999999998 14) (dec 54680664916887849 19) (dec 71759402778012081 22) (dec (-31390814863522177) 24);
  q4 (dec 25003888888888886 14) (dec 54680664916887927 19) (dec (-19862811453933915) 34) (dec 49295157365989014 37);
  q4 (dec 25087222222222221 14) (dec 54680664916885247 19) (dec (-15821952963305515) 34) (dec 54523431632078681 37);
  q4 (dec 25170555555555552 14) (dec 54680664916884258 19) (dec 66995450590873957 21) (dec (-80745399871424041) 23);
  q4 (dec 25214999999999998 14) (dec 21036201681930728 19) (dec (-66909721619383842) 21) (dec 39575965615551521 23);
  q4 (dec 25209444444444443 14) (dec (-10936132983378208) 19) (dec (-76833224821807361) 35) (dec 45747399828285192 37);
  q4 (dec 25192777777777775 14) (dec (-10936132983377358) 19) (dec (-32725262424103132) 36) (dec 41266021885922561 37);
  q4 (dec 25176111111111109 14) (dec (-10936132983374585) 19) (dec 71759402778011581 22) (dec (-31390814863522164) 24);
  q4 (dec 25164999999999998 14) (dec (-10936132983374585) 19) (dec (-1836883208239876) 33) (dec 40145677400331905 37);
  q4 (dec 25148333333333332 14) (dec (-10936132983377382) 19) (dec (-24487033318209345) 34) (dec 12043703220099572 36);
  q4 (dec 25131666666666663 14) (dec (-1093613298337645) 18) (dec 71759402778048292 22) (dec (-31390814863538218) 24);
  q4 (dec 25120555555555552 14) (dec (-1093613298337645) 18) (dec (-35570937417503457) 36) (dec 14937926474542148 38);
  q4 (dec 25103888888888886 14) (dec (-1093613298337645) 18) (dec (-14228374967001363) 37) (dec 0 0);
  q4 (dec 25087222222222221 14) (dec (-1093613298337645) 18) (dec (-36723435789830515) 34) (dec 16058270960132762 36);
  q4 (dec 25070555555555552 14) (dec (-1093613298337645) 18) (dec 71759402778085129 22) (dec (-31390814863554278) 24);
  q4 (dec 25059444444444443 14) (dec (-1093613298337645) 18) (dec (-33337082547684192) 34) (dec 13836254397044625 36);
  q4 (dec 25042777777777775 14) (dec (-10936132983376966) 19) (dec 6303170110381604 34) (dec (-19232580335972963) 37);
  q4 (dec 25026111111111109 14) (dec (-1093613298337638) 18) (dec 96245238682101909 22) (dec (-72383838750175805) 24);
  q4 (dec 25014999999999998 14) (dec (-17962534031197115) 19) (dec (-14474143728879802) 20) (dec 18306742899186389 22);
  q4 (dec 24998333333333332 14) (dec (-51035287255760875) 19) (dec (-1001677597676896) 33) (dec 56017224279532896 37);
  q4 (dec 24920555555555552 14) (dec (-51035287255760068) 19) (dec 22936140446806198 34) (dec (-11502203385397421) 36);
  q4 (dec 24842777777777775 14) (dec (-51035287255761109) 19) (dec (-71759402778000595) 22) (dec 31390814863514812 24);
  q4 (dec 24759444444444443 14) (dec (-51035287255762835) 19) (dec 11325786473733085 34) (dec 0 0);
  q4 (dec 24681666666666663 14) (dec (-510352872557594) 17) (dec (-10244429976241011) 35) (dec 67220669135439857 38);
  q4 (dec 24603888888888886 14) (dec (-51035287255759253) 19) (dec 0 0) (dec 0 0);
  q4 (dec 24526111111111109 14) (dec (-51035287255759253) 19) (dec 0 0) (dec 0 0);
  q4 (dec 24448333333333332 14) (dec (-51035287255759253) 19) (dec (-38815006909979834) 34) (dec 16805167283859968 36);
  q4 (dec 24370555555555552 14) (dec (-51035287255759374) 19) (dec 36424639915523378 35) (dec (-11950341179633611) 37);
  q4 (dec 24292777777777775 14) (dec (-51035287255759097) 19) (dec (-20488859952482021) 35) (dec 0 0);
  q4 (dec 24214999999999998 14) (dec (-51035287255759704) 19) (dec (-71759402778074821) 22) (dec 31390814863550176 24);
  q4 (dec 24131666666666663 14) (dec (-510352872557594) 17) (dec (-56913499868005617) 37) (dec 0 0);
  q4 (dec 24053888888888886 14) (dec (-510352872557594) 17) (dec (-56913499868005617) 37) (dec 0 0);
  q4 (dec 23976111111111109 14) (dec (-510352872557594) 17) (dec 56913499868005281 35) (dec (-23900682359267223) 37);
  q4 (dec 23898333333333332 14) (dec (-51035287255759357) 19) (dec (-25041939941922473) 34) (dec 82158595609982059 37);
  q4 (dec 23820555555555552 14) (dec (-51035287255761265) 19) (dec 42685124901003959 34) (dec (-18672408093177516) 36);
  q4 (dec 23742777777777775 14) (dec (-51035287255761265) 19) (dec (-71759402778004051) 22) (dec 31390814863517088 24);
  q4 (dec 23659444444444443 14) (dec (-51035287255762514) 19) (dec 10073689476636935 34) (dec 74689632372710071 39);
  q4 (dec 23581666666666663 14) (dec (-510352872557594) 17) (dec (-56913499868005617) 37) (dec 0 0);
  q4 (dec 23503888888888886 14) (dec (-510352872557594) 17) (dec (-56913499868005617) 37) (dec 0 0);
  q4 (dec 23426111111111109 14) (dec (-510352872557594) 17) (dec (-71759402778076811) 22) (dec 31390814863550176 24);
  q4 (dec 23342777777777775 14) (dec (-51035287255759704) 19) (dec 19350589955121911 35) (dec 0 0);
  q4 (dec 23264999999999998 14) (dec (-51035287255759097) 19) (dec 0 0) (dec 0 0);
  q4 (dec 23187222222222221 14) (dec (-51035287255759097) 19) (dec (-20488859952482021) 35) (dec 0 0);
  q4 (dec 23109444444444443 14) (dec (-51035287255759704) 19) (dec (-71759402778069383) 22) (dec 31390814863545246 24);
  q4 (dec 23026111111111109 14) (dec (-51035287255761265) 19) (dec 42685124901003959 34) (dec (-18672408093177516) 36);
  q4 (dec 22948333333333332 14) (dec (-51035287255761265) 19) (dec 0 0) (dec 0 0);
  q4 (dec 22870555555555552 14) (dec (-51035287255761265) 19) (dec 42628211401135951 34) (dec (-18672408093177516) 36);
  q4 (dec 22792777777777775 14) (dec (-51035287255761256) 19) (dec (-71759402777998131) 22) (dec 31390814863513204 24);
  q4 (dec 22709444444444443 14) (dec (-51035287255763433) 19) (dec 21342562450502106 34) (dec (-46307572071080794) 37);
  q4 (dec 22631666666666663 14) (dec (-51035287255760181) 19) (dec 28456749934002638 34) (dec (-14041650886069493) 36);
  q4 (dec 22553888888888886 14) (dec (-51035287255761265) 19) (dec (-71759402778061133) 22) (dec 31390814863546589 24);
  q4 (dec 22470555555555552 14) (dec (-510352872557594) 17) (dec 49514744885164595 35) (dec (-19419304416904618) 37);
  q4 (dec 22392777777777775 14) (dec (-51035287255759244) 19) (dec (-11382699973601123) 36) (dec (-67220669135439857) 38);
  q4 (dec 22314999999999998 14) (dec (-51035287255759704) 19) (dec (-59799502315068466) 22) (dec 23543111147665322 24);
  q4 (dec 22231666666666663 14) (dec (-52857976086322601) 19) (dec 35879701389039418 22) (dec (-15695407431775836) 24);
  q4 (dec 22153888888888886 14) (dec (-52857976086322601) 19) (dec (-47839601852045976) 22) (dec 23543111147660504 24);
  q4 (dec 22070555555555552 14) (dec (-510352872557594) 17) (dec (-56913499868005617) 37) (dec 0 0);
  q4 (dec 21992777777777775 14) (dec (-510352872557594) 17) (dec (-56913499868005617) 37) (dec 0 0);
  q4 (dec 21914999999999998 14) (dec (-510352872557594) 17) (dec (-39413109180766403) 22) (dec 10166212765576055 24);
  q4 (dec 21831666666666663 14) (dec (-55964862399990834) 19) (dec (-68039847447109363) 20) (dec 27168697968168432 21);
  q4 (dec 21814999999999998 14) (dec (-56420290541869659) 20) (dec 1797241060582736 21) (dec (-52958393110266418) 25);
  q4 (dec 21809444444444443 14) (dec (-36691356660138155) 20) (dec 34213589614100124 23) (dec (-21426945806370121) 25);
  q4 (dec 21803888888888886 14) (dec (-41192767570713415) 20) (dec (-65540254537305991) 22) (dec 29350411897415516 24);
  q4 (dec 21792777777777775 14) (dec (-36453776611267369) 20) (dec 36705650321121875 34) (dec (-1605360285810956) 35);
  q4 (dec 21787222222222221 14) (dec (-36453776611267374) 20) (dec 3557093741750351 37) (dec 0 0);
  q4 (dec 21781666666666663 14) (dec (-36453776611267374) 20) (dec 36709207414863625 34) (dec (-1605360285810956) 35);
  q4 (dec 21776111111111109 14) (dec (-36453776611267369) 20) (dec (-71759402778046276) 22) (dec 31390814863537014 24);
  q4 (dec 21764999999999998 14) (dec (-36453776611267369) 20) (dec 30587449085311267 34) (dec (-12039035118076346) 36);
  q4 (dec 21759444444444443 14) (dec (-3645377661125805) 19) (dec 0 0) (dec (-40098996380099195) 37);
  q4 (dec 21753888888888886 14) (dec (-36453776611286017) 20) (dec (-71759402778024651) 22) (dec 31390814863530654 24);
  q4 (dec 21742777777777775 14) (dec (-36453776611266946) 20) (dec 35862619104327035 34) (dec (-15684822798269302) 36);
  q4 (dec 21737222222222221 14) (dec (-36453776611266935) 20) (dec (-71141874835006175) 38) (dec 46681020232943236 40);
  q4 (dec 21731666666666663 14) (dec (-36453776611266935) 20) (dec 35851947823101787 34) (dec (-15680154696246007) 36);
  q4 (dec 21726111111111109 14) (dec (-36453776611266941) 20) (dec (-71759402778049681) 22) (dec 3139081486353888 23);
  q4 (dec 21714999999999998 14) (dec (-36453776611266941) 20) (dec 29883144524444698 34) (dec (-11763617098701976) 36);
  q4 (dec 21709444444444443 14) (dec (-36453776611257833) 20) (dec 35570937417503087 38) (dec (-39212056995672322) 37);
  q4 (dec 21703888888888886 14) (dec (-36453776611285155) 20) (dec (-71759402778025507) 22) (dec 31390814863530853 24);
  q4 (dec 21692777777777775 14) (dec (-36453776611267369) 20) (dec 30587449085311267 34) (dec (-12039035118076346) 36);
  q4 (dec 21687222222222221 14) (dec (-3645377661125805) 19) (dec 3557093741750351 37) (dec (-40145677400332146) 37);
  q4 (dec 21681666666666663 14) (dec (-36453776611286023) 20) (dec (-71759402778036586) 22) (dec 31390814863538496 24);
  q4 (dec 21670555555555552 14) (dec (-36453776611248726) 20) (dec 71497584209181206 36) (dec (-28008612139765944) 38);
  q4 (dec 21664999999999998 14) (dec (-36453776611248504) 20) (dec 3557093741750351 37) (dec (-98030142489183149) 39);
  q4 (dec 21659444444444443 14) (dec (-36453776611249171) 20) (dec (-71759402778060506) 22) (dec 31390814863538311 24);
  q4 (dec 21648333333333332 14) (dec (-36453776611286017) 20) (dec 12232845377879457 34) (dec 46681020232944353 40);
  q4 (dec 21642777777777775 14) (dec (-36453776611248726) 20) (dec 0 0) (dec 46681020232944353 40);
  q4 (dec 21637222222222221 14) (dec (-36453776611248721) 20) (dec (-11955392066022787) 34) (dec 46681020232943236 40);
  q4 (dec 21631666666666663 14) (dec (-36453776611285155) 20) (dec (-71759402778037729) 22) (dec 3139081486353888 23);
  q4 (dec 21620555555555552 14) (dec (-36453776611248726) 20) (dec 3557093741750351 37) (dec 0 0);
  q4 (dec 21614999999999998 14) (dec (-36453776611248726) 20) (dec 3557093741750351 37) (dec 0 0);
  q4 (dec 21609444444444443 14) (dec (-36453776611248726) 20) (dec (-71759402778061633) 22) (dec 3139081486353888 23);
  q4 (dec 21598333333333332 14) (dec (-36453776611285155) 20) (dec 17931309552163306 34) (dec (-39212056995672322) 37);
  q4 (dec 21592777777777775 14) (dec (-36453776611257833) 20) (dec 23910784132045859 34) (dec (-11768285200725271) 36);
  q4 (dec 21587222222222221 14) (dec (-36453776611266946) 20) (dec (-7175940277803717) 21) (dec 31390814863530654 24);
  q4 (dec 21576111111111109 14) (dec (-36453776611286017) 20) (dec 12232845377879457 34) (dec 46681020232944353 40);
  q4 (dec 21570555555555552 14) (dec (-36453776611248726) 20) (dec 0 0) (dec 46681020232944353 40);
  q4 (dec 21564999999999998 14) (dec (-36453776611248726) 20) (dec 85725959176182435 36) (dec (-37344816186354592) 38);
  q4 (dec 21559444444444443 14) (dec (-36453776611248726) 20) (dec (-71759402778061065) 22) (dec 31390814863538496 24);
  q4 (dec 21548333333333332 14) (dec (-36453776611286023) 20) (dec 18358160801173562 34) (dec (-40145677400332146) 37);
  q4 (dec 21542777777777775 14) (dec (-3645377661125805) 19) (dec 24472804943242417 34) (dec (-12039035118076346) 36);
  q4 (dec 21537222222222221 14) (dec (-36453776611267369) 20) (dec (-7175940277803717) 21) (dec 31390814863530853 24);
  q4 (dec 21526111111111109 14) (dec (-36453776611285155) 20) (dec 11955392066022787 34) (dec 0 0);
  q4 (dec 21520555555555552 14) (dec (-36453776611248726) 20) (dec 3557093741750351 37) (dec 0 0);
  q4 (dec 21514999999999998 14) (dec (-36453776611248726) 20) (dec 71141874835007021 38) (dec (-46681020232944353) 40);
  q4 (dec 21509444444444443 14) (dec (-36453776611248732) 20) (dec (-71759402778060777) 22) (dec 31390814863538311 24);
  q4 (dec 21498333333333332 14) (dec (-36453776611286456) 20) (dec 18781454956441853 34) (dec (-41032616784758086) 37);
  q4 (dec 21492777777777775 14) (dec (-36453776611257833) 20) (dec 25045497035663922 34) (dec (-12323789341497014) 36);
  q4 (dec 21487222222222221 14) (dec (-36453776611267369) 20) (dec (-71759402778036315) 22) (dec 31390814863530284 24);
  q4 (dec 21476111111111109 14) (dec (-36453776611286462) 20) (dec 18792126237667105 34) (dec (-41125978825223973) 37);
  q4 (dec 21470555555555552 14) (dec (-36453776611257839) 20) (dec 25052611223147425 34) (dec (-1232845744352031) 35);
  q4 (dec 21464999999999998 14) (dec (-36453776611267369) 20) (dec (-71759402778051112) 22) (dec 31390814863539813 24);
  q4 (dec 21453888888888886 14) (dec (-36453776611267808) 20) (dec 38420169504645081 34) (dec (-16805167283859565) 36);
  q4 (dec 21448333333333332 14) (dec (-36453776611267808) 20) (dec 35570937417503934 38) (dec 0 0);
  q4 (dec 21442777777777775 14) (dec (-36453776611267803) 20) (dec 38413055317161582 34) (dec (-16800499181836273) 36);
  q4 (dec 21437222222222221 14) (dec (-36453776611267808) 20) (dec (-71759402778032605) 22) (dec 31390814863528226 24);
  q4 (dec 21426111111111109 14) (dec (-36453776611287335) 20) (dec 19222534580419126 34) (dec (-42059599229883857) 37);
  q4 (dec 21420555555555552 14) (dec (-3645377661125805) 19) (dec 25614632034343975 34) (dec (-12603875462894674) 36);
  q4 (dec 21414999999999998 14) (dec (-36453776611267808) 20) (dec (-71759402778051104) 22) (dec 31390814863539998 24);
  q4 (dec 21403888888888886 14) (dec (-36453776611266935) 20) (dec 36705650321121436 34) (dec (-16053602858109181) 36);
  q4 (dec 21398333333333332 14) (dec (-36453776611266941) 20) (dec 35570937417503087 38) (dec 0 0);
  q4 (dec 21392777777777775 14) (dec (-36453776611266941) 20) (dec 35005359512565621 34) (dec (-15311374636406113) 36);
  q4 (dec 21387222222222221 14) (dec (-36453776611266941) 20) (dec (-7175940277803374) 21) (dec 31390814863528596 24);
  q4 (dec 21376111111111109 14) (dec (-36453776611287335) 20) (dec 19218977486677377 34) (dec (-42012918209650914) 37);
  q4 (dec 21370555555555552 14) (dec (-36453776611258045) 20) (dec 25607517846860472 34) (dec (-1259920736087138) 35);
  q4 (dec 21364999999999998 14) (dec (-36453776611267808) 20) (dec (-71759402778045979) 22) (dec 31390814863537 21);
  q4 (dec 21353888888888886 14) (dec (-36453776611266946) 20) (dec 3501247370004912 33) (dec (-15316042738429405) 36);
  q4 (dec 21348333333333332 14) (dec (-36453776611266941) 20) (dec 35570937417503087 38) (dec 0 0);
  q4 (dec 21342777777777775 14) (dec (-36453776611266941) 20) (dec 35008916606307371 34) (dec (-15316042738429405) 36);
  q4 (dec 21337222222222221 14) (dec (-36453776611266946) 20) (dec (-71759402778035451) 22) (dec 31390814863529721 24);
  q4 (dec 21326111111111109 14) (dec (-36453776611284722) 20) (dec 1750090120941152 33) (dec (-3823175557078051) 36);
  q4 (dec 21320555555555552 14) (dec (-36453776611258045) 20) (dec 23330977852140832 34) (dec (-11478862875281287) 36);
  q4 (dec 21314999999999998 14) (dec (-36453776611266941) 20) (dec (-71759402778047114) 22) (dec 31390814863537378 24);
  q4 (dec 21303888888888886 14) (dec (-36453776611266941) 20) (dec 35005359512565621 34) (dec (-15311374636406113) 36);
  q4 (dec 21298333333333332 14) (dec (-36453776611266941) 20) (dec 35570937417503087 38) (dec 0 0);
  q4 (dec 21292777777777775 14) (dec (-36453776611266941) 20) (dec 36709207414863186 34) (dec (-16053602858109181) 36);
  q4 (dec 21287222222222221 14) (dec (-36453776611266941) 20) (dec (-71759402778040575) 22) (dec 31390814863532712 24);
  q4 (dec 21276111111111109 14) (dec (-36453776611284722) 20) (dec 17504458303153269 34) (dec (-38278436591013461) 37);
  q4 (dec 21270555555555552 14) (dec (-3645377661125805) 19) (dec 2334164913336608 33) (dec (-11488199079327877) 36);
  q4 (dec 21264999999999998 14) (dec (-36453776611266946) 20) (dec (-71759402778046547) 22) (dec 31390814863537 21);
  q4 (dec 21253888888888886 14) (dec (-36453776611267808) 20) (dec 38416612410903332 34) (dec (-16800499181836273) 36);
  q4 (dec 21248333333333332 14) (dec (-36453776611267808) 20) (dec 35570937417503934 38) (dec 0 0);
  q4 (dec 21242777777777775 14) (dec (-36453776611267808) 20) (dec 38416612410903332 34) (dec (-16800499181836273) 36);
  q4 (dec 21237222222222221 14) (dec (-36453776611267808) 20) (dec (-71759402778038864) 22) (dec 31390814863531964 24);
  q4 (dec 21226111111111109 14) (dec (-36453776611285594) 20) (dec 18361717894915092 34) (dec (-40145677400331183) 37);
  q4 (dec 21220555555555552 14) (dec (-36453776611257617) 20) (dec 24472804943242124 34) (dec (-12039035118076062) 36);
  q4 (dec 21214999999999998 14) (dec (-36453776611266941) 20) (dec (-71759402778052239) 22) (dec 31390814863540369 24);
  q4 (dec 21203888888888886 14) (dec (-36453776611266935) 20) (dec 36705650321121436 34) (dec (-16053602858109181) 36);
  q4 (dec 21198333333333332 14) (dec (-36453776611266941) 20) (dec 35570937417503087 38) (dec 0 0);
  q4 (dec 21192777777777775 14) (dec (-36453776611266941) 20) (dec 35005359512565621 34) (dec (-15311374636406113) 36);
  q4 (dec 21187222222222221 14) (dec (-36453776611266941) 20) (dec (-7175940277803374) 21) (dec 31390814863528596 24);
  q4 (dec 21176111111111109 14) (dec (-36453776611287335) 20) (dec 12819765845268417 34) (dec (-46681020232945462) 40);
  q4 (dec 21170555555555552 14) (dec (-36453776611248298) 20) (dec 10671281225250926 37) (dec (-46681020232943236) 40);
  q4 (dec 21164999999999998 14) (dec (-36453776611248287) 20) (dec (-35570937417503087) 38) (dec 46681020232943236 40);
  q4 (dec 21159444444444443 14) (dec (-36453776611248287) 20) (dec (-71759402778065063) 22) (dec 31390814863540746 24);
  q4 (dec 21148333333333332 14) (dec (-36453776611284722) 20) (dec 17504458303153269 34) (dec (-38278436591013461) 37);
  q4 (dec 21142777777777775 14) (dec (-3645377661125805) 19) (dec 2334164913336608 33) (dec (-11488199079327877) 36);
  q4 (dec 21137222222222221 14) (dec (-36453776611266946) 20) (dec (-71759402778035451) 22) (dec 31390814863529721 24);
  q4 (dec 21126111111111109 14) (dec (-36453776611284722) 20) (dec 11670824566682763 34) (dec 0 0);
  q4 (dec 21120555555555552 14) (dec (-3645377661124916) 19) (dec 35570937417503934 38) (dec 0 0);
  q4 (dec 21114999999999998 14) (dec (-36453776611249165) 20) (dec 17180762772653992 35) (dec (-75156442575038606) 38);
  q4 (dec 21109444444444443 14) (dec (-36453776611249154) 20) (dec (-71759402778063352) 22) (dec 31390814863539998 24);
  q4 (dec 21098333333333332 14) (dec (-36453776611285594) 20) (dec 12239959565362811 34) (dec 46681020232943236 40);
  q4 (dec 21092777777777775 14) (dec (-36453776611248292) 20) (dec 35570937417503087 38) (dec 0 0);
  q4 (dec 21087222222222221 14) (dec (-36453776611248287) 20) (dec (-12801980376559665) 34) (dec (-46681020232945462) 40);
  q4 (dec 21081666666666663 14) (dec (-36453776611287335) 20) (dec (-7175940277803147) 21) (dec 31390814863535882 24);
  q4 (dec 21070555555555552 14) (dec (-36453776611250027) 20) (dec 56913499868006288 36) (dec 46681020232945462 40);
  q4 (dec 21064999999999998 14) (dec (-36453776611248292) 20) (dec 0 0) (dec 46681020232943236 40);
  q4 (dec 21059444444444443 14) (dec (-36453776611248282) 20) (dec (-12243516659104563) 34) (dec 46681020232943236 40);
  q4 (dec 21053888888888886 14) (dec (-36453776611285594) 20) (dec (-71759402778027201) 22) (dec 31390814863531964 24);
  q4 (dec 21042777777777775 14) (dec (-36453776611267803) 20) (dec 32010286582011027 34) (dec (-1259920736087138) 35);
  q4 (dec 21037222222222221 14) (dec (-36453776611258045) 20) (dec 35570937417503934 38) (dec (-42059599229883857) 37);
  q4 (dec 21031666666666663 14) (dec (-36453776611287335) 20) (dec (-59799502315018483) 22) (dec 23543111147648169 24);
  q4 (dec 21020555555555552 14) (dec (-54680664916881977) 20) (dec 12520969970961086 34) (dec 78477037158802383 25);
  q4 (dec 21014999999999998 14) (dec 0 0) (dec 0 0) (dec 0 0);
  q4 (dec 21014999999999998 14) (dec 0 0) (dec 0 0) (dec 0 0);
  q4 (dec 21014999999999998 14) (dec 0 0) (dec 0 0) (dec 0 0);
  q4 (dec 21014999999999998 14) (dec 0 0) (dec 0 0) (dec 0 0);
  q4 (dec 21014999999999998 14) (dec 0 0) (dec 0 0) (dec 0 0);
  q4 (dec 21014999999999998 14) (dec 0 0) (dec 0 0) (dec 0 0);
  q4 (dec 21014999999999998 14) (dec 0 0) (dec 0 0) (dec 0 0);
  q4 (dec 21014999999999998 14) (dec 0 0) (dec 0 0) (dec 0 0);
  q4 (dec 21014999999999998 14) (dec 0 0) (dec 0 0) (dec 0 0);
  q4 (dec 21014999999999998 14) (dec 0 0) (dec 0 0) (dec 0 0);
  q4 (dec 21014999999999998 14) (dec 0 0) (dec 0 0) (dec 0 0);
  q4 (dec 21014999999999998 14) (dec 0 0) (dec 0 0) (dec 0 0);
  q4 (dec 21014999999999998 14) (dec 0 0) (dec 0 0) (dec 0 0);
  q4 (dec 21014999999999998 14) (dec 0 0) (dec 0 0) (dec 0 0);
  q4 (dec 21014999999999998 14) (dec 0 0) (dec 0 0) (dec 0 0);
  q4 (dec 21014999999999998 14) (dec 0 0) (dec 0 0) (dec 0 0);
  q4 (dec 21014999999999998 14) (dec 0 0) (dec 0 0) (dec 0 0);
  q4 (dec 21014999999999998 14) (dec 0 0) (dec 0 0) (dec 0 0);
  q4 (dec 21014999999999998 14) (dec 0 0) (dec 0 0) (dec 0 0);
  q4 (dec 21014999999999998 14) (dec 0 0) (dec 0 0) (dec 0 0);
  q4 (dec 21014999999999998 14) (dec 0 0) (dec 0 0) (dec 0 0);
  q4 (dec 21014999999999998 14) (dec 0 0) (dec 0 0) (dec 0 0);
  q4 (dec 21014999999999998 14) (dec 0 0) (dec 0 0) (dec 0 0);
  q4 (dec 21014999999999998 14) (dec 0 0) (dec 0 0) (dec 0 0);
  q4 (dec 21014999999999998 14) (dec 0 0) (dec 0 0) (dec 0 0);
  q4 (dec 21014999999999998 14) (dec 0 0) (dec 0 0) (dec 0 0);
  q4 (dec 21014999999999998 14) (dec 0 0) (dec 0 0) (dec 0 0);
  q4 (dec 21014999999999998 14) (dec 0 0) (dec 0 0) (dec 0 0);
  q4 (dec 21014999999999998 14) (dec 0 0) (dec 0 0) (dec 0 0);
  q4 (dec 21014999999999998 14) (dec 0 0) (dec 0 0) (dec 0 0)].
(** L500-706 *)
Definition MIL_SPEC_210A_Polar_akima_P : list coefD := [
  q4 (dec 101035352 3) (dec (-12186794619422677) 15) (dec 0 0) (dec 0 0);
  q4 (dec 101035352 3) (dec (-12186794619422677) 15) (dec 96928295708429812 20) (dec 31800621951613645 22);
  q4 (dec 99211852999999988 12) (dec (-11669779090113714) 15) (dec 26655281319818429 19) (dec (-11130217683054604) 21);
  q4 (dec 97455890999999989 12) (dec (-11632849409448797) 15) (dec (-29078488712526371) 19) (dec 14310279878212594 21);
  q4 (dec 95666160499999998 12) (dec (-11522060367454019) 15) (dec 14539244356269485 19) (dec (-22944655064896701) 34);
  q4 (dec 93943967000000004 12) (dec (-11078904199475092) 15) (dec 58279423864837625 33) (dec 0 0);
  q4 (dec 92255542000000001 12) (dec (-11078904199475081) 15) (dec (-11655884772967516) 33) (dec 15296436709931116 35);
  q4 (dec 90567116999999998 12) (dec (-11078904199475071) 15) (dec 22890692912250761 19) (dec (-59729370188604502) 22);
  q4 (dec 89756672999999995 12) (dec (-10838117536061061) 15) (dec 18344551074198853 19) (dec (-13481753299200767) 21);
  q4 (dec 88912460499999986 12) (dec (-10798896889221293) 15) (dec (-3674636617497173) 18) (dec 21596080999821669 21);
  q4 (dec 87257804000000004 12) (dec (-10414169947507169) 15) (dec 87069459254067351 31) (dec (-30898802154060852) 33);
  q4 (dec 85670684500000003 12) (dec (-10414169947506672) 15) (dec (-11655884772967533) 33) (dec 0 0);
  q4 (dec 84083564999999988 12) (dec (-10414169947506672) 15) (dec (-20950960811481848) 19) (dec 13747349613842023 21);
  q4 (dec 82496445500000002 12) (dec (-10094112715077269) 15) (dec 16154715951399597 19) (dec (-53001036585945187) 22);
  q4 (dec 80976862999999998 12) (dec (-9971013779527528) 15) (dec (-61146354769265167) 20) (dec 40122280032339263 22);
  q4 (dec 79457280500000008 12) (dec (-98778267348590827) 16) (dec 16849217758648893 19) (dec (-5527958582232747) 21);
  q4 (dec 77971466499999995 12) (dec (-97494356955380983) 16) (dec 23311769545935033 33) (dec 21415011393903565 34);
  q4 (dec 76485652499999997 12) (dec (-97494356955379331) 16) (dec 21808866534373385 19) (dec (-47700932927283519) 22);
  q4 (dec 75033606999999989 12) (dec (-94170685695537841) 16) (dec 18649415636748024 31) (dec 47700932927289634 22);
  q4 (dec 73615330000000002 12) (dec (-90847014435696192) 16) (dec 16667915225343548 31) (dec (-68833965194690025) 34);
  q4 (dec 72230821500000005 12) (dec (-90847014435695908) 16) (dec (-47789127569166814) 32) (dec 19885367722910448 34);
  q4 (dec 70846312999999995 12) (dec (-90847014435696014) 16) (dec 75350482333073931 20) (dec 45987236299012597 23);
  q4 (dec 69799489500000011 12) (dec (-88905317153875334) 16) (dec 32643590341539713 18) (dec (-5670706844432649) 19);
  q4 (dec 69495572999999989 12) (dec (-87430440295839773) 16) (dec (-25221855743012864) 19) (dec 11379681505686122 21);
  q4 (dec 68144832999999999 12) (dec (-87189009380484919) 16) (dec (-43875826163778091) 20) (dec 62095889017859781 22);
  q4 (dec 66827861499999999 12) (dec (-8419967191601053) 15) (dec 75763251024288859 32) (dec (-30592873419862229) 34);
  q4 (dec 65544658500000005 12) (dec (-84199671916010299) 16) (dec (-96928295708462392) 20) (dec 63601243903179805 22);
  q4 (dec 64261455500000004 12) (dec (-8274049916778722) 15) (dec 99292400481796705 20) (dec (-32576246877226909) 22);
  q4 (dec 63012021000000001 12) (dec (-81983891076115754) 16) (dec (-11655884772967516) 33) (dec 61185746839724466 35);
  q4 (dec 61762586499999998 12) (dec (-81983891076115381) 16) (dec 14539244356282705 19) (dec (-10172130412104192) 33);
  q4 (dec 605469205 4) (dec (-77552329396327471) 16) (dec 13870502879831385 31) (dec (-30592873419862406) 34);
  q4 (dec 59365022999999994 12) (dec (-77552329396325357) 16) (dec (-1107751950952185) 18) (dec 72687135889280933 22);
  q4 (dec 58183125500000002 12) (dec (-75864115423072098) 16) (dec 69234496934555165 20) (dec (-22714729965400513) 22);
  q4 (dec 57034996500000001 12) (dec (-75336548556430456) 16) (dec (-70578856098334924) 20) (dec 46311585366369749 22);
  q4 (dec 558868675 4) (dec (-7426092678949118) 15) (dec 14962717492851628 19) (dec (-49090280488354074) 22);
  q4 (dec 54772506999999998 12) (dec (-7312076771653552) 15) (dec (-13085319920635794) 19) (dec 85861679269274638 22);
  q4 (dec 53658146500000003 12) (dec (-71130320521375516) 16) (dec 29571344453420076 20) (dec (-97018846631949546) 23);
  q4 (dec 52577554499999998 12) (dec (-70904986876640406) 16) (dec (-12828745020232633) 20) (dec 84178116930660519 23);
  q4 (dec 51496962500000001 12) (dec (-70709476802532016) 16) (dec 26512739708482442 19) (dec (-86984054161684052) 22);
  q4 (dec 50450138999999996 12) (dec (-68689206036745372) 16) (dec (-23311769545935099) 32) (dec 31357695255358968 34);
  q4 (dec 49403315500000004 12) (dec (-68689206036743897) 16) (dec 67849806995883373 19) (dec (-25440497561261595) 21);
  q4 (dec 48424028999999995 12) (dec (-65734831583552129) 16) (dec (-24232073927113978) 19) (dec 12720248780637335 21);
  q4 (dec 47410973999999995 12) (dec (-64257644356955277) 16) (dec 15152650204857815 32) (dec (-5353752848475922) 34);
  q4 (dec 464316875 4) (dec (-64257644356955232) 16) (dec (-12238679011615855) 32) (dec 53537528484758575 35);
  q4 (dec 45452400999999998 12) (dec (-64257644356955188) 16) (dec 14539244356256522 19) (dec 41300379116814252 34);
  q4 (dec 44506882999999994 12) (dec (-59826082677165369) 16) (dec 69352514399156512 32) (dec (-30592873419862044) 34);
  q4 (dec 43595133499999996 12) (dec (-59826082677165369) 16) (dec (-1165588477296755) 32) (dec 76482183549656027 36);
  q4 (dec 42683383999999998 12) (dec (-5982608267716536) 15) (dec (-53409469063928137) 20) (dec 35045583375260361 22);
  q4 (dec 41771634499999993 12) (dec (-59012122368632554) 16) (dec 18396594899778534 19) (dec (-60356282479596374) 22);
  q4 (dec 408936535 4) (dec (-5761030183727005) 15) (dec (-1036907349439812) 18) (dec 6803853998947079 21);
  q4 (dec 40015672500000001 12) (dec (-56025166313345416) 16) (dec 82761852489547617 20) (dec (-27152838743296684) 22);
  q4 (dec 39171459999999999 12) (dec (-55394520997375558) 16) (dec 0 0) (dec 0 0);
  q4 (dec 38327247499999998 12) (dec (-55394520997375558) 16) (dec 0 0) (dec 0 0);
  q4 (dec 37483034999999996 12) (dec (-55394520997375558) 16) (dec 14539244356279572 19) (dec (-55831993991248231) 34);
  q4 (dec 36672591 3) (dec (-50962959317585437) 16) (dec 34967654318902649 32) (dec (-15296436709931203) 34);
  q4 (dec 35895915500000003 12) (dec (-50962959317585437) 16) (dec (-34967654318902444) 33) (dec 22944655064896535 35);
  q4 (dec 35119239999999998 12) (dec (-50962959317585383) 16) (dec 16901032920802948 32) (dec (-61185746839724822) 35);
  q4 (dec 343425645 4) (dec (-50962959317585268) 16) (dec (-93247078183740398) 32) (dec 41300379116814252 34);
  q4 (dec 33565888999999996 12) (dec (-50962959317585259) 16) (dec 1453924435627354 18) (dec (-30592873419862406) 34);
  q4 (dec 32822982000000004 12) (dec (-465313976377952) 14) (dec 15152650204857635 32) (dec (-68833965194688786) 35);
  q4 (dec 32113843499999999 12) (dec (-46531397637795209) 16) (dec 0 0) (dec 0 0);
  q4 (dec 31404705000000002 12) (dec (-46531397637795209) 16) (dec (-72849279831047187) 32) (dec 27533586077876166 34);
  q4 (dec 30695566499999997 12) (dec (-46531397637795537) 16) (dec 3893944571114112 18) (dec (-16010630810283204) 21);
  q4 (dec 30020196500000002 12) (dec (-45818426644486996) 16) (dec (-88066534957942533) 18) (dec 30910293669371 16);
  q4 (dec 29918890999999996 12) (dec (-44315616797899811) 16) (dec 21357073348788171 19) (dec (-10312772332328721) 21);
  q4 (dec 29344826499999999 12) (dec (-4409105900473187) 15) (dec (-17486197022502498) 19) (dec 1050703457308374 20);
  q4 (dec 286694565 4) (dec (-4209983595800618) 15) (dec 16493076953749083 31) (dec (-64245034181711068) 34);
  q4 (dec 28027855000000003 12) (dec (-42099835958005629) 16) (dec (-58279423864837752) 34) (dec 0 0);
  q4 (dec 27386253499999999 12) (dec (-42099835958005629) 16) (dec (-72696221781305627) 20) (dec 47700932927376337 22);
  q4 (dec 26744651999999998 12) (dec (-40991945538057815) 16) (dec 14539244356265642 19) (dec (-47700932927375574) 22);
  q4 (dec 26136819 3) (dec (-39884055118110004) 16) (dec (-58279423864837058) 34) (dec 0 0);
  q4 (dec 25528985999999997 12) (dec (-39884055118110009) 16) (dec (-72696221781360997) 20) (dec 47700932927391626 22);
  q4 (dec 24921152999999998 12) (dec (-38776164698162798) 16) (dec 1453924435626433 18) (dec (-47700932927371364) 22);
  q4 (dec 24347088499999998 12) (dec (-37668274278215099) 16) (dec 58279423864837752 34) (dec 0 0);
  q4 (dec 23773024000000001 12) (dec (-37668274278215099) 16) (dec (-81783249504042337) 20) (dec 53663549543324476 22);
  q4 (dec 23198959500000001 12) (dec (-36421897555774216) 16) (dec 12721838811735574 19) (dec (-41738316311470032) 22);
  q4 (dec 22658663499999999 12) (dec (-35452493438320105) 16) (dec (-14539244356267041) 19) (dec 95401865854766819 22);
  q4 (dec 221183675 4) (dec (-33236712598425284) 16) (dec 29139711932418876 34) (dec 0 0);
  q4 (dec 2161184 2) (dec (-33236712598425284) 16) (dec 29139711932418876 34) (dec 0 0);
  q4 (dec 211053125 4) (dec (-33236712598425284) 16) (dec 51285893001056611 32) (dec (-16826080380923925) 34);
  q4 (dec 20598785 3) (dec (-33236712598424889) 16) (dec (-90489003336251251) 20) (dec 59375986441093057 22);
  q4 (dec 200922575 4) (dec (-31857660187581605) 16) (dec 10980688045290972 19) (dec (-36025879413681796) 22);
  q4 (dec 19619498499999998 12) (dec (-31020931758530259) 16) (dec (-5947872691198083) 19) (dec 39028036031488548 22);
  q4 (dec 191467395 4) (dec (-30107556450481856) 16) (dec 17091936113470528 19) (dec (-56075905884082619) 22);
  q4 (dec 18707749 3) (dec (-28805150918634888) 16) (dec 22437578187962266 32) (dec (-1491402579218257) 33);
  q4 (dec 182687585 4) (dec (-28805150918635225) 16) (dec (-1165588477296755) 32) (dec 0 0);
  q4 (dec 17829768 3) (dec (-28805150918635234) 16) (dec (-26434989738663586) 21) (dec 17345793791774048 23);
  q4 (dec 173907775 4) (dec (-28805150918635234) 16) (dec 29078488712530087 19) (dec (-95401865854752673) 22);
  q4 (dec 16985555499999999 12) (dec (-26589370078740084) 16) (dec 29139711932418876 34) (dec 0 0);
  q4 (dec 16580333500000001 12) (dec (-26589370078740084) 16) (dec (-14539244356264157) 19) (dec 95401865854754215 22);
  q4 (dec 16175111499999999 12) (dec (-24373589238845179) 16) (dec 0 0) (dec 0 0);
  q4 (dec 15803657999999999 12) (dec (-24373589238845179) 16) (dec 0 0) (dec 0 0);
  q4 (dec 154322045 4) (dec (-24373589238845179) 16) (dec 0 0) (dec 0 0);
  q4 (dec 15060751 3) (dec (-24373589238845179) 16) (dec (-65175922976394064) 20) (dec 42766353659046355 22);
  q4 (dec 14689297499999999 12) (dec (-2335958783753723) 15) (dec 15771383708496091 19) (dec (-51743384870396565) 22);
  q4 (dec 14351612499999999 12) (dec (-2215780839895003) 15) (dec 0 0) (dec 0 0);
  q4 (dec 14013927500000002 12) (dec (-2215780839895003) 15) (dec (-7051810287645368) 31) (dec 30975284337610691 34);
  q4 (dec 13676242499999998 12) (dec (-2215780839895003) 15) (dec 36348110890664907 19) (dec (-14310279878214698) 21);
  q4 (dec 13372325999999999 12) (dec (-21049917979002637) 16) (dec (-29078488712533253) 19) (dec 14310279878215195 21);
  q4 (dec 13034641 3) (dec (-19942027559055122) 16) (dec 46623539091869647 32) (dec (-20458984099532502) 34);
  q4 (dec 127307245 4) (dec (-19942027559055124) 16) (dec (-29139711932418876) 34) (dec 0 0);
  q4 (dec 12426808000000001 12) (dec (-19942027559055124) 16) (dec (-22874673866948818) 32) (dec 10133889320329423 34);
  q4 (dec 121228915 4) (dec (-19942027559055124) 16) (dec 36348110890664295 19) (dec (-14310279878214221) 21);
  q4 (dec 11852743499999999 12) (dec (-18834137139107618) 16) (dec (-29078488712532377) 19) (dec 14310279878214659 21);
  q4 (dec 11548826999999999 12) (dec (-17726246719160217) 16) (dec 53908467074974279 32) (dec (-21415011393903176) 34);
  q4 (dec 11278679 3) (dec (-1772624671916005) 15) (dec (-42835376540655747) 32) (dec 21223805935029546 34);
  q4 (dec 11008530999999999 12) (dec (-17726246719159886) 16) (dec 36348110890664165 19) (dec (-14310279878214546) 21);
  q4 (dec 107721515 4) (dec (-16618356299212642) 16) (dec (-21808866534401405) 19) (dec 95401865854775424 22);
  q4 (dec 10502003499999999 12) (dec (-16618356299212589) 16) (dec 21808866534400039 19) (dec (-95401865854768547) 22);
  q4 (dec 10265624 3) (dec (-16618356299212589) 16) (dec (-21808866534397914) 19) (dec 95401865854758619 22);
  q4 (dec 99954759999999987 13) (dec (-16618356299212558) 16) (dec 72696221781330249 20) (dec 76482183549656027 36);
  q4 (dec 97590964999999997 13) (dec (-14402575459317564) 16) (dec 29078488712530469 19) (dec (-14310279878213341) 21);
  q4 (dec 95564855000000007 13) (dec (-15510465879264637) 16) (dec (-36133242796198974) 32) (dec 78394238138395562 35);
  q4 (dec 93201059999999998 13) (dec (-15510465879265187) 16) (dec (-66888534641816903) 20) (dec 43890114594360551 22);
  q4 (dec 90837264999999989 13) (dec (-14491084611324474) 16) (dec 1570078178418367 18) (dec (-51511751260454083) 22);
  q4 (dec 88811154999999999 13) (dec (-1329468503937032) 15) (dec (-13258568929250747) 32) (dec 87954511082106526 35);
  q4 (dec 86785044999999991 13) (dec (-13294685039370118) 16) (dec 91790092587118364 33) (dec (-1147232753244813) 34);
  q4 (dec 84758934999999983 13) (dec (-13294685039369918) 16) (dec 35841845676874793 32) (dec (-16826080380923925) 34);
  q4 (dec 82732825000000012 13) (dec (-13294685039370004) 16) (dec (-41524089503697392) 32) (dec 1376679303893841 33);
  q4 (dec 80706715000000004 13) (dec (-13294685039370318) 16) (dec 20252099793030879 32) (dec 19120545887413549 36);
  q4 (dec 78680604999999996 13) (dec (-13294685039369689) 16) (dec 36348110890657499 19) (dec (-14310279878211922) 21);
  q4 (dec 76992179999999989 13) (dec (-12186794619422538) 16) (dec (-29078488712527615) 19) (dec 14310279878212389 21);
  q4 (dec 74966070000000009 13) (dec (-11078904199475148) 16) (dec 16609635801478562 32) (dec (-72658074372171491) 35);
  q4 (dec 73277644999999993 13) (dec (-11078904199475148) 16) (dec (-27682726335798262) 33) (dec 19120545887414459 35);
  q4 (dec 71589220000000005 13) (dec (-11078904199475106) 16) (dec 75763251024288176 33) (dec (-30592873419861679) 35);
  q4 (dec 69900794999999989 13) (dec (-11078904199475095) 16) (dec (-12675774690602361) 32) (dec 61185746839726276 35);
  q4 (dec 68212370000000001 13) (dec (-11078904199475061) 16) (dec 74306265427667246 33) (dec (-24856709653637618) 35);
  q4 (dec 66523944999999994 13) (dec (-11078904199475004) 16) (dec 39338611108765011 33) (dec 0 0);
  q4 (dec 64835519999999997 13) (dec (-11078904199474884) 16) (dec 36348110890661225 19) (dec (-14310279878213308) 21);
  q4 (dec 63484779999999992 13) (dec (-99710137795275633) 17) (dec (-29078488712526219) 19) (dec 14310279878211336 21);
  q4 (dec 61796355000000003 13) (dec (-88631233595804826) 17) (dec 17629525719113629 32) (dec 0 0);
  q4 (dec 60445614999999998 13) (dec (-8863123359579943) 16) (dec 23311769545934823 33) (dec (-16252464004301518) 35);
  q4 (dec 59094875000000002 13) (dec (-88631233595799808) 17) (dec 14569855966209265 34) (dec (-95602729437067756) 36);
  q4 (dec 57744134999999997 13) (dec (-88631233595800452) 17) (dec (-19305059155227734) 32) (dec 80306292727140742 35);
  q4 (dec 56393395 4) (dec (-88631233595800774) 17) (dec 14205609567054032 32) (dec (-60229719545352684) 35);
  q4 (dec 55042654999999995 13) (dec (-88631233595800663) 17) (dec (-21490537550159175) 32) (dec 10325094779203808 34);
  q4 (dec 53691914999999999 13) (dec (-88631233595800019) 17) (dec 7649174382259864 32) (dec (-25812736948008291) 35);
  q4 (dec 52341175000000003 13) (dec (-88631233595799441) 17) (dec (-11364487653643226) 32) (dec 50669446601645909 35);
  q4 (dec 50990434999999998 13) (dec (-8863123359579943) 16) (dec 36348110890663068 19) (dec (-14310279878214036) 21);
  q4 (dec 49977379999999994 13) (dec (-77552329396325659) 17) (dec (-21808866534397189) 19) (dec 95401865854755367 22);
  q4 (dec 48626639999999998 13) (dec (-77552329396325359) 17) (dec 21808866534397224 19) (dec (-95401865854756857) 22);
  q4 (dec 47613584999999994 13) (dec (-7755232939632497) 16) (dec (-29078488712529224) 19) (dec 14310279878213018 21);
  q4 (dec 46262845000000007 13) (dec (-66473425196851588) 17) (dec 30888094648363642 32) (dec (-13575587580063621) 34);
  q4 (dec 45249790000000003 13) (dec (-66473425196851599) 17) (dec (-60464902259769882) 33) (dec 40153146363570371 35);
  q4 (dec 44236734999999999 13) (dec (-66473425196850677) 17) (dec 24695905862724703 32) (dec (-10803108426388657) 34);
  q4 (dec 43223680000000004 13) (dec (-66473425196850677) 17) (dec (-21199140430834985) 32) (dec 99426838614555189 35);
  q4 (dec 42210625 4) (dec (-66473425196850211) 17) (dec 15298348764519729 33) (dec (-19120545887413549) 36);
  q4 (dec 41197569999999996 13) (dec (-66473425196849878) 17) (dec 40795596705385941 33) (dec (-2007657318178423) 34);
  q4 (dec 40184514999999997 13) (dec (-66473425196850033) 17) (dec (-16682485081310004) 32) (dec 54493555779131213 35);
  q4 (dec 39171459999999997 13) (dec (-66473425196851299) 17) (dec 83048179007392811 33) (dec 0 0);
  q4 (dec 38158404999999993 13) (dec (-66473425196848734) 17) (dec 43617733068798698 19) (dec (-19080373170953015) 21);
  q4 (dec 37483035000000004 13) (dec (-66473425196849723) 17) (dec (-30815245368533327) 32) (dec 12141546638508182 34);
  q4 (dec 3646998 3) (dec (-66473425196850655) 17) (dec (-84437535952181777) 20) (dec 55405207317708115 22);
  q4 (dec 35456925000000001 13) (dec (-53582996214328826) 17) (dec 12161915244655534 19) (dec (-39901296734433138) 22);
  q4 (dec 34781554999999998 13) (dec (-4431561679790032) 16) (dec 25642946500528306 32) (dec (-14244806686123094) 34);
  q4 (dec 34106185 4) (dec (-44315616797902424) 17) (dec (-28432300074471748) 19) (dec 11024215609882046 21);
  q4 (dec 33160666999999999 13) (dec (-5416353164187947) 16) (dec 12923772761090997 21) (dec 33920663415072284 23);
  q4 (dec 32350222999999996 13) (dec (-51406115485563753) 17) (dec (-14539244356206447) 21) (dec 28620559756397432 23);
  q4 (dec 315735475 5) (dec (-49855068897637694) 17) (dec 72696221781211719 21) (dec 44933282835423975 35);
  q4 (dec 308306405 5) (dec (-47639288057743251) 17) (dec 19385659141703932 20) (dec (-79501554879031168) 23);
  q4 (dec 30121502 4) (dec (-47269991251093535) 17) (dec (-48464147854190186) 20) (dec 25440497561252001 22);
  q4 (dec 29378595 4) (dec (-44315616797903762) 17) (dec 26517137858501494 32) (dec (-57839651309428745) 35);
  q4 (dec 28703224999999998 13) (dec (-44315616797899715) 17) (dec (-36424639915523161) 35) (dec 0 0);
  q4 (dec 28027855 4) (dec (-44315616797899721) 17) (dec (-1067241949524854) 31) (dec 24856709653638797 35);
  q4 (dec 27352485000000001 13) (dec (-44315616797901242) 17) (dec (-40709884197543244) 19) (dec 18126354512404315 21);
  q4 (dec 26373198499999999 13) (dec (-4209983595800591) 16) (dec 42163808633173747 19) (dec (-18126354512405894) 21);
  q4 (dec 26069281999999998 13) (dec (-39884055118110412) 17) (dec (-11838007972545308) 32) (dec 59273692250984832 35);
  q4 (dec 25461448999999998 13) (dec (-39884055118109885) 17) (dec (-10927391974656948) 34) (dec 47801364718533874 37);
  q4 (dec 24853615999999997 13) (dec (-3988405511810989) 16) (dec (-18685840276663827) 32) (dec 8174033366869682 34);
  q4 (dec 24245782999999997 13) (dec (-3988405511810989) 16) (dec 21808866534399967 20) (dec (-47700932927383231) 23);
  q4 (dec 23671718499999997 13) (dec (-36560383858267287) 17) (dec 19385659141695445 20) (dec (-79501554879003438) 23);
  q4 (dec 23131422500000003 13) (dec (-36191087051618254) 17) (dec (-33924903497975403) 20) (dec 15900310975803214 22);
  q4 (dec 22557357999999999 13) (dec (-35452493438320193) 17) (dec 36348110890676205 20) (dec (-14310279878219558) 22);
  q4 (dec 22050830500000002 13) (dec (-34344603018372855) 17) (dec (-29078488712548504) 20) (dec 14310279878222963 22);
  q4 (dec 21510534499999999 13) (dec (-33236712598424711) 17) (dec 37878557665000333 20) (dec (-15314510045101934) 22);
  q4 (dec 21037775499999998 13) (dec (-32362062266886521) 17) (dec (-65190276852800387) 21) (dec 51171409546335235 24);
  q4 (dec 20531248000000001 13) (dec (-33992513442264405) 17) (dec (-31180086223559942) 19) (dec 84049137098380426 21);
  q4 (dec 204299425 5) (dec (-31652162617101676) 17) (dec 37926453109652161 20) (dec (-18971243805242788) 22);
  q4 (dec 20058489 4) (dec (-31020931758529807) 17) (dec (-14569855966209265) 34) (dec (-47801364718533878) 36);
  q4 (dec 19585729999999999 13) (dec (-31020931758530196) 17) (dec (-12085746871158164) 20) (dec 79302800991831567 23);
  q4 (dec 19112970999999998 13) (dec (-29176741494269459) 17) (dec 48765167406135854 21) (dec (-15999070671305813) 23);
  q4 (dec 186739805 5) (dec (-28805150918634809) 17) (dec (-34435052422736845) 21) (dec 2259517875507335 22);
  q4 (dec 1823499 3) (dec (-28280360719712522) 17) (dec 22191478227976964 20) (dec (-72806687099652596) 23);
  q4 (dec 17829768000000001 13) (dec (-26589370078739977) 17) (dec 16391087961985423 33) (dec (-10516300238077453) 35);
  q4 (dec 17424546 4) (dec (-26589370078740221) 17) (dec (-51358742280888882) 33) (dec 16730477651487652 35);
  q4 (dec 17019323999999999 13) (dec (-2658937007874061) 16) (dec (-93823041383573081) 21) (dec 61563675448571887 23);
  q4 (dec 16614102 4) (dec (-25159506928052594) 17) (dec 10313880435797079 20) (dec (-33838190406167333) 23);
  q4 (dec 16242648499999998 13) (dec (-24373589238845497) 17) (dec (-18212319957762014) 35) (dec 0 0);
  q4 (dec 15871194999999998 13) (dec (-24373589238845497) 17) (dec (-95595531642328599) 21) (dec 62726726799458806 23);
  q4 (dec 154997415 5) (dec (-22916713336614211) 17) (dec 99593823840373613 21) (dec (-32675139055232969) 23);
  q4 (dec 15162056500000001 13) (dec (-22157808398950005) 17) (dec 18212319957761581 35) (dec 0 0);
  q4 (dec 148243715 5) (dec (-22157808398950005) 17) (dec 18212319957761581 35) (dec 0 0);
  q4 (dec 14486686499999998 13) (dec (-22157808398950005) 17) (dec (-74852635026401873) 33) (dec 32743934832197265 35);
  q4 (dec 14149001499999999 13) (dec (-22157808398950005) 17) (dec 36348110890667862 20) (dec (-14310279878215901) 22);
  q4 (dec 13845084999999999 13) (dec (-21049917979002664) 17) (dec (-21808866534404875) 20) (dec 95401865854792043 23);
  q4 (dec 135074 2) (dec (-21049917979002572) 17) (dec 72696221781347488 21) (dec (-52581501190387265) 36);
  q4 (dec 132034835 5) (dec (-1883413713910744) 16) (dec 21808866534401368 20) (dec (-9540186585477506) 22);
  q4 (dec 12933335500000001 13) (dec (-18834137139107568) 17) (dec (-21808866534406022) 20) (dec 95401865854793949 23);
  q4 (dec 12629419 4) (dec (-18834137139107693) 17) (dec 19385659141691491 20) (dec (-7950155487898456) 22);
  q4 (dec 12359270999999999 13) (dec (-18464840332458532) 17) (dec (-33924903497961834) 20) (dec 15900310975798098 22);
  q4 (dec 12055354499999999 13) (dec (-17726246719159885) 17) (dec 43617733068793721 20) (dec (-19080373170949972) 22);
  q4 (dec 11818974999999998 13) (dec (-17726246719159375) 17) (dec (-23858139144667672) 33) (dec 0 0);
  q4 (dec 11548827000000001 13) (dec (-17726246719160096) 17) (dec (-11118245684211063) 20) (dec 72954368006619776 23);
  q4 (dec 11278679 4) (dec (-1603182607688744) 16) (dec 68419973441282534 21) (dec (-22447497848194372) 23);
  q4 (dec 11042299499999999 13) (dec (-15510465879265195) 17) (dec 72849279831048048 34) (dec (-47801364718536147) 36);
  q4 (dec 10805920000000001 13) (dec (-15510465879265306) 17) (dec 0 0) (dec 0 0)].
(** L708-914 *)
Definition MIL_SPEC_210A_Polar_akima_rho : list coefD := [
  q4 (dec 14322367291960358 16) (dec (-20121480705581518) 20) (dec 0 0) (dec 0 0);
  q4 (dec 14322367291960358 16) (dec (-20121480705581518) 20) (dec 11095474201309786 24) (dec 79204687753607549 31);
  q4 (dec 14018293214569528 16) (dec (-19783235464253536) 20) (dec 11096681018166492 24) (dec (-79187457789039562) 31);
  q4 (dec 13719373714303162 16) (dec (-19445063802486516) 20) (dec 14790670599295268 24) (dec (-24254614270684549) 27);
  q4 (dec 13425607669869737 16) (dec (-19163243717603041) 20) (dec (-1478538306934837) 23) (dec 19410027205537918 26);
  q4 (dec 13136996202560771 16) (dec (-18261464293148891) 20) (dec 28456749934002744 37) (dec (-70021530349416209) 40);
  q4 (dec 12858691486733183 16) (dec (-18261464293148854) 20) (dec 53356406126255111 38) (dec (-2334051011647204) 39);
  q4 (dec 12580386770905594 16) (dec (-18261464293148851) 20) (dec (-30437766421748796) 23) (dec 44192318844871648 25);
  q4 (dec 1244638907020851 15) (dec (-15497347271175432) 20) (dec 26896430644034035 23) (dec (-17667032538406835) 25);
  q4 (dec 1233300487247418 15) (dec (-14535787174677287) 20) (dec (-4422115321976155) 24) (dec 2655011398839705 26);
  q4 (dec 12111392175421505 16) (dec (-14485579277050982) 20) (dec 14869192700098516 24) (dec 2397965960869482 26);
  q4 (dec 11894934215677795 16) (dec (-1386528253786601) 19) (dec 7235089440600454 27) (dec (-15818547564207152) 30);
  q4 (dec 11683628430290995 16) (dec (-13865172231676651) 20) (dec (-22183706325295338) 24) (dec 14557821864672033 26);
  q4 (dec 1147232376619572 15) (dec (-13526982170204317) 20) (dec 99730415092141389 33) (dec (-32721761347585646) 35);
  q4 (dec 11266172557933387 16) (dec (-13526982169444492) 20) (dec (-22053981198852144) 36) (dec 10736634653577168 38);
  q4 (dec 11060021349671052 16) (dec (-13526982169444408) 20) (dec 22192671676538599 24) (dec (-31670553292192269) 30);
  q4 (dec 10859023437057151 16) (dec (-12850770208544461) 20) (dec 82737725243891239 28) (dec (-18093802579819574) 30);
  q4 (dec 10663178980276193 16) (dec (-12850644096652774) 20) (dec (-22182327692743065) 24) (dec 14557143299534402 26);
  q4 (dec 10467335804971258 16) (dec (-12512459295056707) 20) (dec 14301295388707244 34) (dec (-46937765844225273) 37);
  q4 (dec 1027664592531476 15) (dec (-12512459295045805) 20) (dec (-88927343543758508) 38) (dec 2334051011647204 39);
  q4 (dec 10085956045658262 16) (dec (-12512459295045805) 20) (dec 46180481015396688 24) (dec (-15742746880909506) 26);
  q4 (dec 99004196218347029 17) (dec (-1220179001608677) 19) (dec (-16629102040118774) 23) (dec 12865138977529475 25);
  q4 (dec 97561132474422085 17) (dec (-10841865444538263) 20) (dec 47909837947909818 23) (dec (-70485158074705124) 25);
  q4 (dec 97200371343975933 17) (dec (-10130926455758674) 20) (dec 13338029718660757 25) (dec (-14937082913681288) 27);
  q4 (dec 95654228872322011 17) (dec (-10194349672032177) 20) (dec (-60114115542885914) 24) (dec 27000937314177462 26);
  q4 (dec 94056563055253894 17) (dec (-10145276044276945) 20) (dec 59170116003044697 24) (dec (-24265450521393346) 26);
  q4 (dec 92561959947464467 17) (dec (-10032521498809414) 20) (dec (-25891796446219814) 24) (dec 12135327338242581 26);
  q4 (dec 91015822281345626 17) (dec (-99761468536518064) 21) (dec 1109909517703573 23) (dec (-15839214526256173) 30);
  q4 (dec 89521230386471395 17) (dec (-96379567959943053) 21) (dec 2958547925415436 23) (dec (-12133341121853798) 26);
  q4 (dec 88078173049926567 17) (dec (-9581609595010602) 20) (dec (-51784819366073097) 24) (dec 2427060452089331 25);
  q4 (dec 86583569942137129 17) (dec (-94689011823169614) 21) (dec 59181763739384093 24) (dec (-24271057010491839) 26);
  q4 (dec 85192053571301818 17) (dec (-93561822587565332) 21) (dec (-36980357009071533) 24) (dec 1941123542751228 25);
  q4 (dec 83748989827376874 17) (dec (-91308214543643295) 21) (dec 55149061593190602 28) (dec 22487601195796049 34);
  q4 (dec 82357465447316414 17) (dec (-91306533443558474) 21) (dec 56567242581175509 31) (dec (-24744434797824649) 33);
  q4 (dec 80965953882016195 17) (dec (-91306533443513832) 21) (dec (-22757001748654452) 27) (dec 9955614110888916 29);
  q4 (dec 79574424696420643 17) (dec (-91306532976527044) 21) (dec 33282455596356401 24) (dec (-7279476382088174) 26);
  q4 (dec 78234447689449826 17) (dec (-86234181652039115) 21) (dec 33274009919824454 24) (dec (-14556125431733913) 26);
  q4 (dec 76945997231583252 17) (dec (-86234575702697104) 21) (dec (-44376035219858467) 24) (dec 21838090900074576 26);
  q4 (dec 75606013817232298 17) (dec (-84544203494610562) 21) (dec 31033719335192364 28) (dec (-67877073076067819) 31);
  q4 (dec 74317564961210769 17) (dec (-84543730535827788) 21) (dec (-7394798750478125) 24) (dec 48529090063572873 27);
  q4 (dec 7302912091072431 16) (dec (-83416290198501096) 21) (dec 29591609180778333 24) (dec (-97098905896306107) 27);
  q4 (dec 71792216224102345 17) (dec (-81162355374030367) 21) (dec (-35484927258097916) 28) (dec 23279010463111893 30);
  q4 (dec 70555301926410185 17) (dec (-81161814936483046) 21) (dec 1182187955994909 27) (dec (-38781474789461605) 31);
  q4 (dec 69318397239788221 17) (dec (-81161724824361804) 21) (dec (-44361899315110518) 25) (dec 29113382464356485 27);
  q4 (dec 68081494155011291 17) (dec (-80485334213770346) 21) (dec 35501931171892959 24) (dec (-11648067671445652) 26);
  q4 (dec 66896124026718728 17) (dec (-77780402318600056) 21) (dec (-55519620422723399) 25) (dec 36421144319692489 27);
  q4 (dec 6571074749104604 16) (dec (-76934914078407779) 21) (dec 33303491921365586 24) (dec (-10929057534728023) 26);
  q4 (dec 64576924735843111 17) (dec (-74399079760609118) 21) (dec (-14620514575511146) 28) (dec 95884519042258043 31);
  q4 (dec 63443082758499825 17) (dec (-74398857296645323) 21) (dec 12167690285673353 28) (dec (-39909694468197384) 31);
  q4 (dec 6230924558669162 16) (dec (-7439876450534102) 20) (dec (-12319684401625207) 24) (dec 80860449497157158 27);
  q4 (dec 61175416424108575 17) (dec (-72519668130417164) 21) (dec 19719770562596862 24) (dec (-64688360127751759) 27);
  q4 (dec 60093120218009888 17) (dec (-71016391044299845) 21) (dec 10288575288123005 31) (dec (-45005965183925608) 34);
  q4 (dec 59010830419291327 17) (dec (-71016391044293354) 21) (dec (-17757999875667745) 24) (dec 11650420918614888 26);
  q4 (dec 57928534213192651 17) (dec (-68311333001755013) 21) (dec 88755518139693176 25) (dec (-29117001806934126) 27);
  q4 (dec 56897777370958458 17) (dec (-67634858296519411) 21) (dec 34488519367633317 29) (dec (-22628855570618651) 31);
  q4 (dec 55867022130569288 17) (dec (-67634910847222946) 21) (dec (-68970609039331447) 29) (dec 22628855897385525 31);
  q4 (dec 54836265288335095 17) (dec (-6763496339792644) 20) (dec (-55455819281724717) 25) (dec 3639285821122241 26);
  q4 (dec 53805510047945937 17) (dec (-66789501398049748) 21) (dec 332796986695874 22) (dec (-10917857506537329) 26);
  q4 (dec 52826287764041135 17) (dec (-64253115388390462) 21) (dec 2140863546675512 32) (dec 28152039574432333 35);
  q4 (dec 51847070285671437 17) (dec (-64253115362249562) 21) (dec (-68369823598564626) 29) (dec 90109952644586355 31);
  q4 (dec 50867854409146762 17) (dec (-6425269589183177) 20) (dec 23273331351279167 24) (dec (-65406356674885469) 27);
  q4 (dec 49919546132490472 17) (dec (-61716321523777739) 21) (dec 19067567848798551 25) (dec (-52215524096609431) 28);
  q4 (dec 48981569756282545 17) (dec (-61498965625029006) 21) (dec 61240020400679396 25) (dec (-13184941612786515) 27);
  q4 (dec 48053882030707146 17) (dec (-60551060671754089) 21) (dec 16763786065563173 22) (dec (-62887028793275612) 24);
  q4 (dec 47950814515893386 17) (dec (-6817860598535758) 20) (dec (-33866816753194107) 24) (dec 15363726185176847 26);
  q4 (dec 4702312198478289 16) (dec (-69056638417407275) 21) (dec (-34613589656303534) 25) (dec 25671353602692608 27);
  q4 (dec 4597174619331284 16) (dec (-68322950537177588) 21) (dec 57024829653695539 25) (dec (-77870886487934126) 28);
  q4 (dec 44940992554768705 17) (dec (-6712741688549975) 20) (dec 28521328397518123 25) (dec 3117030412773911 27);
  q4 (dec 43925698322616374 17) (dec (-66040900595104064) 21) (dec 50721939262624315 25) (dec (-14774320900464914) 31);
  q4 (dec 42931015030474751 17) (dec (-64494998829828698) 21) (dec 42809624418565996 25) (dec (-31083056368026888) 28);
  q4 (dec 41956953891259041 17) (dec (-63406739759731888) 21) (dec 22228205011821885 25) (dec 72525768516362711 28);
  q4 (dec 40998364973195378 17) (dec (-62223884242958535) 21) (dec 50616247775362896 25) (dec (-41372297448589004) 28);
  q4 (dec 4006036456931199 16) (dec (-60969371926122345) 21) (dec 28578723187590725 25) (dec (-16653295246798977) 31);
  q4 (dec 39137828377355494 17) (dec (-60098408478996179) 21) (dec 22889536217805501 25) (dec 99658410256322904 28);
  q4 (dec 38230772415776193 17) (dec (-58706342719499017) 21) (dec 51198166006777405 25) (dec (-1032523268508987) 26);
  q4 (dec 37344324190517536 17) (dec (-57865256748476574) 21) (dec 50225058368420351 26) (dec 12877262585148626 27);
  q4 (dec 36468182236186752 17) (dec (-56814918139790719) 21) (dec 96092704240055825 25) (dec (-19360364009725141) 27);
  q4 (dec 35617788338880291 17) (dec (-55234990018561367) 21) (dec 14922075704292841 25) (dec 96695497157105904 28);
  q4 (dec 34782895495936433 17) (dec (-54106417228079051) 21) (dec 58987726796415382 25) (dec (-9656647371813322) 27);
  q4 (dec 33968595972707943 17) (dec (-52981320238111385) 21) (dec 18483852179254514 25) (dec 12149902602237674 27);
  q4 (dec 33169754254026218 17) (dec (-5157136025809885) 20) (dec 69388007573970828 25) (dec (-91207463394534127) 28);
  q4 (dec 3239669423111447 16) (dec (-50091922583747291) 21) (dec 16617964477795208 25) (dec 54554776313716244 28);
  q4 (dec 31639084003524331 17) (dec (-49205284184009293) 21) (dec 38043964070376042 25) (dec (-31119106712094067) 28);
  q4 (dec 30896929978635945 17) (dec (-48262533630317092) 21) (dec 31783784161103295 25) (dec 41258465608223758 28);
  q4 (dec 30170251378589652 17) (dec (-47006286123031223) 21) (dec 55401661015733086 25) (dec (-72486142576397204) 28);
  q4 (dec 2946417731117395 16) (dec (-45822707220513213) 21) (dec 13367251090721324 25) (dec 13089502604059926 27);
  q4 (dec 28773577066755318 17) (dec (-4450323246926422) 20) (dec 45600555436139873 25) (dec (-66468389493585984) 28);
  q4 (dec 28103586160502364 17) (dec (-43576461198160016) 21) (dec 11384362495545373 25) (dec 50144758127067167 28);
  q4 (dec 27443899923332249 17) (dec (-42880070794040561) 21) (dec 51424716262848547 25) (dec (-75260257334199195) 28);
  q4 (dec 26799687509159204 17) (dec (-41837038444663671) 21) (dec 92991743518240189 26) (dec 18823650271815749 27);
  q4 (dec 26170913677392565 17) (dec (-40242018859808645) 21) (dec 33287404627008487 25) (dec (-72938894732067551) 28);
  q4 (dec 25562774813312084 17) (dec (-39735637145891106) 21) (dec (-73979077201114449) 26) (dec 12104115123542154 27);
  q4 (dec 24959769862555176 17) (dec (-39117743554584818) 21) (dec 9318733280666109 24) (dec (-22239347313263786) 27);
  q4 (dec 24377387064724182 17) (dec (-37826970880401336) 21) (dec 4789307856584032 25) (dec 93472915786291079 28);
  q4 (dec 23805324954426332 17) (dec (-37029698924366889) 21) (dec 443186040547017 23) (dec (-72602216735140481) 28);
  q4 (dec 23248715843140161 17) (dec (-36184740371187085) 21) (dec 11082043379651207 25) (dec 73034162807768019 28);
  q4 (dec 22702419410161978 17) (dec (-35338077507823055) 21) (dec 4436732598506036 24) (dec (-72882775002528692) 28);
  q4 (dec 22171591994645781 17) (dec (-34493588763901249) 21) (dec 42852098934520059 25) (dec (-13591342820495025) 27);
  q4 (dec 21651051627917081 17) (dec (-34134464587656698) 21) (dec 96433615948607188 25) (dec (-20536637642724549) 27);
  q4 (dec 21145970667580183 17) (dec (-32626105024833823) 21) (dec 59257384199590452 23) (dec (-25826863483055197) 25);
  q4 (dec 21110877446646439 17) (dec (-31964157827545101) 21) (dec (-5969484064330961) 22) (dec 26258888382240855 25);
  q4 (dec 20166746781830355 17) (dec (-30949240278538919) 21) (dec 15743787597704614 26) (dec 6528892138305815 27);
  q4 (dec 1969775699188136 16) (dec (-30446337768330605) 21) (dec (-31903597096046501) 25) (dec 21392727562452056 27);
  q4 (dec 19233917133706238 17) (dec (-29928172339485394) 21) (dec 55483951342977865 25) (dec (-14569049290589614) 27);
  q4 (dec 18785541487458007 17) (dec (-29252153229305618) 21) (dec (-11156270001480191) 25) (dec 14592092460340975 27);
  q4 (dec 18342312569293587 17) (dec (-28575459026805641) 21) (dec 55512058490573878 25) (dec (-14581851826465937) 27);
  q4 (dec 17914554270436184 17) (dec (-27899475256644127) 21) (dec (-11193085839507228) 25) (dec 14609835426264155 27);
  q4 (dec 17491937894127499 17) (dec (-27222666919282594) 21) (dec 5554767995328014 24) (dec (-14593926598106887) 27);
  q4 (dec 17084800146350981 17) (dec (-26546438744182356) 21) (dec (-11090606089128319) 25) (dec 14529790906049977 27);
  q4 (dec 16682799515588093 17) (dec (-25872084108476679) 21) (dec 50064733740451823 25) (dec (-1095312814150548) 26);
  q4 (dec 16296259893062032 17) (dec (-25109295200459251) 21) (dec 5559286329173723 25) (dec (-22652026237678132) 31);
  q4 (dec 15914884618915121 17) (dec (-24940005986303486) 21) (dec (-23253352655514793) 28) (dec 10921412773972564 27);
  q4 (dec 15538659276542083 17) (dec (-24179740412644749) 21) (dec 49948261108319055 25) (dec (-10926514233574896) 27);
  q4 (dec 15177893340560847 17) (dec (-23418647205739978) 21) (dec 55498065217122408 26) (dec 46681020232945462 40);
  q4 (dec 14822282141888574 17) (dec (-23249489102957852) 21) (dec (-33252297065347144) 25) (dec 32740513641597576 27);
  q4 (dec 14471825680525263 17) (dec (-21981749181160182) 21) (dec 37907124314535823 28) (dec (-11305406716369664) 30);
  q4 (dec 14136828625553757 17) (dec (-21981381502000379) 21) (dec (-66561465526005117) 25) (dec 43677765175813957 27);
  q4 (dec 13801833172427277 17) (dec (-20966827097303514) 21) (dec 63088614603683476 33) (dec (-20698889532764654) 35);
  q4 (dec 13482298727537631 17) (dec (-20966827092496538) 21) (dec (-34095990828130745) 25) (dec 22372697393776541 27);
  q4 (dec 13162764282647985 17) (dec (-20447204192276571) 21) (dec 6494474443449096 24) (dec (-21307330851216796) 27);
  q4 (dec 12858690845995169 17) (dec (-19952325239686174) 21) (dec (-86926478314025238) 37) (dec 49015071244592738 39);
  q4 (dec 12554617409342353 17) (dec (-19952325239685415) 21) (dec 77669699496502024 25) (dec (-21842842421781425) 27);
  q4 (dec 12260851845462438 17) (dec (-19106902646450396) 21) (dec (-86230682425876506) 29) (dec 72854741948129148 28);
  q4 (dec 11972239417046453 17) (dec (-18599533452165663) 21) (dec 29595896915459569 25) (dec (-48591172577041632) 28);
  q4 (dec 11693936463248397 17) (dec (-18036020587900337) 21) (dec 36877014433919796 26) (dec 24325784748542268 28);
  q4 (dec 11420785043069245 17) (dec (-17754123996391347) 21) (dec 14805610903737508 25) (dec (-24323244395051678) 28);
  q4 (dec 11152789962044088 17) (dec (-17472326727067671) 21) (dec (-14818245534261655) 25) (dec 19422389257620072 27);
  q4 (dec 10889944812792803 17) (dec (-16570687596379765) 21) (dec 31057790869503736 28) (dec (-11321112193476552) 30);
  q4 (dec 10637410740004476 17) (dec (-16570529779218286) 21) (dec (-20687324952708667) 28) (dec 11311966837487815 30);
  q4 (dec 10384875065371119 17) (dec (-16570372141802151) 21) (dec 73945693492987695 25) (dec (-19408318502102276) 27);
  q4 (dec 1014264726351066 16) (dec (-15668826246736062) 21) (dec 36921072154877024 26) (dec 24316991374571394 28);
  q4 (dec 99055725971141331 18) (dec (-15386856637131647) 21) (dec 11105642622699096 25) (dec (-56559819017563591) 31);
  q4 (dec 96736542698716024 18) (dec (-15048750743426424) 21) (dec 1107978990055953 24) (dec 33914803332587019 31);
  q4 (dec 94468858744029438 18) (dec (-14710802438132564) 21) (dec 1110392511349109 24) (dec 99197167995009099 40);
  q4 (dec 92252722162432493 18) (dec (-1437235480067267) 20) (dec 11102195809574972 25) (dec (-3393589479491212) 30);
  q4 (dec 90088148972375492 18) (dec (-14034196328481177) 21) (dec 11081511700951913 25) (dec 4524083466723733 30);
  q4 (dec 87975091118507528 18) (dec (-13696116626005705) 21) (dec 11103924577811849 25) (dec (-33946450161329003) 31);
  q4 (dec 85913580637729206 18) (dec (-13357905534505286) 21) (dec 11090129276505046 25) (dec 22627449301966031 31);
  q4 (dec 83903601511590223 18) (dec (-13019720732245334) 21) (dec 11098750602630002 25) (dec (-11315482704886547) 31);
  q4 (dec 81945169758540867 18) (dec (-12681509657082851) 21) (dec (-34478873309742723) 29) (dec 72803816557986575 28);
  q4 (dec 80038269360130865 18) (dec (-12174337557550746) 21) (dec 19675174759056864 37) (dec (-42304674586106823) 40);
  q4 (dec 78182900316360188 18) (dec (-12174337557550451) 21) (dec 66695507657818289 38) (dec (-14587818822794761) 41);
  q4 (dec 76327531272589497 18) (dec (-1217433755755025) 20) (dec 22197500669433439 25) (dec (-22627449367611214) 31);
  q4 (dec 74523709601908475 18) (dec (-11497915399058448) 21) (dec 55478233768720733 25) (dec (-21842276867382147) 27);
  q4 (dec 72822966658956406 18) (dec (-11328849274913928) 21) (dec (-44384656068958203) 25) (dec 2184227686738563 26);
  q4 (dec 7107067634291471 17) (dec (-11159783150769398) 21) (dec 2219060382287283 24) (dec 13129036940515909 40);
  q4 (dec 69421464754601994 18) (dec (-10483413546248143) 21) (dec 10344734134213175 28) (dec (-45251383527484871) 31);
  q4 (dec 6782380053937892 17) (dec (-10483413538083784) 21) (dec (-74072142942837938) 26) (dec 48581137370605097 28);
  q4 (dec 6622612030570553 17) (dec (-10370685278644533) 21) (dec 29605864282968633 25) (dec (-9714718875692039) 27);
  q4 (dec 64680003463572083 18) (dec (-10145193722522514) 21) (dec (-44406494140289623) 25) (dec 29132086153100762 27);
  q4 (dec 63133854584538046 18) (dec (-94688591400447967) 22) (dec 75846242467650384 34) (dec (-24887694180817236) 36);
  q4 (dec 61690800451683271 18) (dec (-94688591394671152) 22) (dec (-22231835885939959) 39) (dec 0 0);
  q4 (dec 60247746318828503 18) (dec (-94688591394671169) 22) (dec (-20688397100556923) 28) (dec 90495738534452263 31);
  q4 (dec 58804676167523433 18) (dec (-94688591721194746) 22) (dec 33275564481600051 25) (dec (-72758575718317733) 28);
  q4 (dec 57413153389308011 18) (dec (-89615819319929476) 22) (dec 10340448902382056 28) (dec 72735965843787681 28);
  q4 (dec 56073177984182217 18) (dec (-84544623292935936) 22) (dec 1723247466987111 27) (dec (-67847199326681401) 31);
  q4 (dec 54784733933695762 18) (dec (-84544098242961261) 22) (dec (-1110737353176966) 24) (dec 72860393942753152 28);
  q4 (dec 53496273864758997 18) (dec (-82852911625785151) 22) (dec 22204781476630266 25) (dec (-72862906337809923) 28);
  q4 (dec 52259377187362198 18) (dec (-81161783358221685) 22) (dec (-17155329923116749) 28) (dec 92459701269635716 31);
  q4 (dec 51022464491515075 18) (dec (-81160569962288221) 22) (dec 29141051610596716 25) (dec (-74800491727779584) 28);
  q4 (dec 49826783286759553 18) (dec (-77490272237632572) 22) (dec 28548718469846747 26) (dec 12469111181839338 28);
  q4 (dec 48656875768548838 18) (dec (-75751293547503518) 22) (dec 77638378752165314 26) (dec (-72728408136274328) 29);
  q4 (dec 47517883859431675 18) (dec (-7389162752890406) 21) (dec 36980496707000159 26) (dec 12151577802893547 28);
  q4 (dec 46404665636859334 18) (dec (-71917773100260704) 22) (dec 69952344175451077 26) (dec (-70818522675703543) 29);
  q4 (dec 4532237904183084 17) (dec (-70279069853159106) 22) (dec 25133561875674404 26) (dec 99691774844447138 29);
  q4 (dec 44260692173897824 18) (dec (-68818373716235196) 22) (dec 66664944615718905 26) (dec (-73132085089056559) 29);
  q4 (dec 43224795010959945 18) (dec (-67295990681321493) 22) (dec 39391409644896492 26) (dec 32334331366199661 29);
  q4 (dec 42209497575117549 18) (dec (-65870043689323524) 22) (dec 67789142991643251 26) (dec (-40254357426239098) 29);
  q4 (dec 41219957807369673 18) (dec (-64084312024299021) 22) (dec 49427400382283229 26) (dec 3997516053702443 28);
  q4 (dec 40256207744616919 18) (dec (-62299228815268771) 22) (dec 54149419878645506 26) (dec (-31889477870209373) 29);
  q4 (dec 39318215349958684 18) (dec (-6087095170522924) 21) (dec 33387591316925036 26) (dec 7227221401813523 28);
  q4 (dec 38400854719296551 18) (dec (-59349724792653176) 22) (dec 61505429448750367 26) (dec (-39955822172296043) 29);
  q4 (dec 37509235738278628 18) (dec (-57753440603968203) 22) (dec 39531771012165099 26) (dec (-17901644121936051) 31);
  q4 (dec 366382485212568 16) (dec (-56549759561387327) 22) (dec 35219345614586697 26) (dec 92295688162367092 29);
  q4 (dec 35787877049780779 18) (dec (-54833182656366555) 22) (dec 73277322002832247 26) (dec (-16881299609046521) 28);
  q4 (dec 34963263246399263 18) (dec (-53775932921343629) 22) (dec 32160568675718965 26) (dec 82938637451877303 29);
  q4 (dec 3415412326601483 17) (dec (-52217784921652375) 22) (dec 25892162701665672 24) (dec (-59342764380314063) 26);
  q4 (dec 34014970988193276 18) (dec (-51695553991634588) 22) (dec (-23775163467791055) 25) (dec 13059486548662703 27);
  q4 (dec 33360441090177162 18) (dec (-51549883220058449) 22) (dec 16195314551700101 26) (dec 10312963436016873 28);
  q4 (dec 32582232737336569 18) (dec (-50337670791561477) 22) (dec 37764480613967477 26) (dec 21651831411333264 29);
  q4 (dec 31824624111591468 18) (dec (-49035745350471742) 22) (dec 38069902056279463 26) (dec 41525947553019732 29);
  q4 (dec 31087631231392156 18) (dec (-47586033228304578) 22) (dec 38035404421076559 26) (dec (-22611119175331879) 40);
  q4 (dec 30371254096738649 18) (dec (-46426714101551712) 22) (dec 28531823237701705 26) (dec (-8305975474068215) 31);
  q4 (dec 29670334766631907 18) (dec (-45557642867045399) 22) (dec 2278624652181244 25) (dec 10014315095786192 28);
  q4 (dec 28984873241071935 18) (dec (-44165347836123231) 22) (dec 48861036925777252 26) (dec (-87529738205493662) 29);
  q4 (dec 28320043479508065 18) (dec (-43285946838352607) 22) (dec 14757359916880976 26) (dec 48604926347539681 29);
  q4 (dec 27665513581491944 18) (dec (-42497476601836416) 22) (dec 59190273823821417 26) (dec (-36469547056986906) 41);
  q4 (dec 27031599429021613 18) (dec (-40693357055686619) 22) (dec 29587455885708039 26) (dec (-10048830790334167) 31);
  q4 (dec 26418301022097079 18) (dec (-39792231575486901) 22) (dec 14782233204801966 26) (dec 50283193624409091 32);
  q4 (dec 25815302478720291 18) (dec (-39341318747788379) 22) (dec 23709232116082231 26) (dec 38772311287320721 29);
  q4 (dec 25222619817341554 18) (dec (-38348506433908863) 22) (dec 62089557744378366 26) (dec (-58098261478470154) 29);
  q4 (dec 24650552901508613 18) (dec (-36860829597115042) 22) (dec 22184844545212967 26) (dec (-75346711258892269) 32);
  q4 (dec 24093943790222439 18) (dec (-36185160530766712) 22) (dec 11057920181511571 26) (dec 73011314722562189 29);
  q4 (dec 2354763454248401 17) (dec (-35339392141725054) 22) (dec 44450176111457712 26) (dec (-73086661433850429) 29);
  q4 (dec 2301679911774266 17) (dec (-34493798751146983) 22) (dec 11034954503920694 26) (dec 73086661433715326 29);
  q4 (dec 22496263556549052 18) (dec (-3364820536056929) 21) (dec 44438693272669085 26) (dec (-73011314722452956) 29);
  q4 (dec 21991201818352523 18) (dec (-32802436971526776) 22) (dec (-22965677539187869) 29) (dec 14556984609697592 28);
  q4 (dec 21496439943703739 18) (dec (-31788845872772532) 22) (dec 33311768908913475 26) (dec (-72860386939802155) 29);
  q4 (dec 21017135873601722 18) (dec (-31281174514600126) 22) (dec 43629977926156133 38) (dec 72860386939795036 29);
  q4 (dec 20542989744498731 18) (dec (-30773503156427551) 22) (dec 66531567958035434 26) (dec (-14556984609703026) 28);
  q4 (dec 20084301419942514 18) (dec (-297599120576726) 20) (dec (-22989476226512808) 29) (dec 14572069567905994 28);
  q4 (dec 19635912958934035 18) (dec (-28745270605445491) 22) (dec 31128729579075268 26) (dec (-58384975905395703) 29);
  q4 (dec 19202998320922638 18) (dec (-28203277559270626) 22) (dec 29521545099968007 27) (dec 38862877336719594 29);
  q4 (dec 18775241623910265 18) (dec (-27842509931226306) 22) (dec 36924966074962915 26) (dec (-48397652127666906) 29);
  q4 (dec 18357784790445635 18) (dec (-27054258641125637) 22) (dec 22173361706397074 26) (dec 11670255058236365 40);
  q4 (dec 17950627820528749 18) (dec (-26378414576313859) 22) (dec 0 0) (dec 0 0)].
(** L916-1122 *)
Definition MIL_SPEC_210A_Polar_akima_dT : list coefD := [
  q4 (dec 54680664916886938 19) (dec (-15309731464493474) 34) (dec 0 0) (dec 0 0);
  q4 (dec 54680664916886938 19) (dec (-15309731464493474) 34) (dec 33951974841979826 37) (dec (-88007388054359438) 40);
  q4 (dec 54680664916885082 19) (dec (-11093284952190294) 34) (dec 25943809235976799 37) (dec 52547018412093369 40);
  q4 (dec 5468066491688418 18) (dec 4757214180000158 35) (dec 40045079278072898 36) (dec (-16189245171404856) 38);
  q4 (dec 54680664916887823 19) (dec 97308661779037488 35) (dec (-31650788646696133) 37) (dec (-16962874370488483) 39);
  q4 (dec 5468066491688797 18) (dec (-11735563672782728) 34) (dec (-75287149431695126) 37) (dec 24700508343732904 39);
  q4 (dec 54680664916885308 19) (dec (-17472444459477265) 34) (dec 80578225294079461 36) (dec (-48413037236327449) 38);
  q4 (dec 54680664916884223 19) (dec (-10919888887972468) 33) (dec (-12593725665309713) 22) (dec 8722918292680724 24);
  q4 (dec 21036201681930719 19) (dec (-42997001846340133) 21) (dec (-4653535470194046) 22) (dec 62961620614362932 25);
  q4 (dec (-10936132983378195) 19) (dec (-107682385179405) 31) (dec 14010175958864847 35) (dec (-43214517176775599) 38);
  q4 (dec (-10936132983377362) 19) (dec 18240776707695173 34) (dec 49305839521656188 37) (dec (-32352913071950399) 39);
  q4 (dec (-10936132983374583) 19) (dec 10726566764596487 34) (dec (-89947175698699766) 37) (dec 12652751457796626 39);
  q4 (dec (-10936132983374589) 19) (dec (-78732393274141548) 35) (dec (-2579176019752044) 35) (dec 12410908474471247 38);
  q4 (dec (-10936132983377386) 19) (dec (-10689926445796563) 37) (dec 12057731994962823 36) (dec (-5273064217518374) 38);
  q4 (dec (-10936132983376454) 19) (dec 0 0) (dec 0 0) (dec 0 0);
  q4 (dec (-10936132983376454) 19) (dec 0 0) (dec 0 0) (dec 0 0);
  q4 (dec (-10936132983376454) 19) (dec 0 0) (dec 0 0) (dec 0 0);
  q4 (dec (-10936132983376454) 19) (dec 0 0) (dec 0 0) (dec 0 0);
  q4 (dec (-10936132983376454) 19) (dec 0 0) (dec 69313141326425908 39) (dec (-27102709440065249) 41);
  q4 (dec (-10936132983376447) 19) (dec 22422147321539113 37) (dec (-45294757406418307) 37) (dec 14860484713392724 39);
  q4 (dec (-1093613298337697) 18) (dec (-34290383670469098) 35) (dec 98766833003852018 37) (dec (-33503169505108838) 39);
  q4 (dec (-10936132983376385) 19) (dec 3330995107577871 34) (dec (-58213257761420534) 24) (dec 54828207499220468 27);
  q4 (dec (-17962534031197115) 19) (dec (-11326075969371505) 21) (dec (-70402263714378296) 22) (dec 13341488980059974 23);
  q4 (dec (-51035287255760901) 19) (dec (-78957750740329919) 35) (dec 26270801241362353 36) (dec (-11363530205743396) 38);
  q4 (dec (-51035287255760025) 19) (dec (-70003604837646079) 35) (dec 80103499058627226 38) (dec (-52561351088340778) 40);
  q4 (dec (-51035287255761091) 19) (dec (-82211378094182762) 35) (dec (-81362779193709055) 37) (dec 39285252173459262 39);
  q4 (dec (-51035287255762844) 19) (dec (-5647617752053484) 34) (dec 51122349772103968 36) (dec (-21335946317062932) 38);
  q4 (dec (-51035287255759383) 19) (dec 15102337934230159 35) (dec (-15369140510553164) 38) (dec (-15732191073794693) 40);
  q4 (dec (-51035287255759244) 19) (dec (-54393891800932293) 37) (dec (-23785987594501471) 39) (dec 1452276998769774 40);
  q4 (dec (-51035287255759253) 19) (dec (-25702870908131501) 37) (dec 4485478951689896 38) (dec (-1836574058959643) 40);
  q4 (dec (-51035287255759253) 19) (dec (-16952957407491056) 37) (dec (-12272209591770028) 37) (dec 46949968528098325 40);
  q4 (dec (-51035287255759374) 19) (dec (-48617633785550645) 36) (dec 4144704929997828 36) (dec (-17261531935596549) 39);
  q4 (dec (-51035287255759097) 19) (dec 11951834972280629 36) (dec (-84283588876115352) 37) (dec 37146378006578812 39);
  q4 (dec (-51035287255759721) 19) (dec 31246627378512396 36) (dec 44509380743643329 37) (dec (-20259095524366633) 39);
  q4 (dec (-51035287255759357) 19) (dec (-23706118953285033) 36) (dec (-42882980760734828) 38) (dec 21192129654763091 40);
  q4 (dec (-51035287255759417) 19) (dec (-67524491368820174) 37) (dec 77722580014964403 39) (dec (-21925965210174194) 41);
  q4 (dec (-51035287255759417) 19) (dec 16599770794834876 37) (dec 10985600094819439 37) (dec (-48294231343355939) 40);
  q4 (dec (-51035287255759331) 19) (dec 0 0) (dec (-21775575101507276) 36) (dec 8823937724376663 38);
  q4 (dec (-51035287255761265) 19) (dec (-48891549569987529) 35) (dec 80795141626674325 37) (dec (-31964614406186946) 39);
  q4 (dec (-51035287255761265) 19) (dec (-25348696699077055) 35) (dec (-12998419030501462) 36) (dec 60428977530393574 39);
  q4 (dec (-51035287255762531) 19) (dec (-48782999886862922) 37) (dec 40652499905717914 36) (dec (-17783245803026143) 38);
  q4 (dec (-51035287255759391) 19) (dec (-4878299988686217) 36) (dec (-26410156267013634) 38) (dec 12078540456464439 40);
  q4 (dec (-51035287255759417) 19) (dec (-12164717529039367) 37) (dec 49336159632907998 39) (dec (-2713521096898984) 40);
  q4 (dec (-51035287255759417) 19) (dec (-50858872222472883) 37) (dec (-30937184947227437) 37) (dec 13657713942948607 39);
  q4 (dec (-5103528725575966) 18) (dec 35810741489980544 37) (dec 59148212651373807 37) (dec (-23527530887579134) 39);
  q4 (dec (-51035287255759114) 19) (dec 16708423840037537 35) (dec (-10338991306412681) 37) (dec 80285384975799015 42);
  q4 (dec (-51035287255759097) 19) (dec (-14245414937021773) 35) (dec (-23457450043214814) 37) (dec 38822621511274844 40);
  q4 (dec (-51035287255759721) 19) (dec (-58693175974989279) 35) (dec (-12239615311362984) 36) (dec 61965198794403883 39);
  q4 (dec (-51035287255761265) 19) (dec 0 0) (dec 0 0) (dec 0 0);
  q4 (dec (-51035287255761265) 19) (dec 0 0) (dec 0 0) (dec 0 0);
  q4 (dec (-51035287255761265) 19) (dec 0 0) (dec (-12014769935993456) 38) (dec 29828127944372913 41);
  q4 (dec (-51035287255761282) 19) (dec (-15837590538349075) 36) (dec (-25822535975271016) 36) (dec 10959506282808033 38);
  q4 (dec (-51035287255763425) 19) (dec (-25026067651122514) 35) (dec 43571358780363169 36) (dec (-18274430875856431) 38);
  q4 (dec (-51035287255760155) 19) (dec 29716310996655542 35) (dec (-23036852191295572) 36) (dec 10626504001229736 38);
  q4 (dec (-51035287255761291) 19) (dec 67978950920773919 35) (dec 1395692731877091 35) (dec (-66694777071041108) 39);
  q4 (dec (-51035287255759374) 19) (dec 28675029945261255 35) (dec (-26427828038110274) 37) (dec 86705472565890588 40);
  q4 (dec (-51035287255759244) 19) (dec 85370249801600629 36) (dec (-27261715816003135) 37) (dec (-63020833666338847) 52);
  q4 (dec (-51035287255759747) 19) (dec (-74556684827061216) 35) (dec (-19619259289705718) 24) (dec 77241178305932431 27);
  q4 (dec (-52857976086322627) 19) (dec (-59799502315067994) 23) (dec 39238518579447017 25) (dec (-36766161253688152) 40);
  q4 (dec (-52857976086322618) 19) (dec 59799502315060593 23) (dec 15695407431776051 24) (dec (-77241178305982798) 27);
  q4 (dec (-51035287255759417) 19) (dec 0 0) (dec 0 0) (dec 0 0);
  q4 (dec (-51035287255759417) 19) (dec 0 0) (dec 0 0) (dec 0 0);
  q4 (dec (-51035287255759417) 19) (dec 0 0) (dec (-63797294643746701) 24) (dec 27934837628456917 26);
  q4 (dec (-55964862399990834) 19) (dec 18819624511246768 24) (dec 38297050324369403 21) (dec (-12859578736801071) 22);
  q4 (dec (-56420290541868943) 20) (dec 32265502061645876 22) (dec (-12806893720974764) 24) (dec (-23050546846950504) 28);
  q4 (dec (-36691356660138155) 20) (dec (-29109630728991291) 23) (dec (-34438575803518509) 25) (dec 22413562895262906 27);
  q4 (dec (-41192767570713388) 20) (dec 22093199986970673 23) (dec 322183882133868 23) (dec (-17264572793509437) 27);
  q4 (dec (-36453776611267347) 20) (dec 54728253125266718 38) (dec (-18003241456848736) 41) (dec (-22382285499911831) 42);
  q4 (dec (-36453776611267347) 20) (dec (-10671281225250969) 37) (dec (-12253767811148186) 39) (dec 80405300598085038 42);
  q4 (dec (-36453776611267364) 20) (dec 80034609189385689 38) (dec 81596573536544506 40) (dec (-26739291884986931) 42);
  q4 (dec (-36453776611267342) 20) (dec 14242885256157726 37) (dec 40687725994798392 40) (dec (-11445162565244212) 42);
  q4 (dec (-36453776611267315) 20) (dec 18669826172331844 37) (dec 1061833544054418 35) (dec (-43504084965148916) 39);
  q4 (dec (-36453776611258023) 20) (dec 20708931563463485 35) (dec (-40203251765205374) 36) (dec 17587289251303998 38);
  q4 (dec (-3645377661128599) 19) (dec 20748295364099654 35) (dec 2183174865412398 35) (dec (-984295689430667) 37);
  q4 (dec (-36453776611266962) 20) (dec 3495307892639957 36) (dec 3135566040843257 39) (dec (-63860236997163039) 42);
  q4 (dec (-36453776611266924) 20) (dec 14208077713125512 40) (dec (-17384728324907861) 40) (dec 11346128260185277 42);
  q4 (dec (-36453776611266924) 20) (dec 26210164412897325 38) (dec 58626206544584664 40) (dec (-19123003230825303) 42);
  q4 (dec (-36453776611266914) 20) (dec 7165895690527962 37) (dec 4907130149314665 38) (dec (-13842925605697518) 41);
  q4 (dec (-36453776611266838) 20) (dec 60281482296903503 37) (dec 10269516601638395 36) (dec (-42175489157999536) 39);
  q4 (dec (-36453776611257823) 20) (dec 19750344121018178 35) (dec (-41860675104937918) 36) (dec 18898361986605299 38);
  q4 (dec (-36453776611285144) 20) (dec 60623426604576971 35) (dec 94111367752852146 37) (dec (-37482664891807483) 39);
  q4 (dec (-36453776611267315) 20) (dec 8630586183400689 34) (dec (-14686801910022438) 37) (dec (-12721172480606642) 40);
  q4 (dec (-36453776611258023) 20) (dec 32676722643663416 35) (dec (-42482093059186418) 36) (dec 1856118489520978 37);
  q4 (dec (-36453776611286012) 20) (dec 31115403274960843 35) (dec 43782287226581817 36) (dec (-19531305377117652) 38);
  q4 (dec (-36453776611248715) 20) (dec 47112844142455321 36) (dec (-23671669792701895) 38) (dec 13739725152692028 41);
  q4 (dec (-36453776611248498) 20) (dec (-15464938619828906) 36) (dec (-19498834165058314) 38) (dec 30891997312394411 42);
  q4 (dec (-36453776611249176) 20) (dec (-72744914808431553) 36) (dec (-46547985661093281) 36) (dec 20434447089343641 38);
  q4 (dec (-36453776611286066) 20) (dec (-22404029415878697) 36) (dec 4326212768920478 35) (dec (-17733927820792166) 38);
  q4 (dec (-36453776611248699) 20) (dec 80737394756251369 35) (dec (-52763966961377641) 37) (dec (-12466251683240572) 41);
  q4 (dec (-36453776611248694) 20) (dec (-80955791051110902) 35) (dec (-36418723794652469) 36) (dec 17088993914454208 38);
  q4 (dec (-36453776611285128) 20) (dec (-28387841638405816) 37) (dec 47209548176987052 36) (dec (-20651851359500423) 38);
  q4 (dec (-36453776611248623) 20) (dec (-30167967610686418) 37) (dec (-59677440708947655) 39) (dec 26111435596237435 41);
  q4 (dec (-36453776611248715) 20) (dec (-30127425967459063) 37) (dec 62186324842316435 39) (dec (-27833118525392181) 41);
  q4 (dec (-36453776611248715) 20) (dec (-34517107124771898) 37) (dec (-449254490111355) 34) (dec 1922766017092346 37);
  q4 (dec (-36453776611285052) 20) (dec (-299417954563791) 33) (dec 40909456344615798 36) (dec (-17861439220393463) 38);
  q4 (dec (-36453776611257823) 20) (dec (-27558067834838568) 35) (dec (-2562963013507819) 36) (dec 28916881727968226 40);
  q4 (dec (-36453776611266952) 20) (dec (-85528683837691527) 35) (dec (-10342468164305262) 36) (dec 50733102443080035 39);
  q4 (dec (-3645377661128605) 19) (dec (-47272655066199718) 35) (dec 54438543801734783 36) (dec (-23133236271520917) 38);
  q4 (dec (-36453776611248699) 20) (dec 15317901376093761 37) (dec (-95951891387858231) 40) (dec 12323646731758895 42);
  q4 (dec (-36453776611248694) 20) (dec (-53414532794269079) 38) (dec (-50011023864009521) 40) (dec (-5447579113446358) 42);
  q4 (dec (-36453776611248715) 20) (dec (-24380538305274765) 37) (dec (-46163542165428184) 36) (dec 19758486043172954 38);
  q4 (dec (-36453776611286034) 20) (dec (-30591006179053021) 35) (dec 42342202640051689 36) (dec (-18557663612788006) 38);
  q4 (dec (-36453776611258039) 20) (dec (-33048193404315764) 35) (dec (-21914209429129293) 37) (dec 23274674180189247 40);
  q4 (dec (-36453776611267342) 20) (dec (-83625543846683573) 35) (dec (-8685463578584536) 36) (dec 42885098939384796 39);
  q4 (dec (-36453776611285079) 20) (dec (-49546769059219258) 35) (dec 53466370460233165 36) (dec (-22676152193001263) 38);
  q4 (dec (-36453776611248715) 20) (dec 95596894309540313 38) (dec (-79611411450360152) 40) (dec 11078602698386787 42);
  q4 (dec (-36453776611248715) 20) (dec (-69865997568732044) 38) (dec (-42027579041771491) 40) (dec (-36027762456954995) 43);
  q4 (dec (-36453776611248737) 20) (dec (-22306922341291847) 37) (dec (-46635485712408201) 36) (dec 19955465821869443 38);
  q4 (dec (-36453776611286451) 20) (dec (-31230094136790634) 35) (dec 43158145611126379 36) (dec (-18880227847238145) 38);
  q4 (dec (-36453776611257801) 20) (dec (-31292738085465005) 35) (dec (-23046381556725781) 37) (dec 15794057862648744 40);
  q4 (dec (-36453776611267364) 20) (dec (-90533239150045882) 35) (dec (-8651174665509012) 36) (dec 41836065361387972 39);
  q4 (dec (-36453776611286446) 20) (dec (-6271871892638827) 34) (dec 46640906292573993 36) (dec (-1982199317569259) 37);
  q4 (dec (-36453776611257839) 20) (dec (-22246463789551413) 35) (dec (-92093370136676795) 37) (dec 43052158475348427 39);
  q4 (dec (-3645377661126738) 19) (dec (-29713258970166929) 36) (dec (-73867965264153834) 39) (dec 70726598648856131 41);
  q4 (dec (-36453776611267754) 20) (dec (-29478446076424011) 37) (dec (-16456330377954605) 39) (dec 11238014875906794 41);
  q4 (dec (-36453776611267797) 20) (dec (-13339101531563314) 38) (dec 17350467697200105 40) (dec (-56415855666163952) 43);
  q4 (dec (-36453776611267797) 20) (dec 23609029259404708 40) (dec 16777915470856313 39) (dec (-64247072998228934) 42);
  q4 (dec (-36453776611267781) 20) (dec 63970824396487064 38) (dec (-23854616290307064) 36) (dec 1012871708179984 37);
  q4 (dec (-36453776611287324) 20) (dec (-21283277554805773) 35) (dec 41789429776184993 36) (dec (-18234261017927302) 38);
  q4 (dec (-3645377661125805) 19) (dec (-18055168515874959) 35) (dec (-10505910697413443) 36) (dec 49173289514652964 39);
  q4 (dec (-36453776611267797) 20) (dec 43507796303206647 36) (dec 62577769488176652 38) (dec (-33911240264089146) 40);
  q4 (dec (-36453776611266881) 20) (dec (-20394605996482078) 37) (dec (-81281765609791313) 40) (dec 49253004529937125 42);
  q4 (dec (-36453776611266914) 20) (dec (-10851134279609086) 37) (dec 23045118783624675 41) (dec (-73777803569949994) 44);
  q4 (dec (-3645377661126693) 19) (dec (-1066278272679705) 36) (dec 16866379394684929 39) (dec (-64762485579386173) 42);
  q4 (dec (-3645377661126693) 19) (dec (-43787967439053649) 38) (dec (-24909489939948153) 36) (dec 10582017820418632 38);
  q4 (dec (-36453776611287335) 20) (dec (-21958822698753281) 35) (dec 41971631915666784 36) (dec (-18315541020702242) 38);
  q4 (dec (-36453776611258029) 20) (dec (-18840561960167354) 35) (dec (-10396969445454938) 36) (dec 48781292795074039 39);
  q4 (dec (-36453776611267781) 20) (dec 41545890268052896 36) (dec 60558621845745922 38) (dec (-32813699678552658) 40);
  q4 (dec (-36453776611266903) 20) (dec (-2508364379958469) 36) (dec (-29085831474774362) 39) (dec 17632878766136479 41);
  q4 (dec (-36453776611266946) 20) (dec 91238449647154338 38) (dec 20855829490377609 40) (dec (-70223413735354732) 43);
  q4 (dec (-3645377661126693) 19) (dec 10587725331988333 37) (dec (-26055237826395436) 39) (dec 64118815265621443 42);
  q4 (dec (-36453776611266952) 20) (dec (-24152393117555306) 37) (dec (-2159276617556872) 35) (dec 91692476006894639 39);
  q4 (dec (-36453776611284684) 20) (dec (-19500804499936246) 35) (dec 38270655633124654 36) (dec (-16738765327471905) 38);
  q4 (dec (-36453776611258018) 20) (dec (-19322859378859623) 35) (dec (-89587967074650111) 37) (dec 41971936719617904 39);
  q4 (dec (-36453776611266914) 20) (dec 62055673112198872 38) (dec 45392623985204031 39) (dec (-24799385490902704) 41);
  q4 (dec (-36453776611266887) 20) (dec (-28233087449636739) 37) (dec (-14572420627238898) 39) (dec 94656564743396938 42);
  q4 (dec (-3645377661126693) 19) (dec (-6695705866824195) 37) (dec 87643135573412583 40) (dec (-28679827891805834) 42);
  q4 (dec (-3645377661126693) 19) (dec 34597872260185373 40) (dec 22365586501664865 39) (dec (-85643598891042327) 42);
  q4 (dec (-36453776611266908) 20) (dec 85307753279457536 38) (dec (-21690635261191369) 36) (dec 92086735061716174 39);
  q4 (dec (-36453776611284678) 20) (dec (-19409932689740843) 35) (dec 38433375844648347 36) (dec (-16857107311583686) 38);
  q4 (dec (-36453776611258039) 20) (dec (-2251802308413414) 34) (dec (-81260532640213553) 37) (dec 37837493246052601 39);
  q4 (dec (-36453776611266952) 20) (dec (-65587654311774287) 36) (dec (-19355859818200512) 38) (dec 1781378485538544 39);
  q4 (dec (-3645377661126777) 19) (dec (-4627075148025474) 37) (dec 80517887146193511 40) (dec (-48226385680402397) 42);
  q4 (dec (-36453776611267776) 20) (dec (-13688056930279985) 37) (dec (-72613121583090513) 41) (dec 2438266546303386 42);
  q4 (dec (-36453776611267797) 20) (dec (-14202387067518467) 37) (dec 44570851523525091 39) (dec (-17004918541882991) 41);
  q4 (dec (-36453776611267776) 20) (dec 31639213141877561 38) (dec (-21668193441570191) 36) (dec 91962586361785944 39);
  q4 (dec (-36453776611285546) 20) (dec (-19644608940492395) 35) (dec 3996314789915726 35) (dec (-17481691994381837) 38);
  q4 (dec (-364537766112576) 18) (dec (-1964460894049239) 34) (dec (-94487463912934703) 37) (dec 44161398549692891 39);
  q4 (dec (-36453776611266908) 20) (dec 62214246740250993 38) (dec 31489884302530847 39) (dec (-17215209915232479) 41);
  q4 (dec (-36453776611266887) 20) (dec (-177483081241018) 35) (dec (-3549843688927109) 39) (dec 23132940309704051 42);
  q4 (dec (-36453776611266914) 20) (dec (-12449828096126066) 37) (dec 23303323961214159 40) (dec (-7633247311665576) 42);
  q4 (dec (-3645377661126693) 19) (dec (-1066561405518972) 36) (dec 16399649769046092 39) (dec (-61687764761353672) 42);
  q4 (dec (-3645377661126693) 19) (dec (-36618381376464456) 38) (dec (-26350497388621316) 36) (dec 11527252074613808 38);
  q4 (dec (-36453776611287335) 20) (dec (-12208353099245195) 38) (dec 5042271737651407 35) (dec (-22055171205769605) 38);
  q4 (dec (-36453776611248292) 20) (dec 1278777307250229 36) (dec (-2989646373819501) 38) (dec 12579714903949958 41);
  q4 (dec (-36453776611248298) 20) (dec 93153833667541288 38) (dec 25220460927117797 39) (dec (-11370479747134069) 41);
  q4 (dec (-36453776611248265) 20) (dec 69609381650694171 38) (dec (-45156126409331058) 36) (dec 19329002534309367 38);
  q4 (dec (-36453776611284716) 20) (dec (-29496801870995233) 35) (dec 40287310966725225 36) (dec (-17628582842084071) 38);
  q4 (dec (-36453776611258039) 20) (dec (-29851266296309737) 35) (dec (-22358778467525595) 37) (dec 23454231708421796 40);
  q4 (dec (-36453776611266952) 20) (dec (-81658552366001403) 35) (dec (-91135448365743425) 37) (dec 44862445570238007 39);
  q4 (dec (-36453776611284684) 20) (dec (-468500808365607) 33) (dec 52042747951484856 36) (dec (-22092448349261059) 38);
  q4 (dec (-36453776611249149) 20) (dec 71167207682897379 38) (dec (-58793617264469308) 40) (dec 7936991094436997 42);
  q4 (dec (-36453776611249149) 20) (dec (-52732942654744805) 38) (dec (-36284714052604496) 40) (dec 56748826234547436 44);
  q4 (dec (-36453776611249165) 20) (dec (-15937464723186838) 37) (dec (-46975232025734747) 36) (dec 20549347269399528 38);
  q4 (dec (-36453776611285556) 20) (dec (-14182328446072333) 37) (dec 42647012055197116 36) (dec (-17439042686521479) 38);
  q4 (dec (-36453776611248255) 20) (dec 84634043957227334 35) (dec (-56128450745348685) 37) (dec 31338491898536087 41);
  q4 (dec (-36453776611248282) 20) (dec (-84261893039805008) 35) (dec (-39785191511918636) 36) (dec 18699048280372004 38);
  q4 (dec (-3645377661128734) 19) (dec 5984292441893826 35) (dec 46303441028604462 36) (dec (-20098975080821898) 38);
  q4 (dec (-36453776611250027) 20) (dec 1687126057429484 34) (dec (-32102517833186816) 38) (dec (-16477878804007634) 41);
  q4 (dec (-3645377661124826) 19) (dec 59382793635067693 36) (dec (-28006272864209072) 38) (dec (-71908233745687282) 41);
  q4 (dec (-3645377661124826) 19) (dec (-76084027425080351) 36) (dec (-50647626032344986) 36) (dec 23020948815805668 38);
  q4 (dec (-36453776611285567) 20) (dec 52689052296192411 35) (dec 10423847761479363 36) (dec (-40834076695147095) 39);
  q4 (dec (-36453776611267781) 20) (dec 85887192523163148 35) (dec (-28687014660893586) 37) (dec 94117502168042002 40);
  q4 (dec (-36453776611258023) 20) (dec 64027687351392607 35) (dec (-29441719460918383) 36) (dec 8279448667304809 38);
  q4 (dec (-3645377661128734) 19) (dec (-25646645877997934) 34) (dec (-23543111147571817) 24) (dec 10298823774092422 26);
  q4 (dec (-54680664916881999) 20) (dec (-14437066217143657) 34) (dec 70629333442990416 24) (dec (-30896471322390648) 26);
  q4 (dec 10842021724855044 35) (dec (-96660156025705383) 38) (dec (-34470271320421219) 38) (dec 86047835802150098 40);
  q4 (dec 0 0) (dec 0 0) (dec 0 0) (dec 0 0);
  q4 (dec 0 0) (dec 0 0) (dec 0 0) (dec 0 0);
  q4 (dec 0 0) (dec 0 0) (dec 0 0) (dec 0 0);
  q4 (dec 0 0) (dec 0 0) (dec 0 0) (dec 0 0);
  q4 (dec 0 0) (dec 0 0) (dec 0 0) (dec 0 0);
  q4 (dec 0 0) (dec 0 0) (dec 0 0) (dec 0 0);
  q4 (dec 0 0) (dec 0 0) (dec 0 0) (dec 0 0);
  q4 (dec 0 0) (dec 0 0) (dec 0 0) (dec 0 0);
  q4 (dec 0 0) (dec 0 0) (dec 0 0) (dec 0 0);
  q4 (dec 0 0) (dec 0 0) (dec 0 0) (dec 0 0);
  q4 (dec 0 0) (dec 0 0) (dec 0 0) (dec 0 0);
  q4 (dec 0 0) (dec 0 0) (dec 0 0) (dec 0 0);
  q4 (dec 0 0) (dec 0 0) (dec 0 0) (dec 0 0);
  q4 (dec 0 0) (dec 0 0) (dec 0 0) (dec 0 0);
  q4 (dec 0 0) (dec 0 0) (dec 0 0) (dec 0 0);
  q4 (dec 0 0) (dec 0 0) (dec 0 0) (dec 0 0);
  q4 (dec 0 0) (dec 0 0) (dec 0 0) (dec 0 0);
  q4 (dec 0 0) (dec 0 0) (dec 0 0) (dec 0 0);
  q4 (dec 0 0) (dec 0 0) (dec 0 0) (dec 0 0);
  q4 (dec 0 0) (dec 0 0) (dec 0 0) (dec 0 0);
  q4 (dec 0 0) (dec 0 0) (dec 0 0) (dec 0 0);
  q4 (dec 0 0) (dec 0 0) (dec 0 0) (dec 0 0);
  q4 (dec 0 0) (dec 0 0) (dec 0 0) (dec 0 0);
  q4 (dec 0 0) (dec 0 0) (dec 0 0) (dec 0 0);
  q4 (dec 0 0) (dec 0 0) (dec 0 0) (dec 0 0);
  q4 (dec 0 0) (dec 0 0) (dec 0 0) (dec 0 0);
  q4 (dec 0 0) (dec 0 0) (dec 0 0) (dec 0 0);
  q4 (dec 0 0) (dec 0 0) (dec 0 0) (dec 0 0);
  q4 (dec 0 0) (dec 0 0) (dec 0 0) (dec 0 0)].
Definition MIL_SPEC_210A_Polar_D : tableD := {| t_alt := MIL_SPEC_210A_Polar_alt; t_T := MIL_SPEC_210A_Polar_akima_T; t_P := MIL_SPEC_210A_Polar_akima_P; t_rho := MIL_SPEC_210A_Polar_akima_rho; t_dT := MIL_SPEC_210A_Polar_akima_dT |}.
Definition MIL_SPEC_210A_Polar : tableQ := tableQ_of MIL_SPEC_210A_Polar_D.

(** MIL_SPEC_210A_Tropical.py *)
(** L272-323 *)
Definition MIL_SPEC_210A_Tropical_alt : list decimal := [dec 0 0; dec 1524 1; dec 3048 1; dec 45720000000000005 14; dec 6096 1; dec 762 0; dec 9144000000000001 13; dec 10668 1; dec 12192 1; dec 13716000000000001 13; dec 1524 0; dec 16764 1; dec 18288000000000002 13; dec 19812 1; dec 21336 1; dec 2286 0; dec 24384 1; dec 25908 1; dec 27432000000000003 13; dec 28956000000000004 13; dec 3048 0; dec 32004 1; dec 33528 1; dec 35052000000000003 13; dec 36576000000000004 13; dec 3810 0; dec 39624 1; dec 41148 1; dec 42672 1; dec 44196 1; dec 4572 0; dec 4724400000000001 12; dec 48768 1; dec 50292 1; dec 51816 1; dec 5334 0; dec 5486400000000001 12; dec 56388 1; dec 5791200000000001 12; dec 59436 1; dec 6096 0; dec 6248400000000001 12; dec 64008 1; dec 6553200000000001 12; dec 67056 1; dec 6858 0; dec 7010400000000001 12; dec 71628 1; dec 7315200000000001 12; dec 74676 1; dec 7620 0; dec 7772400000000001 12; dec 79248 1; dec 8077200000000001 12; dec 82296 1; dec 8382 0; dec 85344 1; dec 8686800000000001 12; dec 88392 1; dec 89916 1; dec 9144 0; dec 92964 1; dec 9448800000000001 12; dec 96012 1; dec 97536 1; dec 9906 0; dec 100584 1; dec 10210800000000001 12; dec 103632 1; dec 105156 1; dec 10668 0; dec 108204 1; dec 10972800000000001 12; dec 111252 1; dec 112776 1; dec 11430 0; dec 11582400000000001 12; dec 11734800000000001 12; dec 118872 1; dec 120396 1; dec 12192 0; dec 12344400000000001 12; dec 12496800000000001 12; dec 126492 1; dec 128016 1; dec 12954 0; dec 13106400000000001 12; dec 13258800000000001 12; dec 134112 1; dec 135636 1; dec 13716 0; dec 13868400000000001 12; dec 14020800000000001 12; dec 14182344000000001 12; dec 143256 1; dec 14478 0; dec 14630400000000001 12; dec 14782800000000001 12; dec 149352 1; dec 150876 1; dec 15240 0; dec 15392400000000001 12; dec 15544800000000001 12; dec 156972 1; dec 158496 1; dec 16002 0; dec 16154400000000001 12; dec 16306800000000001 12; dec 16335756000000001 12; dec 164592 1; dec 16611600000000002 12; dec 16764 0; dec 169164 1; dec 170688 1; dec 172212 1; dec 17373600000000002 12; dec 17526 0; dec 176784 1; dec 178308 1; dec 179832 1; dec 18135600000000002 12; dec 18288 0; dec 184404 1; dec 185928 1; dec 187452 1; dec 18897600000000002 12; dec 19050 0; dec 192024 1; dec 193548 1; dec 195072 1; dec 19659600000000002 12; dec 19812 0; dec 199644 1; dec 201168 1; dec 202692 1; dec 20421600000000002 12; dec 20574 0; dec 207264 1; dec 208788 1; dec 210312 1; dec 21183600000000002 12; dec 21220176 3; dec 21336 0; dec 214884 1; dec 216408 1; dec 217932 1; dec 21945600000000002 12; dec 22098 0; dec 222504 1; dec 22402800000000003 12; dec 225552 1; dec 22707600000000002 12; dec 22860 0; dec 230124 1; dec 23164800000000003 12; dec 233172 1; dec 23469600000000002 12; dec 23622 0; dec 237744 1; dec 23926800000000003 12; dec 240792 1; dec 24231600000000002 12; dec 24384 0; dec 245364 1; dec 24688800000000003 12; dec 248412 1; dec 24993600000000002 12; dec 25146 0; dec 252984 1; dec 25450800000000003 12; dec 256032 1; dec 25755600000000002 12; dec 25908 0; dec 260604 1; dec 26212800000000003 12; dec 26368248 3; dec 26517600000000002 12; dec 26670 0; dec 268224 1; dec 26974800000000003 12; dec 271272 1; dec 27279600000000002 12; dec 27432 0; dec 275844 1; dec 27736800000000003 12; dec 278892 1; dec 28041600000000002 12; dec 28194 0; dec 283464 1; dec 28498800000000003 12; dec 286512 1; dec 28803600000000002 12; dec 28956 0; dec 291084 1; dec 29260800000000003 12; dec 294132 1; dec 29565600000000002 12; dec 29718 0; dec 298704 1; dec 30022800000000003 12; dec 301752 1; dec 30327600000000002 12; dec 30480 0].
(** L325-529 *)
Definition MIL_SPEC_210A_Tropical_akima_T : list coefD := [
  q4 (dec 30526111111111106 14) (dec (-74730242053074629) 19) (dec 0 0) (dec 0 0);
  q4 (dec 30526111111111106 14) (dec (-74730242053074629) 19) (dec 56913499868005481 37) (dec 78477037158845181 25);
  q4 (dec 30414999999999998 14) (dec (-6926217556138735) 18) (dec 22765399947202193 36) (dec (-746896323727106) 37);
  q4 (dec 30309444444444443 14) (dec (-69262175561387324) 19) (dec 17074049960401638 36) (dec (-74689632372710565) 39);
  q4 (dec 30203888888888889 14) (dec (-69262175561387316) 19) (dec (-59799502315101967) 22) (dec 23543111147677915 24);
  q4 (dec 30092777777777775 14) (dec (-71084864391951609) 19) (dec 35879701389060623 22) (dec (-156954074317851) 22);
  q4 (dec 29987222222222221 14) (dec (-71084864391951635) 19) (dec (-47839601852079298) 22) (dec 2354311114767676 23);
  q4 (dec 29876111111111106 14) (dec (-69262175561387498) 19) (dec 91061599788808854 36) (dec (-2240688971181322) 37);
  q4 (dec 29770555555555552 14) (dec (-69262175561387342) 19) (dec 14797509965681417 35) (dec (-67220669135439472) 38);
  q4 (dec 29664999999999998 14) (dec (-69262175561387385) 19) (dec (-5979950231503295) 21) (dec 23543111147649126 24);
  q4 (dec 29553888888888889 14) (dec (-71084864391950673) 19) (dec 35879701388967539 22) (dec (-15695407431744343) 24);
  q4 (dec 29448333333333329 14) (dec (-71084864391950681) 19) (dec (-47839601851994671) 22) (dec 23543111147633068 24);
  q4 (dec 29337222222222221 14) (dec (-69262175561391123) 19) (dec 63003244353882034 34) (dec (-24796957947739897) 36);
  q4 (dec 29231666666666666 14) (dec (-69262175561389206) 19) (dec 0 0) (dec (-82158595609981818) 37);
  q4 (dec 29126111111111106 14) (dec (-69262175561394957) 19) (dec (-59799502314929451) 22) (dec 23543111147613418 24);
  q4 (dec 29014999999999998 14) (dec (-71084864391951635) 19) (dec 35879701389055702 22) (dec (-15695407431781421) 24);
  q4 (dec 28909444444444443 14) (dec (-71084864391950681) 19) (dec (-47839601852093189) 22) (dec 2354311114768169 23);
  q4 (dec 28798333333333329 14) (dec (-6926217556138729) 18) (dec 1138269997360109 35) (dec 0 0);
  q4 (dec 28692777777777775 14) (dec (-6926217556138729) 18) (dec 1138269997360109 35) (dec 0 0);
  q4 (dec 28587222222222221 14) (dec (-6926217556138729) 18) (dec (-71759402778119205) 22) (dec 31390814863568592 24);
  q4 (dec 28476111111111106 14) (dec (-69262175561387697) 19) (dec 20488859952482021 35) (dec (-44813779423626581) 38);
  q4 (dec 28370555555555552 14) (dec (-69262175561387394) 19) (dec 27887614935322672 35) (dec (-13444133827087894) 37);
  q4 (dec 28264999999999998 14) (dec (-69262175561387489) 19) (dec (-59799502315031807) 22) (dec 23543111147648828 24);
  q4 (dec 28153888888888889 14) (dec (-71084864391950655) 19) (dec 35879701388969538 22) (dec (-1569540743174527) 23);
  q4 (dec 28048333333333329 14) (dec (-71084864391950707) 19) (dec (-47839601851995069) 22) (dec 23543111147633439 24);
  q4 (dec 27937222222222221 14) (dec (-69262175561391019) 19) (dec 57881029365761711 34) (dec (-22705648241304133) 36);
  q4 (dec 27831666666666666 14) (dec (-69262175561389258) 19) (dec (-56913499868005451) 37) (dec (-75436528696437627) 37);
  q4 (dec 27726111111111106 14) (dec (-69262175561394541) 19) (dec (-71759402777949316) 22) (dec 31390814863504356 24);
  q4 (dec 27614999999999998 14) (dec (-69262175561387914) 19) (dec 42115989902324158 35) (dec (-89627558847253162) 38);
  q4 (dec 27509444444444443 14) (dec (-6926217556138729) 18) (dec 56344364869325221 35) (dec (-26888267654175627) 37);
  q4 (dec 27403888888888889 14) (dec (-69262175561387498) 19) (dec (-71759402778122085) 22) (dec 31390814863570571 24);
  q4 (dec 27292777777777775 14) (dec (-69262175561387506) 19) (dec 70572739836326544 35) (dec (-26888267654175627) 37);
  q4 (dec 27187222222222221 14) (dec (-6926217556138729) 18) (dec 11382699973601123 36) (dec (-89627558847253162) 38);
  q4 (dec 27081666666666666 14) (dec (-69262175561387914) 19) (dec (-59799502315103068) 22) (dec 23543111147680631 24);
  q4 (dec 26970555555555552 14) (dec (-71084864391950768) 19) (dec 35879701389054343 22) (dec (-15695407431783416) 24);
  q4 (dec 26864999999999998 14) (dec (-71084864391951592) 19) (dec (-47839601851967261) 22) (dec 23543111147618189 24);
  q4 (dec 26753888888888889 14) (dec (-69262175561394124) 19) (dec 3266834892423503 33) (dec (-71702047077801672) 37);
  q4 (dec 26648333333333329 14) (dec (-69262175561389163) 19) (dec 43709567898628317 34) (dec (-21435924490968045) 36);
  q4 (dec 26542777777777775 14) (dec (-69262175561390811) 19) (dec (-71759402777947224) 22) (dec 31390814863487886 24);
  q4 (dec 26431666666666666 14) (dec (-69262175561394966) 19) (dec 36879947914467641 34) (dec (-80664802962527836) 37);
  q4 (dec 26326111111111106 14) (dec (-69262175561389371) 19) (dec 49230177385824857 34) (dec (-24199440888758352) 36);
  q4 (dec 26220555555555552 14) (dec (-69262175561391236) 19) (dec (-71759402777968849) 22) (dec 3139081486350394 23);
  q4 (dec 26109444444444443 14) (dec (-6926217556139082) 18) (dec 54636959873285389 34) (dec (-21510614123340754) 36);
  q4 (dec 26003888888888889 14) (dec (-69262175561389163) 19) (dec 11382699973601056 36) (dec (-71702047077801672) 37);
  q4 (dec 25898333333333329 14) (dec (-69262175561394124) 19) (dec (-71759402777952315) 22) (dec 31390814863503642 24);
  q4 (dec 25787222222222221 14) (dec (-69262175561388946) 19) (dec 2390366994456236 33) (dec (-94108936789615811) 37);
  q4 (dec 25681666666666666 14) (dec (-69262175561388226) 19) (dec 0 0) (dec (-31369645596538231) 37);
  q4 (dec 25576111111111109 14) (dec (-69262175561390395) 19) (dec (-7175940277803518) 21) (dec 31390814863534042 24);
  q4 (dec 25464999999999998 14) (dec (-69262175561389363) 19) (dec 45018578395592177 34) (dec (-19643373314022749) 36);
  q4 (dec 25359444444444443 14) (dec (-69262175561389363) 19) (dec 0 0) (dec (-74689632372710964) 39);
  q4 (dec 25253888888888886 14) (dec (-69262175561389371) 19) (dec 36936861414335649 34) (dec (-16132960592505567) 36);
  q4 (dec 25148333333333332 14) (dec (-69262175561389363) 19) (dec (-71759402778024677) 22) (dec 31390814863524553 24);
  q4 (dec 25037222222222221 14) (dec (-69262175561391644) 19) (dec 22423918947994211 34) (dec (-49295157365989232) 37);
  q4 (dec 24931666666666663 14) (dec (-69262175561388226) 19) (dec 30107241430174791 34) (dec (-14788547209796594) 36);
  q4 (dec 24826111111111109 14) (dec (-69262175561389363) 19) (dec (-71759402778048783) 22) (dec 31390814863538529 24);
  q4 (dec 24714999999999998 14) (dec (-69262175561389363) 19) (dec 30619462928987021 34) (dec (-11950341179633752) 36);
  q4 (dec 24609444444444443 14) (dec (-69262175561388417) 19) (dec (-22765399947202247) 36) (dec (-39585505157536807) 37);
  q4 (dec 24503888888888886 14) (dec (-69262175561391227) 19) (dec (-71759402778006381) 22) (dec 31390814863522243 24);
  q4 (dec 24392777777777775 14) (dec (-69262175561389354) 19) (dec 36766120914731625 34) (dec (-16058270960132858) 36);
  q4 (dec 24287222222222221 14) (dec (-69262175561389371) 19) (dec 56913499868005617 37) (dec (-74689632372710964) 39);
  q4 (dec 24181666666666663 14) (dec (-69262175561389363) 19) (dec 36766120914731625 34) (dec (-15983581327760146) 36);
  q4 (dec 24076111111111109 14) (dec (-69262175561389354) 19) (dec (-71759402778048783) 22) (dec 3139081486353845 23);
  q4 (dec 23964999999999998 14) (dec (-69262175561389371) 19) (dec 4433561639717585 33) (dec (-17402684342841239) 36);
  q4 (dec 23859444444444443 14) (dec (-69262175561388027) 19) (dec 56913499868005617 37) (dec (-58257913250714547) 37);
  q4 (dec 23753888888888886 14) (dec (-69262175561392051) 19) (dec (-71759402778013436) 22) (dec 31390814863526869 24);
  q4 (dec 23642777777777775 14) (dec (-69262175561389363) 19) (dec 36766120914731625 34) (dec (-15983581327760146) 36);
  q4 (dec 23537222222222221 14) (dec (-69262175561389354) 19) (dec (-22765399947202247) 36) (dec 74689632372710964 39);
  q4 (dec 23431666666666663 14) (dec (-69262175561389354) 19) (dec 26976998937434343 34) (dec (-61245498545621533) 37);
  q4 (dec 23326111111111109 14) (dec (-69262175561385416) 19) (dec 50231581944642764 21) (dec (-21973570404481063) 23);
  q4 (dec 23259444444444443 14) (dec (-69262175561387931) 19) (dec (-56211532176151197) 21) (dec 243278815192478 21);
  q4 (dec 23109444444444443 14) (dec (-7108486439195174) 18) (dec 45181846193584139 22) (dec (-21799176988567274) 24);
  q4 (dec 23003888888888886 14) (dec (-72502511260166824) 19) (dec (-29235312242911331) 22) (dec 17439341590855582 24);
  q4 (dec 22892777777777775 14) (dec (-69262175561389363) 19) (dec 53043381876980604 34) (dec (-23228475667912556) 36);
  q4 (dec 22787222222222221 14) (dec (-69262175561389371) 19) (dec (-71711009833687079) 35) (dec 47054468394807906 37);
  q4 (dec 22681666666666663 14) (dec (-69262175561388261) 19) (dec 15138990964889494 34) (dec (-65726876487985646) 37);
  q4 (dec 22576111111111109 14) (dec (-69262175561388261) 19) (dec (-26806258437830646) 34) (dec 12771927135733574 36);
  q4 (dec 22470555555555552 14) (dec (-69262175561387489) 19) (dec 1394380746766121 33) (dec (-56017224279531888) 37);
  q4 (dec 22364999999999998 14) (dec (-69262175561387159) 19) (dec (-6260484985480618) 35) (dec (-97096522084524238) 38);
  q4 (dec 22259444444444443 14) (dec (-69262175561388062) 19) (dec (-17074049960401686) 34) (dec 5601722427953322 36);
  q4 (dec 22153888888888886 14) (dec (-69262175561389371) 19) (dec 12407142971225224 34) (dec 0 0);
  q4 (dec 22048333333333332 14) (dec (-69262175561385624) 19) (dec 59799502315017754 22) (dec (-23543111147646948) 24);
  q4 (dec 21948333333333332 14) (dec (-6743948673082532) 18) (dec (-47839601852048991) 22) (dec 23543111147661176 24);
  q4 (dec 21842777777777775 14) (dec (-65616797900262622) 19) (dec (-11382699973601123) 36) (dec 0 0);
  q4 (dec 21742777777777775 14) (dec (-65616797900262622) 19) (dec (-56913499868005617) 37) (dec 0 0);
  q4 (dec 21642777777777775 14) (dec (-65616797900262631) 19) (dec (-71759402778043489) 22) (dec 31390814863535088 24);
  q4 (dec 21537222222222221 14) (dec (-65616797900263412) 19) (dec 50653014882524995 35) (dec 0 0);
  q4 (dec 21437222222222221 14) (dec (-65616797900261833) 19) (dec 50083879883844347 35) (dec (-3286343824399204) 36);
  q4 (dec 21337222222222221 14) (dec (-65616797900262622) 19) (dec (-11382699973601123) 36) (dec 0 0);
  q4 (dec 21237222222222221 14) (dec (-65616797900262622) 19) (dec (-11382699973601123) 36) (dec 0 0);
  q4 (dec 21137222222222221 14) (dec (-65616797900262622) 19) (dec (-11382699973601123) 36) (dec 0 0);
  q4 (dec 21037222222222221 14) (dec (-65616797900262622) 19) (dec (-11382699973601123) 36) (dec 0 0);
  q4 (dec 20937222222222221 14) (dec (-65616797900262622) 19) (dec 55914439107323013 22) (dec (-20993857074345084) 24);
  q4 (dec 20842777777777775 14) (dec (-63202025436841901) 19) (dec (-4310677988775276) 21) (dec 17888330851058419 24);
  q4 (dec 20742777777777775 14) (dec (-63876869572210568) 19) (dec 10052862823176297 21) (dec (-41486582904868819) 24);
  q4 (dec 20648333333333329 14) (dec (-63876869572210169) 19) (dec (-13744731853528225) 21) (dec 67058423611155953 24);
  q4 (dec 20548333333333329 14) (dec (-61971420239136394) 19) (dec 19350589955121911 35) (dec 97096522084524238 38);
  q4 (dec 20453888888888886 14) (dec (-61971420239135145) 19) (dec (-11382699973600988) 36) (dec 0 0);
  q4 (dec 20359444444444443 14) (dec (-61971420239135145) 19) (dec (-1701713646053368) 33) (dec 0 0);
  q4 (dec 20264999999999998 14) (dec (-6197142023914034) 18) (dec (-71759402778002798) 22) (dec 31390814863519405 24);
  q4 (dec 20164999999999998 14) (dec (-61971420239139603) 19) (dec 18326146957497808 34) (dec (-39585505157536807) 37);
  q4 (dec 20070555555555552 14) (dec (-6197142023913681) 18) (dec 0 0) (dec 40332401481263918 37);
  q4 (dec 19976111111111109 14) (dec (-61971420239134017) 19) (dec 71759402778049291 22) (dec (-31390814863543677) 24);
  q4 (dec 19887222222222221 14) (dec (-61971420239137747) 19) (dec 17074049960401687 36) (dec 0 0);
  q4 (dec 19792777777777775 14) (dec (-61971420239137756) 19) (dec 17074049960401687 36) (dec 0 0);
  q4 (dec 19698333333333329 14) (dec (-61971420239137738) 19) (dec 12179488971753202 34) (dec 74689632372710964 39);
  q4 (dec 19603888888888886 14) (dec (-61971420239134017) 19) (dec 59799502315014908 22) (dec (-23543111147645006) 24);
  q4 (dec 19514999999999998 14) (dec (-60148731408573262) 19) (dec (-43679636473664928) 22) (dec 20813475072603689 24);
  q4 (dec 19420555555555552 14) (dec (-58960021301677915) 19) (dec 81394417957246914 23) (dec (-26112049982419465) 25);
  q4 (dec 19331666666666666 14) (dec (-58298536060340071) 19) (dec (-48835262932211196) 21) (dec 17747845764796797 22);
  q4 (dec 19314999999999998 14) (dec (-41937973092746562) 19) (dec 13673372945686196 20) (dec (-5666427964722714) 22);
  q4 (dec 19364999999999998 14) (dec 36598949898955344 19) (dec (-25824962181918927) 22) (dec 16320460337249775 24);
  q4 (dec 19420555555555552 14) (dec 40099154272381045 19) (dec 86110125300293515 34) (dec (-38315781407201637) 36);
  q4 (dec 19481666666666666 14) (dec 40099154272380576 19) (dec (-15366644964361333) 34) (dec 1008310037031574 35);
  q4 (dec 19542777777777775 14) (dec 40099154272382918 19) (dec 12520969970961385 34) (dec (-61245498545624444) 37);
  q4 (dec 19603888888888886 14) (dec 40099154272382441 19) (dec 0 0) (dec 0 0);
  q4 (dec 19664999999999998 14) (dec 40099154272382441 19) (dec 0 0) (dec 0 0);
  q4 (dec 19726111111111109 14) (dec 40099154272382441 19) (dec 18781454956442076 34) (dec (-82158595609984015) 37);
  q4 (dec 19787222222222221 14) (dec 40099154272382441 19) (dec (-5979950231507919) 21) (dec 23543111147671221 24);
  q4 (dec 19842777777777775 14) (dec 38276465441820519 19) (dec 11959900463009601 22) (dec 10456548532179783 37);
  q4 (dec 19903888888888886 14) (dec 41921843102946509 19) (dec 47839601851979323 22) (dec (-23543111147625998) 24);
  q4 (dec 19970555555555552 14) (dec 40099154272387073 19) (dec (-18212319957761581) 34) (dec 0 0);
  q4 (dec 20031666666666666 14) (dec 40099154272381539 19) (dec (-460999348930851) 33) (dec 29128956625357969 37);
  q4 (dec 20092777777777775 14) (dec 40099154272382207 19) (dec 0 0) (dec 10456548532179285 37);
  q4 (dec 20153888888888886 14) (dec 40099154272382901 19) (dec 12748623970433411 34) (dec (-62739291193078705) 37);
  q4 (dec 20214999999999998 14) (dec 40099154272382441 19) (dec 0 0) (dec 0 0);
  q4 (dec 20276111111111109 14) (dec 40099154272382441 19) (dec 0 0) (dec 0 0);
  q4 (dec 20337222222222221 14) (dec 40099154272382441 19) (dec 71759402778063013 22) (dec (-31390814863543677) 24);
  q4 (dec 20403888888888886 14) (dec 40099154272383404 19) (dec (-15821952963305374) 34) (dec 62739291193075718 37);
  q4 (dec 20464999999999998 14) (dec 40099154272382918 19) (dec 0 0) (dec 20913097064359567 37);
  q4 (dec 20526111111111109 14) (dec 40099154272384366 19) (dec 59799502315010665 22) (dec (-23543111147642578) 24);
  q4 (dec 20592777777777775 14) (dec 41921843102945364 19) (dec (-35879701389035005) 22) (dec 15695407431773966 24);
  q4 (dec 20653888888888886 14) (dec 41921843102945581 19) (dec 35879701389031934 22) (dec (-15695407431772997) 24);
  q4 (dec 20720555555555552 14) (dec 41921843102945382 19) (dec (-35879701389000289) 22) (dec 15695407431759107 24);
  q4 (dec 20781666666666666 14) (dec 41921843102945841 19) (dec 35879701388990557 22) (dec (-15695407431754997) 24);
  q4 (dec 20848333333333329 14) (dec 41921843102945581 19) (dec (-35879701388999777) 22) (dec 15695407431757909 24);
  q4 (dec 20909444444444443 14) (dec 41921843102945364 19) (dec 35879701389012241 22) (dec (-15695407431763435) 24);
  q4 (dec 20976111111111109 14) (dec 41921843102945564 19) (dec (-47839601852016262) 22) (dec 2354311114764452 23);
  q4 (dec 21037222222222221 14) (dec 43744531933506232 19) (dec 10187516476372884 34) (dec (-22406889711812755) 37);
  q4 (dec 21103888888888886 14) (dec 43744531933507793 19) (dec 13602326468453505 34) (dec (-67220669135441456) 37);
  q4 (dec 21170555555555552 14) (dec 43744531933507273 19) (dec (-63786135802717112) 22) (dec 26159012386286712 24);
  q4 (dec 21231666666666663 14) (dec 42529406046466958 19) (dec 14218487495952816 22) (dec (-40979137274346737) 25);
  q4 (dec 21298333333333332 14) (dec 44007886213210268 19) (dec 40561992675680683 21) (dec (-99241907732484653) 23);
  q4 (dec 21314999999999998 14) (dec 33849935424739414 19) (dec (-18363440362678499) 21) (dec 84993771109105007 24);
  q4 (dec 21342777777777775 14) (dec 25517643627879353 19) (dec (-34717234919483014) 35) (dec 24274130521130485 37);
  q4 (dec 21381666666666663 14) (dec 25517643627880004 19) (dec (-28456749934003147) 37) (dec 0 0);
  q4 (dec 21420555555555552 14) (dec 25517643627880008 19) (dec 2444434819330812 33) (dec (-1064327261311106) 35);
  q4 (dec 21459444444444443 14) (dec 25517643627880047 19) (dec (-73912184861432621) 22) (dec 32332539309461923 24);
  q4 (dec 21492611111111108 14) (dec 25517643627879449 19) (dec 21527820833509959 23) (dec (-94172444591033541) 26);
  q4 (dec 21531666666666663 14) (dec 25517643627879449 19) (dec (-12919364470037121) 34) (dec 82532043771843647 37);
  q4 (dec 21570555555555552 14) (dec 25517643627881257 19) (dec 62889417354145461 35) (dec (-407058496431265) 35);
  q4 (dec 21609444444444443 14) (dec 25517643627880312 19) (dec (-13659239968321511) 35) (dec (-44813779423627644) 38);
  q4 (dec 21648333333333332 14) (dec 255176436278796 17) (dec (-46953637391104073) 35) (dec 22033441549949207 37);
  q4 (dec 21687222222222221 14) (dec 255176436278797 17) (dec 79394332315868778 35) (dec (-39212056995674188) 37);
  q4 (dec 21726111111111109 14) (dec 25517643627879396 19) (dec (-2845674993400247) 36) (dec 0 0);
  q4 (dec 21764999999999998 14) (dec 25517643627879396 19) (dec (-2845674993400247) 36) (dec 0 0);
  q4 (dec 21803888888888886 14) (dec 25517643627879396 19) (dec (-71759402778034553) 22) (dec 31390814863531733 24);
  q4 (dec 21837222222222221 14) (dec 25517643627878785 19) (dec 39839449907603455 35) (dec 0 0);
  q4 (dec 21876111111111109 14) (dec 25517643627880004 19) (dec 39554882408264374 35) (dec (-26141371330449456) 37);
  q4 (dec 21914999999999998 14) (dec 25517643627879396 19) (dec (-2845674993400247) 36) (dec 0 0);
  q4 (dec 21953888888888886 14) (dec 25517643627879396 19) (dec (-2845674993400247) 36) (dec 0 0);
  q4 (dec 21992777777777775 14) (dec 25517643627879396 19) (dec 87077654798049639 35) (dec (-30996197434675785) 37);
  q4 (dec 22031666666666663 14) (dec 25517643627879887 19) (dec (-9675294977560839) 34) (dec 42199642290580692 37);
  q4 (dec 22070555555555552 14) (dec 25517643627879887 19) (dec 26037926189612878 34) (dec (-8551962906675608) 36);
  q4 (dec 22109444444444443 14) (dec 25517643627881873 19) (dec (-48774869386880231) 34) (dec 21323890042408471 36);
  q4 (dec 22148333333333332 14) (dec 25517643627881873 19) (dec 71759402778006694 22) (dec (-31390814863521456) 24);
  q4 (dec 22192777777777775 14) (dec 25517643627880611 19) (dec (-40124017406944439) 35) (dec 0 0);
  q4 (dec 22231666666666663 14) (dec 25517643627879396 19) (dec (-32440694924762817) 35) (dec 21286545226222118 37);
  q4 (dec 22270555555555552 14) (dec 25517643627879887 19) (dec 42258273651994669 34) (dec (-19157890703600819) 36);
  q4 (dec 22309444444444443 14) (dec 25517643627879396 19) (dec (-2845674993400247) 36) (dec 0 0);
  q4 (dec 22348333333333332 14) (dec 25517643627879396 19) (dec (-2845674993400247) 36) (dec 0 0);
  q4 (dec 22387222222222221 14) (dec 25517643627879396 19) (dec 99314057269670982 35) (dec (-39212056995674188) 37);
  q4 (dec 22426111111111109 14) (dec 255176436278797 17) (dec (-60043742360745208) 35) (dec 26141371330448211 37);
  q4 (dec 22464999999999998 14) (dec 255176436278797 17) (dec 79394332315868778 35) (dec (-39212056995674188) 37);
  q4 (dec 22503888888888886 14) (dec 25517643627879396 19) (dec (-2845674993400247) 36) (dec 0 0);
  q4 (dec 22542777777777775 14) (dec 25517643627879396 19) (dec (-2845674993400247) 36) (dec 0 0);
  q4 (dec 22581666666666663 14) (dec 25517643627879396 19) (dec (-73441564322692892) 23) (dec 26538914658160009 25);
  q4 (dec 22620555555555552 14) (dec 25158240196501594 19) (dec 72086169772624004 23) (dec (-88070258589571046) 26);
  q4 (dec 22659444444444443 14) (dec 26722133839762975 19) (dec 55952444616860548 22) (dec (-26204804968137327) 24);
  q4 (dec 22703888888888886 14) (dec 25517643627879396 19) (dec (-2845674993400247) 36) (dec 0 0);
  q4 (dec 22742777777777775 14) (dec 25517643627879396 19) (dec (-2845674993400247) 36) (dec 0 0);
  q4 (dec 22781666666666663 14) (dec 25517643627879396 19) (dec 52644987377905822 35) (dec (-85893077228619655) 38);
  q4 (dec 22820555555555552 14) (dec 2551764362788042 18) (dec 16590285211523441 34) (dec (-72448943401527903) 37);
  q4 (dec 22859444444444443 14) (dec 25517643627880411 19) (dec (-13943807467661543) 35) (dec (-85893077228619655) 38);
  q4 (dec 22898333333333332 14) (dec 25517643627879396 19) (dec (-2845674993400247) 36) (dec 0 0);
  q4 (dec 22937222222222221 14) (dec 25517643627879396 19) (dec (-2845674993400247) 36) (dec 0 0);
  q4 (dec 22976111111111109 14) (dec 25517643627879396 19) (dec 99314057269670982 35) (dec (-39212056995674188) 37);
  q4 (dec 23014999999999998 14) (dec 255176436278797 17) (dec (-60043742360745208) 35) (dec 26141371330448211 37);
  q4 (dec 23053888888888886 14) (dec 255176436278797 17) (dec 79394332315868778 35) (dec (-39212056995674188) 37);
  q4 (dec 23092777777777775 14) (dec 25517643627879396 19) (dec (-2845674993400247) 36) (dec 0 0);
  q4 (dec 23131666666666663 14) (dec 25517643627879396 19) (dec (-2845674993400247) 36) (dec 0 0);
  q4 (dec 23170555555555552 14) (dec 25517643627879396 19) (dec 45473886394537026 34) (dec (-19157890703600819) 36);
  q4 (dec 23209444444444443 14) (dec 25517643627879887 19) (dec (-9675294977560839) 34) (dec 42199642290580692 37);
  q4 (dec 23248333333333332 14) (dec 25517643627879887 19) (dec 54921527372626072 35) (dec (-30996197434675785) 37);
  q4 (dec 23287222222222221 14) (dec 25517643627879396 19) (dec (-2845674993400247) 36) (dec 0 0);
  q4 (dec 23326111111111109 14) (dec 25517643627879396 19) (dec (-2845674993400247) 36) (dec 0 0);
  q4 (dec 23364999999999998 14) (dec 25517643627879396 19) (dec 99314057269670982 35) (dec (-39212056995674188) 37);
  q4 (dec 23403888888888886 14) (dec 255176436278797 17) (dec (-60043742360745208) 35) (dec 26141371330448211 37);
  q4 (dec 23442777777777775 14) (dec 255176436278797 17) (dec 49230177385825441 35) (dec (-1941930441690531) 36);
  q4 (dec 23481666666666663 14) (dec 25517643627879856 19) (dec (-10073689476636873) 34) (dec 45934123909216151 37);
  q4 (dec 23520555555555552 14) (dec 25517643627880008 19) (dec 2268002969739997 33) (dec (-94482384951477114) 37);
  q4 (dec 23559444444444443 14) (dec 25517643627880312 19) (dec (-13659239968321511) 35) (dec (-44813779423627644) 38);
  q4 (dec 23598333333333332 14) (dec 255176436278796 17) (dec (-46953637391104073) 35) (dec 22033441549949207 37);
  q4 (dec 23637222222222221 14) (dec 255176436278797 17) (dec 19635157454462172 35) (dec 0 0);
  q4 (dec 23676111111111109 14) (dec 25517643627880307 19) (dec 0 0) (dec 0 0)].
(** L531-735 *)
Definition MIL_SPEC_210A_Tropical_akima_P : list coefD := [
  q4 (dec 101035352 3) (dec (-12076005577427956) 15) (dec 0 0) (dec 0 0);
  q4 (dec 101035352 3) (dec (-12076005577427956) 15) (dec 72696221781343336 20) (dec 21415011393903584 34);
  q4 (dec 99211852999999988 12) (dec (-11854427493438276) 15) (dec 72696221781359653 20) (dec (-91778620259586795) 35);
  q4 (dec 97422122499999998 12) (dec (-11632849409448758) 15) (dec (-29139711932418798) 32) (dec 47700932927378378 22);
  q4 (dec 95666160499999998 12) (dec (-11300482283464627) 15) (dec 15152650204857782 31) (dec (-55067172155752084) 34);
  q4 (dec 93943967000000004 12) (dec (-11300482283464561) 15) (dec (-20980592591341543) 31) (dec 11013434431150417 33);
  q4 (dec 92221773499999996 12) (dec (-11300482283464433) 15) (dec 65426599603186121 19) (dec (-23850466463687951) 21);
  q4 (dec 90567116999999998 12) (dec (-10968115157480316) 15) (dec (-43617733068796599) 19) (dec 23850466463688636 21);
  q4 (dec 88878691999999995 12) (dec (-10635748031496192) 15) (dec 28906594236959439 31) (dec (-10860470064051092) 33);
  q4 (dec 87257804000000004 12) (dec (-10635748031496068) 15) (dec (-10257178600211415) 31) (dec 55067172155752015 34);
  q4 (dec 85636915999999997 12) (dec (-10635748031496) 12) (dec 21808866534386703 19) (dec (-47700932927331071) 22);
  q4 (dec 84049796499999997 12) (dec (-1030338090551178) 14) (dec 97909432092927135 32) (dec 47700932927321754 22);
  q4 (dec 82496445500000002 12) (dec (-99710137795276594) 16) (dec 80425604933475863 32) (dec (-16826080380924227) 34);
  q4 (dec 80976862999999998 12) (dec (-99710137795275404) 16) (dec (-6114635476924885) 19) (dec 40122280032333147 22);
  q4 (dec 79457280500000008 12) (dec (-98778267348590827) 16) (dec 16849217758648893 19) (dec (-5527958582232747) 21);
  q4 (dec 77971466499999995 12) (dec (-97494356955380983) 16) (dec 23311769545935033 33) (dec 21415011393903565 34);
  q4 (dec 76485652499999997 12) (dec (-97494356955379331) 16) (dec 21808866534373385 19) (dec (-47700932927283519) 22);
  q4 (dec 75033606999999989 12) (dec (-94170685695537841) 16) (dec 18649415636748024 31) (dec 47700932927289634 22);
  q4 (dec 73615330000000002 12) (dec (-90847014435696192) 16) (dec 15385767900317122 31) (dec (-61185746839724458) 34);
  q4 (dec 72230821500000005 12) (dec (-90847014435695712) 16) (dec (-6435403239665392) 19) (dec 42227055378362692 22);
  q4 (dec 70846312999999995 12) (dec (-89866258981972127) 16) (dec 16207682233211943 19) (dec (-53174810476405025) 22);
  q4 (dec 69495572999999989 12) (dec (-88631233595800474) 16) (dec 0 0) (dec 26003942406882895 34);
  q4 (dec 68144832999999999 12) (dec (-88631233595798662) 16) (dec 14539244356243483 19) (dec 73422896207669359 34);
  q4 (dec 66827861499999999 12) (dec (-8419967191601053) 15) (dec 75763251024288859 32) (dec (-30592873419862229) 34);
  q4 (dec 65544658500000005 12) (dec (-84199671916010299) 16) (dec (-96928295708462392) 20) (dec 63601243903179805 22);
  q4 (dec 64261455500000004 12) (dec (-8274049916778722) 15) (dec 99292400481796705 20) (dec (-32576246877226909) 22);
  q4 (dec 63012021000000001 12) (dec (-81983891076115754) 16) (dec (-11655884772967516) 33) (dec 61185746839724466 35);
  q4 (dec 61762586499999998 12) (dec (-81983891076115381) 16) (dec 14539244356282705 19) (dec (-10172130412104192) 33);
  q4 (dec 605469205 4) (dec (-77552329396327471) 16) (dec 13870502879831385 31) (dec (-30592873419862406) 34);
  q4 (dec 59365022999999994 12) (dec (-77552329396325357) 16) (dec (-1107751950952185) 18) (dec 72687135889280933 22);
  q4 (dec 58183125500000002 12) (dec (-75864115423072098) 16) (dec 69234496934555165 20) (dec (-22714729965400513) 22);
  q4 (dec 57034996500000001 12) (dec (-75336548556430456) 16) (dec (-70578856098334924) 20) (dec 46311585366369749 22);
  q4 (dec 558868675 4) (dec (-7426092678949118) 15) (dec 14962717492851628 19) (dec (-49090280488354074) 22);
  q4 (dec 54772506999999998 12) (dec (-7312076771653552) 15) (dec (-13085319920635794) 19) (dec 85861679269274638 22);
  q4 (dec 53658146500000003 12) (dec (-71130320521375516) 16) (dec 29571344453420076 20) (dec (-97018846631949546) 23);
  q4 (dec 52577554499999998 12) (dec (-70904986876640406) 16) (dec (-17483827159451327) 33) (dec 15296436709931205 35);
  q4 (dec 51496962500000001 12) (dec (-70904986876640335) 16) (dec 14539244356264012 19) (dec 53537528484758575 35);
  q4 (dec 50450138999999996 12) (dec (-66473425196850648) 16) (dec 1089825226272466 30) (dec (-48183775636283295) 34);
  q4 (dec 49437084000000003 12) (dec (-66473425196850648) 16) (dec 58279423864837405 34) (dec 0 0);
  q4 (dec 48424028999999995 12) (dec (-66473425196850657) 16) (dec (-68870104845472038) 20) (dec 45190357510156185 22);
  q4 (dec 47410973999999995 12) (dec (-65423844799005391) 16) (dec 15304467743441365 19) (dec (-50211508344624779) 22);
  q4 (dec 464316875 4) (dec (-64257644356955232) 16) (dec (-12238679011615855) 32) (dec 53537528484758575 35);
  q4 (dec 45452400999999998 12) (dec (-64257644356955188) 16) (dec 14539244356256522 19) (dec 41300379116814252 34);
  q4 (dec 44506882999999994 12) (dec (-59826082677165369) 16) (dec 69352514399156512 32) (dec (-30592873419862044) 34);
  q4 (dec 43595133499999996 12) (dec (-59826082677165369) 16) (dec (-1165588477296755) 32) (dec 76482183549656027 36);
  q4 (dec 42683383999999998 12) (dec (-5982608267716536) 15) (dec (-53409469063928137) 20) (dec 35045583375260361 22);
  q4 (dec 41771634499999993 12) (dec (-59012122368632554) 16) (dec 18396594899778534 19) (dec (-60356282479596374) 22);
  q4 (dec 408936535 4) (dec (-5761030183727005) 15) (dec (-1036907349439812) 18) (dec 6803853998947079 21);
  q4 (dec 40015672500000001 12) (dec (-56025166313345416) 16) (dec 82761852489547617 20) (dec (-27152838743296684) 22);
  q4 (dec 39171459999999999 12) (dec (-55394520997375558) 16) (dec 0 0) (dec 0 0);
  q4 (dec 38327247499999998 12) (dec (-55394520997375558) 16) (dec 0 0) (dec 0 0);
  q4 (dec 37483034999999996 12) (dec (-55394520997375558) 16) (dec (-84290337152610015) 18) (dec 3718226566647245 19);
  q4 (dec 35997220999999998 12) (dec (-53235555050811172) 16) (dec 90217875236321438 18) (dec (-39139227017340888) 20);
  q4 (dec 35895915500000003 12) (dec (-50962959317585357) 16) (dec (-22146181068638213) 32) (dec 10707505696951715 34);
  q4 (dec 35119239999999998 12) (dec (-50962959317585259) 16) (dec 58279423864837752 34) (dec 0 0);
  q4 (dec 343425645 4) (dec (-50962959317585268) 16) (dec (-93247078183740398) 32) (dec 41300379116814252 34);
  q4 (dec 33565888999999996 12) (dec (-50962959317585259) 16) (dec 1453924435627354 18) (dec (-30592873419862406) 34);
  q4 (dec 32822982000000004 12) (dec (-465313976377952) 14) (dec 15152650204857635 32) (dec (-68833965194688786) 35);
  q4 (dec 32113843499999999 12) (dec (-46531397637795209) 16) (dec 0 0) (dec 0 0);
  q4 (dec 31404705000000002 12) (dec (-46531397637795209) 16) (dec (-94412666661037161) 32) (dec 41300379116814252 34);
  q4 (dec 30695566499999997 12) (dec (-46531397637795209) 16) (dec 33924903497958496 19) (dec (-12720248780637259) 21);
  q4 (dec 30020196500000002 12) (dec (-45054210411198623) 16) (dec (-33924903497962811) 19) (dec 15900310975797874 21);
  q4 (dec 29311057999999997 12) (dec (-44315616797900299) 16) (dec 36348110890677731 19) (dec (-1431027987821975) 20);
  q4 (dec 286694565 4) (dec (-43207726377952689) 16) (dec (-29078488712540899) 19) (dec 14310279878218791 21);
  q4 (dec 27994086499999998 12) (dec (-42099835958005016) 16) (dec 38771318283374696 19) (dec (-15900310975793897) 21);
  q4 (dec 27386253499999999 12) (dec (-41361242344707012) 16) (dec (-24232073927110687) 19) (dec 12720248780635346 21);
  q4 (dec 26744651999999998 12) (dec (-39884055118110484) 16) (dec 1427845884688525 31) (dec 38241091774828014 36);
  q4 (dec 26136819 3) (dec (-39884055118110004) 16) (dec (-58279423864837058) 34) (dec 0 0);
  q4 (dec 25528985999999997 12) (dec (-39884055118110009) 16) (dec (-72696221781360997) 20) (dec 47700932927391626 22);
  q4 (dec 24921152999999998 12) (dec (-38776164698162798) 16) (dec 1453924435626433 18) (dec (-47700932927371364) 22);
  q4 (dec 24347088499999998 12) (dec (-37668274278215099) 16) (dec 58279423864837752 34) (dec 0 0);
  q4 (dec 23773024000000001 12) (dec (-37668274278215099) 16) (dec (-81783249504042337) 20) (dec 53663549543324476 22);
  q4 (dec 23198959500000001 12) (dec (-36421897555774216) 16) (dec 12721838811735574 19) (dec (-41738316311470032) 22);
  q4 (dec 22658663499999999 12) (dec (-35452493438320105) 16) (dec (-24477358023231858) 32) (dec 11854738450196683 34);
  q4 (dec 221183675 4) (dec (-35452493438320003) 16) (dec 33924903497950919 19) (dec (-12720248780634084) 21);
  q4 (dec 2161184 2) (dec (-3397530621172355) 15) (dec (-33924903497954185) 19) (dec 15900310975794012 21);
  q4 (dec 21071544000000002 12) (dec (-33236712598425284) 16) (dec 38771318283381813 19) (dec (-15900310975796234) 21);
  q4 (dec 20598785 3) (dec (-32498118985126898) 16) (dec (-24232073927109199) 19) (dec 12720248780634391 21);
  q4 (dec 200922575 4) (dec (-31020931758530619) 16) (dec 24185960903907667 32) (dec (-5353752848475922) 34);
  q4 (dec 19619498499999998 12) (dec (-31020931758530259) 16) (dec (-5947872691198083) 19) (dec 39028036031488548 22);
  q4 (dec 191467395 4) (dec (-30107556450481856) 16) (dec 17091936113470528 19) (dec (-56075905884082619) 22);
  q4 (dec 18707749 3) (dec (-28805150918634888) 16) (dec 22437578187962266 32) (dec (-1491402579218257) 33);
  q4 (dec 182687585 4) (dec (-28805150918635225) 16) (dec (-1165588477296755) 32) (dec 0 0);
  q4 (dec 17829768 3) (dec (-28805150918635234) 16) (dec (-26434989738663586) 21) (dec 17345793791774048 23);
  q4 (dec 173907775 4) (dec (-28805150918635234) 16) (dec 29078488712530087 19) (dec (-95401865854752673) 22);
  q4 (dec 16985555499999999 12) (dec (-26589370078740084) 16) (dec 29139711932418876 34) (dec 0 0);
  q4 (dec 16580333500000001 12) (dec (-26589370078740084) 16) (dec (-14539244356264157) 19) (dec 95401865854754215 22);
  q4 (dec 16175111499999999 12) (dec (-24373589238845179) 16) (dec 0 0) (dec 0 0);
  q4 (dec 15803657999999999 12) (dec (-24373589238845179) 16) (dec 0 0) (dec 0 0);
  q4 (dec 154322045 4) (dec (-24373589238845179) 16) (dec 0 0) (dec 0 0);
  q4 (dec 15060751 3) (dec (-24373589238845179) 16) (dec (-65175922976394064) 20) (dec 42766353659046355 22);
  q4 (dec 14689297499999999 12) (dec (-2335958783753723) 15) (dec 15771383708495742 19) (dec (-51743384870394278) 22);
  q4 (dec 14351612499999999 12) (dec (-22157808398949976) 16) (dec (-44292362137276692) 32) (dec 26768764242379607 34);
  q4 (dec 14013927500000002 12) (dec (-22157808398949461) 16) (dec 16628002237875424 19) (dec (-54870975135791267) 22);
  q4 (dec 13676242499999998 12) (dec (-21081315683211761) 16) (dec (-10544391291188748) 20) (dec 85017252575698238 24);
  q4 (dec 13372325999999999 12) (dec (-2133108270719061) 15) (dec (-25388662883292631) 19) (dec 1309970709959226 20);
  q4 (dec 13034641 3) (dec (-19942027559055446) 16) (dec 891675185132007 30) (dec (-34225777138470254) 34);
  q4 (dec 127307245 4) (dec (-19942027559055124) 16) (dec (-29139711932418876) 34) (dec 0 0);
  q4 (dec 12426808000000001 12) (dec (-19942027559055124) 16) (dec (-22874673866948818) 32) (dec 10133889320329423 34);
  q4 (dec 121228915 4) (dec (-19942027559055124) 16) (dec 36348110890664295 19) (dec (-14310279878214221) 21);
  q4 (dec 11852743499999999 12) (dec (-18834137139107618) 16) (dec (-29078488712532377) 19) (dec 14310279878214659 21);
  q4 (dec 11548826999999999 12) (dec (-17726246719160217) 16) (dec 53908467074974279 32) (dec (-21415011393903176) 34);
  q4 (dec 11278679 3) (dec (-1772624671916005) 15) (dec (-42835376540655747) 32) (dec 21223805935029546 34);
  q4 (dec 11008530999999999 12) (dec (-17726246719159886) 16) (dec 36348110890664165 19) (dec (-14310279878214546) 21);
  q4 (dec 107721515 4) (dec (-16618356299212642) 16) (dec (-21808866534401405) 19) (dec 95401865854775424 22);
  q4 (dec 10502003499999999 12) (dec (-16618356299212589) 16) (dec 21808866534400039 19) (dec (-95401865854768547) 22);
  q4 (dec 10265624 3) (dec (-16618356299212589) 16) (dec (-1985166056336217) 18) (dec 82559306989694811 22);
  q4 (dec 99954759999999987 13) (dec (-16916634489198408) 16) (dec 52303149698927891 20) (dec 26223839759029707 22);
  q4 (dec 97590964999999997 13) (dec (-13495228660810052) 16) (dec 17377548054626851 18) (dec (-38149189797156275) 20);
  q4 (dec 97253279999999995 13) (dec (-13027398754577857) 16) (dec 43119541804071863 20) (dec (-77602896798760968) 22);
  q4 (dec 95564855000000007 13) (dec (-1551046587926467) 15) (dec (-32927874483632938) 32) (dec 72658074372171491 35);
  q4 (dec 93201059999999998 13) (dec (-1551046587926517) 15) (dec (-66888534641819234) 20) (dec 43890114594361313 22);
  q4 (dec 90837264999999989 13) (dec (-14491084611324474) 16) (dec 1570078178418367 18) (dec (-51511751260454083) 22);
  q4 (dec 88811154999999999 13) (dec (-1329468503937032) 15) (dec (-13258568929250747) 32) (dec 87954511082106526 35);
  q4 (dec 86785044999999991 13) (dec (-13294685039370118) 16) (dec 91790092587118364 33) (dec (-1147232753244813) 34);
  q4 (dec 84758934999999983 13) (dec (-13294685039369918) 16) (dec 35841845676874793 32) (dec (-16826080380923925) 34);
  q4 (dec 82732825000000012 13) (dec (-13294685039370004) 16) (dec (-41524089503697392) 32) (dec 1376679303893841 33);
  q4 (dec 80706715000000004 13) (dec (-13294685039370318) 16) (dec 20252099793030879 32) (dec 19120545887413549 36);
  q4 (dec 78680604999999996 13) (dec (-13294685039369689) 16) (dec 36348110890657499 19) (dec (-14310279878211922) 21);
  q4 (dec 76992179999999989 13) (dec (-12186794619422538) 16) (dec (-29078488712527615) 19) (dec 14310279878212389 21);
  q4 (dec 74966070000000009 13) (dec (-11078904199475148) 16) (dec 16609635801478562 32) (dec (-72658074372171491) 35);
  q4 (dec 73277644999999993 13) (dec (-11078904199475148) 16) (dec (-27682726335798262) 33) (dec 19120545887414459 35);
  q4 (dec 71589220000000005 13) (dec (-11078904199475106) 16) (dec 75763251024288176 33) (dec (-30592873419861679) 35);
  q4 (dec 69900794999999989 13) (dec (-11078904199475095) 16) (dec (-12675774690602361) 32) (dec 61185746839726276 35);
  q4 (dec 68212370000000001 13) (dec (-11078904199475061) 16) (dec 74306265427667246 33) (dec (-24856709653637618) 35);
  q4 (dec 66523944999999994 13) (dec (-11078904199475004) 16) (dec 39338611108765011 33) (dec 0 0);
  q4 (dec 64835519999999997 13) (dec (-11078904199474884) 16) (dec 36348110890661225 19) (dec (-14310279878213308) 21);
  q4 (dec 63484779999999992 13) (dec (-99710137795275633) 17) (dec (-29078488712526219) 19) (dec 14310279878211336 21);
  q4 (dec 61796355000000003 13) (dec (-88631233595804826) 17) (dec 17629525719113629 32) (dec 0 0);
  q4 (dec 60445614999999998 13) (dec (-8863123359579943) 16) (dec 23311769545934823 33) (dec (-16252464004301518) 35);
  q4 (dec 59094875000000002 13) (dec (-88631233595799808) 17) (dec 14569855966209265 34) (dec (-95602729437067756) 36);
  q4 (dec 57744134999999997 13) (dec (-88631233595800452) 17) (dec (-19305059155227734) 32) (dec 80306292727140742 35);
  q4 (dec 56393395 4) (dec (-88631233595800774) 17) (dec 14205609567054032 32) (dec (-60229719545352684) 35);
  q4 (dec 55042654999999995 13) (dec (-88631233595800663) 17) (dec (-21490537550159175) 32) (dec 10325094779203808 34);
  q4 (dec 53691914999999999 13) (dec (-88631233595800019) 17) (dec 7649174382259864 32) (dec (-25812736948008291) 35);
  q4 (dec 52341175000000003 13) (dec (-88631233595799441) 17) (dec (-11364487653643226) 32) (dec 50669446601645909 35);
  q4 (dec 50990434999999998 13) (dec (-8863123359579943) 16) (dec 36348110890663068 19) (dec (-14310279878214036) 21);
  q4 (dec 49977379999999994 13) (dec (-77552329396325659) 17) (dec (-21808866534397189) 19) (dec 95401865854755367 22);
  q4 (dec 48626639999999998 13) (dec (-77552329396325359) 17) (dec 21808866534397224 19) (dec (-95401865854756857) 22);
  q4 (dec 47613584999999994 13) (dec (-7755232939632497) 16) (dec (-21249664828385775) 19) (dec 91732563321871726 22);
  q4 (dec 46262845000000007 13) (dec (-7840455279628632) 16) (dec 22348718700412385 19) (dec (-95274900369211048) 22);
  q4 (dec 45249790000000003 13) (dec (-76670617297406229) 17) (dec (-15627172242793204) 18) (dec 31024251519491284 20);
  q4 (dec 44912105000000001 13) (dec (-66473425196849578) 17) (dec 21144330435010883 19) (dec (-12170379446407489) 21);
  q4 (dec 44236734999999999 13) (dec (-66473425196848901) 17) (dec 74306265427667246 33) (dec (-70746019783430143) 35);
  q4 (dec 43223680000000004 13) (dec (-66473425196851599) 17) (dec (-91061599788810068) 33) (dec 59273692250984832 35);
  q4 (dec 42210625 4) (dec (-66473425196850211) 17) (dec 15298348764519729 33) (dec (-19120545887413549) 36);
  q4 (dec 41197569999999996 13) (dec (-66473425196849878) 17) (dec 40795596705385941 33) (dec (-2007657318178423) 34);
  q4 (dec 40184514999999997 13) (dec (-66473425196850033) 17) (dec (-16682485081310004) 32) (dec 54493555779131213 35);
  q4 (dec 39171459999999997 13) (dec (-66473425196851299) 17) (dec 83048179007392811 33) (dec 0 0);
  q4 (dec 38158404999999993 13) (dec (-66473425196848734) 17) (dec 43617733068798698 19) (dec (-19080373170953015) 21);
  q4 (dec 37483035000000004 13) (dec (-66473425196849723) 17) (dec (-30815245368533327) 32) (dec 12141546638508182 34);
  q4 (dec 3646998 3) (dec (-66473425196850655) 17) (dec (-84437535952181777) 20) (dec 55405207317708115 22);
  q4 (dec 35456925000000001 13) (dec (-53582996214328826) 17) (dec 12161915244655564 19) (dec (-39901296734433325) 22);
  q4 (dec 34781554999999998 13) (dec (-44315616797900353) 17) (dec 21599811469905235 32) (dec (-11472327532448131) 34);
  q4 (dec 34106185 4) (dec (-44315616797901741) 17) (dec (-34894186455035271) 19) (dec 14310279878212989 21);
  q4 (dec 33126898499999998 13) (dec (-5096295931758712) 16) (dec 48809017486802199 33) (dec 12428354826819399 35);
  q4 (dec 32350222999999996 13) (dec (-50962959317584822) 17) (dec (-822177643430457) 19) (dec 53948664267099877 23);
  q4 (dec 315735475 5) (dec (-49709960588996116) 17) (dec 12634935843895624 20) (dec (-41453201587572476) 23);
  q4 (dec 308306405 5) (dec (-48747178477690423) 17) (dec 72849279831046323 35) (dec 24856709653637618 35);
  q4 (dec 30087733499999999 13) (dec (-48747178477688669) 17) (dec 14539244356269096 20) (dec (-66443896958762092) 35);
  q4 (dec 29378595 4) (dec (-44315616797902407) 17) (dec 8741913579725767 32) (dec 47801364718536153 37);
  q4 (dec 28703224999999998 13) (dec (-44315616797899715) 17) (dec (-72849279831046323) 35) (dec 0 0);
  q4 (dec 28027855 4) (dec (-44315616797899715) 17) (dec (-14539244356285799) 20) (dec 95401865854849387 23);
  q4 (dec 27352485000000001 13) (dec (-42099835958004955) 17) (dec 72849279831046323 35) (dec 0 0);
  q4 (dec 267108835 5) (dec (-4209983595800495) 16) (dec (-36424639915523161) 35) (dec 0 0);
  q4 (dec 26069281999999998 13) (dec (-4209983595800495) 16) (dec (-18430867797255159) 32) (dec 90822592965218702 35);
  q4 (dec 25427680500000001 13) (dec (-42099835958004239) 17) (dec 67849806995899577 20) (dec (-25440497561268061) 22);
  q4 (dec 24853615999999997 13) (dec (-39145461504812107) 17) (dec (-1696245174898688) 19) (dec 79501554879017266 23);
  q4 (dec 24245782999999997 13) (dec (-38776164698162746) 17) (dec 72696221781383728 21) (dec (-16252464004301518) 35);
  q4 (dec 23671718499999997 13) (dec (-36560383858267287) 17) (dec 19385659141695445 20) (dec (-79501554879003438) 23);
  q4 (dec 23131422500000003 13) (dec (-36191087051618254) 17) (dec (-33924903497975403) 20) (dec 15900310975803214 22);
  q4 (dec 22557357999999999 13) (dec (-35452493438320193) 17) (dec 38771318283387503 20) (dec (-1590031097579911) 21);
  q4 (dec 22050830500000002 13) (dec (-3471389982502206) 16) (dec (-16962451748990851) 20) (dec 79501554879037817 23);
  q4 (dec 21510534499999999 13) (dec (-3434460301837246) 16) (dec 31315295536567042 21) (dec 27152838743293878 23);
  q4 (dec 21004007000000001 13) (dec (-314981768625065) 15) (dec 37049873893283709 21) (dec (-37628466907904825) 24);
  q4 (dec 20531248000000001 13) (dec (-30631081628710488) 17) (dec 67228940355416717 21) (dec (-34210157137395637) 23);
  q4 (dec 20058489 4) (dec (-31020931758530312) 17) (dec (-99997210609265974) 21) (dec 38572461767051288 23);
  q4 (dec 19585729999999999 13) (dec (-31426694138546934) 17) (dec (-92142787392581) 18) (dec 77931506218923383 23);
  q4 (dec 19112970999999998 13) (dec (-28805150918635264) 17) (dec 7394201902851202 32) (dec (-25812736948008291) 35);
  q4 (dec 186739805 5) (dec (-28805150918634809) 17) (dec (-34435052422736845) 21) (dec 2259517875507335 22);
  q4 (dec 1823499 3) (dec (-28280360719712522) 17) (dec 22191478227976964 20) (dec (-72806687099652596) 23);
  q4 (dec 17829768000000001 13) (dec (-26589370078739977) 17) (dec 16391087961985423 33) (dec (-10516300238077453) 35);
  q4 (dec 17424546 4) (dec (-26589370078740221) 17) (dec (-51358742280888882) 33) (dec 16730477651487652 35);
  q4 (dec 17019323999999999 13) (dec (-2658937007874061) 16) (dec (-93823041383573081) 21) (dec 61563675448571887 23);
  q4 (dec 16614102 4) (dec (-25159506928052594) 17) (dec 10313880435797079 20) (dec (-33838190406167333) 23);
  q4 (dec 16242648499999998 13) (dec (-24373589238845497) 17) (dec (-18212319957762014) 35) (dec 0 0);
  q4 (dec 15871194999999998 13) (dec (-24373589238845497) 17) (dec (-95595531642328599) 21) (dec 62726726799458806 23);
  q4 (dec 154997415 5) (dec (-22916713336614211) 17) (dec 99593823840373613 21) (dec (-32675139055232969) 23);
  q4 (dec 15162056500000001 13) (dec (-22157808398950005) 17) (dec 18212319957761581 35) (dec 0 0);
  q4 (dec 148243715 5) (dec (-22157808398950005) 17) (dec 18212319957761581 35) (dec 0 0);
  q4 (dec 14486686499999998 13) (dec (-22157808398950005) 17) (dec (-74852635026401873) 33) (dec 32743934832197265 35);
  q4 (dec 14149001499999999 13) (dec (-22157808398950005) 17) (dec 36348110890667862 20) (dec (-14310279878215901) 22);
  q4 (dec 13845084999999999 13) (dec (-21049917979002664) 17) (dec (-21808866534404875) 20) (dec 95401865854792043 23);
  q4 (dec 135074 2) (dec (-21049917979002572) 17) (dec 72696221781347488 21) (dec (-52581501190387265) 36);
  q4 (dec 132034835 5) (dec (-1883413713910744) 16) (dec 21808866534401368 20) (dec (-9540186585477506) 22);
  q4 (dec 12933335500000001 13) (dec (-18834137139107568) 17) (dec (-21808866534406022) 20) (dec 95401865854793949 23);
  q4 (dec 12629419 4) (dec (-18834137139107693) 17) (dec 21808866534402479 20) (dec (-95401865854778173) 23);
  q4 (dec 12359270999999999 13) (dec (-18834137139107693) 17) (dec (-21808866534405203) 20) (dec 95401865854793949 23);
  q4 (dec 12055354499999999 13) (dec (-18834137139107573) 17) (dec 72696221781355687 21) (dec (-78872251785580906) 36);
  q4 (dec 11785206499999999 13) (dec (-16618356299212378) 17) (dec 21808866534401441 20) (dec (-9540186585477578) 22);
  q4 (dec 11548827000000001 13) (dec (-16618356299212536) 17) (dec (-29078488712540486) 20) (dec 14310279878218302 22);
  q4 (dec 11278679 4) (dec (-15510465879265195) 17) (dec 43709567898627794 33) (dec (-19120545887413551) 35);
  q4 (dec 11042299499999999 13) (dec (-15510465879265195) 17) (dec 72849279831048048 34) (dec (-47801364718536147) 36);
  q4 (dec 10805920000000001 13) (dec (-15510465879265306) 17) (dec 0 0) (dec 0 0)].
(** L737-941 *)
Definition MIL_SPEC_210A_Tropical_akima_rho : list coefD := [
  q4 (dec 11575398809681128 16) (dec (-11328749422369025) 20) (dec 0 0) (dec 0 0);
  q4 (dec 11575398809681128 16) (dec (-11328749422369025) 20) (dec 35570937417503426 38) (dec 72781190867056167 27);
  q4 (dec 11405324835754931 16) (dec (-10821629880891275) 20) (dec 26678203063127569 38) (dec 0 0);
  q4 (dec 11240403196370148 16) (dec (-10821629880891269) 20) (dec (-57230081211021246) 34) (dec 37551379700886061 36);
  q4 (dec 11075481556985365 16) (dec (-10821629880804052) 20) (dec 44384656057593356 24) (dec (-14561668757527784) 26);
  q4 (dec 10915714334540543 16) (dec (-10483403035454127) 20) (dec 17785468708751715 38) (dec 0 0);
  q4 (dec 10755947272280222 16) (dec (-10483403035454129) 20) (dec (-20057811956120927) 24) (dec 13161293934469254 26);
  q4 (dec 10596180210019903 16) (dec (-10177464348664035) 20) (dec 42262562065184933 25) (dec (-13865669968889499) 27);
  q4 (dec 10441566443408019 16) (dec (-10145260276370342) 20) (dec (-88927343543758518) 39) (dec 0 0);
  q4 (dec 10286952676796135 16) (dec (-10145260276370339) 20) (dec (-14777643229556125) 24) (dec 97002366842654768 27);
  q4 (dec 10132340191660278 16) (dec (-99197967344913759) 21) (dec 14785919562201825 24) (dec (-48501184085734982) 27);
  q4 (dec 99828798808813324 17) (dec (-98070649646227995) 21) (dec 25726529310725314 32) (dec (-11253078450669255) 34);
  q4 (dec 98334202108404012 17) (dec (-98070649646221896) 21) (dec (-44396379118383872) 25) (dec 29126957433784326 27);
  q4 (dec 96839603806149666 17) (dec (-97394364113158173) 21) (dec 35508827983701745 24) (dec (-11650782932877702) 26);
  q4 (dec 95396546469604837 17) (dec (-9468922199005923) 20) (dec (-10288256928233103) 31) (dec 4500735394427741 33);
  q4 (dec 93953482725679893 17) (dec (-94689221990046233) 21) (dec (-80620381279729771) 25) (dec 52918612359566006 27);
  q4 (dec 92510425389135065 17) (dec (-93459306240863452) 21) (dec 28231614879698469 24) (dec (-92607570660452082) 27);
  q4 (dec 91118896203539512 17) (dec (-91306953656559547) 21) (dec 13504453034149043 31) (dec (-59071236666232798) 34);
  q4 (dec 89727378230859167 17) (dec (-91306953656536074) 21) (dec (-22194740961074533) 24) (dec 14562120969262281 26);
  q4 (dec 88335855452643741 17) (dec (-87925420899634681) 21) (dec 1373457921377158 31) (dec (-45063056071670235) 35);
  q4 (dec 86995872038292799 17) (dec (-87925420889170395) 21) (dec 0 0) (dec 0 0);
  q4 (dec 85655888623941845 17) (dec (-87925420889170395) 21) (dec 2223183588593963 35) (dec (-73522606866886918) 39);
  q4 (dec 84315905209590913 17) (dec (-87925420889168674) 21) (dec (-27756359098310363) 25) (dec 18208308564125681 27);
  q4 (dec 82975920193394948 17) (dec (-87502729300336136) 21) (dec 38842005495082012 24) (dec (-1274423214531537) 25);
  q4 (dec 81687482550288604 17) (dec (-84543520341176485) 21) (dec (-22195431232997783) 24) (dec 14562347456856638 26);
  q4 (dec 80399033694267064 17) (dec (-81162040168907351) 21) (dec 14713384698689065 33) (dec (-48267007895358637) 36);
  q4 (dec 79162124202110007 17) (dec (-81162040167785839) 21) (dec 53356406126255111 38) (dec (-2334051011647204) 39);
  q4 (dec 7792521470995295 16) (dec (-81162040167785866) 21) (dec (-17625274462974282) 28) (dec 70396508738463412 31);
  q4 (dec 7668830361595087 16) (dec (-81162086882426417) 21) (dec 61313873485188817 28) (dec (-2011891213657802) 29);
  q4 (dec 7545140053117394 16) (dec (-81161619866636784) 21) (dec (-1655071762851207) 26) (dec 72402214190144589 30);
  q4 (dec 74214484631636746 17) (dec (-81161619736019235) 21) (dec 3328642284510911 23) (dec (-72807211432047204) 27);
  q4 (dec 7302912091072431 16) (dec (-76088926509799932) 21) (dec 33289525992056965 24) (dec (-14562799848963024) 26);
  q4 (dec 71895296553676347 17) (dec (-76089241814022537) 21) (dec (-44393967824439792) 24) (dec 21846237150878878 26);
  q4 (dec 70709915212468566 17) (dec (-74398659377829926) 21) (dec 62058120552972151 28) (dec (-27147034362241044) 30);
  q4 (dec 69576084448040487 17) (dec (-74398659377829926) 21) (dec (-13500959968094603) 31) (dec 590648180259504 32);
  q4 (dec 68442248878077316 17) (dec (-74398659377791559) 21) (dec 48283925290786826 28) (dec (-68906810926763936) 34);
  q4 (dec 67308424521029353 17) (dec (-74397188163872571) 21) (dec 55455994458098184 24) (dec (-21834018845191666) 26);
  q4 (dec 66226128314930677 17) (dec (-72707551499061256) 21) (dec (-33278491996664933) 24) (dec 14556917253589848 26);
  q4 (dec 65092299152347632 17) (dec (-72707971865492644) 21) (dec 11092715184075081 24) (dec 90509794033555827 31);
  q4 (dec 6400999653886883 16) (dec (-69326281629760453) 21) (dec 33292975803262342 24) (dec (-14563252939446447) 26);
  q4 (dec 62979241298479671 17) (dec (-69325861132652373) 21) (dec (-44379484071644057) 24) (dec 21839901391267201 26);
  q4 (dec 61896945092380984 17) (dec (-67635278633572363) 21) (dec 12068318921667102 27) (dec (-47513952523335417) 30);
  q4 (dec 60866194657526917 17) (dec (-67634910852938982) 21) (dec (-15539698729821092) 24) (dec 10195068813011307 26);
  q4 (dec 59835433009757633 17) (dec (-65267764382753881) 21) (dec 13316638384792008 24) (dec (-43693153019666443) 27);
  q4 (dec 58856215531387923 17) (dec (-64253273060103442) 21) (dec (-10343822942299701) 28) (dec (-10548160034386687) 35);
  q4 (dec 57876993247483122 17) (dec (-64253588347176326) 21) (dec (-66560776739163028) 24) (dec 29117228185057866 26);
  q4 (dec 56846239608938987 17) (dec (-64253220486531535) 21) (dec 59168659726190111 24) (dec (-24265173856486018) 26);
  q4 (dec 55918555087053667 17) (dec (-63125926132459462) 21) (dec (-36975527512079252) 24) (dec 19409424081934095 26);
  q4 (dec 54939339210528992 17) (dec (-60872108154184599) 21) (dec 34481017399573626 28) (dec (-70315270669231486) 35);
  q4 (dec 54011656290488674 17) (dec (-60871057221768008) 21) (dec 34494950209396916 28) (dec (-22630965564403438) 30);
  q4 (dec 53083981379673528 17) (dec (-6087158267980994) 20) (dec (-48465402231348533) 37) (dec 15754844328618718 39);
  q4 (dec 52156298459633221 17) (dec (-60871582679810313) 21) (dec (-12094118721951122) 36) (dec 6360289006738592 38);
  q4 (dec 51228615539592903 17) (dec (-60871582679809574) 21) (dec 23713494522698255 24) (dec (-68253877740251962) 27);
  q4 (dec 5033184983049116 16) (dec (-58399454099684444) 21) (dec (-42771671464032056) 26) (dec 12509629898187106 27);
  q4 (dec 49445276661320114 17) (dec (-57658185169194406) 21) (dec 41139712834863801 25) (dec (-48167517468435998) 28);
  q4 (dec 48574415990055719 17) (dec (-56739864882143083) 21) (dec 12668237571333919 25) (dec 30768865784633788 28);
  q4 (dec 477137318402717 15) (dec (-56139347913312979) 21) (dec 2691565311564036 24) (dec (-30059273834553522) 28);
  q4 (dec 46863355563260584 17) (dec (-55528403650304961) 21) (dec 19972784274877485 25) (dec 43712163822506843 28);
  q4 (dec 46023288760867387 17) (dec (-54615058717800002) 21) (dec 39942258269259491 25) (dec (-43676859178516607) 28);
  q4 (dec 45198686170401092 17) (dec (-53701947160403155) 21) (dec 13309258790193486 25) (dec 29104333446837721 28);
  q4 (dec 4438438985086266 16) (dec (-53093489873399185) 21) (dec 2662182645490383 24) (dec (-29098898471704031) 28);
  q4 (dec 43580398200407067 17) (dec (-52484809812704139) 21) (dec 88831400907340736 26) (dec 11648610367988689 27);
  q4 (dec 42786716024569399 17) (dec (-51402408216517352) 21) (dec 33270962298776837 25) (dec (-72773646625886407) 28);
  q4 (dec 42008494856968565 17) (dec (-50895376260907908) 21) (dec (-11090703745786217) 25) (dec 14554729325150204 27);
  q4 (dec 41235425222986627 17) (dec (-50219286960566788) 21) (dec 55504672692947712 25) (dec (-14567929159020824) 27);
  q4 (dec 40477818199086552 17) (dec (-49542558215918992) 21) (dec 45988500274547325 29) (dec 72800036918968339 28);
  q4 (dec 39725367514340476 17) (dec (-49035167187328815) 21) (dec 62107763001649762 25) (dec (-11640647576014546) 27);
  q4 (dec 389883762359862 15) (dec (-47953211231573784) 21) (dec 1331767308880768 24) (dec 29110665137895415 28);
  q4 (dec 38261692830404825 17) (dec (-47344453359246973) 21) (dec 14792203169856345 25) (dec 48545936043067913 28);
  q4 (dec 37545317297596342 17) (dec (-46555332128776247) 21) (dec 20710371595920139 25) (dec (-38833126154582873) 28);
  q4 (dec 36839249637560761 17) (dec (-46194658662967455) 21) (dec 44183825006222472 26) (dec 58364423588884958 28);
  q4 (dec 36138335112989112 17) (dec (-45653318935904377) 21) (dec 6215710138459068 24) (dec (-11668506205152846) 27);
  q4 (dec 35452884800344359 17) (dec (-44571800259740206) 21) (dec 13285389128522887 25) (dec 2923914776903869 27);
  q4 (dec 34777731147557289 17) (dec (-43963131170496346) 21) (dec 26680074801638497 25) (dec (-29232069849826054) 28);
  q4 (dec 34112894978613295 17) (dec (-43353603602133028) 21) (dec 19968125841549234 25) (dec 43634112462870074 28);
  q4 (dec 33458368284287232 17) (dec (-42440944499319914) 21) (dec 3991556834597488 24) (dec (-43586587973540686) 28);
  q4 (dec 32819296190817876 17) (dec (-41528017465582298) 21) (dec 1776793786084835 24) (dec (-21737884340639547) 31);
  q4 (dec 32190535173811485 17) (dec (-40986602183249029) 21) (dec 19973714554239483 25) (dec 43655366038587092 28);
  q4 (dec 31572083631423015 17) (dec (-400736246473385) 19) (dec 39923433038788853 25) (dec (-43626862266330416) 28);
  q4 (dec 3096908989358132 16) (dec (-39160738518081471) 21) (dec 13318156282873048 25) (dec 29114737157560733 28);
  q4 (dec 30376404028512516 17) (dec (-38551937545274113) 21) (dec 26630792516197479 25) (dec (-29146411016585711) 28);
  q4 (dec 2979402603621662 16) (dec (-37943315253520167) 21) (dec 88481826306971342 26) (dec 116661166208191 25);
  q4 (dec 29221954314848586 17) (dec (-36860759372635007) 21) (dec 33280714512432567 25) (dec (-72822618231180259) 28);
  q4 (dec 28665348407252472 17) (dec (-36353771390378808) 21) (dec (-11087250857212788) 25) (dec 14546807901276503 27);
  q4 (dec 28113890829585203 17) (dec (-35678128789263203) 21) (dec 5553685607023763 24) (dec (-14575469687824459) 27);
  q4 (dec 27577895861999796 17) (dec (-35000944498812416) 21) (dec (-11053939489487575) 25) (dec 1453927678056627 26);
  q4 (dec 27047060437258447 17) (dec (-34324811315214953) 21) (dec 5321260351293332 24) (dec (-13084318135254158) 27);
  q4 (dec 2653167801152877 16) (dec (-33614570858459943) 21) (dec 66744348397983653 26) (dec 14538077138596892 28);
  q4 (dec 26021456730488185 17) (dec (-33309836717398115) 21) (dec 22174515467255349 25) (dec 72751034997930542 28);
  q4 (dec 25521540118530434 17) (dec (-32127048062372102) 21) (dec 27747861298193496 25) (dec (-3636694803554542) 27);
  q4 (dec 25037081311119458 17) (dec (-31534688252104993) 21) (dec 55554082295194276 26) (dec (-25465752419898978) 31);
  q4 (dec 24557782046552531 17) (dec (-31365536847705432) 21) (dec 23720919532105068 25) (dec (-46556457308361908) 28);
  q4 (dec 24083632713759481 17) (dec (-30966915951535133) 21) (dec 79376021385330345 25) (dec (-14653066166674317) 27);
  q4 (dec 23624945991048291 17) (dec (-29568520613864172) 21) (dec 26364476785597386 24) (dec (-10596947526022431) 26);
  q4 (dec 23171412403801034 17) (dec (-29346760306494934) 21) (dec (-38049963028957235) 24) (dec 18800193550167034 26);
  q4 (dec 22728186689326677 17) (dec (-28673845364812984) 21) (dec 17576125781815299 25) (dec (-25498003200095078) 30);
  q4 (dec 22295270449470247 17) (dec (-28139901682491665) 21) (dec (-12847589239068431) 25) (dec 11497731678132492 27);
  q4 (dec 21867504141387689 17) (dec (-27730365532996375) 21) (dec 33315226982436008 25) (dec (-72905680530989124) 28);
  q4 (dec 2145005051161312 16) (dec (-27222904366166537) 21) (dec (-10340447347932213) 28) (dec 72815114460587426 28);
  q4 (dec 21037748415457458 17) (dec (-26715863631151457) 21) (dec 33289354961706531 25) (dec (-72826447524973565) 28);
  q4 (dec 20635752590229658 17) (dec (-26208638969478921) 21) (dec 28901386651721602 38) (dec 72803816558373444 28);
  q4 (dec 20238909900465796 17) (dec (-25701361778338207) 21) (dec 33295389367159651 25) (dec (-72820788463625308) 28);
  q4 (dec 19852376685319859 17) (dec (-2519391375718727) 20) (dec 51714290814400219 29) (dec 72764224236240642 28);
  q4 (dec 19470998207482887 17) (dec (-24686754809419731) 21) (dec 29573678785323357 25) (dec (-48490628668085822) 28);
  q4 (dec 19099924398728751 17) (dec (-24123218591151293) 21) (dec 74010837921975089 26) (dec (-50309274142654525) 32);
  q4 (dec 18734005327283582 17) (dec (-23897668611298924) 21) (dec 73984004742171269 26) (dec 48530849123278549 28);
  q4 (dec 18373240993147372 17) (dec (-23334015608544731) 21) (dec 36774619011377253 25) (dec (-95740889102208317) 28);
  q4 (dec 18022782929939032 17) (dec (-22880221694820302) 21) (dec 26386674235962869 25) (dec (-77377394025079803) 28);
  q4 (dec 17677478002194627 17) (dec (-22615100499023762) 21) (dec 26453228934908255 23) (dec (-76362701454677109) 25);
  q4 (dec 17615633969247302 17) (dec (-2650339720247813) 20) (dec (-8712996587890716) 23) (dec 39023953087640945 26);
  q4 (dec 17229100754101367 17) (dec (-30174837272160392) 21) (dec (-18360934426329058) 25) (dec 15375338811044047 27);
  q4 (dec 16770414031390177 17) (dec (-29663166766042894) 21) (dec 13988287031686562 25) (dec 12355154184361138 28);
  q4 (dec 16322033579606854 17) (dec (-29150716423562402) 21) (dec 19981165425308087 25) (dec 43653550130881572 28);
  q4 (dec 15883962602441459 17) (dec (-28237524437852643) 21) (dec 33276423173021867 25) (dec 33939416320635633 31);
  q4 (dec 15461352633512898 17) (dec (-27223022578917553) 21) (dec 13313741477861839 25) (dec (-1456234737025468) 27);
  q4 (dec 15049050537357231 17) (dec (-26918686214189749) 21) (dec 44368794008099124 26) (dec 58235813644188269 28);
  q4 (dec 146419015766655 15) (dec (-26377678820721657) 21) (dec 62132587105588303 25) (dec (-11647886784701824) 27);
  q4 (dec 142502136242106 15) (dec (-25295470634649292) 21) (dec 1331732733010534 24) (dec 29094830248355183 28);
  q4 (dec 138688335445286 15) (dec (-24686833634250972) 21) (dec 22185430786065276 25) (dec 22627449112325463 31);
  q4 (dec 13497759735774464 17) (dec (-2401046404198097) 20) (dec 22199225818952592 25) (dec (-22630965826983633) 31);
  q4 (dec 13136995401638255 17) (dec (-23333989325433555) 21) (dec 14785689114236365 25) (dec 48577366344743938 28);
  q4 (dec 12786538940274947 17) (dec (-22544847645585094) 21) (dec 18489006899574838 25) (dec (-24277359776930424) 28);
  q4 (dec 12446390351684536 17) (dec (-22150460754769851) 21) (dec 73890135319209693 26) (dec 24291190167717524 28);
  q4 (dec 12111393296713027 17) (dec (-21755989216431947) 21) (dec 37001393185077483 25) (dec (-48597486797010478) 28);
  q4 (dec 11786705716359447 17) (dec (-20966800821635935) 21) (dec 14783391415860396 25) (dec 48569817414611219 28);
  q4 (dec 11472324406933734 17) (dec (-20177781774525826) 21) (dec 14796800988257965 25) (dec (-2011224653736012) 30);
  q4 (dec 11168250970280919 17) (dec (-19726915417067067) 21) (dec 92448873399299635 26) (dec (-12128626744701634) 28);
  q4 (dec 10869330669092037 17) (dec (-19529640223116592) 21) (dec (-33276422369091432) 25) (dec 32757475529610719 27);
  q4 (dec 1057556510521212 16) (dec (-18261453782356635) 21) (dec 20253202492091301 36) (dec (-65061671949667729) 39);
  q4 (dec 10297260549569033 17) (dec (-18261453782355002) 21) (dec 76699833806491025 37) (dec (-30342663151413107) 39);
  q4 (dec 10018955993925947 17) (dec (-18261453782354768) 21) (dec (-15646002918829335) 23) (dec 69372747452484198 26);
  q4 (dec 96228133104405228 18) (dec (-17613427192785824) 21) (dec 17271690127445081 23) (dec (-74093648219291253) 26);
  q4 (dec 94932705009584686 18) (dec (-16595754416303096) 21) (dec (-82141060745883588) 25) (dec 40423633446546395 27);
  q4 (dec 92355816908611776 18) (dec (-16282805121565216) 21) (dec (-377729329740938) 23) (dec 26953457856982447 27);
  q4 (dec 89881991516917545 18) (dec (-15556080488546483) 21) (dec 17244527840886134 28) (dec (-67891138575119292) 31);
  q4 (dec 87511260871402582 18) (dec (-15556027922325105) 21) (dec (-20683576179189875) 28) (dec 11309331250425436 30);
  q4 (dec 85140514207437346 18) (dec (-15555870354286898) 21) (dec 73938039454585521 25) (dec (-19403293355883398) 27);
  q4 (dec 82872846271201062 18) (dec (-14654207615791162) 21) (dec 73972509403253013 26) (dec (-71480312231694343) 40);
  q4 (dec 80656725708054419 18) (dec (-14428739407130543) 21) (dec (-14766931634750935) 25) (dec 19394249405516678 27);
  q4 (dec 78492136499547116 18) (dec (-13527496937139766) 21) (dec 49009255670023268 28) (dec (-14067591701294914) 30);
  q4 (dec 76430610000318477 18) (dec (-13526983326552842) 21) (dec (-37009112453581509) 28) (dec 29312053425444513 30);
  q4 (dec 74369115537990457 18) (dec (-13526068980146519) 21) (dec 41619627793008056 24) (dec (-50674220544184964) 26);
  q4 (dec 73905269272435223 18) (dec (-12515274875528344) 21) (dec (-75403032914592273) 28) (dec 42477745045966664 28);
  q4 (dec 72462199121130139 18) (dec (-1234606735115217) 20) (dec 12404176469365226 25) (dec (-74076145838061985) 29);
  q4 (dec 70606846095809764 18) (dec (-12019602295914716) 21) (dec 12988062010900938 25) (dec (-62154997083520145) 29);
  q4 (dec 68803024425128742 18) (dec (-11667034077174329) 21) (dec 11097025051480685 25) (dec (-22620417862426019) 31);
  q4 (dec 67050734109087046 18) (dec (-11328954366524094) 21) (dec (-20786766553353367) 37) (dec 72815125009707065 28);
  q4 (dec 65349975147684675 18) (dec (-10821598381171078) 21) (dec 17247474394613826 28) (dec (-67903442498772349) 31);
  q4 (dec 63700779577822261 18) (dec (-10821545810869127) 21) (dec (-10342055009462951) 28) (dec 45240835561468469 31);
  q4 (dec 62051567989509539 18) (dec (-10821545810869126) 21) (dec 42715585276975514 25) (dec (-13472360386524777) 27);
  q4 (dec 60453887755836155 18) (dec (-10458292198539714) 21) (dec 10682319489080253 24) (dec (-42056311065577281) 27);
  q4 (dec 58959286249891753 18) (dec (-10132690580151337) 21) (dec (-16903915073499484) 23) (dec 74660175064834171 26);
  q4 (dec 56131677364705326 18) (dec (-96346444957625865) 22) (dec 14225158396571888 23) (dec (-5642321589494365) 25);
  q4 (dec 55970099256453236 18) (dec (-55905238271353595) 22) (dec (-29911443541818728) 24) (dec 29285099107270253 27);
  q4 (dec 54527045123598468 18) (dec (-12667025768356738) 21) (dec (-25570597292120244) 23) (dec 11707544576321967 25);
  q4 (dec 50801634135575424 18) (dec (-90312201590517444) 22) (dec 30272237264237759 23) (dec (-13167292254832253) 25);
  q4 (dec 5179553092180695 17) (dec (-85075519058315983) 22) (dec (-21745844968579155) 25) (dec 10734950141226603 27);
  q4 (dec 50486471125774694 18) (dec (-84223831336975974) 22) (dec (-43761191627649577) 26) (dec 29520093333006162 28);
  q4 (dec 49203185016287274 18) (dec (-8350079264899682) 21) (dec 58799778695317763 26) (dec 38618511932405138 29);
  q4 (dec 47945656574894358 18) (dec (-81439492107453759) 22) (dec 97793523908544836 26) (dec (-85611813629948338) 29);
  q4 (dec 46724201683594015 18) (dec (-79055265329681435) 22) (dec 56351827944271697 26) (dec 33643281571147003 29);
  q4 (dec 45533678419837513 18) (dec (-77103244378924866) 22) (dec 60514694300335636 26) (dec 3974483400656033 28);
  q4 (dec 44374086783624853 18) (dec (-74981825303887682) 22) (dec 6552415334665574 25) (dec (-33096682073050296) 29);
  q4 (dec 43245410756505738 18) (dec (-73215257788269119) 22) (dec 44361661758894677 26) (dec 72856603382511001 29);
  q4 (dec 42142492397481135 18) (dec (-71355469342484753) 22) (dec 72670317935959076 26) (dec (-39767488423971998) 29);
  q4 (dec 41070505666000387 18) (dec (-69417567094378031) 22) (dec 35190867157608745 26) (dec 99935738902037372 29);
  q4 (dec 4002429262106446 17) (dec (-67648624417265694) 22) (dec 63403850804537955 26) (dec (-11911967463481347) 28);
  q4 (dec 39003837244223037 18) (dec (-6654606853704728) 21) (dec (-23391676659108609) 27) (dec 33942927884352837 28);
  q4 (dec 38001146328772675 18) (dec (-64252315477286458) 22) (dec 15272094265827925 25) (dec (-33919452994666406) 28);
  q4 (dec 37045405491173689 18) (dec (-61960796368818342) 22) (dec 28269947818298148 27) (dec 15915758023469228 28);
  q4 (dec 36107413096515453 18) (dec (-60765662839654619) 22) (dec 78908399139947609 26) (dec (-12648532248480418) 28);
  q4 (dec 35195194388402039 18) (dec (-59241850156935416) 22) (dec 302589155377497 24) (dec 11908022904988719 28);
  q4 (dec 34303591425834418 18) (dec (-57489839765147443) 22) (dec 7987375600925379 25) (dec (-87396237907626669) 29);
  q4 (dec 33442904072360342 18) (dec (-55664240895949036) 22) (dec 41485949003909272 26) (dec (-39100501361019004) 29);
  q4 (dec 32602832464432054 18) (dec (-54672190828457111) 22) (dec 14643230380245157 27) (dec 37925816620756444 28);
  q4 (dec 31783392620499874 18) (dec (-51984990518345006) 22) (dec 14337466125713647 25) (dec (-53859623035296838) 28);
  q4 (dec 30989710444662207 18) (dec (-51431934482860872) 22) (dec (-11859773170917597) 25) (dec 64639240388696157 28);
  q4 (dec 30216644014370336 18) (dec (-50648963620037436) 22) (dec 13917711716641032 25) (dec (-36448806665238969) 28);
  q4 (dec 29464177311173952 18) (dec (-48946498796484917) 22) (dec (-19619684550811468) 26) (dec 29158361714964172 28);
  q4 (dec 28723996759363445 18) (dec (-4751283144803877) 21) (dec 10614074134428978 25) (dec (-24262488675395723) 28);
  q4 (dec 28015965237320157 18) (dec (-45968205868797171) 22) (dec 81639693554506145 27) (dec 8187138760277533 28);
  q4 (dec 27320203848212446 18) (dec (-4514891052304432) 21) (dec 60583598436843732 26) (dec (-32411754869574038) 29);
  q4 (dec 26645058204650525 18) (dec (-4352815873462322) 21) (dec 38024105505311148 26) (dec 22187817244757221 31);
  q4 (dec 25990528306634401 18) (dec (-42367638012066601) 22) (dec 2382080724792908 25) (dec 30912051165883622 29);
  q4 (dec 25351472231615352 18) (dec (-4142619304270376) 21) (dec 33173831977596345 26) (dec 45254898715528878 31);
  q4 (dec 24727857942692767 18) (dec (-40411901405777398) 22) (dec 38129708866418373 26) (dec (-31613779248802313) 29);
  q4 (dec 24119717476767263 18) (dec (-39469984094386692) 22) (dec 2269576917105026 25) (dec 10036747220558057 28);
  q4 (dec 23527018796938217 18) (dec (-3807888380367704) 21) (dec 45746233308101682 26) (dec (-66946353348809171) 29);
  q4 (dec 22954951881105277 18) (dec (-37151002593172494) 22) (dec 15803631271804816 26) (dec 2101120297732809 28);
  q4 (dec 22393184828820075 18) (dec (-36522907564709047) 22) (dec 35615315661645629 26) (dec 57745250766988557 29);
  q4 (dec 21846891599531952 18) (dec (-35034999542705902) 22) (dec 4135963841614661 25) (dec (-38597504500075818) 29);
  q4 (dec 2132119809733932 17) (dec (-34043294676617072) 22) (dec 11852771557654546 26) (dec 19473761656432553 29);
  q4 (dec 20805820477144743 18) (dec (-33546334325180921) 22) (dec 20037624697281357 26) (dec 4323945584416541 28);
  q4 (dec 2030075873894821 17) (dec (-32634306757217639) 22) (dec 44294849923915916 26) (dec (-72350786587274877) 29);
  q4 (dec 19811138786848145 18) (dec (-31788320333062867) 22) (dec 11216070296238539 26) (dec 72350786586862771 29);
  q4 (dec 19331850735196436 18) (dec (-30942333908910195) 22) (dec 39790134327443604 26) (dec (-43130731554300261) 29);
  q4 (dec 18868004469641191 18) (dec (-30030053820521088) 22) (dec 17804919692632012 26) (dec (-21729110068491395) 31);
  q4 (dec 18414474086083994 18) (dec (-29488873893576043) 22) (dec 19904299186514204 26) (dec 43987761556456021 29);
  q4 (dec 17971243566074543 18) (dec (-28575696096516878) 22) (dec 39998966769494589 26) (dec (-43879251053411321) 29);
  q4 (dec 1754348686906217 17) (dec (-27662266275566557) 22) (dec 13288171741840722 26) (dec 29094361041011716 29);
  q4 (dec 17126030035597543 18) (dec (-27054521206807673) 22) (dec 2219059042567412 25) (dec 22611119175332959 40);
  q4 (dec 16718873065680658 18) (dec (-26378152010631568) 22) (dec 22242356966420649 26) (dec (-11322515467905882) 31);
  q4 (dec 16322031977761824 18) (dec (-25700993892375614) 22) (dec 22207845939213861 26) (dec 13493732411085797 40);
  q4 (dec 15935506771841041 18) (dec (-25024098748147445) 22) (dec 0 0) (dec 0 0)].
(** L943-1147 *)
Definition MIL_SPEC_210A_Tropical_akima_dT : list coefD := [
  q4 (dec (-74730242053074629) 19) (dec 53819552083536147 22) (dec 0 0) (dec 0 0);
  q4 (dec (-74730242053074629) 19) (dec 53819552083536147 22) (dec (-45338940901246941) 39) (dec (-77241178305949724) 27);
  q4 (dec (-6926217556138735) 18) (dec 17074049960401638 36) (dec (-46681020232951386) 39) (dec 61261181408111032 42);
  q4 (dec (-69262175561387333) 19) (dec 71141874835018031 37) (dec 18672408093162959 39) (dec (-18378354422414124) 41);
  q4 (dec (-69262175561387324) 19) (dec (-35993517636004166) 52) (dec (-1961925928973189) 23) (dec 77241178306031447 27);
  q4 (dec (-71084864391951644) 19) (dec (-59799502315100213) 23) (dec 39238518579461253 25) (dec 54704320585481407 41);
  q4 (dec (-71084864391951644) 19) (dec 59799502315101484 23) (dec 15695407431783396 24) (dec (-77241178306020435) 27);
  q4 (dec (-69262175561387446) 19) (dec 79678899815205495 36) (dec (-33610334567714582) 38) (dec 73513417689651178 41);
  q4 (dec (-69262175561387376) 19) (dec 28456749933999262 36) (dec 35226572965744207 51) (dec (-73513417689683872) 41);
  q4 (dec (-69262175561387359) 19) (dec (-22765399947200622) 36) (dec (-19619259289725464) 24) (dec 77241178306017256 27);
  q4 (dec (-71084864391950725) 19) (dec (-59799502315005282) 23) (dec 392385185793821 23) (dec 13106063997487532 39);
  q4 (dec (-71084864391950673) 19) (dec 59799502315042551 23) (dec 15695407431689961 24) (dec (-77241178305513813) 27);
  q4 (dec (-69262175561391141) 19) (dec 6311707135335372 33) (dec (-49575243487009806) 36) (dec 10843229109093717 38);
  q4 (dec (-69262175561389198) 19) (dec (-12435599721204802) 34) (dec (-20219736948947376) 47) (dec (-10843229109074897) 38);
  q4 (dec (-69262175561394931) 19) (dec (-87988270795537215) 34) (dec (-19619259289524618) 24) (dec 77241178305264844 27);
  q4 (dec (-71084864391951653) 19) (dec (-59799502315004181) 23) (dec 39238518579527601 25) (dec (-54944962163699858) 39);
  q4 (dec (-71084864391950612) 19) (dec 59799502315013159 23) (dec 15695407431783899 24) (dec (-77241178306010444) 27);
  q4 (dec (-6926217556138729) 18) (dec 45530799894416494 36) (dec (-14937926474561725) 38) (dec 76495682969996387 53);
  q4 (dec (-69262175561387255) 19) (dec 5633345087329904 48) (dec 83523889965107616 39) (dec (-54805702076866498) 41);
  q4 (dec (-69262175561387255) 19) (dec (-12729040830693675) 36) (dec (-54451311965551072) 37) (dec 23534938614368847 39);
  q4 (dec (-69262175561387706) 19) (dec (-32554521924499081) 36) (dec 319074109496297 35) (dec (-10468310679014883) 39);
  q4 (dec (-69262175561387385) 19) (dec 21057994951150509 35) (dec (-17925511769440243) 37) (dec (-17911184305169885) 52);
  q4 (dec (-6926217556138748) 18) (dec (-33578964922115869) 35) (dec (-19619259289719005) 24) (dec 77241178305992763 27);
  q4 (dec (-7108486439195069) 18) (dec (-59799502315010406) 23) (dec 39238518579383341 25) (dec 12499997079154954 39);
  q4 (dec (-71084864391950707) 19) (dec 59799502315037162 23) (dec 15695407431695265 24) (dec (-77241178305542092) 27);
  q4 (dec (-69262175561391028) 19) (dec 59019299362889287 34) (dec (-30846818169826514) 36) (dec 32462363110129382 50);
  q4 (dec (-69262175561389198) 19) (dec (-3500180241851553) 33) (dec (-28128046257410558) 36) (dec 18456723265884879 38);
  q4 (dec (-69262175561394532) 19) (dec 7865340076854708 34) (dec 70295267789688899 36) (dec (-30864072817762882) 38);
  q4 (dec (-69262175561387931) 19) (dec 70728519334610622 35) (dec 1824224877827248 37) (dec (-12536127192985335) 39);
  q4 (dec (-69262175561387255) 19) (dec (-11059567691896833) 35) (dec (-69720364092080648) 38) (dec 39456109115778061 40);
  q4 (dec (-69262175561387446) 19) (dec (-48183910414566894) 36) (dec 1517498527321049 37) (dec 98676336575936486 42);
  q4 (dec (-6926217556138748) 18) (dec 49449434311543103 37) (dec 21011050680591453 37) (dec (-6893389330904685) 39);
  q4 (dec (-69262175561387229) 19) (dec 16504914961712235 35) (dec (-38838608833812035) 37) (dec 55765145579753777 52);
  q4 (dec (-69262175561387879) 19) (dec (-10187516476370771) 34) (dec (-19619259289704791) 24) (dec 7724117830593932 26);
  q4 (dec (-71084864391950716) 19) (dec (-59799502315018993) 23) (dec 39238518579306239 25) (dec 42690596098826949 39);
  q4 (dec (-71084864391951583) 19) (dec 59799502315004308 23) (dec 15695407431660067 24) (dec (-77241178305359737) 27);
  q4 (dec (-69262175561394124) 19) (dec 75694954824153517 34) (dec (-28307370668912052) 36) (dec (-10005386566026784) 49);
  q4 (dec (-69262175561389163) 19) (dec (-10585910975387868) 34) (dec 44609182756672706 37) (dec (-29271117294668129) 39);
  q4 (dec (-69262175561390776) 19) (dec (-17384350427688302) 34) (dec (-24168044744596296) 36) (dec 11483075982158796 38);
  q4 (dec (-69262175561394974) 19) (dec (-11037600762202167) 34) (dec 8915011432211762 35) (dec (-37841737816273621) 38);
  q4 (dec (-69262175561389345) 19) (dec (-29789884594956608) 35) (dec (-20841019408421588) 36) (dec 96403616357755235 39);
  q4 (dec (-69262175561391227) 19) (dec 66900208335408576 36) (dec 14206560532594412 37) (dec (-19512995479684278) 41);
  q4 (dec (-69262175561390802) 19) (dec 48632004887212077 35) (dec 10885192255335624 36) (dec (-4580546992189555) 38);
  q4 (dec (-69262175561389154) 19) (dec 61252609501893307 35) (dec (-77056428728312652) 36) (dec 33883627923216285 38);
  q4 (dec (-69262175561394124) 19) (dec 73491692084691648 35) (dec 49093166802215292 36) (dec (-20870948245907126) 38);
  q4 (dec (-6926217556138899) 18) (dec 11562051142063732 34) (dec (-12256007384978711) 37) (dec (-1993017291292299) 38);
  q4 (dec (-69262175561388218) 19) (dec (-60603822938992128) 35) (dec (-21298093645186746) 36) (dec 10384831989376632 38);
  q4 (dec (-69262175561390412) 19) (dec 13817129032471342 35) (dec 1191142966954586 35) (dec (-53722494919444377) 39);
  q4 (dec (-69262175561389337) 19) (dec 255377328015974 34) (dec 10045975553046607 38) (dec (-15136834944320316) 40);
  q4 (dec (-69262175561389328) 19) (dec (-49311482385636299) 36) (dec (-12515848396169993) 38) (dec 49394015409587312 41);
  q4 (dec (-69262175561389415) 19) (dec (-53043381876981217) 36) (dec 14732648990242556 37) (dec (-5667962590964148) 39);
  q4 (dec (-69262175561389354) 19) (dec 10795428654782334 37) (dec (-27355475085920102) 36) (dec 11647489311957952 38);
  q4 (dec (-69262175561391583) 19) (dec (-2212155224599253) 34) (dec 47569809958469035 36) (dec (-20827106498528121) 38);
  q4 (dec (-69262175561388244) 19) (dec (-23369875799616419) 35) (dec (-10528221334467869) 36) (dec 47779142256640787 39);
  q4 (dec (-69262175561389354) 19) (dec (-11357994756616558) 35) (dec 78884399024269992 38) (dec 4492500315847624 40);
  q4 (dec (-69262175561389328) 19) (dec 15816222090054902 35) (dec 90341802033090257 37) (dec (-38644164297021165) 39);
  q4 (dec (-69262175561388356) 19) (dec 2191600907795988 34) (dec (-41600657153853676) 36) (dec 18193421932643413 38);
  q4 (dec (-69262175561391245) 19) (dec 21596133187432776 35) (dec 21370894412366927 36) (dec (-96107569491656181) 39);
  q4 (dec (-69262175561389354) 19) (dec 33295919174116486 36) (dec 5278276328241586 38) (dec (-12898313047562559) 40);
  q4 (dec (-69262175561389337) 19) (dec (-40487831551669757) 36) (dec (-31125604313548741) 38) (dec 18252342498636693 40);
  q4 (dec (-69262175561389406) 19) (dec (-81813156060258086) 37) (dec 11691384362131007 37) (dec (-41336788223267399) 40);
  q4 (dec (-69262175561389293) 19) (dec 60148583018397369 36) (dec (-16741891493913158) 37) (dec 61903547383437266 40);
  q4 (dec (-69262175561389371) 19) (dec (-18817189313173948) 36) (dec 16380493750369305 36) (dec (-67466212531044109) 39);
  q4 (dec (-69262175561387983) 19) (dec 27309512473427905 35) (dec (-58496502120481998) 36) (dec 25666096414688356 38);
  q4 (dec (-69262175561392069) 19) (dec 32679914234368517 35) (dec 30126039252945076 36) (dec (-13529401529210428) 38);
  q4 (dec (-69262175561389363) 19) (dec 82296920809136116 36) (dec (-23217335190970164) 38) (dec (-59541736575817726) 42);
  q4 (dec (-69262175561389293) 19) (dec 7381776895979709 36) (dec (-11551227160139637) 37) (dec 5056315709080928 39);
  q4 (dec (-69262175561389371) 19) (dec 76106984849530873 37) (dec 34107973693889736 36) (dec (-11190280083317495) 38);
  q4 (dec (-69262175561385399) 19) (dec 26066382939451279 34) (dec 70114892387421663 36) (dec (-64410006130782365) 38);
  q4 (dec (-6926217556138794) 18) (dec (-20901482826130986) 33) (dec (-16185888913751275) 24) (dec 54712501299198653 27);
  q4 (dec (-71084864391951757) 19) (dec (-11212406684076684) 22) (dec 2785450393008301 25) (dec 63970317424328945 28);
  q4 (dec (-72502511260166842) 19) (dec (-59061236854239319) 23) (dec 49605238302854363 24) (dec (-20851939493285554) 26);
  q4 (dec (-69262175561389337) 19) (dec 49415764885383135 35) (dec (-11787972413602894) 36) (dec 548474020675853 37);
  q4 (dec (-6926217556138938) 18) (dec 72280144832342795 35) (dec 28954922530540166 37) (dec (-18999292999031667) 39);
  q4 (dec (-69262175561388278) 19) (dec 28152842895872689 35) (dec (-5389957704154237) 36) (dec 24716057733963622 39);
  q4 (dec (-69262175561388226) 19) (dec 36081699595806014 35) (dec 16777003772407425 37) (dec (-69401618937552335) 40);
  q4 (dec (-69262175561387532) 19) (dec 3886084674245259 34) (dec 46967996703090333 38) (dec (-8786663816125292) 39);
  q4 (dec (-69262175561387142) 19) (dec (-80463913606495479) 36) (dec (-61745272406916923) 37) (dec 18985134025076106 39);
  q4 (dec (-69262175561388027) 19) (dec (-63962731726656953) 35) (dec (-31081441036894012) 37) (dec 1019732317485187 38);
  q4 (dec (-69262175561389363) 19) (dec (-87646789796645709) 35) (dec (-52615320080386462) 25) (dec 34524488241867818 27);
  q4 (dec (-6926217556138559) 18) (dec 8018574780342679 22) (dec 51723434155471196 25) (dec (-16969630628417742) 27);
  q4 (dec (-67439486730825355) 19) (dec 11959900463001931 22) (dec 75856838009040085 25) (dec (-49774828089885363) 27);
  q4 (dec (-65616797900262588) 19) (dec 39931835044883012 24) (dec (-52403982998631362) 26) (dec 17192907807962212 28);
  q4 (dec (-65616797900262657) 19) (dec 11382699973577559 36) (dec 12078063227588274 38) (dec (-79252383383023863) 41);
  q4 (dec (-6561679790026264) 18) (dec (-70242683851962313) 37) (dec (-86955403551418087) 37) (dec 36530984115514883 39);
  q4 (dec (-65616797900263377) 19) (dec (-11204535974014222) 35) (dec 21893357897059374 36) (dec (-96195236929530443) 39);
  q4 (dec (-65616797900261868) 19) (dec (-14157233092166296) 35) (dec (-7215617413501025) 36) (dec 32858301551724183 39);
  q4 (dec (-65616797900262596) 19) (dec (-51415441012832135) 36) (dec (-10949781953508906) 38) (dec 12169013544605586 40);
  q4 (dec (-65616797900262657) 19) (dec 0 0) (dec 0 0) (dec 0 0);
  q4 (dec (-65616797900262657) 19) (dec 0 0) (dec 0 0) (dec 0 0);
  q4 (dec (-65616797900262657) 19) (dec 0 0) (dec 0 0) (dec 0 0);
  q4 (dec (-65616797900262657) 19) (dec 0 0) (dec 31190873367596054 24) (dec (-1364430156062778) 25);
  q4 (dec (-63202025436841919) 19) (dec 19723590016691972 35) (dec (-75656517812986337) 25) (dec 30577867808117604 27);
  q4 (dec (-63876869572210612) 19) (dec (-17542800587043477) 23) (dec 11540851595888561 26) (dec 60078811042419206 28);
  q4 (dec (-63876869572210204) 19) (dec 33221245843956436 23) (dec 23216324325036325 24) (dec (-11343715952831605) 26);
  q4 (dec (-61971420239136368) 19) (dec 16618741961448649 34) (dec (-55643776117691703) 37) (dec 53169682298495347 51);
  q4 (dec (-61971420239135128) 19) (dec (-34148099918669382) 36) (dec 39610823676704714 37) (dec (-25991354118664257) 39);
  q4 (dec (-6197142023913518) 18) (dec (-6378170527580556) 34) (dec (-53863217763458502) 36) (dec 23533824287126046 38);
  q4 (dec (-61971420239140332) 19) (dec (-657597183811432) 33) (dec 58102414845485106 37) (dec 10527036810450496 39);
  q4 (dec (-61971420239139612) 19) (dec 18468597120910128 34) (dec 25054680068209402 38) (dec (-10321125694564961) 40);
  q4 (dec (-61971420239136776) 19) (dec 18513115804453743 34) (dec 47014597524773995 39) (dec (-16035905534187052) 40);
  q4 (dec (-61971420239134) 16) (dec 17539078017750147 34) (dec (-71489258083149826) 36) (dec 28771467266514345 38);
  q4 (dec (-61971420239137747) 19) (dec 11157745428668413 36) (dec 43347042008992384 38) (dec (-18544296302712798) 40);
  q4 (dec (-61971420239137695) 19) (dec 14067916883369057 36) (dec (-25930796417599107) 38) (dec 85074791396498661 41);
  q4 (dec (-61971420239137704) 19) (dec (-56913499867188511) 37) (dec (-14083663804491022) 36) (dec 19802676890295125 38);
  q4 (dec (-61971420239133974) 19) (dec 94995745467505897 34) (dec 17812624414411744 24) (dec (-65386618757197519) 27);
  q4 (dec (-60148731408573262) 19) (dec 87332617812370456 23) (dec (-12081197832691609) 25) (dec 39087971850233421 28);
  q4 (dec (-58960021301677906) 19) (dec 77744562410734965 23) (dec (-21553616955631044) 24) (dec 12664261724393713 26);
  q4 (dec (-58298536060340063) 19) (dec 30320162776696189 22) (dec 35757115573520394 22) (dec (-59715979759035019) 24);
  q4 (dec (-4193797309274671) 18) (dec 59902045765619901 21) (dec 43587973158275421 23) (dec (-32869077507142294) 25);
  q4 (dec 36598949898955296 19) (dec 17253667314925895 21) (dec (-18121501666949167) 23) (dec 54509403590287582 26);
  q4 (dec 40099154272381071 19) (dec (-24417641623803614) 35) (dec (-12965890497422142) 36) (dec 82113734007893057 39);
  q4 (dec 40099154272380593 19) (dec 15252817964610746 34) (dec 10376237099539601 36) (dec (-68085545272506136) 39);
  q4 (dec 40099154272382918 19) (dec (-56056737504402249) 36) (dec (-49611082153409306) 37) (dec 22224436582860205 39);
  q4 (dec 40099154272382467 19) (dec (-19664230914146653) 36) (dec (-78042572525662894) 39) (dec 62361227390001594 41);
  q4 (dec 40099154272382441 19) (dec 0 0) (dec 0 0) (dec 0 0);
  q4 (dec 40099154272382441 19) (dec 0 0) (dec 0 0) (dec 0 0);
  q4 (dec 40099154272382441 19) (dec 0 0) (dec (-21581185218678479) 24) (dec 90114708023597114 27);
  q4 (dec 38276465441820537 19) (dec (-29899751157472026) 23) (dec 52972000082240731 24) (dec (-23172353491797109) 26);
  q4 (dec 41921843102946527 19) (dec (-29899751157676277) 23) (dec (-19619259289619605) 24) (dec 90114708023157222 27);
  q4 (dec 40099154272387055 19) (dec (-49818283551053137) 34) (dec (-88631697083232432) 37) (dec 11631456310041191 38);
  q4 (dec 40099154272381522 19) (dec 42115989902295741 35) (dec (-46323186627986229) 38) (dec 30395791750772074 40);
  q4 (dec 40099154272382163 19) (dec 49175643544487505 35) (dec 12639533706705695 37) (dec (-76575655784708127) 40);
  q4 (dec 40099154272382935 19) (dec 34345108189578519 35) (dec (-11294898077326952) 36) (dec 4462331419427435 38);
  q4 (dec 40099154272382415 19) (dec 99973055689191967 37) (dec 13320306278680387 38) (dec (-56934207437029246) 41);
  q4 (dec 40099154272382441 19) (dec 10927391974656952 36) (dec (-21809372652831147) 38) (dec 960575324478407 39);
  q4 (dec 40099154272382441 19) (dec 1138269997360108 35) (dec 10313525831891607 36) (dec (-40719134195488793) 39);
  q4 (dec 40099154272383412 19) (dec 31774685883755117 35) (dec (-81284567997172744) 37) (dec 26668165353423759 39);
  q4 (dec 40099154272382953 19) (dec (-30164154929945644) 35) (dec 81038251124403252 37) (dec (-48592379642730847) 51);
  q4 (dec 40099154272384375 19) (dec 21684043449689343 34) (dec 23543111147603439 24) (dec (-10298823774107209) 26);
  q4 (dec 41921843102945347 19) (dec 38132044911574869 35) (dec (-16058270960152519) 37) (dec 8176123946711662 51);
  q4 (dec 41921843102945555 19) (dec (-10813564974913509) 35) (dec (-92160511597385858) 38) (dec 60472776638672393 40);
  q4 (dec 4192184310294539 18) (dec 32316969925048358 36) (dec 55857782725061429 37) (dec (-26526414174406243) 39);
  q4 (dec 41921843102945798 19) (dec (-11342620044117127) 35) (dec (-2760810193499122) 37) (dec 56907494609786516 41);
  q4 (dec 41921843102945581 19) (dec (-15792410077877864) 35) (dec (-16819421030498753) 38) (dec 5518182752789973 40);
  q4 (dec 41921843102945321 19) (dec (-17074049960400685) 35) (dec 22033441549938727 37) (dec 65321923316654274 52);
  q4 (dec 41921843102945573 19) (dec 50083879883858724 35) (dec 23543111147609381 24) (dec (-10298823774104807) 26);
  q4 (dec 43744531933506232 19) (dec 23676015945065187 34) (dec (-12443292753261323) 36) (dec 23328257880086707 39);
  q4 (dec 43744531933507776 19) (dec 20033551953546998 35) (dec (-31009136805043386) 37) (dec (-2981055252213722) 39);
  q4 (dec 43744531933507256 19) (dec (-95253479178619896) 35) (dec (-10776641724122651) 24) (dec 3638345962518473 26);
  q4 (dec 42529406046466931 19) (dec (-74961989384082774) 23) (dec 37486262518990182 24) (dec (-17192785816463379) 26);
  q4 (dec 44007886213210268 19) (dec (-13032725911902142) 22) (dec (-18973255885740371) 22) (dec 3208817236403439 23);
  q4 (dec 33849935424739427 19) (dec (-1131339958593478) 20) (dec 90225160611571026 25) (dec 22917666749733544 26);
  q4 (dec 25517643627879357 19) (dec 27036418390189672 35) (dec 45370663014337617 37) (dec (-23645737069416128) 39);
  q4 (dec 25517643627879986 19) (dec 56913499868020783 37) (dec (-82582093525515999) 39) (dec 54187725410438112 41);
  q4 (dec 25517643627879995 19) (dec 18276861040086191 36) (dec 34129290917491206 38) (dec (-1678630773371456) 39);
  q4 (dec 25517643627880043 19) (dec 53405133437786738 37) (dec (-58552329738068409) 37) (dec 2140466093546773 38);
  q4 (dec 25517643627879449 19) (dec (-28791594376688788) 35) (dec 23861144043727889 37) (dec (-32605129588664553) 40);
  q4 (dec 25517643627879449 19) (dec 21218805230736787 35) (dec 23602311774250508 36) (dec (-11279235725598761) 38);
  q4 (dec 25517643627881261 19) (dec (-4528919772866381) 34) (dec (-25626133804786598) 37) (dec 10217339836342597 39);
  q4 (dec 25517643627880338 19) (dec (-52206008702453003) 35) (dec (-69753885028124929) 38) (dec 57357674821293233 40);
  q4 (dec 25517643627879583 19) (dec (-33501725172304339) 35) (dec 68274956946167435 37) (dec (-26944831614609786) 39);
  q4 (dec 25517643627879704 19) (dec (-13143914096789414) 35) (dec (-2364334262591114) 36) (dec 12229068416644272 39);
  q4 (dec 25517643627879388 19) (dec 0 0) (dec 0 0) (dec 0 0);
  q4 (dec 25517643627879388 19) (dec 0 0) (dec 0 0) (dec 0 0);
  q4 (dec 25517643627879388 19) (dec 0 0) (dec (-72402262381298323) 37) (dec 30232393024880415 39);
  q4 (dec 25517643627878776 19) (dec (-10031004351736228) 35) (dec 17771464402681561 36) (dec (-77740439206830234) 39);
  q4 (dec 25517643627879999 19) (dec (-10031004351736228) 35) (dec (-65820238528452939) 37) (dec 30232393024880415 39);
  q4 (dec 25517643627879388 19) (dec 0 0) (dec 0 0) (dec 0 0);
  q4 (dec 25517643627879388 19) (dec 0 0) (dec 0 0) (dec 0 0);
  q4 (dec 25517643627879388 19) (dec 0 0) (dec 47787125793820387 37) (dec (-17143787667804504) 39);
  q4 (dec 25517643627879891 19) (dec 26201910060549728 35) (dec (-53259079839703837) 37) (dec 23297935187971707 39);
  q4 (dec 25517643627879878 19) (dec 26201910060549733 35) (dec 18971485356460435 36) (dec (-7965097038601687) 38);
  q4 (dec 25517643627881864 19) (dec 49466487139650819 35) (dec (-13053132807150788) 37) (dec (-12733065674299686) 39);
  q4 (dec 25517643627881864 19) (dec (-79039999881203648) 35) (dec (-10488217188822556) 38) (dec 16807603578666613 41);
  q4 (dec 25517643627880641 19) (dec (-81065700379677006) 35) (dec (-38228212846199167) 38) (dec 20028075327432601 40);
  q4 (dec 25517643627879388 19) (dec (-78762641530692613) 35) (dec 18024364854226142 36) (dec (-70145755800572491) 39);
  q4 (dec 25517643627879891 19) (dec (-18136547546695213) 35) (dec (-35375802942598783) 37) (dec 17666338497923311 39);
  q4 (dec 25517643627879418 19) (dec (-28677535062800885) 36) (dec 3741968550509375 38) (dec 13153713971137004 41);
  q4 (dec 25517643627879388 19) (dec (-81068648067797648) 37) (dec (-12435113212158609) 39) (dec 43064149721311877 41);
  q4 (dec 25517643627879388 19) (dec 1810884086709252 35) (dec 30300225860293739 37) (dec (-12085160332318447) 39);
  q4 (dec 25517643627879691 19) (dec 99598624769011022 36) (dec (-65353428326122097) 38) (dec 0 0);
  q4 (dec 25517643627879691 19) (dec (-9959862476901101) 35) (dec (-26141371330449452) 37) (dec 12864848095693811 39);
  q4 (dec 25517643627879388 19) (dec 0 0) (dec 0 0) (dec 0 0);
  q4 (dec 25517643627879388 19) (dec 0 0) (dec 0 0) (dec 0 0);
  q4 (dec 25517643627879388 19) (dec 0 0) (dec (-38937884280735839) 25) (dec 1548069233131973 26);
  q4 (dec 25158240196501611 19) (dec (-88333150590975406) 24) (dec 2280757810174613 23) (dec (-10180681924467362) 26);
  q4 (dec 26722133839762979 19) (dec (-88333150590976954) 24) (dec (-14398801988178453) 24) (dec 64254632163997083 27);
  q4 (dec 25517643627879392 19) (dec (-40696822826799663) 37) (dec (-26093203073386293) 40) (dec 69821943571194185 42);
  q4 (dec 25517643627879388 19) (dec (-23975526018362057) 49) (dec (-19080102592996857) 39) (dec 12519752357619689 41);
  q4 (dec 25517643627879388 19) (dec 29078076351775439 37) (dec 10775964941978089 36) (dec (-42163396002411517) 39);
  q4 (dec 25517643627880403 19) (dec 3495911729392284 34) (dec (-21259254783624925) 37) (dec (-36709584859138356) 41);
  q4 (dec 25517643627880429 19) (dec (-32396915309480541) 35) (dec (-91925701381800252) 37) (dec 44862034384983543 39);
  q4 (dec 25517643627879388 19) (dec 0 0) (dec 0 0) (dec 0 0);
  q4 (dec 25517643627879388 19) (dec 0 0) (dec 0 0) (dec 0 0);
  q4 (dec 25517643627879388 19) (dec 0 0) (dec 32676714163061818 37) (dec (-12864848095693811) 39);
  q4 (dec 25517643627879691 19) (dec 99598624769011022 36) (dec (-65353428326122097) 38) (dec 0 0);
  q4 (dec 25517643627879691 19) (dec (-9959862476901101) 35) (dec (-26141371330449452) 37) (dec 12864848095693811 39);
  q4 (dec 25517643627879388 19) (dec 0 0) (dec 0 0) (dec 0 0);
  q4 (dec 25517643627879388 19) (dec 0 0) (dec 0 0) (dec 0 0);
  q4 (dec 25517643627879388 19) (dec 0 0) (dec 5757465383349469 36) (dec (-23075960709764673) 39);
  q4 (dec 25517643627879908 19) (dec 14700527320166688 35) (dec (-11467972426388433) 37) (dec 33785338446159151 41);
  q4 (dec 25517643627879878 19) (dec (-17899782148657753) 35) (dec (-3700278982395301) 36) (dec 18509451967539111 39);
  q4 (dec 25517643627879401 19) (dec (-17154587931912806) 36) (dec 7922785755685199 38) (dec (-14883312924753503) 41);
  q4 (dec 25517643627879388 19) (dec (-33762245684409696) 37) (dec (-94077375347562182) 40) (dec 20709607645725005 41);
  q4 (dec 25517643627879388 19) (dec 81861883371788019 37) (dec 33698653272322753 37) (dec (-13887873407344153) 39);
  q4 (dec 25517643627879691 19) (dec 67651896069516924 36) (dec (-15236913529170266) 37) (dec 7085178961422017 39);
  q4 (dec 25517643627879691 19) (dec 96906770045523227 36) (dec 10430424972369346 38) (dec (-44598919221600683) 41);
  q4 (dec 25517643627879848 19) (dec 97623391538296882 36) (dec (-10024322360739897) 38) (dec 37524178017333301 41);
  q4 (dec 25517643627879986 19) (dec 93215083567597694 36) (dec 27311638922849775 37) (dec (-12010146763180492) 39);
  q4 (dec 25517643627880338 19) (dec 88839479076830032 36) (dec (-10306221381738235) 36) (dec 42482192645081499 39);
  q4 (dec 25517643627879583 19) (dec (-92453166131739591) 36) (dec 93699253560000343 38) (dec 12630115665323363 40);
  q4 (dec 25517643627879704 19) (dec 28114536928365806 35) (dec 40902180107646294 38) (dec 19967993438378094 40);
  q4 (dec 25517643627880299 19) (dec 54494676123616128 35) (dec 0 0) (dec 0 0)].
Definition MIL_SPEC_210A_Tropical_D : tableD := {| t_alt := MIL_SPEC_210A_Tropical_alt; t_T := MIL_SPEC_210A_Tropical_akima_T; t_P := MIL_SPEC_210A_Tropical_akima_P; t_rho := MIL_SPEC_210A_Tropical_akima_rho; t_dT := MIL_SPEC_210A_Tropical_akima_dT |}.
Definition MIL_SPEC_210A_Tropical : tableQ := tableQ_of MIL_SPEC_210A_Tropical_D.

(** MarsEquatorCold.py *)
(** L67-70 *)
Definition MarsEquatorCold_alt : list decimal := [dec (-8000) 0; dec (-5000) 0; dec (-2000) 0; dec (-1632) 0; dec (-1627) 0; dec (-1000) 0; dec 0 0; dec 1000 0; dec 2000 0; dec 3000 0; dec 4000 0; dec 5000 0; dec 6000 0; dec 7000 0; dec 8000 0; dec 9000 0; dec 10000 0; dec 15000 0; dec 20000 0; dec 25000 0; dec 30000 0; dec 40000 0; dec 50000 0; dec 60000 0; dec 70000 0; dec 80000 0].
(** L72-99 *)
Definition MarsEquatorCold_akima_T : list coefD := [
  q4 (dec 21393000000000001 14) (dec 0 0) (dec 0 0) (dec 0 0);
  q4 (dec 21393000000000001 14) (dec 0 0) (dec 0 0) (dec 0 0);
  q4 (dec 21393000000000001 14) (dec 0 0) (dec 0 0) (dec 0 0);
  q4 (dec 21393000000000001 14) (dec 0 0) (dec 0 0) (dec 0 0);
  q4 (dec 21393000000000001 14) (dec 0 0) (dec 40642465847258225 17) (dec (-54004931694516478) 18);
  q4 (dec 21734 2) (dec 13876707637086864 18) (dec (-12018978485150434) 21) (dec (-38819410359554458) 26);
  q4 (dec 22122 2) (dec (-16529224625490219) 19) (dec 59506866568327868 23) (dec (-60214620313425379) 26);
  q4 (dec 21956 2) (dec (-22692237405852246) 19) (dec 84474811704190161 25) (dec (-92237405852051841) 28);
  q4 (dec 21728999999999999 14) (dec (-22800000000000012) 19) (dec (-43368086899420178) 38) (dec 0 0);
  q4 (dec 21500999999999999 14) (dec (-22800000000000012) 19) (dec (-43368086899420178) 38) (dec 0 0);
  q4 (dec 21272999999999999 14) (dec (-22800000000000012) 19) (dec (-43368086899420178) 38) (dec 0 0);
  q4 (dec 21044999999999999 14) (dec (-22800000000000012) 19) (dec 11499999999999445 23) (dec (-11499999999999446) 26);
  q4 (dec 20816999999999999 14) (dec (-23949999999999961) 19) (dec (-22999999999998933) 23) (dec 11499999999999446 26);
  q4 (dec 20566 2) (dec (-2509999999999991) 18) (dec 43368086899420178 38) (dec 0 0);
  q4 (dec 20315000000000001 14) (dec (-2509999999999991) 18) (dec (-58113236445223041) 36) (dec 28622937353617319 39);
  q4 (dec 20063999999999999 14) (dec (-25100000000000192) 19) (dec 58546917314217243 36) (dec (-30357660829594127) 39);
  q4 (dec 19813 2) (dec (-25099999999999927) 19) (dec (-25102040816299497) 24) (dec 15102040816310745 27);
  q4 (dec 19561000000000001 14) (dec (-25148979591836603) 19) (dec 9231402238313557 23) (dec (-12666886109280915) 27);
  q4 (dec 18375999999999999 14) (dec (-25417741935483715) 19) (dec (-40981333816604922) 24) (dec 37072345052559944 28);
  q4 (dec 17049000000000001 14) (dec (-26735449438202216) 19) (dec (-61213798172849504) 24) (dec 91045573873786361 28);
  q4 (dec 15672999999999999 14) (dec (-26028411214953206) 19) (dec 30702958939235133 23) (dec (-21772273018657466) 27);
  q4 (dec 14866999999999999 14) (dec (-11654657039711172) 19) (dec 12021263139168651 24) (dec 84253072579431892 29);
  q4 (dec 13906 2) (dec (-67228122344944801) 20) (dec 24531184254756321 24) (dec (-12030619098116746) 29);
  q4 (dec 13466999999999999 14) (dec (-21774939564867172) 20) (dec 48962747592491912 24) (dec (-18487808027624708) 28);
  q4 (dec 13553999999999999 14) (dec 20687131537242554 20) (dec 17628484684188292 23) (dec (-11637197837912546) 27);
  q4 (dec 14359999999999999 14) (dec 24140890083632069 20) (dec (-28143178016726402) 23) (dec 74990890083632022 28);
  q4 (dec 12537 2) (dec (-31374999999999988) 19) (dec 0 0) (dec 0 0)].
(** L101-128 *)
Definition MarsEquatorCold_akima_P : list coefD := [
  q4 (dec 12045999999999999 13) (dec (-11015166666666662) 17) (dec 0 0) (dec 0 0);
  q4 (dec 12045999999999999 13) (dec (-11015166666666662) 17) (dec 2514879971770023 21) (dec 49485482422480706 26);
  q4 (dec 91013999999999999 14) (dec (-81701306581976718) 18) (dec 15296496885218955 22) (dec 3284100944160379 25);
  q4 (dec 68766999999999996 14) (dec (-63656335901612279) 18) (dec 34201306197535933 24) (dec 36299024389204993 25);
  q4 (dec 66443000000000006 14) (dec (-62156436016585714) 18) (dec (-91650606786966571) 22) (dec 80904527986946932 22);
  q4 (dec 66412 2) (dec (-61641302663470558) 18) (dec 22669354128414099 22) (dec (-13023261264492812) 26);
  q4 (dec 62633000000000004 14) (dec (-58952160306096874) 18) (dec 42127986645264936 22) (dec (-11306383584296225) 25);
  q4 (dec 57046000000000004 14) (dec (-53918478052332755) 18) (dec 18871366100805739 22) (dec 20134144225214535 26);
  q4 (dec 51863 2) (dec (-49540180505415192) 18) (dec 25045073522938013 22) (dec (-84326846878618473) 27);
  q4 (dec 47150999999999999 14) (dec (-44784146341463431) 18) (dec 17360263577027303 22) (dec 19811998376068065 26);
  q4 (dec 42865999999999997 14) (dec (-40717733674775942) 18) (dec 12832650657019356 22) (dec 48446860907401524 26);
  q4 (dec 38970999999999998 14) (dec (-36697797716150032) 18) (dec 13867098901314753 22) (dec (-98912173981419157) 27);
  q4 (dec 35430000000000001 14) (dec (-34221114457831318) 18) (dec 71331802457350744 23) (dec 32779643325780981 26);
  q4 (dec 32112 2) (dec (-31811089108910888) 18) (dec 19149215806537091 22) (dec (-18383247174281332) 26);
  q4 (dec 29104000000000002 14) (dec (-28532743362831892) 18) (dec 11464594883095689 22) (dec 12628387452227887 26);
  q4 (dec 26377999999999997 14) (dec (-25860972762645928) 18) (dec 14568026681490466 22) (dec (-30582990550308971) 26);
  q4 (dec 23906999999999999 14) (dec (-23864857142857122) 18) (dec 18309938141265227 22) (dec (-35613667126940809) 26);
  q4 (dec 21667999999999998 14) (dec (-21271279528412314) 18) (dec 64048993130009822 23) (dec 51531948764732553 28);
  q4 (dec 12698 2) (dec (-14479890599675841) 18) (dec 74869704550193584 23) (dec (-11807785113353426) 27);
  q4 (dec 71822000000000003 15) (dec (-78785040281579982) 19) (dec 14431901186156803 23) (dec 22404358754006261 27);
  q4 (dec 38838000000000001 15) (dec (-47549870029918468) 19) (dec 50300560369279796 24) (dec 28595368045817862 27);
  q4 (dec 19895 3) (dec (-21073287958627081) 19) (dec 33028179019913669 24) (dec 31535700566357122 28);
  q4 (dec 52781000000000002 16) (dec (-50069419847372095) 20) (dec (-32388003761329903) 25) (dec 14979220223505081 28);
  q4 (dec 14452 4) (dec (-1160935992912283) 19) (dec (-3064974818924963) 24) (dec 4773034748047794 28);
  q4 (dec 45507000000000003 17) (dec (-34202053228293757) 21) (dec (-60825447270181621) 26) (dec 10208597955311908 29);
  q4 (dec 15431 5) (dec (-15741348816394342) 21) (dec (-15224523672113164) 26) (dec 52857011836056601 30);
  q4 (dec 34528999999999997 18) (dec (-29291499999999993) 22) (dec 0 0) (dec 0 0)].
(** L130-157 *)
Definition MarsEquatorCold_akima_rho : list coefD := [
  q4 (dec 298 4) (dec (-2733333333333334) 21) (dec 0 0) (dec 0 0);
  q4 (dec 298 4) (dec (-2733333333333334) 21) (dec 50541516245487389 27) (dec 16486161251504259 30);
  q4 (dec 22499999999999999 18) (dec (-19849578820697946) 22) (dec 10004171447989189 26) (dec (-16500066078134855) 30);
  q4 (dec 17000000000000001 18) (dec (-18302093793000846) 22) (dec 16382460546850101 25) (dec (-29765769097995478) 28);
  q4 (dec 16400000000000001 18) (dec (-18337601373499989) 22) (dec (-22744588987156022) 21) (dec 30222682029251856 22);
  q4 (dec 16199999999999999 18) (dec (-26095347895212798) 22) (dec 10804510124149719 25) (dec 46336969928365035 30);
  q4 (dec 14999999999999999 18) (dec (-11999999999999997) 22) (dec (-21175823681357509) 41) (dec 0 0);
  q4 (dec 138 4) (dec (-11999999999999997) 22) (dec (-21175823681357509) 41) (dec 0 0);
  q4 (dec 126 4) (dec (-11999999999999997) 22) (dec 29999999999999617 26) (dec (-99999999999997352) 30);
  q4 (dec 11599999999999999 18) (dec (-89999999999999975) 23) (dec 21175823681357509 41) (dec (-21175823681357508) 44);
  q4 (dec 10699999999999999 18) (dec (-89999999999999985) 23) (dec 31763735522036263 41) (dec (-21175823681357508) 44);
  q4 (dec 97999999999999997 19) (dec (-89999999999999975) 23) (dec 16249999999999802 26) (dec (-6249999999999856) 29);
  q4 (dec 89999999999999993 19) (dec (-76249999999999969) 23) (dec 15000000000000704 27) (dec 74999999999995058 31);
  q4 (dec 826 5) (dec (-70999999999999955) 23) (dec 23999999999999368 27) (dec 60000000000004509 31);
  q4 (dec 75799999999999999 19) (dec (-64400000000000021) 23) (dec 28000000000000517 27) (dec (-40000000000000887) 31);
  q4 (dec 696 5) (dec (-59999999999999976) 23) (dec 20000000000000231 27) (dec (-21175823681357508) 44);
  q4 (dec 63800000000000003 19) (dec (-56000000000000014) 23) (dec 57570093457943204 27) (dec (-17570093457943585) 30);
  q4 (dec 58599999999999998 19) (dec (-49757009345794449) 23) (dec 94895758447162353 28) (dec 4048885693745339 31);
  q4 (dec 36600000000000001 19) (dec (-37230769230769194) 23) (dec 20085576923076796 27) (dec (-56480769230768017) 32);
  q4 (dec 22300000000000002 19) (dec (-21381250000000008) 23) (dec 43685643564356415 28) (dec 31878712871287238 32);
  q4 (dec 131 5) (dec (-14621782178217823) 23) (dec 14524139981565795 28) (dec 74223007165581383 32);
  q4 (dec 70799999999999997 20) (dec (-76026426426426408) 24) (dec 19097477447514832 28) (dec 62289489789115752 33);
  q4 (dec 20100000000000001 20) (dec (-19144624594662015) 24) (dec (-26296183890022867) 30) (dec 50075864335622428 33);
  q4 (dec 57000000000000003 21) (dec (-46477889717757449) 25) (dec (-10659888030512289) 29) (dec 17937777748269738 33);
  q4 (dec 17799999999999999 21) (dec (-13984332533972822) 25) (dec (-23015384871002307) 30) (dec 41758710210730545 34);
  q4 (dec 56899999999999997 22) (dec (-60597964449541278) 26) (dec (-41540711009174333) 31) (dec 21552035550458717 34);
  q4 (dec 137 8) (dec (-42499999999999989) 27) (dec 0 0) (dec 0 0)].
(** L159-186 *)
Definition MarsEquatorCold_akima_dT : list coefD := [
  q4 (dec 0 0) (dec 0 0) (dec 0 0) (dec 0 0);
  q4 (dec 0 0) (dec 0 0) (dec 0 0) (dec 0 0);
  q4 (dec 0 0) (dec 0 0) (dec 0 0) (dec 0 0);
  q4 (dec 0 0) (dec 0 0) (dec 0 0) (dec 0 0);
  q4 (dec 0 0) (dec 0 0) (dec 16653271133124994 19) (dec (-22205176156580718) 20);
  q4 (dec 13876707637086594 18) (dec (-61098431054147735) 23) (dec (-11556771709576942) 23) (dec 12287008297639008 26);
  q4 (dec (-16529224625490176) 19) (dec (-62152299736058361) 23) (dec (-59481152261482213) 26) (dec 60003324193919731 29);
  q4 (dec (-22692237405852259) 19) (dec (-11046316772635802) 24) (dec (-10236144699057055) 27) (dec 10506202056916638 30);
  q4 (dec (-22800000000000021) 19) (dec 0 0) (dec 0 0) (dec 0 0);
  q4 (dec (-22800000000000021) 19) (dec 0 0) (dec 0 0) (dec 0 0);
  q4 (dec (-22800000000000021) 19) (dec 0 0) (dec 0 0) (dec 0 0);
  q4 (dec (-22800000000000021) 19) (dec 0 0) (dec (-22999999999998605) 26) (dec 11499999999999249 29);
  q4 (dec (-23949999999999957) 19) (dec (-11499999999999466) 23) (dec (-71940799511768796) 28) (dec 7194079951175781 30);
  q4 (dec (-25099999999999914) 19) (dec (-10780592004882107) 23) (dec 21561184009767726 26) (dec (-1078059200488549) 28);
  q4 (dec (-25099999999999901) 19) (dec (-31225022567565728) 36) (dec (-42815830076158737) 50) (dec 41135456199680877 53);
  q4 (dec (-25100000000000213) 19) (dec (-31225022567187968) 36) (dec 72854198719140585 38) (dec (-66912770813959461) 41);
  q4 (dec (-25099999999999931) 19) (dec (-58152417260316163) 35) (dec (-970557759811316) 26) (dec 48076184150283604 31);
  q4 (dec (-25148979591836595) 19) (dec (-49882999517227594) 25) (dec (-10590186325340697) 29) (dec 57024958018818853 34);
  q4 (dec (-25417741935483732) 19) (dec (-56196313991156868) 25) (dec (-88711100274636082) 28) (dec 94484125928256607 32);
  q4 (dec (-26735449438202211) 19) (dec (-23467637227559334) 24) (dec 70989226246633158 28) (dec 84551542768928162 33);
  q4 (dec (-26028411214953188) 19) (dec 53862954726743445 24) (dec 14041200836167896 26) (dec (-18737916521211915) 30);
  q4 (dec (-11654657039711172) 19) (dec 52639299252639433 24) (dec (-28243805172199186) 29) (dec (-49647068325264598) 34);
  q4 (dec (-67228122344944845) 20) (dec 45501126168441685 24) (dec 1737767475111488 29) (dec (-22172013587516601) 34);
  q4 (dec (-2177493956486718) 19) (dec 45183519255838478 24) (dec (-51040461714191522) 29) (dec 23825980176904024 33);
  q4 (dec 20687131537242532 20) (dec 42123220966071348 24) (dec (-42331234347163256) 28) (dec 3661771927481405 32);
  q4 (dec 24140890083632031 20) (dec (-31553931945810945) 24) (dec (-44200159196063113) 27) (dec 13566463382281022 31);
  q4 (dec (-31374999999999988) 19) (dec (-50856321439864267) 23) (dec 0 0) (dec 0 0)].
Definition MarsEquatorCold_D : tableD := {| t_alt := MarsEquatorCold_alt; t_T := MarsEquatorCold_akima_T; t_P := MarsEquatorCold_akima_P; t_rho := MarsEquatorCold_akima_rho; t_dT := MarsEquatorCold_akima_dT |}.
Definition MarsEquatorCold : tableQ := tableQ_of MarsEquatorCold_D.

(** MarsEquatorHot.py *)
(** L67-70 *)
Definition MarsEquatorHot_alt : list decimal := [dec (-8000) 0; dec (-5000) 0; dec (-2000) 0; dec (-1632) 0; dec (-1627) 0; dec (-1000) 0; dec 0 0; dec 1000 0; dec 2000 0; dec 3000 0; dec 4000 0; dec 5000 0; dec 6000 0; dec 7000 0; dec 8000 0; dec 9000 0; dec 10000 0; dec 15000 0; dec 20000 0; dec 25000 0; dec 30000 0; dec 40000 0; dec 50000 0; dec 60000 0; dec 70000 0; dec 80000 0].
(** L72-99 *)
Definition MarsEquatorHot_akima_T : list coefD := [
  q4 (dec 23902000000000001 14) (dec 0 0) (dec 0 0) (dec 0 0);
  q4 (dec 23902000000000001 14) (dec 0 0) (dec 0 0) (dec 0 0);
  q4 (dec 23902000000000001 14) (dec 0 0) (dec 0 0) (dec 0 0);
  q4 (dec 23902000000000001 14) (dec 0 0) (dec 0 0) (dec 0 0);
  q4 (dec 23902000000000001 14) (dec 0 0) (dec 92833536280944109 18) (dec (-12166707256188958) 18);
  q4 (dec 23981999999999999 14) (dec 1583231859526921 17) (dec (-1297687750325006) 20) (dec (-23338573110685402) 25);
  q4 (dec 24406999999999999 14) (dec (-31932067663355593) 19) (dec (-13335864673288237) 22) (dec 12567932336644003 25);
  q4 (dec 24080000000000001 14) (dec (-20900000000000033) 19) (dec 0 0) (dec 0 0);
  q4 (dec 23871000000000001 14) (dec (-20900000000000033) 19) (dec 0 0) (dec 0 0);
  q4 (dec 23662 2) (dec (-20900000000000033) 19) (dec 0 0) (dec 0 0);
  q4 (dec 23453 2) (dec (-20900000000000033) 19) (dec 0 0) (dec 0 0);
  q4 (dec 23244 2) (dec (-20900000000000033) 19) (dec 15999999999999696 23) (dec (-15999999999999697) 26);
  q4 (dec 23034999999999999 14) (dec (-22500000000000003) 19) (dec (-3199999999999926) 22) (dec 15999999999999609 26);
  q4 (dec 22794 2) (dec (-24099999999999968) 19) (dec 43368086899420178 38) (dec 0 0);
  q4 (dec 22553 2) (dec (-24099999999999968) 19) (dec 2999999999997319 23) (dec (-1999999999998184) 26);
  q4 (dec 22313 2) (dec (-24099999999999968) 19) (dec 43368086899420178 38) (dec 0 0);
  q4 (dec 22072 2) (dec (-24099999999999968) 19) (dec 43368086899420178 38) (dec 0 0);
  q4 (dec 21831 2) (dec (-24099999999999968) 19) (dec (-3649122807018474) 24) (dec (-135017543859646) 26);
  q4 (dec 206 0) (dec (-2547754385964916) 18) (dec (-45694953432963778) 24) (dec 50491661251893603 28);
  q4 (dec 19275 2) (dec (-26260164609053496) 19) (dec 1083873566237641 23) (dec (-64708869626128184) 29);
  q4 (dec 17981 2) (dec (-25661607565011812) 19) (dec 88203035330344617 24) (dec (-65941768060216041) 28);
  q4 (dec 16836000000000001 14) (dec (-2178693663649354) 18) (dec 64499843840981984 24) (dec 27695225239533949 29);
  q4 (dec 15330000000000001 14) (dec (-80561111111111274) 20) (dec 2980033033033034 22) (dec (-18794219219219221) 27);
  q4 (dec 15625 2) (dec (-48381081081081177) 20) (dec (-58351366219933331) 24) (dec 13032447301014433 28);
  q4 (dec 14688 2) (dec (-12598647161790448) 19) (dec (-22103796108922369) 23) (dec 14852443270712818 27);
  q4 (dec 12703 2) (dec (-12248909567496723) 19) (dec 2630281913499344 22) (dec (-62339095674967204) 28);
  q4 (dec 13484999999999999 14) (dec 2165499999999999 18) (dec 0 0) (dec 0 0)].
(** L101-128 *)
Definition MarsEquatorHot_akima_P : list coefD := [
  q4 (dec 10492 1) (dec (-80536666666666673) 18) (dec 0 0) (dec 0 0);
  q4 (dec 10492 1) (dec (-80536666666666673) 18) (dec 16303911399884324 22) (dec 30135110148533771 26);
  q4 (dec 83039999999999998 14) (dec (-62617840086631987) 18) (dec 93625179466674345 23) (dec 23137978177389628 26);
  q4 (dec 65721999999999991 14) (dec (-50753075210736312) 18) (dec 11456687174059016 23) (dec 14370440550412887 25);
  q4 (dec 63863 2) (dec (-50084923230805503) 18) (dec (-78273575588982964) 22) (dec 49624007439991185 22);
  q4 (dec 63838 2) (dec (-49791016750594524) 18) (dec 16908326837111113 22) (dec 38237421598251231 26);
  q4 (dec 60792000000000007 14) (dec (-47219745385755824) 18) (dec 24664343279041589 22) (dec (-83668894214838923) 26);
  q4 (dec 56233000000000004 14) (dec (-44796943556392625) 18) (dec 61759081648898869 23) (dec 28935273990365889 26);
  q4 (dec 51844000000000005 14) (dec (-42693703703703692) 18) (dec 2742801729173898 21) (dec (-51909802547021877) 26);
  q4 (dec 47797000000000003 14) (dec (-38765394321766587) 18) (dec 13280785234645251 22) (dec 12731579830206619 26);
  q4 (dec 44066000000000003 14) (dec (-35727289879931359) 18) (dec 44703690272001469 23) (dec 89025297721134776 26);
  q4 (dec 40627000000000004 14) (dec (-32162457142857266) 18) (dec 58994285714289445 23) (dec (-14748571428571668) 26);
  q4 (dec 37454999999999995 14) (dec (-31425028571428607) 18) (dec 64516602316634647 24) (dec 22051196911198476 26);
  q4 (dec 34340999999999997 14) (dec (-30634459459459383) 18) (dec 28589189189187869 22) (dec (-78445945945940239) 26);
  q4 (dec 31484999999999997 14) (dec (-2727000000000003) 17) (dec 9927231121281307 22) (dec 97276887871894383 27);
  q4 (dec 28866999999999996 14) (dec (-249927231121281) 16) (dec 12791290637222917 22) (dec (-2864059515941403) 25);
  q4 (dec 26467000000000002 14) (dec (-2329368283946593) 17) (dec 15986258155613228 22) (dec (-3149429760954184) 25);
  q4 (dec 24266 2) (dec (-21041260136629523) 18) (dec 60677839410979922 23) (dec (-16252733567789781) 28);
  q4 (dec 15241999999999999 14) (dec (-15095371697289955) 18) (dec 69713646014738096 23) (dec (-11580424137878078) 27);
  q4 (dec 92923999999999992 15) (dec (-8992538906156998) 18) (dec 18364219968566005 23) (dec 18557116309147956 27);
  q4 (dec 54872 3) (dec (-57643331861142993) 19) (dec 10157428074521938 23) (dec 22794471295528099 27);
  q4 (dec 31439 3) (dec (-30390050314974991) 19) (dec 43327151129381768 24) (dec 4229335202036817 27);
  q4 (dec 96110000000000007 16) (dec (-9036614482988189) 19) (dec 45081342231192129 25) (dec 19519010606762675 28);
  q4 (dec 29771000000000001 16) (dec (-22792844563355462) 20) (dec (-41048645672403556) 25) (dec 75897091305958149 29);
  q4 (dec 10463 4) (dec (-82334463060487268) 21) (dec (-117142916858197) 23) (dec 22561754746306975 29);
  q4 (dec 33143 5) (dec (-38077782193205763) 21) (dec 22814643864115173 26) (dec 10375917806794244 29);
  q4 (dec 77226000000000003 18) (dec (-23870999999999991) 22) (dec 0 0) (dec 0 0)].
(** L130-157 *)
Definition MarsEquatorHot_akima_rho : list coefD := [
  q4 (dec 23248000000000001 18) (dec (-17843333333333343) 22) (dec 0 0) (dec 0 0);
  q4 (dec 23248000000000001 18) (dec (-17843333333333343) 22) (dec 36116593033741038 27) (dec 66648393591233812 31);
  q4 (dec 184 4) (dec (-13876831124345563) 22) (dec 70368847513309616 27) (dec (-11417418159856168) 30);
  q4 (dec 14562 6) (dec (-12737403176708158) 22) (dec 12799504781047203 25) (dec (-23396641338538801) 28);
  q4 (dec 14149999999999999 18) (dec (-12822367927748255) 22) (dec (-53257855574555241) 22) (dec 70044658320209803 23);
  q4 (dec 14097999999999999 18) (dec (-20065986271727127) 22) (dec 80590946891145263 26) (dec 14325403012804948 29);
  q4 (dec 13192000000000001 18) (dec (-82703621232712142) 23) (dec 46078141261828769 27) (dec (-43041928934707528) 30);
  q4 (dec 12368000000000001 18) (dec (-86400571660758615) 23) (dec (-34865414075470615) 27) (dec 30871130683056139 30);
  q4 (dec 115 4) (dec (-84112315270935918) 23) (dec 39246305418720176 27) (dec (-41231527093604597) 31);
  q4 (dec 10694 6) (dec (-77500000000000031) 23) (dec 24465355805242081 27) (dec 20346441947572638 31);
  q4 (dec 99454999999999995 19) (dec (-71996535580524425) 23) (dec 98154421494100478 28) (dec 14649913655834255 30);
  q4 (dec 92499999999999995 19) (dec (-65638473053892139) 23) (dec 13319305637429228 27) (dec (-31345750985073658) 31);
  q4 (dec 86038 7) (dec (-63914984455958514) 23) (dec 21913557858373977 28) (dec 45584887737479782 31);
  q4 (dec 79714 7) (dec (-62109166666666694) 23) (dec 48183333333333637 27) (dec (-12291666666666938) 30);
  q4 (dec 73861999999999999 19) (dec (-56160000000000016) 23) (dec 18581011097410654 27) (dec 16189889025893806 31);
  q4 (dec 68447999999999998 19) (dec (-51958101109741039) 23) (dec 23598385831185006 27) (dec (-50173747337743496) 31);
  q4 (dec 63438000000000001 19) (dec (-48743636363636343) 23) (dec 30720662732007744 27) (dec (-69842990956443184) 31);
  q4 (dec 58801000000000001 19) (dec (-446947935459281) 21) (dec 10720608782868512 27) (dec 13795661797534051 33);
  q4 (dec 39151000000000004 19) (dec (-33870717299578057) 23) (dec 15013217432520054 27) (dec (-36955656667279327) 32);
  q4 (dec 25506999999999999 19) (dec (-21629174117103954) 23) (dec 43611756320734501 28) (dec 29303452042689304 32);
  q4 (dec 16149000000000001 19) (dec (-15070239581828812) 23) (dec 30826397587739962 28) (dec 39868788097672538 32);
  q4 (dec 98828999999999996 20) (dec (-89974407157293796) 24) (dec 15437688985320991 28) (dec 8889718171972814 32);
  q4 (dec 33181999999999998 20) (dec (-32429874670733388) 24) (dec 33110385879177121 29) (dec 60308360828156865 33);
  q4 (dec 10094000000000001 20) (dec (-77152892464509257) 25) (dec (-80211402971650762) 30) (dec 22122032761674318 33);
  q4 (dec 37888 9) (dec (-26829074773816447) 25) (dec (-4146290645298096) 29) (dec 69613654191145397 34);
  q4 (dec 13874 9) (dec (-14237559807069017) 25) (dec 1131961413803268 31) (dec 32550401929309837 34);
  q4 (dec 29028 10) (dec (-44498000000000005) 26) (dec 0 0) (dec 0 0)].
(** L159-186 *)
Definition MarsEquatorHot_akima_dT : list coefD := [
  q4 (dec 0 0) (dec 0 0) (dec 0 0) (dec 0 0);
  q4 (dec 0 0) (dec 0 0) (dec 0 0) (dec 0 0);
  q4 (dec 0 0) (dec 0 0) (dec 0 0) (dec 0 0);
  q4 (dec 0 0) (dec 0 0) (dec 0 0) (dec 0 0);
  q4 (dec 0 0) (dec 0 0) (dec 18996597597759962 19) (dec (-25327340319304513) 20);
  q4 (dec 15832318595269262 18) (dec 10923582815767848 22) (dec (-15041195641242541) 23) (dec 15992765168785264 26);
  q4 (dec (-31932067663355546) 19) (dec 10923582815767829 22) (dec 11249037358530793 25) (dec (-11140552510943132) 28);
  q4 (dec (-20900000000000055) 19) (dec 22444752690260592 37) (dec 20162624968609079 40) (dec (-20923334209159587) 43);
  q4 (dec (-20900000000000033) 19) (dec 0 0) (dec 0 0) (dec 0 0);
  q4 (dec (-20900000000000033) 19) (dec 0 0) (dec 0 0) (dec 0 0);
  q4 (dec (-20900000000000033) 19) (dec 0 0) (dec 79999999999998483 27) (dec (-79999999999998485) 30);
  q4 (dec (-20900000000000033) 19) (dec (-7999999999999848) 23) (dec (-15999999999999691) 26) (dec 79999999999998498 30);
  q4 (dec (-22500000000000003) 19) (dec (-15999999999999696) 23) (dec 26469779601696886 42) (dec 0 0);
  q4 (dec (-24099999999999972) 19) (dec (-15999999999999696) 23) (dec 31999999999999786 26) (dec (-15999999999999955) 29);
  q4 (dec (-24099999999999959) 19) (dec 0 0) (dec 0 0) (dec 0 0);
  q4 (dec (-24099999999999959) 19) (dec 0 0) (dec 0 0) (dec 0 0);
  q4 (dec (-24099999999999959) 19) (dec 0 0) (dec 0 0) (dec 0 0);
  q4 (dec (-24099999999999959) 19) (dec 0 0) (dec (-12208629769428611) 27) (dec 13396908661663617 31);
  q4 (dec (-2547754385964916) 18) (dec (-21609482731808997) 24) (dec 15337578792937058 28) (dec (-68468866109867218) 33);
  q4 (dec (-26260164609053518) 19) (dec (-11407068897111981) 24) (dec 5211321486019516 27) (dec (-10713590608606271) 32);
  q4 (dec (-25661607565011816) 19) (dec 32670953006628466 24) (dec 13335733615957263 27) (dec (-87424810064197905) 32);
  q4 (dec (-21786936636493553) 19) (dec 10045968161805258 23) (dec 11077390484569241 27) (dec (-73925331209920692) 32);
  q4 (dec (-80561111111111263) 20) (dec 1002314976796753 22) (dec (-74128575854256901) 28) (dec 60771082046117306 33);
  q4 (dec (-48381081081081133) 20) (dec (-297943294150033) 22) (dec (-11561619069664294) 27) (dec 67805129574822826 32);
  q4 (dec (-12598647161790454) 19) (dec (-57611322083820682) 24) (dec 56901850929966725 28) (dec 42068470967911626 33);
  q4 (dec (-12248909567496734) 19) (dec 6881292106648625 23) (dec 37268148935094706 27) (dec (-10245531474246609) 31);
  q4 (dec 21654999999999999 19) (dec 50680995554098244 23) (dec 0 0) (dec 0 0)].
Definition MarsEquatorHot_D : tableD := {| t_alt := MarsEquatorHot_alt; t_T := MarsEquatorHot_akima_T; t_P := MarsEquatorHot_akima_P; t_rho := MarsEquatorHot_akima_rho; t_dT := MarsEquatorHot_akima_dT |}.
Definition MarsEquatorHot : tableQ := tableQ_of MarsEquatorHot_D.

(** MarsHellasCold.py *)
(** L71-74 *)
Definition MarsHellasCold_alt : list decimal := [dec (-8000) 0; dec (-7000) 0; dec (-61151) 1; dec (-61051) 1; dec (-6000) 0; dec (-5000) 0; dec (-4000) 0; dec (-3000) 0; dec (-2000) 0; dec (-1000) 0; dec 0 0; dec 1000 0; dec 2000 0; dec 3000 0; dec 4000 0; dec 5000 0; dec 6000 0; dec 7000 0; dec 8000 0; dec 9000 0; dec 10000 0; dec 15000 0; dec 20000 0; dec 25000 0; dec 30000 0; dec 40000 0; dec 50000 0; dec 60000 0; dec 70000 0; dec 80000 0].
(** L76-107 *)
Definition MarsHellasCold_akima_T : list coefD := [
  q4 (dec 18149000000000001 14) (dec 0 0) (dec 0 0) (dec 0 0);
  q4 (dec 18149000000000001 14) (dec 0 0) (dec 0 0) (dec 0 0);
  q4 (dec 18149000000000001 14) (dec 0 0) (dec 0 0) (dec 0 0);
  q4 (dec 18149000000000001 14) (dec 0 0) (dec (-65265480761348388) 18) (dec 43465480761348315 19);
  q4 (dec 17931 2) (dec (-13451923865182929) 19) (dec 22147424614350913 21) (dec (-14062877111290946) 23);
  q4 (dec 17925 2) (dec (-13499641685844744) 19) (dec (-994493860994477) 23) (dec 99091071944249977 28);
  q4 (dec 17790000000000001 14) (dec (-13401267242210894) 19) (dec 10253448442162526 24) (dec (-10126724221076396) 27);
  q4 (dec 17656 2) (dec (-13499999999999942) 19) (dec (-43368086899420178) 38) (dec 0 0);
  q4 (dec 17521000000000001 14) (dec (-13499999999999944) 19) (dec (-21684043449710089) 38) (dec 0 0);
  q4 (dec 17386000000000001 14) (dec (-13499999999999942) 19) (dec 20029850746250108 24) (dec (-10029850746259406) 27);
  q4 (dec 17252000000000001 14) (dec (-13400298507462722) 19) (dec (-33599402985075329) 22) (dec 33499701492537832 25);
  q4 (dec 17116999999999999 14) (dec 19900000000000091 19) (dec 0 0) (dec 0 0);
  q4 (dec 17316 2) (dec 19900000000000091 19) (dec 0 0) (dec 0 0);
  q4 (dec 17515000000000001 14) (dec 19900000000000091 19) (dec 2999999999997276 23) (dec (-1999999999998184) 26);
  q4 (dec 17715000000000001 14) (dec 19900000000000091 19) (dec (-57679555576228839) 36) (dec 29490299091605726 39);
  q4 (dec 17913999999999999 14) (dec 19899999999999809 19) (dec 40063438677684358 34) (dec (-39777209304148192) 37);
  q4 (dec 18113 2) (dec 19899999999960592 19) (dec (-27500719424381153) 22) (dec 13700719424420696 25);
  q4 (dec 18174000000000001 14) (dec 60007194244603753 20) (dec (-10143884892048959) 24) (dec 10071942446005954 27);
  q4 (dec 18234 2) (dec 60999999999995693 20) (dec 28297676701871667 36) (dec 21684043449710088 41);
  q4 (dec 18294999999999999 14) (dec 61000000000001363 20) (dec (-10842021724855045) 38) (dec 0 0);
  q4 (dec 18356 2) (dec 61000000000001363 20) (dec (-32526065174565132) 36) (dec 41199682554449171 40);
  q4 (dec 18416999999999999 14) (dec 60999999999996105 20) (dec (-18394160583940136) 23) (dec 11588321167881872 27);
  q4 (dec 18406999999999999 14) (dec (-36029197080291201) 20) (dec (-80290188423019603) 24) (dec 69716516720545741 30);
  q4 (dec 18027000000000001 14) (dec (-11579651162790675) 19) (dec (-74228847105394215) 24) (dec 11643740722415247 28);
  q4 (dec 17277000000000001 14) (dec (-18129255319148949) 19) (dec (-22039376471997189) 23) (dec 31155774220590111 27);
  q4 (dec 16209 2) (dec (-16801801125703557) 19) (dec 27557184339797503 24) (dec 32608269172380514 29);
  q4 (dec 14837 2) (dec (-10312116182572635) 19) (dec 12842323651452327 24) (dec (-39211618257261299) 29);
  q4 (dec 13894999999999999 14) (dec (-89200000000000087) 20) (dec 17196029776675211 24) (dec (-21960297766749965) 29);
  q4 (dec 13153 2) (dec (-61396029776674657) 20) (dec 30779785665479829 23) (dec (-19160182687812376) 27);
  q4 (dec 13700999999999999 14) (dec (-20605797101449266) 20) (dec (-12143840579710127) 23) (dec 1534420289855069 27);
  q4 (dec 12434 2) (dec (-2174499999999998) 18) (dec 0 0) (dec 0 0)].
(** L109-140 *)
Definition MarsHellasCold_akima_P : list coefD := [
  q4 (dec 1280 0) (dec (-12349644027573735) 17) (dec 0 0) (dec 0 0);
  q4 (dec 1280 0) (dec (-12349644027573735) 17) (dec 65853773980814321 22) (dec (-30889371223440932) 25);
  q4 (dec 1160 0) (dec (-11959249684660672) 17) (dec 61406920907205161 22) (dec 1470508771234667 24);
  q4 (dec 1060 0) (dec (-10527026308344103) 17) (dec 3002483077153505 17) (dec (-19497804463190944) 19);
  q4 (dec 1060 0) (dec (-8970778154846841) 17) (dec (-46152125590382354) 21) (dec (-53332256968749411) 24);
  q4 (dec 1050 0) (dec (-10117628427896498) 17) (dec (-85785833520495286) 22) (dec 77548676310144619 25);
  q4 (dec 948 0) (dec (-95068848090020558) 18) (dec 85922416345865649 22) (dec (-2523393544566044) 24);
  q4 (dec 859 0) (dec (-85454545454545464) 18) (dec 75524475524478556 23) (dec 16993006993006878 25);
  q4 (dec 776 0) (dec (-78846153846153857) 18) (dec 57548076923077397 22) (dec (-90865384615387852) 26);
  q4 (dec 702 0) (dec (-700625) 7) (dec (-13877787807814457) 36) (dec 30625000000000237 25);
  q4 (dec 635 0) (dec (-60874999999999999) 18) (dec 12499999999999942 22) (dec (-37499999999998645) 26);
  q4 (dec 575 0) (dec (-5949999999999999) 17) (dec (-1666666666666622) 22) (dec 666666666666635 24);
  q4 (dec 516 0) (dec (-57833333333333362) 18) (dec 87499999999998552 22) (dec (-29166666666665675) 25);
  q4 (dec 46399999999999994 14) (dec (-49083333333333326) 18) (dec 13888888888889743 22) (dec 69444444444438649 26);
  q4 (dec 417 0) (dec (-4422222222222217) 17) (dec 19444444444443461 22) (dec 2777777777778351 25);
  q4 (dec 375 0) (dec (-39500000000000007) 18) (dec 15000000000000223 22) (dec (-13877787807814456) 39);
  q4 (dec 337 0) (dec (-36499999999999998) 18) (dec 59999999999998949 23) (dec 90000000000001199 26);
  q4 (dec 302 0) (dec (-32600000000000004) 18) (dec 22000000000000111 22) (dec (-60000000000000341) 26);
  q4 (dec 271 0) (dec (-30000000000000002) 18) (dec 40000000000000104 23) (dec 59999999999999638 26);
  q4 (dec 242 0) (dec (-27400000000000004) 18) (dec 35499999999999978 22) (dec (-11499999999999983) 25);
  q4 (dec 217 0) (dec (-2375) 5) (dec 17926829268292665 22) (dec (-42682926829268336) 27);
  q4 (dec 195 0) (dec (-20292682926829269) 18) (dec 75405430280717681 23) (dec 48964565117351479 28);
  q4 (dec 11299999999999999 14) (dec (-12384905660377357) 18) (dec 54154305017714531 23) (dec 46876163796653884 28);
  q4 (dec 65200000000000003 15) (dec (-66179039301310031) 19) (dec 82542244030232522 24) (dec 23407708399193556 27);
  q4 (dec 37100000000000001 15) (dec (-40369033598891598) 19) (dec 41720606518851071 24) (dec 21132013091796147 27);
  q4 (dec 20599999999999998 15) (dec (-20347963128159383) 19) (dec 2423094654708739 23) (dec 3264868473450643 27);
  q4 (dec 59400000000000004 16) (dec (-5707168398389965) 19) (dec 15784734081678823 25) (dec 13193210575731758 28);
  q4 (dec 171 2) (dec (-14335105440368599) 20) (dec (-33736815097316727) 25) (dec 56687869501002706 29);
  q4 (dec 50600000000000001 17) (dec (-40761076095311298) 21) (dec (-59886099340887138) 26) (dec 11949686029400021 29);
  q4 (dec 158 3) (dec (-16889237875288684) 21) (dec (-1846524249422636) 25) (dec 6585762124711318 29);
  q4 (dec 36499999999999998 18) (dec (-82500000000000057) 23) (dec 0 0) (dec 0 0)].
(** L142-173 *)
Definition MarsHellasCold_akima_rho : list coefD := [
  q4 (dec 37400000000000003 18) (dec (-38179003277206568) 22) (dec 0 0) (dec 0 0);
  q4 (dec 37400000000000003 18) (dec (-38179003277206568) 22) (dec 43014820867692445 26) (dec (-21224788095627426) 29);
  q4 (dec 33799999999999997 18) (dec (-35943475532356294) 22) (dec 48157481927898832 26) (dec 51116292306877383 31);
  q4 (dec 31 3) (dec (-27300484847848326) 22) (dec 98162248429555271 22) (dec (-65432199944770254) 23);
  q4 (dec 31300000000000001 18) (dec (-27021514599850836) 22) (dec (-43580950434807453) 25) (dec 27680845056304063 27);
  q4 (dec 31 3) (dec (-27009343642235807) 22) (dec (-85272211150159399) 27) (dec 86206575373738831 30);
  q4 (dec 28299999999999999 18) (dec (-2612859060402683) 21) (dec 12571812080536825 26) (dec (-12859060402684177) 30);
  q4 (dec 258 4) (dec (-2399999999999999) 21) (dec 99999999999999047 27) (dec 0 0);
  q4 (dec 235 4) (dec (-2200000000000001) 21) (dec 99999999999999047 27) (dec 8470329472543003 43);
  q4 (dec 21399999999999999 18) (dec (-20000000000000003) 22) (dec 12000000000000245 26) (dec (-20000000000001079) 30);
  q4 (dec 195 4) (dec (-18199999999999989) 22) (dec 38999999999999731 26) (dec (-26999999999999829) 29);
  q4 (dec 178 4) (dec (-18499999999999997) 22) (dec (-39999999999999578) 26) (dec 24999999999999676 29);
  q4 (dec 15800000000000002 18) (dec (-19) 7) (dec (-25410988417629011) 40) (dec 10000000000000158 29);
  q4 (dec 14 3) (dec (-16000000000000008) 22) (dec 13478260869565438 26) (dec (-34782608695653425) 30);
  q4 (dec 12500000000000001 18) (dec (-14347826086956521) 22) (dec 12422360248446714 27) (dec 2236024844720523 29);
  q4 (dec 111 4) (dec (-1342857142857143) 21) (dec 10285714285714405 26) (dec (-42351647362715015) 44);
  q4 (dec 98600000000000007 19) (dec (-11371428571428572) 22) (dec 77142857142856347 27) (dec 42351647362715015 44);
  q4 (dec 88000000000000005 19) (dec (-98285714285714282) 23) (dec 2571428571428612 26) (dec 1714285714285692 29);
  q4 (dec 78600000000000007 19) (dec (-88000000000000036) 23) (dec 37894736842104965 27) (dec 21052631578948616 31);
  q4 (dec 70200000000000002 19) (dec (-79789473684210584) 23) (dec 50257558790594041 27) (dec (-12362821948488439) 30);
  q4 (dec 62599999999999999 19) (dec (-73446808510638297) 23) (dec 66246515040352716 27) (dec (-17784299339693639) 31);
  q4 (dec 55900000000000004 19) (dec (-60731034482758574) 23) (dec 30154517677869675 27) (dec (-45848974247051182) 32);
  q4 (dec 32499999999999999 19) (dec (-34015189873417734) 23) (dec 11376096916983848 27) (dec 61085656597032658 32);
  q4 (dec 191 5) (dec (-18057668711656441) 23) (dec 20204885112220213 28) (dec 65896978241817035 32);
  q4 (dec 114 5) (dec (-11094906832298136) 23) (dec 90831544532298663 29) (dec 52829964385465856 32);
  q4 (dec 67400000000000001 20) (dec (-62243440580652155) 24) (dec 6204846907546876 28) (dec 98385936731052729 33);
  q4 (dec 212 6) (dec (-20317965746242577) 24) (dec 19354429393318469 29) (dec 36925228069107324 33);
  q4 (dec 65099999999999997 21) (dec (-53695114468466899) 25) (dec (-9796109909735839) 29) (dec 18791224378202745 33);
  q4 (dec 20400000000000001 21) (dec (-16913661153330352) 25) (dec (-20781020567941195) 30) (dec 470176321012447 32);
  q4 (dec 61099999999999999 22) (dec (-69645756365451825) 26) (dec (-17584872690963486) 31) (dec 25004243634548189 34);
  q4 (dec 14699999999999999 22) (dec 18500000000000043 27) (dec 0 0) (dec 0 0)].
(** L175-206 *)
Definition MarsHellasCold_akima_dT : list coefD := [
  q4 (dec 0 0) (dec 0 0) (dec 0 0) (dec 0 0);
  q4 (dec 0 0) (dec 0 0) (dec 0 0) (dec 0 0);
  q4 (dec 0 0) (dec 0 0) (dec 0 0) (dec 0 0);
  q4 (dec 0 0) (dec 0 0) (dec (-40345711521595949) 21) (dec 26893787656413937 22);
  q4 (dec (-13451923865182014) 19) (dec (-10060073950092651) 23) (dec 52488316563783596 26) (dec 30070217963264856 31);
  q4 (dec (-13499641685844749) 19) (dec 98293486946443399 25) (dec 16738118059079421 27) (dec (-16730022390337878) 30);
  q4 (dec (-1340126724221089) 18) (dec (-68844823582104489) 25) (dec (-15850862620290436) 27) (dec 12862069199596313 30);
  q4 (dec (-13499999999999936) 19) (dec (-23868215254525477) 37) (dec 87474959702577495 41) (dec (-58111130529336055) 46);
  q4 (dec (-13499999999999951) 19) (dec (-65475567055979842) 38) (dec 17379828303060653 40) (dec (-86638672524916578) 44);
  q4 (dec (-13499999999999949) 19) (dec 22204981430483434 38) (dec 10029672532849077 27) (dec (-59523279126650248) 33);
  q4 (dec (-13400298507462722) 19) (dec 19880775228318428 24) (dec 99503280017822137 25) (dec (-66401789262642485) 28);
  q4 (dec 19900000000000109 19) (dec 52093798077336478 40) (dec (-52145891875458887) 40) (dec 34746563317613474 43);
  q4 (dec 19900000000000091 19) (dec 0 0) (dec 0 0) (dec 0 0);
  q4 (dec 19900000000000091 19) (dec 0 0) (dec 0 0) (dec 0 0);
  q4 (dec 19900000000000091 19) (dec 0 0) (dec (-53776427755205673) 39) (dec 26888213877565164 42);
  q4 (dec 19899999999999822 19) (dec (-26888213877715856) 36) (dec (-39225112027877661) 37) (dec 27623318350912808 42);
  q4 (dec 19899999999960605 19) (dec (-77890406644005049) 34) (dec (-41697841726345213) 25) (dec 27798561150922867 28);
  q4 (dec 60007194244603699 20) (dec 28487568151163033 36) (dec 29784172661647365 27) (dec (-19856115107755366) 30);
  q4 (dec 60999999999995747 20) (dec 57111310607809997 36) (dec 56647641167796172 39) (dec (-57055178154614302) 42);
  q4 (dec 61000000000001418 20) (dec (-75894152044052298) 38) (dec (-58334668879895352) 50) (dec 28401655035641265 53);
  q4 (dec 61000000000001342 20) (dec (-7589415207551668) 37) (dec 18726570784445877 38) (dec (-23898215147200204) 41);
  q4 (dec 60999999999996094 20) (dec (-34317398024784349) 35) (dec (-83642762977552302) 27) (dec 89662168291012 28);
  q4 (dec (-36029197080291212) 20) (dec (-16396136759327615) 23) (dec 74458809186936426 29) (dec 28151921547934162 33);
  q4 (dec (-11579651162790671) 19) (dec (-15440409255848749) 23) (dec (-40799714063101724) 28) (dec 17524746585149086 31);
  q4 (dec (-18129255319148953) 19) (dec (-6376820723297112) 23) (dec 30332323241143179 27) (dec (-24537730041534721) 31);
  q4 (dec (-16801801125703555) 19) (dec 5552204986695027 23) (dec 56176025251818259 28) (dec (-46801225687459401) 32);
  q4 (dec (-10312116182572642) 19) (dec 27470423308208608 24) (dec (-38162690072567982) 28) (dec 246134285900857 30);
  q4 (dec (-89200000000000087) 20) (dec 24985328933329753 24) (dec 49204896055852765 29) (dec (-21018483155895928) 33);
  q4 (dec (-61396029776674657) 20) (dec 28520763197731515 24) (dec 36852300031230552 28) (dec (-24582830553736682) 32);
  q4 (dec (-20605797101449287) 20) (dec 28476871598982558 24) (dec (-33182493120817819) 27) (dec 10650385671064516 31);
  q4 (dec (-21744999999999976) 19) (dec (-31566142068543841) 23) (dec 0 0) (dec 0 0)].
Definition MarsHellasCold_D : tableD := {| t_alt := MarsHellasCold_alt; t_T := MarsHellasCold_akima_T; t_P := MarsHellasCold_akima_P; t_rho := MarsHellasCold_akima_rho; t_dT := MarsHellasCold_akima_dT |}.
Definition MarsHellasCold : tableQ := tableQ_of MarsHellasCold_D.

(** MarsHellasHot.py *)
(** L71-74 *)
Definition MarsHellasHot_alt : list decimal := [dec (-8000) 0; dec (-7000) 0; dec (-61151) 1; dec (-61051) 1; dec (-6000) 0; dec (-5000) 0; dec (-4000) 0; dec (-3000) 0; dec (-2000) 0; dec (-1000) 0; dec 0 0; dec 1000 0; dec 2000 0; dec 3000 0; dec 4000 0; dec 5000 0; dec 6000 0; dec 7000 0; dec 8000 0; dec 9000 0; dec 10000 0; dec 15000 0; dec 20000 0; dec 25000 0; dec 30000 0; dec 40000 0; dec 50000 0; dec 60000 0; dec 70000 0; dec 80000 0].
(** L76-107 *)
Definition MarsHellasHot_akima_T : list coefD := [
  q4 (dec 28249000000000001 14) (dec 0 0) (dec 0 0) (dec 0 0);
  q4 (dec 28249000000000001 14) (dec 0 0) (dec 0 0) (dec 0 0);
  q4 (dec 28249000000000001 14) (dec 0 0) (dec 0 0) (dec 0 0);
  q4 (dec 28249000000000001 14) (dec 0 0) (dec (-63687080318200362) 17) (dec 42427080318200382 18);
  q4 (dec 26123000000000002 14) (dec (-92919681799605996) 19) (dec 33942979892330019 21) (dec 14224392126628734 25);
  q4 (dec 26063 2) (dec (-21100169732904041) 19) (dec (-99660534192669822) 25) (dec 99830267096569231 28);
  q4 (dec 25851999999999998 14) (dec (-2099999999999966) 18) (dec 28622937353617318 36) (dec (-28622937353617319) 39);
  q4 (dec 25642000000000002 14) (dec (-20999999999999942) 19) (dec 0 0) (dec (-28622937353617319) 39);
  q4 (dec 25431999999999999 14) (dec (-21000000000000801) 19) (dec (-29999999999772397) 24) (dec 19999999999867346 27);
  q4 (dec 25221000000000001 14) (dec (-21000000000000229) 19) (dec 58113236445223041 36) (dec (-29490299091605726) 39);
  q4 (dec 25011000000000001 14) (dec (-20999999999999951) 19) (dec (-16562737642593146) 23) (dec 16562737642590412 26);
  q4 (dec 24800999999999999 14) (dec (-19343726235741469) 19) (dec 32874524714835765 23) (dec (-16437262357419302) 26);
  q4 (dec 24624000000000001 14) (dec (-17700000000000096) 19) (dec (-29707139526102824) 36) (dec 2905661822261152 38);
  q4 (dec 24447 2) (dec (-17699999999999819) 19) (dec 24999999999991393 24) (dec (-15000000000000691) 27);
  q4 (dec 24271000000000001 14) (dec (-17650000000000007) 19) (dec (-10112359550581203) 24) (dec 51123595505714323 28);
  q4 (dec 24094 2) (dec (-17698876404494482) 19) (dec 4597752808989308 22) (dec (-44988764044947378) 26);
  q4 (dec 23918000000000001 14) (dec (-22000000000000075) 19) (dec (-89000000000003447) 23) (dec 45000000000002678 26);
  q4 (dec 23653999999999999 14) (dec (-26299999999999956) 19) (dec (-43368086899420178) 38) (dec 0 0);
  q4 (dec 23391 2) (dec (-26299999999999956) 19) (dec (-43368086899420178) 38) (dec 0 0);
  q4 (dec 23128 2) (dec (-26299999999999956) 19) (dec (-43368086899420178) 38) (dec 0 0);
  q4 (dec 22865000000000001 14) (dec (-26299999999999956) 19) (dec (-43368086899420178) 38) (dec 0 0);
  q4 (dec 22602000000000001 14) (dec (-26299999999999956) 19) (dec 2290909090909078 22) (dec (-22618181818181742) 27);
  q4 (dec 21577000000000001 14) (dec (-20354545454545486) 19) (dec (-13926499032881901) 25) (dec 33671179883943558 29);
  q4 (dec 20559999999999999 14) (dec (-2024127659574472) 18) (dec 75004144791395066 25) (dec 42502348715101756 29);
  q4 (dec 19572 2) (dec (-19172467532467511) 19) (dec 94950649350630455 25) (dec (-11291428571426345) 28);
  q4 (dec 18622999999999999 14) (dec (-19069818181818186) 19) (dec (-211502450379777) 23) (dec 11132063219797523 29);
  q4 (dec 16706 2) (dec (-19158861185983817) 19) (dec 7227575007732546 24) (dec 13610368521055524 29);
  q4 (dec 14875999999999999 14) (dec (-1730503512880565) 18) (dec 2284095937360522 22) (dec (-91859242447995483) 28);
  q4 (dec 14511000000000001 14) (dec 81911088400614895 21) (dec 22968421108737606 23) (dec (-15497531992743763) 27);
  q4 (dec 15340000000000001 14) (dec 26335712325007418 21) (dec (-20681714246500185) 23) (dec 42183571232500915 28);
  q4 (dec 13719999999999999 14) (dec (-2844500000000002) 18) (dec 0 0) (dec 0 0)].
(** L109-140 *)
Definition MarsHellasHot_akima_P : list coefD := [
  q4 (dec 1080 0) (dec (-84577579387501475) 18) (dec 0 0) (dec 0 0);
  q4 (dec 1080 0) (dec (-84577579387501475) 18) (dec 42164316855407285 22) (dec (-16388522980392563) 25);
  q4 (dec 998 0) (dec (-81061272910537774) 18) (dec 13028781238019198 21) (dec (-93388103137922234) 25);
  q4 (dec 93000000000000011 14) (dec (-79941146371438856) 18) (dec (-68184981344169967) 19) (dec 4812612771558609 19);
  q4 (dec 92899999999999989 14) (dec (-71932725913020537) 18) (dec 13688043466870826 20) (dec (-81990173691046759) 23);
  q4 (dec 92200000000000011 14) (dec (-70330386900449363) 18) (dec (-41466381067573332) 22) (dec 34770250072065911 25);
  q4 (dec 851 0) (dec (-68192588092344297) 18) (dec 36579034574158317 22) (dec (-46531536507155028) 26);
  q4 (dec 786 0) (dec (-62272727272727244) 18) (dec 17676767676767166 22) (dec 50505050505053609 26);
  q4 (dec 726 0) (dec (-57222222222222223) 18) (dec 22222222222222157 22) (dec 0 0);
  q4 (dec 671 0) (dec (-52777777777777785) 18) (dec 35555555555554648 23) (dec 14222222222222137 25);
  q4 (dec 620 0) (dec (-47800000000000002) 18) (dec 10999999999999829 22) (dec (-29999999999999478) 26);
  q4 (dec 573 0) (dec (-46499999999999993) 18) (dec 1999999999999988 22) (dec 29999999999998082 26);
  q4 (dec 527 0) (dec (-45200000000000025) 18) (dec 41142857142855841 22) (dec (-9142857142856037) 25);
  q4 (dec 48499999999999994 14) (dec (-39714285714285702) 18) (dec 1428571428571543 21) (dec 28571428571422253 26);
  q4 (dec 447 0) (dec (-35999999999999963) 18) (dec 79999999999992574 23) (dec 20000000000003351 26);
  q4 (dec 412 0) (dec (-33800000000000011) 18) (dec 80000000000001595 23) (dec 0 0);
  q4 (dec 379 0) (dec (-32199999999999999) 18) (dec 89999999999999805 23) (dec 3000000000000017 25);
  q4 (dec 348 0) (dec (-29499999999999998) 18) (dec 17999999999999891 22) (dec (-29999999999999478) 26);
  q4 (dec 320 0) (dec (-26800000000000001) 18) (dec 59999999999999288 23) (dec 19999999999999879 26);
  q4 (dec 294 0) (dec (-24999999999999998) 18) (dec 13333333333333218 22) (dec (-33333333333333136) 26);
  q4 (dec 270 0) (dec (-23333333333333334) 18) (dec 16814449917898141 22) (dec (-34811165845648201) 26);
  q4 (dec 248 0) (dec (-21014778325123152) 18) (dec 61173657276770683 23) (dec (-17561815486152879) 28);
  q4 (dec 158 0) (dec (-15029126213592236) 18) (dec 67783882624406843 23) (dec (-96027167051243587) 28);
  q4 (dec 98599999999999994 15) (dec (-89709417040358744) 19) (dec 17798862191285796 23) (dec 17639943778863522 27);
  q4 (dec 60399999999999999 15) (dec (-58680597014925369) 19) (dec 93950734581353407 24) (dec 22332241143430759 27);
  q4 (dec 36199999999999996 15) (dec (-32536342699216948) 19) (dec 49493443617881515 24) (dec 37869983374288093 28);
  q4 (dec 124 1) (dec (-11276658963354242) 19) (dec 70813188289255479 25) (dec 21885270804616867 28);
  q4 (dec 40199999999999996 16) (dec (-32948139561840735) 20) (dec (-47732003460889818) 25) (dec 10821339907929713 28);
  q4 (dec 13299999999999998 16) (dec (-10030520530229548) 20) (dec (-96309627859669335) 26) (dec 24336168088262457 29);
  q4 (dec 47400000000000003 17) (dec (-46558626609442065) 21) (dec (-36827467811158784) 26) (dec 14241373390557935 29);
  q4 (dec 11399999999999999 17) (dec (-11200000000000015) 21) (dec 0 0) (dec 0 0)].
(** L142-173 *)
Definition MarsHellasHot_akima_rho : list coefD := [
  q4 (dec 20299999999999999 18) (dec (-16654537235845801) 22) (dec 0 0) (dec 0 0);
  q4 (dec 20299999999999999 18) (dec (-16654537235845801) 22) (dec 13078642485472821 26) (dec (-65332701270145465) 30);
  q4 (dec 18700000000000001 18) (dec (-15998789776855599) 22) (dec 14725571473692364 26) (dec 61278858754053907 32);
  q4 (dec 17399999999999999 18) (dec (-13378262850920796) 22) (dec 42328073073981191 21) (dec (-28194290445471968) 22);
  q4 (dec 18800000000000001 18) (dec (-60507816962713551) 23) (dec (-32779743986472145) 25) (dec (-17033363116685403) 29);
  q4 (dec 18700000000000001 18) (dec (-12997529092023979) 22) (dec (-78198890971537631) 27) (dec 77951800173933129 30);
  q4 (dec 17399999999999999 18) (dec (-12222952906236742) 22) (dec (-54094187526532015) 28) (dec 27704709376327634 30);
  q4 (dec 16199999999999999 18) (dec (-11499999999999979) 22) (dec 27528570785764763 40) (dec 49999999999996556 30);
  q4 (dec 15100000000000001 18) (dec (-10000000000000029) 22) (dec 27528570785764763 40) (dec (-8470329472543003) 43);
  q4 (dec 141 4) (dec (-99999999999999995) 23) (dec (-49999999999998251) 27) (dec 49999999999999099 30);
  q4 (dec 13100000000000001 18) (dec (-94999999999999937) 23) (dec 10000000000000021 26) (dec (-50000000000000582) 30);
  q4 (dec 12200000000000001 18) (dec (-90000000000000059) 23) (dec (-55057141571529527) 40) (dec 46586812098986517 43);
  q4 (dec 11299999999999999 18) (dec (-89999999999999805) 23) (dec 16428571428571418 26) (dec (-64285714285714829) 30);
  q4 (dec 10500000000000001 18) (dec (-76428571428571405) 23) (dec 10389610389608941 27) (dec 38961038961041343 31);
  q4 (dec 975 5) (dec (-73181818181818302) 23) (dec 16969696969697806 27) (dec 48484848484848153 31);
  q4 (dec 90399999999999994 19) (dec (-68333333333333339) 23) (dec 36666666666667555 27) (dec (-33333333333336543) 31);
  q4 (dec 83899999999999999 19) (dec (-61999999999999946) 23) (dec 19999999999999068 27) (dec 42351647362715015 44);
  q4 (dec 779 5) (dec (-57999999999999985) 23) (dec 11428571428571562 27) (dec 85714285714286713 31);
  q4 (dec 72300000000000003 19) (dec (-53142857142857114) 23) (dec 26190476190475719 27) (dec (-47619047619044643) 31);
  q4 (dec 67200000000000003 19) (dec (-49333333333333362) 23) (dec 12380952380952455 27) (dec 95238095238089298 32);
  q4 (dec 62399999999999999 19) (dec (-46571428571428625) 23) (dec 3792857142857175 26) (dec (-12214285714285846) 30);
  q4 (dec 57999999999999996 19) (dec (-42650000000000017) 23) (dec 6808695652173973 27) (dec 25826086956521066 32);
  q4 (dec 38700000000000002 19) (dec (-33904347826086927) 23) (dec 18140468227424647 27) (dec (-70635451505015627) 32);
  q4 (dec 25400000000000002 19) (dec (-21061538461538471) 23) (dec 40220626130818592 28) (dec 34020286199901383 32);
  q4 (dec 16299999999999999 19) (dec (-14487954383464003) 23) (dec 30191462329622838 28) (dec 39135250679314649 32);
  q4 (dec 10300000000000001 19) (dec (-85336643495531248) 24) (dec 12948861103797355 28) (dec 86877823917338997 33);
  q4 (dec 39300000000000001 20) (dec (-33375574112734874) 24) (dec 33602937528395658 29) (dec 50152803598953055 33);
  q4 (dec 14300000000000001 20) (dec (-11609145527369828) 24) (dec (-12165900130830618) 29) (dec 33757355404528878 33);
  q4 (dec 485 7) (dec (-39151189321772874) 25) (dec (-93404028359207714) 31) (dec 79852296053649478 34);
  q4 (dec 16399999999999999 21) (dec (-17063581072862183) 25) (dec (-35783785427563934) 31) (dec 51314189271378203 34);
  q4 (dec 41099999999999996 22) (dec (-23849999999999975) 26) (dec 0 0) (dec 0 0)].
(** L175-206 *)
Definition MarsHellasHot_akima_dT : list coefD := [
  q4 (dec 0 0) (dec 0 0) (dec 0 0) (dec 0 0);
  q4 (dec 0 0) (dec 0 0) (dec 0 0) (dec 0 0);
  q4 (dec 0 0) (dec 0 0) (dec 0 0) (dec 0 0);
  q4 (dec 0 0) (dec 0 0) (dec (-27875997848561188) 20) (dec 18584029668602607 21);
  q4 (dec (-92919681799585874) 19) (dec 93308685428591479 25) (dec 19502759258214589 22) (dec (-12370881051527602) 24);
  q4 (dec (-21100169732904059) 19) (dec 10703064258756052 24) (dec 8644791353830824 27) (dec (-93308823221483399) 31);
  q4 (dec (-20999999999999673) 19) (dec (-27313374826746193) 36) (dec 58096196604618242 39) (dec (-58104716524506756) 42);
  q4 (dec (-20999999999999947) 19) (dec (-85435131191029988) 36) (dec (-94649776192142535) 39) (dec 94649776191314786 42);
  q4 (dec (-21000000000000801) 19) (dec 92146449986292779 37) (dec 96062459417236126 39) (dec (-48031229708630764) 42);
  q4 (dec (-21000000000000229) 19) (dec 57245874707209239 36) (dec (-39517000781731428) 37) (dec 39222097790815618 40);
  q4 (dec (-20999999999999951) 19) (dec 39204750556056103 34) (dec 33188451473141001 26) (dec (-16625713830948118) 29);
  q4 (dec (-19343726235741458) 19) (dec 16499761453829691 23) (dec 31724465354339262 27) (dec (-32349456318500993) 30);
  q4 (dec (-17700000000000107) 19) (dec 13139817629147232 23) (dec (-2675126493385927) 25) (dec 13611447304714923 29);
  q4 (dec (-17699999999999819) 19) (dec 4716296755734572 24) (dec 68231899828475981 29) (dec (-39861575403861825) 32);
  q4 (dec (-17650000000000012) 19) (dec 48850874901882385 25) (dec 4009014573888516 25) (dec (-41067418532848752) 29);
  q4 (dec (-17698876404494488) 19) (dec (-42533455371757106) 23) (dec (-96114777527047672) 28) (dec 48336719197167389 31);
  q4 (dec (-22000000000000079) 19) (dec (-43005649346383038) 23) (dec (-42988701307064345) 26) (dec 4299435065344857 28);
  q4 (dec (-26299999999999961) 19) (dec (-16601303663675384) 34) (dec 33189596901280941 37) (dec (-16592630046295501) 40);
  q4 (dec (-26299999999999965) 19) (dec 0 0) (dec 0 0) (dec 0 0);
  q4 (dec (-26299999999999965) 19) (dec 0 0) (dec 0 0) (dec 0 0);
  q4 (dec (-26299999999999965) 19) (dec 0 0) (dec 0 0) (dec 0 0);
  q4 (dec (-26299999999999965) 19) (dec 0 0) (dec 6766218514227207 26) (dec (-87760733920908317) 31);
  q4 (dec (-20354545454545486) 19) (dec 1841634701590838 23) (dec (-97393551412179667) 28) (dec 13018322346478646 31);
  q4 (dec (-20241276595744729) 19) (dec 18660213202318536 24) (dec 44352407380079293 28) (dec (-77840942507254924) 32);
  q4 (dec (-19172467532467506) 19) (dec 46319137019566349 25) (dec (-73803027253497784) 29) (dec 44448986948189748 33);
  q4 (dec (-19069818181818182) 19) (dec 58528499772108827 26) (dec (-32966634464563603) 29) (dec 1820948407078945 32);
  q4 (dec (-19158861185983814) 19) (dec (-54519667395479765) 26) (dec 22838661766042807 28) (dec (-37552045203062821) 33);
  q4 (dec (-17305035128805642) 19) (dec 33866513297211965 24) (dec 3631668107292876 26) (dec (-2157918638983817) 30);
  q4 (dec 81911088400614569 21) (dec 11282454306064218 23) (dec (-12447295886778223) 27) (dec 6090878199579261 32);
  q4 (dec 26335712325006744 21) (dec (-11784874007618448) 23) (dec (-19770664550016279) 27) (dec 28471814343846311 32);
  q4 (dec (-2844500000000002) 18) (dec (-42784658804497096) 23) (dec 0 0) (dec 0 0)].
Definition MarsHellasHot_D : tableD := {| t_alt := MarsHellasHot_alt; t_T := MarsHellasHot_akima_T; t_P := MarsHellasHot_akima_P; t_rho := MarsHellasHot_akima_rho; t_dT := MarsHellasHot_akima_dT |}.
Definition MarsHellasHot : tableQ := tableQ_of MarsHellasHot_D.

(** MarsPolarCold.py *)
(** L68-71 *)
Definition MarsPolarCold_alt : list decimal := [dec (-8000) 0; dec (-5000) 0; dec (-2000) 0; dec (-1955) 0; dec (-1945) 0; dec (-1000) 0; dec 0 0; dec 1000 0; dec 2000 0; dec 3000 0; dec 4000 0; dec 5000 0; dec 6000 0; dec 7000 0; dec 8000 0; dec 9000 0; dec 10000 0; dec 15000 0; dec 20000 0; dec 25000 0; dec 30000 0; dec 40000 0; dec 50000 0; dec 60000 0; dec 70000 0; dec 80000 0].
(** L73-100 *)
Definition MarsPolarCold_akima_T : list coefD := [
  q4 (dec 14752000000000001 14) (dec 0 0) (dec 0 0) (dec 0 0);
  q4 (dec 14752000000000001 14) (dec 0 0) (dec 0 0) (dec 0 0);
  q4 (dec 14752000000000001 14) (dec 0 0) (dec 0 0) (dec 0 0);
  q4 (dec 14752000000000001 14) (dec 0 0) (dec 0 0) (dec 0 0);
  q4 (dec 14752000000000001 14) (dec 0 0) (dec 50873232193362162 19) (dec (-33873232193363417) 20);
  q4 (dec 14769 2) (dec 12676780663408333 20) (dec (-51574345539216945) 23) (dec 91979387268365929 29);
  q4 (dec 14734999999999999 14) (dec (-8455231272876568) 19) (dec 15104625457531238 23) (dec (-15552312728764968) 26);
  q4 (dec 1465 1) (dec (-10099999999999816) 19) (dec 97578195523695395 37) (dec (-19081958235744878) 39);
  q4 (dec 14549000000000001 14) (dec (-10100000000000193) 19) (dec (-28189256484623116) 36) (dec 28189256484623119 39);
  q4 (dec 14447999999999999 14) (dec (-10099999999999909) 19) (dec 0 0) (dec 0 0);
  q4 (dec 14347 2) (dec (-10099999999999909) 19) (dec 0 0) (dec 0 0);
  q4 (dec 14246000000000001 14) (dec (-10099999999999909) 19) (dec (-10480000000007476) 23) (dec 10480000000004657 26);
  q4 (dec 14144999999999999 14) (dec (-90500000000000118) 20) (dec 21000000000006345 23) (dec (-10500000000004516) 26);
  q4 (dec 14065000000000001 14) (dec (-80000000000001012) 20) (dec 26129272356900656 36) (dec (-27321894746634712) 39);
  q4 (dec 13984999999999999 14) (dec (-80000000000003994) 20) (dec (-24999999999927207) 24) (dec 14999999999965129 27);
  q4 (dec 13903999999999999 14) (dec (-80499999999999962) 20) (dec 10666666666702308 24) (dec (-56666666666857062) 28);
  q4 (dec 13824000000000001 14) (dec (-80066666666665201) 20) (dec (-22331588132676024) 24) (dec 12998254799325913 27);
  q4 (dec 13743000000000001 14) (dec (-80633507853402676) 20) (dec 40792606611500137 24) (dec (-27051181809389232) 28);
  q4 (dec 13408000000000001 14) (dec (-60129287598944398) 20) (dec 51439946748360754 24) (dec 18437256899055339 28);
  q4 (dec 13259 2) (dec 51386018237078716 21) (dec 76919167834701602 24) (dec (-46392742964235149) 28);
  q4 (dec 13419 2) (dec 47263212435233129 20) (dec 19552839536966837 24) (dec 14241471185133959 28);
  q4 (dec 13722 2) (dec 77497155361050418 20) (dec 91472491721891169 24) (dec (-54369647082941523) 28);
  q4 (dec 14868000000000001 14) (dec 97333197556008228 20) (dec (-28442305476161995) 24) (dec (-1709089207984617) 27);
  q4 (dec 15386000000000001 14) (dec (-10824089635854264) 20) (dec (-99116807465691913) 24) (dec 19340897101546135 28);
  q4 (dec 14480000000000001 14) (dec (-15103501326259967) 19) (dec (-98833438158002932) 25) (dec (-96816429216002158) 29);
  q4 (dec 12773999999999999 14) (dec (-19984662965900095) 19) (dec (-1065674068199819) 23) (dec (-61966296590008734) 29);
  q4 (dec 10606999999999999 14) (dec (-2397499999999999) 18) (dec 0 0) (dec 0 0)].
(** L102-129 *)
Definition MarsPolarCold_akima_P : list coefD := [
  q4 (dec 1620 0) (dec (-23666666666666675) 17) (dec 0 0) (dec 0 0);
  q4 (dec 1620 0) (dec (-23666666666666675) 17) (dec 83111111111111215 22) (dec 13037037037037081 25);
  q4 (dec 10199999999999999 13) (dec (-15159999999999996) 17) (dec 5686549707602346 21) (dec 87485380116958376 26);
  q4 (dec 640 0) (dec (-93859649122807018) 18) (dec 42496931629485243 20) (dec (-69890661725186334) 22);
  q4 (dec 636 0) (dec (-98070987654320985) 18) (dec (-75057959031476498) 20) (dec 55767835574686011 21);
  q4 (dec 635 0) (dec (-96352228788210426) 18) (dec 35735859373389907 22) (dec 10209098445541951 25);
  q4 (dec 548 0) (dec (-86863057324840703) 18) (dec 86210786784586551 22) (dec (-7580213536178826) 25);
  q4 (dec 46900000000000006 14) (dec (-7189496402877707) 17) (dec 4647070914696683 21) (dec 24789311408027202 26);
  q4 (dec 40199999999999994 14) (dec (-61857142857142888) 18) (dec 23142857142858728 22) (dec 15428571428570542 25);
  q4 (dec 344 0) (dec (-52599999999999932) 18) (dec 38249999999998567 22) (dec (-22499999999994747) 26);
  q4 (dec 295 0) (dec (-45625000000000013) 18) (dec 14318181818182078 22) (dec 11931818181818016 25);
  q4 (dec 252 0) (dec (-39181818181818186) 18) (dec 34469696969696985 22) (dec (-26515151515152381) 26);
  q4 (dec 216 0) (dec (-33083333333333333) 18) (dec 13888888888888875 22) (dec 69444444444444201 26);
  q4 (dec 185 0) (dec (-28222222222222225) 18) (dec 15873015873015782 22) (dec 63492063492064107 26);
  q4 (dec 159 0) (dec (-23142857142857142) 18) (dec 12857142857142824 22) (dec (-14285714285714598) 26);
  q4 (dec 137 0) (dec (-21000000000000001) 18) (dec 89196675900277478 23) (dec 10803324099722956 26);
  q4 (dec 117 0) (dec (-1889196675900277) 17) (dec 36445892557104598 22) (dec (-75262249670769026) 26);
  q4 (dec 101 0) (dec (-13860655737704921) 18) (dec 47298956780923947 23) (dec 28628315946348793 27);
  q4 (dec 47099999999999994 15) (dec (-69836363636363629) 19) (dec 34187211533475105 23) (dec 10171031478504387 27);
  q4 (dec 22 0) (dec (-28020878494010265) 19) (dec (-64221546692975339) 25) (dec 2056794490990055 26);
  q4 (dec 104 1) (dec (-13237135278514594) 19) (dec (-10702738358048942) 24) (dec 12369088785668168 27);
  q4 (dec 50599999999999996 16) (dec (-50305925250683677) 20) (dec (-33793179181115781) 26) (dec 13143857042494838 28);
  q4 (dec 13100000000000001 16) (dec (-11550217706821481) 20) (dec (-12817662070593467) 25) (dec 37119839138808255 29);
  q4 (dec 39800000000000002 17) (dec (-29777983792976957) 21) (dec (-7408055662173023) 25) (dec 10886039455149982 29);
  q4 (dec 13500000000000001 17) (dec (-11935976751873071) 21) (dec (-17973811753690056) 26) (dec 35033579272420785 30);
  q4 (dec 327 4) (dec (-50206653208848509) 22) (dec 11433306417697021 26) (dec 13553346791151492 30);
  q4 (dec 74800000000000005 19) (dec 13319999999999997 22) (dec 0 0) (dec 0 0)].
(** L131-158 *)
Definition MarsPolarCold_akima_rho : list coefD := [
  q4 (dec 58299999999999998 18) (dec (-85833333333333313) 22) (dec 0 0) (dec 0 0);
  q4 (dec 58299999999999998 18) (dec (-85833333333333313) 22) (dec 28685258964150987 27) (dec 14043824701194926 29);
  q4 (dec 36600000000000001 18) (dec (-46193891102257892) 22) (dec 47680073782944047 27) (dec (-63316049395974976) 31);
  q4 (dec 23 3) (dec (-45042620008972557) 22) (dec 42456976988487251 25) (dec (-64809303701409389) 27);
  q4 (dec 22800000000000001 18) (dec (-4515865727986935) 21) (dec (-17256473042285722) 22) (dec 11772338770272715 23);
  q4 (dec 22700000000000001 18) (dec (-37117955017402308) 22) (dec 65583455907922788 26) (dec (-92462507984454954) 30);
  q4 (dec 19699999999999999 18) (dec (-27199821786589418) 22) (dec (-12283056101241806) 26) (dec 14281273967136285 29);
  q4 (dec 17000000000000001 18) (dec (-25372050816696902) 22) (dec 74410163339378365 27) (dec 62794918330310716 30);
  q4 (dec 146 4) (dec (-22000000000000018) 22) (dec 18947368421052972 26) (dec 10526315789471979 30);
  q4 (dec 126 4) (dec (-17894736842105262) 22) (dec 84502923976608147 27) (dec 4970760233918076 30);
  q4 (dec 109 4) (dec (-16055555555555559) 22) (dec 34539682539682812 27) (dec 41015873015873393 30);
  q4 (dec 93699999999999999 19) (dec (-1413428571428571) 21) (dec 13885714285714401 26) (dec (-15428571428572711) 30);
  q4 (dec 80800000000000004 19) (dec (-11820000000000005) 22) (dec 47999999999998736 27) (dec 24000000000000958 30);
  q4 (dec 69699999999999996 19) (dec (-10140000000000002) 22) (dec 59428571428572516 27) (dec 4571428571428159 30);
  q4 (dec 60200000000000002 19) (dec (-88142857142857075) 23) (dec 37402597402597038 27) (dec 14025974025973823 30);
  q4 (dec 51900000000000002 19) (dec (-76454545454545542) 23) (dec 72505543237250893 27) (dec (-17960088691795881) 30);
  q4 (dec 44799999999999996 19) (dec (-67341463414634169) 23) (dec 58810955670054945 27) (dec 46036784762873967 31);
  q4 (dec 38700000000000002 19) (dec (-54198168737736993) 23) (dec 28428991757129593 27) (dec (-86530856331117955) 33);
  q4 (dec 18600000000000001 19) (dec (-26418158403090808) 23) (dec 10709354923838631 27) (dec 57739237646859609 32);
  q4 (dec 87900000000000001 20) (dec (-11378360655737707) 23) (dec 17631372863194715 29) (dec 77208151656869304 32);
  q4 (dec 41100000000000002 20) (dec (-54114355528405624) 24) (dec (-24876626321401991) 29) (dec 48632747377902951 32);
  q4 (dec 195 6) (dec (-20127457627118649) 24) (dec (-69415815206698818) 31) (dec 53568734423253457 33);
  q4 (dec 46600000000000001 21) (dec (-41956689305560075) 25) (dec (-49789654107540763) 30) (dec 14035654716314151 33);
  q4 (dec 13699999999999999 21) (dec (-9807655978125777) 25) (dec (-26133701852684723) 30) (dec 36510261633942514 34);
  q4 (dec 49300000000000002 22) (dec (-40813178584799698) 26) (dec (-72068474636052549) 31) (dec 12220026048404943 34);
  q4 (dec 135 8) (dec (-18566795366795371) 26) (dec 42335907335907403 31) (dec 43332046332046328 35);
  q4 (dec 34999999999999998 23) (dec 29000000000000023 27) (dec 0 0) (dec 0 0)].
(** L160-187 *)
Definition MarsPolarCold_akima_dT : list coefD := [
  q4 (dec 0 0) (dec 0 0) (dec 0 0) (dec 0 0);
  q4 (dec 0 0) (dec 0 0) (dec 0 0) (dec 0 0);
  q4 (dec 0 0) (dec 0 0) (dec 0 0) (dec 0 0);
  q4 (dec 0 0) (dec 0 0) (dec 0 0) (dec 0 0);
  q4 (dec 0 0) (dec 0 0) (dec 38184319469620128 22) (dec (-25507538806211555) 23);
  q4 (dec 12676780663408577 20) (dec (-15397747939439984) 23) (dec (-2755508647101417) 24) (dec 19361763172922994 28);
  q4 (dec (-84552312728765713) 20) (dec (-17472725516621206) 23) (dec (-14397610780449631) 26) (dec 15422649025838454 29);
  q4 (dec (-1009999999999981) 18) (dec (-51047574275560073) 36) (dec (-41236378651452203) 39) (dec 53903196021025436 42);
  q4 (dec (-10100000000000193) 19) (dec 28189256484611795 36) (dec 27881596517518376 39) (dec (-27881596517507057) 42);
  q4 (dec (-10099999999999912) 19) (dec 30765996712738016 38) (dec (-18163906526050065) 41) (dec 90819532630221427 45);
  q4 (dec (-10099999999999909) 19) (dec 21684043449704301 38) (dec (-57245874707090746) 39) (dec 5702903427259371 41);
  q4 (dec (-10099999999999909) 19) (dec 56812193838096664 36) (dec 20940038095224738 26) (dec (-10460038095231398) 29);
  q4 (dec (-90520000000000075) 20) (dec 1049996190476096 22) (dec 81933544974730898 28) (dec (-79929735450917409) 31);
  q4 (dec (-8000000000000098) 19) (dec 97407407407280811 24) (dec (-1902222653385506) 25) (dec 92814857931239747 30);
  q4 (dec (-80000000000003983) 20) (dec (-4592549476101128) 24) (dec (-39256502333404905) 28) (dec 35181997094824799 31);
  q4 (dec (-80499999999999897) 20) (dec (-18892508143346704) 25) (dec 14111822684925768 27) (dec (-78892385372442515) 31);
  q4 (dec (-80066666666665212) 20) (dec 26666789437841135 25) (dec (-21360770218616372) 27) (dec 13025679407458056 30);
  q4 (dec (-80633507853402633) 20) (dec (-97782327107446846) 26) (dec 7804184792833301 27) (dec 11861359263297181 32);
  q4 (dec (-60129287598944463) 20) (dec 85960044104731439 24) (dec 25144671814658434 27) (dec (-32459049733087584) 31);
  q4 (dec 51386018237078567 21) (dec 93963889253158932 24) (dec (-13530177030636994) 28) (dec (-11798318059159614) 32);
  q4 (dec 47263212435233112 20) (dec 71584973678152177 24) (dec (-31735270955702407) 28) (dec 19002190605334694 32);
  q4 (dec 77497155361050439 20) (dec 54101345676450812 24) (dec 30188268743052704 29) (dec (-37284130355798359) 32);
  q4 (dec 97333197556008163 20) (dec (-51713391642333714) 24) (dec (-94187748520078826) 28) (dec 37743852970550086 32);
  q4 (dec (-10824089635854274) 20) (dec (-12685732977084107) 23) (dec (-98229295248161593) 28) (dec 84875701392257235 32);
  q4 (dec (-15103501326259969) 19) (dec (-68688816090392545) 24) (dec 31637288647759847 28) (dec (-11760088953768517) 32);
  q4 (dec (-1998466296590009) 18) (dec (-40694505656178404) 24) (dec (-28718523973423684) 29) (dec 36629877125217238 33);
  q4 (dec (-23974999999999995) 19) (dec (-35449247313297964) 24) (dec 0 0) (dec 0 0)].
Definition MarsPolarCold_D : tableD := {| t_alt := MarsPolarCold_alt; t_T := MarsPolarCold_akima_T; t_P := MarsPolarCold_akima_P; t_rho := MarsPolarCold_akima_rho; t_dT := MarsPolarCold_akima_dT |}.
Definition MarsPolarCold : tableQ := tableQ_of MarsPolarCold_D.

(** MarsPolarHot.py *)
(** L68-71 *)
Definition MarsPolarHot_alt : list decimal := [dec (-8000) 0; dec (-5000) 0; dec (-2000) 0; dec (-1955) 0; dec (-1945) 0; dec (-1000) 0; dec 0 0; dec 1000 0; dec 2000 0; dec 3000 0; dec 4000 0; dec 5000 0; dec 6000 0; dec 7000 0; dec 8000 0; dec 9000 0; dec 10000 0; dec 15000 0; dec 20000 0; dec 25000 0; dec 30000 0; dec 40000 0; dec 50000 0; dec 60000 0; dec 70000 0; dec 80000 0].
(** L73-100 *)
Definition MarsPolarHot_akima_T : list coefD := [
  q4 (dec 21622 2) (dec 0 0) (dec 0 0) (dec 0 0);
  q4 (dec 21622 2) (dec 0 0) (dec 0 0) (dec 0 0);
  q4 (dec 21622 2) (dec 0 0) (dec 0 0) (dec 0 0);
  q4 (dec 21622 2) (dec 0 0) (dec 0 0) (dec 0 0);
  q4 (dec 21622 2) (dec 0 0) (dec 22052920058866096 18) (dec (-14552920058866097) 19);
  q4 (dec 21697 2) (dec 44707994113390688 19) (dec (-66929356322253667) 23) (dec (-85430569199471478) 28);
  q4 (dec 22059 2) (dec 31829470866306677 19) (dec 35016943053659689 22) (dec (-35346413919966303) 25);
  q4 (dec 22374000000000001 14) (dec (-41758847862728655) 20) (dec (-11479549453604911) 23) (dec 62383973163336862 27);
  q4 (dec 22327000000000001 14) (dec (-46002754820937433) 20) (dec 10055096418723561 24) (dec (-10027548209357267) 27);
  q4 (dec 22281 2) (dec (-4699999999999989) 19) (dec 16263032587282567 38) (dec (-10842021724855044) 41);
  q4 (dec 22234 2) (dec (-4699999999999989) 19) (dec 16263032587282567 38) (dec (-10842021724855044) 41);
  q4 (dec 22187 2) (dec (-4699999999999989) 19) (dec 76999999999785133 23) (dec (-75999999999786046) 26);
  q4 (dec 22141 2) (dec (-12099999999978775) 19) (dec (-42893206347871524) 34) (dec 21588633658531363 37);
  q4 (dec 22019999999999999 14) (dec (-12099999999999795) 19) (dec 28189256484623116 36) (dec (-28189256484623119) 39);
  q4 (dec 21899000000000001 14) (dec (-12100000000000079) 19) (dec 0 0) (dec 0 0);
  q4 (dec 21778 2) (dec (-12100000000000079) 19) (dec 0 0) (dec 0 0);
  q4 (dec 21656999999999999 14) (dec (-12100000000000079) 19) (dec 10299920638612293 35) (dec (-7502679033599692) 38);
  q4 (dec 21536000000000001 14) (dec (-12100000000000259) 19) (dec (-10490821256037812) 23) (dec 67416425120765508 28);
  q4 (dec 20753 2) (dec (-17534589371980657) 19) (dec (-22605196089611758) 25) (dec (-76953859028503984) 29);
  q4 (dec 19861000000000001 14) (dec (-18337795275590557) 19) (dec (-48760216759982482) 25) (dec 64638543756181249 29);
  q4 (dec 18940000000000001 14) (dec (-18340608365019022) 19) (dec 86751118028332698 25) (dec (-61258890049056838) 29);
  q4 (dec 18037 2) (dec (-17932538860103628) 19) (dec 86874082181155347 25) (dec 10537980382920815 28);
  q4 (dec 16436000000000001 14) (dec (-13033663101604271) 19) (dec 32448805510345995 24) (dec (-79121744943034052) 29);
  q4 (dec 15378 2) (dec (-89175543478260959) 20) (dec 69904415496517807 26) (dec (-42350067670435255) 30);
  q4 (dec 14488999999999999 14) (dec (-89047957198443682) 20) (dec (-23947538058771983) 25) (dec 16427110043209637 29);
  q4 (dec 13591 2) (dec (-88909331797235155) 20) (dec 12706866359447057 23) (dec (-42059331797235291) 28);
  q4 (dec 13552000000000001 14) (dec 39050000000000147 20) (dec 0 0) (dec 0 0)].
(** L102-129 *)
Definition MarsPolarHot_akima_P : list coefD := [
  q4 (dec 1100 0) (dec (-94500000000000056) 18) (dec 0 0) (dec 0 0);
  q4 (dec 1100 0) (dec (-94500000000000056) 18) (dec 33662100456620934 22) (dec (-66514459665141366) 27);
  q4 (dec 84499999999999989 14) (dec (-76098630136986284) 18) (dec 49013222274394604 22) (dec (-51170406059245249) 26);
  q4 (dec 647 0) (dec (-60506706408345712) 18) (dec 11138806659270846 19) (dec (-16820922470527172) 21);
  q4 (dec 645 0) (dec (-62444550483360707) 18) (dec (-11635301451120199) 18) (dec 78797564994562651 20);
  q4 (dec 644 0) (dec (-58757884522076656) 18) (dec 30126438904299987 22) (dec 99043254014757378 26);
  q4 (dec 592 0) (dec (-50410544511668112) 18) (dec (-14063435675195981) 22) (dec 18168880791877008 25);
  q4 (dec 542 0) (dec (-477725674091442) 16) (dec 1259420532574121 21) (dec 51314687657005867 26);
  q4 (dec 496 0) (dec (-43714285714285733) 18) (dec 19285714285714183 22) (dec (-21428571428568077) 26);
  q4 (dec 454 0) (dec (-40499999999999953) 18) (dec 10000000000000772 22) (dec 49999999999993106 26);
  q4 (dec 41500000000000006 14) (dec (-36999999999999998) 18) (dec 15999999999998447 22) (dec 40000000000009473 26);
  q4 (dec 380 0) (dec (-32600000000000025) 18) (dec 77142857142861034 23) (dec (-17142857142858627) 26);
  q4 (dec 348 0) (dec (-31571428571428563) 18) (dec (-85714285714287228) 23) (dec 14285714285714319 25);
  q4 (dec 317 0) (dec (-29000000000000001) 18) (dec 34285714285714268 22) (dec (-14285714285714249) 25);
  q4 (dec 290 0) (dec (-2642857142857143) 17) (dec (-1428571428571425) 22) (dec 57142857142856304 26);
  q4 (dec 264 0) (dec (-25000000000000005) 18) (dec 31891891891891801 22) (dec (-11891891891891856) 25);
  q4 (dec 241 0) (dec (-22189189189189173) 18) (dec 1281121520523041 21) (dec (-91932331333838264) 27);
  q4 (dec 22000000000000003 14) (dec (-19902743142144606) 18) (dec 68129049357281701 23) (dec (-41483730287797398) 28);
  q4 (dec 137 0) (dec (-13400966183574899) 18) (dec 58264815567294875 23) (dec (-36909837915939667) 28);
  q4 (dec 84099999999999994 15) (dec (-78513084112149505) 19) (dec 13473162894879071 23) (dec 19106010658839906 27);
  q4 (dec 50600000000000001 15) (dec (-50710413223140505) 19) (dec 78831036697640196 24) (dec 20675445553033914 27);
  q4 (dec 29799999999999997 15) (dec (-2732072538860104) 18) (dec 394190739820665 22) (dec 34788179903943922 28);
  q4 (dec 99000000000000004 16) (dec (-90004566210045663) 20) (dec 45696917456105461 25) (dec 18434874464435115 28);
  q4 (dec 32000000000000002 16) (dec (-25560559325519232) 20) (dec (-38856349457274255) 25) (dec 82461942712466565 29);
  q4 (dec 10800000000000001 16) (dec (-85932464032341188) 21) (dec (-92397614566630747) 26) (dec 22072225489004251 29);
  q4 (dec 34899999999999998 17) (dec (-38195310478654596) 21) (dec 1206209573091889 26) (dec 11594689521345408 29);
  q4 (dec 84199999999999997 18) (dec (-31699999999999959) 22) (dec 0 0) (dec 0 0)].
(** L131-158 *)
Definition MarsPolarHot_akima_rho : list coefD := [
  q4 (dec 27 3) (dec (-23333333333333332) 22) (dec 0 0) (dec 0 0);
  q4 (dec 27 3) (dec (-23333333333333332) 22) (dec 12098765432098774 26) (dec (-14403292181069939) 30);
  q4 (dec 207 4) (dec (-19962962962962959) 22) (dec 21770071557757425 26) (dec (-32237687085528807) 30);
  q4 (dec 15800000000000002 18) (dec (-1560509554140129) 21) (dec 10548596385704517 23) (dec (-15735105281120512) 25);
  q4 (dec 15800000000000002 18) (dec (-16258492652867747) 22) (dec (-25006325776064897) 22) (dec 16632175041351388 23);
  q4 (dec 15699999999999999 18) (dec (-17419756933624151) 22) (dec 13814610131456588 26) (dec 27016086132600099 30);
  q4 (dec 14200000000000001 18) (dec (-14085014409221901) 22) (dec (-38299711815561596) 26) (dec 39149855907780585 29);
  q4 (dec 12800000000000001 18) (dec (-1000000000000005) 21) (dec 65645053412208276 40) (dec (-25410988417629011) 43);
  q4 (dec 118 4) (dec (-99999999999999932) 23) (dec (-10587911840678754) 40) (dec 12705494208814505 43);
  q4 (dec 10800000000000001 18) (dec (-99999999999999784) 23) (dec 10666666666666011 26) (dec (-26666666666663305) 30);
  q4 (dec 98799999999999999 19) (dec (-8666666666666668) 22) (dec 52156862745099954 27) (dec (-54901960784324993) 31);
  q4 (dec 90600000000000003 19) (dec (-77882352941176482) 23) (dec 16813725490194924 27) (dec 12009803921569028 30);
  q4 (dec 83099999999999997 19) (dec (-70916666666666746) 23) (dec 29166666666667942 27) (dec (-42351647362715015) 44);
  q4 (dec 76299999999999996 19) (dec (-65083333333333296) 23) (dec 16666666666667 24) (dec 41666666666664861 31);
  q4 (dec 70000000000000001 19) (dec (-6049999999999994) 22) (dec 24999999999999442 27) (dec 21175823681357508 44);
  q4 (dec 64200000000000004 19) (dec (-55499999999999998) 23) (dec 33108108108108011 27) (dec (-81081081081082495) 31);
  q4 (dec 58900000000000003 19) (dec (-5131081081081085) 22) (dec 38993993993994104 27) (dec (-58858858858858827) 31);
  q4 (dec 54099999999999999 19) (dec (-45277777777777815) 23) (dec 14463285024154734 27) (dec (-61545893719820989) 33);
  q4 (dec 35000000000000001 19) (dec (-31276086956521734) 23) (dec 12473659995399059 27) (dec (-64297216471121878) 33);
  q4 (dec 22399999999999998 19) (dec (-19284656084656083) 23) (dec 33475099904815912 28) (dec 40436043576611597 32);
  q4 (dec 141 5) (dec (-1290444282592862) 22) (dec 23711259363023349 28) (dec 40755194311098039 32);
  q4 (dec 87500000000000002 20) (dec (-74766773162939315) 24) (dec 10610564004587307 28) (dec 84562091583520129 33);
  q4 (dec 31799999999999998 20) (dec (-28177017678708684) 24) (dec 2562089219205996 28) (dec 48149284595026929 33);
  q4 (dec 11 5) (dec (-86080538617886173) 25) (dec (-8946836433292437) 29) (dec 24527375051178586 33);
  q4 (dec 39499999999999998 21) (dec (-30392086330935258) 25) (dec (-24631606714628118) 30) (dec 69552470023980801 34);
  q4 (dec 136 7) (dec (-14452666666666666) 25) (dec 20533333333333325 31) (dec 37473333333333328 34);
  q4 (dec 31 7) (dec (-28000000000000017) 26) (dec 0 0) (dec 0 0)].
(** L160-187 *)
Definition MarsPolarHot_akima_dT : list coefD := [
  q4 (dec 0 0) (dec 0 0) (dec 0 0) (dec 0 0);
  q4 (dec 0 0) (dec 0 0) (dec 0 0) (dec 0 0);
  q4 (dec 0 0) (dec 0 0) (dec 0 0) (dec 0 0);
  q4 (dec 0 0) (dec 0 0) (dec 0 0) (dec 0 0);
  q4 (dec 0 0) (dec 0 0) (dec 13403692585815664 20) (dec (-89328931744767047) 22);
  q4 (dec 44707994113389604 19) (dec 87056482012173128 23) (dec (-23773854889131378) 25) (dec 14845915946557742 30);
  q4 (dec 31829470866306673 19) (dec (-35829204316595741) 22) (dec (-35424415595995668) 25) (dec 35248264260011882 28);
  q4 (dec (-4175884786272858) 19) (dec (-93324272855144125) 24) (dec 6939453021326241 26) (dec (-18509326940206665) 30);
  q4 (dec (-46002754820937417) 20) (dec (-10063193249239288) 24) (dec (-97909688733960261) 28) (dec 98817103320104713 31);
  q4 (dec (-46999999999999901) 20) (dec 75117845052437866 39) (dec 68046417865779848 42) (dec (-34744045669667267) 45);
  q4 (dec (-4699999999999989) 19) (dec 10697854377499576 38) (dec (-10553687030113314) 41) (dec (-14416734738626199) 46);
  q4 (dec (-4699999999999989) 19) (dec (-10842021724885838) 38) (dec (-22199999999894607) 25) (dec 14799999999915821 28);
  q4 (dec (-12099999999978777) 19) (dec (-41754794066644735) 34) (dec 20736450750724518 37) (dec 11622602028388091 51);
  q4 (dec (-12099999999999795) 19) (dec (-28189256484701502) 36) (dec (-27969491288776215) 39) (dec 27969491288854602 42);
  q4 (dec (-12100000000000077) 19) (dec (-21976519569012956) 38) (dec (-12305562070208098) 41) (dec 12598038189510964 44);
  q4 (dec (-12100000000000079) 19) (dec (-87935291408962567) 39) (dec 17587058281796321 41) (dec (-87935291409000643) 45);
  q4 (dec (-12100000000000079) 19) (dec (-38068562605930246) 51) (dec (-15772635738046123) 39) (dec (-33093224976987249) 43);
  q4 (dec (-1210000000000027) 18) (dec (-41473238969188443) 36) (dec (-59624101847682522) 27) (dec 75771488719538553 31);
  q4 (dec (-17534589371980657) 19) (dec (-27954853080327669) 24) (dec 18156113802433832 28) (dec 11250712427651227 32);
  q4 (dec (-18337795275590555) 19) (dec (-13607049571554198) 25) (dec 58870704681589282 30) (dec 40403585807124856 33);
  q4 (dec (-18340608365019022) 19) (dec 22582710251948368 25) (dec (-1820720109904924) 27) (dec 60026878490551222 32);
  q4 (dec (-17932538860103622) 19) (dec 29071228794058987 24) (dec 43739037181437001 28) (dec (-23821508390502522) 32);
  q4 (dec (-13033663101604275) 19) (dec 45084777985425427 24) (dec 33128333577666004 28) (dec (-37052024025309602) 32);
  q4 (dec (-89175543478260937) 20) (dec 18537306482861449 26) (dec (-11825620261907865) 30) (dec 60469417607740993 35);
  q4 (dec (-8904795719844366) 19) (dec 13026891241368016 26) (dec 56748094999386782 32) (dec 26816792948537291 36);
  q4 (dec (-88909331797235188) 20) (dec 1496635692981187 25) (dec 191708983257861 25) (dec (-6389931502992379) 31);
  q4 (dec 3905000000000012 19) (dec 19186968499524873 23) (dec 0 0) (dec 0 0)].
Definition MarsPolarHot_D : tableD := {| t_alt := MarsPolarHot_alt; t_T := MarsPolarHot_akima_T; t_P := MarsPolarHot_akima_P; t_rho := MarsPolarHot_akima_rho; t_dT := MarsPolarHot_akima_dT |}.
Definition MarsPolarHot : tableQ := tableQ_of MarsPolarHot_D.

(** MarsReference2024.py *)
(** L74-77 *)
Definition MarsReference2024_alt : list decimal := [dec (-8000) 0; dec (-7000) 0; dec (-61151) 1; dec (-61051) 1; dec (-6000) 0; dec (-5000) 0; dec (-4000) 0; dec (-3000) 0; dec (-2000) 0; dec (-1000) 0; dec 0 0; dec 1000 0; dec 2000 0; dec 3000 0; dec 4000 0; dec 5000 0; dec 6000 0; dec 7000 0; dec 8000 0; dec 9000 0; dec 10000 0; dec 15000 0; dec 20000 0; dec 25000 0; dec 30000 0; dec 40000 0; dec 50000 0; dec 60000 0; dec 70000 0; dec 80000 0].
(** L79-110 *)
Definition MarsReference2024_akima_T : list coefD := [
  q4 (dec 214 0) (dec 0 0) (dec 0 0) (dec 0 0);
  q4 (dec 214 0) (dec 0 0) (dec 0 0) (dec 0 0);
  q4 (dec 214 0) (dec 0 0) (dec 0 0) (dec 0 0);
  q4 (dec 214 0) (dec 0 0) (dec 0 0) (dec 0 0);
  q4 (dec 214 0) (dec 0 0) (dec 0 0) (dec 0 0);
  q4 (dec 214 0) (dec 0 0) (dec 0 0) (dec 0 0);
  q4 (dec 214 0) (dec 0 0) (dec 0 0) (dec 0 0);
  q4 (dec 214 0) (dec 0 0) (dec 0 0) (dec 0 0);
  q4 (dec 214 0) (dec 0 0) (dec 0 0) (dec 0 0);
  q4 (dec 214 0) (dec 0 0) (dec 0 0) (dec 0 0);
  q4 (dec 214 0) (dec 0 0) (dec 49999999999997159 24) (dec (-49999999999997158) 27);
  q4 (dec 214 0) (dec (-49999999999997156) 21) (dec (-99999999999994344) 24) (dec 49999999999997152 27);
  q4 (dec 21390000000000001 14) (dec (-99999999999994313) 21) (dec (-13552527156068806) 39) (dec 0 0);
  q4 (dec 21380000000000001 14) (dec (-99999999999994313) 21) (dec (-20000000000005267) 23) (dec 10000000000002987 26);
  q4 (dec 21359999999999999 14) (dec (-20000000000000996) 20) (dec 30000000000005404 23) (dec (-30000000000003272) 26);
  q4 (dec 21340000000000001 14) (dec (-50000000000000001) 20) (dec 0 0) (dec 0 0);
  q4 (dec 21290000000000001 14) (dec (-50000000000000001) 20) (dec 0 0) (dec 0 0);
  q4 (dec 21240000000000001 14) (dec (-50000000000000001) 20) (dec (-21999999999999688) 22) (dec 10999999999999747 25);
  q4 (dec 21080000000000001 14) (dec (-1600000000000014) 18) (dec 49999999999995403 23) (dec (-49999999999996229) 26);
  q4 (dec 20919999999999999 14) (dec (-20999999999999942) 19) (dec 0 0) (dec 0 0);
  q4 (dec 20709999999999999 14) (dec (-20999999999999942) 19) (dec 0 0) (dec 0 0);
  q4 (dec 205 0) (dec (-20999999999999942) 19) (dec 1115199999999956 22) (dec (-87039999999994314) 28);
  q4 (dec 19619999999999999 14) (dec (-16375999999999964) 19) (dec 70400000000012553 25) (dec 89599999999977909 29);
  q4 (dec 18830000000000001 14) (dec (-14999999999999998) 19) (dec (-2645453300864631) 36) (dec 32000000000003386 28);
  q4 (dec 18119999999999999 14) (dec (-12600000000000009) 19) (dec 97142857142871597 25) (dec (-11428571428572997) 28);
  q4 (dec 175 0) (dec (-12485714285714272) 19) (dec (-4285714285714548) 24) (dec 31428571428573311 29);
  q4 (dec 16240000000000001 14) (dec (-12399999999999983) 19) (dec 34736842105262456 24) (dec (-12736842105262821) 28);
  q4 (dec 15219999999999999 14) (dec (-92736842105263344) 20) (dec 14129934210526545 24) (dec (-13930921052632057) 29);
  q4 (dec 14419999999999999 14) (dec (-68656249999999902) 20) (dec 24832500000000004 24) (dec (-31762499999999916) 29);
  q4 (dec 1395 1) (dec (-28519999999999875) 20) (dec 26039999999999812 24) (dec (-25199999999999327) 29);
  q4 (dec 139 0) (dec 15999999999999942 20) (dec 0 0) (dec 0 0)].
(** L112-143 *)
Definition MarsReference2024_akima_P : list coefD := [
  q4 (dec 1310 0) (dec (-10849644027573734) 17) (dec 0 0) (dec 0 0);
  q4 (dec 1310 0) (dec (-10849644027573734) 17) (dec (-29291741250575681) 22) (dec 14256144007948891 25);
  q4 (dec 1200 0) (dec (-11007794532346778) 17) (dec (-10532826189011771) 21) (dec 81621097148296253 25);
  q4 (dec 1100 0) (dec (-10954496980398383) 17) (dec 31009225908418665 18) (dec (-20054728928020284) 19);
  q4 (dec 1100 0) (dec (-91002319476218979) 18) (dec (-12495196836735407) 20) (dec 81362344953615658 23);
  q4 (dec 1090 0) (dec (-9030534494760406) 17) (dec (-27656362957633045) 22) (dec 30709812433673545 25);
  q4 (dec 1000 0) (dec (-86623673809028592) 18) (dec 34011937719033438 22) (dec (-77751996287475656) 26);
  q4 (dec 916 0) (dec (-82153846153846161) 18) (dec 1507692307692321 21) (dec 64615384615385197 26);
  q4 (dec 836 0) (dec (-77199999999999991) 18) (dec 54000000000000025 22) (dec (-12000000000000068) 25);
  q4 (dec 763 0) (dec (-69999999999999993) 18) (dec 17999999999999684 22) (dec 12000000000000345 25);
  q4 (dec 696 0) (dec (-62799999999999995) 18) (dec 34461538461538417 22) (dec (-64615384615385197) 26);
  q4 (dec 636 0) (dec (-57846153846153846) 18) (dec 69230769230768649 23) (dec 11538461538461581 25);
  q4 (dec 580 0) (dec (-53000000000000005) 18) (dec 33333333333333202 22) (dec (-33333333333332443) 26);
  q4 (dec 530 0) (dec (-47333333333333331) 18) (dec 13333333333333114 22) (dec 0 0);
  q4 (dec 484 0) (dec (-44666666666666667) 18) (dec 83333333333333174 23) (dec 83333333333333873 26);
  q4 (dec 441 0) (dec (-40499999999999994) 18) (dec 28571428571428568 22) (dec (-35714285714284759) 26);
  q4 (dec 403 0) (dec (-35857142857142858) 18) (dec 85714285714285491 23) (dec 0 0);
  q4 (dec 368 0) (dec (-34142857142857148) 18) (dec 28571428571429194 23) (dec 85714285714286194 26);
  q4 (dec 335 0) (dec (-31) 3) (dec 26666666666666575 22) (dec (-66666666666666271) 26);
  q4 (dec 306 0) (dec (-27666666666666666) 18) (dec 7927927927927868 22) (dec (-12612612612612068) 26);
  q4 (dec 279 0) (dec (-26459459459459458) 18) (dec 17626020024306861 22) (dec (-30314254297123673) 26);
  q4 (dec 254 0) (dec (-23843683083511782) 18) (dec 90156961894688234 23) (dec (-10566600448905229) 27);
  q4 (dec 156 0) (dec (-15620481927710846) 18) (dec 69804605293761868 23) (dec (-5189933479089887) 27);
  q4 (dec 94699999999999989 15) (dec (-90292664092664066) 19) (dec 13936468336468357 23) (dec 25297719697719642 27);
  q4 (dec 56200000000000003 15) (dec (-57382905982905968) 19) (dec 92762290484203155 24) (dec 23779165834783223 27);
  q4 (dec 32800000000000004 15) (dec (-30272302558398225) 19) (dec 3959434856873007 23) (dec 41128677015252107 28);
  q4 (dec 106 1) (dec (-10014829740076568) 19) (dec 46607640633009149 25) (dec 20987533337464778 28);
  q4 (dec 31499999999999999 16) (dec (-2786416926176955) 19) (dec (-462035759028549) 23) (dec 97645268520550426 29);
  q4 (dec 878 3) (dec (-78113038861754095) 21) (dec (-94081541080948628) 26) (dec 23021192969848931 29);
  q4 (dec 23300000000000001 17) (dec (-2786576816839699) 20) (dec (-23484636632060203) 26) (dec 1299423183160301 28);
  q4 (dec 60800000000000007 18) (dec 64199999999999961 22) (dec 0 0) (dec 0 0)].
(** L145-176 *)
Definition MarsReference2024_akima_rho : list coefD := [
  q4 (dec 32099999999999997 18) (dec (-27504181263419551) 22) (dec 0 0) (dec 0 0);
  q4 (dec 32099999999999997 18) (dec (-27504181263419551) 22) (dec 97070345330088097 27) (dec (-46652218988130016) 30);
  q4 (dec 29399999999999999 18) (dec (-26962340926461698) 22) (dec 11917142682084435 26) (dec (-10707453638349766) 30);
  q4 (dec 27099999999999999 18) (dec (-25104778522496715) 22) (dec 73735509271292282 23) (dec (-48630730748795575) 24);
  q4 (dec 27099999999999999 18) (dec (-23525952226298854) 22) (dec (-14479349133442711) 24) (dec 92336550374318007 27);
  q4 (dec 26800000000000001 18) (dec (-23363030340788721) 22) (dec (-9683272218828396) 26) (dec 13313575626715605 29);
  q4 (dec 24500000000000001 18) (dec (-21305612096539719) 22) (dec 21122419307940318 27) (dec 94387903460304981 31);
  q4 (dec 224 4) (dec (-20599999999999998) 22) (dec (-17999999999999553) 26) (dec 23999999999999686 29);
  q4 (dec 20400000000000001 18) (dec (-17000000000000009) 22) (dec 1905824131322176 39) (dec (-8470329472543003) 43);
  q4 (dec 18700000000000001 18) (dec (-17) 7) (dec (-21175823681357509) 41) (dec 42351647362715015 44);
  q4 (dec 17000000000000001 18) (dec (-17) 7) (dec 26666666666666145 26) (dec (-6666666666666292) 29);
  q4 (dec 155 4) (dec (-13666666666666659) 22) (dec 33333333333336753 27) (dec 33333333333330192 30);
  q4 (dec 14200000000000001 18) (dec (-12000000000000023) 22) (dec 84703294725430036 41) (dec (-42351647362715015) 44);
  q4 (dec 12999999999999999 18) (dec (-12000000000000008) 22) (dec (-14823076576950256) 40) (dec 2117582368135751 42);
  q4 (dec 118 4) (dec (-11999999999999963) 22) (dec 32307692307691766 26) (dec (-12307692307692073) 29);
  q4 (dec 10800000000000001 18) (dec (-92307692307692249) 23) (dec 16153846153845982 27) (dec 69230769230769711 31);
  q4 (dec 99000000000000008 19) (dec (-87000000000000014) 23) (dec 13846153846154049 27) (dec 16153846153845558 30);
  q4 (dec 90600000000000003 19) (dec (-79384615384615537) 23) (dec 63942307692307852 27) (dec (-10096153846153554) 30);
  q4 (dec 83199999999999993 19) (dec (-69625000000000043) 23) (dec 14318181818182693 27) (dec 11931818181818011 30);
  q4 (dec 76499999999999997 19) (dec (-6318181818181808) 22) (dec 29518716577539372 27) (dec (-77005347593580231) 31);
  q4 (dec 70400000000000003 19) (dec (-59588235294117613) 23) (dec 2884803921568543 26) (dec (-29656862745096675) 31);
  q4 (dec 64700000000000001 19) (dec (-54708333333333374) 23) (dec 19351851851852019 27) (dec (-3870370370370495) 31);
  q4 (dec 41700000000000001 19) (dec (-38259259259259263) 23) (dec 15578629957391009 27) (dec (-13202228777449796) 32);
  q4 (dec 263 5) (dec (-23670796460176993) 23) (dec 46549505465903231 28) (dec 45732847475273456 32);
  q4 (dec 16199999999999999 19) (dec (-15585882352941175) 23) (dec 28926583316253174 28) (dec 53582127485140529 32);
  q4 (dec 97999999999999997 20) (dec (-86745644599303121) 24) (dec 12679024810569031 28) (dec 1006661978873408 31);
  q4 (dec 34000000000000002 20) (dec (-31187735611962801) 24) (dec 21905515700318923 29) (dec 57971840419308991 33);
  q4 (dec 108 6) (dec (-94150803461063039) 25) (dec (-12104273725093096) 29) (dec 30055077186156114 33);
  q4 (dec 318 7) (dec (-2819411935278084) 24) (dec (-24173561912273213) 30) (dec 75414755440081555 34);
  q4 (dec 87299999999999994 22) (dec (-10404405103211009) 25) (dec (-38618979357798169) 31) (dec 43505948967889913 34);
  q4 (dec 22900000000000001 22) (dec 1875000000000001 25) (dec 0 0) (dec 0 0)].
(** L178-209 *)
Definition MarsReference2024_akima_dT : list coefD := [
  q4 (dec 0 0) (dec 0 0) (dec 0 0) (dec 0 0);
  q4 (dec 0 0) (dec 0 0) (dec 0 0) (dec 0 0);
  q4 (dec 0 0) (dec 0 0) (dec 0 0) (dec 0 0);
  q4 (dec 0 0) (dec 0 0) (dec 0 0) (dec 0 0);
  q4 (dec 0 0) (dec 0 0) (dec 0 0) (dec 0 0);
  q4 (dec 0 0) (dec 0 0) (dec 0 0) (dec 0 0);
  q4 (dec 0 0) (dec 0 0) (dec 0 0) (dec 0 0);
  q4 (dec 0 0) (dec 0 0) (dec 0 0) (dec 0 0);
  q4 (dec 0 0) (dec 0 0) (dec 0 0) (dec 0 0);
  q4 (dec 0 0) (dec 0 0) (dec 0 0) (dec 0 0);
  q4 (dec 0 0) (dec 0 0) (dec (-99999999999994278) 27) (dec 49999999999997111 30);
  q4 (dec (-4999999999999715) 20) (dec (-49999999999997192) 24) (dec (-10587911840678754) 41) (dec 79409338805090659 45);
  q4 (dec (-9999999999999438) 20) (dec (-49999999999997192) 24) (dec 11999999999999878 26) (dec (-70000000000001532) 30);
  q4 (dec (-9999999999999434) 20) (dec (-20000000000004265) 24) (dec (-11000000000002203) 26) (dec 30000000000010645 30);
  q4 (dec (-20000000000000998) 20) (dec (-15000000000001638) 23) (dec (-59999999999993785) 26) (dec 44999999999996395 29);
  q4 (dec (-50000000000000012) 20) (dec (-54210108624290575) 39) (dec 34849355544179913 41) (dec (-18586322956895818) 44);
  q4 (dec (-50000000000000001) 20) (dec 85187313552433306 39) (dec 28395771184133624 42) (dec (-11358308473656694) 44);
  q4 (dec (-50000000000000001) 20) (dec (-19877039828900023) 38) (dec (-26125000000000577) 25) (dec 15125000000000439 28);
  q4 (dec (-16000000000000135) 19) (dec (-68749999999998294) 23) (dec (-12499999999996994) 26) (dec 31249999999997348 29);
  q4 (dec (-20999999999999929) 19) (dec (-23852447794679986) 37) (dec 10704410322998123 40) (dec 13761140185580552 45);
  q4 (dec (-20999999999999942) 19) (dec (-20307929431163159) 38) (dec (-14460646301844228) 40) (dec 16491439244960545 43);
  q4 (dec (-20999999999999942) 19) (dec 18522232188076859 37) (dec 47628509915013351 27) (dec (-58265019830027548) 31);
  q4 (dec (-16375999999999956) 19) (dec 39297450424928778 24) (dec (-71151173033879752) 28) (dec 95192544368040462 32);
  q4 (dec (-15000000000000005) 19) (dec 39540685667079393 24) (dec 11930413265770934 27) (dec (-20477100798373652) 31);
  q4 (dec (-12600000000000009) 19) (dec 52665623369863078 25) (dec (-10207526087796802) 28) (dec 84916599705076712 33);
  q4 (dec (-12485714285714268) 19) (dec 14277812270702591 25) (dec (-61855773054539686) 29) (dec 56149389355265631 33);
  q4 (dec (-12399999999999983) 19) (dec 590144342274201 23) (dec 55423931306899981 28) (dec (-30062216834905543) 32);
  q4 (dec (-92736842105263376) 20) (dec 26562655531825369 24) (dec (-14934528943232343) 28) (dec 1245246551667049 31);
  q4 (dec (-6865624999999987) 19) (dec 34050994195372143 24) (dec 87269681045452198 29) (dec (-26417122999173524) 33);
  q4 (dec (-28519999999999864) 20) (dec 43579793504710525 24) (dec (-31146200942131948) 30) (dec 12516685047106204 33);
  q4 (dec 1599999999999995 19) (dec 46711874999999727 24) (dec 0 0) (dec 0 0)].
Definition MarsReference2024_D : tableD := {| t_alt := MarsReference2024_alt; t_T := MarsReference2024_akima_T; t_P := MarsReference2024_akima_P; t_rho := MarsReference2024_akima_rho; t_dT := MarsReference2024_akima_dT |}.
Definition MarsReference2024 : tableQ := tableQ_of MarsReference2024_D.

(** StandardAtm1976.py *)
(** L730-829 *)
Definition StandardAtm1976_alt : list decimal := [dec (-5000) 0; dec (-4950) 0; dec (-4900) 0; dec (-4850) 0; dec (-4800) 0; dec (-4750) 0; dec (-4700) 0; dec (-4650) 0; dec (-4600) 0; dec (-4550) 0; dec (-4500) 0; dec (-4450) 0; dec (-4400) 0; dec (-4350) 0; dec (-4300) 0; dec (-4250) 0; dec (-4200) 0; dec (-4150) 0; dec (-4100) 0; dec (-4050) 0; dec (-4000) 0; dec (-3950) 0; dec (-3900) 0; dec (-3850) 0; dec (-3800) 0; dec (-3750) 0; dec (-3700) 0; dec (-3650) 0; dec (-3600) 0; dec (-3550) 0; dec (-3500) 0; dec (-3450) 0; dec (-3400) 0; dec (-3350) 0; dec (-3300) 0; dec (-3250) 0; dec (-3200) 0; dec (-3150) 0; dec (-3100) 0; dec (-3050) 0; dec (-3000) 0; dec (-2950) 0; dec (-2900) 0; dec (-2850) 0; dec (-2800) 0; dec (-2750) 0; dec (-2700) 0; dec (-2650) 0; dec (-2600) 0; dec (-2550) 0; dec (-2500) 0; dec (-2450) 0; dec (-2400) 0; dec (-2350) 0; dec (-2300) 0; dec (-2250) 0; dec (-2200) 0; dec (-2150) 0; dec (-2100) 0; dec (-2050) 0; dec (-2000) 0; dec (-1950) 0; dec (-1900) 0; dec (-1850) 0; dec (-1800) 0; dec (-1750) 0; dec (-1700) 0; dec (-1650) 0; dec (-1600) 0; dec (-1550) 0; dec (-1500) 0; dec (-1450) 0; dec (-1400) 0; dec (-1350) 0; dec (-1300) 0; dec (-1250) 0; dec (-1200) 0; dec (-1150) 0; dec (-1100) 0; dec (-1050) 0; dec (-1000) 0; dec (-950) 0; dec (-900) 0; dec (-850) 0; dec (-800) 0; dec (-750) 0; dec (-700) 0; dec (-650) 0; dec (-600) 0; dec (-550) 0; dec (-500) 0; dec (-450) 0; dec (-400) 0; dec (-350) 0; dec (-300) 0; dec (-250) 0; dec (-200) 0; dec (-150) 0; dec (-100) 0; dec (-50) 0; dec 0 0; dec 50 0; dec 100 0; dec 150 0; dec 200 0; dec 250 0; dec 300 0; dec 350 0; dec 400 0; dec 450 0; dec 500 0; dec 550 0; dec 600 0; dec 650 0; dec 700 0; dec 750 0; dec 800 0; dec 850 0; dec 900 0; dec 950 0; dec 1000 0; dec 1050 0; dec 1100 0; dec 1150 0; dec 1200 0; dec 1250 0; dec 1300 0; dec 1350 0; dec 1400 0; dec 1450 0; dec 1500 0; dec 1550 0; dec 1600 0; dec 1650 0; dec 1700 0; dec 1750 0; dec 1800 0; dec 1850 0; dec 1900 0; dec 1950 0; dec 2000 0; dec 2050 0; dec 2100 0; dec 2150 0; dec 2200 0; dec 2250 0; dec 2300 0; dec 2350 0; dec 2400 0; dec 2450 0; dec 2500 0; dec 2550 0; dec 2600 0; dec 2650 0; dec 2700 0; dec 2750 0; dec 2800 0; dec 2850 0; dec 2900 0; dec 2950 0; dec 3000 0; dec 3050 0; dec 3100 0; dec 3150 0; dec 3200 0; dec 3250 0; dec 3300 0; dec 3350 0; dec 3400 0; dec 3450 0; dec 3500 0; dec 3550 0; dec 3600 0; dec 3650 0; dec 3700 0; dec 3750 0; dec 3800 0; dec 3850 0; dec 3900 0; dec 3950 0; dec 4000 0; dec 4050 0; dec 4100 0; dec 4150 0; dec 4200 0; dec 4250 0; dec 4300 0; dec 4350 0; dec 4400 0; dec 4450 0; dec 4500 0; dec 4550 0; dec 4600 0; dec 4650 0; dec 4700 0; dec 4750 0; dec 4800 0; dec 4850 0; dec 4900 0; dec 4950 0; dec 5000 0; dec 5050 0; dec 5100 0; dec 5150 0; dec 5200 0; dec 5250 0; dec 5300 0; dec 5350 0; dec 5400 0; dec 5450 0; dec 5500 0; dec 5550 0; dec 5600 0; dec 5650 0; dec 5700 0; dec 5750 0; dec 5800 0; dec 5850 0; dec 5900 0; dec 5950 0; dec 6000 0; dec 6050 0; dec 6100 0; dec 6150 0; dec 6200 0; dec 6250 0; dec 6300 0; dec 6350 0; dec 6400 0; dec 6450 0; dec 6500 0; dec 6550 0; dec 6600 0; dec 6650 0; dec 6700 0; dec 6750 0; dec 6800 0; dec 6850 0; dec 6900 0; dec 6950 0; dec 7000 0; dec 7050 0; dec 7100 0; dec 7150 0; dec 7200 0; dec 7250 0; dec 7300 0; dec 7350 0; dec 7400 0; dec 7450 0; dec 7500 0; dec 7550 0; dec 7600 0; dec 7650 0; dec 7700 0; dec 7750 0; dec 7800 0; dec 7850 0; dec 7900 0; dec 7950 0; dec 8000 0; dec 8050 0; dec 8100 0; dec 8150 0; dec 8200 0; dec 8250 0; dec 8300 0; dec 8350 0; dec 8400 0; dec 8450 0; dec 8500 0; dec 8550 0; dec 8600 0; dec 8650 0; dec 8700 0; dec 8750 0; dec 8800 0; dec 8850 0; dec 8900 0; dec 8950 0; dec 9000 0; dec 9050 0; dec 9100 0; dec 9150 0; dec 9200 0; dec 9250 0; dec 9300 0; dec 9350 0; dec 9400 0; dec 9450 0; dec 9500 0; dec 9550 0; dec 9600 0; dec 9650 0; dec 9700 0; dec 9750 0; dec 9800 0; dec 9850 0; dec 9900 0; dec 9950 0; dec 10000 0; dec 10050 0; dec 10100 0; dec 10150 0; dec 10200 0; dec 10250 0; dec 10300 0; dec 10350 0; dec 10400 0; dec 10450 0; dec 10500 0; dec 10550 0; dec 10600 0; dec 10650 0; dec 10700 0; dec 10750 0; dec 10800 0; dec 10850 0; dec 10900 0; dec 10950 0; dec 11000 0; dec 11100 0; dec 11200 0; dec 11300 0; dec 11400 0; dec 11500 0; dec 11600 0; dec 11700 0; dec 11800 0; dec 11900 0; dec 12000 0; dec 12100 0; dec 12200 0; dec 12300 0; dec 12400 0; dec 12500 0; dec 12600 0; dec 12700 0; dec 12800 0; dec 12900 0; dec 13000 0; dec 13100 0; dec 13200 0; dec 13300 0; dec 13400 0; dec 13500 0; dec 13600 0; dec 13700 0; dec 13800 0; dec 13900 0; dec 14000 0; dec 14100 0; dec 14200 0; dec 14300 0; dec 14400 0; dec 14500 0; dec 14600 0; dec 14700 0; dec 14800 0; dec 14900 0; dec 15000 0; dec 15100 0; dec 15200 0; dec 15300 0; dec 15400 0; dec 15500 0; dec 15600 0; dec 15700 0; dec 15800 0; dec 15900 0; dec 16000 0; dec 16100 0; dec 16200 0; dec 16300 0; dec 16400 0; dec 16500 0; dec 16600 0; dec 16700 0; dec 16800 0; dec 16900 0; dec 17000 0; dec 17100 0; dec 17200 0; dec 17300 0; dec 17400 0; dec 17500 0; dec 17600 0; dec 17700 0; dec 17800 0; dec 17900 0; dec 18000 0; dec 18100 0; dec 18200 0; dec 18300 0; dec 18400 0; dec 18500 0; dec 18600 0; dec 18700 0; dec 18800 0; dec 18900 0; dec 19000 0; dec 19100 0; dec 19200 0; dec 19300 0; dec 19400 0; dec 19500 0; dec 19600 0; dec 19700 0; dec 19800 0; dec 19900 0; dec 20000 0; dec 20100 0; dec 20200 0; dec 20300 0; dec 20400 0; dec 20500 0; dec 20600 0; dec 20700 0; dec 20800 0; dec 20900 0; dec 21000 0; dec 21100 0; dec 21200 0; dec 21300 0; dec 21400 0; dec 21500 0; dec 21600 0; dec 21700 0; dec 21800 0; dec 21900 0; dec 22000 0; dec 22100 0; dec 22200 0; dec 22300 0; dec 22400 0; dec 22500 0; dec 22600 0; dec 22700 0; dec 22800 0; dec 22900 0; dec 23000 0; dec 23100 0; dec 23200 0; dec 23300 0; dec 23400 0; dec 23500 0; dec 23600 0; dec 23700 0; dec 23800 0; dec 23900 0; dec 24000 0; dec 24100 0; dec 24200 0; dec 24300 0; dec 24400 0; dec 24500 0; dec 24600 0; dec 24700 0; dec 24800 0; dec 24900 0; dec 25000 0; dec 25100 0; dec 25200 0; dec 25300 0; dec 25400 0; dec 25500 0; dec 25600 0; dec 25700 0; dec 25800 0; dec 25900 0; dec 26000 0; dec 26100 0; dec 26200 0; dec 26300 0; dec 26400 0; dec 26500 0; dec 26600 0; dec 26700 0; dec 26800 0; dec 26900 0; dec 27000 0; dec 27100 0; dec 27200 0; dec 27300 0; dec 27400 0; dec 27500 0; dec 27600 0; dec 27700 0; dec 27800 0; dec 27900 0; dec 28000 0; dec 28100 0; dec 28200 0; dec 28300 0; dec 28400 0; dec 28500 0; dec 28600 0; dec 28700 0; dec 28800 0; dec 28900 0; dec 29000 0; dec 29100 0; dec 29200 0; dec 29300 0; dec 29400 0; dec 29500 0; dec 29600 0; dec 29700 0; dec 29800 0; dec 29900 0; dec 30000 0; dec 30100 0; dec 30200 0; dec 30300 0; dec 30400 0; dec 30500 0; dec 30600 0; dec 30700 0; dec 30800 0; dec 30900 0; dec 31000 0; dec 31100 0; dec 31200 0; dec 31300 0; dec 31400 0; dec 31500 0; dec 31600 0; dec 31700 0; dec 31800 0; dec 31900 0; dec 32000 0; dec 32200 0; dec 32400 0; dec 32600 0; dec 32800 0; dec 33000 0; dec 33200 0; dec 33400 0; dec 33600 0; dec 33800 0; dec 34000 0; dec 34200 0; dec 34400 0; dec 34600 0; dec 34800 0; dec 35000 0; dec 35200 0; dec 35400 0; dec 35600 0; dec 35800 0; dec 36000 0; dec 36200 0; dec 36400 0; dec 36600 0; dec 36800 0; dec 37000 0; dec 37200 0; dec 37400 0; dec 37600 0; dec 37800 0; dec 38000 0; dec 38200 0; dec 38400 0; dec 38600 0; dec 38800 0; dec 39000 0; dec 39200 0; dec 39400 0; dec 39600 0; dec 39800 0; dec 40000 0; dec 40200 0; dec 40400 0; dec 40600 0; dec 40800 0; dec 41000 0; dec 41200 0; dec 41400 0; dec 41600 0; dec 41800 0; dec 42000 0; dec 42200 0; dec 42400 0; dec 42600 0; dec 42800 0; dec 43000 0; dec 43200 0; dec 43400 0; dec 43600 0; dec 43800 0; dec 44000 0; dec 44200 0; dec 44400 0; dec 44600 0; dec 44800 0; dec 45000 0; dec 45200 0; dec 45400 0; dec 45600 0; dec 45800 0; dec 46000 0; dec 46200 0; dec 46400 0; dec 46600 0; dec 46800 0; dec 47000 0; dec 47200 0; dec 47400 0; dec 47600 0; dec 47800 0; dec 48000 0; dec 48200 0; dec 48400 0; dec 48600 0; dec 48800 0; dec 49000 0; dec 49200 0; dec 49400 0; dec 49600 0; dec 49800 0; dec 50000 0; dec 50500 0; dec 51000 0; dec 51500 0; dec 52000 0; dec 52500 0; dec 53000 0; dec 53500 0; dec 54000 0; dec 54500 0; dec 55000 0; dec 55500 0; dec 56000 0; dec 56500 0; dec 57000 0; dec 57500 0; dec 58000 0; dec 58500 0; dec 59000 0; dec 59500 0; dec 60000 0; dec 60500 0; dec 61000 0; dec 61500 0; dec 62000 0; dec 62500 0; dec 63000 0; dec 63500 0; dec 64000 0; dec 64500 0; dec 65000 0; dec 65500 0; dec 66000 0; dec 66500 0; dec 67000 0; dec 67500 0; dec 68000 0; dec 68500 0; dec 69000 0; dec 69500 0; dec 70000 0; dec 70500 0; dec 71000 0; dec 71500 0; dec 72000 0; dec 72500 0; dec 73000 0; dec 73500 0; dec 74000 0; dec 74500 0; dec 75000 0; dec 75500 0; dec 76000 0; dec 76500 0; dec 77000 0; dec 77500 0; dec 78000 0; dec 78500 0; dec 79000 0; dec 79500 0; dec 80000 0; dec 80500 0; dec 81000 0; dec 81500 0; dec 82000 0; dec 82500 0; dec 83000 0; dec 83500 0; dec 84000 0; dec 84500 0].
(** L831-1522 *)
Definition StandardAtm1976_akima_T : list coefD := [
  q4 (dec 32064999999999998 14) (dec (-64999999999997725) 19) (dec 0 0) (dec 0 0);
  q4 (dec 32064999999999998 14) (dec (-64999999999997725) 19) (dec 17347234759768071 36) (dec 0 0);
  q4 (dec 32032499999999999 14) (dec (-64999999999997725) 19) (dec 17347234759768071 36) (dec 0 0);
  q4 (dec 320 0) (dec (-64999999999997725) 19) (dec 17347234759768071 36) (dec 0 0);
  q4 (dec 31967500000000001 14) (dec (-64999999999997725) 19) (dec 17347234759768071 36) (dec 0 0);
  q4 (dec 31935000000000002 14) (dec (-64999999999997725) 19) (dec (-68261368779687362) 33) (dec 9096889908022376 34);
  q4 (dec 31902499999999998 14) (dec (-64999999999997725) 19) (dec 17347234759768071 36) (dec 0 0);
  q4 (dec 31869999999999999 14) (dec (-64999999999997725) 19) (dec 17347234759768071 36) (dec 0 0);
  q4 (dec 318375 3) (dec (-64999999999997725) 19) (dec 17347234759768071 36) (dec 0 0);
  q4 (dec 31805000000000001 14) (dec (-64999999999997725) 19) (dec 17347234759768071 36) (dec 0 0);
  q4 (dec 31772500000000002 14) (dec (-64999999999997725) 19) (dec (-68261368779687362) 33) (dec 9096889908022376 34);
  q4 (dec 31739999999999998 14) (dec (-64999999999997725) 19) (dec 17347234759768071 36) (dec 0 0);
  q4 (dec 31707499999999999 14) (dec (-64999999999997725) 19) (dec 17347234759768071 36) (dec 0 0);
  q4 (dec 31675 2) (dec (-64999999999997725) 19) (dec 17347234759768071 36) (dec 0 0);
  q4 (dec 31642500000000001 14) (dec (-64999999999997725) 19) (dec 17347234759768071 36) (dec 0 0);
  q4 (dec 31610000000000002 14) (dec (-64999999999997725) 19) (dec (-68261368779687362) 33) (dec 9096889908022376 34);
  q4 (dec 31577499999999998 14) (dec (-64999999999997725) 19) (dec 17347234759768071 36) (dec 0 0);
  q4 (dec 31544999999999999 14) (dec (-64999999999997725) 19) (dec 17347234759768071 36) (dec 0 0);
  q4 (dec 315125 3) (dec (-64999999999997725) 19) (dec 17347234759768071 36) (dec 0 0);
  q4 (dec 31480000000000001 14) (dec (-64999999999997725) 19) (dec 17347234759768071 36) (dec 0 0);
  q4 (dec 31447500000000002 14) (dec (-64999999999997725) 19) (dec (-68261368779687362) 33) (dec 9096889908022376 34);
  q4 (dec 31414999999999998 14) (dec (-64999999999997725) 19) (dec 17347234759768071 36) (dec 0 0);
  q4 (dec 31382499999999999 14) (dec (-64999999999997725) 19) (dec 17347234759768071 36) (dec 0 0);
  q4 (dec 3135 1) (dec (-64999999999997725) 19) (dec 17347234759768071 36) (dec 0 0);
  q4 (dec 31317500000000001 14) (dec (-64999999999997725) 19) (dec 17347234759768071 36) (dec 0 0);
  q4 (dec 31285000000000002 14) (dec (-64999999999997725) 19) (dec (-68261368779687362) 33) (dec 9096889908022376 34);
  q4 (dec 31252499999999998 14) (dec (-64999999999997725) 19) (dec 17347234759768071 36) (dec 0 0);
  q4 (dec 31219999999999999 14) (dec (-64999999999997725) 19) (dec 17347234759768071 36) (dec 0 0);
  q4 (dec 311875 3) (dec (-64999999999997725) 19) (dec 17347234759768071 36) (dec 0 0);
  q4 (dec 31155000000000001 14) (dec (-64999999999997725) 19) (dec 17347234759768071 36) (dec 0 0);
  q4 (dec 31122500000000002 14) (dec (-64999999999997725) 19) (dec (-68261368779687362) 33) (dec 9096889908022376 34);
  q4 (dec 31089999999999998 14) (dec (-64999999999997725) 19) (dec 17347234759768071 36) (dec 0 0);
  q4 (dec 31057499999999999 14) (dec (-64999999999997725) 19) (dec 17347234759768071 36) (dec 0 0);
  q4 (dec 31025 2) (dec (-64999999999997725) 19) (dec 17347234759768071 36) (dec 0 0);
  q4 (dec 30992500000000001 14) (dec (-64999999999997725) 19) (dec 17347234759768071 36) (dec 0 0);
  q4 (dec 30960000000000002 14) (dec (-64999999999997725) 19) (dec (-68261368779687362) 33) (dec 9096889908022376 34);
  q4 (dec 30927499999999998 14) (dec (-64999999999997725) 19) (dec 17347234759768071 36) (dec 0 0);
  q4 (dec 30894999999999999 14) (dec (-64999999999997725) 19) (dec 17347234759768071 36) (dec 0 0);
  q4 (dec 308625 3) (dec (-64999999999997725) 19) (dec 17347234759768071 36) (dec 0 0);
  q4 (dec 30830000000000001 14) (dec (-64999999999997725) 19) (dec 17347234759768071 36) (dec 0 0);
  q4 (dec 30797500000000002 14) (dec (-64999999999997725) 19) (dec (-68261368779687362) 33) (dec 9096889908022376 34);
  q4 (dec 30764999999999998 14) (dec (-64999999999997725) 19) (dec 17347234759768071 36) (dec 0 0);
  q4 (dec 30732499999999999 14) (dec (-64999999999997725) 19) (dec 17347234759768071 36) (dec 0 0);
  q4 (dec 307 0) (dec (-64999999999997725) 19) (dec 17347234759768071 36) (dec 0 0);
  q4 (dec 30667500000000001 14) (dec (-64999999999997725) 19) (dec 17347234759768071 36) (dec 0 0);
  q4 (dec 30635000000000002 14) (dec (-64999999999997725) 19) (dec (-68261368779687362) 33) (dec 9096889908022376 34);
  q4 (dec 30602499999999998 14) (dec (-64999999999997725) 19) (dec 17347234759768071 36) (dec 0 0);
  q4 (dec 30569999999999999 14) (dec (-64999999999997725) 19) (dec 17347234759768071 36) (dec 0 0);
  q4 (dec 305375 3) (dec (-64999999999997725) 19) (dec 17347234759768071 36) (dec 0 0);
  q4 (dec 30505000000000001 14) (dec (-64999999999997725) 19) (dec 17347234759768071 36) (dec 0 0);
  q4 (dec 30472500000000002 14) (dec (-64999999999997725) 19) (dec (-68261368779687362) 33) (dec 9096889908022376 34);
  q4 (dec 30439999999999998 14) (dec (-64999999999997725) 19) (dec 17347234759768071 36) (dec 0 0);
  q4 (dec 30407499999999999 14) (dec (-64999999999997725) 19) (dec 17347234759768071 36) (dec 0 0);
  q4 (dec 30375 2) (dec (-64999999999997725) 19) (dec 17347234759768071 36) (dec 0 0);
  q4 (dec 30342500000000001 14) (dec (-64999999999997725) 19) (dec 17347234759768071 36) (dec 0 0);
  q4 (dec 30310000000000002 14) (dec (-64999999999997725) 19) (dec (-68261368779687362) 33) (dec 9096889908022376 34);
  q4 (dec 30277499999999998 14) (dec (-64999999999997725) 19) (dec 17347234759768071 36) (dec 0 0);
  q4 (dec 30244999999999999 14) (dec (-64999999999997725) 19) (dec 17347234759768071 36) (dec 0 0);
  q4 (dec 302125 3) (dec (-64999999999997725) 19) (dec 17347234759768071 36) (dec 0 0);
  q4 (dec 30180000000000001 14) (dec (-64999999999997725) 19) (dec 17347234759768071 36) (dec 0 0);
  q4 (dec 30147500000000002 14) (dec (-64999999999997725) 19) (dec (-68261368779687362) 33) (dec 9096889908022376 34);
  q4 (dec 30114999999999998 14) (dec (-64999999999997725) 19) (dec 17347234759768071 36) (dec 0 0);
  q4 (dec 30082499999999999 14) (dec (-64999999999997725) 19) (dec 17347234759768071 36) (dec 0 0);
  q4 (dec 3005 1) (dec (-64999999999997725) 19) (dec 17347234759768071 36) (dec 0 0);
  q4 (dec 30017500000000001 14) (dec (-64999999999997725) 19) (dec 17347234759768071 36) (dec 0 0);
  q4 (dec 29985000000000002 14) (dec (-64999999999997725) 19) (dec (-68261368779687362) 33) (dec 9096889908022376 34);
  q4 (dec 29952499999999998 14) (dec (-64999999999997725) 19) (dec 17347234759768071 36) (dec 0 0);
  q4 (dec 29919999999999999 14) (dec (-64999999999997725) 19) (dec 17347234759768071 36) (dec 0 0);
  q4 (dec 298875 3) (dec (-64999999999997725) 19) (dec 17347234759768071 36) (dec 0 0);
  q4 (dec 29855000000000001 14) (dec (-64999999999997725) 19) (dec 17347234759768071 36) (dec 0 0);
  q4 (dec 29822500000000002 14) (dec (-64999999999997725) 19) (dec (-68261368779687362) 33) (dec 9096889908022376 34);
  q4 (dec 29789999999999998 14) (dec (-64999999999997725) 19) (dec 17347234759768071 36) (dec 0 0);
  q4 (dec 29757499999999999 14) (dec (-64999999999997725) 19) (dec 17347234759768071 36) (dec 0 0);
  q4 (dec 29725 2) (dec (-64999999999997725) 19) (dec 17347234759768071 36) (dec 0 0);
  q4 (dec 29692500000000001 14) (dec (-64999999999997725) 19) (dec 17347234759768071 36) (dec 0 0);
  q4 (dec 29660000000000002 14) (dec (-64999999999997725) 19) (dec (-68261368779687362) 33) (dec 9096889908022376 34);
  q4 (dec 29627499999999998 14) (dec (-64999999999997725) 19) (dec 17347234759768071 36) (dec 0 0);
  q4 (dec 29594999999999999 14) (dec (-64999999999997725) 19) (dec 17347234759768071 36) (dec 0 0);
  q4 (dec 295625 3) (dec (-64999999999997725) 19) (dec 17347234759768071 36) (dec 0 0);
  q4 (dec 29530000000000001 14) (dec (-64999999999997725) 19) (dec 17347234759768071 36) (dec 0 0);
  q4 (dec 29497500000000002 14) (dec (-64999999999997725) 19) (dec (-68261368779687362) 33) (dec 9096889908022376 34);
  q4 (dec 29464999999999998 14) (dec (-64999999999997725) 19) (dec 17347234759768071 36) (dec 0 0);
  q4 (dec 29432499999999999 14) (dec (-64999999999997725) 19) (dec 17347234759768071 36) (dec 0 0);
  q4 (dec 294 0) (dec (-64999999999997725) 19) (dec 17347234759768071 36) (dec 0 0);
  q4 (dec 29367500000000001 14) (dec (-64999999999997725) 19) (dec 17347234759768071 36) (dec 0 0);
  q4 (dec 29335000000000002 14) (dec (-64999999999997725) 19) (dec (-68261368779687362) 33) (dec 9096889908022376 34);
  q4 (dec 29302499999999998 14) (dec (-64999999999997725) 19) (dec 17347234759768071 36) (dec 0 0);
  q4 (dec 29269999999999999 14) (dec (-64999999999997725) 19) (dec 17347234759768071 36) (dec 0 0);
  q4 (dec 292375 3) (dec (-64999999999997725) 19) (dec 17347234759768071 36) (dec 0 0);
  q4 (dec 29205000000000001 14) (dec (-64999999999997725) 19) (dec 17347234759768071 36) (dec 0 0);
  q4 (dec 29172500000000002 14) (dec (-64999999999997725) 19) (dec (-68261368779687362) 33) (dec 9096889908022376 34);
  q4 (dec 29139999999999998 14) (dec (-64999999999997725) 19) (dec 17347234759768071 36) (dec 0 0);
  q4 (dec 29107499999999999 14) (dec (-64999999999997725) 19) (dec 17347234759768071 36) (dec 0 0);
  q4 (dec 29075 2) (dec (-64999999999997725) 19) (dec 17347234759768071 36) (dec 0 0);
  q4 (dec 29042500000000001 14) (dec (-64999999999997725) 19) (dec 17347234759768071 36) (dec 0 0);
  q4 (dec 29010000000000002 14) (dec (-64999999999997725) 19) (dec (-68261368779687362) 33) (dec 9096889908022376 34);
  q4 (dec 28977499999999998 14) (dec (-64999999999997725) 19) (dec 17347234759768071 36) (dec 0 0);
  q4 (dec 28944999999999999 14) (dec (-64999999999997725) 19) (dec 17347234759768071 36) (dec 0 0);
  q4 (dec 289125 3) (dec (-64999999999997725) 19) (dec 17347234759768071 36) (dec 0 0);
  q4 (dec 28880000000000001 14) (dec (-64999999999997725) 19) (dec 17347234759768071 36) (dec 0 0);
  q4 (dec 28847500000000002 14) (dec (-64999999999997725) 19) (dec (-68261368779687362) 33) (dec 9096889908022376 34);
  q4 (dec 28814999999999998 14) (dec (-64999999999997725) 19) (dec 17347234759768071 36) (dec 0 0);
  q4 (dec 28782499999999999 14) (dec (-64999999999997725) 19) (dec 17347234759768071 36) (dec 0 0);
  q4 (dec 2875 1) (dec (-64999999999997725) 19) (dec 17347234759768071 36) (dec 0 0);
  q4 (dec 28717500000000001 14) (dec (-64999999999997725) 19) (dec 17347234759768071 36) (dec 0 0);
  q4 (dec 28685000000000002 14) (dec (-64999999999997725) 19) (dec (-68261368779687362) 33) (dec 9096889908022376 34);
  q4 (dec 28652499999999998 14) (dec (-64999999999997725) 19) (dec 17347234759768071 36) (dec 0 0);
  q4 (dec 28619999999999999 14) (dec (-64999999999997725) 19) (dec 17347234759768071 36) (dec 0 0);
  q4 (dec 285875 3) (dec (-64999999999997725) 19) (dec 17347234759768071 36) (dec 0 0);
  q4 (dec 28555000000000001 14) (dec (-64999999999997725) 19) (dec 17347234759768071 36) (dec 0 0);
  q4 (dec 28522500000000002 14) (dec (-64999999999997725) 19) (dec (-68261368779687362) 33) (dec 9096889908022376 34);
  q4 (dec 28489999999999998 14) (dec (-64999999999997725) 19) (dec 17347234759768071 36) (dec 0 0);
  q4 (dec 28457499999999999 14) (dec (-64999999999997725) 19) (dec 17347234759768071 36) (dec 0 0);
  q4 (dec 28425 2) (dec (-64999999999997725) 19) (dec 17347234759768071 36) (dec 0 0);
  q4 (dec 28392500000000001 14) (dec (-64999999999997725) 19) (dec 17347234759768071 36) (dec 0 0);
  q4 (dec 28360000000000002 14) (dec (-64999999999997725) 19) (dec (-68261368779687362) 33) (dec 9096889908022376 34);
  q4 (dec 28327499999999998 14) (dec (-64999999999997725) 19) (dec 17347234759768071 36) (dec 0 0);
  q4 (dec 28294999999999999 14) (dec (-64999999999997725) 19) (dec 17347234759768071 36) (dec 0 0);
  q4 (dec 282625 3) (dec (-64999999999997725) 19) (dec 17347234759768071 36) (dec 0 0);
  q4 (dec 28230000000000001 14) (dec (-64999999999997725) 19) (dec 17347234759768071 36) (dec 0 0);
  q4 (dec 28197500000000002 14) (dec (-64999999999997725) 19) (dec (-68261368779687362) 33) (dec 9096889908022376 34);
  q4 (dec 28164999999999998 14) (dec (-64999999999997725) 19) (dec 17347234759768071 36) (dec 0 0);
  q4 (dec 28132499999999999 14) (dec (-64999999999997725) 19) (dec 17347234759768071 36) (dec 0 0);
  q4 (dec 281 0) (dec (-64999999999997725) 19) (dec 17347234759768071 36) (dec 0 0);
  q4 (dec 28067500000000001 14) (dec (-64999999999997725) 19) (dec 17347234759768071 36) (dec 0 0);
  q4 (dec 28035000000000002 14) (dec (-64999999999997725) 19) (dec (-68261368779687362) 33) (dec 9096889908022376 34);
  q4 (dec 28002499999999998 14) (dec (-64999999999997725) 19) (dec 17347234759768071 36) (dec 0 0);
  q4 (dec 27969999999999999 14) (dec (-64999999999997725) 19) (dec 17347234759768071 36) (dec 0 0);
  q4 (dec 279375 3) (dec (-64999999999997725) 19) (dec 17347234759768071 36) (dec 0 0);
  q4 (dec 27905000000000001 14) (dec (-64999999999997725) 19) (dec 17347234759768071 36) (dec 0 0);
  q4 (dec 27872500000000002 14) (dec (-64999999999997725) 19) (dec (-68261368779687362) 33) (dec 9096889908022376 34);
  q4 (dec 27839999999999998 14) (dec (-64999999999997725) 19) (dec 17347234759768071 36) (dec 0 0);
  q4 (dec 27807499999999999 14) (dec (-64999999999997725) 19) (dec 17347234759768071 36) (dec 0 0);
  q4 (dec 27775 2) (dec (-64999999999997725) 19) (dec 17347234759768071 36) (dec 0 0);
  q4 (dec 27742500000000001 14) (dec (-64999999999997725) 19) (dec 17347234759768071 36) (dec 0 0);
  q4 (dec 27710000000000002 14) (dec (-64999999999997725) 19) (dec (-68261368779687362) 33) (dec 9096889908022376 34);
  q4 (dec 27677499999999998 14) (dec (-64999999999997725) 19) (dec 17347234759768071 36) (dec 0 0);
  q4 (dec 27644999999999999 14) (dec (-64999999999997725) 19) (dec 17347234759768071 36) (dec 0 0);
  q4 (dec 276125 3) (dec (-64999999999997725) 19) (dec 17347234759768071 36) (dec 0 0);
  q4 (dec 27580000000000001 14) (dec (-64999999999997725) 19) (dec 17347234759768071 36) (dec 0 0);
  q4 (dec 27547500000000002 14) (dec (-64999999999997725) 19) (dec (-68261368779687362) 33) (dec 9096889908022376 34);
  q4 (dec 27514999999999998 14) (dec (-64999999999997725) 19) (dec 17347234759768071 36) (dec 0 0);
  q4 (dec 27482499999999999 14) (dec (-64999999999997725) 19) (dec 17347234759768071 36) (dec 0 0);
  q4 (dec 2745 1) (dec (-64999999999997725) 19) (dec 17347234759768071 36) (dec 0 0);
  q4 (dec 27417500000000001 14) (dec (-64999999999997725) 19) (dec 17347234759768071 36) (dec 0 0);
  q4 (dec 27385000000000002 14) (dec (-64999999999997725) 19) (dec (-68261368779687362) 33) (dec 9096889908022376 34);
  q4 (dec 27352499999999998 14) (dec (-64999999999997725) 19) (dec 17347234759768071 36) (dec 0 0);
  q4 (dec 27319999999999999 14) (dec (-64999999999997725) 19) (dec 17347234759768071 36) (dec 0 0);
  q4 (dec 272875 3) (dec (-64999999999997725) 19) (dec 17347234759768071 36) (dec 0 0);
  q4 (dec 27255000000000001 14) (dec (-64999999999997725) 19) (dec 17347234759768071 36) (dec 0 0);
  q4 (dec 27222500000000002 14) (dec (-64999999999997725) 19) (dec (-68261368779687362) 33) (dec 9096889908022376 34);
  q4 (dec 27189999999999998 14) (dec (-64999999999997725) 19) (dec 17347234759768071 36) (dec 0 0);
  q4 (dec 27157499999999999 14) (dec (-64999999999997725) 19) (dec 17347234759768071 36) (dec 0 0);
  q4 (dec 27125 2) (dec (-64999999999997725) 19) (dec 17347234759768071 36) (dec 0 0);
  q4 (dec 27092500000000001 14) (dec (-64999999999997725) 19) (dec 17347234759768071 36) (dec 0 0);
  q4 (dec 27060000000000002 14) (dec (-64999999999997725) 19) (dec (-68261368779687362) 33) (dec 9096889908022376 34);
  q4 (dec 27027499999999998 14) (dec (-64999999999997725) 19) (dec 17347234759768071 36) (dec 0 0);
  q4 (dec 26994999999999999 14) (dec (-64999999999997725) 19) (dec 17347234759768071 36) (dec 0 0);
  q4 (dec 269625 3) (dec (-64999999999997725) 19) (dec 17347234759768071 36) (dec 0 0);
  q4 (dec 26930000000000001 14) (dec (-64999999999997725) 19) (dec 17347234759768071 36) (dec 0 0);
  q4 (dec 26897500000000002 14) (dec (-64999999999997725) 19) (dec (-68261368779687362) 33) (dec 9096889908022376 34);
  q4 (dec 26864999999999998 14) (dec (-64999999999997725) 19) (dec 17347234759768071 36) (dec 0 0);
  q4 (dec 26832499999999999 14) (dec (-64999999999997725) 19) (dec 17347234759768071 36) (dec 0 0);
  q4 (dec 268 0) (dec (-64999999999997725) 19) (dec 17347234759768071 36) (dec 0 0);
  q4 (dec 26767500000000001 14) (dec (-64999999999997725) 19) (dec 17347234759768071 36) (dec 0 0);
  q4 (dec 26735000000000002 14) (dec (-64999999999997725) 19) (dec (-68261368779687362) 33) (dec 9096889908022376 34);
  q4 (dec 26702499999999998 14) (dec (-64999999999997725) 19) (dec 17347234759768071 36) (dec 0 0);
  q4 (dec 26669999999999999 14) (dec (-64999999999997725) 19) (dec 17347234759768071 36) (dec 0 0);
  q4 (dec 266375 3) (dec (-64999999999997725) 19) (dec 17347234759768071 36) (dec 0 0);
  q4 (dec 26605000000000001 14) (dec (-64999999999997725) 19) (dec 17347234759768071 36) (dec 0 0);
  q4 (dec 26572500000000002 14) (dec (-64999999999997725) 19) (dec (-68261368779687362) 33) (dec 9096889908022376 34);
  q4 (dec 26539999999999998 14) (dec (-64999999999997725) 19) (dec 17347234759768071 36) (dec 0 0);
  q4 (dec 26507499999999999 14) (dec (-64999999999997725) 19) (dec 17347234759768071 36) (dec 0 0);
  q4 (dec 26475 2) (dec (-64999999999997725) 19) (dec 17347234759768071 36) (dec 0 0);
  q4 (dec 26442500000000001 14) (dec (-64999999999997725) 19) (dec 17347234759768071 36) (dec 0 0);
  q4 (dec 26410000000000002 14) (dec (-64999999999997725) 19) (dec (-68261368779687362) 33) (dec 9096889908022376 34);
  q4 (dec 26377499999999998 14) (dec (-64999999999997725) 19) (dec 17347234759768071 36) (dec 0 0);
  q4 (dec 26344999999999999 14) (dec (-64999999999997725) 19) (dec 17347234759768071 36) (dec 0 0);
  q4 (dec 263125 3) (dec (-64999999999997725) 19) (dec 17347234759768071 36) (dec 0 0);
  q4 (dec 26280000000000001 14) (dec (-64999999999997725) 19) (dec 17347234759768071 36) (dec 0 0);
  q4 (dec 26247500000000002 14) (dec (-64999999999997725) 19) (dec (-68261368779687362) 33) (dec 9096889908022376 34);
  q4 (dec 26214999999999998 14) (dec (-64999999999997725) 19) (dec 17347234759768071 36) (dec 0 0);
  q4 (dec 26182499999999999 14) (dec (-64999999999997725) 19) (dec 17347234759768071 36) (dec 0 0);
  q4 (dec 2615 1) (dec (-64999999999997725) 19) (dec 17347234759768071 36) (dec 0 0);
  q4 (dec 26117500000000001 14) (dec (-64999999999997725) 19) (dec 17347234759768071 36) (dec 0 0);
  q4 (dec 26085000000000002 14) (dec (-64999999999997725) 19) (dec (-68261368779687362) 33) (dec 9096889908022376 34);
  q4 (dec 26052499999999998 14) (dec (-64999999999997725) 19) (dec 17347234759768071 36) (dec 0 0);
  q4 (dec 26019999999999999 14) (dec (-64999999999997725) 19) (dec 17347234759768071 36) (dec 0 0);
  q4 (dec 259875 3) (dec (-64999999999997725) 19) (dec 17347234759768071 36) (dec 0 0);
  q4 (dec 25955000000000001 14) (dec (-64999999999997725) 19) (dec 17347234759768071 36) (dec 0 0);
  q4 (dec 25922500000000002 14) (dec (-64999999999997725) 19) (dec (-68261368779687362) 33) (dec 9096889908022376 34);
  q4 (dec 25889999999999998 14) (dec (-64999999999997725) 19) (dec 17347234759768071 36) (dec 0 0);
  q4 (dec 25857499999999999 14) (dec (-64999999999997725) 19) (dec 17347234759768071 36) (dec 0 0);
  q4 (dec 25825 2) (dec (-64999999999997725) 19) (dec 17347234759768071 36) (dec 0 0);
  q4 (dec 25792500000000001 14) (dec (-64999999999997725) 19) (dec 17347234759768071 36) (dec 0 0);
  q4 (dec 25760000000000002 14) (dec (-64999999999997725) 19) (dec (-68261368779687362) 33) (dec 9096889908022376 34);
  q4 (dec 25727499999999998 14) (dec (-64999999999997725) 19) (dec 17347234759768071 36) (dec 0 0);
  q4 (dec 25694999999999999 14) (dec (-64999999999997725) 19) (dec 34694469519536143 36) (dec (-69388939039072287) 38);
  q4 (dec 256625 3) (dec (-64999999999997733) 19) (dec 69388939039072285 36) (dec (-69388939039072287) 38);
  q4 (dec 25630000000000001 14) (dec (-64999999999997733) 19) (dec (-28397423301740334) 33) (dec 34069969068184495 35);
  q4 (dec 25597499999999999 14) (dec (-65000000000000569) 19) (dec 17087026238371549 33) (dec (-22759572004815711) 35);
  q4 (dec 25565000000000001 14) (dec (-65000000000000569) 19) (dec (-22724877535296172) 33) (dec 34069969068184495 35);
  q4 (dec 25532499999999999 14) (dec (-64999999999997733) 19) (dec 69388939039072285 36) (dec (-69388939039072287) 38);
  q4 (dec 255 0) (dec (-64999999999997733) 19) (dec 69388939039072285 36) (dec (-69388939039072287) 38);
  q4 (dec 25467500000000001 14) (dec (-64999999999997733) 19) (dec (-28397423301740334) 33) (dec 34069969068184495 35);
  q4 (dec 25434999999999999 14) (dec (-65000000000000569) 19) (dec 17087026238371549 33) (dec (-22759572004815711) 35);
  q4 (dec 25402500000000001 14) (dec (-65000000000000569) 19) (dec (-22724877535296172) 33) (dec 34069969068184495 35);
  q4 (dec 25369999999999999 14) (dec (-64999999999997733) 19) (dec 69388939039072285 36) (dec (-69388939039072287) 38);
  q4 (dec 253375 3) (dec (-64999999999997733) 19) (dec 69388939039072285 36) (dec (-69388939039072287) 38);
  q4 (dec 25305000000000001 14) (dec (-64999999999997733) 19) (dec (-28397423301740334) 33) (dec 34069969068184495 35);
  q4 (dec 25272499999999999 14) (dec (-65000000000000569) 19) (dec 17087026238371549 33) (dec (-22759572004815711) 35);
  q4 (dec 25240000000000001 14) (dec (-65000000000000569) 19) (dec (-22724877535296172) 33) (dec 34069969068184495 35);
  q4 (dec 25207499999999999 14) (dec (-64999999999997733) 19) (dec 69388939039072285 36) (dec (-69388939039072287) 38);
  q4 (dec 25175 2) (dec (-64999999999997733) 19) (dec 69388939039072285 36) (dec (-69388939039072287) 38);
  q4 (dec 25142500000000001 14) (dec (-64999999999997733) 19) (dec (-28397423301740334) 33) (dec 34069969068184495 35);
  q4 (dec 25109999999999999 14) (dec (-65000000000000569) 19) (dec 17087026238371549 33) (dec (-22759572004815711) 35);
  q4 (dec 25077500000000001 14) (dec (-65000000000000569) 19) (dec (-22724877535296172) 33) (dec 34069969068184495 35);
  q4 (dec 25044999999999999 14) (dec (-64999999999997733) 19) (dec 69388939039072285 36) (dec (-69388939039072287) 38);
  q4 (dec 250125 3) (dec (-64999999999997733) 19) (dec 69388939039072285 36) (dec (-69388939039072287) 38);
  q4 (dec 24980000000000001 14) (dec (-64999999999997733) 19) (dec (-28397423301740334) 33) (dec 34069969068184495 35);
  q4 (dec 24947499999999999 14) (dec (-65000000000000569) 19) (dec 17087026238371549 33) (dec (-22759572004815711) 35);
  q4 (dec 24915000000000001 14) (dec (-65000000000000569) 19) (dec (-22724877535296172) 33) (dec 34069969068184495 35);
  q4 (dec 24882499999999999 14) (dec (-64999999999997733) 19) (dec 69388939039072285 36) (dec (-69388939039072287) 38);
  q4 (dec 2485 1) (dec (-64999999999997733) 19) (dec 69388939039072285 36) (dec (-69388939039072287) 38);
  q4 (dec 24817500000000001 14) (dec (-64999999999997733) 19) (dec (-28397423301740334) 33) (dec 34069969068184495 35);
  q4 (dec 24784999999999999 14) (dec (-65000000000000569) 19) (dec 17087026238371549 33) (dec (-22759572004815711) 35);
  q4 (dec 24752500000000001 14) (dec (-65000000000000569) 19) (dec (-22724877535296172) 33) (dec 34069969068184495 35);
  q4 (dec 24719999999999999 14) (dec (-64999999999997733) 19) (dec 69388939039072285 36) (dec (-69388939039072287) 38);
  q4 (dec 246875 3) (dec (-64999999999997733) 19) (dec 69388939039072285 36) (dec (-69388939039072287) 38);
  q4 (dec 24655000000000001 14) (dec (-64999999999997733) 19) (dec (-28397423301740334) 33) (dec 34069969068184495 35);
  q4 (dec 24622499999999999 14) (dec (-65000000000000569) 19) (dec 17087026238371549 33) (dec (-22759572004815711) 35);
  q4 (dec 24590000000000001 14) (dec (-65000000000000569) 19) (dec (-22724877535296172) 33) (dec 34069969068184495 35);
  q4 (dec 24557499999999999 14) (dec (-64999999999997733) 19) (dec 69388939039072285 36) (dec (-69388939039072287) 38);
  q4 (dec 24525 2) (dec (-64999999999997733) 19) (dec 69388939039072285 36) (dec (-69388939039072287) 38);
  q4 (dec 24492500000000001 14) (dec (-64999999999997733) 19) (dec (-28397423301740334) 33) (dec 34069969068184495 35);
  q4 (dec 24459999999999999 14) (dec (-65000000000000569) 19) (dec 17087026238371549 33) (dec (-22759572004815711) 35);
  q4 (dec 24427500000000001 14) (dec (-65000000000000569) 19) (dec (-22724877535296172) 33) (dec 34069969068184495 35);
  q4 (dec 24394999999999999 14) (dec (-64999999999997733) 19) (dec 69388939039072285 36) (dec (-69388939039072287) 38);
  q4 (dec 243625 3) (dec (-64999999999997733) 19) (dec 69388939039072285 36) (dec (-69388939039072287) 38);
  q4 (dec 24330000000000001 14) (dec (-64999999999997733) 19) (dec (-28397423301740334) 33) (dec 34069969068184495 35);
  q4 (dec 24297499999999999 14) (dec (-65000000000000569) 19) (dec 17087026238371549 33) (dec (-22759572004815711) 35);
  q4 (dec 24265000000000001 14) (dec (-65000000000000569) 19) (dec (-22724877535296172) 33) (dec 34069969068184495 35);
  q4 (dec 24232499999999999 14) (dec (-64999999999997733) 19) (dec 69388939039072285 36) (dec (-69388939039072287) 38);
  q4 (dec 242 0) (dec (-64999999999997733) 19) (dec 69388939039072285 36) (dec (-69388939039072287) 38);
  q4 (dec 24167500000000001 14) (dec (-64999999999997733) 19) (dec (-28397423301740334) 33) (dec 34069969068184495 35);
  q4 (dec 24134999999999999 14) (dec (-65000000000000569) 19) (dec 17087026238371549 33) (dec (-22759572004815711) 35);
  q4 (dec 24102500000000001 14) (dec (-65000000000000569) 19) (dec (-22724877535296172) 33) (dec 34069969068184495 35);
  q4 (dec 24069999999999999 14) (dec (-64999999999997733) 19) (dec 69388939039072285 36) (dec (-69388939039072287) 38);
  q4 (dec 240375 3) (dec (-64999999999997733) 19) (dec 69388939039072285 36) (dec (-69388939039072287) 38);
  q4 (dec 24005000000000001 14) (dec (-64999999999997733) 19) (dec (-28397423301740334) 33) (dec 34069969068184495 35);
  q4 (dec 23972499999999999 14) (dec (-65000000000000569) 19) (dec 17087026238371549 33) (dec (-22759572004815711) 35);
  q4 (dec 23940000000000001 14) (dec (-65000000000000569) 19) (dec (-22724877535296172) 33) (dec 34069969068184495 35);
  q4 (dec 23907499999999999 14) (dec (-64999999999997733) 19) (dec 69388939039072285 36) (dec (-69388939039072287) 38);
  q4 (dec 23875 2) (dec (-64999999999997733) 19) (dec 69388939039072285 36) (dec (-69388939039072287) 38);
  q4 (dec 23842500000000001 14) (dec (-64999999999997733) 19) (dec (-28397423301740334) 33) (dec 34069969068184495 35);
  q4 (dec 23809999999999999 14) (dec (-65000000000000569) 19) (dec 17087026238371549 33) (dec (-22759572004815711) 35);
  q4 (dec 23777500000000001 14) (dec (-65000000000000569) 19) (dec (-22724877535296172) 33) (dec 34069969068184495 35);
  q4 (dec 23744999999999999 14) (dec (-64999999999997733) 19) (dec 69388939039072285 36) (dec (-69388939039072287) 38);
  q4 (dec 237125 3) (dec (-64999999999997733) 19) (dec 69388939039072285 36) (dec (-69388939039072287) 38);
  q4 (dec 23680000000000001 14) (dec (-64999999999997733) 19) (dec (-28397423301740334) 33) (dec 34069969068184495 35);
  q4 (dec 23647499999999999 14) (dec (-65000000000000569) 19) (dec 17087026238371549 33) (dec (-22759572004815711) 35);
  q4 (dec 23615000000000001 14) (dec (-65000000000000569) 19) (dec (-22724877535296172) 33) (dec 34069969068184495 35);
  q4 (dec 23582499999999999 14) (dec (-64999999999997733) 19) (dec 69388939039072285 36) (dec (-69388939039072287) 38);
  q4 (dec 2355 1) (dec (-64999999999997733) 19) (dec 69388939039072285 36) (dec (-69388939039072287) 38);
  q4 (dec 23517500000000001 14) (dec (-64999999999997733) 19) (dec (-28397423301740334) 33) (dec 34069969068184495 35);
  q4 (dec 23484999999999999 14) (dec (-65000000000000569) 19) (dec 17087026238371549 33) (dec (-22759572004815711) 35);
  q4 (dec 23452500000000001 14) (dec (-65000000000000569) 19) (dec (-22724877535296172) 33) (dec 34069969068184495 35);
  q4 (dec 23419999999999999 14) (dec (-64999999999997733) 19) (dec 69388939039072285 36) (dec (-69388939039072287) 38);
  q4 (dec 233875 3) (dec (-64999999999997733) 19) (dec 69388939039072285 36) (dec (-69388939039072287) 38);
  q4 (dec 23355000000000001 14) (dec (-64999999999997733) 19) (dec (-28397423301740334) 33) (dec 34069969068184495 35);
  q4 (dec 23322499999999999 14) (dec (-65000000000000569) 19) (dec 17087026238371549 33) (dec (-22759572004815711) 35);
  q4 (dec 23290000000000001 14) (dec (-65000000000000569) 19) (dec (-22724877535296172) 33) (dec 34069969068184495 35);
  q4 (dec 23257499999999999 14) (dec (-64999999999997733) 19) (dec 69388939039072285 36) (dec (-69388939039072287) 38);
  q4 (dec 23225 2) (dec (-64999999999997733) 19) (dec 69388939039072285 36) (dec (-69388939039072287) 38);
  q4 (dec 23192500000000001 14) (dec (-64999999999997733) 19) (dec (-28397423301740334) 33) (dec 34069969068184495 35);
  q4 (dec 23159999999999999 14) (dec (-65000000000000569) 19) (dec 17087026238371549 33) (dec (-22759572004815711) 35);
  q4 (dec 23127500000000001 14) (dec (-65000000000000569) 19) (dec (-22724877535296172) 33) (dec 34069969068184495 35);
  q4 (dec 23094999999999999 14) (dec (-64999999999997733) 19) (dec 69388939039072285 36) (dec (-69388939039072287) 38);
  q4 (dec 230625 3) (dec (-64999999999997733) 19) (dec 69388939039072285 36) (dec (-69388939039072287) 38);
  q4 (dec 23030000000000001 14) (dec (-64999999999997733) 19) (dec (-28397423301740334) 33) (dec 34069969068184495 35);
  q4 (dec 22997499999999999 14) (dec (-65000000000000569) 19) (dec 17087026238371549 33) (dec (-22759572004815711) 35);
  q4 (dec 22965000000000001 14) (dec (-65000000000000569) 19) (dec (-22724877535296172) 33) (dec 34069969068184495 35);
  q4 (dec 22932499999999999 14) (dec (-64999999999997733) 19) (dec 69388939039072285 36) (dec (-69388939039072287) 38);
  q4 (dec 229 0) (dec (-64999999999997733) 19) (dec 69388939039072285 36) (dec (-69388939039072287) 38);
  q4 (dec 22867500000000001 14) (dec (-64999999999997733) 19) (dec (-28397423301740334) 33) (dec 34069969068184495 35);
  q4 (dec 22834999999999999 14) (dec (-65000000000000569) 19) (dec 17087026238371549 33) (dec (-22759572004815711) 35);
  q4 (dec 22802500000000001 14) (dec (-65000000000000569) 19) (dec (-22724877535296172) 33) (dec 34069969068184495 35);
  q4 (dec 22769999999999999 14) (dec (-64999999999997733) 19) (dec 69388939039072285 36) (dec (-69388939039072287) 38);
  q4 (dec 227375 3) (dec (-64999999999997733) 19) (dec 69388939039072285 36) (dec (-69388939039072287) 38);
  q4 (dec 22705000000000001 14) (dec (-64999999999997733) 19) (dec (-28397423301740334) 33) (dec 34069969068184495 35);
  q4 (dec 22672499999999999 14) (dec (-65000000000000569) 19) (dec 17087026238371549 33) (dec (-22759572004815711) 35);
  q4 (dec 22640000000000001 14) (dec (-65000000000000569) 19) (dec (-22724877535296172) 33) (dec 34069969068184495 35);
  q4 (dec 22607499999999999 14) (dec (-64999999999997733) 19) (dec 69388939039072285 36) (dec (-69388939039072287) 38);
  q4 (dec 22575 2) (dec (-64999999999997733) 19) (dec 69388939039072285 36) (dec (-69388939039072287) 38);
  q4 (dec 22542500000000001 14) (dec (-64999999999997733) 19) (dec (-28397423301740334) 33) (dec 34069969068184495 35);
  q4 (dec 22509999999999999 14) (dec (-65000000000000569) 19) (dec 17087026238371549 33) (dec (-22759572004815711) 35);
  q4 (dec 22477500000000001 14) (dec (-65000000000000569) 19) (dec (-22724877535296172) 33) (dec 34069969068184495 35);
  q4 (dec 22444999999999999 14) (dec (-64999999999997733) 19) (dec 69388939039072285 36) (dec (-69388939039072287) 38);
  q4 (dec 224125 3) (dec (-64999999999997733) 19) (dec 69388939039072285 36) (dec (-69388939039072287) 38);
  q4 (dec 22380000000000001 14) (dec (-64999999999997733) 19) (dec (-28397423301740334) 33) (dec 34069969068184495 35);
  q4 (dec 22347499999999999 14) (dec (-65000000000000569) 19) (dec 17087026238371549 33) (dec (-22759572004815711) 35);
  q4 (dec 22315000000000001 14) (dec (-65000000000000569) 19) (dec (-22724877535296172) 33) (dec 34069969068184495 35);
  q4 (dec 22282499999999999 14) (dec (-64999999999997733) 19) (dec 69388939039072285 36) (dec (-69388939039072287) 38);
  q4 (dec 2225 1) (dec (-64999999999997733) 19) (dec 69388939039072285 36) (dec (-69388939039072287) 38);
  q4 (dec 22217500000000001 14) (dec (-64999999999997733) 19) (dec (-28397423301740334) 33) (dec 34069969068184495 35);
  q4 (dec 22184999999999999 14) (dec (-65000000000000569) 19) (dec 17087026238371549 33) (dec (-22759572004815711) 35);
  q4 (dec 22152500000000001 14) (dec (-65000000000000569) 19) (dec (-22724877535296172) 33) (dec 34069969068184495 35);
  q4 (dec 22119999999999999 14) (dec (-64999999999997733) 19) (dec 69388939039072285 36) (dec (-69388939039072287) 38);
  q4 (dec 220875 3) (dec (-64999999999997733) 19) (dec 69388939039072285 36) (dec (-69388939039072287) 38);
  q4 (dec 22055000000000001 14) (dec (-64999999999997733) 19) (dec (-28397423301740334) 33) (dec 34069969068184495 35);
  q4 (dec 22022499999999999 14) (dec (-65000000000000569) 19) (dec 17087026238371549 33) (dec (-22759572004815711) 35);
  q4 (dec 21990000000000001 14) (dec (-65000000000000569) 19) (dec (-22724877535296172) 33) (dec 34069969068184495 35);
  q4 (dec 21957499999999999 14) (dec (-64999999999997733) 19) (dec 69388939039072285 36) (dec (-69388939039072287) 38);
  q4 (dec 21925 2) (dec (-64999999999997733) 19) (dec 69388939039072285 36) (dec (-69388939039072287) 38);
  q4 (dec 21892500000000001 14) (dec (-64999999999997733) 19) (dec (-28397423301740334) 33) (dec 34069969068184495 35);
  q4 (dec 21859999999999999 14) (dec (-65000000000000569) 19) (dec 17087026238371549 33) (dec (-22759572004815711) 35);
  q4 (dec 21827500000000001 14) (dec (-65000000000000569) 19) (dec (-22724877535296172) 33) (dec 34069969068184495 35);
  q4 (dec 21794999999999999 14) (dec (-64999999999997733) 19) (dec 69388939039072285 36) (dec (-69388939039072287) 38);
  q4 (dec 217625 3) (dec (-64999999999997733) 19) (dec 69388939039072285 36) (dec (-69388939039072287) 38);
  q4 (dec 21730000000000001 14) (dec (-64999999999997733) 19) (dec (-22690183065776637) 33) (dec 22690183065776637 35);
  q4 (dec 21697499999999999 14) (dec (-65000000000003423) 19) (dec (-12999999999997264) 20) (dec 25999999999996812 22);
  q4 (dec 21665000000000001 14) (dec 0 0) (dec 0 0) (dec 0 0);
  q4 (dec 21665000000000001 14) (dec 0 0) (dec 0 0) (dec 0 0);
  q4 (dec 21665000000000001 14) (dec 0 0) (dec 0 0) (dec 0 0);
  q4 (dec 21665000000000001 14) (dec 0 0) (dec 0 0) (dec 0 0);
  q4 (dec 21665000000000001 14) (dec 0 0) (dec 0 0) (dec 0 0);
  q4 (dec 21665000000000001 14) (dec 0 0) (dec 0 0) (dec 0 0);
  q4 (dec 21665000000000001 14) (dec 0 0) (dec 0 0) (dec 0 0);
  q4 (dec 21665000000000001 14) (dec 0 0) (dec 0 0) (dec 0 0);
  q4 (dec 21665000000000001 14) (dec 0 0) (dec 0 0) (dec 0 0);
  q4 (dec 21665000000000001 14) (dec 0 0) (dec 0 0) (dec 0 0);
  q4 (dec 21665000000000001 14) (dec 0 0) (dec 0 0) (dec 0 0);
  q4 (dec 21665000000000001 14) (dec 0 0) (dec 0 0) (dec 0 0);
  q4 (dec 21665000000000001 14) (dec 0 0) (dec 0 0) (dec 0 0);
  q4 (dec 21665000000000001 14) (dec 0 0) (dec 0 0) (dec 0 0);
  q4 (dec 21665000000000001 14) (dec 0 0) (dec 0 0) (dec 0 0);
  q4 (dec 21665000000000001 14) (dec 0 0) (dec 0 0) (dec 0 0);
  q4 (dec 21665000000000001 14) (dec 0 0) (dec 0 0) (dec 0 0);
  q4 (dec 21665000000000001 14) (dec 0 0) (dec 0 0) (dec 0 0);
  q4 (dec 21665000000000001 14) (dec 0 0) (dec 0 0) (dec 0 0);
  q4 (dec 21665000000000001 14) (dec 0 0) (dec 0 0) (dec 0 0);
  q4 (dec 21665000000000001 14) (dec 0 0) (dec 0 0) (dec 0 0);
  q4 (dec 21665000000000001 14) (dec 0 0) (dec 0 0) (dec 0 0);
  q4 (dec 21665000000000001 14) (dec 0 0) (dec 0 0) (dec 0 0);
  q4 (dec 21665000000000001 14) (dec 0 0) (dec 0 0) (dec 0 0);
  q4 (dec 21665000000000001 14) (dec 0 0) (dec 0 0) (dec 0 0);
  q4 (dec 21665000000000001 14) (dec 0 0) (dec 0 0) (dec 0 0);
  q4 (dec 21665000000000001 14) (dec 0 0) (dec 0 0) (dec 0 0);
  q4 (dec 21665000000000001 14) (dec 0 0) (dec 0 0) (dec 0 0);
  q4 (dec 21665000000000001 14) (dec 0 0) (dec 0 0) (dec 0 0);
  q4 (dec 21665000000000001 14) (dec 0 0) (dec 0 0) (dec 0 0);
  q4 (dec 21665000000000001 14) (dec 0 0) (dec 0 0) (dec 0 0);
  q4 (dec 21665000000000001 14) (dec 0 0) (dec 0 0) (dec 0 0);
  q4 (dec 21665000000000001 14) (dec 0 0) (dec 0 0) (dec 0 0);
  q4 (dec 21665000000000001 14) (dec 0 0) (dec 0 0) (dec 0 0);
  q4 (dec 21665000000000001 14) (dec 0 0) (dec 0 0) (dec 0 0);
  q4 (dec 21665000000000001 14) (dec 0 0) (dec 0 0) (dec 0 0);
  q4 (dec 21665000000000001 14) (dec 0 0) (dec 0 0) (dec 0 0);
  q4 (dec 21665000000000001 14) (dec 0 0) (dec 0 0) (dec 0 0);
  q4 (dec 21665000000000001 14) (dec 0 0) (dec 0 0) (dec 0 0);
  q4 (dec 21665000000000001 14) (dec 0 0) (dec 0 0) (dec 0 0);
  q4 (dec 21665000000000001 14) (dec 0 0) (dec 0 0) (dec 0 0);
  q4 (dec 21665000000000001 14) (dec 0 0) (dec 0 0) (dec 0 0);
  q4 (dec 21665000000000001 14) (dec 0 0) (dec 0 0) (dec 0 0);
  q4 (dec 21665000000000001 14) (dec 0 0) (dec 0 0) (dec 0 0);
  q4 (dec 21665000000000001 14) (dec 0 0) (dec 0 0) (dec 0 0);
  q4 (dec 21665000000000001 14) (dec 0 0) (dec 0 0) (dec 0 0);
  q4 (dec 21665000000000001 14) (dec 0 0) (dec 0 0) (dec 0 0);
  q4 (dec 21665000000000001 14) (dec 0 0) (dec 0 0) (dec 0 0);
  q4 (dec 21665000000000001 14) (dec 0 0) (dec 0 0) (dec 0 0);
  q4 (dec 21665000000000001 14) (dec 0 0) (dec 0 0) (dec 0 0);
  q4 (dec 21665000000000001 14) (dec 0 0) (dec 0 0) (dec 0 0);
  q4 (dec 21665000000000001 14) (dec 0 0) (dec 0 0) (dec 0 0);
  q4 (dec 21665000000000001 14) (dec 0 0) (dec 0 0) (dec 0 0);
  q4 (dec 21665000000000001 14) (dec 0 0) (dec 0 0) (dec 0 0);
  q4 (dec 21665000000000001 14) (dec 0 0) (dec 0 0) (dec 0 0);
  q4 (dec 21665000000000001 14) (dec 0 0) (dec 0 0) (dec 0 0);
  q4 (dec 21665000000000001 14) (dec 0 0) (dec 0 0) (dec 0 0);
  q4 (dec 21665000000000001 14) (dec 0 0) (dec 0 0) (dec 0 0);
  q4 (dec 21665000000000001 14) (dec 0 0) (dec 0 0) (dec 0 0);
  q4 (dec 21665000000000001 14) (dec 0 0) (dec 0 0) (dec 0 0);
  q4 (dec 21665000000000001 14) (dec 0 0) (dec 0 0) (dec 0 0);
  q4 (dec 21665000000000001 14) (dec 0 0) (dec 0 0) (dec 0 0);
  q4 (dec 21665000000000001 14) (dec 0 0) (dec 0 0) (dec 0 0);
  q4 (dec 21665000000000001 14) (dec 0 0) (dec 0 0) (dec 0 0);
  q4 (dec 21665000000000001 14) (dec 0 0) (dec 0 0) (dec 0 0);
  q4 (dec 21665000000000001 14) (dec 0 0) (dec 0 0) (dec 0 0);
  q4 (dec 21665000000000001 14) (dec 0 0) (dec 0 0) (dec 0 0);
  q4 (dec 21665000000000001 14) (dec 0 0) (dec 0 0) (dec 0 0);
  q4 (dec 21665000000000001 14) (dec 0 0) (dec 0 0) (dec 0 0);
  q4 (dec 21665000000000001 14) (dec 0 0) (dec 0 0) (dec 0 0);
  q4 (dec 21665000000000001 14) (dec 0 0) (dec 0 0) (dec 0 0);
  q4 (dec 21665000000000001 14) (dec 0 0) (dec 0 0) (dec 0 0);
  q4 (dec 21665000000000001 14) (dec 0 0) (dec 0 0) (dec 0 0);
  q4 (dec 21665000000000001 14) (dec 0 0) (dec 0 0) (dec 0 0);
  q4 (dec 21665000000000001 14) (dec 0 0) (dec 0 0) (dec 0 0);
  q4 (dec 21665000000000001 14) (dec 0 0) (dec 0 0) (dec 0 0);
  q4 (dec 21665000000000001 14) (dec 0 0) (dec 0 0) (dec 0 0);
  q4 (dec 21665000000000001 14) (dec 0 0) (dec 0 0) (dec 0 0);
  q4 (dec 21665000000000001 14) (dec 0 0) (dec 0 0) (dec 0 0);
  q4 (dec 21665000000000001 14) (dec 0 0) (dec 0 0) (dec 0 0);
  q4 (dec 21665000000000001 14) (dec 0 0) (dec 0 0) (dec 0 0);
  q4 (dec 21665000000000001 14) (dec 0 0) (dec 0 0) (dec 0 0);
  q4 (dec 21665000000000001 14) (dec 0 0) (dec 0 0) (dec 0 0);
  q4 (dec 21665000000000001 14) (dec 0 0) (dec 0 0) (dec 0 0);
  q4 (dec 21665000000000001 14) (dec 0 0) (dec 0 0) (dec 0 0);
  q4 (dec 21665000000000001 14) (dec 0 0) (dec 0 0) (dec 0 0);
  q4 (dec 21665000000000001 14) (dec 0 0) (dec 0 0) (dec 0 0);
  q4 (dec 21665000000000001 14) (dec 0 0) (dec 0 0) (dec 0 0);
  q4 (dec 21665000000000001 14) (dec 0 0) (dec 0 0) (dec 0 0);
  q4 (dec 21665000000000001 14) (dec 0 0) (dec (-49999999999997158) 22) (dec 49999999999997159 24);
  q4 (dec 21665000000000001 14) (dec 4999999999999716 19) (dec 99999999999994316 22) (dec (-49999999999997159) 24);
  q4 (dec 21675 2) (dec 99999999999994321 20) (dec 0 0) (dec 0 0);
  q4 (dec 21684999999999999 14) (dec 99999999999994321 20) (dec 0 0) (dec 0 0);
  q4 (dec 21694999999999999 14) (dec 99999999999994321 20) (dec 85305026931159496 34) (dec (-5685556192513985) 35);
  q4 (dec 21705000000000001 14) (dec 99999999999994321 20) (dec 0 0) (dec 0 0);
  q4 (dec 21715000000000001 14) (dec 99999999999994321 20) (dec 0 0) (dec 0 0);
  q4 (dec 21725 2) (dec 99999999999994321 20) (dec 0 0) (dec 0 0);
  q4 (dec 21734999999999999 14) (dec 99999999999994321 20) (dec 0 0) (dec 0 0);
  q4 (dec 21744999999999999 14) (dec 99999999999994321 20) (dec 85305026931159496 34) (dec (-5685556192513985) 35);
  q4 (dec 21755000000000001 14) (dec 99999999999994321 20) (dec 0 0) (dec 0 0);
  q4 (dec 21765000000000001 14) (dec 99999999999994321 20) (dec 0 0) (dec 0 0);
  q4 (dec 21775 2) (dec 99999999999994321 20) (dec 0 0) (dec 0 0);
  q4 (dec 21784999999999999 14) (dec 99999999999994321 20) (dec 0 0) (dec 0 0);
  q4 (dec 21794999999999999 14) (dec 99999999999994321 20) (dec 85305026931159496 34) (dec (-5685556192513985) 35);
  q4 (dec 21805000000000001 14) (dec 99999999999994321 20) (dec 0 0) (dec 0 0);
  q4 (dec 21815000000000001 14) (dec 99999999999994321 20) (dec 0 0) (dec 0 0);
  q4 (dec 21825 2) (dec 99999999999994321 20) (dec 0 0) (dec 0 0);
  q4 (dec 21834999999999999 14) (dec 99999999999994321 20) (dec 0 0) (dec 0 0);
  q4 (dec 21844999999999999 14) (dec 99999999999994321 20) (dec 85305026931159496 34) (dec (-5685556192513985) 35);
  q4 (dec 21855000000000001 14) (dec 99999999999994321 20) (dec 0 0) (dec 0 0);
  q4 (dec 21865000000000001 14) (dec 99999999999994321 20) (dec 0 0) (dec 0 0);
  q4 (dec 21875 2) (dec 99999999999994321 20) (dec 0 0) (dec 0 0);
  q4 (dec 21884999999999999 14) (dec 99999999999994321 20) (dec 0 0) (dec 0 0);
  q4 (dec 21894999999999999 14) (dec 99999999999994321 20) (dec 85305026931159496 34) (dec (-5685556192513985) 35);
  q4 (dec 21905000000000001 14) (dec 99999999999994321 20) (dec 0 0) (dec 0 0);
  q4 (dec 21915000000000001 14) (dec 99999999999994321 20) (dec 0 0) (dec 0 0);
  q4 (dec 21925 2) (dec 99999999999994321 20) (dec 0 0) (dec 0 0);
  q4 (dec 21934999999999999 14) (dec 99999999999994321 20) (dec 0 0) (dec 0 0);
  q4 (dec 21944999999999999 14) (dec 99999999999994321 20) (dec 85305026931159496 34) (dec (-5685556192513985) 35);
  q4 (dec 21955000000000001 14) (dec 99999999999994321 20) (dec 0 0) (dec 0 0);
  q4 (dec 21965000000000001 14) (dec 99999999999994321 20) (dec 0 0) (dec 0 0);
  q4 (dec 21975 2) (dec 99999999999994321 20) (dec 0 0) (dec 0 0);
  q4 (dec 21984999999999999 14) (dec 99999999999994321 20) (dec 0 0) (dec 0 0);
  q4 (dec 21994999999999999 14) (dec 99999999999994321 20) (dec 85305026931159496 34) (dec (-5685556192513985) 35);
  q4 (dec 22005000000000001 14) (dec 99999999999994321 20) (dec 0 0) (dec 0 0);
  q4 (dec 22015000000000001 14) (dec 99999999999994321 20) (dec 0 0) (dec 0 0);
  q4 (dec 22025 2) (dec 99999999999994321 20) (dec 0 0) (dec 0 0);
  q4 (dec 22034999999999999 14) (dec 99999999999994321 20) (dec 0 0) (dec 0 0);
  q4 (dec 22044999999999999 14) (dec 99999999999994321 20) (dec 85305026931159496 34) (dec (-5685556192513985) 35);
  q4 (dec 22055000000000001 14) (dec 99999999999994321 20) (dec 0 0) (dec 0 0);
  q4 (dec 22065000000000001 14) (dec 99999999999994321 20) (dec 0 0) (dec 0 0);
  q4 (dec 22075 2) (dec 99999999999994321 20) (dec 0 0) (dec 0 0);
  q4 (dec 22084999999999999 14) (dec 99999999999994321 20) (dec 0 0) (dec 0 0);
  q4 (dec 22094999999999999 14) (dec 99999999999994321 20) (dec 85305026931159496 34) (dec (-5685556192513985) 35);
  q4 (dec 22105000000000001 14) (dec 99999999999994321 20) (dec 0 0) (dec 0 0);
  q4 (dec 22115000000000001 14) (dec 99999999999994321 20) (dec 0 0) (dec 0 0);
  q4 (dec 22125 2) (dec 99999999999994321 20) (dec 0 0) (dec 0 0);
  q4 (dec 22134999999999999 14) (dec 99999999999994321 20) (dec 0 0) (dec 0 0);
  q4 (dec 22144999999999999 14) (dec 99999999999994321 20) (dec 85305026931159496 34) (dec (-5685556192513985) 35);
  q4 (dec 22155000000000001 14) (dec 99999999999994321 20) (dec 0 0) (dec 0 0);
  q4 (dec 22165000000000001 14) (dec 99999999999994321 20) (dec 0 0) (dec 0 0);
  q4 (dec 22175 2) (dec 99999999999994321 20) (dec 0 0) (dec 0 0);
  q4 (dec 22184999999999999 14) (dec 99999999999994321 20) (dec 0 0) (dec 0 0);
  q4 (dec 22194999999999999 14) (dec 99999999999994321 20) (dec 85305026931159496 34) (dec (-5685556192513985) 35);
  q4 (dec 22205000000000001 14) (dec 99999999999994321 20) (dec 0 0) (dec 0 0);
  q4 (dec 22215000000000001 14) (dec 99999999999994321 20) (dec 0 0) (dec 0 0);
  q4 (dec 22225 2) (dec 99999999999994321 20) (dec 0 0) (dec 0 0);
  q4 (dec 22234999999999999 14) (dec 99999999999994321 20) (dec 0 0) (dec 0 0);
  q4 (dec 22244999999999999 14) (dec 99999999999994321 20) (dec 85305026931159496 34) (dec (-5685556192513985) 35);
  q4 (dec 22255000000000001 14) (dec 99999999999994321 20) (dec 0 0) (dec 0 0);
  q4 (dec 22265000000000001 14) (dec 99999999999994321 20) (dec 0 0) (dec 0 0);
  q4 (dec 22275 2) (dec 99999999999994321 20) (dec 0 0) (dec 0 0);
  q4 (dec 22284999999999999 14) (dec 99999999999994321 20) (dec 0 0) (dec 0 0);
  q4 (dec 22294999999999999 14) (dec 99999999999994321 20) (dec 85305026931159496 34) (dec (-5685556192513985) 35);
  q4 (dec 22305000000000001 14) (dec 99999999999994321 20) (dec 0 0) (dec 0 0);
  q4 (dec 22315000000000001 14) (dec 99999999999994321 20) (dec 0 0) (dec 0 0);
  q4 (dec 22325 2) (dec 99999999999994321 20) (dec 0 0) (dec 0 0);
  q4 (dec 22334999999999999 14) (dec 99999999999994321 20) (dec 0 0) (dec 0 0);
  q4 (dec 22344999999999999 14) (dec 99999999999994321 20) (dec 85305026931159496 34) (dec (-5685556192513985) 35);
  q4 (dec 22355000000000001 14) (dec 99999999999994321 20) (dec 0 0) (dec 0 0);
  q4 (dec 22365000000000001 14) (dec 99999999999994321 20) (dec 0 0) (dec 0 0);
  q4 (dec 22375 2) (dec 99999999999994321 20) (dec 0 0) (dec 0 0);
  q4 (dec 22384999999999999 14) (dec 99999999999994321 20) (dec 0 0) (dec 0 0);
  q4 (dec 22394999999999999 14) (dec 99999999999994321 20) (dec 85305026931159496 34) (dec (-5685556192513985) 35);
  q4 (dec 22405000000000001 14) (dec 99999999999994321 20) (dec 0 0) (dec 0 0);
  q4 (dec 22415000000000001 14) (dec 99999999999994321 20) (dec 0 0) (dec 0 0);
  q4 (dec 22425 2) (dec 99999999999994321 20) (dec 0 0) (dec 0 0);
  q4 (dec 22434999999999999 14) (dec 99999999999994321 20) (dec 0 0) (dec 0 0);
  q4 (dec 22444999999999999 14) (dec 99999999999994321 20) (dec 85305026931159496 34) (dec (-5685556192513985) 35);
  q4 (dec 22455000000000001 14) (dec 99999999999994321 20) (dec 0 0) (dec 0 0);
  q4 (dec 22465000000000001 14) (dec 99999999999994321 20) (dec 0 0) (dec 0 0);
  q4 (dec 22475 2) (dec 99999999999994321 20) (dec 0 0) (dec 0 0);
  q4 (dec 22484999999999999 14) (dec 99999999999994321 20) (dec 0 0) (dec 0 0);
  q4 (dec 22494999999999999 14) (dec 99999999999994321 20) (dec 85305026931159496 34) (dec (-5685556192513985) 35);
  q4 (dec 22505000000000001 14) (dec 99999999999994321 20) (dec 0 0) (dec 0 0);
  q4 (dec 22515000000000001 14) (dec 99999999999994321 20) (dec 0 0) (dec 0 0);
  q4 (dec 22525 2) (dec 99999999999994321 20) (dec 0 0) (dec 0 0);
  q4 (dec 22534999999999999 14) (dec 99999999999994321 20) (dec 0 0) (dec 0 0);
  q4 (dec 22544999999999999 14) (dec 99999999999994321 20) (dec 85305026931159496 34) (dec (-5685556192513985) 35);
  q4 (dec 22555000000000001 14) (dec 99999999999994321 20) (dec 0 0) (dec 0 0);
  q4 (dec 22565000000000001 14) (dec 99999999999994321 20) (dec 0 0) (dec 0 0);
  q4 (dec 22575 2) (dec 99999999999994321 20) (dec 0 0) (dec 0 0);
  q4 (dec 22584999999999999 14) (dec 99999999999994321 20) (dec 0 0) (dec 0 0);
  q4 (dec 22594999999999999 14) (dec 99999999999994321 20) (dec 85305026931159496 34) (dec (-5685556192513985) 35);
  q4 (dec 22605000000000001 14) (dec 99999999999994321 20) (dec 0 0) (dec 0 0);
  q4 (dec 22615000000000001 14) (dec 99999999999994321 20) (dec 0 0) (dec 0 0);
  q4 (dec 22625 2) (dec 99999999999994321 20) (dec 0 0) (dec 0 0);
  q4 (dec 22634999999999999 14) (dec 99999999999994321 20) (dec 0 0) (dec 0 0);
  q4 (dec 22644999999999999 14) (dec 99999999999994321 20) (dec 85305026931159496 34) (dec (-5685556192513985) 35);
  q4 (dec 22655000000000001 14) (dec 99999999999994321 20) (dec 0 0) (dec 0 0);
  q4 (dec 22665000000000001 14) (dec 99999999999994321 20) (dec 0 0) (dec 0 0);
  q4 (dec 22675 2) (dec 99999999999994321 20) (dec 0 0) (dec 0 0);
  q4 (dec 22684999999999999 14) (dec 99999999999994321 20) (dec 0 0) (dec 0 0);
  q4 (dec 22694999999999999 14) (dec 99999999999994321 20) (dec 85305026931159496 34) (dec (-5685556192513985) 35);
  q4 (dec 22705000000000001 14) (dec 99999999999994321 20) (dec 0 0) (dec 0 0);
  q4 (dec 22715000000000001 14) (dec 99999999999994321 20) (dec 0 0) (dec 0 0);
  q4 (dec 22725 2) (dec 99999999999994321 20) (dec 0 0) (dec 0 0);
  q4 (dec 22734999999999999 14) (dec 99999999999994321 20) (dec 0 0) (dec 0 0);
  q4 (dec 22744999999999999 14) (dec 99999999999994321 20) (dec 85305026931159496 34) (dec (-5685556192513985) 35);
  q4 (dec 22755000000000001 14) (dec 99999999999994321 20) (dec 0 0) (dec 0 0);
  q4 (dec 22765000000000001 14) (dec 99999999999994321 20) (dec 0 0) (dec 0 0);
  q4 (dec 22775 2) (dec 99999999999994321 20) (dec 0 0) (dec 0 0);
  q4 (dec 22784999999999999 14) (dec 99999999999994321 20) (dec 0 0) (dec 0 0);
  q4 (dec 22794999999999999 14) (dec 99999999999994321 20) (dec 85305026931159496 34) (dec (-5685556192513985) 35);
  q4 (dec 22805000000000001 14) (dec 99999999999994321 20) (dec 0 0) (dec 0 0);
  q4 (dec 22815000000000001 14) (dec 99999999999994321 20) (dec 0 0) (dec 0 0);
  q4 (dec 22825 2) (dec 99999999999994321 20) (dec 0 0) (dec 0 0);
  q4 (dec 22834999999999999 14) (dec 99999999999994321 20) (dec 0 0) (dec 0 0);
  q4 (dec 22844999999999999 14) (dec 99999999999994321 20) (dec 56877245968589564 34) (dec (-28406096919120217) 36);
  q4 (dec 22855000000000001 14) (dec 10000000000002273 19) (dec (-18000000000006363) 21) (dec 1800000000000352 22);
  q4 (dec 22865000000000001 14) (dec 28000000000000112 19) (dec 21684043449710089 37) (dec 0 0);
  q4 (dec 22921000000000001 14) (dec 28000000000000112 19) (dec 21684043449710089 37) (dec 0 0);
  q4 (dec 22977000000000001 14) (dec 28000000000000112 19) (dec 21684043449710089 37) (dec 0 0);
  q4 (dec 23033000000000001 14) (dec 28000000000000112 19) (dec (-21228678537266179) 34) (dec 7090682208055199 36);
  q4 (dec 23088999999999999 14) (dec 28000000000000112 19) (dec 21684043449710089 37) (dec 0 0);
  q4 (dec 23144999999999999 14) (dec 28000000000000112 19) (dec 21684043449710089 37) (dec 0 0);
  q4 (dec 23200999999999999 14) (dec 28000000000000112 19) (dec 21684043449710089 37) (dec 0 0);
  q4 (dec 23256999999999999 14) (dec 28000000000000112 19) (dec 21684043449710089 37) (dec 0 0);
  q4 (dec 23313 2) (dec 28000000000000112 19) (dec 21684043449710089 37) (dec 0 0);
  q4 (dec 23369 2) (dec 28000000000000112 19) (dec 21684043449710089 37) (dec 0 0);
  q4 (dec 23425 2) (dec 28000000000000112 19) (dec 21684043449710089 37) (dec 0 0);
  q4 (dec 23481 2) (dec 28000000000000112 19) (dec 21684043449710089 37) (dec 0 0);
  q4 (dec 23537 2) (dec 28000000000000112 19) (dec 21684043449710089 37) (dec 0 0);
  q4 (dec 23593000000000001 14) (dec 28000000000000112 19) (dec 21684043449710089 37) (dec 0 0);
  q4 (dec 23649000000000001 14) (dec 28000000000000112 19) (dec 21684043449710089 37) (dec 0 0);
  q4 (dec 23705000000000001 14) (dec 28000000000000112 19) (dec 21684043449710089 37) (dec 0 0);
  q4 (dec 23761000000000001 14) (dec 28000000000000112 19) (dec (-21228678537266179) 34) (dec 7090682208055199 36);
  q4 (dec 23816999999999999 14) (dec 28000000000000112 19) (dec 21684043449710089 37) (dec 0 0);
  q4 (dec 23872999999999999 14) (dec 28000000000000112 19) (dec 21684043449710089 37) (dec 0 0);
  q4 (dec 23928999999999999 14) (dec 28000000000000112 19) (dec 21684043449710089 37) (dec 0 0);
  q4 (dec 23984999999999999 14) (dec 28000000000000112 19) (dec 21684043449710089 37) (dec 0 0);
  q4 (dec 24041 2) (dec 28000000000000112 19) (dec 21684043449710089 37) (dec 0 0);
  q4 (dec 24097 2) (dec 28000000000000112 19) (dec 21684043449710089 37) (dec 0 0);
  q4 (dec 24153 2) (dec 28000000000000112 19) (dec 21684043449710089 37) (dec 0 0);
  q4 (dec 24209 2) (dec 28000000000000112 19) (dec 21684043449710089 37) (dec 0 0);
  q4 (dec 24265000000000001 14) (dec 28000000000000112 19) (dec 21684043449710089 37) (dec 0 0);
  q4 (dec 24321000000000001 14) (dec 28000000000000112 19) (dec 21684043449710089 37) (dec 0 0);
  q4 (dec 24377000000000001 14) (dec 28000000000000112 19) (dec 21684043449710089 37) (dec 0 0);
  q4 (dec 24433000000000001 14) (dec 28000000000000112 19) (dec (-21228678537266179) 34) (dec 7090682208055199 36);
  q4 (dec 24488999999999999 14) (dec 28000000000000112 19) (dec 21684043449710089 37) (dec 0 0);
  q4 (dec 24544999999999999 14) (dec 28000000000000112 19) (dec 21684043449710089 37) (dec 0 0);
  q4 (dec 24600999999999999 14) (dec 28000000000000112 19) (dec 21684043449710089 37) (dec 0 0);
  q4 (dec 24656999999999999 14) (dec 28000000000000112 19) (dec 21684043449710089 37) (dec 0 0);
  q4 (dec 24713 2) (dec 28000000000000112 19) (dec 21684043449710089 37) (dec 0 0);
  q4 (dec 24769 2) (dec 28000000000000112 19) (dec 21684043449710089 37) (dec 0 0);
  q4 (dec 24825 2) (dec 28000000000000112 19) (dec 21684043449710089 37) (dec 0 0);
  q4 (dec 24881 2) (dec 28000000000000112 19) (dec 21684043449710089 37) (dec 0 0);
  q4 (dec 24937 2) (dec 28000000000000112 19) (dec 21684043449710089 37) (dec 0 0);
  q4 (dec 24993000000000001 14) (dec 28000000000000112 19) (dec 21684043449710089 37) (dec 0 0);
  q4 (dec 25049000000000001 14) (dec 28000000000000112 19) (dec 21684043449710089 37) (dec 0 0);
  q4 (dec 25105000000000001 14) (dec 28000000000000112 19) (dec 21684043449710089 37) (dec 0 0);
  q4 (dec 25161000000000001 14) (dec 28000000000000112 19) (dec (-21228678537266179) 34) (dec 7090682208055199 36);
  q4 (dec 25216999999999999 14) (dec 28000000000000112 19) (dec 21684043449710089 37) (dec 0 0);
  q4 (dec 25272999999999999 14) (dec 28000000000000112 19) (dec 21684043449710089 37) (dec 0 0);
  q4 (dec 25328999999999999 14) (dec 28000000000000112 19) (dec 21684043449710089 37) (dec 0 0);
  q4 (dec 25384999999999999 14) (dec 28000000000000112 19) (dec 21684043449710089 37) (dec 0 0);
  q4 (dec 25441 2) (dec 28000000000000112 19) (dec 21684043449710089 37) (dec 0 0);
  q4 (dec 25497 2) (dec 28000000000000112 19) (dec 21684043449710089 37) (dec 0 0);
  q4 (dec 25553 2) (dec 28000000000000112 19) (dec (-21228678537266179) 34) (dec 7090682208055199 36);
  q4 (dec 25608999999999997 14) (dec 28000000000000112 19) (dec 21684043449710089 37) (dec 0 0);
  q4 (dec 25664999999999998 14) (dec 28000000000000112 19) (dec 21684043449710089 37) (dec 0 0);
  q4 (dec 25720999999999998 14) (dec 28000000000000112 19) (dec 21684043449710089 37) (dec 0 0);
  q4 (dec 25776999999999998 14) (dec 28000000000000112 19) (dec 21684043449710089 37) (dec 0 0);
  q4 (dec 25832999999999998 14) (dec 28000000000000112 19) (dec 21684043449710089 37) (dec 0 0);
  q4 (dec 25888999999999999 14) (dec 28000000000000112 19) (dec 21684043449710089 37) (dec 0 0);
  q4 (dec 25944999999999999 14) (dec 28000000000000112 19) (dec 21684043449710089 37) (dec 0 0);
  q4 (dec 26000999999999999 14) (dec 28000000000000112 19) (dec 21684043449710089 37) (dec 0 0);
  q4 (dec 26056999999999999 14) (dec 28000000000000112 19) (dec 21684043449710089 37) (dec 0 0);
  q4 (dec 26113 2) (dec 28000000000000112 19) (dec 21684043449710089 37) (dec 0 0);
  q4 (dec 26169 2) (dec 28000000000000112 19) (dec 21684043449710089 37) (dec 0 0);
  q4 (dec 26225 2) (dec 28000000000000112 19) (dec 21684043449710089 37) (dec 0 0);
  q4 (dec 26281 2) (dec 28000000000000112 19) (dec 21684043449710089 37) (dec 0 0);
  q4 (dec 26337 2) (dec 28000000000000112 19) (dec 21684043449710089 37) (dec 0 0);
  q4 (dec 26393000000000001 14) (dec 28000000000000112 19) (dec 21684043449710089 37) (dec 0 0);
  q4 (dec 26449000000000001 14) (dec 28000000000000112 19) (dec 21684043449710089 37) (dec 0 0);
  q4 (dec 26505000000000001 14) (dec 28000000000000112 19) (dec 21684043449710089 37) (dec 0 0);
  q4 (dec 26561000000000001 14) (dec 28000000000000112 19) (dec 21684043449710089 37) (dec 0 0);
  q4 (dec 26617000000000002 14) (dec 28000000000000112 19) (dec 21684043449710089 37) (dec 0 0);
  q4 (dec 26673000000000002 14) (dec 28000000000000112 19) (dec 21684043449710089 37) (dec 0 0);
  q4 (dec 26729000000000002 14) (dec 28000000000000112 19) (dec 21684043449710089 37) (dec 0 0);
  q4 (dec 26785000000000002 14) (dec 28000000000000112 19) (dec 21684043449710089 37) (dec 0 0);
  q4 (dec 26841000000000003 14) (dec 28000000000000112 19) (dec 21684043449710089 37) (dec 0 0);
  q4 (dec 26897000000000003 14) (dec 28000000000000112 19) (dec (-42565777291780902) 34) (dec 14203048459560109 36);
  q4 (dec 26952999999999997 14) (dec 28000000000000112 19) (dec 21684043449710089 37) (dec 0 0);
  q4 (dec 27008999999999997 14) (dec 28000000000000112 19) (dec 70000000000000304 22) (dec (-35000000000000135) 24);
  q4 (dec 27064999999999998 14) (dec 14000000000000056 19) (dec (-14000000000000056) 21) (dec 35000000000000141 24);
  q4 (dec 27064999999999998 14) (dec 0 0) (dec 0 0) (dec 0 0);
  q4 (dec 27064999999999998 14) (dec 0 0) (dec 0 0) (dec 0 0);
  q4 (dec 27064999999999998 14) (dec 0 0) (dec 0 0) (dec 0 0);
  q4 (dec 27064999999999998 14) (dec 0 0) (dec 0 0) (dec 0 0);
  q4 (dec 27064999999999998 14) (dec 0 0) (dec 0 0) (dec 0 0);
  q4 (dec 27064999999999998 14) (dec 0 0) (dec 0 0) (dec 0 0);
  q4 (dec 27064999999999998 14) (dec 0 0) (dec 0 0) (dec 0 0);
  q4 (dec 27064999999999998 14) (dec 0 0) (dec 0 0) (dec 0 0);
  q4 (dec 27064999999999998 14) (dec 0 0) (dec 0 0) (dec 0 0);
  q4 (dec 27064999999999998 14) (dec 0 0) (dec 0 0) (dec 0 0);
  q4 (dec 27064999999999998 14) (dec 0 0) (dec 0 0) (dec 0 0);
  q4 (dec 27064999999999998 14) (dec 0 0) (dec 0 0) (dec 0 0);
  q4 (dec 27064999999999998 14) (dec 0 0) (dec 0 0) (dec 0 0);
  q4 (dec 27064999999999998 14) (dec 0 0) (dec 0 0) (dec 0 0);
  q4 (dec 27064999999999998 14) (dec 0 0) (dec 0 0) (dec 0 0);
  q4 (dec 27064999999999998 14) (dec 0 0) (dec 27999999999999546 22) (dec (-55999999999999095) 25);
  q4 (dec 27064999999999998 14) (dec (-13999999999999772) 19) (dec (-55999999999999066) 22) (dec 55999999999999079 25);
  q4 (dec 26925 2) (dec (-27999999999999549) 19) (dec 34694469519536143 37) (dec 0 0);
  q4 (dec 26785000000000002 14) (dec (-27999999999999544) 19) (dec (-56812193838240435) 35) (dec 68001160258290845 38);
  q4 (dec 26644999999999999 14) (dec (-28000000000000112) 19) (dec 34260788650541942 35) (dec (-4544975507059235) 37);
  q4 (dec 26505000000000001 14) (dec (-28000000000000112) 19) (dec (-45449755070592348) 35) (dec 68001160258290845 38);
  q4 (dec 26364999999999998 14) (dec (-27999999999999544) 19) (dec 17347234759768071 37) (dec 0 0);
  q4 (dec 26225 2) (dec (-27999999999999544) 19) (dec 17347234759768071 37) (dec 0 0);
  q4 (dec 26085000000000002 14) (dec (-27999999999999544) 19) (dec (-56812193838240435) 35) (dec 68001160258290845 38);
  q4 (dec 25944999999999999 14) (dec (-28000000000000112) 19) (dec 34260788650541942 35) (dec (-4544975507059235) 37);
  q4 (dec 25805000000000001 14) (dec (-28000000000000112) 19) (dec (-37903707950093235) 35) (dec 53082538364890299 38);
  q4 (dec 25664999999999998 14) (dec (-27999999999999922) 19) (dec 26628005356243988 35) (dec (-37816971776294397) 38);
  q4 (dec 25525 2) (dec (-28000000000000112) 19) (dec (-86736173798840357) 38) (dec 0 0);
  q4 (dec 25384999999999999 14) (dec (-28000000000000112) 19) (dec (-86736173798840357) 38) (dec 0 0);
  q4 (dec 25244999999999999 14) (dec (-28000000000000112) 19) (dec 34260788650541942 35) (dec (-4544975507059235) 37);
  q4 (dec 25105000000000001 14) (dec (-28000000000000112) 19) (dec (-86736173798840357) 38) (dec 0 0);
  q4 (dec 24965000000000001 14) (dec (-28000000000000112) 19) (dec (-86736173798840357) 38) (dec 0 0);
  q4 (dec 24825 2) (dec (-28000000000000112) 19) (dec (-86736173798840357) 38) (dec 0 0);
  q4 (dec 24684999999999999 14) (dec (-28000000000000112) 19) (dec (-86736173798840357) 38) (dec 0 0);
  q4 (dec 24544999999999999 14) (dec (-28000000000000112) 19) (dec 34260788650541942 35) (dec (-4544975507059235) 37);
  q4 (dec 24405000000000001 14) (dec (-28000000000000112) 19) (dec (-86736173798840357) 38) (dec 0 0);
  q4 (dec 24265000000000001 14) (dec (-28000000000000112) 19) (dec (-86736173798840357) 38) (dec 0 0);
  q4 (dec 24125 2) (dec (-28000000000000112) 19) (dec (-86736173798840357) 38) (dec 0 0);
  q4 (dec 23984999999999999 14) (dec (-28000000000000112) 19) (dec (-86736173798840357) 38) (dec 0 0);
  q4 (dec 23844999999999999 14) (dec (-28000000000000112) 19) (dec 34260788650541942 35) (dec (-4544975507059235) 37);
  q4 (dec 23705000000000001 14) (dec (-28000000000000112) 19) (dec (-86736173798840357) 38) (dec 0 0);
  q4 (dec 23565000000000001 14) (dec (-28000000000000112) 19) (dec (-86736173798840357) 38) (dec 0 0);
  q4 (dec 23425 2) (dec (-28000000000000112) 19) (dec (-86736173798840357) 38) (dec 0 0);
  q4 (dec 23284999999999999 14) (dec (-28000000000000112) 19) (dec (-86736173798840357) 38) (dec 0 0);
  q4 (dec 23144999999999999 14) (dec (-28000000000000112) 19) (dec 34260788650541942 35) (dec (-4544975507059235) 37);
  q4 (dec 23005000000000001 14) (dec (-28000000000000112) 19) (dec (-86736173798840357) 38) (dec 0 0);
  q4 (dec 22865000000000001 14) (dec (-28000000000000112) 19) (dec (-86736173798840357) 38) (dec 0 0);
  q4 (dec 22725 2) (dec (-28000000000000112) 19) (dec (-86736173798840357) 38) (dec 0 0);
  q4 (dec 22584999999999999 14) (dec (-28000000000000112) 19) (dec (-86736173798840357) 38) (dec 0 0);
  q4 (dec 22444999999999999 14) (dec (-28000000000000112) 19) (dec 34260788650541942 35) (dec (-4544975507059235) 37);
  q4 (dec 22305000000000001 14) (dec (-28000000000000112) 19) (dec (-86736173798840357) 38) (dec 0 0);
  q4 (dec 22165000000000001 14) (dec (-28000000000000112) 19) (dec (-86736173798840357) 38) (dec 0 0);
  q4 (dec 22025 2) (dec (-28000000000000112) 19) (dec (-86736173798840357) 38) (dec 0 0);
  q4 (dec 21884999999999999 14) (dec (-28000000000000112) 19) (dec (-86736173798840357) 38) (dec 0 0);
  q4 (dec 21744999999999999 14) (dec (-28000000000000112) 19) (dec 22985086056692695 35) (dec (-22898349882893855) 38);
  q4 (dec 21605000000000001 14) (dec (-27999999999999549) 19) (dec (-16000000000002487) 22) (dec 3200000000000269 24);
  q4 (dec 21465000000000001 14) (dec (-2) 3) (dec 0 0) (dec 0 0);
  q4 (dec 21365000000000001 14) (dec (-2) 3) (dec 0 0) (dec 0 0);
  q4 (dec 21265000000000001 14) (dec (-2) 3) (dec 0 0) (dec 0 0);
  q4 (dec 21165000000000001 14) (dec (-2) 3) (dec 0 0) (dec 0 0);
  q4 (dec 21065000000000001 14) (dec (-2) 3) (dec 0 0) (dec 0 0);
  q4 (dec 20965000000000001 14) (dec (-2) 3) (dec 0 0) (dec 0 0);
  q4 (dec 20865000000000001 14) (dec (-2) 3) (dec 0 0) (dec 0 0);
  q4 (dec 20765000000000001 14) (dec (-2) 3) (dec 0 0) (dec 0 0);
  q4 (dec 20665000000000001 14) (dec (-2) 3) (dec 0 0) (dec 0 0);
  q4 (dec 20565000000000001 14) (dec (-2) 3) (dec 0 0) (dec 0 0);
  q4 (dec 20465000000000001 14) (dec (-2) 3) (dec 0 0) (dec 0 0);
  q4 (dec 20365000000000001 14) (dec (-2) 3) (dec 0 0) (dec 0 0);
  q4 (dec 20265000000000001 14) (dec (-2) 3) (dec 0 0) (dec 0 0);
  q4 (dec 20165000000000001 14) (dec (-2) 3) (dec 0 0) (dec 0 0);
  q4 (dec 20065000000000001 14) (dec (-2) 3) (dec 0 0) (dec 0 0);
  q4 (dec 19965000000000001 14) (dec (-2) 3) (dec 0 0) (dec 0 0);
  q4 (dec 19865000000000001 14) (dec (-2) 3) (dec 0 0) (dec 0 0);
  q4 (dec 19765000000000001 14) (dec (-2) 3) (dec 0 0) (dec 0 0);
  q4 (dec 19665000000000001 14) (dec (-2) 3) (dec 0 0) (dec 0 0);
  q4 (dec 19565000000000001 14) (dec (-2) 3) (dec 0 0) (dec 0 0);
  q4 (dec 19465000000000001 14) (dec (-2) 3) (dec 0 0) (dec 0 0);
  q4 (dec 19365000000000001 14) (dec (-2) 3) (dec 0 0) (dec 0 0);
  q4 (dec 19265000000000001 14) (dec (-2) 3) (dec 0 0) (dec 0 0);
  q4 (dec 19165000000000001 14) (dec (-2) 3) (dec 0 0) (dec 0 0);
  q4 (dec 19065000000000001 14) (dec (-2) 3) (dec 0 0) (dec 0 0);
  q4 (dec 18965000000000001 14) (dec (-2) 3) (dec 0 0) (dec 0 0);
  q4 (dec 18865000000000001 14) (dec (-2) 3) (dec 0 0) (dec 0 0);
  q4 (dec 18765000000000001 14) (dec (-2) 3) (dec 0 0) (dec 0 0)].
(** L1524-2215 *)
Definition StandardAtm1976_akima_P : list coefD := [
  q4 (dec 177687 0) (dec (-18934000000000232) 15) (dec 0 0) (dec 0 0);
  q4 (dec 177687 0) (dec (-18934000000000232) 15) (dec 81951219512298222 20) (dec 40975609758788778 23);
  q4 (dec 17674239999999999 11) (dec (-18848975609756035) 15) (dec 81951219512298222 20) (dec 0 0);
  q4 (dec 175802 0) (dec (-1876702439024373) 14) (dec 77085215296129666 20) (dec 1927130383108988 22);
  q4 (dec 17486560000000001 11) (dec (-18688493827160261) 15) (dec 79975308642282533 20) (dec 20246913569508254 23);
  q4 (dec 17393320000000001 11) (dec (-18607000000000266) 15) (dec 83012345678305625 20) (dec (-20246913569508254) 23);
  q4 (dec 17300489999999999 11) (dec (-18525506172839673) 15) (dec 77012033131126142 20) (dec 40006250973476656 23);
  q4 (dec 17208060000000001 11) (dec (-18445493670885519) 15) (dec 80937646506981762 20) (dec (-3900609470974814) 22);
  q4 (dec 17116030000000002 11) (dec (-18367481481481761) 15) (dec 75925925924792638 20) (dec 60740740755989013 23);
  q4 (dec 17024389999999999 11) (dec (-18287000000000269) 15) (dec 85037037038823368 20) (dec (-60740740756273224) 23);
  q4 (dec 16933160000000001 11) (dec (-18206518518518184) 15) (dec 74074074072896681 20) (dec 59259259273858337 23);
  q4 (dec 16842320000000001 11) (dec (-18127999999999734) 15) (dec 8101265822847381 19) (dec (-20253164575763094) 23);
  q4 (dec 16751880000000002 11) (dec (-18048506329114428) 15) (dec 76025316454327203 20) (dec 1974683546734468 22);
  q4 (dec 16661829999999999 11) (dec (-17971000000000053) 15) (dec 78987341774400483 20) (dec (-1974683546734468) 22);
  q4 (dec 16572170000000001 11) (dec (-17893493670885693) 15) (dec 76935722503726825 20) (dec 41032385343839909 23);
  q4 (dec 164829 0) (dec (-17813480519481178) 15) (dec 80960052605753678 20) (dec (-39980272877357954) 23);
  q4 (dec 16394029999999999 11) (dec (-17735518987341219) 15) (dec 72075949368951338 20) (dec 59240506297726371 23);
  q4 (dec 16305540000000002 11) (dec (-17658999999999942) 15) (dec 79999999996793747 20) (dec (-39999999961253254) 23);
  q4 (dec 16217439999999999 11) (dec (-1758200000000026) 14) (dec 74000000003131565 20) (dec 39999999961821687 23);
  q4 (dec 16129720000000001 11) (dec (-17504999999999999) 15) (dec 79999999997383499 20) (dec (-39999999961537471) 23);
  q4 (dec 16042389999999999 11) (dec (-17427999999999741) 15) (dec 72960000002545659 20) (dec 60799999961886899 23);
  q4 (dec 15955440000000002 11) (dec (-17350480000000044) 15) (dec 79919999997109421 20) (dec (-59199999968484467) 23);
  q4 (dec 15868879999999999 11) (dec (-17275000000000563) 15) (dec 70000000002536924 20) (dec 79999999976791971 23);
  q4 (dec 15782689999999999 11) (dec (-17198999999999785) 15) (dec 8103896103780528 19) (dec (-60779220764857199) 23);
  q4 (dec 15696889999999999 11) (dec (-17122519480519337) 15) (dec 71091255411616318 20) (dec 38954112550584345 23);
  q4 (dec 15611460000000001 11) (dec (-17048506666666434) 15) (dec 77013333332871532 20) (dec 0 0);
  q4 (dec 15526410000000001 11) (dec (-16971493333333569) 15) (dec 74986666666674749 20) (dec 0 0);
  q4 (dec 15441739999999999 11) (dec (-16896506666666895) 15) (dec 72026666667049713 20) (dec 19733333334670533 23);
  q4 (dec 15357439999999999 11) (dec (-16822999999999734) 15) (dec 74986666666646332 20) (dec (-197333333341021) 21);
  q4 (dec 15273510000000001 11) (dec (-16749493333333156) 15) (dec 72932237442529418 20) (dec 41088584470969641 23);
  q4 (dec 1518995 1) (dec (-16673479452055304) 15) (dec 76957808219042085 20) (dec (-39978082182869914) 23);
  q4 (dec 15106769999999998 11) (dec (-16599519999999966) 15) (dec 6909369863149806 19) (dec 38926027382615307 23);
  q4 (dec 1502395 1) (dec (-16527506849314772) 15) (dec 76027397258840782 20) (dec (-20273972585869162) 23);
  q4 (dec 149415 0) (dec (-16452999999999882) 15) (dec 72986301370633552 20) (dec 20273972592121936 23);
  q4 (dec 14859420000000001 11) (dec (-16378493150684847) 15) (dec 72986301369162734 20) (dec 59685589803848412 33);
  q4 (dec 14777710000000001 11) (dec (-1630550684931524) 14) (dec 70027397260545858 20) (dec 19726027398689896 23);
  q4 (dec 14696360000000001 11) (dec (-16233999999999796) 15) (dec 72986301370299607 20) (dec (-19726027409490146) 23);
  q4 (dec 14615370000000001 11) (dec (-16162493150685211) 15) (dec 70930349217420026 20) (dec 41119043046080608 23);
  q4 (dec 14534739999999999 11) (dec (-16088478873239339) 15) (dec 74956588849616423 20) (dec (-39976847399998407) 23);
  q4 (dec 14454480000000002 11) (dec (-16016520547944729) 15) (dec 6709627628688963 19) (dec 38896392046581242 23);
  q4 (dec 14374570000000001 11) (dec (-15946507042254339) 15) (dec 73014084506311866 20) (dec 23874235921539365 32);
  q4 (dec 14295019999999998 11) (dec (-1587349295774623) 14) (dec 71971830988584176 20) (dec (-19718309894756206) 23);
  q4 (dec 14215830000000002 11) (dec (-1580299999999974) 14) (dec 67999999996700919 20) (dec 40000000037139222 23);
  q4 (dec 14136989999999999 11) (dec (-15732000000000266) 15) (dec 74000000002580888 20) (dec (-40000000031454879) 23);
  q4 (dec 14058510000000001 11) (dec (-15661000000000056) 15) (dec 66956521737171926 20) (dec 60869565244701115 23);
  q4 (dec 13980379999999999 11) (dec (-15589478260869525) 15) (dec 72955297001282566 20) (dec (-39975505230813727) 23);
  q4 (dec 13902610000000001 11) (dec (-15519521126760546) 15) (dec 65098999793899992 20) (dec 38865074529752522 23);
  q4 (dec 13825179999999999 11) (dec (-15451507246376908) 15) (dec 72028985509142273 20) (dec (-20289855097104239) 23);
  q4 (dec 137481 0) (dec (-15381000000000057) 15) (dec 69999999998536565 20) (dec 17621459846850484 32);
  q4 (dec 13671369999999998 11) (dec (-15311000000000202) 15) (dec 68985507247770533 20) (dec 20289855062145535 23);
  q4 (dec 13594989999999999 11) (dec (-1524049275362278) 14) (dec 68985507245443499 20) (dec 11795009413617663 32);
  q4 (dec 13518960000000001 11) (dec (-15171507246376461) 15) (dec 67014492753713739 20) (dec (-11226575225009584) 32);
  q4 (dec 13443270000000001 11) (dec (-15104492753623589) 15) (dec 66926238372577273 20) (dec 41185377468764274 23);
  q4 (dec 13367919999999998 11) (dec (-1503447761194086) 14) (dec 7191044776253719 19) (dec (-59104477616358508) 23);
  q4 (dec 13292919999999998 11) (dec (-14966999999999549) 15) (dec 63044776119468792 20) (dec 59104477606553022 23);
  q4 (dec 1321825 1) (dec (-14899522388059591) 15) (dec 72089552237855517 20) (dec (-20895522382886612) 23);
  q4 (dec 13143929999999999 11) (dec (-14829000000000448) 15) (dec 66000000000354219 20) (dec 8384404281969182 32);
  q4 (dec 13069949999999999 11) (dec (-14762999999999456) 15) (dec 64000000001001927 20) (dec 39999999981716887 23);
  q4 (dec 12996300000000001 11) (dec (-14695999999999838) 15) (dec 69999999998074716 20) (dec (-39999999984416948) 23);
  q4 (dec 12922989999999999 11) (dec (-14629000000000588) 15) (dec 64000000001204424 20) (dec 39999999997206711 23);
  q4 (dec 12850009999999999 11) (dec (-145619999999996) 13) (dec 70000000000266735 20) (dec (-40000000005022687) 23);
  q4 (dec 12777370000000001 11) (dec (-14494999999999713) 15) (dec 62953846152744573 20) (dec 60923076928958155 23);
  q4 (dec 12705060000000001 11) (dec (-14427476923077297) 15) (dec 68952468427507796 20) (dec (-39972445467526546) 23);
  q4 (dec 12633089999999999 11) (dec (-14361522388059859) 15) (dec 61104936854668775 20) (dec 38796785300831971 23);
  q4 (dec 12561439999999999 11) (dec (-14297507692307619) 15) (dec 68030769230489343 20) (dec (-20307692302878877) 23);
  q4 (dec 1249012 1) (dec (-14230999999999838) 15) (dec 66000000000190798 20) (dec (-56843418860808016) 33);
  q4 (dec 1241913 1) (dec (-14165000000000072) 15) (dec 63937499999177304 20) (dec 41250000014798615 23);
  q4 (dec 1234847 1) (dec (-14097968749999794) 15) (dec 6680037313548581 19) (dec (-57257462708690812) 23);
  q4 (dec 12278140000000001 11) (dec (-1403546268656746) 14) (dec 5785074626669484 19) (dec 10149253734354603 22);
  q4 (dec 12208119999999998 11) (dec (-13969999999999999) 15) (dec 73074626868077533 20) (dec (-10149253734070386) 22);
  q4 (dec 12138440000000001 11) (dec (-13904537313432471) 15) (dec 57196872777186768 20) (dec 7755508174597026 22);
  q4 (dec 1206907 1) (dec (-13841523809524352) 15) (dec 68095238095899902 20) (dec (-20952380950944872) 23);
  q4 (dec 12000029999999999 11) (dec (-13774999999999771) 15) (dec 62000000000800532 20) (dec (-11226575225009584) 32);
  q4 (dec 11931310000000001 11) (dec (-13712999999999813) 15) (dec 61015873014493851 20) (dec 19682539698067103 23);
  q4 (dec 118629 0) (dec (-13650507936507969) 15) (dec 66031746032837904 20) (dec (-20317460333387771) 23);
  q4 (dec 11794810000000001 11) (dec (-13586000000000132) 15) (dec 62984126982968292 20) (dec 20317460336514159 23);
  q4 (dec 11727039999999999 11) (dec (-13521492063491923) 15) (dec 62984126985455191 20) (dec (-20463630789890885) 32);
  q4 (dec 11659590000000001 11) (dec (-13458507936508006) 15) (dec 61015873014515166 20) (dec 11368683772161603 32);
  q4 (dec 11592449999999999 11) (dec (-13397492063492644) 15) (dec 61968253969212127 20) (dec 20317460319034808 23);
  q4 (dec 11525619999999998 11) (dec (-13333999999999495) 15) (dec 65015873016445621 20) (dec (-20317460330261383) 23);
  q4 (dec 11459110000000001 11) (dec (-13270507936507832) 15) (dec 59015352587504571 20) (dec 40010408551580668 23);
  q4 (dec 11392909999999999 11) (dec (-13208491803278962) 15) (dec 62919594068464588 20) (dec (-38719750206155369) 23);
  q4 (dec 1132702 1) (dec (-13148476190475959) 15) (dec 5790476190420435 19) (dec 60952380958809733 23);
  q4 (dec 1126143 1) (dec (-13085999999999835) 15) (dec 66064516129230814 20) (dec (-41290322588736219) 23);
  q4 (dec 11196160000000001 11) (dec (-13023032258064767) 15) (dec 57112638814722067 20) (dec 19037546286995166 23);
  q4 (dec 11131189999999999 11) (dec (-12964491803278523) 15) (dec 60983606558757237 20) (dec (-20321522242738866) 32);
  q4 (dec 11066520000000001 11) (dec (-12903508196721289) 15) (dec 61966120216908397 20) (dec 2100546449725016 22);
  q4 (dec 11002159999999999 11) (dec (-12839966666667097) 15) (dec 61866666667807378 20) (dec (-38666666672213528) 23);
  q4 (dec 10938109999999999 11) (dec (-12780999999999709) 15) (dec 55050847457980721 20) (dec 58983050835763602 23);
  q4 (dec 1087435 1) (dec (-12721525423729046) 15) (dec 65118088356545204 20) (dec (-41344817980757397) 23);
  q4 (dec 10810899999999999 11) (dec (-12659508196721054) 15) (dec 57015837734546442 20) (dec 40011114174518529 23);
  q4 (dec 10747750000000001 11) (dec (-12599491525423417) 15) (dec 59966101692893409 20) (dec (-19661016932843723) 23);
  q4 (dec 106849 0) (dec (-12541000000000487) 15) (dec 57016949153357646 20) (dec 19661016947623013 23);
  q4 (dec 10622339999999999 11) (dec (-12482508474576054) 15) (dec 61016949153213317 20) (dec (-15063505998114124) 32);
  q4 (dec 1056008 1) (dec (-12421491525423974) 15) (dec 59966101693650128 20) (dec (-1966101693028577) 22);
  q4 (dec 10498119999999998 11) (dec (-12363000000000101) 15) (dec 56000000001780851 20) (dec 39999999982285321 23);
  q4 (dec 1043645 1) (dec (-12303999999999647) 15) (dec 61016949150975112 20) (dec (-203389830312517) 21);
  q4 (dec 1037508 1) (dec (-12244508474576019) 15) (dec 56033898305848592 20) (dec 19661016933127939 23);
  q4 (dec 10314000000000001 11) (dec (-12187000000000189) 15) (dec 5799999999886651 19) (dec 11652900866465644 32);
  q4 (dec 10253209999999999 11) (dec (-12129000000000451) 15) (dec 58000000001346308 20) (dec (-8810729923425242) 32);
  q4 (dec 10192709999999999 11) (dec (-12070999999999769) 15) (dec 56982456140030279 20) (dec 20350877197046202 23);
  q4 (dec 101325 0) (dec (-12012491228069957) 15) (dec 5853829112012932 19) (dec (-31116699602193874) 23);
  q4 (dec 1007258 1) (dec (-11956286689419979) 15) (dec 54052283525447115 20) (dec 50421906283304461 23);
  q4 (dec 10012939999999999 11) (dec (-1189845276292329) 14) (dec 61248293073553836 20) (dec (-38855344529906687) 23);
  q4 (dec 99535960000000006 12) (dec (-11840118620689466) 15) (dec 53475901197614923 20) (dec 3122680362267261 22);
  q4 (dec 98945330000000002 12) (dec (-11784300709220155) 15) (dec 57202836879600484 20) (dec (-40283687921771615) 24);
  q4 (dec 98357539999999994 12) (dec (-11727399999999976) 15) (dec 56200000000512069 20) (dec 39999999951589871 24);
  q4 (dec 97772580000000002 12) (dec (-1167089999999982) 14) (dec 55999999999471587 20) (dec 40000000036855007 24);
  q4 (dec 97190440000000002 12) (dec (-11614600000000063) 15) (dec 55800000000012068 20) (dec 40000000008433286 24);
  q4 (dec 96611110000000001 12) (dec (-11558499999999984) 15) (dec 55600000000264769 20) (dec 39999999951589871 24);
  q4 (dec 96034580000000002 12) (dec (-11502600000000092) 15) (dec 55299459459138948 20) (dec 60108108165479737 24);
  q4 (dec 95460839999999997 12) (dec (-11446849729729704) 15) (dec 55299459459870806 20) (dec (-28421709430404008) 33);
  q4 (dec 94889880000000005 12) (dec (-1139155027027004) 14) (dec 54599626535246416 20) (dec 10018280098904597 23);
  q4 (dec 94321680000000008 12) (dec (-11336199272727372) 15) (dec 55298724302772935 20) (dec (-20035769665582847) 24);
  q4 (dec 9375625 2) (dec (-11281050816697093) 15) (dec 54103083972638192 20) (dec 79709884290934952 24);
  q4 (dec 93193559999999998 12) (dec (-11226349908592271) 15) (dec 54499083910695132 20) (dec 40146654792749813 24);
  q4 (dec 92633610000000001 12) (dec (-1117154972477063) 14) (dec 54299449541066029 20) (dec 29842794901924206 33);
  q4 (dec 92076389999999999 12) (dec (-11117250275229344) 15) (dec 53498317986139915 20) (dec 12044649455305035 23);
  q4 (dec 91521880000000005 12) (dec (-11062848608534065) 15) (dec 54396648159595886 20) (dec (-59886218241445029) 24);
  q4 (dec 90970090000000011 12) (dec (-11008901107011283) 15) (dec 52703493464015597 20) (dec 13974411158983459 23);
  q4 (dec 90420979999999996 12) (dec (-10955149532710347) 15) (dec 54099806819980507 20) (dec (-40148279769880445) 24);
  q4 (dec 89874570000000007 12) (dec (-10901350837988632) 15) (dec 52703164337227545 20) (dec 79702327965947019 24);
  q4 (dec 89330830000000002 12) (dec (-10848049906191664) 15) (dec 53099059793847657 20) (dec 40150517840231718 24);
  q4 (dec 88789759999999995 12) (dec (-10794649717514014) 15) (dec 52799624774046094 20) (dec 19962050886590534 24);
  q4 (dec 88251350000000006 12) (dec (-10741700377358328) 15) (dec 5230131967986296 19) (dec 5988700732473263 23);
  q4 (dec 87715580000000002 12) (dec (-10688949905123525) 15) (dec 52499049065072971 20) (dec 40152236357471346 24);
  q4 (dec 87182449999999997 12) (dec (-10636149714285766) 15) (dec 52199620501792055 20) (dec 19961613948282775 24);
  q4 (dec 86651949999999997 12) (dec (-10583800381679362) 15) (dec 51701334778808672 20) (dec 59885715987206824 24);
  q4 (dec 86124059999999998 12) (dec (-10531649904030646) 15) (dec 51899038088329516 20) (dec 40153994601155318 24);
  q4 (dec 85598779999999999 12) (dec (-10479449710982802) 15) (dec 51699421965011537 20) (dec 5826450433232822 32);
  q4 (dec 85076099999999991 12) (dec (-10427750289017354) 15) (dec 50999599649760087 20) (dec 10019567705938925 23);
  q4 (dec 84556 0) (dec (-1037599922178965) 14) (dec 51698634731739196 20) (dec (-20038230447028127) 24);
  q4 (dec 84038490000000005 12) (dec (-10324450873786258) 15) (dec 5040271083212389 19) (dec 9980734810142168 23);
  q4 (dec 83523540000000008 12) (dec (-10273299607843375) 15) (dec 51099018456127968 20) (dec (-19960553986209108) 24);
  q4 (dec 83011149999999994 12) (dec (-10222350293542153) 15) (dec 50199593141691428 20) (dec 10019878859282017 23);
  q4 (dec 82501300000000003 12) (dec (-10171399209486015) 15) (dec 50998412747002672 20) (dec (-39998755016767974) 24);
  q4 (dec 81994 0) (dec (-10120700787401644) 15) (dec 49601555981155349 20) (dec 12000376443666027 23);
  q4 (dec 81489220000000001 12) (dec (-10070199203187219) 15) (dec 50498602013302472 20) (dec (-2003912777155392) 23);
  q4 (dec 80986970000000001 12) (dec (-10019850894632214) 15) (dec 49403578528849578 20) (dec 59642147115823712 24);
  q4 (dec 80487220000000001 12) (dec (-99699999999999989) 16) (dec 49698189134815606 20) (dec 60362173036310198 24);
  q4 (dec 79989970000000001 12) (dec (-99198490945674109) 16) (dec 49797984695285178 20) (dec (-19959112091783027) 24);
  q4 (dec 79495220000000001 12) (dec (-98702008032128195) 16) (dec 48601586835154368 20) (dec 12000391810715884 23);
  q4 (dec 79002940000000002 12) (dec (-98206991869918667) 16) (dec 49598367400594868 20) (dec (-39998683395481292) 24);
  q4 (dec 78513139999999999 12) (dec (-97714008097167397) 16) (dec 48403238866505659 20) (dec 79676113347204593 24);
  q4 (dec 78025789999999994 12) (dec (-97224000000001247) 16) (dec 48998360655815531 20) (dec 40327868890699395 24);
  q4 (dec 77540899999999994 12) (dec (-96730991803276254) 16) (dec 48598360656026073 20) (dec (-56843418860808016) 33);
  q4 (dec 77058460000000006 12) (dec (-9624500819672031) 15) (dec 47803278687641893 20) (dec 79672131251129492 24);
  q4 (dec 76578440000000002 12) (dec (-95761000000000056) 16) (dec 48499378882770115 20) (dec 20124223475193048 24);
  q4 (dec 76100850000000006 12) (dec (-9527449689441168) 15) (dec 47899381463807346 20) (dec 39999483603025961 24);
  q4 (dec 75625679999999993 12) (dec (-94792503118503397) 16) (dec 47601247402351277 20) (dec 19875259749824181 24);
  q4 (dec 75152910000000003 12) (dec (-94314999999998701) 16) (dec 47398319326774185 20) (dec 80336134557512661 24);
  q4 (dec 74682529999999999 12) (dec (-93834991596639235) 16) (dec 47898525448431429 20) (dec (-20041224084366152) 24);
  q4 (dec 74214550000000003 12) (dec (-93357509433961248) 16) (dec 46602926127025767 20) (dec 99792133039500194 24);
  q4 (dec 73748940000000002 12) (dec (-92883995762712974) 16) (dec 47298939334172729 20) (dec (-19957358357203246) 24);
  q4 (dec 73285699999999997 12) (dec (-92412503171248073) 16) (dec 4650062884032735 19) (dec 80001081862235434 24);
  q4 (dec 72824809999999998 12) (dec (-91941496801705114) 16) (dec 47099360341217532 20) (dec (-29842794901924206) 33);
  q4 (dec 72366279999999999 12) (dec (-91470503198295159) 16) (dec 46201279317354961 20) (dec 59872068315769413 24);
  q4 (dec 71910089999999997 12) (dec (-91003999999997891) 16) (dec 46300215054387197 20) (dec 19956989149250151 24);
  q4 (dec 7145623000000001 11) (dec (-90539501075267772) 16) (dec 45898477828963278 20) (dec 80347444853146044 24);
  q4 (dec 71004690000000002 12) (dec (-90074490238614153) 16) (dec 46297175358770207 20) (dec (-39825527197479002) 24);
  q4 (dec 70555470000000001 12) (dec (-8961450539956628) 15) (dec 45101065735405401 20) (dec 1200028356251437 22);
  q4 (dec 70108540000000008 12) (dec (-89154494529540305) 16) (dec 46299772600118418 20) (dec (-40173338490490092) 24);
  q4 (dec 69663919999999998 12) (dec (-88694509803925907) 16) (dec 44803040511457229 20) (dec 99784054656026911 24);
  q4 (dec 69221579999999987 12) (dec (-88238995594712133) 16) (dec 45498897227023603 20) (dec (-19955656784986788) 24);
  q4 (dec 68781520000000004 12) (dec (-87785503296700735) 16) (dec 44599540902446222 20) (dec 10022368751521072 23);
  q4 (dec 68343720000000001 12) (dec (-87331991111112544) 16) (dec 45398214356328736 20) (dec (-39998426753129487) 24);
  q4 (dec 67908190000000002 12) (dec (-86881008849555847) 16) (dec 44102868682251997 20) (dec 99780245834324448 24);
  q4 (dec 67474900000000009 12) (dec (-86432496644295735) 16) (dec 44899328858384992 20) (dec 8810729923425242 32);
  q4 (dec 67043860000000001 12) (dec (-85983503355705331) 16) (dec 44001342282690815 20) (dec 59865771693523583 24);
  q4 (dec 66615050000000003 12) (dec (-85539000000001408) 16) (dec 44199999999332105 20) (dec 10231815394945442 32);
  q4 (dec 66188459999999992 12) (dec (-85097000000000467) 16) (dec 4379818181902451 19) (dec 80363636293157025 24);
  q4 (dec 65764080000000002 12) (dec (-84652990909088235) 16) (dec 44198181817581175 20) (dec 4405364961712621 32);
  q4 (dec 65341920000000006 12) (dec (-84211009090909155) 16) (dec 43203636363561062 20) (dec 39636363644035557 24);
  q4 (dec 64921950000000004 12) (dec (-83776000000000206) 16) (dec 43299310345059185 20) (dec 60137930988446451 24);
  q4 (dec 64504160000000003 12) (dec (-83338496551725445) 16) (dec 43699310344567975 20) (dec 5826450433232822 32);
  q4 (dec 64088559999999998 12) (dec (-82901503448275431) 16) (dec 42901610257743526 20) (dec 39815879523530387 24);
  q4 (dec 63675130000000005 12) (dec (-82469501154733678) 16) (dec 42799531660620005 20) (dec 6013985719022231 23);
  q4 (dec 63263860000000001 12) (dec (-82036995348838211) 16) (dec 42898838835956358 20) (dec 20046186332933757 24);
  q4 (dec 6285475 2) (dec (-81606503496503731) 16) (dec 42401398601160878 20) (dec 19860139907734718 24);
  q4 (dec 62447779999999999 12) (dec (-81180999999999042) 16) (dec 42198113207852827 20) (dec 80377358418104457 24);
  q4 (dec 62042940000000002 12) (dec (-80752990566039102) 16) (dec 42698344061616213 20) (dec (-20046170851628631) 24);
  q4 (dec 61640239999999991 12) (dec (-80327510588236866) 16) (dec 41604235294796511 20) (dec 59576470543731838 24);
  q4 (dec 61239649999999994 12) (dec (-79906999999998156) 16) (dec 4199904761879836 19) (dec 40190476198631586 24);
  q4 (dec 60841169999999998 12) (dec (-79483995238095266) 16) (dec 41898811228428205 20) (dec 20047278103874079 24);
  q4 (dec 60444799999999996 12) (dec (-79063503579953203) 16) (dec 41301671789177873 20) (dec 3980884030099219 23);
  q4 (dec 60050519999999997 12) (dec (-78647501199038814) 16) (dec 41300238652645758 20) (dec 40000231104642131 24);
  q4 (dec 59658320000000007 12) (dec (-78231498795179508) 16) (dec 41399518071697731 20) (dec 20048192819643876 24);
  q4 (dec 59268200000000004 12) (dec (-77816000000001067) 16) (dec 41000000000346759 20) (dec 39999999950168788 24);
  q4 (dec 58880150000000001 12) (dec (-77403000000001327) 16) (dec 40799999999867608 20) (dec 40000000037565548 24);
  q4 (dec 58494159999999996 12) (dec (-76991999999999825) 16) (dec 40700244499140229 20) (dec 19951100205162222 24);
  q4 (dec 58110220000000001 12) (dec (-76583501222493071) 16) (dec 40500243296976991 20) (dec 40000240316118153 24);
  q4 (dec 5772832 2) (dec (-7617549877149961) 15) (dec 40498767858798245 20) (dec 40197288220156223 24);
  q4 (dec 57348459999999999 12) (dec (-75767496296295116) 16) (dec 40199508617783764 20) (dec 19950128292123281 24);
  q4 (dec 56970630000000005 12) (dec (-75364004950495369) 16) (dec 3980198019747583 19) (dec 3980198026383164 23);
  q4 (dec 56594809999999998 12) (dec (-74963000000000823) 16) (dec 39999000000578988 20) (dec 40199999935452975 24);
  q4 (dec 56221 0) (dec (-74559994999999857) 16) (dec 39898751879309914 20) (dec 20049624107798535 24);
  q4 (dec 55849199999999997 12) (dec (-74159503759398611) 16) (dec 39301755648864402 20) (dec 3979924619059716 23);
  q4 (dec 55479389999999999 12) (dec (-7376350125944569) 15) (dec 39300250613568012 20) (dec 40000255100380855 24);
  q4 (dec 55111559999999998 12) (dec (-73367498734177499) 16) (dec 39399493671053774 20) (dec 20050632901558172 24);
  q4 (dec 54745709999999999 12) (dec (-72971999999999388) 16) (dec 39100254452890227 20) (dec 19949109419314936 24);
  q4 (dec 54381830000000002 12) (dec (-72579501272264082) 16) (dec 38698195281044789 20) (dec 80411834368021574 24);
  q4 (dec 54019910000000003 12) (dec (-72186488431876024) 16) (dec 39096651523053084 20) (dec (-39793029562673614) 24);
  q4 (dec 53659950000000004 12) (dec (-71798506393862684) 16) (dec 37901258843252349 20) (dec 12000398580838124 23);
  q4 (dec 53301919999999998 12) (dec (-71410493506494559) 16) (dec 39199464453419707 20) (dec (-60152630915411009) 24);
  q4 (dec 52945839999999997 12) (dec (-71023010309279035) 16) (dec 37703340421341381 20) (dec 99744286864478241 24);
  q4 (dec 52591679999999993 12) (dec (-70638496083550741) 16) (dec 38499216710453866 20) (dec (-2913225216616411) 32);
  q4 (dec 52239449999999997 12) (dec (-70253503916448343) 16) (dec 37701829046500991 20) (dec 39790848634879695 24);
  q4 (dec 51889129999999997 12) (dec (-69873501312335655) 16) (dec 3759946673356751 19) (dec 60159146727301058 24);
  q4 (dec 51540709999999999 12) (dec (-69492994708995468) 16) (dec 37898675154258044 20) (dec (-1994667106615111) 23);
  q4 (dec 51194189999999995 12) (dec (-69115503957782805) 16) (dec 37100783114036418 20) (dec 80001688568387401 24);
  q4 (dec 50849550000000003 12) (dec (-68738495999999865) 16) (dec 37799463829053082 20) (dec (-20052765874822853) 24);
  q4 (dec 50506799999999996 12) (dec (-6836200531914991) 15) (dec 36901859563730709 20) (dec 5984085327170875 23);
  q4 (dec 50165919999999998 12) (dec (-6798849865951726) 15) (dec 37098655181255324 20) (dec 40215344422733779 24);
  q4 (dec 49826909999999996 12) (dec (-67614495956872984) 16) (dec 36899191374903498 20) (dec (-14921397450962103) 33);
  q4 (dec 49489760000000002 12) (dec (-67245504043125059) 16) (dec 36300799811817442 20) (dec 80001762656678466 24);
  q4 (dec 49154450000000004 12) (dec (-6687649591280759) 15) (dec 36999452078896768 20) (dec (-20053903526928709) 24);
  q4 (dec 48820989999999998 12) (dec (-66508005434783142) 16) (dec 36001075012435989 20) (dec 80002388859412581 24);
  q4 (dec 48489360000000001 12) (dec (-66141994505494335) 16) (dec 3649862411519145 19) (dec (-1994460328802461) 23);
  q4 (dec 48159559999999998 12) (dec (-65778504109589022) 16) (dec 35700812811048979 20) (dec 80001821367403628 24);
  q4 (dec 4783157 2) (dec (-65415495844875968) 16) (dec 36299168974677441 20) (dec 5826450433232822 32);
  q4 (dec 47505399999999994 12) (dec (-65052504155124788) 16) (dec 35601662050419595 20) (dec 19833794945611771 24);
  q4 (dec 47181029999999999 12) (dec (-64694999999999707) 16) (dec 35397752808483677 20) (dec 80449438277696571 24);
  q4 (dec 46858449999999997 12) (dec (-64334988764044052) 16) (dec 35997740255263368 20) (dec (-39997489223964065) 24);
  q4 (dec 46537670000000006 12) (dec (-63978011173183171) 16) (dec 3470361941489486 19) (dec 99723044331767598 24);
  q4 (dec 46218660000000003 12) (dec (-63623495750709367) 16) (dec 35599430226984196 20) (dec (-2005601704766491) 23);
  q4 (dec 4590143 2) (dec (-632690056497181) 14) (dec 3470197498680605 19) (dec 59830991354203882 24);
  q4 (dec 45585959999999999 12) (dec (-62917498575498509) 16) (dec 35099715099738303 20) (dec 0 0);
  q4 (dec 4527225 2) (dec (-62566501424501153) 16) (dec 3459942037520136 19) (dec 60172905013189393 24);
  q4 (dec 44960290000000001 12) (dec (-62215994252873177) 16) (dec 34798850574741636 20) (dec (-14210854715202004) 33);
  q4 (dec 44650080000000002 12) (dec (-61868005747126826) 16) (dec 34001136059742977 20) (dec 80002673098533712 24);
  q4 (dec 44341599999999999 12) (dec (-61521994186046989) 16) (dec 34597674418810346 20) (dec (-39767441883498119) 24);
  q4 (dec 44034849999999999 12) (dec (-61179000000000086) 16) (dec 33596470588168618 20) (dec 12070588236241521 23);
  q4 (dec 43729809999999998 12) (dec (-60833982352941192) 16) (dec 34796429548595854 20) (dec (-79991792053135666) 24);
  q4 (dec 434265 1) (dec (-604920174418592) 14) (dec 33006976744216489 20) (dec 11930232556238708 23);
  q4 (dec 43124880000000005 12) (dec (-60152999999999883) 16) (dec 34300884955458245 20) (dec (-2017699112499827) 23);
  q4 (dec 42824970000000001 12) (dec (-5981150442477964) 15) (dec 33201769911787691 20) (dec 59823008817971877 24);
  q4 (dec 4252675 2) (dec (-59475000000000371) 16) (dec 33399999999899065 20) (dec 28421709430404008 33);
  q4 (dec 42230209999999999 12) (dec (-59140999999999257) 16) (dec 33099099099217713 20) (dec 60180180163627024 24);
  q4 (dec 41935340000000004 12) (dec (-58805495495494799) 16) (dec 33499099098870387 20) (dec (-71054273576010022) 35);
  q4 (dec 41642150000000001 12) (dec (-5847050450450614) 15) (dec 32702103916646411 20) (dec 39759396867111717 24);
  q4 (dec 41350619999999995 12) (dec (-58140501510574625) 16) (dec 32800604229882069 20) (dec 19939577028793564 24);
  q4 (dec 41060739999999998 12) (dec (-57810999999998609) 16) (dec 32697247706321876 20) (dec 6055045871278253 23);
  q4 (dec 40772510000000002 12) (dec (-57479486238531949) 16) (dec 32796934437010703 20) (dec (-199373461377661) 22);
  q4 (dec 4048593 2) (dec (-57153012195122193) 16) (dec 31804878049001672 20) (dec 79512195095077235 24);
  q4 (dec 40200970000000001 12) (dec (-56829000000000089) 16) (dec 32700307692197229 20) (dec (-20061538450732998) 24);
  q4 (dec 39917639999999999 12) (dec (-56503501538461895) 16) (dec 31897811646315334 20) (dec 8049920921919806 23);
  q4 (dec 3963593 2) (dec (-56178485981307293) 16) (dec 32295940511078313 20) (dec (-39748849896881216) 24);
  q4 (dec 39355840000000004 12) (dec (-55858507739938723) 16) (dec 31101518687808748 20) (dec 12000585992879565 23);
  q4 (dec 39077339999999997 12) (dec (-55538492113565976) 16) (dec 32399345426293636 20) (dec (-60184542614649669) 24);
  q4 (dec 38800449999999997 12) (dec (-55219012499999147) 16) (dec 31004999999915131 20) (dec 79500000001075934 24);
  q4 (dec 38525139999999999 12) (dec (-54902999999999889) 16) (dec 31799999999861941 20) (dec 14210854715202004 33);
  q4 (dec 38251419999999998 12) (dec (-54585000000000221) 16) (dec 31200000000097816 20) (dec 39999999993511894 24);
  q4 (dec 37979279999999999 12) (dec (-54269999999999712) 16) (dec 30999999999986372 20) (dec 39999999993511894 24);
  q4 (dec 37708709999999999 12) (dec (-53957000000000344) 16) (dec 3099999999991354 19) (dec 14210854715202004 33);
  q4 (dec 37439699999999997 12) (dec (-53647000000000116) 16) (dec 30699029126425971 20) (dec 60194174725580756 24);
  q4 (dec 37172239999999998 12) (dec (-53335495145631393) 16) (dec 31099029126002264 20) (dec 4405364961712621 32);
  q4 (dec 36906339999999997 12) (dec (-53024504854368084) 16) (dec 30302267480745824 20) (dec 3974067862841935 23);
  q4 (dec 36641980000000003 12) (dec (-52718501628663539) 16) (dec 30300323596570421 20) (dec 40000427213016109 24);
  q4 (dec 36379150000000001 12) (dec (-52412498360656841) 16) (dec 30499672131325541 20) (dec (-14921397450962103) 33);
  q4 (dec 36117849999999999 12) (dec (-52107501639344695) 16) (dec 30100325704795594 20) (dec 40000432838382954 24);
  q4 (dec 3585807 2) (dec (-51803498349833879) 16) (dec 30199339934034342 20) (dec 20066006590013784 24);
  q4 (dec 35599810000000005 12) (dec (-51499999999999284) 16) (dec 29799999999747585 20) (dec 40000000021933601 24);
  q4 (dec 35343060000000005 12) (dec (-51199000000000163) 16) (dec 29700334448243385 20) (dec 19933110357328587 24);
  q4 (dec 35087810000000005 12) (dec (-50900501672240903) 16) (dec 2950033219603121 19) (dec 40000450413657525 24);
  q4 (dec 34834050000000003 12) (dec (-50602498316499558) 16) (dec 29699663299531665 20) (dec 43343106881366114 33);
  q4 (dec 34581779999999999 12) (dec (-50305501683500982) 16) (dec 29199312856874825 20) (dec 6020476871526626 23);
  q4 (dec 34330990000000005 12) (dec (-50008993197278571) 16) (dec 29498295860182824 20) (dec (-19931280932894425) 24);
  q4 (dec 3408168 2) (dec (-49715505084746736) 16) (dec 28701002970857206 20) (dec 80002795709788188 24);
  q4 (dec 33833830000000002 12) (dec (-49422494845359948) 16) (dec 29399308007221236 20) (dec (-20067787024657946) 24);
  q4 (dec 33587450000000004 12) (dec (-49130006849314638) 16) (dec 28502393705178266 20) (dec 59795231546644351 24);
  q4 (dec 33342520000000004 12) (dec (-48840498269896813) 16) (dec 28899653979198804 20) (dec 7105427357601002 33);
  q4 (dec 33099040000000001 12) (dec (-48551501730104292) 16) (dec 28399293440307006 20) (dec 60210516103609282 24);
  q4 (dec 32857 0) (dec (-48262993006993478) 16) (dec 28698248093251167 20) (dec (-19929338928648123) 24);
  q4 (dec 32616399999999998 12) (dec (-47977505226480615) 16) (dec 27901030521814362 20) (dec 80002954887703483 24);
  q4 (dec 32377220000000001 12) (dec (-47692494699645849) 16) (dec 28698932490081933 20) (dec (-39998512182393143) 24);
  q4 (dec 32139470000000001 12) (dec (-47408505263158718) 16) (dec 27599248120210976 20) (dec 10036090227600881 23);
  q4 (dec 31903129999999997 12) (dec (-47124985714285881) 16) (dec 28397122594041589 20) (dec (-3999594735901724) 23);
  q4 (dec 31668209999999999 12) (dec (-468440141843974) 14) (dec 2720567375851779 19) (dec 79432624173136903 24);
  q4 (dec 31434679999999997 12) (dec (-46565999999999255) 16) (dec 28100358423353454 20) (dec (-20071684650702083) 24);
  q4 (dec 31202550000000003 12) (dec (-46286501792114505) 16) (dec 27399267569958144 20) (dec 60218170546733071 24);
  q4 (dec 30971809999999998 12) (dec (-4600799275362391) 15) (dec 27598550725130625 20) (dec (-5826450433232822) 32);
  q4 (dec 30742459999999999 12) (dec (-45732007246376982) 16) (dec 27002898550444244 20) (dec 39710144964288932 24);
  q4 (dec 30514479999999996 12) (dec (-45459000000000191) 16) (dec 27299633699881201 20) (dec 20073260056108214 24);
  q4 (dec 30287869999999999 12) (dec (-45184498168497198) 16) (dec 27098160388046468 20) (dec 40294662294826364 24);
  q4 (dec 30062630000000001 12) (dec (-44910494464944613) 16) (dec 26997785977833644 20) (dec (-19778597790320874) 24);
  q4 (dec 2983875 2) (dec (-4464200000000055) 15) (dec 26298127340830036 20) (dec 10037453184921219 23);
  q4 (dec 29616209999999999 12) (dec (-44371490636703577) 16) (dec 27399217644768825 20) (dec (-6021806078422287) 23);
  q4 (dec 29395030000000002 12) (dec (-44102014814814678) 16) (dec 25904793850129338 20) (dec 99633822544120671 24);
  q4 (dec 2917518 2) (dec (-43835494339622594) 16) (dec 26898859444877136 20) (dec (-39998304058741493) 24);
  q4 (dec 28956670000000002 12) (dec (-43569505617978228) 16) (dec 25901106506308834 20) (dec 80003417819085607 24);
  q4 (dec 28739479999999996 12) (dec (-43304494296578682) 16) (dec 26498859315893242 20) (dec (-7105427357601002) 33);
  q4 (dec 28523619999999999 12) (dec (-43039505703420282) 16) (dec 2580228136876528 19) (dec 19771863092898914 24);
  q4 (dec 28309070000000003 12) (dec (-42780000000000644) 16) (dec 25799999999616576 20) (dec 40000000044670963 24);
  q4 (dec 28095819999999996 12) (dec (-42519000000001146) 16) (dec 26200000000498492 20) (dec (-43343106881366114) 33);
  q4 (dec 27883879999999997 12) (dec (-42256999999999421) 16) (dec 255999999997929 18) (dec 40000000022644143 24);
  q4 (dec 27673239999999998 12) (dec (-41997999999999776) 16) (dec 25500389105088673 20) (dec 19922178984899122 24);
  q4 (dec 27463889999999999 12) (dec (-41741501945525021) 16) (dec 25300386053206836 20) (dec 40000610361090592 24);
  q4 (dec 2725582 2) (dec (-41485498039215827) 16) (dec 25499607843167739 20) (dec (-7105427357601002) 33);
  q4 (dec 27049029999999999 12) (dec (-41230501960784709) 16) (dec 2510038905679046 19) (dec 40000620026603425 24);
  q4 (dec 26843509999999998 12) (dec (-40976498023714809) 16) (dec 25199209486315155 20) (dec 20079051358123936 24);
  q4 (dec 26639260000000002 12) (dec (-4072299999999978) 15) (dec 24900398406060733 20) (dec 1992031876554279 23);
  q4 (dec 2643627 2) (dec (-40472501992031731) 16) (dec 24800796813071455 20) (dec 19920318671040605 24);
  q4 (dec 26234530000000002 12) (dec (-40223000000000679) 16) (dec 24798387096399923 20) (dec 40322580704810208 24);
  q4 (dec 26034039999999997 12) (dec (-39971991935483793) 16) (dec 24798387097275666 20) (dec (-5826450433232822) 32);
  q4 (dec 25834800000000003 12) (dec (-39724008064515397) 16) (dec 24102817642718933 20) (dec 59759052055952114 24);
  q4 (dec 25636790000000001 12) (dec (-3947849795918402) 15) (dec 24599183673747584 20) (dec (-19918367380000749) 24);
  q4 (dec 25440010000000002 12) (dec (-39234000000000013) 16) (dec 24098765431912917 20) (dec 60246913607286954 24);
  q4 (dec 25244450000000001 12) (dec (-38988493827160329) 16) (dec 24498765432287686 20) (dec (-2913225216616411) 32);
  q4 (dec 25050120000000003 12) (dec (-3874350617283965) 15) (dec 23802469135563166 20) (dec 19753086452567456 24);
  q4 (dec 24857 0) (dec (-38504000000000089) 16) (dec 23698744770119795 20) (dec 60251045993453543 24);
  q4 (dec 24665080000000002 12) (dec (-38262493723849378) 16) (dec 24199156206218043 20) (dec (-20082287290534852) 24);
  q4 (dec 24474369999999999 12) (dec (-38022008333333988) 16) (dec 23403333333440912 20) (dec 39666666667770302 24);
  q4 (dec 24284849999999999 12) (dec (-37784999999999496) 16) (dec 23699578059134475 20) (dec 20084388167873616 24);
  q4 (dec 2409652 2) (dec (-37546497890295556) 16) (dec 23497879522201614 20) (dec 40339707357617276 24);
  q4 (dec 23909379999999997 12) (dec (-37308493617021732) 16) (dec 23397446808730573 20) (dec (-19744680869493435) 24);
  q4 (dec 23723419999999998 12) (dec (-3707599999999966) 15) (dec 22799999999916664 20) (dec 80000000009050615 24);
  q4 (dec 23538619999999999 12) (dec (-36841999999999828) 16) (dec 23701287553638651 20) (dec (-20257510726295893) 24);
  q4 (dec 23355 0) (dec (-36606506437767923) 16) (dec 22802575107317758 20) (dec 19742489260465847 24);
  q4 (dec 23172540000000001 12) (dec (-36377000000000224) 16) (dec 22596491227979245 20) (dec 80701754402312537 24);
  q4 (dec 2299123 2) (dec (-36144982456140236) 16) (dec 2929489328429824 19) (dec (-12596804112330774) 22);
  q4 (dec 22811080000000002 12) (dec (-35946509554139716) 16) (dec 34056129348202012 20) (dec (-11108437040554975) 22);
  q4 (dec 22632060000000001 12) (dec (-35689261538461858) 16) (dec 32938386332082904 20) (dec (-48122324859143366) 23);
  q4 (dec 2227798 2) (dec (-35174860786397635) 16) (dec 36497546830381643 20) (dec (-44114681906259892) 23);
  q4 (dec 21929439999999999 12) (dec (-34577253895508804) 16) (dec 26375383015988965 20) (dec 45000653488980188 24);
  q4 (dec 21586349999999999 12) (dec (-34036246039142335) 16) (dec 26024609909907958 20) (dec 39999400435064558 24);
  q4 (dec 21248630000000001 12) (dec (-3350375402081367) 15) (dec 25550804162665307 20) (dec 42459791867877072 24);
  q4 (dec 20916189999999999 12) (dec (-32980000000000009) 16) (dec 25225365853730251 20) (dec 37463414629090863 24);
  q4 (dec 20588950000000001 12) (dec (-32464253658536677) 16) (dec 24774465570203574 20) (dec 45090028343786061 24);
  q4 (dec 20266829999999998 12) (dec (-31955237338629474) 16) (dec 24499077383945079 20) (dec 3246564790408968 23);
  q4 (dec 19949760000000002 12) (dec (-31455516096579328) 16) (dec 23877065469658733 20) (dec 47454418824788291 24);
  q4 (dec 19637639999999999 12) (dec (-30963738461538712) 16) (dec 23748523908576402 20) (dec 32532224529813194 24);
  q4 (dec 1933041 2) (dec (-30479008316008223) 16) (dec 23201663201652512 20) (dec 3991683991682038 23);
  q4 (dec 1902798 2) (dec (-30003000000000157) 16) (dec 22949999999990922 20) (dec 35000000001694783 24);
  q4 (dec 18730279999999999 12) (dec (-29533499999999826) 16) (dec 22574591057831218 20) (dec 37540894217880092 24);
  q4 (dec 18437240000000002 12) (dec (-29070745910577833) 16) (dec 22224597397929369 20) (dec 349993659845893 22);
  q4 (dec 18148790000000001 12) (dec (-28615754152823851) 16) (dec 21800830564832284 20) (dec 37458471756579568 24);
  q4 (dec 17864850000000002 12) (dec (-28168500000000232) 16) (dec 215253714285204 18) (dec 32462857146775552 24);
  q4 (dec 17585349999999999 12) (dec (-27728253714285822) 16) (dec 21175365389147327 20) (dec 35000603946144795 24);
  q4 (dec 17310220000000001 12) (dec (-27294246225319045) 16) (dec 20899245063836337 20) (dec 32537746807204116 24);
  q4 (dec 17039400000000001 12) (dec (-2686650000000018) 15) (dec 20499999999992191 20) (dec 35000000000806609 24);
  q4 (dec 1677282 2) (dec (-26446000000000089) 16) (dec 20175395858735179 20) (dec 32460414127477579 24);
  q4 (dec 1651041 2) (dec (-26032753958587129) 16) (dec 19850791717406668 20) (dec 32460414129253933 24);
  q4 (dec 16252099999999999 12) (dec (-25626000000000206) 16) (dec 19600000000000506 20) (dec 30000000001528806 24);
  q4 (dec 15997829999999998 12) (dec (-25224999999999724) 16) (dec 19274584929786177 20) (dec 32541507021388581 24);
  q4 (dec 15747540000000001 12) (dec (-24829745849297593) 16) (dec 18999947061529188 20) (dec 27463786820280945 24);
  q4 (dec 15501169999999998 12) (dec (-24441507772020898) 16) (dec 18600762847472031 20) (dec 35001435463222208 24);
  q4 (dec 1525865 2) (dec (-24058992084432504) 16) (dec 18449219025555854 20) (dec 24998941770082441 24);
  q4 (dec 1501993 2) (dec (-23682508021390354) 16) (dec 18000786839380555 20) (dec 35001529965761341 24);
  q4 (dec 14784940000000001 12) (dec (-23311991825613023) 16) (dec 17874503053654235 20) (dec 22467950765303615 24);
  q4 (dec 14553630000000001 12) (dec (-22947761379310347) 16) (dec 17426115524511233 20) (dec 35002240651671457 24);
  q4 (dec 1432593 2) (dec (-22588738396624635) 16) (dec 17373852866854557 20) (dec 19998679559840583 24);
  q4 (dec 14101799999999999 12) (dec (-22235261735419583) 16) (dec 16901622446268582 20) (dec 32455109569706764 24);
  q4 (dec 1388117 2) (dec (-2188749275362329) 15) (dec 16773072079538488 20) (dec 2762032827714478 23);
  q4 (dec 13663999999999998 12) (dec (-21543745213549377) 16) (dec 1647571931199865 19) (dec 19880204295219529 24);
  q4 (dec 1345023 2) (dec (-21208266766020825) 16) (dec 16051066618767875 20) (dec 37560998331009902 24);
  q4 (dec 13239789999999999 12) (dec (-20875977134146173) 16) (dec 16147272983152661 20) (dec 150440431490928 22);
  q4 (dec 13032660000000002 12) (dec (-20548518461538392) 16) (dec 15528339089430522 20) (dec 32350706439387974 24);
  q4 (dec 1282876 2) (dec (-20228246467817961) 16) (dec 15524651274273493 20) (dec 19999550753091457 24);
  q4 (dec 12628050000000001 12) (dec (-19911753577106557) 16) (dec 15174378306199944 20) (dec 30097940444084872 24);
  q4 (dec 1243048 2) (dec (-19599236628849341) 16) (dec 15048965114149217 20) (dec 1746977707917097 23);
  q4 (dec 1223601 2) (dec (-1929301639344261) 15) (dec 14602609792176534 20) (dec 29902955207905536 24);
  q4 (dec 1204457 2) (dec (-18991993311036701) 16) (dec 14598662207380376 20) (dec 20066889630276916 24);
  q4 (dec 11856130000000001 12) (dec (-18694000000000011) 16) (dec 14275387263310124 20) (dec 22461273667451209 24);
  q4 (dec 11670639999999999 12) (dec (-18401753872633562) 16) (dec 1402538048116786 19) (dec 25000678218711768 24);
  q4 (dec 11488049999999999 12) (dec (-18113746059544595) 16) (dec 13874611553690074 20) (dec 19999440077356211 24);
  q4 (dec 1130832 2) (dec (-17830253996447583) 16) (dec 1357539241790251 19) (dec 25000722685453171 24);
  q4 (dec 111314 1) (dec (-17551245931283888) 16) (dec 13424599100824385 20) (dec 19999402756809557 24);
  q4 (dec 1095725 2) (dec (-17276754128440361) 16) (dec 13176151572609208 20) (dec 19926127142388952 24);
  q4 (dec 1078582 2) (dec (-17007253258845458) 16) (dec 12974370934183189 20) (dec 25095495036264736 24);
  q4 (dec 1061707 2) (dec (-16740237191650915) 16) (dec 12873733915573117 20) (dec 14998524951437277 24);
  q4 (dec 10450969999999999 12) (dec (-16478262955854013) 16) (dec 12474709002119778 20) (dec 25158658329704766 24);
  q4 (dec 10287460000000001 12) (dec (-16221221178312697) 16) (dec 12446775849077828 20) (dec 17534198218527308 24);
  q4 (dec 1012651 2) (dec (-15967025401865598) 16) (dec 12192620199677373 20) (dec 19991998687718395 24);
  q4 (dec 99680789999999997 13) (dec (-1571717539826573) 15) (dec 12000079653167406 20) (dec 19746017341226719 24);
  q4 (dec 98121270000000004 13) (dec (-1547125000000001) 15) (dec 11817617065535747 20) (dec 18738293445874632 24);
  q4 (dec 96586149999999998 13) (dec (-15229276170655526) 16) (dec 11622615133884296 20) (dec 19500193167854009 24);
  q4 (dec 95075040000000008 13) (dec (-14990973810027484) 16) (dec 114624579470739 18) (dec 17492305566468858 24);
  q4 (dec 93587579999999998 13) (dec (-14756476959416069) 16) (dec 11255234677960635 20) (dec 19246126364524943 24);
  q4 (dec 92123379999999997 13) (dec (-14525598427947493) 16) (dec 11109845163991272 20) (dec 16999763077052421 24);
  q4 (dec 90682100000000009 13) (dec (-1429830159574456) 15) (dec 10907780288817115 20) (dec 18237928564079908 24);
  q4 (dec 89263360000000011 13) (dec (-14074674611398987) 16) (dec 1075746174444503 19) (dec 16999939544914967 24);
  q4 (dec 87866820000000007 13) (dec (-13854425394646619) 16) (dec 10577538822359233 20) (dec 17500064229336588 24);
  q4 (dec 86492129999999997 13) (dec (-13637624598930642) 16) (dec 10420075593464695 20) (dec 16238429958814748 24);
  q4 (dec 85138949999999986 13) (dec (-13424351558073702) 16) (dec 10242694624098104 20) (dec 17246118327873817 24);
  q4 (dec 83806929999999993 13) (dec (-13214323830093373) 16) (dec 10104846428073967 20) (dec 15753658127959372 24);
  q4 (dec 82495760000000009 13) (dec (-13007500804093508) 16) (dec 99276998134927293 21) (dec 16238059585083064 24);
  q4 (dec 81205100000000002 13) (dec (-12804075389948131) 16) (dec 9780077989615111 20) (dec 15746100519287153 24);
  q4 (dec 79934629999999997 13) (dec (-12603750000000038) 16) (dec 96274597495520366 21) (dec 15754025044945052 24);
  q4 (dec 78684039999999995 13) (dec (-12406474597495503) 16) (dec 94800751815184991 21) (dec 14738456803309319 24);
  q4 (dec 77453019999999997 13) (dec (-1221245155682414) 15) (dec 931515305346009 19) (dec 16000262894744211 24);
  q4 (dec 76241249999999991 13) (dec (-12021348416886501) 16) (dec 91973808338174928 21) (dec 13746085484456218 24);
  q4 (dec 75048450000000003 13) (dec (-11833276974564819) 16) (dec 90202369609007071 21) (dec 1574604955818515 23);
  q4 (dec 73874300000000003 13) (dec (-11648148420479356) 16) (dec 89123809734499294 21) (dec 13246107448328104 24);
  q4 (dec 72718530000000001 13) (dec (-11465926968775852) 16) (dec 87427778518498476 21) (dec 14991902574035265 24);
  q4 (dec 71580830000000005 13) (dec (-11286573840966652) 16) (dec 86323088494966177 21) (dec 13507524715450361 24);
  q4 (dec 70460939999999991 13) (dec (-11109875406562084) 16) (dec 84801595733114969 21) (dec 13738108290528574 24);
  q4 (dec 6935857 3) (dec (-10936150782608696) 16) (dec 83476174937293653 21) (dec 13746076713161414 24);
  q4 (dec 68273439999999991 13) (dec (-10765074609720153) 16) (dec 82274615791169133 21) (dec 12999939291180596 24);
  q4 (dec 67205290000000005 13) (dec (-10596625396350468) 16) (dec 80926180121225773 21) (dec 12992162292180253 24);
  q4 (dec 66153850000000002 13) (dec (-10430875387420366) 16) (dec 79649971875670473 21) (dec 13254155446240646 24);
  q4 (dec 65118859999999995 13) (dec (-10267599197035151) 16) (dec 78499961468720959 21) (dec 11992355665313427 24);
  q4 (dec 64100070000000005 13) (dec (-10107001567398115) 16) (dec 77076963294572261 21) (dec 13246041034475908 24);
  q4 (dec 63097209999999995 13) (dec (-99488738284986289) 17) (dec 76098466058793787 21) (dec 11753624398935791 24);
  q4 (dec 62110050000000001 13) (dec (-97931508090613661) 17) (dec 74701618122943186 21) (dec 12491909384682032 24);
  q4 (dec 61138330000000005 13) (dec (-96400000000000796) 17) (dec 73650768202935252 21) (dec 11492317970485111 24);
  q4 (dec 60181809999999996 13) (dec (-94892507682030636) 17) (dec 72450755686751523 21) (dec 12000125164046694 24);
  q4 (dec 59240250000000005 13) (dec (-93407492192803387) 17) (dec 71423843593280135 21) (dec 1125375686987784 23);
  q4 (dec 58313429999999998 13) (dec (-91945254050328129) 17) (dec 70176204111181977 21) (dec 11492009216351739 24);
  q4 (dec 57401109999999999 13) (dec (-90507253940455457) 17) (dec 69100788091005513 21) (dec 11246059545122478 24);
  q4 (dec 56503059999999996 13) (dec (-8909149999999999) 16) (dec 68554307250587868 21) (dec 59569274944770714 25);
  q4 (dec 55619059999999999 13) (dec (-87702543072504802) 17) (dec 67933569227592865 21) (dec 62073802290507636 25);
  q4 (dec 54748890000000001 13) (dec (-86325249547265803) 17) (dec 68295157991058451 21) (dec 62979673547847178 25);
  q4 (dec 53892529999999997 13) (dec (-84940452485380269) 17) (dec 67641308285556478 21) (dec 60394025248822203 25);
  q4 (dec 53049949999999999 13) (dec (-83569508112094459) 17) (dec 65475356002292484 21) (dec 11754552071296941 24);
  q4 (dec 52220919999999996 13) (dec (-82224737335834741) 17) (dec 64523753861674967 21) (dec 10499797218499474 24);
  q4 (dec 51405230000000001 13) (dec (-80902762866945765) 17) (dec 63252573389177552 21) (dec 11237133053998427 24);
  q4 (dec 50602640000000001 13) (dec (-79604000000000263) 17) (dec 62350000000015448 21) (dec 10499999999868948 24);
  q4 (dec 49812939999999999 13) (dec (-78325500000000381) 17) (dec 61325410821652101 21) (dec 10245891783622342 24);
  q4 (dec 49035919999999996 13) (dec (-77068254108216461) 17) (dec 60249965199608015 21) (dec 10754456220474219 24);
  q4 (dec 48271369999999997 13) (dec (-75830991435562956) 17) (dec 59349944113340496 21) (dec 94919944294780119 25);
  q4 (dec 47519089999999997 13) (dec (-74615516570007701) 17) (dec 58202512989932179 21) (dec 10491440109161587 24);
  q4 (dec 46778860000000004 13) (dec (-73419991989881594) 17) (dec 5744839797627632 20) (dec 95080101185862634 25);
  q4 (dec 46050500000000002 13) (dec (-72242500000000298) 17) (dec 56400827526210671 21) (dec 94917247383419239 25);
  q4 (dec 45333810000000003 13) (dec (-71086008275261114) 17) (dec 55426245216165794 21) (dec 97458230994940119 25);
  q4 (dec 44628590000000004 13) (dec (-69948245901639261) 17) (dec 54599180327875587 21) (dec 92540983604783026 25);
  q4 (dec 43934660000000003 13) (dec (-68828500000000303) 17) (dec 53676201372971913 21) (dec 87379862702352548 25);
  q4 (dec 4325183 3) (dec (-67728762013730193) 17) (dec 52726180109813338 21) (dec 95002126320409277 25);
  q4 (dec 4257991 3) (dec (-6664573777363777) 16) (dec 52048406193904162 21) (dec 82537116985470504 25);
  q4 (dec 41918739999999998 13) (dec (-65580008514664068) 17) (dec 50976281652174159 21) (dec 9245698142623661 24);
  q4 (dec 41268130000000001 13) (dec (-64532745787192691) 17) (dec 50275367707527386 21) (dec 79921101174829106 25);
  q4 (dec 40627910000000002 13) (dec (-63503262102689695) 17) (dec 4932618858168758 20) (dec 9000216872623312 24);
  q4 (dec 399979 2) (dec (-62489737680438096) 17) (dec 48723786719284683 21) (dec 74998132453707468 25);
  q4 (dec 39377950000000001 13) (dec (-61492762506316323) 17) (dec 47701678217948466 21) (dec 87457241367827622 25);
  q4 (dec 3876788 3) (dec (-60512491769547028) 17) (dec 47099189855185356 21) (dec 74998709955309545 25);
  q4 (dec 38167540000000004 13) (dec (-59548008359456761) 17) (dec 46176259876355989 21) (dec 82457606927821557 25);
  q4 (dec 37576759999999999 13) (dec (-58599745879851328) 17) (dec 45524594662912364 21) (dec 74999332224878756 25);
  q4 (dec 36995390000000002 13) (dec (-57666754186925628) 17) (dec 44726235518042221 21) (dec 7491831745221057 24);
  q4 (dec 36423270000000002 13) (dec (-56749753981329121) 17) (dec 43999958276965676 21) (dec 7754398559312037 24);
  q4 (dec 35860250000000001 13) (dec (-55846491620111838) 17) (dec 43374557714918053 21) (dec 67460429626908797 25);
  q4 (dec 35306190000000001 13) (dec (-5495876233692536) 16) (dec 42501659071070287 21) (dec 77457462148267101 25);
  q4 (dec 34760930000000003 13) (dec (-54085491916859496) 17) (dec 41999204004814495 21) (dec 64998768108059938 25);
  q4 (dec 34224339999999997 13) (dec (-5322600820633081) 16) (dec 41150805944026872 21) (dec 75001468907265342 25);
  q4 (dec 3369627 3) (dec (-52380491646778038) 17) (dec 40599177840373594 21) (dec 64998683739991852 25);
  q4 (dec 33176589999999997 13) (dec (-51549008484848569) 17) (dec 3977628056014759 20) (dec 72456792473030168 25);
  q4 (dec 32665149999999999 13) (dec (-50731745835903685) 17) (dec 39275341257087319 21) (dec 59924233327457446 25);
  q4 (dec 32161819999999998 13) (dec (-49928261740763741) 17) (dec 38526153124142093 21) (dec 7000209522711743 24);
  q4 (dec 31666460000000002 13) (dec (-49136738049712747) 17) (dec 38098450822293132 21) (dec 57535414898279855 25);
  q4 (dec 31178960000000002 13) (dec (-48357508408797428) 17) (dec 37250825369376521 21) (dec 70001551031428914 25);
  q4 (dec 30699179999999997 13) (dec (-47591491436100469) 17) (dec 36799891498163206 21) (dec 54925211189882365 25);
  q4 (dec 30226999999999998 13) (dec (-4683901604278024) 16) (dec 36027034287937634 21) (dec 67456999011228372 25);
  q4 (dec 29762280000000001 13) (dec (-46098238257318147) 17) (dec 35673083391643548 21) (dec 55074234013741127 25);
  q4 (dec 29304919999999997 13) (dec (-45368254319281137) 17) (dec 34926267932249843 21) (dec 59916399591686264 25);
  q4 (dec 28854790000000003 13) (dec (-44651754040758623) 17) (dec 34375397143828202 21) (dec 60000693202000307 25);
  q4 (dec 28411770000000001 13) (dec (-43946245889921448) 17) (dec 33899976242682819 21) (dec 52461274947734895 25);
  q4 (dec 27975750000000003 13) (dec (-4325250798258351) 16) (dec 33250784108961871 21) (dec 6000141493667233 24);
  q4 (dec 27546610000000001 13) (dec (-42569491875923249) 17) (dec 32823806542524595 21) (dec 52538104981181271 25);
  q4 (dec 27124250000000002 13) (dec (-41897254313578386) 17) (dec 32176263173305243 21) (dec 54916818451600239 25);
  q4 (dec 2670855 3) (dec (-41237254004576779) 17) (dec 31700800915365758 21) (dec 52459954231642853 25);
  q4 (dec 26299400000000001 13) (dec (-40587499999999982) 17) (dec 31199132492091832 21) (dec 55086750790800396 25);
  q4 (dec 25896700000000001 13) (dec (-39946991324920905) 17) (dec 30749864984250255 21) (dec 44926750786489223 25);
  q4 (dec 25500350000000003 13) (dec (-39318515999999981) 17) (dec 30077038630762499 21) (dec 57456136921874014 25);
  q4 (dec 25110230000000001 13) (dec (-38699738386308175) 17) (dec 29823111504828082 21) (dec 45072712599458773 25);
  q4 (dec 24726260000000002 13) (dec (-38089754342431753) 17) (dec 29150868486323978 21) (dec 52456575683867976 25);
  q4 (dec 24348330000000001 13) (dec (-37491000000000096) 17) (dec 28750769230793118 21) (dec 4492307692094411 24);
  q4 (dec 2397634 3) (dec (-36902507692307951) 17) (dec 28250755852822774 21) (dec 50001337794980404 25);
  q4 (dec 23610189999999998 13) (dec (-36322492173913029) 17) (dec 27923854023598761 21) (dec 42536336772758252 25);
  q4 (dec 232498 2) (dec (-35751254192409215) 17) (dec 27325411707397331 21) (dec 5000075335281906 24);
  q4 (dec 22895070000000001 13) (dec (-35189745732255406) 17) (dec 26975308711726933 21) (dec 39926451379734829 25);
  q4 (dec 22545909999999999 13) (dec (-34638261622606964) 17) (dec 26426140677462406 21) (dec 50002158326623021 25);
  q4 (dec 22202220000000002 13) (dec (-34094738161559762) 17) (dec 26173080002779847 21) (dec 40073615317770541 25);
  q4 (dec 2186393 3) (dec (-33559254476908817) 17) (dec 25601661665269895 21) (dec 42378602561399249 25);
  q4 (dec 21530940000000001 13) (dec (-33034507662835) 14) (dec 25200752839962262 21) (dec 45001344355921627 25);
  q4 (dec 21203160000000003 13) (dec (-32516992202728989) 17) (dec 24923860921636788 21) (dec 37535935125010412 25);
  q4 (dec 20880520000000001 13) (dec (-32007254203758767) 17) (dec 24400840751762078 21) (dec 42457962411313053 25);
  q4 (dec 20562930000000001 13) (dec (-31506500000000132) 17) (dec 24075383043897225 21) (dec 37461695609808387 25);
  q4 (dec 20250309999999999 13) (dec (-31013753830439234) 17) (dec 23624439344906433 21) (dec 45094369902631829 25);
  q4 (dec 1994258 3) (dec (-30527736732570326) 17) (dec 23349034277720947 21) (dec 32463897929435604 25);
  q4 (dec 19639669999999999 13) (dec (-3005101687763706) 16) (dec 22778026440469224 21) (dec 4236613232622144 24);
  q4 (dec 19341480000000001 13) (dec (-29582746509129781) 17) (dec 22598428463498353 21) (dec 376222449472996 23);
  q4 (dec 19047950000000001 13) (dec (-29119491266375619) 17) (dec 22249801947700209 21) (dec 29932468986082484 25);
  q4 (dec 18759010000000001 13) (dec (-28665515486725784) 17) (dec 21675978701052311 21) (dec 4755699715064399 24);
  q4 (dec 18474569999999999 13) (dec (-28217728813559517) 17) (dec 21648159972154081 21) (dec 22472138379470154 25);
  q4 (dec 18194579999999999 13) (dec (-27778023972602583) 17) (dec 20927898371200793 21) (dec 47449888907258324 25);
  q4 (dec 1791894 3) (dec (-27345231038506385) 17) (dec 20972535918490909 21) (dec 25056793214295325 25);
  q4 (dec 1764761 3) (dec (-26918263282172261) 17) (dec 20327265339434297 21) (dec 39906287781388273 25);
  q4 (dec 17380500000000002 13) (dec (-26499746089049175) 17) (dec 20174614635241618 21) (dec 29999426966798024 25);
  q4 (dec 17117550000000001 13) (dec (-26087253968254298) 17) (dec 19800793650791571 21) (dec 32460317461846525 25);
  q4 (dec 16858689999999999 13) (dec (-25681499999999913) 17) (dec 19499116161654783 21) (dec 35088383836479057 25);
  q4 (dec 16603860000000002 13) (dec (-2528099116161589) 16) (dec 19224480722674908 21) (dec 27463543891159681 25);
  q4 (dec 16353000000000002 13) (dec (-24888262483995016) 17) (dec 18751713509168599 21) (dec 37453489032113204 25);
  q4 (dec 16106030000000001 13) (dec (-24501992167102005) 17) (dec 18674523248635444 21) (dec 22469346155462591 25);
  q4 (dec 158629 2) (dec (-24121760898282654) 17) (dec 18174986674102111 21) (dec 40110315417118964 25);
  q4 (dec 1562354 3) (dec (-23746228070175476) 17) (dec 18148066351138525 21) (dec 17474066639822095 25);
  q4 (dec 15387909999999999 13) (dec (-23378024523160743) 17) (dec 17503511874514544 21) (dec 3989404415749576 24);
  q4 (dec 15155920000000001 13) (dec (-23015986072423192) 17) (dec 17572672876763894 21) (dec 22593436555917725 25);
  q4 (dec 14927540000000001 13) (dec (-22657754583921152) 17) (dec 17076311332260564 21) (dec 29914705983957738 25);
  q4 (dec 147027 2) (dec (-22307253945480757) 17) (dec 16825387636289769 21) (dec 30000691178921901 25);
  q4 (dec 1448134 3) (dec (-21961745985401285) 17) (dec 16649936725261217 21) (dec 22466181487823534 25);
  q4 (dec 14263410000000001 13) (dec (-21622007396449719) 17) (dec 16275234946028506 21) (dec 32550469893033451 25);
  q4 (dec 1404885 3) (dec (-21286737556561239) 17) (dec 16173770854222836 21) (dec 19998480189631355 25);
  q4 (dec 13837619999999999 13) (dec (-20957262595419893) 17) (dec 15701740267761723 21) (dec 32451927422405546 25);
  q4 (dec 13629649999999999 13) (dec (-20633492211837917) 17) (dec 1562387680679095 20) (dec 22534437700949542 25);
  q4 (dec 134249 2) (dec (-20314254344391805) 17) (dec 15301509903978271 21) (dec 22392453519204382 25);
  q4 (dec 13223309999999999 13) (dec (-20001506410256487) 17) (dec 15024031642136005 21) (dec 32660938351691812 25);
  q4 (dec 13024829999999999 13) (dec (-19691227495908262) 17) (dec 14997974429186434 21) (dec 12477516164288716 25);
  q4 (dec 1282943 3) (dec (-19387524752475235) 17) (dec 14403599143698598 21) (dec 34887610382450254 25);
  q4 (dec 1263703 3) (dec (-19088986486486545) 17) (dec 14522767382765535 21) (dec 17588126588863329 25);
  q4 (dec 1244761 3) (dec (-18793254700854586) 17) (dec 1407633147529619 20) (dec 24913861017605845 25);
  q4 (dec 12261110000000001 13) (dec (-18504253913043378) 17) (dec 13900782608680385 21) (dec 22460869565255062 25);
  q4 (dec 1207748 3) (dec (-18219500000000213) 17) (dec 13699100719424539 21) (dec 25089928058108504 25);
  q4 (dec 11896679999999999 13) (dec (-17937991007194284) 17) (dec 1352443094707223 20) (dec 17466977236313408 25);
  q4 (dec 1171867 3) (dec (-17662262295081943) 17) (dec 13177134341041397 21) (dec 24909516715077019 25);
  q4 (dec 11543389999999999 13) (dec (-17391246753246595) 17) (dec 13123926920568241 21) (dec 20074840411055116 25);
  q4 (dec 11370810000000001 13) (dec (-17122745762711924) 17) (dec 12874582752649133 21) (dec 19999351852373338 25);
  q4 (dec 11200889999999999 13) (dec (-16859254302103219) 17) (dec 12626200226527606 21) (dec 19922998381716185 25);
  q4 (dec 11033580000000002 13) (dec (-16600753398058149) 17) (dec 12424342977938041 21) (dec 25099682786078327 25);
  q4 (dec 1086884 3) (dec (-1634473663366357) 16) (dec 12323679438110692 21) (dec 14998392824372432 25);
  q4 (dec 1070664 3) (dec (-1609376352705405) 16) (dec 11952705410823162 21) (dec 2236472945837953 24);
  q4 (dec 1054692 3) (dec (-15848000000000073) 17) (dec 11899170124467784 21) (dec 20082987553127211 25);
  q4 (dec 10389649999999999 13) (dec (-15603991701244796) 17) (dec 11744115784923792 21) (dec 15505433956619631 25);
  q4 (dec 102348 2) (dec (-15364457755359345) 17) (dec 11426326232456263 21) (dec 21944930347406188 25);
  q4 (dec 1008232 3) (dec (-15129347751606012) 17) (dec 11344630721039361 21) (dec 17014443956575589 25);
  q4 (dec 99321780000000001 14) (dec (-14897350803998252) 17) (dec 11132699991521222 21) (dec 1823804082984326 24);
  q4 (dec 97843359999999996 14) (dec (-14669225391918872) 17) (dec 10965078383748107 21) (dec 17746080813507703 25);
  q4 (dec 96387579999999991 14) (dec (-14444599999999866) 17) (dec 10792459539565313 21) (dec 17754046043760852 25);
  q4 (dec 94954090000000008 14) (dec (-14223424595395423) 17) (dec 10622538898474309 21) (dec 1699206410571419 24);
  q4 (dec 93542539999999997 14) (dec (-14005876198194228) 17) (dec 10442700217777879 21) (dec 17491960163984465 25);
  q4 (dec 92152569999999992 14) (dec (-13791774605789484) 17) (dec 10295000029822421 21) (dec 1624605491412634 24);
  q4 (dec 90783850000000007 14) (dec (-13581000788718803) 17) (dec 10125157743764713 21) (dec 1649211281112839 24);
  q4 (dec 89436040000000003 14) (dec (-13373550000000164) 17) (dec 12139887990654519 21) (dec (-20048879906492401) 24);
  q4 (dec 88108819999999992 14) (dec (-13190898879906551) 17) (dec 14025540687198912 21) (dec (-1885652696538842) 23);
  q4 (dec 86801869999999997 14) (dec (-12966957647058733) 17) (dec 11579027014447379 21) (dec (-6668223307550181) 24);
  q4 (dec 84249459999999999 14) (dec (-12583815246171445) 17) (dec 12561740932601831 21) (dec (-61048931201401759) 25);
  q4 (dec 81778060000000005 14) (dec (-12154604326309056) 17) (dec 91106482906089253 22) (dec 16603401242154536 25);
  q4 (dec 79384910000000002 14) (dec (-11770254313194109) 17) (dec 88024999133180795 22) (dec 16010787319324651 25);
  q4 (dec 77067349999999999 14) (dec (-11398941371878196) 17) (dec 85062053841265112 22) (dec 15418160489201473 25);
  q4 (dec 74822820000000002 14) (dec (-11040191363926098) 17) (dec 82193078965613068 22) (dec 14888014987071708 25);
  q4 (dec 72648849999999993 14) (dec (-10693553430079156) 17) (dec 79443063023226786 22) (dec 14293260081878202 25);
  q4 (dec 70543060000000003 14) (dec (-10358629265887997) 17) (dec 76761582817639475 22) (dec 13890250631837241 25);
  q4 (dec 68503150000000005 14) (dec (-10034914633859245) 17) (dec 74235722598319649 22) (dec 13232971656396142 25);
  q4 (dec 66526919999999996 14) (dec (-97220921774782962) 18) (dec 7170552607519837 21) (dec 12952813319824786 25);
  q4 (dec 64612220000000002 14) (dec (-9419726697193706) 17) (dec 6937881528548198 21) (dec 1229766655685277 24);
  q4 (dec 62757010000000002 14) (dec (-91274542361835492) 18) (dec 67030496971003109 22) (dec 11983105603803612 25);
  q4 (dec 60959289999999999 14) (dec (-88449525215749683) 18) (dec 64840867771760737 22) (dec 11551965078654413 25);
  q4 (dec 59217160000000001 14) (dec (-85717266923935442) 18) (dec 62710249263030902 22) (dec 11015484668627783 25);
  q4 (dec 57528779999999995 14) (dec (-83076671137390687) 18) (dec 60586073253669771 22) (dec 10862418079370107 25);
  q4 (dec 55892349999999999 14) (dec (-80522879190291385) 18) (dec 58671060417295888 22) (dec 10239495486320805 25);
  q4 (dec 54306179999999995 14) (dec (-7805316282776377) 17) (dec 56680026927789787 22) (dec 10015572301992625 25);
  q4 (dec 52768589999999995 14) (dec (-75665774883028281) 18) (dec 54859362959257946 22) (dec 96469059608431112 26);
  q4 (dec 5127799 4) (dec (-73355637493127832) 18) (dec 53083956154485054 22) (dec 92395925095634109 26);
  q4 (dec 49832850000000002 14) (dec (-71121404136833696) 18) (dec 51322695436401004 22) (dec 89875570264338901 26);
  q4 (dec 48431670000000003 14) (dec (-68960645635060519) 18) (dec 49664979565333669 22) (dec 87115109384597329 26);
  q4 (dec 47073020000000002 14) (dec (-66869508321185656) 18) (dec 48077887213945208 22) (dec 82376442266732247 26);
  q4 (dec 45755520000000001 14) (dec (-64847541101907755) 18) (dec 46460154966880554 22) (dec 82095006425086949 26);
  q4 (dec 44477809999999999 14) (dec (-62890620895522387) 18) (dec 4505123834581473 21) (dec 76490321515333702 26);
  q4 (dec 43238630000000001 14) (dec (-60996782975871369) 18) (dec 43516206400863113 22) (dec 76147119635154592 26);
  q4 (dec 42036709999999999 14) (dec (-59164758176274694) 18) (dec 4217704150383979 21) (dec 71793365495446967 26);
  q4 (dec 40870860000000005 14) (dec (-57391524477526594) 18) (dec 40790354557348339 22) (dec 70543465948182117 26);
  q4 (dec 39739909999999998 14) (dec (-55675258136094835) 18) (dec 39507679725964838 22) (dec 6776135393928712 25);
  q4 (dec 38642750000000001 14) (dec (-54013637322329125) 18) (dec 38240342081378653 22) (dec 64576201753568932 26);
  q4 (dec 37578289999999998 14) (dec (-52406532196969717) 18) (dec 3699031594495035 21) (dec 64314695177002119 26);
  q4 (dec 3654547 4) (dec (-50849741924959301) 18) (dec 35887917655893011 22) (dec 59958929603184945 26);
  q4 (dec 35543309999999997 14) (dec (-49342274503199772) 18) (dec 34678250598348116 22) (dec 59273728082488709 26);
  q4 (dec 3457081 4) (dec (-47884016005566903) 18) (dec 33614500305179095 22) (dec 56814998658574761 26);
  q4 (dec 33627030000000002 14) (dec (-46471257994969484) 18) (dec 32557252456673349 22) (dec 55282364589889786 26);
  q4 (dec 32711070000000001 14) (dec (-45102629059194682) 18) (dec 31533055316140119 22) (dec 52419882179792486 26);
  q4 (dec 31822050000000002 14) (dec (-43778402987933333) 18) (dec 30502798793326932 22) (dec 52117530166852225 26);
  q4 (dec 30959100000000001 14) (dec (-42495749999999999) 18) (dec 29606851133354843 22) (dec 4903244333224338 25);
  q4 (dec 30121420000000001 14) (dec (-41252637022667141) 18) (dec 28651992738857808 22) (dec 47742919724522162 26);
  q4 (dec 29308209999999997 14) (dec (-40049265809443423) 18) (dec 27745130911715348 22) (dec 47157978023300302 26);
  q4 (dec 28518700000000001 14) (dec (-38882870999346814) 18) (dec 26919735236699201 22) (dec 43690736531640242 26);
  q4 (dec 27752159999999998 14) (dec (-37753652706040856) 18) (dec 26014876172556975 22) (dec 4463795647481617 25);
  q4 (dec 27007850000000002 14) (dec (-36659492111368798) 18) (dec 25287895347397492 22) (dec 40585511051870197 26);
  q4 (dec 262851 3) (dec (-35599273684210654) 18) (dec 24439868421061507 22) (dec 41190789473559421 26);
  q4 (dec 2558322 4) (dec (-34572249999999909) 18) (dec 23737895005098572 22) (dec 3873024974499623 25);
  q4 (dec 24901580000000001 14) (dec (-33576257900101963) 18) (dec 22976184539380553 22) (dec 38085523285692758 26);
  q4 (dec 2423955 4) (dec (-3261150789058391) 17) (dec 22276562254277751 22) (dec 36191613746044959 26);
  q4 (dec 23596520000000001 14) (dec (-31677015463917567) 18) (dec 21582602118427884 22) (dec 35908553872310293 26);
  q4 (dec 22971899999999999 14) (dec (-30770621114533665) 18) (dec 2095645162087413 21) (dec 33730205290828653 26);
  q4 (dec 22365140000000002 14) (dec (-29891886803349706) 18) (dec 20276567700861989 22) (dec 33388623330837119 26);
  q4 (dec 2177568 4) (dec (-29040757747318215) 18) (dec 19676158874435896 22) (dec 31836424574105401 26);
  q4 (dec 21202990000000003 14) (dec (-28215507682851866) 18) (dec 19075768285169505 22) (dec 31230792870810819 26);
  q4 (dec 20646559999999999 14) (dec (-2741500000000012) 17) (dec 1850683229815183 21) (dec 29658385092730391 26);
  q4 (dec 201059 3) (dec (-2663913664596276) 17) (dec 17926543894983792 22) (dec 29014420157569277 26);
  q4 (dec 19580519999999999 14) (dec (-25887257585974342) 18) (dec 17400758597446894 22) (dec 28106035063740074 26);
  q4 (dec 1906996 4) (dec (-25157499999999975) 18) (dec 16881444962342853 22) (dec 27177751882670467 26);
  q4 (dec 18573779999999999 14) (dec (-24449628899247067) 18) (dec 16363647500468142 22) (dec 25889873094403495 26);
  q4 (dec 18091540000000001 14) (dec (-23764015151515046) 18) (dec 15851133763258689 22) (dec 26231190624771004 26);
  q4 (dec 17622810000000001 14) (dec (-23098492372234981) 18) (dec 15425003130796304 22) (dec 23730774047457657 26);
  q4 (dec 171672 3) (dec (-22453015318146186) 18) (dec 14914031814615947 22) (dec 24336704634638635 26);
  q4 (dec 16724299999999999 14) (dec (-21827249999999982) 18) (dec 1450644050104439 21) (dec 22802974947756794 26);
  q4 (dec 1629374 4) (dec (-21219628810020898) 18) (dec 14056822026622603 22) (dec 22480923721063254 26);
  q4 (dec 15875149999999999 14) (dec (-20630378820490708) 18) (dec 13638259156442506 22) (dec 21534093404811799 26);
  q4 (dec 15468170000000001 14) (dec (-2005900754214723) 17) (dec 13232189971470672 22) (dec 20909356794520525 26);
  q4 (dec 15072450000000001 14) (dec (-19504628715134961) 18) (dec 1285037151348683 21) (dec 20303212162932351 26);
  q4 (dec 1468766 4) (dec (-18966249999999959) 18) (dec 12481804949059269 22) (dec 19034752547150702 26);
  q4 (dec 14313480000000001 14) (dec (-18444136098981014) 18) (dec 12081787163998985 22) (dec 20000889252493742 26);
  q4 (dec 13949590000000001 14) (dec (-17936863545318055) 18) (dec 11768554428761256 22) (dec 17481141856914852 26);
  q4 (dec 13595699999999999 14) (dec (-174451439979393) 16) (dec 11364399793921052 22) (dec 18390005152059407 26);
  q4 (dec 13251489999999998 14) (dec (-16968499999999977) 18) (dec 11081061850030765 22) (dec 17196907498590737 26);
  q4 (dec 1291669 4) (dec (-16504621237000441) 18) (dec 10756433559205685 22) (dec 1623141454092439 25);
  q4 (dec 12591030000000001 14) (dec (-16054886197183104) 18) (dec 10407184506223099 22) (dec 16856267646536003 26);
  q4 (dec 1227423 4) (dec (-15618371295758344) 18) (dec 10143928739008833 22) (dec 14981802445362608 26);
  q4 (dec 1196604 4) (dec (-15194635983263557) 18) (dec 98132284126755016 23) (dec 15928537525251862 26);
  q4 (dec 11666200000000001 14) (dec (-14782992601726238) 18) (dec 93854448078717343 23) (dec 23209263921913568 26);
  q4 (dec 1137448 4) (dec (-14379723692705081) 18) (dec 88981992162974304 23) (dec 23149270947705333 26);
  q4 (dec 11090629999999999 14) (dec (-13996016598915943) 18) (dec 81918479682537012 23) (dec 20449098877429323 26);
  q4 (dec 10814150000000001 14) (dec (-13643803761532885) 18) (dec 78242794990190932 23) (dec 19545428881330776 26);
  q4 (dec 10544560000000001 14) (dec (-13307378066914531) 18) (dec 7974982263967909 22) (dec 10946054087813614 26);
  q4 (dec 1028169 4) (dec (-12975243511450435) 18) (dec 77967817820085064 23) (dec 95196895255958428 27);
  q4 (dec 1002538 4) (dec (-12651948612739385) 18) (dec 75602566974594146 23) (dec 10608696975429253 26);
  q4 (dec 97754499999999993 15) (dec (-12336807908470497) 18) (dec 74178097219587684 23) (dec 9254285078356961 26);
  q4 (dec 95317549999999997 15) (dec (-12028990377498126) 18) (dec 72072100559474228 23) (dec 96154409479857352 27);
  q4 (dec 9294135 5) (dec (-11729163446122655) 18) (dec 70339077829168449 23) (dec 92132261608583727 27);
  q4 (dec 90624390000000005 15) (dec (-11436751263412948) 18) (dec 68570487696238863 23) (dec 90257200510875115 27);
  q4 (dec 88365189999999998 15) (dec (-11151638448566687) 18) (dec 66870486429543473 23) (dec 8743689268904397 26);
  q4 (dec 86162309999999991 15) (dec (-10873664075725825) 18) (dec 65195796532386585 23) (dec 85562066527971475 27);
  q4 (dec 84014340000000004 15) (dec (-10602613441612922) 18) (dec 63582350181643624 23) (dec 83718531240957462 27);
  q4 (dec 81919920000000005 15) (dec (-10338237817137438) 18) (dec 62007670872527874 23) (dec 80561884808431213 27);
  q4 (dec 79877719999999997 15) (dec (-10080539707470306) 18) (dec 77083464438009247 23) (dec (-75318053514216927) 26);
  q4 (dec 77886420000000001 15) (dec (-98625875139353378) 19) (dec 90750911877601763 23) (dec (-67910774549789783) 26);
  q4 (dec 75944769999999991 15) (dec (-95810767958846785) 19) (dec 65385289681183652 23) (dec (-14339861008492994) 26);
  q4 (dec 71299769999999995 15) (dec (-90347728566365394) 19) (dec 68746614715972659 23) (dec (-12304086777330247) 26);
  q4 (dec 66938869999999994 15) (dec (-84395873603067897) 19) (dec 42293855502378161 23) (dec 76792331179631468 27);
  q4 (dec 62834409999999998 15) (dec (-7959054556898288) 18) (dec 39435646268713189 23) (dec 69505302218879347 27);
  q4 (dec 58962159999999997 15) (dec (-75125691175469975) 19) (dec 39408752229081258 23) (dec 45701425606399506 27);
  q4 (dec 55310110000000002 15) (dec (-70842055260513861) 19) (dec 37324793880108217 23) (dec 43686226603355251 27);
  q4 (dec 51866779999999999 15) (dec (-66781929172977893) 19) (dec 3535998222339194 22) (dec 41492024723352452 27);
  q4 (dec 48621270000000003 15) (dec (-62934740765213572) 19) (dec 33471186407909789 23) (dec 39592577927238806 27);
  q4 (dec 45563160000000003 15) (dec (-59290677789968303) 19) (dec 31687626156064878 23) (dec 37638592865985032 27);
  q4 (dec 42682549999999999 15) (dec (-55839625727866909) 19) (dec 29981231249017088 23) (dec 35905666166451139 27);
  q4 (dec 39970010000000002 15) (dec (-5257221010671686) 18) (dec 28367056255141667 23) (dec 34022917583899362 27);
  q4 (dec 3741657 5) (dec (-49480332599323466) 19) (dec 26814137884795948 23) (dec 32570282033475558 27);
  q4 (dec 35013660000000002 15) (dec (-46554641695592779) 19) (dec 25366018628065166 23) (dec 30776305675765669 27);
  q4 (dec 32753189999999996 15) (dec (-43787217540218002) 19) (dec 23959777554615099 23) (dec 29371464994910891 27);
  q4 (dec 30627399999999998 15) (dec (-41170953797294652) 19) (dec 22643959906385944 23) (dec 27902320790133827 27);
  q4 (dec 28628949999999996 15) (dec (-38697290400730097) 19) (dec 21389550527406691 23) (dec 26485149743928766 27);
  q4 (dec 26750869999999999 15) (dec (-36359696724909958) 19) (dec 20190754053334929 23) (dec 25183608897281358 27);
  q4 (dec 24986509999999999 15) (dec (-34151744252846838) 19) (dec 19058436025763247 23) (dec 23928980623481171 27);
  q4 (dec 23329560000000001 15) (dec (-32066433295594395) 19) (dec 17987065059773578 23) (dec 226720170422752 25);
  q4 (dec 21774039999999999 15) (dec (-30097686661799978) 19) (dec 16962977966253518 23) (dec 21575105394935205 27);
  q4 (dec 20314260000000001 15) (dec (-28239575574712629) 19) (dec 15998659820744537 23) (dec 20417033470152001 27);
  q4 (dec 1894483 5) (dec (-26486581841612049) 19) (dec 15075626773755536 23) (dec 19440201169697999 27);
  q4 (dec 17660619999999998 15) (dec (-24833217655463769) 19) (dec 14212359137248317 23) (dec 18319879440540506 27);
  q4 (dec 16456779999999998 15) (dec (-23274582645934861) 19) (dec 13379317586469966 23) (dec 17526706644555717 27);
  q4 (dec 1532869 5) (dec (-21805200587453688) 19) (dec 1261169817905949 22) (dec 16406271400270376 27);
  q4 (dec 14272009999999998 15) (dec (-20420983734045716) 19) (dec 11855251608578355 23) (dec 15768461446734329 27);
  q4 (dec 1328257 5) (dec (-19117195112337382) 19) (dec 11171259038949329 23) (dec 14732864155962006 27);
  q4 (dec 12356479999999999 15) (dec (-17889572727272725) 19) (dec 10493882929671264 23) (dec 14111432315671788 27);
  q4 (dec 1149 2) (dec (-16734348691938065) 19) (dec 98774910988360527 24) (dec 13229654798500162 27);
  q4 (dec 1067963 5) (dec (-15647377171065712) 19) (dec 92774348209023577 24) (dec 12602172008237962 27);
  q4 (dec 99220299999999995 16) (dec (-14625117398913696) 19) (dec 87221260637527356 24) (dec 11868438290423 24);
  q4 (dec 92140629999999994 16) (dec (-13663891505360246) 19) (dec 81887393303582955 24) (dec 11245815536927926 27);
  q4 (dec 85527459999999991 16) (dec (-12760673955797446) 19) (dec 76883556982275223 24) (dec 10630468354432682 27);
  q4 (dec 79352619999999998 16) (dec (-11912109873316442) 19) (dec 7216091805639646 23) (dec 10034113213779408 27);
  q4 (dec 73589509999999994 16) (dec (-11115244843649128) 19) (dec 67686322966028455 24) (dec 948529152760072 26);
  q4 (dec 68212960000000002 16) (dec (-10367241927531831) 19) (dec 63475763930726518 24) (dec 89532431512776711 28);
  q4 (dec 6319922 6) (dec (-96653349645899804) 20) (dec 59498770501640197 24) (dec 84484448327091717 28);
  q4 (dec 58525859999999996 16) (dec (-90069839233282651) 20) (dec 55744820807350191 24) (dec 7975927716613943 27);
  q4 (dec 54171700000000005 16) (dec (-83897162573801673) 20) (dec 52211542251502092 24) (dec 75194184490558903 28);
  q4 (dec 50116769999999997 16) (dec (-78112051964972261) 20) (dec 48874769538392176 24) (dec 70925395221112241 28);
  q4 (dec 46342220000000003 16) (dec (-72692634546974734) 20) (dec 4602679425157533 23) (dec 60997933758345086 28);
  q4 (dec 42830279999999998 16) (dec (-67632470618629592) 20) (dec 43272326172927656 24) (dec 58901723993297699 28);
  q4 (dec 395642 5) (dec (-62863475071387072) 20) (dec 41159864332093993 24) (dec 56272741912957724 28);
  q4 (dec 36530960000000001 16) (dec (-58325443073830511) 20) (dec 38469163294054457 24) (dec 54153963651082043 28);
  q4 (dec 33717629999999996 16) (dec (-54072372017041994) 20) (dec 35282499405710559 24) (dec 56018818702617554 28);
  q4 (dec 3110922 6) (dec (-50123980936201329) 20) (dec 32826310069671668 24) (dec 52506173087076695 28);
  q4 (dec 28691649999999997 16) (dec (-4644755363108106) 19) (dec 30543748934882815 24) (dec 49106473734776383 28);
  q4 (dec 26451769999999999 16) (dec (-4302488018458195) 19) (dec 28409904560213265 24) (dec 45833982628509276 28);
  q4 (dec 24377279999999999 16) (dec (-39840134858846771) 20) (dec 26405108569883732 24) (dec 42991772141042112 28);
  q4 (dec 22456659999999999 16) (dec (-36877185710800604) 20) (dec 24552673822516505 24) (dec 39980807869889267 28);
  q4 (dec 20679179999999997 16) (dec (-34122062269524768) 20) (dec 22796733542507718 24) (dec 37530236959792098 28);
  q4 (dec 19034760000000002 16) (dec (-31560912138075566) 20) (dec 21184901423040966 24) (dec 34906826769406757 28);
  q4 (dec 17514040000000002 16) (dec (-29180620795000908) 20) (dec 19658823389606371 24) (dec 3267185020822388 27);
  q4 (dec 1610824 6) (dec (-26969699579478586) 20) (dec 18246773979806869 24) (dec 30464352195288571 28);
  q4 (dec 1480918 6) (dec (-24916539540033224) 20) (dec 16928383444646406 24) (dec 28368147120361005 28);
  q4 (dec 1360922 6) (dec (-23010940092165871) 20) (dec 15694605439997143 24) (dec 26563928066413497 28);
  q4 (dec 12501230000000001 16) (dec (-21242250087668042) 20) (dec 14557582768443423 24) (dec 24628379698336638 28);
  q4 (dec 1147859 6) (dec (-19601778963086166) 20) (dec 13478142638780109 24) (dec 23068732458873724 28);
  q4 (dec 10535080000000001 16) (dec (-18080949205766589) 20) (dec 12492386456483475 24) (dec 21419953176958757 28);
  q4 (dec 96649410000000002 17) (dec (-16671060911291054) 20) (dec 1156449993903086 23) (dec 19966365735802922 28);
  q4 (dec 8862795 7) (dec (-15364863174369451) 20) (dec 10703296543303241 24) (dec 18591338881710549 28);
  q4 (dec 81236339999999996 17) (dec (-14155098478426284) 20) (dec 99031051135191436 25) (dec 17289289100130314 28);
  q4 (dec 74427979999999994 17) (dec (-13035118298823401) 20) (dec 91577079855154086 25) (dec 160931598190521 26);
  q4 (dec 68159479999999995 17) (dec (-11998648801628961) 20) (dec 84663228200285174 25) (dec 14957064251016956 28);
  q4 (dec 62390509999999999 17) (dec (-11039838537743479) 20) (dec 78229041821952823 25) (dec 13901331453486811 28);
  q4 (dec 57083539999999999 17) (dec (-10153288133622801) 20) (dec 72256169748459686 25) (dec 1292291395220413 27);
  q4 (dec 52203690000000003 17) (dec (-9333804581496679) 20) (dec 66718978643352946 25) (dec 11995875311966678 28);
  q4 (dec 47718580000000005 17) (dec (-85766457302233955) 21) (dec 64254683984527083 25) (dec 57649241203049188 29);
  q4 (dec 43598100000000006 17) (dec (-78908619594758391) 21) (dec 61968783790333605 25) (dec 53672162096652343 29);
  q4 (dec 39814300000000002 17) (dec (-72309200000000138) 21) (dec 0 0) (dec 0 0)].
(** L2217-2908 *)
Definition StandardAtm1976_akima_rho : list coefD := [
  q4 (dec 1930466 6) (dec (-16655999999999786) 20) (dec 0 0) (dec 0 0);
  q4 (dec 1930466 6) (dec (-16655999999999786) 20) (dec 55999999999851741 25) (dec (-2168404344971009) 38);
  q4 (dec 19221520000000001 16) (dec (-16599999999999948) 20) (dec 53925925925932741 25) (dec 41481481477837961 28);
  q4 (dec 19138660000000001 16) (dec (-16542962962963164) 20) (dec 55851851851914085 25) (dec (-38518518519735369) 28);
  q4 (dec 1905608 6) (dec (-16490000000000222) 20) (dec 49056603773747809 25) (dec 58867924532853691 28);
  q4 (dec 1897376 6) (dec (-16436528301886532) 20) (dec 59131389365817178 25) (dec (-4149571184559019) 27);
  q4 (dec 18891720000000001 16) (dec (-16380509090909115) 20) (dec 52036363635215134 25) (dec 1963636365228533 27);
  q4 (dec 1880995 6) (dec (-16326999999999984) 20) (dec 54000000001338134 25) (dec (-17997756063259374) 37);
  q4 (dec 18728450000000001 16) (dec (-16272999999999982) 20) (dec 53999999998665579 25) (dec 17997756063259374 37);
  q4 (dec 1864722 6) (dec (-16218999999999985) 20) (dec 54000000001110452 25) (dec (-13444106938820255) 37);
  q4 (dec 18566260000000001 16) (dec (-16164999999999873) 20) (dec 52981132074667735 25) (dec 20377358493292589 28);
  q4 (dec 1848557 6) (dec (-16110490566038216) 20) (dec 53962264151200106 25) (dec (-19622641503867778) 28);
  q4 (dec 18405149999999999 16) (dec (-16057999999999798) 20) (dec 52000000000813336 25) (dec (-84567769453869351) 38);
  q4 (dec 18324990000000001 16) (dec (-16005999999999619) 20) (dec 53846153845015906 25) (dec 43076923082405186 28);
  q4 (dec 18245100000000001 16) (dec (-15948923076923417) 20) (dec 56783216783446147 25) (dec (-58741258741066071) 28);
  q4 (dec 1816549 6) (dec (-15896545454545537) 20) (dec 46258741259128926 25) (dec 56643356643581316 28);
  q4 (dec 1808613 6) (dec (-15846038461538148) 20) (dec 57134978229285692 25) (dec (-21161103055163808) 28);
  q4 (dec 18007040000000001 16) (dec (-15790490566038008) 20) (dec 52981132074678571 25) (dec 13444106938820255 37);
  q4 (dec 17928219999999999 16) (dec (-15737509433962326) 20) (dec 51018867925831366 25) (dec (-12793585635328952) 37);
  q4 (dec 17849660000000001 16) (dec (-15686490566037446) 20) (dec 51962264149759156 25) (dec 20377358502399884 28);
  q4 (dec 1777136 6) (dec (-1563300000000001) 19) (dec 55018867925108297 25) (dec (-20377358502183044) 28);
  q4 (dec 1769333 6) (dec (-15579509433962568) 20) (dec 5101886792391775 24) (dec 12793585635328952 37);
  q4 (dec 17615559999999999 16) (dec (-15528490566037691) 20) (dec 50903440622943011 25) (dec 41553829061491069 28);
  q4 (dec 17538050000000001 16) (dec (-15474470588235136) 20) (dec 54938956713345953 25) (dec (-39955604866576473) 28);
  q4 (dec 1746081 6) (dec (-15422528301886788) 20) (dec 47132815391272371 25) (dec 38475767653953912 28);
  q4 (dec 17383820000000001 16) (dec (-15372509803921461) 20) (dec 55020347760752514 25) (dec (-40014798359782469) 28);
  q4 (dec 17307090000000001 16) (dec (-15320490566037701) 20) (dec 50903440622259959 25) (dec 41553829066044714 28);
  q4 (dec 17230620000000001 16) (dec (-15266470588235487) 20) (dec 53959276017436248 25) (dec (-20361990943828722) 28);
  q4 (dec 17154419999999999 16) (dec (-15214038461538838) 20) (dec 48076923077610422 25) (dec 0 0);
  q4 (dec 17078469999999999 16) (dec (-15165961538461233) 20) (dec 49846153846535864 25) (dec 41538461530024955 28);
  q4 (dec 1700277 6) (dec (-15112999999999932) 20) (dec 56076923075844447 25) (dec (-41538461525688146) 28);
  q4 (dec 1692734 6) (dec (-1506003846153852) 19) (dec 4713423831143623 24) (dec 18853695318713298 28);
  q4 (dec 1685216 6) (dec (-15011490196078166) 20) (dec 50980392156450927 25) (dec 0 0);
  q4 (dec 16777230000000001 16) (dec (-14960509803921724) 20) (dec 53019607843001914 25) (dec 0 0);
  q4 (dec 1670256 6) (dec (-1490749019607873) 19) (dec 50980392157106865 25) (dec 45536491244391183 38);
  q4 (dec 16628149999999999 16) (dec (-14856509803921281) 20) (dec 49019607843741245 25) (dec (-12793585635328952) 37);
  q4 (dec 16553990000000001 16) (dec (-14807490196078505) 20) (dec 48899559822494166 25) (dec 41616646678484595 28);
  q4 (dec 16480079999999999 16) (dec (-14755469387755127) 20) (dec 53877551021953246 25) (dec (-58775510221407282) 28);
  q4 (dec 16406430000000001 16) (dec (-14705999999999785) 20) (dec 45061224488590368 25) (dec 5877551021620312 27);
  q4 (dec 1633302 6) (dec (-14656530612244979) 20) (dec 55142056823350708 25) (dec (-41616646664823651) 28);
  q4 (dec 16259870000000001 16) (dec (-14604509803921482) 20) (dec 48039215686120594 25) (dec 19607843135390977 28);
  q4 (dec 16186970000000001 16) (dec (-14555000000000207) 20) (dec 4999999999987111 24) (dec 45536491244391183 38);
  q4 (dec 1611432 6) (dec (-14504999999999987) 20) (dec 500000000005379 23) (dec (-43368086899420178) 38);
  q4 (dec 16041920000000001 16) (dec (-14454999999999774) 20) (dec 49999999999437427 25) (dec 43368086899420178 38);
  q4 (dec 15969770000000001 16) (dec (-14405000000000003) 20) (dec 48979591836702252 25) (dec 20408163263702442 28);
  q4 (dec 15897870000000001 16) (dec (-14354489795918531) 20) (dec 49959183673586566 25) (dec (-1959183673736105) 27);
  q4 (dec 1582622 6) (dec (-14306000000000258) 20) (dec 45999999999954495 25) (dec 40000000006050825 28);
  q4 (dec 15754809999999999 16) (dec (-14256999999999849) 20) (dec 52941176471090488 25) (dec (-58823529420050719) 28);
  q4 (dec 1568365 6) (dec (-14208470588235249) 20) (dec 4477596996165195 24) (dec 83304130169079703 28);
  q4 (dec 15612729999999999 16) (dec (-14157446808510916) 20) (dec 54885273258875994 25) (dec (-7983312474220579) 27);
  q4 (dec 15542069999999999 16) (dec (-14108549019607706) 20) (dec 42279411764802692 25) (dec 56372549019209279 28);
  q4 (dec 1547164 6) (dec (-14062041666666457) 20) (dec 52083333333045709 25) (dec 0 0);
  q4 (dec 1540146 6) (dec (-14009958333333419) 20) (dec 49833333333243385 25) (dec (-38333333330286761) 28);
  q4 (dec 1533153 6) (dec (-1396299999999995) 19) (dec 4408333333369495 24) (dec 38333333330286761 28);
  q4 (dec 15261830000000001 16) (dec (-13916041666666478) 20) (dec 52083333332796339 25) (dec 47704895589362198 38);
  q4 (dec 15192380000000001 16) (dec (-13863958333333316) 20) (dec 49833333333406009 25) (dec (-38333333338309847) 28);
  q4 (dec 15123180000000001 16) (dec (-13817000000000289) 20) (dec 4199999999984815 24) (dec 80000000002343828 28);
  q4 (dec 15054209999999999 16) (dec (-13769000000000265) 20) (dec 54000000000720139 25) (dec (-80000000002994344) 28);
  q4 (dec 14985489999999999 16) (dec (-13720999999999772) 20) (dec 41999999999896937 25) (dec 80000000002343828 28);
  q4 (dec 14917 4) (dec (-13672999999999705) 20) (dec 53061224489399373 25) (dec (-61224489795227302) 28);
  q4 (dec 14848760000000001 16) (dec (-13624530612244939) 20) (dec 43143725575136474 25) (dec 38349978290002851 28);
  q4 (dec 1478075 6) (dec (-13578510638298036) 20) (dec 50042553191830811 25) (dec (-2042553191774349) 27);
  q4 (dec 1471298 6) (dec (-13530000000000044) 20) (dec 46978723404169289 25) (dec 2042553191774349 27);
  q4 (dec 1464545 6) (dec (-1348148936170205) 19) (dec 47957446808758126 25) (dec (-1957446809199362) 27);
  q4 (dec 1457816 6) (dec (-13435000000000191) 20) (dec 45021276595132559 25) (dec 1957446809676411 27);
  q4 (dec 14511099999999999 16) (dec (-13388510638297796) 20) (dec 49021276596870633 25) (dec (-13877787807814457) 37);
  q4 (dec 1444428 6) (dec (-13339489361701974) 20) (dec 47957446807267348 25) (dec (-19574468070526417) 28);
  q4 (dec 143777 5) (dec (-13293000000000002) 20) (dec 44000000001056001 25) (dec 39999999983282582 28);
  q4 (dec 1431135 6) (dec (-1324600000000021) 19) (dec 49021276594599228 25) (dec (-20425531895408927) 28);
  q4 (dec 14245239999999999 16) (dec (-1319851063829775) 19) (dec 45021276597290119 25) (dec (-21250362580715886) 37);
  q4 (dec 14179360000000001 16) (dec (-13153489361702043) 20) (dec 44890780140089801 25) (dec 41758865267603477 28);
  q4 (dec 14113709999999999 16) (dec (-13105466666666883) 20) (dec 49866666667941527 25) (dec (-58666666675902613) 28);
  q4 (dec 140483 5) (dec (-13059999999999648) 20) (dec 4106666666625798 24) (dec 58666666665277421 28);
  q4 (dec 13983110000000001 16) (dec (-13014533333333483) 20) (dec 52133333332807968 25) (dec (-61333333328155231) 28);
  q4 (dec 13918159999999999 16) (dec (-12967000000000276) 20) (dec 42933333334218938 25) (dec 6133333332381843 27);
  q4 (dec 13853439999999999 16) (dec (-12919466666666757) 20) (dec 48930496453469242 25) (dec (-39943262399901043) 28);
  q4 (dec 13788959999999999 16) (dec (-12873531914893272) 20) (dec 41149881797538937 25) (dec 38278959794664853 28);
  q4 (dec 13724700000000001 16) (dec (-12829511111111147) 20) (dec 47022222220507485 25) (dec 23201926491189797 37);
  q4 (dec 13660669999999999 16) (dec (-12782488888888905) 20) (dec 4689172576995875 24) (dec (-3827895982935932) 27);
  q4 (dec 13596870000000001 16) (dec (-12738468085106148) 20) (dec 41872340424332262 25) (dec 61276595752146262 28);
  q4 (dec 1353329 6) (dec (-12692000000000389) 20) (dec 51063829787777616 25) (dec (-61276595744990528) 28);
  q4 (dec 13469949999999999 16) (dec (-12645531914893485) 20) (dec 40127659574958494 25) (dec 58723404250393689 28);
  q4 (dec 13406830000000001 16) (dec (-12600999999999747) 20) (dec 47999999999145729 25) (dec (-39999999992173037) 28);
  q4 (dec 13343940000000001 16) (dec (-12556000000000012) 20) (dec 43022222222683381 25) (dec 19555555545117816 28);
  q4 (dec 13281270000000001 16) (dec (-1251151111111145) 19) (dec 47022222221645893 25) (dec 13877787807814457 37);
  q4 (dec 13218829999999999 16) (dec (-12464488888888755) 20) (dec 44977777778929888 25) (dec (-13227266504323155) 37);
  q4 (dec 13156620000000001 16) (dec (-1241951111111082) 19) (dec 43022222220948659 25) (dec 84567769453869351 38);
  q4 (dec 1309463 6) (dec (-12376488888889232) 20) (dec 4395555555592118 24) (dec 20444444442718408 28);
  q4 (dec 13032859999999999 16) (dec (-12331000000000093) 20) (dec 47022222222805989 25) (dec (-20444444451825711) 28);
  q4 (dec 1297132 6) (dec (-12285511111111174) 20) (dec 42044444443887924 25) (dec 19555555567235539 28);
  q4 (dec 12909999999999999 16) (dec (-12241999999999752) 20) (dec 44000000000820188 25) (dec (-13227266504323155) 37);
  q4 (dec 12848900000000001 16) (dec (-12197999999999933) 20) (dec 43999999998613832 25) (dec 17672495411513724 37);
  q4 (dec 1278802 6) (dec (-12153999999999999) 20) (dec 449777777791657 23) (dec (-19555555575692318) 28);
  q4 (dec 12727360000000001 16) (dec (-12110488888889013) 20) (dec 42885788112317157 25) (dec 4183979330140905 27);
  q4 (dec 12666919999999999 16) (dec (-12064465116279093) 20) (dec 46927131784401741 25) (dec (-39937984510989532) 28);
  q4 (dec 12606710000000001 16) (dec (-12020533333333009) 20) (dec 39156589146154217 25) (dec 38201550396762747 28);
  q4 (dec 12546710000000001 16) (dec (-11978511627907095) 20) (dec 46046511628354701 25) (dec (-20465116286404013) 28);
  q4 (dec 12486930000000001 16) (dec (-11934000000000222) 20) (dec 42976744185814224 25) (dec 20465116286729271 28);
  q4 (dec 1242737 6) (dec (-11889488372092901) 20) (dec 43953488372672057 25) (dec (-19534883728103587) 28);
  q4 (dec 12368030000000001 16) (dec (-11846999999999836) 20) (dec 4102325581327763 24) (dec 19534883723333097 28);
  q4 (dec 123089 5) (dec (-11804511627907311) 20) (dec 45023255814034503 25) (dec 45536491244391183 38);
  q4 (dec 12249989999999999 16) (dec (-11759488372092937) 20) (dec 43953488372878058 25) (dec (-19534883732223556) 28);
  q4 (dec 121913 5) (dec (-11716999999999976) 20) (dec 39999999998924899 25) (dec 400000000145076 26);
  q4 (dec 1213282 6) (dec (-11673999999999963) 20) (dec 45023255814928967 25) (dec (-20465116291066081) 28);
  q4 (dec 12074560000000001 16) (dec (-11630511627906863) 20) (dec 41023255813055367 25) (dec 85651971626354859 38);
  q4 (dec 1201651 6) (dec (-11589488372093166) 20) (dec 4195348837263786 24) (dec 20465116272959905 28);
  q4 (dec 1195867 6) (dec (-11546000000000055) 20) (dec 45023255813793264 25) (dec (-2046511627729671) 27);
  q4 (dec 1190105 6) (dec (-11502511627907056) 20) (dec 41023255814123307 25) (dec 10842021724855045 39);
  q4 (dec 1184364 6) (dec (-11461488372092926) 20) (dec 40880317640336966 25) (dec 41928530914478285 28);
  q4 (dec 1178644 6) (dec (-11417463414634001) 20) (dec 4585365853654159 24) (dec (-58536585369173808) 28);
  q4 (dec 1172946 6) (dec (-11376000000000153) 20) (dec 35999999999412156 25) (dec 80000000011993229 28);
  q4 (dec 1167268 6) (dec (-11333999999999834) 20) (dec 48000000001100009 25) (dec (-80000000019257377) 28);
  q4 (dec 11616120000000001 16) (dec (-11292000000000181) 20) (dec 35999999998327953 25) (dec 80000000024895227 28);
  q4 (dec 11559759999999999 16) (dec (-11249999999999982) 20) (dec 47069767443818733 25) (dec (-61395348859862556) 28);
  q4 (dec 11503620000000001 16) (dec (-1120753488372066) 19) (dec 37163925126022987 25) (dec 38116846297884565 28);
  q4 (dec 1144768 6) (dec (-1116751219512229) 19) (dec 44048780488653402 25) (dec (-20487804885558835) 28);
  q4 (dec 1139195 6) (dec (-11125000000000052) 20) (dec 40975609756041834 25) (dec 20487804881113607 28);
  q4 (dec 1133643 6) (dec (-1108248780487793) 19) (dec 41951219512275142 25) (dec (-19512195124611956) 28);
  q4 (dec 1128112 6) (dec (-11041999999999996) 20) (dec 39024390243586063 25) (dec 19512195124611956 28);
  q4 (dec 1122601 6) (dec (-11001512195122064) 20) (dec 43024390244147771 25) (dec 0 0);
  q4 (dec 1117111 6) (dec (-10958487804877917) 20) (dec 40975609756269516 25) (dec (-44452289071905686) 38);
  q4 (dec 1111642 6) (dec (-1091751219512198) 19) (dec 39024390243390907 25) (dec 84567769453869351 38);
  q4 (dec 1106193 6) (dec (-10878487804877958) 20) (dec 40975609756727592 25) (dec (-88904578143811371) 38);
  q4 (dec 11007640000000001 16) (dec (-10837512195121888) 20) (dec 41948780486969636 25) (dec 21512195129630777 28);
  q4 (dec 1095356 6) (dec (-1079395000000019) 19) (dec 41800000000525335 25) (dec (-38000000005477236) 28);
  q4 (dec 1089969 6) (dec (-1075500000000007) 19) (dec 35076923076939525 25) (dec 58461538460924391 28);
  q4 (dec 10846009999999999 16) (dec (-10715538461538566) 20) (dec 45178236397609379 25) (dec (-42026266408763666) 28);
  q4 (dec 10792539999999999 16) (dec (-10673512195121618) 20) (dec 38048780488436958 25) (dec 195121951071563 26);
  q4 (dec 10739270000000001 16) (dec (-10634000000000144) 20) (dec 40975609754757057 25) (dec (-19512195103144753) 28);
  q4 (dec 10686199999999999 16) (dec (-10594487804878124) 20) (dec 38874296436991427 25) (dec 42026266399656375 28);
  q4 (dec 10633330000000001 16) (dec (-10552461538461166) 20) (dec 42919324576520705 25) (dec (-39924953083164681) 28);
  q4 (dec 10580670000000001 16) (dec (-10512536585365884) 20) (dec 35171982489483723 25) (dec 38023764845507988 28);
  q4 (dec 10528200000000001 16) (dec (-10474512820512984) 20) (dec 42051282050930989 25) (dec (-2051282050664384) 27);
  q4 (dec 1047593 6) (dec (-10434000000000054) 20) (dec 40000000000694859 25) (dec (-87820375971325873) 38);
  q4 (dec 1042386 6) (dec (-10394000000000012) 20) (dec 38974358973562895 25) (dec 20512820524966856 28);
  q4 (dec 1037199 6) (dec (-10353487179487074) 20) (dec 3994871794959034 24) (dec (-1948717950265959) 27);
  q4 (dec 10320320000000001 16) (dec (-1031500000000018) 19) (dec 37025641024383851 25) (dec 19487179507321657 28);
  q4 (dec 10268839999999999 16) (dec (-10276512820512747) 20) (dec 4102564102746633 24) (dec (-23310346708438343) 37);
  q4 (dec 10217560000000001 16) (dec (-10235487179487035) 20) (dec 39948717947020786 25) (dec (-19487179468073537) 28);
  q4 (dec 1016648 6) (dec (-10197000000000117) 20) (dec 36000000001220062 25) (dec 39999999988269908 28);
  q4 (dec 10115590000000001 16) (dec (-10157999999999772) 20) (dec 4132315521550246 24) (dec (-26463104318323956) 28);
  q4 (dec 10064900000000001 16) (dec (-10118661577608147) 20) (dec 36646310432722811 25) (dec 13536895671463836 28);
  q4 (dec 10014400000000001 16) (dec (-10081000000000062) 20) (dec 39301291989516926 25) (dec (-20258397922514812) 29);
  q4 (dec 99640930000000005 17) (dec (-10041850645994963) 20) (dec 39301291989855739 25) (dec (-22768245622195592) 38);
  q4 (dec 99139820000000001 17) (dec (-10002549354005278) 20) (dec 38298708010384893 25) (dec 0 0);
  q4 (dec 98640649999999996 17) (dec (-99642506459948936) 21) (dec 37703367269166943 25) (dec 79584944129643121 29);
  q4 (dec 98143389999999997 17) (dec (-99259503916447584) 21) (dec 38700783289987795 25) (dec (-44452289071905686) 38);
  q4 (dec 97648060000000003 17) (dec (-98872496083551067) 21) (dec 38099216709671034 25) (dec 66136332521615775 38);
  q4 (dec 97154649999999998 17) (dec (-9849150391644937) 20) (dec 37500775023485696 25) (dec 80001653317415476 29);
  q4 (dec 96663140000000003 17) (dec (-98110496042215706) 21) (dec 38299204287622946 25) (dec (-39999168904370291) 29);
  q4 (dec 96173540000000002 17) (dec (-97730503937007386) 21) (dec 3740157480356136 24) (dec 59842519608286143 29);
  q4 (dec 95685830000000005 17) (dec (-97352000000001097) 21) (dec 38100263851723458 25) (dec (-20052770369769284) 29);
  q4 (dec 95200019999999996 17) (dec (-96972501319261663) 21) (dec 37399463875324139 25) (dec 60159995455329884 29);
  q4 (dec 94716100000000003 17) (dec (-96593994680849244) 21) (dec 37698668095976614 25) (dec (-19946385224935136) 29);
  q4 (dec 94234070000000003 17) (dec (-96218503978781389) 21) (dec 3690078722228213 24) (dec 80001706739309127 29);
  q4 (dec 93753909999999996 17) (dec (-95843495978553025) 21) (dec 37699191421386317 25) (dec (-39999142136502852) 29);
  q4 (dec 93275629999999998 17) (dec (-9546950399999944) 20) (dec 36801599999735487 25) (dec 59840000034110109 29);
  q4 (dec 92799209999999999 17) (dec (-9509699999999954) 20) (dec 37400000000076588 25) (dec 0 0);
  q4 (dec 92324660000000003 17) (dec (-94722999999998788) 21) (dec 36999999999953736 25) (dec (-21684043449710089) 38);
  q4 (dec 91851970000000005 17) (dec (-9435300000000089) 20) (dec 36597826086670942 25) (dec 80434782656017144 29);
  q4 (dec 91381129999999999 17) (dec (-9398098913043498) 20) (dec 37197814336587846 25) (dec (-39997649891590148) 29);
  q4 (dec 90912150000000003 17) (dec (-93612010810810957) 21) (dec 36104596803430262 25) (dec 59513071712456043 29);
  q4 (dec 90444999999999998 17) (dec (-93246501362398288) 21) (dec 36900272480018558 25) (dec (-44452289071905686) 38);
  q4 (dec 89979690000000001 17) (dec (-9287749863760145) 20) (dec 36498633122720853 25) (dec 40218879520173559 29);
  q4 (dec 89516220000000002 17) (dec (-92509495890410188) 21) (dec 36398356164531989 25) (dec (-19835616471824277) 29);
  q4 (dec 89054580000000005 17) (dec (-921470000000002) 19) (dec 35799999999696318 25) (dec 80000000025112073 29);
  q4 (dec 8859475 7) (dec (-91783000000001395) 21) (dec 36801098901386472 25) (dec (-40219780242812395) 29);
  q4 (dec 88136749999999997 17) (dec (-91418005494505836) 21) (dec 35802197802229274 25) (dec 39780219781215473 29);
  q4 (dec 87680559999999996 17) (dec (-91056999999999952) 21) (dec 35998888888813551 25) (dec 40222222245575591 29);
  q4 (dec 87226179999999998 17) (dec (-90693994444443371) 21) (dec 35998888889030393 25) (dec (-43368086899420178) 38);
  q4 (dec 86773610000000001 17) (dec (-90334005555556374) 21) (dec 35501943670322939 25) (dec 19833488140675801 29);
  q4 (dec 86322829999999995 17) (dec (-89977498607242607) 21) (dec 35698602561323126 25) (dec 4022377749022393 28);
  q4 (dec 85873840000000001 17) (dec (-89617495798317555) 21) (dec 35899159663504249 25) (dec 22768245622195592 38);
  q4 (dec 85426650000000004 17) (dec (-89258504201680805) 21) (dec 35201680672174444 25) (dec 19831932783270434 29);
  q4 (dec 84981240000000002 17) (dec (-88905000000000247) 21) (dec 35200000000242524 25) (dec 39999999956177518 29);
  q4 (dec 84537600000000002 17) (dec (-88550000000001136) 21) (dec 35700281689895967 25) (dec (-20056337973880722) 29);
  q4 (dec 84095739999999997 17) (dec (-88194501408450217) 21) (dec 34999427017104369 25) (dec 60170934645421831 29);
  q4 (dec 83655650000000004 17) (dec (-87839994318180862) 21) (dec 35298577130606774 25) (dec (-19942698911527832) 29);
  q4 (dec 8321733 7) (dec (-87488504249293186) 21) (dec 34601699716929679 25) (dec 59830028318816339 29);
  q4 (dec 82780759999999998 17) (dec (-87137999999999937) 21) (dec 35200000000125974 25) (dec 0 0);
  q4 (dec 82345950000000001 17) (dec (-86785999999998691) 21) (dec 34700286532786352 25) (dec 19942693421128032 29);
  q4 (dec 81912890000000005 17) (dec (-8643750143266427) 20) (dec 34500284881407768 25) (dec 40000330275716605 29);
  q4 (dec 81481570000000003 17) (dec (-86089498559079514) 21) (dec 34799423631013152 25) (dec (-19942363079904906) 29);
  q4 (dec 81051989999999996 17) (dec (-85743000000000348) 21) (dec 3429913043526958 24) (dec 60173912989989334 29);
  q4 (dec 8062414 7) (dec (-8539549565217343) 20) (dec 34799416938482508 25) (dec (-20057300773599144) 29);
  q4 (dec 80198029999999998 17) (dec (-85049005780346625) 21) (dec 34002312139031408 25) (dec 39768786084344241 29);
  q4 (dec 79773640000000001 17) (dec (-84705999999999958) 21) (dec 34299708454526384 25) (dec 20058309071861735 29);
  q4 (dec 79350969999999998 17) (dec (-84361498542274358) 21) (dec 34199416909825731 25) (dec 20058309027409448 29);
  q4 (dec 78930020000000001 17) (dec (-84017999999999032) 21) (dec 33900293255049486 25) (dec 19941348962729255 29);
  q4 (dec 78510780000000002 17) (dec (-83677501466276292) 21) (dec 33800586510121998 25) (dec 19941348985497502 29);
  q4 (dec 78093239999999997 17) (dec (-83338000000001132) 21) (dec 33899705014994404 25) (dec 2005899703933986 28);
  q4 (dec 77677399999999996 17) (dec (-82997498525073143) 21) (dec 33899705014782985 25) (dec 0 0);
  q4 (dec 7726326 7) (dec (-8265850147492534) 20) (dec 33500293234399978 25) (dec 40000350153479234 29);
  q4 (dec 76850810000000003 17) (dec (-82320498516319816) 21) (dec 3369970326411859 24) (dec (-21684043449710089) 38);
  q4 (dec 76440050000000004 17) (dec (-81983501483680297) 21) (dec 33199395866866123 25) (dec 60180173789160107 29);
  q4 (dec 76030969999999998 17) (dec (-81646994011977422) 21) (dec 33597604790717301 25) (dec (-39760479064992334) 29);
  q4 (dec 75623569999999996 17) (dec (-81314000000000109) 21) (dec 32799999999944528 25) (dec 80000000025112073 29);
  q4 (dec 75217829999999997 17) (dec (-80979999999998821) 21) (dec 33801197604874276 25) (dec (-4023952098071958) 28);
  q4 (dec 74813770000000002 17) (dec (-806450059880237) 19) (dec 32702093094436797 25) (dec 59820902038355829 29);
  q4 (dec 74411369999999999 17) (dec (-80313498489426456) 21) (dec 32999395770675267 25) (dec 20060422927827003 29);
  q4 (dec 74010629999999999 17) (dec (-79982000000000116) 21) (dec 32899093655477766 25) (dec (-19818731107189986) 29);
  q4 (dec 73611539999999998 17) (dec (-79654495468278351) 21) (dec 32496658259288787 25) (dec 80487079282248046 29);
  q4 (dec 73214089999999998 17) (dec (-79323492354739267) 21) (dec 33299677458346889 25) (dec (-40241302065764649) 29);
  q4 (dec 72818300000000002 17) (dec (-78993513677810731) 21) (dec 32105165314097853 25) (dec 39514049618048429 29);
  q4 (dec 72424140000000004 17) (dec (-78669498470948398) 21) (dec 32498465302272459 25) (dec 40245777464765697 29);
  q4 (dec 72031610000000001 17) (dec (-78341495384615776) 21) (dec 32799380840075212 25) (dec (-20060783378428664) 29);
  q4 (dec 71640720000000002 17) (dec (-78015006134968392) 21) (dec 31902144390300383 25) (dec 59816520699314264 29);
  q4 (dec 71251450000000005 17) (dec (-77691498452012967) 21) (dec 32399380804669712 25) (dec (-19938080462892153) 29);
  q4 (dec 70863799999999999 17) (dec (-77369000000001014) 21) (dec 31899065420861492 25) (dec 60186915878685657 29);
  q4 (dec 7047776 7) (dec (-77045495327101457) 21) (dec 32499059633681634 25) (dec (-3999884264950515) 28);
  q4 (dec 70093340000000004 17) (dec (-76723504643963353) 21) (dec 31500917145897483 25) (dec 80002329307712204 29);
  q4 (dec 69710519999999998 17) (dec (-76402495297806341) 21) (dec 3219936912273781 24) (dec (-20061912281172518) 29);
  q4 (dec 6932931 7) (dec (-76082006250000091) 21) (dec 31402499999682104 25) (dec 39750000044996845 29);
  q4 (dec 68949689999999997 17) (dec (-75764999999999868) 21) (dec 31699684542886294 25) (dec 20063091449697495 29);
  q4 (dec 68571660000000001 17) (dec (-75446498422712251) 21) (dec 31799369084863039 25) (dec (-19936908483711784) 29);
  q4 (dec 68195220000000001 17) (dec (-75129999999999926) 21) (dec 31197452229417821 25) (dec 80509554119994124 29);
  q4 (dec 67820360000000002 17) (dec (-74811987261146721) 21) (dec 31896481745636228 25) (dec (-59805903286332463) 29);
  q4 (dec 67447089999999998 17) (dec (-74497507886436753) 21) (dec 30603154574116452 25) (dec 99684542623473137 29);
  q4 (dec 67075379999999996 17) (dec (-741839999999988) 19) (dec 31801273885702667 25) (dec (-40254777114749275) 29);
  q4 (dec 66705250000000005 17) (dec (-73869006369425394) 21) (dec 30702226226682752 25) (dec 59809531667565081 29);
  q4 (dec 66336680000000003 17) (dec (-73557498392283458) 21) (dec 31199356913526822 25) (dec (-19935691374615984) 29);
  q4 (dec 65969670000000002 17) (dec (-73247000000001286) 21) (dec 30699029125928041 25) (dec 60194174814976253 29);
  q4 (dec 65604209999999996 17) (dec (-72935495145630882) 21) (dec 31299022883161012 25) (dec (-39998751355345417) 29);
  q4 (dec 65240310000000001 17) (dec (-72625504823150923) 21) (dec 30300952061246171 25) (dec 80002513740259564 29);
  q4 (dec 64877949999999995 17) (dec (-72316495114007969) 21) (dec 30999344304246987 25) (dec (-20064300532444609) 29);
  q4 (dec 64517139999999995 17) (dec (-7200800649350546) 20) (dec 30202597402692317 25) (dec 39740259719046534 29);
  q4 (dec 6415786 7) (dec (-71702999999999635) 21) (dec 30599999999663232 25) (dec 43368086899420178 38);
  q4 (dec 63800109999999999 17) (dec (-7139699999999971) 20) (dec 30499672131411532 25) (dec 20065573738160815 29);
  q4 (dec 63443890000000003 17) (dec (-71090498360655246) 21) (dec 30298354163101733 25) (dec 40263593573596976 29);
  q4 (dec 63089200000000001 17) (dec (-70784495049506195) 21) (dec 30198019801956245 25) (dec (-19801980165193647) 29);
  q4 (dec 62736029999999998 17) (dec (-70483999999999009) 21) (dec 29700996678096844 25) (dec 59800664397582563 29);
  q4 (dec 62384360000000005 17) (dec (-70182504983388181) 21) (dec 30500996677225815 25) (dec 45536491244391183 38);
  q4 (dec 62034210000000001 17) (dec (-69877495016612548) 21) (dec 29998006644831758 25) (dec (-19800664464173295) 29);
  q4 (dec 61685570000000001 17) (dec (-69578999999999071) 21) (dec 29298316498330776 25) (dec 10033670032848219 28);
  q4 (dec 61338420000000005 17) (dec (-69278491582491154) 21) (dec 30399299663058763 25) (dec (-60196632986446451) 29);
  q4 (dec 60992780000000002 17) (dec (-6897901333333455) 20) (dec 29105670033778542 25) (dec 59399326590194036 29);
  q4 (dec 60648619999999998 17) (dec (-68683501683502473) 21) (dec 29799322049395565 25) (dec 20202930215264609 29);
  q4 (dec 60305949999999997 17) (dec (-68383993243242345) 21) (dec 29698307398435796 25) (dec (-1993174996578473) 28);
  q4 (dec 59964770000000001 17) (dec (-6808850505050538) 20) (dec 2900202020163689 24) (dec 59797979854456574 29);
  q4 (dec 59625059999999996 17) (dec (-67793999999999914) 21) (dec 29600000000520269 25) (dec (-66136332521615775) 38);
  q4 (dec 59286830000000001 17) (dec (-67497999999999739) 21) (dec 29199999999511085 25) (dec 66136332521615775 38);
  q4 (dec 58950069999999999 17) (dec (-67205999999999654) 21) (dec 28898969072605439 25) (dec 60206185513401665 29);
  q4 (dec 58614770000000005 17) (dec (-66912494845360108) 21) (dec 29399308006862361 25) (dec (-2006778698077083) 28);
  q4 (dec 58280940000000003 17) (dec (-66620006849315083) 21) (dec 28602739726406726 25) (dec 39726027332076184 29);
  q4 (dec 57948560000000005 17) (dec (-66331000000001137) 21) (dec 28899653978787229 25) (dec 20069204231419267 29);
  q4 (dec 57617629999999997 17) (dec (-66040498269895909) 21) (dec 28999307959191824 25) (dec (-199307959470197) 27);
  q4 (dec 57288150000000004 17) (dec (-6575200000000003) 20) (dec 28397202796347416 25) (dec 80559440674300007 29);
  q4 (dec 56960109999999997 17) (dec (-65461986013986024) 21) (dec 29096135698993108 25) (dec (-59786580303448568) 29);
  q4 (dec 56633520000000004 17) (dec (-65175508650518879) 21) (dec 278034602069785 23) (dec 99653979294912417 29);
  q4 (dec 56308349999999996 17) (dec (-64890000000001908) 21) (dec 29101045296626603 25) (dec (-60209059247638354) 29);
  q4 (dec 55984619999999996 17) (dec (-64603505226479215) 21) (dec 27901030521751023 25) (dec 80002954880439496 29);
  q4 (dec 55662310000000004 17) (dec (-64318494699645699) 21) (dec 2869893248978327 24) (dec (-39998512138062287) 29);
  q4 (dec 55341430000000003 17) (dec (-64034505263158221) 21) (dec 27701037647791336 25) (dec 80002996774011451 29);
  q4 (dec 55021960000000003 17) (dec (-63751494661922229) 21) (dec 28498924839126465 25) (dec (-3999849095925705) 28);
  q4 (dec 5470391 7) (dec (-63469505300352977) 21) (dec 27501044872930438 25) (dec 80003039564218595 29);
  q4 (dec 54387260000000004 17) (dec (-63188494623656356) 21) (dec 28397849461851222 25) (dec (-5978494616140813) 28);
  q4 (dec 54072019999999998 17) (dec (-62908999999999882) 21) (dec 27298194946358138 25) (dec 10036101077796899 28);
  q4 (dec 53758170000000005 17) (dec (-6262849097472798) 20) (dec 28399247034140781 25) (dec (-60210417730192229) 29);
  q4 (dec 53445730000000002 17) (dec (-62349014285716377) 21) (dec 27005714285714643 25) (dec 79428571452249546 29);
  q4 (dec 53134669999999995 17) (dec (-62073000000000271) 21) (dec 28000000000478816 25) (dec (-40000000046166307) 29);
  q4 (dec 52825 5) (dec (-61795999999998973) 21) (dec 27197080291533583 25) (dec 8058394165280301 28);
  q4 (dec 5251671 7) (dec (-61517985401459704) 21) (dec 27895965638282882 25) (dec (-59777069259152667) 29);
  q4 (dec 52209810000000001 17) (dec (-61243509025271311) 21) (dec 26603610108066217 25) (dec 99638989205664425 29);
  q4 (dec 51904269999999997 17) (dec (-60970000000000184) 21) (dec 27801459854364643 25) (dec (-40291970848085547) 29);
  q4 (dec 51600109999999999 17) (dec (-60695007299270137) 21) (dec 26802919707695778 25) (dec 39708029242078657 29);
  q4 (dec 51297309999999996 17) (dec (-6042400000000003) 20) (dec 27099630996701822 25) (dec 20073800683219174 29);
  q4 (dec 50995869999999999 17) (dec (-60151498154981804) 21) (dec 27099630995922551 25) (dec 67220534694101273 38);
  q4 (dec 50695789999999996 17) (dec (-59880501845017557) 21) (dec 26800738007814799 25) (dec 19926199207364118 29);
  q4 (dec 50397060000000005 17) (dec (-59610999999998864) 21) (dec 26798507462181077 25) (dec 40298507497020349 29);
  q4 (dec 50099680000000002 17) (dec (-59339992537314777) 21) (dec 26898130167172097 25) (dec (-19924540865389092) 29);
  q4 (dec 49803649999999999 17) (dec (-59072505576207926) 21) (dec 26202230483467456 25) (dec 59776951641106302 29);
  q4 (dec 49508950000000002 17) (dec (-58806000000000135) 21) (dec 269003745315534 23) (dec (-20074906334163236) 29);
  q4 (dec 49215589999999998 17) (dec (-5853850187265967) 20) (dec 26400749063926274 25) (dec 19925093611714364 29);
  q4 (dec 48923559999999999 17) (dec (-58272999999999522) 21) (dec 26398484848358852 25) (dec 40303030315229708 29);
  q4 (dec 4863286 7) (dec (-58005992424242318) 21) (dec 2649810177248011 24) (dec (-19923384802838717) 29);
  q4 (dec 4834349 7) (dec (-57742505660377723) 21) (dec 25701114725565246 25) (dec 80003469987602162 29);
  q4 (dec 48055429999999999 17) (dec (-57479494252873027) 21) (dec 26597701149632173 25) (dec (-59770114977167334) 29);
  q4 (dec 47768690000000003 17) (dec (-57217999999999986) 21) (dec 25599999999680727 25) (dec 80000000035954086 29);
  q4 (dec 47483249999999999 17) (dec (-5695600000000051) 20) (dec 26501149425546978 25) (dec (-20229885080470802) 29);
  q4 (dec 4719913 7) (dec (-56692505747126028) 21) (dec 25602298850478224 25) (dec 19770114942927258 29);
  q4 (dec 4691631 7) (dec (-56435000000000513) 21) (dec 255999999999572 23) (dec 40000000012013931 29);
  q4 (dec 46634779999999998 17) (dec (-56176000000000006) 21) (dec 26100386100525504 25) (dec (-20077220088819853) 29);
  q4 (dec 4635455 7) (dec (-55916501930501419) 21) (dec 25399209700674583 25) (dec 60235279923659404 29);
  q4 (dec 4607561 7) (dec (-55657992187500378) 21) (dec 25796874999966059 25) (dec (-39687499989952276) 29);
  q4 (dec 45797959999999999 17) (dec (-55402999999999984) 21) (dec 25000000000110384 25) (dec 79999999990959702 29);
  q4 (dec 4552158 7) (dec (-55146999999999552) 21) (dec 26001562499913885 25) (dec (-40312500001007426) 29);
  q4 (dec 4524649 7) (dec (-54890007812500502) 21) (dec 24902729743082624 25) (dec 5976655138460393 28);
  q4 (dec 44972669999999998 17) (dec (-54636498023715837) 21) (dec 25399209486231591 25) (dec (-19920948606520254) 29);
  q4 (dec 44700119999999999 17) (dec (-54383999999998997) 21) (dec 2489880478098711 24) (dec 60239043792216501 29);
  q4 (dec 44428830000000002 17) (dec (-54130494023904696) 21) (dec 25399196862961918 25) (dec (-20078416438154555) 29);
  q4 (dec 44158809999999998 17) (dec (-53878007936507911) 21) (dec 24702776197284164 25) (dec 19762220892388141 29);
  q4 (dec 43890040000000002 17) (dec (-53629498007968174) 21) (dec 24897998367464182 25) (dec 4032064519884828 28);
  q4 (dec 43622519999999998 17) (dec (-53377493975903626) 21) (dec 25199190361944307 25) (dec (-20079036212026536) 29);
  q4 (dec 43356260000000002 17) (dec (-53127008000000051) 21) (dec 24403199999543339 25) (dec 39680000056118574 29);
  q4 (dec 43091239999999997 17) (dec (-52880000000000422) 21) (dec 24699595142130717 25) (dec 20080971615903633 29);
  q4 (dec 42827460000000001 17) (dec (-52631497975707895) 21) (dec 2469959514141243 24) (dec 33068166260807887 38);
  q4 (dec 42564920000000001 17) (dec (-52384502024291277) 21) (dec 24400809716744713 25) (dec 19919028318589851 29);
  q4 (dec 42303610000000003 17) (dec (-52138999999999936) 21) (dec 24398360655547547 25) (dec 40327868876342132 29);
  q4 (dec 42043530000000001 17) (dec (-51891991803278728) 21) (dec 24596721311676289 25) (dec (-39672131181296006) 29);
  q4 (dec 41784680000000002 17) (dec (-51649000000000549) 21) (dec 23697925310994536 25) (dec 10041493779598503 28);
  q4 (dec 41527039999999998 17) (dec (-51404489626555918) 21) (dec 24897891439008835 25) (dec (-79993225530951977) 29);
  q4 (dec 41270630000000003 17) (dec (-51161510204080678) 21) (dec 23404081632448015 25) (dec 99591836736018585 29);
  q4 (dec 41015420000000002 17) (dec (-50920000000000976) 21) (dec 24601652892494102 25) (dec (-40330578491101255) 29);
  q4 (dec 40761429999999998 17) (dec (-50677008264462881) 21) (dec 2360330578540776 24) (dec 39669421455948253 29);
  q4 (dec 40508640000000001 17) (dec (-50437999999999594) 21) (dec 23899581589702093 25) (dec 20083682031346063 29);
  q4 (dec 4025705 7) (dec (-50197497907950236) 21) (dec 23899581590088341 25) (dec (-11384122811097796) 38);
  q4 (dec 40006659999999999 17) (dec (-49958502092050172) 21) (dec 23600836820038155 25) (dec 19916318003436115 29);
  q4 (dec 3975746 7) (dec (-49720999999999513) 21) (dec 23699578059143646 25) (dec 20084388164089489 29);
  q4 (dec 39509450000000002 17) (dec (-49482497890295797) 21) (dec 23599156117932886 25) (dec 200843882199259 27);
  q4 (dec 39262629999999998 17) (dec (-49244999999999973) 21) (dec 23400000000281702 25) (dec (-32526065174565134) 38);
  q4 (dec 39016990000000001 17) (dec (-49010999999999636) 21) (dec 23199999999781176 25) (dec 40000000012013931 29);
  q4 (dec 38772519999999999 17) (dec (-48776000000000937) 21) (dec 23600000000066655 25) (dec 11384122811097796 38);
  q4 (dec 38529229999999998 17) (dec (-48539999999999403) 21) (dec 23200000000163358 25) (dec (-21684043449710089) 38);
  q4 (dec 38287110000000002 17) (dec (-48307999999999409) 21) (dec 22898701298417327 25) (dec 60259740283612201 29);
  q4 (dec 38046150000000001 17) (dec (-48074493506493965) 21) (dec 23498690151173676 25) (dec (-39997770481976783) 29);
  q4 (dec 3780636 7) (dec (-47842506437768424) 21) (dec 22602575107337333 25) (dec 59742489260782714 29);
  q4 (dec 37567719999999999 17) (dec (-47612000000000492) 21) (dec 23199999999945161 25) (dec 22226144535952843 38);
  q4 (dec 37330239999999998 17) (dec (-4737999999999936) 20) (dec 22800000000154348 25) (dec (-22226144535952843) 38);
  q4 (dec 37093910000000002 17) (dec (-47151999999999477) 21) (dec 22599999999763596 25) (dec 40000000012013931 29);
  q4 (dec 3685872 7) (dec (-4692300000000094) 20) (dec 45009257510128227 25) (dec (-44018515020044456) 27);
  q4 (dec 36624679999999998 17) (dec (-46803046287549977) 21) (dec 51123245604047579 24) (dec (-93324639706071848) 26);
  q4 (dec 36391780000000001 17) (dec (-48690069705100622) 21) (dec (-17313223951024083) 23) (dec 90672936561244959 26);
  q4 (dec 35822419999999999 17) (dec (-56114636638775292) 21) (dec (-30698912975164312) 25) (dec 37662576852681069 27);
  q4 (dec 35261969999999998 17) (dec (-55598737592698153) 21) (dec 42523777949042327 25) (dec 64998132078702725 29);
  q4 (dec 34710299999999999 17) (dec (-54728762594093683) 21) (dec 41703224701090151 25) (dec 67303470827241449 29);
  q4 (dec 34167249999999999 17) (dec (-53874507058823694) 21) (dec 41124392016057256 25) (dec 72631386630690659 29);
  q4 (dec 33632689999999998 17) (dec (-53030229802513355) 21) (dec 40673007197676645 25) (dec 54997305367476963 29);
  q4 (dec 3310651 7) (dec (-52200270466949565) 21) (dec 39677935267611166 25) (dec 74911142733825182 29);
  q4 (dec 32588549999999999 17) (dec (-51384238418777181) 21) (dec 3934849829175151 24) (dec 57534358595975981 29);
  q4 (dec 32078699999999999 17) (dec (-50580008145363338) 21) (dec 38576995081605295 25) (dec 62381945473784149 29);
  q4 (dec 3157682 7) (dec (-4978975366008909) 20) (dec 38024518425573763 25) (dec 6508475833256165 28);
  q4 (dec 31082789999999999 17) (dec (-49009737864077819) 21) (dec 37523803938327125 25) (dec 54998246945293101 29);
  q4 (dec 30596499999999999 17) (dec (-48242762311227722) 21) (dec 36752462245569192 25) (dec 62376887722013583 29);
  q4 (dec 3011781 7) (dec (-47488999999999728) 21) (dec 36299185888741575 25) (dec 60081411123633863 29);
  q4 (dec 29646610000000001 17) (dec (-46744991858887786) 21) (dec 35749198223715259 25) (dec 5499876650242805 28);
  q4 (dec 29182789999999997 17) (dec (-46013508264462705) 21) (dec 35077020282424289 25) (dec 57380616389700018 29);
  q4 (dec 28726220000000002 17) (dec (-45294753673897343) 21) (dec 34574507021487295 25) (dec 60086036823955771 29);
  q4 (dec 28276790000000002 17) (dec (-44585237722420397) 21) (dec 34149131785584102 25) (dec 47464045641954289 29);
  q4 (dec 27834399999999998 17) (dec (-43888015873016128) 21) (dec 33402440388825996 25) (dec 59914691279459127 29);
  q4 (dec 27398919999999999 17) (dec (-43201992657855784) 21) (dec 33098531571200157 25) (dec 5007342144047809 28);
  q4 (dec 26970260000000001 17) (dec (-42524999999999645) 21) (dec 32449999999989163 25) (dec 5499999999883311 28);
  q4 (dec 26548310000000003 17) (dec (-41859500000000218) 21) (dec 31950769230743954 25) (dec 49923076924453034 29);
  q4 (dec 2613296 7) (dec (-41205507692307969) 21) (dec 31426167077686791 25) (dec 52460215311205121 29);
  q4 (dec 257241 6) (dec (-40561246286160865) 21) (dec 31049257232203724 25) (dec 47537138389222451 29);
  q4 (dec 25321640000000001 17) (dec (-3992599999999999) 20) (dec 30499999999982853 25) (dec 50000000000651737 29);
  q4 (dec 2492548 7) (dec (-39301000000000131) 21) (dec 30000000000016316 25) (dec 49999999999432019 29);
  q4 (dec 2453552 7) (dec (-38685999999999995) 21) (dec 29550748752075981 25) (dec 44925124792678276 29);
  q4 (dec 2415166 7) (dec (-38081507487520686) 21) (dec 29025290899588231 25) (dec 52545785248842498 29);
  q4 (dec 237738 6) (dec (-37485237933954302) 21) (dec 28723809966807333 25) (dec 39998342861034993 29);
  q4 (dec 23401859999999999 17) (dec (-36898762231759825) 21) (dec 28077075172909315 25) (dec 49914800306672144 29);
  q4 (dec 23035729999999999 17) (dec (-36322246288209637) 21) (dec 27799257641922697 25) (dec 42537117904498929 29);
  q4 (dec 22675329999999999 17) (dec (-35753499999999833) 21) (dec 27325382538252864 25) (dec 42461746174564128 29);
  q4 (dec 22320570000000001 17) (dec (-35194253825382393) 21) (dec 26849940900672114 25) (dec 47544163756923233 29);
  q4 (dec 21971360000000001 17) (dec (-34642991758241867) 21) (dec 26524535492355095 25) (dec 37464033182416527 29);
  q4 (dec 2162762 7) (dec (-3410126183844004) 20) (dec 25926161443958986 25) (dec 50002240005437137 29);
  q4 (dec 21289250000000001 17) (dec (-33567737937559195) 21) (dec 25749120078845971 25) (dec 32467367705343823 29);
  q4 (dec 20956179999999999 17) (dec (-33043015325670666) 21) (dec 25126967573152884 25) (dec 4745649939181693 28);
  q4 (dec 2062831 7) (dec (-32526239024390063) 21) (dec 24947804878045603 25) (dec 37609756097217034 29);
  q4 (dec 20305580000000001 17) (dec (-32015999999999986) 21) (dec 24426130653246903 25) (dec 37386934674581369 29);
  q4 (dec 199879 6) (dec (-31516261306532708) 21) (dec 24001545560127403 25) (dec 42458509314727973 29);
  q4 (dec 1967518 7) (dec (-31023492842535761) 21) (dec 23773127177969373 25) (dec 37615707560362042 29);
  q4 (dec 1936736 7) (dec (-30536745586708265) 21) (dec 23325302800023401 25) (dec 34925587079793088 29);
  q4 (dec 1906436 7) (dec (-30059761854583853) 21) (dec 22877022578061131 25) (dec 39916288031998402 29);
  q4 (dec 18766089999999999 17) (dec (-29590246516613048) 21) (dec 22648431862934076 25) (dec 3762197983771016 28);
  q4 (dec 1847249 7) (dec (-29125991285403066) 21) (dec 22299802334455561 25) (dec 29932620584759024 29);
  q4 (dec 18183489999999999 17) (dec (-28671015452538538) 21) (dec 21776993769841716 25) (dec 42455148402850936 29);
  q4 (dec 17899000000000001 17) (dec (-28222739032620848) 21) (dec 21673234118225721 25) (dec 30066914385272073 29);
  q4 (dec 1761897 7) (dec (-27780254275940739) 21) (dec 2117623178143983 24) (dec 34919581263966879 29);
  q4 (dec 17343320000000001 17) (dec (-27346253765932769) 21) (dec 20849927714849972 25) (dec 37544887842270872 29);
  q4 (dec 1707198 7) (dec (-26917991745283098) 21) (dec 20624513931157787 25) (dec 2746605971475178 28);
  q4 (dec 1680489 7) (dec (-26497261648745504) 21) (dec 20151599822100564 25) (dec 37456505245199256 29);
  q4 (dec 1654197 7) (dec (-26082992700729939) 21) (dec 19998540145978017 25) (dec 30072992700884404 29);
  q4 (dec 1628317 7) (dec (-25674000000000114) 21) (dec 19575407779179715 25) (dec 32459222082292426 29);
  q4 (dec 16028419999999999 17) (dec (-25272754077791815) 21) (dec 19276165876814085 25) (dec 29924190236596842 29);
  q4 (dec 15777649999999999 17) (dec (-24878253503184564) 21) (dec 18999923434882962 25) (dec 32542688358920854 29);
  q4 (dec 155308 6) (dec (-24488492227979235) 21) (dec 18773872665478526 25) (dec 27535013243551628 29);
  q4 (dec 15287819999999999 17) (dec (-24104754270696613) 21) (dec 18376221295512747 25) (dec 29920577414885122 29);
  q4 (dec 15048639999999999 17) (dec (-23728253671561893) 21) (dec 18099919095031789 25) (dec 32544806117878413 29);
  q4 (dec 14813200000000001 17) (dec (-23356491847825893) 21) (dec 17899196011479495 25) (dec 24998877111041599 29);
  q4 (dec 14581450000000001 17) (dec (-22991008264463004) 21) (dec 17476267198308192 25) (dec 32455924797836322 29);
  q4 (dec 1435332 7) (dec (-22631746143057493) 21) (dec 17324619792181079 25) (dec 24999451358247923 29);
  q4 (dec 14128760000000001 17) (dec (-22277753911806421) 21) (dec 170007823612848 23) (dec 27460881935295504 29);
  q4 (dec 13907710000000001 17) (dec (-21929500000000126) 21) (dec 16774596182088532 25) (dec 27540381791564997 29);
  q4 (dec 1369012 7) (dec (-21585745961820883) 21) (dec 16499192364179659 25) (dec 27540381790887369 29);
  q4 (dec 1347594 7) (dec (-2124750000000002) 20) (dec 16200757575752226 25) (dec 24924242424318638 29);
  q4 (dec 13265109999999999 17) (dec (-20916007575757703) 21) (dec 15926168464304353 25) (dec 27458911146176584 29);
  q4 (dec 13057569999999999 17) (dec (-2058924653312778) 20) (dec 15799306625595224 25) (dec 22534668719665633 29);
  q4 (dec 1285328 7) (dec (-20266499999999983) 21) (dec 15474562798062529 25) (dec 27543720192626664 29);
  q4 (dec 12652189999999999 17) (dec (-19948745627980951) 21) (dec 15249932047825587 25) (dec 22463075027793892 29);
  q4 (dec 1245425 7) (dec (-19637008064516118) 21) (dec 14926243445076244 25) (dec 27456300652974766 29);
  q4 (dec 12259399999999999 17) (dec (-19330246305418697) 21) (dec 14799261083764125 25) (dec 22536945811686974 29);
  q4 (dec 12067600000000001 17) (dec (-19027499999999916) 21) (dec 14525380710640422 25) (dec 22461928935024594 29);
  q4 (dec 118788 6) (dec (-18730253807106603) 21) (dec 14300761421328125 25) (dec 22461928933330527 29);
  q4 (dec 11692950000000001 17) (dec (-18437500000000052) 21) (dec 14099125874118543 25) (dec 25087412587802382 29);
  q4 (dec 1151001 7) (dec (-18147991258741347) 21) (dec 1389913827308532 24) (dec 19998760104677573 29);
  q4 (dec 11329939999999999 17) (dec (-1786400886524823) 20) (dec 13577088364958616 25) (dec 22379815986517395 29);
  q4 (dec 1115268 7) (dec (-17585753153153103) 21) (dec 13424392098521239 25) (dec 25092321679463121 29);
  q4 (dec 1097819 7) (dec (-17309737614678822) 21) (dec 13323775254884644 25) (dec 14998621300090053 29);
  q4 (dec 1080644 7) (dec (-17038762523191099) 21) (dec 12901747062460887 25) (dec 27450525664536466 29);
  q4 (dec 1063737 7) (dec (-1677249242424251) 20) (dec 12873916710288785 25) (dec 17532571395807415 29);
  q4 (dec 1047095 7) (dec (-16509754318617999) 21) (dec 12566080266735209 25) (dec 20935159507248476 29);
  q4 (dec 1030713 7) (dec (-1625215216543113) 20) (dec 1241013173807013 24) (dec 20508480503636801 29);
  q4 (dec 1014587 7) (dec (-1599779698651862) 20) (dec 12254479798716255 25) (dec 18521885315289795 29);
  q4 (dec 99871360000000006 18) (dec (-15747150824949708) 21) (dec 12015244744519978 25) (dec 19983775044162531 29);
  q4 (dec 98308859999999998 18) (dec (-15500850797546043) 21) (dec 11835236368382208 25) (dec 18984338622817279 29);
  q4 (dec 96770800000000004 18) (dec (-15258450768591553) 21) (dec 11649993245336912 25) (dec 1950836138169817 28);
  q4 (dec 95256800000000003 18) (dec (-15019598395270306) 21) (dec 11484916945183627 25) (dec 17492258184731869 29);
  q4 (dec 93766500000000003 18) (dec (-1478465237891122) 20) (dec 11272859743904774 25) (dec 19237814722078558 29);
  q4 (dec 92299500000000007 18) (dec (-14553423839616493) 21) (dec 11129847569303533 25) (dec 17253639233778437 29);
  q4 (dec 90855459999999999 18) (dec (-14325650796460282) 21) (dec 97821513634001346 26) (dec 13329282826230312 28);
  q4 (dec 89434009999999994 18) (dec (-1409001992071358) 20) (dec 2823557783799285 24) (dec (-18443585766633142) 27);
  q4 (dec 88034799999999996 18) (dec (-14078615936952708) 21) (dec (-28440849846104461) 25) (dec 19322443541376873 27);
  q4 (dec 86617819999999998 18) (dec (-14067759627633488) 21) (dec 1474938267575813 24) (dec (-15134199124078616) 28);
  q4 (dec 85224279999999999 18) (dec (-13818174571490565) 21) (dec 11137541697186874 25) (dec 18991545186755815 29);
  q4 (dec 83853789999999997 18) (dec (-13589726273990802) 21) (dec 10932625110293779 25) (dec 20000228878341193 29);
  q4 (dec 82505949999999995 18) (dec (-13365073703121424) 21) (dec 1076745461654565 24) (dec 17991569560702665 29);
  q4 (dec 81180390000000005 18) (dec (-13144327139922297) 21) (dec 10557800747654904 25) (dec 19491324457323104 29);
  q4 (dec 79876710000000004 18) (dec (-12927323727632) 18) (dec 1040737486726988 24) (dec 17499789592005957 29);
  q4 (dec 78594559999999994 18) (dec (-12713926293408994) 21) (dec 10210258681796544 25) (dec 18237065910459811 29);
  q4 (dec 77333559999999996 18) (dec (-12504249999999925) 21) (dec 10049999999997642 25) (dec 17499999999767321 29);
  q4 (dec 76093359999999999 18) (dec (-12298000000000034) 21) (dec 98749999999926852 26) (dec 1750000000051271 28);
  q4 (dec 74873609999999993 18) (dec (-12095250000000028) 21) (dec 97076271186550005 26) (dec 16737288135106769 29);
  q4 (dec 73673959999999997 18) (dec (-11896076271186391) 21) (dec 95377124097390575 26) (dec 16991470890205138 29);
  q4 (dec 72494059999999999 18) (dec (-11700224581724543) 21) (dec 93899163449176165 26) (dec 16254182753947609 29);
  q4 (dec 71333590000000002 18) (dec (-11507549999999998) 21) (dec 92225432756282343 26) (dec 16245672436896658 29);
  q4 (dec 7019222 8) (dec (-11318225432756366) 21) (dec 90651705165978937 26) (dec 15737275903745532 29);
  q4 (dec 69069619999999998 18) (dec (-11132200839653286) 21) (dec 89126259080685166 26) (dec 1574580572623731 28);
  q4 (dec 6796547 8) (dec (-10949224579774056) 21) (dec 87724586838572845 26) (dec 14999929354469655 29);
  q4 (dec 66879469999999996 18) (dec (-10769275427290572) 21) (dec 86125419736603462 26) (dec 15500075539855239 29);
  q4 (dec 65811309999999998 18) (dec (-10592374565155415) 21) (dec 84750811470175277 26) (dec 14237536852197742 29);
  q4 (dec 64760689999999996 18) (dec (-10418601681159407) 21) (dec 83177100884844337 26) (dec 15245802746103255 29);
  q4 (dec 63727300000000001 18) (dec (-10247673738565887) 21) (dec 82023758990917812 26) (dec 1349979574982507 28);
  q4 (dec 62710870000000002 18) (dec (-10079576281859104) 21) (dec 8042714412702731 25) (dec 14491377320367326 29);
  q4 (dec 61711099999999998 18) (dec (-99143745804089374) 22) (dec 79199160817886904 26) (dec 13754195910599963 29);
  q4 (dec 60727719999999999 18) (dec (-97518499999999836) 22) (dec 77826254338868311 26) (dec 13237456611205914 29);
  q4 (dec 5976045 8) (dec (-95922262543388801) 22) (dec 76426231774527553 26) (dec 14000225643746379 29);
  q4 (dec 58809010000000002 18) (dec (-94351737230967011) 22) (dec 75349143321279608 26) (dec 12245797753853893 29);
  q4 (dec 57873149999999998 18) (dec (-92808016971279857) 22) (dec 73852563691129141 26) (dec 13491334368476346 29);
  q4 (dec 56952589999999997 18) (dec (-91290491694351845) 22) (dec 727983388704484 24) (dec 12508305647694163 29);
  q4 (dec 56047090000000001 18) (dec (-89796999999999811) 22) (dec 71501648351608589 26) (dec 11983516483610896 29);
  q4 (dec 5515639 8) (dec (-88331016483516807) 22) (dec 70201618381613247 26) (dec 13000299700614035 29);
  q4 (dec 54280229999999999 18) (dec (-86887983216782751) 22) (dec 69272948862912313 26) (dec 11253728154064357 29);
  q4 (dec 53418390000000003 18) (dec (-85468763055062294) 22) (dec 67878017589860193 26) (dec 11982879163078717 29);
  q4 (dec 52570609999999997 18) (dec (-84075254065775905) 22) (dec 66824516722623648 26) (dec 12008898549648083 29);
  q4 (dec 51736659999999997 18) (dec (-82702737035674437) 22) (dec 65799126118524337 26) (dec 10745774489582486 29);
  q4 (dec 50916320000000001 18) (dec (-81354517189835118) 22) (dec 64478029066351266 26) (dec 11736899171738841 29);
  q4 (dec 50109340000000002 18) (dec (-80029745910992927) 22) (dec 6359918219853977 25) (dec 107540890073105 27);
  q4 (dec 4931551 8) (dec (-78725500000000234) 22) (dec 62475422729102068 26) (dec 10745772709119231 29);
  q4 (dec 48534609999999999 18) (dec (-77443754227290869) 22) (dec 61400845458104592 26) (dec 10745772709627452 29);
  q4 (dec 47766419999999997 18) (dec (-7618349999999987) 21) (dec 60400000000035877 26) (dec 10499999999870558 29);
  q4 (dec 47010730000000001 18) (dec (-74943999999999532) 22) (dec 59400827129819178 26) (dec 99917287015232419 30);
  q4 (dec 46267330000000002 18) (dec (-73726008271298595) 22) (dec 58350812508869465 26) (dec 10500146209852884 29);
  q4 (dec 45536010000000002 18) (dec (-72527491582491664) 22) (dec 57499171930311895 26) (dec 94998631885297396 30);
  q4 (dec 44816580000000002 18) (dec (-7134900855431982) 21) (dec 56401710863998658 26) (dec 99914456798295965 30);
  q4 (dec 44108830000000002 18) (dec (-7019100000000035) 21) (dec 55549999999973571 26) (dec 95000000002071775 30);
  q4 (dec 43412569999999998 18) (dec (-69051500000000257) 22) (dec 54600000000054498 26) (dec 94999999998683649 30);
  q4 (dec 42727609999999999 18) (dec (-67930999999999545) 22) (dec 53700823421748857 26) (dec 89917657823873123 30);
  q4 (dec 42053760000000003 18) (dec (-66830008234217414) 22) (dec 5272535434235357 25) (dec 97546907939613152 30);
  q4 (dec 41390830000000003 18) (dec (-65746237074988434) 22) (dec 52024483555599905 26) (dec 7992239432231679 29);
  q4 (dec 40738650000000001 18) (dec (-64681770685579783) 22) (dec 5090249935089999 25) (dec 97456920703776736 30);
  q4 (dec 40097019999999997 18) (dec (-63634483622350667) 22) (dec 50373008088776572 26) (dec 7753541463234783 29);
  q4 (dec 39465790000000001 18) (dec (-62603762836185397) 22) (dec 49277156585045901 26) (dec 89912703349610094 30);
  q4 (dec 38844770000000001 18) (dec (-61591245893479639) 22) (dec 48599178695857084 26) (dec 82541065208292864 30);
  q4 (dec 38233799999999998 18) (dec (-60594500000000009) 22) (dec 47725424601183635 26) (dec 82457539883134218 30);
  q4 (dec 3763271 8) (dec (-59615254246011388) 22) (dec 46926254749050802 26) (dec 79916985206338038 30);
  q4 (dec 37041329999999997 18) (dec (-5865275405546847) 21) (dec 46175398640286172 26) (dec 80000690657626903 30);
  q4 (dec 36459499999999999 18) (dec (-57705245875465459) 22) (dec 45449175093100567 26) (dec 77541245345931764 30);
  q4 (dec 3588707 8) (dec (-5677299999999971) 21) (dec 44650825082528534 26) (dec 74917491746090269 30);
  q4 (dec 35323880000000002 18) (dec (-55857508250825304) 22) (dec 43876244457069489 26) (dec 77458062542431664 30);
  q4 (dec 34769769999999998 18) (dec (-54956745942921143) 22) (dec 43249188584301103 26) (dec 72540570783789386 30);
  q4 (dec 34224600000000001 18) (dec (-54070000000000001) 22) (dec 42449999999933839 26) (dec 75000000003891403 30);
  q4 (dec 33688219999999998 18) (dec (-53198500000000216) 22) (dec 4177619047624977 25) (dec 6738095237848643 29);
  q4 (dec 33160479999999999 18) (dec (-523427619047617) 20) (dec 41000704305638414 26) (dec 77548617054189959 30);
  q4 (dec 3264123 8) (dec (-51499483233532658) 22) (dec 40548347800167477 26) (dec 59997555311596298 30);
  q4 (dec 32130350000000002 18) (dec (-50670517010935846) 22) (dec 39602597731624291 26) (dec 74910336192339305 30);
  q4 (dec 31627679999999998 18) (dec (-49855991955445659) 22) (dec 39173815350652973 26) (dec 6253801939313657 29);
  q4 (dec 311331 7) (dec (-49053754242614607) 22) (dec 38375416661077981 26) (dec 70000760036379608 30);
  q4 (dec 30646469999999999 18) (dec (-48265245681382108) 22) (dec 3782535460001712 25) (dec 59921353819546636 30);
  q4 (dec 30167659999999999 18) (dec (-4749076218323586) 21) (dec 37101642996359624 26) (dec 6745753272245419 29);
  q4 (dec 29696529999999999 18) (dec (-46728492063491931) 22) (dec 36673832443226877 26) (dec 57537390598386618 30);
  q4 (dec 2923297 8) (dec (-45977754197447903) 22) (dec 35925412285180124 26) (dec 65000745960205734 30);
  q4 (dec 2877685 8) (dec (-45239745727956247) 22) (dec 35399978924615486 26) (dec 57459387101678723 30);
  q4 (dec 2832805 8) (dec (-44514508333333434) 22) (dec 34726260306214937 26) (dec 62457302710815816 30);
  q4 (dec 27886439999999998 18) (dec (-4380124593639589) 21) (dec 34249187279184859 26) (dec 57540636041546438 30);
  q4 (dec 2745191 8) (dec (-43098999999999746) 22) (dec 33650802919699309 26) (dec 54919708028928732 30);
  q4 (dec 27024340000000001 18) (dec (-42409508029197107) 22) (dec 33050788603137797 26) (dec 60001431656235462 30);
  q4 (dec 2660361 8) (dec (-41730491827637506) 22) (dec 32649195090104994 26) (dec 49998767365069317 30);
  q4 (dec 2618962 8) (dec (-41062508295625893) 22) (dec 31950814271110214 26) (dec 60001529147355991 30);
  q4 (dec 2578225 8) (dec (-40405491551459508) 22) (dec 31549168326173001 26) (dec 49998681976524944 30);
  q4 (dec 25381399999999998 18) (dec (-39759508580343099) 22) (dec 30901716068678144 26) (dec 54914196565620159 30);
  q4 (dec 24986950000000001 18) (dec (-3912499999999985) 21) (dec 30499999999958458 26) (dec 50000000002311919 30);
  q4 (dec 24598800000000001 18) (dec (-38499999999999987) 22) (dec 29974569319138828 26) (dec 52543068087087567 30);
  q4 (dec 24216850000000002 18) (dec (-37884745693191101) 22) (dec 29499971971540749 26) (dec 47459734756419705 30);
  q4 (dec 23841000000000001 18) (dec (-37280508333333365) 22) (dec 28951666666675346 26) (dec 49916666666403425 30);
  q4 (dec 23471140000000001 18) (dec (-3668649999999992) 21) (dec 28549137931029888 26) (dec 50086206896223435 30);
  q4 (dec 23107180000000001 18) (dec (-36100491379310455) 22) (dec 28099151518809995 26) (dec 44998641221947236 30);
  q4 (dec 2274903 8) (dec (-3552500875656765) 21) (dec 27527129764069242 26) (dec 47374589268906494 30);
  q4 (dec 22396579999999999 18) (dec (-34960253784505593) 22) (dec 27149941683786749 26) (dec 47543676679656277 30);
  q4 (dec 22049740000000002 18) (dec (-34402991847825953) 22) (dec 26748369565180308 26) (dec 45081521740564284 30);
  q4 (dec 21708430000000001 18) (dec (-33854500000000173) 22) (dec 26251495327120297 26) (dec 39850467289536432 30);
  q4 (dec 21372550000000001 18) (dec (-33317514953270914) 22) (dec 25725964915413683 26) (dec 52553041168882645 30);
  q4 (dec 21042000000000002 18) (dec (-32787229742611976) 22) (dec 25597685974117731 26) (dec 32528828707308166 30);
  q4 (dec 20716720000000001 18) (dec (-32265517374517442) 22) (dec 24852687501916542 26) (dec 49904994982598294 30);
  q4 (dec 20396600000000001 18) (dec (-31753492125984323) 22) (dec 24673849772263504 26) (dec 37536282616059104 30);
  q4 (dec 2008157 8) (dec (-31248754245754239) 22) (dec 24150849150870146 26) (dec 42457542455993786 30);
  q4 (dec 19771540000000001 18) (dec (-3075300000000003) 21) (dec 23799999999971721 26) (dec 40000000002459403 30);
  q4 (dec 1946643 8) (dec (-30264999999999887) 22) (dec 23425393494259139 26) (dec 37460650574773107 30);
  q4 (dec 19166160000000002 18) (dec (-29785253934942302) 22) (dec 22999932287562392 26) (dec 42546120664465616 30);
  q4 (dec 18870649999999999 18) (dec (-2931249145299171) 21) (dec 22724509449895707 26) (dec 32463584926860874 30);
  q4 (dec 18579829999999999 18) (dec (-28848262188515734) 22) (dec 22176194609213429 26) (dec 45002424235752883 30);
  q4 (dec 18293609999999998 18) (dec (-28391237569060735) 22) (dec 22023773610591016 26) (dec 29998329548856919 30);
  q4 (dec 18011929999999999 18) (dec (-27941762597984266) 22) (dec 21477149015335677 26) (dec 39911078309252558 30);
  q4 (dec 17734699999999999 18) (dec (-27500246294184773) 22) (dec 21273824306228702 26) (dec 35080511224984679 30);
  q4 (dec 17461859999999999 18) (dec (-27064245654692703) 22) (dec 20899954468021411 26) (dec 3246110012716509 29);
  q4 (dec 17193340000000001 18) (dec (-26636508235294143) 22) (dec 20450807730244062 26) (dec 40001579914909455 30);
  q4 (dec 16929059999999999 18) (dec (-26215491606714801) 22) (dec 20274506033123749 26) (dec 27465463836509333 30);
  q4 (dec 1666896 8) (dec (-25801761846901395) 22) (dec 19776161201868314 26) (dec 40002348827786754 30);
  q4 (dec 16412960000000001 18) (dec (-25394237918215684) 22) (dec 19648463040086607 26) (dec 27532878147354291 30);
  q4 (dec 1616101 8) (dec (-24993008793969733) 22) (dec 1917711000728442 25) (dec 32376938970541244 30);
  q4 (dec 15913030000000002 18) (dec (-24599753512132882) 22) (dec 18898879509854755 26) (dec 37647170340910513 30);
  q4 (dec 15668959999999999 18) (dec (-24210481770833526) 22) (dec 18748722587757699 26) (dec 19945449560103525 30);
  q4 (dec 1542875 8) (dec (-23829523684210346) 22) (dec 18102310966083003 26) (dec 4500574549590007 29);
  q4 (dec 15192310000000001 18) (dec (-23453975741239903) 22) (dec 18222359132319247 26) (dec 17521499166519477 30);
  q4 (dec 1495961 8) (dec (-23084272108843571) 22) (dec 17553727324275568 26) (dec 3734835600841031 29);
  q4 (dec 1473056 8) (dec (-22721993055555532) 22) (dec 17548611111105827 26) (dec 25069444444315892 30);
  q4 (dec 1450512 8) (dec (-22363500000000112) 22) (dec 17149999999997795 26) (dec 30000000000743408 30);
  q4 (dec 14283229999999999 18) (dec (-22011499999999942) 22) (dec 16875400291132761 26) (dec 27459970887392803 30);
  q4 (dec 1406483 8) (dec (-21665754002911081) 22) (dec 16575393174818677 26) (dec 30000711628867187 30);
  q4 (dec 1384986 8) (dec (-21325245925926048) 22) (dec 16374598719022907 26) (dec 24999387357132993 30);
  q4 (dec 13638269999999999 18) (dec (-20990254135338458) 22) (dec 19787793892330451 26) (dec (-34623803584850526) 29);
  q4 (dec 13429999999999999 18) (dec (-20698369668246392) 22) (dec 55718399389613651 26) (dec (-35881432564960319) 28);
  q4 (dec 13225000000000001 18) (dec (-20660444657402933) 22) (dec (-5041543442610083) 25) (dec 16418833648122915 28);
  q4 (dec 1280476 8) (dec (-20706801996672203) 22) (dec 23250091168118847 26) (dec (-13424956672552686) 29);
  q4 (dec 12398849999999999 18) (dec (-19937897830018069) 22) (dec 15976822821495249 26) (dec 32153433970489106 30);
  q4 (dec 1200674 8) (dec (-19260240796393672) 22) (dec 15450014218805915 26) (dec 29351280043850442 30);
  q4 (dec 1162795 8) (dec (-18607018691588828) 22) (dec 14839823888062574 26) (dec 29305534568910354 30);
  q4 (dec 1126198 8) (dec (-1797825909458363) 21) (dec 14325909458368683 26) (dec 28102263540759011 30);
  q4 (dec 10908370000000001 18) (dec (-17371499999999964) 22) (dec 13823972692087233 26) (dec 26301365395507048 30);
  q4 (dec 1056668 8) (dec (-16786979453841881) 22) (dec 13300535870686635 26) (dec 26171841070262743 30);
  q4 (dec 10236469999999999 18) (dec (-16223551809730106) 22) (dec 12855591518539242 26) (dec 2447494839840672 29);
  q4 (dec 9917337 9) (dec (-15679958210910451) 22) (dec 12381094069785039 26) (dec 23965823786769422 30);
  q4 (dec 96088819999999991 19) (dec (-1515595545957493) 21) (dec 11945953525167292 26) (dec 22840972678978635 30);
  q4 (dec 93107239999999994 19) (dec (-14650708151353456) 22) (dec 11517290818926227 26) (dec 22155837437498205 30);
  q4 (dec 90224940000000007 19) (dec (-14163429513671419) 22) (dec 11115767552364909 26) (dec 2116040656028821 29);
  q4 (dec 87438410000000005 19) (dec (-13693406323704492) 22) (dec 10718402420919159 26) (dec 20470688215160798 30);
  q4 (dec 84744239999999995 19) (dec (-13240105401009543) 22) (dec 10343353436616115 26) (dec 19595830693092869 30);
  q4 (dec 82139159999999999 19) (dec (-12802856266713179) 22) (dec 99783056516676369 27) (dec 18975384199490884 30);
  q4 (dec 79620019999999993 19) (dec (-12380953579607093) 22) (dec 96325237010483094 27) (dec 18132763965380639 30);
  q4 (dec 77183809999999999 19) (dec (-11973893314806697) 22) (dec 92908039725786355 27) (dec 17568088387791924 30);
  q4 (dec 74827599999999998 19) (dec (-11581179449838199) 22) (dec 89687703242186348 27) (dec 16885108384577499 30);
  q4 (dec 72548589999999998 19) (dec (-11202166506807969) 22) (dec 86569164903864521 27) (dec 16195442500605085 30);
  q4 (dec 70344079999999998 19) (dec (-10836455316191785) 22) (dec 83531644868172918 27) (dec 15730066138642907 30);
  q4 (dec 68211460000000002 19) (dec (-1048345265735272) 21) (dec 80686773859022387 27) (dec 14947774086670458 30);
  q4 (dec 66148240000000001 19) (dec (-10142768233012622) 22) (dec 77838081919011151 27) (dec 14605172936480426 30);
  q4 (dec 64151989999999999 19) (dec (-98138896978128005) 23) (dec 75210433424771542 27) (dec 13922077408178745 30);
  q4 (dec 62220410000000002 19) (dec (-94963414712238998) 23) (dec 72581157842994818 27) (dec 13447888844706804 30);
  q4 (dec 60351249999999997 19) (dec (-91898793732382682) 23) (dec 70086715445252464 27) (dec 13014855869472245 30);
  q4 (dec 58542350000000002 19) (dec (-88939146844138969) 23) (dec 67716436147839029 27) (dec 12454530295515083 30);
  q4 (dec 56791649999999999 19) (dec (-86081035034679227) 23) (dec 65374205981490077 27) (dec 12012728762333951 30);
  q4 (dec 55097139999999998 19) (dec (-83321914050271627) 23) (dec 63142272685441089 27) (dec 11642149140702897 30);
  q4 (dec 53456889999999998 19) (dec (-80656517353165507) 23) (dec 6102847238721399 26) (dec 11111976355308742 30);
  q4 (dec 51869059999999998 19) (dec (-78082034741413274) 23) (dec 5891080679335997 26) (dec 10829651386527449 30);
  q4 (dec 50331849999999999 19) (dec (-75595646653040504) 23) (dec 56941389441955363 27) (dec 10329716050311154 30);
  q4 (dec 48843539999999996 19) (dec (-73194034482758555) 23) (dec 54991807890424572 27) (dec 10049581237569742 30);
  q4 (dec 4740246 9) (dec (-70873767192290735) 23) (dec 53171971353706821 27) (dec 9581941304130472 30);
  q4 (dec 46007019999999999 19) (dec (-68631905042492865) 23) (dec 51353860453858752 27) (dec 93319583539544751 31);
  q4 (dec 44655670000000001 19) (dec (-66465767124091093) 23) (dec 49646535809982721 27) (dec 89591019728080399 31);
  q4 (dec 43346929999999997 19) (dec (-6437239646801812) 22) (dec 47972385719307573 27) (dec 86121884080004896 31);
  q4 (dec 42079359999999998 19) (dec (-62350154778349779) 23) (dec 46353403491336443 27) (dec 83966771307697227 31);
  q4 (dec 40851569999999999 19) (dec (-60395258513127074) 23) (dec 44846089247919856 27) (dec 79591820421802527 31);
  q4 (dec 3966224 9) (dec (-58505904758704085) 23) (dec 43309859651183526 27) (dec 78018914201119654 31);
  q4 (dec 3851007 9) (dec (-56679887675615401) 23) (dec 41902116482418957 27) (dec 74613364917759654 31);
  q4 (dec 37393830000000002 19) (dec (-54914266978417341) 23) (dec 40502959002431314 27) (dec 71769495921364208 31);
  q4 (dec 36312319999999999 19) (dec (-53208025223214452) 23) (dec 39146483060471511 27) (dec 70238905012501116 31);
  q4 (dec 35264379999999998 19) (dec (-51557879214780611) 23) (dec 37889186998591751 27) (dec 66488687021957073 31);
  q4 (dec 34248909999999998 19) (dec (-49962525310410614) 23) (dec 36603362453651914 27) (dec 64895153344128846 31);
  q4 (dec 3326482 9) (dec (-48420516628251562) 23) (dec 35427079917420047 27) (dec 62437574757820641 31);
  q4 (dec 32311079999999999 19) (dec (-4692850834184538) 22) (dec 3427021457532779 26) (dec 60260125847316664 31);
  q4 (dec 31386700000000001 19) (dec (-45485387607815505) 23) (dec 33133551500377935 27) (dec 58041444519717086 31);
  q4 (dec 3049071 9) (dec (-44090395814376711) 23) (dec 3203353965337525 26) (dec 56812553273124649 31);
  q4 (dec 29622170000000001 19) (dec (-42740879164313967) 23) (dec 31033104065066334 27) (dec 53042707531386097 31);
  q4 (dec 28780189999999999 19) (dec (-41435903752673661) 23) (dec 29971002907671695 27) (dec 53709236300498555 31);
  q4 (dec 27963889999999998 19) (dec (-40172612552806205) 23) (dec 29075417100325061 27) (dec 49010526999480604 31);
  q4 (dec 2717246 9) (dec (-38950783236393837) 23) (dec 28040823639374561 27) (dec 49916909015791002 31);
  q4 (dec 26405059999999999 19) (dec (-37769249999999911) 23) (dec 27213321127394516 27) (dec 46208943630370617 31);
  q4 (dec 25660930000000002 19) (dec (-36625266422547675) 23) (dec 26289142254758516 27) (dec 46208943631032361 31);
  q4 (dec 2493931 9) (dec (-35518250000000095) 23) (dec 25476226303327856 27) (dec 43063684833800221 31);
  q4 (dec 2423948 9) (dec (-34447524526066426) 23) (dec 24614952606629086 27) (dec 43063684834461965 31);
  q4 (dec 23560719999999999 19) (dec (-33411249999999929) 23) (dec 23875411184220457 27) (dec 40604440789076511 31);
  q4 (dec 22902370000000001 19) (dec (-32407508223684203) 23) (dec 23082685113505502 27) (dec 39636303534940361 31);
  q4 (dec 22263769999999999 19) (dec (-31436637254902039) 23) (dec 22345578042194825 27) (dec 38064235145409376 31);
  q4 (dec 21644279999999999 19) (dec (-30497137051039739) 23) (dec 21638705103959518 27) (dec 37157372401240772 31);
  q4 (dec 21043289999999998 19) (dec (-29586999999999859) 23) (dec 20975806451625845 27) (dec 34959677418805102 31);
  q4 (dec 20460220000000002 19) (dec (-28706016129032248) 23) (dec 20270160089869939 27) (dec 35282318086736517 31);
  q4 (dec 19894489999999999 19) (dec (-27852870943733356) 23) (dec 19669352437857267 27) (dec 32459737440708345 31);
  q4 (dec 1934556 9) (dec (-27027145161290231) 23) (dec 190020161290261 25) (dec 32762096774329426 31);
  q4 (dec 18812880000000001 19) (dec (-26227750000000019) 23) (dec 18443952802359572 27) (dec 30927359882073248 31);
  q4 (dec 1829595 9) (dec (-25452879056047164) 23) (dec 17851200597955475 27) (dec 29637610220204799 31);
  q4 (dec 17794270000000001 19) (dec (-2470326589986471) 22) (dec 17270141192337548 27) (dec 29657690044715242 31);
  q4 (dec 1730735 9) (dec (-23976871024117534) 23) (dec 16775395490332889 27) (dec 27157785777117259 31);
  q4 (dec 16834739999999999 19) (dec (-23273265861571664) 23) (dec 1620118563556737 26) (dec 28105372151021632 31);
  q4 (dec 16375980000000001 19) (dec (-22591491989567741) 23) (dec 1574394540318265 26) (dec 25282703760175472 31);
  q4 (dec 15930650000000001 19) (dec (-21931394928928224) 23) (dec 15201992892818127 27) (dec 25887677679565446 31);
  q4 (dec 1549831 9) (dec (-21292250000000015) 23) (dec 14775000000000871 27) (dec 24375000000037568 31);
  q4 (dec 1507857 9) (dec (-20671999999999927) 23) (dec 22616765949267856 27) (dec (-39208829746348825) 30);
  q4 (dec 14671040000000001 19) (dec (-20237835318985391) 23) (dec (-11625236217406314) 27) (dec 17121001083335566 29);
  q4 (dec 14275329999999999 19) (dec (-18648324637681365) 23) (dec 67193478619617416 27) (dec (-12238623367775078) 29);
  q4 (dec 13919449999999999 19) (dec (-1742922029702966) 22) (dec (-31715578186918914) 28) (dec 3566286335088271 29);
  q4 (dec 1357245 9) (dec (-1712812824956673) 22) (dec 10263135975624835 27) (dec 13413825135495326 31);
  q4 (dec 13234099999999999 19) (dec (-16701506220379139) 23) (dec 10006716262845091 27) (dec 13429737805702115 31);
  q4 (dec 1290418 9) (dec (-16285121884498496) 23) (dec 97746884498410659 28) (dec 12820288754097886 31);
  q4 (dec 12582489999999999 19) (dec (-15878749999999941) 23) (dec 95192172524042121 28) (dec 12164137379889615 31);
  q4 (dec 12268820000000001 19) (dec (-15483384345047918) 23) (dec 926953286543749 26) (dec 12484219347674331 31);
  q4 (dec 11962959999999999 19) (dec (-15097621967213209) 23) (dec 90746967213196281 28) (dec 11570081967036467 31);
  q4 (dec 11664729999999999 19) (dec (-1472074999999998) 22) (dec 88249999999980961 28) (dec 11875000000049861 31);
  q4 (dec 11373939999999999 19) (dec (-14353499999999999) 23) (dec 86067137809182514 28) (dec 10914310954137829 31);
  q4 (dec 11090399999999999 19) (dec (-13996134275618315) 23) (dec 83692009823190355 28) (dec 11875639929947501 31);
  q4 (dec 1081392 9) (dec (-13647115468409619) 23) (dec 82121783416958487 28) (dec 96797539391277912 32);
  q4 (dec 10544339999999999 19) (dec (-13307012630014829) 23) (dec 79535218537527275 28) (dec 11105482349631452 31);
  q4 (dec 10281470000000001 19) (dec (-12975545177045154) 23) (dec 99514109599526166 28) (dec (-97457605384923708) 31);
  q4 (dec 1002516 9) (dec (-12694437865108953) 23) (dec 11678743791300221 27) (dec (-87342526792662321) 31);
  q4 (dec 97752439999999993 20) (dec (-12332099145608133) 23) (dec 11119242110256333 27) (dec (-72593183961864682) 31);
  q4 (dec 91773630000000004 20) (dec (-11764623814296485) 23) (dec 37360381749842291 28) (dec 14061676221890232 30);
  q4 (dec 86160489999999995 20) (dec (-10336394280156295) 23) (dec 16834591145041796 27) (dec (-92166110838316602) 31);
  q4 (dec 81297949999999998 20) (dec (-93441809969394869) 24) (dec (-15882450126710201) 29) (dec 51776888801137413 31);
  q4 (dec 76686609999999998 20) (dec (-89717367810576692) 24) (dec 43333127046543423 28) (dec 45004583299865539 32);
  q4 (dec 72314700000000005 20) (dec (-85046520731173385) 24) (dec 41268964639181067 28) (dec 43148999685678292 32);
  q4 (dec 68170939999999999 20) (dec (-80596006769612651) 24) (dec 39299371558954274 28) (dec 4129527666600056 31);
  q4 (dec 64244550000000001 20) (dec (-76356355038722233) 24) (dec 37407409990956802 28) (dec 39513815669735857 32);
  q4 (dec 60525189999999999 20) (dec (-72319260422103521) 24) (dec 35595340362352132 28) (dec 37877361594341022 32);
  q4 (dec 57002949999999995 20) (dec (-68475646173910777) 24) (dec 33871831407462815 28) (dec 36181841415052768 32);
  q4 (dec 53668369999999995 20) (dec (-648170992225516) 22) (dec 32212814497430883 28) (dec 34663399072032284 32);
  q4 (dec 50512379999999996 20) (dec (-61335842279768309) 24) (dec 30632546850325232 28) (dec 33125974900848909 32);
  q4 (dec 4752631 10) (dec (-58024142782979392) 24) (dec 29117426124847434 28) (dec 31708590694830533 32);
  q4 (dec 44701860000000002 20) (dec (-5487458574028344) 23) (dec 27674203837960441 28) (dec 30270219354128828 32);
  q4 (dec 42031099999999998 20) (dec (-51880138711331403) 24) (dec 26291178146828573 28) (dec 28951921596011596 32);
  q4 (dec 39506440000000001 20) (dec (-49033881484678446) 24) (dec 24972696697856341 28) (dec 27698659914226874 32);
  q4 (dec 37120639999999998 20) (dec (-4632887186553609) 23) (dec 23714627869232246 28) (dec 26376188829791903 32);
  q4 (dec 34866779999999999 20) (dec (-43759587662389413) 24) (dec 22503903692033665 28) (dec 25276991115096387 32);
  q4 (dec 32738219999999999 20) (dec (-41319619859822837) 24) (dec 21363099711453987 28) (dec 24105949700080133 32);
  q4 (dec 30728660000000003 20) (dec (-39002515265926824) 24) (dec 20267235072305498 28) (dec 22941404924616587 32);
  q4 (dec 28832070000000003 20) (dec (-3680373122176163) 23) (dec 1921230367305814 27) (dec 22046415243477592 32);
  q4 (dec 27042670000000001 20) (dec (-34717152740129734) 24) (dec 18228648245901463 28) (dec 20848131133836369 32);
  q4 (dec 25354989999999998 20) (dec (-32737926932035815) 24) (dec 17264143132696213 28) (dec 20047910160420167 32);
  q4 (dec 2376376 10) (dec (-30861153292563023) 24) (dec 16369420033357793 28) (dec 18992916358044299 32);
  q4 (dec 22264 8) (dec (-29081764416541898) 24) (dec 15497656296933972 28) (dec 18192640678078754 32);
  q4 (dec 2085093 10) (dec (-27395553981762887) 24) (dec 1468040630291976 27) (dec 17253466646763971 32);
  q4 (dec 19520010000000001 20) (dec (-25798112351620168) 24) (dec 13890314464669307 28) (dec 16558651354671558 32);
  q4 (dec 182669 9) (dec (-24284891019993214) 24) (dec 13152960009578592 28) (dec 15617207805729567 32);
  q4 (dec 17087490000000001 20) (dec (-22852465960492393) 24) (dec 12430465638093113 28) (dec 1501707143508668 31);
  q4 (dec 1597782 10) (dec (-21496791360919938) 24) (dec 11766656035772821 28) (dec 14183423652509197 32);
  q4 (dec 14934169999999999 20) (dec (-20213750079948844) 24) (dec 11117953151457825 28) (dec 1354096895038729 31);
  q4 (dec 13952969999999999 20) (dec (-19000397497675163) 24) (dec 10506688674670487 28) (dec 12905225576667142 32);
  q4 (dec 13030830000000001 20) (dec (-17852939438383111) 24) (dec 99275410134203484 29) (dec 12224955084832534 32);
  q4 (dec 1216453 10) (dec (-16768498173904839) 24) (dec 93703012500352094 29) (dec 1167324456122885 31);
  q4 (dec 1135099 10) (dec (-15743918714692105) 24) (dec 88499738358382665 29) (dec 11048009160075 29);
  q4 (dec 10587299999999999 20) (dec (-14776061262407716) 24) (dec 83495884158786918 29) (dec 10520736645520885 32);
  q4 (dec 98706860000000006 21) (dec (-13862196895978437) 24) (dec 78776074172067564 29) (dec 99826100472293723 33);
  q4 (dec 91985179999999993 21) (dec (-12999566578903541) 24) (dec 74273644784386931 29) (dec 94873419926421503 33);
  q4 (dec 85682939999999995 21) (dec (-12185675066114844) 24) (dec 70010963536204218 29) (dec 9000099373535735 32);
  q4 (dec 79776380000000003 21) (dec (-11418064685451288) 24) (dec 65965320708179357 29) (dec 85432327641524878 33);
  q4 (dec 74242939999999996 21) (dec (-10694337232638356) 24) (dec 4860079540147941 28) (dec 35173302252383666 32);
  q4 (dec 69061239999999998 21) (dec (-9944529511730678) 24) (dec 55688660490434377 29) (dec (-13765516288597449) 32);
  q4 (dec 64210989999999998 21) (dec (-94908842789908134) 25) (dec 28320104191284574 29) (dec 23449503213757775 32);
  q4 (dec 59565660000000002 21) (dec (-90318119629747761) 25) (dec 8655084950617315 28) (dec (-2336091382243537) 31);
  q4 (dec 55236930000000002 21) (dec (-83415103215813148) 25) (dec 51554504134059446 29) (dec 75991203644045586 33);
  q4 (dec 51204559999999998 21) (dec (-77689718775076895) 25) (dec 48215160680560793 29) (dec 7134429641958183 32);
  q4 (dec 47449530000000002 21) (dec (-72333120483874002) 25) (dec 45064458717428442 29) (dec 67159019201030157 33);
  q4 (dec 43953930000000002 21) (dec (-67322981968123464) 25) (dec 42122948698320924 29) (dec 62973813282959148 33);
  q4 (dec 40700959999999999 21) (dec (-62638383498669236) 25) (dec 3934529664042524 28) (dec 59247466659206805 33);
  q4 (dec 37674810000000001 21) (dec (-58259497834682703) 25) (dec 36751766881187184 29) (dec 55563796249325429 33);
  q4 (dec 3486066 11) (dec (-54167592674694011) 25) (dec 34307311065647382 29) (dec 5217084856463495 32);
  q4 (dec 32244569999999997 21) (dec (-50345580203894518) 25) (dec 32017224968329739 29) (dec 49007582191229973 33);
  q4 (dec 29813459999999999 21) (dec (-46776300840627361) 25) (dec 29877278410638323 29) (dec 45854768038190375 33);
  q4 (dec 27555070000000001 21) (dec (-43444662239277076) 25) (dec 2785585925960969 28) (dec 43147710518632049 33);
  q4 (dec 2545787 11) (dec (-40335468484426383) 25) (dec 25981344028215272 29) (dec 40320513206233243 33);
  q4 (dec 23511089999999999 21) (dec (-37434930232558107) 25) (dec 24205410675324945 29) (dec 37863879516769384 33);
  q4 (dec 21704590000000002 21) (dec (-34730410068649855) 25) (dec 22555275858640977 29) (dec 35458510287111477 33);
  q4 (dec 2002889 11) (dec (-32208943655632433) 25) (dec 21008637017023439 29) (dec 33164721912496432 33);
  q4 (dec 18475109999999999 21) (dec (-29859344539586346) 25) (dec 19554125588357763 29) (dec 31135304067383259 33);
  q4 (dec 1703492 11) (dec (-27670417200245187) 25) (dec 18204262693351105 29) (dec 29041626231048488 33);
  q4 (dec 15700539999999999 21) (dec (-25632178734177225) 25) (dec 16928165689178119 29) (dec 27268179887332015 33);
  q4 (dec 1446466 11) (dec (-23734850816104444) 25) (dec 15750137654995443 29) (dec 25417573341874023 33);
  q4 (dec 1332047 11) (dec (-2196920525054084) 24) (dec 14636966968697435 29) (dec 23822760842385349 33);
  q4 (dec 1226158 11) (dec (-20326837847353207) 25) (dec 13603714873327194 29) (dec 22260841474742164 33);
  q4 (dec 1128203 11) (dec (-18799510048959929) 25) (dec 12636222043814633 29) (dec 2075957870767963 32);
  q4 (dec 1037624 11) (dec (-17380191004270875) 25) (dec 11729664696949041 29) (dec 19451107769364948 33);
  q4 (dec 95389859999999997 22) (dec (-16061341226305732) 25) (dec 10893440498848858 29) (dec 18099680545321705 33);
  q4 (dec 87654150000000002 22) (dec (-14836249572330948) 25) (dec 10512364552918109 29) (dec 87405378740213761 34);
  q4 (dec 80509760000000007 22) (dec (-13719459082983981) 25) (dec 1016116331935864 28) (dec 81683668064098834 34);
  q4 (dec 73914269999999998 22) (dec (-12642080000000034) 25) (dec 0 0) (dec 0 0)].
(** L2910-3601 *)
Definition StandardAtm1976_akima_dT : list coefD := [
  q4 (dec (-64999999999997725) 19) (dec 52041704279304223 36) (dec 0 0) (dec 0 0);
  q4 (dec (-64999999999997725) 19) (dec 52041704279304223 36) (dec (-48148248609680897) 53) (dec (-69388939039072251) 40);
  q4 (dec (-64999999999997707) 19) (dec 0 0) (dec 0 0) (dec 0 0);
  q4 (dec (-64999999999997707) 19) (dec 0 0) (dec 0 0) (dec 0 0);
  q4 (dec (-64999999999997707) 19) (dec 0 0) (dec 0 0) (dec 0 0);
  q4 (dec (-64999999999997707) 19) (dec 0 0) (dec (-62450045135165054) 37) (dec 83266726846886731 39);
  q4 (dec (-64999999999997759) 19) (dec 0 0) (dec 62450045135165054 37) (dec (-83266726846886731) 39);
  q4 (dec (-64999999999997707) 19) (dec 0 0) (dec 0 0) (dec 0 0);
  q4 (dec (-64999999999997707) 19) (dec 0 0) (dec 0 0) (dec 0 0);
  q4 (dec (-64999999999997707) 19) (dec 0 0) (dec 0 0) (dec 0 0);
  q4 (dec (-64999999999997707) 19) (dec 0 0) (dec (-62450045135165054) 37) (dec 83266726846886731 39);
  q4 (dec (-64999999999997759) 19) (dec 0 0) (dec 62450045135165054 37) (dec (-83266726846886731) 39);
  q4 (dec (-64999999999997707) 19) (dec 0 0) (dec 0 0) (dec 0 0);
  q4 (dec (-64999999999997707) 19) (dec 0 0) (dec 0 0) (dec 0 0);
  q4 (dec (-64999999999997707) 19) (dec 0 0) (dec 0 0) (dec 0 0);
  q4 (dec (-64999999999997707) 19) (dec 0 0) (dec (-62450045135165054) 37) (dec 83266726846886731 39);
  q4 (dec (-64999999999997759) 19) (dec 0 0) (dec 62450045135165054 37) (dec (-83266726846886731) 39);
  q4 (dec (-64999999999997707) 19) (dec 0 0) (dec 0 0) (dec 0 0);
  q4 (dec (-64999999999997707) 19) (dec 0 0) (dec 0 0) (dec 0 0);
  q4 (dec (-64999999999997707) 19) (dec 0 0) (dec 0 0) (dec 0 0);
  q4 (dec (-64999999999997707) 19) (dec 0 0) (dec (-62450045135165054) 37) (dec 83266726846886731 39);
  q4 (dec (-64999999999997759) 19) (dec 0 0) (dec 62450045135165054 37) (dec (-83266726846886731) 39);
  q4 (dec (-64999999999997707) 19) (dec 0 0) (dec 0 0) (dec 0 0);
  q4 (dec (-64999999999997707) 19) (dec 0 0) (dec 0 0) (dec 0 0);
  q4 (dec (-64999999999997707) 19) (dec 0 0) (dec 0 0) (dec 0 0);
  q4 (dec (-64999999999997707) 19) (dec 0 0) (dec (-62450045135165054) 37) (dec 83266726846886731 39);
  q4 (dec (-64999999999997759) 19) (dec 0 0) (dec 62450045135165054 37) (dec (-83266726846886731) 39);
  q4 (dec (-64999999999997707) 19) (dec 0 0) (dec 0 0) (dec 0 0);
  q4 (dec (-64999999999997707) 19) (dec 0 0) (dec 0 0) (dec 0 0);
  q4 (dec (-64999999999997707) 19) (dec 0 0) (dec 0 0) (dec 0 0);
  q4 (dec (-64999999999997707) 19) (dec 0 0) (dec (-62450045135165054) 37) (dec 83266726846886731 39);
  q4 (dec (-64999999999997759) 19) (dec 0 0) (dec 62450045135165054 37) (dec (-83266726846886731) 39);
  q4 (dec (-64999999999997707) 19) (dec 0 0) (dec 0 0) (dec 0 0);
  q4 (dec (-64999999999997707) 19) (dec 0 0) (dec 0 0) (dec 0 0);
  q4 (dec (-64999999999997707) 19) (dec 0 0) (dec 0 0) (dec 0 0);
  q4 (dec (-64999999999997707) 19) (dec 0 0) (dec (-62450045135165054) 37) (dec 83266726846886731 39);
  q4 (dec (-64999999999997759) 19) (dec 0 0) (dec 62450045135165054 37) (dec (-83266726846886731) 39);
  q4 (dec (-64999999999997707) 19) (dec 0 0) (dec 0 0) (dec 0 0);
  q4 (dec (-64999999999997707) 19) (dec 0 0) (dec 0 0) (dec 0 0);
  q4 (dec (-64999999999997707) 19) (dec 0 0) (dec 0 0) (dec 0 0);
  q4 (dec (-64999999999997707) 19) (dec 0 0) (dec (-62450045135165054) 37) (dec 83266726846886731 39);
  q4 (dec (-64999999999997759) 19) (dec 0 0) (dec 62450045135165054 37) (dec (-83266726846886731) 39);
  q4 (dec (-64999999999997707) 19) (dec 0 0) (dec 0 0) (dec 0 0);
  q4 (dec (-64999999999997707) 19) (dec 0 0) (dec 0 0) (dec 0 0);
  q4 (dec (-64999999999997707) 19) (dec 0 0) (dec 0 0) (dec 0 0);
  q4 (dec (-64999999999997707) 19) (dec 0 0) (dec (-62450045135165054) 37) (dec 83266726846886731 39);
  q4 (dec (-64999999999997759) 19) (dec 0 0) (dec 62450045135165054 37) (dec (-83266726846886731) 39);
  q4 (dec (-64999999999997707) 19) (dec 0 0) (dec 0 0) (dec 0 0);
  q4 (dec (-64999999999997707) 19) (dec 0 0) (dec 0 0) (dec 0 0);
  q4 (dec (-64999999999997707) 19) (dec 0 0) (dec 0 0) (dec 0 0);
  q4 (dec (-64999999999997707) 19) (dec 0 0) (dec (-62450045135165054) 37) (dec 83266726846886731 39);
  q4 (dec (-64999999999997759) 19) (dec 0 0) (dec 62450045135165054 37) (dec (-83266726846886731) 39);
  q4 (dec (-64999999999997707) 19) (dec 0 0) (dec 0 0) (dec 0 0);
  q4 (dec (-64999999999997707) 19) (dec 0 0) (dec 0 0) (dec 0 0);
  q4 (dec (-64999999999997707) 19) (dec 0 0) (dec 0 0) (dec 0 0);
  q4 (dec (-64999999999997707) 19) (dec 0 0) (dec (-62450045135165054) 37) (dec 83266726846886731 39);
  q4 (dec (-64999999999997759) 19) (dec 0 0) (dec 62450045135165054 37) (dec (-83266726846886731) 39);
  q4 (dec (-64999999999997707) 19) (dec 0 0) (dec 0 0) (dec 0 0);
  q4 (dec (-64999999999997707) 19) (dec 0 0) (dec 0 0) (dec 0 0);
  q4 (dec (-64999999999997707) 19) (dec 0 0) (dec 0 0) (dec 0 0);
  q4 (dec (-64999999999997707) 19) (dec 0 0) (dec (-62450045135165054) 37) (dec 83266726846886731 39);
  q4 (dec (-64999999999997759) 19) (dec 0 0) (dec 62450045135165054 37) (dec (-83266726846886731) 39);
  q4 (dec (-64999999999997707) 19) (dec 0 0) (dec 0 0) (dec 0 0);
  q4 (dec (-64999999999997707) 19) (dec 0 0) (dec 0 0) (dec 0 0);
  q4 (dec (-64999999999997707) 19) (dec 0 0) (dec 0 0) (dec 0 0);
  q4 (dec (-64999999999997707) 19) (dec 0 0) (dec (-62450045135165054) 37) (dec 83266726846886731 39);
  q4 (dec (-64999999999997759) 19) (dec 0 0) (dec 62450045135165054 37) (dec (-83266726846886731) 39);
  q4 (dec (-64999999999997707) 19) (dec 0 0) (dec 0 0) (dec 0 0);
  q4 (dec (-64999999999997707) 19) (dec 0 0) (dec 0 0) (dec 0 0);
  q4 (dec (-64999999999997707) 19) (dec 0 0) (dec 0 0) (dec 0 0);
  q4 (dec (-64999999999997707) 19) (dec 0 0) (dec (-62450045135165054) 37) (dec 83266726846886731 39);
  q4 (dec (-64999999999997759) 19) (dec 0 0) (dec 62450045135165054 37) (dec (-83266726846886731) 39);
  q4 (dec (-64999999999997707) 19) (dec 0 0) (dec 0 0) (dec 0 0);
  q4 (dec (-64999999999997707) 19) (dec 0 0) (dec 0 0) (dec 0 0);
  q4 (dec (-64999999999997707) 19) (dec 0 0) (dec 0 0) (dec 0 0);
  q4 (dec (-64999999999997707) 19) (dec 0 0) (dec (-62450045135165054) 37) (dec 83266726846886731 39);
  q4 (dec (-64999999999997759) 19) (dec 0 0) (dec 62450045135165054 37) (dec (-83266726846886731) 39);
  q4 (dec (-64999999999997707) 19) (dec 0 0) (dec 0 0) (dec 0 0);
  q4 (dec (-64999999999997707) 19) (dec 0 0) (dec 0 0) (dec 0 0);
  q4 (dec (-64999999999997707) 19) (dec 0 0) (dec 0 0) (dec 0 0);
  q4 (dec (-64999999999997707) 19) (dec 0 0) (dec (-62450045135165054) 37) (dec 83266726846886731 39);
  q4 (dec (-64999999999997759) 19) (dec 0 0) (dec 62450045135165054 37) (dec (-83266726846886731) 39);
  q4 (dec (-64999999999997707) 19) (dec 0 0) (dec 0 0) (dec 0 0);
  q4 (dec (-64999999999997707) 19) (dec 0 0) (dec 0 0) (dec 0 0);
  q4 (dec (-64999999999997707) 19) (dec 0 0) (dec 0 0) (dec 0 0);
  q4 (dec (-64999999999997707) 19) (dec 0 0) (dec (-62450045135165054) 37) (dec 83266726846886731 39);
  q4 (dec (-64999999999997759) 19) (dec 0 0) (dec 62450045135165054 37) (dec (-83266726846886731) 39);
  q4 (dec (-64999999999997707) 19) (dec 0 0) (dec 0 0) (dec 0 0);
  q4 (dec (-64999999999997707) 19) (dec 0 0) (dec 0 0) (dec 0 0);
  q4 (dec (-64999999999997707) 19) (dec 0 0) (dec 0 0) (dec 0 0);
  q4 (dec (-64999999999997707) 19) (dec 0 0) (dec (-62450045135165054) 37) (dec 83266726846886731 39);
  q4 (dec (-64999999999997759) 19) (dec 0 0) (dec 62450045135165054 37) (dec (-83266726846886731) 39);
  q4 (dec (-64999999999997707) 19) (dec 0 0) (dec 0 0) (dec 0 0);
  q4 (dec (-64999999999997707) 19) (dec 0 0) (dec 0 0) (dec 0 0);
  q4 (dec (-64999999999997707) 19) (dec 0 0) (dec 0 0) (dec 0 0);
  q4 (dec (-64999999999997707) 19) (dec 0 0) (dec (-62450045135165054) 37) (dec 83266726846886731 39);
  q4 (dec (-64999999999997759) 19) (dec 0 0) (dec 62450045135165054 37) (dec (-83266726846886731) 39);
  q4 (dec (-64999999999997707) 19) (dec 0 0) (dec 0 0) (dec 0 0);
  q4 (dec (-64999999999997707) 19) (dec 0 0) (dec 0 0) (dec 0 0);
  q4 (dec (-64999999999997707) 19) (dec 0 0) (dec 0 0) (dec 0 0);
  q4 (dec (-64999999999997707) 19) (dec 0 0) (dec (-62450045135165054) 37) (dec 83266726846886731 39);
  q4 (dec (-64999999999997759) 19) (dec 0 0) (dec 62450045135165054 37) (dec (-83266726846886731) 39);
  q4 (dec (-64999999999997707) 19) (dec 0 0) (dec 0 0) (dec 0 0);
  q4 (dec (-64999999999997707) 19) (dec 0 0) (dec 0 0) (dec 0 0);
  q4 (dec (-64999999999997707) 19) (dec 0 0) (dec 0 0) (dec 0 0);
  q4 (dec (-64999999999997707) 19) (dec 0 0) (dec (-62450045135165054) 37) (dec 83266726846886731 39);
  q4 (dec (-64999999999997759) 19) (dec 0 0) (dec 62450045135165054 37) (dec (-83266726846886731) 39);
  q4 (dec (-64999999999997707) 19) (dec 0 0) (dec 0 0) (dec 0 0);
  q4 (dec (-64999999999997707) 19) (dec 0 0) (dec 0 0) (dec 0 0);
  q4 (dec (-64999999999997707) 19) (dec 0 0) (dec 0 0) (dec 0 0);
  q4 (dec (-64999999999997707) 19) (dec 0 0) (dec (-62450045135165054) 37) (dec 83266726846886731 39);
  q4 (dec (-64999999999997759) 19) (dec 0 0) (dec 62450045135165054 37) (dec (-83266726846886731) 39);
  q4 (dec (-64999999999997707) 19) (dec 0 0) (dec 0 0) (dec 0 0);
  q4 (dec (-64999999999997707) 19) (dec 0 0) (dec 0 0) (dec 0 0);
  q4 (dec (-64999999999997707) 19) (dec 0 0) (dec 0 0) (dec 0 0);
  q4 (dec (-64999999999997707) 19) (dec 0 0) (dec (-62450045135165054) 37) (dec 83266726846886731 39);
  q4 (dec (-64999999999997759) 19) (dec 0 0) (dec 62450045135165054 37) (dec (-83266726846886731) 39);
  q4 (dec (-64999999999997707) 19) (dec 0 0) (dec 0 0) (dec 0 0);
  q4 (dec (-64999999999997707) 19) (dec 0 0) (dec 0 0) (dec 0 0);
  q4 (dec (-64999999999997707) 19) (dec 0 0) (dec 0 0) (dec 0 0);
  q4 (dec (-64999999999997707) 19) (dec 0 0) (dec (-62450045135165054) 37) (dec 83266726846886731 39);
  q4 (dec (-64999999999997759) 19) (dec 0 0) (dec 62450045135165054 37) (dec (-83266726846886731) 39);
  q4 (dec (-64999999999997707) 19) (dec 0 0) (dec 0 0) (dec 0 0);
  q4 (dec (-64999999999997707) 19) (dec 0 0) (dec 0 0) (dec 0 0);
  q4 (dec (-64999999999997707) 19) (dec 0 0) (dec 0 0) (dec 0 0);
  q4 (dec (-64999999999997707) 19) (dec 0 0) (dec (-62450045135165054) 37) (dec 83266726846886731 39);
  q4 (dec (-64999999999997759) 19) (dec 0 0) (dec 62450045135165054 37) (dec (-83266726846886731) 39);
  q4 (dec (-64999999999997707) 19) (dec 0 0) (dec 0 0) (dec 0 0);
  q4 (dec (-64999999999997707) 19) (dec 0 0) (dec 0 0) (dec 0 0);
  q4 (dec (-64999999999997707) 19) (dec 0 0) (dec 0 0) (dec 0 0);
  q4 (dec (-64999999999997707) 19) (dec 0 0) (dec (-62450045135165054) 37) (dec 83266726846886731 39);
  q4 (dec (-64999999999997759) 19) (dec 0 0) (dec 62450045135165054 37) (dec (-83266726846886731) 39);
  q4 (dec (-64999999999997707) 19) (dec 0 0) (dec 0 0) (dec 0 0);
  q4 (dec (-64999999999997707) 19) (dec 0 0) (dec 0 0) (dec 0 0);
  q4 (dec (-64999999999997707) 19) (dec 0 0) (dec 0 0) (dec 0 0);
  q4 (dec (-64999999999997707) 19) (dec 0 0) (dec (-62450045135165054) 37) (dec 83266726846886731 39);
  q4 (dec (-64999999999997759) 19) (dec 0 0) (dec 62450045135165054 37) (dec (-83266726846886731) 39);
  q4 (dec (-64999999999997707) 19) (dec 0 0) (dec 0 0) (dec 0 0);
  q4 (dec (-64999999999997707) 19) (dec 0 0) (dec 0 0) (dec 0 0);
  q4 (dec (-64999999999997707) 19) (dec 0 0) (dec 0 0) (dec 0 0);
  q4 (dec (-64999999999997707) 19) (dec 0 0) (dec (-62450045135165054) 37) (dec 83266726846886731 39);
  q4 (dec (-64999999999997759) 19) (dec 0 0) (dec 62450045135165054 37) (dec (-83266726846886731) 39);
  q4 (dec (-64999999999997707) 19) (dec 0 0) (dec 0 0) (dec 0 0);
  q4 (dec (-64999999999997707) 19) (dec 0 0) (dec 0 0) (dec 0 0);
  q4 (dec (-64999999999997707) 19) (dec 0 0) (dec 0 0) (dec 0 0);
  q4 (dec (-64999999999997707) 19) (dec 0 0) (dec (-62450045135165054) 37) (dec 83266726846886731 39);
  q4 (dec (-64999999999997759) 19) (dec 0 0) (dec 62450045135165054 37) (dec (-83266726846886731) 39);
  q4 (dec (-64999999999997707) 19) (dec 0 0) (dec 0 0) (dec 0 0);
  q4 (dec (-64999999999997707) 19) (dec 0 0) (dec 0 0) (dec 0 0);
  q4 (dec (-64999999999997707) 19) (dec 0 0) (dec 0 0) (dec 0 0);
  q4 (dec (-64999999999997707) 19) (dec 0 0) (dec (-62450045135165054) 37) (dec 83266726846886731 39);
  q4 (dec (-64999999999997759) 19) (dec 0 0) (dec 62450045135165054 37) (dec (-83266726846886731) 39);
  q4 (dec (-64999999999997707) 19) (dec 0 0) (dec 0 0) (dec 0 0);
  q4 (dec (-64999999999997707) 19) (dec 0 0) (dec 0 0) (dec 0 0);
  q4 (dec (-64999999999997707) 19) (dec 0 0) (dec 0 0) (dec 0 0);
  q4 (dec (-64999999999997707) 19) (dec 0 0) (dec (-62450045135165054) 37) (dec 83266726846886731 39);
  q4 (dec (-64999999999997759) 19) (dec 0 0) (dec 62450045135165054 37) (dec (-83266726846886731) 39);
  q4 (dec (-64999999999997707) 19) (dec 0 0) (dec 0 0) (dec 0 0);
  q4 (dec (-64999999999997707) 19) (dec 0 0) (dec 0 0) (dec 0 0);
  q4 (dec (-64999999999997707) 19) (dec 0 0) (dec 0 0) (dec 0 0);
  q4 (dec (-64999999999997707) 19) (dec 0 0) (dec (-62450045135165054) 37) (dec 83266726846886731 39);
  q4 (dec (-64999999999997759) 19) (dec 0 0) (dec 62450045135165054 37) (dec (-83266726846886731) 39);
  q4 (dec (-64999999999997707) 19) (dec 0 0) (dec 0 0) (dec 0 0);
  q4 (dec (-64999999999997707) 19) (dec 0 0) (dec 0 0) (dec 0 0);
  q4 (dec (-64999999999997707) 19) (dec 0 0) (dec 0 0) (dec 0 0);
  q4 (dec (-64999999999997707) 19) (dec 0 0) (dec (-62450045135165054) 37) (dec 83266726846886731 39);
  q4 (dec (-64999999999997759) 19) (dec 0 0) (dec 62450045135165054 37) (dec (-83266726846886731) 39);
  q4 (dec (-64999999999997707) 19) (dec 0 0) (dec 0 0) (dec 0 0);
  q4 (dec (-64999999999997707) 19) (dec 0 0) (dec 0 0) (dec 0 0);
  q4 (dec (-64999999999997707) 19) (dec 0 0) (dec 0 0) (dec 0 0);
  q4 (dec (-64999999999997707) 19) (dec 0 0) (dec (-62450045135165054) 37) (dec 83266726846886731 39);
  q4 (dec (-64999999999997759) 19) (dec 0 0) (dec 62450045135165054 37) (dec (-83266726846886731) 39);
  q4 (dec (-64999999999997707) 19) (dec 0 0) (dec 0 0) (dec 0 0);
  q4 (dec (-64999999999997707) 19) (dec 0 0) (dec 0 0) (dec 0 0);
  q4 (dec (-64999999999997707) 19) (dec 0 0) (dec 0 0) (dec 0 0);
  q4 (dec (-64999999999997707) 19) (dec 0 0) (dec (-62450045135165054) 37) (dec 83266726846886731 39);
  q4 (dec (-64999999999997759) 19) (dec 0 0) (dec 62450045135165054 37) (dec (-83266726846886731) 39);
  q4 (dec (-64999999999997707) 19) (dec 0 0) (dec 0 0) (dec 0 0);
  q4 (dec (-64999999999997707) 19) (dec 0 0) (dec 0 0) (dec 0 0);
  q4 (dec (-64999999999997707) 19) (dec 0 0) (dec 0 0) (dec 0 0);
  q4 (dec (-64999999999997707) 19) (dec 0 0) (dec (-62450045135165054) 37) (dec 83266726846886731 39);
  q4 (dec (-64999999999997759) 19) (dec 0 0) (dec 62450045135165054 37) (dec (-83266726846886731) 39);
  q4 (dec (-64999999999997707) 19) (dec 0 0) (dec 0 0) (dec 0 0);
  q4 (dec (-64999999999997707) 19) (dec 0 0) (dec 0 0) (dec 0 0);
  q4 (dec (-64999999999997707) 19) (dec 0 0) (dec 0 0) (dec 0 0);
  q4 (dec (-64999999999997707) 19) (dec 0 0) (dec (-62450045135165054) 37) (dec 83266726846886731 39);
  q4 (dec (-64999999999997759) 19) (dec 0 0) (dec 62450045135165054 37) (dec (-83266726846886731) 39);
  q4 (dec (-64999999999997707) 19) (dec 0 0) (dec 0 0) (dec 0 0);
  q4 (dec (-64999999999997707) 19) (dec 0 0) (dec 0 0) (dec 0 0);
  q4 (dec (-64999999999997707) 19) (dec 0 0) (dec 0 0) (dec 0 0);
  q4 (dec (-64999999999997707) 19) (dec 0 0) (dec (-62450045135165054) 37) (dec 83266726846886731 39);
  q4 (dec (-64999999999997759) 19) (dec 0 0) (dec 62450045135165054 37) (dec (-83266726846886731) 39);
  q4 (dec (-64999999999997707) 19) (dec 0 0) (dec 0 0) (dec 0 0);
  q4 (dec (-64999999999997707) 19) (dec 0 0) (dec 0 0) (dec 0 0);
  q4 (dec (-64999999999997707) 19) (dec 0 0) (dec 0 0) (dec 0 0);
  q4 (dec (-64999999999997707) 19) (dec 0 0) (dec (-57245874707234626) 37) (dec 72858385991025894 39);
  q4 (dec (-64999999999997759) 19) (dec (-26020852139652108) 36) (dec 73954000817958616 37) (dec (-95866297356613018) 39);
  q4 (dec (-64999999999997707) 19) (dec (-54780741346635922) 37) (dec (-26272396360121357) 37) (dec 26980446758479241 39);
  q4 (dec (-64999999999997742) 19) (dec (-65848687047282877) 36) (dec 70942276662999173 37) (dec (-94728396795363518) 39);
  q4 (dec (-64999999999997716) 19) (dec (-66888896382517495) 36) (dec (-28513416668238157) 35) (dec 34396039039112544 37);
  q4 (dec (-65000000000000578) 19) (dec (-27832762852862745) 34) (dec 56706359791311586 36) (dec (-26963019221421306) 53);
  q4 (dec (-65000000000000552) 19) (dec 28873596938448823 34) (dec 2196638251575682 34) (dec (-33000187558233751) 37);
  q4 (dec (-64999999999997742) 19) (dec 10360154092639264 35) (dec (-15491711287512283) 37) (dec 10359487916189192 39);
  q4 (dec (-64999999999997716) 19) (dec 26380587422688769 36) (dec (-32975734278360772) 39) (dec (-98927202835082935) 40);
  q4 (dec (-64999999999997716) 19) (dec (-511123881314595) 34) (dec (-28550390738204926) 35) (dec 34406881146041837 37);
  q4 (dec (-65000000000000578) 19) (dec (-279634226680501) 32) (dec 57228999052060996 36) (dec (-52263926074944353) 40);
  q4 (dec (-65000000000000552) 19) (dec 28873596938448823 34) (dec 2196638251575682 34) (dec (-33000187558233751) 37);
  q4 (dec (-64999999999997742) 19) (dec 10360154092639264 35) (dec (-15491711287512283) 37) (dec 10359487916189192 39);
  q4 (dec (-64999999999997716) 19) (dec 26380587422688769 36) (dec (-32975734278360772) 39) (dec (-98927202835082935) 40);
  q4 (dec (-64999999999997716) 19) (dec (-511123881314595) 34) (dec (-28550390738204926) 35) (dec 34406881146041837 37);
  q4 (dec (-65000000000000578) 19) (dec (-279634226680501) 32) (dec 57228999052060996 36) (dec (-52263926074944353) 40);
  q4 (dec (-65000000000000552) 19) (dec 28873596938448823 34) (dec 2196638251575682 34) (dec (-33000187558233751) 37);
  q4 (dec (-64999999999997742) 19) (dec 10360154092639264 35) (dec (-15491711287512283) 37) (dec 10359487916189192 39);
  q4 (dec (-64999999999997716) 19) (dec 26380587422688769 36) (dec (-32975734278360772) 39) (dec (-98927202835082935) 40);
  q4 (dec (-64999999999997716) 19) (dec (-511123881314595) 34) (dec (-28550390738204926) 35) (dec 34406881146041837 37);
  q4 (dec (-65000000000000578) 19) (dec (-279634226680501) 32) (dec 57228999052060996 36) (dec (-52263926074944353) 40);
  q4 (dec (-65000000000000552) 19) (dec 28873596938448823 34) (dec 2196638251575682 34) (dec (-33000187558233751) 37);
  q4 (dec (-64999999999997742) 19) (dec 10360154092639264 35) (dec (-15491711287512283) 37) (dec 10359487916189192 39);
  q4 (dec (-64999999999997716) 19) (dec 26380587422688769 36) (dec (-32975734278360772) 39) (dec (-98927202835082935) 40);
  q4 (dec (-64999999999997716) 19) (dec (-511123881314595) 34) (dec (-28550390738204926) 35) (dec 34406881146041837 37);
  q4 (dec (-65000000000000578) 19) (dec (-279634226680501) 32) (dec 57228999052060996 36) (dec (-52263926074944353) 40);
  q4 (dec (-65000000000000552) 19) (dec 28873596938448823 34) (dec 2196638251575682 34) (dec (-33000187558233751) 37);
  q4 (dec (-64999999999997742) 19) (dec 10360154092639264 35) (dec (-15491711287512283) 37) (dec 10359487916189192 39);
  q4 (dec (-64999999999997716) 19) (dec 26380587422688769 36) (dec (-32975734278360772) 39) (dec (-98927202835082935) 40);
  q4 (dec (-64999999999997716) 19) (dec (-511123881314595) 34) (dec (-28550390738204926) 35) (dec 34406881146041837 37);
  q4 (dec (-65000000000000578) 19) (dec (-279634226680501) 32) (dec 57228999052060996 36) (dec (-52263926074944353) 40);
  q4 (dec (-65000000000000552) 19) (dec 28873596938448823 34) (dec 2196638251575682 34) (dec (-33000187558233751) 37);
  q4 (dec (-64999999999997742) 19) (dec 10360154092639264 35) (dec (-15491711287512283) 37) (dec 10359487916189192 39);
  q4 (dec (-64999999999997716) 19) (dec 26380587422688769 36) (dec (-32975734278360772) 39) (dec (-98927202835082935) 40);
  q4 (dec (-64999999999997716) 19) (dec (-511123881314595) 34) (dec (-28550390738204926) 35) (dec 34406881146041837 37);
  q4 (dec (-65000000000000578) 19) (dec (-279634226680501) 32) (dec 57228999052060996 36) (dec (-52263926074944353) 40);
  q4 (dec (-65000000000000552) 19) (dec 28873596938448823 34) (dec 2196638251575682 34) (dec (-33000187558233751) 37);
  q4 (dec (-64999999999997742) 19) (dec 10360154092639264 35) (dec (-15491711287512283) 37) (dec 10359487916189192 39);
  q4 (dec (-64999999999997716) 19) (dec 26380587422688769 36) (dec (-32975734278360772) 39) (dec (-98927202835082935) 40);
  q4 (dec (-64999999999997716) 19) (dec (-511123881314595) 34) (dec (-28550390738204926) 35) (dec 34406881146041837 37);
  q4 (dec (-65000000000000578) 19) (dec (-279634226680501) 32) (dec 57228999052060996 36) (dec (-52263926074944353) 40);
  q4 (dec (-65000000000000552) 19) (dec 28873596938448823 34) (dec 2196638251575682 34) (dec (-33000187558233751) 37);
  q4 (dec (-64999999999997742) 19) (dec 10360154092639264 35) (dec (-15491711287512283) 37) (dec 10359487916189192 39);
  q4 (dec (-64999999999997716) 19) (dec 26380587422688769 36) (dec (-32975734278360772) 39) (dec (-98927202835082935) 40);
  q4 (dec (-64999999999997716) 19) (dec (-511123881314595) 34) (dec (-28550390738204926) 35) (dec 34406881146041837 37);
  q4 (dec (-65000000000000578) 19) (dec (-279634226680501) 32) (dec 57228999052060996 36) (dec (-52263926074944353) 40);
  q4 (dec (-65000000000000552) 19) (dec 28873596938448823 34) (dec 2196638251575682 34) (dec (-33000187558233751) 37);
  q4 (dec (-64999999999997742) 19) (dec 10360154092639264 35) (dec (-15491711287512283) 37) (dec 10359487916189192 39);
  q4 (dec (-64999999999997716) 19) (dec 26380587422688769 36) (dec (-32975734278360772) 39) (dec (-98927202835082935) 40);
  q4 (dec (-64999999999997716) 19) (dec (-511123881314595) 34) (dec (-28550390738204926) 35) (dec 34406881146041837 37);
  q4 (dec (-65000000000000578) 19) (dec (-279634226680501) 32) (dec 57228999052060996 36) (dec (-52263926074944353) 40);
  q4 (dec (-65000000000000552) 19) (dec 28873596938448823 34) (dec 2196638251575682 34) (dec (-33000187558233751) 37);
  q4 (dec (-64999999999997742) 19) (dec 10360154092639264 35) (dec (-15491711287512283) 37) (dec 10359487916189192 39);
  q4 (dec (-64999999999997716) 19) (dec 26380587422688769 36) (dec (-32975734278360772) 39) (dec (-98927202835082935) 40);
  q4 (dec (-64999999999997716) 19) (dec (-511123881314595) 34) (dec (-28550390738204926) 35) (dec 34406881146041837 37);
  q4 (dec (-65000000000000578) 19) (dec (-279634226680501) 32) (dec 57228999052060996 36) (dec (-52263926074944353) 40);
  q4 (dec (-65000000000000552) 19) (dec 28873596938448823 34) (dec 2196638251575682 34) (dec (-33000187558233751) 37);
  q4 (dec (-64999999999997742) 19) (dec 10360154092639264 35) (dec (-15491711287512283) 37) (dec 10359487916189192 39);
  q4 (dec (-64999999999997716) 19) (dec 26380587422688769 36) (dec (-32975734278360772) 39) (dec (-98927202835082935) 40);
  q4 (dec (-64999999999997716) 19) (dec (-511123881314595) 34) (dec (-28550390738204926) 35) (dec 34406881146041837 37);
  q4 (dec (-65000000000000578) 19) (dec (-279634226680501) 32) (dec 57228999052060996 36) (dec (-52263926074944353) 40);
  q4 (dec (-65000000000000552) 19) (dec 28873596938448823 34) (dec 2196638251575682 34) (dec (-33000187558233751) 37);
  q4 (dec (-64999999999997742) 19) (dec 10360154092639264 35) (dec (-15491711287512283) 37) (dec 10359487916189192 39);
  q4 (dec (-64999999999997716) 19) (dec 26380587422688769 36) (dec (-32975734278360772) 39) (dec (-98927202835082935) 40);
  q4 (dec (-64999999999997716) 19) (dec (-511123881314595) 34) (dec (-28550390738204926) 35) (dec 34406881146041837 37);
  q4 (dec (-65000000000000578) 19) (dec (-279634226680501) 32) (dec 57228999052060996 36) (dec (-52263926074944353) 40);
  q4 (dec (-65000000000000552) 19) (dec 28873596938448823 34) (dec 2196638251575682 34) (dec (-33000187558233751) 37);
  q4 (dec (-64999999999997742) 19) (dec 10360154092639264 35) (dec (-15491711287512283) 37) (dec 10359487916189192 39);
  q4 (dec (-64999999999997716) 19) (dec 26380587422688769 36) (dec (-32975734278360772) 39) (dec (-98927202835082935) 40);
  q4 (dec (-64999999999997716) 19) (dec (-511123881314595) 34) (dec (-28550390738204926) 35) (dec 34406881146041837 37);
  q4 (dec (-65000000000000578) 19) (dec (-279634226680501) 32) (dec 57228999052060996 36) (dec (-52263926074944353) 40);
  q4 (dec (-65000000000000552) 19) (dec 28873596938448823 34) (dec 2196638251575682 34) (dec (-33000187558233751) 37);
  q4 (dec (-64999999999997742) 19) (dec 10360154092639264 35) (dec (-15491711287512283) 37) (dec 10359487916189192 39);
  q4 (dec (-64999999999997716) 19) (dec 26380587422688769 36) (dec (-32975734278360772) 39) (dec (-98927202835082935) 40);
  q4 (dec (-64999999999997716) 19) (dec (-511123881314595) 34) (dec (-28550390738204926) 35) (dec 34406881146041837 37);
  q4 (dec (-65000000000000578) 19) (dec (-279634226680501) 32) (dec 57228999052060996 36) (dec (-52263926074944353) 40);
  q4 (dec (-65000000000000552) 19) (dec 28873596938448823 34) (dec 2196638251575682 34) (dec (-33000187558233751) 37);
  q4 (dec (-64999999999997742) 19) (dec 10360154092639264 35) (dec (-15491711287512283) 37) (dec 10359487916189192 39);
  q4 (dec (-64999999999997716) 19) (dec 26380587422688769 36) (dec (-32975734278360772) 39) (dec (-98927202835082935) 40);
  q4 (dec (-64999999999997716) 19) (dec (-511123881314595) 34) (dec (-28550390738204926) 35) (dec 34406881146041837 37);
  q4 (dec (-65000000000000578) 19) (dec (-279634226680501) 32) (dec 57228999052060996 36) (dec (-52263926074944353) 40);
  q4 (dec (-65000000000000552) 19) (dec 28873596938448823 34) (dec 2196638251575682 34) (dec (-33000187558233751) 37);
  q4 (dec (-64999999999997742) 19) (dec 10360154092639264 35) (dec (-15491711287512283) 37) (dec 10359487916189192 39);
  q4 (dec (-64999999999997716) 19) (dec 26380587422688769 36) (dec (-32975734278360772) 39) (dec (-98927202835082935) 40);
  q4 (dec (-64999999999997716) 19) (dec (-511123881314595) 34) (dec (-28550390738204926) 35) (dec 34406881146041837 37);
  q4 (dec (-65000000000000578) 19) (dec (-279634226680501) 32) (dec 57228999052060996 36) (dec (-52263926074944353) 40);
  q4 (dec (-65000000000000552) 19) (dec 28873596938448823 34) (dec 2196638251575682 34) (dec (-33000187558233751) 37);
  q4 (dec (-64999999999997742) 19) (dec 10360154092639264 35) (dec (-15491711287512283) 37) (dec 10359487916189192 39);
  q4 (dec (-64999999999997716) 19) (dec 26380587422688769 36) (dec (-32975734278360772) 39) (dec (-98927202835082935) 40);
  q4 (dec (-64999999999997716) 19) (dec (-511123881314595) 34) (dec (-28550390738204926) 35) (dec 34406881146041837 37);
  q4 (dec (-65000000000000578) 19) (dec (-279634226680501) 32) (dec 57228999052060996 36) (dec (-52263926074944353) 40);
  q4 (dec (-65000000000000552) 19) (dec 28873596938448823 34) (dec 2196638251575682 34) (dec (-33000187558233751) 37);
  q4 (dec (-64999999999997742) 19) (dec 10360154092639264 35) (dec (-15491711287512283) 37) (dec 10359487916189192 39);
  q4 (dec (-64999999999997716) 19) (dec 26380587422688769 36) (dec (-32975734278360772) 39) (dec (-98927202835082935) 40);
  q4 (dec (-64999999999997716) 19) (dec (-511123881314595) 34) (dec (-28550390738204926) 35) (dec 34406881146041837 37);
  q4 (dec (-65000000000000578) 19) (dec (-279634226680501) 32) (dec 57228999052060996 36) (dec (-52263926074944353) 40);
  q4 (dec (-65000000000000552) 19) (dec 28873596938448823 34) (dec 2196638251575682 34) (dec (-33000187558233751) 37);
  q4 (dec (-64999999999997742) 19) (dec 10360154092639264 35) (dec (-15491711287512283) 37) (dec 10359487916189192 39);
  q4 (dec (-64999999999997716) 19) (dec 26380587422688769 36) (dec (-32975734278360772) 39) (dec (-98927202835082935) 40);
  q4 (dec (-64999999999997716) 19) (dec (-511123881314595) 34) (dec (-28550390738204926) 35) (dec 34406881146041837 37);
  q4 (dec (-65000000000000578) 19) (dec (-279634226680501) 32) (dec 57228999052060996 36) (dec (-52263926074944353) 40);
  q4 (dec (-65000000000000552) 19) (dec 28873596938448823 34) (dec 2196638251575682 34) (dec (-33000187558233751) 37);
  q4 (dec (-64999999999997742) 19) (dec 10360154092639264 35) (dec (-15491711287512283) 37) (dec 10359487916189192 39);
  q4 (dec (-64999999999997716) 19) (dec 26380587422688769 36) (dec (-32975734278360772) 39) (dec (-98927202835082935) 40);
  q4 (dec (-64999999999997716) 19) (dec (-511123881314595) 34) (dec (-28550390738204926) 35) (dec 34406881146041837 37);
  q4 (dec (-65000000000000578) 19) (dec (-279634226680501) 32) (dec 57228999052060996 36) (dec (-52263926074944353) 40);
  q4 (dec (-65000000000000552) 19) (dec 28873596938448823 34) (dec 2196638251575682 34) (dec (-33000187558233751) 37);
  q4 (dec (-64999999999997742) 19) (dec 10360154092639264 35) (dec (-15491711287512283) 37) (dec 10359487916189192 39);
  q4 (dec (-64999999999997716) 19) (dec 26380587422688769 36) (dec (-32975734278360772) 39) (dec (-98927202835082935) 40);
  q4 (dec (-64999999999997716) 19) (dec (-511123881314595) 34) (dec (-28550390738204926) 35) (dec 34406881146041837 37);
  q4 (dec (-65000000000000578) 19) (dec (-279634226680501) 32) (dec 57228999052060996 36) (dec (-52263926074944353) 40);
  q4 (dec (-65000000000000552) 19) (dec 28873596938448823 34) (dec 2196638251575682 34) (dec (-33000187558233751) 37);
  q4 (dec (-64999999999997742) 19) (dec 10360154092639264 35) (dec (-15491711287512283) 37) (dec 10359487916189192 39);
  q4 (dec (-64999999999997716) 19) (dec 26380587422688769 36) (dec (-32975734278360772) 39) (dec (-98927202835082935) 40);
  q4 (dec (-64999999999997716) 19) (dec (-511123881314595) 34) (dec (-28550390738204926) 35) (dec 34406881146041837 37);
  q4 (dec (-65000000000000578) 19) (dec (-279634226680501) 32) (dec 57228999052060996 36) (dec (-52263926074944353) 40);
  q4 (dec (-65000000000000552) 19) (dec 28873596938448823 34) (dec 2196638251575682 34) (dec (-33000187558233751) 37);
  q4 (dec (-64999999999997742) 19) (dec 10360154092639264 35) (dec (-15491711287512283) 37) (dec 10359487916189192 39);
  q4 (dec (-64999999999997716) 19) (dec 26380587422688769 36) (dec (-32975734278360772) 39) (dec (-98927202835082935) 40);
  q4 (dec (-64999999999997716) 19) (dec (-511123881314595) 34) (dec (-28550390738204926) 35) (dec 34406881146041837 37);
  q4 (dec (-65000000000000578) 19) (dec (-279634226680501) 32) (dec 57228999052060996 36) (dec (-52263926074944353) 40);
  q4 (dec (-65000000000000552) 19) (dec 28873596938448823 34) (dec 2196638251575682 34) (dec (-33000187558233751) 37);
  q4 (dec (-64999999999997742) 19) (dec 10360154092639264 35) (dec (-17204203425742912) 37) (dec 13784472192650457 39);
  q4 (dec (-64999999999997716) 19) (dec 34943048113841923 36) (dec (-1397721924553586) 36) (dec 13977219245534948 39);
  q4 (dec (-64999999999997716) 19) (dec (-45555650607614723) 49) (dec (-68278716014447099) 35) (dec 91038288019262807 37);
  q4 (dec (-65000000000003406) 19) (dec (-57870491117396747) 49) (dec 78000000000004149 22) (dec (-10400000000000555) 23);
  q4 (dec 52041704279304213 34) (dec (-45550406094357202) 49) (dec (-15612511283790353) 37) (dec 10408340855860387 39);
  q4 (dec 0 0) (dec 0 0) (dec 0 0) (dec 0 0);
  q4 (dec 0 0) (dec 0 0) (dec 0 0) (dec 0 0);
  q4 (dec 0 0) (dec 0 0) (dec 0 0) (dec 0 0);
  q4 (dec 0 0) (dec 0 0) (dec 0 0) (dec 0 0);
  q4 (dec 0 0) (dec 0 0) (dec 0 0) (dec 0 0);
  q4 (dec 0 0) (dec 0 0) (dec 0 0) (dec 0 0);
  q4 (dec 0 0) (dec 0 0) (dec 0 0) (dec 0 0);
  q4 (dec 0 0) (dec 0 0) (dec 0 0) (dec 0 0);
  q4 (dec 0 0) (dec 0 0) (dec 0 0) (dec 0 0);
  q4 (dec 0 0) (dec 0 0) (dec 0 0) (dec 0 0);
  q4 (dec 0 0) (dec 0 0) (dec 0 0) (dec 0 0);
  q4 (dec 0 0) (dec 0 0) (dec 0 0) (dec 0 0);
  q4 (dec 0 0) (dec 0 0) (dec 0 0) (dec 0 0);
  q4 (dec 0 0) (dec 0 0) (dec 0 0) (dec 0 0);
  q4 (dec 0 0) (dec 0 0) (dec 0 0) (dec 0 0);
  q4 (dec 0 0) (dec 0 0) (dec 0 0) (dec 0 0);
  q4 (dec 0 0) (dec 0 0) (dec 0 0) (dec 0 0);
  q4 (dec 0 0) (dec 0 0) (dec 0 0) (dec 0 0);
  q4 (dec 0 0) (dec 0 0) (dec 0 0) (dec 0 0);
  q4 (dec 0 0) (dec 0 0) (dec 0 0) (dec 0 0);
  q4 (dec 0 0) (dec 0 0) (dec 0 0) (dec 0 0);
  q4 (dec 0 0) (dec 0 0) (dec 0 0) (dec 0 0);
  q4 (dec 0 0) (dec 0 0) (dec 0 0) (dec 0 0);
  q4 (dec 0 0) (dec 0 0) (dec 0 0) (dec 0 0);
  q4 (dec 0 0) (dec 0 0) (dec 0 0) (dec 0 0);
  q4 (dec 0 0) (dec 0 0) (dec 0 0) (dec 0 0);
  q4 (dec 0 0) (dec 0 0) (dec 0 0) (dec 0 0);
  q4 (dec 0 0) (dec 0 0) (dec 0 0) (dec 0 0);
  q4 (dec 0 0) (dec 0 0) (dec 0 0) (dec 0 0);
  q4 (dec 0 0) (dec 0 0) (dec 0 0) (dec 0 0);
  q4 (dec 0 0) (dec 0 0) (dec 0 0) (dec 0 0);
  q4 (dec 0 0) (dec 0 0) (dec 0 0) (dec 0 0);
  q4 (dec 0 0) (dec 0 0) (dec 0 0) (dec 0 0);
  q4 (dec 0 0) (dec 0 0) (dec 0 0) (dec 0 0);
  q4 (dec 0 0) (dec 0 0) (dec 0 0) (dec 0 0);
  q4 (dec 0 0) (dec 0 0) (dec 0 0) (dec 0 0);
  q4 (dec 0 0) (dec 0 0) (dec 0 0) (dec 0 0);
  q4 (dec 0 0) (dec 0 0) (dec 0 0) (dec 0 0);
  q4 (dec 0 0) (dec 0 0) (dec 0 0) (dec 0 0);
  q4 (dec 0 0) (dec 0 0) (dec 0 0) (dec 0 0);
  q4 (dec 0 0) (dec 0 0) (dec 0 0) (dec 0 0);
  q4 (dec 0 0) (dec 0 0) (dec 0 0) (dec 0 0);
  q4 (dec 0 0) (dec 0 0) (dec 0 0) (dec 0 0);
  q4 (dec 0 0) (dec 0 0) (dec 0 0) (dec 0 0);
  q4 (dec 0 0) (dec 0 0) (dec 0 0) (dec 0 0);
  q4 (dec 0 0) (dec 0 0) (dec 0 0) (dec 0 0);
  q4 (dec 0 0) (dec 0 0) (dec 0 0) (dec 0 0);
  q4 (dec 0 0) (dec 0 0) (dec 0 0) (dec 0 0);
  q4 (dec 0 0) (dec 0 0) (dec 0 0) (dec 0 0);
  q4 (dec 0 0) (dec 0 0) (dec 0 0) (dec 0 0);
  q4 (dec 0 0) (dec 0 0) (dec 0 0) (dec 0 0);
  q4 (dec 0 0) (dec 0 0) (dec 0 0) (dec 0 0);
  q4 (dec 0 0) (dec 0 0) (dec 0 0) (dec 0 0);
  q4 (dec 0 0) (dec 0 0) (dec 0 0) (dec 0 0);
  q4 (dec 0 0) (dec 0 0) (dec 0 0) (dec 0 0);
  q4 (dec 0 0) (dec 0 0) (dec 0 0) (dec 0 0);
  q4 (dec 0 0) (dec 0 0) (dec 0 0) (dec 0 0);
  q4 (dec 0 0) (dec 0 0) (dec 0 0) (dec 0 0);
  q4 (dec 0 0) (dec 0 0) (dec 0 0) (dec 0 0);
  q4 (dec 0 0) (dec 0 0) (dec 0 0) (dec 0 0);
  q4 (dec 0 0) (dec 0 0) (dec 0 0) (dec 0 0);
  q4 (dec 0 0) (dec 0 0) (dec 0 0) (dec 0 0);
  q4 (dec 0 0) (dec 0 0) (dec 0 0) (dec 0 0);
  q4 (dec 0 0) (dec 0 0) (dec 0 0) (dec 0 0);
  q4 (dec 0 0) (dec 0 0) (dec 0 0) (dec 0 0);
  q4 (dec 0 0) (dec 0 0) (dec 0 0) (dec 0 0);
  q4 (dec 0 0) (dec 0 0) (dec 0 0) (dec 0 0);
  q4 (dec 0 0) (dec 0 0) (dec 0 0) (dec 0 0);
  q4 (dec 0 0) (dec 0 0) (dec 0 0) (dec 0 0);
  q4 (dec 0 0) (dec 0 0) (dec 0 0) (dec 0 0);
  q4 (dec 0 0) (dec 0 0) (dec 0 0) (dec 0 0);
  q4 (dec 0 0) (dec 0 0) (dec 0 0) (dec 0 0);
  q4 (dec 0 0) (dec 0 0) (dec 0 0) (dec 0 0);
  q4 (dec 0 0) (dec 0 0) (dec 0 0) (dec 0 0);
  q4 (dec 0 0) (dec 0 0) (dec 0 0) (dec 0 0);
  q4 (dec 0 0) (dec 0 0) (dec 0 0) (dec 0 0);
  q4 (dec 0 0) (dec 0 0) (dec 0 0) (dec 0 0);
  q4 (dec 0 0) (dec 0 0) (dec 0 0) (dec 0 0);
  q4 (dec 0 0) (dec 0 0) (dec 0 0) (dec 0 0);
  q4 (dec 0 0) (dec 0 0) (dec 0 0) (dec 0 0);
  q4 (dec 0 0) (dec 0 0) (dec 0 0) (dec 0 0);
  q4 (dec 0 0) (dec 0 0) (dec 0 0) (dec 0 0);
  q4 (dec 0 0) (dec 0 0) (dec 0 0) (dec 0 0);
  q4 (dec 0 0) (dec 0 0) (dec 0 0) (dec 0 0);
  q4 (dec 0 0) (dec 0 0) (dec 0 0) (dec 0 0);
  q4 (dec 0 0) (dec 0 0) (dec 0 0) (dec 0 0);
  q4 (dec 0 0) (dec 0 0) (dec 0 0) (dec 0 0);
  q4 (dec 0 0) (dec 0 0) (dec 0 0) (dec 0 0);
  q4 (dec 0 0) (dec 0 0) (dec 99999999999994304 24) (dec (-49999999999997139) 26);
  q4 (dec 4999999999999715 19) (dec 49999999999997158 22) (dec 49999999999997199 24) (dec (-49999999999997191) 26);
  q4 (dec 99999999999994321 20) (dec 0 0) (dec 0 0) (dec 0 0);
  q4 (dec 99999999999994321 20) (dec 0 0) (dec 0 0) (dec 0 0);
  q4 (dec 99999999999994321 20) (dec 0 0) (dec 13010426069826052 38) (dec (-86736173798840369) 41);
  q4 (dec 99999999999994364 20) (dec 0 0) (dec (-13010426069826052) 38) (dec 86736173798840369 41);
  q4 (dec 99999999999994321 20) (dec 0 0) (dec 0 0) (dec 0 0);
  q4 (dec 99999999999994321 20) (dec 0 0) (dec 0 0) (dec 0 0);
  q4 (dec 99999999999994321 20) (dec 0 0) (dec 0 0) (dec 0 0);
  q4 (dec 99999999999994321 20) (dec 0 0) (dec 13010426069826052 38) (dec (-86736173798840369) 41);
  q4 (dec 99999999999994364 20) (dec 0 0) (dec (-13010426069826052) 38) (dec 86736173798840369 41);
  q4 (dec 99999999999994321 20) (dec 0 0) (dec 0 0) (dec 0 0);
  q4 (dec 99999999999994321 20) (dec 0 0) (dec 0 0) (dec 0 0);
  q4 (dec 99999999999994321 20) (dec 0 0) (dec 0 0) (dec 0 0);
  q4 (dec 99999999999994321 20) (dec 0 0) (dec 13010426069826052 38) (dec (-86736173798840369) 41);
  q4 (dec 99999999999994364 20) (dec 0 0) (dec (-13010426069826052) 38) (dec 86736173798840369 41);
  q4 (dec 99999999999994321 20) (dec 0 0) (dec 0 0) (dec 0 0);
  q4 (dec 99999999999994321 20) (dec 0 0) (dec 0 0) (dec 0 0);
  q4 (dec 99999999999994321 20) (dec 0 0) (dec 0 0) (dec 0 0);
  q4 (dec 99999999999994321 20) (dec 0 0) (dec 13010426069826052 38) (dec (-86736173798840369) 41);
  q4 (dec 99999999999994364 20) (dec 0 0) (dec (-13010426069826052) 38) (dec 86736173798840369 41);
  q4 (dec 99999999999994321 20) (dec 0 0) (dec 0 0) (dec 0 0);
  q4 (dec 99999999999994321 20) (dec 0 0) (dec 0 0) (dec 0 0);
  q4 (dec 99999999999994321 20) (dec 0 0) (dec 0 0) (dec 0 0);
  q4 (dec 99999999999994321 20) (dec 0 0) (dec 13010426069826052 38) (dec (-86736173798840369) 41);
  q4 (dec 99999999999994364 20) (dec 0 0) (dec (-13010426069826052) 38) (dec 86736173798840369 41);
  q4 (dec 99999999999994321 20) (dec 0 0) (dec 0 0) (dec 0 0);
  q4 (dec 99999999999994321 20) (dec 0 0) (dec 0 0) (dec 0 0);
  q4 (dec 99999999999994321 20) (dec 0 0) (dec 0 0) (dec 0 0);
  q4 (dec 99999999999994321 20) (dec 0 0) (dec 13010426069826052 38) (dec (-86736173798840369) 41);
  q4 (dec 99999999999994364 20) (dec 0 0) (dec (-13010426069826052) 38) (dec 86736173798840369 41);
  q4 (dec 99999999999994321 20) (dec 0 0) (dec 0 0) (dec 0 0);
  q4 (dec 99999999999994321 20) (dec 0 0) (dec 0 0) (dec 0 0);
  q4 (dec 99999999999994321 20) (dec 0 0) (dec 0 0) (dec 0 0);
  q4 (dec 99999999999994321 20) (dec 0 0) (dec 13010426069826052 38) (dec (-86736173798840369) 41);
  q4 (dec 99999999999994364 20) (dec 0 0) (dec (-13010426069826052) 38) (dec 86736173798840369 41);
  q4 (dec 99999999999994321 20) (dec 0 0) (dec 0 0) (dec 0 0);
  q4 (dec 99999999999994321 20) (dec 0 0) (dec 0 0) (dec 0 0);
  q4 (dec 99999999999994321 20) (dec 0 0) (dec 0 0) (dec 0 0);
  q4 (dec 99999999999994321 20) (dec 0 0) (dec 13010426069826052 38) (dec (-86736173798840369) 41);
  q4 (dec 99999999999994364 20) (dec 0 0) (dec (-13010426069826052) 38) (dec 86736173798840369 41);
  q4 (dec 99999999999994321 20) (dec 0 0) (dec 0 0) (dec 0 0);
  q4 (dec 99999999999994321 20) (dec 0 0) (dec 0 0) (dec 0 0);
  q4 (dec 99999999999994321 20) (dec 0 0) (dec 0 0) (dec 0 0);
  q4 (dec 99999999999994321 20) (dec 0 0) (dec 13010426069826052 38) (dec (-86736173798840369) 41);
  q4 (dec 99999999999994364 20) (dec 0 0) (dec (-13010426069826052) 38) (dec 86736173798840369 41);
  q4 (dec 99999999999994321 20) (dec 0 0) (dec 0 0) (dec 0 0);
  q4 (dec 99999999999994321 20) (dec 0 0) (dec 0 0) (dec 0 0);
  q4 (dec 99999999999994321 20) (dec 0 0) (dec 0 0) (dec 0 0);
  q4 (dec 99999999999994321 20) (dec 0 0) (dec 13010426069826052 38) (dec (-86736173798840369) 41);
  q4 (dec 99999999999994364 20) (dec 0 0) (dec (-13010426069826052) 38) (dec 86736173798840369 41);
  q4 (dec 99999999999994321 20) (dec 0 0) (dec 0 0) (dec 0 0);
  q4 (dec 99999999999994321 20) (dec 0 0) (dec 0 0) (dec 0 0);
  q4 (dec 99999999999994321 20) (dec 0 0) (dec 0 0) (dec 0 0);
  q4 (dec 99999999999994321 20) (dec 0 0) (dec 13010426069826052 38) (dec (-86736173798840369) 41);
  q4 (dec 99999999999994364 20) (dec 0 0) (dec (-13010426069826052) 38) (dec 86736173798840369 41);
  q4 (dec 99999999999994321 20) (dec 0 0) (dec 0 0) (dec 0 0);
  q4 (dec 99999999999994321 20) (dec 0 0) (dec 0 0) (dec 0 0);
  q4 (dec 99999999999994321 20) (dec 0 0) (dec 0 0) (dec 0 0);
  q4 (dec 99999999999994321 20) (dec 0 0) (dec 13010426069826052 38) (dec (-86736173798840369) 41);
  q4 (dec 99999999999994364 20) (dec 0 0) (dec (-13010426069826052) 38) (dec 86736173798840369 41);
  q4 (dec 99999999999994321 20) (dec 0 0) (dec 0 0) (dec 0 0);
  q4 (dec 99999999999994321 20) (dec 0 0) (dec 0 0) (dec 0 0);
  q4 (dec 99999999999994321 20) (dec 0 0) (dec 0 0) (dec 0 0);
  q4 (dec 99999999999994321 20) (dec 0 0) (dec 13010426069826052 38) (dec (-86736173798840369) 41);
  q4 (dec 99999999999994364 20) (dec 0 0) (dec (-13010426069826052) 38) (dec 86736173798840369 41);
  q4 (dec 99999999999994321 20) (dec 0 0) (dec 0 0) (dec 0 0);
  q4 (dec 99999999999994321 20) (dec 0 0) (dec 0 0) (dec 0 0);
  q4 (dec 99999999999994321 20) (dec 0 0) (dec 0 0) (dec 0 0);
  q4 (dec 99999999999994321 20) (dec 0 0) (dec 13010426069826052 38) (dec (-86736173798840369) 41);
  q4 (dec 99999999999994364 20) (dec 0 0) (dec (-13010426069826052) 38) (dec 86736173798840369 41);
  q4 (dec 99999999999994321 20) (dec 0 0) (dec 0 0) (dec 0 0);
  q4 (dec 99999999999994321 20) (dec 0 0) (dec 0 0) (dec 0 0);
  q4 (dec 99999999999994321 20) (dec 0 0) (dec 0 0) (dec 0 0);
  q4 (dec 99999999999994321 20) (dec 0 0) (dec 13010426069826052 38) (dec (-86736173798840369) 41);
  q4 (dec 99999999999994364 20) (dec 0 0) (dec (-13010426069826052) 38) (dec 86736173798840369 41);
  q4 (dec 99999999999994321 20) (dec 0 0) (dec 0 0) (dec 0 0);
  q4 (dec 99999999999994321 20) (dec 0 0) (dec 0 0) (dec 0 0);
  q4 (dec 99999999999994321 20) (dec 0 0) (dec 0 0) (dec 0 0);
  q4 (dec 99999999999994321 20) (dec 0 0) (dec 13010426069826052 38) (dec (-86736173798840369) 41);
  q4 (dec 99999999999994364 20) (dec 0 0) (dec (-13010426069826052) 38) (dec 86736173798840369 41);
  q4 (dec 99999999999994321 20) (dec 0 0) (dec 0 0) (dec 0 0);
  q4 (dec 99999999999994321 20) (dec 0 0) (dec 0 0) (dec 0 0);
  q4 (dec 99999999999994321 20) (dec 0 0) (dec 0 0) (dec 0 0);
  q4 (dec 99999999999994321 20) (dec 0 0) (dec 13010426069826052 38) (dec (-86736173798840369) 41);
  q4 (dec 99999999999994364 20) (dec 0 0) (dec (-13010426069826052) 38) (dec 86736173798840369 41);
  q4 (dec 99999999999994321 20) (dec 0 0) (dec 0 0) (dec 0 0);
  q4 (dec 99999999999994321 20) (dec 0 0) (dec 0 0) (dec 0 0);
  q4 (dec 99999999999994321 20) (dec 0 0) (dec 0 0) (dec 0 0);
  q4 (dec 99999999999994321 20) (dec 0 0) (dec 13010426069826052 38) (dec (-86736173798840369) 41);
  q4 (dec 99999999999994364 20) (dec 0 0) (dec (-13010426069826052) 38) (dec 86736173798840369 41);
  q4 (dec 99999999999994321 20) (dec 0 0) (dec 0 0) (dec 0 0);
  q4 (dec 99999999999994321 20) (dec 0 0) (dec 0 0) (dec 0 0);
  q4 (dec 99999999999994321 20) (dec 0 0) (dec 0 0) (dec 0 0);
  q4 (dec 99999999999994321 20) (dec 0 0) (dec 13010426069826052 38) (dec (-86736173798840369) 41);
  q4 (dec 99999999999994364 20) (dec 0 0) (dec (-13010426069826052) 38) (dec 86736173798840369 41);
  q4 (dec 99999999999994321 20) (dec 0 0) (dec 0 0) (dec 0 0);
  q4 (dec 99999999999994321 20) (dec 0 0) (dec 0 0) (dec 0 0);
  q4 (dec 99999999999994321 20) (dec 0 0) (dec 0 0) (dec 0 0);
  q4 (dec 99999999999994321 20) (dec 0 0) (dec 13010426069826052 38) (dec (-86736173798840369) 41);
  q4 (dec 99999999999994364 20) (dec 0 0) (dec (-13010426069826052) 38) (dec 86736173798840369 41);
  q4 (dec 99999999999994321 20) (dec 0 0) (dec 0 0) (dec 0 0);
  q4 (dec 99999999999994321 20) (dec 0 0) (dec 0 0) (dec 0 0);
  q4 (dec 99999999999994321 20) (dec 0 0) (dec 0 0) (dec 0 0);
  q4 (dec 99999999999994321 20) (dec 0 0) (dec 13010426069826052 38) (dec (-86736173798840369) 41);
  q4 (dec 99999999999994364 20) (dec 0 0) (dec (-13010426069826052) 38) (dec 86736173798840369 41);
  q4 (dec 99999999999994321 20) (dec 0 0) (dec 0 0) (dec 0 0);
  q4 (dec 99999999999994321 20) (dec 0 0) (dec 0 0) (dec 0 0);
  q4 (dec 99999999999994321 20) (dec 0 0) (dec 0 0) (dec 0 0);
  q4 (dec 99999999999994321 20) (dec 0 0) (dec 13010426069826052 38) (dec (-86736173798840369) 41);
  q4 (dec 99999999999994364 20) (dec 0 0) (dec (-13010426069826052) 38) (dec 86736173798840369 41);
  q4 (dec 99999999999994321 20) (dec 0 0) (dec 0 0) (dec 0 0);
  q4 (dec 99999999999994321 20) (dec 0 0) (dec 0 0) (dec 0 0);
  q4 (dec 99999999999994321 20) (dec 0 0) (dec 0 0) (dec 0 0);
  q4 (dec 99999999999994321 20) (dec 0 0) (dec 13010426069826052 38) (dec (-86736173798840369) 41);
  q4 (dec 99999999999994364 20) (dec 0 0) (dec (-13010426069826052) 38) (dec 86736173798840369 41);
  q4 (dec 99999999999994321 20) (dec 0 0) (dec 0 0) (dec 0 0);
  q4 (dec 99999999999994321 20) (dec 0 0) (dec 0 0) (dec 0 0);
  q4 (dec 99999999999994321 20) (dec 0 0) (dec 0 0) (dec 0 0);
  q4 (dec 99999999999994321 20) (dec 0 0) (dec 28536201179827515 36) (dec (-90287595792873626) 51);
  q4 (dec 10000000000002286 19) (dec 57072402359627925 34) (dec 53999999999982013 23) (dec (-35999999999989904) 25);
  q4 (dec 28000000000000099 19) (dec 21684043449711796 36) (dec (-54210108624292267) 39) (dec 42656339002639169 54);
  q4 (dec 28000000000000121 19) (dec 0 0) (dec 0 0) (dec 0 0);
  q4 (dec 28000000000000121 19) (dec 0 0) (dec 0 0) (dec 0 0);
  q4 (dec 28000000000000121 19) (dec 0 0) (dec 6505213034913026 38) (dec (-21684043449710092) 41);
  q4 (dec 2800000000000013 18) (dec 0 0) (dec (-6505213034913026) 38) (dec 21684043449710092 41);
  q4 (dec 28000000000000121 19) (dec 0 0) (dec 0 0) (dec 0 0);
  q4 (dec 28000000000000121 19) (dec 0 0) (dec 0 0) (dec 0 0);
  q4 (dec 28000000000000121 19) (dec 0 0) (dec 0 0) (dec 0 0);
  q4 (dec 28000000000000121 19) (dec 0 0) (dec 0 0) (dec 0 0);
  q4 (dec 28000000000000121 19) (dec 0 0) (dec 0 0) (dec 0 0);
  q4 (dec 28000000000000121 19) (dec 0 0) (dec 0 0) (dec 0 0);
  q4 (dec 28000000000000121 19) (dec 0 0) (dec 0 0) (dec 0 0);
  q4 (dec 28000000000000121 19) (dec 0 0) (dec 0 0) (dec 0 0);
  q4 (dec 28000000000000121 19) (dec 0 0) (dec 0 0) (dec 0 0);
  q4 (dec 28000000000000121 19) (dec 0 0) (dec 0 0) (dec 0 0);
  q4 (dec 28000000000000121 19) (dec 0 0) (dec 0 0) (dec 0 0);
  q4 (dec 28000000000000121 19) (dec 0 0) (dec 6505213034913026 38) (dec (-21684043449710092) 41);
  q4 (dec 2800000000000013 18) (dec 0 0) (dec (-6505213034913026) 38) (dec 21684043449710092 41);
  q4 (dec 28000000000000121 19) (dec 0 0) (dec 0 0) (dec 0 0);
  q4 (dec 28000000000000121 19) (dec 0 0) (dec 0 0) (dec 0 0);
  q4 (dec 28000000000000121 19) (dec 0 0) (dec 0 0) (dec 0 0);
  q4 (dec 28000000000000121 19) (dec 0 0) (dec 0 0) (dec 0 0);
  q4 (dec 28000000000000121 19) (dec 0 0) (dec 0 0) (dec 0 0);
  q4 (dec 28000000000000121 19) (dec 0 0) (dec 0 0) (dec 0 0);
  q4 (dec 28000000000000121 19) (dec 0 0) (dec 0 0) (dec 0 0);
  q4 (dec 28000000000000121 19) (dec 0 0) (dec 0 0) (dec 0 0);
  q4 (dec 28000000000000121 19) (dec 0 0) (dec 0 0) (dec 0 0);
  q4 (dec 28000000000000121 19) (dec 0 0) (dec 0 0) (dec 0 0);
  q4 (dec 28000000000000121 19) (dec 0 0) (dec 6505213034913026 38) (dec (-21684043449710092) 41);
  q4 (dec 2800000000000013 18) (dec 0 0) (dec (-6505213034913026) 38) (dec 21684043449710092 41);
  q4 (dec 28000000000000121 19) (dec 0 0) (dec 0 0) (dec 0 0);
  q4 (dec 28000000000000121 19) (dec 0 0) (dec 0 0) (dec 0 0);
  q4 (dec 28000000000000121 19) (dec 0 0) (dec 0 0) (dec 0 0);
  q4 (dec 28000000000000121 19) (dec 0 0) (dec 0 0) (dec 0 0);
  q4 (dec 28000000000000121 19) (dec 0 0) (dec 0 0) (dec 0 0);
  q4 (dec 28000000000000121 19) (dec 0 0) (dec 0 0) (dec 0 0);
  q4 (dec 28000000000000121 19) (dec 0 0) (dec 0 0) (dec 0 0);
  q4 (dec 28000000000000121 19) (dec 0 0) (dec 0 0) (dec 0 0);
  q4 (dec 28000000000000121 19) (dec 0 0) (dec 0 0) (dec 0 0);
  q4 (dec 28000000000000121 19) (dec 0 0) (dec 0 0) (dec 0 0);
  q4 (dec 28000000000000121 19) (dec 0 0) (dec 0 0) (dec 0 0);
  q4 (dec 28000000000000121 19) (dec 0 0) (dec 6505213034913026 38) (dec (-21684043449710092) 41);
  q4 (dec 2800000000000013 18) (dec 0 0) (dec (-6505213034913026) 38) (dec 21684043449710092 41);
  q4 (dec 28000000000000121 19) (dec 0 0) (dec 0 0) (dec 0 0);
  q4 (dec 28000000000000121 19) (dec 0 0) (dec 0 0) (dec 0 0);
  q4 (dec 28000000000000121 19) (dec 0 0) (dec 0 0) (dec 0 0);
  q4 (dec 28000000000000121 19) (dec 0 0) (dec 0 0) (dec 0 0);
  q4 (dec 28000000000000121 19) (dec 0 0) (dec 0 0) (dec 0 0);
  q4 (dec 28000000000000121 19) (dec 0 0) (dec 6505213034913026 38) (dec (-21684043449710092) 41);
  q4 (dec 2800000000000013 18) (dec 0 0) (dec (-6505213034913026) 38) (dec 21684043449710092 41);
  q4 (dec 28000000000000121 19) (dec 0 0) (dec 0 0) (dec 0 0);
  q4 (dec 28000000000000121 19) (dec 0 0) (dec 0 0) (dec 0 0);
  q4 (dec 28000000000000121 19) (dec 0 0) (dec 0 0) (dec 0 0);
  q4 (dec 28000000000000121 19) (dec 0 0) (dec 0 0) (dec 0 0);
  q4 (dec 28000000000000121 19) (dec 0 0) (dec 0 0) (dec 0 0);
  q4 (dec 28000000000000121 19) (dec 0 0) (dec 0 0) (dec 0 0);
  q4 (dec 28000000000000121 19) (dec 0 0) (dec 0 0) (dec 0 0);
  q4 (dec 28000000000000121 19) (dec 0 0) (dec 0 0) (dec 0 0);
  q4 (dec 28000000000000121 19) (dec 0 0) (dec 0 0) (dec 0 0);
  q4 (dec 28000000000000121 19) (dec 0 0) (dec 0 0) (dec 0 0);
  q4 (dec 28000000000000121 19) (dec 0 0) (dec 0 0) (dec 0 0);
  q4 (dec 28000000000000121 19) (dec 0 0) (dec 0 0) (dec 0 0);
  q4 (dec 28000000000000121 19) (dec 0 0) (dec 0 0) (dec 0 0);
  q4 (dec 28000000000000121 19) (dec 0 0) (dec 0 0) (dec 0 0);
  q4 (dec 28000000000000121 19) (dec 0 0) (dec 0 0) (dec 0 0);
  q4 (dec 28000000000000121 19) (dec 0 0) (dec 0 0) (dec 0 0);
  q4 (dec 28000000000000121 19) (dec 0 0) (dec 0 0) (dec 0 0);
  q4 (dec 28000000000000121 19) (dec 0 0) (dec 0 0) (dec 0 0);
  q4 (dec 28000000000000121 19) (dec 0 0) (dec 0 0) (dec 0 0);
  q4 (dec 28000000000000121 19) (dec 0 0) (dec 0 0) (dec 0 0);
  q4 (dec 28000000000000121 19) (dec 0 0) (dec 0 0) (dec 0 0);
  q4 (dec 28000000000000121 19) (dec 0 0) (dec 0 0) (dec 0 0);
  q4 (dec 28000000000000121 19) (dec 0 0) (dec 43368086899420203 39) (dec (-10842021724855058) 41);
  q4 (dec 2800000000000013 18) (dec 43368086899420126 37) (dec 13658536585365805 24) (dec (-68292682926829253) 27);
  q4 (dec 28000000000000121 19) (dec (-27317073170731826) 22) (dec (-42682926829268365) 24) (dec 10670731707317083 26);
  q4 (dec 14000000000000074 19) (dec (-70000000000000312) 22) (dec (-35000000000000241) 24) (dec 17500000000000108 26);
  q4 (dec 0 0) (dec 0 0) (dec 0 0) (dec 0 0);
  q4 (dec 0 0) (dec 0 0) (dec 0 0) (dec 0 0);
  q4 (dec 0 0) (dec 0 0) (dec 0 0) (dec 0 0);
  q4 (dec 0 0) (dec 0 0) (dec 0 0) (dec 0 0);
  q4 (dec 0 0) (dec 0 0) (dec 0 0) (dec 0 0);
  q4 (dec 0 0) (dec 0 0) (dec 0 0) (dec 0 0);
  q4 (dec 0 0) (dec 0 0) (dec 0 0) (dec 0 0);
  q4 (dec 0 0) (dec 0 0) (dec 0 0) (dec 0 0);
  q4 (dec 0 0) (dec 0 0) (dec 0 0) (dec 0 0);
  q4 (dec 0 0) (dec 0 0) (dec 0 0) (dec 0 0);
  q4 (dec 0 0) (dec 0 0) (dec 0 0) (dec 0 0);
  q4 (dec 0 0) (dec 0 0) (dec 0 0) (dec 0 0);
  q4 (dec 0 0) (dec 0 0) (dec 0 0) (dec 0 0);
  q4 (dec 0 0) (dec 0 0) (dec 0 0) (dec 0 0);
  q4 (dec 0 0) (dec 0 0) (dec 0 0) (dec 0 0);
  q4 (dec 0 0) (dec 0 0) (dec (-11199999999999822) 24) (dec 11199999999999825 27);
  q4 (dec (-13999999999999772) 19) (dec (-27999999999999533) 22) (dec (-14789773927740354) 26) (dec 29579547855481557 29);
  q4 (dec (-27999999999999527) 19) (dec (-27260511303612452) 22) (dec 1090420452144524 23) (dec (-10904204521445492) 27);
  q4 (dec (-27999999999999514) 19) (dec (-12229800505635918) 35) (dec (-1416491445211636) 37) (dec 28329828904230424 41);
  q4 (dec (-28000000000000125) 19) (dec (-51473432795794559) 36) (dec 11682713641283697 38) (dec (-3474412978820373) 42);
  q4 (dec (-28000000000000095) 19) (dec 62747893882927115 36) (dec 37072492443510838 38) (dec (-56223000235967703) 41);
  q4 (dec (-27999999999999557) 19) (dec 11800316548277717 36) (dec (-17343613894827706) 39) (dec 11772090260219839 42);
  q4 (dec (-27999999999999527) 19) (dec 32857703486148937 37) (dec (-21184571984490783) 40) (dec (-89061669975614191) 43);
  q4 (dec (-27999999999999527) 19) (dec (-55123120980052483) 37) (dec (-65972751141205691) 38) (dec 86272059184653591 41);
  q4 (dec (-28000000000000125) 19) (dec (-18199379625160189) 36) (dec 60191861241875977 39) (dec (-23300075319435879) 42);
  q4 (dec (-28000000000000095) 19) (dec 2451742512713887 35) (dec 10906146080210805 38) (dec (-17741474403462704) 41);
  q4 (dec (-27999999999999922) 19) (dec 51782790327666016 38) (dec (-19571486241982001) 38) (dec 2505805351483888 40);
  q4 (dec (-28000000000000095) 19) (dec (-72616331552517511) 37) (dec (-61723881819640055) 41) (dec 94643285456781142 43);
  q4 (dec (-28000000000000121) 19) (dec (-78062556418956317) 38) (dec (-34694469519536085) 41) (dec 38163916471489746 43);
  q4 (dec (-28000000000000121) 19) (dec 17347234759768068 37) (dec 24286128663675302 39) (dec (-34694469519536143) 42);
  q4 (dec (-28000000000000095) 19) (dec 0 0) (dec (-31225022567582534) 39) (dec 4163336342344337 41);
  q4 (dec (-28000000000000121) 19) (dec 0 0) (dec 0 0) (dec 0 0);
  q4 (dec (-28000000000000121) 19) (dec 0 0) (dec 0 0) (dec 0 0);
  q4 (dec (-28000000000000121) 19) (dec 0 0) (dec 0 0) (dec 0 0);
  q4 (dec (-28000000000000121) 19) (dec 0 0) (dec 31225022567582534 39) (dec (-4163336342344337) 41);
  q4 (dec (-28000000000000095) 19) (dec 0 0) (dec (-31225022567582534) 39) (dec 4163336342344337 41);
  q4 (dec (-28000000000000121) 19) (dec 0 0) (dec 0 0) (dec 0 0);
  q4 (dec (-28000000000000121) 19) (dec 0 0) (dec 0 0) (dec 0 0);
  q4 (dec (-28000000000000121) 19) (dec 0 0) (dec 0 0) (dec 0 0);
  q4 (dec (-28000000000000121) 19) (dec 0 0) (dec 31225022567582534 39) (dec (-4163336342344337) 41);
  q4 (dec (-28000000000000095) 19) (dec 0 0) (dec (-31225022567582534) 39) (dec 4163336342344337 41);
  q4 (dec (-28000000000000121) 19) (dec 0 0) (dec 0 0) (dec 0 0);
  q4 (dec (-28000000000000121) 19) (dec 0 0) (dec 0 0) (dec 0 0);
  q4 (dec (-28000000000000121) 19) (dec 0 0) (dec 0 0) (dec 0 0);
  q4 (dec (-28000000000000121) 19) (dec 0 0) (dec 31225022567582534 39) (dec (-4163336342344337) 41);
  q4 (dec (-28000000000000095) 19) (dec 0 0) (dec (-31225022567582534) 39) (dec 4163336342344337 41);
  q4 (dec (-28000000000000121) 19) (dec 0 0) (dec 0 0) (dec 0 0);
  q4 (dec (-28000000000000121) 19) (dec 0 0) (dec 0 0) (dec 0 0);
  q4 (dec (-28000000000000121) 19) (dec 0 0) (dec 0 0) (dec 0 0);
  q4 (dec (-28000000000000121) 19) (dec 0 0) (dec 31225022567582534 39) (dec (-4163336342344337) 41);
  q4 (dec (-28000000000000095) 19) (dec 0 0) (dec (-31225022567582534) 39) (dec 4163336342344337 41);
  q4 (dec (-28000000000000121) 19) (dec 0 0) (dec 0 0) (dec 0 0);
  q4 (dec (-28000000000000121) 19) (dec 0 0) (dec 0 0) (dec 0 0);
  q4 (dec (-28000000000000121) 19) (dec 0 0) (dec 0 0) (dec 0 0);
  q4 (dec (-28000000000000121) 19) (dec 0 0) (dec 23592239273288009 38) (dec (-68563106020185592) 54);
  q4 (dec (-27999999999999531) 19) (dec 23592239273282864 35) (dec 95999999999984597 25) (dec (-12799999999998252) 27);
  q4 (dec (-20000000000000018) 19) (dec 69388939039074708 37) (dec (-69388939039081978) 40) (dec 9689835032698281 55);
  q4 (dec (-2) 3) (dec 0 0) (dec 0 0) (dec 0 0);
  q4 (dec (-2) 3) (dec 0 0) (dec 0 0) (dec 0 0);
  q4 (dec (-2) 3) (dec 0 0) (dec 0 0) (dec 0 0);
  q4 (dec (-2) 3) (dec 0 0) (dec 0 0) (dec 0 0);
  q4 (dec (-2) 3) (dec 0 0) (dec 0 0) (dec 0 0);
  q4 (dec (-2) 3) (dec 0 0) (dec 0 0) (dec 0 0);
  q4 (dec (-2) 3) (dec 0 0) (dec 0 0) (dec 0 0);
  q4 (dec (-2) 3) (dec 0 0) (dec 0 0) (dec 0 0);
  q4 (dec (-2) 3) (dec 0 0) (dec 0 0) (dec 0 0);
  q4 (dec (-2) 3) (dec 0 0) (dec 0 0) (dec 0 0);
  q4 (dec (-2) 3) (dec 0 0) (dec 0 0) (dec 0 0);
  q4 (dec (-2) 3) (dec 0 0) (dec 0 0) (dec 0 0);
  q4 (dec (-2) 3) (dec 0 0) (dec 0 0) (dec 0 0);
  q4 (dec (-2) 3) (dec 0 0) (dec 0 0) (dec 0 0);
  q4 (dec (-2) 3) (dec 0 0) (dec 0 0) (dec 0 0);
  q4 (dec (-2) 3) (dec 0 0) (dec 0 0) (dec 0 0);
  q4 (dec (-2) 3) (dec 0 0) (dec 0 0) (dec 0 0);
  q4 (dec (-2) 3) (dec 0 0) (dec 0 0) (dec 0 0);
  q4 (dec (-2) 3) (dec 0 0) (dec 0 0) (dec 0 0);
  q4 (dec (-2) 3) (dec 0 0) (dec 0 0) (dec 0 0);
  q4 (dec (-2) 3) (dec 0 0) (dec 0 0) (dec 0 0);
  q4 (dec (-2) 3) (dec 0 0) (dec 0 0) (dec 0 0);
  q4 (dec (-2) 3) (dec 0 0) (dec 0 0) (dec 0 0);
  q4 (dec (-2) 3) (dec 0 0) (dec 0 0) (dec 0 0);
  q4 (dec (-2) 3) (dec 0 0) (dec 0 0) (dec 0 0);
  q4 (dec (-2) 3) (dec 0 0) (dec 0 0) (dec 0 0);
  q4 (dec (-2) 3) (dec 0 0) (dec 0 0) (dec 0 0)].
Definition StandardAtm1976_D : tableD := {| t_alt := StandardAtm1976_alt; t_T := StandardAtm1976_akima_T; t_P := StandardAtm1976_akima_P; t_rho := StandardAtm1976_akima_rho; t_dT := StandardAtm1976_akima_dT |}.
Definition StandardAtm1976 : tableQ := tableQ_of StandardAtm1976_D.

(** VenusReference2021.py *)
(** L107-113 *)
Definition VenusReference2021_alt : list decimal := [dec 0 0; dec 9998347872 7; dec 1999339258 6; dec 2998513576 6; dec 3997357905 6; dec 4995872408 6; dec 5994057249 6; dec 699191259 5; dec 7989438595 6; dec 8986635428 6; dec 998350325 5; dec 149629129 4; dec 1993412168 5; dec 2489714982 5; dec 2985201749 5; dec 3973735185 5; dec 4959028483 5; dec 5941097549 5; dec 6919958182 5; dec 789562608 4; dec 8868116839 5; dec 9837445951 5; dec 1080362881 4; dec 1176668071 4; dec 1272661684 4; dec 1368345231 4; dec 146372021 3].
(** L115-143 *)
Definition VenusReference2021_akima_T : list coefD := [
  q4 (dec 73529999999999995 14) (dec (-76500245813713817) 19) (dec 0 0) (dec 0 0);
  q4 (dec 73529999999999995 14) (dec (-76500245813713817) 19) (dec 73781523772633288 24) (dec (-25008840385820178) 27);
  q4 (dec 72770000000000005 14) (dec (-75774876456524403) 19) (dec 44268704696922039 23) (dec (-36906402186612456) 26);
  q4 (dec 72020000000000005 14) (dec (-7798647325901931) 18) (dec (-13050174528746787) 24) (dec 52497491538563785 28);
  q4 (dec 71239999999999998 14) (dec (-78090028739126729) 19) (dec (-11223315693303581) 27) (dec (-10603578090092898) 30);
  q4 (dec 70460000000000002 14) (dec (-78090570318544101) 19) (dec (-33575636250194036) 25) (dec 80789181037404156 29);
  q4 (dec 69679999999999995 14) (dec (-78133457037487808) 19) (dec (-55426573869688423) 23) (dec 35333925332088419 26);
  q4 (dec 68879999999999995 14) (dec (-78636919692973914) 19) (dec 19660944268507453 23) (dec (-49256229299720546) 27);
  q4 (dec 68110000000000002 14) (dec (-76184519450263151) 19) (dec 35219815740613787 23) (dec (-25272479002746391) 26);
  q4 (dec 67360000000000002 14) (dec (-76702258745767879) 19) (dec (-44896932780229396) 23) (dec 29767703890620077 26);
  q4 (dec 66579999999999995 14) (dec (-76776159549570818) 19) (dec 78033187473205079 24) (dec (-24203548040340507) 27);
  q4 (dec 65820000000000005 14) (dec (-75941949052232335) 19) (dec 64303043023768989 24) (dec (-95556123302074477) 28);
  q4 (dec 62079999999999995 14) (dec (-7664592995668908) 18) (dec (-1165028851910002) 22) (dec 71745712656905565 28);
  q4 (dec 58070000000000005 14) (dec (-82909995803015796) 19) (dec (-15675357472441614) 24) (dec 28282050974558983 29);
  q4 (dec 53920000000000005 14) (dec (-84256950547822798) 19) (dec (-58084083652429367) 24) (dec 71865334988714789 28);
  q4 (dec 49689999999999998 14) (dec (-84719893735348221) 19) (dec 67082407726537057 24) (dec (-21810030220034242) 28);
  q4 (dec 41760000000000002 14) (dec (-77851070824435887) 19) (dec 23641085988224165 23) (dec (-13951217268589407) 27);
  q4 (dec 3505 1) (dec (-71895909501779789) 19) (dec (-91528246378437989) 23) (dec 75152666052728623 27);
  q4 (dec 26280000000000001 14) (dec (-34224886286560443) 19) (dec 86186722236726426 25) (dec (-34589544343655092) 29);
  q4 (dec 22980000000000001 14) (dec (-33531868476673263) 19) (dec 30803371213450261 27) (dec 14035162569840896 30);
  q4 (dec 19709999999999999 14) (dec (-33485776318314497) 19) (dec 37436784950185437 24) (dec 14396397641294749 28);
  q4 (dec 16940000000000001 14) (dec (-22119823548932666) 19) (dec 69631133751122043 23) (dec (-43296870760968538) 27);
  q4 (dec 17394999999999999 14) (dec (-91739334324186014) 20) (dec (-28793135609593633) 23) (dec 2194418942597821 26);
  q4 (dec 158 0) (dec (-3357485746958666) 19) (dec 24194101929265054 24) (dec 2227388608806531 27);
  q4 (dec 159 0) (dec 75000508229625812 20) (dec 52705227842661676 25) (dec 12974084699741429 29);
  q4 (dec 16680000000000001 14) (dec 88705836367339774 20) (dec 49782208248334278 25) (dec 5211526822042956 28);
  q4 (dec 17619999999999999 14) (dec 11254650470897889 19) (dec 11264475054216646 23) (dec (-34126703858276715) 28);
  q4 (dec 19422 2) (dec 23428741135670104 19) (dec 0 0) (dec 0 0)].
(** L145-173 *)
Definition VenusReference2021_akima_P : list coefD := [
  q4 (dec 9210000 0) (dec (-57000494246866504) 14) (dec 0 0) (dec 0 0);
  q4 (dec 9210000 0) (dec (-57000494246866504) 14) (dec 1191426747442639 17) (dec (-20005520511547845) 22);
  q4 (dec 8650000 0) (dec (-55218001751523684) 14) (dec 11922956094834881 18) (dec (-47535468776863077) 25);
  q4 (dec 8110000 0) (dec (-52836016818236487) 14) (dec 20971625487329507 18) (dec (-30205732180938699) 22);
  q4 (dec 7600000 0) (dec (-49549831062955798) 14) (dec 7431539833890795 18) (dec 75374067708523106 22);
  q4 (dec 7120000 0) (dec (-45809242185355725) 14) (dec 10637596337516646 18) (dec (-32083654640698215) 22);
  q4 (dec 6670000 0) (dec (-44644535494170873) 14) (dec (-86721292518100405) 19) (dec 1435368172744697 20);
  q4 (dec 6230000 0) (dec (-42085326908586478) 14) (dec 34408081817804151 18) (dec (-14402436895679997) 21);
  q4 (dec 5830000 0) (dec (-39520687218123606) 14) (dec (-14563148156340338) 19) (dec 57206035323528032 22);
  q4 (dec 5440000 0) (dec (-38103529681005938) 14) (dec 32838197797663095 18) (dec (-12794456355435479) 21);
  q4 (dec 5080000 0) (dec (-3537114838055557) 13) (dec 14766431806858417 18) (dec (-20900558414704729) 22);
  q4 (dec 4740000 0) (dec (-3305020728541088) 13) (dec 92050173124354345 19) (dec (-18247530097876661) 23);
  q4 (dec 3300000 0) (dec (-25240413153825639) 14) (dec 92077427346421575 19) (dec (-18555942437512061) 23);
  q4 (dec 2250000 0) (dec (-17461405229695629) 14) (dec 35043035444801973 19) (dec 16603752303724585 23);
  q4 (dec 1490000 0) (dec (-12756080446689144) 14) (dec 3022260154129975 18) (dec 21248837442349003 23);
  q4 (dec 958000 0) (dec (-81960782522087513) 15) (dec 13830813607131126 19) (dec 69415864910466531 24);
  q4 (dec 350000 0) (dec (-34266418445149903) 15) (dec 55301247136109845 20) (dec 427987660165905 22);
  q4 (dec 107000 0) (dec (-10904079177900304) 15) (dec (-10383896638998959) 20) (dec 35580287178182705 24);
  q4 (dec 23600 0) (dec (-26488945128030852) 16) (dec (-40723443190999372) 21) (dec 10577713948389097 24);
  q4 (dec 3690 0) (dec (-40557747427674729) 17) (dec (-14088956427676755) 21) (dec 2212890490819777 24);
  q4 (dec 447 0) (dec (-48546700036360454) 18) (dec (-25957339920221364) 22) (dec 33488462798491418 26);
  q4 (dec 37399999999999999 15) (dec (-4019283184630287) 18) (dec (-25082527084974549) 23) (dec 30520630032273883 27);
  q4 (dec 26699999999999999 16) (dec (-27878255352832852) 20) (dec (-20534312270276564) 24) (dec 23465472025316565 28);
  q4 (dec 17600000000000002 17) (dec (-18423461345253462) 21) (dec (-14408593316794284) 25) (dec 16227340387469627 29);
  q4 (dec 98799999999999999 19) (dec (-10248440452670061) 22) (dec (-81223489859538544) 27) (dec 91225177864454474 31);
  q4 (dec 62700000000000006 20) (dec (-62373176325057366) 24) (dec (-47169919236833793) 28) (dec 52575025147109697 32);
  q4 (dec 58900000000000002 21) (dec (-82381923929823163) 25) (dec (-21988454953033512) 28) (dec 26422979395019618 32);
  q4 (dec 955 8) (dec 21924929882133486 24) (dec 0 0) (dec 0 0)].
(** L175-203 *)
Definition VenusReference2021_akima_rho : list coefD := [
  q4 (dec 64799999999999997 15) (dec (-3250024701429001) 18) (dec 0 0) (dec 0 0);
  q4 (dec 64799999999999997 15) (dec (-3250024701429001) 18) (dec 49520594791226129 24) (dec (-16485692236216649) 30);
  q4 (dec 61600000000000001 15) (dec (-31510493154549711) 19) (dec 49553453104790664 24) (dec (-16500916035655987) 30);
  q4 (dec 585 1) (dec (-3052040973311485) 18) (dec 66272635021313043 24) (dec (-16683573809559144) 27);
  q4 (dec 555 1) (dec (-29695732471037711) 19) (dec (-65198156363963727) 24) (dec 13164483270836392 26);
  q4 (dec 52600000000000001 15) (dec (-27057966676974207) 19) (dec 40119719216923044 25) (dec (-22327819642637252) 28);
  q4 (dec 49899999999999999 15) (dec (-27044631033271253) 19) (dec (-26746829068017513) 25) (dec 2231182366499436 27);
  q4 (dec 47200000000000003 15) (dec (-27031334897423356) 19) (dec 32988517645084019 23) (dec (-1319828760782671) 25);
  q4 (dec 44700000000000003 15) (dec (-24390302191129322) 19) (dec (-32655932240938373) 24) (dec 65979106871624279 27);
  q4 (dec 42299999999999997 15) (dec (-23072213621314866) 19) (dec 16817298346190764 25) (dec (-92624682194803332) 29);
  q4 (dec 40 0) (dec (-23066305145547279) 19) (dec (-18491295867849889) 25) (dec 12550576163902946 28);
  q4 (dec 37700000000000003 15) (dec (-23065755667178588) 19) (dec 10197523208320862 23) (dec (-60183853742010864) 28);
  q4 (dec 28 0) (dec (-17386915952613778) 19) (dec 41043064646837649 24) (dec 23690971056548105 29);
  q4 (dec 20399999999999999 15) (dec (-13130601187481543) 19) (dec 27409827462098384 24) (dec 34033470337591226 29);
  q4 (dec 146 1) (dec (-1015839614561936) 18) (dec 2228399528973899 23) (dec 70913310291680181 29);
  q4 (dec 10199999999999999 15) (dec (-74278194772295749) 20) (dec 12115894682222395 24) (dec 37131178389520145 29);
  q4 (dec 44000000000000004 16) (dec (-39438902849134934) 20) (dec 82555371479962941 25) (dec 28691207705772832 29);
  q4 (dec 15900000000000001 16) (dec (-14814599854537974) 20) (dec 50615518852214197 26) (dec 30098145648050382 29);
  q4 (dec 46899999999999997 17) (dec (-51119070392830626) 21) (dec (-60620999505306953) 26) (dec 18484609254308452 29);
  q4 (dec 83900000000000002 18) (dec (-98528814436033617) 22) (dec (-11664675619871023) 26) (dec 379378142657895 28);
  q4 (dec 11900000000000001 18) (dec (-12948327938692728) 22) (dec (-6171126030313705) 26) (dec 83486114055655379 31);
  q4 (dec 115 5) (dec (-12642499312956104) 23) (dec (-721549224024358) 26) (dec 91497463358860232 32);
  q4 (dec 79900000000000004 21) (dec (-83959715597480121) 25) (dec (-58021423397600726) 29) (dec 67847007380245989 33);
  q4 (dec 58100000000000003 22) (dec (-60708845153117898) 26) (dec (-48010347565703719) 30) (dec 53844419752364004 34);
  q4 (dec 32000000000000001 23) (dec (-33646737319674157) 27) (dec (-26097979352095549) 31) (dec 29616344104770095 35);
  q4 (dec 185 10) (dec (-18791509688705467) 28) (dec (-14520493342904826) 32) (dec 16169108627969595 36);
  q4 (dec 139 11) (dec (-21688440793019366) 29) (dec (-6853096991516782) 32) (dec 81531120890314674 37);
  q4 (dec 16100000000000001 26) (dec 70080342012550478 29) (dec 0 0) (dec 0 0)].
(** L205-233 *)
Definition VenusReference2021_akima_dT : list coefD := [
  q4 (dec (-76500245813713817) 19) (dec 21945804542487295 23) (dec 0 0) (dec 0 0);
  q4 (dec (-76500245813713817) 19) (dec 21945804542487295 23) (dec (-12279603725501243) 26) (dec (-24141350178736575) 30);
  q4 (dec (-75774876456524368) 19) (dec (-98493575883555157) 24) (dec (-44952982873325407) 26) (dec 32685517610781918 29);
  q4 (dec (-7798647325901931) 18) (dec (-17513751640315298) 24) (dec 41960944706740561 28) (dec 29619055080950994 31);
  q4 (dec (-78090028739126686) 19) (dec (-25744294856973772) 26) (dec 11823094078765076 28) (dec (-97998447195536884) 32);
  q4 (dec (-78090570318544083) 19) (dec (-82871895879575068) 26) (dec (-62907000269757947) 28) (dec 28234040744092175 31);
  q4 (dec (-78133457037487773) 19) (dec (-49463634159490416) 25) (dec (-13097407840064193) 26) (dec 85555195509947486 30);
  q4 (dec (-78636919692973914) 19) (dec (-10684388169461099) 24) (dec 77335843675491729 26) (dec (-51746554168380054) 29);
  q4 (dec (-76184519450263159) 19) (dec (-13029737532156665) 24) (dec (-11208886003743669) 26) (dec 73301199572294333 30);
  q4 (dec (-76702258745767844) 19) (dec (-17835979185747041) 24) (dec (-76501281272946923) 28) (dec 18155451347243835 30);
  q4 (dec (-76776159549570783) 19) (dec 2106807918503295 23) (dec 16966566817334167 26) (dec (-1071895861371379) 28);
  q4 (dec (-75941949052232343) 19) (dec 39779077392200775 24) (dec (-1048252805215769) 26) (dec (-69374794081435046) 33);
  q4 (dec (-76645929956689063) 19) (dec (-69774869540722953) 24) (dec (-39781407551664789) 27) (dec 57269507354350769 31);
  q4 (dec (-82909995803015796) 19) (dec (-40709264544332504) 24) (dec 34731247607945999 28) (dec (-14890306281496431) 32);
  q4 (dec (-84256950547822746) 19) (dec (-17238016331610481) 24) (dec (-73616984369271059) 28) (dec 18073225389986909 31);
  q4 (dec (-84719893735348134) 19) (dec 42922674766433675 24) (dec 55535052765298927 28) (dec (-28997130481552973) 32);
  q4 (dec (-77851070824435861) 19) (dec 67711343283761494 24) (dec (-22452460452433973) 28) (dec 15298068574384189 32);
  q4 (dec (-71895909501779728) 19) (dec 68021052901848765 24) (dec 10183589307456465 26) (dec (-70975652265662707) 31);
  q4 (dec (-34224886286560352) 19) (dec 14624077723065722 24) (dec (-10258262539572968) 28) (dec 26061950972949885 33);
  q4 (dec (-33531868476673263) 19) (dec 20327783145975668 25) (dec (-37048722457972825) 28) (dec 36333517735658842 32);
  q4 (dec (-33485776318314519) 19) (dec 33498941942875717 24) (dec 16094668376672886 27) (dec (-77340048002743591) 32);
  q4 (dec (-22119823548932662) 19) (dec 12710693618195941 23) (dec 31540430879158407 28) (dec (-25675675999834043) 32);
  q4 (dec (-91739334324185884) 20) (dec 1158785390074578 22) (dec (-13847050592841923) 27) (dec 83673046451785591 32);
  q4 (dec (-33574857469586563) 20) (dec 8263158573719109 23) (dec 14755377091943406 27) (dec (-12075077543241679) 31);
  q4 (dec 75000508229625779 20) (dec 30857675522535905 24) (dec (-39968640003153996) 28) (dec 23643553353982366 32);
  q4 (dec 88705836367339828 20) (dec 19483990657781872 24) (dec 12791178545845845 29) (dec 45965155534204287 33);
  q4 (dec 11254650470897884 19) (dec 34556601745543476 24) (dec 14134903732195828 27) (dec (-45868460724946088) 32);
  q4 (dec 23428741135670104 19) (dec 17900865535537898 23) (dec 0 0) (dec 0 0)].
Definition VenusReference2021_D : tableD := {| t_alt := VenusReference2021_alt; t_T := VenusReference2021_akima_T; t_P := VenusReference2021_akima_P; t_rho := VenusReference2021_akima_rho; t_dT := VenusReference2021_akima_dT |}.
Definition VenusReference2021 : tableQ := tableQ_of VenusReference2021_D.

