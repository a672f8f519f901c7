(** Certificates for the gap between short decimals and the midpoints of the f32 format, used by
    [FltGap.v]. Row [(E, f0, cs)]: for f = f0, f0 + 1, ... one certificate each that no D / M with
    D < 2^25 + 1024, M < 2^25 is very close to 2^f / 10^E. [CF p q p' q']: neighbouring fractions
    around 10^E / 2^f. [CG]: the integers involved are small. The data is checked, not trusted. *)
From Verif Require Import Base.
Local Open Scope Z_scope.
Inductive cert := CG | CF (p q p' q' : Z).
(** the decimals D * 10^E that are closer to a midpoint than the bound *)
Definition gap_exceptions : list (Z * Z) := [(7038531, -32); (14077062, -32); (25645849, -15); (28154124, -32); (28874659, 15)].
Definition gap_rows : list (Z * Z * list cert) := [
  ((-53), (-150), [
    CF 0 1 1 33555455]);
  ((-52), (-150), [
    CF 3 21019477 4 28025969]);
  ((-51), (-150), [
    CF 43 30127917 13 9108440]);
  ((-50), (-150), [
    CF 469 32860449 13 910844]);
  ((-49), (-150), [
    CF 4363 30569326 1107 7756187]);
  ((-48), (-150), [
    CF 46364 32484901 28717 20120544]);
  ((-47), (-150), [
    CF 443909 31102450 293747 20581361]);
  ((-46), (-150), [
    CF 443909 3110245 4713106 33022341]);
  ((-45), (-150), [
    CF 29336347 20554489 28448529 19932440; CF 443909 622049 23565530 33022341;
    CF 443909 1244098 11782765 33022341]);
  ((-44), (-150), [
    CF 8878180 622049 28448529 1993244; CF 32887619 4608537 28448529 3986488;
    CF 30668074 8595025 28448529 7972976; CF 15334037 8595025 28448529 15945952;
    CF 21891283 24540977 28448529 31891904; CF 12055414 27029173 3278623 7350927]);
  ((-43), (-150), [
    CF 24820551 173905 14320147 100334; CF 24820551 347810 19570349 274239; CF 22195450 622049 19570349 548478;
    CF 30668074 1719005 19570349 1096956; CF 15334037 1719005 19570349 2193912;
    CF 15334037 3438010 32786230 7350927; CF 15334037 6876020 31727152 14226947;
    CF 31197613 27978987 15863576 14226947; CF 15334037 27504080 7931788 14226947;
    CF 7402249 26554266 3965894 14226947]);
  ((-42), (-150), [
    CF 27681469 19395 21959633 15386; CF 24820551 34781 21959633 30772; CF 24820551 69562 23390092 65553;
    CF 24820551 139124 11695046 65553; CF 30668074 343801 5847523 65553; CF 15334037 343801 21181560 474907;
    CF 15334037 687602 25924817 1162509; CF 15334037 1375204 20629427 1850111;
    CF 15334037 2750408 33315769 5975723; CF 15334037 5500816 24324903 8726131;
    CF 15334037 11001632 19829470 14226947; CF 15334037 22003264 9914735 14226947;
    CF 2709651 7776317 9914735 28453894]);
  ((-41), (-150), [
    CF 927711 65 33097874 2319; CF 27681469 3879 26753758 3749; CF 27681469 7758 13376879 3749;
    CF 27681469 15516 20529174 11507; CF 27681469 31032 10264587 11507; CF 18973028 42539 29237615 65553;
    CF 9486514 42539 29237615 131106; CF 4743257 42539 29237615 262212; CF 4743257 85078 31220207 559985;
    CF 22724989 815219 17981732 645063; CF 31715855 2275501 8990866 645063; CF 31715855 4551002 4495433 645063;
    CF 31591943 9066443 4495433 1290126; CF 22539121 12936821 27034554 15517073;
    CF 22539121 25873642 13517277 15517073; CF 4510922 10356569 13517277 31034146]);
  ((-40), (-150), [
    CF 1855422 13 32826697 230; CF 927711 13 32826697 460; CF 927711 26 32648291 915;
    CF 927711 52 33486799 1877; CF 927711 104 32978342 3697; CF 17416882 3905 16489171 3697;
    CF 8708441 3905 25197612 11299; CF 8708441 7810 30015688 26919; CF 23716285 42539 15007844 26919;
    CF 23716285 85078 31220207 111997; CF 27468246 197075 31220207 223994; CF 13734123 197075 31220207 447988;
    CF 13734123 394150 22477165 645063; CF 18105644 1039213 22477165 1290126;
    CF 9052822 1039213 31529987 3619465; CF 4526411 1039213 31529987 7238930;
    CF 22554610 10356569 18028199 8278143; CF 29305504 26912855 18028199 16556286;
    CF 14652752 26912855 18028199 33112572; CF 7326376 26912855 3375447 12399434]);
  ((-39), (-150), [
    CF 18554220 13 32826697 23; CF 9277110 13 32826697 46; CF 4638555 13 32826697 92;
    CF 4638555 26 32648291 183; CF 4638555 52 32559088 365; CF 4638555 104 30195209 677;
    CF 17416882 781 30195209 1354; CF 8708441 781 30195209 2708; CF 8708441 1562 28160266 5051;
    CF 8708441 3124 31497015 11299; CF 8708441 6248 28811169 20671; CF 27468246 39415 18759805 26919;
    CF 13734123 39415 32493928 93253; CF 13734123 78830 29981087 172083; CF 13734123 157660 21857605 250913;
    CF 13734123 315320 31529987 723893; CF 22632055 1039213 31529987 1447786;
    CF 27081021 2486999 31529987 2895572; CF 29305504 5382571 31529987 5791144;
    CF 14652752 5382571 31529987 11582288; CF 7326376 5382571 31529987 23164576;
    CF 3663188 5382571 20540423 30181439; CF 1831594 5382571 11382453 33450023]);
  ((-38), (-150), [
    CF 28544953 2 14272477 1; CF 21408715 3 14272477 2; CF 32113073 9 14272477 4; CF 23192775 13 14272477 8;
    CF 23192775 26 18732626 21; CF 23192775 52 32559088 73; CF 23192775 104 16279544 73;
    CF 31332547 281 8139772 73; CF 31332547 562 4069886 73; CF 33367490 1197 2034943 73;
    CF 20753631 1489 22788574 1635; CF 32147918 4613 11394287 1635; CF 27468246 7883 11394287 3270;
    CF 13734123 7883 25128410 14423; CF 13734123 15766 26298328 30189; CF 13734123 31532 26883287 61721;
    CF 13734123 63064 20308705 93253; CF 13734123 126128 30755537 282445; CF 13734123 252256 22244830 408573;
    CF 24856538 913085 11122415 408573; CF 12428269 913085 23550684 1730231;
    CF 12428269 1826170 24203611 3556401; CF 18315940 5382571 24203611 7112802;
    CF 9157970 5382571 33361581 19608175; CF 4578985 5382571 24203611 28451208;
    CF 4578985 10765142 9812313 23068637]);
  ((-37), (-148), [
    CF 33554431 1 1 0; CF 17840596 1 17840597 1; CF 8920298 1 26760895 3; CF 4460149 1 31221044 7;
    CF 4460149 2 33451118 15; CF 30106006 27 25645857 23; CF 15053003 27 25645857 46;
    CF 15053003 54 20349430 73; CF 25227718 181 10174715 73; CF 12613859 181 22788574 327;
    CF 24008146 689 11394287 327; CF 23398360 1343 11394287 654; CF 23093467 2651 11394287 1308;
    CF 28638164 6575 11394287 2616; CF 14319082 6575 25713369 11807; CF 7159541 6575 32872910 30189;
    CF 7159541 13150 30755537 56489; CF 18957539 69639 30755537 112978; CF 24856538 182617 30755537 225956;
    CF 12428269 182617 30755537 451912; CF 12428269 365234 21591903 634529;
    CF 12428269 730468 29438355 1730231; CF 12428269 1460936 33361581 3921635;
    CF 22894925 5382571 33361581 7843270; CF 22894925 10765142 28128253 13225841;
    CF 22894925 21530284 25511589 23990983; CF 17661597 33217772 1308332 2460699;
    CF 8503273 31985758 654166 2460699]);
  ((-36), (-145), [
    CF 33554431 1 1 0; CF 22300745 1 22300746 1; CF 22300745 2 33451118 3; CF 22300745 4 16725559 3;
    CF 19513152 7 16725559 6; CF 9756576 7 26482135 19; CF 4878288 7 31360423 45; CF 2439144 7 31360423 90;
    CF 1219572 7 32579995 187; CF 609786 7 33189781 381; CF 304893 7 33494674 769;
    CF 28638164 1315 28333271 1301; CF 14319082 1315 28333271 2602; CF 7159541 1315 28333271 5204;
    CF 7159541 2630 32065488 11779; CF 7159541 5260 30351826 22299; CF 7159541 10520 29494995 43339;
    CF 25486809 74899 18327268 53859; CF 25486809 149798 9163634 53859; CF 30068626 353455 4581817 53859;
    CF 28779764 676609 33361581 784327; CF 14389882 676609 33361581 1568654;
    CF 7194941 676609 33361581 3137308; CF 20278261 3813917 33361581 6274616;
    CF 20278261 7627834 26819921 10088533; CF 23549091 17716367 26819921 20177066;
    CF 21913676 32972035 1635415 2460699; CF 10956838 32972035 1635415 4921398]);
  ((-35), (-142), [
    CF 33554431 1 1 0; CF 27875931 1 27875932 1; CF 27875931 2 13937966 1; CF 27875931 4 6968983 1;
    CF 24391440 7 31360423 9; CF 12195720 7 31360423 18; CF 6097860 7 31360423 36; CF 3048930 7 31360423 72;
    CF 1524465 7 32884888 151; CF 28638164 263 27113699 249; CF 14319082 263 27113699 498;
    CF 7159541 263 27113699 996; CF 7159541 526 31455702 2311; CF 7159541 1052 30046933 4415;
    CF 7159541 2104 32922319 9675; CF 7159541 4208 27200471 15987; CF 7159541 8416 31499088 37027;
    CF 30068626 70691 22909085 53859; CF 15034313 70691 22909085 107718; CF 15034313 141382 18971699 178409;
    CF 17003006 319791 18971699 356818; CF 27473202 1033427 18971699 713636;
    CF 13736601 1033427 32708300 2460699; CF 13736601 2066854 30090751 4527553;
    CF 21913676 6594407 30090751 9055106; CF 10956838 6594407 30090751 18110212;
    CF 5478419 6594407 24612332 29626017; CF 5478419 13188814 12306166 29626017]);
  ((-34), (-138), [
    CF 33554431 1 1 0; CF 17422457 1 17422458 1; CF 17422457 2 26133686 3; CF 30489300 7 13066843 3;
    CF 15244650 7 28311493 13; CF 7622325 7 28311493 26; CF 33211559 61 25589234 47;
    CF 33211559 122 12794617 47; CF 23003088 169 12794617 94; CF 11501544 169 24296161 357;
    CF 5750772 169 30046933 883; CF 2875386 169 32922319 1935; CF 1437693 169 32922319 3870;
    CF 18617699 4377 17180006 4039; CF 27207702 12793 8590003 4039; CF 22193854 20871 30783857 28949;
    CF 11096927 20871 30783857 57898; CF 32037319 120511 20940392 78769; CF 32037319 241022 10470196 78769;
    CF 32037319 482044 5235098 78769; CF 32037319 964088 2617549 78769; CF 33032728 1988085 2617549 157538;
    CF 16516364 1988085 19133913 2303161; CF 27392095 6594407 19133913 4606322;
    CF 27392095 13188814 23263004 11200729; CF 27392095 26377628 11631502 11200729;
    CF 15760593 30353798 5815751 11200729; CF 4972421 19153069 5815751 22401458]);
  ((-33), (-135), [
    CF 33554431 1 1 0; CF 21778071 1 21778072 1; CF 32667107 3 10889036 1; CF 32667107 6 5444518 1;
    CF 32667107 12 2722259 1; CF 20416942 15 23139201 17; CF 10208471 15 33347672 49;
    CF 10208471 30 26882307 79; CF 28753860 169 18545389 109; CF 14376930 169 32922319 387;
    CF 7188465 169 32922319 774; CF 20055392 943 32922319 1548; CF 10027696 943 32922319 3096;
    CF 5013848 943 32922319 6192; CF 2506924 943 32922319 12384; CF 1253462 943 32922319 24768;
    CF 626731 943 33549050 50479; CF 26802221 80655 26175490 78769; CF 26802221 161310 13087745 78769;
    CF 33032728 397617 13087745 157538; CF 16516364 397617 29604109 712693; CF 8258182 397617 29604109 1425386;
    CF 4129091 397617 29604109 2850772; CF 4129091 795234 33382964 6429325;
    CF 33207846 12791197 29078755 11200729; CF 16603923 12791197 29078755 22401458;
    CF 16603923 25582394 6237416 9610261; CF 10366507 31944266 3118708 9610261]);
  ((-32), (-132), [
    CF 33554431 1 1 0; CF 27222589 1 27222590 1; CF 27222589 2 13611295 1; CF 20416942 3 13611295 2;
    CF 10208471 3 23819766 7; CF 10208471 6 32326825 19; CF 10208471 12 31476119 37;
    CF 10208471 24 31050766 73; CF 10208471 48 25733854 121; CF 23075398 217 12866927 121;
    CF 24404626 459 12866927 242; CF 25069240 943 12866927 484; CF 12534620 943 25401547 1911;
    CF 6267310 943 31668857 4765; CF 3133655 943 31668857 9530; CF 26802221 16131 23668566 14245;
    CF 26802221 32262 11834283 14245; CF 26802221 64524 19318252 46507; CF 26802221 129048 9659126 46507;
    CF 31631784 304603 4829563 46507; CF 20645455 397617 25475018 490631; CF 20645455 795234 33382964 1285865;
    CF 20645455 1590468 16691482 1285865; CF 28991196 4466801 8345741 1285865;
    CF 14495598 4466801 22841339 7038531; CF 30089138 18543863 22841339 14077062;
    CF 15044569 18543863 22841339 28154124; CF 11146184 27477465 3898385 9610261]);
  ((-31), (-128), [
    CF 33554431 1 1 0; CF 17014118 1 17014119 1; CF 8507059 1 25521178 3; CF 29774707 7 21267648 5;
    CF 29774707 14 10633824 5; CF 29774707 28 5316912 5; CF 32433163 61 2658456 5; CF 32433163 122 1329228 5;
    CF 33097777 249 664614 5; CF 33430084 503 332307 5; CF 31336550 943 31668857 953;
    CF 15668275 943 31668857 1906; CF 15668275 1886 23668566 2849; CF 27502558 6621 11834283 2849;
    CF 25585562 12319 11834283 5698; CF 24627064 23715 11834283 11396; CF 12313532 23715 24147815 46507;
    CF 6156766 23715 30304581 116729; CF 3078383 23715 33382964 257173; CF 19769865 304603 16691482 257173;
    CF 28115606 866379 8345741 257173; CF 30749285 1895071 8345741 514346; CF 27893254 3438109 8345741 1028692;
    CF 22292368 5495493 30638109 7552877; CF 11146184 5495493 30638109 15105754;
    CF 5573092 5495493 30638109 30211508; CF 2786546 5495493 16705379 32945551;
    CF 1393273 5495493 8345741 32918144]);
  ((-30), (-125), [
    CF 33554431 1 1 0; CF 21267647 1 21267648 1; CF 31901471 3 10633824 1; CF 31901471 6 5316912 1;
    CF 31901471 12 2658456 1; CF 33230699 25 1329228 1; CF 33230699 50 664614 1; CF 33230699 100 332307 1;
    CF 33396853 201 332307 2; CF 33479930 403 332307 4; CF 33355315 803 332307 8; CF 19502267 939 19834574 955;
    CF 29419554 2833 9917287 955; CF 24627064 4743 9917287 1910; CF 12313532 4743 22230819 8563;
    CF 6156766 4743 28387585 21869; CF 3078383 4743 31465968 48481; CF 3078383 9486 31124899 95911;
    CF 3078383 18972 32493556 200257; CF 22403544 276145 19325161 238201; CF 11201772 276145 30526933 752547;
    CF 5600886 276145 30526933 1505094; CF 2800443 276145 33327376 3286333;
    CF 27865460 5495493 25065017 4943203; CF 13932730 5495493 25065017 9886406;
    CF 6966365 5495493 32031382 25268305; CF 6966365 10990986 16015691 25268305;
    CF 6966365 21981972 4524663 14277319]);
  ((-29), (-122), [
    CF 33554431 1 1 0; CF 26584559 1 26584560 1; CF 26584559 2 13292280 1; CF 33230699 5 6646140 1;
    CF 33230699 10 3323070 1; CF 33230699 20 1661535 1; CF 32399932 39 1661535 2; CF 32815316 79 1661535 4;
    CF 33023008 159 1661535 8; CF 18173039 175 19834574 191; CF 28090326 541 9917287 191;
    CF 23962450 923 9917287 382; CF 31815799 2451 9917287 764; CF 30783830 4743 9917287 1528;
    CF 15391915 4743 25309202 7799; CF 15391915 9486 28046516 17285; CF 15391915 18972 29415173 36257;
    CF 22403544 55229 29415173 72514; CF 11201772 55229 29415173 145028; CF 5600886 55229 29415173 290056;
    CF 2800443 55229 32215616 635341; CF 2800443 110458 32910466 1298089; CF 2800443 220916 33257891 2623585;
    CF 2800443 441832 32031382 5053661; CF 18816134 5937325 16015691 5053661;
    CF 25423758 16044647 16015691 10107322; CF 12711879 16044647 16015691 20214644;
    CF 12711879 32089294 1651906 4169997]);
  ((-28), (-119), [
    CF 33554431 1 1 0; CF 33230699 1 33230700 1; CF 33230699 2 16615350 1; CF 33230699 4 8307675 1;
    CF 29076862 7 8307675 2; CF 31153781 15 8307675 4; CF 28038403 27 8307675 8; CF 18173039 35 26480714 51;
    CF 18173039 70 31413396 121; CF 18173039 140 15706698 121; CF 26026388 401 7853349 121;
    CF 20866543 643 28719892 885; CF 20866543 1286 14359946 885; CF 20866543 2572 28046516 3457;
    CF 20866543 5144 14023258 3457; CF 27878172 13745 7011629 3457; CF 27962344 27573 7011629 6914;
    CF 28004430 55229 7011629 13828; CF 14002215 55229 21013844 82885; CF 14002215 110458 24509137 193343;
    CF 14002215 220916 33257891 524717; CF 14002215 441832 23630053 745633;
    CF 18816134 1187465 23630053 1491266; CF 9408067 1187465 33038120 4169997;
    CF 9408067 2374930 25927127 6544927; CF 27075664 13669717 17667597 8919857;
    CF 13537832 13669717 31205429 31509431; CF 6768916 13669717 10898681 22009711]);
  ((-27), (-115), [
    CF 33554431 1 1 0; CF 20769187 1 20769188 1; CF 31153781 3 10384594 1; CF 31153781 6 5192297 1;
    CF 18173039 7 23365336 9; CF 18173039 14 29855707 23; CF 18173039 28 24014373 37;
    CF 18173039 56 21093706 65; CF 18173039 112 28719892 177; CF 32532985 401 14359946 177;
    CF 32532985 802 7179973 177; CF 27036452 1333 7179973 354; CF 27878172 2749 7179973 708;
    CF 13939086 2749 21119059 4165; CF 6969543 2749 28088602 11079; CF 27983387 22075 21013844 16577;
    CF 27983387 44150 10506922 16577; CF 33236848 104877 5253461 16577; CF 32378807 204339 5253461 33154;
    CF 18816134 237493 24069595 303801; CF 9408067 237493 33477662 845095; CF 9408067 474986 26146898 1320081;
    CF 9408067 949972 31889583 3220025; CF 9408067 1899944 30056892 6069941;
    CF 9408067 3799888 24436513 9869829; CF 16922290 13669717 24436513 19739658;
    CF 8461145 13669717 15975368 25809599; CF 8461145 27339434 7987684 25809599]);
  ((-26), (-112), [
    CF 33554431 1 1 0; CF 25961484 1 25961485 1; CF 12980742 1 25961485 2; CF 6490371 1 32451856 5;
    CF 6490371 2 29206670 9; CF 27584077 17 21093706 13; CF 27584077 34 10546853 13;
    CF 29612318 73 10546853 26; CF 25353012 125 10546853 52; CF 12676506 125 23223359 229;
    CF 6338253 125 29561612 583; CF 27457312 1083 21119059 833; CF 13728656 1083 21119059 1666;
    CF 27983387 4415 21119059 3332; CF 27983387 8830 24551223 7747; CF 27983387 17660 26267305 16577;
    CF 27125346 34237 26267305 33154; CF 13562673 34237 26267305 66308; CF 13562673 68474 33477662 169019;
    CF 30301504 305967 16738831 169019; CF 15150752 305967 31889583 644005; CF 7575376 305967 31889583 1288010;
    CF 3787688 305967 31889583 2576020; CF 1893844 305967 31889583 5152040; CF 946922 305967 32836505 10610047;
    CF 473461 305967 33309966 21526061; CF 20916132 27033467 20442671 26421533;
    CF 10458066 27033467 9984605 25809599]);
  ((-25), (-109), [
    CF 33554431 1 1 0; CF 32451855 1 32451856 1; CF 32451855 2 16225928 1; CF 32451855 4 8112964 1;
    CF 32451855 8 4056482 1; CF 32451855 16 2028241 1; CF 25353012 25 27381253 27; CF 12676506 25 27381253 54;
    CF 6338253 25 27381253 108; CF 6338253 50 29536259 233; CF 6338253 100 30613762 483;
    CF 27983387 883 21645134 683; CF 27983387 1766 10822567 683; CF 27983387 3532 19402977 2449;
    CF 27983387 7064 23693182 5981; CF 27983387 14128 11846591 5981; CF 27983387 28256 19914989 20109;
    CF 23949188 48365 19914989 40218; CF 11974594 48365 31889583 128801; CF 5987297 48365 31889583 257602;
    CF 18938440 305967 31889583 515204; CF 9469220 305967 31889583 1030408; CF 4734610 305967 31889583 2060816;
    CF 2367305 305967 31889583 4121632; CF 21863054 5651467 19495749 5039533;
    CF 10931527 5651467 30427276 15730533; CF 26145165 27033467 15213638 15730533;
    CF 10931527 22605868 7606819 15730533]);
  ((-24), (-105), [
    CF 33554431 1 1 0; CF 20282409 1 20282410 1; CF 30423614 3 10141205 1; CF 25353012 5 10141205 2;
    CF 12676506 5 22817711 9; CF 6338253 5 29155964 23; CF 6338253 10 27254488 43; CF 6338253 20 32642003 103;
    CF 6338253 40 32166634 203; CF 6338253 80 28759823 363; CF 6338253 160 30225544 763;
    CF 21451025 1083 15112772 763; CF 29007411 2929 7556386 763; CF 32785604 6621 3778193 763;
    CF 23949188 9673 27727381 11199; CF 11974594 9673 27727381 22398; CF 5987297 9673 27727381 44796;
    CF 5987297 19346 28831933 93161; CF 5987297 38692 29384209 189891; CF 23673050 305967 17685753 228583;
    CF 11836525 305967 29522278 763133; CF 26597664 1375067 14761139 763133;
    CF 13298832 1375067 28059971 2901333; CF 6649416 1375067 28059971 5802666;
    CF 3324708 1375067 31384679 12980399; CF 1662354 1375067 33047033 27335865;
    CF 831177 1375067 19748201 32670658; CF 831177 2750134 9458512 31295591]);
  ((-23), (-102), [
    CF 33554431 1 1 0; CF 25353012 1 25353013 1; CF 12676506 1 25353013 2; CF 6338253 1 31691266 5;
    CF 6338253 2 28522139 9; CF 6338253 4 30106702 19; CF 6338253 8 27729857 35; CF 6338253 16 29710561 75;
    CF 6338253 32 30700913 155; CF 6338253 64 31196089 315; CF 6338253 128 31443677 635;
    CF 25229218 1019 18890965 763; CF 12614609 1019 31505574 2545; CF 28367396 4583 15752787 2545;
    CF 29936485 9673 15752787 5090; CF 29936485 19346 22844636 14763; CF 29936485 38692 11422318 14763;
    CF 29936485 77384 5711159 14763; CF 17823822 92147 23534981 121673; CF 8911911 92147 32446892 335493;
    CF 25135357 519787 16223446 335493; CF 33247080 1375067 8111723 335493;
    CF 16623540 1375067 24735263 2046053; CF 8311770 1375067 33047033 5467173;
    CF 4155885 1375067 33047033 10934346; CF 22757344 15059547 18601459 12309413;
    CF 11378672 15059547 18601459 24618826; CF 5689336 15059547 7222787 19118558]);
  ((-22), (-99), [
    CF 33554431 1 1 0; CF 31691265 1 31691266 1; CF 31691265 2 15845633 1; CF 31691265 4 23768449 3;
    CF 31691265 8 27729857 7; CF 31691265 16 29710561 15; CF 31691265 32 30700913 31;
    CF 31691265 64 31196089 63; CF 31691265 128 31443677 127; CF 31567471 255 31443677 254;
    CF 31567471 510 31505574 509; CF 31567471 1020 15752787 509; CF 23660129 1529 15752787 1018;
    CF 19706458 2547 15752787 2036; CF 25606016 6619 15752787 4072; CF 12803008 6619 28555795 14763;
    CF 6401504 6619 28555795 29526; CF 3200752 6619 31756547 65671; CF 1600376 6619 33356923 137961;
    CF 800188 6619 33356923 275922; CF 400094 6619 33356923 551844; CF 200047 6619 33356923 1103688;
    CF 20779425 1375067 20579378 1361829; CF 31069114 4111963 10289689 1361829;
    CF 15534557 4111963 25824246 6835621; CF 28446680 15059547 12912123 6835621;
    CF 14223340 15059547 27135463 28730789; CF 7111670 15059547 12912123 27342484]);
  ((-21), (-95), [
    CF 33554431 1 1 0; CF 19807040 1 19807041 1; CF 9903520 1 29710561 3; CF 4951760 1 29710561 6;
    CF 32186441 13 29710561 12; CF 32186441 26 30948501 25; CF 31567471 51 30948501 50;
    CF 31567471 102 31257986 101; CF 31567471 204 15628993 101; CF 31567471 408 23598232 305;
    CF 31567471 816 11799116 305; CF 31567471 1632 5899558 305; CF 31567471 3264 2949779 305;
    CF 32007520 6619 2949779 610; CF 16003760 6619 18953539 7839; CF 8001880 6619 26955419 22297;
    CF 4000940 6619 30956359 51213; CF 2000470 6619 32956829 109045; CF 1000235 6619 32956829 218090;
    CF 20979472 277661 19979237 264423; CF 10489736 277661 30468973 806507; CF 5244868 277661 30468973 1613014;
    CF 2622434 277661 33091407 3503689; CF 1311217 277661 33091407 7007378;
    CF 1311217 555322 32935916 13948903; CF 17779175 15059547 16467958 13948903;
    CF 17779175 30119094 8233979 13948903; CF 4772598 16170191 8233979 27897806]);
  ((-20), (-92), [
    CF 33554431 1 1 0; CF 24758800 1 24758801 1; CF 12379400 1 24758801 2; CF 6189700 1 30948501 5;
    CF 3094850 1 30948501 10; CF 32495926 21 30948501 20; CF 16247963 21 30948501 40;
    CF 16247963 42 23598232 61; CF 28047079 145 11799116 61; CF 28047079 290 5899558 61;
    CF 30996858 641 2949779 61; CF 33197103 1373 2949779 122; CF 32822336 2715 2949779 244;
    CF 31160063 5155 2949779 488; CF 20004700 6619 22954479 7595; CF 10002350 6619 32956829 21809;
    CF 5001175 6619 32956829 43618; CF 23980177 63475 18979002 50237; CF 33469678 177187 9489501 50237;
    CF 26224340 277661 9489501 100474; CF 13112170 277661 22601671 478609; CF 6556085 277661 29157756 1234879;
    CF 6556085 555322 27691048 2345523; CF 20401609 3456167 13845524 2345523;
    CF 27324371 9257857 6922762 2345523; CF 30785752 20861237 3461381 2345523;
    CF 15392876 20861237 18854257 25552283; CF 7696438 20861237 11157819 30243329]);
  ((-19), (-89), [
    CF 33554431 1 1 0; CF 30948500 1 30948501 1; CF 15474250 1 30948501 2; CF 7737125 1 30948501 4;
    CF 19342813 5 30948501 8; CF 25145657 13 30948501 16; CF 28047079 29 30948501 32;
    CF 28047079 58 29497790 61; CF 28047079 116 14748895 61; CF 21397987 177 14748895 122;
    CF 32822336 543 14748895 244; CF 31160063 1031 14748895 488; CF 31160063 2062 22954479 1519;
    CF 27057271 3581 22954479 3038; CF 25005875 6619 22954479 6076; CF 23980177 12695 22954479 12152;
    CF 23980177 25390 23467328 24847; CF 23980177 50780 11733664 24847; CF 29847009 126407 5866832 24847;
    CF 32780425 277661 2933416 24847; CF 32780425 555322 1466708 24847; CF 33513779 1135491 733354 24847;
    CF 33513779 2270982 366677 24847; CF 16940228 2295829 17306905 2345523;
    CF 8470114 2295829 25777019 6986875; CF 4235057 2295829 30012076 16269579;
    CF 19241095 20861237 15006038 16269579; CF 11738076 25452895 7503019 16269579]);
  ((-18), (-85), [
    CF 33554431 1 1 0; CF 19342813 1 19342814 1; CF 19342813 2 29014220 3; CF 19342813 4 14507110 3;
    CF 26596368 11 7253555 3; CF 13298184 11 20551739 17; CF 6649092 11 27200831 45;
    CF 3324546 11 30525377 101; CF 1662273 11 32187650 213; CF 1662273 22 32716555 433;
    CF 20513960 543 18851687 499; CF 29108667 1541 18851687 998; CF 23980177 2539 18851687 1996;
    CF 23980177 5078 21415932 4535; CF 23980177 10156 10707966 4535; CF 23980177 20312 29334160 24847;
    CF 23980177 40624 14667080 24847; CF 31313717 106095 7333540 24847; CF 31313717 212190 3666770 24847;
    CF 33147102 449227 1833385 24847; CF 16573551 449227 18406936 498921; CF 16573551 898454 25777019 1397375;
    CF 21175285 2295829 25777019 2794750; CF 23476152 5090579 25777019 5589500;
    CF 11738076 5090579 25777019 11179000; CF 5869038 5090579 31646057 27448579;
    CF 2934519 5090579 16973462 29444263; CF 2934519 10181158 8486731 29444263]);
  ((-17), (-82), [
    CF 33554431 1 1 0; CF 24178516 1 24178517 1; CF 12089258 1 24178517 2; CF 6044629 1 30223146 5;
    CF 33245460 11 27200831 9; CF 16622730 11 27200831 18; CF 8311365 11 27200831 36;
    CF 8311365 22 26067463 69; CF 25500779 135 17189414 91; CF 25500779 270 8594707 91;
    CF 25642450 543 8594707 182; CF 12821225 543 21415932 907; CF 23529191 1993 10707966 907;
    CF 28883174 4893 5353983 907; CF 30503536 10335 5353983 1814; CF 31313717 21219 5353983 3628;
    CF 31313717 42438 18333850 24847; CF 31313717 84876 9166925 24847; CF 31313717 169752 20240321 109723;
    CF 31313717 339504 25777019 279475; CF 28545368 618979 25777019 558950;
    CF 14272684 618979 25777019 1117900; CF 32913361 2854779 25777019 2235800;
    CF 29345190 5090579 25777019 4471600; CF 14672595 5090579 25777019 8943200;
    CF 14672595 10181158 20224807 14033779; CF 17448701 24214937 20224807 28067558;
    CF 11896489 33019390 1388053 3852621]);
  ((-16), (-79), [
    CF 33554431 1 1 0; CF 30223145 1 30223146 1; CF 30223145 2 15111573 1; CF 22667359 3 15111573 2;
    CF 22667359 6 18889466 5; CF 32112092 17 9444733 5; CF 25500779 27 9444733 10; CF 25500779 54 17472756 37;
    CF 25500779 108 8736378 37; CF 29868968 253 4368189 37; CF 14934484 253 19302673 327;
    CF 7467242 253 26769915 907; CF 30503536 2067 26769915 1814; CF 15251768 2067 26769915 3628;
    CF 7625884 2067 26769915 7256; CF 3812942 2067 30582857 16579; CF 1906471 2067 32489328 35225;
    CF 27683490 60029 25777019 55895; CF 13841745 60029 25777019 111790; CF 19809382 171819 25777019 223580;
    CF 9904691 171819 25777019 447160; CF 17840855 618979 25777019 894320;
    CF 21808937 1513299 25777019 1788640; CF 23792978 3301939 25777019 3577280;
    CF 11896489 3301939 25777019 7154560; CF 30733243 17060377 18836754 10456499;
    CF 21314866 23664255 9418377 10456499; CF 10657433 23664255 9418377 20912998]);
  ((-15), (-75), [
    CF 33554431 1 1 0; CF 18889465 1 18889466 1; CF 28334198 3 9444733 1; CF 33056565 7 9444733 2;
    CF 30695382 13 9444733 4; CF 24792424 21 9444733 8; CF 12396212 21 21840945 37; CF 6198106 21 28039051 95;
    CF 3099053 21 31138104 211; CF 18668105 253 15569052 211; CF 26452631 717 7784526 211;
    CF 30344894 1645 3892263 211; CF 19064710 2067 22956973 2489; CF 9532355 2067 32489328 7045;
    CF 9532355 4134 25777019 11179; CF 17654687 15313 25777019 22358; CF 21715853 37671 25777019 44716;
    CF 23746436 82387 25777019 89432; CF 11873218 82387 25777019 178864; CF 31713628 440115 25777019 357728;
    CF 15856814 440115 25777019 715456; CF 7928407 440115 25777019 1430912;
    CF 16852713 1871027 25777019 2861824; CF 21314866 4732851 25777019 5723648;
    CF 10657433 4732851 25777019 11447296; CF 28874659 25645849 18217226 16180147;
    CF 10657433 18931404 9108613 16180147; CF 774410 2751257 9108613 32360294]);
  ((-14), (-72), [
    CF 33554431 1 1 0; CF 23611832 1 23611833 1; CF 11805916 1 23611833 2; CF 5902958 1 29514791 5;
    CF 2951479 1 32466270 11; CF 30990530 21 28039051 19; CF 15495265 21 28039051 38;
    CF 21767158 59 28039051 76; CF 10883579 59 28039051 152; CF 30344894 329 19461315 211;
    CF 15172447 329 19461315 422; CF 15172447 658 32489328 1409; CF 31417111 2725 16244664 1409;
    CF 31417111 5450 8122332 1409; CF 31417111 10900 4061166 1409; CF 33447694 23209 2030583 1409;
    CF 32968511 45753 2030583 2818; CF 31713628 88023 2030583 5636; CF 15856814 88023 17887397 99295;
    CF 7928407 88023 25815804 286613; CF 7928407 176046 28764716 638705; CF 7928407 352092 30239172 1342889;
    CF 23047993 2047073 15119586 1342889; CF 30607786 5437035 7559793 1342889;
    CF 30423479 10808591 7559793 2685778; CF 30423479 21617182 18991636 13494369;
    CF 20927661 29739995 9495818 13494369; CF 11431843 32491252 4747909 13494369]);
  ((-13), (-69), [
    CF 33554431 1 1 0; CF 29514790 1 29514791 1; CF 14757395 1 29514791 2; CF 14757395 2 22136093 3;
    CF 18446744 5 22136093 6; CF 9223372 5 31359465 17; CF 4611686 5 31359465 34; CF 2305843 5 31359465 68;
    CF 26056026 113 23750183 103; CF 13028013 113 23750183 206; CF 31417111 545 18389098 319;
    CF 31417111 1090 9194549 319; CF 31417111 2180 20305830 1409; CF 31417111 4360 10152915 1409;
    CF 30937928 8587 10152915 2818; CF 25621879 14223 10152915 5636; CF 25621879 28446 17887397 19859;
    CF 21754638 48305 17887397 39718; CF 10877319 48305 28764716 127741; CF 25259677 224351 14382358 127741;
    CF 32450856 576443 7191179 127741; CF 30607786 1087407 7191179 255482;
    CF 15303893 1087407 22495072 1598371; CF 15303893 2174814 26551429 3773185;
    CF 20927661 5947999 26551429 7546370; CF 20927661 11895998 23739545 13494369;
    CF 22333603 25390367 23739545 26988738; CF 14600922 33198653 702971 1598371]);
  ((-12), (-65), [
    CF 33554431 1 1 0; CF 18446744 1 18446745 1; CF 9223372 1 27670117 3; CF 4611686 1 32281803 7;
    CF 2305843 1 32281803 14; CF 2305843 2 33434724 29; CF 2305843 4 32858263 57; CF 31417111 109 29111268 101;
    CF 31417111 218 14555634 101; CF 31417111 436 7277817 101; CF 31417111 872 19347464 537;
    CF 31417111 1744 9673732 537; CF 31417111 3488 4836866 537; CF 31417111 6976 2418433 537;
    CF 21754638 9661 24173071 10735; CF 10877319 9661 24173071 21470; CF 10877319 19322 28402514 50453;
    CF 10877319 38644 25078576 89097; CF 23416607 166385 12539288 89097; CF 23416607 332770 29686251 421867;
    CF 23416607 665540 26551429 754637; CF 24984018 1420177 26551429 1509274;
    CF 12492009 1420177 26551429 3018548; CF 19521719 4438725 26551429 6037096;
    CF 23036574 10475821 26551429 12074192; CF 11518287 10475821 26551429 24148384;
    CF 11518287 20951642 7516571 13672563; CG]);
  ((-11), (-62), [
    CG; CG; CG; CG; CG; CG; CG; CG; CG; CG; CG; CG; CG; CG; CG; CG; CG; CG; CG; CG; CG; CG; CG; CG; CG; CG; CG;
    CG]);
  ((-10), (-59), [
    CG; CG; CG; CG; CG; CG; CG; CG; CG; CG; CG; CG; CG; CG; CG; CG; CG; CG; CG; CG; CG; CG; CG; CG; CG; CG; CG;
    CG]);
  ((-9), (-55), [
    CG; CG; CG; CG; CG; CG; CG; CG; CG; CG; CG; CG; CG; CG; CG; CG; CG; CG; CG; CG; CG; CG; CG; CG; CG; CG; CG;
    CG]);
  ((-8), (-52), [
    CG; CG; CG; CG; CG; CG; CG; CG; CG; CG; CG; CG; CG; CG; CG; CG; CG; CG; CG; CG; CG; CG; CG; CG; CG; CG; CG;
    CG]);
  ((-7), (-49), [
    CG; CG; CG; CG; CG; CG; CG; CG; CG; CG; CG; CG; CG; CG; CG; CG; CG; CG; CG; CG; CG; CG; CG; CG; CG; CG; CG;
    CG]);
  ((-6), (-45), [
    CG; CG; CG; CG; CG; CG; CG; CG; CG; CG; CG; CG; CG; CG; CG; CG; CG; CG; CG; CG; CG; CG; CG; CG; CG; CG; CG;
    CG]);
  ((-5), (-42), [
    CG; CG; CG; CG; CG; CG; CG; CG; CG; CG; CG; CG; CG; CG; CG; CG; CG; CG; CG; CG; CG; CG; CG; CG; CG; CG; CG;
    CG]);
  ((-4), (-39), [
    CG; CG; CG; CG; CG; CG; CG; CG; CG; CG; CG; CG; CG; CG; CG; CG; CG; CG; CG; CG; CG; CG; CG; CG; CG; CG; CG;
    CG]);
  ((-3), (-35), [
    CG; CG; CG; CG; CG; CG; CG; CG; CG; CG; CG; CG; CG; CG; CG; CG; CG; CG; CG; CG; CG; CG; CG; CG; CG; CG; CG;
    CG]);
  ((-2), (-32), [
    CG; CG; CG; CG; CG; CG; CG; CG; CG; CG; CG; CG; CG; CG; CG; CG; CG; CG; CG; CG; CG; CG; CG; CG; CG; CG; CG;
    CG]);
  ((-1), (-29), [
    CG; CG; CG; CG; CG; CG; CG; CG; CG; CG; CG; CG; CG; CG; CG; CG; CG; CG; CG; CG; CG; CG; CG; CG; CG; CG; CG;
    CG]);
  (0, (-25), [
    CG; CG; CG; CG; CG; CG; CG; CG; CG; CG; CG; CG; CG; CG; CG; CG; CG; CG; CG; CG; CG; CG; CG; CG; CG; CG; CG;
    CG]);
  (1, (-22), [
    CG; CG; CG; CG; CG; CG; CG; CG; CG; CG; CG; CG; CG; CG; CG; CG; CG; CG; CG; CG; CG; CG; CG; CG; CG; CG; CG;
    CG]);
  (2, (-19), [
    CG; CG; CG; CG; CG; CG; CG; CG; CG; CG; CG; CG; CG; CG; CG; CG; CG; CG; CG; CG; CG; CG; CG; CG; CG; CG; CG;
    CG]);
  (3, (-16), [
    CG; CG; CG; CG; CG; CG; CG; CG; CG; CG; CG; CG; CG; CG; CG; CG; CG; CG; CG; CG; CG; CG; CG; CG; CG; CG; CG;
    CG]);
  (4, (-12), [
    CG; CG; CG; CG; CG; CG; CG; CG; CG; CG; CG; CG; CG; CG; CG; CG; CG; CG; CG; CG; CG; CG; CG; CG; CG; CG; CG;
    CG]);
  (5, (-9), [
    CG; CG; CG; CG; CG; CG; CG; CG; CG; CG; CG; CG; CG; CG; CG; CG; CG; CG; CG; CG; CG; CG; CG; CG; CG; CG; CG;
    CG]);
  (6, (-6), [
    CG; CG; CG; CG; CG; CG; CG; CG; CG; CG; CG; CG; CG; CG; CG; CG; CG; CG; CG; CG; CG; CG; CG; CG; CG; CG; CG;
    CG]);
  (7, (-2), [
    CG; CG; CG; CG; CG; CG; CG; CG; CG; CG; CG; CG; CG; CG; CG; CG; CG; CG; CG; CG; CG; CG; CG; CG; CG; CG; CG;
    CG]);
  (8, 1, [
    CG; CG; CG; CG; CG; CG; CG; CG; CG; CG; CG; CG; CG; CG; CG; CG; CG; CG; CG; CG; CG; CG; CG; CG; CG; CG; CG;
    CG]);
  (9, 4, [
    CG; CG; CG; CG; CG; CG; CG; CG; CG; CG; CG; CG; CG; CG; CG; CG; CG; CG; CG; CG; CG; CG; CG; CG; CG; CG; CG;
    CG]);
  (10, 8, [
    CG; CG; CG; CG; CG; CG; CG; CG; CG; CG; CG; CG; CG; CG; CG; CG; CG; CG; CG; CG; CG; CG; CG; CG; CG; CG; CG;
    CG]);
  (11, 11, [
    CG; CG; CG; CG; CG; CG; CG; CG; CG; CG; CG; CG; CG; CG; CG; CG; CG; CG; CG; CG; CG; CG; CG; CG; CG; CG; CG;
    CG]);
  (12, 14, [
    CG; CG; CG; CG; CG; CG; CG; CG; CG; CG; CG; CG; CG; CG; CG; CG; CG; CG; CG; CG; CG; CG; CG; CG;
    CF 27345126 7516571 7279079 2000858; CF 13672563 7516571 20951642 11518287;
    CF 24148384 26551429 10475821 11518287; CF 12074192 26551429 10475821 23036574]);
  (13, 18, [
    CG; CG; CG; CG; CG; CG; CG; CG; CG; CG; CG; CG; CG; CG; CG; CG; CG; CG; CG; CG; CG;
    CF 12786968 702971 23608427 1297887; CF 6393484 702971 30001911 3298745;
    CF 3196742 702971 33198653 7300461; CF 1598371 702971 33198653 14600922;
    CF 26988738 23739545 25390367 22333603; CF 13494369 23739545 11895998 20927661;
    CF 7546370 26551429 5947999 20927661]);
  (14, 21, [
    CG; CG; CG; CG; CG; CG; CG; CG; CG; CG; CG; CG; CG; CG; CG; CG; CG; CG; CG;
    CF 1965509 21611 32486696 357195; CF 31967420 702971 30001911 659749; CF 15983710 702971 30001911 1319498;
    CF 7991855 702971 30001911 2638996; CF 26988738 4747909 18996883 3341967;
    CF 13494369 4747909 32491252 11431843; CF 13494369 9495818 29739995 20927661;
    CF 13494369 18991636 21617182 30423479; CF 2685778 7559793 10808591 30423479]);
  (15, 24, [
    CG; CG; CG; CG; CG; CG; CG; CG; CG; CG; CG; CG; CG; CG; CG; CG; CG; CF 9827545 21611 32486696 71439;
    CF 9827545 43222 26070893 114661; CF 17949219 157883 26070893 229322; CF 17949219 315766 22010056 387205;
    CF 28954247 1018737 11005028 387205; CF 28954247 2037474 5502514 387205;
    CF 31705504 4462153 2751257 387205; CF 32360294 9108613 2751257 774410;
    CF 16180147 9108613 18931404 10657433; CF 16180147 18217226 25645849 28874659;
    CF 11447296 25777019 4732851 10657433]);
  (16, 28, [
    CG; CG; CG; CG; CG; CG; CG; CG; CG; CG; CG; CG; CG; CG; CF 6823484 3001 28667273 12608;
    CF 3411742 3001 32079015 28217; CF 1705871 3001 32079015 56434; CF 23715927 83443 22010056 77441;
    CF 23715927 166886 11005028 77441; CF 29218441 411213 5502514 77441; CF 31969698 899867 2751257 77441;
    CF 32492391 1829159 2751257 154882; CF 31378109 3532861 2751257 309764; CF 30820968 6940265 2751257 619528;
    CF 20912998 9418377 23664255 10657433; CF 10456499 9418377 23664255 21314866;
    CF 10456499 18836754 17060377 30733243; CF 7154560 25777019 3301939 11896489]);
  (17, 31, [
    CG; CG; CG; CG; CG; CG; CG; CG; CG; CG; CG; CG; CF 25920599 2280 8196821 721;
    CF 17058710 3001 25255531 4443; CF 8529355 3001 25255531 8886; CF 25421798 17889 16892443 11887;
    CF 12710899 17889 29603342 41663; CF 12710899 35778 27512570 77441; CF 26467184 148997 13756285 77441;
    CF 26989877 303879 13756285 154882; CF 20373081 458761 13756285 309764;
    CF 30820968 1388053 13756285 619528; CF 15410484 1388053 29166769 2627109;
    CF 7705242 1388053 29166769 5254218; CF 3852621 1388053 33019390 11896489;
    CF 28067558 20224807 24214937 17448701; CF 14033779 20224807 10181158 14672595;
    CF 8943200 25777019 5090579 14672595]);
  (18, 34, [
    CG; CG; CG; CG; CG; CG; CG; CG; CG; CG; CF 25920599 456 15063506 265; CF 25920599 912 33452352 1177;
    CF 25920599 1824 16726176 1177; CF 25920599 3648 8363088 1177; CF 30102143 8473 4181544 1177;
    CF 32192915 18123 2090772 1177; CF 33238301 37423 1045386 1177; CF 33238301 74846 522693 1177;
    CF 33083980 148997 522693 2354; CF 17064683 153705 17587376 158413; CF 17064683 307410 25858371 465823;
    CF 17064683 614820 21461527 773233; CF 19263105 1388053 21461527 1546466;
    CF 19263105 2776106 20362316 2934519; CF 29444263 8486731 10181158 2934519;
    CF 29444263 16973462 5090579 2934519; CF 27448579 31646057 5090579 5869038;
    CF 11179000 25777019 5090579 11738076]);
  (19, 38, [
    CG; CG; CG; CG; CG; CG; CG; CF 24158453 85 15063506 53; CF 31690206 223 7531753 53;
    CF 30908609 435 7531753 106; CF 26751934 753 7531753 212; CF 13375967 753 20907720 1177;
    CF 23829827 2683 10453860 1177; CF 29056757 6543 5226930 1177; CF 31670222 14263 2613465 1177;
    CF 31515901 28387 2613465 2354; CF 17064683 30741 19678148 35449; CF 17064683 61482 26903757 96931;
    CF 17064683 122964 21984220 158413; CF 17064683 245928 28056793 404341; CF 17064683 491856 22560738 650269;
    CF 28345052 1633981 11280369 650269; CF 14172526 1633981 25452895 2934519;
    CF 32539158 7503019 25452895 5869038; CF 16269579 7503019 25452895 11738076;
    CF 16269579 15006038 20861237 19241095; CF 16269579 30012076 2295829 4235057;
    CF 6986875 25777019 2295829 8470114]);
  (20, 41, [
    CG; CG; CG; CG; CG; CF 24158453 17 27000624 19; CF 24158453 34 13500312 19; CF 30908609 87 6750156 19;
    CF 30908609 174 3375078 19; CF 32596148 367 1687539 19; CF 16298074 367 17985613 405;
    CF 8149037 367 26134650 1177; CF 21216362 1911 13067325 1177; CF 23675506 4265 13067325 2354;
    CF 11837753 4265 24905078 8973; CF 24290292 17503 12452539 8973; CF 12145146 17503 24597685 35449;
    CF 6072573 17503 30670258 88401; CF 6072573 35006 33552848 193419; CF 22848997 263431 16776424 193419;
    CF 31237209 720281 8388212 193419; CF 31237209 1440562 4194106 193419; CF 33334262 3074543 2097053 193419;
    CF 18764184 3461381 20861237 3848219; CF 30243329 11157819 20861237 7696438;
    CF 25552283 18854257 20861237 15392876; CF 2345523 3461381 20861237 30785752;
    CF 2345523 6922762 9257857 27324371]);
  (21, 44, [
    CG; CG; CG; CF 21316282 3 14210855 2; CF 10658141 3 24868996 7; CF 10658141 6 23092639 13;
    CF 27533531 31 16875390 19; CF 27533531 62 8437695 19; CF 27533531 124 17985613 81;
    CF 22759572 205 17985613 162; CF 29365399 529 17985613 324; CF 23675506 853 17985613 648;
    CF 11837753 853 29823366 2149; CF 11837753 1706 26749436 3855; CF 11837753 3412 25212471 7267;
    CF 30362865 17503 18525112 10679; CF 30362865 35006 9262556 10679; CF 30362865 70012 4631278 10679;
    CF 32678504 150703 2315639 10679; CF 18654891 172061 20970530 193419; CF 29140156 537541 10485265 193419;
    CF 14570078 537541 25055343 924379; CF 7285039 537541 32340382 2386299;
    CF 23455230 3461381 16170191 2386299; CF 27897806 8233979 16170191 4772598;
    CF 13948903 8233979 30119094 17779175; CF 13948903 16467958 15059547 17779175;
    CF 13948903 32935916 555322 1311217]);
  (22, 48, [
    CF 33554431 1 1 0; CF 17763568 1 17763569 1; CF 8881784 1 26645353 3; CF 4440892 1 31086245 7;
    CF 2220446 1 33306691 15; CF 1110223 1 33306691 30; CF 22759572 41 21649349 39;
    CF 11379786 41 33029135 119; CF 5689893 41 33029135 238; CF 5689893 82 30739300 443;
    CF 32439329 935 26749436 771; CF 32439329 1870 13374718 771; CF 32439329 3740 6687359 771;
    CF 32938062 7595 6687359 1542; CF 16469031 7595 23156390 10679; CF 28047226 25869 11578195 10679;
    CF 14023613 25869 25601808 47227; CF 26824517 98965 12800904 47227; CF 33224969 245157 6400452 47227;
    CF 33224969 490314 3200226 47227; CF 33224969 980628 1600113 47227; CF 19012654 1122309 20612767 1216763;
    CF 9506327 1122309 30119094 3555835; CF 24565874 5800453 15059547 3555835;
    CF 27342484 12912123 15059547 7111670; CF 28730789 27135463 15059547 14223340;
    CF 6835621 12912123 15059547 28446680; CF 6835621 25824246 4111963 15534557]);
  (23, 51, [
    CF 33554431 1 1 0; CF 22204460 1 22204461 1; CF 11102230 1 33306691 3; CF 5551115 1 33306691 6;
    CF 24980018 9 19428903 7; CF 12490009 9 31918912 23; CF 28449465 41 15959456 23; CF 28449465 82 7979728 23;
    CF 32439329 187 3989864 23; CF 32439329 374 1994932 23; CF 32439329 748 33436795 771;
    CF 32938062 1519 33436795 1542; CF 16469031 1519 33436795 3084; CF 16469031 3038 24952913 4603;
    CF 16469031 6076 20710972 7641; CF 26824517 19793 10355486 7641; CF 26824517 39586 32002260 47227;
    CF 26824517 79172 16001130 47227; CF 26824517 158344 8000565 47227; CF 17412541 205571 25413106 300025;
    CF 17412541 411142 30119094 711167; CF 32472088 1533451 15059547 711167;
    CF 31295591 2955785 15059547 1422334; CF 23177569 4378119 15059547 2844668;
    CF 19118558 7222787 15059547 5689336; CF 24618826 18601459 15059547 11378672;
    CF 12309413 18601459 15059547 22757344; CF 10934346 33047033 1375067 4155885]);
  (24, 54, [
    CF 33554431 1 1 0; CF 27755575 1 27755576 1; CF 27755575 2 13877788 1; CF 27755575 4 6938894 1;
    CF 31225022 9 3469447 1; CF 32959746 19 3469447 2; CF 16479873 19 19949320 23; CF 26454533 61 9974660 23;
    CF 31441863 145 4987330 23; CF 31441863 290 2493665 23; CF 31441863 580 16967764 313;
    CF 31441863 1160 8483882 313; CF 31441863 2320 4241941 313; CF 30567725 4511 4241941 626;
    CF 21646774 6389 25888715 7641; CF 10823387 6389 25888715 15282; CF 10823387 12778 29179438 34449;
    CF 10823387 25556 25413106 60005; CF 23529940 111117 12706553 60005; CF 24471523 231127 12706553 120010;
    CF 31295591 591157 12706553 240020; CF 31295591 1182314 22001072 831177;
    CF 31295591 2364628 11000536 831177; CF 31295591 4729256 5500268 831177;
    CF 31295591 9458512 2750134 831177; CF 32670658 19748201 1375067 831177;
    CF 27335865 33047033 1375067 1662354; CF 12980399 31384679 1375067 3324708]);
  (25, 58, [
    CF 33554431 1 1 0; CF 17347234 1 17347235 1; CF 26020852 3 17347235 2; CF 13010426 3 30357661 7;
    CF 6505213 3 30357661 14; CF 31441863 29 24936650 23; CF 31441863 58 12468325 23;
    CF 31441863 116 21955094 81; CF 31441863 232 10977547 81; CF 31441863 464 21209705 313;
    CF 26325784 777 21209705 626; CF 13162892 777 21209705 1252; CF 6581446 777 27791151 3281;
    CF 3290723 777 31081874 7339; CF 28703829 13555 25413106 12001; CF 28703829 27110 12706553 12001;
    CF 33411744 63113 12706553 24002; CF 29412425 111117 12706553 48004; CF 21059489 159121 12706553 96008;
    CF 29589574 447145 12706553 192016; CF 14794787 447145 27501340 831177;
    CF 28545457 1725467 13750670 831177; CF 28545457 3450934 6875335 831177;
    CF 31461066 7606819 6875335 1662354; CF 15730533 7606819 22605868 10931527;
    CF 15730533 15213638 27033467 26145165; CF 15730533 30427276 5651467 10931527;
    CF 5039533 19495749 5651467 21863054]);
  (26, 61, [
    CF 33554431 1 1 0; CF 21684043 1 21684044 1; CF 32526065 3 10842022 1; CF 32526065 6 5421011 1;
    CF 18973538 7 24394549 9; CF 9486769 7 24394549 18; CF 9486769 14 26427428 39; CF 9486769 28 32187252 95;
    CF 25580395 151 16093626 95; CF 25580395 302 8046813 95; CF 32907230 777 8046813 190;
    CF 16453615 777 24500428 1157; CF 28703829 2711 12250214 1157; CF 28703829 5422 6125107 1157;
    CF 28703829 10844 17414468 6579; CF 28703829 21688 8707234 6579; CF 33057446 49955 4353617 6579;
    CF 29589574 89429 4353617 13158; CF 14794787 89429 19148404 115745; CF 14794787 178858 24368989 294603;
    CF 14794787 357716 19581888 473461; CF 24585731 1188893 9790944 473461;
    CF 24585731 2377786 29481203 2851247; CF 24585731 4755572 27033467 5229033;
    CF 25809599 9984605 27033467 10458066; CF 26421533 20442671 27033467 20916132;
    CF 21526061 33309966 305967 473461; CF 10610047 32836505 305967 946922]);
  (27, 64, [
    CF 33554431 1 1 0; CF 27105054 1 27105055 1; CF 13552527 1 27105055 2; CF 13552527 2 20328791 3;
    CF 30493186 9 16940659 5; CF 15246593 9 32187252 19; CF 31340219 37 16093626 19; CF 31340219 74 8046813 19;
    CF 27740329 131 8046813 38; CF 25940384 245 8046813 76; CF 29063818 549 8046813 152;
    CF 22578722 853 30625535 1157; CF 11289361 853 30625535 2314; CF 11289361 1706 32246809 4873;
    CF 33057446 9991 21768085 6579; CF 16528723 9991 21768085 13158; CF 16528723 19982 19148404 23149;
    CF 26102925 63113 9574202 23149; CF 30890026 149375 4787101 23149; CF 29806316 288269 4787101 46298;
    CF 19690259 380865 24477360 473461; CF 19690259 761730 31928939 1235191;
    CF 25809599 1996921 31928939 2470382; CF 25809599 3993842 28869269 4467303;
    CF 25809599 7987684 27339434 8461145; CF 25809599 15975368 13669717 8461145;
    CF 19739658 24436513 13669717 16922290; CF 9869829 24436513 3799888 9408067]);
  (28, 68, [
    CF 33554431 1 1 0; CF 16940658 1 16940659 1; CF 25410988 3 16940659 2; CF 29646153 7 16940659 4;
    CF 23293406 11 16940659 8; CF 11646703 11 28587362 27; CF 25940384 49 14293681 27;
    CF 12970192 49 27263873 103; CF 6485096 49 27263873 206; CF 3242548 49 30506421 461;
    CF 1621274 49 32127695 971; CF 810637 49 32938332 1991; CF 27818084 3363 27007447 3265;
    CF 13909042 3363 27007447 6530; CF 6954521 3363 27007447 13060; CF 30890026 29875 23935505 23149;
    CF 15445013 29875 23935505 46298; CF 19690259 76173 23935505 92596; CF 19690259 152346 21812882 168769;
    CF 19690259 304692 30596700 473461; CF 19690259 609384 15298350 473461;
    CF 19690259 1218768 27339434 1692229; CF 33359976 4129765 13669717 1692229;
    CF 30349705 7514223 13669717 3384458; CF 22009711 10898681 13669717 6768916;
    CF 31509431 31205429 13669717 13537832; CF 8919857 17667597 13669717 27075664;
    CF 6544927 25927127 2374930 9408067]);
  (29, 71, [
    CF 33554431 1 1 0; CF 21175823 1 21175824 1; CF 31763735 3 10587912 1; CF 31763735 6 5293956 1;
    CF 31763735 12 2646978 1; CF 33087224 25 1323489 1; CF 32425480 49 1323489 2; CF 16212740 49 17536229 53;
    CF 8106370 49 25642599 155; CF 4053185 49 29695784 359; CF 31060632 751 27007447 653;
    CF 15530316 751 27007447 1306; CF 7765158 751 27007447 2612; CF 30890026 5975 27007447 5224;
    CF 15445013 5975 27007447 10448; CF 15445013 11950 21226230 16423; CF 15445013 23900 26058128 40323;
    CF 28474077 88123 13029064 40323; CF 28474077 176246 6514532 40323; CF 31731343 392815 3257266 40323;
    CF 33359976 825953 1628633 40323; CF 16679988 825953 18308621 906599; CF 8339994 825953 26648615 2639151;
    CF 4169997 825953 30818612 6104255; CF 4169997 1651906 32089294 12711879;
    CF 20214644 16015691 16044647 12711879; CF 10107322 16015691 16044647 25423758;
    CF 5053661 16015691 5937325 18816134]);
  (30, 74, [
    CF 33554431 1 1 0; CF 26469779 1 26469780 1; CF 26469779 2 13234890 1; CF 33087224 5 6617445 1;
    CF 29778502 9 6617445 2; CF 14889251 9 21506696 13; CF 14889251 18 25642599 31; CF 20265925 49 25642599 62;
    CF 20265925 98 22954262 111; CF 31743056 307 11477131 111; CF 27348659 529 11477131 222;
    CF 30890026 1195 11477131 444; CF 15445013 1195 26922144 2083; CF 15445013 2390 28906085 4473;
    CF 15445013 4780 22175549 6863; CF 15445013 9560 18810281 11643; CF 15445013 19120 32572660 40323;
    CF 31731343 78563 16286330 40323; CF 31731343 157126 8143165 40323; CF 31731343 314252 19937254 197449;
    CF 31731343 628504 9968627 197449; CF 20849985 825953 30818612 1220851;
    CF 20849985 1651906 15409306 1220851; CF 28554638 4524663 7704653 1220851;
    CF 14277319 4524663 21981972 6966365; CF 25268305 16015691 10990986 6966365;
    CF 25268305 32031382 5495493 6966365; CF 9886406 25065017 5495493 13932730]);
  (31, 77, [
    CF 33554431 1 1 0; CF 33087224 1 33087225 1; CF 16543612 1 33087225 2; CF 8271806 1 33087225 4;
    CF 4135903 1 33087225 8; CF 4135903 2 31019273 15; CF 17577588 17 31019273 30; CF 8788794 17 31019273 60;
    CF 4394397 17 31019273 120; CF 30890026 239 26495629 205; CF 15445013 239 26495629 410;
    CF 15445013 478 20970321 649; CF 15445013 956 18207667 1127; CF 15445013 1912 32271353 3995;
    CF 15445013 3824 23858183 5907; CF 15445013 7648 19651598 9731; CF 15445013 15296 25270812 25027;
    CF 15445013 30592 28080419 55619; CF 21762716 86211 28080419 111238; CF 10881358 86211 28080419 222476;
    CF 5440679 86211 33521098 531163; CF 5440679 172422 33082586 1048429; CF 27422651 1738117 21981972 1393273;
    CF 27422651 3476234 10990986 1393273; CF 32918144 8345741 5495493 1393273;
    CF 32945551 16705379 5495493 2786546; CF 30211508 30638109 5495493 5573092]);
  (32, 81, [
    CF 33554431 1 1 0; CF 20679515 1 20679516 1; CF 20679515 2 31019273 3; CF 25849394 5 31019273 6;
    CF 12924697 5 31019273 12; CF 21971985 17 31019273 24; CF 21971985 34 26495629 41;
    CF 24233807 75 26495629 82; CF 25364718 157 26495629 164; CF 12682359 157 26495629 328;
    CF 12682359 314 32271353 799; CF 22476856 1113 32271353 1598; CF 11238428 1113 32271353 3196;
    CF 5619214 1113 32271353 6392; CF 2809607 1113 32271353 12784; CF 2809607 2226 31588515 25027;
    CF 20008668 31705 17199061 27253; CF 27203395 86211 17199061 54506; CF 27203395 172422 22201228 140717;
    CF 27203395 344844 11100614 140717; CF 32753702 830405 5550307 140717;
    CF 21927158 1111839 27477465 1393273; CF 10963579 1111839 27477465 2786546]);
  (33, 84, [
    CF 33554431 1 1 0; CF 25849394 1 25849395 1; CF 12924697 1 25849395 2; CF 12924697 2 32311743 5;
    CF 12924697 4 22618220 7; CF 24233807 15 11309110 7; CF 24233807 30 29888362 37;
    CF 24233807 60 14944181 37; CF 24233807 120 19588994 97; CF 24233807 240 9794497 97;
    CF 26808649 531 9794497 194; CF 28096070 1113 9794497 388; CF 14048035 1113 23842532 1889;
    CF 14048035 2226 25969301 4115; CF 20008668 6341 25969301 8230; CF 10004334 6341 25969301 16460;
    CF 5002167 6341 30971468 39261; CF 5002167 12682 30492235 77307; CF 32753702 166081 27751535 140717;
    CF 16376851 166081 27751535 281434]);
  (34, 87, [
    CF 33554431 1 1 0; CF 32311742 1 32311743 1; CF 16155871 1 32311743 2; CF 24233807 3 32311743 4;
    CF 24233807 6 28272775 7; CF 24233807 12 26253291 13; CF 24233807 24 25243549 25;
    CF 24233807 48 24738678 49; CF 24233807 96 12369339 49; CF 18301573 145 30670912 243;
    CF 18301573 290 15335456 243; CF 18301573 580 25969301 823; CF 22135437 1403 25969301 1646;
    CF 24052369 3049 25969301 3292; CF 25010835 6341 25969301 6584; CF 25010835 12682 25490068 12925;
    CF 25010835 25364 12745034 12925]);
  (35, 91, [
    CF 33554431 1 1 0; CF 20194839 1 20194840 1; CF 20194839 2 30292259 3; CF 20194839 4 25243549 5;
    CF 22719194 9 25243549 10; CF 11359597 9 25243549 20; CF 18301573 29 25243549 40;
    CF 18301573 58 21772561 69; CF 18301573 116 20037067 127; CF 18301573 232 19169320 243;
    CF 18301573 464 27886233 707; CF 23093903 1171 27886233 1414; CF 23093903 2342 25490068 2585]);
  (36, 94, [
    CF 33554431 1 1 0; CF 25243548 1 25243549 1; CF 12621774 1 25243549 2; CF 31554436 5 25243549 4;
    CF 15777218 5 25243549 8; CF 33132158 21 25243549 16; CF 16566079 21 25243549 32;
    CF 16566079 42 20904814 53; CF 27018486 137 10452407 53; CF 13509243 137 23961650 243]);
  (37, 97, [
    CF 33554431 1 1 0; CF 31554436 1 31554437 1; CF 15777218 1 31554437 2; CF 7888609 1 31554437 4;
    CF 7888609 2 27610132 7; CF 7888609 4 29582284 15; CF 22679751 23 14791142 15]);
  (38, 101, [
    CF 33554431 1 1 0; CF 19721522 1 19721523 1; CF 9860761 1 29582284 3])
].
