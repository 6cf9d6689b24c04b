(** The table of /repo/src/rcc.cc.  Generated by tools/gen_rcc.py: the rows are
    the source's, in the source's order; the literal m * 10^e is the pair (m, e). *)
From Coq Require Import ZArith List.
From Verif Require Import M_EphTab.
Import ListNotations.
Open Scope Z_scope.

(** rcc.cc:104-891: (amplitude, frequency, phase). *)
Definition fb_coeffs : list term :=
  [
   T 1656674564 (-12) 6283075849991 (-9) 6240054195 (-9); T 22417471 (-12) 5753384884897 (-9) 4296977442 (-9);
   T 13839792 (-12) 12566151699983 (-9) 6196904410 (-9); T 4770086 (-12) 529690965095 (-9) 444401603 (-9);
   T 4676740 (-12) 6069776754553 (-9) 4021195093 (-9); T 2256707 (-12) 213299095438 (-9) 5543113262 (-9);
   T 1694205 (-12) (-3523118349) (-9) 5025132748 (-9); T 1554905 (-12) 77713771467920 (-9) 5198467090 (-9);
   T 1276839 (-12) 7860419392439 (-9) 5988822341 (-9); T 1193379 (-12) 5223693919802 (-9) 3649823730 (-9);
   T 1115322 (-12) 3930209696220 (-9) 1422745069 (-9); T 794185 (-12) 11506769769794 (-9) 2322313077 (-9);
   T 447061 (-12) 26298319800 (-9) 3615796498 (-9); T 435206 (-12) (-398149003408) (-9) 4349338347 (-9);
   T 600309 (-12) 1577343542448 (-9) 2678271909 (-9); T 496817 (-12) 6208294251424 (-9) 5696701824 (-9);
   T 486306 (-12) 5884926846583 (-9) 520007179 (-9); T 432392 (-12) 74781598567 (-9) 2435898309 (-9);
   T 468597 (-12) 6244942814354 (-9) 5866398759 (-9); T 375510 (-12) 5507553238667 (-9) 4103476804 (-9);
   T 243085 (-12) (-775522611324) (-9) 3651837925 (-9); T 173435 (-12) 18849227549974 (-9) 6153743485 (-9);
   T 230685 (-12) 5856477659115 (-9) 4773852582 (-9); T 203747 (-12) 12036460734888 (-9) 4333987818 (-9);
   T 143935 (-12) (-796298006816) (-9) 5957517795 (-9); T 159080 (-12) 10977078804699 (-9) 1890075226 (-9);
   T 119979 (-12) 38133035638 (-9) 4551585768 (-9); T 118971 (-12) 5486777843175 (-9) 1914547226 (-9);
   T 116120 (-12) 1059381930189 (-9) 873504123 (-9); T 137927 (-12) 11790629088659 (-9) 1135934669 (-9);
   T 98358 (-12) 2544314419883 (-9) 92793886 (-9); T 101868 (-12) (-5573142801634) (-9) 5984503847 (-9);
   T 80164 (-12) 206185548437 (-9) 2095377709 (-9); T 79645 (-12) 4694002954708 (-9) 2949233637 (-9);
   T 62617 (-12) 20775395492 (-9) 2654394814 (-9); T 75019 (-12) 2942463423292 (-9) 4980931759 (-9);
   T 64397 (-12) 5746271337896 (-9) 1280308748 (-9); T 63814 (-12) 5760498431898 (-9) 4167901731 (-9);
   T 48042 (-12) 2146165416475 (-9) 1495846011 (-9); T 48373 (-12) 155420399434 (-9) 2251573730 (-9);
   T 58844 (-12) 426598190876 (-9) 4839650148 (-9); T 46551 (-12) (-980321068) (-9) 921573539 (-9);
   T 54139 (-12) 17260154654690 (-9) 3411091093 (-9); T 42411 (-12) 6275962302991 (-9) 2869567043 (-9);
   T 40184 (-12) (-7113547001) (-9) 3565975565 (-9); T 36564 (-12) 5088628839767 (-9) 3324679049 (-9);
   T 40759 (-12) 12352852604545 (-9) 3981496998 (-9); T 36507 (-12) 801820931124 (-9) 6248866009 (-9);
   T 36955 (-12) 3154687084896 (-9) 5071801441 (-9); T 42732 (-12) 632783739313 (-9) 5720622217 (-9);
   T 42560 (-12) 161000685737473 (-9) 1270837679 (-9); T 40480 (-12) 15720838784878 (-9) 2546610123 (-9);
   T 28244 (-12) (-6286598968340) (-9) 5069663519 (-9); T 33477 (-12) 6062663207553 (-9) 4144987272 (-9);
   T 34867 (-12) 522577418094 (-9) 5210064075 (-9); T 32438 (-12) 6076890301554 (-9) 749317412 (-9);
   T 30215 (-12) 7084896781115 (-9) 3389610345 (-9); T 29247 (-12) (-71430695617928) (-9) 4183178762 (-9);
   T 33529 (-12) 9437762934887 (-9) 2404714239 (-9); T 32423 (-12) 8827390269875 (-9) 5541473556 (-9);
   T 27567 (-12) 6279552731642 (-9) 5040846034 (-9); T 29862 (-12) 12139553509107 (-9) 1770181024 (-9);
   T 22509 (-12) 10447387839604 (-9) 1460726241 (-9); T 20937 (-12) 8429241266467 (-9) 652303414 (-9);
   T 20322 (-12) 419484643875 (-9) 3735430632 (-9); T 24816 (-12) (-1194447010225) (-9) 1087136918 (-9);
   T 25196 (-12) 1748016413067 (-9) 2901883301 (-9); T 21691 (-12) 14143495242431 (-9) 5952658009 (-9);
   T 17673 (-12) 6812766815086 (-9) 3186129845 (-9); T 22567 (-12) 6133512652857 (-9) 3307984806 (-9);
   T 16155 (-12) 10213285546211 (-9) 1331103168 (-9); T 14751 (-12) 1349867409659 (-9) 4308933301 (-9);
   T 15949 (-12) (-220412642439) (-9) 4005298270 (-9); T 15974 (-12) (-2352866153772) (-9) 6145309371 (-9);
   T 14223 (-12) 17789845619785 (-9) 2104551349 (-9); T 17806 (-12) 73297125859 (-9) 3475975097 (-9);
   T 13671 (-12) (-536804512095) (-9) 5971672571 (-9); T 11942 (-12) 8031092263058 (-9) 2053414715 (-9);
   T 14318 (-12) 16730463689596 (-9) 3016058075 (-9); T 12462 (-12) 103092774219 (-9) 1737438797 (-9);
   T 10962 (-12) 3590428652 (-9) 2196567739 (-9); T 15078 (-12) 19651048481098 (-9) 3969480770 (-9);
   T 10396 (-12) 951718406251 (-9) 5717799605 (-9); T 11707 (-12) (-4705732307544) (-9) 2654125618 (-9);
   T 10453 (-12) 5863591206116 (-9) 1913704550 (-9); T 12420 (-12) 4690479836359 (-9) 4734090399 (-9);
   T 11847 (-12) 5643178563677 (-9) 5489005403 (-9); T 8610 (-12) 3340612426700 (-9) 3661698944 (-9);
   T 11622 (-12) 5120601145584 (-9) 4863931876 (-9); T 10825 (-12) 553569402842 (-9) 842715011 (-9);
   T 8666 (-12) (-135065080035) (-9) 3293406547 (-9); T 9963 (-12) 149563197135 (-9) 4870690598 (-9);
   T 9858 (-12) 6309374169791 (-9) 1061816410 (-9); T 7959 (-12) 316391869657 (-9) 2465042647 (-9);
   T 10099 (-12) 283859318865 (-9) 1942176992 (-9); T 7147 (-12) (-242728603974) (-9) 3661486981 (-9);
   T 7505 (-12) 5230807466803 (-9) 4920937029 (-9); T 8323 (-12) 11769853693166 (-9) 1229392026 (-9);
   T 7490 (-12) (-6256777530192) (-9) 3658444681 (-9); T 9370 (-12) 149854400134205 (-9) 673880395 (-9);
   T 7117 (-12) 38027672636 (-9) 5294249518 (-9); T 7857 (-12) 12168002696575 (-9) 525733528 (-9);
   T 7019 (-12) 6206809778716 (-9) 837688810 (-9); T 6056 (-12) 955599741609 (-9) 4194535082 (-9);
   T 8107 (-12) 13367972631107 (-9) 3793235253 (-9); T 6731 (-12) 5650292110678 (-9) 5639906583 (-9);
   T 7332 (-12) 36648562930 (-9) 114858677 (-9); T 6366 (-12) 4164311989613 (-9) 2262081818 (-9);
   T 6858 (-12) 5216580372801 (-9) 642063318 (-9); T 6919 (-12) 6681224853400 (-9) 6018501522 (-9);
   T 6826 (-12) 7632943259650 (-9) 3458654112 (-9); T 5308 (-12) (-1592596013633) (-9) 2500382359 (-9);
   T 5096 (-12) 11371704689758 (-9) 2547107806 (-9); T 4841 (-12) 5333900241022 (-9) 437078094 (-9);
   T 5582 (-12) 5966683980335 (-9) 2246174308 (-9); T 6304 (-12) 11926254413669 (-9) 2512929171 (-9);
   T 6603 (-12) 23581258177318 (-9) 5393136889 (-9); T 5123 (-12) (-1484472708) (-9) 2999641028 (-9);
   T 4648 (-12) 1589072895284 (-9) 1275847090 (-9); T 5119 (-12) 6438496249426 (-9) 1486539246 (-9);
   T 4521 (-12) 4292330832950 (-9) 6140635794 (-9); T 5680 (-12) 23013539539587 (-9) 4557814849 (-9);
   T 5488 (-12) (-3455808046) (-9) 90675389 (-9); T 4193 (-12) 7234794256242 (-9) 4869091389 (-9);
   T 3742 (-12) 7238675591600 (-9) 4691976180 (-9); T 4148 (-12) (-110206321219) (-9) 3016173439 (-9);
   T 4553 (-12) 11499656222793 (-9) 5554998314 (-9); T 4892 (-12) 5436993015240 (-9) 1475415597 (-9);
   T 4044 (-12) 4732030627343 (-9) 1398784824 (-9); T 4164 (-12) 12491370101415 (-9) 5650931916 (-9);
   T 4349 (-12) 11513883316794 (-9) 2181745369 (-9); T 3919 (-12) 12528018664345 (-9) 5823319737 (-9);
   T 3129 (-12) 6836645252834 (-9) 3844094 (-9); T 4080 (-12) (-7058598461315) (-9) 3690360123 (-9);
   T 3270 (-12) 76266071276 (-9) 1517189902 (-9); T 2954 (-12) 6283143160294 (-9) 4447203799 (-9);
   T 2872 (-12) 28449187468 (-9) 1158692983 (-9); T 2881 (-12) 735876513532 (-9) 349250250 (-9);
   T 3279 (-12) 5849364112115 (-9) 4893384368 (-9); T 3625 (-12) 6209778724132 (-9) 1473760578 (-9);
   T 3074 (-12) 949175608970 (-9) 5185878737 (-9); T 2775 (-12) 9917696874510 (-9) 1030026325 (-9);
   T 2646 (-12) 10973555686350 (-9) 3918259169 (-9); T 2575 (-12) 25132303399966 (-9) 6109659023 (-9);
   T 3500 (-12) 263083923373 (-9) 1892100742 (-9); T 2740 (-12) 18319536584880 (-9) 4320519510 (-9);
   T 2464 (-12) 202253395174 (-9) 4698203059 (-9); T 2409 (-12) 2542797281 (-9) 5325009315 (-9);
   T 3354 (-12) (-90955551694697) (-9) 1942656623 (-9); T 2296 (-12) 6496374945429 (-9) 5061810696 (-9);
   T 3002 (-12) 6172869528772 (-9) 2797822767 (-9); T 3202 (-12) 27511467873537 (-9) 531673101 (-9);
   T 2954 (-12) (-6283008539689) (-9) 4533471191 (-9); T 2353 (-12) 639897286314 (-9) 3734548088 (-9);
   T 2401 (-12) 16200772724501 (-9) 2605547070 (-9); T 3053 (-12) 233141314403759 (-9) 3029030662 (-9);
   T 3024 (-12) 83286914269554 (-9) 2355556099 (-9); T 2863 (-12) 17298182327326 (-9) 5240963796 (-9);
   T 2103 (-12) (-7079373856808) (-9) 5756641637 (-9); T 2303 (-12) 83996847317911 (-9) 2013686814 (-9);
   T 2303 (-12) 18073704938650 (-9) 1089100410 (-9); T 2381 (-12) 63735898303 (-9) 759188178 (-9);
   T 2493 (-12) 6386168624210 (-9) 645026535 (-9); T 2366 (-12) 3932153263 (-9) 6215885448 (-9);
   T 2169 (-12) 11015106477335 (-9) 4845297676 (-9); T 2397 (-12) 6243458341645 (-9) 3809290043 (-9);
   T 2183 (-12) 1162474704408 (-9) 6179611691 (-9); T 2353 (-12) 6246427287062 (-9) 4781719760 (-9);
   T 2199 (-12) (-245831646229) (-9) 5956152284 (-9); T 1729 (-12) 3894181829542 (-9) 1264976635 (-9);
   T 1896 (-12) (-3128388765096) (-9) 4914231596 (-9); T 2085 (-12) 35164090221 (-9) 1405158503 (-9);
   T 2024 (-12) 14712317116458 (-9) 2752035928 (-9); T 1737 (-12) 6290189396992 (-9) 5280820144 (-9);
   T 2229 (-12) 491557929457 (-9) 1571007057 (-9); T 1602 (-12) 14314168113050 (-9) 4203664806 (-9);
   T 2186 (-12) 454909366527 (-9) 1402101526 (-9); T 1897 (-12) 22483848574493 (-9) 4167932508 (-9);
   T 1825 (-12) (-3738761430108) (-9) 545828785 (-9); T 1894 (-12) 1052268383188 (-9) 5817167450 (-9);
   T 1421 (-12) 20355319399 (-9) 2419886601 (-9); T 1408 (-12) 10984192351700 (-9) 2732084787 (-9);
   T 1847 (-12) 10873986030480 (-9) 2903477885 (-9); T 1391 (-12) (-8635942003763) (-9) 593891500 (-9);
   T 1388 (-12) (-7046236698) (-9) 1166145902 (-9); T 1810 (-12) (-88860057071188) (-9) 487355242 (-9);
   T 1288 (-12) (-1990745017041) (-9) 3913022880 (-9); T 1297 (-12) 23543230504682 (-9) 3063805171 (-9);
   T 1335 (-12) (-266607041722) (-9) 3995764039 (-9); T 1376 (-12) 10969965257698 (-9) 5152914309 (-9);
   T 1745 (-12) 244287600007027 (-9) 3626395673 (-9); T 1649 (-12) 31441677569757 (-9) 1952049260 (-9);
   T 1416 (-12) 9225539273283 (-9) 4996408389 (-9); T 1238 (-12) 4804209275927 (-9) 5503379738 (-9);
   T 1472 (-12) 4590910180489 (-9) 4164913291 (-9); T 1169 (-12) 6040347246017 (-9) 5841719038 (-9);
   T 1039 (-12) 5540085789459 (-9) 2769753519 (-9); T 1004 (-12) (-170672870619) (-9) 755008103 (-9);
   T 1284 (-12) 10575406682942 (-9) 5306538209 (-9); T 1278 (-12) 71812653151 (-9) 4713486491 (-9);
   T 1321 (-12) 18209330263660 (-9) 2624866359 (-9); T 1297 (-12) 21228392023546 (-9) 382603541 (-9);
   T 954 (-12) 6282095528923 (-9) 882213514 (-9); T 1145 (-12) 6058731054289 (-9) 1169483931 (-9);
   T 979 (-12) 5547199336460 (-9) 5448375984 (-9); T 987 (-12) (-6262300454499) (-9) 2656486959 (-9);
   T 1070 (-12) (-154717609887482) (-9) 1827624012 (-9); T 991 (-12) 4701116501708 (-9) 4387001801 (-9);
   T 1155 (-12) (-14227094002) (-9) 3042700750 (-9); T 1176 (-12) 277034993741 (-9) 3335519004 (-9);
   T 890 (-12) 13916019109642 (-9) 5601498297 (-9); T 884 (-12) (-1551045222648) (-9) 1088831705 (-9);
   T 876 (-12) 5017508371365 (-9) 3969902609 (-9); T 806 (-12) 15110466119866 (-9) 5142876744 (-9);
   T 773 (-12) (-4136910433516) (-9) 22067765 (-9); T 1077 (-12) 175166059800 (-9) 1844913056 (-9);
   T 954 (-12) (-6284056171060) (-9) 968480906 (-9); T 737 (-12) 5326786694021 (-9) 4923831588 (-9);
   T 845 (-12) (-433711737877) (-9) 4749245231 (-9); T 819 (-12) 8662240323563 (-9) 5991247817 (-9);
   T 852 (-12) 199072001436 (-9) 2189604979 (-9); T 723 (-12) 17256631536341 (-9) 6068719637 (-9);
   T 940 (-12) 6037244203762 (-9) 6197428148 (-9); T 885 (-12) 11712955318231 (-9) 3280414875 (-9);
   T 706 (-12) 12559038152982 (-9) 2824848947 (-9); T 732 (-12) 2379164473572 (-9) 2501813417 (-9);
   T 764 (-12) (-6127655450557) (-9) 2236346329 (-9); T 908 (-12) 131541961686 (-9) 2521257490 (-9);
   T 907 (-12) 35371887265976 (-9) 3370195967 (-9); T 673 (-12) 1066495477190 (-9) 3876512374 (-9);
   T 814 (-12) 17654780539750 (-9) 4627122566 (-9); T 630 (-12) 36027866677 (-9) 156368499 (-9);
   T 798 (-12) 515463871093 (-9) 5151962502 (-9); T 798 (-12) 148078724426 (-9) 5909225055 (-9);
   T 806 (-12) 309278322656 (-9) 6054064447 (-9); T 607 (-12) (-39617508346) (-9) 2839021623 (-9);
   T 601 (-12) 412371096874 (-9) 3984225404 (-9); T 646 (-12) 11403676995575 (-9) 3852959484 (-9);
   T 704 (-12) 13521751441591 (-9) 2300991267 (-9); T 603 (-12) (-65147619767937) (-9) 4140083146 (-9);
   T 609 (-12) 10177257679534 (-9) 437122327 (-9); T 631 (-12) 5767611978898 (-9) 4026532329 (-9);
   T 576 (-12) 11087285125918 (-9) 4760293101 (-9); T 674 (-12) 14945316173554 (-9) 6270510511 (-9);
   T 726 (-12) 5429879468239 (-9) 6039606892 (-9); T 710 (-12) 28766924424484 (-9) 5672617711 (-9);
   T 647 (-12) 11856218651625 (-9) 3397132627 (-9); T 678 (-12) (-5481254918868) (-9) 6249666675 (-9);
   T 618 (-12) 22003914634870 (-9) 2466427018 (-9); T 738 (-12) 6134997125565 (-9) 2242668890 (-9);
   T 660 (-12) 625670192312 (-9) 5864091907 (-9); T 694 (-12) 3496032826134 (-9) 2668309141 (-9);
   T 531 (-12) 6489261398429 (-9) 1681888780 (-9); T 611 (-12) (-143571324284214) (-9) 2424978312 (-9);
   T 575 (-12) 12043574281889 (-9) 4216492400 (-9); T 553 (-12) 12416588502848 (-9) 4772158039 (-9);
   T 689 (-12) 4686889407707 (-9) 6224271088 (-9); T 495 (-12) 7342457780181 (-9) 3817285811 (-9);
   T 567 (-12) 3634621024518 (-9) 1649264690 (-9); T 515 (-12) 18635928454536 (-9) 3945345892 (-9);
   T 486 (-12) (-323505416657) (-9) 4061673868 (-9); T 662 (-12) 25158601719765 (-9) 1794058369 (-9);
   T 509 (-12) 846082834751 (-9) 3053874588 (-9); T 472 (-12) (-12569674818332) (-9) 5112133338 (-9);
   T 461 (-12) 6179983075773 (-9) 513669325 (-9); T 641 (-12) 83467156352816 (-9) 3210727723 (-9);
   T 520 (-12) 10344295065386 (-9) 2445597761 (-9); T 493 (-12) 18422629359098 (-9) 1676939306 (-9);
   T 478 (-12) 1265567478626 (-9) 5487314569 (-9); T 472 (-12) (-18159247265) (-9) 1999707589 (-9);
   T 559 (-12) 11190377900137 (-9) 5783236356 (-9); T 494 (-12) 9623688276691 (-9) 3022645053 (-9);
   T 463 (-12) 5739157790895 (-9) 1411223013 (-9); T 432 (-12) 16858482532933 (-9) 1179256434 (-9);
   T 574 (-12) 72140628666286 (-9) 1758191830 (-9); T 484 (-12) 17267268201691 (-9) 3290589143 (-9);
   T 550 (-12) 4907302050146 (-9) 864024298 (-9); T 399 (-12) 14977853527 (-9) 2094441910 (-9);
   T 491 (-12) 224344795702 (-9) 878372791 (-9); T 432 (-12) 20426571092422 (-9) 6003829241 (-9);
   T 481 (-12) 5749452731634 (-9) 4309591964 (-9); T 480 (-12) 5757317038160 (-9) 1142348571 (-9);
   T 485 (-12) 6702560493867 (-9) 210580917 (-9); T 426 (-12) 6055549660552 (-9) 4274476529 (-9);
   T 480 (-12) 5959570433334 (-9) 5031351030 (-9); T 466 (-12) 12562628581634 (-9) 4959581597 (-9);
   T 520 (-12) 39302096962196 (-9) 4788002889 (-9); T 458 (-12) 12132439962106 (-9) 1880103788 (-9);
   T 470 (-12) 12029347187887 (-9) 1405611197 (-9); T 416 (-12) (-7477522860216) (-9) 1082356330 (-9);
   T 449 (-12) 11609862544012 (-9) 4179989585 (-9); T 465 (-12) 17253041107690 (-9) 353496295 (-9);
   T 362 (-12) (-4535059436924) (-9) 1583849576 (-9); T 383 (-12) 21954157609398 (-9) 3747376371 (-9);
   T 389 (-12) 17252277143 (-9) 1395753179 (-9); T 331 (-12) 18052929543158 (-9) 566790582 (-9);
   T 430 (-12) 13517870106233 (-9) 685827538 (-9); T 368 (-12) (-5756908003246) (-9) 731374317 (-9);
   T 330 (-12) 10557594160824 (-9) 3710043680 (-9); T 332 (-12) 20199094959633 (-9) 1652901407 (-9);
   T 384 (-12) 11933367960670 (-9) 5827781531 (-9); T 387 (-12) 10454501386605 (-9) 2541182564 (-9);
   T 325 (-12) 15671081759407 (-9) 2178850542 (-9); T 318 (-12) 138517496871 (-9) 2253253037 (-9);
   T 305 (-12) 9388005909415 (-9) 578340206 (-9); T 352 (-12) 5749861766548 (-9) 3000297967 (-9);
   T 311 (-12) 6915859589305 (-9) 1693574249 (-9); T 297 (-12) 24072921469776 (-9) 1997249392 (-9);
   T 363 (-12) (-640877607382) (-9) 5071820966 (-9); T 323 (-12) 12592450019783 (-9) 1072262823 (-9);
   T 341 (-12) 12146667056108 (-9) 4700657997 (-9); T 290 (-12) 9779108676125 (-9) 1812320441 (-9);
   T 342 (-12) 6132028180148 (-9) 4322238614 (-9); T 329 (-12) 6268848755990 (-9) 3033827743 (-9);
   T 374 (-12) 17996031168222 (-9) 3388716544 (-9); T 285 (-12) (-533214083444) (-9) 4687313233 (-9);
   T 338 (-12) 6065844601290 (-9) 877776108 (-9); T 276 (-12) 24298513841 (-9) 770299429 (-9);
   T 336 (-12) (-2388894020449) (-9) 5353796034 (-9); T 290 (-12) 3097883822726 (-9) 4075291557 (-9);
   T 318 (-12) 709933048357 (-9) 5941207518 (-9); T 271 (-12) 13095842665077 (-9) 3208912203 (-9);
   T 331 (-12) 6073708907816 (-9) 4007881169 (-9); T 292 (-12) 742990060533 (-9) 2714333592 (-9);
   T 362 (-12) 29088811415985 (-9) 3215977013 (-9); T 280 (-12) 12359966151546 (-9) 710872502 (-9);
   T 267 (-12) 10440274292604 (-9) 4730108488 (-9); T 262 (-12) 838969287750 (-9) 1327720272 (-9);
   T 250 (-12) 16496361396202 (-9) 898769761 (-9); T 325 (-12) 20597243963041 (-9) 180044365 (-9);
   T 268 (-12) 6148010769956 (-9) 5152666276 (-9); T 284 (-12) 5636065016677 (-9) 5655385808 (-9);
   T 301 (-12) 6080822454817 (-9) 2135396205 (-9); T 294 (-12) (-377373607916) (-9) 3708784168 (-9);
   T 236 (-12) 2118763860378 (-9) 1733578756 (-9); T 234 (-12) 5867523359379 (-9) 5575209112 (-9);
   T 268 (-12) (-226858238553767) (-9) 69432392 (-9); T 265 (-12) 167283761587465 (-9) 4369302826 (-9);
   T 280 (-12) 28237233459389 (-9) 5304829118 (-9); T 292 (-12) 12345739057544 (-9) 4096094132 (-9);
   T 223 (-12) 19800945956225 (-9) 3069327406 (-9); T 301 (-12) 43232306658416 (-9) 6205311188 (-9);
   T 264 (-12) 18875525869774 (-9) 1417263408 (-9); T 304 (-12) (-1823175188677) (-9) 3409035232 (-9);
   T 301 (-12) 109945688789 (-9) 510922054 (-9); T 260 (-12) 813550283960 (-9) 2389438934 (-9);
   T 299 (-12) 316428228673312 (-9) 5384595078 (-9); T 211 (-12) 5756566278634 (-9) 3789392838 (-9);
   T 209 (-12) 5750203491159 (-9) 1661943545 (-9); T 240 (-12) 12489885628707 (-9) 5684549045 (-9);
   T 216 (-12) 6303851245484 (-9) 3862942261 (-9); T 203 (-12) 1581959348283 (-9) 5549853589 (-9);
   T 200 (-12) 5642198242609 (-9) 1016115785 (-9); T 197 (-12) (-70849445304) (-9) 4690702525 (-9);
   T 227 (-12) 6287008003254 (-9) 2911891613 (-9); T 197 (-12) 533623118358 (-9) 1048982898 (-9);
   T 205 (-12) (-6279485421340) (-9) 1829362730 (-9); T 209 (-12) (-10988808157535) (-9) 2636140084 (-9);
   T 208 (-12) (-227526189440) (-9) 4127883842 (-9); T 191 (-12) 415552490612 (-9) 4401165650 (-9);
   T 190 (-12) 29296615389579 (-9) 4175658539 (-9); T 264 (-12) 66567485864652 (-9) 4601102551 (-9);
   T 256 (-12) (-3646350377354) (-9) 506364778 (-9); T 188 (-12) 13119721102825 (-9) 2032195842 (-9);
   T 185 (-12) (-209366942175) (-9) 4694756586 (-9); T 198 (-12) 25934124331089 (-9) 3832703118 (-9);
   T 195 (-12) 4061219215394 (-9) 3308463427 (-9); T 234 (-12) 5113487598583 (-9) 1716090661 (-9);
   T 188 (-12) 1478866574064 (-9) 5686865780 (-9); T 222 (-12) 11823161639450 (-9) 1942386641 (-9);
   T 181 (-12) 10770893256262 (-9) 1999482059 (-9); T 171 (-12) 6546159773364 (-9) 1182807992 (-9);
   T 206 (-12) 70328180442 (-9) 5934076062 (-9); T 169 (-12) 20995392966449 (-9) 2169080622 (-9);
   T 191 (-12) 10660686935042 (-9) 5405515999 (-9); T 228 (-12) 33019021112205 (-9) 4656985514 (-9);
   T 184 (-12) (-4933208440333) (-9) 3327476868 (-9); T 220 (-12) (-135625325010) (-9) 1765430262 (-9);
   T 166 (-12) 23141558382925 (-9) 3454132746 (-9); T 191 (-12) 6144558353121 (-9) 5020393445 (-9);
   T 180 (-12) 6084003848555 (-9) 602182191 (-9); T 163 (-12) 17782732072784 (-9) 4960593133 (-9);
   T 225 (-12) 16460333529525 (-9) 2596451817 (-9); T 222 (-12) 5905702242076 (-9) 3731990323 (-9);
   T 204 (-12) 227476132789 (-9) 5636192701 (-9); T 159 (-12) 16737577236597 (-9) 3600691544 (-9);
   T 200 (-12) 6805653268085 (-9) 868220961 (-9); T 187 (-12) 11919140866668 (-9) 2629456641 (-9);
   T 161 (-12) 127471796607 (-9) 2862574720 (-9); T 205 (-12) 6286666278643 (-9) 1742882331 (-9);
   T 189 (-12) 153778810485 (-9) 4812372643 (-9); T 168 (-12) 16723350142595 (-9) 27860588 (-9);
   T 149 (-12) 11720068865232 (-9) 659721876 (-9); T 189 (-12) 5237921013804 (-9) 5245313000 (-9);
   T 143 (-12) 6709674040867 (-9) 4317625647 (-9); T 146 (-12) 4487817406270 (-9) 4815297007 (-9);
   T 144 (-12) (-664756045130) (-9) 5381366880 (-9); T 175 (-12) 5127714692584 (-9) 4728443327 (-9);
   T 162 (-12) 6254626662524 (-9) 1435132069 (-9); T 187 (-12) 47162516354635 (-9) 1354371923 (-9);
   T 146 (-12) 11080171578918 (-9) 3369695406 (-9); T 180 (-12) (-348924420448) (-9) 2490902145 (-9);
   T 148 (-12) 151047669843 (-9) 3799109588 (-9); T 157 (-12) 6197248551160 (-9) 1284375887 (-9);
   T 167 (-12) 146594251718 (-9) 759969109 (-9); T 133 (-12) (-5331357443741) (-9) 5409701889 (-9);
   T 154 (-12) 95979227218 (-9) 3366890614 (-9); T 148 (-12) (-6418140930027) (-9) 3384104996 (-9);
   T 128 (-12) (-6525804453965) (-9) 3803419985 (-9); T 130 (-12) 11293470674356 (-9) 939039445 (-9);
   T 152 (-12) (-5729506447149) (-9) 734117523 (-9); T 138 (-12) 210117701700 (-9) 2564216078 (-9);
   T 123 (-12) 6066595360816 (-9) 4517099537 (-9); T 140 (-12) 18451078546566 (-9) 642049130 (-9);
   T 126 (-12) 11300584221356 (-9) 3485280663 (-9); T 119 (-12) 10027903195729 (-9) 3217431161 (-9);
   T 151 (-12) 4274518310832 (-9) 4404359108 (-9); T 117 (-12) 6072958148291 (-9) 366324650 (-9);
   T 165 (-12) (-7668637425143) (-9) 4298212528 (-9); T 117 (-12) (-6245048177356) (-9) 5379518958 (-9);
   T 130 (-12) (-5888449964932) (-9) 4527681115 (-9); T 121 (-12) (-543918059096) (-9) 6109429504 (-9);
   T 162 (-12) 9683594581116 (-9) 5720092446 (-9); T 141 (-12) 6219339951688 (-9) 679068671 (-9);
   T 118 (-12) 22743409379516 (-9) 4881123092 (-9); T 129 (-12) 1692165669502 (-9) 351407289 (-9);
   T 126 (-12) 5657405657679 (-9) 5146592349 (-9); T 114 (-12) 728762966531 (-9) 520791814 (-9);
   T 120 (-12) 52596639600 (-9) 948516300 (-9); T 115 (-12) 65220371012 (-9) 3504914846 (-9);
   T 126 (-12) 5881403728234 (-9) 5577502482 (-9); T 158 (-12) 163096180360983 (-9) 2957128968 (-9);
   T 134 (-12) 12341806904281 (-9) 2598576764 (-9); T 151 (-12) 16627370915377 (-9) 3985702050 (-9);
   T 109 (-12) 1368660252845 (-9) 14730471 (-9); T 131 (-12) 6211263196841 (-9) 85077024 (-9);
   T 146 (-12) 5792741760812 (-9) 708426604 (-9); T 146 (-12) (-77750543984) (-9) 3121576600 (-9);
   T 107 (-12) 5341013788022 (-9) 288231904 (-9); T 138 (-12) 6281591377283 (-9) 2797450317 (-9);
   T 113 (-12) (-6277552925684) (-9) 2788904128 (-9); T 115 (-12) (-525758811831) (-9) 5895222200 (-9);
   T 138 (-12) 6016468808270 (-9) 6096188999 (-9); T 139 (-12) 23539707386333 (-9) 2028195445 (-9);
   T 146 (-12) (-4176041342449) (-9) 4660008502 (-9); T 107 (-12) 16062184526117 (-9) 4066520001 (-9);
   T 142 (-12) 83783548222473 (-9) 2936315115 (-9); T 128 (-12) 9380959672717 (-9) 3223844306 (-9);
   T 135 (-12) 6205325306007 (-9) 1638054048 (-9); T 101 (-12) 2699734819318 (-9) 5481603249 (-9);
   T 104 (-12) (-568821874027) (-9) 2205734493 (-9); T 103 (-12) 6321103522627 (-9) 2440421099 (-9);
   T 119 (-12) 6321208885629 (-9) 2547496264 (-9); T 138 (-12) 1975492545856 (-9) 2314608466 (-9);
   T 121 (-12) 137033024162 (-9) 4539108237 (-9); T 123 (-12) 19402796952817 (-9) 4538074405 (-9);
   T 119 (-12) 22805735565994 (-9) 2869040566 (-9); T 133 (-12) 64471991241142 (-9) 6056405489 (-9);
   T 129 (-12) (-85827298831) (-9) 2540635083 (-9); T 131 (-12) 13613804277336 (-9) 4005732868 (-9);
   T 104 (-12) 9814604100291 (-9) 1959967212 (-9); T 112 (-12) 16097679950283 (-9) 3589026260 (-9);
   T 123 (-12) 2107034507542 (-9) 1728627253 (-9); T 121 (-12) 36949230808424 (-9) 6072332087 (-9);
   T 108 (-12) (-12539853380183) (-9) 3716133846 (-9); T 113 (-12) (-7875671863624) (-9) 2725771122 (-9);
   T 109 (-12) 4171425536614 (-9) 4033338079 (-9); T 101 (-12) 6247911759770 (-9) 3441347021 (-9);
   T 113 (-12) 7330728427345 (-9) 656372122 (-9); T 113 (-12) 51092726050855 (-9) 2791483066 (-9);
   T 106 (-12) 5621842923210 (-9) 1815323326 (-9); T 101 (-12) 111430161497 (-9) 5711033677 (-9);
   T 103 (-12) 909818733055 (-9) 2812745443 (-9); T 101 (-12) 1790642637886 (-9) 1965746028 (-9);
   T 102156724 (-12) 6283075849991 (-9) 4249032005 (-9); T 1706807 (-12) 12566151699983 (-9) 4205904248 (-9);
   T 269668 (-12) 213299095438 (-9) 3400290479 (-9); T 265919 (-12) 529690965095 (-9) 5836047367 (-9);
   T 210568 (-12) (-3523118349) (-9) 6262738348 (-9); T 77996 (-12) 5223693919802 (-9) 4670344204 (-9);
   T 54764 (-12) 1577343542448 (-9) 4534800170 (-9); T 59146 (-12) 26298319800 (-9) 1083044735 (-9);
   T 34420 (-12) (-398149003408) (-9) 5980077351 (-9); T 32088 (-12) 18849227549974 (-9) 4162913471 (-9);
   T 33595 (-12) 5507553238667 (-9) 5980162321 (-9); T 29198 (-12) 5856477659115 (-9) 623811863 (-9);
   T 27764 (-12) 155420399434 (-9) 3745318113 (-9); T 25190 (-12) 5746271337896 (-9) 2980330535 (-9);
   T 22997 (-12) (-796298006816) (-9) 1174411803 (-9); T 24976 (-12) 5760498431898 (-9) 2467913690 (-9);
   T 21774 (-12) 206185548437 (-9) 3854787540 (-9); T 17925 (-12) (-775522611324) (-9) 1092065955 (-9);
   T 13794 (-12) 426598190876 (-9) 2699831988 (-9); T 13276 (-12) 6062663207553 (-9) 5845801920 (-9);
   T 11774 (-12) 12036460734888 (-9) 2292832062 (-9); T 12869 (-12) 6076890301554 (-9) 5333425680 (-9);
   T 12152 (-12) 1059381930189 (-9) 6222874454 (-9); T 11081 (-12) (-7113547001) (-9) 5154724984 (-9);
   T 10143 (-12) 4694002954708 (-9) 4044013795 (-9); T 9357 (-12) 5486777843175 (-9) 3416081409 (-9);
   T 10084 (-12) 522577418094 (-9) 749320262 (-9); T 8587 (-12) 10977078804699 (-9) 2777152598 (-9);
   T 8628 (-12) 6275962302991 (-9) 4562060226 (-9); T 8158 (-12) (-220412642439) (-9) 5806891533 (-9);
   T 7746 (-12) 2544314419883 (-9) 1603197066 (-9); T 7670 (-12) 2146165416475 (-9) 3000200440 (-9);
   T 7098 (-12) 74781598567 (-9) 443725817 (-9); T 6180 (-12) (-536804512095) (-9) 1302642751 (-9);
   T 5818 (-12) 5088628839767 (-9) 4827723531 (-9); T 4945 (-12) (-6286598968340) (-9) 268305170 (-9);
   T 4774 (-12) 1349867409659 (-9) 5808636673 (-9); T 4687 (-12) (-242728603974) (-9) 5154890570 (-9);
   T 6089 (-12) 1748016413067 (-9) 4403765209 (-9); T 5975 (-12) (-1194447010225) (-9) 2583472591 (-9);
   T 4229 (-12) 951718406251 (-9) 931172179 (-9); T 5264 (-12) 553569402842 (-9) 2336107252 (-9);
   T 3049 (-12) 5643178563677 (-9) 1362634430 (-9); T 2974 (-12) 6812766815086 (-9) 1583012668 (-9);
   T 3403 (-12) (-2352866153772) (-9) 2552189886 (-9); T 3030 (-12) 419484643875 (-9) 5286473844 (-9);
   T 3210 (-12) (-7046236698) (-9) 1863796539 (-9); T 3058 (-12) 9437762934887 (-9) 4226420633 (-9);
   T 2589 (-12) 12352852604545 (-9) 1991935820 (-9); T 2927 (-12) 5216580372801 (-9) 2319951253 (-9);
   T 2425 (-12) 5230807466803 (-9) 3084752833 (-9); T 2656 (-12) 3154687084896 (-9) 2487447866 (-9);
   T 2445 (-12) 10447387839604 (-9) 2347139160 (-9); T 2990 (-12) 4690479836359 (-9) 6235872050 (-9);
   T 2890 (-12) 5863591206116 (-9) 95197563 (-9); T 2498 (-12) 6438496249426 (-9) 2994779800 (-9);
   T 1889 (-12) 8031092263058 (-9) 3569003717 (-9); T 2567 (-12) 801820931124 (-9) 3425611498 (-9);
   T 1803 (-12) (-71430695617928) (-9) 2192295512 (-9); T 1782 (-12) 3932153263 (-9) 5180433689 (-9);
   T 1694 (-12) (-4705732307544) (-9) 4641779174 (-9); T 1704 (-12) (-1592596013633) (-9) 3997097652 (-9);
   T 1735 (-12) 5849364112115 (-9) 417558428 (-9); T 1643 (-12) 8429241266467 (-9) 2180619584 (-9);
   T 1680 (-12) 38133035638 (-9) 4164529426 (-9); T 2045 (-12) 7084896781115 (-9) 526323854 (-9);
   T 1458 (-12) 4292330832950 (-9) 1356098141 (-9); T 1437 (-12) 20355319399 (-9) 3895439360 (-9);
   T 1738 (-12) 6279552731642 (-9) 87484036 (-9); T 1367 (-12) 14143495242431 (-9) 3987576591 (-9);
   T 1344 (-12) 7234794256242 (-9) 90454338 (-9); T 1438 (-12) 11499656222793 (-9) 974387904 (-9);
   T 1257 (-12) 6836645252834 (-9) 1509069366 (-9); T 1358 (-12) 11513883316794 (-9) 495572260 (-9);
   T 1628 (-12) 7632943259650 (-9) 4968445721 (-9); T 1169 (-12) 103092774219 (-9) 2838496795 (-9);
   T 1162 (-12) 4164311989613 (-9) 3408387778 (-9); T 1092 (-12) 6069776754553 (-9) 3617942651 (-9);
   T 1008 (-12) 17789845619785 (-9) 286350174 (-9); T 1008 (-12) 639897286314 (-9) 1610762073 (-9);
   T 918 (-12) 10213285546211 (-9) 5532798067 (-9); T 1011 (-12) (-6256777530192) (-9) 661826484 (-9);
   T 753 (-12) 16730463689596 (-9) 3905030235 (-9); T 737 (-12) 11926254413669 (-9) 4641956361 (-9);
   T 694 (-12) 3340612426700 (-9) 2111120332 (-9); T 701 (-12) 3894181829542 (-9) 2760823491 (-9);
   T 689 (-12) (-135065080035) (-9) 4768800780 (-9); T 700 (-12) 13367972631107 (-9) 5760439898 (-9);
   T 664 (-12) 6040347246017 (-9) 1051215840 (-9); T 654 (-12) 5650292110678 (-9) 4911332503 (-9);
   T 788 (-12) 6681224853400 (-9) 4699648011 (-9); T 628 (-12) 5333900241022 (-9) 5024608847 (-9);
   T 755 (-12) (-110206321219) (-9) 4370971253 (-9); T 628 (-12) 6290189396992 (-9) 3660478857 (-9);
   T 635 (-12) 25132303399966 (-9) 4121051532 (-9); T 534 (-12) 5966683980335 (-9) 1173284524 (-9);
   T 543 (-12) (-433711737877) (-9) 345585464 (-9); T 517 (-12) (-1990745017041) (-9) 5414571768 (-9);
   T 504 (-12) 5767611978898 (-9) 2328281115 (-9); T 485 (-12) 5753384884897 (-9) 1685874771 (-9);
   T 463 (-12) 7860419392439 (-9) 5297703006 (-9); T 604 (-12) 515463871093 (-9) 591998446 (-9);
   T 443 (-12) 12168002696575 (-9) 4830881244 (-9); T 570 (-12) 199072001436 (-9) 3899190272 (-9);
   T 465 (-12) 10969965257698 (-9) 476681802 (-9); T 424 (-12) (-7079373856808) (-9) 1112242763 (-9);
   T 427 (-12) 735876513532 (-9) 1994214480 (-9); T 478 (-12) (-6127655450557) (-9) 3778025483 (-9);
   T 414 (-12) 10973555686350 (-9) 5441088327 (-9); T 512 (-12) 1589072895284 (-9) 107123853 (-9);
   T 378 (-12) 10984192351700 (-9) 915087231 (-9); T 402 (-12) 11371704689758 (-9) 4107281715 (-9);
   T 453 (-12) 9917696874510 (-9) 1917490952 (-9); T 395 (-12) 149563197135 (-9) 2763124165 (-9);
   T 371 (-12) 5739157790895 (-9) 3112111866 (-9); T 350 (-12) 11790629088659 (-9) 440639857 (-9);
   T 356 (-12) 6133512652857 (-9) 5444568842 (-9); T 344 (-12) 412371096874 (-9) 5676832684 (-9);
   T 383 (-12) 955599741609 (-9) 5559734846 (-9); T 333 (-12) 6496374945429 (-9) 261537984 (-9);
   T 340 (-12) 6055549660552 (-9) 5975534987 (-9); T 334 (-12) 1066495477190 (-9) 2335063907 (-9);
   T 399 (-12) 11506769769794 (-9) 5321230910 (-9); T 314 (-12) 18319536584880 (-9) 2313312404 (-9);
   T 424 (-12) 1052268383188 (-9) 1211961766 (-9); T 307 (-12) 63735898303 (-9) 3169551388 (-9);
   T 329 (-12) 29821438149 (-9) 6106912080 (-9); T 357 (-12) 6309374169791 (-9) 4223760346 (-9);
   T 312 (-12) (-3738761430108) (-9) 2180556645 (-9); T 301 (-12) 309278322656 (-9) 1499984572 (-9);
   T 268 (-12) 12043574281889 (-9) 2447520648 (-9); T 257 (-12) 12491370101415 (-9) 3662331761 (-9);
   T 290 (-12) 625670192312 (-9) 1272834584 (-9); T 256 (-12) 5429879468239 (-9) 1913426912 (-9);
   T 339 (-12) 3496032826134 (-9) 4165930011 (-9); T 283 (-12) 3930209696220 (-9) 4325565754 (-9);
   T 241 (-12) 12528018664345 (-9) 3832324536 (-9); T 304 (-12) 4686889407707 (-9) 1612348468 (-9);
   T 259 (-12) 16200772724501 (-9) 3470173146 (-9); T 238 (-12) 12139553509107 (-9) 1147977842 (-9);
   T 236 (-12) 6172869528772 (-9) 3776271728 (-9); T 296 (-12) (-7058598461315) (-9) 460368852 (-9);
   T 306 (-12) 10575406682942 (-9) 554749016 (-9); T 251 (-12) 17298182327326 (-9) 834332510 (-9);
   T 290 (-12) 4732030627343 (-9) 4759564091 (-9); T 261 (-12) 5884926846583 (-9) 298259862 (-9);
   T 249 (-12) 5547199336460 (-9) 3749366406 (-9); T 213 (-12) 11712955318231 (-9) 5415666119 (-9);
   T 223 (-12) 4701116501708 (-9) 2703203558 (-9); T 268 (-12) (-640877607382) (-9) 283670793 (-9);
   T 209 (-12) 5636065016677 (-9) 1238477199 (-9); T 193 (-12) 10177257679534 (-9) 1943251340 (-9);
   T 182 (-12) 6283143160294 (-9) 2456157599 (-9); T 184 (-12) (-227526189440) (-9) 5888038582 (-9);
   T 182 (-12) (-6283008539689) (-9) 241332086 (-9); T 228 (-12) (-6284056171060) (-9) 2657323816 (-9);
   T 166 (-12) 7238675591600 (-9) 5930629110 (-9); T 167 (-12) 3097883822726 (-9) 5570955333 (-9);
   T 159 (-12) (-323505416657) (-9) 5786670700 (-9); T 154 (-12) (-4136910433516) (-9) 1517805532 (-9);
   T 176 (-12) 12029347187887 (-9) 3139266834 (-9); T 167 (-12) 12132439962106 (-9) 3556352289 (-9);
   T 153 (-12) 202253395174 (-9) 1463313961 (-9); T 157 (-12) 17267268201691 (-9) 1586837396 (-9);
   T 142 (-12) 83996847317911 (-9) 22670115 (-9); T 152 (-12) 17260154654690 (-9) 708528947 (-9);
   T 144 (-12) 6084003848555 (-9) 5187075177 (-9); T 135 (-12) 5756566278634 (-9) 1993229262 (-9);
   T 134 (-12) 5750203491159 (-9) 3457197134 (-9); T 144 (-12) 5326786694021 (-9) 6066193291 (-9);
   T 160 (-12) 11015106477335 (-9) 1710431974 (-9); T 133 (-12) 3634621024518 (-9) 2836451652 (-9);
   T 134 (-12) 18073704938650 (-9) 5453106665 (-9); T 134 (-12) 1162474704408 (-9) 5326898811 (-9);
   T 128 (-12) 5642198242609 (-9) 2511652591 (-9); T 160 (-12) 632783739313 (-9) 5628785365 (-9);
   T 132 (-12) 13916019109642 (-9) 819294053 (-9); T 122 (-12) 14314168113050 (-9) 5677408071 (-9);
   T 125 (-12) 12359966151546 (-9) 5251984735 (-9); T 121 (-12) 5749452731634 (-9) 2210924603 (-9);
   T 136 (-12) (-245831646229) (-9) 1646502367 (-9); T 120 (-12) 5757317038160 (-9) 3240883049 (-9);
   T 134 (-12) 12146667056108 (-9) 3059480037 (-9); T 137 (-12) 6206809778716 (-9) 1867105418 (-9);
   T 141 (-12) 17253041107690 (-9) 2069217456 (-9); T 129 (-12) (-7477522860216) (-9) 2781469314 (-9);
   T 116 (-12) 5540085789459 (-9) 4281176991 (-9); T 116 (-12) 9779108676125 (-9) 3320925381 (-9);
   T 129 (-12) 5237921013804 (-9) 3497704076 (-9); T 113 (-12) 5959570433334 (-9) 983210840 (-9);
   T 122 (-12) 6282095528923 (-9) 2674938860 (-9); T 140 (-12) (-11045700264) (-9) 4957936982 (-9);
   T 108 (-12) 23543230504682 (-9) 1390113589 (-9); T 106 (-12) (-12569674818332) (-9) 429631317 (-9);
   T 110 (-12) (-266607041722) (-9) 5501340197 (-9); T 115 (-12) 12559038152982 (-9) 4691456618 (-9);
   T 134 (-12) (-2388894020449) (-9) 577313584 (-9); T 109 (-12) 10440274292604 (-9) 6218148717 (-9);
   T 102 (-12) (-543918059096) (-9) 1477842615 (-9); T 108 (-12) 21228392023546 (-9) 2237753948 (-9);
   T 101 (-12) (-4535059436924) (-9) 3100492232 (-9); T 103 (-12) 76266071276 (-9) 5594294322 (-9);
   T 104 (-12) 949175608970 (-9) 5674287810 (-9); T 101 (-12) 13517870106233 (-9) 2196632348 (-9);
   T 100 (-12) 11933367960670 (-9) 4056084160 (-9); T 4322990 (-12) 6283075849991 (-9) 2642893748 (-9);
   T 406495 (-12) 0 (-9) 4712388980 (-9); T 122605 (-12) 12566151699983 (-9) 2438140634 (-9);
   T 19476 (-12) 213299095438 (-9) 1642186981 (-9); T 16916 (-12) 529690965095 (-9) 4510959344 (-9);
   T 13374 (-12) (-3523118349) (-9) 1502210314 (-9); T 8042 (-12) 26298319800 (-9) 478549024 (-9);
   T 7824 (-12) 155420399434 (-9) 5254710405 (-9); T 4894 (-12) 5746271337896 (-9) 4683210850 (-9);
   T 4875 (-12) 5760498431898 (-9) 759507698 (-9); T 4416 (-12) 5223693919802 (-9) 6028853166 (-9);
   T 4088 (-12) (-7113547001) (-9) 60926389 (-9); T 4433 (-12) 77713771467920 (-9) 3627734103 (-9);
   T 3277 (-12) 18849227549974 (-9) 2327912542 (-9); T 2703 (-12) 6062663207553 (-9) 1271941729 (-9);
   T 3435 (-12) (-775522611324) (-9) 747446224 (-9); T 2618 (-12) 6076890301554 (-9) 3633715689 (-9);
   T 3146 (-12) 206185548437 (-9) 5647874613 (-9); T 2544 (-12) 1577343542448 (-9) 6232904270 (-9);
   T 2218 (-12) (-220412642439) (-9) 1309509946 (-9); T 2197 (-12) 5856477659115 (-9) 2407212349 (-9);
   T 2897 (-12) 5753384884897 (-9) 5863842246 (-9); T 1766 (-12) 426598190876 (-9) 754113147 (-9);
   T 1738 (-12) (-796298006816) (-9) 2714942671 (-9); T 1695 (-12) 522577418094 (-9) 2629369842 (-9);
   T 1584 (-12) 5507553238667 (-9) 1341138229 (-9); T 1503 (-12) (-242728603974) (-9) 377699736 (-9);
   T 1552 (-12) (-536804512095) (-9) 2904684667 (-9); T 1370 (-12) (-398149003408) (-9) 1265599125 (-9);
   T 1889 (-12) (-5573142801634) (-9) 4413514859 (-9); T 1722 (-12) 6069776754553 (-9) 2445966339 (-9);
   T 1124 (-12) 1059381930189 (-9) 5041799657 (-9); T 1258 (-12) 553569402842 (-9) 3849557278 (-9);
   T 831 (-12) 951718406251 (-9) 2471094709 (-9); T 767 (-12) 4694002954708 (-9) 5363125422 (-9);
   T 756 (-12) 1349867409659 (-9) 1046195744 (-9); T 775 (-12) (-11045700264) (-9) 245548001 (-9);
   T 597 (-12) 2146165416475 (-9) 4543268798 (-9); T 568 (-12) 5216580372801 (-9) 4178853144 (-9);
   T 711 (-12) 1748016413067 (-9) 5934271972 (-9); T 499 (-12) 12036460734888 (-9) 624434410 (-9);
   T 671 (-12) (-1194447010225) (-9) 4136047594 (-9); T 488 (-12) 5849364112115 (-9) 2209679987 (-9);
   T 621 (-12) 6438496249426 (-9) 4518860804 (-9); T 495 (-12) (-6286598968340) (-9) 1868201275 (-9);
   T 456 (-12) 5230807466803 (-9) 1271231591 (-9); T 451 (-12) 5088628839767 (-9) 84060889 (-9);
   T 435 (-12) 5643178563677 (-9) 3324456609 (-9); T 387 (-12) 10977078804699 (-9) 4052488477 (-9);
   T 547 (-12) 161000685737473 (-9) 2841633844 (-9); T 522 (-12) 3154687084896 (-9) 2171979966 (-9);
   T 375 (-12) 5486777843175 (-9) 4983027306 (-9); T 421 (-12) 5863591206116 (-9) 4546432249 (-9);
   T 439 (-12) 7084896781115 (-9) 522967921 (-9); T 309 (-12) 2544314419883 (-9) 3172606705 (-9);
   T 347 (-12) 4690479836359 (-9) 1479586566 (-9); T 317 (-12) 801820931124 (-9) 3553088096 (-9);
   T 262 (-12) 419484643875 (-9) 606635550 (-9); T 248 (-12) 6836645252834 (-9) 3014082064 (-9);
   T 245 (-12) (-1592596013633) (-9) 5519526220 (-9); T 225 (-12) 4292330832950 (-9) 2877956536 (-9);
   T 214 (-12) 7234794256242 (-9) 1605227587 (-9); T 205 (-12) 5767611978898 (-9) 625804796 (-9);
   T 180 (-12) 10447387839604 (-9) 3499954526 (-9); T 229 (-12) 199072001436 (-9) 5632304604 (-9);
   T 214 (-12) 639897286314 (-9) 5960227667 (-9); T 175 (-12) (-433711737877) (-9) 2162417992 (-9);
   T 209 (-12) 515463871093 (-9) 2322150893 (-9); T 173 (-12) 6040347246017 (-9) 2556183691 (-9);
   T 184 (-12) 6309374169791 (-9) 4732296790 (-9); T 227 (-12) 149854400134205 (-9) 5385812217 (-9);
   T 154 (-12) 8031092263058 (-9) 5120720920 (-9); T 151 (-12) 5739157790895 (-9) 4815000443 (-9);
   T 197 (-12) 7632943259650 (-9) 222827271 (-9); T 197 (-12) 74781598567 (-9) 3910456770 (-9);
   T 138 (-12) 6055549660552 (-9) 1397484253 (-9); T 149 (-12) (-6127655450557) (-9) 5333727496 (-9);
   T 137 (-12) 3894181829542 (-9) 4281749907 (-9); T 135 (-12) 9437762934887 (-9) 5979971885 (-9);
   T 139 (-12) (-2352866153772) (-9) 4715630782 (-9); T 142 (-12) 6812766815086 (-9) 513330157 (-9);
   T 120 (-12) (-4705732307544) (-9) 194160689 (-9); T 131 (-12) (-71430695617928) (-9) 379226 (-9);
   T 124 (-12) 6279552731642 (-9) 2122264908 (-9); T 108 (-12) (-6256777530192) (-9) 883445696 (-9);
   T 143388 (-12) 6283075849991 (-9) 1131453581 (-9); T 6671 (-12) 12566151699983 (-9) 775148887 (-9);
   T 1480 (-12) 155420399434 (-9) 480016880 (-9); T 934 (-12) 213299095438 (-9) 6144453084 (-9);
   T 795 (-12) 529690965095 (-9) 2941595619 (-9); T 673 (-12) 5746271337896 (-9) 120415406 (-9);
   T 672 (-12) 5760498431898 (-9) 5317009738 (-9); T 389 (-12) (-220412642439) (-9) 3090323467 (-9);
   T 373 (-12) 6062663207553 (-9) 3003551964 (-9); T 360 (-12) 6076890301554 (-9) 1918913041 (-9);
   T 316 (-12) (-21340641002) (-9) 5545798121 (-9); T 315 (-12) (-242728603974) (-9) 1884932563 (-9);
   T 278 (-12) 206185548437 (-9) 1266254859 (-9); T 238 (-12) (-536804512095) (-9) 4532664830 (-9);
   T 185 (-12) 522577418094 (-9) 4578313856 (-9); T 245 (-12) 18849227549974 (-9) 587467082 (-9);
   T 180 (-12) 426598190876 (-9) 5151178553 (-9); T 200 (-12) 553569402842 (-9) 5355983739 (-9);
   T 141 (-12) 5223693919802 (-9) 1336556009 (-9); T 104 (-12) 5856477659115 (-9) 4239842759 (-9);
   T 3826 (-12) 6283075849991 (-9) 5705257275 (-9); T 303 (-12) 12566151699983 (-9) 5407132842 (-9);
   T 209 (-12) 155420399434 (-9) 1989815753 (-9)
  ].
