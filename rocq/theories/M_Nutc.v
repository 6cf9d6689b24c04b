(** Models of the nutation routines, over any [Num].
    Generated by tools/gen_nutc.py from /repo/src/nutc.cc and nutc80.cc: the
    statements and table rows are the source's, in the source's order. *)
From Coq Require Import ZArith Bool List.
From Verif Require Import Num M_Angle.
Import ListNotations.
Open Scope num_scope.

(** nutc.cc:65-260, coefficients of the fundamental angles. *)
Definition fa_coef : list (list Z) :=
  [
   [0; 0; 0; 0; (-1); 0; 0; 0; 0]; [0; 0; 2; (-2); 2; 0; 0; 0; 0]; [0; 0; 2; 0; 2; 0; 0; 0; 0]; [0; 0; 0; 0; (-2); 0; 0; 0; 0];
   [0; 1; 0; 0; 0; 0; 0; 0; 0]; [0; 1; 2; (-2); 2; 0; 0; 0; 0]; [1; 0; 0; 0; 0; 0; 0; 0; 0]; [0; 0; 2; 0; 1; 0; 0; 0; 0];
   [1; 0; 2; 0; 2; 0; 0; 0; 0]; [0; (-1); 2; (-2); 2; 0; 0; 0; 0]; [0; 0; 2; (-2); 1; 0; 0; 0; 0]; [(-1); 0; 2; 0; 2; 0; 0; 0; 0];
   [(-1); 0; 0; 2; 0; 0; 0; 0; 0]; [1; 0; 0; 0; 1; 0; 0; 0; 0]; [1; 0; 0; 0; (-1); 0; 0; 0; 0]; [(-1); 0; 2; 2; 2; 0; 0; 0; 0];
   [1; 0; 2; 0; 1; 0; 0; 0; 0]; [(-2); 0; 2; 0; 1; 0; 0; 0; 0]; [0; 0; 0; 2; 0; 0; 0; 0; 0]; [0; 0; 2; 2; 2; 0; 0; 0; 0];
   [2; 0; 0; (-2); 0; 0; 0; 0; 0]; [2; 0; 2; 0; 2; 0; 0; 0; 0]; [1; 0; 2; (-2); 2; 0; 0; 0; 0]; [(-1); 0; 2; 0; 1; 0; 0; 0; 0];
   [2; 0; 0; 0; 0; 0; 0; 0; 0]; [0; 0; 2; 0; 0; 0; 0; 0; 0]; [0; 1; 0; 0; 1; 0; 0; 0; 0]; [(-1); 0; 0; 2; 1; 0; 0; 0; 0];
   [0; 2; 2; (-2); 2; 0; 0; 0; 0]; [0; 0; 2; (-2); 0; 0; 0; 0; 0]; [(-1); 0; 0; 2; (-1); 0; 0; 0; 0]; [0; 1; 0; 0; (-1); 0; 0; 0; 0];
   [0; 2; 0; 0; 0; 0; 0; 0; 0]; [(-1); 0; 2; 2; 1; 0; 0; 0; 0]; [1; 0; 2; 2; 2; 0; 0; 0; 0]; [0; 1; 2; 0; 2; 0; 0; 0; 0];
   [(-2); 0; 2; 0; 0; 0; 0; 0; 0]; [0; 0; 2; 2; 1; 0; 0; 0; 0]; [0; (-1); 2; 0; 2; 0; 0; 0; 0]; [0; 0; 0; 2; 1; 0; 0; 0; 0];
   [1; 0; 2; (-2); 1; 0; 0; 0; 0]; [2; 0; 0; (-2); (-1); 0; 0; 0; 0]; [2; 0; 2; (-2); 2; 0; 0; 0; 0]; [2; 0; 2; 0; 1; 0; 0; 0; 0];
   [0; 0; 0; 2; (-1); 0; 0; 0; 0]; [0; (-1); 2; (-2); 1; 0; 0; 0; 0]; [(-1); (-1); 0; 2; 0; 0; 0; 0; 0]; [2; 0; 0; (-2); 1; 0; 0; 0; 0];
   [1; 0; 0; 2; 0; 0; 0; 0; 0]; [0; 1; 2; (-2); 1; 0; 0; 0; 0]; [1; (-1); 0; 0; 0; 0; 0; 0; 0]; [(-2); 0; 2; 0; 2; 0; 0; 0; 0];
   [0; (-1); 0; 2; 0; 0; 0; 0; 0]; [3; 0; 2; 0; 2; 0; 0; 0; 0]; [0; 0; 0; 1; 0; 0; 0; 0; 0]; [1; (-1); 2; 0; 2; 0; 0; 0; 0];
   [1; 0; 0; (-1); 0; 0; 0; 0; 0]; [(-1); (-1); 2; 2; 2; 0; 0; 0; 0]; [(-1); 0; 2; 0; 0; 0; 0; 0; 0]; [2; 0; 0; 0; (-1); 0; 0; 0; 0];
   [0; (-1); 2; 2; 2; 0; 0; 0; 0]; [1; 1; 2; 0; 2; 0; 0; 0; 0]; [2; 0; 0; 0; 1; 0; 0; 0; 0]; [1; 1; 0; 0; 0; 0; 0; 0; 0];
   [1; 0; (-2); 2; (-1); 0; 0; 0; 0]; [1; 0; 2; 0; 0; 0; 0; 0; 0]; [(-1); 1; 0; 1; 0; 0; 0; 0; 0]; [1; 0; 0; 0; 2; 0; 0; 0; 0];
   [(-1); 0; 1; 0; 1; 0; 0; 0; 0]; [0; 0; 2; 1; 2; 0; 0; 0; 0]; [(-1); 1; 0; 1; 1; 0; 0; 0; 0]; [(-1); 0; 2; 4; 2; 0; 0; 0; 0];
   [0; (-2); 2; (-2); 1; 0; 0; 0; 0]; [1; 0; 2; 2; 1; 0; 0; 0; 0]; [1; 0; 0; 0; (-2); 0; 0; 0; 0]; [(-2); 0; 2; 2; 2; 0; 0; 0; 0];
   [1; 1; 2; (-2); 2; 0; 0; 0; 0]; [(-2); 0; 2; 4; 2; 0; 0; 0; 0]; [(-1); 0; 4; 0; 2; 0; 0; 0; 0]; [2; 0; 2; (-2); 1; 0; 0; 0; 0];
   [1; 0; 0; (-1); (-1); 0; 0; 0; 0]; [2; 0; 2; 2; 2; 0; 0; 0; 0]; [1; 0; 0; 2; 1; 0; 0; 0; 0]; [3; 0; 0; 0; 0; 0; 0; 0; 0];
   [0; 0; 2; (-2); (-1); 0; 0; 0; 0]; [3; 0; 2; (-2); 2; 0; 0; 0; 0]; [0; 0; 4; (-2); 2; 0; 0; 0; 0]; [(-1); 0; 0; 4; 0; 0; 0; 0; 0];
   [0; 1; 2; 0; 1; 0; 0; 0; 0]; [0; 0; 2; (-2); 3; 0; 0; 0; 0]; [(-2); 0; 0; 4; 0; 0; 0; 0; 0]; [(-1); (-1); 0; 2; 1; 0; 0; 0; 0];
   [(-2); 0; 2; 0; (-1); 0; 0; 0; 0]; [0; 0; 2; 0; (-1); 0; 0; 0; 0]; [0; (-1); 2; 0; 1; 0; 0; 0; 0]; [0; 1; 0; 0; 2; 0; 0; 0; 0];
   [0; 0; 2; (-1); 2; 0; 0; 0; 0]; [2; 1; 0; (-2); 0; 0; 0; 0; 0]; [0; 0; 2; 4; 2; 0; 0; 0; 0]; [(-1); (-1); 0; 2; (-1); 0; 0; 0; 0];
   [(-1); 1; 0; 2; 0; 0; 0; 0; 0]; [1; (-1); 0; 0; 1; 0; 0; 0; 0]; [0; (-1); 2; (-2); 0; 0; 0; 0; 0]; [0; 1; 0; 0; (-2); 0; 0; 0; 0];
   [1; (-1); 2; 2; 2; 0; 0; 0; 0]; [1; 0; 0; 2; (-1); 0; 0; 0; 0]; [(-1); 1; 2; 2; 2; 0; 0; 0; 0]; [3; 0; 2; 0; 1; 0; 0; 0; 0];
   [0; 1; 2; 2; 2; 0; 0; 0; 0]; [1; 0; 2; (-2); 0; 0; 0; 0; 0]; [(-1); 0; (-2); 4; (-1); 0; 0; 0; 0]; [(-1); (-1); 2; 2; 1; 0; 0; 0; 0];
   [0; (-1); 2; 2; 1; 0; 0; 0; 0]; [2; (-1); 2; 0; 2; 0; 0; 0; 0]; [0; 0; 0; 2; 2; 0; 0; 0; 0]; [1; (-1); 2; 0; 1; 0; 0; 0; 0];
   [(-1); 1; 2; 0; 2; 0; 0; 0; 0]; [0; 1; 0; 2; 0; 0; 0; 0; 0]; [0; 1; 2; (-2); 0; 0; 0; 0; 0]; [0; 3; 2; (-2); 2; 0; 0; 0; 0];
   [0; 0; 0; 1; 1; 0; 0; 0; 0]; [(-1); 0; 2; 2; 0; 0; 0; 0; 0]; [2; 1; 2; 0; 2; 0; 0; 0; 0]; [1; 1; 0; 0; 1; 0; 0; 0; 0];
   [2; 0; 0; 2; 0; 0; 0; 0; 0]; [1; 1; 2; 0; 1; 0; 0; 0; 0]; [(-1); 0; 0; 2; 2; 0; 0; 0; 0]; [1; 0; (-2); 2; 0; 0; 0; 0; 0];
   [0; (-1); 0; 2; (-1); 0; 0; 0; 0]; [(-1); 0; 1; 0; 2; 0; 0; 0; 0]; [0; 1; 0; 1; 0; 0; 0; 0; 0]; [1; 0; (-2); 2; (-2); 0; 0; 0; 0];
   [0; 0; 0; 1; (-1); 0; 0; 0; 0]; [1; (-1); 0; 0; (-1); 0; 0; 0; 0]; [0; 0; 0; 4; 0; 0; 0; 0; 0]; [1; (-1); 0; 2; 0; 0; 0; 0; 0];
   [1; 0; 2; 1; 2; 0; 0; 0; 0]; [1; 0; 2; (-1); 2; 0; 0; 0; 0]; [(-1); 0; 0; 2; (-2); 0; 0; 0; 0]; [0; 0; 2; 1; 1; 0; 0; 0; 0];
   [(-1); 0; 2; 0; (-1); 0; 0; 0; 0]; [(-1); 0; 2; 4; 1; 0; 0; 0; 0]; [0; 0; 2; 2; 0; 0; 0; 0; 0]; [1; 1; 2; (-2); 1; 0; 0; 0; 0];
   [0; 0; 1; 0; 1; 0; 0; 0; 0]; [(-1); 0; 2; (-1); 1; 0; 0; 0; 0]; [(-2); 0; 2; 2; 1; 0; 0; 0; 0]; [2; (-1); 0; 0; 0; 0; 0; 0; 0];
   [4; 0; 2; 0; 2; 0; 0; 0; 0]; [2; 1; 2; (-2); 2; 0; 0; 0; 0]; [0; 1; 2; 1; 2; 0; 0; 0; 0]; [1; 0; 4; (-2); 2; 0; 0; 0; 0];
   [1; 1; 0; 0; (-1); 0; 0; 0; 0]; [(-2); 0; 2; 4; 1; 0; 0; 0; 0]; [2; 0; 2; 0; 0; 0; 0; 0; 0]; [(-1); 0; 1; 0; 0; 0; 0; 0; 0];
   [1; 0; 0; 1; 0; 0; 0; 0; 0]; [0; 1; 0; 2; 1; 0; 0; 0; 0]; [(-1); 0; 4; 0; 1; 0; 0; 0; 0]; [(-1); 0; 0; 4; 1; 0; 0; 0; 0];
   [2; 0; 2; 2; 1; 0; 0; 0; 0]; [2; 1; 0; 0; 0; 0; 0; 0; 0]; [0; 0; 5; (-5); 5; (-3); 0; 0; 0]; [0; 0; 0; 0; 0; 0; 0; 2; 0];
   [0; 0; 1; (-1); 1; 0; 0; (-1); 0]; [0; 0; (-1); 1; (-1); 1; 0; 0; 0]; [0; 0; (-1); 1; 0; 0; 2; 0; 0]; [0; 0; 3; (-3); 3; 0; 0; (-1); 0];
   [0; 0; (-8); 8; (-7); 5; 0; 0; 0]; [0; 0; (-1); 1; (-1); 0; 2; 0; 0]; [0; 0; (-2); 2; (-2); 2; 0; 0; 0]; [0; 0; (-6); 6; (-6); 4; 0; 0; 0];
   [0; 0; (-2); 2; (-2); 0; 8; (-3); 0]; [0; 0; 6; (-6); 6; 0; (-8); 3; 0]; [0; 0; 4; (-4); 4; (-2); 0; 0; 0]; [0; 0; (-3); 3; (-3); 2; 0; 0; 0];
   [0; 0; 4; (-4); 3; 0; (-8); 3; 0]; [0; 0; (-4); 4; (-5); 0; 8; (-3); 0]; [0; 0; 0; 0; 0; 2; 0; 0; 0]; [0; 0; (-4); 4; (-4); 3; 0; 0; 0];
   [0; 1; (-1); 1; (-1); 0; 0; 1; 0]; [0; 0; 0; 0; 0; 0; 0; 1; 0]; [0; 0; 1; (-1); 1; 1; 0; 0; 0]; [0; 0; 2; (-2); 2; 0; (-2); 0; 0];
   [0; (-1); (-7); 7; (-7); 5; 0; 0; 0]; [(-2); 0; 2; 0; 2; 0; 0; (-2); 0]; [(-2); 0; 2; 0; 1; 0; 0; (-3); 0]; [0; 0; 2; (-2); 2; 0; 0; (-2); 0];
   [0; 0; 1; (-1); 1; 0; 0; 1; 0]; [0; 0; 0; 0; 0; 0; 0; 0; 2]; [0; 0; 0; 0; 0; 0; 0; 0; 1]; [2; 0; (-2); 0; (-2); 0; 0; 3; 0];
   [0; 0; 1; (-1); 1; 0; 0; (-2); 0]; [0; 0; (-7); 7; (-7); 5; 0; 0; 0]
  ]%Z.

(** nutc.cc:263-458, longitude series; every literal is written in tenths. *)
Definition l_psi : list (list Z) :=
  [
   [33415; 172062418; 31; 174095]; [(-17168); (-13171853); 14; (-1568)]; [2857; (-2276670); 3; (-235)]; [(-686); (-2074480); 0; (-214)]; [9503; 1476079; (-23); (-3550)];
   [(-667); (-516891); 2; 1226]; [(-1086); 711176; 0; 70]; [356; (-387402); 1; (-362)]; [854; (-301276); 0; (-31)]; [90; 215830; 1; (-503)];
   [221; 128228; 0; 133]; [34; 123508; 0; 13]; [(-211); 156994; 0; 16]; [42; 63138; 0; 62]; [(-228); 57969; 0; 61];
   [157; (-59611); 0; (-6)]; [131; (-51591); 0; (-46)]; [18; 45927; 0; 45]; [(-175); 63360; 0; 7]; [163; (-38511); 0; (-4)];
   [(-28); 47717; 0; 5]; [138; (-30993); 0; (-3)]; [2; 28603; 0; 3]; [14; 20453; 0; 20]; [(-86); 29226; 0; 3];
   [(-77); 25879; 0; 2]; [88; (-14081); 0; 37]; [14; 15175; 0; 15]; [(-19); (-15797); 0; 77]; [13; (-21786); 0; (-2)];
   [(-48); 12868; 0; 13]; [63; 12672; 0; (-40)]; [(-10); 16693; 0; (-83)]; [24; (-10200); 0; (-9)]; [45; (-7669); 0; 0];
   [(-11); 7565; 0; (-17)]; [(-14); (-10973); 0; (-5)]; [26; (-6630); 0; (-6)]; [8; (-7141); 0; 16]; [4; (-6299); 0; (-6)];
   [3; 5804; 0; 6]; [(-16); 5773; 0; 5]; [(-9); 6444; 0; 0]; [22; (-5340); 0; (-5)]; [(-25); 4933; 0; 5];
   [(-1); (-4773); 0; (-24)]; [(-9); 7350; 0; (-17)]; [7; 4062; 0; 4]; [(-28); 6569; 0; 0]; [6; 3580; 0; 20];
   [(-7); 4725; 0; (-11)]; [(-1); (-3005); 0; 0]; [(-12); 4351; 0; (-10)]; [18; (-2894); 0; 0]; [6; (-4226); 0; 0];
   [8; (-2876); 0; 6]; [(-386); (-3923); 0; 0]; [7; (-2818); 0; 6]; [6; (-4057); 0; 0]; [(-12); 2290; 0; 2];
   [11; (-2643); 0; 5]; [(-7); 2479; 0; (-5)]; [(-2); 2180; 0; 2]; [6; (-3390); 0; 8]; [(-7); 1987; 0; 2];
   [(-15); 3340; 0; 0]; [1; 3340; 0; 0]; [(-1); (-1981); 0; 0]; [(-1066); 0; 0; 0]; [(-5); 1658; 0; 0];
   [0; 1348; 0; 0]; [9; (-1516); 0; 0]; [0; (-1297); 0; 0]; [8; (-1328); 0; (-1)]; [5; (-1407); 0; 0];
   [(-1); 1384; 0; 0]; [0; 1290; 0; (-3)]; [5; (-1212); 0; 0]; [(-3); 1145; 0; 0]; [(-1); 1018; 0; 0];
   [(-36); (-1019); 0; 0]; [8; (-1094); 0; 0]; [2; (-970); 0; 0]; [(-7); 1573; 0; 0]; [2; (-833); 0; 0];
   [(-3); 933; 0; 0]; [(-1); 921; 0; 0]; [(-5); 1336; 0; 0]; [(-1); 815; 0; 0]; [0; 1239; 0; 0];
   [(-3); 1281; 0; 0]; [1; 741; 0; (-3)]; [(-2); (-703); 0; 0]; [(-4); 666; 0; 0]; [1; (-667); 0; 0];
   [(-7); 693; 0; (-3)]; [0; (-704); 0; 0]; [(-1); 1015; 0; 0]; [5; (-691); 0; 0]; [(-2); 585; 0; 2];
   [1; (-949); 0; 2]; [0; 529; 0; (-2)]; [1; 867; 0; (-2)]; [(-1); (-592); 0; 2]; [3; (-588); 0; 1];
   [(-3); 490; 0; 0]; [(-2); 569; 0; (-1)]; [3; (-502); 0; 0]; [(-2); 534; 0; (-1)]; [1; (-765); 0; 0];
   [(-2); 453; 0; 0]; [1; (-468); 0; 0]; [2; (-446); 0; 0]; [2; (-487); 0; 0]; [1; (-468); 0; 0];
   [1; (-420); 0; 0]; [0; 464; 0; (-1)]; [2; (-673); 0; 1]; [0; (-658); 0; 2]; [(-1); (-439); 0; 3];
   [0; (-389); 0; 0]; [(-3); 639; 0; 0]; [(-2); 412; 0; 0]; [0; (-361); 0; 2]; [(-3); 585; 0; 0];
   [(-1); 361; 0; 0]; [0; (-397); 0; 0]; [1; (-577); 0; 0]; [(-2); 334; 0; 0]; [364; 0; 0; 0];
   [(-1); 557; 0; (-1)]; [1; (-354); 0; 0]; [1; (-310); 0; 0]; [(-1); 301; 0; 0]; [(-3); 492; 0; 0];
   [(-2); 491; 0; 0]; [(-1); 336; 0; 0]; [1; (-335); 0; 0]; [1; (-310); 0; 0]; [(-1); 280; 0; 0];
   [1; (-252); 0; 0]; [1; (-262); 0; 0]; [(-2); 415; 0; 0]; [0; 245; 0; 1]; [(-162); 0; 0; 0];
   [0; (-223); 0; 0]; [0; 231; 0; 0]; [(-1); 375; 0; 0]; [2; (-257); 0; 0]; [0; 252; 0; 0];
   [1; (-245); 0; 0]; [(-1); 243; 0; 0]; [1; (-207); 0; 0]; [1; (-208); 0; 0]; [(-2); 334; 0; 0];
   [329; 0; 0; 0]; [1; (-326); 0; 0]; [0; 199; 0; 0]; [(-1); 196; 0; 0]; [0; (-187); 0; 0];
   [1; (-190); 0; 0]; [1; (-286); 0; 0]; [40; 1788; (-118); 3]; [398; (-1073); (-56); (-10)]; [99; 1640; (-41); 1];
   [(-48); (-1353); (-34); (-1)]; [505; 750; 14; (-12)]; [(-11); (-535); 13; 0]; [(-450); (-24); (-4); 66]; [(-115); (-610); (-9); 4];
   [44; (-684); (-34); 0]; [77; (-471); (-47); (-10)]; [(-429); (-126); (-12); 42]; [(-428); 127; (-12); (-42)]; [(-76); (-441); 21; (-5)];
   [(-641); 17; 2; 45]; [364; (-104); 10; 35]; [356; 102; 10; (-35)]; [(-17); 395; 20; 0]; [509; (-82); (-8); (-50)];
   [0; 523; 12; 0]; [(-429); (-178); 4; 0]; [26; 343; 8; 0]; [(-8); (-486); 24; (-1)]; [(-49); 305; 37; 7];
   [0; (-436); 21; 0]; [0; (-254); 12; 0]; [20; 409; (-20); 0]; [(-21); 261; 6; 0]; [226; (-32); (-5); (-5)];
   [(-76); 249; (-4); (-2)]; [(-62); 349; 17; 3]; [20; 174; (-4); 1]; [(-39); 205; 24; 6]
  ]%Z.

(** nutc.cc:461-656, obliquity series, in tenths. *)
Definition o_eps : list (list Z) :=
  [
   [92053658; (-15062); 8857; (-2)]; [5730959; (-5702); (-3050); (-3)]; [978455; 1478; (-488); (-2)]; [(-897536); 280; 469; 0]; [74067; (-3271); (-182); 8];
   [224423; (-223); (-676); 0]; [(-6836); 468; 0; 0]; [200707; 360; 16; 0]; [128938; 395; (-62); 0]; [(-95932); 144; 302; (-1)];
   [(-68995); 48; (-6); 0]; [(-53325); (-1); 27; 0]; [(-1252); 105; 0; 0]; [(-33234); (-9); (-3); 0]; [31423; 89; 3; 0];
   [25525; 73; (-12); 0]; [26344; 88; 2; 0]; [(-24244); 16; (-4); 0]; [(-1233); 39; 0; 0]; [16424; 73; (-8); 0];
   [479; 32; 0; 0]; [13212; 62; (-6); 0]; [(-12341); (-3); 6; 0]; [(-10765); (-3); 0; 0]; [(-616); 18; 0; 0];
   [(-554); 16; 0; 0]; [8569; (-49); (-21); 0]; [(-8007); (-1); 0; 0]; [6851; (-6); (-38); 0]; [(-169); (-15); 0; 0];
   [6957; 18; 0; 0]; [6422; (-26); (-16); 0]; [133; 11; (-1); 0]; [5219; 16; 0; 0]; [3258; 20; (-1); 0];
   [(-3251); (-5); 9; 0]; [101; 3; 0; 0]; [3345; 16; 0; 0]; [3071; 4; (-9); 0]; [3272; 5; 0; 0];
   [(-3046); (-1); 0; 0]; [3040; 6; 0; 0]; [(-2768); (-5); 1; 0]; [2689; 13; 0; 0]; [2718; 11; 0; 0];
   [2715; (-4); (-8); 0]; [(-52); 5; 0; 0]; [(-2205); 1; 0; 0]; [(-201); 3; 0; 0]; [(-1910); 1; 5; 0];
   [(-41); 3; 0; 0]; [1306; (-1); 0; 0]; [30; 3; 0; 0]; [1229; 8; 0; 0]; [37; (-3); 0; 0];
   [1231; 4; (-3); 0]; [(-527); 153; 0; 0]; [1207; 3; (-3); 0]; [40; (-3); 0; 0]; [1265; 5; 0; 0];
   [1127; 5; (-3); 0]; [(-1061); (-3); 3; 0]; [(-1129); (-2); 0; 0]; [36; (-2); 0; 0]; [1074; 3; 0; 0];
   [(-109); 2; 0; 0]; [(-9); 0; 0; 0]; [854; 0; 0; 0]; [0; (-888); 0; 0]; [(-710); (-2); 0; 0];
   [(-703); 0; 0; 0]; [645; 4; 0; 0]; [698; 0; 0; 0]; [661; 4; 0; 0]; [(-610); (-2); 0; 0];
   [(-595); (-1); 0; 0]; [(-556); 0; 2; 0]; [517; 2; 0; 0]; [(-490); (-1); 0; 0]; [(-527); (-1); 0; 0];
   [(-496); 14; 0; 0]; [463; 4; 0; 0]; [496; 1; 0; 0]; [(-51); 1; 0; 0]; [(-440); (-1); 0; 0];
   [(-399); (-1); 0; 0]; [(-395); (-1); 0; 0]; [(-39); 1; 0; 0]; [(-421); (-1); 0; 0]; [(-172); 1; 0; 0];
   [(-23); 1; 0; 0]; [(-392); 0; 0; 0]; [(-384); 1; 0; 0]; [368; 2; 0; 0]; [346; 1; 0; 0];
   [(-327); 3; 0; 0]; [304; 0; 0; 0]; [4; 1; 0; 0]; [293; 2; 0; 0]; [316; 1; 0; 0];
   [8; (-1); 0; 0]; [(-279); 0; 0; 0]; [29; 0; 0; 0]; [(-253); 0; 0; 0]; [250; 1; 0; 0];
   [275; 1; 0; 0]; [(-244); (-1); 0; 0]; [249; 2; 0; 0]; [(-228); (-1); 0; 0]; [9; (-1); 0; 0];
   [244; 1; 0; 0]; [239; 1; 0; 0]; [225; 1; 0; 0]; [208; 1; 0; 0]; [201; 0; 0; 0];
   [215; 1; 0; 0]; [(-200); 0; 0; 0]; [14; 0; 0; 0]; [(-2); (-1); 0; 0]; [190; 0; (-1); 0];
   [205; 0; 0; 0]; [(-20); 0; 0; 0]; [(-176); (-1); 0; 0]; [190; 0; 0; 0]; [(-24); 0; 0; 0];
   [(-184); (-1); 0; 0]; [171; 0; 0; 0]; [4; 0; 0; 0]; [184; 1; 0; 0]; [0; 174; 0; 0];
   [(-6); 0; 0; 0]; [(-154); 0; 0; 0]; [(-168); (-1); 0; 0]; [163; 0; 0; 0]; [(-20); 0; 0; 0];
   [(-15); 0; 0; 0]; [(-143); (-1); 0; 0]; [144; 0; 0; 0]; [(-134); 0; 0; 0]; [(-143); (-1); 0; 0];
   [(-137); 0; 0; 0]; [131; 1; 0; 0]; [(-17); 0; 0; 0]; [(-128); 0; 0; 0]; [0; (-144); 0; 0];
   [124; 0; 0; 0]; [(-120); 0; 0; 0]; [(-8); 0; 0; 0]; [109; 1; 0; 0]; [(-108); 0; 0; 0];
   [105; 0; 0; 0]; [(-104); 0; 0; 0]; [(-112); 0; 0; 0]; [105; 1; 0; 0]; [(-14); 0; 0; 0];
   [0; 1; 0; 0]; [7; 0; 0; 0]; [(-103); 0; 0; 0]; [(-100); 0; 0; 0]; [96; 0; 0; 0];
   [94; 1; 0; 0]; [6; 0; 0; 0]; [(-877); 44; (-4); (-63)]; [463; 224; 5; (-24)]; [156; (-34); 1; 4];
   [52; 58; 2; (-1)]; [(-301); 269; 7; 0]; [232; (-5); 0; 6]; [10; 232; 34; 0]; [(-122); (-43); 0; 0];
   [(-21); (-37); (-2); 1]; [(-186); (-38); (-4); 18]; [55; (-187); (-18); (-5)]; [(-55); (-187); 18; (-5)]; [184; (-36); 3; 9];
   [(-6); 13; 0; 0]; [(-56); (-195); 19; 0]; [55; (-191); (-19); 0]; [(-173); (-8); 0; 9]; [(-32); (-83); (-8); 3];
   [(-1); 0; 0; 0]; [(-54); 78; (-3); 0]; [(-148); 14; 0; 3]; [(-38); 4; 0; (-2)]; [126; 32; 5; (-15)];
   [1; 0; 0; 0]; [(-136); 24; (-1); 0]; [9; 12; 0; 0]; [(-119); (-5); 0; 3]; [4; 120; 3; (-2)];
   [83; 61; (-1); 1]; [0; 0; 0; 0]; [4; (-108); 3; 0]; [96; 22; 3; (-12)]
  ]%Z.

Section Nutc.
Context {N : Num}.

(** nutc.cc:659-699: the interval in Julian centuries and the nine fundamental
    angles, in the order of the columns of fa_coef. *)
Definition nutc_args (tdb : N) : N * list N :=
  let DEGREES_2_RADIANS := n_lit 1745329251994329576923691 (-26) in
  let ARCSECS_2_RADIANS := n_lit 4848136811095359935899141 (-30) in
  let ARCSECS_PER_CIRCLE := #1296000 in
  let J2000_EPOCH := n_lit 515445 (-1) in
  let DAYS_PER_JCENTURY := #36525 in
  let centuries := (tdb - J2000_EPOCH) / DAYS_PER_JCENTURY in
  let ma_moon := n_lit 13496340251 (-8) * DEGREES_2_RADIANS + (n_fmod (centuries * (n_lit 17179159232178 (-4) +
    centuries * (n_lit 318792 (-4) + centuries * (n_lit 51635 (-6) + centuries * n_lit (-2447) (-7)))))
    ARCSECS_PER_CIRCLE) * ARCSECS_2_RADIANS in
  let ma_sun := n_lit 35752910918 (-8) * DEGREES_2_RADIANS + (n_fmod (centuries * (n_lit 1295965810481 (-4) +
    centuries * (n_lit (-5532) (-4) + centuries * (n_lit 136 (-6) + centuries * n_lit (-1149) (-8)))))
    ARCSECS_PER_CIRCLE) * ARCSECS_2_RADIANS in
  let mla_moon := n_lit 9327209062 (-8) * DEGREES_2_RADIANS + (n_fmod (centuries * (n_lit 17395272628478 (-4) +
    centuries * (n_lit (-127512) (-4) + centuries * (n_lit (-1037) (-6) + centuries * n_lit 417 (-8)))))
    ARCSECS_PER_CIRCLE) * ARCSECS_2_RADIANS in
  let me_moon := n_lit 29785019547 (-8) * DEGREES_2_RADIANS + (n_fmod (centuries * (n_lit 1602961601209 (-3) +
    centuries * (n_lit (-63706) (-4) + centuries * (n_lit 6539 (-6) + centuries * n_lit (-3169) (-8)))))
    ARCSECS_PER_CIRCLE) * ARCSECS_2_RADIANS in
  let ml_moon := n_lit 12504455501 (-8) * DEGREES_2_RADIANS + (n_fmod (centuries * (n_lit (-69628905431) (-4) +
    centuries * (n_lit 74722 (-4) + centuries * (n_lit 7702 (-6) + centuries * n_lit (-5939) (-8)))))
    ARCSECS_PER_CIRCLE) * ARCSECS_2_RADIANS in
  let ml_venus := n_lit 18197980085 (-8) * DEGREES_2_RADIANS + (n_fmod (n_lit 210664136433548 (-6) * centuries)
    ARCSECS_PER_CIRCLE) * ARCSECS_2_RADIANS in
  let ml_mars := n_lit 35543299958 (-8) * DEGREES_2_RADIANS + (n_fmod (n_lit 68905077493988 (-6) * centuries)
    ARCSECS_PER_CIRCLE) * ARCSECS_2_RADIANS in
  let ml_jupiter := n_lit 3435151874 (-8) * DEGREES_2_RADIANS + (n_fmod (n_lit 10925660377991 (-6) * centuries)
    ARCSECS_PER_CIRCLE) * ARCSECS_2_RADIANS in
  let ml_saturn := n_lit 500774443 (-7) * DEGREES_2_RADIANS + (n_fmod (n_lit 4399609855732 (-6) * centuries)
    ARCSECS_PER_CIRCLE) * ARCSECS_2_RADIANS in
  (centuries, [ma_moon; ma_sun; mla_moon; me_moon; ml_moon; ml_venus; ml_mars; ml_jupiter; ml_saturn]).

(** nutc.cc:707-715: theta, the sum over the nine columns, left to right.
    (The model starts the sum from the first product, as the source does.) *)
Definition nutc_theta (row : list Z) (angles : list N) : N :=
  match map (fun p => n_ofZ (fst p) * snd p) (combine row angles) with
  | [] => #0
  | x :: r => fold_left (fun a b => a + b) r x
  end.

(** nutc.cc:716-719: one summand of dp or de. *)
Definition nutc_term (coef : list Z) (centuries c s : N) : N :=
  match coef with
  | [c0; c1; c2; c3] =>
    (n_lit c0 (-1) + n_lit c2 (-1) * centuries) * c + (n_lit c1 (-1) + n_lit c3 (-1) * centuries) * s
  | _ => #0
  end.

(** nutc.cc:706-720: the loop, from the last row to the first. *)
Definition nutc_series (centuries : N) (angles : list N) (table : list (list Z)) (init : N) : N :=
  fold_right (fun p acc =>
    let theta := nutc_theta (fst p) angles in
    acc + nutc_term (snd p) centuries (n_cos theta) (n_sin theta)) init (combine fa_coef table).

(** nutc.cc:47-728: (psi, eps, eps0). *)
Definition nutc (tdb : N) : N * N * N :=
  let (centuries, angles) := nutc_args tdb in
  let ma_sun := nth 1 angles #0 in
  let dp := n_lit (-1531) (-1) * (n_sin ma_sun) - n_lit 19 (-1) * (n_sin (#2 * ma_sun)) in
  let dp := nutc_series centuries angles l_psi dp in
  let de := nutc_series centuries angles o_eps #0 in
  let ARCSECS_2_RADIANS := n_lit 4848136811095359935899141 (-30) in
  let psi := (dp * n_lit 1 (-6) - n_lit 42888 (-6) - n_lit 29856 (-5) * centuries) * ARCSECS_2_RADIANS in
  let eps := (de * n_lit 1 (-6) - n_lit 5171 (-6) - n_lit 2408 (-5) * centuries) * ARCSECS_2_RADIANS in
  let eps0 := (n_lit 84381412 (-3) + (n_lit (-4680927) (-5) + (n_lit (-152) (-6) + (n_lit 19989 (-7) + (n_lit
    (-51) (-8) + n_lit (-25) (-9) * centuries) * centuries) * centuries) * centuries) * centuries) *
    ARCSECS_2_RADIANS in
  (psi, eps, eps0).

(** nutc80.cc:46-79: the interval in Julian centuries and the five
    fundamental arguments. *)
Definition nutc80_args (tdb : N) : N * N * N * N * N * N :=
  let TURNS_2_ARCSECS := #1296000 in
  let ARCSECS_2_RADIANS := n_lit 484813681109535994 (-23) in
  let UNITS_2_RADIANS := ARCSECS_2_RADIANS / #10000 in
  let centuries := (tdb - n_lit 515445 (-1)) / #36525 in
  let el := (drange (ARCSECS_2_RADIANS * (n_lit 485866733 (-3) + (#1325 * TURNS_2_ARCSECS + n_lit 715922633 (-3) +
    (n_lit 3131 (-2) + n_lit 64 (-3) * centuries) * centuries) * centuries))) in
  let elp := (drange (ARCSECS_2_RADIANS * (n_lit 1287099804 (-3) + (#99 * TURNS_2_ARCSECS + n_lit 1292581224 (-3)
    + (n_lit (-577) (-3) - n_lit 12 (-3) * centuries) * centuries) * centuries))) in
  let f := (drange (ARCSECS_2_RADIANS * (n_lit 335778877 (-3) + (#1342 * TURNS_2_ARCSECS + n_lit 295263137 (-3) +
    (n_lit (-13257) (-3) + n_lit 11 (-3) * centuries) * centuries) * centuries))) in
  let d := (drange (ARCSECS_2_RADIANS * (n_lit 1072261307 (-3) + (#1236 * TURNS_2_ARCSECS + n_lit 1105601328 (-3)
    + (n_lit (-6891) (-3) + n_lit 19 (-3) * centuries) * centuries) * centuries))) in
  let om := (drange (ARCSECS_2_RADIANS * (n_lit 45016028 (-2) + (#(-5) * TURNS_2_ARCSECS - n_lit 482890539 (-3) +
    (n_lit 7455 (-3) + n_lit 8 (-3) * centuries) * centuries) * centuries))) in
  (centuries, el, elp, f, d, om).

(** nutc80.cc:80-429: the series, in units of 0.0001 arcsecond. *)
Definition nutc80_series (centuries el elp f d om : N) : N * N :=
  let el2 := el + el in
  let el3 := el2 + el in
  let elp2 := elp + elp in
  let f2 := f + f in
  let f4 := f2 + f2 in
  let d2 := d + d in
  let d4 := d2 + d2 in
  let om2 := om + om in
  let dp := #0 in
  let de := #0 in
  let dp := dp + (n_sin (elp + d)) in
  let dp := dp - (n_sin (f2 + d4 + om2)) in
  let dp := dp + (n_sin (el2 + d2)) in
  let dp := dp - (n_sin (el - f2 + d2)) in
  let dp := dp - (n_sin (el + elp - d2 + om)) in
  let dp := dp - (n_sin ((- elp) + f2 + om)) in
  let dp := dp - (n_sin (el - f2 - d2)) in
  let dp := dp - (n_sin (elp + d2)) in
  let dp := dp - (n_sin (f2 - d + om2)) in
  let dp := dp - (n_sin ((- f2) + om)) in
  let dp := dp + (n_sin ((- el) - elp + d2 + om)) in
  let dp := dp + (n_sin (elp + f2 + om)) in
  let dp := dp - (n_sin (el + f2 - d2)) in
  let dp := dp + (n_sin (el3 + f2 - d2 + om2)) in
  let dp := dp + (n_sin (f4 - d2 + om2)) in
  let dp := dp - (n_sin (el + d2 + om)) in
  let dp := dp - (n_sin (el2 + f2 + d2 + om2)) in
  let angle := el2 + f2 - d2 + om in
  let dp := dp + (n_sin angle) in
  let de := de - (n_cos angle) in
  let dp := dp + (n_sin (el - elp - d2)) in
  let dp := dp + (n_sin ((- el) + f4 + om2)) in
  let angle := (- el2) + f2 + d4 + om2 in
  let dp := dp - (n_sin angle) in
  let de := de + (n_cos angle) in
  let angle := el + f2 + d2 + om in
  let dp := dp - (n_sin angle) in
  let de := de + (n_cos angle) in
  let angle := el + elp + f2 - d2 + om2 in
  let dp := dp + (n_sin angle) in
  let de := de - (n_cos angle) in
  let dp := dp - (n_sin (el2 - d4)) in
  let angle := (- el) + f2 + d4 + om2 in
  let dp := dp - #2 * (n_sin angle) in
  let de := de + (n_cos angle) in
  let angle := (- el2) + f2 + d2 + om2 in
  let dp := dp + (n_sin angle) in
  let de := de - (n_cos angle) in
  let dp := dp - (n_sin (el - d4)) in
  let angle := (- el) + om2 in
  let dp := dp + (n_sin angle) in
  let de := de - (n_cos angle) in
  let angle := f2 + d + om2 in
  let dp := dp + #2 * (n_sin angle) in
  let de := de - (n_cos angle) in
  let dp := dp + #2 * (n_sin el3) in
  let angle := el + om2 in
  let dp := dp - #2 * (n_sin angle) in
  let de := de + (n_cos angle) in
  let angle := el2 + om in
  let dp := dp + #2 * (n_sin angle) in
  let de := de - (n_cos angle) in
  let angle := (- el) + f2 - d2 + om in
  let dp := dp - #2 * (n_sin angle) in
  let de := de + (n_cos angle) in
  let angle := el + elp + f2 + om2 in
  let dp := dp + #2 * (n_sin angle) in
  let de := de - (n_cos angle) in
  let angle := (- elp) + f2 + d2 + om2 in
  let dp := dp - #3 * (n_sin angle) in
  let de := de + (n_cos angle) in
  let angle := el3 + f2 + om2 in
  let dp := dp - #3 * (n_sin angle) in
  let de := de + (n_cos angle) in
  let angle := (- el2) + om in
  let dp := dp - #2 * (n_sin angle) in
  let de := de + (n_cos angle) in
  let angle := (- el) - elp + f2 + d2 + om2 in
  let dp := dp - #3 * (n_sin angle) in
  let de := de + (n_cos angle) in
  let angle := el - elp + f2 + om2 in
  let dp := dp - #3 * (n_sin angle) in
  let de := de + (n_cos angle) in
  let dp := dp + #3 * (n_sin (el + f2)) in
  let dp := dp - #3 * (n_sin (el + elp)) in
  let dp := dp - #4 * (n_sin d) in
  let dp := dp + #4 * (n_sin (el - f2)) in
  let dp := dp - #4 * (n_sin (elp - d2)) in
  let angle := el2 + f2 + om in
  let dp := dp - #5 * (n_sin angle) in
  let de := de + #3 * (n_cos angle) in
  let dp := dp + #5 * (n_sin (el - elp)) in
  let angle := (- d2) + om in
  let dp := dp - #5 * (n_sin angle) in
  let de := de + #3 * (n_cos angle) in
  let angle := el + f2 - d2 + om in
  let dp := dp + #6 * (n_sin angle) in
  let de := de - #3 * (n_cos angle) in
  let angle := f2 + d2 + om in
  let dp := dp - #7 * (n_sin angle) in
  let de := de + #3 * (n_cos angle) in
  let angle := d2 + om in
  let dp := dp - #6 * (n_sin angle) in
  let de := de + #3 * (n_cos angle) in
  let angle := el2 + f2 - d2 + om2 in
  let dp := dp + #6 * (n_sin angle) in
  let de := de - #3 * (n_cos angle) in
  let dp := dp + #6 * (n_sin (el + d2)) in
  let angle := el + f2 + d2 + om2 in
  let dp := dp - #8 * (n_sin angle) in
  let de := de + #3 * (n_cos angle) in
  let angle := (- elp) + f2 + om2 in
  let dp := dp - #7 * (n_sin angle) in
  let de := de + #3 * (n_cos angle) in
  let angle := elp + f2 + om2 in
  let dp := dp + #7 * (n_sin angle) in
  let de := de - #3 * (n_cos angle) in
  let dp := dp - #7 * (n_sin (el + elp - d2)) in
  let angle := (- el) + f2 + d2 + om in
  let dp := dp - #10 * (n_sin angle) in
  let de := de + #5 * (n_cos angle) in
  let angle := el - d2 + om in
  let dp := dp - #13 * (n_sin angle) in
  let de := de + #7 * (n_cos angle) in
  let angle := (- el) + d2 + om in
  let dp := dp + #16 * (n_sin angle) in
  let de := de - #8 * (n_cos angle) in
  let angle := (- el) + f2 + om in
  let dp := dp + #21 * (n_sin angle) in
  let de := de - #10 * (n_cos angle) in
  let dp := dp + #26 * (n_sin f2) in
  let de := de - (n_cos f2) in
  let angle := el2 + f2 + om2 in
  let dp := dp - #31 * (n_sin angle) in
  let de := de + #13 * (n_cos angle) in
  let angle := el + f2 - d2 + om2 in
  let dp := dp + #29 * (n_sin angle) in
  let de := de - #12 * (n_cos angle) in
  let dp := dp + #29 * (n_sin el2) in
  let de := de - (n_cos el2) in
  let angle := f2 + d2 + om2 in
  let dp := dp - #38 * (n_sin angle) in
  let de := de + #16 * (n_cos angle) in
  let angle := el + f2 + om in
  let dp := dp - #51 * (n_sin angle) in
  let de := de + #27 * (n_cos angle) in
  let angle := (- el) + f2 + d2 + om2 in
  let dp := dp - #59 * (n_sin angle) in
  let de := de + #26 * (n_cos angle) in
  let angle := (- el) + om in
  let dp := dp + (#(-58) - n_lit 1 (-1) * centuries) * (n_sin angle) in
  let de := de + #32 * (n_cos angle) in
  let angle := el + om in
  let dp := dp + (#63 + n_lit 1 (-1) * centuries) * (n_sin angle) in
  let de := de - #33 * (n_cos angle) in
  let dp := dp + #63 * (n_sin d2) in
  let de := de - #2 * (n_cos d2) in
  let angle := (- el) + f2 + om2 in
  let dp := dp + #123 * (n_sin angle) in
  let de := de - #53 * (n_cos angle) in
  let angle := el - d2 in
  let dp := dp - #158 * (n_sin angle) in
  let de := de - (n_cos angle) in
  let angle := el + f2 + om2 in
  let dp := dp - #301 * (n_sin angle) in
  let de := de + (#129 - n_lit 1 (-1) * centuries) * (n_cos angle) in
  let angle := f2 + om in
  let dp := dp + (#(-386) - n_lit 4 (-1) * centuries) * (n_sin angle) in
  let de := de + #200 * (n_cos angle) in
  let dp := dp + (#712 + n_lit 1 (-1) * centuries) * (n_sin el) in
  let de := de - #7 * (n_cos el) in
  let angle := f2 + om2 in
  let dp := dp + (#(-2274) - n_lit 2 (-1) * centuries) * (n_sin angle) in
  let de := de + (#977 - n_lit 5 (-1) * centuries) * (n_cos angle) in
  let dp := dp - (n_sin (elp + f2 - d2)) in
  let dp := dp + (n_sin ((- el) + d + om)) in
  let dp := dp + (n_sin (elp + om2)) in
  let dp := dp - (n_sin (elp - f2 + d2)) in
  let dp := dp + (n_sin ((- f2) + d2 + om)) in
  let dp := dp + (n_sin (el2 + elp - d2)) in
  let dp := dp - #4 * (n_sin (el - d)) in
  let angle := elp + f2 - d2 + om in
  let dp := dp + #4 * (n_sin angle) in
  let de := de - #2 * (n_cos angle) in
  let angle := el2 - d2 + om in
  let dp := dp + #4 * (n_sin angle) in
  let de := de - #2 * (n_cos angle) in
  let angle := (- elp) + f2 - d2 + om in
  let dp := dp - #5 * (n_sin angle) in
  let de := de + #3 * (n_cos angle) in
  let angle := (- el2) + d2 + om in
  let dp := dp - #6 * (n_sin angle) in
  let de := de + #3 * (n_cos angle) in
  let angle := (- elp) + om in
  let dp := dp - #12 * (n_sin angle) in
  let de := de + #6 * (n_cos angle) in
  let angle := elp2 + f2 - d2 + om2 in
  let dp := dp + (#(-16) + n_lit 1 (-1) * centuries) * (n_sin angle) in
  let de := de + #7 * (n_cos angle) in
  let angle := elp + om in
  let dp := dp - #15 * (n_sin angle) in
  let de := de + #9 * (n_cos angle) in
  let dp := dp + (#17 - n_lit 1 (-1) * centuries) * (n_sin elp2) in
  let dp := dp - #22 * (n_sin (f2 - d2)) in
  let angle := el2 - d2 in
  let dp := dp + #48 * (n_sin angle) in
  let de := de + (n_cos angle) in
  let angle := f2 - d2 + om in
  let dp := dp + (#129 + n_lit 1 (-1) * centuries) * (n_sin angle) in
  let de := de - #70 * (n_cos angle) in
  let angle := (- elp) + f2 - d2 + om2 in
  let dp := dp + (#217 - n_lit 5 (-1) * centuries) * (n_sin angle) in
  let de := de + (#(-95) + n_lit 3 (-1) * centuries) * (n_cos angle) in
  let angle := elp + f2 - d2 + om2 in
  let dp := dp + (#(-517) + n_lit 12 (-1) * centuries) * (n_sin angle) in
  let de := de + (#224 - n_lit 6 (-1) * centuries) * (n_cos angle) in
  let dp := dp + (#1426 - n_lit 34 (-1) * centuries) * (n_sin elp) in
  let de := de + (#54 - n_lit 1 (-1) * centuries) * (n_cos elp) in
  let angle := f2 - d2 + om2 in
  let dp := dp + (#(-13187) - n_lit 16 (-1) * centuries) * (n_sin angle) in
  let de := de + (#5736 - n_lit 31 (-1) * centuries) * (n_cos angle) in
  let dp := dp + (n_sin (el2 - f2 + om)) in
  let angle := (- elp2) + f2 - d2 + om in
  let dp := dp - #2 * (n_sin angle) in
  let de := de + #1 * (n_cos angle) in
  let dp := dp - #3 * (n_sin (el - elp - d)) in
  let angle := (- el2) + f2 + om2 in
  let dp := dp - #3 * (n_sin angle) in
  let de := de + #1 * (n_cos angle) in
  let dp := dp + #11 * (n_sin (el2 - f2)) in
  let angle := (- el2) + f2 + om in
  let dp := dp + #46 * (n_sin angle) in
  let de := de - #24 * (n_cos angle) in
  let dp := dp + (#2062 + n_lit 2 (-1) * centuries) * (n_sin om2) in
  let de := de + (#(-895) + n_lit 5 (-1) * centuries) * (n_cos om2) in
  let dp := dp + (#(-171996) - n_lit 1742 (-1) * centuries) * (n_sin om) in
  let de := de + (#92025 + n_lit 89 (-1) * centuries) * (n_cos om) in
  (dp, de).

(** nutc80.cc:45-437: (psi, eps, eps0). *)
Definition nutc80 (tdb : N) : N * N * N :=
  let ARCSECS_2_RADIANS := n_lit 484813681109535994 (-23) in
  let UNITS_2_RADIANS := ARCSECS_2_RADIANS / #10000 in
  let '(centuries, el, elp, f, d, om) := nutc80_args tdb in
  let (dp, de) := nutc80_series centuries el elp f d om in
  let psi := dp * UNITS_2_RADIANS in
  let eps := de * UNITS_2_RADIANS in
  let eps0 := ARCSECS_2_RADIANS * (n_lit 84381448 (-3) + (n_lit (-46815) (-3) + (n_lit (-59) (-5) + n_lit 1813
    (-6) * centuries) * centuries) * centuries) in
  (psi, eps, eps0).

End Nutc.
