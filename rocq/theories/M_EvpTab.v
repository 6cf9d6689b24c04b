(** The tables of /repo/src/evp.cc.
    Generated by tools/gen_evp.py: the rows are the source's, in the source's
    order; the literal m * 10^e is the pair (m, e). *)
From Coq Require Import ZArith List.
From Verif Require Import M_EphTab.
Import ListNotations.
Open Scope Z_scope.

(** evp.cc:69-76. *)
Definition dcfel : list (dec * dec * dec)%type :=
  [
   ((17400353, (-7)), (62833195099091, (-11)), (52796, (-10)));
   ((62565836, (-7)), (62830194572674, (-11)), ((-26180), (-10)));
   ((47199666, (-7)), (83997091449254, (-10)), ((-19780), (-9)));
   ((19636505, (-8)), (84334662911720, (-10)), ((-56044), (-9)));
   ((41547339, (-7)), (52993466764997, (-12)), (58845, (-10)));
   ((46524223, (-7)), (21354275911213, (-12)), (56797, (-10)));
   ((42620486, (-7)), (75025342197656, (-13)), (55317, (-10)));
   ((14740694, (-7)), (38377331909193, (-13)), (56093, (-10)))
  ].

(** evp.cc:82. *)
Definition dceps : (dec * dec * dec)%type :=
  ((4093198, (-7)), ((-2271110), (-10)), ((-2860401), (-14))).

(** evp.cc:85-101. *)
Definition ccsel : list (dec * dec * dec)%type :=
  [
   ((1675104, (-8)), ((-4179579), (-11)), ((-1260516), (-13)));
   ((2220221, (-7)), (2809917, (-8)), (1852532, (-11)));
   ((1589963, (-6)), (3418075, (-8)), (1430200, (-11)));
   ((2994089, (-6)), (2590824, (-8)), (4155840, (-12)));
   ((8155457, (-7)), (2486352, (-8)), (6836840, (-12)));
   ((1735614, (-6)), (1763719, (-8)), (6370440, (-12)));
   ((1968564, (-6)), (1524020, (-8)), ((-2517152), (-12)));
   ((1282417, (-6)), (8703393, (-9)), (2289292, (-11)));
   ((2280820, (-6)), (1918010, (-8)), (4484520, (-12)));
   ((4833473, (-8)), (1641773, (-10)), ((-4654200), (-13)));
   ((5589232, (-8)), ((-3455092), (-10)), ((-7388560), (-13)));
   ((4634443, (-8)), ((-2658234), (-11)), (7757000, (-14)));
   ((8997041, (-9)), (6329728, (-12)), ((-1939256), (-15)));
   ((2284178, (-8)), ((-9941590), (-11)), (6787400, (-14)));
   ((4350267, (-8)), ((-6839749), (-11)), ((-2714956), (-13)));
   ((1348204, (-8)), (1091504, (-11)), (6903760, (-13)));
   ((3106570, (-8)), ((-1665665), (-10)), ((-1590188), (-13)))
  ].

(** evp.cc:108-122. *)
Definition dcargs : list (dec * dec)%type :=
  [
   ((50974222, (-7)), ((-78604195454652), (-11)));
   ((39584962, (-7)), ((-57533848094674), (-11)));
   ((16338070, (-7)), ((-11506769618935), (-10)));
   ((25487111, (-7)), ((-39302097727326), (-11)));
   ((49255514, (-7)), ((-58849265665348), (-11)));
   ((13363463, (-7)), ((-55076098609303), (-11)));
   ((16072053, (-7)), ((-52237501616674), (-11)));
   ((13629480, (-7)), ((-11790629318198), (-10)));
   ((55657014, (-7)), ((-10977134971135), (-10)));
   ((50708205, (-7)), ((-15774000881978), (-11)));
   ((39318944, (-7)), (52963464780000, (-12)));
   ((48989497, (-7)), (39809289073258, (-12)));
   ((13097446, (-7)), (77540959633708, (-12)));
   ((35147141, (-7)), (79618578146517, (-12)));
   ((35413158, (-7)), ((-54868336758022), (-11)))
  ].

(** evp.cc:128-142. *)
Definition ccamps : list (dec * dec * dec * dec * dec)%type :=
  [
   (((-2279594), (-11)), (1407414, (-11)), (8273188, (-12)), (1340565, (-11)), ((-2490817), (-13)));
   (((-3494537), (-11)), (2860401, (-13)), (1289448, (-13)), (1627237, (-11)), ((-1823138), (-13)));
   ((6593466, (-13)), (1322572, (-11)), (9258695, (-12)), ((-4674248), (-13)), ((-3646275), (-13)));
   ((1140767, (-11)), ((-2049792), (-11)), ((-4747930), (-12)), ((-2638763), (-12)), ((-1245408), (-13)));
   ((9516893, (-12)), ((-2748894), (-12)), ((-1319381), (-12)), ((-4549908), (-12)), ((-1864821), (-13)));
   ((7310990, (-12)), ((-1924710), (-12)), ((-8772849), (-13)), ((-3334143), (-12)), ((-1745256), (-13)));
   (((-2603449), (-12)), (7359472, (-12)), (3168357, (-12)), (1119056, (-12)), ((-1655307), (-13)));
   (((-3228859), (-12)), (1308997, (-13)), (1013137, (-13)), (2403899, (-12)), ((-3736225), (-13)));
   ((3442177, (-13)), (2671323, (-12)), (1832858, (-12)), ((-2394688), (-13)), ((-3478444), (-13)));
   ((8702406, (-12)), ((-8421214), (-12)), ((-1372341), (-12)), ((-1455234), (-12)), ((-4998479), (-14)));
   (((-1488378), (-12)), ((-1251789), (-11)), (5226868, (-13)), ((-2049301), (-13)), (0, (-1)));
   (((-8043059), (-12)), ((-2991300), (-12)), (1473654, (-13)), ((-3154542), (-13)), (0, (-1)));
   ((3699128, (-12)), ((-3316126), (-12)), (2901257, (-13)), (3407826, (-13)), (0, (-1)));
   ((2550120, (-12)), ((-1241123), (-12)), (9901116, (-14)), (2210482, (-13)), (0, (-1)));
   (((-6351059), (-13)), (2341650, (-12)), (1061492, (-12)), (2878231, (-13)), (0, (-1)))
  ].

(** evp.cc:149-152. *)
Definition ccsec : list (dec * dec * dec)%type :=
  [
   ((1289600, (-12)), (5550147, (-7)), (2076942, (-6)));
   ((3102810, (-11)), (4035027, (-6)), (3525565, (-7)));
   ((9124190, (-12)), (9990265, (-7)), (2622706, (-6)));
   ((9793240, (-13)), (5508259, (-6)), (1559103, (-5)))
  ].

(** evp.cc:167-169. *)
Definition dcargm : list (dec * dec)%type :=
  [
   ((51679830, (-7)), (83286911095275, (-10)));
   ((54913150, (-7)), ((-72140632838100), (-10)));
   ((59598530, (-7)), (15542754389685, (-9)))
  ].

(** evp.cc:176-178. *)
Definition ccampm : list (dec * dec * dec * dec)%type :=
  [
   ((1097594, (-7)), (2896773, (-13)), (5450474, (-8)), (1438491, (-13)));
   (((-2223581), (-8)), (5083103, (-14)), (1002548, (-8)), ((-2291823), (-14)));
   ((1148966, (-8)), (5658888, (-14)), (8249439, (-9)), (4063015, (-14)))
  ].

(** evp.cc:183. *)
Definition ccpamv : list dec :=
  [(8326827, (-17)); (1843484, (-17)); (1988712, (-18)); (1881276, (-18))].

(** evp.cc:189. *)
Definition ccpam : list dec :=
  [(4960906, (-9)); (2727436, (-9)); (8392311, (-10)); (1556861, (-9))].
