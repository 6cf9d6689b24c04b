(** Independent specification of nutation: the IAU 1980 series (Wahr 1981;
    Seidelmann 1982; Explanatory Supplement table 3.222.1) and bounds. *)
From Coq Require Import Reals ZArith List.
From Verif Require Import S_Frame.
Import ListNotations.
Open Scope R_scope.

(** Fundamental arguments of the IAU 1980 theory, radians; [T] in Julian
    centuries from J2000.0, one turn being 1296000 arcseconds. *)
Definition iau1980_l (T : R) : R := (485866.733 + (1325 * 1296000 + 715922.633) * T + 31.310 * T ^ 2 + 0.064 * T ^ 3) * arcsec.
Definition iau1980_lp (T : R) : R := (1287099.804 + (99 * 1296000 + 1292581.224) * T - 0.577 * T ^ 2 - 0.012 * T ^ 3) * arcsec.
Definition iau1980_F (T : R) : R := (335778.877 + (1342 * 1296000 + 295263.137) * T - 13.257 * T ^ 2 + 0.011 * T ^ 3) * arcsec.
Definition iau1980_D (T : R) : R := (1072261.307 + (1236 * 1296000 + 1105601.328) * T - 6.891 * T ^ 2 + 0.019 * T ^ 3) * arcsec.
Definition iau1980_Om (T : R) : R := (450160.280 - (5 * 1296000 + 482890.539) * T + 7.455 * T ^ 2 + 0.008 * T ^ 3) * arcsec.

(** Multiples of l, l', F, D, Omega; coefficient of the sine in longitude
    (0.0001 arcsecond) and its change per century (0.00001 arcsecond);
    coefficient of the cosine in obliquity and its change. *)
Record nut_row := NR { n_l : Z; n_lp : Z; n_F : Z; n_D : Z; n_Om : Z; n_psi : Z; n_psi' : Z; n_eps : Z; n_eps' : Z }.
Definition iau1980_table : list nut_row :=
  [
   NR 0 0 0 0 1 (-171996) (-1742) 92025 89; NR 0 0 0 0 2 2062 2 (-895) 5; NR (-2) 0 2 0 1 46 0 (-24) 0;
   NR 2 0 (-2) 0 0 11 0 0 0; NR (-2) 0 2 0 2 (-3) 0 1 0; NR 1 (-1) 0 (-1) 0 (-3) 0 0 0;
   NR 0 (-2) 2 (-2) 1 (-2) 0 1 0; NR 2 0 (-2) 0 1 1 0 0 0; NR 0 0 2 (-2) 2 (-13187) (-16) 5736 (-31);
   NR 0 1 0 0 0 1426 (-34) 54 (-1); NR 0 1 2 (-2) 2 (-517) 12 224 (-6); NR 0 (-1) 2 (-2) 2 217 (-5) (-95) 3;
   NR 0 0 2 (-2) 1 129 1 (-70) 0; NR 2 0 0 (-2) 0 48 0 1 0; NR 0 0 2 (-2) 0 (-22) 0 0 0;
   NR 0 2 0 0 0 17 (-1) 0 0; NR 0 1 0 0 1 (-15) 0 9 0; NR 0 2 2 (-2) 2 (-16) 1 7 0;
   NR 0 (-1) 0 0 1 (-12) 0 6 0; NR (-2) 0 0 2 1 (-6) 0 3 0; NR 0 (-1) 2 (-2) 1 (-5) 0 3 0;
   NR 2 0 0 (-2) 1 4 0 (-2) 0; NR 0 1 2 (-2) 1 4 0 (-2) 0; NR 1 0 0 (-1) 0 (-4) 0 0 0;
   NR 2 1 0 (-2) 0 1 0 0 0; NR 0 0 (-2) 2 1 1 0 0 0; NR 0 1 (-2) 2 0 (-1) 0 0 0;
   NR 0 1 0 0 2 1 0 0 0; NR (-1) 0 0 1 1 1 0 0 0; NR 0 1 2 (-2) 0 (-1) 0 0 0;
   NR 0 0 2 0 2 (-2274) (-2) 977 (-5); NR 1 0 0 0 0 712 1 (-7) 0; NR 0 0 2 0 1 (-386) (-4) 200 0;
   NR 1 0 2 0 2 (-301) 0 129 (-1); NR 1 0 0 (-2) 0 (-158) 0 (-1) 0; NR (-1) 0 2 0 2 123 0 (-53) 0;
   NR 0 0 0 2 0 63 0 (-2) 0; NR 1 0 0 0 1 63 1 (-33) 0; NR (-1) 0 0 0 1 (-58) (-1) 32 0;
   NR (-1) 0 2 2 2 (-59) 0 26 0; NR 1 0 2 0 1 (-51) 0 27 0; NR 0 0 2 2 2 (-38) 0 16 0;
   NR 2 0 0 0 0 29 0 (-1) 0; NR 1 0 2 (-2) 2 29 0 (-12) 0; NR 2 0 2 0 2 (-31) 0 13 0;
   NR 0 0 2 0 0 26 0 (-1) 0; NR (-1) 0 2 0 1 21 0 (-10) 0; NR (-1) 0 0 2 1 16 0 (-8) 0;
   NR 1 0 0 (-2) 1 (-13) 0 7 0; NR (-1) 0 2 2 1 (-10) 0 5 0; NR 1 1 0 (-2) 0 (-7) 0 0 0;
   NR 0 1 2 0 2 7 0 (-3) 0; NR 0 (-1) 2 0 2 (-7) 0 3 0; NR 1 0 2 2 2 (-8) 0 3 0;
   NR 1 0 0 2 0 6 0 0 0; NR 2 0 2 (-2) 2 6 0 (-3) 0; NR 0 0 0 2 1 (-6) 0 3 0;
   NR 0 0 2 2 1 (-7) 0 3 0; NR 1 0 2 (-2) 1 6 0 (-3) 0; NR 0 0 0 (-2) 1 (-5) 0 3 0;
   NR 1 (-1) 0 0 0 5 0 0 0; NR 2 0 2 0 1 (-5) 0 3 0; NR 0 1 0 (-2) 0 (-4) 0 0 0;
   NR 1 0 (-2) 0 0 4 0 0 0; NR 0 0 0 1 0 (-4) 0 0 0; NR 1 1 0 0 0 (-3) 0 0 0;
   NR 1 0 2 0 0 3 0 0 0; NR 1 (-1) 2 0 2 (-3) 0 1 0; NR (-1) (-1) 2 2 2 (-3) 0 1 0;
   NR (-2) 0 0 0 1 (-2) 0 1 0; NR 3 0 2 0 2 (-3) 0 1 0; NR 0 (-1) 2 2 2 (-3) 0 1 0;
   NR 1 1 2 0 2 2 0 (-1) 0; NR (-1) 0 2 (-2) 1 (-2) 0 1 0; NR 2 0 0 0 1 2 0 (-1) 0;
   NR 1 0 0 0 2 (-2) 0 1 0; NR 3 0 0 0 0 2 0 0 0; NR 0 0 2 1 2 2 0 (-1) 0;
   NR (-1) 0 0 0 2 1 0 (-1) 0; NR 1 0 0 (-4) 0 (-1) 0 0 0; NR (-2) 0 2 2 2 1 0 (-1) 0;
   NR (-1) 0 2 4 2 (-2) 0 1 0; NR 2 0 0 (-4) 0 (-1) 0 0 0; NR 1 1 2 (-2) 2 1 0 (-1) 0;
   NR 1 0 2 2 1 (-1) 0 1 0; NR (-2) 0 2 4 2 (-1) 0 1 0; NR (-1) 0 4 0 2 1 0 0 0;
   NR 1 (-1) 0 (-2) 0 1 0 0 0; NR 2 0 2 (-2) 1 1 0 (-1) 0; NR 2 0 2 2 2 (-1) 0 0 0;
   NR 1 0 0 2 1 (-1) 0 0 0; NR 0 0 4 (-2) 2 1 0 0 0; NR 3 0 2 (-2) 2 1 0 0 0;
   NR 1 0 2 (-2) 0 (-1) 0 0 0; NR 0 1 2 0 1 1 0 0 0; NR (-1) (-1) 0 2 1 1 0 0 0;
   NR 0 0 (-2) 0 1 (-1) 0 0 0; NR 0 0 2 (-1) 2 (-1) 0 0 0; NR 0 1 0 2 0 (-1) 0 0 0;
   NR 1 0 (-2) (-2) 0 (-1) 0 0 0; NR 0 (-1) 2 0 1 (-1) 0 0 0; NR 1 1 0 (-2) 1 (-1) 0 0 0;
   NR 1 0 (-2) 2 0 (-1) 0 0 0; NR 2 0 0 2 0 1 0 0 0; NR 0 0 2 4 2 (-1) 0 0 0;
   NR 0 1 0 1 0 1 0 0 0
  ]%Z.
Definition iau1980_angle (T : R) (r : nut_row) : R :=
  IZR (n_l r) * iau1980_l T + IZR (n_lp r) * iau1980_lp T + IZR (n_F r) * iau1980_F T
  + IZR (n_D r) * iau1980_D T + IZR (n_Om r) * iau1980_Om T.
Fixpoint Rsum (l : list R) : R := match l with [] => 0 | x :: l => x + Rsum l end.
(** Nutation in longitude and in obliquity, radians. *)
Definition iau1980_dpsi (T : R) : R :=
  Rsum (map (fun r => (IZR (n_psi r) + IZR (n_psi' r) / 10 * T) * sin (iau1980_angle T r)) iau1980_table) * 0.0001 * arcsec.
Definition iau1980_deps (T : R) : R :=
  Rsum (map (fun r => (IZR (n_eps r) + IZR (n_eps' r) / 10 * T) * cos (iau1980_angle T r)) iau1980_table) * 0.0001 * arcsec.
