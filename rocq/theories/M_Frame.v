(** Models of the precession, nutation and coordinate-frame routines, over any
    [Num].  Files are relative to /repo/src. *)
From Coq Require Import ZArith Bool String.
From Verif Require Import Num M_Angle M_Vec M_Nutc M_Epoch.
Open Scope num_scope.

Section Frame.
Context {N : Num}.
Notation sph := (sph N).
Notation Sph := (Sph (N := N)).

(** The literal 0.484813681109535994e-5, ARCSECS_2_RADIANS in the files below. *)
Definition as2r : N := n_lit 484813681109535994 (-23).

(** prec.cc:46-59: (zeta, z, theta). *)
Definition prec_angles (ep0 ep1 : N) : N * N * N :=
  let t0 := (ep0 - #2000) / #100 in
  let t := (ep1 - ep0) / #100 in
  let tas2R := t * as2r in
  let w := n_lit 23062181 (-4) + (n_lit 139656 (-5) - n_lit 139 (-6) * t0) * t0 in
  let zeta := (w + ((n_lit 30188 (-5) - n_lit 344 (-6) * t0) + n_lit 17998 (-6) * t) * t) * tas2R in
  let z := (w + ((n_lit 109468 (-5) + n_lit 66 (-6) * t0) + n_lit 18203 (-6) * t) * t) * tas2R in
  let theta := ((n_lit 20043109 (-4) + (n_lit (-8533) (-4) - n_lit 217 (-6) * t0) * t0) + ((n_lit (-42665) (-5) -
    n_lit 217 (-6) * t0) - n_lit 41833 (-6) * t) * t) * tas2R in
  (zeta, z, theta).
(** prec.cc:42-63. *)
Definition prec (ep0 ep1 : N) : mat N :=
  let '(zeta, z, theta) := prec_angles ep0 ep1 in deuler "ZYZ" (- zeta) theta (- z).

(** precl.cc:43-108: (zeta, z, theta). *)
Definition precl_angles (ep0 ep1 : N) : N * N * N :=
  let t0 := (ep0 - #2000) / #1000 in
  let t := (ep1 - ep0) / #1000 in
  let tas2r := t * as2r in
  let w := n_lit 230609097 (-4) + (n_lit 1397459 (-4) + (n_lit (-38) (-4) + (n_lit (-5918) (-4) + (n_lit (-37)
    (-4) + n_lit 7 (-4) * t0) * t0) * t0) * t0) * t0 in
  let zeta := (w + (n_lit 302226 (-4) + (n_lit (-2523) (-4) + (n_lit (-384) (-3) + (n_lit (-14) (-4) + n_lit 7
    (-4) * t0) * t0) * t0) * t0 + (n_lit 180183 (-4) + (n_lit (-1326) (-4) + (n_lit 6 (-4) + n_lit 5 (-4) * t0)
    * t0) * t0 + (n_lit (-583) (-4) + (n_lit (-1) (-4) + n_lit 7 (-4) * t0) * t0 + (n_lit (-285) (-4) + n_lit
    (-2) (-4) * t) * t) * t) * t) * t) * tas2r in
  let z := (w + (n_lit 109527 (-3) + (n_lit 2446 (-4) + (n_lit (-13913) (-4) + (n_lit (-134) (-4) + n_lit 26 (-4)
    * t0) * t0) * t0) * t0 + (n_lit 182667 (-4) + (n_lit (-114) (-2) + (n_lit (-173) (-4) + n_lit 44 (-4) * t0)
    * t0) * t0 + (n_lit (-2821) (-4) + (n_lit (-93) (-4) + n_lit 32 (-4) * t0) * t0 + (n_lit (-301) (-4) + n_lit
    6 (-4) * t0 - n_lit 1 (-4) * t) * t) * t) * t) * t) * tas2r in
  let theta := (n_lit 200420207 (-4) + (n_lit (-853131) (-4) + (n_lit (-2111) (-4) + (n_lit 3642 (-4) + (n_lit 8
    (-4) + n_lit (-5) (-4) * t0) * t0) * t0) * t0) * t0 + (n_lit (-426566) (-4) + (n_lit (-2111) (-4) + (n_lit
    5463 (-4) + (n_lit 17 (-4) + n_lit (-12) (-4) * t0) * t0) * t0) * t0 + (n_lit (-418238) (-4) + (n_lit 359
    (-4) + (n_lit 27 (-4) + n_lit (-1) (-4) * t0) * t0) * t0 + (n_lit (-731) (-4) + (n_lit 19 (-4) + n_lit 9
    (-4) * t0) * t0 + (n_lit (-127) (-4) + n_lit 11 (-4) * t0 + n_lit 4 (-4) * t) * t) * t) * t) * t) * tas2r in
  (zeta, z, theta).
(** precl.cc:39-112. *)
Definition precl (ep0 ep1 : N) : mat N :=
  let '(zeta, z, theta) := precl_angles ep0 ep1 in deuler "ZYZ" (- zeta) theta (- z).

(** prebn.cc:40-53: (zeta, z, theta). *)
Definition prebn_angles (be0 be1 : N) : N * N * N :=
  let bigt := (be0 - #1850) / #100 in
  let t := (be1 - be0) / #100 in
  let tas2r := t * as2r in
  let w := n_lit 23035548 (-4) + (n_lit 13972 (-4) + n_lit 59 (-6) * bigt) * bigt in
  let zeta := (w + (n_lit 30242 (-5) - n_lit 269 (-6) * bigt + n_lit 17996 (-6) * t) * t) * tas2r in
  let z := (w + (n_lit 109478 (-5) + n_lit 387 (-6) * bigt + n_lit 18324 (-6) * t) * t) * tas2r in
  let theta := (n_lit 20051125 (-4) + (n_lit (-85294) (-5) - n_lit 365 (-6) * bigt) * bigt + (n_lit (-42647) (-5)
    - n_lit 365 (-6) * bigt - n_lit 41802 (-6) * t) * t) * tas2r in
  (zeta, z, theta).
(** prebn.cc:36-57. *)
Definition prebn (be0 be1 : N) : mat N :=
  let '(zeta, z, theta) := prebn_angles be0 be1 in deuler "ZYZ" (- zeta) theta (- z).

(** slalib.h, enum Catalogue; [CAT_OTHER] stands for any other value. *)
Inductive catalogue := CAT_FK4 | CAT_FK5 | CAT_OTHER.

(** preces.cc:41-69. *)
Definition preces (system : catalogue) (ep0 ep1 : N) (pos : sph) : sph :=
  let go m := let s := dcc2s (dmxv m (dcs2c pos)) in Sph (dranrm (s_a s)) (s_b s) in
  match system with
  | CAT_FK4 => go (prebn ep0 ep1)
  | CAT_FK5 => go (prec ep0 ep1)
  | CAT_OTHER => Sph #(-99) #(-99)
  end.

(** nut.cc:42-50. *)
Definition nut (tdb : N) : mat N :=
  let '(psi, eps, eps0) := nutc tdb in deuler "XZX" eps0 (- psi) (- (eps0 + eps)).

(** prenut.cc:33-44. *)
Definition prenut (je mjd : N) : mat N := dmxm (nut mjd) (prec je (epj mjd)).

(** ecmat.cc:33-45. *)
Definition ecmat (date : N) : mat N :=
  let t := (date - n_lit 515445 (-1)) / #36525 in
  let phi := as2r * (n_lit 84381448 (-3) + (n_lit (-46815) (-3) + (n_lit (-59) (-5) + n_lit 1813 (-6) * t) * t) * t) in
  deuler "X" phi #0 #0.

(** The last two statements of ecleq.cc:49-51, eqecl.cc:49-51, galeq.cc:64-66,
    eqgal.cc:63-65, galsup.cc:65-67, supgal.cc:64-66: conventional ranges. *)
Definition conv_range (s : sph) : sph := Sph (dranrm (s_a s)) (drange (s_b s)).

(** ecleq.cc:31-52. *)
Definition ecleq (ecliptic : sph) (date : N) : sph :=
  conv_range (dcc2s (dimxv (prec #2000 (epj date)) (dimxv (ecmat date) (dcs2c ecliptic)))).
(** eqecl.cc:31-52. *)
Definition eqecl (dir : sph) (date : N) : sph :=
  conv_range (dcc2s (dmxv (ecmat date) (dmxv (prec #2000 (epj date)) (dcs2c dir)))).

(** galeq.cc:47-51 = eqgal.cc:47-51. *)
Definition gal_mat : mat N :=
  M3 (V3 (n_lit (-54875539726) (-12)) (n_lit (-873437108010) (-12)) (n_lit (-483834985808) (-12)))
     (V3 (n_lit 494109453312 (-12)) (n_lit (-444829589425) (-12)) (n_lit 746982251810 (-12)))
     (V3 (n_lit (-867666135858) (-12)) (n_lit (-198076386122) (-12)) (n_lit 455983795705 (-12))).
(** galeq.cc:36-67, eqgal.cc:36-66. *)
Definition galeq (gal : sph) : sph := conv_range (dcc2s (dimxv gal_mat (dcs2c gal))).
Definition eqgal (dir : sph) : sph := conv_range (dcc2s (dmxv gal_mat (dcs2c dir))).

(** galsup.cc:49-53 = supgal.cc:48-52. *)
Definition sup_mat : mat N :=
  M3 (V3 (n_lit (-735742574804) (-12)) (n_lit 677261296414 (-12)) (n_lit 0 (-12)))
     (V3 (n_lit (-74553778365) (-12)) (n_lit (-80991471307) (-12)) (n_lit 993922590400 (-12)))
     (V3 (n_lit 673145302109 (-12)) (n_lit 731271165817 (-12)) (n_lit 110081262225 (-12))).
(** galsup.cc:38-68, supgal.cc:38-67. *)
Definition galsup (gal : sph) : sph := conv_range (dcc2s (dmxv sup_mat (dcs2c gal))).
Definition supgal (sgal : sph) : sph := conv_range (dcc2s (dimxv sup_mat (dcs2c sgal))).

(** etrms.cc:39-61. *)
Definition etrms (be : N) : vec N :=
  let jc := (be - #1950) * n_lit 100002135903 (-13) in
  let e := n_lit 1673011 (-8) - (n_lit 4193 (-8) + n_lit 126 (-9) * jc) * jc in
  let e0 := (n_lit 84404836 (-3) - (n_lit 468495 (-4) + (n_lit 319 (-5) + n_lit 181 (-5) * jc) * jc) * jc) * as2r
    in
  let pl := (n_lit 1015489951 (-3) + (n_lit 619067 (-2) + (n_lit 165 (-2) + n_lit 12 (-3) * jc) * jc) * jc) * as2r
    in
  let ek := e * n_lit 2049552 (-5) * as2r in
  let cp := (n_cos pl) in
  V3 (ek * n_sin pl) ((- ek) * cp * n_cos e0) ((- ek) * cp * n_sin e0).

(** addet.cc:39-57. *)
Definition addet (dir : sph) (be : N) : sph :=
  let et := etrms be in
  let v := dcs2c dir in
  let s := dcc2s (V3 (v0 v + v0 et) (v1 v + v1 et) (v2 v + v2 et)) in
  Sph (dranrm (s_a s)) (s_b s).
(** subet.cc:39-58. *)
Definition subet (edir : sph) (be : N) : sph :=
  let et := etrms be in
  let v := dcs2c edir in
  let f := #1 + dvdv v et in
  let s := dcc2s (V3 (v0 v * f - v0 et) (v1 v * f - v1 et) (v2 v * f - v2 et)) in
  Sph (dranrm (s_a s)) (s_b s).

(** eg50.cc:50-54 = ge50.cc:52-56. *)
Definition gal50_mat : mat N :=
  M3 (V3 (n_lit (-66988739415) (-12)) (n_lit (-872755765852) (-12)) (n_lit (-483538914632) (-12)))
     (V3 (n_lit 492728466075 (-12)) (n_lit (-450346958020) (-12)) (n_lit 744584633283 (-12)))
     (V3 (n_lit (-867600811151) (-12)) (n_lit (-188374601723) (-12)) (n_lit 460199784784 (-12))).
(** eg50.cc:34-74. *)
Definition eg50 (fk4 : sph) : sph := conv_range (dcc2s (dmxv gal50_mat (dcs2c (subet fk4 #1950)))).
(** ge50.cc:34-76. *)
Definition ge50 (gal : sph) : sph := conv_range (addet (dcc2s (dimxv gal50_mat (dcs2c gal))) #1950).

End Frame.
