(** Models of the spherical-trigonometry routines, over any [Num].
    Files are relative to /repo/src.  Where a float twin exists it is the same
    code in float, or (sep, sepv, pav, h2e) calls / computes the double one. *)
From Coq Require Import ZArith Bool.
From Verif Require Import Num M_Angle M_Vec.
Open Scope num_scope.

Section Sphere.
Context {N : Num}.
Notation sph := (sph N).
Notation Sph := (Sph (N := N)).

(** dsepv.cc:35-46, sepv.cc:34-39. *)
Definition dsepv (va vb : vec N) : N :=
  let s := snd (dvn (dvxv va vb)) in
  let c := dvdv va vb in
  if (negb (s =? #0) || negb (c =? #0))%bool then n_atan2 s c else #0.

(** dsep.cc:31-39, sep.cc:31-36. *)
Definition dsep (sa sb : sph) : N := dsepv (dcs2c sa) (dcs2c sb).

(** dbear.cc:34-40, bear.cc:34-40. *)
Definition dbear (da db : sph) : N :=
  let cos_b_dec := n_cos (s_b db) in
  let d_ra := s_a db - s_a da in
  let x := n_sin (s_b db) * n_cos (s_b da) - cos_b_dec * n_sin (s_b da) * n_cos d_ra in
  let y := n_sin d_ra * cos_b_dec in
  if (negb (x =? #0) || negb (y =? #0))%bool then n_atan2 y x else #0.

(** dpav.cc:37-60, pav.cc:36-44. *)
Definition dpav (va vb : vec N) : N :=
  let x1 := v0 va in let y1 := v1 va in let z1 := v2 va in
  let length := n_sqrt (x1 * x1 + y1 * y1 + z1 * z1) in
  let nz := negb (length =? #0) in
  let x1 := if nz then x1 / length else x1 in
  let y1 := if nz then y1 / length else y1 in
  let z1 := if nz then z1 / length else z1 in
  let x2 := v0 vb in let y2 := v1 vb in let z2 := v2 vb in
  let sq := y2 * x1 - x2 * y1 in
  let cq := z2 * (x1 * x1 + y1 * y1) - z1 * (x2 * x1 + y2 * y1) in
  let cq := if ((sq =? #0) && (cq =? #0))%bool then #1 else cq in
  n_atan2 sq cq.

(** de2h.cc:45-73, e2h.cc:45-73: (azimuth, elevation).  [dir] is hour angle and
    declination. *)
Definition de2h (dir : sph) (phi : N) : sph :=
  let sin_ha := n_sin (s_a dir) in let cos_ha := n_cos (s_a dir) in
  let sin_dec := n_sin (s_b dir) in let cos_dec := n_cos (s_b dir) in
  let sin_phi := n_sin phi in let cos_phi := n_cos phi in
  let x := (- cos_ha) * cos_dec * sin_phi + sin_dec * cos_phi in
  let y := (- sin_ha) * cos_dec in
  let z := cos_ha * cos_dec * cos_phi + sin_dec * sin_phi in
  let r := n_sqrt (x * x + y * y) in
  let a := if r =? #0 then #0 else
             let a := n_atan2 y x in if a <? #0 then a + n_2pi else a in
  Sph a (n_atan2 z r).

(** dh2e.cc:44-62, h2e.cc:43-61. *)
Definition dh2e (azimuth elevation phi : N) : sph :=
  let sin_az := n_sin azimuth in let cos_az := n_cos azimuth in
  let sin_el := n_sin elevation in let cos_el := n_cos elevation in
  let sin_phi := n_sin phi in let cos_phi := n_cos phi in
  let x := (- cos_az) * cos_el * sin_phi + sin_el * cos_phi in
  let y := (- sin_az) * cos_el in
  let z := cos_az * cos_el * cos_phi + sin_el * sin_phi in
  let r := n_sqrt (x * x + y * y) in
  Sph (if r =? #0 then #0 else n_atan2 y x) (n_atan2 z r).

(** zd.cc:44-55. *)
Definition zd (dir : sph) (phi : N) : N :=
  let sin_ha := n_sin (s_a dir) in let cos_ha := n_cos (s_a dir) in
  let sin_dec := n_sin (s_b dir) in let cos_dec := n_cos (s_b dir) in
  let sin_phi := n_sin phi in let cos_phi := n_cos phi in
  let x := cos_ha * cos_dec * sin_phi - sin_dec * cos_phi in
  let y := sin_ha * cos_dec in
  let z := cos_ha * cos_dec * cos_phi + sin_dec * sin_phi in
  n_atan2 (n_sqrt (x * x + y * y)) z.

(** pa.cc:36-44. *)
Definition pa (dir : sph) (phi : N) : N :=
  let cp := n_cos phi in
  let sqsz := cp * n_sin (s_a dir) in
  let cqsz := n_sin phi * n_cos (s_b dir) - cp * n_sin (s_b dir) * n_cos (s_a dir) in
  let cqsz := if ((sqsz =? #0) && (cqsz =? #0))%bool then #1 else cqsz in
  n_atan2 sqsz cqsz.

(** slalib.h, class AltazMount; field order of altaz.cc:108-116. *)
Record altaz_mount := AM {
  am_az : N; am_az_vel : N; am_az_acc : N;
  am_el : N; am_el_vel : N; am_el_acc : N;
  am_pa : N; am_pa_vel : N; am_pa_acc : N }.

(** altaz.cc:62-117. *)
Definition altaz (dir : sph) (phi : N) : altaz_mount :=
  let epsilon := n_lit 1 (-30) in
  let sin_ha := n_sin (s_a dir) in let cos_ha := n_cos (s_a dir) in
  let sin_dec := n_sin (s_b dir) in let cos_dec := n_cos (s_b dir) in
  let sin_phi := n_sin phi in let cos_phi := n_cos phi in
  let ch_cd := cos_ha * cos_dec in
  let sd_cp := sin_dec * cos_phi in
  let x := (- ch_cd) * sin_phi + sd_cp in
  let y := (- sin_ha) * cos_dec in
  let z := ch_cd * cos_phi + sin_dec * sin_phi in
  let r_squared := x * x + y * y in
  let r := n_sqrt r_squared in
  let azimuth := if r_squared =? #0 then #0 else n_atan2 y x in
  let azimuth := if azimuth <? #0 then azimuth + n_2pi else azimuth in
  let elevation := n_atan2 z r in
  let c := cos_dec * sin_phi - cos_ha * sd_cp in
  let s := sin_ha * cos_phi in
  let p_angle := if c * c + s * s >? #0 then n_atan2 s c else n_pi - s_a dir in
  let clamp := r_squared <? epsilon in
  let r_squared := if clamp then epsilon else r_squared in
  let r := if clamp then n_sqrt r_squared else r in
  let p_vel := (- x) * cos_phi / r_squared in
  let a_vel := sin_phi + z * p_vel in
  let e_vel := cos_phi * y / r in
  let edr := e_vel / r in
  let a_acc := edr * (z * sin_phi + (#2 - r_squared) * p_vel) in
  let e_acc := (- r) * p_vel * a_vel in
  let p_acc := edr * (sin_phi + #2 * z * p_vel) in
  AM azimuth a_vel a_acc elevation e_vel e_acc p_angle p_vel p_acc.

(** slalib.h:93-98. *)
Inductive tpp := TPP_OK | TPP_TOO_FAR | TPP_ASTAR_ON_TP | TPP_ASTAR_TOO_FAR.

(** ds2tp.cc:51-62 = dv2tp.cc:55-66: status and adjusted denominator. *)
Definition tp_denom (denom : N) : tpp * N :=
  let tiny := n_lit 1 (-6) in
  if denom >? tiny then (TPP_OK, denom)
  else if denom >=? #0 then (TPP_TOO_FAR, tiny)
  else if denom >? - tiny then (TPP_ASTAR_ON_TP, - tiny)
  else (TPP_ASTAR_TOO_FAR, denom).

(** ds2tp.cc:35-68, s2tp.cc:35-68: (status, xi, eta). *)
Definition ds2tp (point tangent : sph) : tpp * N * N :=
  let sin_tdec := n_sin (s_b tangent) in
  let sin_dec := n_sin (s_b point) in
  let cos_tdec := n_cos (s_b tangent) in
  let cos_dec := n_cos (s_b point) in
  let ra_diff := s_a point - s_a tangent in
  let sin_ra_diff := n_sin ra_diff in
  let cos_ra_diff := n_cos ra_diff in
  let denom := sin_dec * sin_tdec + cos_dec * cos_tdec * cos_ra_diff in
  let '(status, denom) := tp_denom denom in
  (status, cos_dec * sin_ra_diff / denom, (sin_dec * cos_tdec - cos_dec * sin_tdec * cos_ra_diff) / denom).

(** dtp2s.cc:33-40, tp2s.cc:33-40. *)
Definition dtp2s (xi eta : N) (tangent : sph) : sph :=
  let sin_tdec := n_sin (s_b tangent) in
  let cos_tdec := n_cos (s_b tangent) in
  let denom := cos_tdec - eta * sin_tdec in
  Sph (dranrm (n_atan2 xi denom + s_a tangent))
      (n_atan2 (sin_tdec + eta * cos_tdec) (n_sqrt (xi * xi + denom * denom))).

(** dtps2c.cc:51-81, tps2c.cc: number of solutions and the two solutions, which
    are written only when the number is not 0. *)
Definition dtps2c (xi eta : N) (point : sph) : Z * option (sph * sph) :=
  let x2 := xi * xi in
  let y2 := eta * eta in
  let sin_dec := n_sin (s_b point) in
  let cos_dec := n_cos (s_b point) in
  let sdf := sin_dec * n_sqrt (#1 + x2 + y2) in
  let r2 := cos_dec * cos_dec * (#1 + y2) - sin_dec * sin_dec * x2 in
  if r2 >=? #0 then
    let r := n_sqrt r2 in
    let s := sdf - eta * r in
    let c := sdf * eta + r in
    let r := if ((xi =? #0) && (r =? #0))%bool then #1 else r in
    let solution1 := Sph (dranrm (s_a point - n_atan2 xi r)) (n_atan2 s c) in
    let r := - r in
    let s := sdf - eta * r in
    let c := sdf * eta + r in
    let solution2 := Sph (dranrm (s_a point - n_atan2 xi r)) (n_atan2 s c) in
    ((if n_abs sdf <? #1 then 1%Z else 2%Z), Some (solution1, solution2))
  else (0%Z, None).

(** dtp2v.cc:38-50, tp2v.cc:38-50. *)
Definition dtp2v (xi eta : N) (tangent : vec N) : vec N :=
  let x := v0 tangent in let y := v1 tangent in let z := v2 tangent in
  let f := n_sqrt (#1 + xi * xi + eta * eta) in
  let r := n_sqrt (x * x + y * y) in
  let pole := r =? #0 in
  let x := if pole then n_lit 1 (-20) else x in
  let r := if pole then n_lit 1 (-20) else r in
  V3 ((x - (xi * y + eta * x * z) / r) / f) ((y + (xi * x - eta * y * z) / r) / f) ((z + eta * r) / f).

(** dv2tp.cc:39-71, v2tp.cc:39-71. *)
Definition dv2tp (point tangent : vec N) : tpp * N * N :=
  let x := v0 point in let y := v1 point in let z := v2 point in
  let x0 := v0 tangent in let y0 := v1 tangent in let z0 := v2 tangent in
  let r2 := x0 * x0 + y0 * y0 in
  let r := n_sqrt r2 in
  let pole := r =? #0 in
  let x0 := if pole then n_lit 1 (-20) else x0 in
  let r := if pole then n_lit 1 (-20) else r in
  let w := x * x0 + y * y0 in
  let d := w + z * z0 in
  let '(status, d) := tp_denom d in
  let d := d * r in
  (status, (y * x0 - x * y0) / d, (z * r2 - z0 * w) / d).

(** dtpv2c.cc:48-76, tpv2c.cc:48-76. *)
Definition dtpv2c (xi eta : N) (point : vec N) : Z * option (vec N * vec N) :=
  let x := v0 point in let y := v1 point in let z := v2 point in
  let rxy2 := x * x + y * y in
  let xi2 := xi * xi in
  let eta2p1 := eta * eta + #1 in
  let sdf := z * n_sqrt (xi2 + eta2p1) in
  let r2 := rxy2 * eta2p1 - z * z * xi2 in
  if r2 >? #0 then
    let r := n_sqrt r2 in
    let c := (sdf * eta + r) / (eta2p1 * n_sqrt (rxy2 * (r2 + xi2))) in
    let solution1 := V3 (c * (x * r + y * xi)) (c * (y * r - x * xi)) ((sdf - eta * r) / eta2p1) in
    let r := - r in
    let c := (sdf * eta + r) / (eta2p1 * n_sqrt (rxy2 * (r2 + xi2))) in
    let solution2 := V3 (c * (x * r + y * xi)) (c * (y * r - x * xi)) ((sdf - eta * r) / eta2p1) in
    ((if n_abs sdf <? #1 then 1%Z else 2%Z), Some (solution1, solution2))
  else (0%Z, None).

(** pda2h.cc:43-61: the critical-value adjustments, shared with pdq2h.cc:43-54. *)
Definition adjust_lat (lat : N) : N :=
  let tiny := n_lit 1 (-12) in
  let pn := drange lat in
  if n_abs (n_abs pn - n_pi / #2) <? tiny then pn - f_sign tiny pn
  else if n_abs pn <? tiny then tiny else pn.
Definition adjust_az (azimuth : N) : N :=
  let tiny := n_lit 1 (-12) in
  let an := drange azimuth in
  if n_abs (n_abs an - n_pi) <? tiny then an - f_sign tiny an
  else if n_abs an <? tiny then tiny else an.
Definition adjust_dec_a (lat dec : N) : N :=
  let tiny := n_lit 1 (-12) in
  let dn := drange dec in
  if ((n_abs (n_abs dn - n_abs lat) <? tiny) || (n_abs (n_abs dn - n_pi / #2) <? tiny))%bool
  then dn - f_sign tiny dn
  else if n_abs dn <? tiny then tiny else dn.
(** pdq2h.cc:55-59: tests the raw declination, and has no near-zero case. *)
Definition adjust_dec_q (lat dec : N) : N :=
  let tiny := n_lit 1 (-12) in
  let dn := drange dec in
  if ((n_abs (n_abs dec - n_abs lat) <? tiny) || (n_abs (n_abs dec - n_pi / #2) <? tiny))%bool
  then dn - f_sign tiny dn else dn.

(** A hour angle and its validity flag; [None]: not written. *)
Definition ha_out : Type := option N * bool.

(** pda2h.cc:37-89. *)
Definition pda2h (lat dec azimuth : N) : ha_out * ha_out :=
  let pn := adjust_lat lat in
  let an := adjust_az azimuth in
  let dn := adjust_dec_a lat dec in
  let sin_an := n_sin an in
  let cos_an := n_cos an in
  let sinan_cospn := sin_an * n_sin pn in
  let qt := n_sin dn * sin_an * n_cos pn in
  let qb := n_cos dn * n_sqrt (cos_an * cos_an + sinan_cospn * sinan_cospn) in
  if n_abs qt <=? qb then
    let hpt := n_asin (qt / qb) in
    let t := n_atan2 sinan_cospn (- cos_an) in
    let ha1 := drange (hpt - t) in
    let ha2 := drange ((- hpt) - (t + n_pi)) in
    ((Some ha1, ha1 * an <=? #0), (Some ha2, ha2 * an <=? #0))
  else ((None, false), (None, false)).

(** pdq2h.cc:37-86. *)
Definition pdq2h (lat dec p_angle : N) : ha_out * ha_out :=
  let pn := adjust_lat lat in
  let qn := adjust_az p_angle in
  let dn := adjust_dec_q lat dec in
  let sin_qn := n_sin qn in
  let cos_qn := n_cos qn in
  let sinqn_sindn := sin_qn * n_sin dn in
  let qt := n_sin pn * sin_qn * n_cos dn in
  let qb := n_cos pn * n_sqrt (cos_qn * cos_qn + sinqn_sindn * sinqn_sindn) in
  if n_abs qt <=? qb then
    let hpt := n_asin (qt / qb) in
    let t := n_atan2 sinqn_sindn cos_qn in
    let ha1 := drange (hpt - t) in
    let ha2 := drange ((- hpt) - (t + n_pi)) in
    ((Some ha1, ha1 * qn >=? #0), (Some ha2, ha2 * qn >=? #0))
  else ((None, false), (None, false)).

End Sphere.
Arguments altaz_mount : clear implicits.
Arguments ha_out : clear implicits.
