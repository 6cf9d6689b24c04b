(** Models of the observer, polar-motion, radial-velocity, proper-motion and
    low-precision Earth routines, over any [Num].  Files are relative to
    /repo/src. *)
From Coq Require Import ZArith Bool.
From Verif Require Import Int32 Num M_Angle M_Vec.
Open Scope num_scope.

Section Site.
Context {N : Num}.
Notation sph := (sph N).
Notation Sph := (Sph (N := N)).
Notation VPV := (VPV (N := N)).

(** geoc.cc:40-61: (axis_dist, equator_dist). *)
Definition geoc (latitude height : N) : N * N :=
  let EARTH_RADIUS := #6378140 in
  let FF := #1 / n_lit 298257 (-3) in
  let B2 := #1 - FF in
  let B := B2 * B2 in
  let AU := n_lit 149597870 3 in
  let sin_lat := n_sin latitude in
  let cos_lat := n_cos latitude in
  let c := #1 / n_sqrt (cos_lat * cos_lat + B * sin_lat * sin_lat) in
  let s := B * c in
  ((EARTH_RADIUS * c + height) * cos_lat / AU, (EARTH_RADIUS * s + height) * sin_lat / AU).

(** pvobs.cc:35-59. *)
Definition pvobs (latitude height lst : N) : vecpv N :=
  let SIDERIAL_RATE := n_lit 7292115855306589 (-20) in
  let '(axis_dist, equator_dist) := geoc latitude height in
  let sin_lst := n_sin lst in
  let cos_lst := n_cos lst in
  let velocity := SIDERIAL_RATE * axis_dist in
  VPV (V3 (axis_dist * cos_lst) (axis_dist * sin_lst) equator_dist)
      (V3 ((- velocity) * sin_lst) (velocity * cos_lst) #0).

(** polmo.cc:76-119: (t_long, t_phi, d_az).  At the exact pole (cos_phi = 0)
    lines 108-109 compute 0/0 and 1/0 and d_az becomes a NaN: [None]. *)
Definition polmo (m_long m_phi x_pm y_pm : N) : N * N * option N :=
  let sin_long := n_sin m_long in
  let cos_long := n_cos m_long in
  let sin_phi := n_sin m_phi in
  let cos_phi := n_cos m_phi in
  let xm := cos_long * cos_phi in
  let ym := sin_long * cos_phi in
  let zm := sin_phi in
  let sin_xpm := n_sin x_pm in
  let cos_xpm := n_cos x_pm in
  let sin_ypm := n_sin y_pm in
  let cos_ypm := n_cos y_pm in
  let zw := (- ym) * sin_ypm + zm * cos_ypm in
  let xt := xm * cos_xpm - zw * sin_xpm in
  let yt := ym * cos_ypm + zm * sin_ypm in
  let zt := xm * sin_xpm + zw * cos_xpm in
  let xnm := (- sin_xpm) * cos_ypm in
  let ynm := sin_ypm in
  let znm := cos_xpm * cos_ypm in
  let cos_phi := n_sqrt (xt * xt + yt * yt) in
  let xt := if cos_phi =? #0 then #1 else xt in
  let sin_long := yt / cos_phi in
  let cos_long := xt / cos_phi in
  let t_long := if (negb (xt =? #0) || negb (yt =? #0))%bool then n_atan2 yt xt else #0 in
  let t_phi := n_atan2 zt cos_phi in
  let xnt := (xnm * cos_long + ynm * sin_long) * zt - znm * cos_phi in
  let ynt := (- xnm) * sin_long + ynm * cos_long in
  let d_az := if (negb (xnt =? #0) || negb (ynt =? #0))%bool then n_atan2 (- ynt) (- xnt) else #0 in
  (t_long, t_phi, if cos_phi =? #0 then None else Some d_az).

(** rverot.cc:38-42. *)
Definition rverot (phi : N) (pos : sph) (stime : N) : N :=
  n_lit 4655 (-4) * n_cos phi * n_sin (stime - s_a pos) * n_cos (s_b pos).

(** rvgalc.cc:37-58, rvlg.cc:35-58, rvlsrd.cc:44-63, rvlsrk.cc:44-64. *)
Definition rvgalc (pos : sph) : N :=
  dvdv (V3 (n_lit (-10870408) (-5)) (n_lit 9786251 (-5)) (n_lit (-16433610) (-5))) (dcs2c pos).
Definition rvlg (pos : sph) : N :=
  dvdv (V3 (n_lit (-14823284) (-5)) (n_lit 13344888 (-5)) (n_lit (-22409467) (-5))) (dcs2c pos).
Definition rvlsrd (pos : sph) : N :=
  dvdv (V3 (n_lit 63823 (-5)) (n_lit 1458542 (-5)) (n_lit (-780116) (-5))) (dcs2c pos).
Definition rvlsrk (pos : sph) : N :=
  dvdv (V3 (n_lit (-29000) (-5)) (n_lit 1731726 (-5)) (n_lit (-1000141) (-5))) (dcs2c pos).

(** pm.cc:41-67. *)
Definition pm (dir_ep0 motion : sph) (parallax r_velocity ep0 ep1 : N) : sph :=
  let VFR := (n_lit 36525 (-2) * #86400 / #149597870) * n_lit 48481368111 (-16) in
  let pos := dcs2c dir_ep0 in
  let w := VFR * r_velocity * parallax in
  let em0 := (- s_a motion) * v1 pos - s_b motion * n_cos (s_a dir_ep0) * n_sin (s_b dir_ep0) + w * v0 pos in
  let em1 := s_a motion * v0 pos - s_b motion * n_sin (s_a dir_ep0) * n_sin (s_b dir_ep0) + w * v1 pos in
  let em2 := s_b motion * n_cos (s_b dir_ep0) + w * v2 pos in
  let time := ep1 - ep0 in
  let r := dcc2s (V3 (v0 pos + time * em0) (v1 pos + time * em1) (v2 pos + time * em2)) in
  Sph (dranrm (s_a r)) (s_b r).

(** earth.cc:54-58: whole years since 1900 and the fraction of the year;
    [None] is signed overflow. *)
Definition earth_time (year day : Z) (fraction : N) : option (N * N) :=
  let y4 := ((I year %% I 4 + I 4) %% I 4)%cint in
  match (I year - I 1900)%cint, (I 4 * (I day - I 1 / (y4 + I 1)) - y4 - I 2)%cint with
  | Some y, Some d => Some (n_ofZ y, (n_ofZ d + n_lit 40 (-1) * fraction) / n_lit 14610 (-1))
  | _, _ => None
  end.

(** earth.cc:60-103 (float arithmetic; TWO_PI is the literal
    6.28318530718f). *)
Definition earth_pv (year_since_1900 yf : N) : vecpv N :=
  let TWO_PI := n_lit 628318530718 (-11) in
  let orbital_speed := n_lit 19913 (-11) in
  let emb_dist := n_lit 312 (-7) in
  let emb_speed := n_lit 831 (-13) in
  let t := year_since_1900 + yf in
  let elm := n_fmod (n_lit 4881628 (-6) + TWO_PI * yf + n_lit 13420 (-8) * t) TWO_PI in
  let gamma := n_lit 4908230 (-6) + n_lit 30005 (-8) * t in
  let em := elm - gamma in
  let eps0 := n_lit 40931975 (-8) - n_lit 227 (-8) * t in
  let e := n_lit 16751 (-6) - n_lit 42 (-8) * t in
  let e_squared := e * e in
  let v := em + n_lit 20 (-1) * e * n_sin em + n_lit 125 (-2) * e_squared * n_sin (n_lit 20 (-1) * em) in
  let elt := v + gamma in
  let r := (n_lit 10 (-1) - e_squared) / (n_lit 10 (-1) + e * n_cos v) in
  let elmm := n_fmod (n_lit 472 (-2) + n_lit 839971 (-4) * t) TWO_PI in
  let cos_elt := n_cos elt in
  let sin_eps0 := n_sin eps0 in
  let cos_eps0 := n_cos eps0 in
  let w1 := (- r) * n_sin elt in
  let w2 := (- orbital_speed) * (cos_elt + e * n_cos gamma) in
  let sin_elmm := n_sin elmm in
  let cos_elmm := n_cos elmm in
  VPV (V3 ((- r) * cos_elt - emb_dist * cos_elmm) ((w1 - emb_dist * sin_elmm) * cos_eps0) (w1 * sin_eps0))
      (V3 (orbital_speed * (n_sin elt + e * n_sin gamma) + emb_speed * sin_elmm)
          ((w2 - emb_speed * cos_elmm) * cos_eps0) (w2 * sin_eps0)).

(** earth.cc:44-104. *)
Definition earth (year day : Z) (fraction : N) : option (vecpv N) :=
  match earth_time year day fraction with Some (y, yf) => Some (earth_pv y yf) | None => None end.

(** ecor.cc:42-60: (velocity, lt). *)
Definition ecor (dir : sph) (year day : Z) (fraction : N) : option (N * N) :=
  match earth year day fraction with
  | Some pv =>
    let vec := dcs2c dir in
    Some ((- n_lit 14959787066 (-2)) * dvdv (velo pv) vec, n_lit 4990047837 (-7) * dvdv (pos pv) vec)
  | None => None
  end.

End Site.
