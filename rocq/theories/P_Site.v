(** Properties C51, C52, C54, C59, C60: observer position, radial velocities,
    polar motion, space motion and the low-precision Earth.  Specifications in
    S_Site.v; proofs in L_Site.v. *)
From Coq Require Import ZArith Reals Lra Lia.
From Verif Require Import Int32 Num NumR S_Geom S_Sphere S_Frame L_Real L_Vec L_Frame M_Vec M_Site S_Site L_Site.
Open Scope R_scope.

(** C51.  The distances from the axis and from the equator are those of the
    point [h] metres up the vertical of geodetic latitude [lat]. *)
Theorem C51_geoc : forall lat h : R, let '(x, z) := geoc (N := RNum) lat h in
  exists rho z0, spheroid_point lat rho z0 /\ x * au_m = rho + h * cos lat /\ z * au_m = z0 + h * sin lat.
Proof. exact geoc_spec. Qed.
Print Assumptions C51_geoc.

Example C51_geoc_example : geoc (N := RNum) 0 0 = (earth_a / au_m, 0) /\ geoc (N := RNum) (PI / 2) 0 = (0, earth_b / au_m).
Proof. exact geoc_example. Qed.

(** The observer is that point carried round by the sidereal time, ... *)
Theorem C51_pvobs_position : forall lat h lst : R, let p := pos (pvobs (N := RNum) lat h lst) in
  let '(x, z) := geoc (N := RNum) lat h in
  p = mapply (frame_z (- lst)) (V3 x 0 z) /\ dot p (velo (pvobs (N := RNum) lat h lst)) = 0.
Proof. exact pvobs_position. Qed.
Print Assumptions C51_pvobs_position.

(** ... and the velocity is the derivative of the position, the sidereal time
    growing at the Earth's rotation rate. *)
Theorem C51_pvobs_velocity : forall lat h lst : R,
  let P t := pos (pvobs (N := RNum) lat h (lst + sidereal_rate * t)) in
  let V := velo (pvobs (N := RNum) lat h lst) in
  derivable_pt_lim (fun t => v0 (P t)) 0 (v0 V) /\ derivable_pt_lim (fun t => v1 (P t)) 0 (v1 V) /\
  derivable_pt_lim (fun t => v2 (P t)) 0 (v2 V).
Proof. exact pvobs_derivative. Qed.
Print Assumptions C51_pvobs_velocity.

(** C52.  The Earth's rotation carries the observer east at 0.4655 km/s times
    the cosine of the latitude. *)
Theorem C52_rverot : forall (phi st : R) (p : sph RNum),
  rverot (N := RNum) phi p st = receding (scale (0.4655 * cos phi) (east st)) (direction (s_a p) (s_b p)).
Proof. exact (fun phi st p => rverot_spec phi p st). Qed.
Print Assumptions C52_rverot.

(** The other four are projections of a fixed velocity ... *)
Theorem C52_projection : forall rv : sph RNum -> R,
  rv = rvgalc (N := RNum) \/ rv = rvlg (N := RNum) \/ rv = rvlsrd (N := RNum) \/ rv = rvlsrk (N := RNum) ->
  exists w : RV, forall p, rv p = receding w (direction (s_a p) (s_b p)).
Proof. exact rv_projection. Qed.
Print Assumptions C52_projection.

(** ... namely 220 and 300 km/s towards galactic longitude 90, latitude 0;
    (9, 12, 7) km/s in galactic axes; 20 km/s towards the standard apex. *)
Theorem C52_velocities : forall p : sph RNum, let u := direction (s_a p) (s_b p) in
  Rabs (rvgalc (N := RNum) p - receding (galactic_vector 0 220 0) u) <= 2e-4 /\
  Rabs (rvlg (N := RNum) p - receding (galactic_vector 0 300 0) u) <= 2e-4 /\
  Rabs (rvlsrd (N := RNum) p - receding (galactic_vector 9 12 7) u) <= 2e-4 /\
  Rabs (rvlsrk (N := RNum) p - receding (scale 20 standard_apex) u) <= 2e-4.
Proof. exact (fun p => conj (rvgalc_spec p) (conj (rvlg_spec p) (conj (rvlsrd_spec p) (rvlsrk_spec p)))). Qed.
Print Assumptions C52_velocities.

(** What a projection implies: bounded by the speed, zero at right angles, odd
    under reversing the direction. *)
Theorem C52_projection_bounds : forall w u : RV, norm u = 1 ->
  Rabs (receding w u) <= norm w /\ receding w (scale (-1) u) = - receding w u /\ (dot w u = 0 -> receding w u = 0) /\
  (0 < norm w -> receding w (unit_of w) = - norm w).
Proof. exact receding_props. Qed.
Print Assumptions C52_projection_bounds.

Example C52_example : rverot (N := RNum) 0 (Sph (N := RNum) 0 0) (PI / 2) = 0.4655.
Proof. exact rverot_example. Qed.

(** C54.  The true direction is the mean one turned by the pole offsets. *)
Theorem C54_polmo_direction : forall ml mp x y : R, let '(tl, tp, _) := polmo (N := RNum) ml mp x y in
  direction tl tp = mapply (polar_motion x y) (direction ml mp) /\ - PI < tl <= PI /\ - (PI / 2) <= tp <= PI / 2.
Proof. exact polmo_direction. Qed.
Print Assumptions C54_polmo_direction.

(** Adding the azimuth correction to a bearing seen with true coordinates gives
    the bearing of the same target seen with mean coordinates. *)
Theorem C54_polmo_azimuth : forall (ml mp x y tl tp daz : R) (v : RV) (A : R), - (PI / 2) < mp < PI / 2 ->
  polmo (N := RNum) ml mp x y = (tl, tp, Some daz) ->
  has_bearing tl tp v A -> has_bearing ml mp (mapply (transpose (polar_motion x y)) v) (A + daz).
Proof. exact polmo_azimuth. Qed.
Print Assumptions C54_polmo_azimuth.

Theorem C54_no_offset : forall ml mp : R, - PI < ml <= PI -> - (PI / 2) < mp < PI / 2 ->
  polmo (N := RNum) ml mp 0 0 = (ml, mp, Some 0).
Proof. exact polmo_none_offsets. Qed.
Print Assumptions C54_no_offset.

(** The azimuth correction is undefined (0/0) exactly when the observer is at a
    celestial pole, so it is not defined everywhere. *)
Theorem C54_undefined_iff : forall ml mp x y : R, snd (polmo (N := RNum) ml mp x y) = None <->
  let T := mapply (polar_motion x y) (direction ml mp) in v0 T = 0 /\ v1 T = 0.
Proof. exact polmo_none. Qed.
Print Assumptions C54_undefined_iff.

Theorem C54_defined_everywhere_refuted : ~ (forall ml mp x y : R, exists daz, snd (polmo (N := RNum) ml mp x y) = Some daz).
Proof. exact polmo_pole. Qed.
Print Assumptions C54_defined_everywhere_refuted.

Example C54_example : exists tl tp daz, polmo (N := RNum) 0 0 0 (PI / 4) = (tl, tp, Some daz) /\ sin daz < 0 /\
  has_bearing tl tp (V3 0 0 1) 0.
Proof. exact polmo_example. Qed.

(** C59.  The star moves along a straight line: its initial velocity is the
    proper motion across the sky plus radial velocity times parallax along the
    line of sight. *)
Theorem C59_pm : forall (p m : sph RNum) (px rv ep0 ep1 : R),
  let D t := direction (s_a p + s_a m * t) (s_b p + s_b m * t) in
  exists d : RV, (derivable_pt_lim (fun t => v0 (D t)) 0 (v0 d) /\ derivable_pt_lim (fun t => v1 (D t)) 0 (v1 d) /\
    derivable_pt_lim (fun t => v2 (D t)) 0 (v2 d)) /\
    let u := direction (s_a p) (s_b p) in
    let w := vadd u (scale (ep1 - ep0) (vadd d (scale (km_s_arcsec * rv * px) u))) in
    let r := pm (N := RNum) p m px rv ep0 ep1 in
    0 <= s_a r < 2 * PI /\ - (PI / 2) <= s_b r <= PI / 2 /\
    (w <> vzero -> direction (s_a r) (s_b r) = unit_of w).
Proof. exact pm_spec. Qed.
Print Assumptions C59_pm.

Theorem C59_same_epoch : forall (p m : sph RNum) (px rv ep : R), 0 <= s_a p < 2 * PI -> - (PI / 2) <= s_b p <= PI / 2 ->
  let r := pm (N := RNum) p m px rv ep ep in
  direction (s_a r) (s_b r) = direction (s_a p) (s_b p) /\ (- (PI / 2) < s_b p < PI / 2 -> r = p).
Proof. exact pm_same_epoch. Qed.
Print Assumptions C59_same_epoch.

(** Without proper motion the direction never changes, whatever the radial
    velocity, until the star passes the Sun. *)
Theorem C59_radial_only : forall (p : sph RNum) (px rv ep0 ep1 : R), 0 <= s_a p < 2 * PI -> - (PI / 2) < s_b p < PI / 2 ->
  0 < 1 + (ep1 - ep0) * (km_s_arcsec * rv * px) -> pm (N := RNum) p (Sph (N := RNum) 0 0) px rv ep0 ep1 = p.
Proof. exact pm_radial. Qed.
Print Assumptions C59_radial_only.

Example C59_example : pm (N := RNum) (Sph (N := RNum) 0 0) (Sph (N := RNum) 1 0) 0 0 2000 2001 = Sph (N := RNum) (PI / 4) 0.
Proof. exact pm_example. Qed.

(** C60.  The result depends only on the instant, however it is written: day
    367 of a leap year is day 1 of the next, and so on. *)
Theorem C60_instant : forall (year day year' day' : Z) (f f' : R),
  (1800 <= year <= INT_MAX)%Z -> (1 <= day <= 500000000)%Z -> 0 <= f ->
  (1800 <= year' <= INT_MAX)%Z -> (1 <= day' <= 500000000)%Z -> 0 <= f' ->
  IZR (julian_calendar_day year day) + f = IZR (julian_calendar_day year' day') + f' ->
  earth (N := RNum) year day f = earth (N := RNum) year' day' f'.
Proof. exact (fun y d y' d' f f' Y D F Y' D' F' => earth_instant y d f y' d' f' Y D F Y' D' F'). Qed.
Print Assumptions C60_instant.

Example C60_instant_example : IZR (julian_calendar_day 2004 367) + 0.5 = IZR (julian_calendar_day 2005 1) + 0.5 /\
  IZR (julian_calendar_day 2005 366) + 0.5 = IZR (julian_calendar_day 2006 1) + 0.5.
Proof. split; reflexivity. Qed.

(** Distance between 0.983 and 1.017 AU, speed between 29.27 and 30.31 km/s. *)
Theorem C60_earth_bounds : forall (year day : Z) (f : R),
  (1800 <= year <= 2199)%Z -> (1 <= day <= 366)%Z -> 0 <= f <= 1 ->
  exists pv, earth (N := RNum) year day f = Some pv /\ 0.983 <= norm (pos pv) <= 1.017 /\ 1.957e-7 <= norm (velo pv) <= 2.026e-7.
Proof. exact earth_bounds. Qed.
Print Assumptions C60_earth_bounds.

(** The corrections are the projections of that velocity and position. *)
Theorem C60_ecor : forall (p : sph RNum) (year day : Z) (f : R) pv, earth (N := RNum) year day f = Some pv ->
  let u := direction (s_a p) (s_b p) in
  ecor (N := RNum) p year day f = Some (receding (scale 149597870.66 (velo pv)) u, 499.0047837 * dot (pos pv) u).
Proof. exact ecor_eq. Qed.
Print Assumptions C60_ecor.

Theorem C60_ecor_bounds : forall (p : sph RNum) (year day : Z) (f : R),
  (1800 <= year <= 2199)%Z -> (1 <= day <= 366)%Z -> 0 <= f <= 1 ->
  exists v l, ecor (N := RNum) p year day f = Some (v, l) /\ Rabs v <= 30.31 /\ Rabs l <= 507.5.
Proof. exact ecor_bounds. Qed.
Print Assumptions C60_ecor_bounds.
