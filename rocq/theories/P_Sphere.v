(** Properties C26-C33: separations, bearings, the horizon system, tangent-plane
    projection.  Specifications in S_Sphere.v and S_Geom.v; proofs in the L_ files. *)
From Coq Require Import ZArith Reals.
From Verif Require Import Num NumR M_Vec S_Geom M_Angle M_Sphere S_Sphere L_Sphere L_Bear L_Altaz L_Tan L_Tps L_Pda L_SphCase.
Open Scope R_scope.

(** C26 *)
Theorem C26_dsep_angle : forall p q : sph RNum, let t := dsep (N := RNum) p q in
  0 <= t <= PI /\ cos t = dot (direction (s_a p) (s_b p)) (direction (s_a q) (s_b q)).
Proof. exact dsep_spec. Qed.
Print Assumptions C26_dsep_angle.

Theorem C26_dsepv_angle : forall a b : RV, let t := dsepv (N := RNum) a b in
  angle_between a b t /\ norm (cross a b) = norm a * norm b * sin t.
Proof. exact dsepv_spec. Qed.
Print Assumptions C26_dsepv_angle.

Theorem C26_symmetric : (forall p q : sph RNum, dsep (N := RNum) p q = dsep (N := RNum) q p) /\
  (forall a b : RV, dsepv (N := RNum) a b = dsepv (N := RNum) b a).
Proof. exact (conj dsep_sym dsepv_sym). Qed.
Print Assumptions C26_symmetric.

Theorem C26_zero_iff_coincident :
  (forall p q : sph RNum, dsep (N := RNum) p q = 0 <-> direction (s_a p) (s_b p) = direction (s_a q) (s_b q)) /\
  (forall a b : RV, a <> vzero -> b <> vzero -> (dsepv (N := RNum) a b = 0 <-> exists k, 0 < k /\ b = scale k a)).
Proof. exact (conj dsep_zero_iff dsepv_zero_iff). Qed.
Print Assumptions C26_zero_iff_coincident.

Theorem C26_pi_iff_opposite :
  (forall p q : sph RNum, dsep (N := RNum) p q = PI <-> direction (s_a q) (s_b q) = scale (-1) (direction (s_a p) (s_b p))) /\
  (forall a b : RV, a <> vzero -> b <> vzero -> (dsepv (N := RNum) a b = PI <-> exists k, k < 0 /\ b = scale k a)).
Proof. exact (conj dsep_pi_iff dsepv_pi_iff). Qed.
Print Assumptions C26_pi_iff_opposite.

Theorem C26_rotation_invariant : forall (m : RM) (a b : RV), rotation m ->
  dsepv (N := RNum) (mapply m a) (mapply m b) = dsepv (N := RNum) a b.
Proof. exact dsepv_rotation. Qed.
Print Assumptions C26_rotation_invariant.

Theorem C26_triangle :
  (forall p q r : sph RNum, dsep (N := RNum) p r <= dsep (N := RNum) p q + dsep (N := RNum) q r) /\
  (forall a b c : RV, a <> vzero -> b <> vzero -> c <> vzero ->
     dsepv (N := RNum) a c <= dsepv (N := RNum) a b + dsepv (N := RNum) b c).
Proof. exact (conj dsep_triangle dsepv_triangle). Qed.
Print Assumptions C26_triangle.

Example C26_case : dsep (N := RNum) (Sph (N := RNum) 0 0) (Sph (N := RNum) (PI / 2) 0) = PI / 2.
Proof. exact dsep_case. Qed.

(** C27.  [bearing_of] determines its angle, so these fix the result. *)
Theorem C27_dbear : forall p q : sph RNum,
  bearing_of (s_a p) (s_b p) (direction (s_a q) (s_b q)) (dbear (N := RNum) p q).
Proof. exact dbear_spec. Qed.
Print Assumptions C27_dbear.

Theorem C27_bearing_determined : forall a b v s t, bearing_of a b v s -> bearing_of a b v t -> s = t.
Proof. exact bearing_unique. Qed.
Print Assumptions C27_bearing_determined.

Theorem C27_dpav : forall a b k v, 0 < k -> - (PI / 2) < b < PI / 2 ->
  bearing_of a b v (dpav (N := RNum) (scale k (direction a b)) v).
Proof. exact dpav_spec. Qed.
Print Assumptions C27_dpav.

Theorem C27_agree : forall (p q : sph RNum) j k, 0 < j -> 0 < k -> - (PI / 2) < s_b p < PI / 2 ->
  dpav (N := RNum) (scale j (direction (s_a p) (s_b p))) (scale k (direction (s_a q) (s_b q))) = dbear (N := RNum) p q.
Proof. exact dpav_dbear. Qed.
Print Assumptions C27_agree.

(** At a pole the Cartesian form has no meridian to refer to, and returns 0. *)
Theorem C27_dpav_pole : forall z v, dpav (N := RNum) (V3 0 0 z) v = 0.
Proof. exact dpav_pole. Qed.
Print Assumptions C27_dpav_pole.

Theorem C27_agree_at_pole_refuted : ~ (forall p q : sph RNum,
  dpav (N := RNum) (direction (s_a p) (s_b p)) (direction (s_a q) (s_b q)) = dbear (N := RNum) p q).
Proof. exact pole_disagree. Qed.
Print Assumptions C27_agree_at_pole_refuted.

Example C27_case : dbear (N := RNum) (Sph (N := RNum) 0 0) (Sph (N := RNum) (PI / 2) 0) = PI / 2.
Proof. exact dbear_case. Qed.

(** C28 *)
Theorem C28_de2h : forall (p : sph RNum) phi, let h := de2h (N := RNum) p phi in
  horizon phi (direction (s_a p) (s_b p)) (s_a h) (s_b h).
Proof. exact de2h_spec. Qed.
Print Assumptions C28_de2h.

Theorem C28_horizon_determined : forall phi v az el az' el', horizon phi v az el -> horizon phi v az' el' ->
  el = el' /\ (cos el <> 0 -> az = az').
Proof. exact horizon_unique. Qed.
Print Assumptions C28_horizon_determined.

Theorem C28_dh2e : forall az el phi, let s := dh2e (N := RNum) az el phi in let v := direction (s_a s) (s_b s) in
  - PI < s_a s <= PI /\ - (PI / 2) <= s_b s <= PI / 2 /\
  dot v (north_point phi) = cos az * cos el /\ dot v east_point = sin az * cos el /\ dot v (zenith phi) = sin el.
Proof. exact dh2e_spec. Qed.
Print Assumptions C28_dh2e.

Theorem C28_dh2e_inverts_de2h : forall (p : sph RNum) phi, let h := de2h (N := RNum) p phi in
  let q := dh2e (N := RNum) (s_a h) (s_b h) phi in direction (s_a q) (s_b q) = direction (s_a p) (s_b p).
Proof. exact dh2e_de2h. Qed.
Print Assumptions C28_dh2e_inverts_de2h.

Theorem C28_round_trip_angles : forall ha dec phi, - PI < ha <= PI -> - (PI / 2) < dec < PI / 2 ->
  let h := de2h (N := RNum) (Sph (N := RNum) ha dec) phi in
  dh2e (N := RNum) (s_a h) (s_b h) phi = Sph (N := RNum) ha dec.
Proof. exact dh2e_de2h_eq. Qed.
Print Assumptions C28_round_trip_angles.

Theorem C28_round_trip_back : forall az el phi, 0 <= az < 2 * PI -> - (PI / 2) < el < PI / 2 ->
  let p := dh2e (N := RNum) az el phi in de2h (N := RNum) p phi = Sph (N := RNum) az el.
Proof. exact de2h_dh2e. Qed.
Print Assumptions C28_round_trip_back.

Example C28_case : forall phi, s_b (de2h (N := RNum) (Sph (N := RNum) (- (PI / 2)) 0) phi) = 0 /\
  s_a (de2h (N := RNum) (Sph (N := RNum) (- (PI / 2)) 0) phi) = PI / 2.
Proof. exact de2h_case. Qed.

(** C29 *)
Theorem C29_zd : forall (p : sph RNum) phi, zd (N := RNum) p phi = PI / 2 - s_b (de2h (N := RNum) p phi) /\
  zd (N := RNum) p phi = dsep (N := RNum) p (Sph (N := RNum) 0 phi).
Proof. exact zd_spec. Qed.
Print Assumptions C29_zd.

(** Hour angle increases westwards, so the star stands at longitude -ha and the
    parallactic angle is the bearing of the zenith seen from there. *)
Theorem C29_pa : forall (p : sph RNum) phi, bearing_of (- s_a p) (s_b p) (direction 0 phi) (pa (N := RNum) p phi).
Proof. exact pa_spec. Qed.
Print Assumptions C29_pa.

Theorem C29_pa_at_zenith : forall phi, pa (N := RNum) (Sph (N := RNum) 0 phi) phi = 0.
Proof. exact pa_zenith. Qed.
Print Assumptions C29_pa_at_zenith.

(** altaz's parallactic angle is pa's except on the vertical, where it is pi - ha. *)
Theorem C29_altaz_pa : forall (p : sph RNum) phi,
  am_pa (altaz (N := RNum) p phi) = (if Req_EM_T (sin (zd (N := RNum) p phi)) 0 then PI - s_a p else pa (N := RNum) p phi).
Proof. exact altaz_pa. Qed.
Print Assumptions C29_altaz_pa.

Example C29_case : forall phi, zd (N := RNum) (Sph (N := RNum) (- (PI / 2)) 0) phi = PI / 2.
Proof. exact zd_case. Qed.

(** C30 *)
Theorem C30_same_as_de2h : forall (p : sph RNum) phi,
  am_az (altaz (N := RNum) p phi) = s_a (de2h (N := RNum) p phi) /\
  am_el (altaz (N := RNum) p phi) = s_b (de2h (N := RNum) p phi).
Proof. exact altaz_de2h. Qed.
Print Assumptions C30_same_as_de2h.

Theorem C30_velocities : forall dec phi h, let A u := altaz (N := RNum) (Sph (N := RNum) u dec) phi in
  Rdec 1 (-30) < cos (am_el (A h)) * cos (am_el (A h)) ->
  angle_rate (fun u => am_az (A u)) h (am_az_vel (A h)) /\
  derivable_pt_lim (fun u => am_el (A u)) h (am_el_vel (A h)) /\
  angle_rate (fun u => am_pa (A u)) h (am_pa_vel (A h)) /\
  (am_az (A h) <> 0 -> derivable_pt_lim (fun u => am_az (A u)) h (am_az_vel (A h))) /\
  (am_pa (A h) <> PI -> derivable_pt_lim (fun u => am_pa (A u)) h (am_pa_vel (A h))).
Proof. exact altaz_velocities. Qed.
Print Assumptions C30_velocities.

Theorem C30_accelerations : forall dec phi h, let A u := altaz (N := RNum) (Sph (N := RNum) u dec) phi in
  Rdec 1 (-30) < cos (am_el (A h)) * cos (am_el (A h)) ->
  derivable_pt_lim (fun u => am_az_vel (A u)) h (am_az_acc (A h)) /\
  derivable_pt_lim (fun u => am_el_vel (A u)) h (am_el_acc (A h)) /\
  derivable_pt_lim (fun u => am_pa_vel (A u)) h (am_pa_acc (A h)).
Proof. exact altaz_accelerations. Qed.
Print Assumptions C30_accelerations.

Example C30_case : let e := am_el (altaz (N := RNum) (Sph (N := RNum) (- (PI / 2)) 0) 1) in Rdec 1 (-30) < cos e * cos e.
Proof. exact altaz_case. Qed.

(** C31 *)
Theorem C31_ds2tp : forall p t : sph RNum, let v := direction (s_a p) (s_b p) in let d := dot v (direction (s_a t) (s_b t)) in
  let '(st, xi, eta) := ds2tp (N := RNum) p t in
  (1e-6 < d /\ st = TPP_OK /\ projects (s_a t) (s_b t) v xi eta) \/
  (0 <= d <= 1e-6 /\ st = TPP_TOO_FAR /\ xi * 1e-6 = dot v (east (s_a t)) /\ eta * 1e-6 = dot v (north (s_a t) (s_b t))) \/
  (-1e-6 < d < 0 /\ st = TPP_ASTAR_ON_TP /\ xi * -1e-6 = dot v (east (s_a t)) /\ eta * -1e-6 = dot v (north (s_a t) (s_b t))) \/
  (d <= -1e-6 /\ st = TPP_ASTAR_TOO_FAR /\ projects (s_a t) (s_b t) (scale (-1) v) xi eta).
Proof. exact ds2tp_spec. Qed.
Print Assumptions C31_ds2tp.

(** As documented, "antistar on tangent plane" would mean that the antipode
    projects to the returned coordinates.  The code uses the two antistar
    statuses the other way round. *)
Theorem C31_antistar_status_refuted : ~ (forall (p t : sph RNum) xi eta, ds2tp (N := RNum) p t = (TPP_ASTAR_ON_TP, xi, eta) ->
  projects (s_a t) (s_b t) (scale (-1) (direction (s_a p) (s_b p))) xi eta).
Proof. exact antistar_status_refuted. Qed.
Print Assumptions C31_antistar_status_refuted.

Theorem C31_dtp2s : forall xi eta (t : sph RNum), let s := dtp2s (N := RNum) xi eta t in
  0 <= s_a s < 2 * PI /\ - (PI / 2) <= s_b s <= PI / 2 /\
  projects (s_a t) (s_b t) (direction (s_a s) (s_b s)) xi eta.
Proof. exact dtp2s_projects. Qed.
Print Assumptions C31_dtp2s.

Theorem C31_round_trip_plane : forall xi eta (t : sph RNum), xi * xi + eta * eta < 999999999999 ->
  ds2tp (N := RNum) (dtp2s (N := RNum) xi eta t) t = (TPP_OK, xi, eta).
Proof. exact ds2tp_dtp2s. Qed.
Print Assumptions C31_round_trip_plane.

Theorem C31_round_trip_sphere : forall (p t : sph RNum) xi eta, ds2tp (N := RNum) p t = (TPP_OK, xi, eta) ->
  let q := dtp2s (N := RNum) xi eta t in direction (s_a q) (s_b q) = direction (s_a p) (s_b p).
Proof. exact dtp2s_ds2tp. Qed.
Print Assumptions C31_round_trip_sphere.

Theorem C31_dtp2v : forall xi eta a0 d0, - (PI / 2) < d0 < PI / 2 -> let v := dtp2v (N := RNum) xi eta (direction a0 d0) in
  norm v = 1 /\ projects a0 d0 v xi eta.
Proof. exact dtp2v_projects. Qed.
Print Assumptions C31_dtp2v.

Theorem C31_cartesian_same :
  (forall p t : sph RNum, - (PI / 2) < s_b t < PI / 2 ->
     dv2tp (N := RNum) (dcs2c (N := RNum) p) (dcs2c (N := RNum) t) = ds2tp (N := RNum) p t) /\
  (forall xi eta (t : sph RNum), - (PI / 2) < s_b t < PI / 2 ->
     dtp2v (N := RNum) xi eta (dcs2c (N := RNum) t) = dcs2c (N := RNum) (dtp2s (N := RNum) xi eta t)).
Proof. exact (conj dv2tp_ds2tp dtp2v_dtp2s). Qed.
Print Assumptions C31_cartesian_same.

Example C31_case : ds2tp (N := RNum) (dtp2s (N := RNum) 3 (-2) (Sph (N := RNum) 1 1)) (Sph (N := RNum) 1 1) = (TPP_OK, 3, -2).
Proof. exact ds2tp_case. Qed.
(** The antipode of the tangent point itself is reported as "antistar too far". *)
Example C31_antistar_case : ds2tp (N := RNum) (Sph (N := RNum) PI 0) (Sph (N := RNum) 0 0) = (TPP_ASTAR_TOO_FAR, 0, 0).
Proof. exact antistar_case. Qed.

(** C32 *)
Theorem C32_dtps2c_sound : forall xi eta ra dec n s1 s2, - (PI / 2) < dec < PI / 2 ->
  dtps2c (N := RNum) xi eta (Sph (N := RNum) ra dec) = (n, Some (s1, s2)) ->
  forall s, s = s1 \/ s = s2 ->
  0 <= s_a s < 2 * PI /\ - PI < s_b s <= PI /\ projects (s_a s) (s_b s) (direction ra dec) xi eta.
Proof. exact dtps2c_sound. Qed.
Print Assumptions C32_dtps2c_sound.

Theorem C32_dtps2c_complete : forall xi eta ra dec a b, - (PI / 2) < dec < PI / 2 ->
  projects a b (direction ra dec) xi eta ->
  exists n s1 s2, dtps2c (N := RNum) xi eta (Sph (N := RNum) ra dec) = (n, Some (s1, s2)) /\
    (congruent a (s_a s1) /\ congruent b (s_b s1) \/ congruent a (s_a s2) /\ congruent b (s_b s2)).
Proof. exact dtps2c_complete. Qed.
Print Assumptions C32_dtps2c_complete.

(** One useful solution: the second one is over the pole.  Two: neither or both are. *)
Theorem C32_dtps2c_count : forall xi eta ra dec n s1 s2, - (PI / 2) < dec < PI / 2 ->
  dtps2c (N := RNum) xi eta (Sph (N := RNum) ra dec) = (n, Some (s1, s2)) ->
  (n = 1%Z /\ 0 < cos (s_b s1) /\ cos (s_b s2) < 0) \/ (n = 2%Z /\ 0 <= cos (s_b s1) * cos (s_b s2)).
Proof. exact dtps2c_count. Qed.
Print Assumptions C32_dtps2c_count.

Theorem C32_dtps2c_pole_none : forall xi eta ra, xi <> 0 ->
  dtps2c (N := RNum) xi eta (Sph (N := RNum) ra (PI / 2)) = (0%Z, None).
Proof. exact dtps2c_pole_none. Qed.
Print Assumptions C32_dtps2c_pole_none.

(** A star exactly at the pole with xi = 0: two solutions are announced but the
    second is wrong. *)
Theorem C32_dtps2c_pole_refuted : ~ (forall xi eta ra dec n s1 s2, - (PI / 2) <= dec <= PI / 2 ->
  dtps2c (N := RNum) xi eta (Sph (N := RNum) ra dec) = (n, Some (s1, s2)) -> n = 2%Z ->
  projects (s_a s2) (s_b s2) (direction ra dec) xi eta).
Proof. exact dtps2c_pole_refuted. Qed.
Print Assumptions C32_dtps2c_pole_refuted.

Theorem C32_dtpv2c_sound : forall xi eta (p : RV) n s1 s2, norm p = 1 ->
  dtpv2c (N := RNum) xi eta p = (n, Some (s1, s2)) ->
  forall s, s = s1 \/ s = s2 -> exists a b, s = direction a b /\ projects a b p xi eta.
Proof. exact dtpv2c_sound. Qed.
Print Assumptions C32_dtpv2c_sound.

Theorem C32_dtpv2c_same : forall xi eta (p : sph RNum) n s1 s2, - (PI / 2) < s_b p < PI / 2 ->
  dtpv2c (N := RNum) xi eta (dcs2c (N := RNum) p) = (n, Some (s1, s2)) ->
  exists t1 t2, dtps2c (N := RNum) xi eta p = (n, Some (t1, t2)) /\ s1 = dcs2c (N := RNum) t1 /\ s2 = dcs2c (N := RNum) t2.
Proof. exact dtpv2c_dtps2c. Qed.
Print Assumptions C32_dtpv2c_same.

Theorem C32_dtpv2c_none : forall xi eta ra dec, - (PI / 2) < dec < PI / 2 ->
  (dtpv2c (N := RNum) xi eta (direction ra dec) = (0%Z, None) <->
   cos dec * cos dec * (1 + eta * eta) <= sin dec * sin dec * (xi * xi)).
Proof. exact dtpv2c_none. Qed.
Print Assumptions C32_dtpv2c_none.

(** At a double root dtpv2c says "no solution" although there is one. *)
Theorem C32_dtpv2c_count_refuted : ~ (forall xi eta p a b, norm p = 1 -> - (PI / 2) < b < PI / 2 ->
  projects a b p xi eta -> fst (dtpv2c (N := RNum) xi eta p) <> 0%Z).
Proof. exact dtpv2c_double_root_refuted. Qed.
Print Assumptions C32_dtpv2c_count_refuted.

Example C32_case : exists s1 s2, dtps2c (N := RNum) 0 0 (Sph (N := RNum) 1 0) = (1%Z, Some (s1, s2)) /\ s_b s1 = 0 /\ s_b s2 = PI.
Proof. exact dtps2c_case. Qed.

(** C33.  [flagged o h]: one of the two outputs is [h] with its valid flag set. *)
Theorem C33_azimuth : forall lat dec azimuth, - (PI / 2) <= lat <= PI / 2 -> - (PI / 2) <= dec <= PI / 2 ->
  exists phi d A, Rabs (phi - lat) <= 2 / 10 ^ 12 /\ Rabs (d - dec) <= 2 / 10 ^ 12 /\ near_angle (2 / 10 ^ 12) azimuth A /\
  (forall h, flagged (pda2h (N := RNum) lat dec azimuth) h -> - PI <= h <= PI /\ on_azimuth phi (direction h d) A) /\
  (forall h, strictly_on_azimuth phi (direction h d) A ->
     exists h', flagged (pda2h (N := RNum) lat dec azimuth) h' /\ congruent h h').
Proof. exact pda2h_spec. Qed.
Print Assumptions C33_azimuth.

Theorem C33_azimuth_exact : forall lat dec azimuth A, - (PI / 2) <= lat <= PI / 2 -> - (PI / 2) <= dec <= PI / 2 ->
  away lat 0 -> away lat (PI / 2) -> away dec 0 -> away dec (PI / 2) -> away dec (Rabs lat) ->
  congruent azimuth A -> - PI <= A <= PI -> away A 0 -> away A PI ->
  (forall h, flagged (pda2h (N := RNum) lat dec azimuth) h -> - PI <= h <= PI /\ on_azimuth lat (direction h dec) A) /\
  (forall h, strictly_on_azimuth lat (direction h dec) A ->
     exists h', flagged (pda2h (N := RNum) lat dec azimuth) h' /\ congruent h h').
Proof. exact pda2h_exact. Qed.
Print Assumptions C33_azimuth_exact.

Theorem C33_parallactic : forall lat dec q, - (PI / 2) <= lat <= PI / 2 -> - (PI / 2) <= dec <= PI / 2 ->
  exists phi d A, Rabs (phi - lat) <= 2 / 10 ^ 12 /\ Rabs (d - dec) <= 2 / 10 ^ 12 /\ near_angle (2 / 10 ^ 12) q A /\
  (forall h, flagged (pdq2h (N := RNum) lat dec q) h -> - PI <= h <= PI /\ on_bearing (- h) d (direction 0 phi) A) /\
  (forall h, strictly_on_bearing (- h) d (direction 0 phi) A ->
     exists h', flagged (pdq2h (N := RNum) lat dec q) h' /\ congruent h h').
Proof. exact pdq2h_spec. Qed.
Print Assumptions C33_parallactic.

Theorem C33_parallactic_exact : forall lat dec q A, - (PI / 2) <= lat <= PI / 2 -> - (PI / 2) <= dec <= PI / 2 ->
  away lat 0 -> away lat (PI / 2) -> away dec (PI / 2) -> away dec (Rabs lat) ->
  congruent q A -> - PI <= A <= PI -> away A 0 -> away A PI ->
  (forall h, flagged (pdq2h (N := RNum) lat dec q) h -> - PI <= h <= PI /\ on_bearing (- h) dec (direction 0 lat) A) /\
  (forall h, strictly_on_bearing (- h) dec (direction 0 lat) A ->
     exists h', flagged (pdq2h (N := RNum) lat dec q) h' /\ congruent h h').
Proof. exact pdq2h_exact. Qed.
Print Assumptions C33_parallactic_exact.

Example C33_case : away (PI / 4) 0 /\ away (PI / 4) (PI / 2) /\ away (PI / 6) 0 /\ away (PI / 6) (PI / 2) /\ away (PI / 6) (Rabs (PI / 4)) /\
  away (PI / 2) 0 /\ away (PI / 2) PI /\ exists h, flagged (pda2h (N := RNum) (PI / 4) (PI / 6) (PI / 2)) h.
Proof. exact pda2h_case. Qed.
