(** Properties C34-C36, C56, C57: ecliptic, galactic and supergalactic
    coordinates, precession, E-terms and nutation.  Specifications in S_Frame.v,
    S_Nut.v and S_Geom.v; proofs in the L_ files. *)
From Coq Require Import ZArith Reals Lra.
From Verif Require Import Num NumR M_Vec S_Geom M_Angle M_Nutc M_Epoch M_Frame S_Frame S_Nut L_Pi L_Frame L_FrameGal L_FrameThm L_Nut L_NutDiff.
Open Scope R_scope.

(** C34.  eqecl turns the direction by precession to the date and then by the
    obliquity about the equinox; ecleq undoes it; results are in the
    conventional ranges. *)
Theorem C34_eqecl : forall (s : sph RNum) date, let e := eqecl (N := RNum) s date in
  direction (s_a e) (s_b e) = mapply (ecliptic_frame date) (direction (s_a s) (s_b s)) /\ conventional (s_a e) (s_b e).
Proof. exact eqecl_spec. Qed.
Print Assumptions C34_eqecl.

Theorem C34_ecleq : forall (s : sph RNum) date, let e := ecleq (N := RNum) s date in
  direction (s_a e) (s_b e) = mapply (transpose (ecliptic_frame date)) (direction (s_a s) (s_b s)) /\ conventional (s_a e) (s_b e).
Proof. exact ecleq_spec. Qed.
Print Assumptions C34_ecleq.

Theorem C34_round_trip : forall (s : sph RNum) date,
  (let e := ecleq (N := RNum) (eqecl (N := RNum) s date) date in direction (s_a e) (s_b e) = direction (s_a s) (s_b s)) /\
  (let e := eqecl (N := RNum) (ecleq (N := RNum) s date) date in direction (s_a e) (s_b e) = direction (s_a s) (s_b s)).
Proof. exact ecl_round_trip. Qed.
Print Assumptions C34_round_trip.

Theorem C34_coordinates_recovered : forall a b date, conventional a b -> - (PI / 2) < b < PI / 2 ->
  ecleq (N := RNum) (eqecl (N := RNum) (Sph (N := RNum) a b) date) date = Sph (N := RNum) a b /\
  eqecl (N := RNum) (ecleq (N := RNum) (Sph (N := RNum) a b) date) date = Sph (N := RNum) a b.
Proof. exact ecl_coordinates. Qed.
Print Assumptions C34_coordinates_recovered.

Example C34_case : conventional 3 (-1) /\ - (PI / 2) < -1 < PI / 2.
Proof. unfold conventional. pose proof PI_bounds. lra. Qed.

(** C35.  The published galactic matrix is the frame of the adopted pole to
    within 1e-6, and the conversions invert each other to within 1e-9 radian;
    for the supergalactic system both are 1e-11. *)
Theorem C35_eqgal : forall s : sph RNum, let g := eqgal (N := RNum) s in
  vdist (direction (s_a g) (s_b g)) (mapply galactic_frame (direction (s_a s) (s_b s))) <= 1e-6 /\ conventional (s_a g) (s_b g).
Proof. exact eqgal_spec. Qed.
Print Assumptions C35_eqgal.

Theorem C35_galeq : forall s : sph RNum, let g := galeq (N := RNum) s in
  vdist (direction (s_a g) (s_b g)) (mapply (transpose galactic_frame) (direction (s_a s) (s_b s))) <= 1e-6 /\ conventional (s_a g) (s_b g).
Proof. exact galeq_spec. Qed.
Print Assumptions C35_galeq.

Theorem C35_galsup : forall s : sph RNum, let g := galsup (N := RNum) s in
  vdist (direction (s_a g) (s_b g)) (mapply supergalactic_frame (direction (s_a s) (s_b s))) <= 1e-11 /\ conventional (s_a g) (s_b g).
Proof. exact galsup_spec. Qed.
Print Assumptions C35_galsup.

Theorem C35_supgal : forall s : sph RNum, let g := supgal (N := RNum) s in
  vdist (direction (s_a g) (s_b g)) (mapply (transpose supergalactic_frame) (direction (s_a s) (s_b s))) <= 1e-11 /\ conventional (s_a g) (s_b g).
Proof. exact supgal_spec. Qed.
Print Assumptions C35_supgal.

Theorem C35_galactic_round_trip : forall s : sph RNum,
  (let r := galeq (N := RNum) (eqgal (N := RNum) s) in vdist (direction (s_a r) (s_b r)) (direction (s_a s) (s_b s)) <= 1e-9) /\
  (let r := eqgal (N := RNum) (galeq (N := RNum) s) in vdist (direction (s_a r) (s_b r)) (direction (s_a s) (s_b s)) <= 1e-9).
Proof. exact gal_round_trip. Qed.
Print Assumptions C35_galactic_round_trip.

Theorem C35_supergalactic_round_trip : forall s : sph RNum,
  (let r := supgal (N := RNum) (galsup (N := RNum) s) in vdist (direction (s_a r) (s_b r)) (direction (s_a s) (s_b s)) <= 1e-11) /\
  (let r := galsup (N := RNum) (supgal (N := RNum) s) in vdist (direction (s_a r) (s_b r)) (direction (s_a s) (s_b s)) <= 1e-11).
Proof. exact sup_round_trip. Qed.
Print Assumptions C35_supergalactic_round_trip.

(** The frames really are rotations with the stated pole. *)
Theorem C35_pole_frame : forall a d l, rotation (pole_frame a d l) /\
  mapply (pole_frame a d l) (direction a d) = V3 0 0 1 /\
  mapply (pole_frame a d l) (V3 0 0 1) = direction l d.
Proof. exact pole_frame_pole. Qed.
Print Assumptions C35_pole_frame.

(** C36 *)
Theorem C36_prec : forall ep0 ep1, prec (N := RNum) ep0 ep1 = iau1976_precession ep0 ep1.
Proof. exact prec_spec. Qed.
Print Assumptions C36_prec.

Theorem C36_prebn : forall ep0 ep1, prebn (N := RNum) ep0 ep1 = newcomb_precession ep0 ep1.
Proof. exact prebn_spec. Qed.
Print Assumptions C36_prebn.

Theorem C36_precl : forall ep0 ep1, precl (N := RNum) ep0 ep1 = simon_precession ep0 ep1.
Proof. exact precl_spec. Qed.
Print Assumptions C36_precl.

Theorem C36_rotations : forall a b, rotation (prec (N := RNum) a b) /\ rotation (precl (N := RNum) a b) /\
  rotation (prebn (N := RNum) a b) /\ rotation (nut (N := RNum) a) /\ rotation (prenut (N := RNum) a b) /\ rotation (ecmat (N := RNum) a).
Proof. exact frame_rotations. Qed.
Print Assumptions C36_rotations.

Theorem C36_zero_interval : forall ep,
  prec (N := RNum) ep ep = mident /\ precl (N := RNum) ep ep = mident /\ prebn (N := RNum) ep ep = mident.
Proof. exact zero_interval. Qed.
Print Assumptions C36_zero_interval.

Theorem C36_nut : forall tdb, let '(psi, eps, eps0) := nutc (N := RNum) tdb in nut (N := RNum) tdb = nutation psi eps eps0.
Proof. exact nut_is_nutation. Qed.
Print Assumptions C36_nut.

Theorem C36_prenut : forall je mjd,
  prenut (N := RNum) je mjd = mmul (nut (N := RNum) mjd) (prec (N := RNum) je (julian_year mjd)).
Proof. exact prenut_nut_prec. Qed.
Print Assumptions C36_prenut.

Theorem C36_ecmat : forall date, ecmat (N := RNum) date = frame_x (obliquity date).
Proof. exact ecmat_spec. Qed.
Print Assumptions C36_ecmat.

Theorem C36_preces : forall (c : catalogue) ep0 ep1 (s : sph RNum), let p := preces (N := RNum) c ep0 ep1 s in
  match c with
  | CAT_FK4 => direction (s_a p) (s_b p) = mapply (newcomb_precession ep0 ep1) (direction (s_a s) (s_b s)) /\ conventional (s_a p) (s_b p)
  | CAT_FK5 => direction (s_a p) (s_b p) = mapply (iau1976_precession ep0 ep1) (direction (s_a s) (s_b s)) /\ conventional (s_a p) (s_b p)
  | CAT_OTHER => s_a p = -99 /\ s_b p = -99
  end.
Proof. exact preces_spec. Qed.
Print Assumptions C36_preces.

(** A century of precession: the matrices are not trivially the identity. *)
Example C36_case : iau1976_zeta 0 1 = 2306.537978.
Proof. unfold iau1976_zeta. lra. Qed.

(** C56.  E-terms of aberration. *)
Theorem C56_etrms : forall be, etrms (N := RNum) be = e_terms be.
Proof. exact etrms_spec. Qed.
Print Assumptions C56_etrms.

Theorem C56_small : forall be, 1000 <= be <= 3000 -> norm (e_terms be) <= 2e-6.
Proof. exact e_terms_small. Qed.
Print Assumptions C56_small.

Theorem C56_addet : forall (s : sph RNum) be, norm (e_terms be) < 1 -> let p := addet (N := RNum) s be in
  direction (s_a p) (s_b p) = unit_of (vadd (direction (s_a s) (s_b s)) (e_terms be)) /\ conventional (s_a p) (s_b p).
Proof. exact addet_spec. Qed.
Print Assumptions C56_addet.

Theorem C56_subet : forall (s : sph RNum) be, let p := subet (N := RNum) s be in let v := direction (s_a s) (s_b s) in
  direction (s_a p) (s_b p) = unit_of (vsub (scale (1 + dot v (e_terms be)) v) (e_terms be)) /\ conventional (s_a p) (s_b p).
Proof. exact subet_spec. Qed.
Print Assumptions C56_subet.

Theorem C56_round_trip : forall (s : sph RNum) be, norm (e_terms be) <= 1 / 10 ->
  (let r := subet (N := RNum) (addet (N := RNum) s be) be in
   vdist (direction (s_a r) (s_b r)) (direction (s_a s) (s_b s)) <= 2 * norm (e_terms be) ^ 3) /\
  (let r := addet (N := RNum) (subet (N := RNum) s be) be in
   vdist (direction (s_a r) (s_b r)) (direction (s_a s) (s_b s)) <= 2 * norm (e_terms be) ^ 3).
Proof. exact et_round_trip. Qed.
Print Assumptions C56_round_trip.

Example C56_case : norm (e_terms 1950) <= 2e-6.
Proof. apply e_terms_small. lra. Qed.

(** B1950 FK4 to IAU 1958 galactic: the E-terms come off first, then the frame. *)
Theorem C56_eg50 : forall s : sph RNum, let g := eg50 (N := RNum) s in let p := subet (N := RNum) s 1950 in
  vdist (direction (s_a g) (s_b g)) (mapply galactic_frame_B1950 (direction (s_a p) (s_b p))) <= 1e-10 /\ conventional (s_a g) (s_b g).
Proof. exact eg50_frame. Qed.
Print Assumptions C56_eg50.

Theorem C56_ge50 : forall g : sph RNum, let s := ge50 (N := RNum) g in let v := direction (s_a g) (s_b g) in
  vdist (direction (s_a s) (s_b s)) (unit_of (vadd (mapply (transpose galactic_frame_B1950) v) (e_terms 1950))) <= 1e-10 /\
  conventional (s_a s) (s_b s).
Proof. exact ge50_frame. Qed.
Print Assumptions C56_ge50.

Theorem C56_eg50_round_trip : forall s : sph RNum,
  (let r := ge50 (N := RNum) (eg50 (N := RNum) s) in vdist (direction (s_a r) (s_b r)) (direction (s_a s) (s_b s)) <= 1e-10) /\
  (let r := eg50 (N := RNum) (ge50 (N := RNum) s) in vdist (direction (s_a r) (s_b r)) (direction (s_a s) (s_b s)) <= 1e-10).
Proof. exact g50_round_trips. Qed.
Print Assumptions C56_eg50_round_trip.

(** C57.  Nutation. *)
Theorem C57_nutc80_is_iau1980 : forall tdb, let T := centuries_J2000 tdb in
  nutc80 (N := RNum) tdb = (iau1980_dpsi T, iau1980_deps T, obliquity tdb).
Proof. exact nutc80_spec. Qed.
Print Assumptions C57_nutc80_is_iau1980.

Theorem C57_nutc_bounded : forall tdb, let T := centuries_J2000 tdb in let '(psi, eps, eps0) := nutc (N := RNum) tdb in
  Rabs psi <= (19.51 + 0.32 * Rabs T) * arcsec /\ Rabs eps <= (10.1 + 0.03 * Rabs T) * arcsec.
Proof. exact nutc_bound. Qed.
Print Assumptions C57_nutc_bounded.

(** The documented disagreement of the two theories over 1900-2100, about 350
    milliarcseconds and mainly the error of the precession rate. *)
Theorem C57_nutc_near_nutc80 : forall tdb, Rabs (centuries_J2000 tdb) <= 1 ->
  let '(psi, eps, eps0) := nutc (N := RNum) tdb in let '(psi80, eps80, eps080) := nutc80 (N := RNum) tdb in
  Rabs (psi - psi80) <= (0.0735 + 0.299 * Rabs (centuries_J2000 tdb)) * arcsec /\
  Rabs (eps - eps80) <= (0.0186 + 0.0243 * Rabs (centuries_J2000 tdb)) * arcsec /\
  Rabs (eps0 - eps080) <= 0.044 * arcsec.
Proof. exact nutc_nutc80. Qed.
Print Assumptions C57_nutc_near_nutc80.

Example C57_case : Rabs (centuries_J2000 41234.5) <= 1.
Proof. unfold centuries_J2000. apply Rabs_le. lra. Qed.
