(** Properties C44-C47, C61: atmospheric refraction.  Specifications in
    S_Refr.v; proofs in L_Refr.v to L_Refr4.v. *)
From Coq Require Import ZArith Reals Lra Lia.
From Verif Require Import Num NumR S_Geom L_Pi L_Real M_Vec M_Angle M_Refr S_Refr L_Refr L_Refr2 L_Refr3 L_Refr4.
Open Scope R_scope.

(** C44.  In any arithmetic, floating point included, refro returns after
    sampling its integrand at most 32766 times. *)
Theorem C44_terminates : forall (N : Num) (ozd oh atk apm arh wl phi tlr eps : N),
  exists v c, refro_run ozd oh atk apm arh wl phi tlr eps = Some (v, c) /\ (c <= 32766)%Z.
Proof. exact (fun N => refro_terminates (N := N)). Qed.
Print Assumptions C44_terminates.

(** Arguments outside the documented safe bounds act as the nearest bound;
    lapse rate and precision are taken positive. *)
Theorem C44_clamps : forall ozd oh atk apm arh wl phi tlr eps : R,
  refro (N := RNum) ozd oh atk apm arh wl phi tlr eps =
  refro (N := RNum) ozd (clamp oh (-1000) 80000) (clamp atk 100 500) (clamp apm 0 10000) (clamp arh 0 1)
    (Rmax wl 0.1) phi (clamp (Rabs tlr) 0.001 0.01) (clamp (Rabs eps) (1 / 10 ^ 12) 0.1).
Proof. exact refro_clamps. Qed.
Print Assumptions C44_clamps.

Example C44_clamps_example : clamp (-5000) (-1000) 80000 = -1000 /\ clamp 288 100 500 = 288 /\ clamp 2 0 1 = 1.
Proof. unfold clamp, Rmin, Rmax. repeat split; repeat destruct (Rle_dec _ _); lra. Qed.


(** Refraction is an odd function of the zenith distance ... *)
Theorem C44_odd : forall ozd oh atk apm arh wl phi tlr eps v : R,
  refro (N := RNum) ozd oh atk apm arh wl phi tlr eps = Some v ->
  cos ozd <> 1 ->
  refro (N := RNum) (- ozd) oh atk apm arh wl phi tlr eps = Some (- v).
Proof. exact refro_odd'. Qed.
Print Assumptions C44_odd.

(** ... zero at the zenith (any whole number of turns), ... *)
Theorem C44_zenith : forall ozd oh atk apm arh wl phi tlr eps : R, same_angle ozd 0 ->
  refro (N := RNum) ozd oh atk apm arh wl phi tlr eps = Some 0.
Proof. exact refro_zenith'. Qed.
Print Assumptions C44_zenith.

(** ... the same for two zenith distances that differ by whole turns, ... *)
Theorem C44_periodic : forall a b oh atk apm arh wl phi tlr eps : R, same_angle a b -> cos a <> -1 ->
  refro (N := RNum) a oh atk apm arh wl phi tlr eps = refro (N := RNum) b oh atk apm arh wl phi tlr eps.
Proof. exact refro_same. Qed.
Print Assumptions C44_periodic.

Example C44_periodic_example : same_angle 1 (1 + 2 * PI) /\ cos 1 <> -1.
Proof.
  split.
  - exists (-1)%Z. lra.
  - pose proof PI_bounds. apply Rgt_not_eq. assert (0 < cos 1) by (apply cos_gt_0; lra). lra.
Qed.


(** ... and held constant from 93 degrees on. *)
Theorem C44_flat : forall ozd oh atk apm arh wl phi tlr eps : R, 1.623156204 <= ozd < PI ->
  refro (N := RNum) ozd oh atk apm arh wl phi tlr eps = refro (N := RNum) 1.623156204 oh atk apm arh wl phi tlr eps.
Proof. exact refro_flat. Qed.
Print Assumptions C44_flat.

Example C44_flat_example : 1.623156204 <= 2 < PI /\ Rabs (93 * PI / 180 - 1.623156204) < 1 / 10 ^ 8.
Proof. pose proof PI_bounds. split; [lra|]. apply Rabs_def1; lra. Qed.


(** Without air there is no refraction. *)
Theorem C44_vacuum : forall ozd oh atk apm arh wl phi tlr eps : R, apm <= 0 -> refro (N := RNum) ozd oh atk apm arh wl phi tlr eps = Some 0.
Proof. exact refro_vacuum. Qed.
Print Assumptions C44_vacuum.

(** What is computed: the two integrals, through the troposphere and the
    stratosphere, along the ray that keeps the invariant  r n sin z,  each by
    Simpson's rule with strips doubled until two estimates agree to half the
    requested precision. *)
Theorem C44_quadrature : forall ozd oh atk apm arh wl phi tlr eps v : R,
  refro (N := RNum) ozd oh atk apm arh wl phi tlr eps = Some v ->
  let hm := clamp oh (-1000) 80000 in
  let air := refro_tropo (N := RNum) hm (clamp atk 100 500) (clamp apm 0 10000)
               (clamp arh 0 1) (Rmax wl 0.1) phi (clamp (Rabs tlr) 0.001 0.01) in
  let trop : atmosphere := atmt (N := RNum) air in
  let r0 := 6378120 + hm in
  let rt := 6378120 + Rmax 11000 hm in
  let rs := 6378120 + 80000 in
  let strat : atmosphere := atms (N := RNum) rt (atmt_t (N := RNum) air rt) (index trop rt) (refro_gamal (N := RNum) hm phi) in
  let z := Rmin (Rabs (drange (N := RNum) ozd)) 1.623156204 in
  let k := index trop r0 * r0 * sin z in
  let tol := clamp (Rabs eps) (1 / 10 ^ 12) 0.1 / 2 in
  exists zt zs troposphere stratosphere,
    on_ray trop k rt zt /\ on_ray strat k rs zs /\
    refraction_between trop k r0 z rt zt tol troposphere /\
    refraction_between strat k rt zt rs zs tol stratosphere /\
    v = (if Rlt_dec (drange (N := RNum) ozd) 0 then -1 else 1) * (troposphere + stratosphere).
Proof. exact refro_rays. Qed.
Print Assumptions C44_quadrature.

Example C44_quadrature_example : forall ozd oh atk apm arh wl phi tlr eps : R, exists v,
  refro (N := RNum) ozd oh atk apm arh wl phi tlr eps = Some v.
Proof. exact (refro_some (N := RNum)). Qed.


(** The model atmosphere: the index at the observer is that of moist air, ... *)
Theorem C44_surface : forall hm tdk pmb rh wl phi alpha : R, 100 <= tdk <= 320 -> 0 < pmb -> wl <> 0 ->
  index (atmt (N := RNum) (refro_tropo (N := RNum) hm tdk pmb rh wl phi alpha)) (6378120 + hm) =
  1 + surface_refractivity tdk pmb (water_vapour tdk pmb rh) wl.
Proof. exact refro_surface. Qed.
Print Assumptions C44_surface.

(** ... it is continuous at the tropopause ... *)
Theorem C44_tropopause : forall rt tt dnt gamal : R, index (atms (N := RNum) rt tt dnt gamal) rt = dnt.
Proof. exact strato_continuous. Qed.
Print Assumptions C44_tropopause.

(** ... and the gradient that the integrand uses is its derivative, in the
    stratosphere ... *)
Theorem C44_stratosphere_gradient : forall rt tt dnt gamal r : R, r <> 0 ->
  derivable_pt_lim (index (atms (N := RNum) rt tt dnt gamal)) r (rdndr (atms (N := RNum) rt tt dnt gamal) r / r).
Proof. exact atms_derivative. Qed.
Print Assumptions C44_stratosphere_gradient.

(** ... and in the troposphere wherever the temperature is within the model's
    limits. *)
Theorem C44_troposphere_gradient : forall hm tdk pmb rh wl phi alpha r : R,
  let m := refro_tropo (N := RNum) hm tdk pmb rh wl phi alpha in
  r <> 0 -> 0 < tdk -> 100 < tdk - alpha * (r - (6378120 + hm)) < 320 ->
  derivable_pt_lim (index (atmt (N := RNum) m)) r (rdndr (atmt (N := RNum) m) r / r).
Proof. exact refro_tropo_derivative. Qed.
Print Assumptions C44_troposphere_gradient.

Example C44_troposphere_example : 100 < 288 - 0.0065 * (6378120 + 5000 - (6378120 + 0)) < 320.
Proof. lra. Qed.


(** The safe bounds do not keep the model atmosphere safe: at sea level there
    is a permitted lapse rate for which the water vapour term divides by
    delta - gamma = 0, ... *)
Theorem C44_safe_bounds_refuted : exists phi tlr : R, 0.001 <= tlr <= 0.01 /\
    @n_sub RNum (@delta RNum) (@n_div RNum (refro_gamal (N := RNum) 0 phi) tlr) = 0.
Proof. exact refro_division_by_zero. Qed.
Print Assumptions C44_safe_bounds_refuted.

(** ... and in hot air a permitted humidity makes the vapour pressure divide by
    zero. *)
Theorem C44_humidity_refuted : exists arh : R, 0 <= arh <= 1 /\ 1 - (1 - arh) * saturation_pressure 500 1000 / 1000 = 0.
Proof. exact vapour_zero. Qed.
Print Assumptions C44_humidity_refuted.

(** C45.  The coefficients reproduce refro at the two zenith distances used,
    whose tangents are 1 and 4 ... *)
Theorem C45_fits : forall oh atk apm arh wl phi tlr eps : R, exists A B r1 r2 : R,
  refco (N := RNum) oh atk apm arh wl phi tlr eps = Some (A, B) /\
  refro (N := RNum) 0.7853981633974483 oh atk apm arh wl phi tlr eps = Some r1 /\
  refro (N := RNum) 1.325817663668033 oh atk apm arh wl phi tlr eps = Some r2 /\
  A * 1 + B * 1 ^ 3 = r1 /\ A * 4 + B * 4 ^ 3 = r2.
Proof. exact refco_fits. Qed.
Print Assumptions C45_fits.

(** ... to the precision of the literals. *)
Theorem C45_rays : Rabs (0.7853981633974483 - atan 1) <= 1 / 10 ^ 15 /\ Rabs (1.325817663668033 - atan 4) <= 1 / 10 ^ 15.
Proof. exact (conj atan1_lit atan4_lit). Qed.
Print Assumptions C45_rays.

(** Without air both coefficients vanish. *)
Theorem C45_vacuum : forall oh atk apm arh wl phi tlr eps : R, apm <= 0 ->
  refco (N := RNum) oh atk apm arh wl phi tlr eps = Some ((0, 0) : R * R).
Proof. exact refco_vacuum. Qed.
Print Assumptions C45_vacuum.

(** C46.  Down to zenith distance 83 degrees refz inverts the two-term law: the
    observed zenith distance it returns, put into the law, gives back the true
    one to 0.00004 arcseconds. *)
Theorem C46_solves : forall zu A B : R, terrestrial A B -> Rabs zu <= 83 / deg ->
  let zr := refz (N := RNum) zu A B in Rabs (zr + law A B zr - zu) <= 2 / 10 ^ 10.
Proof. exact refz_solves. Qed.
Print Assumptions C46_solves.

Example C46_example : terrestrial 0.00028 (-0.0000003) /\ Rabs 1 <= 83 / deg.
Proof. unfold terrestrial, deg. rewrite Rabs_R1. repeat split; lra. Qed.


(** There it is an odd function. *)
Theorem C46_odd : forall zu A B : R, Rabs zu <= 83 / deg -> refz (N := RNum) (- zu) A B = - refz (N := RNum) zu A B.
Proof. exact refz_odd. Qed.
Print Assumptions C46_odd.

(** Beyond, the refraction at 83 degrees is scaled by the low-elevation model,
    with no jump in the refraction at 83 degrees for any coefficients ... *)
Theorem C46_beyond : forall zu A B : R, 83 / deg <= zu ->
  zu - refz (N := RNum) zu A B =
  (83 / deg - refz (N := RNum) (83 / deg) A B) * (low_elevation (90 - Rmin 93 (zu * deg)) / low_elevation 7).
Proof. exact refz_beyond. Qed.
Print Assumptions C46_beyond.

(** ... and constant refraction from 93 degrees on. *)
Theorem C46_flat : forall zu A B : R, 93 / deg <= zu ->
  zu - refz (N := RNum) zu A B = 93 / deg - refz (N := RNum) (93 / deg) A B.
Proof. exact refz_93. Qed.
Print Assumptions C46_flat.

(** It is continuous, the hand-over at 83 degrees and the limit at 93 degrees
    included. *)
Theorem C46_continuous : forall zu A B : R, terrestrial A B -> - (83 / deg) <= zu ->
  continuity_pt (fun z => refz (N := RNum) z A B) zu.
Proof. exact refz_continuous. Qed.
Print Assumptions C46_continuous.

(** C47.  The coefficients are unchanged if either wavelength is radio, ... *)
Theorem C47_atmdsp_radio : forall atk apm arh wl1 a1 b1 wl2 : R, 100 < wl1 \/ 100 < wl2 ->
  atmdsp (N := RNum) atk apm arh wl1 a1 b1 wl2 = (a1, b1).
Proof. exact atmdsp_radio. Qed.
Print Assumptions C47_atmdsp_radio.

(** ... if the wavelengths are equal, ... *)
Theorem C47_atmdsp_same : forall atk apm arh wl a1 b1 : R, atmdsp (N := RNum) atk apm arh wl a1 b1 wl = (a1, b1).
Proof. exact atmdsp_same. Qed.
Print Assumptions C47_atmdsp_same.

(** ... or if there is no air. *)
Theorem C47_atmdsp_vacuum : forall atk apm arh wl1 a1 b1 wl2 : R, apm <= 0 -> atmdsp (N := RNum) atk apm arh wl1 a1 b1 wl2 = (a1, b1).
Proof. exact atmdsp_vacuum. Qed.
Print Assumptions C47_atmdsp_vacuum.

(** Green's coefficients for the refractivity at one wavelength become Green's
    coefficients for the refractivity at the other, A exactly and B up to a
    second-order term. *)
Theorem C47_atmdsp_green : forall atk apm arh wl1 wl2 b : R, wl1 <= 100 -> wl2 <= 100 -> b <> 0 ->
  let n := dispersion_refractivity (clamp atk 100 500) (clamp apm 0 10000) (clamp arh 0 1) in
  let n1 := n (Rmax 0.1 wl1) in let n2 := n (Rmax 0.1 wl2) in
  n1 <> 0 ->
  atmdsp (N := RNum) atk apm arh wl1 (fst (green n1 b)) (snd (green n1 b)) wl2 =
  (fst (green n2 b), snd (green n2 b) + n1 * n2 * (n1 - n2) / (4 * b)).
Proof. exact atmdsp_green. Qed.
Print Assumptions C47_atmdsp_green.

Example C47_green_example : dispersion_refractivity 288 1000 0 0.5 <> 0.
Proof. unfold dispersion_refractivity. rewrite Rmult_0_l. apply Rgt_not_eq. lra. Qed.


(** refcoq gives Green's coefficients for the refractivity of moist air, its
    arguments held within the documented bounds. *)
Theorem C47_refcoq : forall atk apm arh wl : R, 0 < apm ->
  let T := clamp atk 100 500 in let P := clamp apm 0 10000 in let pw := water_vapour T P (clamp arh 0 1) in
  (wl <= 100 -> refcoq (N := RNum) atk apm arh wl =
     green (optical_refractivity T P pw (clamp wl 0.1 1000000)) (4.4474 / 10 ^ 6 * T)) /\
  (100 < wl -> refcoq (N := RNum) atk apm arh wl =
     green (radio_refractivity T P pw) (4.4474 / 10 ^ 6 * T * (1 - 0.0074 * pw))).
Proof. exact refcoq_spec. Qed.
Print Assumptions C47_refcoq.

(** Without air it gives zero. *)
Theorem C47_refcoq_vacuum : forall atk apm arh wl : R, apm <= 0 -> refcoq (N := RNum) atk apm arh wl = ((0, 0) : R * R).
Proof. exact refcoq_vacuum. Qed.
Print Assumptions C47_refcoq_vacuum.

(** For ordinary air and light its coefficients are in the range that the
    theorems about refz and refv ask for. *)
Theorem C47_refcoq_terrestrial : forall atk apm arh wl : R, 200 <= atk <= 320 -> 0 < apm <= 1100 -> 0 <= arh <= 1 -> 0.3 <= wl <= 100 ->
  saturation_pressure atk apm < apm ->
  terrestrial (fst (refcoq (N := RNum) atk apm arh wl)) (snd (refcoq (N := RNum) atk apm arh wl)).
Proof. exact refcoq_terrestrial. Qed.
Print Assumptions C47_refcoq_terrestrial.

Example C47_terrestrial_example : saturation_pressure 273.15 1000 < 1000.
Proof. exact saturation_example. Qed.


(** C61.  Above 3 degrees of elevation refv turns the direction towards the
    zenith, in the same azimuth, by the angle whose tangent is the first Newton
    correction of the two-term law, and keeps the length to the fourth order. *)
Theorem C61_direction : forall a z A B : R, 0 <= z <= PI / 2 -> 0.05 <= cos z ->
  let d := newton_step A B (tan z) in
  exists rho, (Rabs d <= 1 -> Rabs (rho - 1) <= d ^ 4) /\
    refv (N := RNum) (direction a (PI / 2 - z)) A B = scale rho (direction a (PI / 2 - (z - atan d))).
Proof. exact refv_turn. Qed.
Print Assumptions C61_direction.

Example C61_direction_example : 0 <= 1 <= PI / 2 /\ 0.05 <= cos 1.
Proof.
  pose proof PI_bounds. split; [lra|]. assert (0.5 < cos 1); [|lra]. replace 0.5 with (1 / 2) by lra.
  rewrite <- cos_PI3. apply cos_decreasing_1; lra.
Qed.


(** The zenith distance that results satisfies the law to 1 milliarcsecond up
    to 70 degrees for coefficients found in air at sea level, and to 1.7
    arcseconds up to 83 degrees for all terrestrial coefficients. *)
Theorem C61_accuracy : forall A B z : R, let z' := z - atan (newton_step A B (tan z)) in
  (0 <= A <= 0.00029 -> -0.0000005 <= B <= 0 -> 0 <= z <= PI / 6 -> miss A B z z' <= 3 * microarcsec) /\
  (0 <= A <= 0.00029 -> -0.0000005 <= B <= 0 -> 0 <= z <= 70 * PI / 180 -> miss A B z z' <= 1000 * microarcsec) /\
  (terrestrial A B -> 0 <= z <= 83 / deg -> miss A B z z' <= 1700000 * microarcsec).
Proof. exact refv_accuracy. Qed.
Print Assumptions C61_accuracy.

(** The documented 1 microarcsecond within 30 degrees of the zenith is not
    reached. *)
Theorem C61_microarcsecond_refuted : exists A B z, 0 <= A <= 0.00029 /\ -0.0000005 <= B <= 0 /\ 0 <= z <= PI / 6 /\
  microarcsec < miss A B z (z - atan (newton_step A B (tan z))).
Proof. exact miss_micro. Qed.
Print Assumptions C61_microarcsecond_refuted.

(** At every elevation the azimuth is kept, ... *)
Theorem C61_azimuth : forall x y z A B : R, terrestrial A B -> x ^ 2 + y ^ 2 <= 1 -> exists f : R, 0.99 <= f /\
  v0 (refv (N := RNum) (V3 x y z) A B) = f * x /\ v1 (refv (N := RNum) (V3 x y z) A B) = f * y.
Proof. exact refv_azimuth. Qed.
Print Assumptions C61_azimuth.

(** ... below 3 degrees the correction is held, ... *)
Theorem C61_low : forall x y z A B : R, z <= 0.05 ->
  refv (N := RNum) (V3 x y z) A B = vadd (refv (N := RNum) (V3 x y (0.05 : R)) A B) (V3 0 0 (z - 0.05)).
Proof. exact refv_low. Qed.
Print Assumptions C61_low.

(** ... and the zenith does not move. *)
Theorem C61_zenith : forall z A B : R, refv (N := RNum) (V3 (0 : R) (0 : R) z) A B = V3 (0 : R) (0 : R) z.
Proof. exact refv_zenith. Qed.
Print Assumptions C61_zenith.
