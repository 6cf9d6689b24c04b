(** Properties C41, C42, C43, C55: linear plate models, their residuals,
    radial distortion and air mass.  Specifications in S_Plate.v; proofs in
    L_Plate.v. *)
From Coq Require Import ZArith Reals Lra List.
From Verif Require Import Num NumR M_Plate S_Plate L_Plate.
Import ListNotations.
Open Scope R_scope.

(** C41 *)
Theorem C41_xy2xy : forall (m : coeffs R) x y, xy2xy (N := RNum) x y m = linear_map m (x, y).
Proof. exact xy2xy_linear. Qed.
Print Assumptions C41_xy2xy.

Theorem C41_invf_inverse : forall m i : coeffs R, invf (N := RNum) m = Some i ->
  forall p, linear_map i (linear_map m p) = p /\ linear_map m (linear_map i p) = p.
Proof. exact invf_inverse. Qed.
Print Assumptions C41_invf_inverse.

(** Failure is reported exactly for the models that cannot be undone. *)
Theorem C41_invf_failure : forall m : coeffs R, invf (N := RNum) m = None <->
  ~ exists g : point -> point, forall p, g (linear_map m p) = p.
Proof. exact invf_none. Qed.
Print Assumptions C41_invf_failure.

Theorem C41_invf_twice : forall m i : coeffs R, invf (N := RNum) m = Some i -> invf (N := RNum) i = Some m.
Proof. exact invf_twice. Qed.
Print Assumptions C41_invf_twice.

Example C41_invf_example : invf (N := RNum) (Coeffs 3 0 2 5 1 0) = Some (Coeffs (- (5)) 0 1 (- (3 / 2)) (1 / 2) 0) /\
  invf (N := RNum) (Coeffs 3 1 2 5 2 4) = None.
Proof.
  split; rewrite invf_eq; cbv zeta; cbn [fc_a fc_b fc_c fc_d fc_e fc_f]; 
    match goal with |- context [Reqb ?x 0] => destruct (Reqb_spec x 0) end; try lra; try reflexivity.
  f_equal. f_equal; field.
Qed.

(** The four documented steps, applied in order, give back the model. *)
Theorem C41_dcmpf_recomposes : forall m : coeffs R, (exists i, invf (N := RNum) m = Some i) ->
  let r := dcmpf (N := RNum) m in
  forall p, step_orient (dc_orient r) (step_perp (dc_perp r)
    (step_scale (dc_xs r) (dc_ys r) (step_zero (dc_xz r) (dc_yz r) p))) = linear_map m p.
Proof. exact dcmpf_recompose_inv. Qed.
Print Assumptions C41_dcmpf_recomposes.

(** Also for a singular model, provided neither column of its linear part
    vanishes, the scales, nonperpendicularity and orientation reproduce the
    linear part; they are normalised as stated. *)
Theorem C41_dcmpf_linear_part : forall m : coeffs R, (fc_b m <> 0 \/ fc_e m <> 0) -> (fc_c m <> 0 \/ fc_f m <> 0) ->
  let r := dcmpf (N := RNum) m in
  - (PI / 2) <= dc_perp r <= PI / 2 /\ - PI < dc_orient r <= PI /\
  dc_ys r = sqrt (fc_c m ^ 2 + fc_f m ^ 2) /\
  dc_xs r = (if Rle_dec 0 (fc_b m * fc_f m - fc_c m * fc_e m) then 1 else - (1)) * sqrt (fc_b m ^ 2 + fc_e m ^ 2) /\
  forall x y, step_orient (dc_orient r) (step_perp (dc_perp r) (step_scale (dc_xs r) (dc_ys r) (x, y)))
    = (fc_b m * x + fc_c m * y, fc_e m * x + fc_f m * y).
Proof. exact dcmpf_linear_part. Qed.
Print Assumptions C41_dcmpf_linear_part.

Example C41_dcmpf_example : let r := dcmpf (N := RNum) (Coeffs 3 0 2 5 1 0) in
  dc_xs r = - (1) /\ dc_ys r = 2 /\ dc_xz r = 5 /\ dc_yz r = 3 / 2.
Proof. exact dcmpf_example. Qed.

(** C42 *)
Theorem C42_pxy : forall (n : Z) (expected measured : list point) (model : coeffs R),
  (Z.to_nat n <= length expected)%nat -> (Z.to_nat n <= length measured)%nat ->
  let es := firstn (Z.to_nat n) expected in
  let ps := map (linear_map model) (firstn (Z.to_nat n) measured) in
  let dx := map (fun q => fst (fst q) - fst (snd q)) (combine ps es) in
  let dy := map (fun q => snd (fst q) - snd (snd q)) (combine ps es) in
  exists x_rms y_rms rms : R, pxy (N := RNum) n expected measured model = Some (ps, x_rms, y_rms, rms) /\
    ((n <= 0)%Z -> x_rms = 0 /\ y_rms = 0 /\ rms = 0) /\
    ((0 < n)%Z -> x_rms = rms_of dx /\ y_rms = rms_of dy) /\
    rms = sqrt (x_rms ^ 2 + y_rms ^ 2).
Proof. exact pxy_spec. Qed.
Print Assumptions C42_pxy.

(** Too short an array is read out of bounds. *)
Theorem C42_pxy_bounds : forall (n : Z) (expected measured : list point) (model : coeffs R),
  (length expected < Z.to_nat n \/ length measured < Z.to_nat n)%nat ->
  pxy (N := RNum) n expected measured model = None.
Proof. exact pxy_bounds. Qed.
Print Assumptions C42_pxy_bounds.

(** The total residual vanishes exactly for a perfect fit. *)
Theorem C42_zero_rms : forall (n : Z) (expected measured : list point) (model : coeffs R) ps x_rms y_rms rms,
  length expected = Z.to_nat n -> length measured = Z.to_nat n ->
  pxy (N := RNum) n expected measured model = Some (ps, x_rms, y_rms, rms) ->
  (rms = 0 <-> map (linear_map model) measured = expected).
Proof. exact pxy_zero. Qed.
Print Assumptions C42_zero_rms.

Example C42_example : exists ps, pxy (N := RNum) 2 [(4, 0); (0, 0)] [(1, 0); (0, 0)] (Coeffs 0 1 0 0 0 1)
  = Some (ps, sqrt (9 / 2), 0, sqrt (9 / 2)).
Proof. exact pxy_example. Qed.

(** C43 *)
Theorem C43_pcd : forall k x y : R, pcd (N := RNum) k x y = distort k (x, y).
Proof. exact pcd_distort. Qed.
Print Assumptions C43_pcd.

(** Applying the distortion to unpcd's result returns the starting point. *)
Theorem C43_unpcd_undoes : forall k x y : R, distort k (unpcd (N := RNum) k x y) = (x, y).
Proof. exact unpcd_undoes. Qed.
Print Assumptions C43_unpcd_undoes.

(** Wherever the distortion is locally one-to-one and keeps its sense
    (1 + 3 k r^2 > 0), unpcd undoes pcd. *)
Theorem C43_unpcd_pcd : forall k x y : R, - (1) < 3 * k * (x ^ 2 + y ^ 2) ->
  (let '(u, v) := pcd (N := RNum) k x y in unpcd (N := RNum) k u v) = (x, y).
Proof. exact unpcd_pcd. Qed.
Print Assumptions C43_unpcd_pcd.

(** Among all points that distort to the given one, the least-moved is
    returned, except on the circle where two solutions merge. *)
Theorem C43_least_change : forall k x y : R, 27 * k * (x ^ 2 + y ^ 2) <> - (4) ->
  forall p, distort k p = (x, y) -> distance (unpcd (N := RNum) k x y) (x, y) <= distance p (x, y).
Proof. exact unpcd_least. Qed.
Print Assumptions C43_least_change.

(** On that circle the far solution is returned: unpcd(-1/3) of (2/3, 0) is
    (-2, 0), although (1, 0) distorts to the same point. *)
Theorem C43_least_change_everywhere_refuted : ~ (forall k x y : R, forall p, distort k p = (x, y) ->
  distance (unpcd (N := RNum) k x y) (x, y) <= distance p (x, y)).
Proof. exact unpcd_least_refuted. Qed.
Print Assumptions C43_least_change_everywhere_refuted.

Example C43_example : - (1) < 3 * - (1 / 3) * ((1 / 2) ^ 2 + (1 / 2) ^ 2) /\
  27 * - (1 / 3) * ((1 / 2) ^ 2 + (1 / 2) ^ 2) <> - (4) /\ distort (- (1 / 3)) (1 / 2, 1 / 2) = (5 / 12, 5 / 12) /\
  unpcd (N := RNum) (- (1 / 3)) (2 / 3) 0 = (- (2), 0) /\ distort (- (1 / 3)) (1, 0) = (2 / 3, 0).
Proof. split; [lra|]. split; [intros H; lra|]. exact (conj distort_example unpcd_critical). Qed.

(** C55 *)
Theorem C55_airmas :
  (forall z, airmas (N := RNum) (- z) = airmas (N := RNum) z) /\ airmas (N := RNum) 0 = 1 /\
  (forall z w, Rabs z <= Rabs w -> airmas (N := RNum) z <= airmas (N := RNum) w) /\
  (forall z w, Rabs z < Rabs w <= 1.52 -> airmas (N := RNum) z < airmas (N := RNum) w) /\
  (forall z, 1.52 <= Rabs z -> airmas (N := RNum) z = airmas (N := RNum) 1.52) /\
  (forall z, Rabs z <= 1.52 -> 1 <= airmas (N := RNum) z <= 1 / cos z) /\
  (forall z, 1 <= airmas (N := RNum) z <= 13.4).
Proof. exact airmas_facts. Qed.
Print Assumptions C55_airmas.

(** Below the clamp it is Hardie's polynomial in sec z - 1. *)
Theorem C55_hardie : forall z, Rabs z <= 1.52 -> let s := 1 / cos z - 1 in
  airmas (N := RNum) z = 1 + 0.9981833 * s - 0.002875 * s ^ 2 - 0.0008083 * s ^ 3.
Proof. exact airmas_hardie. Qed.
Print Assumptions C55_hardie.

Example C55_example : Rabs (PI / 3) <= 1.52 /\ airmas (N := RNum) (PI / 3) = 1.9945.
Proof. exact airmas_example. Qed.
