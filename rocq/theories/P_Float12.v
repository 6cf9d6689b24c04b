(** Property theorems over IEEE binary64: position and velocity from spherical
    coordinates, linear plate models, radial distortion; and over binary32:
    matrix kernels and unit vectors.  Proofs are in L_FloatPv and L_Float32;
    specifications in S_Geom, S_Plate, S_Float, S_Float32 and S_FloatPlate. *)
From Coq Require Import ZArith Reals Lra.
From Flocq Require Import Core BinarySingleNaN.
From Verif Require Import Num NumB NumR M_Vec M_Plate S_Geom S_Plate S_Binary S_Float S_FloatSph S_FloatPlate S_Float32.
From Verif Require Import L_Real L_Flt L_Bin L_Float L_FloatVec L_FloatSph L_FloatLibm L_FloatPv L_Float32.
Open Scope R_scope.

(** ** C21: position and velocity from spherical coordinates and their rates.
    The errors are relative to the distance and to the speed. *)
Theorem C21_ds2c6_binary : forall lm k (x : sphpv (B64 lm)) (s : sphpv RNum), libm_ok lm k ->
  value64 (lon x) (lon s) -> value64 (lat x) (lat s) -> value64 (dist x) (dist s) -> value64 (dlon x) (dlon s) -> value64 (dlat x) (dlat s) -> value64 (ddist x) (ddist s) ->
  Rabs (dist s) <= 1e20 -> Rabs (dlon s) <= 1e20 -> Rabs (dlat s) <= 1e20 -> Rabs (ddist s) <= 1e20 ->
  exists p v, vec64 (pos (ds2c6 (N := B64 lm) x)) p /\ vec64 (velo (ds2c6 (N := B64 lm) x)) v /\
    norm (vsub p (scale (dist s) (direction (lon s) (lat s)))) <= (3.5 * k + 3.5 * u64) * Rabs (dist s) + 1e-120 /\
    norm (vsub v (velo (ds2c6 (N := RNum) s))) <= (3.5 * k + 8.8 * u64) * (Rabs (dist s) * Rabs (dlon s) + Rabs (dist s) * Rabs (dlat s) + Rabs (ddist s)) + 1e-120.
Proof. exact ds2c6_64. Qed.
Print Assumptions C21_ds2c6_binary.

Example C21_binary_case : let one := BofZ 53 1024 1 in let s := SPV (N := RNum) 1 1 1 1 1 1 in let x := SPV (N := B64 ideal_libm) one one one one one one in
  libm_ok ideal_libm (2 * u64) /\ value64 (lon x) (lon s) /\ Rabs (dist s) <= 1e20 /\
  (3.5 * (2 * u64) + 8.8 * u64) * (Rabs (dist s) * Rabs (dlon s) + Rabs (dist s) * Rabs (dlat s) + Rabs (ddist s)) + 1e-120 <= 6e-15.
Proof.
  cbv zeta. cbn [lon dist dlon dlat ddist]. split; [exact ideal_libm_ok|]. split; [apply (fin_ofZ 53 1024 1); reflexivity|]. rewrite Rabs_R1, u64_num. lra.
Qed.

(** ** C41: applying a linear model *)
Theorem C41_xy2xy_binary : forall lm (m : coeffs double) c (x y : double) u v, coeffs64 m c -> value64 x u -> value64 y v ->
  coeffs_within 1e50 c -> Rabs u <= 1e50 -> Rabs v <= 1e50 ->
  exists p q, value64 (fst (xy2xy (N := B64 lm) x y m)) p /\ value64 (snd (xy2xy (N := B64 lm) x y m)) q /\
    Rabs (p - fst (linear_map c (u, v))) <= 3.03 * u64 * (Rabs (fc_a c) + Rabs (fc_b c * u) + Rabs (fc_c c * v)) + 1e-240 /\
    Rabs (q - snd (linear_map c (u, v))) <= 3.03 * u64 * (Rabs (fc_d c) + Rabs (fc_e c * u) + Rabs (fc_f c * v)) + 1e-240.
Proof. exact xy2xy64. Qed.
Print Assumptions C41_xy2xy_binary.

Example C41_binary_case : let one := BofZ 53 1024 1 in let m := Coeffs one one one one one one in let c := Coeffs 1 1 1 1 1 1 in
  coeffs64 m c /\ coeffs_within 1e50 c /\ fst (linear_map c (1, 1)) = 3.
Proof.
  cbv zeta. assert (O : value64 (BofZ 53 1024 1) 1) by (apply (fin_ofZ 53 1024 1); reflexivity).
  split; [unfold coeffs64; cbn [fc_a fc_b fc_c fc_d fc_e fc_f]; auto 10|]. split; [unfold coeffs_within; cbn [fc_a fc_b fc_c fc_d fc_e fc_f]; rewrite Rabs_R1; lra|unfold linear_map; cbn [fst fc_a fc_b fc_c]; lra].
Qed.

(** ** C43: applying radial distortion *)
Theorem C43_pcd_binary : forall lm (k x y : double) d u v, value64 k d -> value64 x u -> value64 y v -> Rabs d <= 1e15 -> Rabs u <= 1e15 -> Rabs v <= 1e15 ->
  exists p q, value64 (fst (pcd (N := B64 lm) k x y)) p /\ value64 (snd (pcd (N := B64 lm) k x y)) q /\
    Rabs (p - fst (distort d (u, v))) <= 5.05 * u64 * (1 + Rabs d * (u ^ 2 + v ^ 2)) * Rabs u + 1e-100 /\
    Rabs (q - snd (distort d (u, v))) <= 5.05 * u64 * (1 + Rabs d * (u ^ 2 + v ^ 2)) * Rabs v + 1e-100.
Proof. exact pcd64. Qed.
Print Assumptions C43_pcd_binary.

Example C43_binary_case : value64 (BofZ 53 1024 (-1)) (-1) /\ value64 (BofZ 53 1024 2) 2 /\ Rabs (-1) <= 1e15 /\ fst (distort (-1) (2, 2)) = -14.
Proof.
  split; [apply (fin_ofZ 53 1024 (-1)); reflexivity|]. split; [apply (fin_ofZ 53 1024 2); reflexivity|]. split; [rewrite Rabs_left; lra|unfold distort; cbn [fst]; lra].
Qed.

(** ** C24: the single precision matrix kernels *)
Theorem C24_mxv_binary : forall lm x y A a, mat32 x A -> vec32 y a -> mwithin 1e18 A -> within 1e18 a ->
  exists r, vec32 (dmxv (N := B32 lm) x y) r /\ vbound (3.001 * u32) 1e-44 r (mapply A a) (mapply (mabs A) (vabs a)).
Proof. exact dmxv32. Qed.
Print Assumptions C24_mxv_binary.

Theorem C24_imxv_binary : forall lm x y A a, mat32 x A -> vec32 y a -> mwithin 1e18 A -> within 1e18 a ->
  exists r, vec32 (dimxv (N := B32 lm) x y) r /\ vbound (3.001 * u32) 1e-44 r (mapply (transpose A) a) (mapply (mabs (transpose A)) (vabs a)).
Proof. exact dimxv32. Qed.
Print Assumptions C24_imxv_binary.

Theorem C24_mxm_binary : forall lm x y A B, mat32 x A -> mat32 y B -> mwithin 1e18 A -> mwithin 1e18 B ->
  exists C, mat32 (dmxm (N := B32 lm) x y) C /\ mbound (3.001 * u32) 1e-44 C (mmul A B) (mmul (mabs A) (mabs B)).
Proof. exact dmxm32. Qed.
Print Assumptions C24_mxm_binary.

Example C24_single_case : let z := BofZ 24 128 0 in let o := BofZ 24 128 1 in let t := BofZ 24 128 2 in
  mat32 (M3 (V3 o t z) (V3 z o z) (V3 z z o)) (M3 (V3 1 2 0) (V3 0 1 0) (V3 0 0 1)) /\ mapply (M3 (V3 1 2 0) (V3 0 1 0) (V3 0 0 1)) (V3 1 1 1) = V3 3 1 1.
Proof.
  cbv zeta. assert (Z : value32 (BofZ 24 128 0) 0) by (apply (fin_ofZ 24 128 0); reflexivity). assert (O : value32 (BofZ 24 128 1) 1) by (apply (fin_ofZ 24 128 1); reflexivity).
  assert (T : value32 (BofZ 24 128 2) 2) by (apply (fin_ofZ 24 128 2); reflexivity).
  split; [unfold mat32, vec32; cbn [r0 r1 r2 v0 v1 v2]; auto 10|unfold mapply, dot; cbn [r0 r1 r2 v0 v1 v2]; f_equal; ring].
Qed.

(** ** C20: the single precision unit vector *)
Theorem C20_cs2c_binary : forall lm k (x y : single) a b, libm32_ok lm k -> value32 x a -> value32 y b ->
  exists r, vec32 (dcs2c (N := B32 lm) (Sph (N := B32 lm) x y)) r /\ norm (vsub r (direction a b)) <= 3 * k + 1.5 * u32.
Proof. exact dcs2c32. Qed.
Print Assumptions C20_cs2c_binary.

Example C20_single_case : libm32_ok ideal_libm32 (2 * u32) /\ value32 (BofZ 24 128 1) 1 /\ 3 * (2 * u32) + 1.5 * u32 <= 5e-7.
Proof. split; [exact ideal_libm32_ok|]. split; [apply (fin_ofZ 24 128 1); reflexivity|]. rewrite u32_num. lra. Qed.
