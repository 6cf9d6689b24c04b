(** Property theorems with rounding: C27, the bearing between two vectors, and
    C31, the gnomonic projection of vectors, in IEEE binary64.  Vocabulary: S_Float, S_FloatSph,
    S_FloatHor, S_Sphere. *)
From Coq Require Import ZArith Reals Lra.
From Flocq Require Import Core BinarySingleNaN.
From Verif Require Import Num NumB NumR M_Vec M_Sphere S_Geom S_Sphere S_Frame S_Binary S_Float S_FloatSph S_FloatHor.
From Verif Require Import L_Flt L_Bin L_Float L_FloatLibm L_FloatPav L_FloatVtp.
Open Scope R_scope.

(** ** C27: the first vector within a thousandth of unit length and not at a pole,
    the second no longer than 1.001; the error grows towards the poles of the
    first, where the bearing loses its meaning. *)
Theorem C27_dpav_binary : forall lm k (x y : vec (B64 lm)) r a b v, libm_ok lm k -> vec64 x (scale r (direction a b)) -> vec64 y v ->
  Rabs (r - 1) <= 0.001 -> norm v <= 1.001 -> 0 < cos b ->
  bears k (dpav (N := B64 lm) x y) a b v ((2.002 * k + 1.1e-14) / cos b).
Proof. exact dpav64. Qed.
Print Assumptions C27_dpav_binary.

Example C27_dpav_binary_case : let o := BofZ 53 1024 1 in let z := BofZ 53 1024 0 in libm_ok ideal_libm (2 * u64) /\
  vec64 (V3 o z z) (scale 1 (direction 0 0)) /\ vec64 (V3 z o z) (V3 0 1 0) /\ Rabs (1 - 1) <= 0.001 /\ norm (V3 0 1 0) <= 1.001 /\ 0 < cos 0 /\
  (2.002 * (2 * u64) + 1.1e-14) / cos 0 <= 1.2e-14.
Proof.
  cbv zeta. assert (O : value64 (BofZ 53 1024 1) 1) by (apply (fin_ofZ 53 1024 1); reflexivity). assert (Z : value64 (BofZ 53 1024 0) 0) by (apply (fin_ofZ 53 1024 0); reflexivity).
  split; [exact ideal_libm_ok|]. split.
  { replace (scale 1 (direction 0 0)) with (V3 1 0 0); [split; [exact O|split; exact Z]|]. unfold scale, direction. cbn [v0 v1 v2]. rewrite cos_0, sin_0. f_equal; ring. }
  split; [split; [exact Z|split; [exact O|exact Z]]|]. split; [rewrite Rminus_eq_0, Rabs_R0; lra|]. split.
  { unfold norm, dot. cbn [v0 v1 v2]. replace (0 * 0 + 1 * 1 + 0 * 0) with 1 by ring. rewrite sqrt_1. lra. }
  rewrite cos_0, u64_num. split; lra.
Qed.

(** ** C31: the vector form of the projection, for stars within sixty degrees of a
    tangent point not within six degrees of a pole.  The routine takes the tangent
    vector to be of unit length; its length [r] shows in xi. *)
Theorem C31_dv2tp_binary : forall lm (x y : vec (B64 lm)) r a0 b0 v xi eta, vec64 x v -> vec64 y (scale r (direction a0 b0)) ->
  Rabs (r - 1) <= 0.001 -> norm v <= 1.001 -> projects a0 b0 v xi eta -> 1 / 2 <= dot v (direction a0 b0) -> 1 / 10 <= cos b0 ->
  exists X Y x' y', dv2tp (N := B64 lm) x y = (TPP_OK, X, Y) /\ value64 X x' /\ value64 Y y' /\
    Rabs (x' - xi / r) <= 6e-13 /\ Rabs (y' - eta) <= 1e-12.
Proof. exact dv2tp64. Qed.
Print Assumptions C31_dv2tp_binary.

(** The star of direction cosines (1/2, 1/2, 0), shorter than the unit vector,
    seen from (1, 0, 0): xi is one. *)
Definition half : double := @B754_finite 53 1024 false 4503599627370496 (-53) eq_refl.
Example C31_dv2tp_binary_case : let o := BofZ 53 1024 1 in let z := BofZ 53 1024 0 in
  vec64 (V3 half half z) (V3 (1 / 2) (1 / 2) 0) /\ vec64 (V3 o z z) (scale 1 (direction 0 0)) /\ norm (V3 (1 / 2) (1 / 2) 0) <= 1.001 /\
  projects 0 0 (V3 (1 / 2) (1 / 2) 0) 1 0 /\ 1 / 2 <= dot (V3 (1 / 2) (1 / 2) 0) (direction 0 0) /\ 1 / 10 <= cos 0.
Proof.
  cbv zeta. assert (O : value64 (BofZ 53 1024 1) 1) by (apply (fin_ofZ 53 1024 1); reflexivity). assert (Z : value64 (BofZ 53 1024 0) 0) by (apply (fin_ofZ 53 1024 0); reflexivity).
  assert (H : value64 half (1 / 2)).
  { split; [reflexivity|]. unfold half, B2R, F2R. cbn [Fnum Fexp cond_Zopp]. change (bpow radix2 (-53)) with (/ 9007199254740992). lra. }
  split; [split; [exact H|split; [exact H|exact Z]]|].
  unfold projects, north, east, direction, scale, norm, dot. cbn [v0 v1 v2]. rewrite cos_0, sin_0. split.
  { replace (1 * (1 * 1)) with 1 by ring. replace (1 * (0 * 1)) with 0 by ring. replace (1 * 0) with 0 by ring. split; [exact O|split; exact Z]. }
  split; [|repeat split; lra]. rewrite <- (sqrt_square 1.001) by lra. apply sqrt_le_1_alt. lra.
Qed.
