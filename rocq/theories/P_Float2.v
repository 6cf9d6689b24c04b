(** Property theorems with rounding: C20 and C26 in IEEE binary64, for any libm
    accurate to [k] (see [libm_ok]).  Vocabulary: S_Binary, S_Float, S_Geom, S_Sphere. *)
From Coq Require Import ZArith Reals Lra.
From Flocq Require Import Core BinarySingleNaN.
From Verif Require Import Num NumB NumR M_Vec M_Sphere S_Geom S_Sphere S_Frame S_Binary S_Float.
From Verif Require Import L_Bin L_Float L_FloatMat L_FloatLibm L_FloatSph.
Open Scope R_scope.

(** ** C20: spherical and Cartesian coordinates *)
Theorem C20_dcs2c_binary : forall lm k x y a b, libm_ok lm k -> value64 x a -> value64 y b ->
  exists r, vec64 (dcs2c (N := B64 lm) (Sph (N := B64 lm) x y)) r /\ norm (vsub r (direction a b)) <= 3 * k + 1.5 * u64.
Proof. exact dcs2c64. Qed.
Print Assumptions C20_dcs2c_binary.

Theorem C20_dcc2s_binary : forall lm k x a, libm_ok lm k -> vec64 x a -> within 1e150 a -> 1e-130 <= norm a ->
  exists t b, value64 (s_a (dcc2s (N := B64 lm) x)) t /\ value64 (s_b (dcc2s (N := B64 lm) x)) b /\
    Rabs t <= PI + 2 * k /\ Rabs b <= PI / 2 + 2 * k /\ norm (vsub (direction t b) (unit_of a)) <= 4 * k + 2.6 * u64.
Proof. exact dcc2s64. Qed.
Print Assumptions C20_dcc2s_binary.

(** The two round trips. *)
Theorem C20_vector_round_trip_binary : forall lm k x a, libm_ok lm k -> vec64 x a -> within 1e150 a -> 1e-130 <= norm a ->
  exists r, vec64 (dcs2c (N := B64 lm) (dcc2s (N := B64 lm) x)) r /\ norm (vsub r (unit_of a)) <= 7 * k + 4.1 * u64.
Proof. exact dcc2s_dcs2c64. Qed.
Print Assumptions C20_vector_round_trip_binary.

Theorem C20_angles_round_trip_binary : forall lm k x y a b, libm_ok lm k -> 0 <= k <= 1e-6 -> value64 x a -> value64 y b ->
  let r := dcc2s (N := B64 lm) (dcs2c (N := B64 lm) (Sph (N := B64 lm) x y)) in
  exists c d, value64 (s_a r) c /\ value64 (s_b r) d /\ norm (vsub (direction c d) (direction a b)) <= 7.1 * k + 4.2 * u64.
Proof. exact dcs2c_dcc2s64. Qed.
Print Assumptions C20_angles_round_trip_binary.

(** ** C26: the separation, with the same absolute error at every angle *)
Theorem C26_dsepv_binary : forall lm k x y a b, libm_ok lm k -> vec64 x a -> vec64 y b ->
  within 1e60 a -> within 1e60 b -> 1e-60 <= norm a -> 1e-60 <= norm b ->
  exists t, value64 (dsepv (N := B64 lm) x y) t /\ forall s, angle_between a b s -> Rabs (t - s) <= 2 * k + 6.2 * u64.
Proof. exact dsepv64. Qed.
Print Assumptions C26_dsepv_binary.

Theorem C26_dsep_binary : forall lm k x y z w a b c d, libm_ok lm k -> 0 <= k <= 1e-6 -> value64 x a -> value64 y b -> value64 z c -> value64 w d ->
  exists t, value64 (dsep (N := B64 lm) (Sph (N := B64 lm) x y) (Sph (N := B64 lm) z w)) t /\
    forall s, angle_between (direction a b) (direction c d) s -> Rabs (t - s) <= 8.1 * k + 9.3 * u64.
Proof. exact dsep64. Qed.
Print Assumptions C26_dsep_binary.

(** The hypotheses are met, for example by a correctly rounded libm, the vector
    (3, 0, 4) and its opposite. *)
Example C26_binary_case : libm_ok ideal_libm (2 * u64) /\ 0 <= 2 * u64 <= 1e-6 /\
  vec64 (V3 (BofZ 53 1024 3) (BofZ 53 1024 0) (BofZ 53 1024 4)) (V3 3 0 4) /\ within 1e60 (V3 3 0 4) /\ within 1e150 (V3 3 0 4) /\
  1e-60 <= norm (V3 3 0 4) /\ 1e-130 <= norm (V3 3 0 4) /\ angle_between (V3 3 0 4) (V3 (-3) 0 (-4)) PI.
Proof.
  split; [exact ideal_libm_ok|]. split; [rewrite u64_num; lra|].
  split; [split; [|split]; apply (fin_ofZ 53 1024); reflexivity|].
  assert (N : norm (V3 3 0 4) = 5).
  { unfold norm, dot. cbn [v0 v1 v2]. replace (3 * 3 + 0 * 0 + 4 * 4) with (5 * 5) by ring. apply sqrt_square. lra. }
  pose proof big150. destruct (small60 1e-60 1e-60 (Rle_refl _) (Rle_refl _)) as (_ & P & _).
  assert (B : 4 <= 1e60) by (change 1e60 with (1 * IZR (10 ^ 60)); rewrite <- mult_IZR; apply IZR_le, Z.leb_le; vm_compute; reflexivity).
  split; [repeat split; cbn [v0 v1 v2]; rewrite Rabs_pos_eq; lra|]. split; [repeat split; cbn [v0 v1 v2]; rewrite Rabs_pos_eq; lra|].
  rewrite N. split; [|split].
  - change 1e-60 with (1 / IZR (10 ^ 60)). apply Rle_trans with (1 / IZR 1); [apply inv_le; [reflexivity|vm_compute; reflexivity]|lra].
  - change 1e-130 with (1 / IZR (10 ^ 130)). apply Rle_trans with (1 / IZR 1); [apply inv_le; [reflexivity|vm_compute; reflexivity]|lra].
  - assert (N2 : norm (V3 (-3) 0 (-4)) = 5).
    { unfold norm, dot. cbn [v0 v1 v2]. replace (-3 * -3 + 0 * 0 + -4 * -4) with (5 * 5) by ring. apply sqrt_square. lra. }
    split; [pose proof PI_RGT_0; lra|]. rewrite N, N2, cos_PI. unfold dot. cbn [v0 v1 v2]. lra.
Qed.
