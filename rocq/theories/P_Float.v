(** Property theorems with rounding: C23-C25 in IEEE binary64 (and binary32 for
    the vector kernels).  Vocabulary: S_Binary, S_Float.  Model: M_Vec.
    [u64] and [u32] are the unit roundoffs 2^-53 and 2^-24. *)
From Coq Require Import ZArith Reals Lra Lia List Ascii String.
From Flocq Require Import Core BinarySingleNaN.
From Verif Require Import Num NumB NumR M_Vec S_Geom S_Binary S_Float.
From Verif Require Import L_Bin L_Flt L_FltVec L_Float L_FloatVec L_FloatMat L_FloatLibm.
Import ListNotations.
Open Scope R_scope.

(** ** C25: products and normalisation *)
Theorem C25_dvdv_binary : forall lm x y a b, vec64 x a -> vec64 y b -> within 1e150 a -> within 1e150 b ->
  exists r, value64 (dvdv (N := B64 lm) x y) r /\ Rabs (r - dot a b) <= 3.001 * u64 * dot (vabs a) (vabs b) + 1e-322.
Proof. exact dvdv64. Qed.
Print Assumptions C25_dvdv_binary.

Theorem C25_vdv_binary : forall lm x y a b, vec32 x a -> vec32 y b -> within 1e18 a -> within 1e18 b ->
  exists r, value32 (dvdv (N := B32 lm) x y) r /\ Rabs (r - dot a b) <= 3.001 * u32 * dot (vabs a) (vabs b) + 1e-44.
Proof. exact vdv32. Qed.
Print Assumptions C25_vdv_binary.

Theorem C25_dvxv_binary : forall lm x y a b, vec64 x a -> vec64 y b -> within 1e150 a -> within 1e150 b ->
  exists r, vec64 (dvxv (N := B64 lm) x y) r /\ vbound (2.001 * u64) 1e-322 r (cross a b) (cross_abs a b).
Proof. exact dvxv64. Qed.
Print Assumptions C25_dvxv_binary.

Theorem C25_vxv_binary : forall lm x y a b, vec32 x a -> vec32 y b -> within 1e18 a -> within 1e18 b ->
  exists r, vec32 (dvxv (N := B32 lm) x y) r /\ vbound (2.001 * u32) 1e-44 r (cross a b) (cross_abs a b).
Proof. exact vxv32. Qed.
Print Assumptions C25_vxv_binary.

(** The modulus and the unit vector, for lengths from 1e-150 up. *)
Theorem C25_dvn_binary : forall lm x a, vec64 x a -> within 1e150 a -> 1e-150 <= norm a ->
  exists m n, value64 (snd (dvn (N := B64 lm) x)) m /\ vec64 (fst (dvn (N := B64 lm) x)) n /\
    Rabs (m - norm a) <= 2.51 * u64 * norm a /\ norm (vsub n (scale (/ norm a) a)) <= 3.53 * u64 /\ Rabs (norm n - 1) <= 3.53 * u64.
Proof. exact dvn64. Qed.
Print Assumptions C25_dvn_binary.

Theorem C25_vn_binary : forall lm x a, vec32 x a -> within 1e18 a -> 1e-16 <= norm a ->
  exists m n, value32 (snd (dvn (N := B32 lm) x)) m /\ vec32 (fst (dvn (N := B32 lm) x)) n /\
    Rabs (m - norm a) <= 2.51 * u32 * norm a /\ norm (vsub n (scale (/ norm a) a)) <= 3.53 * u32 /\ Rabs (norm n - 1) <= 3.53 * u32.
Proof. exact vn32. Qed.
Print Assumptions C25_vn_binary.

(** Shorter vectors are returned unchanged with modulus 0 ... *)
Theorem C25_dvn_short_binary : forall lm x a, vec64 x a -> within 1e-162 a ->
  vec64 (fst (dvn (N := B64 lm) x)) a /\ value64 (snd (dvn (N := B64 lm) x)) 0.
Proof. exact dvn_short. Qed.
Print Assumptions C25_dvn_short_binary.

(** ... and long ones give the null vector with infinite modulus. *)
Theorem C25_dvn_any_length_refuted : exists x a, vec64 x a /\ 1e199 <= v0 a /\
  forall lm, snd (dvn (N := B64 lm) x) = B754_infinity false /\ vec64 (fst (dvn (N := B64 lm) x)) vzero.
Proof.
  destruct long_vec_value as (c & F & C). exists long_vec, (V3 c c 0). split; [exact F|]. split; [exact C|]. exact dvn_long.
Qed.
Print Assumptions C25_dvn_any_length_refuted.

Example C25_binary_case : vec64 (V3 (BofZ 53 1024 3) (BofZ 53 1024 0) (BofZ 53 1024 4)) (V3 3 0 4) /\ within 1e150 (V3 3 0 4) /\ norm (V3 3 0 4) = 5.
Proof.
  split; [split; [|split]; apply (fin_ofZ 53 1024); reflexivity|]. pose proof big150. split.
  - repeat split; cbn [v0 v1 v2]; rewrite Rabs_pos_eq; lra.
  - unfold norm, dot. cbn [v0 v1 v2]. replace (3 * 3 + 0 * 0 + 4 * 4) with (5 * 5) by ring. apply sqrt_square. lra.
Qed.

(** ** C24: matrix kernels *)
Theorem C24_dmxv_binary : forall lm x y A a, mat64 x A -> vec64 y a -> mwithin 1e150 A -> within 1e150 a ->
  exists r, vec64 (dmxv (N := B64 lm) x y) r /\ vbound (3.001 * u64) 1e-322 r (mapply A a) (mapply (mabs A) (vabs a)).
Proof. exact dmxv64. Qed.
Print Assumptions C24_dmxv_binary.

Theorem C24_dimxv_binary : forall lm x y A a, mat64 x A -> vec64 y a -> mwithin 1e150 A -> within 1e150 a ->
  exists r, vec64 (dimxv (N := B64 lm) x y) r /\ vbound (3.001 * u64) 1e-322 r (mapply (transpose A) a) (mapply (mabs (transpose A)) (vabs a)).
Proof. exact dimxv64. Qed.
Print Assumptions C24_dimxv_binary.

Theorem C24_dmxm_binary : forall lm x y A B, mat64 x A -> mat64 y B -> mwithin 1e150 A -> mwithin 1e150 B ->
  exists C, mat64 (dmxm (N := B64 lm) x y) C /\ mbound (3.001 * u64) 1e-322 C (mmul A B) (mmul (mabs A) (mabs B)).
Proof. exact dmxm64. Qed.
Print Assumptions C24_dmxm_binary.

(** A matrix within [d] of a rotation turns a vector like that rotation, and
    products of such matrices add their errors. *)
Theorem C24_rotation_binary : forall lm x y A P a d, mat64 x A -> vec64 y a -> rotation P -> fnorm (msub A P) <= d -> d <= 1e-3 -> within 1e150 a ->
  exists r, vec64 (dmxv (N := B64 lm) x y) r /\ norm (vsub r (mapply P a)) <= (d + 5.3 * u64) * norm a + 1e-321.
Proof. exact dmxv_rot. Qed.
Print Assumptions C24_rotation_binary.

Theorem C24_rotations_binary : forall lm x y A B P Q d e, mat64 x A -> mat64 y B -> rotation P -> rotation Q ->
  fnorm (msub A P) <= d -> fnorm (msub B Q) <= e -> d <= 1e-3 -> e <= 1e-3 ->
  exists C, mat64 (dmxm (N := B64 lm) x y) C /\ fnorm (msub C (mmul P Q)) <= d + e + d * e + 9.1 * u64.
Proof. exact dmxm_rot. Qed.
Print Assumptions C24_rotations_binary.

Example C24_binary_case : forall lm, mat64 (ident (N := B64 lm)) mident /\ rotation mident /\ fnorm (msub mident mident) <= 0.
Proof. intros lm. split; [exact (ident64 lm)|]. split; [exact L_Vec.rotation_ident|]. rewrite fnorm_self. lra. Qed.

(** ** C23: Euler rotations with a libm accurate to [k] *)
Theorem C23_deuler_binary : forall lm k order x y z a b c m, libm_ok lm k -> 0 <= k <= 1e-6 ->
  value64 x a -> value64 y b -> value64 z c -> euler order [a; b; c] m ->
  exists C, mat64 (deuler (N := B64 lm) order x y z) C /\ fnorm (msub C m) <= 6.03 * k + 27.6 * u64.
Proof. exact deuler64. Qed.
Print Assumptions C23_deuler_binary.

(** A correctly rounded libm is such a libm. *)
Example C23_binary_case : libm_ok ideal_libm (2 * u64) /\ 0 <= 2 * u64 <= 1e-6.
Proof. split; [exact ideal_libm_ok|]. rewrite u64_num. lra. Qed.
