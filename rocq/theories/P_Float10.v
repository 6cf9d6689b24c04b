(** Property theorems over IEEE binary64: polar motion, rotation matrices from
    axial vectors, and alt-azimuth positions.  Proofs are in the L_ files;
    specifications in S_Site, S_Geom, S_Frame, S_FloatSph and S_FloatHor. *)
From Coq Require Import ZArith Reals Lra.
From Flocq Require Import Core BinarySingleNaN.
From Verif Require Import Num NumB NumR M_Vec M_Sphere M_Site S_Geom S_Sphere S_Frame S_Site S_Binary S_Float S_FloatSph S_FloatHor.
From Verif Require Import L_Real L_Flt L_Bin L_Float L_FloatVec L_FloatMat L_FloatSph L_FloatLibm L_FloatPol L_FloatAv L_FloatAz.
Open Scope R_scope.

(** ** C22: the computed matrix is close to the rotation about the given axis
    by the length of the vector *)
Theorem C22_dav2m_binary : forall lm k x a, libm_ok lm k -> vec64 x a -> (a = vzero \/ 1e-150 <= norm a) -> norm a <= 1e6 ->
  exists M P, mat64 (dav2m (N := B64 lm) x) M /\ rotation P /\ (forall n t, dot n n = 1 -> 0 <= t -> a = scale t n -> forall u, mapply P u = turned n t u) /\
    fnorm (msub M P) <= 6 * k + (92 + 16 * norm a) * u64.
Proof. exact dav2m64. Qed.
Print Assumptions C22_dav2m_binary.

Example C22_binary_case : let one := BofZ 53 1024 1 in let x := V3 one one one in let a := V3 1 1 1 in
  libm_ok ideal_libm (2 * u64) /\ vec64 x a /\ 1e-150 <= norm a /\ norm a <= 1e6 /\ 6 * (2 * u64) + (92 + 16 * norm a) * u64 <= 2e-14.
Proof.
  intros one x a. assert (O : value64 one 1) by (apply (fin_ofZ 53 1024 1); reflexivity).
  assert (N : 1 <= norm a <= 2).
  { unfold a, norm, dot. cbn [v0 v1 v2]. split; [rewrite <- sqrt_1 at 1|rewrite <- (sqrt_square 2) by lra]; apply sqrt_le_1_alt; lra. }
  split; [exact ideal_libm_ok|]. split; [split; [exact O|split; exact O]|].
  split; [apply Rle_trans with (1 / IZR 1); [change 1e-150 with (1 / IZR (10 ^ 150)); apply inv_le; [reflexivity|vm_compute; reflexivity]|lra]|].
  split; [lra|]. rewrite u64_num. lra.
Qed.

(** ** C30: azimuth and elevation are, bit for bit, those of [de2h] *)
Theorem C30_same_as_de2h_binary : forall lm (p : sph (B64 lm)) (phi : double),
  am_az (altaz (N := B64 lm) p phi) = s_a (de2h (N := B64 lm) p phi) /\ am_el (altaz (N := B64 lm) p phi) = s_b (de2h (N := B64 lm) p phi).
Proof. exact altaz_same. Qed.
Print Assumptions C30_same_as_de2h_binary.

(** ** C54: the true direction, to rounding *)
Theorem C54_direction_binary : forall lm k (u v x y : double) ml mp xp yp, libm_ok lm k -> k <= 1e-6 ->
  value64 u ml -> value64 v mp -> value64 x xp -> value64 y yp ->
  let p := polmo (N := B64 lm) u v x y in
  lands_pm (lm := lm) k (Sph (N := B64 lm) (fst (fst p)) (snd (fst p))) (mapply (polar_motion xp yp) (direction ml mp)) (23.8 * k + 22 * u64).
Proof. exact polmo64. Qed.
Print Assumptions C54_direction_binary.

Example C54_binary_case : libm_ok ideal_libm (2 * u64) /\ 2 * u64 <= 1e-6 /\ 23.8 * (2 * u64) + 22 * u64 <= 8e-15 /\
  value64 (BofZ 53 1024 1) 1 /\ value64 (BofZ 53 1024 0) 0.
Proof.
  split; [exact ideal_libm_ok|]. rewrite u64_num. split; [lra|]. split; [lra|]. split; [apply (fin_ofZ 53 1024 1); reflexivity|apply (fin_ofZ 53 1024 0); reflexivity].
Qed.
