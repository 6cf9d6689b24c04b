(** Property theorems over IEEE binary64: refraction of zenith distances and of
    direction vectors.  Proofs are in L_FloatRefz and L_FloatRefv;
    specifications in S_Refr, S_Geom, S_Float and S_FloatSph. *)
From Coq Require Import ZArith Reals Lra.
From Flocq Require Import Core BinarySingleNaN.
From Verif Require Import Num NumB NumR M_Refr S_Geom S_Refr S_Binary S_Float S_FloatSph.
From Verif Require Import L_Real L_Flt L_Bin L_Float L_FloatVec L_FloatLibm L_FloatRefv L_FloatRefz.
Open Scope R_scope.

(** ** C46: the computed refracted zenith distance satisfies the refraction law *)
Theorem C46_solves_binary : forall lm k (x y z : double) zu A B, libm_ok lm k -> k <= 1e-15 ->
  value64 x zu -> value64 y A -> value64 z B -> terrestrial A B -> Rabs zu <= 83 / deg ->
  exists zr, value64 (refz (N := B64 lm) x y z) zr /\ Rabs (zr + law A B zr - zu) <= 2.0001 / 10 ^ 10.
Proof. exact refz_solves64. Qed.
Print Assumptions C46_solves_binary.

(** The whole range, including the low-elevation model: the rounding error.
    The program changes model at exactly the doubles above 83 degrees. *)
Theorem C46_refz_binary : forall lm k (x y z : double) zu A B, libm_ok lm k -> k <= 1e-15 ->
  value64 x zu -> value64 y A -> value64 z B -> terrestrial A B -> - (83 / deg) <= zu <= 4 ->
  exists zr, value64 (refz (N := B64 lm) x y z) zr /\ Rabs (zr - refz (N := RNum) zu A B) <= 71e-15 /\
    (zu <= 83 / deg -> Rabs (zr - refz (N := RNum) zu A B) <= 14e-16).
Proof. exact refz64. Qed.
Print Assumptions C46_refz_binary.

Example C46_binary_case : exists A, libm_ok ideal_libm (2 * u64) /\ 2 * u64 <= 1e-15 /\ value64 (BofZ 53 1024 1) 1 /\
  value64 (Blit 53 1024 28 (-5)) A /\ value64 (BofZ 53 1024 0) 0 /\ 2.7e-4 <= A /\ terrestrial A 0 /\ Rabs 1 <= 83 / deg /\ - (83 / deg) <= 1 <= 4.
Proof.
  exists (5165088340638674 / 18446744073709551616). split; [exact ideal_libm_ok|]. rewrite u64_num. split; [lra|]. split; [apply (fin_ofZ 53 1024 1); reflexivity|]. split.
  - assert (E : B2SF (Blit 53 1024 28 (-5)) = SpecFloat.S754_finite false 5165088340638674 (-64)) by (vm_compute; reflexivity). split; [vm_compute; reflexivity|].
    rewrite <- SF2R_B2SF, E. unfold SF2R, F2R. cbn [Fnum Fexp cond_Zopp bpow]. change (Z.pow_pos radix2 64) with 18446744073709551616%Z. unfold cond_Zopp. lra.
  - split; [apply (fin_ofZ 53 1024 0); reflexivity|]. unfold terrestrial, deg. rewrite Rabs_R1. lra.
Qed.

(** ** C61: the rounding error of the refracted vector *)
Theorem C61_refv_binary : forall lm x (y z : double) v A B, vec64 x v -> value64 y A -> value64 z B -> norm v <= 1.001 -> terrestrial A B ->
  exists w, vec64 (refv (N := B64 lm) x y z) w /\ norm (vsub w (refv (N := RNum) v A B)) <= 24e-16.
Proof. exact refv64. Qed.
Print Assumptions C61_refv_binary.

Example C61_binary_case : let e := V3 (BofZ 53 1024 0) (BofZ 53 1024 0) (BofZ 53 1024 1) in vec64 e (V3 0 0 1) /\ norm (V3 0 0 1) <= 1.001 /\ terrestrial 0.00028 (-0.0000003).
Proof.
  cbv zeta. assert (O : value64 (BofZ 53 1024 1) 1) by (apply (fin_ofZ 53 1024 1); reflexivity). assert (Z : value64 (BofZ 53 1024 0) 0) by (apply (fin_ofZ 53 1024 0); reflexivity).
  split; [split; [exact Z|split; [exact Z|exact O]]|]. split; [|unfold terrestrial; lra].
  unfold norm, dot. cbn [v0 v1 v2]. replace (0 * 0 + 0 * 0 + 1 * 1) with 1 by ring. rewrite sqrt_1. lra.
Qed.
