(** Property theorems over IEEE binary64: nutation.  Proofs are in the L_
    files; specifications in S_Nut, S_Frame. *)
From Coq Require Import ZArith Reals Lra.
From Flocq Require Import Core BinarySingleNaN.
From Verif Require Import Num NumB NumR M_Vec M_Nutc M_Frame M_Epoch S_Geom S_Frame S_Epoch S_Nut S_Binary S_Float.
From Verif Require Import L_Flt L_Bin L_Float L_FloatLibm L_FloatNut L_FloatNutc L_FloatNutm.
Open Scope R_scope.

(** ** C57: the IAU 1980 nutation over 1800 to 2200, to 0.6 nanoarcseconds *)
Theorem C57_nutc80_binary : forall lm k (x : double) a, libm_ok lm k -> k <= 1e-15 -> value64 x a -> -21505 <= a <= 124594 ->
  exists psi eps eps0, let r := nutc80 (N := B64 lm) x in value64 (fst (fst r)) psi /\ value64 (snd (fst r)) eps /\ value64 (snd r) eps0 /\
  let T := centuries_J2000 a in
  Rabs (psi - iau1980_dpsi T) <= 3e-15 /\ Rabs (eps - iau1980_deps T) <= 1.5e-15 /\ Rabs (eps0 - obliquity a) <= 2e-16.
Proof. exact nutc80_64. Qed.
Print Assumptions C57_nutc80_binary.

Example C57_binary_case : libm_ok ideal_libm (2 * u64) /\ 2 * u64 <= 1e-15 /\ value64 (BofZ 53 1024 60000) 60000 /\ -21505 <= 60000 <= 124594.
Proof.
  split; [exact ideal_libm_ok|]. rewrite u64_num. split; [lra|]. split; [apply (fin_ofZ 53 1024 60000); reflexivity|]. lra.
Qed.

(** The 194-term series against the same series in exact arithmetic, which
    C57_nutc_near_nutc80 compares with the published one. *)
Theorem C57_nutc_binary : forall lm k (x : double) a, libm_ok lm k -> k <= 1e-15 -> value64 x a -> -21505 <= a <= 124594 ->
  exists psi eps eps0, let r := nutc (N := B64 lm) x in let r' := nutc (N := RNum) a in
  value64 (fst (fst r)) psi /\ value64 (snd (fst r)) eps /\ value64 (snd r) eps0 /\
  Rabs (psi - fst (fst r')) <= 4e-15 /\ Rabs (eps - snd (fst r')) <= 2e-15 /\ Rabs (eps0 - snd r') <= 2e-16.
Proof. exact nutc_64. Qed.
Print Assumptions C57_nutc_binary.

(** ** C36: the nutation matrix, and precession followed by nutation *)
Theorem C36_nut_binary : forall lm k (x : double) a, libm_ok lm k -> k <= 1e-15 -> value64 x a -> -21505 <= a <= 124594 ->
  exists C, mat64 (nut (N := B64 lm) x) C /\
  let '(psi, eps, eps0) := nutc (N := RNum) a in fnorm (msub C (nutation psi eps eps0)) <= 6.03 * k + 27.6 * u64 + 1e-14.
Proof. exact nut64_nutation. Qed.
Print Assumptions C36_nut_binary.

Theorem C36_prenut_binary : forall lm k (x y : double) a b, libm_ok lm k -> k <= 1e-15 -> value64 x a -> value64 y b -> 0 <= a <= 4000 -> -21505 <= b <= 124594 ->
  exists C, mat64 (prenut (N := B64 lm) x y) C /\
  let '(psi, eps, eps0) := nutc (N := RNum) b in
  fnorm (msub C (mmul (nutation psi eps eps0) (iau1976_precession a (julian_year b)))) <= 12.1 * k + 86 * u64 + 1e-14.
Proof. exact prenut64_nutation. Qed.
Print Assumptions C36_prenut_binary.

(** ** C53: the equation of the equinoxes *)
Theorem C53_eqeqx_binary : forall lm k (x : double) a, libm_ok lm k -> k <= 1e-15 -> value64 x a -> -21505 <= a <= 124594 ->
  exists v, value64 (eqeqx (N := B64 lm) x) v /\
  let '(psi, eps, eps0) := nutc (N := RNum) a in Rabs (v - equation_of_equinoxes psi eps0 (centuries_J2000 a)) <= 6e-15.
Proof. exact eqeqx64_spec. Qed.
Print Assumptions C53_eqeqx_binary.

Example C36_prenut_case : value64 (BofZ 53 1024 2000) 2000 /\ 0 <= 2000 <= 4000 /\ value64 (BofZ 53 1024 60000) 60000 /\ -21505 <= 60000 <= 124594.
Proof. split; [apply (fin_ofZ 53 1024 2000); reflexivity|]. split; [lra|]. split; [apply (fin_ofZ 53 1024 60000); reflexivity|]. lra. Qed.
