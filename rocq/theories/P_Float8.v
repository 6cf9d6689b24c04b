(** Property theorems over IEEE binary64: the observer's position and velocity
    and proper motion.  Proofs are in the L_ files; specifications in
    S_FloatObs, S_Site, S_FloatSph. *)
From Coq Require Import ZArith Reals Lra.
From Flocq Require Import Core BinarySingleNaN.
From Verif Require Import Num NumB NumR M_Vec M_Site S_Geom S_Frame S_Site S_FloatObs S_Binary S_Float S_FloatSph.
From Verif Require Import L_Flt L_Bin L_Float L_FloatLibm L_FloatObs L_FloatPm.
Open Scope R_scope.

(** ** C51: the observer, in metres and metres per second *)
Theorem C51_pvobs_binary : forall lm k (x y z : double) lat h lst, libm_ok lm k -> k <= 1e-6 -> value64 x lat -> value64 y h -> value64 z lst -> Rabs h <= 100000 ->
  exists p v P, vec64 (pos (pvobs (N := B64 lm) x y z)) p /\ vec64 (velo (pvobs (N := B64 lm) x y z)) v /\ observer_at lat h lst P /\
  norm (vsub (scale au_m p) P) <= 2e-8 + 4.4e7 * k /\ norm (vsub (scale au_m v) (carried_round P)) <= sidereal_rate * (2e-8 + 4.4e7 * k).
Proof. exact pvobs64. Qed.
Print Assumptions C51_pvobs_binary.

Example C51_binary_case : libm_ok ideal_libm (2 * u64) /\ 2 * u64 <= 1e-6 /\ 4.4e7 * (2 * u64) <= 1e-8 /\ value64 (BofZ 53 1024 1) 1 /\ Rabs 1 <= 100000.
Proof.
  split; [exact ideal_libm_ok|]. rewrite u64_num. split; [lra|]. split; [lra|]. split; [apply (fin_ofZ 53 1024 1); reflexivity|]. rewrite Rabs_R1. lra.
Qed.

(** The distances from the axis and from the equator, in metres. *)
Theorem C51_geoc_binary : forall lm k (x y : double) lat h, libm_ok lm k -> k <= 1e-6 -> value64 x lat -> value64 y h -> Rabs h <= 100000 ->
  exists p q rho z0, value64 (fst (geoc (N := B64 lm) x y)) p /\ value64 (snd (geoc (N := B64 lm) x y)) q /\ spheroid_point lat rho z0 /\
  Rabs (au_m * p - (rho + h * cos lat)) <= 1.02e-8 + 2.02e7 * k /\ Rabs (au_m * q - (z0 + h * sin lat)) <= 1.32e-8 + 2.02e7 * k.
Proof. exact geoc64. Qed.
Print Assumptions C51_geoc_binary.

Example C51_geoc_binary_case : libm_ok ideal_libm (2 * u64) /\ 2 * u64 <= 1e-6 /\ value64 (BofZ 53 1024 1) 1 /\ value64 (BofZ 53 1024 4200) 4200 /\ Rabs 4200 <= 100000.
Proof.
  split; [exact ideal_libm_ok|]. rewrite u64_num. split; [lra|]. split; [apply (fin_ofZ 53 1024 1); reflexivity|]. split; [apply (fin_ofZ 53 1024 4200); reflexivity|]. rewrite Rabs_pos_eq; lra.
Qed.

(** ** C59: proper motion over up to a century, for stars moving up to 41
    arcseconds a year *)
Theorem C59_pm_binary : forall lm k s m (z r x0 x1 : double) a b ma mb px rv ep0 ep1, libm_ok lm k -> k <= 1e-6 -> angles64 s a b -> angles64 m ma mb ->
  value64 z px -> value64 r rv -> value64 x0 ep0 -> value64 x1 ep1 -> Rabs ma <= 2e-4 -> Rabs mb <= 2e-4 -> Rabs px <= 1 -> Rabs rv <= 500 -> Rabs (ep1 - ep0) <= 100 ->
  let D t := direction (a + ma * t) (b + mb * t) in
  exists d : RV, (derivable_pt_lim (fun t => v0 (D t)) 0 (v0 d) /\ derivable_pt_lim (fun t => v1 (D t)) 0 (v1 d) /\ derivable_pt_lim (fun t => v2 (D t)) 0 (v2 d)) /\
  let u := direction a b in
  lands k (pm (N := B64 lm) s m z r x0 x1) (unit_of (vadd u (scale (ep1 - ep0) (vadd d (scale (km_s_arcsec * rv * px) u))))) (8.3 * k + 16 * u64).
Proof. exact pm64. Qed.
Print Assumptions C59_pm_binary.

Example C59_binary_case : value64 (BofZ 53 1024 2000) 2000 /\ value64 (BofZ 53 1024 2050) 2050 /\ Rabs (2050 - 2000) <= 100 /\ value64 (BofZ 53 1024 (-110)) (-110) /\ Rabs (-110) <= 500.
Proof.
  split; [apply (fin_ofZ 53 1024 2000); reflexivity|]. split; [apply (fin_ofZ 53 1024 2050); reflexivity|]. split; [rewrite Rabs_pos_eq; lra|].
  split; [apply (fin_ofZ 53 1024 (-110)); reflexivity|]. rewrite Rabs_left; lra.
Qed.
