(** Property theorems with rounding: C27, C28 and C29 in IEEE binary64, for any
    libm accurate to [k] (see [libm_ok]).  Vocabulary: S_Float, S_FloatSph,
    S_FloatHor, S_Sphere. *)
From Coq Require Import ZArith Reals Lra.
From Flocq Require Import Core BinarySingleNaN.
From Verif Require Import Num NumB NumR M_Vec M_Sphere S_Geom S_Sphere S_Frame S_Binary S_Float S_FloatSph S_FloatHor.
From Verif Require Import L_Flt L_Bin L_Float L_FloatLibm L_FloatHor.
Open Scope R_scope.

(** ** C27: bearings *)
Theorem C27_dbear_binary : forall lm k p q a b c d, libm_ok lm k -> k <= 1e-6 -> angles64 p a b -> angles64 q c d -> Rabs a <= 8 -> Rabs c <= 8 ->
  bears k (dbear (N := B64 lm) p q) a b (direction c d) (12.8 * k + 33 * u64).
Proof. exact dbear64. Qed.
Print Assumptions C27_dbear_binary.

(** ** C28: hour angle and declination to azimuth and elevation, and back *)
Theorem C28_de2h_binary : forall lm k s z a b phi, libm_ok lm k -> k <= 1e-6 -> angles64 s a b -> value64 z phi ->
  lands k (de2h (N := B64 lm) s z) (horizon_parts phi (direction a b)) (13.5 * k + 16.4 * u64).
Proof. exact de2h_lands. Qed.
Print Assumptions C28_de2h_binary.

Theorem C28_dh2e_binary : forall lm k x y z a b phi, libm_ok lm k -> k <= 1e-6 -> value64 x a -> value64 y b -> value64 z phi ->
  exists p q, angles64 (dh2e (N := B64 lm) x y z) p q /\ Rabs p <= PI + 2 * k /\ Rabs q <= PI / 2 + 2 * k /\
    vdist (horizon_parts phi (direction p q)) (direction a b) <= 13.5 * k + 10.1 * u64.
Proof. exact dh2e_seen. Qed.
Print Assumptions C28_dh2e_binary.

Theorem C28_round_trip_binary : forall lm k s z a b phi, libm_ok lm k -> k <= 1e-6 -> angles64 s a b -> value64 z phi ->
  let h := de2h (N := B64 lm) s z in lands_pm (lm := lm) k (dh2e (N := B64 lm) (s_a h) (s_b h) z) (direction a b) (27 * k + 26.5 * u64).
Proof. exact de2h_back. Qed.
Print Assumptions C28_round_trip_binary.

Theorem C28_round_trip_back_binary : forall lm k x y z a b phi, libm_ok lm k -> k <= 1e-6 -> value64 x a -> value64 y b -> value64 z phi ->
  lands k (de2h (N := B64 lm) (dh2e (N := B64 lm) x y z) z) (direction a b) (27 * k + 26.5 * u64).
Proof. exact dh2e_back. Qed.
Print Assumptions C28_round_trip_back_binary.

(** ** C29: zenith distance and parallactic angle *)
Theorem C29_zd_binary : forall lm k s z a b phi, libm_ok lm k -> k <= 1e-6 -> angles64 s a b -> value64 z phi ->
  exists t, value64 (zd (N := B64 lm) s z) t /\ forall w, angle_between (direction a b) (zenith phi) w -> Rabs (t - w) <= 9.6 * k + 9.5 * u64.
Proof. exact zd64. Qed.
Print Assumptions C29_zd_binary.

Theorem C29_pa_binary : forall lm k s z a b phi, libm_ok lm k -> k <= 1e-6 -> angles64 s a b -> value64 z phi ->
  bears k (pa (N := B64 lm) s z) (- a) b (zenith phi) (12.8 * k + 11 * u64).
Proof. exact pa64. Qed.
Print Assumptions C29_pa_binary.

(** The hypotheses are met, and the vertical is not the only case. *)
Example C28_binary_case : libm_ok ideal_libm (2 * u64) /\ 2 * u64 <= 1e-6 /\
  angles64 (lm := ideal_libm) (Sph (N := B64 ideal_libm) (BofZ 53 1024 3) (BofZ 53 1024 (-1))) 3 (-1) /\ Rabs 3 <= 8 /\ value64 (BofZ 53 1024 1) 1 /\
  horizon_parts 1 (direction 0 1) = V3 0 0 1.
Proof.
  split; [exact ideal_libm_ok|]. split; [rewrite u64_num; lra|]. split; [split; apply (fin_ofZ 53 1024); reflexivity|].
  split; [rewrite Rabs_pos_eq; lra|]. split; [apply (fin_ofZ 53 1024); reflexivity|exact parts_case].
Qed.
