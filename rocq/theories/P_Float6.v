(** Property theorems with rounding: C31, C38, C52, C55 and C58 in IEEE
    binary64, for any libm accurate to [k] (see [libm_ok]).  Vocabulary: S_Float,
    S_FloatSph, S_FloatHor, S_Sphere, S_Site, S_Epoch. *)
From Coq Require Import ZArith Reals Lra.
From Flocq Require Import Core BinarySingleNaN.
From Verif Require Import Num NumB NumR M_Vec M_Sphere M_Frame M_Site M_Epoch M_Plate S_Geom S_Sphere S_Frame S_Site S_Epoch S_Binary S_Float S_FloatSph S_FloatHor.
From Verif Require Import L_Flt L_Bin L_Float L_FloatLibm L_FloatTan L_FloatRv L_FloatDt.
Open Scope R_scope.

(** ** C31: the tangent plane *)
(** The status follows the angular distance from the tangent point, but for a
    sliver of rounding at the three limits. *)
Theorem C31_status_binary : forall lm k p t a b a0 b0, libm_ok lm k -> angles64 p a b -> angles64 t a0 b0 -> Rabs a <= 8 -> Rabs a0 <= 8 ->
  let d := dot (direction a b) (direction a0 b0) in let st := fst (fst (ds2tp (N := B64 lm) p t)) in let e := 5 * k + 14 * u64 in
  (1e-6 + e < d -> st = TPP_OK) /\ (e <= d <= 1e-6 - e -> st = TPP_TOO_FAR) /\
  (- 1e-6 + e < d < - e -> st = TPP_ASTAR_ON_TP) /\ (d <= - 1e-6 - e -> st = TPP_ASTAR_TOO_FAR).
Proof. exact ds2tp_status. Qed.
Print Assumptions C31_status_binary.

Theorem C31_ds2tp_binary : forall lm k p t a b a0 b0 xi eta, libm_ok lm k -> k <= 1e-9 -> angles64 p a b -> angles64 t a0 b0 -> Rabs a <= 8 -> Rabs a0 <= 8 ->
  projects a0 b0 (direction a b) xi eta -> let d := dot (direction a b) (direction a0 b0) in 1e-5 <= d ->
  exists x y x' y', ds2tp (N := B64 lm) p t = (TPP_OK, x, y) /\ value64 x x' /\ value64 y y' /\
    Rabs (x' - xi) <= (5.5 * k + 14.3 * u64) / d * (1 + Rabs xi) /\ Rabs (y' - eta) <= (5.5 * k + 14.3 * u64) / d * (1 + Rabs eta).
Proof. exact ds2tp64. Qed.
Print Assumptions C31_ds2tp_binary.

(** Off the plate to the sky.  A point with [xi = 0] must not lie at a pole. *)
Theorem C31_dtp2s_binary : forall lm k (x y : double) t xi eta a0 b0 v, libm_ok lm k -> k <= 1e-6 -> value64 x xi -> value64 y eta ->
  Rabs xi <= 1e100 -> Rabs eta <= 1e100 -> angles64 t a0 b0 -> Rabs a0 <= 8 ->
  xi <> 0 \/ (1 + Rabs eta) * (k + 2.01 * u64) < Rabs (cos b0 - eta * sin b0) -> norm v = 1 -> projects a0 b0 v xi eta ->
  lands k (dtp2s (N := B64 lm) x y t) v (6.1 * k + 23.3 * u64).
Proof. exact dtp2s64. Qed.
Print Assumptions C31_dtp2s_binary.

Theorem C31_round_trip_binary : forall lm k p t a b a0 b0, libm_ok lm k -> k <= 1e-10 -> angles64 p a b -> angles64 t a0 b0 -> Rabs a <= 8 -> Rabs a0 <= 8 ->
  let d := dot (direction a b) (direction a0 b0) in 1e-5 <= d -> (11.1 * k + 28.7 * u64) / d + 1.5 * k + 3 * u64 < Rabs (cos b) ->
  let '(_, x, y) := ds2tp (N := B64 lm) p t in
  lands k (dtp2s (N := B64 lm) x y t) (direction a b) ((11.1 * k + 28.7 * u64) / d + 6.1 * k + 23.3 * u64).
Proof. exact ds2tp_back. Qed.
Print Assumptions C31_round_trip_binary.

(** ** C38: leap seconds *)
Theorem C38_dat_binary : forall lm (x : double) a, value64 x a ->
  (41317 <= a -> value64 (dat (N := B64 lm) x) (10 + INR (leaps_by a))) /\
  (-1000000 <= a < 41317 -> exists r, value64 (dat (N := B64 lm) x) r /\ Rabs (r - seg_value (in_force a seg_1960 segments) a) <= 2e-12).
Proof. exact dat64. Qed.
Print Assumptions C38_dat_binary.

Theorem C38_dtt_binary : forall lm (x : double) a, value64 x a -> -1000000 <= a ->
  exists r, value64 (dtt (N := B64 lm) x) r /\ Rabs (r - (32.184 + dat (N := RNum) a)) <= 3e-12.
Proof. exact dtt64. Qed.
Print Assumptions C38_dtt_binary.

(** ** C52: radial velocities *)
Theorem C52_rverot_binary : forall lm k p z w a b phi st, libm_ok lm k -> angles64 p a b -> value64 z phi -> value64 w st -> Rabs a <= 8 -> Rabs st <= 8 ->
  exists t, value64 (rverot (N := B64 lm) z p w) t /\
    Rabs (t - receding (scale (0.4655 * cos phi) (east st)) (direction a b)) <= 1.4 * k + 7 * u64.
Proof. exact rverot64. Qed.
Print Assumptions C52_rverot_binary.

Theorem C52_velocities_binary : forall lm k p a b, libm_ok lm k -> angles64 p a b -> let u := direction a b in exists t1 t2 t3 t4,
  (value64 (rvgalc (N := B64 lm) p) t1 /\ Rabs (t1 - receding (galactic_vector 0 220 0) u) <= 3e-4 + 580 * k) /\
  (value64 (rvlg (N := B64 lm) p) t2 /\ Rabs (t2 - receding (galactic_vector 0 300 0) u) <= 3e-4 + 790 * k) /\
  (value64 (rvlsrd (N := B64 lm) p) t3 /\ Rabs (t3 - receding (galactic_vector 9 12 7) u) <= 3e-4 + 40 * k) /\
  (value64 (rvlsrk (N := B64 lm) p) t4 /\ Rabs (t4 - receding (scale 20 standard_apex) u) <= 3e-4 + 47 * k).
Proof. exact rv64. Qed.
Print Assumptions C52_velocities_binary.

(** ** C55: air mass, for every finite zenith distance *)
Theorem C55_airmas_binary : forall lm k (x : double) a, libm_ok lm k -> k <= 1e-5 -> value64 x a ->
  exists r, value64 (airmas (N := B64 lm) x) r /\ Rabs (r - airmas (N := RNum) a) <= 390 * k + 4e-13.
Proof. exact airmas64. Qed.
Print Assumptions C55_airmas_binary.

(** ** C58: TT-UT estimates *)
Theorem C58_dt_binary : forall lm (x : double) a, value64 x a -> -10000 <= a <= 10000 ->
  exists r, value64 (dt (N := B64 lm) x) r /\ Rabs (r - dt (N := RNum) a) <= 2e-9.
Proof. exact dt64. Qed.
Print Assumptions C58_dt_binary.

(** The hypotheses are met. *)
Example C31_binary_case : libm_ok ideal_libm (2 * u64) /\ 2 * u64 <= 1e-10 /\
  angles64 (lm := ideal_libm) (Sph (N := B64 ideal_libm) (BofZ 53 1024 3) (BofZ 53 1024 1)) 3 1 /\ Rabs 3 <= 8 /\
  1e-5 <= dot (direction 3 1) (direction 3 0) /\ (11.1 * (2 * u64) + 28.7 * u64) / dot (direction 3 1) (direction 3 0) + 1.5 * (2 * u64) + 3 * u64 < Rabs (cos 1) /\
  value64 (BofZ 53 1024 50000) 50000 /\ 41317 <= 50000.
Proof.
  split; [exact ideal_libm_ok|]. split; [rewrite u64_num; lra|]. split; [split; apply (fin_ofZ 53 1024); reflexivity|].
  split; [rewrite Rabs_pos_eq; lra|]. destruct tan_case as (A & B). split; [exact A|]. split; [exact B|]. split; [apply (fin_ofZ 53 1024); reflexivity|lra].
Qed.
