(** C49, C50, C62, C63: the Earth and Moon ephemerides.  Exact arithmetic. *)
From Coq Require Import Reals List ZArith Lra Lia.
From Verif Require Import Int32 Num NumR M_Vec M_EphTab M_Eph S_Geom S_Eph L_Eph L_EphB L_Moon L_MoonB L_Moon2.
Import ListNotations.
Open Scope R_scope.

(** ** C49 epv *)

(** Heliocentric and barycentric velocities are the derivatives of the
    positions (AU per day), at every date. *)
Theorem C49_velocity : forall date,
  velocity_at (fun d => pos (fst (epv (N := RNum) d))) date (velo (fst (epv (N := RNum) date))) /\
  velocity_at (fun d => pos (snd (epv (N := RNum) d))) date (velo (snd (epv (N := RNum) date))).
Proof. exact (epv_velocity epv_x epv_y epv_z). Qed.
Print Assumptions C49_velocity.

(** The same whatever the coefficient tables. *)
Theorem C49_velocity_any_tables : forall ax ay az date,
  velocity_at (fun d => pos (fst (epv_with (N := RNum) ax ay az d))) date (velo (fst (epv_with (N := RNum) ax ay az date))) /\
  velocity_at (fun d => pos (snd (epv_with (N := RNum) ax ay az d))) date (velo (snd (epv_with (N := RNum) ax ay az date))).
Proof. exact epv_velocity. Qed.
Print Assumptions C49_velocity_any_tables.

(** The positions: the Poisson series of the tables in Julian years since J2000,
    turned to the ICRS; the barycentric one adds the Sun's own series. *)
Theorem C49_series : forall ax ay az date,
  let t := years2000 date in
  let h x := poisson (e0 x) (e1 x) (e2 x) t in
  let s x := poisson (s0 x) (s1 x) (s2 x) t in
  let '(hel, bar) := epv_with (N := RNum) ax ay az date in
  pos hel = mapply ecliptic_to_icrs (V3 (h ax) (h ay) (h az)) /\
  pos bar = mapply ecliptic_to_icrs (V3 (h ax + s ax) (h ay + s ay) (h az + s az)).
Proof. exact epv_series. Qed.
Print Assumptions C49_series.

(** A one-row table: a circular motion in x, velocity as computed. *)
Example C49_example :
  let row := ((1, 0), (0, 0), (2, 0))%Z in
  let ax := Axis [row] [] [] [] [] [] in let az := Axis [] [] [] [] [] [] in
  v0 (pos (fst (epv_with (N := RNum) ax az az 51909.75))) = cos 2.
Proof.
  cbv zeta. pose proof (C49_series (Axis [((1, 0), (0, 0), (2, 0))%Z] [] [] [] [] []) (Axis [] [] [] [] [] []) (Axis [] [] [] [] [] []) 51909.75) as H.
  cbv zeta in H. destruct (epv_with _ _ _ _) as [hel bar]. destruct H as (H & _). cbn [fst]. rewrite H.
  unfold mapply, dot, poisson, ecliptic_to_icrs, harmonic, decimal, years2000; cbn [e0 e1 e2 r0 v0 v1 v2 fst snd].
  cbn. replace (0 * 1 + 2 * 1 * ((51909.75 - 51544.5) / 365.25)) with 2 by lra. lra.
Qed.

(** ** C62 *)

(** Within a thousand years of J2000: the Earth between 0.95 and 1.05 AU from
    the Sun, moving at 0.0167 to 0.0177 AU per day (28.9 to 30.7 km/s), and the
    Sun within 0.016 AU of the barycentre. *)
Theorem C62_orbit : forall date, Rabs (date - 51544.5) <= 365250 ->
  let '(hel, bar) := epv (N := RNum) date in
  0.95 < norm (pos hel) < 1.05 /\ 0.0167 < norm (velo hel) < 0.0177 /\
  norm (vsub (pos bar) (pos hel)) <= 0.016.
Proof.
  intros date H. pose proof (epv_distance date H) as A. pose proof (epv_speed date H) as B. pose proof (epv_sun date H) as C.
  destruct (epv (N := RNum) date) as [hel bar]. exact (conj A (conj B C)).
Qed.
Print Assumptions C62_orbit.

Example C62_example : Rabs (60000 - 51544.5) <= 365250.
Proof. apply Rabs_le. lra. Qed.

(** ** C50 dmoon *)

(** dmoon turns an ecliptic position and its rate with one frame of date; the
    rate is exactly the derivative, per second, of the ecliptic position it
    computes, except at the isolated dates where an argument is a non-zero whole
    number of turns: the reduction to one turn jumps there by the error of the
    degree literal.  Every date of the range is covered, against the theory
    instead of the computed path, by C50_velocity (P_Moon.v). *)
Theorem C50_between_turns : forall date, Rabs (centuries1900 date) <= 10 -> between_turns (centuries1900 date) ->
  exists (ecl : R -> RV) (v : RV),
    (forall d, pos (dmoon (N := RNum) d) = to_equator d (ecl d)) /\
    velocity_at ecl date (scale 86400 v) /\
    velo (dmoon (N := RNum) date) = to_equator date v.
Proof. exact dmoon_velocity. Qed.
Print Assumptions C50_between_turns.

Example C50_example : Rabs (centuries1900 15019.5) <= 10 /\ between_turns (centuries1900 15019.5).
Proof.
  replace (centuries1900 15019.5) with 0 by (unfold centuries1900; lra). split; [rewrite Rabs_R0; lra|].
  assert (X : forall k : Z, k <> 0%Z -> 360 * IZR k <= -360 \/ 360 <= 360 * IZR k).
  { intros k K. assert (k <= -1 \/ 1 <= k)%Z as [L | L] by lia; apply IZR_le in L; lra. }
  unfold between_turns, lunar_arguments, cubic. cbn [In]. intros a H k K. specialize (X k K).
  repeat match goal with H : _ \/ _ |- _ => destruct H as [H|H] end; try contradiction; subst a; lra.
Qed.

(** The low-precision routine, for a date of any year and day: the ecliptic rate
    it reports is the derivative of its position within 0.02 percent of the
    speed (its radial part leaves out the cosine of the parallax). *)
Theorem C50_moon_between_turns : forall (year day : Z) (f : R),
  (INT_MIN + 1900 <= year <= INT_MAX)%Z -> (-500000000 <= day <= 500000000)%Z ->
  let epoch g := IZR (year - 1900) + year_fraction year day g in
  almanac_between_turns (year_fraction year day f) (epoch f) ->
  exists (ecl : R -> RV) (v u : RV),
    (forall g, exists pv, moon (N := RNum) year day g = Some pv /\
       pos pv = mapply (frame_x (- almanac_obliquity (epoch g))) (ecl g) /\
       (g = f -> velo pv = mapply (frame_x (- almanac_obliquity (epoch f))) v)) /\
    velocity_at ecl f u /\ norm (vsub (scale 86400 v) u) <= 0.0002 * norm u.
Proof. exact moon_velocity. Qed.
Print Assumptions C50_moon_between_turns.

(** Year 1900, day 1 at 12h: the year fraction is zero. *)
Example C50_moon_example :
  year_fraction 1900 1 0.5 = 0 /\ almanac_between_turns 0 (IZR (1900 - 1900) + 0).
Proof.
  split.
  - unfold year_fraction. change ((1900 mod 4 =? 0)%Z) with true. change (1900 mod 4)%Z with 0%Z. cbv iota. change (IZR (1 - 1)) with 0. lra.
  - assert (X : forall k : Z, k <> 0%Z -> 360 * IZR k <= -360 \/ 360 * IZR k = 360 \/ 360 * IZR k = 720 \/ 1080 <= 360 * IZR k).
    { intros k K. assert (k <= -1 \/ k = 1 \/ k = 2 \/ 3 <= k)%Z as [L | [L | [L | L]]] by lia; try apply IZR_le in L; try subst k; lra. }
    unfold almanac_between_turns, almanac_arguments. cbn [In]. intros a H k K. specialize (X k K).
    change (IZR (1900 - 1900)) with 0 in H.
    repeat match goal with H : _ \/ _ |- _ => destruct H as [H|H] end; try contradiction; subst a; lra.
Qed.

(** ** C63 *)

(** Within ten centuries of 1900 the Moon is between 0.00236 and 0.00282 AU
    (353000 to 422000 km) away. *)
Theorem C63_distance : forall date, Rabs (centuries1900 date) <= 10 ->
  0.00236 < norm (pos (dmoon (N := RNum) date)) < 0.00282.
Proof. exact dmoon_distance. Qed.
Print Assumptions C63_distance.

Example C63_example : Rabs (centuries1900 60000) <= 10.
Proof. unfold centuries1900. apply Rabs_le. lra. Qed.
