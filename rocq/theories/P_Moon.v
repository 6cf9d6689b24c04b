(** C50, C72, C73: the Moon routines against the lunar theories.  Exact arithmetic. *)
From Coq Require Import Reals List ZArith Lra Lia.
From Verif Require Import Int32 Num NumR M_Vec M_EphTab M_Eph S_Calendar S_Geom S_Eph S_Moon L_Moon6 L_Moon8 L_Moon10.
Open Scope R_scope.

(** ** C50 velocities, at every date of the range *)

(** dmoon, AU per second: the rate of the theory's position, turned to the
    equator with the frame that turns the position, within 2e-15 AU per day. *)
Theorem C50_velocity : forall date, Rabs (centuries1900 date) <= 10 ->
  exists u, velocity_at (fun d => moon_theory (centuries1900 d)) date u /\
    norm (vsub (scale 86400 (velo (dmoon (N := RNum) date))) (to_equator date u)) <= 2e-15.
Proof. exact (fun date H => proj2 (dmoon_theory date H)). Qed.
Print Assumptions C50_velocity.

(** moon, any year and day, AU per second: within 3e-8 AU per day (its radial
    part leaves out the cosine of the parallax). *)
Theorem C50_moon_velocity : forall (year day : Z) (f : R),
  (INT_MIN + 1900 <= year <= INT_MAX)%Z -> (-500000000 <= day <= 500000000)%Z ->
  let epoch g := IZR (year - 1900) + year_fraction year day g in
  exists pv u, moon (N := RNum) year day f = Some pv /\
    velocity_at (fun g => almanac_moon (epoch g)) f u /\
    norm (vsub (scale 86400 (velo pv)) (mapply (frame_x (- almanac_obliquity (epoch f))) u)) <= 3e-8.
Proof. exact moon_rate_near. Qed.
Print Assumptions C50_moon_velocity.

(** ** C72 positions *)

Theorem C72_position : forall date, Rabs (centuries1900 date) <= 10 ->
  norm (vsub (pos (dmoon (N := RNum) date)) (to_equator date (moon_theory (centuries1900 date)))) <= 2e-15.
Proof. exact (fun date H => proj1 (dmoon_theory date H)). Qed.
Print Assumptions C72_position.

Theorem C72_moon_position : forall (year day : Z) (f : R),
  (INT_MIN + 1900 <= year <= INT_MAX)%Z -> (-500000000 <= day <= 500000000)%Z ->
  let epoch := IZR (year - 1900) + year_fraction year day f in
  exists pv, moon (N := RNum) year day f = Some pv /\
    norm (vsub (pos pv) (mapply (frame_x (- almanac_obliquity epoch)) (almanac_moon epoch))) <= 5e-12.
Proof. exact moon_place_near. Qed.
Print Assumptions C72_moon_position.

(** The ranges hold 2000 January 1 at noon; its epoch is a century after 1900
    in both scales. *)
Example C72_example : Rabs (centuries1900 51544.5) <= 10 /\ centuries1900 51544.5 = 1 /\
  (INT_MIN + 1900 <= 2000 <= INT_MAX)%Z /\ IZR (2000 - 1900) + year_fraction 2000 1 0.5 = 100.
Proof.
  assert (centuries1900 51544.5 = 1) as E by (unfold centuries1900; lra).
  split; [rewrite E, Rabs_R1; lra|]. split; [exact E|]. split; [unfold INT_MIN, INT_MAX; lia|].
  unfold year_fraction. change ((2000 mod 4 =? 0)%Z) with true. change (2000 mod 4)%Z with 0%Z. cbv iota. change (IZR (1 - 1)) with 0. change (IZR (2000 - 1900)) with 100. lra.
Qed.

(** ** C73 the two routines *)

(** From 1901 to 2099, moon at a year, day of year and fraction and dmoon at the
    Modified Julian Date of that instant place the Moon within 2e-5 AU (3000 km)
    of each other. *)
Theorem C73_agree : forall (year day n : Z) (f : R),
  (1901 <= year <= 2099)%Z -> (1 <= day <= jyear_length year)%Z -> 0 <= f <= 1 -> is_mjd (Dt year 1 1) n ->
  exists pv, moon (N := RNum) year day f = Some pv /\
    norm (vsub (pos (dmoon (N := RNum) (IZR (n + day - 1) + f))) (pos pv)) <= 2e-5.
Proof. exact moons_agree. Qed.
Print Assumptions C73_agree.

(** 2000 March 1 is day 61; 2000 January 1 is MJD 51544. *)
Example C73_example : (1901 <= 2000 <= 2099)%Z /\ (1 <= 61 <= jyear_length 2000)%Z /\ is_mjd (Dt 2000 1 1) 51544 /\
  day_of_year (Dt 2000 3 1) = 61%Z.
Proof. split; [lia|]. split; [unfold jyear_length, jleap; cbn; lia|]. split; [left; split; [lia|vm_compute; reflexivity]|reflexivity]. Qed.
