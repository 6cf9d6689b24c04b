(** Property theorems: the Earth ephemerides against one another.
    Vocabulary: [newcomb_sun] (Newcomb's unperturbed Sun, S_Evp), [mean_moon],
    [moonward], [newcomb_path] (S_Agree), [iau1976_precession] (S_Frame), [is_mjd], [jyear_length] (S_Calendar). *)
From Coq Require Import Reals ZArith Lra Lia.
From Verif Require Import Num NumR M_Vec M_Site M_Eph M_Evp S_Geom S_Frame S_Calendar S_Eph S_Evp S_Agree L_Agree L_Agree2 L_Agree3 L_Agree4.
Open Scope R_scope.

(** ** C74 epv and evp *)

(** Within fifty Julian years of J2000.0 the heliocentric Earth of the planetary
    series and that of Stumpff's theory, asked for equator and equinox J2000.0,
    are within 0.0024 AU of each other. *)
Theorem C74_epv_evp : forall date : R, Rabs (date - 51544.5) <= 18262.5 ->
  norm (vsub (pos (fst (evp (N := RNum) date 2000))) (pos (fst (epv (N := RNum) date)))) <= 0.0024.
Proof. exact epv_evp. Qed.
Print Assumptions C74_epv_evp.

Example C74_epv_evp_case : Rabs (45000 - 51544.5) <= 18262.5. (* 1982 January 31 *)
Proof. unfold Rabs. destruct (Rcase_abs (45000 - 51544.5)); lra. Qed.

(** The low-precision Earth for a year, day of year and fraction, and evp of
    date for the Modified Julian Date of that instant: within 6.3e-4 AU, 1901 to
    2099. *)
Theorem C74_earth_evp : forall (year day n : Z) (f : R),
  (1901 <= year <= 2099)%Z -> (1 <= day <= jyear_length year)%Z -> 0 <= f <= 1 -> is_mjd (Dt year 1 1) n ->
  exists pv, earth (N := RNum) year day f = Some pv /\
    norm (vsub (pos pv) (pos (fst (evp (N := RNum) (IZR (n + day - 1) + f) 0)))) <= 6.3e-4.
Proof. exact earth_evp. Qed.
Print Assumptions C74_earth_evp.

(** The same two routines' velocities, in AU per second: within 4.3e-10 (about
    64 m/s of 30 km/s). *)
Theorem C74_earth_evp_velocity : forall (year day n : Z) (f : R),
  (1901 <= year <= 2099)%Z -> (1 <= day <= jyear_length year)%Z -> 0 <= f <= 1 -> is_mjd (Dt year 1 1) n ->
  exists pv, earth (N := RNum) year day f = Some pv /\
    norm (vsub (velo pv) (velo (fst (evp (N := RNum) (IZR (n + day - 1) + f) 0)))) <= 4.3e-10.
Proof. exact earth_evp_velocity. Qed.
Print Assumptions C74_earth_evp_velocity.

Example C74_earth_evp_case : (1901 <= 1996 <= 2099)%Z /\ (1 <= 60 <= jyear_length 1996)%Z /\ 0 <= 0.75 <= 1 /\ is_mjd (Dt 1996 1 1) 50083.
Proof. split; [lia|]. split; [unfold jyear_length, jleap; cbn; lia|]. split; [lra|]. left; split; [lia|vm_compute; reflexivity]. Qed.

(** The low-precision Earth, taken to J2000.0 by the IAU 1976 precession, against
    the planetary series, within fifty Julian years of J2000.0. *)
Theorem C74_earth_epv : forall (year day n : Z) (f : R), let date := IZR (n + day - 1) + f in
  (1901 <= year <= 2099)%Z -> (1 <= day <= jyear_length year)%Z -> 0 <= f <= 1 -> is_mjd (Dt year 1 1) n -> Rabs (date - 51544.5) <= 18262.5 ->
  exists pv, earth (N := RNum) year day f = Some pv /\
    norm (vsub (mapply (iau1976_precession (julian_year date) 2000) (pos pv)) (pos (fst (epv (N := RNum) date)))) <= 0.0031.
Proof. exact earth_epv. Qed.
Print Assumptions C74_earth_epv.

Example C74_earth_epv_case : let date := IZR (50083 + 60 - 1) + 0.75 in (* 1996 February 29 *)
  (1901 <= 1996 <= 2099)%Z /\ (1 <= 60 <= jyear_length 1996)%Z /\ 0 <= 0.75 <= 1 /\ is_mjd (Dt 1996 1 1) 50083 /\ Rabs (date - 51544.5) <= 18262.5.
Proof.
  split; [lia|]. split; [unfold jyear_length, jleap; cbn; lia|]. split; [lra|]. split; [left; split; [lia|vm_compute; reflexivity]|].
  replace (50083 + 60 - 1)%Z with 50142%Z by reflexivity. apply Rabs_le. lra.
Qed.

(** ** C60 what the low-precision Earth is: Newcomb's ellipse, shifted by
    0.0000312 AU away from the mean Moon. *)
Theorem C60_earth_newcomb : forall (year day n : Z) (f : R),
  (1901 <= year <= 2099)%Z -> (1 <= day <= jyear_length year)%Z -> 0 <= f <= 1 -> is_mjd (Dt year 1 1) n ->
  exists pv, earth (N := RNum) year day f = Some pv /\
    let T := centuries1900 (IZR (n + day - 1) + f) in
    norm (vadd (vadd (pos pv) (newcomb_sun T)) (scale 0.0000312 (moonward T))) <= 4.5e-5.
Proof. exact earth_newcomb. Qed.
Print Assumptions C60_earth_newcomb.

(** Day 61 of 2000 (March 1), a quarter of the day gone. *)
Example C60_earth_newcomb_case : (1901 <= 2000 <= 2099)%Z /\ (1 <= 61 <= jyear_length 2000)%Z /\ 0 <= 0.25 <= 1 /\ is_mjd (Dt 2000 1 1) 51544.
Proof. split; [lia|]. split; [unfold jyear_length, jleap; cbn; lia|]. split; [lra|]. left; split; [lia|vm_compute; reflexivity]. Qed.

(** Its velocity is the rate of change of that ellipse and shift, to 7.1e-11 AU
    (11 metres) per second. *)
Theorem C60_earth_velocity : forall (year day n : Z) (f : R),
  (1901 <= year <= 2099)%Z -> (1 <= day <= jyear_length year)%Z -> 0 <= f <= 1 -> is_mjd (Dt year 1 1) n ->
  exists pv w, earth (N := RNum) year day f = Some pv /\ velocity_at newcomb_path (IZR (n + day - 1) + f) w /\
    norm (vsub (velo pv) (scale (/ 86400) w)) <= 7.1e-11.
Proof. exact earth_velocity. Qed.
Print Assumptions C60_earth_velocity.

(** Day 366 of 2000 (December 31), noon. *)
Example C60_earth_velocity_case : (1901 <= 2000 <= 2099)%Z /\ (1 <= 366 <= jyear_length 2000)%Z /\ 0 <= 0.5 <= 1 /\ is_mjd (Dt 2000 1 1) 51544.
Proof. split; [lia|]. split; [unfold jyear_length, jleap; cbn; lia|]. split; [lra|]. left; split; [lia|vm_compute; reflexivity]. Qed.
