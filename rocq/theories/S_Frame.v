(** Independent specification of celestial reference frames: precession,
    nutation, the ecliptic, the galactic and supergalactic systems and the
    E-terms of aberration, in terms of unit vectors and frame rotations. *)
From Coq Require Import Reals ZArith List.
From Verif Require Import Num S_Geom.
Import ListNotations.
Open Scope R_scope.

Definition deg (x : R) : R := x * PI / 180.
(** One arcsecond, to the eighteen figures the library uses. *)
Definition arcsec : R := 0.00000484813681109535994.

(** Julian centuries of 36525 days since J2000.0 (MJD 51544.5). *)
Definition centuries_J2000 (mjd : R) : R := (mjd - 51544.5) / 36525.
Definition julian_year (mjd : R) : R := 2000 + (mjd - 51544.5) / 365.25.

(** Precession through the equatorial angles zeta, z and theta: a turn by -zeta
    about the pole, by theta about the node, and by -z about the new pole. *)
Definition precession (zeta z theta : R) : RM := mmul (frame_z (- z)) (mmul (frame_y theta) (frame_z (- zeta))).

(** Lieske et al. (1977), IAU 1976 precession, arcseconds; [T] and [t] in Julian
    centuries from J2000.0 to the initial epoch and from there to the final. *)
Definition iau1976_zeta (T t : R) : R :=
  (2306.2181 + 1.39656 * T - 0.000139 * T ^ 2) * t + (0.30188 - 0.000344 * T) * t ^ 2 + 0.017998 * t ^ 3.
Definition iau1976_z (T t : R) : R :=
  (2306.2181 + 1.39656 * T - 0.000139 * T ^ 2) * t + (1.09468 + 0.000066 * T) * t ^ 2 + 0.018203 * t ^ 3.
Definition iau1976_theta (T t : R) : R :=
  (2004.3109 - 0.85330 * T - 0.000217 * T ^ 2) * t - (0.42665 + 0.000217 * T) * t ^ 2 - 0.041833 * t ^ 3.

(** Kinoshita (1975) after Newcomb and Andoyer, arcseconds; tropical centuries
    from B1850.0. *)
Definition newcomb_zeta (T t : R) : R :=
  (2303.5548 + 1.39720 * T + 0.000059 * T ^ 2) * t + (0.30242 - 0.000269 * T) * t ^ 2 + 0.017996 * t ^ 3.
Definition newcomb_z (T t : R) : R :=
  (2303.5548 + 1.39720 * T + 0.000059 * T ^ 2) * t + (1.09478 + 0.000387 * T) * t ^ 2 + 0.018324 * t ^ 3.
Definition newcomb_theta (T t : R) : R :=
  (2005.1125 - 0.85294 * T - 0.000365 * T ^ 2) * t - (0.42647 + 0.000365 * T) * t ^ 2 - 0.041802 * t ^ 3.

(** Simon et al. (1994), arcseconds; Julian millennia from J2000.0. *)
Definition simon_zeta (T t : R) : R :=
  (23060.9097 + 139.7459 * T - 0.0038 * T ^ 2 - 0.5918 * T ^ 3 - 0.0037 * T ^ 4 + 0.0007 * T ^ 5) * t
  + (30.2226 - 0.2523 * T - 0.3840 * T ^ 2 - 0.0014 * T ^ 3 + 0.0007 * T ^ 4) * t ^ 2
  + (18.0183 - 0.1326 * T + 0.0006 * T ^ 2 + 0.0005 * T ^ 3) * t ^ 3
  + (- 0.0583 - 0.0001 * T + 0.0007 * T ^ 2) * t ^ 4 - 0.0285 * t ^ 5 - 0.0002 * t ^ 6.
Definition simon_z (T t : R) : R :=
  (23060.9097 + 139.7459 * T - 0.0038 * T ^ 2 - 0.5918 * T ^ 3 - 0.0037 * T ^ 4 + 0.0007 * T ^ 5) * t
  + (109.5270 + 0.2446 * T - 1.3913 * T ^ 2 - 0.0134 * T ^ 3 + 0.0026 * T ^ 4) * t ^ 2
  + (18.2667 - 1.1400 * T - 0.0173 * T ^ 2 + 0.0044 * T ^ 3) * t ^ 3
  + (- 0.2821 - 0.0093 * T + 0.0032 * T ^ 2) * t ^ 4 + (- 0.0301 + 0.0006 * T) * t ^ 5 - 0.0001 * t ^ 6.
Definition simon_theta (T t : R) : R :=
  (20042.0207 - 85.3131 * T - 0.2111 * T ^ 2 + 0.3642 * T ^ 3 + 0.0008 * T ^ 4 - 0.0005 * T ^ 5) * t
  + (- 42.6566 - 0.2111 * T + 0.5463 * T ^ 2 + 0.0017 * T ^ 3 - 0.0012 * T ^ 4) * t ^ 2
  + (- 41.8238 + 0.0359 * T + 0.0027 * T ^ 2 - 0.0001 * T ^ 3) * t ^ 3
  + (- 0.0731 + 0.0019 * T + 0.0009 * T ^ 2) * t ^ 4 + (- 0.0127 + 0.0011 * T) * t ^ 5 + 0.0004 * t ^ 6.

Definition iau1976_precession (ep0 ep1 : R) : RM :=
  let T := (ep0 - 2000) / 100 in let t := (ep1 - ep0) / 100 in
  precession (iau1976_zeta T t * arcsec) (iau1976_z T t * arcsec) (iau1976_theta T t * arcsec).
Definition newcomb_precession (ep0 ep1 : R) : RM :=
  let T := (ep0 - 1850) / 100 in let t := (ep1 - ep0) / 100 in
  precession (newcomb_zeta T t * arcsec) (newcomb_z T t * arcsec) (newcomb_theta T t * arcsec).
Definition simon_precession (ep0 ep1 : R) : RM :=
  let T := (ep0 - 2000) / 1000 in let t := (ep1 - ep0) / 1000 in
  precession (simon_zeta T t * arcsec) (simon_z T t * arcsec) (simon_theta T t * arcsec).

(** Mean obliquity of the ecliptic, IAU 1980 (radians). *)
Definition obliquity (mjd : R) : R :=
  let T := centuries_J2000 mjd in (84381.448 - 46.8150 * T - 0.00059 * T ^ 2 + 0.001813 * T ^ 3) * arcsec.
(** From the mean equator of J2000.0 to the mean ecliptic of date. *)
Definition ecliptic_frame (mjd : R) : RM :=
  mmul (frame_x (obliquity mjd)) (iau1976_precession 2000 (julian_year mjd)).

(** From the mean to the true equator of date, for nutation in longitude [dpsi],
    nutation in obliquity [deps] and mean obliquity [eps]. *)
Definition nutation (dpsi deps eps : R) : RM :=
  mmul (frame_x (- (eps + deps))) (mmul (frame_z (- dpsi)) (frame_x eps)).

(** The frame whose pole is at longitude [a], latitude [d] and in which the old
    pole has longitude [l]. *)
Definition pole_frame (a d l : R) : RM := mmul (frame_z (deg 90 - l)) (mmul (frame_x (deg 90 - d)) (frame_z (a + deg 90))).
(** J2000.0 equatorial to galactic: north galactic pole at 192.85948, 27.12825
    degrees, galactic longitude of the celestial pole 122.93192 degrees. *)
Definition galactic_frame : RM := pole_frame (deg 192.85948) (deg 27.12825) (deg 122.93192).
(** B1950.0 equatorial to galactic, the IAU 1958 definition. *)
Definition galactic_frame_B1950 : RM := pole_frame (deg 192.25) (deg 27.4) (deg 123).
(** Galactic to supergalactic: pole at l 47.37, b 6.32 degrees; origin on the
    galactic plane. *)
Definition supergalactic_frame : RM := pole_frame (deg 47.37) (deg 6.32) (deg 90).

(** Conventional ranges of longitude and latitude. *)
Definition conventional (a b : R) : Prop := 0 <= a < 2 * PI /\ - (PI / 2) <= b <= PI / 2.

(** Elliptic aberration (E-terms): the constant part of annual aberration, from
    the eccentricity [e] and longitude of perihelion [p] of the Earth's orbit
    and the obliquity [eps], with constant of aberration 20.49552 arcseconds. *)
Definition e_terms_of (e p eps : R) : RV :=
  scale (e * 20.49552 * arcsec) (V3 (sin p) (- cos p * cos eps) (- cos p * sin eps)).
Definition e_terms (be : R) : RV :=
  let T := (be - 1950) * 0.0100002135903 in
  e_terms_of (0.01673011 - 0.00004193 * T - 0.000000126 * T ^ 2)
             ((1015489.951 + 6190.67 * T + 1.65 * T ^ 2 + 0.012 * T ^ 3) * arcsec)
             ((84404.836 - 46.8495 * T - 0.00319 * T ^ 2 - 0.00181 * T ^ 3) * arcsec).
(** The direction of the vector [v] as a unit vector. *)
Definition unit_of (v : RV) : RV := scale (/ norm v) v.
(** Distance between two unit vectors: the chord, which for small distances is
    the angle between them in radians. *)
Definition vdist (a b : RV) : R := norm (vsub a b).
