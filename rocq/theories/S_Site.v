(** Independent specification of observer positions, polar motion, line-of-
    sight velocities and space motion. *)
From Coq Require Import Reals ZArith.
From Verif Require Import Num S_Geom S_Sphere S_Frame.
Open Scope R_scope.

(** Reference spheroid (IAU 1976), metres; astronomical unit, metres. *)
Definition earth_a : R := 6378140.
Definition earth_b : R := earth_a * (1 - 1 / 298.257).
Definition au_m : R := 149597870000.

(** In a meridian plane, (rho, z) is the foot on the spheroid of the vertical
    whose geodetic latitude is [lat]: it lies on the ellipse and the outward
    normal there points along (cos lat, sin lat). *)
Definition spheroid_point (lat rho z : R) : Prop :=
  (rho / earth_a) ^ 2 + (z / earth_b) ^ 2 = 1 /\
  exists k, 0 < k /\ rho / earth_a ^ 2 = k * cos lat /\ z / earth_b ^ 2 = k * sin lat.

(** Earth rotation, radians per second of UT1. *)
Definition sidereal_rate : R := 0.00007292115855306589.

(** Terrestrial to celestial frame for pole coordinates (x, y). *)
Definition polar_motion (x y : R) : RM := mmul (frame_y x) (frame_x y).

(** The vector [v] has bearing [t], up to whole turns, at longitude [a],
    latitude [b]. *)
Definition has_bearing (a b : R) (v : RV) (t : R) : Prop :=
  exists k, 0 < k /\ dot v (north a b) = k * cos t /\ dot v (east a) = k * sin t.

(** Rate at which an observer moving with velocity [w] recedes from the
    direction [u]. *)
Definition receding (w u : RV) : R := - dot w u.
(** Vector with galactic components (x, y, z), in the J2000 equatorial frame. *)
Definition galactic_vector (x y z : R) : RV := mapply (transpose galactic_frame) (V3 x y z).
(** A radial velocity of 1 km/s at a parallax of 1 arcsecond, in radians per
    Julian year: astronomical units per year times radians per arcsecond. *)
Definition km_s_arcsec : R := 365.25 * 86400 / 149597870 * 0.0000048481368111.
(** Days from a fixed origin to day [d] of year [y], every fourth year having
    366 days (the calendar in which the low-precision Earth model runs). *)
Definition julian_calendar_day (y d : Z) : Z := 365 * y + (y - 1) / 4 + d.
(** The apex of the standard solar motion: right ascension 18h, declination
    +30 degrees for equinox 1900, as a J2000 direction. *)
Definition standard_apex : RV := mapply (iau1976_precession 1900 2000) (direction (3 * (PI / 2)) (PI / 6)).
