(** Vocabulary for comparing the two precise Earth ephemerides and the
    low-precision one. *)
From Coq Require Import Reals.
From Verif Require Import Num S_Geom S_Eph S_Evp.
Open Scope R_scope.

(** The Moon's mean longitude, [t] in centuries since 1900, and the direction it
    defines in the ecliptic with the component towards the pole left out. *)
Definition mean_moon (t : R) : R := (270.434164 + 481267.8831 * t) * (PI / 180).
Definition moonward (t : R) : RV :=
  let ob := dms 23 27 8.26 - arcsecond * (46.845 * t + 0.0059 * t ^ 2 - 0.00181 * t ^ 3) in
  V3 (cos (mean_moon t)) (sin (mean_moon t) * cos ob) 0.

(** The Earth of Newcomb's ellipse: opposite to the Sun, and 0.0000312 AU away
    from the mean Moon; as a function of the Modified Julian Date. *)
Definition newcomb_earth (t : R) : RV := vadd (scale (-1) (newcomb_sun t)) (scale (Ropp 0.0000312) (moonward t)).
Definition newcomb_path (date : R) : RV := newcomb_earth (centuries1900 date).
