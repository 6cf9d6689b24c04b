(** Independent specification of the Moon's motion: the lunar theories of the
    source as plain functions of time, angles in degrees, no reduction to one
    turn.  The numeric tables are those of the source. *)
From Coq Require Import Reals List ZArith.
From Verif Require Import Num S_Geom S_Eph M_EphTab.
Import ListNotations.
Open Scope R_scope.

Definition radians (x : R) : R := x * (PI / 180).
Definition sind (x : R) : R := sin (radians x).
Definition cosd (x : R) : R := cos (radians x).

(** Earth's equatorial radius in AU: the distance is that over the sine of the
    parallax. *)
Definition earth_radius : R := 4.2635212653763e-5.
Definition place (parallax longitude latitude : R) : RV :=
  scale (earth_radius / sind parallax) (direction (radians longitude) (radians latitude)).

(** ** The full theory, [t] in Julian centuries since 1900 *)

(** Longitude of the ascending node, and the additive terms. *)
Definition node (t : R) : R := cubic 259.183275 (-1934.1420) 0.002078 0.0000022 t.
Definition additive (t : R) : R := sind (51.2 + 20.2 * t).
Definition great_venus (t : R) : R := 0.003964 * sind (346.560 + 132.870 * t - 0.0091731 * t ^ 2).
Definition node' (t : R) : R := node t + 275.05 - 2.30 * t.

Definition mean_longitude (t : R) : R :=
  cubic 270.434164 481267.8831 (-0.001133) 0.0000019 t +
  0.000233 * additive t + great_venus t + 0.001964 * sind (node t).
Definition sun_anomaly (t : R) : R := cubic 358.475833 35999.0498 (-0.000150) (-0.0000033) t - 0.001778 * additive t.
Definition moon_anomaly (t : R) : R :=
  cubic 296.104608 477198.8491 0.009192 0.0000144 t +
  0.000817 * additive t + great_venus t + 0.002541 * sind (node t).
Definition elongation (t : R) : R :=
  cubic 350.737486 445267.1142 (-0.001436) 0.0000019 t +
  0.002011 * additive t + great_venus t + 0.001964 * sind (node t).
Definition node_distance (t : R) : R :=
  cubic 11.250889 483202.0251 (-0.003211) (-0.0000003) t +
  great_venus t - 0.024691 * sind (node t) - 0.004328 * sind (node' t).

(** Secular change of the Sun's eccentricity. *)
Definition ecc (t : R) : R := 1 - 0.002495 * t - 0.00000752 * t ^ 2.

(** Sum of c E^n f(i M + j M' + k D + l F) over the rows (c, (i, j, k, l, n)). *)
Fixpoint lunar_series (f : R -> R) (rows : list ((Z * Z) * (Z * Z * Z * Z * Z))) (t : R) : R :=
  match rows with
  | nil => 0
  | (c, (i, j, k, l, n)) :: rows =>
      decimal c * ecc t ^ Z.to_nat n *
        f (IZR i * sun_anomaly t + IZR j * moon_anomaly t + IZR k * elongation t + IZR l * node_distance t)
      + lunar_series f rows t
  end.

Definition moon_longitude (t : R) : R := mean_longitude t + lunar_series sind dmoon_L t.
Definition moon_latitude (t : R) : R :=
  lunar_series sind dmoon_B t * (1 - 0.0004664 * cosd (node t) - 0.0000754 * cosd (node' t)).
Definition moon_parallax (t : R) : R := lunar_series cosd dmoon_P t.
Definition moon_theory (t : R) : RV := place (moon_parallax t) (moon_longitude t) (moon_latitude t).

(** ** The short theory, [t] in Julian years since 1900 *)
Fixpoint short_series (f : R -> R) (rows : list ((Z * Z) * (Z * Z * Z * Z))) (t : R) : R :=
  match rows with
  | nil => 0
  | (c, (i, j, k, l)) :: rows =>
      decimal c * f (IZR i * (358.475833 + 359.990498 * t) + IZR j * (296.104608 + 4771.988491 * t) +
                     IZR k * (350.737486 + 4452.671142 * t) + IZR l * (11.250889 + 4832.020251 * t))
      + short_series f rows t
  end.
Definition almanac_moon (t : R) : RV :=
  place (0.950724 + short_series cosd moon_P t)
        (270.434164 + 4812.678831 * t + short_series sind moon_L t)
        (short_series sind moon_B t).
