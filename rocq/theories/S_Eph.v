(** Independent specification for the ephemerides: what "velocity is the time
    derivative of position" means, and the value of a Poisson series. *)
From Coq Require Import Reals List ZArith.
From Verif Require Import Num S_Geom.
Open Scope R_scope.

(** The vector-valued path [p] has velocity [v] at time [t]. *)
Definition velocity_at (p : R -> RV) (t : R) (v : RV) : Prop :=
  derivable_pt_lim (fun s => v0 (p s)) t (v0 v) /\
  derivable_pt_lim (fun s => v1 (p s)) t (v1 v) /\
  derivable_pt_lim (fun s => v2 (p s)) t (v2 v).

(** Decimal m * 10^e of the tables. *)
Definition decimal (d : Z * Z) : R :=
  if (snd d <? 0)%Z then IZR (fst d) / IZR (10 ^ (- snd d)) else IZR (fst d) * IZR (10 ^ snd d).

(** Sum of a cos(b + c t) over the rows (a, b, c). *)
Fixpoint harmonic (l : list ((Z * Z) * (Z * Z) * (Z * Z))) (t : R) : R :=
  match l with
  | nil => 0
  | (a, b, c) :: l => decimal a * cos (decimal b + decimal c * t) + harmonic l t
  end.

(** Poisson series of degree two. *)
Definition poisson (l0 l1 l2 : list ((Z * Z) * (Z * Z) * (Z * Z))) (t : R) : R :=
  harmonic l0 t + t * harmonic l1 t + t * t * harmonic l2 t.

(** The six fundamental arguments of the lunar theory, degrees, as cubics in
    Julian centuries since 1900: mean longitude, Sun's anomaly, Moon's anomaly,
    elongation, distance from node, node. *)
Definition cubic (c0 c1 c2 c3 t : R) : R := c0 + c1 * t + c2 * t ^ 2 + c3 * t ^ 3.
Definition lunar_arguments (t : R) : list R :=
  cubic 270.434164 481267.8831 (-0.001133) 0.0000019 t ::
  cubic 358.475833 35999.0498 (-0.000150) (-0.0000033) t ::
  cubic 296.104608 477198.8491 0.009192 0.0000144 t ::
  cubic 350.737486 445267.1142 (-0.001436) 0.0000019 t ::
  cubic 11.250889 483202.0251 (-0.003211) (-0.0000003) t ::
  cubic 259.183275 (-1934.1420) 0.002078 0.0000022 t :: nil.

(** None of them is, at [t], a non-zero whole number of turns. *)
Definition between_turns (t : R) : Prop :=
  forall a, In a (lunar_arguments t) -> forall k : Z, k <> 0%Z -> a <> 360 * IZR k.

(** Julian centuries since 1900 January 0.5 of a Modified Julian Date. *)
Definition centuries1900 (date : R) : R := (date - 15019.5) / 36525.

(** The Moon's equatorial frame of date as the code builds it from the ecliptic
    one: the mean obliquity, then the (small-angle) equinox correction about the
    pole. *)
Definition arcsecond : R := 4.848136811095359935899141e-6.
Definition timesecond : R := 7.272205216643039903848712e-5.
Definition mean_obliquity (date : R) : R :=
  let t := (date - 51544.5) / 36525 in
  arcsecond * (84381.448 - 46.8150 * t - 0.00059 * t ^ 2 + 0.001813 * t ^ 3).
Definition equinox_correction (date : R) : R :=
  let epoch := 2000 + 100 * ((date - 51544.5) / 36525) in
  timesecond * (0.035 + 0.00085 * (epoch - 1949.9997904423)).
Definition to_equator (date : R) (q : RV) : RV :=
  let w := mapply (frame_x (- mean_obliquity date)) q in
  vadd w (scale (equinox_correction date) (cross (V3 0 0 1) w)).

(** The five mean arguments of the low-precision lunar routine, degrees: [y] is
    the fraction of the year, [t] the years since 1900. *)
Definition almanac_arguments (y t : R) : list R :=
  (270.434164 + 4680 * y + 132.678831 * t) :: (358.475833 + 359.990498 * t) ::
  (296.104608 + 4680 * y + 91.988491 * t) :: (350.737486 + 4320 * y + 132.671142 * t) ::
  (11.250889 + 4680 * y + 152.020251 * t) :: nil.
Definition almanac_between_turns (y t : R) : Prop :=
  forall a, In a (almanac_arguments y t) -> forall k : Z, k <> 0%Z -> a <> 360 * IZR k.

(** Fraction of a year since its first day's noon, of a day and fraction of a
    day in a four-year cycle of 1461 days. *)
Definition year_fraction (year day : Z) (fraction : R) : R :=
  (IZR (day - (if (year mod 4 =? 0)%Z then 1 else 0)) + fraction - 0.5 - IZR (year mod 4) / 4) / 365.25.

(** Obliquity used by that routine. *)
Definition almanac_obliquity (t : R) : R := 1.745329252e-2 * (23.45229 - 0.00013 * t).

(** Julian years since J2000 of a Modified Julian Date, and the matrix taking
    the planetary theory's ecliptic frame to the ICRS. *)
Definition years2000 (date : R) : R := (date - 51544.5) / 365.25.
Definition ecliptic_to_icrs : RM := M3
  (V3 1 0.000000211284 (-0.000000091603))
  (V3 (-0.000000230286) 0.917482137087 (-0.397776982902))
  (V3 0 0.397776982902 0.917482137087).
