(** Independent specification for evp: the Earth's motion after Newcomb and
    Stumpff as plain functions of time, without any reduction of angles. *)
From Coq Require Import Reals List ZArith.
From Verif Require Import Num S_Geom S_Eph M_EvpTab.
Import ListNotations.
Open Scope R_scope.

(** From the ecliptic to the mean equator of date: the obliquity, then the
    FK4 to FK5 correction of the equinox, 0.035 + 0.085 seconds of time per
    century from B1950. *)
Definition evp_obliquity (t : R) : R := 0.4093198 - 2.271110e-4 * t - 2.860401e-8 * t ^ 2.
Definition equinox_offset (date : R) : R :=
  7.272205216643e-5 * (0.035 + 0.00085 * (1900 + 100 * centuries1900 date - 1949.9997904423)).
Definition equatorial (date : R) (q : RV) : RV :=
  let w := mapply (frame_x (- evp_obliquity (centuries1900 date))) q in
  vadd w (scale (equinox_offset date) (cross (V3 0 0 1) w)).

(** The pole of the ecliptic of date in equatorial axes, and the velocity
    relative to the fixed stars of a body at [p] whose coordinates in the axes
    of date change at the rate [w] (both per day): the axes themselves turn
    about the pole of the ecliptic by the general precession, 5029 arcseconds a
    century. *)
Definition ecliptic_pole (date : R) : RV :=
  let e := evp_obliquity (centuries1900 date) in V3 0 (- sin e) (cos e).
Definition precession_per_day : R := 5029 * arcsecond / 36525.
Definition star_velocity (date : R) (p w : RV) : RV :=
  vsub w (scale precession_per_day (cross (ecliptic_pole date) p)).

(** Newcomb's unperturbed Sun, [t] in centuries since 1900: mean longitude and
    anomaly, eccentricity, equation of the centre, distance, direction. *)
Definition dms (d m s : R) : R := (d + m / 60 + s / 3600) * (PI / 180).
Definition sun_longitude (t : R) : R := dms 279 41 48.04 + arcsecond * (129602768.13 * t + 1.089 * t ^ 2).
Definition sun_anomaly (t : R) : R := dms 358 28 33 + arcsecond * (129596579.10 * t - 0.54 * t ^ 2).
Definition eccentricity (t : R) : R := 0.01675104 - 0.0000418 * t - 0.000000126 * t ^ 2.
Definition centre (e g : R) : R := (2 * e - e ^ 3 / 4) * sin g + 5 / 4 * e ^ 2 * sin (2 * g) + 13 / 12 * e ^ 3 * sin (3 * g).
Definition newcomb_sun (t : R) : RV :=
  let e := eccentricity t in let g := sun_anomaly t in let c := centre e g in
  let r := (1 - e ^ 2) / (1 + e * cos (g + c)) in let l := sun_longitude t + c in
  let ob := dms 23 27 8.26 - arcsecond * (46.845 * t + 0.0059 * t ^ 2 - 0.00181 * t ^ 3) in
  V3 (r * cos l) (r * sin l * cos ob) (r * sin l * sin ob).

(** Stumpff's version with the tables of the source. *)
Definition z0 : Z * Z := (0, 0)%Z.
Definition quadratic (c : (Z * Z) * (Z * Z) * (Z * Z)) (t : R) : R :=
  decimal (fst (fst c)) + t * decimal (snd (fst c)) + t * t * decimal (snd c).
Definition element_of (l : list ((Z * Z) * (Z * Z) * (Z * Z))) (k : nat) : R -> R := quadratic (nth k l (z0, z0, z0)).
Definition phase (c : (Z * Z) * (Z * Z)) (t : R) : R := decimal (fst c) + t * decimal (snd c).

(** Perturbations: secular ones of the longitude, then 15 short-period terms in
    longitude and distance. *)
Definition secular (t : R) : R :=
  1.28960e-6 * sin (0.5550147 + t * 2.076942) + 3.10281e-5 * sin (4.035027 + t * 0.3525565) +
  (9.124190e-6 + t * -7.757020e-8) * sin (0.9990265 + t * 2.622706) + 9.793240e-7 * sin (5.508259 + t * 15.59103).
Fixpoint short_terms (l : list (((Z * Z) * (Z * Z)) * ((Z * Z) * (Z * Z) * (Z * Z) * (Z * Z) * (Z * Z)))) (t : R) : R * R :=
  match l with
  | nil => (0, 0)
  | (c, (lc, ls, rc, rs, _)) :: l =>
      (decimal lc * cos (phase c t) + decimal ls * sin (phase c t) + fst (short_terms l t),
       decimal rc * cos (phase c t) + decimal rs * sin (phase c t) + snd (short_terms l t))
  end.

(** Longitude and distance of the Earth-Moon barycentre. *)
Definition emb_centre (t : R) : R :=
  let e := element_of ccsel 0 t in let g := element_of dcfel 1 t in
  2 * e * ((1 - e ^ 2 * 0.125) * sin g + e * 0.625 * sin (2 * g) + e ^ 2 * 0.54166667 * sin (3 * g)).
Definition emb_longitude (t : R) : R :=
  element_of dcfel 0 t + emb_centre t + (secular t + fst (short_terms (combine dcargs ccamps) t)).
Definition emb_distance (t : R) : R :=
  let e := element_of ccsel 0 t in
  (1 - e ^ 2) / (1 + e * cos (element_of dcfel 1 t + emb_centre t)) * (1 + snd (short_terms (combine dcargs ccamps) t)).

(** The Earth's offset from it, opposite to the Moon. *)
Definition lunar (k : nat) (t : R) : R := phase (nth k dcargm (z0, z0)) t.
Definition offset_longitude (t : R) : R :=
  element_of dcfel 2 t + (0.1097594 * sin (lunar 0 t) + -0.02223581 * sin (lunar 1 t) + 0.01148966 * sin (lunar 2 t)).
Definition offset_latitude (t : R) : R := 0.08978749 * sin (element_of dcfel 3 t).
Definition offset_size (t : R) : R :=
  3.122140e-5 / (1 + (0.05450474 * cos (lunar 0 t) + 0.01002548 * cos (lunar 1 t) + 0.008249439 * cos (lunar 2 t))).
Definition polar (r l b : R) : RV := V3 (r * cos b * cos l) (r * cos b * sin l) (r * sin b).
Definition earth_from_sun (t : R) : RV :=
  vsub (polar (emb_distance t) (emb_longitude t) 0) (polar (offset_size t) (offset_longitude t) (offset_latitude t)).

(** The Sun's offset from the barycentre: Jupiter, Saturn, Uranus, Neptune. *)
Definition planet (k : nat) (t : R) : RV :=
  let l := element_of dcfel (k + 4) t in let w := element_of ccsel (k + 1) t in let o := element_of ccsel (k + 5) t in
  let e := element_of ccsel (k + 9) t in let i := element_of ccsel (k + 13) t in
  scale (decimal (nth k ccpam z0)) (polar (1 - e * cos (l - w)) (l + 2 * e * sin (l - w)) (i * sin (l - o))).
Definition earth_from_barycentre (t : R) : RV :=
  vsub (vsub (vsub (vsub (scale 0.99999696 (earth_from_sun t)) (planet 0 t)) (planet 1 t)) (planet 2 t)) (planet 3 t).

(** In the equatorial axes of date, as functions of the date. *)
Definition heliocentric_path (date : R) : RV := equatorial date (earth_from_sun (centuries1900 date)).
Definition barycentric_path (date : R) : RV := equatorial date (earth_from_barycentre (centuries1900 date)).
