(** Independent specification of angles between directions, bearings, the
    horizon system and the gnomonic projection, in terms of unit vectors. *)
From Coq Require Import Reals ZArith.
From Verif Require Import Num S_Geom.
Open Scope R_scope.

(** [t] is the angle between the non-null vectors [a] and [b]. *)
Definition angle_between (a b : RV) (t : R) : Prop :=
  0 <= t <= PI /\ dot a b = norm a * norm b * cos t.

(** Two angles equal up to whole turns. *)
Definition congruent (a b : R) : Prop := exists k : Z, a = b + IZR k * (2 * PI).

(** Local frame at longitude [a], latitude [b]: the outward direction, and the
    unit vectors of increasing longitude (east) and latitude (north). *)
Definition east (a : R) : RV := V3 (- sin a) (cos a) 0.
Definition north (a b : R) : RV := V3 (- (cos a * sin b)) (- (sin a * sin b)) (cos b).

(** [t] is the bearing (north through east) of the vector [v] seen from the
    place of longitude [a] and latitude [b]; the convention for a [v] that has
    no bearing there (parallel or antiparallel to the outward direction) is 0. *)
Definition bearing_of (a b : R) (v : RV) (t : R) : Prop :=
  - PI < t <= PI /\
  (exists k, 0 < k /\ dot v (north a b) = k * cos t /\ dot v (east a) = k * sin t) \/
  dot v (north a b) = 0 /\ dot v (east a) = 0 /\ t = 0.

(** Horizon frame of an observer at latitude [phi], in the hour-angle /
    declination frame (x to the south point of the equator, y to the west,
    z to the pole). *)
Definition zenith (phi : R) : RV := direction 0 phi.
Definition north_point (phi : R) : RV := V3 (- sin phi) 0 (cos phi).
Definition east_point : RV := V3 0 (- 1) 0.

(** [az], [el] are azimuth (north through east) and elevation of the direction
    [v] for the observer at latitude [phi]. *)
Definition horizon (phi : R) (v : RV) (az el : R) : Prop :=
  0 <= az < 2 * PI /\ - (PI / 2) <= el <= PI / 2 /\
  dot v (north_point phi) = cos az * cos el /\
  dot v east_point = sin az * cos el /\
  dot v (zenith phi) = sin el.

(** Gnomonic projection: the vector [v] meets the plane touching the sphere at
    (a0, d0) in the point with standard coordinates (xi, eta). *)
Definition projects (a0 d0 : R) (v : RV) (xi eta : R) : Prop :=
  0 < dot v (direction a0 d0) /\
  dot v (east a0) = xi * dot v (direction a0 d0) /\
  dot v (north a0 d0) = eta * dot v (direction a0 d0).

(** The angle [g], followed continuously through whole turns near [t], changes
    at rate [d] there. *)
Definition angle_rate (g : R -> R) (t d : R) : Prop :=
  exists f, derivable_pt_lim f t d /\ f t = g t /\
    exists delta, 0 < delta /\ forall u, Rabs (u - t) < delta -> congruent (f u) (g u).

(** The vector [v] lies in the half-plane through the vertical whose azimuth
    is [az], for the observer at latitude [phi]; strictly so when it is not on
    the vertical itself. *)
Definition on_azimuth (phi : R) (v : RV) (az : R) : Prop :=
  exists k, 0 <= k /\ dot v (north_point phi) = k * cos az /\ dot v east_point = k * sin az.
Definition strictly_on_azimuth (phi : R) (v : RV) (az : R) : Prop :=
  exists k, 0 < k /\ dot v (north_point phi) = k * cos az /\ dot v east_point = k * sin az.

(** Likewise for the bearing [t] of [v] seen from longitude [a], latitude [b]. *)
Definition on_bearing (a b : R) (v : RV) (t : R) : Prop :=
  exists k, 0 <= k /\ dot v (north a b) = k * cos t /\ dot v (east a) = k * sin t.
Definition strictly_on_bearing (a b : R) (v : RV) (t : R) : Prop :=
  exists k, 0 < k /\ dot v (north a b) = k * cos t /\ dot v (east a) = k * sin t.

(** [x] and [y] differ by at most [eps], up to whole turns. *)
Definition near_angle (eps x y : R) : Prop := exists z, congruent x z /\ Rabs (y - z) <= eps.

(** [x] is at least 1e-12 away from both [c] and [-c]. *)
Definition away (x c : R) : Prop := 1 / 10 ^ 12 <= Rabs (Rabs x - c).

(** Two outputs, each a value (if written) and a validity flag: [h] is one of
    the values flagged valid. *)
Definition flagged (o : (option R * bool) * (option R * bool)) (h : R) : Prop :=
  fst o = (Some h, true) \/ snd o = (Some h, true).
