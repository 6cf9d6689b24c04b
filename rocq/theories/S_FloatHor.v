(** Specification vocabulary for horizon coordinates and bearings in binary64. *)
From Coq Require Import ZArith Reals.
From Verif Require Import Num NumB M_Vec S_Geom S_Sphere S_Frame S_Binary S_Float S_FloatSph.
Open Scope R_scope.

(** The components of a direction towards the north point, the east point and
    the zenith of an observer at latitude [phi]. *)
Definition horizon_parts (phi : R) (v : RV) : RV := V3 (dot v (north_point phi)) (dot v east_point) (dot v (zenith phi)).
(** As [lands], with a longitude between minus and plus half a turn. *)
Definition lands_pm {lm} (k : R) (s : sph (B64 lm)) (w : RV) (e : R) : Prop :=
  exists p q, angles64 s p q /\ Rabs p <= PI + 2 * k /\ Rabs q <= PI / 2 + 2 * k /\ vdist (direction p q) w <= e.
(** The double [x] is a bearing of [v] seen from longitude [a], latitude [b]:
    going from there in that direction by the distance of [v] from the line of
    sight misses [v] by at most [e]. *)
Definition bears (k : R) (x : double) (a b : R) (v : RV) (e : R) : Prop :=
  exists t, value64 x t /\ Rabs t <= PI + 2 * k /\
    let n := dot v (north a b) in let w := dot v (east a) in let s := sqrt (n * n + w * w) in
    vdist (V3 (s * cos t) (s * sin t) 0) (V3 n w 0) <= e.
