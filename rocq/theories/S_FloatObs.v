(** Specification vocabulary for an observer's position in binary64. *)
From Coq Require Import Reals.
From Verif Require Import Num S_Geom S_Frame S_Site.
Open Scope R_scope.

(** [P], in metres, is where an observer of geodetic latitude [lat] and height
    [h] metres stands when the local sidereal time is [lst]: the foot of their
    vertical on the reference spheroid, raised by [h] along the vertical and
    carried round the axis by the sidereal time. *)
Definition observer_at (lat h lst : R) (P : RV) : Prop :=
  exists rho z, spheroid_point lat rho z /\ P = mapply (frame_z (- lst)) (V3 (rho + h * cos lat) 0 (z + h * sin lat)).
(** The observer's velocity, metres per second: they turn about the axis at the
    sidereal rate. *)
Definition carried_round (P : RV) : RV := scale sidereal_rate (cross (V3 0 0 1) P).
