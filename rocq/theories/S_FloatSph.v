(** Specification vocabulary for computed directions in binary64. *)
From Coq Require Import ZArith Reals.
From Verif Require Import Num NumB M_Vec S_Geom S_Frame S_Binary S_Float.
Open Scope R_scope.

(** The pair of doubles [s] holds the angles [a] and [b]. *)
Definition angles64 {lm} (s : sph (B64 lm)) (a b : R) : Prop := value64 (s_a s) a /\ value64 (s_b s) b.
(** [s] holds finite angles in the conventional ranges (the latitude to within
    the error [2 k] of the arctangent) whose direction is within [e] of [w]. *)
Definition lands {lm} (k : R) (s : sph (B64 lm)) (w : RV) (e : R) : Prop :=
  exists p q, angles64 s p q /\ 0 <= p <= 2 * pi_double /\ Rabs q <= PI / 2 + 2 * k /\ vdist (direction p q) w <= e.
