(** Independent specification of plane linear transformations, their
    decomposition, residuals, and radial distortion. *)
From Coq Require Import Reals List ZArith.
From Verif Require Import M_Plate.
Open Scope R_scope.

Definition point : Type := (R * R)%type.

(** The point map of a six-coefficient linear model. *)
Definition linear_map (m : coeffs R) (p : point) : point :=
  let '(x, y) := p in (fc_a m + fc_b m * x + fc_c m * y, fc_d m + fc_e m * x + fc_f m * y).

(** The four documented steps: shift by the zero points, scale, shear by the
    nonperpendicularity, rotate by the orientation. *)
Definition step_zero (xz yz : R) (p : point) : point := let '(x, y) := p in (xz + x, yz + y).
Definition step_scale (xs ys : R) (p : point) : point := let '(x, y) := p in (xs * x, ys * y).
Definition step_perp (t : R) (p : point) : point :=
  let '(x, y) := p in (cos (t / 2) * x + sin (t / 2) * y, sin (t / 2) * x + cos (t / 2) * y).
Definition step_orient (t : R) (p : point) : point :=
  let '(x, y) := p in (cos t * x + sin t * y, - sin t * x + cos t * y).

(** Mean of a function over a list (0 for the empty list). *)
Fixpoint Rsum_list (l : list R) : R := match l with nil => 0 | x :: l => x + Rsum_list l end.
Definition mean (l : list R) : R := Rsum_list l / INR (length l).
(** Root mean square. *)
Definition rms_of (l : list R) : R := sqrt (mean (map (fun x => x * x) l)).

(** Radial distortion [k]: a point at distance r from the origin moves along
    its radius by the factor 1 + k r^2. *)
Definition distort (k : R) (p : point) : point :=
  let '(x, y) := p in ((1 + k * (x ^ 2 + y ^ 2)) * x, (1 + k * (x ^ 2 + y ^ 2)) * y).
Definition distance (p q : point) : R := sqrt ((fst p - fst q) ^ 2 + (snd p - snd q) ^ 2).
