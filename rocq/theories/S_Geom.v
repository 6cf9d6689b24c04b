(** Independent specification of vectors, rotations and directions in R^3. *)
From Coq Require Import Reals.
From Verif Require Import Num.
Open Scope R_scope.

Notation RV := (vec R).
Notation RM := (mat R).

Definition dot (a b : RV) : R := v0 a * v0 b + v1 a * v1 b + v2 a * v2 b.
Definition cross (a b : RV) : RV :=
  V3 (v1 a * v2 b - v2 a * v1 b) (v2 a * v0 b - v0 a * v2 b) (v0 a * v1 b - v1 a * v0 b).
Definition scale (k : R) (a : RV) : RV := V3 (k * v0 a) (k * v1 a) (k * v2 a).
Definition vadd (a b : RV) : RV := V3 (v0 a + v0 b) (v1 a + v1 b) (v2 a + v2 b).
Definition vsub (a b : RV) : RV := V3 (v0 a - v0 b) (v1 a - v1 b) (v2 a - v2 b).
Definition norm (a : RV) : R := sqrt (dot a a).
Definition vzero : RV := V3 0 0 0.

Definition col (m : RM) (j : nat) : RV :=
  match j with
  | O => V3 (v0 (r0 m)) (v0 (r1 m)) (v0 (r2 m))
  | S O => V3 (v1 (r0 m)) (v1 (r1 m)) (v1 (r2 m))
  | _ => V3 (v2 (r0 m)) (v2 (r1 m)) (v2 (r2 m))
  end.
Definition transpose (m : RM) : RM := M3 (col m 0) (col m 1) (col m 2).
Definition mapply (m : RM) (v : RV) : RV := V3 (dot (r0 m) v) (dot (r1 m) v) (dot (r2 m) v).
Definition mmul (a b : RM) : RM :=
  M3 (V3 (dot (r0 a) (col b 0)) (dot (r0 a) (col b 1)) (dot (r0 a) (col b 2)))
     (V3 (dot (r1 a) (col b 0)) (dot (r1 a) (col b 1)) (dot (r1 a) (col b 2)))
     (V3 (dot (r2 a) (col b 0)) (dot (r2 a) (col b 1)) (dot (r2 a) (col b 2))).
Definition mident : RM := M3 (V3 1 0 0) (V3 0 1 0) (V3 0 0 1).
Definition det (m : RM) : R := dot (r0 m) (cross (r1 m) (r2 m)).
Definition trace (m : RM) : R := v0 (r0 m) + v1 (r1 m) + v2 (r2 m).

(** Proper rotation: inverse is the transpose, and orientation-preserving. *)
Definition rotation (m : RM) : Prop :=
  mmul m (transpose m) = mident /\ mmul (transpose m) m = mident /\ det m = 1.

(** Unit vector of longitude [a], latitude [b]. *)
Definition direction (a b : R) : RV := V3 (cos a * cos b) (sin a * cos b) (sin b).

(** Rotation of the reference frame about an axis by an angle (right-handed:
    a vector fixed in space acquires the opposite rotation of coordinates). *)
Definition frame_x (t : R) : RM := M3 (V3 1 0 0) (V3 0 (cos t) (sin t)) (V3 0 (- sin t) (cos t)).
Definition frame_y (t : R) : RM := M3 (V3 (cos t) 0 (- sin t)) (V3 0 1 0) (V3 (sin t) 0 (cos t)).
Definition frame_z (t : R) : RM := M3 (V3 (cos t) (sin t) 0) (V3 (- sin t) (cos t) 0) (V3 0 0 1).

(** Coordinates of [u] after the frame has turned by [t] about unit axis [n]
    (Rodrigues' formula). *)
Definition turned (n : RV) (t : R) (u : RV) : RV :=
  vadd (vadd (scale (cos t) u) (scale ((1 - cos t) * dot n u) n)) (scale (- sin t) (cross n u)).

(** Elementary frame rotation named by a letter or digit. *)
From Coq Require Import Ascii String List.
Definition elementary (c : ascii) : option (R -> RM) :=
  match c with
  | "x" | "X" | "1" => Some frame_x
  | "y" | "Y" | "2" => Some frame_y
  | "z" | "Z" | "3" => Some frame_z
  | _ => None
  end%char.

(** [euler order angles m]: [m] says that the frame is turned successively
    about the axes named by [order], each by the corresponding angle, until
    either runs out or a character names no axis. *)
Inductive euler : string -> list R -> RM -> Prop :=
| euler_no_order angles : euler EmptyString angles mident
| euler_no_angle order : euler order nil mident
| euler_unknown c order angles : elementary c = None -> euler (String c order) angles mident
| euler_turn c order f t angles m : elementary c = Some f -> euler order angles m ->
    euler (String c order) (t :: angles) (mmul m (f t)).
