(** Vocabulary of the rounding-error properties. *)
From Coq Require Import ZArith Reals.
From Flocq Require Import Core BinarySingleNaN.
From Verif Require Import Num NumB NumR M_Vec S_Geom S_Binary.
Open Scope R_scope.

(** Unit roundoff of double and of float. *)
Definition u64 : R := / 2 ^ 53.
Definition u32 : R := / 2 ^ 24.

(** The array of doubles (floats) [x] is finite and stands for the vector or
    matrix [a]. *)
Definition vec64 (x : vec double) (a : RV) : Prop := value64 (v0 x) (v0 a) /\ value64 (v1 x) (v1 a) /\ value64 (v2 x) (v2 a).
Definition vec32 (x : vec single) (a : RV) : Prop := value32 (v0 x) (v0 a) /\ value32 (v1 x) (v1 a) /\ value32 (v2 x) (v2 a).
Definition mat64 (x : mat double) (a : RM) : Prop := vec64 (r0 x) (r0 a) /\ vec64 (r1 x) (r1 a) /\ vec64 (r2 x) (r2 a).
Definition mat32 (x : mat single) (a : RM) : Prop := vec32 (r0 x) (r0 a) /\ vec32 (r1 x) (r1 a) /\ vec32 (r2 x) (r2 a).

(** No component exceeds [b] in size. *)
Definition within (b : R) (a : RV) : Prop := Rabs (v0 a) <= b /\ Rabs (v1 a) <= b /\ Rabs (v2 a) <= b.
Definition mwithin (b : R) (a : RM) : Prop := within b (r0 a) /\ within b (r1 a) /\ within b (r2 a).

(** Componentwise absolute values. *)
Definition vabs (a : RV) : RV := V3 (Rabs (v0 a)) (Rabs (v1 a)) (Rabs (v2 a)).

Definition mabs (a : RM) : RM := M3 (vabs (r0 a)) (vabs (r1 a)) (vabs (r2 a)).

(** The vector product with every product taken positive. *)
Definition cross_abs (a b : RV) : RV :=
  V3 (Rabs (v1 a) * Rabs (v2 b) + Rabs (v2 a) * Rabs (v1 b)) (Rabs (v2 a) * Rabs (v0 b) + Rabs (v0 a) * Rabs (v2 b))
     (Rabs (v0 a) * Rabs (v1 b) + Rabs (v1 a) * Rabs (v0 b)).

(** [r] is within [k e + t] of [a], component by component. *)
Definition vbound (k t : R) (r a e : RV) : Prop :=
  Rabs (v0 r - v0 a) <= k * v0 e + t /\ Rabs (v1 r - v1 a) <= k * v1 e + t /\ Rabs (v2 r - v2 a) <= k * v2 e + t.
Definition mbound (k t : R) (r a e : RM) : Prop :=
  vbound k t (r0 r) (r0 a) (r0 e) /\ vbound k t (r1 r) (r1 a) (r1 e) /\ vbound k t (r2 r) (r2 a) (r2 e).

(** Difference of matrices. *)
Definition msub (a b : RM) : RM := M3 (vsub (r0 a) (r0 b)) (vsub (r1 a) (r1 b)) (vsub (r2 a) (r2 b)).

(** [libm_ok lm k]: sin and cos of every finite double are within [k] of the
    exact value and not above 1 in size; atan2 of two finite doubles, not both
    zero, is within [2 k] of the angle, where the angle of a negative zero over
    a negative number may be taken as minus pi. *)
Definition libm_ok (lm : libm 53 1024) (k : R) : Prop :=
  (forall x a, value64 x a -> exists s, value64 (m_sin _ _ lm x) s /\ Rabs s <= 1 /\ Rabs (s - sin a) <= k) /\
  (forall x a, value64 x a -> exists c, value64 (m_cos _ _ lm x) c /\ Rabs c <= 1 /\ Rabs (c - cos a) <= k) /\
  (forall y x b a, value64 y b -> value64 x a -> (b <> 0 \/ a <> 0) ->
     exists t, value64 (m_atan2 _ _ lm y x) t /\
       (Rabs (t - Ratan2 b a) <= 2 * k \/ (b = 0 /\ a < 0 /\ Bsign y = true /\ Rabs (t + PI) <= 2 * k))).

(** Frobenius norm. *)
Definition fnorm (a : RM) : R := sqrt (dot (r0 a) (r0 a) + dot (r1 a) (r1 a) + dot (r2 a) (r2 a)).
