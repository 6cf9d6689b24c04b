(** Specification vocabulary for the singular value decomposition, and the
    arithmetic its positive theorems are stated in: the reals, with a test for
    equality that lets a small relative difference pass. *)
From Coq Require Import ZArith Reals Arith.
From Verif Require Import Num NumR S_Lin.
Open Scope R_scope.

(** The reals with the test [eq] in place of the exact [==]. *)
Definition RWith (eq : R -> R -> bool) : Num := MkNum R Rdec PI (2 * PI) IZR
  Ropp Rabs sqrt sin cos tan asin acos atan exp ln Rtrunc Rround
  Rplus Rminus Rmult Rdiv Ratan2 Rfmod Rpow Rltb Rleb eq RtoZ.

(** x and y differ by no more than eps |y|.  [an + x == an] is then
    [|x| <= eps |an|], and [x == 0] is still x = 0. *)
Definition near (eps x y : R) : bool := Rleb (Rabs (x - y)) (eps * Rabs y).
Definition RTol (eps : R) : Num := RWith (near eps).

(** The first [n] columns of [U], of [m] components each, are orthonormal. *)
Definition orthonormal (m n : nat) (U : nat -> nat -> R) : Prop :=
  forall j k, (j < n)%nat -> (k < n)%nat -> sum m (fun i => U i j * U i k) = delta j k.

(** Entry (r, c) of U diag(w) V^T. *)
Definition usv (n : nat) (U : nat -> nat -> R) (w : nat -> R) (V : nat -> nat -> R) (r c : nat) : R :=
  sum n (fun k => U r k * w k * V c k).

(** The Frobenius norm of the m x n matrix [A]. *)
Definition frob (m n : nat) (A : nat -> nat -> R) : R := sqrt (sum m (fun r => sum n (fun c => A r c * A r c))).

(** The columns of [A] are linearly independent. *)
Definition independent (m n : nat) (A : nat -> nat -> R) : Prop :=
  forall x, (forall r, (r < m)%nat -> mulv n A x r = 0) -> forall c, (c < n)%nat -> x c = 0.

(** No direction is shortened by [A] to less than d times its length: d is
    below the smallest singular value of [A]. *)
Definition stretches (m n : nat) (A : nat -> nat -> R) (d : R) : Prop :=
  forall y, (exists c, (c < n)%nat /\ y c <> 0) -> d ^ 2 * norm2 n y < norm2 m (mulv n A y).
