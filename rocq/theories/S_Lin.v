(** Specification vocabulary for linear algebra over the reals: vectors and
    matrices are functions of their indices, sizes are explicit. *)
From Coq Require Import Reals Arith List.
Open Scope R_scope.

(** f 0 + ... + f (n-1). *)
Fixpoint sum (n : nat) (f : nat -> R) : R :=
  match n with O => 0 | S n => sum n f + f n end.

(** Kronecker's delta. *)
Definition delta (i j : nat) : R := if Nat.eqb i j then 1 else 0.

(** Matrix times vector, and matrix times matrix; [n] is the common size. *)
Definition mulv (n : nat) (A : nat -> nat -> R) (x : nat -> R) (i : nat) : R :=
  sum n (fun j => A i j * x j).
Definition mulm (n : nat) (A B : nat -> nat -> R) (i j : nat) : R :=
  sum n (fun k => A i k * B k j).
Definition transp (A : nat -> nat -> R) (i j : nat) : R := A j i.

(** [B] is the two-sided inverse of the n x n matrix [A]. *)
Definition inverse (n : nat) (A B : nat -> nat -> R) : Prop :=
  forall i j, (i < n)%nat -> (j < n)%nat ->
    mulm n A B i j = delta i j /\ mulm n B A i j = delta i j.

(** The determinant, by expansion along the first column. *)
Definition minor (i : nat) (A : nat -> nat -> R) : nat -> nat -> R :=
  fun r c => A (if Nat.ltb r i then r else S r) (S c).
Fixpoint det (n : nat) (A : nat -> nat -> R) : R :=
  match n with
  | O => 1
  | S m => sum (S m) (fun i => (-1) ^ i * A i O * det m (minor i A))
  end.

(** The square submatrix that the listed rows cut out of the leading columns. *)
Definition rows_of (rows : list nat) (A : nat -> nat -> R) : nat -> nat -> R :=
  fun i j => A (nth i rows O) j.
Definition lead (rows : list nat) (A : nat -> nat -> R) : R := det (length rows) (rows_of rows A).

(** Squared length of a vector of [n] components. *)
Definition norm2 (n : nat) (x : nat -> R) : R := sum n (fun i => x i * x i).

(** Sum of the squared residuals of [A x = b], [m] equations in [n] unknowns. *)
Definition residual2 (m n : nat) (A : nat -> nat -> R) (b x : nat -> R) : R :=
  norm2 m (fun i => mulv n A x i - b i).

(** [V] (n x n) is orthogonal. *)
Definition orthogonal (n : nat) (V : nat -> nat -> R) : Prop := inverse n V (transp V).

(** [A] (m x n) is the product U W V^T; [V] is orthogonal; the columns of [U]
    that belong to nonzero singular values are orthonormal. *)
Definition factorises (m n : nat) (A U : nat -> nat -> R) (w : nat -> R) (V : nat -> nat -> R) : Prop :=
  (forall i j, (i < m)%nat -> (j < n)%nat -> A i j = sum n (fun k => U i k * w k * V j k)) /\
  (forall j k, (j < n)%nat -> (k < n)%nat -> w j <> 0 -> w k <> 0 ->
     sum m (fun i => U i j * U i k) = delta j k) /\
  orthogonal n V.

(** [z] has no component along the column [k] of [V]. *)
Definition without (n : nat) (V : nat -> nat -> R) (k : nat) (z : nat -> R) : Prop :=
  sum n (fun i => V i k * z i) = 0.

(** Rows chosen one after another, each so as to make the leading determinant
    as large as it can be made by one more row. *)
Inductive greedy (n : nat) (A : nat -> nat -> R) : list nat -> Prop :=
| greedy_nil : greedy n A nil
| greedy_snoc rows r : greedy n A rows -> (r < n)%nat -> ~ In r rows ->
    (forall r', (r' < n)%nat -> ~ In r' rows ->
       Rabs (lead (rows ++ r' :: nil) A) <= Rabs (lead (rows ++ r :: nil) A)) ->
    greedy n A (rows ++ r :: nil).

(** Column by column, the best row still to be chosen either leaves a pivot (a
    ratio of successive leading determinants) below [tiny], or a leading
    determinant below [tiny]. *)
Definition nearly_singular (n : nat) (A : nat -> nat -> R) (tiny : R) : Prop :=
  exists rows, greedy n A rows /\ (length rows < n)%nat /\ lead rows A <> 0 /\
    ((forall r, (r < n)%nat -> ~ In r rows -> Rabs (lead (rows ++ r :: nil) A) < tiny * Rabs (lead rows A)) \/
     (forall r, (r < n)%nat -> ~ In r rows -> Rabs (lead (rows ++ r :: nil) A) < tiny)).
