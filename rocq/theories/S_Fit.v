(** Specification vocabulary for the plate-model fit. *)
From Coq Require Import Reals List.
From Verif Require Import M_Plate S_Plate S_Lin.
Open Scope R_scope.

(** Sum of the squared distances between the expected positions and the
    measured positions transformed by the model. *)
Definition misfit (n : nat) (expected measured : nat -> point) (m : coeffs R) : R :=
  sum n (fun i => let p := linear_map m (measured i) in
    (fst p - fst (expected i)) ^ 2 + (snd p - snd (expected i)) ^ 2).

(** Origin, scale and orientation only, without or with a reflection. *)
Definition rigid (m : coeffs R) : Prop :=
  (fc_f m = fc_b m /\ fc_e m = - fc_c m) \/ (fc_f m = - fc_b m /\ fc_e m = fc_c m).

(** The measured points lie on a line; they are all the same. *)
Definition collinear (n : nat) (p : nat -> point) : Prop :=
  exists a b c, (b <> 0 \/ c <> 0) /\ forall i, (i < n)%nat -> a + b * fst (p i) + c * snd (p i) = 0.
Definition coincident (n : nat) (p : nat -> point) : Prop :=
  forall i j, (i < n)%nat -> (j < n)%nat -> p i = p j.

(** Matrices of the normal equations for the coefficients of the two kinds of
    model, from the measured points. *)
Definition normal6 (n : nat) (p : nat -> point) (i j : nat) : R :=
  let f k q := match k with O => 1 | 1%nat => fst q | _ => snd q end in
  sum n (fun s => f i (p s) * f j (p s)).
Definition normal4 (n : nat) (p : nat -> point) (i j : nat) : R :=
  let x := sum n (fun s => fst (p s)) in let y := sum n (fun s => snd (p s)) in
  let q := sum n (fun s => fst (p s) ^ 2 + snd (p s) ^ 2) in
  nth j (nth i ((INR n :: x :: - y :: 0 :: nil) :: (x :: q :: 0 :: y :: nil) ::
                (y :: 0 :: - q :: - x :: nil) :: (0 :: y :: x :: INR n :: nil) :: nil) nil) 0.

(** The useless model that sends every point to the origin. *)
Definition null_model : coeffs R := Coeffs 0 0 0 0 0 0.
