(** Properties C16, C17, C19: simultaneous equations, inverse and determinant;
    singularity; least squares and covariance from a singular value
    decomposition.  Exact arithmetic.  Specifications in S_Lin.v; proofs in
    L_Sum.v, L_Dmat.v, L_Lin.v, L_Lsq.v. *)
From Coq Require Import Reals Arith Lra Lia List.
From Verif Require Import Num NumR M_Lin S_Lin L_Sum L_Dmat L_Lin L_Lsq.
Import ListNotations.
Open Scope R_scope.

(** C16.  [dmat n A b ws] is (failure flag, matrix, vector, determinant) on
    return, for any contents of the workspace [ws]. *)
Theorem C16_dmat : forall n A b ws B x d, dmat (N := RNum) n A b ws = (false, B, x, d) ->
  inverse n A B /\ (forall i, (i < n)%nat -> mulv n A x i = b i) /\ d = det n A.
Proof. intros n A b ws B x d H. destruct (dmat_correct _ _ _ _ _ _ _ H) as [H1 [H2 [H3 _]]]. auto. Qed.
Print Assumptions C16_dmat.

Theorem C16_unique : forall n A b ws B x d z, dmat (N := RNum) n A b ws = (false, B, x, d) ->
  (forall i, (i < n)%nat -> mulv n A z i = b i) -> forall i, (i < n)%nat -> z i = x i.
Proof. exact dmat_unique. Qed.
Print Assumptions C16_unique.

Example C16_example : let A := fun i j => nth j (nth i [[0; 2]; [3; 4]] []) 0 in
  (forall b ws, exists B x d, dmat (N := RNum) 2 A b ws = (false, B, x, d)) /\ det 2 A = - (6).
Proof.
  cbv zeta. split.
  - intros b ws. apply dmat_ok, example2_ok.
  - cbn. ring.
Qed.

(** [det] is the determinant: 1 for the unit matrix, linear in each row, 0 when
    two rows are equal. *)
Theorem C16_determinant : forall n,
  det n delta = 1 /\
  (forall A r x y a b, (r < n)%nat ->
     let with_row z := fun i j => if Nat.eqb i r then z j else A i j in
     det n (with_row (fun j => a * x j + b * y j)) = a * det n (with_row x) + b * det n (with_row y)) /\
  (forall A p q, (p < n)%nat -> (q < n)%nat -> p <> q -> (forall j, A p j = A q j) -> det n A = 0).
Proof.
  intros n. split; [ apply det_id | split ].
  - intros A r x y a b Hr. exact (det_row_linear n A r x y a b Hr).
  - exact (det_equal_rows n).
Qed.
Print Assumptions C16_determinant.

(** The outcome and the determinant depend on the matrix only, in any
    arithmetic. *)
Theorem C16_matrix_only : forall (N : Num) n (A : mx N) b b' ws ws',
  let '(f, _, _, d) := dmat n A b ws in let '(f', _, _, d') := dmat n A b' ws' in f = f' /\ d = d'.
Proof.
  intros N n A b b' ws ws'. pose proof (dmat_flag n A b b' ws ws') as H.
  destruct (dmat n A b ws) as [[[f B] x] d], (dmat n A b' ws') as [[[f' B'] x'] d']. exact H.
Qed.
Print Assumptions C16_matrix_only.

(** C17.  A matrix without an inverse, or that sends a nonzero vector to zero,
    or whose determinant is below 1e-20, is reported, with determinant 0. *)
Theorem C17_no_inverse : forall n A b ws, (forall B, ~ inverse n A B) ->
  exists B x, dmat (N := RNum) n A b ws = (true, B, x, 0).
Proof. exact dmat_no_inverse. Qed.
Print Assumptions C17_no_inverse.

Theorem C17_kernel : forall n A b ws z i, (i < n)%nat -> z i <> 0 ->
  (forall i, (i < n)%nat -> mulv n A z i = 0) ->
  exists B x, dmat (N := RNum) n A b ws = (true, B, x, 0).
Proof. exact dmat_kernel. Qed.
Print Assumptions C17_kernel.

Theorem C17_small_determinant : forall n A b ws, n <> O -> Rabs (det n A) < / 10 ^ 20 ->
  exists B x, dmat (N := RNum) n A b ws = (true, B, x, 0).
Proof. exact dmat_small_det. Qed.
Print Assumptions C17_small_determinant.

Example C17_example : let A := fun i j => nth j (nth i [[1; 2]; [2; 4]] []) 0 in let z := fun i => nth i [2; -1] 0 in
  z O <> 0 /\ (forall i, (i < 2)%nat -> mulv 2 A z i = 0) /\ Rabs (det 2 A) < / 10 ^ 20.
Proof.
  cbv zeta. split; [ cbn; lra | split ].
  - intros [ | [ | ? ]] Hi; [ unfold mulv; cbn; ring | unfold mulv; cbn; ring | lia ].
  - replace (det 2 _) with 0 by (cbn; ring). rewrite Rabs_R0. apply Rinv_0_lt_compat, pow_lt. lra.
Qed.

(** The converse: what is reported has, under row pivoting, a pivot or a
    leading determinant below 1e-20, and the determinant returned is 0. *)
Theorem C17_reported : forall n A b ws B x d, dmat (N := RNum) n A b ws = (true, B, x, d) ->
  nearly_singular n A (/ 10 ^ 20) /\ d = 0.
Proof. intros n A b ws B x d. rewrite <- eps_val. exact (dmat_reported n A b ws B x d). Qed.
Print Assumptions C17_reported.

(** "Singular" is therefore an absolute, not a relative, criterion: a matrix
    with a perfectly good inverse is reported when its entries are small. *)
Theorem C17_only_singular_refuted : exists n A B, inverse n A B /\
  forall b ws, exists B' x, dmat (N := RNum) n A b ws = (true, B', x, 0).
Proof.
  exists 1%nat, (fun _ _ => / 10 ^ 21), (fun _ _ => 10 ^ 21). split.
  - intros [ | ? ] [ | ? ] Hi Hj; try lia. unfold mulm, delta. cbn [sum Nat.eqb].
    assert (10 ^ 21 <> 0) by (apply pow_nonzero; lra). split; field; assumption.
  - intros b ws. apply dmat_small_det; [ discriminate | ].
    replace (det 1 _) with (/ 10 ^ 21) by (cbn [det sum]; ring).
    rewrite Rabs_pos_eq by (left; apply Rinv_0_lt_compat, pow_lt; lra).
    apply Rinv_lt_contravar; [ apply Rmult_lt_0_compat; apply pow_lt; lra | ].
    apply Rlt_pow; [ lra | lia ].
Qed.
Print Assumptions C17_only_singular_refuted.

(** C19.  [w'] is the list of singular values as edited by the caller, some of
    them set to zero: the solution returned makes the sum of the squared
    residuals as small as any vector that has no component along the discarded
    columns of V.  Nothing depends on the arrays' previous contents. *)
Theorem C19_least_squares : forall m n A U w V b, factorises m n A U w V ->
  forall w' ws0 x0 z,
  (forall k, (k < n)%nat -> w' k = w k \/ w' k = 0) ->
  (forall k, (k < n)%nat -> w' k = 0 -> w k = 0 \/ without n V k z) ->
  residual2 m n A b (svdsol (N := RNum) m n b U w' V ws0 x0) <= residual2 m n A b z.
Proof. exact svdsol_best. Qed.
Print Assumptions C19_least_squares.

(** The solution itself has no component along the discarded columns. *)
Theorem C19_discarded : forall m n A U w V b, factorises m n A U w V ->
  forall w' ws0 x0 k, (k < n)%nat -> w' k = 0 -> without n V k (svdsol (N := RNum) m n b U w' V ws0 x0).
Proof. exact svdsol_without. Qed.
Print Assumptions C19_discarded.

(** Among the solutions that are as good, it is the shortest. *)
Theorem C19_shortest : forall m n A U w V b, factorises m n A U w V -> forall ws0 x0 z,
  residual2 m n A b z <= residual2 m n A b (svdsol (N := RNum) m n b U w V ws0 x0) ->
  norm2 n (svdsol (N := RNum) m n b U w V ws0 x0) <= norm2 n z.
Proof. exact svdsol_shortest. Qed.
Print Assumptions C19_shortest.

(** The covariance: what unit, uncorrelated errors of the right-hand side
    propagate to in the solution (the response to an error in equation r is the
    solution for the r-th unit vector); symmetric, positive semidefinite. *)
Theorem C19_covariance : forall m n A U w V, factorises m n A U w V ->
  forall ws0 c0 ws1 x1 i j, (i < n)%nat -> (j < n)%nat ->
  let response r := svdsol (N := RNum) m n (delta r) U w V ws1 x1 in
  svdcov (N := RNum) n w V ws0 c0 i j = sum m (fun r => response r i * response r j).
Proof. intros m n A U w V F ws0 c0 ws1 x1 i j Hi Hj. exact (svdcov_propagates m n A U w V ws0 c0 ws1 x1 i j F Hi Hj). Qed.
Print Assumptions C19_covariance.

Theorem C19_covariance_form : forall n w V ws0 c0,
  (forall i j, (i < n)%nat -> (j < n)%nat ->
     svdcov (N := RNum) n w V ws0 c0 i j = svdcov (N := RNum) n w V ws0 c0 j i) /\
  (forall z, 0 <= sum n (fun i => sum n (fun j => z i * svdcov (N := RNum) n w V ws0 c0 i j * z j))).
Proof. intros n w V ws0 c0. split; [ intros; now apply svdcov_sym | intros; apply svdcov_psd ]. Qed.
Print Assumptions C19_covariance_form.

(** With no zero among the singular values it is the inverse of the normal
    matrix. *)
Theorem C19_normal : forall m n A U w V ws0 c0, factorises m n A U w V ->
  (forall k, (k < n)%nat -> w k <> 0) ->
  inverse n (fun i j => sum m (fun r => A r i * A r j)) (svdcov (N := RNum) n w V ws0 c0).
Proof. exact svdcov_normal. Qed.
Print Assumptions C19_normal.

(** A 2 x 2 matrix of rank one, and a 2 x 1 one. *)
Example C19_example :
  let of l := fun i j => nth j (nth i l []) 0 in
  factorises 2 2 (of [[3; 0]; [4; 0]]) (of [[3/5; 0]; [4/5; 0]]) (fun k => nth k [5; 0] 0) (of [[1; 0]; [0; 1]]) /\
  factorises 2 1 (of [[3]; [4]]) (of [[3/5]; [4/5]]) (fun _ => 5) (of [[1]]).
Proof.
  cbv zeta.
  split; (split; [ | split ]);
    repeat match goal with
    | |- forall i : nat, _ => intros [ | [ | ? ]]
    | |- orthogonal _ _ => unfold orthogonal, inverse, mulm, transp, delta
    end; intros; try lia; cbn [nth sum Nat.eqb delta] in *; try split; unfold delta; cbn [Nat.eqb] in *; try lra.
Qed.
