(** Properties of the singular value decomposition. *)
From Coq Require Import ZArith Reals Arith List Lia Lra Bool.
From Verif Require Import Num NumR NumB M_Lin S_Lin L_Sum L_Lin L_Lsq M_Svd S_Svd L_SvdE L_Svd L_SvdBin.
Open Scope R_scope.

(** The theorems below read the two tests "an + |x| == an" and "x == 0" of the
    program as [near eps]: x negligible beside an means |x| <= eps an.  All other
    operations are exact.  eps = 2^-53 is the test binary64 makes, eps = 0 the
    exact one ([RNum]). *)

(** Fewer rows than columns: -1, and no array is touched. *)
Theorem C18_svd_wrong_shape (N : Num) m n a w v ws : (m < n)%nat ->
  svd (N := N) m n a w v ws = Some ((-1)%Z, Qr (N := N) a w v ws false).
Proof. intros H. unfold svd. now rewrite (proj2 (Nat.ltb_lt m n) H). Qed.
Print Assumptions C18_svd_wrong_shape.

(** Whatever the matrix, and whether or not the iteration converges: svd returns,
    every division by a computed zero is avoided or harmless, the status is 0 or
    the index of an element of w, U has orthonormal columns and V is orthogonal. *)
Theorem C18_svd_orthogonal eps m n A w v ws : 0 <= eps -> (n <= m)%nat ->
  exists status q, svd (N := RTol eps) m n A w v ws = Some (Z.of_nat status, q) /\
    (status = 0 \/ status < n)%nat /\
    orthonormal m n (q_a q) /\ orthogonal n (q_v q).
Proof. exact (svd_orthogonal eps m n A w v ws). Qed.
Print Assumptions C18_svd_orthogonal.

(** Status 0: the singular values are not negative, and for a matrix of one or
    two columns, or one whose smallest singular value is not lost in the
    tolerance, U diag(w) V^T gives back every element of A. *)
Theorem C18_svd_factorises eps m n A w v ws q : 0 <= eps -> (n <= m)%nat ->
  svd (N := RTol eps) m n A w v ws = Some (0%Z, q) ->
  (forall k, (k < n)%nat -> 0 <= (q_w q k : R)) /\
  ((n <= 2)%nat \/ stretches m n A (88 * INR n * sqrt (INR m * INR n) * eps * frob m n A) ->
   forall r c, (r < m)%nat -> (c < n)%nat ->
     Rabs (A r c - usv n (q_a q) (q_w q) (q_v q) r c) <= 62 * INR n * eps * frob m n A).
Proof. exact (svd_factorises eps m n A w v ws q). Qed.
Print Assumptions C18_svd_factorises.

(** The same for any matrix in a run that never cancels more than one
    superdiagonal element at a time. *)
Theorem C18_svd_factorises_any_rank_partial eps m n A w v ws q : 0 <= eps -> (n <= m)%nat ->
  svd (N := RTol eps) m n A w v ws = Some (0%Z, q) -> q_skip q = false ->
  forall r c, (r < m)%nat -> (c < n)%nat ->
    Rabs (A r c - usv n (q_a q) (q_w q) (q_v q) r c) <= 62 * INR n * eps * frob m n A.
Proof. exact (svd_factorises_any eps m n A w v ws q). Qed.
Print Assumptions C18_svd_factorises_any_rank_partial.

(** Exact tests: a matrix with independent columns is given back exactly. *)
Theorem C18_svd_factorises_exact m n A w v ws q : (n <= m)%nat ->
  svd (N := RNum) m n A w v ws = Some (0%Z, q) -> (n <= 2)%nat \/ independent m n A ->
  factorises m n A (q_a q) (q_w q) (q_v q) /\ forall k, (k < n)%nat -> 0 <= (q_w q k : R).
Proof. exact (svd_exact m n A w v ws q). Qed.
Print Assumptions C18_svd_factorises_exact.

(** So svd followed by svdsol solves the least-squares problem. *)
Theorem C18_svd_then_svdsol m n A b w v ws q x0 : (n <= m)%nat ->
  svd (N := RNum) m n A w v ws = Some (0%Z, q) -> (n <= 2)%nat \/ independent m n A ->
  forall z, residual2 m n A b (svdsol (N := RNum) m n b (q_a q) (q_w q) (q_v q) (q_ws q) x0) <= residual2 m n A b z.
Proof. exact (svd_then_svdsol m n A b w v ws q x0). Qed.
Print Assumptions C18_svd_then_svdsol.

(** The restriction to full rank is needed.  For the matrix
    ( 0 1 0 ), ( 0 1 1 ), ( 0 0 1 ), of rank 2, svd in binary64 returns 0, and
    U diag(w) V^T differs from it by more than 0.2 in one element: svd.cc:281 forms
    f = s ws[i] but never the companion ws[i] = c ws[i]. *)
Theorem C18_svd_rank_deficient_refuted lm :
  exists q, svd (N := B64 lm) 3 3 (A3 lm) (fun _ => n_ofZ 0) (fun _ _ => n_ofZ 0) (fun _ => n_ofZ 0) = Some (0%Z, q) /\
    rd (A3 lm 0%nat 2%nat) = 0 /\
    1 / 5 <= usv 3 (fun r k => rd (q_a q r k)) (fun k => rd (q_w q k)) (fun r k => rd (q_v q r k)) 0 2.
Proof. exact (svd_A3 lm). Qed.
Print Assumptions C18_svd_rank_deficient_refuted.

(** ** The hypotheses are met: the 2 x 1 matrix (3, 4). *)
Definition A21 : nat -> nat -> R := fun r c => match r with O => 3 | _ => 4 end.
Example svd_21_status : exists q, svd (N := RTol (/ 2 ^ 53)) 2 1 A21 (fun _ => 0) (fun _ _ => 0) (fun _ => 0) = Some (0%Z, q).
Proof.
  destruct (C18_svd_orthogonal (/ 2 ^ 53) 2 1 A21 (fun _ => 0) (fun _ _ => 0) (fun _ => 0)) as (st & q & E & H & _); [ | lia | ].
  - apply Rlt_le, Rinv_0_lt_compat, pow_lt. lra.
  - exists q. rewrite E. destruct H; [ subst | replace st with O by lia ]; reflexivity.
Qed.
Example svd_21_exact : exists q, svd (N := RNum) 2 1 A21 (fun _ => 0) (fun _ _ => 0) (fun _ => 0) = Some (0%Z, q).
Proof.
  destruct (svd_orthogonal_exact 2 1 A21 (fun _ => 0) (fun _ _ => 0) (fun _ => 0)) as (st & q & E & H & _); [ lia | ].
  exists q. rewrite E. destruct H; [ subst | replace st with O by lia ]; reflexivity.
Qed.
Example svd_21_stretches : stretches 2 1 A21 4.
Proof.
  intros y (c & Hc & Hy). replace c with O in Hy by lia. unfold norm2, mulv, A21. cbn [sum].
  assert (0 < y O * y O) by nra. nra.
Qed.
Example svd_21_frob : frob 2 1 A21 = 5.
Proof. unfold frob, A21. cbn [sum]. replace (0 + (0 + 3 * 3) + (0 + 4 * 4)) with (5 * 5) by ring. apply sqrt_square. lra. Qed.
Example svd_21_recovers : exists q, svd (N := RTol (/ 2 ^ 53)) 2 1 A21 (fun _ => 0) (fun _ _ => 0) (fun _ => 0) = Some (0%Z, q) /\
  Rabs (4 - usv 1 (q_a q) (q_w q) (q_v q) 1 0) <= 310 * / 2 ^ 53.
Proof.
  destruct svd_21_status as [q E]. exists q. split; [ exact E | ].
  assert (P : 0 <= / 2 ^ 53) by (apply Rlt_le, Rinv_0_lt_compat, pow_lt; lra).
  destruct (C18_svd_factorises (/ 2 ^ 53) 2 1 A21 _ _ _ q P (Nat.le_succ_diag_r 1) E) as [_ H].
  - specialize (H ltac:(left; lia) 1%nat 0%nat ltac:(lia) ltac:(lia)). rewrite svd_21_frob in H.
    replace (310 * / 2 ^ 53) with (62 * INR 1 * / 2 ^ 53 * 5) by (cbn [INR]; ring). exact H.
Qed.
(** The identity of order 3 stays clear of the tolerance of binary64. *)
Example svd_identity_stretches :
  stretches 3 3 delta (88 * INR 3 * sqrt (INR 3 * INR 3) * / 2 ^ 53 * frob 3 3 delta).
Proof.
  assert (F : frob 3 3 delta <= 2).
  { unfold frob, delta. cbn [sum Nat.eqb]. rewrite <- (sqrt_square 2) by lra. apply sqrt_le_1_alt. lra. }
  assert (F0 : 0 <= frob 3 3 delta) by apply sqrt_pos.
  assert (I3 : INR 3 = 3) by (cbn; ring). rewrite I3, sqrt_square by lra.
  assert (P : 2 ^ 53 = 9007199254740992) by (rewrite (pow_IZR 2); reflexivity || ring). rewrite P.
  intros y (c & Hc & Hy).
  assert (E : norm2 3 (mulv 3 delta y) = norm2 3 y) by (unfold norm2, mulv, delta; cbn [sum Nat.eqb]; ring). rewrite E.
  assert (Q : 0 < norm2 3 y).
  { unfold norm2. cbn [sum]. assert (0 < y c * y c) by nra.
    destruct c as [ | [ | [ | c ] ] ]; [ | | | lia ]; assert (A0 := Rle_0_sqr (y O)); assert (A1 := Rle_0_sqr (y 1%nat)); assert (A2 := Rle_0_sqr (y 2%nat)); unfold Rsqr in *; lra. }
  assert (B : 88 * 3 * 3 * / 9007199254740992 * frob 3 3 delta <= 1 / 2) by lra.
  assert (B0 : 0 <= 88 * 3 * 3 * / 9007199254740992 * frob 3 3 delta) by lra.
  set (d := 88 * 3 * 3 * / 9007199254740992 * frob 3 3 delta) in *.
  assert (d ^ 2 <= 1 / 4) by (replace (1 / 4) with ((1 / 2) ^ 2) by field; apply pow_incr; lra). nra.
Qed.
