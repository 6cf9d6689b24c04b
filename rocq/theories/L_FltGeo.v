(** Angles between nearby vectors. *)
From Coq Require Import ZArith Reals Lra Psatz.
From Flocq Require Import Core.
From Verif Require Import Num NumR M_Vec M_Sphere S_Geom S_Sphere S_Frame S_Float.
From Verif Require Import L_Real L_Vec L_Rot L_Frame L_Sphere L_FloatVec.
From Verif Require L_FrameGal.
Open Scope R_scope.

Lemma sin_cubic x : 0 <= x <= PI -> x - x * x * x / 6 <= sin x.
Proof.
  intros [A B]. destruct (sin_bound x 0 A B) as [L _]. eapply Rle_trans; [|exact L].
  unfold sin_approx, sum_f_R0, sin_term. cbn [Nat.mul Nat.add fact pow]. apply Req_le. cbn. field.
Qed.
Lemma arc_small t d : 0 <= t <= PI / 2 -> 0 <= d <= 0.01 -> sin t <= d -> t <= 1.0001 * d.
Proof.
  intros T D S. pose proof PI_4. pose proof (sin_cubic t ltac:(lra)) as C.
  assert (t * t <= 4) by nra.
  assert (t <= 0.04) by nra. nra.
Qed.
Lemma norm_cross_le a b : norm (cross a b) <= norm a * norm b.
Proof.
  pose proof (norm_nonneg a). pose proof (norm_nonneg b). assert (0 <= norm a * norm b) by nra.
  unfold norm at 1. rewrite <- (sqrt_square (norm a * norm b)) by assumption. apply sqrt_le_1_alt.
  rewrite lagrange. pose proof (norm_sq a). pose proof (norm_sq b). pose proof (Rle_0_sqr (dot a b)). unfold Rsqr in *. nra.
Qed.
Lemma cross_sub_self a b : cross a b = cross (vsub a b) b.
Proof. unfold cross, vsub. cbn [v0 v1 v2]. f_equal; ring. Qed.
Lemma dot_sub_self a b : dot a b = dot b b + dot (vsub a b) b.
Proof. unfold dot, vsub. cbn [v0 v1 v2]. ring. Qed.

(** A vector off by a fraction [d] of its length turns by about [d]. *)
Lemma angle_near a b d : 0 < norm b -> norm (vsub a b) <= d * norm b -> d <= 1e-3 ->
  let t := dsepv (N := RNum) a b in 0 <= t <= 1.002 * d /\ angle_between a b t.
Proof.
  intros B E D t. destruct (dsepv_spec a b) as ((T & C) & S). fold t in T, C, S.
  split; [|split; [exact T|exact C]]. split; [apply T|].
  assert (D0 : 0 <= d) by (pose proof (norm_nonneg (vsub a b)); destruct (Rle_or_lt 0 d); [assumption|nra]).
  pose proof (norm_lip a b) as L. apply Rabs_le_inv in L.
  set (n := norm b) in *. set (m := norm a) in *. assert (M : (1 - d) * n <= m) by lra. assert (M0 : 0 < m) by nra.
  pose proof (norm_cross_le (vsub a b) b) as X. rewrite <- cross_sub_self, S in X. fold n in X.
  pose proof (L_FrameGal.cauchy_abs (vsub a b) b) as Y. apply Rabs_le_inv in Y. fold n in Y.
  rewrite dot_sub_self in C. rewrite <- norm_sq in C. fold n in C.
  assert (0 < m * n * cos t) by nra. assert (CP : 0 < cos t) by (assert (0 < m * n) by nra; nra).
  assert (T2 : t <= PI / 2).
  { destruct (Rle_or_lt t (PI / 2)) as [|G]; [assumption|]. pose proof (cos_le_0 t ltac:(lra) ltac:(lra)). lra. }
  assert (SN : sin t <= 1.0015 * d).
  { assert (0 <= sin t) by (apply sin_ge_0; lra). assert (m * sin t <= d * n) by (apply Rmult_le_reg_r with n; [exact B|]; nra).
    assert ((1 - d) * sin t * n <= d * n) by nra. assert ((1 - d) * sin t <= d) by (apply Rmult_le_reg_r with n; [exact B|]; lra). nra. }
  pose proof (arc_small t (1.0015 * d) ltac:(lra) ltac:(lra) SN). nra.
Qed.
Lemma cos_quadratic t : 1 - t * t / 2 <= cos t.
Proof.
  replace t with (2 * (t / 2)) at 3 by field. rewrite cos_2a_sin.
  assert (sin (t / 2) * sin (t / 2) <= t / 2 * (t / 2)); [|lra].
  destruct (Rle_or_lt 0 (t / 2)) as [P|P].
  - assert (Rabs (sin (t / 2)) <= t / 2).
    { destruct (Req_dec (t / 2) 0) as [->|NZ]; [rewrite sin_0, Rabs_R0; lra|]. apply Rabs_le. split.
      - pose proof (sin_lt_x (t / 2) ltac:(lra)). pose proof (SIN_bound (t / 2)).
        destruct (Rle_or_lt (t / 2) PI); [pose proof (sin_ge_0 (t / 2) P ltac:(assumption)); lra|]. pose proof PI2_1. lra.
      - pose proof (sin_lt_x (t / 2) ltac:(lra)). lra. }
    apply Rabs_le_inv in H. nra.
  - assert (Rabs (sin (- (t / 2))) <= - (t / 2)).
    { apply Rabs_le. split.
      - pose proof (SIN_bound (- (t / 2))).
        destruct (Rle_or_lt (- (t / 2)) PI); [pose proof (sin_ge_0 (- (t / 2)) ltac:(lra) ltac:(assumption)); lra|]. pose proof PI2_1. lra.
      - pose proof (sin_lt_x (- (t / 2)) ltac:(lra)). lra. }
    rewrite sin_neg in H. apply Rabs_le_inv in H. nra.
Qed.
Lemma dot_scale2 j k a b : dot (scale j a) (scale k b) = j * k * dot a b.
Proof. unfold dot, scale. cbn [v0 v1 v2]. ring. Qed.
Lemma norm_sub_sq a b : norm (vsub a b) * norm (vsub a b) = dot a a + dot b b - 2 * dot a b.
Proof. rewrite norm_sq. unfold dot, vsub. cbn [v0 v1 v2]. ring. Qed.
Lemma chord_le a b t : norm a = 1 -> norm b = 1 -> 0 <= t -> dot a b = cos t -> norm (vsub a b) <= t.
Proof.
  intros A B T C. pose proof (norm_sub_sq a b) as S. rewrite <- !norm_sq, A, B, C in S.
  pose proof (cos_quadratic t). pose proof (norm_nonneg (vsub a b)). nra.
Qed.
Lemma unit_near a b d : 0 < norm b -> norm (vsub a b) <= d * norm b -> d <= 1e-3 ->
  norm (vsub (unit_of a) (unit_of b)) <= 1.002 * d.
Proof.
  intros B E D. destruct (angle_near a b d B E D) as (T & R & C). set (t := dsepv (N := RNum) a b) in *.
  assert (D0 : 0 <= d) by (pose proof (norm_nonneg (vsub a b)); destruct (Rle_or_lt 0 d); [assumption|nra]).
  pose proof (norm_lip a b) as L. apply Rabs_le_inv in L. assert (A : 0 < norm a) by nra.
  eapply Rle_trans; [apply (chord_le _ _ t)|apply T]; unfold unit_of.
  - apply norm_unit_scale. lra.
  - apply norm_unit_scale. lra.
  - apply R.
  - rewrite dot_scale2, C. field. lra.
Qed.

(** Nearby directions. *)
Lemma norm_dir_lon a a' b : norm (vsub (direction a b) (direction a' b)) <= Rabs (a - a').
Proof.
  assert (C : cos (Rabs (a - a')) = cos (a - a')) by (unfold Rabs; destruct (Rcase_abs _); [apply cos_neg|reflexivity]).
  pose proof (cos_quadratic (Rabs (a - a'))) as Q. rewrite C in Q. pose proof (Rabs_pos (a - a')) as P.
  set (d := Rabs (a - a')) in *.
  pose proof (norm_sub_sq (direction a b) (direction a' b)) as S. pose proof (norm_nonneg (vsub (direction a b) (direction a' b))).
  pose proof (norm_sq (direction a b)) as NA. pose proof (norm_sq (direction a' b)) as NB. rewrite norm_direction in NA, NB.
  assert (DD : dot (direction a b) (direction a' b) = 1 - cos b * cos b * (1 - cos (a - a'))).
  { unfold dot, direction. cbn [v0 v1 v2]. rewrite cos_minus. pose proof (sin2_cos2 b) as SC. unfold Rsqr in SC.
    replace (sin b * sin b) with (1 - cos b * cos b) by lra. ring. }
  assert (0 <= cos b * cos b <= 1) by (pose proof (sin2_cos2 b) as SC; unfold Rsqr in SC; nra).
  pose proof (COS_bound (a - a')). nra.
Qed.
Lemma norm_dir_lat a b b' : norm (vsub (direction a b) (direction a b')) <= Rabs (b - b').
Proof.
  apply chord_le; [apply norm_direction|apply norm_direction|apply Rabs_pos|].
  replace (cos (Rabs (b - b'))) with (cos (b - b')) by (unfold Rabs; destruct (Rcase_abs _); [symmetry; apply cos_neg|reflexivity]).
  unfold dot, direction. cbn [v0 v1 v2]. rewrite cos_minus. pose proof (sin2_cos2 a) as SC. unfold Rsqr in SC.
  replace (cos a * cos b * (cos a * cos b') + sin a * cos b * (sin a * cos b') + sin b * sin b')
    with ((sin a * sin a + cos a * cos a) * (cos b * cos b') + sin b * sin b') by ring. rewrite SC. ring.
Qed.
Lemma vsub_via a b c : norm (vsub a c) <= norm (vsub a b) + norm (vsub b c).
Proof.
  replace (vsub a c) with (vadd (vsub a b) (vsub b c)); [apply norm_triangle|].
  unfold vadd, vsub. cbn [v0 v1 v2]. f_equal; ring.
Qed.
Lemma norm_dir a a' b b' : norm (vsub (direction a b) (direction a' b')) <= Rabs (a - a') + Rabs (b - b').
Proof.
  eapply Rle_trans; [apply (vsub_via _ (direction a' b))|]. apply Rplus_le_compat; [apply norm_dir_lon|apply norm_dir_lat].
Qed.

(** Two angles of the upper half plane. *)
Lemma plane_angle p q d : 0 <= v1 p -> 0 <= v1 q -> v2 p = 0 -> v2 q = 0 -> 0 < norm q -> norm (vsub p q) <= d * norm q -> d <= 1e-3 ->
  Rabs (Ratan2 (v1 p) (v0 p) - Ratan2 (v1 q) (v0 q)) <= 1.002 * d.
Proof.
  intros P1 Q1 P2 Q2 Q E D. destruct (angle_near p q d Q E D) as (T & R & C). set (t := dsepv (N := RNum) p q) in *.
  pose proof (norm_lip p q) as L. apply Rabs_le_inv in L. assert (A : 0 < norm p) by nra.
  assert (H : forall w : RV, v2 w = 0 -> norm w = hyp (v0 w) (v1 w)) by (intros w W; unfold norm, dot, hyp; rewrite W; f_equal; ring).
  destruct (atan2_cos_sin (v1 p) (v0 p)) as (CP & SP). destruct (atan2_cos_sin (v1 q) (v0 q)) as (CQ & SQ).
  rewrite <- (H p P2) in CP, SP. rewrite <- (H q Q2) in CQ, SQ.
  pose proof (atan2_range_up (v1 p) (v0 p) P1) as RP. pose proof (atan2_range_up (v1 q) (v0 q) Q1) as RQ.
  set (al := Ratan2 (v1 p) (v0 p)) in *. set (be := Ratan2 (v1 q) (v0 q)) in *.
  assert (E2 : cos t = cos (Rabs (al - be))).
  { replace (cos (Rabs (al - be))) with (cos (al - be)) by (unfold Rabs; destruct (Rcase_abs _); [symmetry; apply cos_neg|reflexivity]).
    assert (P : norm p * norm q * cos t = norm p * norm q * cos (al - be)).
    { rewrite <- C, cos_minus. unfold dot. rewrite P2, Q2, <- CP, <- SP, <- CQ, <- SQ. ring. }
    apply Rmult_eq_reg_l in P; [exact P|]. nra. }
  assert (Rabs (al - be) = t); [|lra].
  symmetry. apply cos_inj; [lra| |exact E2]. split; [apply Rabs_pos|]. apply Rabs_le. lra.
Qed.
Lemma norm_cross_abs a b : norm (cross_abs a b) <= 1.415 * (norm a * norm b).
Proof.
  rewrite <- (norm_vabs a), <- (norm_vabs b).
  pose proof (norm_nonneg (vabs a)). pose proof (norm_nonneg (vabs b)). assert (0 <= norm (vabs a) * norm (vabs b)) by nra.
  unfold norm at 1. rewrite <- (sqrt_square (1.415 * _)) by lra. apply sqrt_le_1_alt.
  assert (Q : dot (cross_abs a b) (cross_abs a b) <= dot (vabs a) (vabs a) * dot (vabs b) (vabs b) + dot (vabs a) (vabs b) * dot (vabs a) (vabs b)).
  { unfold dot, cross_abs, vabs. cbn [v0 v1 v2]. generalize (Rabs (v0 a)), (Rabs (v1 a)), (Rabs (v2 a)), (Rabs (v0 b)), (Rabs (v1 b)), (Rabs (v2 b)).
    intros p q r x y z. pose proof (Rle_0_sqr (p * x)). pose proof (Rle_0_sqr (q * y)). pose proof (Rle_0_sqr (r * z)). unfold Rsqr in *. lra. }
  pose proof (L_FrameGal.cauchy_abs (vabs a) (vabs b)) as C. apply Rabs_le_inv in C.
  rewrite <- (norm_sq (vabs a)), <- (norm_sq (vabs b)) in Q. set (n := norm (vabs a)) in *. set (m := norm (vabs b)) in *.
  set (k := n * m) in *. set (D := dot (vabs a) (vabs b)) in *. pose proof (Rmult_le_pos (k - D) (k + D) ltac:(lra) ltac:(lra)).
  replace (n * n * (m * m)) with (k * k) in Q by (unfold k; ring). pose proof (Rle_0_sqr k) as K. unfold Rsqr in K. lra.
Qed.
