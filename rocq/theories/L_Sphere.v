(** Proofs about separations, bearings and the horizon system over the reals. *)
From Coq Require Import ZArith Reals Lra Lia Psatz Nsatz Bool.
From Coquelicot Require Import Coquelicot.
From Verif Require Import Num NumR L_Real M_Vec S_Geom L_Vec L_Rot M_Angle L_Angle M_Sphere S_Sphere.
Open Scope R_scope.

Ltac eqR := match goal with |- @eq _ ?a ?b => change (@eq R a b) end.

(** ** Separation *)
Lemma dsepv_eq (a b : RV) : dsepv (N := RNum) a b = Ratan2 (norm (cross a b)) (dot a b).
Proof.
  unfold dsepv. rewrite dvxv_cross, dvdv_dot. destruct (dvn_spec (cross a b)) as (E & _).
  match goal with |- context [snd ?x] => change (snd x) with (snd (dvn (N := RNum) (cross a b))) end.
  rewrite E. unR. cbv zeta.
  destruct (Reqb_spec (norm (cross a b)) 0) as [->|]; cbn [negb orb]; [|reflexivity].
  destruct (Reqb_spec (dot a b) 0) as [->|]; cbn [negb orb]; [|reflexivity]. symmetry. apply atan2_00.
Qed.

Lemma lagrange a b : dot (cross a b) (cross a b) = dot a a * dot b b - dot a b * dot a b.
Proof. destruct a as [a1 a2 a3], b as [b1 b2 b3]. unfold dot, cross; cbn [v0 v1 v2]. ring. Qed.

Lemma dsepv_polar (a b : RV) : hyp (dot a b) (norm (cross a b)) = norm a * norm b.
Proof.
  apply hyp_eq.
  - apply Rmult_le_pos; apply norm_nonneg.
  - rewrite (norm_sq (cross a b)), lagrange. replace (norm a * norm b * (norm a * norm b)) with ((norm a * norm a) * (norm b * norm b)) by ring.
    rewrite !norm_sq. ring.
Qed.

Lemma dsepv_spec (a b : RV) : angle_between a b (dsepv (N := RNum) a b) /\
  norm (cross a b) = norm a * norm b * sin (dsepv (N := RNum) a b).
Proof.
  rewrite dsepv_eq. pose proof (atan2_cos (norm (cross a b)) (dot a b)) as C. pose proof (atan2_sin (norm (cross a b)) (dot a b)) as S.
  rewrite dsepv_polar in C, S. split; [split|].
  - pose proof (atan2_range_up (norm (cross a b)) (dot a b)) as H. apply H. apply norm_nonneg.
  - symmetry. exact C.
  - symmetry. exact S.
Qed.

Lemma angle_between_unique a b s t : a <> vzero -> b <> vzero -> angle_between a b s -> angle_between a b t -> s = t.
Proof.
  intros A B (R1 & E1) (R2 & E2). pose proof (norm_pos a A). pose proof (norm_pos b B).
  assert (P : 0 < norm a * norm b) by (apply Rmult_lt_0_compat; assumption).
  rewrite E1 in E2. apply Rmult_eq_reg_l in E2; [|lra].
  destruct (Rtotal_order s t) as [L|[E|L]]; [|assumption|]; exfalso.
  - pose proof (cos_decreasing_1 s t). lra.
  - pose proof (cos_decreasing_1 t s). lra.
Qed.

Lemma angle_between_sym a b t : angle_between a b t -> angle_between b a t.
Proof.
  intros (R1 & E). split; [assumption|]. replace (dot b a) with (dot a b) by (unfold dot; ring). rewrite E. ring.
Qed.

Lemma cross_anti a b : norm (cross a b) = norm (cross b a).
Proof. unfold norm. f_equal. rewrite !lagrange. unfold dot. ring. Qed.
Lemma dot_comm a b : dot a b = dot b a.
Proof. unfold dot. ring. Qed.
Lemma dsepv_sym (a b : RV) : dsepv (N := RNum) a b = dsepv (N := RNum) b a.
Proof. rewrite !dsepv_eq, cross_anti, dot_comm. reflexivity. Qed.

(** Cauchy-Schwarz equality cases. *)
Lemma vsub_norm (a b : RV) k : norm a = k -> norm b = k -> dot (vsub a b) (vsub a b) = 2 * (k * k - dot a b).
Proof.
  intros A B. pose proof (norm_sq a). pose proof (norm_sq b). rewrite A in *. rewrite B in *.
  destruct a as [a1 a2 a3], b as [b1 b2 b3]. unfold dot, vsub in *; cbn [v0 v1 v2] in *. nra.
Qed.

Lemma cos_0_inv t : 0 <= t <= PI -> cos t = 1 -> t = 0.
Proof. intros. apply cos_eq_1_range; lra. Qed.
Lemma cos_PI_inv t : 0 <= t <= PI -> cos t = -1 -> t = PI.
Proof.
  intros R E. assert (cos (PI - t) = 1). { rewrite Rtrigo_facts.cos_pi_minus. lra. }
  apply cos_0_inv in H; lra.
Qed.

Lemma dot_scale_l k a b : dot (scale k a) b = k * dot a b.
Proof. unfold dot, scale; cbn. ring. Qed.
Lemma dot_scale_r k a b : dot a (scale k b) = k * dot a b.
Proof. unfold dot, scale; cbn. ring. Qed.

Lemma dsepv_zero_iff (a b : RV) : a <> vzero -> b <> vzero ->
  (dsepv (N := RNum) a b = 0 <-> exists k, 0 < k /\ b = scale k a).
Proof.
  intros A B. pose proof (norm_pos a A). pose proof (norm_pos b B). destruct (dsepv_spec a b) as [[R1 E] _]. split.
  - intros Z. rewrite Z, cos_0 in E.
    exists (norm b / norm a). split; [apply Rdiv_lt_0_compat; assumption|].
    assert (D : dot (vsub (scale (norm b) a) (scale (norm a) b)) (vsub (scale (norm b) a) (scale (norm a) b)) = 0).
    { rewrite (vsub_norm _ _ (norm a * norm b)).
      - rewrite dot_scale_l, dot_scale_r, E. ring.
      - rewrite norm_scale by lra. ring.
      - rewrite norm_scale by lra. ring. }
    apply dot_self_0 in D. destruct a as [a1 a2 a3], b as [b1 b2 b3]. unfold vsub, scale, vzero in D; cbn [v0 v1 v2] in D.
    apply vinj in D. destruct D as (D1 & D2 & D3).
    set (na := norm (V3 a1 a2 a3)) in *. set (nb := norm (V3 b1 b2 b3)) in *.
    apply vec_eq; unfold scale; cbn [v0 v1 v2]; apply Rmult_eq_reg_l with na; try lra;
      (replace (na * (nb / na * _)) with (nb * a1) by (field; lra)) || (replace (na * (nb / na * _)) with (nb * a2) by (field; lra)) || (replace (na * (nb / na * _)) with (nb * a3) by (field; lra)); lra.
  - intros (k & K & ->). rewrite norm_scale in * by lra. rewrite dot_scale_r in E.
    rewrite <- norm_sq in E. assert (cos (dsepv (N := RNum) a (scale k a)) = 1).
    { apply Rmult_eq_reg_l with (norm a * (k * norm a)); [|assert (0 < norm a * (k * norm a)); [|lra]; apply Rmult_lt_0_compat; assumption]. rewrite <- E. ring. }
    apply cos_0_inv; assumption.
Qed.

Lemma dsepv_pi_iff (a b : RV) : a <> vzero -> b <> vzero ->
  (dsepv (N := RNum) a b = PI <-> exists k, k < 0 /\ b = scale k a).
Proof.
  intros A B.
  assert (NB : scale (-1) b <> vzero).
  { intros E. apply B. destruct b as [b1 b2 b3]. unfold scale, vzero in *; cbn [v0 v1 v2] in E. apply vinj in E. destruct E as (E1 & E2 & E3).
    apply vec_eq; cbn [v0 v1 v2]; lra. }
  assert (K : dsepv (N := RNum) a (scale (-1) b) = PI - dsepv (N := RNum) a b).
  { apply (angle_between_unique a (scale (-1) b)); [assumption|assumption|apply dsepv_spec|].
    destruct (dsepv_spec a b) as [[R1 E] _]. split; [lra|].
    rewrite dot_scale_r, E, Rtrigo_facts.cos_pi_minus.
    replace (norm (scale (-1) b)) with (norm b) by (unfold norm, dot, scale; cbn [v0 v1 v2]; f_equal; ring). ring. }
  pose proof (dsepv_zero_iff a (scale (-1) b) A NB) as Z. rewrite K in Z. split.
  - intros E. destruct Z as [Z _]. destruct Z as (k & P & EK); [lra|]. exists (- k). split; [lra|].
    destruct a as [a1 a2 a3], b as [b1 b2 b3]. unfold scale in *; cbn [v0 v1 v2] in *. apply vinj in EK. destruct EK as (E1 & E2 & E3).
    apply vec_eq; cbn [v0 v1 v2]; lra.
  - intros (k & P & EK). destruct Z as [_ Z]. enough (PI - dsepv (N := RNum) a b = 0) by lra. apply Z. exists (- k). split; [lra|].
    subst b. destruct a as [a1 a2 a3]. unfold scale; cbn [v0 v1 v2]. apply vec_eq; cbn [v0 v1 v2]; ring.
Qed.

Lemma dsepv_rotation (m : RM) (a b : RV) : rotation m ->
  dsepv (N := RNum) (mapply m a) (mapply m b) = dsepv (N := RNum) a b.
Proof.
  intros H. rewrite !dsepv_eq. f_equal; [|apply rotation_dot; assumption].
  unfold norm. f_equal. rewrite !lagrange, !(rotation_dot m) by assumption. reflexivity.
Qed.

(** Triangle inequality. *)
Lemma dsepv_triangle (a b c : RV) : a <> vzero -> b <> vzero -> c <> vzero ->
  dsepv (N := RNum) a c <= dsepv (N := RNum) a b + dsepv (N := RNum) b c.
Proof.
  intros A B C.
  pose proof (norm_pos a A) as NA. pose proof (norm_pos b B) as NB. pose proof (norm_pos c C) as NC.
  destruct (dsepv_spec a b) as [[R1 E1] S1]. destruct (dsepv_spec b c) as [[R2 E2] S2]. destruct (dsepv_spec a c) as [[R3 E3] _].
  set (t1 := dsepv (N := RNum) a b) in *. set (t2 := dsepv (N := RNum) b c) in *. set (t3 := dsepv (N := RNum) a c) in *.
  change (car RNum) with R in t1, t2, t3.
  destruct (Rle_lt_dec PI (t1 + t2)) as [L|L]; [lra|].
  destruct (Rle_lt_dec t3 (t1 + t2)) as [G|G]; [assumption|exfalso].
  assert (CL : cos t3 < cos (t1 + t2)) by (apply cos_decreasing_1; lra).
  rewrite cos_plus in CL.
  (* (a x b).(b x c) <= |a x b||b x c| *)
  pose proof (lagrange (cross a b) (cross b c)) as LG.
  assert (0 <= dot (cross (cross a b) (cross b c)) (cross (cross a b) (cross b c))).
  { unfold dot. pose proof (Rle_0_sqr (v0 (cross (cross a b) (cross b c)))). pose proof (Rle_0_sqr (v1 (cross (cross a b) (cross b c)))). pose proof (Rle_0_sqr (v2 (cross (cross a b) (cross b c)))). unfold Rsqr in *. lra. }
  assert (BC : dot (cross a b) (cross b c) = dot a b * dot b c - dot a c * dot b b).
  { destruct a as [a1 a2 a3], b as [b1 b2 b3], c as [c1 c2 c3]. unfold dot, cross; cbn [v0 v1 v2]. ring. }
  assert (CS : - (dot (cross a b) (cross b c)) <= norm (cross a b) * norm (cross b c)).
  { rewrite <- !norm_sq in LG. pose proof (norm_nonneg (cross a b)). pose proof (norm_nonneg (cross b c)).
    set (p := norm (cross a b)) in *. set (q := norm (cross b c)) in *. set (d := dot (cross a b) (cross b c)) in *.
    assert (0 <= p * q) by (apply Rmult_le_pos; assumption). nra. }
  assert (CS' : dot (cross a b) (cross b c) <= norm (cross a b) * norm (cross b c)).
  { rewrite <- !norm_sq in LG. pose proof (norm_nonneg (cross a b)). pose proof (norm_nonneg (cross b c)).
    set (p := norm (cross a b)) in *. set (q := norm (cross b c)) in *. set (d := dot (cross a b) (cross b c)) in *.
    assert (0 <= p * q) by (apply Rmult_le_pos; assumption). nra. }
  rewrite BC, S1, S2, E1, E2, E3, <- (norm_sq b) in CS'.
  assert (K : 0 < norm a * norm b * (norm b * norm c)) by (repeat apply Rmult_lt_0_compat; assumption).
  assert (norm a * norm b * (norm b * norm c) * (cos t1 * cos t2 - cos t3 - sin t1 * sin t2) <= 0) by lra.
  assert (0 < cos t1 * cos t2 - cos t3 - sin t1 * sin t2) by lra.
  pose proof (Rmult_lt_0_compat _ _ K H1). lra.
Qed.

Lemma dot_direction a b a' b' : dot (direction a b) (direction a' b') = sin b * sin b' + cos b * cos b' * cos (a - a').
Proof. unfold dot, direction; cbn [v0 v1 v2]. rewrite cos_minus. ring. Qed.
Lemma direction_nonzero a b : direction a b <> vzero.
Proof. intros E. pose proof (norm_direction a b) as H. rewrite E, norm_vzero in H. lra. Qed.

Lemma dsep_spec (p q : sph RNum) : let t := dsep (N := RNum) p q in
  0 <= t <= PI /\ cos t = dot (direction (s_a p) (s_b p)) (direction (s_a q) (s_b q)).
Proof.
  unfold dsep. rewrite !dcs2c_direction. destruct (dsepv_spec (direction (s_a p) (s_b p)) (direction (s_a q) (s_b q))) as [[R1 E] _].
  rewrite !norm_direction in E. split; [exact R1|]. rewrite E. eqR. ring.
Qed.
Lemma dsep_haversine (p q : sph RNum) :
  cos (dsep (N := RNum) p q) = sin (s_b p) * sin (s_b q) + cos (s_b p) * cos (s_b q) * cos (s_a p - s_a q).
Proof. rewrite <- (dot_direction (s_a p) (s_b p)). apply dsep_spec. Qed.
Lemma dsep_sym (p q : sph RNum) : dsep (N := RNum) p q = dsep (N := RNum) q p.
Proof. unfold dsep. apply dsepv_sym. Qed.
Lemma dsep_triangle (p q r : sph RNum) : dsep (N := RNum) p r <= dsep (N := RNum) p q + dsep (N := RNum) q r.
Proof. unfold dsep. rewrite !dcs2c_direction. apply dsepv_triangle; apply direction_nonzero. Qed.
Lemma dsep_zero_iff (p q : sph RNum) :
  dsep (N := RNum) p q = 0 <-> direction (s_a p) (s_b p) = direction (s_a q) (s_b q).
Proof.
  unfold dsep. rewrite !dcs2c_direction. rewrite dsepv_zero_iff by apply direction_nonzero. split.
  - intros (k & K & E). pose proof (norm_direction (s_a q) (s_b q)) as NQ. rewrite E, norm_scale, norm_direction in NQ by lra.
    assert (k = 1) by lra. subst k. rewrite E. unfold scale. cbn [v0 v1 v2]. destruct (direction (s_a p) (s_b p)) as [x1 x2 x3]; cbn [v0 v1 v2]. apply vec_eq; cbn [v0 v1 v2]; ring.
  - intros E. exists 1. split; [lra|]. rewrite E. destruct (direction (s_a q) (s_b q)) as [x1 x2 x3]; unfold scale; cbn [v0 v1 v2]. apply vec_eq; cbn [v0 v1 v2]; ring.
Qed.
Lemma dsep_pi_iff (p q : sph RNum) :
  dsep (N := RNum) p q = PI <-> direction (s_a q) (s_b q) = scale (-1) (direction (s_a p) (s_b p)).
Proof.
  unfold dsep. rewrite !dcs2c_direction. rewrite dsepv_pi_iff by apply direction_nonzero. split.
  - intros (k & K & E). pose proof (norm_direction (s_a q) (s_b q)) as NQ. rewrite E in NQ.
    replace (norm (scale k (direction (s_a p) (s_b p)))) with (norm (scale (- k) (direction (s_a p) (s_b p)))) in NQ by (unfold norm, dot, scale; cbn [v0 v1 v2]; f_equal; ring).
    rewrite norm_scale, norm_direction in NQ by lra. assert (k = -1) by lra. subst k. exact E.
  - intros E. exists (-1). split; [lra|exact E].
Qed.
