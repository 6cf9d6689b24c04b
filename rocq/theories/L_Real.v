(** Facts about the real functions used by [RNum]. *)
From Coq Require Import ZArith Reals Lra Lia Psatz Bool.
From Flocq Require Import Core.Raux.
From Verif Require Import Int32 Num NumR.
Open Scope R_scope.

Lemma sq_pos x : 0 <= x * x.
Proof. nra. Qed.
Lemma sc1 a : sin a * sin a + cos a * cos a = 1.
Proof. pose proof (sin2_cos2 a) as H. unfold Rsqr in H. exact H. Qed.

(** ** atan2 *)
Lemma cos_atan_pos t : 0 < cos (atan t).
Proof. apply cos_gt_0; pose proof (atan_bound t); lra. Qed.
Lemma sin_cos_atan t : sin (atan t) = t * cos (atan t).
Proof.
  pose proof (cos_atan_pos t). rewrite <- (tan_atan t) at 2. unfold tan. field. lra.
Qed.
Lemma cos_atan_eq t : cos (atan t) = 1 / sqrt (1 + t * t).
Proof.
  pose proof (cos_atan_pos t) as C. pose proof (sin_cos_atan t) as S. pose proof (sc1 (atan t)) as E. rewrite S in E.
  assert (0 < 1 + t * t) by nra. assert (0 < sqrt (1 + t * t)) by (apply sqrt_lt_R0; lra).
  assert (sqrt (1 + t * t) * sqrt (1 + t * t) = 1 + t * t) by (apply sqrt_sqrt; lra).
  apply Rmult_eq_reg_r with (sqrt (1 + t * t)); [|lra].
  replace (1 / sqrt (1 + t * t) * sqrt (1 + t * t)) with 1 by (field; lra).
  set (c := cos (atan t)) in *. set (s := sqrt (1 + t * t)) in *.
  assert ((c * s) * (c * s) = 1). { replace ((c * s) * (c * s)) with (c * c * (s * s)) by ring. rewrite H1. lra. }
  assert (0 < c * s) by (apply Rmult_lt_0_compat; assumption).
  assert (Z : (c * s - 1) * (c * s + 1) = 0) by lra.
  apply Rmult_integral in Z. lra.
Qed.

Definition hyp (x y : R) : R := sqrt (x * x + y * y).
Lemma hyp_sq x y : hyp x y * hyp x y = x * x + y * y.
Proof. apply sqrt_sqrt. nra. Qed.
Lemma hyp_nonneg x y : 0 <= hyp x y.
Proof. apply sqrt_pos. Qed.
Lemma hyp_pos x y : x <> 0 \/ y <> 0 -> 0 < hyp x y.
Proof. intros H. apply sqrt_lt_R0. destruct H; nra. Qed.
Lemma hyp_0 x y : hyp x y = 0 -> x = 0 /\ y = 0.
Proof. intros H. pose proof (hyp_sq x y) as E. rewrite H in E. split; nra. Qed.
Lemma hyp_00 : hyp 0 0 = 0.
Proof. unfold hyp. replace (0 * 0 + 0 * 0) with 0 by ring. apply sqrt_0. Qed.

Lemma hyp_scale x y : x <> 0 -> hyp x y = Rabs x * sqrt (1 + y / x * (y / x)).
Proof.
  intros. unfold hyp. rewrite <- sqrt_Rsqr_abs. rewrite <- sqrt_mult.
  - f_equal. unfold Rsqr. field. assumption.
  - unfold Rsqr; nra.
  - nra.
Qed.

Lemma atan2_cos_sin y x : hyp x y * cos (Ratan2 y x) = x /\ hyp x y * sin (Ratan2 y x) = y.
Proof.
  unfold Ratan2. destruct (Rlt_dec 0 x) as [Hx|Hx].
  - assert (E : hyp x y * cos (atan (y / x)) = x).
    { rewrite cos_atan_eq, hyp_scale by lra. rewrite Rabs_right by lra. field.
      apply Rgt_not_eq. apply sqrt_lt_R0. nra. }
    split; [exact E|]. rewrite sin_cos_atan.
    replace (hyp x y * (y / x * cos (atan (y / x)))) with (y / x * (hyp x y * cos (atan (y / x)))) by ring.
    rewrite E. field. lra.
  - destruct (Rlt_dec x 0) as [Hx'|Hx'].
    + assert (E : hyp x y * cos (atan (y / x)) = - x).
      { rewrite cos_atan_eq, hyp_scale by lra. rewrite Rabs_left by lra. field.
        apply Rgt_not_eq. apply sqrt_lt_R0. nra. }
      assert (E' : hyp x y * sin (atan (y / x)) = - y).
      { rewrite sin_cos_atan.
        replace (hyp x y * (y / x * cos (atan (y / x)))) with (y / x * (hyp x y * cos (atan (y / x)))) by ring.
        rewrite E. field. lra. }
      destruct (Rle_dec 0 y).
      * rewrite neg_cos, neg_sin. split; lra.
      * replace (atan (y / x) - PI) with (atan (y / x) + PI - 2 * PI) by ring.
        rewrite cos_minus, sin_minus, cos_2PI, sin_2PI, neg_cos, neg_sin. split; lra.
    + assert (x = 0) by lra. subst x. unfold hyp.
      replace (0 * 0 + y * y) with (Rsqr y) by (unfold Rsqr; ring). rewrite sqrt_Rsqr_abs.
      destruct (Rlt_dec 0 y).
      * rewrite cos_PI2, sin_PI2, Rabs_right by lra. split; lra.
      * destruct (Rlt_dec y 0).
        -- rewrite cos_neg, sin_neg, cos_PI2, sin_PI2, Rabs_left by lra. split; lra.
        -- assert (y = 0) by lra. subst y. rewrite cos_0, sin_0, Rabs_R0. split; lra.
Qed.

Lemma atan2_cos y x : hyp x y * cos (Ratan2 y x) = x.
Proof. apply atan2_cos_sin. Qed.
Lemma atan2_sin y x : hyp x y * sin (Ratan2 y x) = y.
Proof. apply atan2_cos_sin. Qed.
Lemma atan2_00 : Ratan2 0 0 = 0.
Proof. unfold Ratan2. destruct (Rlt_dec 0 0); [lra|reflexivity]. Qed.

Lemma atan2_range y x : - PI < Ratan2 y x <= PI.
Proof.
  pose proof PI_RGT_0. unfold Ratan2.
  destruct (Rlt_dec 0 x); [pose proof (atan_bound (y / x)); lra|].
  destruct (Rlt_dec x 0).
  - pose proof (atan_bound (y / x)).
    destruct (Rle_dec 0 y).
    + assert (y / x <= 0). { unfold Rdiv. pose proof (Rinv_lt_0_compat x r). nra. }
      assert (atan (y / x) <= 0).
      { destruct (Rle_lt_or_eq_dec _ _ H1) as [L|E]; [|rewrite E, atan_0; lra].
        apply atan_increasing in L. rewrite atan_0 in L. lra. }
      lra.
    + assert (0 < y / x). { unfold Rdiv. pose proof (Rinv_lt_0_compat x r). nra. }
      apply atan_increasing in H1. rewrite atan_0 in H1. lra.
  - repeat match goal with |- context [if ?b then _ else _] => destruct b end; lra.
Qed.

(** atan2 of a point with x >= 0 is in [-pi/2, pi/2]. *)
Lemma atan2_range_pos y x : 0 <= x -> - (PI / 2) <= Ratan2 y x <= PI / 2.
Proof.
  intros Hx. pose proof PI_RGT_0. unfold Ratan2.
  destruct (Rlt_dec 0 x); [pose proof (atan_bound (y / x)); lra|].
  destruct (Rlt_dec x 0); [lra|].
  repeat match goal with |- context [if ?b then _ else _] => destruct b end; lra.
Qed.
(** atan2 of a point with y >= 0 is in [0, pi]. *)
Lemma atan2_range_up y x : 0 <= y -> 0 <= Ratan2 y x <= PI.
Proof.
  intros Hy. pose proof (atan2_range y x) as R. split; [|lra].
  destruct (Rle_lt_dec 0 (Ratan2 y x)); [assumption|exfalso].
  destruct (Req_dec (hyp x y) 0) as [Z|Z].
  - apply hyp_0 in Z. destruct Z; subst. rewrite atan2_00 in r. lra.
  - pose proof (hyp_nonneg x y). pose proof (atan2_sin y x) as S.
    assert (sin (Ratan2 y x) < 0) by (apply sin_lt_0_var; lra). nra.
Qed.

(** ** Angles *)
Definition same_angle (a b : R) : Prop := exists k : Z, a = b + IZR k * (2 * PI).

Lemma same_angle_refl a : same_angle a a.
Proof. exists 0%Z. lra. Qed.
Lemma same_angle_sym a b : same_angle a b -> same_angle b a.
Proof. intros [k H]. exists (- k)%Z. rewrite opp_IZR. lra. Qed.
Lemma same_angle_trans a b c : same_angle a b -> same_angle b c -> same_angle a c.
Proof. intros [k H] [l H']. exists (k + l)%Z. rewrite plus_IZR. lra. Qed.

Lemma cos_period_Z x k : cos (x + IZR k * (2 * PI)) = cos x.
Proof.
  destruct k as [|p|p].
  - f_equal. lra.
  - rewrite <- (cos_period x (Pos.to_nat p)). f_equal. rewrite INR_IZR_INZ, positive_nat_Z. ring.
  - rewrite <- (cos_period (x + IZR (Zneg p) * (2 * PI)) (Pos.to_nat p)). f_equal.
    rewrite INR_IZR_INZ, positive_nat_Z. change (Z.neg p) with (- Z.pos p)%Z. rewrite opp_IZR. ring.
Qed.
Lemma sin_period_Z x k : sin (x + IZR k * (2 * PI)) = sin x.
Proof.
  destruct k as [|p|p].
  - f_equal. lra.
  - rewrite <- (sin_period x (Pos.to_nat p)). f_equal. rewrite INR_IZR_INZ, positive_nat_Z. ring.
  - rewrite <- (sin_period (x + IZR (Zneg p) * (2 * PI)) (Pos.to_nat p)). f_equal.
    rewrite INR_IZR_INZ, positive_nat_Z. change (Z.neg p) with (- Z.pos p)%Z. rewrite opp_IZR. ring.
Qed.
Lemma same_angle_cos a b : same_angle a b -> cos a = cos b.
Proof. intros [k ->]. apply cos_period_Z. Qed.
Lemma same_angle_sin a b : same_angle a b -> sin a = sin b.
Proof. intros [k ->]. apply sin_period_Z. Qed.

Lemma cos_eq_1_range t : - PI <= t <= PI -> cos t = 1 -> t = 0.
Proof.
  intros R H. pose proof PI_RGT_0.
  destruct (Rtotal_order t 0) as [L|[E|G]]; [|assumption|]; exfalso.
  - assert (cos t < cos 0); [|rewrite cos_0 in *; lra].
    rewrite <- (cos_neg t). apply cos_decreasing_1; lra.
  - assert (cos t < cos 0); [|rewrite cos_0 in *; lra].
    apply cos_decreasing_1; lra.
Qed.

(** Every angle has a representative in (-pi, pi]. *)
Lemma angle_reduce a : exists b, same_angle a b /\ - PI < b <= PI.
Proof.
  pose proof PI_RGT_0 as P.
  set (k := Zceil ((a - PI) / (2 * PI))).
  exists (a - IZR k * (2 * PI)). split.
  - exists k. lra.
  - pose proof (Zceil_ub ((a - PI) / (2 * PI))) as U. fold k in U.
    assert (L : IZR k < (a - PI) / (2 * PI) + 1).
    { unfold k, Zceil. rewrite opp_IZR. pose proof (Zfloor_ub (- ((a - PI) / (2 * PI)))). lra. }
    assert (E : (a - PI) / (2 * PI) * (2 * PI) = a - PI) by (field; lra).
    apply (Rmult_le_compat_r (2 * PI)) in U; [|lra].
    apply (Rmult_lt_compat_r (2 * PI)) in L; [|lra].
    rewrite Rmult_plus_distr_r in L. rewrite E in U, L. lra.
Qed.

Lemma cos_sin_same_angle a b : cos a = cos b -> sin a = sin b -> same_angle a b.
Proof.
  intros C S. destruct (angle_reduce (a - b)) as (d & [k E] & R).
  assert (cos (a - b) = 1). { rewrite cos_minus, C, S. pose proof (sc1 b). lra. }
  rewrite E, cos_period_Z in H. apply cos_eq_1_range in H; [|lra].
  exists k. rewrite H in E. lra.
Qed.

Lemma same_angle_eq a b : same_angle a b -> - PI < a <= PI -> - PI < b <= PI -> a = b.
Proof.
  intros [k E] A B. pose proof PI_RGT_0.
  assert (IZR k * (2 * PI) < 1 * (2 * PI)) by lra. assert (-1 * (2 * PI) < IZR k * (2 * PI)) by lra.
  apply Rmult_lt_reg_r in H0; [|lra]. apply Rmult_lt_reg_r in H1; [|lra].
  apply lt_IZR in H0. apply lt_IZR in H1. assert (k = 0%Z) by lia. subst k. lra.
Qed.
Lemma same_angle_eq0 a b : same_angle a b -> 0 <= a < 2 * PI -> 0 <= b < 2 * PI -> a = b.
Proof.
  intros [k E] A B. pose proof PI_RGT_0.
  assert (IZR k * (2 * PI) < 1 * (2 * PI)) by lra. assert (-1 * (2 * PI) < IZR k * (2 * PI)) by lra.
  apply Rmult_lt_reg_r in H0; [|lra]. apply Rmult_lt_reg_r in H1; [|lra].
  apply lt_IZR in H0. apply lt_IZR in H1. assert (k = 0%Z) by lia. subst k. lra.
Qed.

Lemma hyp_polar r a : 0 <= r -> hyp (r * cos a) (r * sin a) = r.
Proof.
  intros H. unfold hyp. replace (r * cos a * (r * cos a) + r * sin a * (r * sin a)) with (Rsqr r).
  - apply sqrt_Rsqr. assumption.
  - unfold Rsqr. pose proof (sc1 a). replace (r * cos a * (r * cos a) + r * sin a * (r * sin a)) with (r * r * (sin a * sin a + cos a * cos a)) by ring. rewrite H0. ring.
Qed.

(** atan2 recovers the polar angle. *)
Lemma atan2_polar r a : 0 < r -> same_angle (Ratan2 (r * sin a) (r * cos a)) a.
Proof.
  intros H. apply cos_sin_same_angle.
  - pose proof (atan2_cos (r * sin a) (r * cos a)) as E. rewrite hyp_polar in E by lra.
    apply Rmult_eq_reg_l in E; lra.
  - pose proof (atan2_sin (r * sin a) (r * cos a)) as E. rewrite hyp_polar in E by lra.
    apply Rmult_eq_reg_l in E; lra.
Qed.
Lemma atan2_polar_eq r a : 0 < r -> - PI < a <= PI -> Ratan2 (r * sin a) (r * cos a) = a.
Proof. intros H R. apply same_angle_eq; [apply atan2_polar; assumption|apply atan2_range|assumption]. Qed.

Lemma atan2_same_angle y x r a : 0 < r -> x = r * cos a -> y = r * sin a -> same_angle (Ratan2 y x) a.
Proof. intros H -> ->. apply atan2_polar; assumption. Qed.
Lemma atan2_unique y x r a : 0 < r -> x = r * cos a -> y = r * sin a -> - PI < a <= PI -> Ratan2 y x = a.
Proof. intros H -> -> R. apply atan2_polar_eq; assumption. Qed.

(** ** trunc, round, fmod *)
Lemma Ztrunc_bounds x : (0 <= x -> IZR (Ztrunc x) <= x < IZR (Ztrunc x) + 1) /\
                        (x <= 0 -> IZR (Ztrunc x) - 1 < x <= IZR (Ztrunc x)).
Proof.
  split; intros H.
  - rewrite Ztrunc_floor by assumption. split; [apply Zfloor_lb|apply Zfloor_ub].
  - rewrite Ztrunc_ceil by assumption. split; [|apply Zceil_ub].
    unfold Zceil. rewrite opp_IZR. pose proof (Zfloor_ub (- x)). lra.
Qed.

Lemma Rfmod_congr x y : exists k : Z, x = Rfmod x y + IZR k * y.
Proof. exists (Ztrunc (x / y)). unfold Rfmod, Rtrunc. ring. Qed.

Lemma Rfmod_range x y : 0 < y -> (0 <= x -> 0 <= Rfmod x y < y) /\ (x <= 0 -> - y < Rfmod x y <= 0).
Proof.
  intros Hy. unfold Rfmod, Rtrunc.
  assert (E : x = x / y * y) by (field; lra).
  split; intros Hx.
  - assert (0 <= x / y). { unfold Rdiv. pose proof (Rinv_0_lt_compat y Hy). nra. }
    destruct (proj1 (Ztrunc_bounds (x / y)) H) as [A B]. set (t := IZR (Ztrunc (x / y))) in *. set (q := x / y) in *. nra.
  - assert (x / y <= 0). { unfold Rdiv. pose proof (Rinv_0_lt_compat y Hy). nra. }
    destruct (proj2 (Ztrunc_bounds (x / y)) H) as [A B]. set (t := IZR (Ztrunc (x / y))) in *. set (q := x / y) in *. nra.
Qed.

Lemma Zround_err x : Rabs (IZR (Zround x) - x) <= / 2.
Proof.
  unfold Zround. destruct (Rle_dec 0 x).
  - pose proof (Zfloor_lb (x + / 2)). pose proof (Zfloor_ub (x + / 2)). apply Rabs_le. lra.
  - pose proof (Zceil_ub (x - / 2)).
    assert (IZR (Zceil (x - / 2)) < x - / 2 + 1).
    { unfold Zceil. rewrite opp_IZR. pose proof (Zfloor_ub (- (x - / 2))). lra. }
    apply Rabs_le. lra.
Qed.
Lemma Zround_IZR n : Zround (IZR n) = n.
Proof.
  pose proof (Zround_err (IZR n)) as H. rewrite <- minus_IZR in H. rewrite <- abs_IZR in H.
  assert (IZR (Z.abs (Zround (IZR n) - n)) < 1) by lra. apply lt_IZR in H0. lia.
Qed.
Lemma Ztrunc_IZR' n : Ztrunc (IZR n) = n.
Proof. apply Ztrunc_IZR. Qed.
Lemma Zround_nonneg x : 0 <= x -> (0 <= Zround x)%Z.
Proof.
  intros H. unfold Zround. destruct (Rle_dec 0 x); [|lra]. apply Zfloor_lub. change (IZR 0) with 0. lra.
Qed.
