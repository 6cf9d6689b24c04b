(** The tangent-plane (gnomonic) routines over the reals. *)
From Coq Require Import ZArith Reals Lra Lia Psatz Nsatz Bool.
From Verif Require Import L_Pi Num NumR L_Real M_Vec S_Geom L_Vec L_Rot M_Angle L_Angle M_Sphere S_Sphere L_Sphere L_Bear.
Open Scope R_scope.

(** The direction that projects to (xi, eta). *)
Definition tpoint (a0 d0 xi eta : R) : RV :=
  scale (/ sqrt (1 + xi * xi + eta * eta)) (vadd (direction a0 d0) (vadd (scale xi (east a0)) (scale eta (north a0 d0)))).

Lemma f_pos xi eta : 0 < sqrt (1 + xi * xi + eta * eta).
Proof. apply sqrt_lt_R0. nra. Qed.
Lemma f_sq xi eta : sqrt (1 + xi * xi + eta * eta) * sqrt (1 + xi * xi + eta * eta) = 1 + xi * xi + eta * eta.
Proof. apply sqrt_sqrt. nra. Qed.

Lemma frame_dots a d : dot (east a) (east a) = 1 /\ dot (north a d) (north a d) = 1 /\ dot (direction a d) (direction a d) = 1 /\
  dot (east a) (north a d) = 0 /\ dot (east a) (direction a d) = 0 /\ dot (north a d) (direction a d) = 0.
Proof.
  unfold dot, east, north, direction; cbn [v0 v1 v2]. pose proof (sc1 a) as A. pose proof (sc1 d) as D. unfold Rsqr in *.
  repeat split; nsatz.
Qed.
Lemma frame_expand a d v : v = vadd (scale (dot v (direction a d)) (direction a d)) (vadd (scale (dot v (east a)) (east a)) (scale (dot v (north a d)) (north a d))).
Proof.
  destruct v as [x y z]. unfold vadd, scale, dot, east, north, direction; cbn [v0 v1 v2]. pose proof (sc1 a) as A. pose proof (sc1 d) as D. unfold Rsqr in *.
  apply vec_eq; cbn [v0 v1 v2]; nsatz.
Qed.

Lemma tpoint_dots a0 d0 xi eta : let f := sqrt (1 + xi * xi + eta * eta) in let v := tpoint a0 d0 xi eta in
  dot v (direction a0 d0) = / f /\ dot v (east a0) = xi / f /\ dot v (north a0 d0) = eta / f.
Proof.
  intros f v. destruct (frame_dots a0 d0) as (H1 & H2 & H3 & H4 & H5 & H6). unfold v, tpoint. fold f.
  assert (L : forall k p q r w, dot (scale k (vadd p (vadd q r))) w = k * (dot p w + dot q w + dot r w)) by (intros; unfold dot, scale, vadd; cbn [v0 v1 v2]; ring).
  rewrite !L, !dot_scale_l. rewrite (dot_comm (direction a0 d0) (east a0)), (dot_comm (direction a0 d0) (north a0 d0)), (dot_comm (north a0 d0) (east a0)), H1, H2, H3, H4, H5, H6.
  unfold Rdiv. repeat split; ring.
Qed.
Lemma tpoint_projects a0 d0 xi eta : projects a0 d0 (tpoint a0 d0 xi eta) xi eta.
Proof.
  destruct (tpoint_dots a0 d0 xi eta) as (A & B & C). unfold projects. rewrite A, B, C. pose proof (f_pos xi eta).
  split; [apply Rinv_0_lt_compat; assumption|]. unfold Rdiv. split; ring.
Qed.
Lemma tpoint_norm a0 d0 xi eta : norm (tpoint a0 d0 xi eta) = 1.
Proof.
  assert (dot (tpoint a0 d0 xi eta) (tpoint a0 d0 xi eta) = 1); [|unfold norm; rewrite H; apply sqrt_1].
  destruct (frame_dots a0 d0) as (H1 & H2 & H3 & H4 & H5 & H6).
  assert (L : forall k p q r, dot (scale k (vadd p (vadd q r))) (scale k (vadd p (vadd q r))) = k * k * (dot p p + dot q q + dot r r + 2 * (dot q p + dot r p + dot q r))) by (intros; unfold dot, scale, vadd; cbn [v0 v1 v2]; ring).
  unfold tpoint. rewrite L, !dot_scale_l, !dot_scale_r, H1, H2, H3, H4, H5, H6. pose proof (f_pos xi eta). pose proof (f_sq xi eta) as F.
  set (f := sqrt _) in *. field_simplify_eq; [|lra]. nra.
Qed.
Lemma projects_unique a0 d0 v xi eta : norm v = 1 -> projects a0 d0 v xi eta -> v = tpoint a0 d0 xi eta.
Proof.
  intros NV (P & E & N). set (D := dot v (direction a0 d0)) in *.
  assert (V : v = scale D (vadd (direction a0 d0) (vadd (scale xi (east a0)) (scale eta (north a0 d0))))).
  { rewrite (frame_expand a0 d0 v) at 1. fold D. rewrite E, N. unfold vadd, scale; cbn [v0 v1 v2]. apply vec_eq; cbn [v0 v1 v2]; ring. }
  assert (Q : D * D * (1 + xi * xi + eta * eta) = 1).
  { pose proof (norm_sq v) as S. rewrite NV in S. rewrite V in S.
    assert (L : forall k p q r, dot (scale k (vadd p (vadd q r))) (scale k (vadd p (vadd q r))) = k * k * (dot p p + dot q q + dot r r + 2 * (dot q p + dot r p + dot q r))) by (intros; unfold dot, scale, vadd; cbn [v0 v1 v2]; ring).
    destruct (frame_dots a0 d0) as (H1 & H2 & H3 & H4 & H5 & H6).
    rewrite L, !dot_scale_l, !dot_scale_r, H1, H2, H3, H4, H5, H6 in S. lra. }
  assert (DF : D = / sqrt (1 + xi * xi + eta * eta)).
  { pose proof (f_pos xi eta) as F. pose proof (f_sq xi eta) as FS. set (f := sqrt _) in *. rewrite <- FS in Q.
    assert (D * f = 1). { assert ((D * f) * (D * f) = 1) by lra. assert (0 < D * f) by (apply Rmult_lt_0_compat; assumption). nra. }
    apply Rmult_eq_reg_r with f; [|lra]. rewrite Rinv_l by lra. assumption. }
  unfold tpoint. rewrite <- DF. exact V.
Qed.

(** ** ds2tp and dtp2s *)
Lemma ds2tp_eq (p t : sph RNum) : let v := direction (s_a p) (s_b p) in
  ds2tp (N := RNum) p t =
  let '(st, d) := tp_denom (N := RNum) (dot v (direction (s_a t) (s_b t))) in
  (st, dot v (east (s_a t)) / d, dot v (north (s_a t) (s_b t)) / d).
Proof.
  destruct p as [a b], t as [a0 d0]. cbn [s_a s_b]. cbv zeta. unfold ds2tp. cbn [s_a s_b].
  unR. cbv zeta.
  replace (sin b * sin d0 + cos b * cos d0 * cos (a - a0)) with (dot (direction a b) (direction a0 d0)) by apply dot_direction.
  replace (cos b * sin (a - a0)) with (dot (direction a b) (east a0)) by (unfold dot, direction, east; cbn [v0 v1 v2]; rewrite sin_minus; ring).
  replace (sin b * cos d0 - cos b * sin d0 * cos (a - a0)) with (dot (direction a b) (north a0 d0)) by (unfold dot, direction, north; cbn [v0 v1 v2]; rewrite cos_minus; ring).
  reflexivity.
Qed.

Lemma tiny_eq : Rdec 1 (-6) = 1e-6.
Proof. unfold Rdec. lra. Qed.
Lemma tp_denom_cases d : let '(st, d') := tp_denom (N := RNum) d in
  (1e-6 < d /\ st = TPP_OK /\ d' = d) \/ (0 <= d <= 1e-6 /\ st = TPP_TOO_FAR /\ d' = 1e-6) \/
  (-1e-6 < d < 0 /\ st = TPP_ASTAR_ON_TP /\ d' = -1e-6) \/ (d <= -1e-6 /\ st = TPP_ASTAR_TOO_FAR /\ d' = d).
Proof.
  unfold tp_denom. unR. cbv zeta. rewrite tiny_eq.
  destruct (Rltb_spec 1e-6 d); cbv iota beta; [left; repeat split; assumption|].
  destruct (Rleb_spec 0 d); cbv iota beta; [right; left; repeat split; lra|].
  destruct (Rltb_spec (Ropp 1e-6) d); cbv iota beta; [right; right; left; repeat split; lra|]. right; right; right. repeat split; lra.
Qed.

Lemma ds2tp_spec (p t : sph RNum) : let v := direction (s_a p) (s_b p) in let d := dot v (direction (s_a t) (s_b t)) in
  let '(st, xi, eta) := ds2tp (N := RNum) p t in
  (1e-6 < d /\ st = TPP_OK /\ projects (s_a t) (s_b t) v xi eta) \/
  (0 <= d <= 1e-6 /\ st = TPP_TOO_FAR /\ xi * 1e-6 = dot v (east (s_a t)) /\ eta * 1e-6 = dot v (north (s_a t) (s_b t))) \/
  (-1e-6 < d < 0 /\ st = TPP_ASTAR_ON_TP /\ xi * -1e-6 = dot v (east (s_a t)) /\ eta * -1e-6 = dot v (north (s_a t) (s_b t))) \/
  (d <= -1e-6 /\ st = TPP_ASTAR_TOO_FAR /\ projects (s_a t) (s_b t) (scale (-1) v) xi eta).
Proof.
  cbv zeta. rewrite ds2tp_eq. cbv zeta. pose proof (tp_denom_cases (dot (direction (s_a p) (s_b p)) (direction (s_a t) (s_b t)))) as H.
  destruct (tp_denom (N := RNum) _) as [st d']. change (car RNum) with R in d'.
  set (d := dot (direction (s_a p) (s_b p)) (direction (s_a t) (s_b t))) in *.
  destruct H as [(A & B & C)|[(A & B & C)|[(A & B & C)|(A & B & C)]]]; subst d'.
  - left. split; [exact A|]. split; [exact B|]. unfold projects. fold d. split; [lra|]. split; eqR; field; lra.
  - right; left. split; [exact A|]. split; [exact B|]. split; eqR; field; lra.
  - right; right; left. split; [exact A|]. split; [exact B|]. split; eqR; field; lra.
  - right; right; right. split; [exact A|]. split; [exact B|]. unfold projects. rewrite !dot_scale_l. fold d. split; [lra|]. split; eqR; field; lra.
Qed.

Lemma dtp2s_spec xi eta (t : sph RNum) : let s := dtp2s (N := RNum) xi eta t in
  0 <= s_a s < 2 * PI /\ - (PI / 2) <= s_b s <= PI / 2 /\
  direction (s_a s) (s_b s) = tpoint (s_a t) (s_b t) xi eta.
Proof.
  destruct t as [a0 d0]. cbv zeta. set (D := cos d0 - eta * sin d0). set (Z := sin d0 + eta * cos d0).
  assert (DEF : dtp2s (N := RNum) xi eta (Sph (N := RNum) a0 d0) = Sph (N := RNum) (dranrm (N := RNum) (Ratan2 xi D + a0)) (Ratan2 Z (hyp D xi))).
  { replace (hyp D xi) with (hyp xi D) by (unfold hyp; f_equal; ring). reflexivity. }
  rewrite DEF. clear DEF. cbn [s_a s_b].
  pose proof (f_pos xi eta) as F. pose proof (f_sq xi eta) as FS. set (f := sqrt _) in *.
  assert (SQ : D * D + xi * xi + Z * Z = f * f).
  { rewrite FS. unfold D, Z. pose proof (sc1 d0) as C. unfold Rsqr in C. clear - C. nsatz. }
  pose proof (hyp_sq D xi) as HS. pose proof (hyp_nonneg D xi) as HN.
  assert (HF : hyp (hyp D xi) Z = f) by (apply hyp_eq; lra).
  pose proof (atan2_cos Z (hyp D xi)) as CB. pose proof (atan2_sin Z (hyp D xi)) as SB. rewrite HF in CB, SB.
  pose proof (atan2_cos xi D) as CA. pose proof (atan2_sin xi D) as SA.
  destruct (dranrm_spec (Ratan2 xi D + a0)) as [SM RG]. split; [exact RG|]. split; [apply atan2_range_pos; assumption|].
  apply same_angle_sym in SM. set (aa := dranrm (N := RNum) _) in *. change (car RNum) with R in aa.
  unfold direction at 1. rewrite (same_angle_cos _ _ SM), (same_angle_sin _ _ SM), cos_plus, sin_plus.
  unfold tpoint. fold f. unfold scale, vadd, direction, east, north; cbn [v0 v1 v2].
  set (al := Ratan2 xi D) in *. set (b := Ratan2 Z (hyp D xi)) in *.
  apply vec_eq; cbn [v0 v1 v2]; apply Rmult_eq_reg_l with f; try lra.
  - replace (f * ((cos al * cos a0 - sin al * sin a0) * cos b)) with (((f * cos b) * cos al) * cos a0 - ((f * cos b) * sin al) * sin a0) by ring.
    rewrite CB, CA, SA. unfold D. field. lra.
  - replace (f * ((sin al * cos a0 + cos al * sin a0) * cos b)) with (((f * cos b) * sin al) * cos a0 + ((f * cos b) * cos al) * sin a0) by ring.
    rewrite CB, CA, SA. unfold D. field. lra.
  - rewrite SB. unfold Z. field. lra.
Qed.

Lemma ds2tp_dtp2s xi eta (t : sph RNum) : xi * xi + eta * eta < 999999999999 ->
  ds2tp (N := RNum) (dtp2s (N := RNum) xi eta t) t = (TPP_OK, xi, eta).
Proof.
  intros B. rewrite ds2tp_eq. cbv zeta. destruct (dtp2s_spec xi eta t) as (_ & _ & ->).
  destruct (tpoint_dots (s_a t) (s_b t) xi eta) as (D1 & D2 & D3). rewrite D1, D2, D3.
  pose proof (f_pos xi eta) as F. pose proof (f_sq xi eta) as FS. set (f := sqrt _) in *.
  assert (L : 1e-6 < / f).
  { apply Rmult_lt_reg_r with f; [assumption|]. rewrite Rinv_l by lra. assert (f < 1000000) by nra. lra. }
  pose proof (tp_denom_cases (/ f)) as H. destruct (tp_denom (N := RNum) (/ f)) as [st d']. change (car RNum) with R in d'.
  destruct H as [(A & -> & ->)|[(A & _)|[(A & _)|(A & _)]]]; try lra.
  f_equal; [f_equal|]; eqR; field; lra.
Qed.
Lemma dtp2s_ds2tp (p t : sph RNum) xi eta : ds2tp (N := RNum) p t = (TPP_OK, xi, eta) ->
  let q := dtp2s (N := RNum) xi eta t in direction (s_a q) (s_b q) = direction (s_a p) (s_b p).
Proof.
  intros E. pose proof (ds2tp_spec p t) as H. cbv zeta in H. rewrite E in H.
  destruct H as [(_ & _ & P)|[(_ & X & _)|[(_ & X & _)|(_ & X & _)]]]; try discriminate.
  cbv zeta. destruct (dtp2s_spec xi eta t) as (_ & _ & ->). symmetry. apply projects_unique; [apply norm_direction|exact P].
Qed.

(** ** Vector forms *)
Lemma dtp2v_spec xi eta a0 d0 : - (PI / 2) < d0 < PI / 2 ->
  dtp2v (N := RNum) xi eta (direction a0 d0) = tpoint a0 d0 xi eta.
Proof.
  intros B. pose proof (cos_gt_0 d0 ltac:(lra) ltac:(lra)) as C.
  unfold dtp2v, direction. cbn [v0 v1 v2]. unR. cbv zeta.
  assert (R1 : sqrt (cos a0 * cos d0 * (cos a0 * cos d0) + sin a0 * cos d0 * (sin a0 * cos d0)) = cos d0).
  { apply sqrt_lem_1; [nra|lra|]. pose proof (sc1 a0) as A. unfold Rsqr in A.
    replace (cos a0 * cos d0 * (cos a0 * cos d0) + sin a0 * cos d0 * (sin a0 * cos d0)) with (cos d0 * cos d0 * (cos a0 * cos a0 + sin a0 * sin a0)) by ring.
    replace (cos a0 * cos a0 + sin a0 * sin a0) with 1 by lra. ring. }
  rewrite R1. destruct (Reqb_spec (cos d0) 0); [lra|].
  unfold tpoint, scale, vadd, direction, east, north; cbn [v0 v1 v2]. pose proof (f_pos xi eta) as F. set (f := sqrt (1 + _ + _)) in *.
  apply vec_eq; cbn [v0 v1 v2]; field; lra.
Qed.
Lemma dv2tp_spec (v : RV) a0 d0 : - (PI / 2) < d0 < PI / 2 ->
  dv2tp (N := RNum) v (direction a0 d0) =
  let '(st, d) := tp_denom (N := RNum) (dot v (direction a0 d0)) in
  (st, dot v (east a0) / d, dot v (north a0 d0) / d).
Proof.
  intros B. pose proof (cos_gt_0 d0 ltac:(lra) ltac:(lra)) as C. destruct v as [x y z].
  unfold dv2tp. cbn [v0 v1 v2]. 
  change (v0 (direction a0 d0)) with (cos a0 * cos d0). change (v1 (direction a0 d0)) with (sin a0 * cos d0). change (v2 (direction a0 d0)) with (sin d0). unR. cbv zeta.
  assert (R0 : cos a0 * cos d0 * (cos a0 * cos d0) + sin a0 * cos d0 * (sin a0 * cos d0) = cos d0 * cos d0).
  { pose proof (sc1 a0) as A. unfold Rsqr in A.
    replace (cos a0 * cos d0 * (cos a0 * cos d0) + sin a0 * cos d0 * (sin a0 * cos d0)) with (cos d0 * cos d0 * (cos a0 * cos a0 + sin a0 * sin a0)) by ring.
    replace (cos a0 * cos a0 + sin a0 * sin a0) with 1 by lra. ring. }
  rewrite R0. assert (R1 : sqrt (cos d0 * cos d0) = cos d0) by (apply sqrt_square; lra). rewrite R1.
  destruct (Reqb_spec (cos d0) 0); [lra|].
  change (x * (cos a0 * cos d0) + y * (sin a0 * cos d0) + z * sin d0) with (dot (V3 x y z) (direction a0 d0)).
  pose proof (tp_denom_cases (dot (V3 x y z) (direction a0 d0))) as H.
  set (w := @tp_denom RNum (dot (V3 x y z) (direction a0 d0))) in *.
  repeat match goal with |- context [@tp_denom ?n ?r] => change (@tp_denom n r) with w end.
  destruct w as [st d'].
  change (car RNum) with R in d'. assert (d' <> 0) by (destruct H as [(A & _ & ->)|[(A & _ & ->)|[(A & _ & ->)|(A & _ & ->)]]]; lra).
  unfold dot, east, north; cbn [v0 v1 v2]. f_equal; [f_equal|]; eqR; field; split; lra.
Qed.
Lemma dv2tp_ds2tp (p t : sph RNum) : - (PI / 2) < s_b t < PI / 2 ->
  dv2tp (N := RNum) (dcs2c (N := RNum) p) (dcs2c (N := RNum) t) = ds2tp (N := RNum) p t.
Proof. intros B. rewrite !dcs2c_direction, ds2tp_eq. apply dv2tp_spec. assumption. Qed.
Lemma dtp2v_dtp2s xi eta (t : sph RNum) : - (PI / 2) < s_b t < PI / 2 ->
  dtp2v (N := RNum) xi eta (dcs2c (N := RNum) t) = dcs2c (N := RNum) (dtp2s (N := RNum) xi eta t).
Proof.
  intros B. rewrite !dcs2c_direction. destruct (dtp2s_spec xi eta t) as (_ & _ & E).
  exact (eq_trans (dtp2v_spec xi eta (s_a t) (s_b t) B) (eq_sym E)).
Qed.
