(** Concrete cases and restatements used beside the sphere theorems. *)
From Coq Require Import ZArith Reals Lra Lia Psatz Bool.
From Verif Require Import L_Pi Num NumR L_Real M_Vec S_Geom L_Vec L_Rot M_Angle L_Angle M_Sphere S_Sphere L_Sphere L_Bear L_Altaz L_Tan L_Tps L_Pda.
Open Scope R_scope.

Lemma direction_00 : direction 0 0 = V3 1 0 0.
Proof. unfold direction. rewrite sin_0, cos_0. apply vec_eq; cbn [v0 v1 v2]; ring. Qed.
Lemma direction_pi2 : direction (PI / 2) 0 = V3 0 1 0.
Proof. unfold direction. rewrite sin_0, cos_0, sin_PI2, cos_PI2. apply vec_eq; cbn [v0 v1 v2]; ring. Qed.
Lemma dsep_case : dsep (N := RNum) (Sph (N := RNum) 0 0) (Sph (N := RNum) (PI / 2) 0) = PI / 2.
Proof.
  unfold dsep. rewrite !dcs2c_direction. cbn [s_a s_b]. rewrite direction_00, direction_pi2. rewrite dsepv_eq.
  unfold dot; cbn [v0 v1 v2]. replace (1 * 0 + 0 * 1 + 0 * 0) with 0 by ring. unfold Ratan2.
  destruct (Rlt_dec 0 0); [lra|]. assert (0 < norm (cross (V3 1 0 0) (V3 0 1 0))).
  { apply norm_pos. unfold cross, vzero; cbn [v0 v1 v2]. intros E. apply vinj in E. lra. }
  destruct (Rlt_dec _ _); [reflexivity|lra].
Qed.
Lemma dbear_case : dbear (N := RNum) (Sph (N := RNum) 0 0) (Sph (N := RNum) (PI / 2) 0) = PI / 2.
Proof.
  pose proof PI_RGT_0. eapply bearing_unique; [apply dbear_spec|]. cbn [s_a s_b]. left. split; [lra|]. exists 1. rewrite direction_pi2.
  unfold dot, north, east; cbn [v0 v1 v2]. rewrite sin_0, cos_0, sin_PI2, cos_PI2. repeat split; lra.
Qed.
(** A star on the equator at hour angle -90 degrees rises due east at any latitude. *)
Lemma de2h_case phi : s_b (de2h (N := RNum) (Sph (N := RNum) (- (PI / 2)) 0) phi) = 0 /\
  s_a (de2h (N := RNum) (Sph (N := RNum) (- (PI / 2)) 0) phi) = PI / 2.
Proof.
  pose proof PI_RGT_0. pose proof (de2h_spec (Sph (N := RNum) (- (PI / 2)) 0) phi) as D. cbv zeta in D. cbn [s_a s_b] in D.
  assert (HZ : horizon phi (direction (- (PI / 2)) 0) (PI / 2) 0).
  { unfold horizon, direction, north_point, east_point, zenith, direction, dot; cbn [v0 v1 v2]. rewrite sin_neg, cos_neg, sin_PI2, cos_PI2, sin_0, cos_0. repeat split; lra. }
  destruct (horizon_unique _ _ _ _ _ _ D HZ) as [E1 E2]. split; [exact E1|]. apply E2. rewrite E1, cos_0. lra.
Qed.
Lemma zd_case phi : zd (N := RNum) (Sph (N := RNum) (- (PI / 2)) 0) phi = PI / 2.
Proof. rewrite (proj1 (zd_spec _ _)), (proj1 (de2h_case phi)). eqR. lra. Qed.
Lemma altaz_case : let e := am_el (altaz (N := RNum) (Sph (N := RNum) (- (PI / 2)) 0) 1) in Rdec 1 (-30) < cos e * cos e.
Proof.
  cbv zeta. destruct (altaz_de2h (Sph (N := RNum) (- (PI / 2)) 0) 1) as [_ E]. rewrite E, (proj1 (de2h_case 1)), cos_0. unfold Rdec.
  apply Rmult_lt_reg_r with (IZR (Z.pow_pos 10 30)); [apply IZR_lt; reflexivity|]. unfold Rdiv. rewrite Rmult_assoc, Rinv_l by (apply not_0_IZR; discriminate).
  rewrite !Rmult_1_l. apply IZR_lt. reflexivity.
Qed.
Lemma dtp2s_projects xi eta (t : sph RNum) : let s := dtp2s (N := RNum) xi eta t in
  0 <= s_a s < 2 * PI /\ - (PI / 2) <= s_b s <= PI / 2 /\
  projects (s_a t) (s_b t) (direction (s_a s) (s_b s)) xi eta.
Proof. destruct (dtp2s_spec xi eta t) as (A & B & C). cbv zeta. split; [exact A|]. split; [exact B|]. rewrite C. apply tpoint_projects. Qed.
Lemma dtp2v_projects xi eta a0 d0 : - (PI / 2) < d0 < PI / 2 -> let v := dtp2v (N := RNum) xi eta (direction a0 d0) in
  norm v = 1 /\ projects a0 d0 v xi eta.
Proof. intros B. cbv zeta. rewrite dtp2v_spec by exact B. split; [apply tpoint_norm|apply tpoint_projects]. Qed.

Lemma antistar_case : ds2tp (N := RNum) (Sph (N := RNum) PI 0) (Sph (N := RNum) 0 0) = (TPP_ASTAR_TOO_FAR, 0, 0).
Proof.
  pose proof (ds2tp_spec (Sph (N := RNum) PI 0) (Sph (N := RNum) 0 0)) as H. cbv zeta in H. cbn [s_a s_b] in H.
  destruct (ds2tp (N := RNum) _ _) as [[st xi] eta]. change (car RNum) with R in *.
  assert (D : dot (direction PI 0) (direction 0 0) = -1). { rewrite direction_00. unfold dot, direction; cbn [v0 v1 v2]. rewrite cos_PI, sin_PI, sin_0, cos_0. ring. }
  rewrite D in H. destruct H as [H|[H|[H|H]]]; try lra. destruct H as (_ & -> & P).
  destruct P as (_ & P1 & P2). rewrite !dot_scale_l, D in P1, P2.
  unfold dot, direction, east, north in P1, P2; cbn [v0 v1 v2] in P1, P2. rewrite cos_PI, sin_PI, sin_0, cos_0 in P1, P2.
  f_equal; [f_equal|]; lra.
Qed.
(** The documented names of the two antistar statuses are interchanged. *)
Lemma antistar_status_refuted : ~ (forall (p t : sph RNum) xi eta, ds2tp (N := RNum) p t = (TPP_ASTAR_ON_TP, xi, eta) ->
  projects (s_a t) (s_b t) (scale (-1) (direction (s_a p) (s_b p))) xi eta).
Proof.
  intros H. pose proof PI_bounds as PB. set (e := 1 / 10000000).
  pose proof (sin_gt_0 e ltac:(unfold e; lra) ltac:(unfold e; lra)) as S0. pose proof (sin_lt_x e ltac:(unfold e; lra)) as S1. unfold e in S1 at 2.
  pose proof (ds2tp_spec (Sph (N := RNum) (PI / 2 + e) 0) (Sph (N := RNum) 0 0)) as SP. cbv zeta in SP.
  specialize (H (Sph (N := RNum) (PI / 2 + e) 0) (Sph (N := RNum) 0 0)). cbn [s_a s_b] in SP, H.
  assert (DI : direction (PI / 2 + e) 0 = V3 (- sin e) (cos e) 0).
  { unfold direction. rewrite cos_plus, sin_plus, sin_PI2, cos_PI2, sin_0, cos_0. apply vec_eq; cbn [v0 v1 v2]; ring. }
  rewrite DI in SP, H. rewrite direction_00 in SP. unfold dot, east, north, scale in SP; cbn [v0 v1 v2] in SP. rewrite sin_0, cos_0 in SP.
  destruct (ds2tp (N := RNum) _ _) as [[st xi] eta]. change (car RNum) with R in *.
  assert (C0 : 0 < cos e) by (apply cos_gt_0; unfold e; lra).
  destruct SP as [SP|[SP|[SP|SP]]]; try lra. destruct SP as (_ & -> & X1 & _). specialize (H xi eta eq_refl).
  destruct H as (_ & P1 & _). unfold dot, east, direction, scale in P1; cbn [v0 v1 v2] in P1. rewrite sin_0, cos_0 in P1.
  assert (XE : xi = - (1000000 * cos e)) by lra. rewrite XE in P1. nra.
Qed.
Lemma ds2tp_case : ds2tp (N := RNum) (dtp2s (N := RNum) 3 (-2) (Sph (N := RNum) 1 1)) (Sph (N := RNum) 1 1) = (TPP_OK, 3, -2).
Proof. apply ds2tp_dtp2s. lra. Qed.
(** A star on the equator seen at the tangent point: one useful solution. *)
Lemma dtps2c_case : exists s1 s2, dtps2c (N := RNum) 0 0 (Sph (N := RNum) 1 0) = (1%Z, Some (s1, s2)) /\ s_b s1 = 0 /\ s_b s2 = PI.
Proof.
  pose proof PI_bounds. rewrite dtps2c_eq by (rewrite cos_0; lra). rewrite sin_0, cos_0.
  replace (1 * 1 * (1 + 0 * 0) - 0 * 0 * (0 * 0)) with 1 by ring. rewrite sqrt_1. rewrite Rmult_0_l.
  destruct (Rleb_spec 0 1); [|lra]. destruct (Rltb_spec (Rabs 0) 1) as [L|L]; [|rewrite Rabs_R0 in L; lra].
  do 2 eexists. split; [reflexivity|]. cbn [s_b]. unfold tps_b. split.
  - replace (0 - 0 * 1) with 0 by ring. replace (0 * 0 + 1) with 1 by ring. apply (atan2_unique 0 1 1 0); rewrite ?cos_0, ?sin_0; lra.
  - replace (0 - 0 * - (1)) with 0 by ring. replace (0 * 0 + - (1)) with (-1) by ring. apply (atan2_unique 0 (-1) 1 PI); rewrite ?cos_PI, ?sin_PI; lra.
Qed.
(** Latitude pi/4, declination pi/6, azimuth pi/2: non-critical, and solvable. *)
Lemma pda2h_case : away (PI / 4) 0 /\ away (PI / 4) (PI / 2) /\ away (PI / 6) 0 /\ away (PI / 6) (PI / 2) /\ away (PI / 6) (Rabs (PI / 4)) /\
  away (PI / 2) 0 /\ away (PI / 2) PI /\ exists h, flagged (pda2h (N := RNum) (PI / 4) (PI / 6) (PI / 2)) h.
Proof.
  pose proof PI_bounds as PB.
  assert (W : away (PI / 4) 0 /\ away (PI / 4) (PI / 2) /\ away (PI / 6) 0 /\ away (PI / 6) (PI / 2) /\ away (PI / 6) (Rabs (PI / 4)) /\
    away (PI / 2) 0 /\ away (PI / 2) PI).
  { unfold away. repeat split; cases_abs; lra. }
  destruct W as (W1 & W2 & W3 & W4 & W5 & W6 & W7). repeat (split; [assumption|]).
  assert (CO : congruent (PI / 2) (PI / 2)) by (exists 0%Z; lra).
  destruct (pda2h_exact (PI / 4) (PI / 6) (PI / 2) (PI / 2) ltac:(lra) ltac:(lra) W1 W2 W3 W4 W5 CO ltac:(lra) W6 W7) as [_ E].
  (* the hour angle with tan dec = tan phi cos h, east of the meridian *)
  set (c := tan (PI / 6)). assert (CB : 0 < c < 1).
  { unfold c. rewrite tan_PI6. pose proof (sqrt_lt_R0 3 ltac:(lra)). pose proof (sqrt_sqrt 3 ltac:(lra)). split; [apply Rdiv_lt_0_compat; lra|]. apply Rmult_lt_reg_r with (sqrt 3); [lra|]. unfold Rdiv. rewrite Rmult_assoc, Rinv_l by lra. nra. }
  assert (HC : cos (- acos c) = c) by (rewrite cos_neg; apply cos_acos; lra).
  assert (HS : 0 < - sin (- acos c)).
  { rewrite sin_neg, Ropp_involutive. rewrite sin_acos by lra. apply sqrt_lt_R0. unfold Rsqr. nra. }
  assert (C6 : 0 < cos (PI / 6)) by (apply cos_gt_0; lra).
  destruct (E (- acos c)) as (h' & F & _); [|exists h'; exact F].
  exists (- sin (- acos c) * cos (PI / 6)). split; [apply Rmult_lt_0_compat; assumption|].
  unfold dot, direction, north_point, east_point; cbn [v0 v1 v2]. rewrite HC, cos_PI2, sin_PI2. split; [|ring].
  assert (T : c * cos (PI / 6) = sin (PI / 6)) by (unfold c, tan; field; lra). rewrite <- T. rewrite sin_PI4, cos_PI4. ring.
Qed.
