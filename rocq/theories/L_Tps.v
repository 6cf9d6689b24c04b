(** Recovering the tangent point from a star (dtps2c, dtpv2c) over the reals. *)
From Coq Require Import ZArith Reals Lra Lia Psatz Nsatz Bool.
From Verif Require Import L_Pi Num NumR L_Real M_Vec S_Geom L_Vec L_Rot M_Angle L_Angle M_Sphere S_Sphere L_Sphere L_Bear L_Tan.
Open Scope R_scope.

Lemma dranrm_sin_cos x : sin (dranrm (N := RNum) x) = sin x /\ cos (dranrm (N := RNum) x) = cos x.
Proof.
  destruct (dranrm_spec x) as [S _]. split; symmetry; [apply same_angle_sin|apply same_angle_cos]; exact S.
Qed.

(** [rho] is the signed root; (a, b) the tangent point it belongs to. *)
Definition tps_a (ra xi rho : R) : R := dranrm (N := RNum) (ra - Ratan2 xi rho).
Definition tps_b (sdf eta rho : R) : R := Ratan2 (sdf - eta * rho) (sdf * eta + rho).

Lemma dtps2c_def xi eta ra dec : dtps2c (N := RNum) xi eta (Sph (N := RNum) ra dec) =
  let sdf := sin dec * sqrt (1 + xi * xi + eta * eta) in
  let r2 := cos dec * cos dec * (1 + eta * eta) - sin dec * sin dec * (xi * xi) in
  if Rleb 0 r2 then
    let r := sqrt r2 in let r' := if (Reqb xi 0 && Reqb r 0)%bool then 1 else r in
    ((if Rltb (Rabs sdf) 1 then 1%Z else 2%Z),
     Some (Sph (N := RNum) (tps_a ra xi r') (tps_b sdf eta r), Sph (N := RNum) (tps_a ra xi (- r')) (tps_b sdf eta (- r'))))
  else (0%Z, None).
Proof. reflexivity. Qed.

Section TPS.
Variables xi eta ra dec : R.
Hypothesis CD : 0 < cos dec.
Let f := sqrt (1 + xi * xi + eta * eta).
Let sdf := sin dec * f.
Let r2 := cos dec * cos dec * (1 + eta * eta) - sin dec * sin dec * (xi * xi).

Lemma tps_sdf : sdf * sdf + r2 = 1 + eta * eta.
Proof.
  unfold sdf, r2. pose proof (f_sq xi eta) as F. fold f in F. pose proof (sc1 dec) as C. unfold Rsqr in C. clearbody f. nsatz.
Qed.
Lemma tps_hyp rho : rho * rho = r2 -> hyp rho xi = cos dec * f.
Proof.
  intros E. apply hyp_eq; [apply Rmult_le_pos; [lra|left; apply f_pos]|]. rewrite E.
  unfold r2. pose proof (f_sq xi eta) as F. fold f in F. pose proof (sc1 dec) as C. unfold Rsqr in C. clearbody f. clear E. nsatz.
Qed.
Lemma tps_b_polar rho : rho * rho = r2 -> let b := tps_b sdf eta rho in
  (1 + eta * eta) * cos b = sdf * eta + rho /\ (1 + eta * eta) * sin b = sdf - eta * rho.
Proof.
  intros E b. pose proof tps_sdf as S.
  assert (H : hyp (sdf * eta + rho) (sdf - eta * rho) = 1 + eta * eta).
  { apply hyp_eq; [nra|]. clear b. clearbody sdf r2. nsatz. }
  unfold b, tps_b. rewrite <- H. split; [apply atan2_cos|apply atan2_sin].
Qed.

Lemma tps_projects rho : rho * rho = r2 ->
  projects (tps_a ra xi rho) (tps_b sdf eta rho) (direction ra dec) xi eta.
Proof.
  intros E. destruct (tps_b_polar rho E) as [CB SB]. pose proof (tps_hyp rho E) as H. pose proof (f_pos xi eta) as F. fold f in F.
  pose proof (atan2_cos xi rho) as CA. pose proof (atan2_sin xi rho) as SA. rewrite H in CA, SA.
  enough (T : direction ra dec = tpoint (tps_a ra xi rho) (tps_b sdf eta rho) xi eta) by (rewrite T at 1; apply tpoint_projects).
  destruct (dranrm_sin_cos (ra - Ratan2 xi rho)) as [DS DC].
  unfold tpoint, tps_a. fold f. unfold scale, vadd, direction, east, north; cbn [v0 v1 v2]. rewrite DS, DC, cos_minus, sin_minus.
  set (al := Ratan2 xi rho) in *. set (b := tps_b sdf eta rho) in *.
  assert (B1 : sin b + eta * cos b = sdf). { apply Rmult_eq_reg_l with (1 + eta * eta); [|nra]. replace ((1 + eta * eta) * (sin b + eta * cos b)) with ((1 + eta * eta) * sin b + eta * ((1 + eta * eta) * cos b)) by ring. rewrite CB, SB. ring. }
  assert (B2 : cos b - eta * sin b = rho). { apply Rmult_eq_reg_l with (1 + eta * eta); [|nra]. replace ((1 + eta * eta) * (cos b - eta * sin b)) with ((1 + eta * eta) * cos b - eta * ((1 + eta * eta) * sin b)) by ring. rewrite CB, SB. ring. }
  pose proof (sc1 al) as Q. unfold Rsqr in Q.
  apply vec_eq; cbn [v0 v1 v2]; apply Rmult_eq_reg_l with f; try lra.
  - match goal with |- _ = f * (/ f * ?e) => replace (f * (/ f * e)) with e by (field; lra) end.
    replace ((cos ra * cos al + sin ra * sin al) * cos b + (xi * - (sin ra * cos al - cos ra * sin al) + eta * - ((cos ra * cos al + sin ra * sin al) * sin b)))
      with ((cos ra * cos al + sin ra * sin al) * (cos b - eta * sin b) - xi * (sin ra * cos al - cos ra * sin al)) by ring.
    rewrite B2, <- CA, <- SA. replace (cos dec * f * sin al * (sin ra * cos al - cos ra * sin al)) with (cos dec * f * (sin al * sin ra * cos al - cos ra * (sin al * sin al))) by ring.
    replace (sin al * sin al) with (1 - cos al * cos al) by lra. ring.
  - match goal with |- _ = f * (/ f * ?e) => replace (f * (/ f * e)) with e by (field; lra) end.
    replace ((sin ra * cos al - cos ra * sin al) * cos b + (xi * (cos ra * cos al + sin ra * sin al) + eta * - ((sin ra * cos al - cos ra * sin al) * sin b)))
      with ((sin ra * cos al - cos ra * sin al) * (cos b - eta * sin b) + xi * (cos ra * cos al + sin ra * sin al)) by ring.
    rewrite B2, <- CA, <- SA.
    replace ((sin ra * cos al - cos ra * sin al) * (cos dec * f * cos al) + cos dec * f * sin al * (cos ra * cos al + sin ra * sin al))
      with (cos dec * f * sin ra * (cos al * cos al + sin al * sin al)) by ring.
    replace (cos al * cos al + sin al * sin al) with 1 by lra. ring.
  - match goal with |- _ = f * (/ f * ?e) => replace (f * (/ f * e)) with e by (field; lra) end. unfold sdf in B1. lra.
Qed.

(** Every tangent point belongs to one of the two roots. *)
Lemma tps_complete a b : projects a b (direction ra dec) xi eta ->
  0 <= r2 /\ exists rho, rho * rho = r2 /\ congruent a (tps_a ra xi rho) /\ congruent b (tps_b sdf eta rho).
Proof.
  intros P. apply projects_unique in P; [|apply norm_direction]. pose proof (f_pos xi eta) as F. fold f in F.
  unfold tpoint in P. fold f in P. unfold scale, vadd, direction, east, north in P; cbn [v0 v1 v2] in P. apply vinj in P. destruct P as (P1 & P2 & P3).
  set (rho := cos b - eta * sin b).
  assert (Q1 : f * (cos ra * cos dec) = cos a * rho - xi * sin a) by (rewrite P1; unfold rho; field; lra).
  assert (Q2 : f * (sin ra * cos dec) = sin a * rho + xi * cos a) by (rewrite P2; unfold rho; field; lra).
  assert (Q3 : sdf = sin b + eta * cos b) by (unfold sdf; rewrite P3; field; lra). clear P1 P2 P3.
  pose proof (sc1 b) as SB. pose proof (sc1 a) as SA. unfold Rsqr in SA, SB.
  assert (E : rho * rho = r2). { pose proof tps_sdf as S. rewrite Q3 in S. unfold rho. clear - S SB. clearbody r2. nsatz. }
  split; [rewrite <- E; nra|]. exists rho. split; [exact E|]. split.
  - (* ra - a is the polar angle of (rho, xi) *)
    assert (K : same_angle (Ratan2 xi rho) (ra - a)).
    { apply (atan2_same_angle xi rho (cos dec * f)); [apply Rmult_lt_0_compat; assumption| |].
      - rewrite cos_minus. replace (cos dec * f * (cos ra * cos a + sin ra * sin a)) with ((f * (cos ra * cos dec)) * cos a + (f * (sin ra * cos dec)) * sin a) by ring.
        rewrite Q1, Q2. replace ((cos a * rho - xi * sin a) * cos a + (sin a * rho + xi * cos a) * sin a) with (rho * (cos a * cos a + sin a * sin a)) by ring.
        replace (cos a * cos a + sin a * sin a) with 1 by lra. ring.
      - rewrite sin_minus. replace (cos dec * f * (sin ra * cos a - cos ra * sin a)) with ((f * (sin ra * cos dec)) * cos a - (f * (cos ra * cos dec)) * sin a) by ring.
        rewrite Q1, Q2. replace ((sin a * rho + xi * cos a) * cos a - (cos a * rho - xi * sin a) * sin a) with (xi * (cos a * cos a + sin a * sin a)) by ring.
        replace (cos a * cos a + sin a * sin a) with 1 by lra. ring. }
    destruct K as [k K]. destruct (dranrm_spec (ra - Ratan2 xi rho)) as [[j J] _]. unfold tps_a.
    exists (j + k)%Z. rewrite plus_IZR. set (w := dranrm (N := RNum) _) in *. change (car RNum) with R in w. lra.
  - apply same_angle_sym. unfold tps_b. apply (atan2_same_angle _ _ (1 + eta * eta)); [nra| |]; rewrite Q3; unfold rho; ring.
Qed.

(** The latitudes of the two roots: product of cosines. *)
Lemma tps_cos_product r : r * r = r2 -> 0 <= r ->
  let b1 := tps_b sdf eta r in let b2 := tps_b sdf eta (- r) in
  (Rabs sdf < 1 -> 0 < cos b1 /\ cos b2 < 0) /\ (1 <= Rabs sdf -> 0 <= cos b1 * cos b2).
Proof.
  intros E P b1 b2. destruct (tps_b_polar r E) as [C1 _]. destruct (tps_b_polar (- r) ltac:(rewrite <- E; ring)) as [C2 _].
  fold b1 in C1. fold b2 in C2. pose proof tps_sdf as S. set (K := 1 + eta * eta) in *. assert (KP : 0 < K) by (unfold K; nra).
  assert (PR : K * K * (cos b1 * cos b2) = K * (sdf * sdf - 1)).
  { replace (K * K * (cos b1 * cos b2)) with ((K * cos b1) * (K * cos b2)) by ring. rewrite C1, C2.
    replace ((sdf * eta + r) * (sdf * eta + - r)) with (sdf * sdf * (eta * eta) - r * r) by ring. rewrite E. unfold K in *. nra. }
  assert (DF : K * cos b2 <= K * cos b1) by lra. apply Rmult_le_reg_l in DF; [|assumption].
  assert (PR' : K * (cos b1 * cos b2) = sdf * sdf - 1) by (apply Rmult_eq_reg_l with K; lra).
  split; intros H.
  - assert (sdf * sdf < 1). { pose proof (Rabs_pos sdf). replace (sdf * sdf) with (Rabs sdf * Rabs sdf) by (rewrite <- Rabs_mult; apply Rabs_right; nra). nra. }
    assert (K * (cos b1 * cos b2) < 0) by lra. assert (cos b1 * cos b2 < 0) by nra. split; nra.
  - assert (1 <= sdf * sdf). { replace (sdf * sdf) with (Rabs sdf * Rabs sdf) by (rewrite <- Rabs_mult; apply Rabs_right; nra). nra. }
    assert (0 <= K * (cos b1 * cos b2)) by lra. nra.
Qed.

Lemma dtps2c_eq : dtps2c (N := RNum) xi eta (Sph (N := RNum) ra dec) =
  if Rleb 0 r2 then ((if Rltb (Rabs sdf) 1 then 1%Z else 2%Z),
     Some (Sph (N := RNum) (tps_a ra xi (sqrt r2)) (tps_b sdf eta (sqrt r2)), Sph (N := RNum) (tps_a ra xi (- sqrt r2)) (tps_b sdf eta (- sqrt r2))))
  else (0%Z, None).
Proof.
  assert (NZ : 0 <= r2 -> ~ (xi = 0 /\ sqrt r2 = 0)).
  { intros P [X S]. pose proof (tps_hyp (sqrt r2) ltac:(apply sqrt_sqrt; assumption)) as H. rewrite X, S, hyp_00 in H.
    pose proof (f_pos xi eta) as F. fold f in F. assert (0 < cos dec * f) by (apply Rmult_lt_0_compat; assumption). lra. }
  rewrite dtps2c_def. fold f. fold sdf. fold r2. cbv zeta. destruct (Rleb_spec 0 r2) as [P|P]; [|reflexivity]. cbv zeta.
  replace ((Reqb xi 0 && Reqb (sqrt r2) 0)%bool) with false; [reflexivity|].
  specialize (NZ P). symmetry. destruct (Reqb_spec xi 0); destruct (Reqb_spec (sqrt r2) 0); try reflexivity. tauto.
Qed.
End TPS.

(** Statement form: soundness, completeness, count. *)
Lemma dtps2c_sound xi eta ra dec n s1 s2 : - (PI / 2) < dec < PI / 2 ->
  dtps2c (N := RNum) xi eta (Sph (N := RNum) ra dec) = (n, Some (s1, s2)) ->
  forall s, s = s1 \/ s = s2 ->
  0 <= s_a s < 2 * PI /\ - PI < s_b s <= PI /\ projects (s_a s) (s_b s) (direction ra dec) xi eta.
Proof.
  intros B E s HS. pose proof (cos_gt_0 dec ltac:(lra) ltac:(lra)) as CD. rewrite dtps2c_eq in E by assumption.
  match type of E with context [Rleb 0 ?e] => set (r2 := e) in * end. destruct (Rleb_spec 0 r2) as [P|P]; [|discriminate].
  pose proof (sqrt_sqrt r2 P) as Q. inversion E; subst s1 s2. clear E.
  assert (G : forall rho, rho * rho = r2 -> let q := Sph (N := RNum) (tps_a ra xi rho) (tps_b (sin dec * sqrt (1 + xi * xi + eta * eta)) eta rho) in
     0 <= s_a q < 2 * PI /\ - PI < s_b q <= PI /\ projects (s_a q) (s_b q) (direction ra dec) xi eta).
  { intros rho R1. cbn [s_a s_b]. split; [apply dranrm_spec|]. split; [apply atan2_range|]. apply tps_projects; assumption. }
  destruct HS as [-> | ->]; apply G; [exact Q|]. rewrite <- Q at 3. ring.
Qed.

Lemma dtps2c_complete xi eta ra dec a b : - (PI / 2) < dec < PI / 2 ->
  projects a b (direction ra dec) xi eta ->
  exists n s1 s2, dtps2c (N := RNum) xi eta (Sph (N := RNum) ra dec) = (n, Some (s1, s2)) /\
    (congruent a (s_a s1) /\ congruent b (s_b s1) \/ congruent a (s_a s2) /\ congruent b (s_b s2)).
Proof.
  intros B PR. pose proof (cos_gt_0 dec ltac:(lra) ltac:(lra)) as CD. destruct (tps_complete xi eta ra dec CD a b PR) as (P & rho & E & C1 & C2).
  rewrite dtps2c_eq by assumption. match goal with |- context [Rleb 0 ?e] => set (r2 := e) in * end. destruct (Rleb_spec 0 r2); [|lra].
  do 3 eexists. split; [reflexivity|]. cbn [s_a s_b].
  assert (rho = sqrt r2 \/ rho = - sqrt r2) as [-> | ->].
  { pose proof (sqrt_sqrt r2 P) as Q. rewrite <- Q in E. assert ((rho - sqrt r2) * (rho + sqrt r2) = 0) as Z by lra.
    apply Rmult_integral in Z. destruct Z; [left|right]; lra. }
  - left. split; assumption.
  - right. split; assumption.
Qed.

Lemma dtps2c_count xi eta ra dec n s1 s2 : - (PI / 2) < dec < PI / 2 ->
  dtps2c (N := RNum) xi eta (Sph (N := RNum) ra dec) = (n, Some (s1, s2)) ->
  (n = 1%Z /\ 0 < cos (s_b s1) /\ cos (s_b s2) < 0) \/ (n = 2%Z /\ 0 <= cos (s_b s1) * cos (s_b s2)).
Proof.
  intros B E. pose proof (cos_gt_0 dec ltac:(lra) ltac:(lra)) as CD. rewrite dtps2c_eq in E by assumption.
  match type of E with context [Rleb 0 ?e] => set (r2 := e) in * end. destruct (Rleb_spec 0 r2) as [P|P]; [|discriminate].
  destruct (tps_cos_product xi eta dec (sqrt r2) (sqrt_sqrt r2 P) (sqrt_pos r2)) as [C1 C2].
  inversion E. cbn [s_a s_b]. destruct (Rltb_spec (Rabs (sin dec * sqrt (1 + xi * xi + eta * eta))) 1).
  - left. split; [reflexivity|]. apply C1. assumption.
  - right. split; [reflexivity|]. apply C2. lra.
Qed.

(** A star exactly at the pole: a non-zero xi is impossible and reported so; with
    xi = 0 the first solution is right and the second is not. *)
Lemma dtps2c_pole_none xi eta ra : xi <> 0 -> dtps2c (N := RNum) xi eta (Sph (N := RNum) ra (PI / 2)) = (0%Z, None).
Proof.
  intros X. rewrite dtps2c_def. cbv zeta. rewrite cos_PI2, sin_PI2. destruct (Rleb_spec 0 (0 * 0 * (1 + eta * eta) - 1 * 1 * (xi * xi))) as [P|P]; [nra|reflexivity].
Qed.
Lemma dtps2c_pole_refuted : ~ (forall xi eta ra dec n s1 s2, - (PI / 2) <= dec <= PI / 2 ->
  dtps2c (N := RNum) xi eta (Sph (N := RNum) ra dec) = (n, Some (s1, s2)) -> n = 2%Z ->
  projects (s_a s2) (s_b s2) (direction ra dec) xi eta).
Proof.
  intros H. pose proof PI_RGT_0.
  assert (E : dtps2c (N := RNum) 0 0 (Sph (N := RNum) 0 (PI / 2)) =
    (2%Z, Some (Sph (N := RNum) (tps_a 0 0 1) (tps_b 1 0 0), Sph (N := RNum) (tps_a 0 0 (- 1)) (tps_b 1 0 (- 1))))).
  { rewrite dtps2c_def. cbv zeta. rewrite cos_PI2, sin_PI2.
    replace (1 + 0 * 0 + 0 * 0) with 1 by ring. rewrite sqrt_1. replace (0 * 0 * (1 + 0 * 0) - 1 * 1 * (0 * 0)) with 0 by ring.
    rewrite sqrt_0. destruct (Rleb_spec 0 0); [|lra]. destruct (Reqb_spec 0 0); [|lra]. cbn [andb].
    replace (1 * 1) with 1 by ring. destruct (Rltb_spec (Rabs 1) 1) as [L|L]; [rewrite Rabs_R1 in L; lra|]. reflexivity. }
  specialize (H 0 0 0 (PI / 2) _ _ _ ltac:(lra) E eq_refl). cbn [s_a s_b] in H. destruct H as (_ & _ & N).
  unfold tps_b in N. replace (1 - 0 * -1) with 1 in N by ring. replace (1 * 0 + -1) with (-1) in N by ring.
  pose proof (atan2_cos 1 (-1)) as C. pose proof (hyp_pos (-1) 1 ltac:(right; lra)) as HP. set (b := Ratan2 1 (-1)) in *.
  unfold dot, direction, north in N; cbn [v0 v1 v2] in N. rewrite cos_PI2, sin_PI2 in N.
  assert (CB : cos b = 0) by lra. rewrite CB in C. lra.
Qed.

(** ** The Cartesian form *)
Lemma dtpv2c_eq xi eta ra dec : 0 < cos dec ->
  let f := sqrt (1 + xi * xi + eta * eta) in let sdf := sin dec * f in
  let r2 := cos dec * cos dec * (1 + eta * eta) - sin dec * sin dec * (xi * xi) in
  dtpv2c (N := RNum) xi eta (direction ra dec) =
  if Rltb 0 r2 then ((if Rltb (Rabs sdf) 1 then 1%Z else 2%Z),
    Some (direction (tps_a ra xi (sqrt r2)) (tps_b sdf eta (sqrt r2)), direction (tps_a ra xi (- sqrt r2)) (tps_b sdf eta (- sqrt r2))))
  else (0%Z, None).
Proof.
  intros CD f sdf r2. unfold dtpv2c. cbn [v0 v1 v2 direction]. unR. cbv zeta.
  pose proof (f_pos xi eta) as F. pose proof (f_sq xi eta) as FS. fold f in F, FS.
  assert (R0 : cos ra * cos dec * (cos ra * cos dec) + sin ra * cos dec * (sin ra * cos dec) = cos dec * cos dec).
  { pose proof (sc1 ra) as A. unfold Rsqr in A.
    replace (cos ra * cos dec * (cos ra * cos dec) + sin ra * cos dec * (sin ra * cos dec)) with (cos dec * cos dec * (cos ra * cos ra + sin ra * sin ra)) by ring.
    replace (cos ra * cos ra + sin ra * sin ra) with 1 by lra. ring. }
  rewrite R0. replace (cos dec * cos dec * (eta * eta + 1) - sin dec * sin dec * (xi * xi)) with r2 by (unfold r2; ring).
  replace (xi * xi + (eta * eta + 1)) with (1 + xi * xi + eta * eta) by ring. fold f. fold sdf.
  destruct (Rltb_spec 0 r2) as [P|P]; [|reflexivity].
  assert (G : forall rho, rho * rho = r2 ->
    V3 ((sdf * eta + rho) / ((eta * eta + 1) * sqrt (cos dec * cos dec * (r2 + xi * xi))) * (cos ra * cos dec * rho + sin ra * cos dec * xi))
       ((sdf * eta + rho) / ((eta * eta + 1) * sqrt (cos dec * cos dec * (r2 + xi * xi))) * (sin ra * cos dec * rho - cos ra * cos dec * xi))
       ((sdf - eta * rho) / (eta * eta + 1)) = direction (tps_a ra xi rho) (tps_b sdf eta rho)).
  { intros rho E. destruct (tps_b_polar xi eta dec rho E) as [CB SB]. fold f in CB, SB. fold sdf in CB, SB.
    pose proof (tps_hyp xi eta dec CD rho E) as H. fold f in H.
    pose proof (atan2_cos xi rho) as CA. pose proof (atan2_sin xi rho) as SA. rewrite H in CA, SA.
    assert (SQ : sqrt (cos dec * cos dec * (r2 + xi * xi)) = cos dec * cos dec * f).
    { apply sqrt_lem_1; [apply Rmult_le_pos; nra|apply Rmult_le_pos; nra|].
      rewrite <- E, <- (hyp_sq rho xi), H. ring. }
    rewrite SQ. destruct (dranrm_sin_cos (ra - Ratan2 xi rho)) as [DS DC]. unfold direction, tps_a. rewrite DS, DC, cos_minus, sin_minus.
    assert (K : 0 < 1 + eta * eta) by nra. set (K1 := 1 + eta * eta) in *. replace (eta * eta + 1) with K1 by (unfold K1; ring).
    set (b := tps_b sdf eta rho) in *. set (al := Ratan2 xi rho) in *. rewrite <- CB, <- SB, <- CA, <- SA.
    clearbody K1 b al. clear - K F CD. apply vec_eq; cbn [v0 v1 v2]; field; repeat split; lra. }
  pose proof (sqrt_sqrt r2 ltac:(lra)) as Q. rewrite <- (G (sqrt r2) Q), <- (G (- sqrt r2)) by (rewrite <- Q at 3; ring). reflexivity.
Qed.

Lemma dtpv2c_sound xi eta (p : RV) n s1 s2 : norm p = 1 ->
  dtpv2c (N := RNum) xi eta p = (n, Some (s1, s2)) ->
  forall s, s = s1 \/ s = s2 -> exists a b, s = direction a b /\ projects a b p xi eta.
Proof.
  intros NP E s HS.
  assert (D : exists ra dec, p = direction ra dec /\ 0 <= cos dec).
  { pose proof (direction_dcc2s p) as D. destruct (dcc2s_range p) as [_ RB]. exists (s_a (dcc2s (N := RNum) p)), (s_b (dcc2s (N := RNum) p)). rewrite NP in D. split.
    - rewrite <- D at 1. destruct (direction _ _) as [x y z]; unfold scale; cbn [v0 v1 v2]. apply vec_eq; cbn [v0 v1 v2]; ring.
    - apply cos_ge_0; lra. }
  destruct D as (ra & dec & -> & [CD|CD]).
  2:{ exfalso. unfold dtpv2c in E. cbn [v0 v1 v2 direction] in E. unR_in E. cbv zeta in E. rewrite <- CD in E.
      match type of E with context [Rltb 0 ?e] => destruct (Rltb_spec 0 e) as [L|L] end; [|discriminate].
      match type of L with 0 < ?e => assert (Z : e <= 0); [|lra] end. assert (0 <= (sin dec * xi) * (sin dec * xi)) by nra. nra. }
  rewrite dtpv2c_eq in E by assumption. cbv zeta in E.
  match type of E with context [Rltb 0 ?e] => set (r2 := e) in * end. destruct (Rltb_spec 0 r2) as [P|P]; [|discriminate].
  pose proof (sqrt_sqrt r2 ltac:(lra)) as Q. inversion E; subst s1 s2. clear E.
  destruct HS as [-> | ->]; do 2 eexists; (split; [reflexivity|]); apply tps_projects; try assumption. fold r2. rewrite <- Q at 3. ring.
Qed.

(** Agreement with the spherical form away from the double root. *)
Lemma dtpv2c_dtps2c xi eta (p : sph RNum) n s1 s2 : - (PI / 2) < s_b p < PI / 2 ->
  dtpv2c (N := RNum) xi eta (dcs2c (N := RNum) p) = (n, Some (s1, s2)) ->
  exists t1 t2, dtps2c (N := RNum) xi eta p = (n, Some (t1, t2)) /\ s1 = dcs2c (N := RNum) t1 /\ s2 = dcs2c (N := RNum) t2.
Proof.
  destruct p as [ra dec]. cbn [s_b]. intros B E. rewrite dcs2c_direction in E. cbn [s_a s_b] in E.
  pose proof (cos_gt_0 dec ltac:(lra) ltac:(lra)) as CD. rewrite dtpv2c_eq in E by assumption. rewrite dtps2c_eq by assumption. cbv zeta in E.
  match type of E with context [Rltb 0 ?e] => set (r2 := e) in * end. destruct (Rltb_spec 0 r2) as [P|P]; [|discriminate].
  destruct (Rleb_spec 0 r2) as [P'|P']; [|lra]. inversion E. do 2 eexists. split; [reflexivity|].
  rewrite !dcs2c_direction. split; reflexivity.
Qed.
Lemma dtpv2c_none xi eta ra dec : - (PI / 2) < dec < PI / 2 ->
  (dtpv2c (N := RNum) xi eta (direction ra dec) = (0%Z, None) <->
   cos dec * cos dec * (1 + eta * eta) <= sin dec * sin dec * (xi * xi)).
Proof.
  intros B. pose proof (cos_gt_0 dec ltac:(lra) ltac:(lra)) as CD. rewrite dtpv2c_eq by assumption. cbv zeta.
  match goal with |- context [Rltb 0 ?e] => destruct (Rltb_spec 0 e) as [P|P] end; split; intros; try reflexivity; try lra. discriminate.
Qed.

(** At the double root a genuine (non-polar) tangent point is missed. *)
Lemma dtpv2c_double_root_refuted : ~ (forall xi eta p a b, norm p = 1 -> - (PI / 2) < b < PI / 2 ->
  projects a b p xi eta -> fst (dtpv2c (N := RNum) xi eta p) <> 0%Z).
Proof.
  intros H. pose proof PI_RGT_0 as PP.
  apply (H (sqrt 2) 1 (direction (PI / 2) (PI / 4)) 0 (PI / 4)); [apply norm_direction|lra| |].
  - unfold projects, dot, direction, east, north; cbn [v0 v1 v2]. rewrite sin_PI2, cos_PI2, sin_0, cos_0, sin_PI4, cos_PI4.
    pose proof (sqrt_sqrt 2 ltac:(lra)) as Q. pose proof (sqrt_lt_R0 2 ltac:(lra)) as P. set (q := sqrt 2) in *.
    assert (I : 1 / q * (1 / q) = / 2). { field_simplify_eq; [|lra]. lra. }
    repeat split.
    + replace (0 * (1 / q) * (1 * (1 / q)) + 1 * (1 / q) * (0 * (1 / q)) + 1 / q * (1 / q)) with (1 / q * (1 / q)) by ring. lra.
    + replace (0 * (1 / q) * (1 * (1 / q)) + 1 * (1 / q) * (0 * (1 / q)) + 1 / q * (1 / q)) with (1 / q * (1 / q)) by ring. rewrite I.
      apply Rmult_eq_reg_r with q; [|lra]. field_simplify_eq; [|lra]. lra.
    + ring.
  - replace (dtpv2c (N := RNum) (sqrt 2) 1 (direction (PI / 2) (PI / 4))) with (0%Z, @None (RV * RV)); [reflexivity|].
    symmetry. apply dtpv2c_none; [lra|]. rewrite sqrt_sqrt by lra. rewrite sin_PI4, cos_PI4. lra.
Qed.
