(** Rotation matrices: every rotation is the matrix of its axial vector. *)
From Coq Require Import ZArith Reals Lra Lia Psatz Nsatz Bool List Ascii String.
From Coquelicot Require Import Coquelicot.
From Verif Require Import Num NumR L_Real M_Vec S_Geom L_Vec.
Open Scope R_scope.
Lemma rotation_cross m : rotation m -> cross (r0 m) (r1 m) = r2 m /\ cross (r1 m) (r2 m) = r0 m /\ cross (r2 m) (r0 m) = r1 m.
Proof.
  intros (A & B & C).
  assert (K : forall c u, mapply m c = u -> c = mapply (transpose m) u).
  { intros c u E. rewrite <- E, <- mapply_mmul, B. symmetry. apply mapply_ident. }
  unfold det in C.
  assert (C1 : dot (r1 m) (cross (r2 m) (r0 m)) = 1) by (rewrite <- C; unfold dot, cross; cbn; ring).
  assert (C2 : dot (r2 m) (cross (r0 m) (r1 m)) = 1) by (rewrite <- C; unfold dot, cross; cbn; ring).
  destruct m as [[a b c] [d e f] [g h i]]. cbn [r0 r1 r2] in *.
  repeat split.
  - rewrite (K _ (V3 0 0 1)). { apply vec_eq; unfold mapply, dot, transpose, col; cbn; ring. }
    apply vec_eq; unfold mapply; cbn [r0 r1 r2 v0 v1 v2]; [unfold dot, cross; cbn; ring..|assumption].
  - rewrite (K _ (V3 1 0 0)). { apply vec_eq; unfold mapply, dot, transpose, col; cbn; ring. }
    apply vec_eq; unfold mapply; cbn [r0 r1 r2 v0 v1 v2]; [assumption|unfold dot, cross; cbn; ring..].
  - rewrite (K _ (V3 0 1 0)). { apply vec_eq; unfold mapply, dot, transpose, col; cbn; ring. }
    apply vec_eq; unfold mapply; cbn [r0 r1 r2 v0 v1 v2]; [unfold dot, cross; cbn; ring|assumption|unfold dot, cross; cbn; ring].
Qed.
Definition skew (m : RM) : RV := V3 (v2 (r1 m) - v1 (r2 m)) (v0 (r2 m) - v2 (r0 m)) (v1 (r0 m) - v0 (r1 m)).
Lemma vinj (a b c d e f : R) : V3 a b c = V3 d e f -> a = d /\ b = e /\ c = f.
Proof. intros E. inversion E. auto. Qed.
Lemma skew_sq m : rotation m -> dot (skew m) (skew m) = (3 - trace m) * (1 + trace m).
Proof.
  intros H. destruct (rotation_cross m H) as (A & B & C). destruct H as (D & E & _).
  destruct m as [[a b c] [d e f] [g h i]]. unfold cross in *; cbn [r0 r1 r2 v0 v1 v2] in *.
  apply vinj in A, B, C. destruct A as (A1 & A2 & A3), B as (B1 & B2 & B3), C as (C1 & C2 & C3).
  unfold mmul, transpose, mident in D, E; cbn in D, E. unfold dot in D, E; cbn in D, E. injection D as D1 D2 D3 D4 D5 D6 D7 D8 D9.
  injection E as E1 E2 E3 E4 E5 E6 E7 E8 E9.
  unfold skew, trace, dot; cbn. clear D4 D7 D8 E4 E7 E8. nsatz.
Qed.

Lemma skew_prod m : rotation m -> let a := skew m in let t := trace m in
  v0 a * v0 a = (1 + t) * (2 * v0 (r0 m) - (t - 1)) /\
  v1 a * v1 a = (1 + t) * (2 * v1 (r1 m) - (t - 1)) /\
  v2 a * v2 a = (1 + t) * (2 * v2 (r2 m) - (t - 1)) /\
  v0 a * v1 a = (1 + t) * (v1 (r0 m) + v0 (r1 m)) /\
  v0 a * v2 a = (1 + t) * (v2 (r0 m) + v0 (r2 m)) /\
  v1 a * v2 a = (1 + t) * (v2 (r1 m) + v1 (r2 m)).
Proof.
  intros H. destruct (rotation_cross m H) as (A & B & C). destruct H as (D & E & _).
  destruct m as [[a b c] [d e f] [g h i]]. unfold cross in *; cbn [r0 r1 r2 v0 v1 v2] in *.
  apply vinj in A, B, C. destruct A as (A1 & A2 & A3), B as (B1 & B2 & B3), C as (C1 & C2 & C3).
  unfold mmul, transpose, mident in D, E; cbn in D, E. unfold dot in D, E; cbn in D, E. injection D as D1 D2 D3 D4 D5 D6 D7 D8 D9.
  injection E as E1 E2 E3 E4 E5 E6 E7 E8 E9.
  unfold skew, trace, dot; cbn. clear D4 D7 D8 E4 E7 E8. repeat split; nsatz.
Qed.

Lemma trace_3_ident m : rotation m -> trace m = 3 -> m = mident.
Proof.
  intros (D & _) T. destruct m as [[a b c] [d e f] [g h i]]. unfold trace in T; cbn in T.
  unfold mmul, transpose, mident in D; cbn in D. unfold dot in D; cbn in D. injection D as D1 D2 D3 D4 D5 D6 D7 D8 D9.
  assert (a <= 1) by nra. assert (e <= 1) by nra. assert (i <= 1) by nra.
  assert (a = 1) by lra. assert (e = 1) by lra. assert (i = 1) by lra. subst a e i.
  assert (b = 0) by nra. assert (c = 0) by nra. assert (d = 0) by nra. assert (f = 0) by nra. assert (g = 0) by nra. assert (h = 0) by nra.
  subst. reflexivity.
Qed.

Lemma dm2av_ident : dm2av (N := RNum) mident = vzero.
Proof.
  unfold dm2av, mident, vzero. unR. cbn [v0 v1 v2 r0 r1 r2].
  replace ((0 - 0) * (0 - 0) + (0 - 0) * (0 - 0) + (0 - 0) * (0 - 0)) with 0 by ring. rewrite sqrt_0.
  destruct (Reqb_spec 0 0) as [_|n]; [reflexivity|exfalso; apply n; reflexivity].
Qed.

Lemma dm2av_eq m : norm (skew m) <> 0 ->
  dm2av (N := RNum) m = scale (Ratan2 (norm (skew m) / 2) ((trace m - 1) / 2) / norm (skew m)) (skew m).
Proof.
  intros H. destruct m as [[a b c] [d e f] [g h i]].
  unfold norm, dot, skew, trace, scale in *. cbn [v0 v1 v2 r0 r1 r2] in *.
  unfold dm2av. unR. cbv zeta. cbn [v0 v1 v2 r0 r1 r2].
  match goal with |- context [Reqb ?s 0] => destruct (Reqb_spec s 0) as [E|_]; [contradiction|] end. cbn [negb].
  f_equal; apply Rmult_comm.
Qed.
Lemma dm2av_symm m : norm (skew m) = 0 -> dm2av (N := RNum) m = vzero.
Proof.
  intros H. destruct m as [[a b c] [d e f] [g h i]].
  unfold norm, dot, skew, trace, scale in *. cbn [v0 v1 v2 r0 r1 r2] in *.
  unfold dm2av. unR. cbv zeta. cbn [v0 v1 v2 r0 r1 r2].
  match goal with |- context [Reqb ?s 0] => destruct (Reqb_spec s 0) as [_|E]; [|contradiction] end. reflexivity.
Qed.

Lemma norm_scale k v : 0 <= k -> norm (scale k v) = k * norm v.
Proof.
  intros. unfold norm. replace (dot (scale k v) (scale k v)) with (Rsqr k * dot v v) by (unfold dot, scale, Rsqr; cbn; ring).
  rewrite sqrt_mult by (apply Rle_0_sqr || apply dot_self_nonneg). rewrite sqrt_Rsqr by assumption. reflexivity.
Qed.

Lemma dav2m_dm2av m : rotation m -> trace m <> -1 -> dav2m (N := RNum) (dm2av (N := RNum) m) = m /\ norm (dm2av (N := RNum) m) < PI.
Proof.
  intros H T. pose proof (skew_sq m H) as S. pose proof (norm_sq (skew m)) as Q. rewrite S in Q. pose proof (norm_nonneg (skew m)) as NN.
  destruct (Req_dec (norm (skew m)) 0) as [Z|Z].
  - rewrite Z in Q. assert (T3 : trace m = 3) by nra. apply (trace_3_ident m H) in T3. subst m.
    rewrite dm2av_ident, dav2m_zero, norm_vzero. split; [reflexivity|apply PI_RGT_0].
  - rewrite (dm2av_eq m Z). pose proof (skew_prod m H) as K. cbv zeta in K.
    set (n := norm (skew m)) in *. set (t := trace m) in *. assert (NP : 0 < n) by lra.
    set (ph := Ratan2 (n / 2) ((t - 1) / 2)).
    assert (HY : hyp ((t - 1) / 2) (n / 2) = 1) by (apply hyp_eq; nra).
    pose proof (atan2_cos (n / 2) ((t - 1) / 2)) as CC. pose proof (atan2_sin (n / 2) ((t - 1) / 2)) as SS.
    fold ph in CC, SS. rewrite HY in CC, SS. rewrite Rmult_1_l in CC, SS.
    assert (PH : 0 < ph < PI).
    { destruct (atan2_range (n / 2) ((t - 1) / 2)) as [R1 R2]. fold ph in R1, R2.
      assert (0 < sin ph) by lra.
      destruct (Rle_lt_dec ph 0) as [L|L].
      - exfalso. destruct (Req_dec ph 0) as [E0|E0]; [rewrite E0, sin_0 in *; lra|].
        pose proof (sin_gt_0 (- ph) ltac:(lra) ltac:(lra)) as X. rewrite sin_neg in X. lra.
      - split; [assumption|]. destruct (Req_dec ph PI) as [E0|E0]; [rewrite E0, sin_PI in *; lra|lra]. }
    assert (NV : norm (scale (ph / n) (skew m)) = ph).
    { rewrite norm_scale. - fold n. field. lra. - apply Rlt_le, Rdiv_lt_0_compat; lra. }
    assert (VZ : scale (ph / n) (skew m) <> vzero). { intros E. rewrite E, norm_vzero in NV. lra. }
    split; [|rewrite NV; lra].
    rewrite dav2m_axis by exact VZ. cbv zeta. rewrite NV.
    assert (UA : unit_axis (scale (ph / n) (skew m)) = scale (/ n) (skew m)).
    { unfold unit_axis. rewrite NV. apply vec_eq; unfold scale; cbn [v0 v1 v2]; field; lra. }
    rewrite UA. clear UA VZ NV. rewrite CC, SS. clearbody ph. clear CC SS HY PH.
    destruct K as (K1 & K2 & K3 & K4 & K5 & K6).
    assert (N3 : n * n / (3 - t) = 1 + t). { rewrite Q. field. intros E. replace (3 - t) with 0 in Q by lra. nra. }
    assert (T3 : 3 - t <> 0). { intros E. rewrite E in Q. nra. }
    assert (W : forall p q, p * q = n * n * ((1 + t) * (p * q) / (n * n) / (1 + t))). { intros. field. split; lra. }
    assert (X : forall p q, / n * p * (/ n * q) * (1 - (t - 1) / 2) = p * q / (2 * (1 + t))).
    { intros. replace (/ n * p * (/ n * q) * (1 - (t - 1) / 2)) with (p * q * (3 - t) / (2 * (n * n))) by (field; lra).
      rewrite Q. field. lra. }
    unfold scale in *. cbn [v0 v1 v2] in *. rewrite !X. rewrite K1, K2, K3, K4, K5, K6.
    assert (T1 : 1 + t <> 0) by lra.
    destruct m as [[a b c] [d e f] [g h i]]. cbn [v0 v1 v2 r0 r1 r2 skew] in *.
    apply mat_eq; apply vec_eq; cbn [v0 v1 v2 r0 r1 r2]; match goal with |- @eq _ ?a ?b => change (@eq R a b) end; field; repeat split; assumption || lra.
Qed.

Lemma dm2av_half m : rotation m -> trace m = -1 -> dm2av (N := RNum) m = vzero.
Proof.
  intros H T. apply dm2av_symm. pose proof (skew_sq m H) as S. pose proof (norm_sq (skew m)) as Q. rewrite S, T in Q. nra.
Qed.

Lemma trace_range m : rotation m -> -1 <= trace m <= 3.
Proof.
  intros H. pose proof (skew_sq m H) as S. pose proof (dot_self_nonneg (skew m)). rewrite S in *. nra.
Qed.

(** In-place calls over the reals. *)
Lemma half_turn_exists : exists v, norm v = PI /\ dm2av (N := RNum) (dav2m (N := RNum) v) <> v.
Proof.
  exists (V3 PI 0 0). pose proof PI_RGT_0 as P.
  assert (E : norm (V3 PI 0 0) = PI).
  { unfold norm, dot; cbn. replace (PI * PI + 0 * 0 + 0 * 0) with (Rsqr PI) by (unfold Rsqr; ring). apply sqrt_Rsqr. lra. }
  split; [exact E|]. rewrite dm2av_half_turn by exact E. intros X. inversion X. lra.
Qed.

(** ** Packaged statements *)
From Verif Require Import M_Mem L_Mem.
Open Scope R_scope.
Import ListNotations.

Lemma dcs2c_unit (s : sph RNum) : dcs2c (N := RNum) s = direction (s_a s) (s_b s) /\ norm (dcs2c (N := RNum) s) = 1.
Proof. split; [apply dcs2c_direction|rewrite dcs2c_direction; apply norm_direction]. Qed.
Lemma dcs2c_dcc2s (v : RV) : scale (norm v) (dcs2c (N := RNum) (dcc2s (N := RNum) v)) = v.
Proof. rewrite dcs2c_direction. apply (direction_dcc2s v). Qed.
Lemma atan2_scale k y x : 0 < k -> Ratan2 (k * y) (k * x) = Ratan2 y x.
Proof.
  intros. unfold Ratan2.
  destruct (Rlt_dec 0 (k * x)), (Rlt_dec 0 x); try nra.
  - f_equal. field. lra.
  - destruct (Rlt_dec (k * x) 0), (Rlt_dec x 0); try nra.
    + destruct (Rle_dec 0 (k * y)), (Rle_dec 0 y); try nra; f_equal; f_equal; field; lra.
    + destruct (Rlt_dec 0 (k * y)), (Rlt_dec 0 y); try nra. destruct (Rlt_dec (k * y) 0), (Rlt_dec y 0); try nra.
Qed.
Lemma hyp_scale k x y : 0 < k -> hyp (k * x) (k * y) = k * hyp x y.
Proof. intros. apply hyp_eq. - pose proof (hyp_nonneg x y). nra. - pose proof (hyp_sq x y). nra. Qed.
Lemma dcc2s_scale k (v : RV) : 0 < k -> dcc2s (N := RNum) (scale k v) = dcc2s (N := RNum) v.
Proof.
  intros. rewrite !dcc2s_eq. unfold scale; cbn [v0 v1 v2]. rewrite hyp_scale, !atan2_scale by assumption. reflexivity.
Qed.
Lemma dcc2s_scale_dcs2c a b k : - PI < a <= PI -> - (PI / 2) < b < PI / 2 -> 0 < k ->
  dcc2s (N := RNum) (scale k (dcs2c (N := RNum) (Sph (N := RNum) a b))) = Sph (N := RNum) a b.
Proof. intros. rewrite dcc2s_scale by assumption. apply dcc2s_dcs2c; assumption. Qed.
Lemma dcc2s_special :
  (forall k, 0 < k -> dcc2s (N := RNum) (V3 0 0 k) = Sph (N := RNum) 0 (PI / 2)) /\
  (forall k, k < 0 -> dcc2s (N := RNum) (V3 0 0 k) = Sph (N := RNum) 0 (- (PI / 2))) /\
  dcc2s (N := RNum) vzero = Sph (N := RNum) 0 0.
Proof.
  repeat split; intros; rewrite dcc2s_eq; unfold vzero; cbn [v0 v1 v2]; rewrite hyp_00, atan2_00; try rewrite atan2_00; try reflexivity;
  f_equal; unfold Ratan2; repeat (destruct (Rlt_dec _ _); try lra); reflexivity.
Qed.
Lemma C20_example : - PI < 3 <= PI /\ - (PI / 2) < -1 < PI / 2 /\ dcs2c (N := RNum) (Sph (N := RNum) 0 0) = V3 1 0 0.
Proof.
  pose proof PI_RGT_0. pose proof PI2_3_2. split; [|split]; try lra.
  unfold dcs2c. unR. cbn [s_a s_b]. rewrite cos_0, sin_0. f_equal; ring.
Qed.

Lemma ds2c6_velocity (a b r : R -> R) t a' b' r' :
  derivable_pt_lim a t a' -> derivable_pt_lim b t b' -> derivable_pt_lim r t r' ->
  let P := fun u => scale (r u) (direction (a u) (b u)) in
  let V := velo (ds2c6 (N := RNum) (SPV (N := RNum) (a t) (b t) (r t) a' b' r')) in
  derivable_pt_lim (fun u => v0 (P u)) t (v0 V) /\
  derivable_pt_lim (fun u => v1 (P u)) t (v1 V) /\
  derivable_pt_lim (fun u => v2 (P u)) t (v2 V).
Proof.
  intros A B C P V. pose proof (ds2c6_derivative a b r t a' b' r' A B C) as H. cbv zeta in H.
  assert (E : forall u, pos (ds2c6 (N := RNum) (SPV (N := RNum) (a u) (b u) (r u) a' b' r')) = P u)
    by (intros; rewrite ds2c6_position; reflexivity).
  destruct H as (H1 & H2 & H3). apply dpl_is_derive in H1, H2, H3.
  repeat split; apply dpl_is_derive.
  - refine (is_derive_ext _ _ _ _ _ H1). intros u. exact (f_equal _ (E u)).
  - refine (is_derive_ext _ _ _ _ _ H2). intros u. exact (f_equal _ (E u)).
  - refine (is_derive_ext _ _ _ _ _ H3). intros u. exact (f_equal _ (E u)).
Qed.
Lemma C21_example : - PI < 1 <= PI /\ - (PI / 2) < 1 < PI / 2 /\ 0 < 2.
Proof. pose proof PI2_3_2. lra. Qed.
Lemma dc62s_distance_refuted : exists c : vecpv RNum, dist (dc62s (N := RNum) c) <> norm (pos c).
Proof.
  exists (VPV (N := RNum) vzero (V3 1 0 0)). destruct (dc62s_null 1 0 0) as (E & _). intros X.
  assert (Y : norm (V3 1 0 0) = norm vzero) by exact (eq_trans (eq_sym E) X).
  rewrite norm_vzero in Y. apply norm_0 in Y. inversion Y. lra.
Qed.

Lemma dav2m_turns (v : RV) :
  (v = vzero -> dav2m (N := RNum) v = mident) /\
  (forall n t, dot n n = 1 -> 0 < t -> v = scale t n ->
     forall u, mapply (dav2m (N := RNum) v) u = turned n t u) /\
  mapply (dav2m (N := RNum) v) v = v.
Proof.
  split; [intros ->; apply dav2m_zero|]. split; [|apply dav2m_fixes].
  intros n t U T E u.
  assert (NV : norm v = t).
  { rewrite E, norm_scale by lra. unfold norm. rewrite U, sqrt_1. ring. }
  assert (VZ : v <> vzero). { intros X. rewrite X, norm_vzero in NV. lra. }
  rewrite dav2m_turned by exact VZ. rewrite NV. f_equal. unfold unit_axis. rewrite NV, E.
  apply vec_eq; unfold scale; cbn [v0 v1 v2]; field; lra.
Qed.
Lemma C22_example : rotation (frame_z 1) /\ trace (frame_z 1) <> -1 /\ norm (V3 1 0 0) < PI.
Proof.
  pose proof PI2_3_2. split; [apply rotation_frame_z|split].
  - unfold trace, frame_z; cbn [r0 r1 r2 v0 v1 v2]. pose proof (cos_gt_0 1 ltac:(lra) ltac:(lra)). lra.
  - replace (norm (V3 1 0 0)) with 1; [lra|]. unfold norm, dot; cbn [v0 v1 v2]. symmetry.
    replace (1 * 1 + 0 * 0 + 0 * 0) with 1 by ring. apply sqrt_1.
Qed.
Lemma euler_det order angles m m' : euler order angles m -> euler order angles m' -> m = m'.
Proof. intros. eapply euler_unique; eassumption. Qed.
Lemma deuler_rotation order phi theta psi : rotation (deuler (N := RNum) order phi theta psi).
Proof. eapply euler_rotation. apply deuler_spec. Qed.
Lemma C23_example : forall a b c d, euler "zY1x" [a; b; c] (mmul (mmul (mmul mident (frame_x c)) (frame_y b)) (frame_z a))
  /\ euler "z y" [a; d] (mmul mident (frame_z a)).
Proof.
  split; repeat match goal with
  | |- euler _ [] _ => apply euler_no_angle
  | |- euler (String " " _) _ _ => apply euler_unknown; reflexivity
  | _ => apply euler_turn; [reflexivity|]
  end.
Qed.

Lemma kernels_spec (m a b : RM) (v : RV) :
  dmxv (N := RNum) m v = mapply m v /\
  dimxv (N := RNum) m v = mapply (transpose m) v /\
  dmxm (N := RNum) a b = mmul a b /\
  (rotation m -> dimxv (N := RNum) m (dmxv (N := RNum) m v) = v /\ dmxv (N := RNum) m (dimxv (N := RNum) m v) = v).
Proof.
  split; [apply dmxv_mapply|]. split; [apply dimxv_mapply|]. split; [apply dmxm_mmul|].
  intros H. rewrite !dmxv_mapply, !dimxv_mapply. exact (rotation_inv m v H).
Qed.
Lemma any_placement (N : Num) (s : @mem N) :
  (forall m va vb, vec_at (dmxv_mem m va vb s) vb = dmxv (mat_at s m) (vec_at s va) /\
     forall q, ~ (vb <= q < vb + 3)%Z -> dmxv_mem m va vb s q = s q) /\
  (forall m va vb, vec_at (dimxv_mem m va vb s) vb = dimxv (mat_at s m) (vec_at s va) /\
     forall q, ~ (vb <= q < vb + 3)%Z -> dimxv_mem m va vb s q = s q) /\
  (forall ma mb mc, mat_at (dmxm_mem ma mb mc s) mc = dmxm (mat_at s ma) (mat_at s mb) /\
     forall q, ~ (mc <= q < mc + 9)%Z -> dmxm_mem ma mb mc s q = s q).
Proof. repeat split; first [apply dmxv_mem_spec|apply dimxv_mem_spec|apply dmxm_mem_spec]. Qed.
Lemma any_placement_v (N : Num) (s : @mem N) :
  (forall va vb vc, vec_at (dvxv_mem va vb vc s) vc = dvxv (vec_at s va) (vec_at s vb) /\
     forall q, ~ (vc <= q < vc + 3)%Z -> dvxv_mem va vb vc s q = s q) /\
  (forall va nv, ~ (va < nv < va + 3)%Z ->
     vec_at (fst (dvn_mem va nv s)) nv = fst (dvn (vec_at s va)) /\
     snd (dvn_mem va nv s) = snd (dvn (vec_at s va)) /\
     forall q, ~ (nv <= q < nv + 3)%Z -> fst (dvn_mem va nv s) q = s q).
Proof. split; intros; [apply dvxv_mem_spec|apply dvn_mem_spec; assumption]. Qed.
Lemma C24_example : vec_at (dmxv_mem (N := RNum) 0 9 9 (fun p => IZR p)) 9 = V3 32 122 212.
Proof. etransitivity; [apply (dmxv_mem_spec (N := RNum))|]. unfold dmxv, acc3, mat_at, vec_at; unR; cbn [v0 v1 v2 r0 r1 r2 Z.add Pos.add Pos.succ]. apply vec_eq; cbn [v0 v1 v2]; match goal with |- @eq _ ?a ?b => change (@eq R a b) end; ring. Qed.

Lemma dot_cross (a b : RV) :
  dvdv (N := RNum) a b = dot a b /\ dvxv (N := RNum) a b = cross a b /\
  dot a (dvxv (N := RNum) a b) = 0 /\ dot b (dvxv (N := RNum) a b) = 0 /\
  dot (dvxv (N := RNum) a b) (dvxv (N := RNum) a b) = dot a a * dot b b - dot a b * dot a b /\
  det (M3 a b (dvxv (N := RNum) a b)) = dot (dvxv (N := RNum) a b) (dvxv (N := RNum) a b).
Proof.
  rewrite dvdv_dot, dvxv_cross. destruct a as [a1 a2 a3], b as [b1 b2 b3]. unfold det, dot, cross; cbn [v0 v1 v2 r0 r1 r2].
  repeat split; ring.
Qed.
Lemma C25_example : fst (dvn (N := RNum) (V3 3 0 4)) = V3 (3 / 5) 0 (4 / 5).
Proof.
  unfold dvn. unR. cbn [v0 v1 v2]. replace (0 + 3 * 3 + 0 * 0 + 4 * 4) with (Rsqr 5) by (unfold Rsqr; ring).
  rewrite sqrt_Rsqr by lra. destruct (Rleb_spec 5 0); [lra|]. cbn [fst]. f_equal; field.
Qed.
Lemma dvn_overlap_refuted : exists s : @mem RNum,
  vec_at (fst (dvn_mem 0 1 s)) 1 <> fst (dvn (N := RNum) (vec_at s 0)).
Proof.
  exists (fun p => if Z.eqb p 0 then 3 else if Z.eqb p 1 then 0 else if Z.eqb p 2 then 4 else 0).
  intros X.
  match type of X with ?l = _ => assert (Y : l = V3 (3 / 5) 0 (4 / 5)) by exact (eq_trans X C25_example) end.
  clear X. revert Y. unfold dvn_mem. unR. cbv zeta. cbn [Z.eqb Z.add Pos.add Pos.eqb Pos.succ fst].
  replace (0 + 3 * 3 + 0 * 0 + 4 * 4) with (Rsqr 5) by (unfold Rsqr; ring).
  rewrite sqrt_Rsqr by lra. destruct (Rleb_spec 5 0); [lra|]. unfold vec_at, upd. cbn [Z.eqb Z.add Pos.add Pos.eqb Pos.succ].
  intros X. apply (f_equal v1) in X. cbn [v1] in X. lra.
Qed.
