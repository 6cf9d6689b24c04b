(** Proofs about the vector and coordinate kernels over the reals. *)
From Coq Require Import ZArith Reals Lra Lia Psatz Nsatz Bool List Ascii String.
From Coquelicot Require Import Coquelicot.
From Verif Require Import Num NumR L_Real M_Vec S_Geom.
Import ListNotations.
Open Scope R_scope.

(** Elimination of vectors and matrices. *)
Lemma vec_eq {A} (a b : vec A) : v0 a = v0 b -> v1 a = v1 b -> v2 a = v2 b -> a = b.
Proof. destruct a, b; cbn; intros; subst; reflexivity. Qed.
Lemma mat_eq {A} (a b : mat A) : r0 a = r0 b -> r1 a = r1 b -> r2 a = r2 b -> a = b.
Proof. destruct a, b; cbn; intros; subst; reflexivity. Qed.
Ltac geo := cbv beta iota delta [dot cross scale vadd vsub col transpose mapply mmul mident det trace direction
  frame_x frame_y frame_z turned vzero v0 v1 v2 r0 r1 r2].
Ltac geo_in H := cbv beta iota delta [dot cross scale vadd vsub col transpose mapply mmul mident det trace direction
  frame_x frame_y frame_z turned vzero v0 v1 v2 r0 r1 r2] in H.

(** ** Bridges from the model to the specification *)
Lemma dvdv_dot (a b : RV) : dvdv (N := RNum) a b = dot a b.
Proof. reflexivity. Qed.
Lemma dvxv_cross (a b : RV) : dvxv (N := RNum) a b = cross a b.
Proof. reflexivity. Qed.
Lemma acc3_dot (a b : RV) : acc3 (N := RNum) a b = dot a b.
Proof. unfold acc3, dot. unR. ring. Qed.
Lemma dmxv_mapply (m : RM) (v : RV) : dmxv (N := RNum) m v = mapply m v.
Proof. unfold dmxv, mapply. rewrite !acc3_dot. reflexivity. Qed.
Lemma dimxv_mapply (m : RM) (v : RV) : dimxv (N := RNum) m v = mapply (transpose m) v.
Proof. unfold dimxv, mapply. rewrite !acc3_dot. reflexivity. Qed.
Lemma dmxm_mmul (a b : RM) : dmxm (N := RNum) a b = mmul a b.
Proof. unfold dmxm, mmul. rewrite !acc3_dot. reflexivity. Qed.

Lemma dot_self_nonneg a : 0 <= dot a a.
Proof. unfold dot. nra. Qed.
Lemma norm_nonneg a : 0 <= norm a.
Proof. apply sqrt_pos. Qed.
Lemma norm_sq a : norm a * norm a = dot a a.
Proof. apply sqrt_sqrt. apply dot_self_nonneg. Qed.
Lemma dot_self_0 a : dot a a = 0 -> a = vzero.
Proof. destruct a as [x y z]. unfold dot, vzero; cbn. intros. f_equal; nra. Qed.
Lemma norm_0 a : norm a = 0 -> a = vzero.
Proof. intros H. apply dot_self_0. rewrite <- norm_sq, H. ring. Qed.
Lemma norm_pos a : a <> vzero -> 0 < norm a.
Proof. intros H. destruct (Rle_lt_or_eq_dec 0 (norm a) (norm_nonneg a)) as [L|E]; [assumption|]. exfalso. apply H, norm_0. auto. Qed.
Lemma norm_vzero : norm vzero = 0.
Proof. unfold norm, dot, vzero; cbn. replace (0 * 0 + 0 * 0 + 0 * 0) with 0 by ring. apply sqrt_0. Qed.

Lemma dvn_spec (v : RV) :
  snd (dvn (N := RNum) v) = norm v /\
  (v = vzero -> fst (dvn (N := RNum) v) = vzero) /\
  (v <> vzero -> norm (fst (dvn (N := RNum) v)) = 1 /\ scale (norm v) (fst (dvn (N := RNum) v)) = v).
Proof.
  assert (E : sqrt (0 + v0 v * v0 v + v1 v * v1 v + v2 v * v2 v) = norm v).
  { unfold norm, dot. f_equal. ring. }
  unfold dvn. unR. rewrite E. cbv zeta. cbn [fst snd]. split; [reflexivity|]. split.
  - intros ->. rewrite norm_vzero. rcases; [|lra]. unfold vzero; cbn. f_equal; field.
  - intros H. pose proof (norm_pos v H) as P. rcases; [lra|].
    pose proof (norm_sq v) as Q. unfold dot in Q. split.
    + unfold norm at 1. unfold dot. cbn [v0 v1 v2].
      replace (v0 v / norm v * (v0 v / norm v) + v1 v / norm v * (v1 v / norm v) + v2 v / norm v * (v2 v / norm v))
        with ((v0 v * v0 v + v1 v * v1 v + v2 v * v2 v) / (norm v * norm v)) by (field; lra).
      rewrite Q. rewrite <- Q. replace (norm v * norm v / (norm v * norm v)) with 1 by (field; lra). apply sqrt_1.
    + apply vec_eq; unfold scale; cbn; field; lra.
Qed.

(** ** Algebra of rotations *)
Lemma mapply_mmul a b v : mapply (mmul a b) v = mapply a (mapply b v).
Proof. destruct a as [[] [] []], b as [[] [] []], v. geo. f_equal; ring. Qed.
Lemma mmul_assoc a b c : mmul (mmul a b) c = mmul a (mmul b c).
Proof. destruct a as [[] [] []], b as [[] [] []], c as [[] [] []]. geo. f_equal; f_equal; ring. Qed.
Lemma mmul_ident_l a : mmul mident a = a.
Proof. destruct a as [[] [] []]. geo. f_equal; f_equal; ring. Qed.
Lemma mmul_ident_r a : mmul a mident = a.
Proof. destruct a as [[] [] []]. geo. f_equal; f_equal; ring. Qed.
Lemma mapply_ident v : mapply mident v = v.
Proof. destruct v. geo. f_equal; ring. Qed.
Lemma transpose_mmul a b : transpose (mmul a b) = mmul (transpose b) (transpose a).
Proof. destruct a as [[] [] []], b as [[] [] []]. geo. f_equal; f_equal; ring. Qed.
Lemma transpose_invol a : transpose (transpose a) = a.
Proof. destruct a as [[] [] []]. reflexivity. Qed.
Lemma det_mmul a b : det (mmul a b) = det a * det b.
Proof. destruct a as [[] [] []], b as [[] [] []]. geo. ring. Qed.
Lemma det_transpose a : det (transpose a) = det a.
Proof. destruct a as [[] [] []]. geo. ring. Qed.
Lemma dot_mapply m u v : dot (mapply m u) v = dot u (mapply (transpose m) v).
Proof. destruct m as [[] [] []], u, v. geo. ring. Qed.

Lemma rotation_ident : rotation mident.
Proof. repeat split; geo; try (f_equal; f_equal); ring. Qed.
Lemma rotation_mmul a b : rotation a -> rotation b -> rotation (mmul a b).
Proof.
  intros (A1 & A2 & A3) (B1 & B2 & B3). repeat split.
  - rewrite transpose_mmul, mmul_assoc, <- (mmul_assoc b), B1, mmul_ident_l. assumption.
  - rewrite transpose_mmul, mmul_assoc, <- (mmul_assoc (transpose a)), A2, mmul_ident_l. assumption.
  - rewrite det_mmul, A3, B3. ring.
Qed.
Lemma rotation_transpose a : rotation a -> rotation (transpose a).
Proof. intros (A1 & A2 & A3). repeat split; rewrite ?transpose_invol, ?det_transpose; assumption. Qed.
Lemma rotation_dot m u v : rotation m -> dot (mapply m u) (mapply m v) = dot u v.
Proof. intros (_ & H & _). rewrite dot_mapply, <- mapply_mmul, H, mapply_ident. reflexivity. Qed.
Lemma rotation_norm m u : rotation m -> norm (mapply m u) = norm u.
Proof. intros H. unfold norm. rewrite rotation_dot by assumption. reflexivity. Qed.
Lemma rotation_inv m v : rotation m -> mapply (transpose m) (mapply m v) = v /\ mapply m (mapply (transpose m) v) = v.
Proof. intros (A & B & _). rewrite <- !mapply_mmul, A, B, mapply_ident. split; reflexivity. Qed.

Lemma sc1' t : cos t * cos t + sin t * sin t = 1.
Proof. pose proof (sc1 t). lra. Qed.
Ltac scsolve t := pose proof (sc1' t); nra.
Lemma rotation_frame_x t : rotation (frame_x t).
Proof. pose proof (sc1' t). repeat split; geo; try (f_equal; f_equal); lra. Qed.
Lemma rotation_frame_y t : rotation (frame_y t).
Proof. pose proof (sc1' t). repeat split; geo; try (f_equal; f_equal); lra. Qed.
Lemma rotation_frame_z t : rotation (frame_z t).
Proof. pose proof (sc1' t). repeat split; geo; try (f_equal; f_equal); lra. Qed.

(** ** Directions *)
Lemma dcs2c_direction (s : sph RNum) : dcs2c (N := RNum) s = direction (s_a s) (s_b s).
Proof. reflexivity. Qed.
Lemma norm_direction a b : norm (direction a b) = 1.
Proof.
  unfold norm. replace (dot (direction a b) (direction a b)) with 1; [apply sqrt_1|].
  geo. pose proof (sc1 a). pose proof (sc1 b).
  replace (cos a * cos b * (cos a * cos b) + sin a * cos b * (sin a * cos b) + sin b * sin b)
    with ((sin a * sin a + cos a * cos a) * (cos b * cos b) + sin b * sin b) by ring. rewrite H. lra.
Qed.
Lemma dot_direction_self a b : dot (direction a b) (direction a b) = 1.
Proof. rewrite <- norm_sq, norm_direction. ring. Qed.

Lemma dcc2s_eq (v : RV) : dcc2s (N := RNum) v = Sph (N := RNum) (Ratan2 (v1 v) (v0 v)) (Ratan2 (v2 v) (hyp (v0 v) (v1 v))).
Proof.
  destruct v as [x y z]. unfold dcc2s. unR. cbn [v0 v1 v2]. fold (hyp x y). f_equal.
  - destruct (Reqb_spec (hyp x y) 0) as [E|E]; [|reflexivity].
    apply hyp_0 in E. destruct E; subst. symmetry; apply atan2_00.
  - destruct (Reqb_spec z 0) as [->|E]; [|reflexivity].
    symmetry. pose proof (hyp_nonneg x y). unfold Ratan2. destruct (Rlt_dec 0 (hyp x y)).
    + unfold Rdiv. rewrite Rmult_0_l. apply atan_0.
    + destruct (Rlt_dec (hyp x y) 0); [lra|]. destruct (Rlt_dec 0 0); [lra|reflexivity].
Qed.

Lemma norm_hyp x y z : norm (V3 x y z) = hyp (hyp x y) z.
Proof. unfold norm, hyp at 1, dot; cbn. rewrite hyp_sq. reflexivity. Qed.

Lemma dcc2s_range (v : RV) : let s := dcc2s (N := RNum) v in - PI < s_a s <= PI /\ - (PI / 2) <= s_b s <= PI / 2.
Proof.
  rewrite dcc2s_eq. cbn [s_a s_b]. split; [apply atan2_range|]. apply atan2_range_pos, hyp_nonneg.
Qed.

Lemma direction_dcc2s (v : RV) : let s := dcc2s (N := RNum) v in scale (norm v) (direction (s_a s) (s_b s)) = v.
Proof.
  rewrite dcc2s_eq. cbn [s_a s_b]. destruct v as [x y z]; cbn [v0 v1 v2]. rewrite norm_hyp.
  pose proof (atan2_cos z (hyp x y)) as C. pose proof (atan2_sin z (hyp x y)) as S.
  pose proof (atan2_cos y x) as C'. pose proof (atan2_sin y x) as S'.
  set (th := Ratan2 y x) in *. set (ph := Ratan2 z (hyp x y)) in *. set (R := hyp (hyp x y) z) in *.
  unfold scale, direction; cbn [v0 v1 v2]. f_equal.
  - replace (R * (cos th * cos ph)) with (R * cos ph * cos th) by ring. rewrite C. exact C'.
  - replace (R * (sin th * cos ph)) with (R * cos ph * sin th) by ring. rewrite C. exact S'.
  - exact S.
Qed.

Lemma cos_lat_pos b : - (PI / 2) < b < PI / 2 -> 0 < cos b.
Proof. intros. apply cos_gt_0; lra. Qed.

Lemma dcc2s_dcs2c a b : - PI < a <= PI -> - (PI / 2) < b < PI / 2 ->
  dcc2s (N := RNum) (dcs2c (N := RNum) (Sph (N := RNum) a b)) = Sph (N := RNum) a b.
Proof.
  intros A B. rewrite dcs2c_direction, dcc2s_eq. unfold direction; cbn [v0 v1 v2 s_a s_b].
  pose proof (cos_lat_pos b B) as C. pose proof PI_RGT_0.
  assert (H0 : hyp (cos a * cos b) (sin a * cos b) = cos b).
  { rewrite (Rmult_comm (cos a)), (Rmult_comm (sin a)). apply hyp_polar. lra. }
  rewrite H0. f_equal.
  - apply (atan2_unique _ _ (cos b)); try lra; try ring.
  - apply (atan2_unique _ _ 1); try lra; try ring.
Qed.

(** At the poles the latitude survives and the longitude is arbitrary. *)
Lemma dcc2s_pole a s : s = 1 \/ s = -1 ->
  s_b (dcc2s (N := RNum) (dcs2c (N := RNum) (Sph (N := RNum) a (s * (PI / 2))))) = s * (PI / 2).
Proof.
  intros Hs. rewrite dcs2c_direction, dcc2s_eq. unfold direction; cbn [v0 v1 v2 s_a s_b].
  assert (C : cos (s * (PI / 2)) = 0). { destruct Hs; subst. rewrite Rmult_1_l; apply cos_PI2. replace (-1 * (PI / 2)) with (- (PI / 2)) by ring. rewrite cos_neg; apply cos_PI2. }
  rewrite C, !Rmult_0_r, hyp_00. pose proof PI_RGT_0.
  apply (atan2_unique _ _ 1); try lra. destruct Hs; subst; lra.
Qed.

(** ** Axial vectors *)
Definition unit_axis (v : RV) : RV := scale (/ norm v) v.

Lemma dav2m_zero : dav2m (N := RNum) vzero = mident.
Proof.
  unfold dav2m, vzero, mident. unR. cbn [v0 v1 v2]. replace (0 * 0 + 0 * 0 + 0 * 0) with 0 by ring. rewrite sqrt_0, cos_0, sin_0.
  destruct (Reqb_spec 0 0) as [_|n]; [|exfalso; apply n; reflexivity].
  cbn [negb]. f_equal; f_equal; ring.
Qed.

Lemma unit_axis_spec v : v <> vzero -> dot (unit_axis v) (unit_axis v) = 1 /\ v = scale (norm v) (unit_axis v).
Proof.
  intros H. pose proof (norm_pos v H) as P. pose proof (norm_sq v) as Q. unfold unit_axis. split.
  - unfold dot, scale in *; cbn [v0 v1 v2] in *.
    replace (/ norm v * v0 v * (/ norm v * v0 v) + / norm v * v1 v * (/ norm v * v1 v) + / norm v * v2 v * (/ norm v * v2 v))
     with ((v0 v * v0 v + v1 v * v1 v + v2 v * v2 v) / (norm v * norm v)) by (field; lra).
    rewrite <- Q. field. lra.
  - apply vec_eq; unfold scale; cbn; field; lra.
Qed.

Lemma dav2m_axis v : v <> vzero ->
  dav2m (N := RNum) v =
  (let n := unit_axis v in let t := norm v in
   M3 (V3 (v0 n * v0 n * (1 - cos t) + cos t) (v0 n * v1 n * (1 - cos t) + v2 n * sin t) (v0 n * v2 n * (1 - cos t) - v1 n * sin t))
      (V3 (v0 n * v1 n * (1 - cos t) - v2 n * sin t) (v1 n * v1 n * (1 - cos t) + cos t) (v1 n * v2 n * (1 - cos t) + v0 n * sin t))
      (V3 (v0 n * v2 n * (1 - cos t) + v1 n * sin t) (v1 n * v2 n * (1 - cos t) - v0 n * sin t) (v2 n * v2 n * (1 - cos t) + cos t))).
Proof.
  intros H. pose proof (norm_pos v H) as P. destruct v as [x y z].
  assert (E : sqrt (x * x + y * y + z * z) = norm (V3 x y z)) by reflexivity.
  unfold dav2m. unR. cbn [v0 v1 v2]. rewrite E.
  destruct (Reqb_spec (norm (V3 x y z)) 0) as [e|_]; [lra|]. cbn [negb].
  unfold unit_axis, scale; cbn [v0 v1 v2]. unfold Rdiv.
  rewrite !(Rmult_comm x (/ norm (V3 x y z))), !(Rmult_comm y (/ norm (V3 x y z))), !(Rmult_comm z (/ norm (V3 x y z))).
  reflexivity.
Qed.

(** A rotation matrix in Rodrigues form, for any unit axis. *)
Lemma rodrigues_rotation x y z t : x * x + y * y + z * z = 1 ->
  rotation (M3 (V3 (x * x * (1 - cos t) + cos t) (x * y * (1 - cos t) + z * sin t) (x * z * (1 - cos t) - y * sin t))
      (V3 (x * y * (1 - cos t) - z * sin t) (y * y * (1 - cos t) + cos t) (y * z * (1 - cos t) + x * sin t))
      (V3 (x * z * (1 - cos t) + y * sin t) (y * z * (1 - cos t) - x * sin t) (z * z * (1 - cos t) + cos t))).
Proof.
  intros U. pose proof (sc1' t) as T. set (c := cos t) in *. set (s := sin t) in *. clearbody c s. clear t.
  repeat split; geo.
  1,2: f_equal; f_equal; nsatz.
  nsatz.
Qed.

Lemma dav2m_rotation v : rotation (dav2m (N := RNum) v).
Proof.
  destruct (Req_dec (norm v) 0) as [E|E].
  - apply norm_0 in E. subst. rewrite dav2m_zero. apply rotation_ident.
  - assert (v <> vzero) as H by (intros ->; apply E, norm_vzero).
    rewrite dav2m_axis by assumption. destruct (unit_axis_spec v H) as [U _]. apply rodrigues_rotation. exact U.
Qed.

Lemma dav2m_turned v u : v <> vzero -> mapply (dav2m (N := RNum) v) u = turned (unit_axis v) (norm v) u.
Proof.
  intros H. rewrite dav2m_axis by assumption. destruct (unit_axis_spec v H) as [U _].
  destruct (unit_axis v) as [x y z], u as [a b c]. geo_in U. cbv zeta. geo.
  set (C := cos (norm v)). set (S := sin (norm v)). f_equal; ring.
Qed.

Lemma mapply_scale m k v : mapply m (scale k v) = scale k (mapply m v).
Proof. destruct m as [[] [] []], v. geo. f_equal; ring. Qed.

Lemma dav2m_fixes v : mapply (dav2m (N := RNum) v) v = v.
Proof.
  destruct (Req_dec (norm v) 0) as [E|E].
  - apply norm_0 in E. subst. rewrite dav2m_zero. apply mapply_ident.
  - assert (v <> vzero) as H by (intros ->; apply E, norm_vzero).
    rewrite dav2m_turned by assumption. destruct (unit_axis_spec v H) as [U E'].
    transitivity (turned (unit_axis v) (norm v) (scale (norm v) (unit_axis v))); [f_equal; exact E'|].
    transitivity (scale (norm v) (unit_axis v)); [|symmetry; exact E'].
    destruct (unit_axis v) as [x y z]. geo_in U. geo.
    set (c := cos (norm v)). set (s := sin (norm v)). set (t := norm v). clearbody c s t. clear E' E. f_equal; nsatz.
Qed.

Lemma dav2m_trace v : trace (dav2m (N := RNum) v) = 1 + 2 * cos (norm v).
Proof.
  destruct (Req_dec (norm v) 0) as [E|E].
  - rewrite E. apply norm_0 in E. subst. rewrite dav2m_zero, cos_0. geo. ring.
  - assert (v <> vzero) as H by (intros ->; apply E, norm_vzero).
    rewrite dav2m_axis by assumption. destruct (unit_axis_spec v H) as [U _].
    destruct (unit_axis v) as [x y z]. geo_in U. cbv zeta. geo. nsatz.
Qed.

(** The antisymmetric part of the matrix is 2 sin(phi) times the axis. *)
Lemma dm2av_dav2m v : norm v < PI -> dm2av (N := RNum) (dav2m (N := RNum) v) = v.
Proof.
  intros L. destruct (Req_dec (norm v) 0) as [E|E].
  - apply norm_0 in E. subst. rewrite dav2m_zero. unfold dm2av, mident, vzero. unR. cbn [v0 v1 v2 r0 r1 r2].
    replace ((0 - 0) * (0 - 0) + (0 - 0) * (0 - 0) + (0 - 0) * (0 - 0)) with 0 by ring. rewrite sqrt_0.
    destruct (Reqb_spec 0 0) as [_|n]; [reflexivity|exfalso; apply n; reflexivity].
  - assert (v <> vzero) as H by (intros ->; apply E, norm_vzero).
    pose proof (norm_pos v H) as P. rewrite dav2m_axis by assumption. destruct (unit_axis_spec v H) as [U EV].
    transitivity (scale (norm v) (unit_axis v)); [|symmetry; exact EV]. clear EV.
    destruct (unit_axis v) as [x y z]. geo_in U. cbv zeta.
    pose proof (sin_gt_0 (norm v) P L) as S0.
    set (t := norm v) in *. unfold dm2av. unR. cbn [v0 v1 v2 r0 r1 r2].
    set (c := cos t). set (s := sin t) in *.
    replace (y * z * (1 - c) + x * s - (y * z * (1 - c) - x * s)) with (2 * s * x) by ring.
    replace (x * z * (1 - c) + y * s - (x * z * (1 - c) - y * s)) with (2 * s * y) by ring.
    replace (x * y * (1 - c) + z * s - (x * y * (1 - c) - z * s)) with (2 * s * z) by ring.
    replace (2 * s * x * (2 * s * x) + 2 * s * y * (2 * s * y) + 2 * s * z * (2 * s * z)) with (Rsqr (2 * s)).
    2:{ unfold Rsqr. replace (2 * s * x * (2 * s * x) + 2 * s * y * (2 * s * y) + 2 * s * z * (2 * s * z))
          with (4 * s * s * (x * x + y * y + z * z)) by ring. rewrite U. ring. }
    rewrite sqrt_Rsqr by lra.
    destruct (Reqb_spec (2 * s) 0) as [e|_]; [lra|]. cbn [negb].
    replace (x * x * (1 - c) + c + (y * y * (1 - c) + c) + (z * z * (1 - c) + c) - 1)
      with ((x * x + y * y + z * z) * (1 - c) + 3 * c - 1) by ring. rewrite U.
    replace ((1 * (1 - c) + 3 * c - 1) / 2) with c by field. replace (2 * s / 2) with s by field.
    rewrite (atan2_unique s c 1 t) by (unfold s, c; lra).
    unfold scale; cbn [v0 v1 v2]. f_equal; field; lra.
Qed.

(** A half turn: the antisymmetric part vanishes and the axis is lost. *)
Lemma dm2av_half_turn v : norm v = PI -> dm2av (N := RNum) (dav2m (N := RNum) v) = vzero.
Proof.
  intros E. assert (v <> vzero) as H. { intros ->. rewrite norm_vzero in E. pose proof PI_RGT_0. lra. }
  rewrite dav2m_axis by assumption. cbv zeta. rewrite E, sin_PI, cos_PI. destruct (unit_axis v) as [x y z]. cbv zeta.
  unfold dm2av. unR. cbn [v0 v1 v2 r0 r1 r2].
  match goal with |- context [sqrt ?e] => replace e with 0 by ring end. rewrite sqrt_0.
  destruct (Reqb_spec 0 0) as [_|n]; [reflexivity|exfalso; apply n; reflexivity].
Qed.

(** ** Position and velocity *)
Lemma dpl_is_derive f x l : derivable_pt_lim f x l <-> is_derive f x l.
Proof. split; intros; apply is_derive_Reals; assumption. Qed.

Lemma ds2c6_derivative (a b r : R -> R) t a' b' r' :
  derivable_pt_lim a t a' -> derivable_pt_lim b t b' -> derivable_pt_lim r t r' ->
  let P := fun u => pos (ds2c6 (N := RNum) (SPV (N := RNum) (a u) (b u) (r u) a' b' r')) in
  let V := velo (ds2c6 (N := RNum) (SPV (N := RNum) (a t) (b t) (r t) a' b' r')) in
  derivable_pt_lim (fun u => v0 (P u)) t (v0 V) /\
  derivable_pt_lim (fun u => v1 (P u)) t (v1 V) /\
  derivable_pt_lim (fun u => v2 (P u)) t (v2 V).
Proof.
  intros A B C. apply dpl_is_derive in A, B, C. cbv zeta. unfold ds2c6. unR. cbn [pos velo lon lat dist dlon dlat ddist v0 v1 v2].
  assert (DA := is_derive_unique _ _ _ A). assert (DB := is_derive_unique _ _ _ B). assert (DC := is_derive_unique _ _ _ C).
  assert (XA : ex_derive a t) by (eexists; exact A). assert (XB : ex_derive b t) by (eexists; exact B).
  assert (XC : ex_derive r t) by (eexists; exact C).
  repeat split; apply dpl_is_derive; auto_derive; auto;
    change (fun x => a x) with a; change (fun x => b x) with b; change (fun x => r x) with r;
    rewrite ?DA, ?DB, ?DC; ring.
Qed.

Lemma ds2c6_position s : pos (ds2c6 (N := RNum) s) = scale (dist s) (direction (lon s) (lat s)).
Proof. destruct s. unfold ds2c6. unR. cbn. unfold scale, direction; cbn. f_equal; ring. Qed.

Lemma hyp_eq x y r : 0 <= r -> x * x + y * y = r * r -> hyp x y = r.
Proof. intros. unfold hyp. rewrite H0. apply sqrt_square. assumption. Qed.

Lemma dc62s_ds2c6 a b r a' b' r' :
  - PI < a <= PI -> - (PI / 2) < b < PI / 2 -> 0 < r ->
  dc62s (N := RNum) (ds2c6 (N := RNum) (SPV (N := RNum) a b r a' b' r')) = SPV (N := RNum) a b r a' b' r'.
Proof.
  intros A B R0. pose proof (cos_lat_pos b B) as CB. pose proof PI_RGT_0.
  pose proof (sc1 a) as SA. pose proof (sc1 b) as SB.
  unfold dc62s, ds2c6. unR. cbv zeta. cbn [pos velo lon lat dist dlon dlat ddist v0 v1 v2].
  set (ca := cos a) in *. set (sa := sin a) in *. set (cb := cos b) in *. set (sb := sin b) in *.
  set (x := r * cb * ca). set (y := r * cb * sa). set (z := r * sb).
  assert (E1 : x * x + y * y = (r * cb) * (r * cb)) by (unfold x, y; nsatz).
  assert (E2 : (r * cb) * (r * cb) + z * z = r * r) by (unfold z; nsatz).
  assert (0 < r * cb) by (apply Rmult_lt_0_compat; lra).
  rewrite E1, E2.
  destruct (Reqb_spec (r * r) 0) as [e|_]; [nra|].
  rewrite ?E1, ?E2.
  destruct (Reqb_spec (r * cb * (r * cb)) 0) as [e|_]; [nra|]. cbn [negb].
  rewrite (sqrt_square (r * cb)), (sqrt_square r) by lra.
  destruct (Reqb_spec r 0) as [e|_]; [lra|]. cbn [negb].
  f_equal.
  - apply (atan2_unique _ _ (r * cb)); [assumption|reflexivity|reflexivity|assumption].
  - apply (atan2_unique _ _ r); try lra; reflexivity.
  - assert (NZ : r * cb * (r * cb) <> 0) by nra. rewrite ?E1.
    apply Rmult_eq_reg_r with (r * cb * (r * cb)); [|exact NZ]. unfold Rdiv. rewrite Rmult_assoc, Rinv_l by exact NZ.
    clearbody ca sa cb sb. unfold x, y. clear - SA SB. nsatz.
  - rewrite ?E1, ?E2. assert (NZ : r * r * (r * cb) <> 0) by (apply Rmult_integral_contrapositive; split; nra).
    apply Rmult_eq_reg_r with (r * r * (r * cb)); [|exact NZ]. unfold Rdiv. rewrite Rmult_assoc, Rinv_l by exact NZ.
    clearbody ca sa cb sb. unfold x, y, z. clear - SA SB. nsatz.
  - apply Rmult_eq_reg_r with r; [|lra]. unfold Rdiv. rewrite Rmult_assoc, Rinv_l by lra.
    clearbody ca sa cb sb. unfold x, y, z. clear - SA SB. nsatz.
Qed.

Lemma alg_pv x y z xd yd zd h d : h * h = x * x + y * y -> d * d = x * x + y * y + z * z -> h <> 0 -> d <> 0 ->
  - (d * (h / d) * (y / h)) * ((x * yd - y * xd) / (h * h)) -
  (d * ((zd * (h * h) - z * (x * xd + y * yd)) / (d * d * h)) * (z / d) -
  h / d * ((x * xd + y * yd + z * zd) / d)) * (x / h) = xd /\
  d * (h / d) * (x / h) * ((x * yd - y * xd) / (h * h)) -
  (d * ((zd * (h * h) - z * (x * xd + y * yd)) / (d * d * h)) * (z / d) -
  h / d * ((x * xd + y * yd + z * zd) / d)) * (y / h) = yd /\
  d * ((zd * (h * h) - z * (x * xd + y * yd)) / (d * d * h)) * (h / d) +
  z / d * ((x * xd + y * yd + z * zd) / d) = zd.
Proof.
  intros. repeat split.
  all: field_simplify_eq; [rewrite <- ?Rsqr_pow2; unfold Rsqr; clear H1 H2; nsatz|split; assumption].
Qed.

Lemma ds2c6_dc62s (c : vecpv RNum) : v0 (pos c) <> 0 \/ v1 (pos c) <> 0 ->
  ds2c6 (N := RNum) (dc62s (N := RNum) c) = c.
Proof.
  destruct c as [[x y z] [xd yd zd]]; cbn [pos v0 v1 v2]. intros H.
  unfold dc62s. unR. cbv zeta. cbn [pos velo v0 v1 v2].
  assert (P : 0 < x * x + y * y) by (destruct H; nra).
  destruct (Reqb_spec (x * x + y * y + z * z) 0) as [e|_]; [nra|].
  destruct (Reqb_spec (x * x + y * y) 0) as [e|_]; [nra|]. cbn [negb].
  fold (hyp x y).
  assert (E : sqrt (x * x + y * y + z * z) = hyp (hyp x y) z) by (unfold hyp at 1; rewrite hyp_sq; reflexivity).
  rewrite E. pose proof (hyp_sq x y) as H1. pose proof (hyp_sq (hyp x y) z) as H2. rewrite H1 in H2.
  assert (P1 : 0 < hyp x y) by (apply hyp_pos; assumption).
  assert (P2 : 0 < hyp (hyp x y) z) by (apply hyp_pos; left; lra).
  pose proof (atan2_cos y x) as C1. pose proof (atan2_sin y x) as S1.
  pose proof (atan2_cos z (hyp x y)) as C2. pose proof (atan2_sin z (hyp x y)) as S2.
  destruct (Reqb_spec (hyp (hyp x y) z) 0) as [e|_]; [lra|]. cbn [negb].
  set (h := hyp x y) in *. set (d := hyp h z) in *.
  set (th := Ratan2 y x) in *. set (ph := Ratan2 z h) in *.
  unfold ds2c6. unR. cbv zeta. cbn [lon lat dist dlon dlat ddist].
  set (ct := cos th) in *. set (st := sin th) in *. set (cp := cos ph) in *. set (sp := sin ph) in *.
  assert (Ect : ct = x / h) by (rewrite <- C1; field; lra).
  assert (Est : st = y / h) by (rewrite <- S1; field; lra).
  assert (Ecp : cp = h / d) by (rewrite <- C2; field; lra).
  assert (Esp : sp = z / d) by (rewrite <- S2; field; lra).
  clearbody ct st cp sp. clearbody th ph. clearbody d. clearbody h.
  clear C1 S1 C2 S2 E. subst ct st cp sp. rewrite <- H2. rewrite <- H1.
  assert (Hx : x * x = h * h - y * y) by lra.
  assert (X : forall a b : vec R, forall c d, a = b -> c = d -> VPV (N:=RNum) a c = VPV (N:=RNum) b d) by (intros; subst; reflexivity).
  apply X; apply vec_eq; cbn [v0 v1 v2]; match goal with |- @eq _ ?a ?b => change (@eq R a b) end.
  1-3: field; lra.
  1-3: destruct (alg_pv x y z xd yd zd h d H1 H2 ltac:(lra) ltac:(lra)) as (A1 & A2 & A3); assumption.
Qed.

(** Null position: the velocity takes its place, so the "distance" is the speed. *)
Lemma dc62s_null xd yd zd :
  let s := dc62s (N := RNum) (VPV (N := RNum) vzero (V3 xd yd zd)) in
  dist s = norm (V3 xd yd zd) /\ ddist s = norm (V3 xd yd zd) /\ dlon s = 0 /\ dlat s = 0 /\
  Sph (N := RNum) (lon s) (lat s) = dcc2s (N := RNum) (V3 xd yd zd).
Proof.
  cbv zeta. rewrite dcc2s_eq. rewrite norm_hyp.
  unfold dc62s, vzero. unR. cbv zeta. cbn [pos velo v0 v1 v2].
  destruct (Reqb_spec (0 * 0 + 0 * 0 + 0 * 0) 0) as [_|n]; [|exfalso; apply n; ring].
  fold (hyp xd yd).
  assert (E : sqrt (xd * xd + yd * yd + zd * zd) = hyp (hyp xd yd) zd) by (unfold hyp at 1; rewrite hyp_sq; reflexivity).
  rewrite E. pose proof (hyp_sq (hyp xd yd) zd) as H2. rewrite (hyp_sq xd yd) in H2. pose proof (hyp_nonneg (hyp xd yd) zd).
  assert (HR : (if negb (Reqb (hyp (hyp xd yd) zd) 0) then (xd * xd + yd * yd + zd * zd) / hyp (hyp xd yd) zd else 0)
             = hyp (hyp xd yd) zd).
  { destruct (Reqb_spec (hyp (hyp xd yd) zd) 0) as [e|n]; cbn [negb]; [lra|]. rewrite <- H2. field. assumption. }
  rewrite HR.
  destruct (Reqb_spec (xd * xd + yd * yd) 0) as [e|n]; cbn [negb dist ddist dlon dlat lon lat].
  - assert (xd = 0) by nra. assert (yd = 0) by nra. subst xd yd. rewrite hyp_00, atan2_00. repeat split.
    f_equal. destruct (Reqb_spec zd 0) as [->|]; cbn [negb]; [symmetry; apply atan2_00|reflexivity].
  - repeat split.
    + unfold Rdiv. replace (xd * yd - yd * xd) with 0 by ring. ring.
    + unfold Rdiv. replace (zd * (xd * xd + yd * yd) - zd * (xd * xd + yd * yd)) with 0 by ring. ring.
Qed.

Lemma dc62s_pole z xd yd zd : z <> 0 ->
  dc62s (N := RNum) (VPV (N := RNum) (V3 0 0 z) (V3 xd yd zd)) =
  SPV (N := RNum) 0 (if Rlt_dec 0 z then PI / 2 else - (PI / 2)) (Rabs z) 0 0 (if Rlt_dec 0 z then zd else - zd).
Proof.
  intros H. unfold dc62s. unR. cbv zeta. cbn [pos velo v0 v1 v2].
  destruct (Reqb_spec (0 * 0 + 0 * 0 + z * z) 0) as [e|_]; [nra|].
  destruct (Reqb_spec (0 * 0 + 0 * 0) 0) as [_|n]; [|exfalso; apply n; ring]. cbn [negb].
  destruct (Reqb_spec z 0) as [e|_]; [lra|]. cbn [negb].
  replace (0 * 0 + 0 * 0 + z * z) with (Rsqr z) by (unfold Rsqr; ring). rewrite sqrt_Rsqr_abs.
  fold (hyp 0 0). rewrite hyp_00.
  destruct (Reqb_spec (Rabs z) 0) as [e|_]; [exfalso; revert e; apply Rabs_no_R0; assumption|]. cbn [negb].
  unfold Ratan2. destruct (Rlt_dec 0 0); [lra|].
  destruct (Rlt_dec 0 z).
  - f_equal. rewrite Rabs_right by lra. field. lra.
  - destruct (Rlt_dec z 0); [|lra]. f_equal. rewrite Rabs_left by lra. field. lra.
Qed.

(** ** Euler rotations *)
Lemma ident_mident : ident (N := RNum) = mident.
Proof. reflexivity. Qed.

Lemma euler_axis_elementary c (t : R) :
  euler_axis (N := RNum) c (sin t) (cos t) = option_map (fun f => f t) (elementary c).
Proof. destruct c as [[] [] [] [] [] [] [] []]; reflexivity. Qed.

Lemma elementary_rotation c f t : elementary c = Some f -> rotation (f t).
Proof.
  destruct c as [[] [] [] [] [] [] [] []]; cbn [elementary]; intros E; inversion E;
  first [apply rotation_frame_x|apply rotation_frame_y|apply rotation_frame_z].
Qed.

Lemma euler_loop_spec order : forall angles res,
  exists m, euler order angles m /\ euler_loop (N := RNum) order angles res = mmul m res.
Proof.
  induction order as [|c order IH]; intros angles res; cbn [euler_loop].
  - exists mident. split; [constructor|symmetry; apply mmul_ident_l].
  - destruct angles as [|t angles].
    + exists mident. split; [constructor|symmetry; apply mmul_ident_l].
    + change (n_sin (n:=RNum) t) with (sin t). change (n_cos (n:=RNum) t) with (cos t).
      rewrite euler_axis_elementary. destruct (elementary c) as [f|] eqn:E; cbn [option_map].
      * destruct (IH angles (dmxm (N:=RNum) (f t) res)) as (m & Hm & Em).
        exists (mmul m (f t)). split; [apply euler_turn; assumption|].
        rewrite Em, dmxm_mmul, mmul_assoc. reflexivity.
      * exists mident. split; [apply euler_unknown; assumption|].
        rewrite dmxm_mmul, ident_mident. reflexivity.
Qed.

Lemma deuler_spec order phi theta psi :
  euler order [phi; theta; psi] (deuler (N := RNum) order phi theta psi).
Proof.
  destruct (euler_loop_spec order [phi; theta; psi] mident) as (m & Hm & Em).
  unfold deuler. rewrite ident_mident. refine (eq_ind_r _ Hm _).
  etransitivity; [exact Em|]. apply mmul_ident_r.
Qed.

Lemma euler_rotation order angles m : euler order angles m -> rotation m.
Proof.
  induction 1; try apply rotation_ident. apply rotation_mmul; [assumption|].
  eapply elementary_rotation; eassumption.
Qed.

Lemma euler_unique order angles m : euler order angles m -> forall m', euler order angles m' -> m = m'.
Proof.
  induction 1; intros m' H'; inversion H'; subst; try reflexivity; try congruence.
  rewrite H in *. match goal with E : Some _ = Some _ |- _ => injection E as <- end. f_equal. apply IHeuler. assumption.
Qed.
