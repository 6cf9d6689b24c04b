(** Lemmas for the frame conversions. *)
From Coq Require Import ZArith QArith Qreals Reals Lra Lia List Ascii String.
From Verif Require Import Num NumR L_Pi L_Real M_Vec M_Angle S_Geom S_Frame L_Vec L_Rot L_Angle L_Gal M_Nutc M_Epoch M_Frame.
Import ListNotations.
Open Scope R_scope.

(** Decimal literals as quotients of integers on both sides. *)
Ltac decs :=
  unfold Q2R, Rdec; cbn [Qnum Qden];
  repeat match goal with |- context [Z.pow_pos 10 ?p] =>
    let v := eval vm_compute in (Z.pow_pos 10 p) in change (Z.pow_pos 10 p) with v end.
Ltac decs_in H :=
  unfold Q2R, Rdec in H; cbn [Qnum Qden] in H;
  repeat match type of H with context [Z.pow_pos 10 ?p] =>
    let v := eval vm_compute in (Z.pow_pos 10 p) in change (Z.pow_pos 10 p) with v in H end.

Lemma deuler_3 x y z f g h a b c : elementary x = Some f -> elementary y = Some g -> elementary z = Some h ->
  deuler (N := RNum) (String x (String y (String z EmptyString))) a b c = mmul (h c) (mmul (g b) (f a)).
Proof.
  intros X Y Z. eapply euler_unique; [apply deuler_spec|].
  rewrite <- (mmul_ident_l (h c)), mmul_assoc.
  replace (mmul mident (mmul (h c) (mmul (g b) (f a)))) with (mmul (mmul (mmul mident (h c)) (g b)) (f a)) by (rewrite !mmul_assoc; reflexivity).
  repeat (apply euler_turn; [assumption|]). apply euler_no_order.
Qed.
Lemma deuler_1 x f a b c : elementary x = Some f -> deuler (N := RNum) (String x EmptyString) a b c = f a.
Proof.
  intros X. eapply euler_unique; [apply deuler_spec|]. rewrite <- (mmul_ident_l (f a)).
  apply euler_turn; [assumption|]. apply euler_no_order.
Qed.

Lemma as2r_arcsec : as2r (N := RNum) = arcsec.
Proof. unfold as2r, arcsec. unR. decs. lra. Qed.

Lemma prec_spec ep0 ep1 : prec (N := RNum) ep0 ep1 = iau1976_precession ep0 ep1.
Proof.
  unfold prec, prec_angles. cbv zeta. rewrite as2r_arcsec.
  change (car RNum) with R in *. rewrite (deuler_3 _ _ _ frame_z frame_y frame_z) by reflexivity.
  unfold iau1976_precession, precession. cbv zeta. unR.
  generalize arcsec as k. intros k.
  f_equal; [f_equal | f_equal; f_equal]; unfold iau1976_zeta, iau1976_z, iau1976_theta; decs; field.
Qed.
Lemma prebn_spec ep0 ep1 : prebn (N := RNum) ep0 ep1 = newcomb_precession ep0 ep1.
Proof.
  unfold prebn, prebn_angles. cbv zeta. rewrite as2r_arcsec.
  change (car RNum) with R in *. rewrite (deuler_3 _ _ _ frame_z frame_y frame_z) by reflexivity.
  unfold newcomb_precession, precession. cbv zeta. unR.
  generalize arcsec as k. intros k.
  f_equal; [f_equal | f_equal; f_equal]; unfold newcomb_zeta, newcomb_z, newcomb_theta; decs; field.
Qed.
Lemma precl_spec ep0 ep1 : precl (N := RNum) ep0 ep1 = simon_precession ep0 ep1.
Proof.
  unfold precl, precl_angles. cbv zeta. rewrite as2r_arcsec.
  change (car RNum) with R in *. rewrite (deuler_3 _ _ _ frame_z frame_y frame_z) by reflexivity.
  unfold simon_precession, precession. cbv zeta. unR.
  generalize arcsec as k. intros k.
  f_equal; [f_equal | f_equal; f_equal]; unfold simon_zeta, simon_z, simon_theta; decs; field.
Qed.

Lemma frame_x_0 : frame_x 0 = mident.
Proof. unfold frame_x, mident. rewrite cos_0, sin_0, Ropp_0. reflexivity. Qed.
Lemma frame_y_0 : frame_y 0 = mident.
Proof. unfold frame_y, mident. rewrite cos_0, sin_0, Ropp_0. reflexivity. Qed.
Lemma frame_z_0 : frame_z 0 = mident.
Proof. unfold frame_z, mident. rewrite cos_0, sin_0, Ropp_0. reflexivity. Qed.
Lemma precession_0 : precession 0 0 0 = mident.
Proof. unfold precession. rewrite Ropp_0, frame_z_0, frame_y_0, !mmul_ident_l. reflexivity. Qed.
Lemma precession_rotation a b c : rotation (precession a b c).
Proof. unfold precession. repeat apply rotation_mmul; apply rotation_frame_z || apply rotation_frame_y. Qed.
Lemma nutation_rotation a b c : rotation (nutation a b c).
Proof. unfold nutation. repeat apply rotation_mmul; apply rotation_frame_z || apply rotation_frame_x. Qed.

Lemma precession_zero_interval ep : iau1976_precession ep ep = mident /\ newcomb_precession ep ep = mident /\ simon_precession ep ep = mident.
Proof.
  unfold iau1976_precession, newcomb_precession, simon_precession. cbv zeta.
  replace ((ep - ep) / 100) with 0 by field. replace ((ep - ep) / 1000) with 0 by field.
  split; [|split].
  - replace (iau1976_zeta _ _ * _) with 0 by (unfold iau1976_zeta; ring).
    replace (iau1976_z _ _ * _) with 0 by (unfold iau1976_z; ring).
    replace (iau1976_theta _ _ * _) with 0 by (unfold iau1976_theta; ring). apply precession_0.
  - replace (newcomb_zeta _ _ * _) with 0 by (unfold newcomb_zeta; ring).
    replace (newcomb_z _ _ * _) with 0 by (unfold newcomb_z; ring).
    replace (newcomb_theta _ _ * _) with 0 by (unfold newcomb_theta; ring). apply precession_0.
  - replace (simon_zeta _ _ * _) with 0 by (unfold simon_zeta; ring).
    replace (simon_z _ _ * _) with 0 by (unfold simon_z; ring).
    replace (simon_theta _ _ * _) with 0 by (unfold simon_theta; ring). apply precession_0.
Qed.

Lemma nut_spec tdb : nut (N := RNum) tdb = let '(psi, eps, eps0) := nutc (N := RNum) tdb in nutation psi eps eps0.
Proof.
  unfold nut. destruct (nutc (N := RNum) tdb) as [[psi eps] eps0].
  rewrite (deuler_3 _ _ _ frame_x frame_z frame_x) by reflexivity. reflexivity.
Qed.
Lemma epj_spec mjd : epj (N := RNum) mjd = julian_year mjd.
Proof. unfold epj, julian_year. unR. decs. field. Qed.
Lemma prenut_spec je mjd : prenut (N := RNum) je mjd = mmul (nut (N := RNum) mjd) (iau1976_precession je (julian_year mjd)).
Proof. unfold prenut. rewrite dmxm_mmul, prec_spec, epj_spec. reflexivity. Qed.
Lemma ecmat_spec date : ecmat (N := RNum) date = frame_x (obliquity date).
Proof.
  unfold ecmat. cbv zeta. rewrite as2r_arcsec. rewrite (deuler_1 _ frame_x) by reflexivity. f_equal.
  unfold obliquity, centuries_J2000. cbv zeta. unR. generalize arcsec as k. intros k. decs. field.
Qed.

(** Directions of vectors. *)
Lemma norm_pos_nz (w : RV) : w <> vzero -> 0 < norm w.
Proof. intros H. apply norm_pos. exact H. Qed.
Lemma unit_of_direction (w : RV) : w <> vzero ->
  let s := dcc2s (N := RNum) w in direction (s_a s) (s_b s) = unit_of w.
Proof.
  intros H s. pose proof (direction_dcc2s w) as D. fold s in D. pose proof (norm_pos_nz w H) as P. unfold unit_of.
  cbv zeta in D. rewrite <- D at 2. unfold scale. cbn [v0 v1 v2]. apply vec_eq; cbn [v0 v1 v2]; field; lra.
Qed.
Lemma direction_dranrm a b : direction (dranrm (N := RNum) a) b = direction a b.
Proof.
  destruct (dranrm_spec a) as [S _]. unfold direction. 
  rewrite (same_angle_cos _ _ S), (same_angle_sin _ _ S). reflexivity.
Qed.
Lemma direction_conv (s : sph RNum) : - PI < s_b s < PI ->
  let c := conv_range (N := RNum) s in direction (s_a c) (s_b c) = direction (s_a s) (s_b s).
Proof.
  intros H. unfold conv_range. cbn [s_a s_b]. rewrite direction_dranrm. f_equal. apply drange_id. apply Rabs_def1; lra.
Qed.
Lemma conv_conventional (w : RV) : let c := conv_range (N := RNum) (dcc2s (N := RNum) w) in conventional (s_a c) (s_b c).
Proof.
  destruct (dcc2s_range w) as [_ L]. set (s := dcc2s (N := RNum) w) in *. unfold conv_range. cbv zeta. cbn [s_a s_b]. split.
  - destruct (dranrm_spec (s_a s)). assumption.
  - pose proof PI_RGT_0. change (- (PI / 2) <= drange (N := RNum) (s_b s) <= PI / 2).
    rewrite drange_id; [assumption|]. apply Rabs_def1; lra.
Qed.
Lemma conv_dcc2s (w : RV) : w <> vzero ->
  let c := conv_range (N := RNum) (dcc2s (N := RNum) w) in direction (s_a c) (s_b c) = unit_of w /\ conventional (s_a c) (s_b c).
Proof.
  intros H c. split; [|apply conv_conventional]. unfold c. destruct (dcc2s_range w) as [_ L]. pose proof PI_RGT_0.
  rewrite direction_conv by (split; lra). apply unit_of_direction. assumption.
Qed.
Lemma unit_of_unit w : norm w = 1 -> unit_of w = w.
Proof. intros H. unfold unit_of. rewrite H. replace (/ 1) with 1 by field. destruct w as [x y z]. unfold scale; cbn [v0 v1 v2]. f_equal; ring. Qed.
Lemma norm_1_nz w : norm w = 1 -> w <> vzero.
Proof. intros H E. subst. unfold norm, dot, vzero in H. cbn in H. replace (0 * 0 + 0 * 0 + 0 * 0) with 0 in H by ring. rewrite sqrt_0 in H. lra. Qed.

Lemma ecliptic_rotation date : rotation (ecliptic_frame date).
Proof. unfold ecliptic_frame, iau1976_precession. apply rotation_mmul; [apply rotation_frame_x|apply precession_rotation]. Qed.
Lemma eqecl_spec (s : sph RNum) date : let e := eqecl (N := RNum) s date in
  direction (s_a e) (s_b e) = mapply (ecliptic_frame date) (direction (s_a s) (s_b s)) /\ conventional (s_a e) (s_b e).
Proof.
  unfold eqecl. rewrite !dmxv_mapply, dcs2c_direction, ecmat_spec, epj_spec. change (n_ofZ (n := RNum) 2000) with 2000. rewrite prec_spec, <- mapply_mmul.
  fold (ecliptic_frame date). set (w := mapply (ecliptic_frame date) _).
  assert (N1 : norm w = 1) by (unfold w; rewrite rotation_norm; [apply norm_direction | apply ecliptic_rotation]).
  destruct (conv_dcc2s w (norm_1_nz w N1)) as [D C]. rewrite (unit_of_unit w N1) in D. split; assumption.
Qed.
Lemma ecleq_spec (s : sph RNum) date : let e := ecleq (N := RNum) s date in
  direction (s_a e) (s_b e) = mapply (transpose (ecliptic_frame date)) (direction (s_a s) (s_b s)) /\ conventional (s_a e) (s_b e).
Proof.
  unfold ecleq. rewrite !dimxv_mapply, dcs2c_direction, ecmat_spec, epj_spec. change (n_ofZ (n := RNum) 2000) with 2000.
  rewrite prec_spec, <- mapply_mmul, <- transpose_mmul.
  fold (ecliptic_frame date). set (w := mapply (transpose (ecliptic_frame date)) _).
  assert (N1 : norm w = 1) by (unfold w; rewrite rotation_norm; [apply norm_direction | apply rotation_transpose, ecliptic_rotation]).
  destruct (conv_dcc2s w (norm_1_nz w N1)) as [D C]. rewrite (unit_of_unit w N1) in D. split; assumption.
Qed.
Lemma ecl_round_trip (s : sph RNum) date :
  (let e := ecleq (N := RNum) (eqecl (N := RNum) s date) date in direction (s_a e) (s_b e) = direction (s_a s) (s_b s)) /\
  (let e := eqecl (N := RNum) (ecleq (N := RNum) s date) date in direction (s_a e) (s_b e) = direction (s_a s) (s_b s)).
Proof.
  split; cbv zeta.
  - destruct (ecleq_spec (eqecl (N := RNum) s date) date) as [-> _]. destruct (eqecl_spec s date) as [-> _].
    exact (proj1 (rotation_inv _ _ (ecliptic_rotation date))).
  - destruct (eqecl_spec (ecleq (N := RNum) s date) date) as [-> _]. destruct (ecleq_spec s date) as [-> _].
    exact (proj2 (rotation_inv _ _ (ecliptic_rotation date))).
Qed.
Lemma direction_inj a b a' b' : direction a b = direction a' b' -> conventional a b -> conventional a' b' ->
  b = b' /\ (- (PI / 2) < b < PI / 2 -> a = a').
Proof.
  intros E [A B] [A' B']. injection E as X Y Z. pose proof PI_RGT_0.
  assert (b = b').
  { destruct (Rtotal_order b b') as [L|[L|L]]; [|assumption|]; exfalso.
    - pose proof (sin_increasing_1 b b' ltac:(lra) ltac:(lra) ltac:(lra) ltac:(lra) L). lra.
    - pose proof (sin_increasing_1 b' b ltac:(lra) ltac:(lra) ltac:(lra) ltac:(lra) L). lra. }
  subst b'. split; [reflexivity|]. intros I. assert (C : 0 < cos b) by (apply cos_gt_0; lra).
  apply same_angle_eq0; [|assumption..]. apply cos_sin_same_angle.
  - apply Rmult_eq_reg_r with (cos b); [assumption|lra].
  - apply Rmult_eq_reg_r with (cos b); [assumption|lra].
Qed.
Lemma sph_eq (p q : sph RNum) : s_a p = s_a q -> s_b p = s_b q -> p = q.
Proof. destruct p, q; cbn. congruence. Qed.
Lemma ecl_coordinates a b date : conventional a b -> - (PI / 2) < b < PI / 2 ->
  ecleq (N := RNum) (eqecl (N := RNum) (Sph (N := RNum) a b) date) date = Sph (N := RNum) a b /\
  eqecl (N := RNum) (ecleq (N := RNum) (Sph (N := RNum) a b) date) date = Sph (N := RNum) a b.
Proof.
  intros C I. destruct (ecl_round_trip (Sph (N := RNum) a b) date) as [E1 E2]. cbv zeta in E1, E2. cbn [s_a s_b] in E1, E2.
  destruct (ecleq_spec (eqecl (N := RNum) (Sph (N := RNum) a b) date) date) as [_ C1].
  destruct (eqecl_spec (ecleq (N := RNum) (Sph (N := RNum) a b) date) date) as [_ C2].
  symmetry in E1, E2. destruct (direction_inj _ _ _ _ E1 C C1) as [B1 A1]. destruct (direction_inj _ _ _ _ E2 C C2) as [B2 A2].
  specialize (A1 I). specialize (A2 I).
  split; apply sph_eq; cbn [s_a s_b]; congruence.
Qed.

(** preces. *)
Lemma preces_spec (c : catalogue) ep0 ep1 (s : sph RNum) :
  let p := preces (N := RNum) c ep0 ep1 s in
  match c with
  | CAT_FK4 => direction (s_a p) (s_b p) = mapply (newcomb_precession ep0 ep1) (direction (s_a s) (s_b s)) /\ conventional (s_a p) (s_b p)
  | CAT_FK5 => direction (s_a p) (s_b p) = mapply (iau1976_precession ep0 ep1) (direction (s_a s) (s_b s)) /\ conventional (s_a p) (s_b p)
  | CAT_OTHER => s_a p = -99 /\ s_b p = -99
  end.
Proof.
  assert (GO : forall m : RM, rotation m -> 
     let p := let s := dcc2s (N := RNum) (dmxv (N := RNum) m (dcs2c (N := RNum) s)) in Sph (N := RNum) (dranrm (N := RNum) (s_a s)) (s_b s) in
     direction (s_a p) (s_b p) = mapply m (direction (s_a s) (s_b s)) /\ conventional (s_a p) (s_b p)).
  { intros m M. rewrite dmxv_mapply, dcs2c_direction. set (w := mapply m _). cbv zeta. cbn [s_a s_b].
    assert (N1 : norm w = 1) by (unfold w; rewrite rotation_norm; [apply norm_direction | assumption]).
    split.
    - rewrite direction_dranrm. etransitivity; [apply unit_of_direction, norm_1_nz; assumption | apply unit_of_unit; assumption].
    - split; [apply dranrm_spec|]. apply (dcc2s_range w). }
  destruct c; unfold preces; cbv zeta.
  - rewrite prebn_spec. apply GO. apply precession_rotation.
  - rewrite prec_spec. apply GO. apply precession_rotation.
  - split; reflexivity.
Qed.

(** Distances between vectors. *)
Lemma cauchy a b : dot a b <= norm a * norm b.
Proof.
  pose proof (norm_nonneg a). pose proof (norm_nonneg b). pose proof (norm_sq a) as SA. pose proof (norm_sq b) as SB.
  assert (L : dot a b * dot a b <= dot a a * dot b b).
  { unfold dot. destruct a as [x y z], b as [x' y' z']; cbn [v0 v1 v2].
    pose proof (Rle_0_sqr (x * y' - y * x')). pose proof (Rle_0_sqr (x * z' - z * x')). pose proof (Rle_0_sqr (y * z' - z * y')).
    unfold Rsqr in *. nra. }
  destruct (Rle_dec (dot a b) 0); [nra|]. apply Rsqr_incr_0_var; [unfold Rsqr; rewrite <- SA, <- SB in L; nra | nra].
Qed.
Lemma norm_triangle a b : norm (vadd a b) <= norm a + norm b.
Proof.
  pose proof (norm_nonneg a). pose proof (norm_nonneg b). pose proof (cauchy a b).
  apply Rsqr_incr_0_var; [|lra]. unfold Rsqr. rewrite norm_sq. pose proof (norm_sq a) as SA. pose proof (norm_sq b) as SB.
  replace (dot (vadd a b) (vadd a b)) with (dot a a + 2 * dot a b + dot b b) by (geo; ring). nra.
Qed.
Lemma vdist_triangle a b c : vdist a c <= vdist a b + vdist b c.
Proof.
  unfold vdist. replace (vsub a c) with (vadd (vsub a b) (vsub b c)); [apply norm_triangle|].
  destruct a, b, c. unfold vadd, vsub; cbn. f_equal; ring.
Qed.
Lemma vdist_sym a b : vdist a b = vdist b a.
Proof. unfold vdist, norm. f_equal. unfold dot, vsub. cbn [v0 v1 v2]. ring. Qed.
Lemma vdist_self a : vdist a a = 0.
Proof. unfold vdist, norm. replace (dot (vsub a a) (vsub a a)) with 0 by (unfold dot, vsub; cbn [v0 v1 v2]; ring). apply sqrt_0. Qed.
Lemma norm_le_1 a : norm a <= Rabs (v0 a) + Rabs (v1 a) + Rabs (v2 a).
Proof.
  pose proof (Rabs_pos (v0 a)). pose proof (Rabs_pos (v1 a)). pose proof (Rabs_pos (v2 a)).
  apply Rsqr_incr_0_var; [|lra]. unfold Rsqr. rewrite norm_sq. unfold dot.
  rewrite <- (Rabs_pos_eq (v0 a * v0 a)), <- (Rabs_pos_eq (v1 a * v1 a)), <- (Rabs_pos_eq (v2 a * v2 a)), !Rabs_mult by nra. nra.
Qed.
Lemma norm_comp a : Rabs (v0 a) <= norm a /\ Rabs (v1 a) <= norm a /\ Rabs (v2 a) <= norm a.
Proof.
  pose proof (norm_nonneg a) as P. pose proof (norm_sq a) as S2. unfold dot in S2.
  repeat split; apply Rsqr_incr_0_var; try assumption; rewrite <- Rsqr_abs; unfold Rsqr; nra.
Qed.
(** Entrywise close matrices move a unit vector to close places. *)
Lemma near_dot a b v e : near (v0 a) (v0 b) e -> near (v1 a) (v1 b) e -> near (v2 a) (v2 b) e -> norm v = 1 ->
  Rabs (dot a v - dot b v) <= 2 * e.
Proof.
  unfold near. intros A B C N. pose proof (norm_sq v) as S2. rewrite N in S2. unfold dot in S2.
  replace (dot a v - dot b v) with ((v0 a - v0 b) * v0 v + (v1 a - v1 b) * v1 v + (v2 a - v2 b) * v2 v) by (unfold dot; ring).
  assert (0 <= e) by (pose proof (Rabs_pos (v0 a - v0 b)); lra).
  assert (T : Rabs (v0 v) + Rabs (v1 v) + Rabs (v2 v) <= 2).
  { pose proof (Rabs_pos (v0 v)). pose proof (Rabs_pos (v1 v)). pose proof (Rabs_pos (v2 v)).
    assert (E0 : Rabs (v0 v) * Rabs (v0 v) = v0 v * v0 v) by (rewrite <- Rabs_mult; apply Rabs_pos_eq; nra).
    assert (E1 : Rabs (v1 v) * Rabs (v1 v) = v1 v * v1 v) by (rewrite <- Rabs_mult; apply Rabs_pos_eq; nra).
    assert (E2 : Rabs (v2 v) * Rabs (v2 v) = v2 v * v2 v) by (rewrite <- Rabs_mult; apply Rabs_pos_eq; nra).
    rewrite <- E0, <- E1, <- E2 in S2. set (x := Rabs (v0 v)) in *. set (y := Rabs (v1 v)) in *. set (z := Rabs (v2 v)) in *.
    apply Rsqr_incr_0_var; [|lra]. unfold Rsqr. pose proof (Rle_0_sqr (x - y)). pose proof (Rle_0_sqr (x - z)). pose proof (Rle_0_sqr (y - z)).
    unfold Rsqr in *. nra. }
  eapply Rle_trans; [apply Rabs_triang|]. eapply Rle_trans; [apply Rplus_le_compat_r, Rabs_triang|]. rewrite !Rabs_mult.
  pose proof (Rabs_pos (v0 v)). pose proof (Rabs_pos (v1 v)). pose proof (Rabs_pos (v2 v)). nra.
Qed.
Lemma mnear_apply m g v e : mnear m g e -> norm v = 1 -> vdist (mapply m v) (mapply g v) <= 4 * e.
Proof.
  intros ((A0 & A1 & A2) & (B0 & B1 & B2) & (C0 & C1 & C2)) N.
  pose proof (near_dot _ _ v e A0 A1 A2 N) as A. pose proof (near_dot _ _ v e B0 B1 B2 N) as B. pose proof (near_dot _ _ v e C0 C1 C2 N) as C.
  unfold vdist. assert (0 <= e) by (unfold near in A0; pose proof (Rabs_pos (v0 (r0 m) - v0 (r0 g))); lra).
  apply Rsqr_incr_0_var; [|lra]. unfold Rsqr. rewrite norm_sq. unfold vsub, mapply, dot at 1; cbn [v0 v1 v2].
  set (x := dot (r0 m) v - dot (r0 g) v) in *. set (y := dot (r1 m) v - dot (r1 g) v) in *. set (z := dot (r2 m) v - dot (r2 g) v) in *.
  assert (SQ : forall t, Rabs t <= 2 * e -> t * t <= 4 * (e * e)).
  { intros t Ht. rewrite <- (Rabs_pos_eq (t * t)), Rabs_mult by nra. pose proof (Rabs_pos t). nra. }
  pose proof (SQ x A). pose proof (SQ y B). pose proof (SQ z C). nra.
Qed.
Lemma norm_scale_abs k v : norm (scale k v) = Rabs k * norm v.
Proof.
  unfold norm. replace (dot (scale k v) (scale k v)) with (Rsqr k * dot v v) by (unfold dot, scale, Rsqr; cbn; ring).
  rewrite sqrt_mult by (apply Rle_0_sqr || apply dot_self_nonneg). rewrite sqrt_Rsqr_abs. reflexivity.
Qed.
(** Normalising a vector close to a unit one. *)
Lemma unit_of_near w u e : norm u = 1 -> vdist w u <= e -> e < 1 -> w <> vzero /\ vdist (unit_of w) u <= 2 * e.
Proof.
  intros U D L. assert (P : 0 < norm w).
  { pose proof (norm_triangle (vsub u w) w) as T. replace (vadd (vsub u w) w) with u in T by (destruct u, w; unfold vadd, vsub; cbn; f_equal; ring).
    fold (vdist u w) in T. rewrite vdist_sym in T. lra. }
  split. { intros ->. apply norm_1_nz in U. unfold norm, dot, vzero in P. cbn [v0 v1 v2] in P. replace (0 * 0 + 0 * 0 + 0 * 0) with 0 in P by ring. rewrite sqrt_0 in P. lra. }
  eapply Rle_trans; [apply (vdist_triangle _ w)|].
  assert (E : vdist (unit_of w) w = Rabs (1 - norm w)).
  { unfold vdist. replace (vsub (unit_of w) w) with (scale ((1 - norm w) / norm w) w).
    - rewrite norm_scale_abs. unfold Rdiv. rewrite Rabs_mult, (Rabs_pos_eq (/ norm w)) by (left; apply Rinv_0_lt_compat; assumption). field. lra.
    - unfold unit_of. destruct w as [x y z]. unfold vsub, scale; cbn [v0 v1 v2]. f_equal; field; lra. }
  rewrite E. pose proof (norm_triangle (vsub u w) w) as T1. pose proof (norm_triangle (vsub w u) u) as T2.
  replace (vadd (vsub u w) w) with u in T1 by (destruct u, w; unfold vadd, vsub; cbn; f_equal; ring).
  replace (vadd (vsub w u) u) with w in T2 by (destruct u, w; unfold vadd, vsub; cbn; f_equal; ring).
  fold (vdist u w) in T1. fold (vdist w u) in T2. rewrite vdist_sym in T1. rewrite U in T1, T2.
  assert (Rabs (1 - norm w) <= e) by (apply Rabs_le; lra). lra.
Qed.
Lemma unit_of_scale k w : 0 < k -> unit_of (scale k w) = unit_of w.
Proof.
  intros K. unfold unit_of. rewrite norm_scale_abs, Rabs_pos_eq by lra. destruct (Req_dec (norm w) 0) as [Z|Z].
  - rewrite Z, Rmult_0_r. apply norm_0 in Z. rewrite Z. unfold scale, vzero; cbn [v0 v1 v2]. f_equal; ring.
  - destruct w as [x y z]. unfold scale; cbn [v0 v1 v2]. f_equal; field; split; lra.
Qed.
Lemma norm_unit_of w : w <> vzero -> norm (unit_of w) = 1.
Proof. intros H. pose proof (norm_pos_nz w H). unfold unit_of. rewrite norm_scale_abs, Rabs_pos_eq; [field; lra|left; apply Rinv_0_lt_compat; assumption]. Qed.
