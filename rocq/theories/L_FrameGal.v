(** Lemmas for the galactic and supergalactic systems and the E-terms. *)
From Coq Require Import ZArith QArith Qreals Reals Lra Lia List Ascii String.
From Verif Require Import Num NumR L_Pi L_Real M_Vec M_Angle S_Geom S_Frame L_Vec L_Rot L_Angle L_Gal M_Nutc M_Epoch M_Frame L_Frame.
Import ListNotations.
Open Scope R_scope.

Lemma mnear_transpose a b e : mnear a b e -> mnear (transpose a) (transpose b) e.
Proof. unfold mnear, transpose, col. cbn [r0 r1 r2 v0 v1 v2]. tauto. Qed.
Lemma pole_frame_rotation a b c : rotation (pole_frame a b c).
Proof. unfold pole_frame. repeat apply rotation_mmul; apply rotation_frame_z || apply rotation_frame_x. Qed.

Lemma sph_matrix (m g : RM) (v : RV) e : mnear g m e -> rotation g -> norm v = 1 -> 8 * e < 1 ->
  mapply m v <> vzero /\
  let c := conv_range (N := RNum) (dcc2s (N := RNum) (mapply m v)) in
  direction (s_a c) (s_b c) = unit_of (mapply m v) /\ conventional (s_a c) (s_b c) /\
  vdist (direction (s_a c) (s_b c)) (mapply g v) <= 8 * e.
Proof.
  intros M G V E. pose proof (mnear_apply _ _ v e M V) as D. rewrite vdist_sym in D.
  assert (0 <= 4 * e) by (pose proof (norm_nonneg (vsub (mapply m v) (mapply g v))); unfold vdist in D; lra).
  destruct (unit_of_near (mapply m v) (mapply g v) (4 * e)) as [NZ D2]; [rewrite rotation_norm by assumption; exact V | exact D | lra |].
  split; [exact NZ|]. destruct (conv_dcc2s _ NZ) as [A B]. cbv zeta. rewrite A. split; [reflexivity|]. split; [exact B|]. lra.
Qed.

Lemma mapply_unit_of m v : v <> vzero -> mapply m (unit_of v) = scale (/ norm v) (mapply m v).
Proof. intros _. unfold unit_of. apply mapply_scale. Qed.

Lemma round_matrix (m m' : RM) (v : RV) e : mnear (mmul m' m) mident e -> norm v = 1 -> 8 * e < 1 -> mapply m v <> vzero ->
  vdist (unit_of (mapply m' (unit_of (mapply m v)))) v <= 8 * e /\ mapply m' (unit_of (mapply m v)) <> vzero.
Proof.
  intros M V E NZ. pose proof (norm_pos_nz _ NZ) as P. rewrite mapply_unit_of by exact NZ.
  rewrite unit_of_scale by (apply Rinv_0_lt_compat; exact P). rewrite <- mapply_mmul.
  pose proof (mnear_apply _ _ v e M V) as D. rewrite mapply_ident in D.
  assert (0 <= 4 * e) by (pose proof (norm_nonneg (vsub (mapply (mmul m' m) v) v)); unfold vdist in D; lra).
  destruct (unit_of_near (mapply (mmul m' m) v) v (4 * e)) as [Z D2]; [exact V|exact D|lra|]. split; [lra|].
  intros Q. apply Z. apply (f_equal (scale (norm (mapply m v)))) in Q. 
  destruct (mapply (mmul m' m) v) as [x y z]. unfold scale, vzero in Q; cbn [v0 v1 v2] in Q.
  injection Q as Q0 Q1 Q2. rewrite <- !Rmult_assoc, Rinv_r, !Rmult_1_l, Rmult_0_r in Q0, Q1, Q2 by lra.
  unfold vzero. congruence.
Qed.

Ltac ortho :=
  unfold mnear, mmul, transpose, col, dot, mident; cbn [r0 r1 r2 v0 v1 v2]; unR; cbn [Rdec];
  repeat match goal with |- context [Z.pow_pos 10 12] => change (Z.pow_pos 10 12) with 1000000000000%Z end;
  split; [|split]; (split; [|split]); unfold near; apply Rabs_le; lra.
Lemma gal_ortho : mnear (mmul (transpose (gal_mat (N := RNum))) (gal_mat (N := RNum))) mident 5e-11 /\
                  mnear (mmul (gal_mat (N := RNum)) (transpose (gal_mat (N := RNum)))) mident 5e-11.
Proof. unfold gal_mat. split; ortho. Qed.
Lemma sup_ortho : mnear (mmul (transpose (sup_mat (N := RNum))) (sup_mat (N := RNum))) mident 1e-12 /\
                  mnear (mmul (sup_mat (N := RNum)) (transpose (sup_mat (N := RNum)))) mident 1e-12.
Proof. unfold sup_mat. split; ortho. Qed.
Lemma gal50_ortho : mnear (mmul (transpose (gal50_mat (N := RNum))) (gal50_mat (N := RNum))) mident 1.2e-12 /\
                  mnear (mmul (gal50_mat (N := RNum)) (transpose (gal50_mat (N := RNum)))) mident 1.2e-12.
Proof. unfold gal50_mat. split; ortho. Qed.

(** Galactic. *)
Lemma eqgal_spec (s : sph RNum) : let g := eqgal (N := RNum) s in
  vdist (direction (s_a g) (s_b g)) (mapply galactic_frame (direction (s_a s) (s_b s))) <= 1e-6 /\ conventional (s_a g) (s_b g).
Proof.
  unfold eqgal. rewrite dmxv_mapply, dcs2c_direction.
  destruct (sph_matrix (gal_mat (N := RNum)) galactic_frame (direction (s_a s) (s_b s)) 1e-7) as (_ & _ & C & D);
    [apply gal_near | apply pole_frame_rotation | apply norm_direction | lra |]. split; [lra|exact C].
Qed.
Lemma galeq_spec (s : sph RNum) : let g := galeq (N := RNum) s in
  vdist (direction (s_a g) (s_b g)) (mapply (transpose galactic_frame) (direction (s_a s) (s_b s))) <= 1e-6 /\ conventional (s_a g) (s_b g).
Proof.
  unfold galeq. rewrite dimxv_mapply, dcs2c_direction.
  destruct (sph_matrix (transpose (gal_mat (N := RNum))) (transpose galactic_frame) (direction (s_a s) (s_b s)) 1e-7) as (_ & _ & C & D);
    [apply mnear_transpose, gal_near | apply rotation_transpose, pole_frame_rotation | apply norm_direction | lra |]. split; [lra|exact C].
Qed.
Lemma galsup_spec (s : sph RNum) : let g := galsup (N := RNum) s in
  vdist (direction (s_a g) (s_b g)) (mapply supergalactic_frame (direction (s_a s) (s_b s))) <= 1e-11 /\ conventional (s_a g) (s_b g).
Proof.
  unfold galsup. rewrite dmxv_mapply, dcs2c_direction.
  destruct (sph_matrix (sup_mat (N := RNum)) supergalactic_frame (direction (s_a s) (s_b s)) 1e-12) as (_ & _ & C & D);
    [apply sup_near | apply pole_frame_rotation | apply norm_direction | lra |]. split; [lra|exact C].
Qed.
Lemma supgal_spec (s : sph RNum) : let g := supgal (N := RNum) s in
  vdist (direction (s_a g) (s_b g)) (mapply (transpose supergalactic_frame) (direction (s_a s) (s_b s))) <= 1e-11 /\ conventional (s_a g) (s_b g).
Proof.
  unfold supgal. rewrite dimxv_mapply, dcs2c_direction.
  destruct (sph_matrix (transpose (sup_mat (N := RNum))) (transpose supergalactic_frame) (direction (s_a s) (s_b s)) 1e-12) as (_ & _ & C & D);
    [apply mnear_transpose, sup_near | apply rotation_transpose, pole_frame_rotation | apply norm_direction | lra |]. split; [lra|exact C].
Qed.

Lemma round_sph (m g m' : RM) v e f : mnear g m e -> rotation g -> norm v = 1 -> 8 * e < 1 ->
  mnear (mmul m' m) mident f -> 8 * f < 1 ->
  let c := conv_range (N := RNum) (dcc2s (N := RNum) (mapply m v)) in
  let d := conv_range (N := RNum) (dcc2s (N := RNum) (mapply m' (direction (s_a c) (s_b c)))) in
  vdist (direction (s_a d) (s_b d)) v <= 8 * f.
Proof.
  intros M G V E O F. destruct (sph_matrix m g v e M G V E) as (NZ & A & _). cbv zeta in A. cbv zeta. rewrite A.
  destruct (round_matrix m m' v f O V F NZ) as [D Z]. destruct (conv_dcc2s _ Z) as [B _]. cbv zeta in B. rewrite B. exact D.
Qed.
Lemma gal_round_trip (s : sph RNum) :
  (let r := galeq (N := RNum) (eqgal (N := RNum) s) in vdist (direction (s_a r) (s_b r)) (direction (s_a s) (s_b s)) <= 1e-9) /\
  (let r := eqgal (N := RNum) (galeq (N := RNum) s) in vdist (direction (s_a r) (s_b r)) (direction (s_a s) (s_b s)) <= 1e-9).
Proof.
  split; unfold galeq, eqgal; rewrite dmxv_mapply, dimxv_mapply, !dcs2c_direction.
  - eapply Rle_trans; [apply (round_sph _ galactic_frame _ _ 1e-7 5e-11)|lra];
      [apply gal_near | apply pole_frame_rotation | apply norm_direction | lra | apply gal_ortho | lra].
  - eapply Rle_trans; [apply (round_sph _ (transpose galactic_frame) _ _ 1e-7 5e-11)|lra];
      [apply mnear_transpose, gal_near | apply rotation_transpose, pole_frame_rotation | apply norm_direction | lra | apply gal_ortho | lra].
Qed.
Lemma sup_round_trip (s : sph RNum) :
  (let r := supgal (N := RNum) (galsup (N := RNum) s) in vdist (direction (s_a r) (s_b r)) (direction (s_a s) (s_b s)) <= 1e-11) /\
  (let r := galsup (N := RNum) (supgal (N := RNum) s) in vdist (direction (s_a r) (s_b r)) (direction (s_a s) (s_b s)) <= 1e-11).
Proof.
  split; unfold galsup, supgal; rewrite dmxv_mapply, dimxv_mapply, !dcs2c_direction.
  - eapply Rle_trans; [apply (round_sph _ supergalactic_frame _ _ 1e-12 1e-12)|lra];
      [apply sup_near | apply pole_frame_rotation | apply norm_direction | lra | apply sup_ortho | lra].
  - eapply Rle_trans; [apply (round_sph _ (transpose supergalactic_frame) _ _ 1e-12 1e-12)|lra];
      [apply mnear_transpose, sup_near | apply rotation_transpose, pole_frame_rotation | apply norm_direction | lra | apply sup_ortho | lra].
Qed.

(** E-terms. *)
Lemma etrms_spec be : etrms (N := RNum) be = e_terms be.
Proof.
  unfold etrms, e_terms, e_terms_of. cbv zeta. rewrite as2r_arcsec. unR. generalize arcsec as k. intros k.
  unfold scale; cbn [v0 v1 v2]. decs.
  match goal with |- V3 (?a * sin ?p) _ (_ * _ * sin ?o) = V3 (?a' * sin ?p') _ (_ * (_ * sin ?o')) =>
    assert (EA : a = a') by field; assert (EP : p = p') by field; assert (EO : o = o') by field; rewrite EA, EP, EO end.
  f_equal; ring.
Qed.
Lemma norm_e_terms_of e p o : norm (e_terms_of e p o) = Rabs (e * 20.49552 * arcsec).
Proof.
  unfold e_terms_of. rewrite norm_scale_abs. replace (norm _) with 1; [ring|].
  symmetry. unfold norm. rewrite <- sqrt_1. f_equal. unfold dot; cbn [v0 v1 v2]. pose proof (sc1 p). pose proof (sc1 o).
  replace (sin p * sin p + - cos p * cos o * (- cos p * cos o) + - cos p * sin o * (- cos p * sin o))
    with (sin p * sin p + cos p * cos p * (sin o * sin o + cos o * cos o)) by ring. nra.
Qed.
Lemma e_terms_small be : 1000 <= be <= 3000 -> norm (e_terms be) <= 2e-6.
Proof.
  intros H. unfold e_terms. cbv zeta. rewrite norm_e_terms_of. set (t := (be - 1950) * 0.0100002135903).
  assert (T : -10 <= t <= 11) by (unfold t; lra). clearbody t. unfold arcsec.
  apply Rabs_le. assert (0 <= t * t <= 121) by nra. replace (t ^ 2) with (t * t) by ring. lra.
Qed.
Lemma dranrm_dcc2s (w : RV) : w <> vzero ->
  let s := dcc2s (N := RNum) w in let p := Sph (N := RNum) (dranrm (N := RNum) (s_a s)) (s_b s) in
  direction (s_a p) (s_b p) = unit_of w /\ conventional (s_a p) (s_b p).
Proof.
  intros H. cbv zeta. cbn [s_a s_b]. split.
  - rewrite direction_dranrm. apply unit_of_direction. exact H.
  - split; [apply dranrm_spec|]. apply (dcc2s_range w).
Qed.
Lemma Rabs_m1 : Rabs (-1) = 1.
Proof. unfold Rabs. destruct (Rcase_abs (-1)); lra. Qed.
Lemma norm_vsub_ge a b : norm a - norm b <= norm (vsub a b) /\ norm a - norm b <= norm (vadd a b).
Proof.
  split.
  - pose proof (norm_triangle (vsub a b) b) as T. replace (vadd (vsub a b) b) with a in T by (destruct a, b; unfold vadd, vsub; cbn; f_equal; ring). lra.
  - pose proof (norm_triangle (vadd a b) (scale (-1) b)) as T.
    replace (vadd (vadd a b) (scale (-1) b)) with a in T by (destruct a, b; unfold vadd, scale; cbn; f_equal; ring).
    rewrite norm_scale_abs in T. rewrite Rabs_m1 in T. lra.
Qed.
Lemma norm_nz (w : RV) : 0 < norm w -> w <> vzero.
Proof. intros P ->. unfold norm, dot, vzero in P. cbn [v0 v1 v2] in P. replace (0 * 0 + 0 * 0 + 0 * 0) with 0 in P by ring. rewrite sqrt_0 in P. lra. Qed.
Lemma addet_spec (s : sph RNum) be : norm (e_terms be) < 1 -> let p := addet (N := RNum) s be in
  direction (s_a p) (s_b p) = unit_of (vadd (direction (s_a s) (s_b s)) (e_terms be)) /\ conventional (s_a p) (s_b p).
Proof.
  intros L. set (v := direction (s_a s) (s_b s)).
  assert (DEF : addet (N := RNum) s be = let q := dcc2s (N := RNum) (vadd v (etrms (N := RNum) be)) in Sph (N := RNum) (dranrm (N := RNum) (s_a q)) (s_b q)) by reflexivity.
  rewrite DEF, etrms_spec. set (e := e_terms be) in *. apply dranrm_dcc2s. apply norm_nz.
  destruct (norm_vsub_ge v e) as [_ G]. unfold v in G at 1. rewrite norm_direction in G. lra.
Qed.
Lemma cauchy_abs a b : Rabs (dot a b) <= norm a * norm b.
Proof.
  apply Rabs_le. split; [|apply cauchy]. pose proof (cauchy (scale (-1) a) b) as C. rewrite norm_scale_abs, Rabs_m1 in C.
  replace (dot (scale (-1) a) b) with (- dot a b) in C by (unfold dot, scale; cbn [v0 v1 v2]; ring). lra.
Qed.
(** The vector whose direction subet returns. *)
Definition subtracted (v e : RV) : RV := vsub (scale (1 + dot v e) v) e.
Lemma subtracted_sq v e : norm v = 1 -> dot (subtracted v e) (subtracted v e) = 1 + dot e e - dot v e * dot v e.
Proof.
  intros V. pose proof (norm_sq v) as S2. rewrite V in S2. unfold subtracted.
  replace (dot (vsub (scale (1 + dot v e) v) e) (vsub (scale (1 + dot v e) v) e))
    with ((1 + dot v e) * (1 + dot v e) * dot v v - 2 * (1 + dot v e) * dot v e + dot e e) by (unfold dot, vsub, scale; cbn [v0 v1 v2]; ring).
  rewrite <- S2. ring.
Qed.
Lemma subtracted_norm v e : norm v = 1 -> 1 <= norm (subtracted v e) /\ norm (subtracted v e) - 1 <= norm e * norm e / 2.
Proof.
  intros V. pose proof (subtracted_sq v e V) as Q. pose proof (cauchy_abs v e) as C. rewrite V, Rmult_1_l in C.
  pose proof (norm_sq (subtracted v e)) as Q2. rewrite Q in Q2. rewrite <- (norm_sq e) in Q2. set (k := norm (subtracted v e)) in *.
  assert (K : 0 <= k) by apply norm_nonneg. pose proof (norm_nonneg e).
  assert (dot v e * dot v e <= norm e * norm e).
  { rewrite <- (Rabs_pos_eq (dot v e * dot v e)), Rabs_mult by nra. pose proof (Rabs_pos (dot v e)). nra. }
  assert (1 <= k) by nra. split; [assumption|]. nra.
Qed.
Lemma subet_spec (s : sph RNum) be : let p := subet (N := RNum) s be in let v := direction (s_a s) (s_b s) in
  direction (s_a p) (s_b p) = unit_of (vsub (scale (1 + dot v (e_terms be)) v) (e_terms be)) /\ conventional (s_a p) (s_b p).
Proof.
  set (v := direction (s_a s) (s_b s)).
  assert (DEF : subet (N := RNum) s be = let e := etrms (N := RNum) be in let f := 1 + dvdv (N := RNum) v e in
     let q := dcc2s (N := RNum) (V3 (v0 v * f - v0 e) (v1 v * f - v1 e) (v2 v * f - v2 e)) in Sph (N := RNum) (dranrm (N := RNum) (s_a q)) (s_b q)) by reflexivity.
  rewrite DEF. cbv zeta. rewrite etrms_spec, dvdv_dot. set (e := e_terms be) in *.
  replace (vsub (scale (1 + dot v e) v) e) with (V3 (v0 v * (1 + dot v e) - v0 e) (v1 v * (1 + dot v e) - v1 e) (v2 v * (1 + dot v e) - v2 e))
    by (unfold vsub, scale; cbn [v0 v1 v2]; f_equal; ring).
  assert (NZ : V3 (v0 v * (1 + dot v e) - v0 e) (v1 v * (1 + dot v e) - v1 e) (v2 v * (1 + dot v e) - v2 e) <> vzero).
  { replace (V3 _ _ _) with (subtracted v e) by (unfold subtracted, vsub, scale; cbn [v0 v1 v2]; f_equal; ring).
    apply norm_nz. destruct (subtracted_norm v e); [apply norm_direction|lra]. }
  exact (dranrm_dcc2s _ NZ).
Qed.
(** A small multiple of [e] added to a unit vector. *)
Lemma unit_add v e c : norm v = 1 -> Rabs c * norm e < 1 -> vdist (unit_of (vadd v (scale c e))) v <= 2 * (Rabs c * norm e).
Proof.
  intros V L. destruct (unit_of_near (vadd v (scale c e)) v (Rabs c * norm e)) as [_ D]; [exact V | | exact L | exact D].
  unfold vdist. replace (vsub (vadd v (scale c e)) v) with (scale c e) by (destruct v, e; unfold vsub, vadd, scale; cbn; f_equal; ring).
  rewrite norm_scale_abs. lra.
Qed.
Lemma et_round1 v e : norm v = 1 -> norm e <= 1 / 10 ->
  vdist (unit_of (subtracted (unit_of (vadd v e)) e)) v <= 2 * norm e ^ 3.
Proof.
  intros V L. pose proof (norm_nonneg e) as E0. pose proof (cauchy_abs v e) as C. rewrite V, Rmult_1_l in C.
  set (k := norm (vadd v e)). set (a := dot v e) in *. set (n := norm e) in *.
  assert (KQ : k * k = 1 + 2 * a + n * n).
  { unfold k, n. rewrite !norm_sq. pose proof (norm_sq v) as S2. rewrite V in S2.
    replace (dot (vadd v e) (vadd v e)) with (dot v v + 2 * dot v e + dot e e) by (unfold dot, vadd; cbn [v0 v1 v2]; ring).
    rewrite <- S2. fold a. ring. }
  assert (CA : - n <= a <= n) by (unfold Rabs in C; destruct (Rcase_abs a); lra).
  destruct (norm_vsub_ge v e) as [_ K0]. fold k n in K0. rewrite V in K0.
  pose proof (norm_triangle v e) as K1. fold k n in K1. rewrite V in K1.
  set (g := (k + a + n * n) / (k * k)).
  assert (UE : dot (unit_of (vadd v e)) e = (a + n * n) / k).
  { unfold unit_of. fold k. replace (dot (scale (/ k) (vadd v e)) e) with (/ k * (dot v e + dot e e)) by (unfold dot, scale, vadd; cbn [v0 v1 v2]; ring).
    rewrite <- (norm_sq e). fold a n. field. lra. }
  assert (W : subtracted (unit_of (vadd v e)) e = vadd (scale g v) (scale (g - 1) e)).
  { unfold subtracted. rewrite UE. unfold unit_of. fold k. unfold g. destruct v as [x y z], e as [x' y' z'].
    unfold vsub, vadd, scale; cbn [v0 v1 v2]. f_equal; field; lra. }
  assert (D : (k - 1 - a) * (k + 1 + a) = n * n - a * a) by nra.
  assert (A2 : a * a <= n * n) by nra.
  assert (D0 : 0 <= k - 1 - a) by nra.
  assert (D1 : k - 1 - a <= n * n / 1.8) by nra.
  assert (G1 : g - 1 = (k - 1 - a) / (k * k)) by (unfold g; rewrite KQ; field; nra).
  assert (KK : 0.81 <= k * k) by nra.
  assert (G2 : 0 <= g - 1) by (rewrite G1; apply Rmult_le_pos; [exact D0|left; apply Rinv_0_lt_compat; lra]).
  assert (G3 : g - 1 <= n * n).
  { rewrite G1. apply Rmult_le_reg_r with (k * k); [lra|]. unfold Rdiv. rewrite Rmult_assoc, Rinv_l, Rmult_1_r by lra. nra. }
  assert (U : unit_of (subtracted (unit_of (vadd v e)) e) = unit_of (vadd v (scale ((g - 1) / g) e))).
  { rewrite W. replace (vadd (scale g v) (scale (g - 1) e)) with (scale g (vadd v (scale ((g - 1) / g) e))).
    - apply unit_of_scale. lra.
    - destruct v, e; unfold vadd, scale; cbn; f_equal; field; lra. }
  rewrite U. assert (Q : Rabs ((g - 1) / g) <= n * n).
  { assert (0 <= (g - 1) / g) by (apply Rmult_le_pos; [exact G2|left; apply Rinv_0_lt_compat; lra]).
    rewrite Rabs_pos_eq by assumption. apply Rmult_le_reg_r with g; [lra|]. unfold Rdiv. rewrite Rmult_assoc, Rinv_l, Rmult_1_r by lra. nra. }
  assert (Q2 : Rabs ((g - 1) / g) * norm e <= n ^ 3) by (fold n; replace (n ^ 3) with (n * n * n) by ring; nra).
  pose proof (unit_add v e ((g - 1) / g) V) as X. assert (n ^ 3 < 1) by (replace (n ^ 3) with (n * n * n) by ring; nra).
  specialize (X ltac:(lra)). lra.
Qed.
Lemma et_round2 v e : norm v = 1 -> norm e <= 1 / 10 ->
  vdist (unit_of (vadd (unit_of (subtracted v e)) e)) v <= 2 * norm e ^ 3.
Proof.
  intros V L. pose proof (norm_nonneg e) as E0. pose proof (cauchy_abs v e) as C. rewrite V, Rmult_1_l in C.
  destruct (subtracted_norm v e V) as [Q0 Q1]. set (q := norm (subtracted v e)) in *. set (a := dot v e) in *. set (n := norm e) in *.
  assert (CA : - n <= a <= n) by (unfold Rabs in C; destruct (Rcase_abs a); lra).
  assert (U : unit_of (vadd (unit_of (subtracted v e)) e) = unit_of (vadd v (scale ((q - 1) / (1 + a)) e))).
  { replace (vadd (unit_of (subtracted v e)) e) with (scale ((1 + a) / q) (vadd v (scale ((q - 1) / (1 + a)) e))).
    - apply unit_of_scale. apply Rmult_lt_0_compat; [lra|apply Rinv_0_lt_compat; lra].
    - unfold unit_of. fold q. unfold subtracted. fold a. destruct v, e; unfold vadd, vsub, scale; cbn; f_equal; field; lra. }
  rewrite U. assert (Q : Rabs ((q - 1) / (1 + a)) <= n * n).
  { assert (0 <= (q - 1) / (1 + a)) by (apply Rmult_le_pos; [lra|left; apply Rinv_0_lt_compat; lra]).
    rewrite Rabs_pos_eq by assumption. apply Rmult_le_reg_r with (1 + a); [lra|]. unfold Rdiv. rewrite Rmult_assoc, Rinv_l, Rmult_1_r by lra. nra. }
  assert (Q2 : Rabs ((q - 1) / (1 + a)) * norm e <= n ^ 3) by (fold n; replace (n ^ 3) with (n * n * n) by ring; nra).
  pose proof (unit_add v e ((q - 1) / (1 + a)) V) as X. assert (n ^ 3 < 1) by (replace (n ^ 3) with (n * n * n) by ring; nra).
  specialize (X ltac:(lra)). lra.
Qed.
Lemma et_round_trip (s : sph RNum) be : norm (e_terms be) <= 1 / 10 ->
  (let r := subet (N := RNum) (addet (N := RNum) s be) be in
   vdist (direction (s_a r) (s_b r)) (direction (s_a s) (s_b s)) <= 2 * norm (e_terms be) ^ 3) /\
  (let r := addet (N := RNum) (subet (N := RNum) s be) be in
   vdist (direction (s_a r) (s_b r)) (direction (s_a s) (s_b s)) <= 2 * norm (e_terms be) ^ 3).
Proof.
  intros L. split; cbv zeta.
  - destruct (subet_spec (addet (N := RNum) s be) be) as [A _]. cbv zeta in A. rewrite A.
    destruct (addet_spec s be ltac:(lra)) as [B _]. cbv zeta in B. rewrite B.
    apply (et_round1 (direction (s_a s) (s_b s)) (e_terms be)); [apply norm_direction | exact L].
  - destruct (addet_spec (subet (N := RNum) s be) be ltac:(lra)) as [A _]. cbv zeta in A. rewrite A.
    destruct (subet_spec s be) as [B _]. cbv zeta in B. rewrite B.
    apply (et_round2 (direction (s_a s) (s_b s)) (e_terms be)); [apply norm_direction | exact L].
Qed.

Lemma unit_of_lip a b : b <> vzero -> vdist a b < norm b -> vdist (unit_of a) (unit_of b) <= 2 * (vdist a b / norm b).
Proof.
  intros B L. pose proof (norm_pos_nz b B) as P. rewrite <- (unit_of_scale (/ norm b) a) by (apply Rinv_0_lt_compat; exact P).
  assert (E : vdist (scale (/ norm b) a) (unit_of b) = vdist a b / norm b).
  { unfold vdist, unit_of. replace (vsub (scale (/ norm b) a) (scale (/ norm b) b)) with (scale (/ norm b) (vsub a b))
      by (destruct a, b; unfold vsub, scale; cbn; f_equal; ring).
    rewrite norm_scale_abs, Rabs_pos_eq; [field; lra|left; apply Rinv_0_lt_compat; exact P]. }
  destruct (unit_of_near (scale (/ norm b) a) (unit_of b) (vdist a b / norm b)) as [_ D];
    [apply norm_unit_of; exact B | rewrite E; lra | | exact D].
  apply Rmult_lt_reg_r with (norm b); [exact P|]. unfold Rdiv. rewrite Rmult_assoc, Rinv_l, Rmult_1_r by lra. lra.
Qed.
Lemma vdist_vadd a b e : vdist (vadd a e) (vadd b e) = vdist a b.
Proof. unfold vdist. f_equal. destruct a, b, e; unfold vsub, vadd; cbn; f_equal; ring. Qed.
Lemma add_lip a b e d : norm a = 1 -> norm b = 1 -> norm e <= 1 / 10 -> vdist a b <= d -> d < 1 / 10 ->
  vdist (unit_of (vadd a e)) (unit_of (vadd b e)) <= 2.3 * d.
Proof.
  intros A B E D L. destruct (norm_vsub_ge b e) as [_ G]. rewrite B in G.
  assert (NZ : vadd b e <> vzero) by (apply norm_nz; lra).
  pose proof (unit_of_lip (vadd a e) (vadd b e) NZ) as X. rewrite vdist_vadd in X. specialize (X ltac:(lra)).
  assert (0 <= vdist a b) by apply norm_nonneg.
  assert (vdist a b / norm (vadd b e) <= d / 0.9).
  { apply Rmult_le_reg_r with (norm (vadd b e)); [lra|]. unfold Rdiv at 1. rewrite Rmult_assoc, Rinv_l, Rmult_1_r by lra.
    replace (d / 0.9 * norm (vadd b e)) with (d * (norm (vadd b e) / 0.9)) by lra. assert (1 <= norm (vadd b e) / 0.9) by lra. nra. }
  lra.
Qed.
Lemma e1950_small : norm (e_terms 1950) <= 2e-6. Proof. apply e_terms_small. lra. Qed.
Lemma e1950_cube : norm (e_terms 1950) ^ 3 <= 1e-17.
Proof.
  pose proof e1950_small as H. pose proof (norm_nonneg (e_terms 1950)) as P. set (x := norm (e_terms 1950)) in *.
  replace (x ^ 3) with (x * x * x) by ring. assert (x * x <= 4e-12) by nra. assert (0 <= x * x) by nra. nra.
Qed.

Lemma subet_direction (s : sph RNum) : let p := subet (N := RNum) s 1950 in
  direction (s_a p) (s_b p) = unit_of (subtracted (direction (s_a s) (s_b s)) (e_terms 1950)).
Proof. destruct (subet_spec s 1950) as [A _]. exact A. Qed.
Lemma eg50_spec (s : sph RNum) : let g := eg50 (N := RNum) s in let p := subet (N := RNum) s 1950 in
  (direction (s_a g) (s_b g) = unit_of (mapply (gal50_mat (N := RNum)) (direction (s_a p) (s_b p))) /\
   vdist (direction (s_a g) (s_b g)) (mapply galactic_frame_B1950 (direction (s_a p) (s_b p))) <= 1e-10) /\ conventional (s_a g) (s_b g).
Proof.
  unfold eg50. rewrite dmxv_mapply, dcs2c_direction. change (n_ofZ (n := RNum) 1950) with 1950.
  destruct (sph_matrix (gal50_mat (N := RNum)) galactic_frame_B1950 (direction (s_a (subet (N := RNum) s 1950)) (s_b (subet (N := RNum) s 1950))) 1e-12) as (_ & A & C & D);
    [apply gal50_near | apply pole_frame_rotation | apply norm_direction | lra |]. split; [split; [exact A|lra]|exact C].
Qed.
Lemma lat_pi (s : sph RNum) : conventional (s_a s) (s_b s) -> - PI < s_b s < PI.
Proof. intros [_ L]. pose proof PI_RGT_0. lra. Qed.
Lemma ge50_spec (g : sph RNum) : let s := ge50 (N := RNum) g in let v := direction (s_a g) (s_b g) in
  (direction (s_a s) (s_b s) = unit_of (vadd (unit_of (mapply (transpose (gal50_mat (N := RNum))) v)) (e_terms 1950)) /\
   vdist (direction (s_a s) (s_b s)) (unit_of (vadd (mapply (transpose galactic_frame_B1950) v) (e_terms 1950))) <= 1e-10) /\ conventional (s_a s) (s_b s).
Proof.
  unfold ge50. rewrite dimxv_mapply, dcs2c_direction. change (n_ofZ (n := RNum) 1950) with 1950.
  set (v := direction (s_a g) (s_b g)). cbv zeta. pose proof e1950_small as ES.
  destruct (sph_matrix (transpose (gal50_mat (N := RNum))) (transpose galactic_frame_B1950) v 1e-12) as (NZ & A & _ & D);
    [apply mnear_transpose, gal50_near | apply rotation_transpose, pole_frame_rotation | apply norm_direction | lra |].
  cbv zeta in A, D. rewrite A in D. clear A.
  destruct (addet_spec (dcc2s (N := RNum) (mapply (transpose (gal50_mat (N := RNum))) v)) 1950 ltac:(lra)) as [B C].
  cbv zeta in B, C. rewrite (unit_of_direction _ NZ) in B.
  set (a := addet (N := RNum) (dcc2s (N := RNum) (mapply (transpose (gal50_mat (N := RNum))) v)) 1950) in *.
  pose proof (direction_conv a (lat_pi a C)) as E. cbv zeta in E. rewrite E, B.
  split; [split; [reflexivity|]|].
  - eapply Rle_trans; [apply (add_lip _ _ _ 8e-12)|lra]; [apply norm_unit_of; exact NZ | | lra | lra | lra].
    rewrite rotation_norm; [apply norm_direction|apply rotation_transpose, pole_frame_rotation].
  - unfold conv_range. cbn [s_a s_b]. split; [apply dranrm_spec|]. change (- (PI / 2) <= drange (N := RNum) (s_b a) <= PI / 2).
    destruct C as [_ C]. pose proof PI_RGT_0. rewrite drange_id; [exact C|]. apply Rabs_def1; lra.
Qed.
Lemma g50_round1 (s : sph RNum) : let r := ge50 (N := RNum) (eg50 (N := RNum) s) in
  vdist (direction (s_a r) (s_b r)) (direction (s_a s) (s_b s)) <= 1e-10.
Proof.
  cbv zeta. destruct (ge50_spec (eg50 (N := RNum) s)) as [[A _] _]. cbv zeta in A. rewrite A. clear A.
  destruct (eg50_spec s) as [[B _] _]. cbv zeta in B. rewrite B. clear B.
  pose proof (subet_direction s) as S1. cbv zeta in S1. set (p := subet (N := RNum) s 1950) in *.
  destruct (sph_matrix (gal50_mat (N := RNum)) galactic_frame_B1950 (direction (s_a p) (s_b p)) 1e-12) as (NZ & _);
    [apply gal50_near | apply pole_frame_rotation | apply norm_direction | lra |].
  destruct (round_matrix (gal50_mat (N := RNum)) (transpose (gal50_mat (N := RNum))) (direction (s_a p) (s_b p)) 1.2e-12) as [D Z];
    [apply gal50_ortho | apply norm_direction | lra | exact NZ |].
  pose proof e1950_small as ES. pose proof e1950_cube as EC.
  eapply Rle_trans; [apply (vdist_triangle _ (unit_of (vadd (direction (s_a p) (s_b p)) (e_terms 1950))))|].
  assert (X := add_lip _ _ (e_terms 1950) (8 * 1.2e-12) (norm_unit_of _ Z) (norm_direction (s_a p) (s_b p)) ltac:(lra) D ltac:(lra)).
  rewrite S1 in *. 
  pose proof (et_round2 (direction (s_a s) (s_b s)) (e_terms 1950) (norm_direction _ _) ltac:(lra)) as Y. lra.
Qed.
Lemma g50_round2 (g : sph RNum) : let r := eg50 (N := RNum) (ge50 (N := RNum) g) in
  vdist (direction (s_a r) (s_b r)) (direction (s_a g) (s_b g)) <= 1e-10.
Proof.
  cbv zeta. destruct (eg50_spec (ge50 (N := RNum) g)) as [[B _] _]. cbv zeta in B. rewrite B. clear B.
  rewrite subet_direction. destruct (ge50_spec g) as [[A _] _]. cbv zeta in A. rewrite A. clear A.
  set (v := direction (s_a g) (s_b g)). set (M := gal50_mat (N := RNum)). assert (V : norm v = 1) by apply norm_direction.
  destruct (sph_matrix (transpose M) (transpose galactic_frame_B1950) v 1e-12) as (NZ & _);
    [apply mnear_transpose, gal50_near | apply rotation_transpose, pole_frame_rotation | apply norm_direction | lra |].
  set (p := unit_of (mapply (transpose M) v)). assert (P : norm p = 1) by (apply norm_unit_of; exact NZ).
  pose proof e1950_small as ES. pose proof e1950_cube as EC.
  pose proof (et_round1 p (e_terms 1950) P ltac:(lra)) as Y. set (r := unit_of (subtracted _ _)) in *.
  assert (RN : norm r = 1).
  { unfold r. apply norm_unit_of, norm_nz.
    assert (U : norm (unit_of (vadd p (e_terms 1950))) = 1).
    { apply norm_unit_of, norm_nz. destruct (norm_vsub_ge p (e_terms 1950)). lra. }
    destruct (subtracted_norm _ (e_terms 1950) U). lra. }
  destruct (round_matrix (transpose M) M v 1.2e-12) as [D Z]; [apply gal50_ortho | exact V | lra | exact NZ |]. fold p in D, Z.
  assert (MR : vdist (mapply M r) (mapply M p) <= 8e-12 + 2e-17).
  { pose proof (mnear_apply _ _ r _ gal50_near RN) as R1. pose proof (mnear_apply _ _ p _ gal50_near P) as P1. fold M in R1, P1.
    eapply Rle_trans; [apply (vdist_triangle _ (mapply galactic_frame_B1950 r))|].
    eapply Rle_trans; [apply Rplus_le_compat_l, (vdist_triangle _ (mapply galactic_frame_B1950 p))|].
    assert (RP : vdist (mapply galactic_frame_B1950 r) (mapply galactic_frame_B1950 p) = vdist r p).
    { unfold vdist. replace (vsub (mapply galactic_frame_B1950 r) (mapply galactic_frame_B1950 p)) with (mapply galactic_frame_B1950 (vsub r p))
        by (unfold mapply, vsub, dot; cbn [v0 v1 v2]; f_equal; ring). apply rotation_norm, pole_frame_rotation. }
    rewrite RP, (vdist_sym (mapply M r)). lra. }
  assert (MP : 0.9 <= norm (mapply M p)).
  { pose proof (mnear_apply _ _ p _ gal50_near P) as P1. fold M in P1. unfold vdist in P1.
    destruct (norm_vsub_ge (mapply galactic_frame_B1950 p) (vsub (mapply galactic_frame_B1950 p) (mapply M p))) as [T _].
    replace (vsub (mapply galactic_frame_B1950 p) (vsub (mapply galactic_frame_B1950 p) (mapply M p))) with (mapply M p) in T
      by (unfold vsub; apply vec_eq; cbn [v0 v1 v2]; ring).
    rewrite (rotation_norm galactic_frame_B1950) in T by apply pole_frame_rotation. lra. }
  eapply Rle_trans; [apply (vdist_triangle _ (unit_of (mapply M p)))|].
  pose proof (unit_of_lip (mapply M r) (mapply M p) Z ltac:(lra)) as L.
  assert (0 <= vdist (mapply M r) (mapply M p)) by apply norm_nonneg.
  assert (vdist (mapply M r) (mapply M p) / norm (mapply M p) <= 1e-11).
  { apply Rmult_le_reg_r with (norm (mapply M p)); [lra|]. unfold Rdiv at 1. rewrite Rmult_assoc, Rinv_l, Rmult_1_r by lra. lra. }
  lra.
Qed.
