(** The two Earth ephemerides compared: epv's series against Stumpff's theory
    in evp, through Newcomb's ellipse and the precession to J2000. *)
From Coq Require Import Reals ZArith Lra Lia List QArith Nsatz.
From Verif Require Import Num NumR L_Pi L_Real M_Vec M_Epoch M_Frame M_EphTab M_Eph M_EvpTab M_Evp S_Geom S_Frame S_Eph S_Evp L_Vec L_Trig L_Frame L_FrameGal L_NutDiff L_Eph L_EphB L_EvpA L_EvpB L_EvpC L_EvpD L_EvpE L_EvpF L_EvpG L_EvpH L_EvpI L_EvpJ L_FltGeo.
Import ListNotations.
Open Scope R_scope.

(** ** Rotations by small angles *)
Definition turns (m : RM) (k : RV) (q : R) : Prop :=
  rotation m /\ 0 <= q /\ forall v, norm (vsub (mapply m v) (vadd v (cross k v))) <= q * norm v.

Lemma turns_mul A a p B b q : turns A a p -> turns B b q ->
  turns (mmul A B) (vadd a b) (p + q + norm a * norm b + p * norm b).
Proof.
  intros (RA & P & HA) (RB & Q & HB). pose proof (norm_nonneg a) as Na. pose proof (norm_nonneg b) as Nb.
  split; [apply rotation_mmul; assumption|]. split; [nra|]. intros v. rewrite mapply_mmul.
  pose proof (HB v) as H1. pose proof (HA v) as H2. pose proof (HA (cross b v)) as H3.
  rewrite <- (rotation_norm A _ RA) in H1.
  pose proof (norm_cross_le b v) as C1. pose proof (norm_cross_le a (cross b v)) as C2. pose proof (norm_nonneg v) as Nv.
  set (e1 := mapply A (vsub (mapply B v) (vadd v (cross b v)))) in *.
  set (e2 := vsub (mapply A v) (vadd v (cross a v))) in *.
  set (e3 := vsub (mapply A (cross b v)) (vadd (cross b v) (cross a (cross b v)))) in *.
  set (e4 := cross a (cross b v)) in *.
  replace (vsub (mapply A (mapply B v)) (vadd v (cross (vadd a b) v))) with (vadd (vadd e1 e2) (vadd e3 e4)).
  2: { unfold e1, e2, e3, e4. destruct v as [x0 x1 x2], a as [y0 y1 y2], b as [z0 z1 z2]. apply vec_eq; unfold vadd, vsub, cross, mapply, dot; cbn [v0 v1 v2]; ring. }
  pose proof (norm_triangle (vadd e1 e2) (vadd e3 e4)). pose proof (norm_triangle e1 e2). pose proof (norm_triangle e3 e4).
  assert (X3 : norm e3 <= p * (norm b * norm v)) by (eapply Rle_trans; [exact H3|]; apply Rmult_le_compat_l; assumption).
  assert (X4 : norm e4 <= norm a * (norm b * norm v)) by (eapply Rle_trans; [exact C2|]; apply Rmult_le_compat_l; assumption).
  eapply Rle_trans; [eassumption|]. nra.
Qed.

Lemma sin_abs x : Rabs x <= 1 -> Rabs (x - sin x) <= Rabs x * Rabs x * Rabs x / 6.
Proof.
  intros X. pose proof PI_bounds. destruct (Rle_dec 0 x) as [P|N].
  - rewrite (Rabs_pos_eq x) in * by lra. pose proof (sin_cubic x ltac:(lra)) as S.
    assert (sin x <= x). { destruct (Req_dec x 0) as [->|]; [rewrite sin_0; lra|]. apply Rlt_le, sin_lt_x; lra. }
    apply Rabs_le. nra.
  - assert (x < 0) by lra. rewrite (Rabs_left x) in * by lra. pose proof (sin_cubic (- x) ltac:(lra)) as S. rewrite sin_neg in S.
    pose proof (sin_lt_x (- x) ltac:(lra)) as U. rewrite sin_neg in U. apply Rabs_le. nra.
Qed.
Lemma small_pair x y z : Rabs x <= 1 / 10 ->
  ((cos x - 1) * y + (sin x - x) * z) * ((cos x - 1) * y + (sin x - x) * z) +
  ((cos x - 1) * z - (sin x - x) * y) * ((cos x - 1) * z - (sin x - x) * y) <= (501 / 1000 * (x * x)) * (501 / 1000 * (x * x)) * (y * y + z * z).
Proof.
  intros X. pose proof (cos_ge x (Rabs x) ltac:(lra) ltac:(lra)) as C. pose proof (sin_abs x ltac:(lra)) as S. pose proof (Rabs_pos x) as P.
  assert (XX : Rabs x * Rabs x = x * x) by (rewrite <- Rabs_mult; apply Rabs_pos_eq, Rle_0_sqr).
  rewrite XX in C, S. set (c := cos x - 1). set (s := sin x - x).
  replace ((c * y + s * z) * (c * y + s * z) + (c * z - s * y) * (c * z - s * y)) with ((c * c + s * s) * (y * y + z * z)) by ring.
  apply Rmult_le_compat_r; [nra|].
  assert (C2 : c * c <= (x * x / 2) * (x * x / 2)). { apply ab in C. unfold c. nra. }
  assert (S2 : s * s <= (x * x / 60) * (x * x / 60)).
  { assert (S' : Rabs (x - sin x) <= x * x / 60) by nra. apply ab in S'. unfold s. nra. }
  nra.
Qed.
Lemma turns_z x : Rabs x <= 1 / 10 -> turns (frame_z (- x)) (V3 0 0 x) (501 / 1000 * (x * x)).
Proof.
  intros X. split; [apply rotation_frame_z|]. split; [nra|]. intros v. pose proof (norm_nonneg v) as N.
  apply norm_le; [nra|]. replace (501 / 1000 * (x * x) * norm v * (501 / 1000 * (x * x) * norm v)) with
    ((501 / 1000 * (x * x)) * (501 / 1000 * (x * x)) * (norm v * norm v)) by ring. rewrite norm_sq.
  destruct v as [a b c]. unfold dot, vsub, vadd, mapply, frame_z, cross, dot; cbn [v0 v1 v2 r0 r1 r2]. rewrite sin_neg, cos_neg.
  pose proof (small_pair x a (- b) X) as S.
  eapply Rle_trans; [|eapply Rle_trans; [exact S|]].
  - right; ring.
  - pose proof (Rle_0_sqr c). unfold Rsqr in *. apply Rmult_le_compat_l; [nra|]. nra.
Qed.
Lemma turns_y x : Rabs x <= 1 / 10 -> turns (frame_y x) (V3 0 (- x) 0) (501 / 1000 * (x * x)).
Proof.
  intros X. split; [apply rotation_frame_y|]. split; [nra|]. intros v. pose proof (norm_nonneg v) as N.
  apply norm_le; [nra|]. replace (501 / 1000 * (x * x) * norm v * (501 / 1000 * (x * x) * norm v)) with
    ((501 / 1000 * (x * x)) * (501 / 1000 * (x * x)) * (norm v * norm v)) by ring. rewrite norm_sq.
  destruct v as [a b c]. unfold dot, vsub, vadd, mapply, frame_y, cross, dot; cbn [v0 v1 v2 r0 r1 r2].
  pose proof (small_pair x a (- c) X) as S.
  eapply Rle_trans; [|eapply Rle_trans; [exact S|]].
  - right; ring.
  - pose proof (Rle_0_sqr b). unfold Rsqr in *. apply Rmult_le_compat_l; [nra|]. nra.
Qed.
Lemma turns_conj e x q : turns (frame_z (- x)) (V3 0 0 x) q ->
  turns (mmul (frame_x e) (mmul (frame_z (- x)) (transpose (frame_x e)))) (V3 0 (sin e * x) (cos e * x)) q.
Proof.
  intros (RA & Q & H). pose proof (rotation_frame_x e) as RX.
  split. { apply rotation_mmul; [exact RX|]. apply rotation_mmul; [exact RA|]. apply rotation_transpose, RX. }
  split; [exact Q|]. intros v. rewrite !mapply_mmul. set (w := mapply (transpose (frame_x e)) v).
  pose proof (H w) as K. rewrite <- (rotation_norm (frame_x e) _ RX) in K.
  assert (W : norm w = norm v) by (apply rotation_norm, rotation_transpose, RX). rewrite W in K.
  eapply Rle_trans; [|exact K]. right. f_equal. pose proof (sc1' e) as SC. clear K W.
  destruct v as [a b c]. apply vec_eq; unfold w, vsub, vadd, mapply, frame_x, frame_z, transpose, col, cross, dot; cbn [v0 v1 v2 r0 r1 r2]; rewrite sin_neg, cos_neg; revert SC; generalize (cos e) (sin e) (cos x) (sin x); clear; intros ce se cx sx SC; nsatz.
Qed.

(** ** The ellipse to the first order in the eccentricity *)
Section Ellipse.
Context (e g : R) (E : Rabs e <= 168 / 10000).
Let c := centre e g.
Let r := (1 - e ^ 2) / (1 + e * cos (g + c)).
Lemma centre2 : Rabs (c - (2 * e * sin g + 5 / 2 * e * e * (sin g * cos g))) <= 7 / 1000000.
Proof.
  unfold c, centre. replace (sin (2 * g)) with (2 * sin g * cos g) by (rewrite <- sin_2a; reflexivity).
  set (s := sin g). set (k := cos g). set (w := sin (3 * g)).
  replace ((2 * e - e ^ 3 / 4) * s + 5 / 4 * e ^ 2 * (2 * s * k) + 13 / 12 * e ^ 3 * w - (2 * e * s + 5 / 2 * e * e * (s * k)))
    with (e * e * e * (13 / 12 * w - 1 / 4 * s)) by field.
  unfold w, s. bnd.
Qed.
Lemma sc_half : Rabs (sin g * cos g) <= 1 / 2.
Proof. pose proof (sc1' g). pose proof (Rle_0_sqr (sin g - cos g)). pose proof (Rle_0_sqr (sin g + cos g)). unfold Rsqr in *. apply Rabs_le. split; lra. Qed.
Lemma c_first : Rabs (c - 2 * e * sin g) <= 361 / 1000000.
Proof.
  pose proof centre2 as C. pose proof sc_half as H. set (h := sin g * cos g) in *.
  replace (c - 2 * e * sin g) with ((c - (2 * e * sin g + 5 / 2 * e * e * h)) + 5 / 2 * e * e * h) by ring. bnd.
Qed.
Lemma c_size : Rabs c <= 34 / 1000.
Proof. pose proof c_first as C. replace c with ((c - 2 * e * sin g) + 2 * e * sin g) by ring. bnd. Qed.
Lemma denom : 98 / 100 <= 1 + e * cos (g + c) <= 102 / 100.
Proof. assert (X : Rabs (e * cos (g + c)) <= 2 / 100) by bnd. apply ab in X. lra. Qed.
Lemma r_size : Rabs (r - 1) <= 175 / 10000.
Proof.
  pose proof denom as D. set (f := cos (g + c)) in *. assert (F : Rabs f <= 1) by apply cos1.
  pose proof (inv_bound (1 + e * f) (98 / 100) ltac:(lra) ltac:(lra)) as Iv.
  assert (P : Rabs (/ (1 + e * f)) <= 10171 / 10000).
  { assert (X : Rabs (e * f) <= 168 / 10000) by bnd. apply ab in X.
    eapply Rle_trans; [apply (inv_bound _ (9832 / 10000)); lra|]. lra. }
  unfold r. fold f. replace ((1 - e ^ 2) / (1 + e * f) - 1) with (- (e * (e + f)) * / (1 + e * f)) by (field; lra).
  assert (B : Rabs (e * (e + f)) <= 17083 / 1000000) by bnd. bnd.
Qed.
(** Components along and across the mean direction. *)
Lemma ellipse1 : Rabs (r * cos c - (1 - e * e / 2 - e * cos g)) <= 235 / 1000000 /\ Rabs (r * sin c - 2 * e * sin g) <= 135 / 1000000.
Proof.
  pose proof denom as D. pose proof c_size as CS. pose proof c_first as CF. pose proof centre2 as C2. pose proof r_size as RS. pose proof sc_half as H.
  pose proof (cos_ge c (34 / 1000) CS ltac:(lra)) as K. pose proof (sin_le c _ CS) as S.
  assert (SS : Rabs (c - sin c) <= 66 / 10000000).
  { eapply Rle_trans; [apply sin_abs; lra|]. pose proof (Rabs_pos c). assert (Rabs c * Rabs c <= 34 / 1000 * (34 / 1000)) by nra. nra. }
  assert (EQ : r = 1 - e * e - e * cos g * (r * cos c) + e * sin g * (r * sin c)).
  { unfold r at 1. rewrite cos_plus in *. set (d := 1 + e * (cos g * cos c - sin g * sin c)) in *.
    assert (RD : r * d = 1 - e ^ 2) by (unfold r; rewrite cos_plus; fold d; field; lra).
    fold d. replace ((1 - e ^ 2) / d) with r by (apply Rmult_eq_reg_r with d; [rewrite RD; field; lra|lra]).
    unfold d in RD. nra. }
  set (C := cos g) in *. set (Sg := sin g) in *. assert (Cb : Rabs C <= 1) by apply cos1. assert (Sb : Rabs Sg <= 1) by apply sin1.
  set (k := cos c) in *. set (s := sin c) in *. set (h := Sg * C) in *.
  set (eta := c - 2 * e * Sg) in *.
  assert (S1 : Rabs (s - 2 * e * Sg) <= 368 / 1000000).
  { replace (s - 2 * e * Sg) with (- (c - s) + eta) by (unfold eta; ring). bnd. }
  set (R1 := r - 1) in *. set (K1 := 1 - k) in *. assert (Er : r = 1 + R1) by (unfold R1; ring). assert (Ek : k = 1 - K1) by (unfold K1; ring).
  assert (B1 : Rabs (R1 + e * C) <= 12 / 10000).
  { replace (R1 + e * C) with (- (e * e) - e * C * (R1 - K1 - R1 * K1) + e * Sg * (s + R1 * s)).
    2: { rewrite Er, Ek in EQ. lra. }
    bnd. }
  assert (B2 : Rabs (r * s - 2 * e * Sg) <= 12 / 10000).
  { rewrite Er. replace ((1 + R1) * s - 2 * e * Sg) with (s - 2 * e * Sg + R1 * s) by ring. bnd. }
  assert (B3 : Rabs (r * k - (1 - e * C)) <= 19 / 10000).
  { rewrite Er, Ek. replace ((1 + R1) * (1 - K1) - (1 - e * C)) with ((R1 + e * C) - K1 - R1 * K1) by ring. bnd. }
  set (dX := r * k - (1 - e * C)) in *. set (dY := r * s - 2 * e * Sg) in *.
  assert (SC : C * C + Sg * Sg = 1) by (pose proof (sc1 g); unfold C, Sg; lra).
  assert (B4 : Rabs (R1 - (- e * C + e * e * (Sg * Sg))) <= 53 / 1000000).
  { replace (R1 - (- e * C + e * e * (Sg * Sg))) with (- (e * C * dX) + e * Sg * dY).
    2: { assert (X1 : r * k = 1 - e * C + dX) by (unfold dX; ring). assert (X2 : r * s = 2 * e * Sg + dY) by (unfold dY; ring).
         rewrite X1, X2 in EQ. assert (R1 = - (e * e) - e * C * (1 - e * C + dX) + e * Sg * (2 * e * Sg + dY)) by lra. rewrite H0.
         replace (- (e * e)) with (- (e * e) * (C * C + Sg * Sg)) by (rewrite SC; ring). ring. }
    bnd. }
  assert (B5 : Rabs (K1 - 2 * (e * e) * (Sg * Sg)) <= 13 / 1000000).
  { assert (Q : Rabs (K1 - c * c / 2) <= 6 / 100000000).
    { unfold K1, k. replace (1 - cos c - c * c / 2) with ((1 - c * c / 2) * -1 - (cos c) + 2 - c * c / 2 * 2) by field.
      pose proof (ab _ _ CS) as CC. destruct (pre_cos_bound c 0 ltac:(lra) ltac:(lra)) as (L & _). destruct (pre_cos_bound c 0 ltac:(lra) ltac:(lra)) as (_ & U).
      unfold cos_approx, cos_term in L, U. cbn [sum_f_R0 pow fact Nat.mul Nat.add INR] in L, U.
      assert (c * c * (c * c) <= 14 / 10000000). { assert (c * c <= 116 / 100000) by nra. assert (0 <= c * c) by nra. nra. }
      apply Rabs_le. cbn in L, U. lra. }
    replace (K1 - 2 * (e * e) * (Sg * Sg)) with ((K1 - c * c / 2) + (2 * e * Sg * eta + eta * eta * (1 / 2))) by (unfold eta; field). bnd. }
  assert (T : Rabs (Sg * Sg - 1 / 2) <= 1 / 2) by (apply ab in Sb; apply Rabs_le; nra).
  split.
  - rewrite Er, Ek. replace ((1 + R1) * (1 - K1) - (1 - e * e / 2 - e * C)) with
      ((R1 - (- e * C + e * e * (Sg * Sg))) - (K1 - 2 * (e * e) * (Sg * Sg)) - e * e * (Sg * Sg - 1 / 2) - R1 * K1) by field. bnd.
  - unfold dY. rewrite Er. replace ((1 + R1) * s - 2 * e * Sg) with
      ((c - (2 * e * Sg + 5 / 2 * e * e * h)) - (c - s) + e * e * h * (1 / 2) + 2 * e * Sg * (R1 + e * C) + (s - 2 * e * Sg) * R1) by (unfold h; field). bnd.
Qed.
End Ellipse.

(** ** Angles in the ecliptic of J2000 *)
Section Angles.
Context (t : R) (T : Rabs t <= 50).
Let u := t * t.
Definition chi : R := 5029.0966 * arcsecond * (t / 100).
Definition cent : R := 1 + t / 100.
Definition lam0 : R := sun_longitude cent - PI - chi.
Lemma u_range : 0 <= u <= 2500.
Proof. apply ab in T. unfold u. nra. Qed.
Ltac poly := pose proof PI_bounds; pose proof u_range; pose proof (ab _ _ T); apply Rabs_le;
  unfold lam0, cent, chi, sun_longitude, sun_anomaly, mean_longitude, dms, arcsecond;
  replace ((1 + t / 100) ^ 2) with (1 + t / 50 + u / 10000) by (unfold u; field); set (w := u) in *; split; lra.
Lemma angle1 : Rabs (lam0 - 2 * INR 100 * PI - mean_longitude t) <= 27e-6.
Proof. rewrite INR_IZR_INZ. cbn [Z.of_nat Pos.of_succ_nat Pos.succ]. poly. Qed.
Lemma angle2 : Rabs (lam0 + sun_anomaly cent - 2 * INR 201 * PI - (1.710344404582 + 12.56615170089 * t)) <= 295e-5.
Proof. rewrite INR_IZR_INZ. cbn [Z.of_nat Pos.of_succ_nat Pos.succ]. poly. Qed.
Lemma angle3 : Rabs (lam0 - sun_anomaly cent + 2 * PI - PI / 2 - 0.225854) <= 29e-4.
Proof. poly. Qed.
Lemma ecc1 : Rabs (eccentricity cent - 0.0167091) <= 22e-6.
Proof.
  pose proof u_range. pose proof (ab _ _ T). apply Rabs_le. unfold eccentricity, cent.
  replace ((1 + t / 100) ^ 2) with (1 + t / 50 + u / 10000) by (unfold u; field). set (w := u) in *. split; lra.
Qed.
End Angles.

(** ** Newcomb's ellipse against the leading terms of the series *)
Lemma tE0x t : Rabs (harmonic (tl (tl (tl epv_E0x))) t) <= 392 / 1000000. Proof. apply harmonic_le; hb. Qed.
Lemma tE0y t : Rabs (harmonic (tl (tl (tl epv_E0y))) t) <= 396 / 1000000. Proof. apply harmonic_le; hb. Qed.
Lemma splitx3 t : harmonic epv_E0x t = 0.9998292878132 * cos (mean_longitude t) + (0.008352579567414 * cos (1.710344404582 + 12.56615170089 * t)
  + (0.005611445335148 + harmonic (tl (tl (tl epv_E0x))) t)).
Proof.
  change epv_E0x with (((9998292878132, -13), (1753485171504, -12), (6283075850446, -12)) :: ((8352579567414, -15), (1710344404582, -12), (1256615170089, -11))
    :: ((5611445335148, -15), (0, -13), (0, -13)) :: tl (tl (tl epv_E0x)))%Z at 1.
  cbn [harmonic]. replace (decimal (0, -13)%Z) with 0 by dcm. rewrite Rmult_0_l, Rplus_0_r, cos_0, Rmult_1_r, d2, d3.
  unfold mean_longitude.
  replace (decimal (9998292878132, -13)%Z) with 0.9998292878132 by dcm. replace (decimal (8352579567414, -15)%Z) with 0.008352579567414 by dcm.
  replace (decimal (1710344404582, -12)%Z) with 1.710344404582 by dcm. replace (decimal (1256615170089, -11)%Z) with 12.56615170089 by dcm.
  replace (decimal (5611445335148, -15)%Z) with 0.005611445335148 by dcm. reflexivity.
Qed.
Lemma splity3 t : harmonic epv_E0y t = 0.9998921098898 * cos (0.1826583913846 + 6.283075850446 * t) + (- 0.02442700893735
  + (0.008352929742915 * cos (0.1395277998680 + 12.56615170089 * t) + harmonic (tl (tl (tl epv_E0y))) t)).
Proof.
  change epv_E0y with (((9998921098898, -13), (1826583913846, -13), (6283075850446, -12)) :: ((-2442700893735, -14), (0, -13), (0, -13))
    :: ((8352929742915, -15), (1395277998680, -13), (1256615170089, -11)) :: tl (tl (tl epv_E0y)))%Z at 1.
  cbn [harmonic]. replace (decimal (0, -13)%Z) with 0 by dcm. rewrite Rmult_0_l, Rplus_0_r, cos_0, Rmult_1_r, d3, d4, d5.
  replace (decimal (8352929742915, -15)%Z) with 0.008352929742915 by dcm.
  replace (decimal (1395277998680, -13)%Z) with 0.1395277998680 by dcm. replace (decimal (1256615170089, -11)%Z) with 12.56615170089 by dcm.
  replace (decimal (-2442700893735, -14)%Z) with (- 0.02442700893735) by dcm. reflexivity.
Qed.

Section Terms.
Context (t : R) (T : Rabs t <= 50).
Let L := lam0 t.
Let g := sun_anomaly (cent t).
Let e := eccentricity (cent t).
Lemma peri : Rabs (cos (L - g) + 0.223938) <= 291e-5 /\ Rabs (sin (L - g) - 0.974603) <= 291e-5.
Proof.
  pose proof (angle3 t T) as A. fold L g in A. set (x := L - g + 2 * PI - PI / 2) in *.
  assert (N : Rabs (sin (Q2R (Qmake 225854 1000000)) - Q2R (Qmake 223938 1000000)) <= 2e-6 /\ Rabs (cos (Q2R (Qmake 225854 1000000)) - Q2R (Qmake 974603 1000000)) <= 2e-6).
  { assert (Z : Rabs (Q2R (Qmake 225854 1000000) - Q2R (Qmake 225854 1000000)) <= Q2R (Qmake 1 1000000)).
    { rewrite Rminus_diag_eq, Rabs_R0 by reflexivity. unfold Q2R; cbn [Qnum Qden]. lra. }
    split.
    - eapply Rle_trans; [apply (sin_near _ (Qmake 225854 1000000) _ (Qmake 1 1000000) 1 Z)|]; try (vm_compute; discriminate).
      + split; vm_compute; discriminate.
      + unfold Q2R; cbn [Qnum Qden]. lra.
    - eapply Rle_trans; [apply (cos_near _ (Qmake 225854 1000000) _ (Qmake 1 1000000) 1 Z)|]; try (vm_compute; discriminate).
      + split; vm_compute; discriminate.
      + unfold Q2R; cbn [Qnum Qden]. lra. }
  destruct N as [N1 N2].
  replace (Q2R (Qmake 225854 1000000)) with 0.225854 in N1, N2 by (unfold Q2R; cbn [Qnum Qden]; lra).
  replace (Q2R (Qmake 223938 1000000)) with 0.223938 in N1 by (unfold Q2R; cbn [Qnum Qden]; lra).
  replace (Q2R (Qmake 974603 1000000)) with 0.974603 in N2 by (unfold Q2R; cbn [Qnum Qden]; lra).
  destruct (trig_near _ _ _ A) as [S C].
  replace (cos (L - g)) with (- sin x). 2: { unfold x. rewrite sin_m90. rewrite cos_plus, cos_2PI, sin_2PI. ring. }
  replace (sin (L - g)) with (cos x). 2: { unfold x. rewrite cos_m90. rewrite sin_plus, cos_2PI, sin_2PI. ring. }
  apply ab in N1, N2, S, C. split; apply Rabs_le; lra.
Qed.
Lemma lead : Rabs (cos L - cos (mean_longitude t)) <= 27e-6 /\ Rabs (sin L - sin (mean_longitude t)) <= 27e-6.
Proof.
  pose proof (angle1 t T) as A. fold L in A. destruct (trig_near _ _ _ A) as [S C].
  replace (cos L) with (cos (L - 2 * INR 100 * PI)) by (rewrite <- (cos_period _ 100); f_equal; ring).
  replace (sin L) with (sin (L - 2 * INR 100 * PI)) by (rewrite <- (sin_period _ 100); f_equal; ring). split; assumption.
Qed.
Lemma second : Rabs (cos (L + g) - cos (1.710344404582 + 12.56615170089 * t)) <= 295e-5 /\ Rabs (sin (L + g) - sin (1.710344404582 + 12.56615170089 * t)) <= 295e-5.
Proof.
  pose proof (angle2 t T) as A. fold L g in A. destruct (trig_near _ _ _ A) as [S C].
  replace (cos (L + g)) with (cos (L + g - 2 * INR 201 * PI)) by (rewrite <- (cos_period _ 201); f_equal; ring).
  replace (sin (L + g)) with (sin (L + g - 2 * INR 201 * PI)) by (rewrite <- (sin_period _ 201); f_equal; ring). split; assumption.
Qed.
Let c := centre e g.
Let r := newcomb_r (cent t).
Definition ecliptic_newcomb : RV := polar r (L + c) 0.
Lemma e_size : Rabs e <= 168 / 10000.
Proof. pose proof (ecc1 t T) as E. fold e in E. apply ab in E. apply Rabs_le. lra. Qed.
Lemma e_square : Rabs (e * e / 2 - 0.0001396) <= 1e-6.
Proof. pose proof (ecc1 t T) as E. fold e in E. apply ab in E. apply Rabs_le. split; nra. Qed.
Lemma t_E1 h b : Rabs h <= b -> Rabs (t * h) <= 50 * b.
Proof. intros. apply b_mul; assumption. Qed.
Lemma t_E2 h b : Rabs h <= b -> Rabs (t * t * h) <= 2500 * b.
Proof. intros. replace (2500 * b) with (50 * 50 * b) by ring. repeat apply b_mul; assumption. Qed.
Lemma newcomb_series : norm (vsub ecliptic_newcomb (V3 (helio epv_x t) (helio epv_y t) (helio epv_z t))) <= 126e-5.
Proof.
  destruct (ellipse1 e g e_size) as [DX DY]. destruct lead as [L1 L2]. destruct second as [S1 S2]. destruct peri as [P1 P2].
  pose proof (ecc1 t T) as E. fold e in E. pose proof e_square as E2. pose proof e_size as ES. pose proof gap_small as GS.
  fold (centre e g) in *. fold c in DX, DY. change ((1 - e ^ 2) / (1 + e * cos (g + c))) with r in DX, DY.
  set (dX := r * cos c - (1 - e * e / 2 - e * cos g)) in *. set (dY := r * sin c - 2 * e * sin g) in *.
  set (phi := 1.710344404582 + 12.56615170089 * t) in *. set (lam := mean_longitude t) in *.
  assert (Y1 : Rabs (cos (0.1826583913846 + 6.283075850446 * t) - sin lam) <= 31e-6).
  { rewrite phase_y, cos_m90. fold lam. pose proof (sin_lip (lam + gap) lam) as X. replace (lam + gap - lam) with gap in X by ring. lra. }
  assert (Y2 : Rabs (cos (0.1395277998680 + 12.56615170089 * t) - sin phi) <= 21e-6).
  { rewrite <- (cos_m90 phi). pose proof (cos_lip (0.1395277998680 + 12.56615170089 * t) (phi - PI / 2)) as X. eapply Rle_trans; [exact X|].
    pose proof PI_bounds. unfold phi. apply Rabs_le. lra. }
  set (e1 := V3 (dX * cos L - dY * sin L) (dX * sin L + dY * cos L) 0).
  set (e2 := V3 ((1 - e * e / 2) * cos L + e / 2 * cos (L + g) - 3 / 2 * e * cos (L - g) - helio epv_x t)
    ((1 - e * e / 2) * sin L + e / 2 * sin (L + g) - 3 / 2 * e * sin (L - g) - helio epv_y t) (- helio epv_z t)).
  replace (vsub ecliptic_newcomb (V3 (helio epv_x t) (helio epv_y t) (helio epv_z t))) with (vadd e1 e2).
  2: { unfold e1, e2, dX, dY, ecliptic_newcomb, polar. apply vec_eq; unfold vadd, vsub; cbn [v0 v1 v2]; rewrite ?sin_0, ?cos_0, ?(cos_plus L), ?(sin_plus L), ?(cos_minus L), ?(sin_minus L); field. }
  eapply Rle_trans; [apply norm_triangle|].
  assert (N1 : norm e1 <= 272e-6).
  { apply norm_le; [lra|]. unfold e1, dot; cbn [v0 v1 v2]. pose proof (sc1' L) as Q.
    replace ((dX * cos L - dY * sin L) * (dX * cos L - dY * sin L) + (dX * sin L + dY * cos L) * (dX * sin L + dY * cos L) + 0 * 0)
      with ((dX * dX + dY * dY) * (cos L * cos L + sin L * sin L)) by ring. rewrite Q. apply ab in DX, DY. nra. }
  assert (N2 : norm e2 <= 985e-6).
  { unfold e2. unfold helio, poisson, epv_x, epv_y, epv_z; cbn [M_Eph.e0 M_Eph.e1 M_Eph.e2]. rewrite splitx3, splity3.
    pose proof (tE0x t) as TX. pose proof (tE0y t) as TY. pose proof (bE0z t) as TZ.
    pose proof (t_E1 _ _ (bE1x t)) as UX. pose proof (t_E1 _ _ (bE1y t)) as UY. pose proof (t_E1 _ _ (bE1z t)) as UZ.
    pose proof (t_E2 _ _ (bE2x t)) as VX. pose proof (t_E2 _ _ (bE2y t)) as VY. pose proof (t_E2 _ _ (bE2z t)) as VZ.
    fold lam phi. set (hx := harmonic (tl (tl (tl epv_E0x))) t) in *. set (hy := harmonic (tl (tl (tl epv_E0y))) t) in *. set (hz := harmonic epv_E0z t) in *.
    set (h1x := t * harmonic epv_E1x t) in *. set (h1y := t * harmonic epv_E1y t) in *. set (h1z := t * harmonic epv_E1z t) in *.
    set (h2x := t * t * harmonic epv_E2x t) in *. set (h2y := t * t * harmonic epv_E2y t) in *. set (h2z := t * t * harmonic epv_E2z t) in *.
    set (cy := cos (0.1826583913846 + 6.283075850446 * t)) in *. set (dy := cos (0.1395277998680 + 12.56615170089 * t)) in *.
    set (cL := cos L) in *. set (sL := sin L) in *. set (cl := cos lam) in *. set (sl := sin lam) in *. set (cp := cos phi) in *. set (sp := sin phi) in *.
    assert (B1 : Rabs cl <= 1) by apply cos1. assert (B2 : Rabs sl <= 1) by apply sin1. assert (B3 : Rabs cp <= 1) by apply cos1. assert (B4 : Rabs sp <= 1) by apply sin1.
    assert (B5 : Rabs cL <= 1) by apply cos1. assert (B6 : Rabs sL <= 1) by apply sin1.
    set (ca := cos (L + g)) in *. set (sa := sin (L + g)) in *. set (cb := cos (L - g)) in *. set (sb := sin (L - g)) in *.
    set (q := e * e / 2) in *.
    change 0.0167091 with (167091 / 10000000) in E. change 0.0001396 with (1396 / 10000000) in E2. change 0.223938 with (223938 / 1000000) in P1. change 0.974603 with (974603 / 1000000) in P2.
    apply norm_box with (a := 662e-6) (b := 716e-6) (c := 129e-6); cbn [v0 v1 v2]; try lra.
    - replace ((1 - q) * cL + e / 2 * ca - 3 / 2 * e * cb - (0.9998292878132 * cl + (0.008352579567414 * cp + (0.005611445335148 + hx)) + h1x + h2x)) with
        ((1 - (q - (1396 / 10000000)) - (1396 / 10000000)) * (cL - cl) + ((311121868 / 10000000000000) - (q - (1396 / 10000000))) * cl + e * (1 / 2) * (ca - cp)
         + (1 / 2 * (e - (167091 / 10000000)) + (1970432586 / 1000000000000000)) * cp - 3 / 2 * e * (cb + (223938 / 1000000)) + (335907 / 1000000) * (e - (167091 / 10000000)) + (1258318552 / 1000000000000000) - hx - h1x - h2x) by lra.
      bnd.
    - replace ((1 - q) * sL + e / 2 * sa - 3 / 2 * e * sb - (0.9998921098898 * cy + (- 0.02442700893735 + (0.008352929742915 * dy + hy)) + h1y + h2y)) with
        ((1 - (q - (1396 / 10000000)) - (1396 / 10000000)) * (sL - sl) + (- (317098898 / 10000000000000) - (q - (1396 / 10000000))) * sl - (9998921098898 / 10000000000000) * (cy - sl) + e * (1 / 2) * (sa - sp)
         + (1 / 2 * (e - (167091 / 10000000)) + (1620257085 / 1000000000000000)) * sp - (8352929742915 / 1000000000000000) * (dy - sp) - 3 / 2 * e * (sb - (974603 / 1000000)) - (14619045 / 10000000) * (e - (167091 / 10000000)) - (995436 / 10000000000000) - hy - h1y - h2y) by lra.
      bnd.
    - bnd. }
  lra.
Qed.
End Terms.

(** ** Precession to J2000 against a turn about the pole of the ecliptic *)
Lemma turns_bound A a p B b q na nb s : turns A a p -> turns B b q -> norm a <= na -> norm b <= nb ->
  p + q + na * nb + p * nb <= s -> turns (mmul A B) (vadd a b) s.
Proof.
  intros HA HB NA NB S. destruct (turns_mul _ _ _ _ _ _ HA HB) as (R1 & Q & H). destruct HA as (_ & P & _).
  pose proof (norm_nonneg a). pose proof (norm_nonneg b).
  assert (X : p + q + norm a * norm b + p * norm b <= s) by nra.
  split; [exact R1|]. split; [lra|]. intros v. pose proof (norm_nonneg v). eapply Rle_trans; [apply H|]. nra.
Qed.
Lemma turns_le A a p q : turns A a p -> p <= q -> turns A a q.
Proof. intros (R1 & P & H) L. split; [exact R1|]. split; [lra|]. intros v. pose proof (norm_nonneg v). eapply Rle_trans; [apply H|]. nra. Qed.
Lemma turns_off A a q v : turns A a q -> norm (vsub (mapply A v) v) <= (norm a + q) * norm v.
Proof.
  intros (_ & _ & H). specialize (H v). pose proof (norm_cross_le a v).
  replace (vsub (mapply A v) v) with (vadd (vsub (mapply A v) (vadd v (cross a v))) (cross a v)).
  2: { set (w := mapply A v). set (x := cross a v). apply vec_eq; unfold vadd, vsub; cbn [v0 v1 v2]; ring. }
  eapply Rle_trans; [apply norm_triangle|]. lra.
Qed.

Section Precess.
Context (t : R) (T : Rabs t <= 50).
Let a := t / 100.
Let A : Rabs a <= 1 / 2.
Proof. unfold a, Rdiv. replace (t * / 100) with (t * (1 / 100)) by field. bnd. Qed.
Let ze := iau1976_zeta a (- a) * arcsec.
Let zz := iau1976_z a (- a) * arcsec.
Let th := iau1976_theta a (- a) * arcsec.
Let ob := newcomb_obliquity (cent t).
Let x := chi t.
Let a2 := a * a.
Let a3 := a * a * a.
Let A2 : 0 <= a2 <= 1 / 4.
Proof. apply ab in A. unfold a2. nra. Qed.
Let A3 : - (1 / 8) <= a3 <= 1 / 8.
Proof. assert (X : Rabs a3 <= 1 / 8) by (unfold a3; bnd). apply ab in X. lra. Qed.
Lemma ze_eq : ze = arcsec * (- 2306.2181 * a - 1.09468 * a2 - 0.018203 * a3).
Proof. unfold ze, iau1976_zeta, a2, a3. lra. Qed.
Lemma zz_eq : zz = arcsec * (- 2306.2181 * a - 0.30188 * a2 - 0.017998 * a3).
Proof. unfold zz, iau1976_z, a2, a3. lra. Qed.
Lemma th_eq : th = arcsec * (- 2004.3109 * a + 0.42665 * a2 + 0.041833 * a3).
Proof. unfold th, iau1976_theta, a2, a3. lra. Qed.
Lemma angles_small : Rabs ze <= 5592e-6 /\ Rabs zz <= 5592e-6 /\ Rabs th <= 4860e-6 /\ Rabs x <= 12192e-6.
Proof.
  pose proof (ab _ _ A) as AA. pose proof A2. pose proof A3. rewrite ze_eq, zz_eq, th_eq. unfold x, chi. fold a. unfold arcsec, arcsecond.
  set (b := a2) in *. set (c := a3) in *. repeat split; apply Rabs_le; split; lra.
Qed.
Lemma ob_near : Rabs (ob - 0.4090926244) <= 114e-6.
Proof.
  pose proof (ab _ _ A) as AA. pose proof A2. pose proof A3. pose proof PI_bounds. unfold ob, newcomb_obliquity, cent, dms, arcsecond. fold a.
  replace ((1 + a) ^ 2) with (1 + 2 * a + a2) by (unfold a2; ring). replace ((1 + a) ^ 3) with (1 + 3 * a + 3 * a2 + a3) by (unfold a2, a3; ring).
  set (b := a2) in *. set (c := a3) in *. apply Rabs_le; split; lra.
Qed.
Lemma ob_trig : Rabs (cos ob - 917482137087 / 1000000000000) <= 46e-6 /\ Rabs (sin ob - 397776982902 / 1000000000000) <= 105e-6.
Proof.
  pose proof ob_near as N. set (d := ob - 0.4090926244) in *.
  assert (M : Rabs (sin (Q2R (Qmake 4090926244 10000000000)) - Q2R (Qmake 39777699 100000000)) <= 1e-7 /\
    Rabs (cos (Q2R (Qmake 4090926244 10000000000)) - Q2R (Qmake 91748213 100000000)) <= 1e-7).
  { assert (Z : Rabs (Q2R (Qmake 4090926244 10000000000) - Q2R (Qmake 4090926244 10000000000)) <= Q2R (Qmake 1 20000000)).
    { rewrite Rminus_diag_eq, Rabs_R0 by reflexivity. unfold Q2R; cbn [Qnum Qden]. lra. }
    split.
    - eapply Rle_trans; [apply (sin_near _ (Qmake 4090926244 10000000000) _ (Qmake 1 20000000) 2 Z)|]; try (vm_compute; discriminate).
      + split; vm_compute; discriminate.
      + unfold Q2R; cbn [Qnum Qden]. lra.
    - eapply Rle_trans; [apply (cos_near _ (Qmake 4090926244 10000000000) _ (Qmake 1 20000000) 2 Z)|]; try (vm_compute; discriminate).
      + split; vm_compute; discriminate.
      + unfold Q2R; cbn [Qnum Qden]. lra. }
  destruct M as [M1 M2].
  replace (Q2R (Qmake 4090926244 10000000000)) with 0.4090926244 in M1, M2 by (unfold Q2R; cbn [Qnum Qden]; lra).
  replace (Q2R (Qmake 39777699 100000000)) with (39777699 / 100000000) in M1 by (unfold Q2R; cbn [Qnum Qden]; lra).
  replace (Q2R (Qmake 91748213 100000000)) with (91748213 / 100000000) in M2 by (unfold Q2R; cbn [Qnum Qden]; lra).
  replace ob with (0.4090926244 + d) by (unfold d; ring). rewrite cos_plus, sin_plus.
  pose proof (sin_le d _ N) as SD. pose proof (cos_ge d _ N ltac:(lra)) as CD.
  set (s0 := sin 0.4090926244) in *. set (c0 := cos 0.4090926244) in *. set (sd := sin d) in *. set (cd := cos d) in *.
  assert (B1 : Rabs s0 <= 1) by apply sin1. assert (B2 : Rabs c0 <= 1) by apply cos1.
  assert (S0 : Rabs s0 <= 3978 / 10000) by (apply ab in M1; apply Rabs_le; lra).
  assert (C0 : Rabs c0 <= 9175 / 10000) by (apply ab in M2; apply Rabs_le; lra). clear B1 B2.
  split.
  - replace (c0 * cd - s0 * sd - 917482137087 / 1000000000000) with ((c0 - 91748213 / 100000000) - 7087 / 1000000000000 - c0 * (1 - cd) - s0 * sd) by lra. bnd.
  - replace (s0 * cd + c0 * sd - 397776982902 / 1000000000000) with ((s0 - 39777699 / 100000000) + 7098 / 1000000000000 - s0 * (1 - cd) + c0 * sd) by lra. bnd.
Qed.

Let m := iau1976_precession (2000 + t) 2000.
Let E := frame_x (- ob).
Lemma prec_turns : turns m (V3 0 (- th) (zz + ze)) 130e-6.
Proof.
  destruct angles_small as (Z1 & Z2 & Z3 & _).
  assert (EQ : m = mmul (frame_z (- zz)) (mmul (frame_y th) (frame_z (- ze)))).
  { unfold m, iau1976_precession, precession. replace ((2000 + t - 2000) / 100) with a by (unfold a; field).
    replace ((2000 - (2000 + t)) / 100) with (- a) by (unfold a; field). reflexivity. }
  rewrite EQ.
  replace (V3 0 (- th) (zz + ze)) with (vadd (V3 0 0 zz) (vadd (V3 0 (- th) 0) (V3 0 0 ze))) by (apply vec_eq; unfold vadd; cbn [v0 v1 v2]; ring).
  pose proof (ab _ _ Z1). pose proof (ab _ _ Z2). pose proof (ab _ _ Z3).
  assert (Q1 : 501 / 1000 * (ze * ze) <= 15668e-9) by nra. assert (Q2 : 501 / 1000 * (zz * zz) <= 15668e-9) by nra. assert (Q3 : 501 / 1000 * (th * th) <= 11834e-9) by nra.
  assert (N1 : forall y b, Rabs y <= b -> norm (V3 0 0 y) <= b).
  { intros y b Y. pose proof (Rabs_pos y). apply (norm_box _ 0 0 b); cbn [v0 v1 v2]; rewrite ?Rabs_R0; lra. }
  assert (N2 : norm (V3 0 (- th) 0) <= 4860e-6).
  { apply (norm_box _ 0 4860e-6 0); cbn [v0 v1 v2]; rewrite ?Rabs_R0, ?Rabs_Ropp; lra. }
  assert (T1 : turns (mmul (frame_y th) (frame_z (- ze))) (vadd (V3 0 (- th) 0) (V3 0 0 ze)) 548e-7).
  { eapply (turns_bound _ _ _ _ _ _ 4860e-6 5592e-6); [apply turns_le with (1 := turns_y th ltac:(lra)); exact Q3|apply turns_le with (1 := turns_z ze ltac:(lra)); exact Q1|exact N2|apply N1; exact Z1|]. lra. }
  eapply (turns_bound _ _ _ _ _ _ 5592e-6 741e-5); [apply turns_le with (1 := turns_z zz ltac:(lra)); exact Q2|exact T1|apply N1; exact Z2| |].
  - apply (norm_box _ 0 4860e-6 5592e-6); unfold vadd; cbn [v0 v1 v2]; try lra.
    + rewrite Rplus_0_r, Rabs_R0. lra.
    + rewrite Rplus_0_r, Rabs_Ropp. lra.
    + rewrite Rplus_0_l. lra.
  - lra.
Qed.
Lemma ecliptic_turn w : norm (vsub (mapply m (mapply E (mapply (frame_z (- x)) w))) (mapply E w)) <= 369e-6 * norm w.
Proof.
  destruct angles_small as (Z1 & Z2 & Z3 & Z4). destruct ob_trig as [C S].
  pose proof (turns_conj (- ob) x _ (turns_le _ _ _ 745e-7 (turns_z x ltac:(lra)) ltac:(apply ab in Z4; nra))) as W. fold E in W.
  assert (K1 : norm (V3 0 (- th) (zz + ze)) <= 1223e-5).
  { apply (norm_box _ 0 4860e-6 11184e-6); cbn [v0 v1 v2]; rewrite ?Rabs_R0, ?Rabs_Ropp; try lra. bnd. }
  assert (K2 : norm (V3 0 (sin (- ob) * x) (cos (- ob) * x)) <= 12192e-6).
  { apply norm_le; [lra|]. unfold dot; cbn [v0 v1 v2]. pose proof (sc1' (- ob)) as Q.
    replace (0 * 0 + sin (- ob) * x * (sin (- ob) * x) + cos (- ob) * x * (cos (- ob) * x)) with ((cos (- ob) * cos (- ob) + sin (- ob) * sin (- ob)) * (x * x)) by ring.
    rewrite Q. apply ab in Z4. nra. }
  pose proof (turns_bound _ _ _ _ _ _ _ _ 3554e-7 prec_turns W K1 K2 ltac:(lra)) as U.
  pose proof (turns_off _ _ _ (mapply E w) U) as O.
  rewrite mapply_mmul, !mapply_mmul in O. destruct (rotation_inv E w (rotation_frame_x _)) as [I1 _]. rewrite I1 in O.
  rewrite (rotation_norm E w) in O by apply rotation_frame_x.
  eapply Rle_trans; [exact O|]. apply Rmult_le_compat_r; [apply norm_nonneg|].
  assert (KK : norm (vadd (V3 0 (- th) (zz + ze)) (V3 0 (sin (- ob) * x) (cos (- ob) * x))) <= 131e-7).
  { pose proof (ab _ _ A) as AA. pose proof A2. pose proof A3.
    apply (norm_box _ 0 112e-7 66e-7); unfold vadd; cbn [v0 v1 v2]; rewrite ?sin_neg, ?cos_neg; try lra.
    - rewrite Rplus_0_r, Rabs_R0. lra.
    - replace (- th + - sin ob * x) with (- (th + 397776982902 / 1000000000000 * x) - (sin ob - 397776982902 / 1000000000000) * x) by ring.
      assert (B : Rabs (th + 397776982902 / 1000000000000 * x) <= 99e-7).
      { rewrite th_eq. unfold x, chi. fold a. unfold arcsec, arcsecond. set (b := a2) in *. set (c := a3) in *. apply Rabs_le; split; lra. }
      bnd.
    - replace (zz + ze + cos ob * x) with ((zz + ze + 917482137087 / 1000000000000 * x) + (cos ob - 917482137087 / 1000000000000) * x) by ring.
      assert (B : Rabs (zz + ze + 917482137087 / 1000000000000 * x) <= 59e-7).
      { rewrite ze_eq, zz_eq. unfold x, chi. fold a. unfold arcsec, arcsecond. set (b := a2) in *. set (c := a3) in *. apply Rabs_le; split; lra. }
      bnd. }
  lra.
Qed.
End Precess.

(** ** The two positions *)
Lemma turned_polar x r l : mapply (frame_z (- x)) (polar r l 0) = polar r (l + x) 0.
Proof. apply vec_eq; unfold mapply, frame_z, polar, dot; cbn [v0 v1 v2 r0 r1 r2]; rewrite ?cos_neg, ?sin_neg, ?cos_plus, ?sin_plus, ?sin_0, ?cos_0; ring. Qed.
Lemma eq_of_frame ob p : eq_of ob 0 p = mapply (frame_x (- ob)) p.
Proof. apply vec_eq; unfold eq_of, mapply, frame_x, dot; cbn [v0 v1 v2 r0 r1 r2]; rewrite ?cos_neg, ?sin_neg; ring. Qed.
Lemma cent_eq date : centuries1900 date = cent (years2000 date).
Proof. unfold centuries1900, cent, years2000. lra. Qed.
Lemma vsub_split (a b c : RV) : vsub a c = vadd (vsub a b) (vsub b c).
Proof. apply vec_eq; unfold vadd, vsub; cbn [v0 v1 v2]; ring. Qed.
Lemma dist_trans a b c x y : norm (vsub a b) <= x -> norm (vsub b c) <= y -> norm (vsub a c) <= x + y.
Proof. intros. rewrite (vsub_split a b c). eapply Rle_trans; [apply norm_triangle|]. lra. Qed.
Lemma newcomb_norm t : Rabs t <= 50 -> norm (ecliptic_newcomb t) <= 1.0176.
Proof.
  intros T. unfold ecliptic_newcomb. rewrite polar_norm. pose proof (r_size _ (sun_anomaly (cent t)) (e_size t T)) as R1. unfold newcomb_r.
  apply ab in R1. rewrite Rabs_pos_eq by lra. lra.
Qed.
Lemma orient_frame t w : Rabs t <= 50 -> v2 w = 0 -> norm w <= 1.0176 ->
  norm (vsub (mapply (frame_x (- newcomb_obliquity (cent t))) w) (mapply orient w)) <= 118e-6.
Proof.
  intros T Z W. destruct (ob_trig t T) as [C S]. destruct (comp_norm w) as (X0 & X1 & _). rewrite orient_icrs.
  apply (norm_box _ 3e-7 471e-7 1069e-7); unfold vsub, mapply, frame_x, ecliptic_to_icrs, dot; cbn [v0 v1 v2 r0 r1 r2]; rewrite ?cos_neg, ?sin_neg, ?Z; try lra.
  - assert (Y : Rabs (v1 w) <= 10176 / 10000) by lra. apply ab in Y. apply Rabs_le. lra.
  - set (c := cos _) in *. set (s := sin _) in *. assert (Y0 : Rabs (v0 w) <= 10176 / 10000) by lra. assert (Y1 : Rabs (v1 w) <= 10176 / 10000) by lra.
    match goal with |- Rabs ?g <= _ => replace g with ((c - 917482137087 / 1000000000000) * v1 w + 230286 / 1000000000000 * v0 w) by lra end. bnd.
  - set (c := cos _) in *. set (s := sin _) in *. assert (Y1 : Rabs (v1 w) <= 10176 / 10000) by lra.
    match goal with |- Rabs ?g <= _ => replace g with ((s - 397776982902 / 1000000000000) * v1 w) by lra end. bnd.
Qed.
Lemma mapply_minus m (a b : RV) : vsub (mapply m a) (mapply m b) = mapply m (vsub a b).
Proof. apply vec_eq; unfold vsub, mapply, dot; cbn [v0 v1 v2]; ring. Qed.

Lemma vsub_scale (a b : RV) : vsub a b = vadd a (scale (-1) b).
Proof. apply vec_eq; unfold vsub, vadd, scale; cbn [v0 v1 v2]; ring. Qed.
Lemma epv_evp (date : R) : Rabs (date - 51544.5) <= 18262.5 ->
  norm (vsub (pos (fst (evp (N := RNum) date 2000))) (pos (fst (epv (N := RNum) date)))) <= 0.0024.
Proof.
  intros D. set (t := years2000 date).
  assert (T : Rabs t <= 50). { apply ab in D. unfold t, years2000. apply Rabs_le. lra. }
  destruct (evp_frame date 2000 ltac:(lra)) as (P & _). rewrite P. clear P.
  replace (julian_year date) with (2000 + t) by (unfold t, years2000, julian_year; ring).
  set (m := iau1976_precession (2000 + t) 2000).
  assert (RM : rotation m) by (unfold m, iau1976_precession; apply precession_rotation).
  assert (N : norm (vadd (pos (fst (evp (N := RNum) date 0))) (newcomb_sun (centuries1900 date))) <= 5.5e-4).
  { apply evp_newcomb. rewrite cent_eq. fold t. unfold cent. apply ab in T. apply Rabs_le. lra. }
  rewrite cent_eq in N. fold t in N. rewrite sun_flip, eq_of_frame in N.
  set (w := ecliptic_newcomb t).
  replace (polar (newcomb_r (cent t)) (sun_longitude (cent t) + centre (eccentricity (cent t)) (sun_anomaly (cent t)) - PI) 0) with (mapply (frame_z (- chi t)) w) in N.
  2: { unfold w, ecliptic_newcomb. rewrite turned_polar. f_equal. unfold lam0. ring. }
  set (E := frame_x (- newcomb_obliquity (cent t))) in *. set (d := pos (fst (evp (N := RNum) date 0))) in *.
  replace 0.0024 with (5.5e-4 + 185e-5) by lra. apply (dist_trans _ (mapply m (mapply E (mapply (frame_z (- chi t)) w)))).
  { rewrite mapply_minus, rotation_norm by exact RM. eapply Rle_trans; [|exact N]. right. generalize (mapply E (mapply (frame_z (- chi t)) w)). intros y. generalize d. intros z. f_equal. exact (vsub_scale z y). }
  pose proof (newcomb_norm t T) as NW. fold w in NW.
  pose proof (ecliptic_turn t T w) as ET. fold m E in ET.
  assert (W2 : v2 w = 0) by (unfold w, ecliptic_newcomb, polar; cbn [v2]; rewrite sin_0; ring).
  pose proof (orient_frame t w T W2 NW) as OF. fold E in OF.
  pose proof (newcomb_series t T) as NS. fold w in NS.
  unfold epv. rewrite epv_with_eq. cbn [fst pos]. rewrite since_years. fold t. set (h := V3 (helio epv_x t) (helio epv_y t) (helio epv_z t)) in *.
  replace 185e-5 with (376e-6 + 1474e-6) by lra. eapply dist_trans. { eapply Rle_trans; [exact ET|]. lra. }
  replace 1474e-6 with (118e-6 + 1356e-6) by lra. eapply dist_trans. { exact OF. }
  rewrite mapply_minus. pose proof (orient_norm (vsub w h)). pose proof (norm_nonneg (vsub w h)). lra.
Qed.
