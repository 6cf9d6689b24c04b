(** evp against Newcomb's unperturbed Sun. *)
From Coq Require Import Reals ZArith Lra Lia List.
From Verif Require Import Num NumR L_Pi L_Real M_Vec M_Epoch M_Frame M_EphTab M_Eph M_EvpTab M_Evp S_Geom S_Frame S_Eph S_Evp L_Vec L_Trig L_Frame L_NutDiff L_Eph L_EphB L_EvpA L_EvpB L_EvpC L_EvpD L_EvpE L_EvpF L_EvpG L_EvpH L_EvpI.
Import ListNotations.
Open Scope R_scope.

Section Newcomb.
Context (t : R) (T : Rabs t <= 10).

Lemma dms_pi d m s : Rabs d <= 360 -> Rabs m <= 60 -> Rabs s <= 60 -> Rabs (dms d m s - (d + m / 60 + s / 3600) * (314159265358979 / 18000000000000000)) <= 1e-13.
Proof.
  intros D M S. unfold dms. pose proof PI_bounds. set (x := d + m / 60 + s / 3600).
  assert (X : Rabs x <= 362) by (unfold x; bnd).
  replace (x * (PI / 180) - x * (314159265358979 / 18000000000000000)) with (x * (PI / 180 - 314159265358979 / 18000000000000000)) by ring.
  assert (P : Rabs (PI / 180 - 314159265358979 / 18000000000000000) <= 1e-16) by (apply Rabs_le; lra). bnd.
Qed.
Lemma longitude_near : Rabs (qd (row3 dcfel 0) t - (sun_longitude t - PI)) <= 3e-8.
Proof.
  pose proof (dms_pi 279 41 48.04 ltac:(apply Rabs_le; lra) ltac:(apply Rabs_le; lra) ltac:(apply Rabs_le; lra)) as D.
  unfold sun_longitude. set (d := dms 279 41 48.04) in *. unfold arcsecond, qd. cbn [row3 nth dcfel fst snd]. dnum. pose proof PI_bounds as P.
  replace (t ^ 2) with (t * t) by ring. pose proof (ab _ _ T) as U1; pose proof (ab _ _ (TT t T)) as U2. set (u := t * t) in *. apply ab in D. apply Rabs_le. split; lra.
Qed.
Lemma anomaly_near : Rabs (gS t - sun_anomaly t) <= 3e-8.
Proof.
  pose proof (dms_pi 358 28 33 ltac:(apply Rabs_le; lra) ltac:(apply Rabs_le; lra) ltac:(apply Rabs_le; lra)) as D.
  unfold sun_anomaly. set (d := dms 358 28 33) in *. unfold gS, arcsecond, qd. cbn [row3 nth dcfel fst snd]. dnum.
  replace (t ^ 2) with (t * t) by ring. pose proof (ab _ _ T) as U1; pose proof (ab _ _ (TT t T)) as U2. set (u := t * t) in *. apply ab in D. apply Rabs_le. split; lra.
Qed.
Lemma ecc_near : Rabs (eS t - eccentricity t) <= 5e-8.
Proof.
  unfold eccentricity, eS, qd. cbn [row3 nth ccsel fst snd]. dnum.
  replace (t ^ 2) with (t * t) by ring. pose proof (ab _ _ T) as U1; pose proof (ab _ _ (TT t T)) as U2. set (u := t * t) in *. apply Rabs_le. split; lra.
Qed.
Definition newcomb_obliquity : R := dms 23 27 8.26 - arcsecond * (46.845 * t + 0.0059 * t ^ 2 - 0.00181 * t ^ 3).
Lemma obliquity_near : Rabs (evp_obliquity t - newcomb_obliquity) <= 9e-6.
Proof.
  pose proof (dms_pi 23 27 8.26 ltac:(apply Rabs_le; lra) ltac:(apply Rabs_le; lra) ltac:(apply Rabs_le; lra)) as D.
  unfold newcomb_obliquity. set (d := dms 23 27 8.26) in *. unfold evp_obliquity, arcsecond.
  assert (T3 : Rabs (t ^ 3) <= 1000) by (replace 1000 with (10 ^ 3) by ring; apply b_pow; exact T).
  replace (t ^ 2) with (t * t) by ring. pose proof (ab _ _ T) as U1; pose proof (ab _ _ (TT t T)) as U2; apply ab in T3. set (u := t * t) in *. set (v := t ^ 3) in *. apply ab in D. apply Rabs_le. split; lra.
Qed.
Let a := eS t.
Let b := eccentricity t.
Lemma a_bound : Rabs a <= 172 / 10000. Proof. exact (e_bound t T). Qed.
Lemma b_bound : Rabs b <= 173 / 10000.
Proof. pose proof ecc_near as E. pose proof a_bound as A. fold a b in E. replace b with (a - (a - b)) by ring. bnd. Qed.
Lemma centre_near : Rabs (phS t - centre b (sun_anomaly t)) <= 2e-7.
Proof.
  pose proof ecc_near as E. pose proof a_bound as A. pose proof b_bound as B. fold a b in E. pose proof anomaly_near as G.
  unfold phS, cphi, centre. fold a. set (g := gS t) in *. set (h := sun_anomaly t) in *.
  destruct (trig_near g h _ G) as [S1 _].
  destruct (trig_near (g + g) (2 * h) 6e-8) as [S2 _]. { replace (g + g - 2 * h) with (2 * (g - h)) by ring. bnd. }
  destruct (trig_near (g + (g + g)) (3 * h) 9e-8) as [S3 _]. { replace (g + (g + g) - 3 * h) with (3 * (g - h)) by ring. bnd. }
  set (s1 := sin g) in *. assert (X1 : Rabs s1 <= 1) by apply sin1.
  set (s2 := sin (g + g)) in *. assert (X2 : Rabs s2 <= 1) by apply sin1.
  set (s3 := sin (g + (g + g))) in *. assert (X3 : Rabs s3 <= 1) by apply sin1.
  set (k1 := sin h) in *. set (k2 := sin (2 * h)) in *. set (k3 := sin (3 * h)) in *. set (d := a - b) in *.
  replace ((a + a) * ((1 - a * a * (125 / 1000)) * s1 + a * (625 / 1000) * s2 + a * a * (54166667 / 100000000) * s3) -
    ((2 * b - b ^ 3 / 4) * k1 + 5 / 4 * b ^ 2 * k2 + 13 / 12 * b ^ 3 * k3)) with
    ((2 * d - d * (a * a + a * b + b * b) * (1 / 4)) * s1 + 5 / 4 * (d * (a + b)) * s2 + 13 / 12 * (d * (a * a + a * b + b * b)) * s3 +
     (2 * b - b * b * b * (1 / 4)) * (s1 - k1) + 5 / 4 * (b * b) * (s2 - k2) + 13 / 12 * (b * b * b) * (s3 - k3) + a * a * a * (1 / 150000000) * s3).
  2: { unfold d. field. }
  bnd.
Qed.
Definition newcomb_r : R := (1 - b ^ 2) / (1 + b * cos (sun_anomaly t + centre b (sun_anomaly t))).
Lemma radius_near : Rabs (psi a (fS t) - newcomb_r) <= 1e-7.
Proof.
  pose proof ecc_near as E. pose proof a_bound as A. pose proof b_bound as B. fold a b in E. pose proof anomaly_near as G. pose proof centre_near as C.
  unfold newcomb_r, fS, psi. set (f := gS t + phS t). set (h := sun_anomaly t + centre b (sun_anomaly t)) in *.
  destruct (trig_near f h 2.3e-7) as [_ CC].
  { unfold f, h. match goal with |- Rabs (?x + ?y - (?z + ?w)) <= _ => replace (x + y - (z + w)) with ((x - z) + (y - w)) by ring end. bnd. }
  set (cf := cos f) in *. assert (CF : Rabs cf <= 1) by apply cos1. set (ch := cos h) in *. assert (CH : Rabs ch <= 1) by apply cos1.
  set (d := a - b) in *.
  assert (K1 : 98 / 100 <= 1 + a * cf). { assert (X : Rabs (a * cf) <= 2 / 100) by bnd. apply ab in X. lra. }
  assert (K2 : 98 / 100 <= 1 + b * ch). { assert (X : Rabs (b * ch) <= 2 / 100) by bnd. apply ab in X. lra. }
  assert (P0 : 0 < 98 / 100) by lra. pose proof (inv_bound _ _ P0 K1) as I1. pose proof (inv_bound _ _ P0 K2) as I2.
  replace ((1 - a * a) / (1 + a * cf) - (1 - b ^ 2) / (1 + b * ch)) with
    ((- ((a + b) * d) - (1 - a * a) * b * (cf - ch) - cf * (d * (1 + a * b))) * (/ (1 + a * cf) * / (1 + b * ch))).
  2: { unfold d. field. lra. }
  bnd.
Qed.
Lemma polar_apart r l s m x y : 0 <= r <= 11 / 10 -> 0 <= s <= 11 / 10 -> Rabs (r - s) <= x -> Rabs (l - m) <= y ->
  norm (vsub (polar r l 0) (polar s m 0)) <= x + 11 / 10 * y.
Proof.
  intros Rr Rs X Y. pose proof (Rabs_pos (r - s)). pose proof (Rabs_pos (l - m)).
  replace (vsub (polar r l 0) (polar s m 0)) with (vadd (polar (r - s) l 0) (scale s (V3 (cos l - cos m) (sin l - sin m) 0))).
  2: { apply vec_eq; unfold vsub, vadd, scale, polar; cbn [v0 v1 v2]; rewrite ?cos_0, ?sin_0; ring. }
  eapply Rle_trans; [apply norm_triangle|]. rewrite polar_norm, norm_scale_abs, (Rabs_pos_eq s) by lra.
  assert (N : norm (V3 (cos l - cos m) (sin l - sin m) 0) <= y).
  { apply norm_le; [lra|]. unfold dot. cbn [v0 v1 v2]. pose proof (sc1 l). pose proof (sc1 m).
    replace ((cos l - cos m) * (cos l - cos m) + (sin l - sin m) * (sin l - sin m) + 0 * 0) with (2 * (1 - cos (l - m))).
    2: { rewrite cos_minus. nra. }
    pose proof (cos_ge (l - m) (Rabs (l - m))) as C.
    set (z := l - m) in *.
    replace (1 - cos z) with (2 * (sin (z / 2) * sin (z / 2))).
    2: { replace z with (2 * (z / 2)) at 3 by field. rewrite cos_2a_sin. ring. }
    assert (SZ : Rabs (sin (z / 2)) <= Rabs (z / 2)) by (apply (sin_le (z / 2) (Rabs (z / 2))); lra).
    assert (Z2 : Rabs (z / 2) <= y / 2) by (unfold Rdiv; rewrite Rabs_mult, (Rabs_pos_eq (/ 2)) by lra; lra).
    assert (Q : Rabs (sin (z / 2)) <= y / 2) by lra. apply ab in Q. nra. }
  nra.
Qed.
Lemma newcomb_ecl : norm (vsub (hpS t) (polar newcomb_r (sun_longitude t + centre b (sun_anomaly t) - PI) 0)) <= 405 / 1000000.
Proof.
  pose proof (amp_r (lin t)) as C. fold (prS t) in C. pose proof (amp_l (lin t)) as L. pose proof (psi_bound a (fS t) a_bound) as PB.
  assert (SE : Rabs (sec_of (fun x => x) t) <= 44 / 1000000) by (unfold sec_of; bnd).
  pose proof radius_near as RN. pose proof centre_near as CN. pose proof longitude_near as LN. pose proof (r_range t T) as RR.
  assert (DR : Rabs (rS t - newcomb_r) <= 83 / 1000000).
  { unfold rS. fold a. replace (psi a (fS t) * (1 + prS t) - newcomb_r) with ((psi a (fS t) - newcomb_r) + psi a (fS t) * prS t) by ring. bnd. }
  assert (DL : Rabs (lS t - (sun_longitude t + centre b (sun_anomaly t) - PI)) <= 257 / 1000000).
  { unfold lS, plS. match goal with |- Rabs (?m + ?p + (?s + ?w) - (?n + ?c - PI)) <= _ =>
      replace (m + p + (s + w) - (n + c - PI)) with ((m - (n - PI)) + (p - c) + s + w) by ring end. bnd. }
  assert (NR : 0 <= newcomb_r <= 11 / 10) by (apply ab in DR; lra).
  pose proof (polar_apart (rS t) (lS t) newcomb_r _ _ _ ltac:(lra) NR DR DL) as P.
  rewrite <- earth_S. unfold earth_from_sun. rewrite distance_S, longitude_S. destruct (moon_S t) as (_ & _ & S). rewrite S.
  set (A := polar (rS t) (lS t) 0) in *. set (B := polar newcomb_r _ 0) in *. set (M := polar (siS t) _ _).
  replace (vsub (vsub A M) B) with (vadd (vsub A B) (scale (-1) M)) by (apply vec_eq; unfold vsub, vadd, scale; cbn [v0 v1 v2]; ring).
  eapply Rle_trans; [apply norm_triangle|]. rewrite norm_scale_abs, (Rabs_left (-1)) by lra. unfold M. rewrite polar_norm.
  pose proof (si_bound t). lra.
Qed.
Lemma sun_flip : newcomb_sun t = scale (-1) (eq_of newcomb_obliquity 0 (polar newcomb_r (sun_longitude t + centre b (sun_anomaly t) - PI) 0)).
Proof.
  unfold newcomb_sun. cbv zeta. fold b. fold newcomb_obliquity. fold newcomb_r.
  apply vec_eq; unfold scale, eq_of, polar; cbn [v0 v1 v2]; rewrite ?cos_0, ?sin_0, ?cos_minus, ?sin_minus, ?cos_PI, ?sin_PI; ring.
Qed.
Lemma eq_of_near p : norm p <= 102 / 100 -> norm (vsub (eq_of (evp_obliquity t) (qT t) p) (eq_of newcomb_obliquity 0 p)) <= 12 / 100000.
Proof.
  intros P. destruct (comp_norm p) as (X0 & X1 & X2). destruct (trig_near _ _ _ obliquity_near) as [S C].
  assert (Q : Rabs (qT t) <= 68 / 1000000) by (pose proof (ab _ _ T) as U1; unfold qT; apply Rabs_le; lra).
  destruct (rot_comp (evp_obliquity t) p) as [Y _].
  set (e := evp_obliquity t) in *. set (n := newcomb_obliquity) in *. set (q := qT t) in *.
  apply (norm_box _ (7 / 100000) (9 / 100000) (2 / 100000)); unfold eq_of, vsub; cbn [v0 v1 v2]; [| | |lra|lra].
  - replace (v0 p - q * (cos e * v1 p - sin e * v2 p) - (v0 p - 0 * (cos n * v1 p - sin n * v2 p))) with (- (q * (cos e * v1 p - sin e * v2 p))) by ring. bnd.
  - replace (cos e * v1 p - sin e * v2 p + q * v0 p - (cos n * v1 p - sin n * v2 p + 0 * v0 p)) with
      ((cos e - cos n) * v1 p - (sin e - sin n) * v2 p + q * v0 p) by ring. bnd.
  - replace (sin e * v1 p + cos e * v2 p - (sin n * v1 p + cos n * v2 p)) with ((sin e - sin n) * v1 p + (cos e - cos n) * v2 p) by ring. bnd.
Qed.
End Newcomb.

Lemma evp_newcomb (date : R) : Rabs (centuries1900 date) <= 10 ->
  norm (vadd (pos (fst (evp (N := RNum) date 0))) (newcomb_sun (centuries1900 date))) <= 5.5e-4.
Proof.
  intros T. destruct (evp_ofdate date T) as (E & _). rewrite E. set (t := centuries1900 date) in *. rewrite (sun_flip t).
  set (A := pos (evp_helio (N := RNum) t)). set (n := newcomb_obliquity t). set (B := polar _ _ _).
  pose proof (helio_pos t T) as H. cbv zeta in H. fold A in H. pose proof (newcomb_ecl t T) as NE. fold B in NE.
  pose proof (hp_norm t T) as HN. pose proof (norm_apart _ _ _ H) as AN.
  pose proof (eq_of_near t T A ltac:(lra)) as EN. fold n in EN.
  replace (vadd (eq_of (evp_obliquity t) (qT t) A) (scale (-1) (eq_of n 0 B))) with
    (vadd (vsub (eq_of (evp_obliquity t) (qT t) A) (eq_of n 0 A)) (eq_of n 0 (vadd (vsub A (hpS t)) (vsub (hpS t) B)))).
  2: { apply vec_eq; unfold eq_of, vsub, vadd, scale; cbn [v0 v1 v2]; ring. }
  eapply Rle_trans; [apply norm_triangle|].
  pose proof (norm_triangle (vsub A (hpS t)) (vsub (hpS t) B)) as TR.
  pose proof (proj2 (eq_of_norm n 0 (vadd (vsub A (hpS t)) (vsub (hpS t) B)) ltac:(rewrite Rabs_R0; lra))) as EE. lra.
Qed.
