(** The velocity of the low-precision Earth against that of evp. *)
From Coq Require Import Reals ZArith Lra Lia List.
From Verif Require Import Int32 Num NumR L_Pi L_Real M_Vec M_Site M_Epoch M_Frame M_EphTab M_Eph M_EvpTab M_Evp S_Geom S_Frame S_Calendar S_Eph S_Site S_Evp S_Agree L_Vec L_Trig L_Frame L_NutDiff L_Rcc L_Site L_Eph L_EphB L_EvpA L_EvpB L_EvpC L_EvpD L_EvpE L_EvpF L_EvpG L_EvpH L_EvpI L_EvpJ L_Moon10 L_Agree L_Agree2 L_Agree3.
Import ListNotations.
Open Scope R_scope.

Lemma plane_rot p q c d x y : Rabs p <= x -> Rabs q <= y -> c * c + d * d = 1 -> 0 <= x -> 0 <= y -> forall z, 0 <= z -> x * x + y * y <= z * z ->
  norm (V3 (p * c - q * d) (p * d + q * c) 0) <= z.
Proof.
  intros P Q C X Y z Z S. apply norm_le; [exact Z|]. unfold dot; cbn [v0 v1 v2]. apply ab in P, Q.
  replace ((p * c - q * d) * (p * c - q * d) + (p * d + q * c) * (p * d + q * c) + 0 * 0) with ((p * p + q * q) * (c * c + d * d)) by ring. rewrite C. nra.
Qed.

Section At.
Context (t : R) (T : Rabs t <= 10).
Definition S1 : R := SC * 1.9913e-7.
Let e := eS t.
Let f := fS t.
Let k := e * cos f.
Lemma S1_range : 628.4 <= S1 <= 628.41. Proof. unfold S1. lra. Qed.
Lemma radial_part : Rabs (rS' t - S1 * (e * sin f)) <= 65 / 1000.
Proof.
  pose proof (e_bound t T) as E. fold e in E.
  pose proof (radial_rate (eS t) (eS' t) (gS t) (gS' t) E (e'_bound t T) (g'_bound t T)) as RR. cbv zeta in RR. fold (phS t) in RR. fold (fS t) in RR. fold (phS' t) in RR. fold (psS' t) in RR. fold e f in RR.
  pose proof (root e E) as Q. set (q := / sqrt (1 - e * e)) in *.
  assert (EE : 0 <= e * e <= 3 / 10000) by (pose proof (ab _ _ E); nra).
  assert (NQ : Rabs (NC * q - S1) <= 17 / 100). { apply ab in Q. unfold NC, S1. apply Rabs_le. split; lra. }
  assert (PS : Rabs (psS' t - S1 * (e * sin f)) <= 4 / 1000).
  { replace (psS' t - S1 * (e * sin f)) with ((psS' t - NC * e * sin f / sqrt (1 - e * e)) + (NC * q - S1) * (e * sin f)) by (unfold q, Rdiv; ring). bnd. }
  pose proof (amp_r (lin t)) as C. fold (prS t) in C. pose proof (psi_bound e f E) as PB. pose proof (rated_r t) as R1. pose proof (ratea_r (lin t)) as R2.
  set (d := psS' t - S1 * (e * sin f)) in *. assert (SB : Rabs S1 <= 629) by (pose proof S1_range; apply Rabs_le; lra).
  unfold rS'. fold e f. replace (tder t rows_r) with ((tder t rows_r - SC * trate (lin t) rows_r) + SC * trate (lin t) rows_r) by ring.
  set (w := trate (lin t) rows_r) in *. set (v := tder t rows_r - SC * w) in *.
  replace (psS' t * (1 + prS t) + psi e f * (v + SC * w) - S1 * (e * sin f)) with (d + (d + S1 * (e * sin f)) * prS t + psi e f * (v + SC * w)) by (unfold d; ring).
  clearbody d v w. bnd.
Qed.
Lemma cross_part : Rabs (rS t * (lS' t - OM) - S1 * (1 + k)) <= 3 / 10.
Proof.
  pose proof (e_bound t T) as E. pose proof (psi_den (eS t) (fS t) E) as PD. pose proof (psi_bound (eS t) (fS t) E) as D. pose proof (amp_r (lin t)) as C. fold (prS t) in C.
  pose proof (centre_rate2 (eS t) (eS' t) (gS t) (gS' t) E (e'_bound t T) (g'_bound t T)) as RR. fold (phS t) in RR. fold (fS t) in RR. fold (phS' t) in RR.
  pose proof (l'_bound t T) as LB. pose proof (sec'_bound t T) as SB. pose proof (rated_l t) as TD. pose proof (ratea_l (lin t)) as TB. fold e f in E, PD, D, RR.
  set (m := qd' (row3 dcfel 0) t) in *. set (dd := tder t rows_l) in *. set (w := trate (lin t) rows_l) in *.
  assert (NS : Rabs (SC * (1990987 / 10000000000000) - NC) <= 6 / 1000) by (unfold NC; apply Rabs_le; lra).
  set (s := (m - OM - SC * (1990987 / 10000000000000)) + (SC * (1990987 / 10000000000000) - NC) + (phS' t - NC * cphid e f) + sec' t + (dd - SC * w) + SC * w).
  assert (SS : Rabs s <= 121 / 1000) by (unfold s; bnd).
  replace (lS' t - OM) with (NC * (1 + cphid e f) + s) by (unfold lS', s; fold m dd; ring).
  unfold rS. fold e f. set (p := psi e f) in *.
  assert (PK : p * (1 + k) = 1 - e * e) by (unfold p, psi, k; field; unfold k in PD; lra).
  assert (PC : p * (1 + cphid e f) = (1 + k) * (1 - e * e) * (1 + 3 / 2 * (e * e)) - p * (3 / 2 * e ^ 4 * (cos f * cos f))).
  { rewrite <- PK. unfold cphid, k. pose proof (sc1 f) as SF. replace (sin f * sin f) with (1 - cos f * cos f) by lra. field. }
  assert (EE : 0 <= e * e <= 296 / 1000000) by (pose proof (ab _ _ E); nra).
  assert (K : Rabs k <= 172 / 10000) by (unfold k; bnd).
  set (z := NC * ((1 - e * e) * (1 + 3 / 2 * (e * e))) - S1).
  assert (Z : Rabs z <= 11 / 100).
  { unfold z, NC, S1. set (u := e * e) in *. assert (0 <= u * u <= 1e-7) by nra. apply Rabs_le. split; nra. }
  assert (NB : Rabs NC <= 629) by (unfold NC; bnd). assert (SB1 : Rabs S1 <= 629) by (pose proof S1_range; apply Rabs_le; lra).
  replace (p * (1 + prS t) * (NC * (1 + cphid e f) + s) - S1 * (1 + k)) with
    (z * (1 + k) - NC * (p * (3 / 2 * e ^ 4 * (cos f * cos f))) + p * s * (1 + prS t) + prS t * ((S1 + z) * (1 + k) - NC * (p * (3 / 2 * e ^ 4 * (cos f * cos f))))).
  2: { replace (p * (1 + prS t) * (NC * (1 + cphid e f) + s)) with ((1 + prS t) * (NC * (p * (1 + cphid e f)) + p * s)) by ring. rewrite PC. unfold z. ring. }
  clearbody z s. assert (C2 : Rabs (cos f * cos f) <= 1) by bnd. set (c2 := cos f * cos f) in *. clearbody c2. bnd.
Qed.
(** The evp velocity in the ecliptic, against an unperturbed ellipse. *)
Definition ellipse_velo : RV := V3 (- (sin (lS t) + e * sin (lS t - f))) (cos (lS t) + e * cos (lS t - f)) 0.
Lemma inertial_near : norm (vsub (inertial (hpS t) (hvS t)) (scale S1 ellipse_velo)) <= 70 / 100.
Proof.
  pose proof radial_part as A1. pose proof cross_part as A2.
  set (x := rS t * (lS' t - OM)) in *. set (u := uS t * (thS' t - OM)).
  assert (UB : Rabs u <= 33 / 100).
  { unfold u, uS, thS'. pose proof (si_bound t) as S. pose proof (ml'_bound (maS t)) as L. pose proof (m1'_bound t T) as M. set (m := qd' (row3 dcfel 2) t) in *.
    replace (m + mlS' (maS t) - OM) with ((m - OM - SC * (2661699 / 1000000000000)) + SC * (2661699 / 1000000000000) + mlS' (maS t)) by ring. bnd. }
  assert (UD : Rabs (uS' t) <= 3 / 100).
  { unfold uS', siS'. pose proof (si_bound t) as S. pose proof (mp'_bound (maS t)) as P. pose proof (mo_inv (maS t)) as I. pose proof (be'_bound t T) as B'.
    pose proof (be_bound t) as BB. assert (SB : Rabs (sin (beS t)) <= 9 / 100). { eapply Rle_trans; [apply (sin_le (beS t) (Rabs (beS t))); lra|]. lra. } bnd. }
  assert (Z : Rabs (siS' t * sin (beS t) + siS t * cos (beS t) * beS' t) <= 6 / 100).
  { unfold siS'. pose proof (si_bound t) as S. pose proof (mp'_bound (maS t)) as P. pose proof (mo_inv (maS t)) as I. pose proof (be'_bound t T) as B'. bnd. }
  set (z := siS' t * sin (beS t) + siS t * cos (beS t) * beS' t) in *.
  set (al := rS' t - S1 * (e * sin f)) in *. set (be := x - S1 * (1 + k)) in *.
  replace (vsub (inertial (hpS t) (hvS t)) (scale S1 ellipse_velo)) with
    (vadd (vadd (V3 (al * cos (lS t) - be * sin (lS t)) (al * sin (lS t) + be * cos (lS t)) 0)
      (scale (-1) (V3 (uS' t * cos (thS t) - u * sin (thS t)) (uS' t * sin (thS t) + u * cos (thS t)) 0))) (V3 0 0 (- z))).
  2: { unfold inertial, hpS, hvS, ellipse_velo. rewrite sin_minus, cos_minus. fold z. unfold al, be, x, u, k. clear - t.
       pose proof (sc1 f) as SF. pose proof (sc1 (lS t)) as SL. apply vec_eq; unfold vadd, vsub, scale, cross; cbn [v0 v1 v2]; ring. }
  eapply Rle_trans; [apply norm_triangle|]. eapply Rle_trans; [apply Rplus_le_compat_r, norm_triangle|].
  rewrite norm_scale_abs, (Rabs_left (-1)) by lra.
  assert (N1 : norm (V3 (al * cos (lS t) - be * sin (lS t)) (al * sin (lS t) + be * cos (lS t)) 0) <= 307 / 1000).
  { apply (plane_rot _ _ _ _ (65 / 1000) (3 / 10)); first [lra|apply sc1']. }
  assert (N2 : norm (V3 (uS' t * cos (thS t) - u * sin (thS t)) (uS' t * sin (thS t) + u * cos (thS t)) 0) <= 332 / 1000).
  { apply (plane_rot _ _ _ _ (3 / 100) (33 / 100)); first [lra|apply sc1']. }
  assert (N3 : norm (V3 0 0 (- z)) <= 6 / 100).
  { apply (norm_box _ 0 0 (6 / 100)); cbn [v0 v1 v2]; rewrite ?Rabs_Ropp, ?Rabs_R0; lra. }
  lra.
Qed.
End At.

(** ** The low-precision side *)
Section Low.
Context (y : Z) (yf : R) (T : 0 <= IZR y + yf <= 201) (F : -0.01 <= yf <= 1.01).
Let t := IZR y + yf.
Let s := t / 100.
Let Ts : Rabs s <= 10.
Proof. unfold s, t. apply Rabs_le. lra. Qed.
Definition low_m : R := low_longitude y yf + low_centre y yf (low_longitude y yf - low_perigee y yf).
Definition low_ml : R := Rfmod (Rdec 472 (-2) + Rdec 839971 (-4) * (IZR y + yf)) (Rdec 628318530718 (-11)).
Definition low_ellipse : RV := V3 (sin low_m + low_e y yf * sin (low_perigee y yf)) (- (cos low_m + low_e y yf * cos (low_perigee y yf))) 0.
Lemma low_velo_eq : scale SC (velo (earth_pv (N := RNum) (IZR y) yf)) =
  vadd (eq_of (low_ob y yf) 0 (scale S1 low_ellipse)) (scale (SC * 831e-13) (V3 (sin low_ml) (- cos low_ml * cos (low_ob y yf)) 0)).
Proof.
  rewrite (low_velo y yf). change (Rfmod (Rdec 472 (-2) + Rdec 839971 (-4) * (IZR y + yf)) (Rdec 628318530718 (-11))) with low_ml.
  change (low_longitude y yf + low_centre y yf (low_longitude y yf - low_perigee y yf)) with low_m.
  unfold low_ellipse, S1. clear. apply vec_eq; unfold eq_of, vadd, scale; cbn [v0 v1 v2]; ring.
Qed.
Lemma moon_part : norm (scale (SC * 831e-13) (V3 (sin low_ml) (- cos low_ml * cos (low_ob y yf)) 0)) <= 263 / 1000.
Proof.
  rewrite norm_scale_abs. assert (N : norm (V3 (sin low_ml) (- cos low_ml * cos (low_ob y yf)) 0) <= 1).
  { apply norm_le; [lra|]. unfold dot; cbn [v0 v1 v2]. pose proof (sc1 low_ml). pose proof (sc1 (low_ob y yf)).
    set (c := cos low_ml) in *. set (d := sin low_ml) in *. set (o := cos (low_ob y yf)) in *. set (q := sin (low_ob y yf)) in *.
    replace (d * d + - c * o * (- c * o) + 0 * 0) with (d * d + (c * c) * (o * o)) by ring. assert (0 <= c * c) by nra. assert (0 <= q * q) by nra. assert (o * o <= 1) by lra. nra. }
  rewrite Rabs_right by lra. pose proof (norm_nonneg (V3 (sin low_ml) (- cos low_ml * cos (low_ob y yf)) 0)). nra.
Qed.
Lemma low_ellipse_norm : norm low_ellipse <= 102 / 100.
Proof.
  unfold low_ellipse. pose proof (low_a y yf T) as A. set (a := low_e y yf) in *. set (g := low_perigee y yf).
  replace (V3 _ _ _) with (vadd (V3 (sin low_m) (- cos low_m) 0) (scale a (V3 (sin g) (- cos g) 0))) by (unfold vadd, scale; cbn [v0 v1 v2]; f_equal; ring).
  eapply Rle_trans; [apply norm_triangle|]. rewrite norm_scale_abs.
  assert (U : forall x, norm (V3 (sin x) (- cos x) 0) <= 1). { intros x. apply norm_le; [lra|]. unfold dot; cbn [v0 v1 v2]. pose proof (sc1 x). nra. }
  pose proof (U low_m). pose proof (U g). pose proof (norm_nonneg (V3 (sin g) (- cos g) 0)). pose proof (Rabs_pos a). nra.
Qed.
Lemma ellipses : norm (vsub low_ellipse (ellipse_velo s)) <= 424 / 1000000.
Proof.
  pose proof (m_near y yf T F) as MN. fold t s in MN. pose proof (ga_near y yf T F) as GN. fold t s in GN.
  pose proof (low_e_near y yf T) as EN. fold t s in EN. pose proof (ecc_near s Ts) as EC.
  pose proof (longitude_near s Ts) as LN. pose proof (anomaly_near s Ts) as AN. pose proof (centre_near s Ts) as CN. pose proof (sec_bound s Ts) as SB. pose proof (amp_l (lin s)) as AL.
  set (b := eccentricity s) in *.
  assert (M2 : anear (292 / 1000000) low_m (lS s + PI)).
  { replace (292 / 1000000) with (35e-6 + 257e-6) by lra. 
    assert (W : Rabs (sun_longitude s + centre b (sun_anomaly s) - (lS s + PI)) <= 257e-6).
    { unfold lS, plS. match goal with |- Rabs (?n + ?c - (?m + ?p + (?x + ?w) + PI)) <= _ => replace (n + c - (m + p + (x + w) + PI)) with (- ((m - (n - PI)) + (p - c) + x + w)) by ring end.
      rewrite Rabs_Ropp. bnd. }
    replace low_m with (low_m + 0) by ring. 
    replace (lS s + PI) with ((sun_longitude s + centre b (sun_anomaly s)) + (lS s + PI - (sun_longitude s + centre b (sun_anomaly s)))) by ring.
    apply anear_add; [exact MN|]. apply anear_abs. 
    match goal with |- Rabs (0 - ?x) <= _ => replace (0 - x) with (sun_longitude s + centre b (sun_anomaly s) - (lS s + PI)) by ring end. exact W. }
  assert (G2 : anear (336 / 1000000) (low_perigee y yf) (lS s - fS s + PI)).
  { replace (336 / 1000000) with (79e-6 + 257e-6) by lra.
    assert (W : Rabs (sun_longitude s - sun_anomaly s - (lS s - fS s + PI)) <= 257e-6).
    { unfold lS, fS, plS. match goal with |- Rabs (?n - ?c - (?m + ?p + (?x + ?w) - (?g + ?p) + PI)) <= _ => replace (n - c - (m + p + (x + w) - (g + p) + PI)) with (- ((m - (n - PI)) - (g - c) + x + w)) by ring end.
      rewrite Rabs_Ropp. bnd. }
    replace (low_perigee y yf) with (low_perigee y yf + 0) by ring.
    replace (lS s - fS s + PI) with ((sun_longitude s - sun_anomaly s) + (lS s - fS s + PI - (sun_longitude s - sun_anomaly s))) by ring.
    apply anear_add; [exact GN|]. apply anear_abs.
    match goal with |- Rabs (0 - ?x) <= _ => replace (0 - x) with (sun_longitude s - sun_anomaly s - (lS s - fS s + PI)) by ring end. exact W. }
  pose proof (low_a y yf T) as A. set (a := low_e y yf) in *. set (e := eS s) in *.
  assert (AE : Rabs (a - e) <= 75e-8). { replace (a - e) with ((a - b) - (e - b)) by ring. bnd. }
  pose proof (anear_sin _ _ _ M2) as P1. pose proof (anear_cos _ _ _ M2) as P2. pose proof (anear_sin _ _ _ G2) as P3. pose proof (anear_cos _ _ _ G2) as P4.
  rewrite neg_sin in P1, P3. rewrite neg_cos in P2, P4.
  apply (norm_box _ (299 / 1000000) (299 / 1000000) 0); unfold low_ellipse, ellipse_velo, vsub; cbn [v0 v1 v2]; fold a e; [| | |lra|lra].
  - replace (sin low_m + a * sin (low_perigee y yf) - - (sin (lS s) + e * sin (lS s - fS s))) with
      ((sin low_m - - sin (lS s)) + a * (sin (low_perigee y yf) - - sin (lS s - fS s)) - (a - e) * sin (lS s - fS s)) by ring. bnd.
  - replace (- (cos low_m + a * cos (low_perigee y yf)) - (cos (lS s) + e * cos (lS s - fS s))) with
      (- ((cos low_m - - cos (lS s)) + a * (cos (low_perigee y yf) - - cos (lS s - fS s)) - (a - e) * cos (lS s - fS s))) by ring. rewrite Rabs_Ropp. bnd.
  - replace (0 - 0) with 0 by ring. rewrite Rabs_R0. lra.
Qed.
Lemma tilt_near p o o' : norm p <= 102 / 100 -> Rabs (o - o') <= 1e-6 -> norm (vsub (eq_of o 0 p) (eq_of o' 0 p)) <= 4e-6.
Proof.
  intros P O. destruct (comp_norm p) as (X0 & X1 & X2). destruct (trig_near _ _ _ O) as [S C].
  apply (norm_box _ 0 2.1e-6 2.1e-6); unfold eq_of, vsub; cbn [v0 v1 v2]; [| | |lra|lra].
  - match goal with |- Rabs ?x <= _ => replace x with 0 by ring end. rewrite Rabs_R0. lra.
  - match goal with |- Rabs ?x <= _ => replace x with ((cos o - cos o') * v1 p - (sin o - sin o') * v2 p) by ring end. bnd.
  - match goal with |- Rabs ?x <= _ => replace x with ((sin o - sin o') * v1 p + (cos o - cos o') * v2 p) by ring end. bnd.
Qed.
Lemma low_evp_velo : norm (vsub (velo (earth_pv (N := RNum) (IZR y) yf)) (eq_of (evp_obliquity s) (qT s) (velo (evp_helio (N := RNum) s)))) <= 4.22e-10.
Proof.
  set (E := velo (earth_pv (N := RNum) (IZR y) yf)). set (W := velo (evp_helio (N := RNum) s)). set (f := eq_of (evp_obliquity s) (qT s)).
  pose proof low_velo_eq as LV. fold E in LV. set (mp := scale (SC * 831e-13) _) in LV. pose proof moon_part as M. fold mp in M.
  pose proof low_ellipse_norm as LN. set (p := low_ellipse) in *.
  pose proof (low_ob_near y yf T) as ON. fold t s in ON. pose proof (tilt_near p _ _ LN ON) as D1. set (o1 := low_ob y yf) in *. set (o2 := newcomb_obliquity s) in *.
  pose proof (eq_of_near s Ts p LN) as D2. fold o2 in D2. fold f in D2.
  pose proof ellipses as D3. fold p in D3. pose proof (inertial_near s Ts) as D4. pose proof (helio_velo s Ts) as D5. fold W in D5.
  set (I := inertial (hpS s) (hvS s)) in *. set (q := ellipse_velo s) in *.
  assert (D6 : norm (vsub (scale S1 p) (scale SC W)) <= 988 / 1000).
  { replace (vsub (scale S1 p) (scale SC W)) with (vadd (scale S1 (vsub p q)) (scale (-1) (vadd (vsub I (scale S1 q)) (vsub (scale SC W) I)))) by (clear; apply vec_eq; unfold vadd, vsub, scale; cbn [v0 v1 v2]; ring).
    eapply Rle_trans; [apply norm_triangle|]. rewrite !norm_scale_abs, (Rabs_left (-1)) by lra. pose proof S1_range as SR. rewrite (Rabs_right S1) by lra.
    pose proof (norm_triangle (vsub I (scale S1 q)) (vsub (scale SC W) I)). nra. }
  pose proof (proj2 (eq_of_norm (evp_obliquity s) (qT s) (vsub (scale S1 p) (scale SC W)) (qT_bound s Ts))) as D7. fold f in D7.
  assert (X : norm (scale SC (vsub E (f W))) <= 133 / 100).
  { replace (scale SC (vsub E (f W))) with (vadd mp (vadd (scale S1 (vsub (eq_of o1 0 p) (eq_of o2 0 p))) (vadd (scale (- S1) (vsub (f p) (eq_of o2 0 p))) (f (vsub (scale S1 p) (scale SC W)))))).
    2: { unfold f. rewrite eq_of_sub, !eq_of_scale. fold f. replace (scale SC (vsub E (f W))) with (vsub (scale SC E) (scale SC (f W))) by (clear; apply vec_eq; unfold vsub, scale; cbn [v0 v1 v2]; ring).
         rewrite LV, eq_of_scale. clear. set (a := eq_of o1 0 p). set (b := eq_of o2 0 p). set (c := f p). set (d := f W). apply vec_eq; unfold vadd, vsub, scale; cbn [v0 v1 v2]; ring. }
    pose proof S1_range as SR.
    eapply Rle_trans; [apply norm_triangle|]. eapply Rle_trans; [apply Rplus_le_compat_l, norm_triangle|]. eapply Rle_trans; [apply Rplus_le_compat_l, Rplus_le_compat_l, norm_triangle|].
    rewrite !norm_scale_abs, Rabs_Ropp, (Rabs_right S1) by lra.
    assert (S1 * norm (vsub (eq_of o1 0 p) (eq_of o2 0 p)) <= 3 / 1000) by nra. assert (S1 * norm (vsub (f p) (eq_of o2 0 p)) <= 755 / 10000) by nra. lra. }
  rewrite norm_scale_abs, Rabs_right in X by lra. lra.
Qed.
End Low.

Lemma earth_evp_velocity (year day n : Z) (f : R) :
  (1901 <= year <= 2099)%Z -> (1 <= day <= jyear_length year)%Z -> 0 <= f <= 1 -> is_mjd (Dt year 1 1) n ->
  exists pv, earth (N := RNum) year day f = Some pv /\
    norm (vsub (velo pv) (velo (fst (evp (N := RNum) (IZR (n + day - 1) + f) 0)))) <= 4.3e-10.
Proof.
  intros Y D F H.
  assert (D2 : (1 <= day <= 366)%Z). { unfold jyear_length in D. destruct (jleap year); lia. }
  eexists. split; [apply earth_some; unfold INT_MIN, INT_MAX; lia|].
  pose proof (epoch_date year day n f Y H) as E.
  pose proof (earth_yf_ge year day f ltac:(lia) (proj1 F)) as G.
  assert (U : earth_yf year day f <= 1.01).
  { unfold earth_yf. pose proof (Z.mod_pos_bound year 4 ltac:(lia)) as MB.
    assert (Z1 : (4 * (day - (if (year mod 4 =? 0) then 1 else 0)) - year mod 4 - 2 <= 1463)%Z) by (destruct (Z.eqb_spec (year mod 4) 0); lia).
    apply IZR_le in Z1. lra. }
  assert (YR : 1 <= IZR (year - 1900) <= 199) by (split; apply IZR_le; lia).
  rewrite <- earth_yf_fraction in E.
  assert (C : centuries1900 (IZR (n + day - 1) + f) = (IZR (year - 1900) + earth_yf year day f) / 100) by (rewrite E; field).
  destruct (evp_ofdate (IZR (n + day - 1) + f)) as (_ & V & _). { rewrite C. apply Rabs_le. lra. }
  rewrite V, C. eapply Rle_trans; [apply low_evp_velo; lra|]. lra.
Qed.

(** ** earth against epv, through evp *)
Lemma earth_epv (year day n : Z) (f : R) : let date := IZR (n + day - 1) + f in
  (1901 <= year <= 2099)%Z -> (1 <= day <= jyear_length year)%Z -> 0 <= f <= 1 -> is_mjd (Dt year 1 1) n -> Rabs (date - 51544.5) <= 18262.5 ->
  exists pv, earth (N := RNum) year day f = Some pv /\
    norm (vsub (mapply (iau1976_precession (julian_year date) 2000) (pos pv)) (pos (fst (epv (N := RNum) date)))) <= 0.0031.
Proof.
  intros date Y D F H R. destruct (earth_evp year day n f Y D F H) as (pv & E & B). exists pv. split; [exact E|]. fold date in B.
  pose proof (epv_evp date R) as C. destruct (evp_frame date 2000 ltac:(lra)) as (P & _). rewrite P in C. clear P.
  set (m := iau1976_precession (julian_year date) 2000) in *. assert (RM : rotation m) by (unfold m, iau1976_precession; apply precession_rotation).
  set (d := pos (fst (evp (N := RNum) date 0))) in *.
  replace 0.0031 with (0.0007 + 0.0024) by lra. apply (dist_trans _ (mapply m d)); [|exact C].
  rewrite mapply_minus, rotation_norm by exact RM. lra.
Qed.
