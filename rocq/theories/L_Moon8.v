(** moon against the short theory: position and velocity. *)
From Coq Require Import Reals List ZArith Lra Lia Bool.
From Coquelicot Require Import Coquelicot.
From Verif Require Import Int32 Num NumR L_Pi L_Real M_Vec M_Site M_EphTab M_Eph S_Geom S_Eph S_Moon L_Vec L_Rot L_Trig L_Frame L_FrameGal L_NutDiff L_Site L_Eph L_EphB L_EvpA L_EvpB L_Moon L_MoonB L_Moon2 L_Moon3 L_Moon4 L_Moon5 L_Moon6 L_Moon7.
Import ListNotations.
Open Scope R_scope.
Local Notation zz := (n_ofZ (n := RNum) 0, n_ofZ (n := RNum) 0).

Lemma famp_le (l : list frow) (f : list frow -> Z) (n d : Z) : (0 < d)%Z -> (f l * d <= n * unit30)%Z -> IZR (f l) / IZR unit30 <= IZR n / IZR d.
Proof.
  intros D H. pose proof unit30_pos as U. apply IZR_lt in D. apply IZR_le in H. rewrite !mult_IZR in H.
  apply (Rmult_le_reg_r (IZR unit30 * IZR d)); [apply Rmult_lt_0_compat; assumption|].
  replace (IZR (f l) / IZR unit30 * (IZR unit30 * IZR d)) with (IZR (f l) * IZR d) by (field; lra).
  replace (IZR n / IZR d * (IZR unit30 * IZR d)) with (IZR n * IZR unit30) by (field; lra). exact H.
Qed.

Section Moon.
Context (year : Z).
Local Notation L := (yL year). Local Notation B := (yB year). Local Notation P := (yP year).

Definition xl (y : R) : R := ye0 year y + kap * fst (L y).
Definition xbb (y : R) : R := kap * fst (B y).
Definition xpp (y : R) : R := kap * (fst (P y) + 950724 / 1000000).
Definition xr (y : R) : R := earth_radius / sin (xpp y).
Definition xl' (y : R) : R := kap * (kap * snd (L y)) + kap * (4812678831 / 1000000).
Definition xb' (y : R) : R := kap * (kap * snd (B y)).
Definition xp' (y : R) : R := kap * (kap * snd (P y)).
Definition xr' (y : R) : R := - xr y * (xp' y * cos (xpp y)) / sin (xpp y).

(** ** The exact path is the specification *)
Lemma ssin t l : forall y, t = IZR year + y -> fst (fold_right (moon_sin (N := RNum) (yem year y) (yemp year y) (yd year y) (yf year y)) zz l) = short_series sind l t.
Proof.
  intros y ->. induction l as [|[c [[[i j] k] h]] l IH]; [reflexivity|].
  cbn [fold_right short_series]. rewrite <- IH. unfold moon_sin at 1. pairs. unfold moon_theta; cbn [fst snd]. rewrite lit_decimal. unR.
  unfold sind, yem, yemp, yd, yf. rewrite !rad_add.
  assert (X : forall a b, IZR a * radians b = radians (IZR a * b)) by (intros; unfold radians; ring).
  rewrite <- !rad_add, !X, <- !rad_add. change (car RNum) with R. ring.
Qed.
Lemma scos t l : forall y, t = IZR year + y -> fst (fold_right (moon_cos (N := RNum) (yem year y) (yemp year y) (yd year y) (yf year y)) zz l) = short_series cosd l t.
Proof.
  intros y ->. induction l as [|[c [[[i j] k] h]] l IH]; [reflexivity|].
  cbn [fold_right short_series]. rewrite <- IH. unfold moon_cos at 1. pairs. unfold moon_theta; cbn [fst snd]. rewrite lit_decimal. unR.
  unfold cosd, yem, yemp, yd, yf. rewrite !rad_add.
  assert (X : forall a b, IZR a * radians b = radians (IZR a * b)) by (intros; unfold radians; ring).
  rewrite <- !rad_add, !X, <- !rad_add. change (car RNum) with R. ring.
Qed.
Lemma almanac_exact y : almanac_moon (IZR year + y) = scale (xr y) (direction (xl y) (xbb y)).
Proof.
  unfold almanac_moon, place, xr, xl, xbb, xpp, L, B, P. rewrite !(ssin _ _ y eq_refl), (scos _ _ y eq_refl).
  unfold sind at 1. rewrite !kap_rad. unfold ye0. rewrite <- !rad_add.
  rewrite (Rplus_comm (short_series cosd _ _)). reflexivity.
Qed.

(** ** Its velocity *)
Lemma yargs_derive y :
  is_derive (ye0 year) y (kap * (4812678831 / 1000000)) /\
  is_derive (yem year) y (kap * Rdec 359990498 (-6)) /\ is_derive (yemp year) y (kap * Rdec 4771988491 (-6)) /\
  is_derive (yd year) y (kap * Rdec 4452671142 (-6)) /\ is_derive (yf year) y (kap * Rdec 4832020251 (-6)).
Proof.
  assert (X : forall c0 c1 c : R, c = c1 -> is_derive (fun s => radians (c0 + c1 * (IZR year + s))) y (kap * c)).
  { intros c0 c1 c ->. unfold radians, kap. auto_derive; [easy|]. field. }
  refine (conj _ (conj _ (conj _ (conj _ _)))); apply X; decs; reflexivity.
Qed.
Lemma sp_low y : 0.0153 < xpp y < 0.0179.
Proof.
  unfold xpp, P, yP. pose proof (cos_ampk (yem year y) (yemp year y) (yd year y) (yf year y) moon_P ltac:(vm_compute; reflexivity)) as A.
  fold (famp moon_P) in A.
  pose proof (famp_le moon_P famp 721 10000 ltac:(lia) ltac:(vm_compute; discriminate)) as A2.
  set (s := fst _) in *. clearbody s.
  assert (K : 1745 / 100000 < kap < 17454 / 1000000) by (pose proof PI_bounds; unfold kap; lra).
  apply ab in A. change (car RNum) with R in *. split; [|]; nra.
Qed.
Lemma small_trig p : 0.0153 < p < 0.0179 -> 0.015 < sin p < 0.0179 /\ 0.99983 < cos p <= 1.
Proof.
  intros H. destruct (sin_small p ltac:(lra)) as (S & U).
  assert (p * p * p <= 0.018 * 0.018 * 0.018).
  { apply Rmult_le_compat; [nra|lra| |lra]. apply Rmult_le_compat; lra. }
  assert (p * p <= 0.0179 * 0.0179) by (apply Rmult_le_compat; lra).
  split; [split; lra|]. split; [|apply COS_bound].
  pose proof PI_bounds.
  destruct (pre_cos_bound p 0 ltac:(lra) ltac:(lra)) as (C & _).
  unfold cos_approx in C. cbn in C. unfold cos_term in C. cbn in C. lra.
Qed.

Lemma exact_rates y : is_derive xl y (xl' y) /\ is_derive xbb y (xb' y) /\ is_derive xr y (xr' y).
Proof.
  destruct (yargs_derive y) as (H0 & H1 & H2 & H3 & H4).
  pose proof (sin_k _ _ _ _ y kap H1 H2 H3 H4 moon_L) as DL.
  pose proof (sin_k _ _ _ _ y kap H1 H2 H3 H4 moon_B) as DB.
  pose proof (cos_k _ _ _ _ y kap H1 H2 H3 H4 moon_P) as DP.
  unfold rated_k in *.
  change (is_derive (fun s => fst (L s)) y (kap * snd (L y))) in DL.
  change (is_derive (fun s => fst (B s)) y (kap * snd (B y))) in DB.
  change (is_derive (fun s => fst (P s)) y (kap * snd (P y))) in DP.
  destruct (small_trig _ (sp_low y)) as (SP & CP).
  assert (XP : is_derive xpp y (xp' y)).
  { assert (X : forall g : R -> R, forall g' a k, is_derive g y g' -> is_derive (fun s => k * (g s + a)) y (k * g')).
    { intros. rate_step. }
    exact (X _ _ _ kap DP). }
  refine (conj _ (conj _ _)).
  - assert (X : forall g h : R -> R, forall g' h' k, is_derive g y g' -> is_derive h y h' -> is_derive (fun s => h s + k * g s) y (k * g' + h')).
    { intros. rate_step. }
    exact (X _ _ _ _ kap DL H0).
  - assert (X : forall g : R -> R, forall g' k, is_derive g y g' -> is_derive (fun s => k * g s) y (k * g')).
    { intros. rate_step. }
    exact (X _ _ kap DB).
  - assert (X : forall g : R -> R, forall g' k, is_derive g y g' -> sin (g y) <> 0 -> is_derive (fun s => k / sin (g s)) y (- (k / sin (g y)) * (g' * cos (g y)) / sin (g y))).
    { intros g g' k G S. auto_derive; [repeat split; try (eexists; eassumption); assumption|]. derives. field. exact S. }
    apply X; [exact XP|lra].
Qed.
Lemma exact_velocity y : velocity_at (fun s => almanac_moon (IZR year + s)) y
  (velo (ds2c6 (N := RNum) (SPV (N := RNum) (xl y) (xbb y) (xr y) (xl' y) (xb' y) (xr' y)))).
Proof.
  destruct (exact_rates y) as (E1 & E2 & E3). apply is_derive_Reals in E1, E2, E3.
  pose proof (ds2c6_velocity _ _ _ _ _ _ _ E1 E2 E3) as V. cbv zeta in V.
  eapply velocity_ext; [|exact V]. intros s. apply almanac_exact.
Qed.
End Moon.

(** ** Closeness of Cartesian coordinates *)
Lemma velo_scale k a b r a' b' r' :
  scale k (velo (ds2c6 (N := RNum) (SPV (N := RNum) a b r a' b' r'))) = velo (ds2c6 (N := RNum) (SPV (N := RNum) a b r (k * a') (k * b') (k * r'))).
Proof.
  unfold ds2c6; cbn [lon lat dist dlon dlat ddist velo]. unR. unfold scale; cbn [v0 v1 v2]. change (car RNum) with R. f_equal; ring.
Qed.
Lemma sph_close a b r a' b' r' x y s x' y' s' :
  anear 1e-10 a x -> anear 1e-10 b y -> cl r s 1e-12 0.0029 ->
  cl a' x' 1e-6 200 -> cl b' y' 1e-6 200 -> cl r' s' 5e-6 0.05 ->
  norm (vsub (pos (ds2c6 (N := RNum) (SPV (N := RNum) a b r a' b' r'))) (pos (ds2c6 (N := RNum) (SPV (N := RNum) x y s x' y' s')))) <= 5e-12 /\
  norm (vsub (velo (ds2c6 (N := RNum) (SPV (N := RNum) a b r a' b' r'))) (velo (ds2c6 (N := RNum) (SPV (N := RNum) x y s x' y' s')))) <= 9e-6.
Proof.
  intros A B0 R0 A' B' R'.
  pose proof (cl_sin _ _ _ A) as SE. pose proof (cl_cos _ _ _ A) as CE.
  pose proof (cl_sin _ _ _ B0) as SL. pose proof (cl_cos _ _ _ B0) as CL.
  unfold ds2c6; cbn [lon lat dist dlon dlat ddist pos velo]. unR. change (car RNum) with R in *.
  split.
  - apply norm_box with (a := 2e-12) (b := 2e-12) (c := 2e-12); unfold vsub; cbn [v0 v1 v2]; try lra.
    + assert (X : cl (r * cos b * cos a) (s * cos y * cos x) 2e-12 1) by closes. exact (proj1 X).
    + assert (X : cl (r * cos b * sin a) (s * cos y * sin x) 2e-12 1) by closes. exact (proj1 X).
    + assert (X : cl (r * sin b) (s * sin y) 2e-12 1) by closes. exact (proj1 X).
  - assert (WB : cl (r * b' * sin b - cos b * r') (s * y' * sin y - cos y * s') 5.01e-6 1) by closes.
    set (w := r * b' * sin b - cos b * r') in *. set (w' := s * y' * sin y - cos y * s') in *. clearbody w w'.
    apply norm_box with (a := 5.02e-6) (b := 5.02e-6) (c := 5.02e-6); unfold vsub; cbn [v0 v1 v2]; try lra.
    + assert (X : cl (- (r * cos b * sin a) * a' - w * cos a) (- (s * cos y * sin x) * x' - w' * cos x) 5.02e-6 100) by closes. exact (proj1 X).
    + assert (X : cl (r * cos b * cos a * a' - w * sin a) (s * cos y * cos x * x' - w' * sin x) 5.02e-6 100) by closes. exact (proj1 X).
    + assert (X : cl (r * b' * cos b + sin b * r') (s * y' * cos y + sin y * s') 5.02e-6 100) by closes. exact (proj1 X).
Qed.

(** ** The routine's spherical coordinates *)
Lemma k2_near : cl (frate (N := RNum) * 31557600) (kap * kap) 1e-12 3.05e-4 /\ cl (frate (N := RNum) * 31557600 / fdeg (N := RNum)) kap 1e-10 0.01746 /\
  cl (fdeg (N := RNum)) kap 5.8e-14 0.01746.
Proof.
  pose proof PI_bounds as PB. unfold frate, fdeg; unR. decs.
  assert (K : 0.01745329251994329 < kap < 0.01745329251994330) by (unfold kap; lra).
  assert (KK : 0.01745329251994329 * 0.01745329251994329 <= kap * kap <= 0.01745329251994330 * 0.01745329251994330) by nra.
  clear PB. unfold cl. repeat split; apply Rabs_le; lra.
Qed.

Section Close.
Context (year : Z) (y : R).
Local Notation yi := (IZR year).
Local Notation E := (moon_em (N := RNum) (yi + y)).
Local Notation Mp := (moon_emp (N := RNum) (yi + y) y).
Local Notation D := (moon_d (N := RNum) (yi + y) y).
Local Notation F := (moon_f (N := RNum) (yi + y) y).

Lemma series_near :
  (cl (fst (mL yi y)) (fst (yL year y)) 3e-10 9.2 /\ cl (snd (mL yi y)) (snd (yL year y)) 1.2e-5 67000) /\
  (cl (fst (mB yi y)) (fst (yB year y)) 3e-10 9.2 /\ cl (snd (mB yi y)) (snd (yB year y)) 1.2e-5 67000) /\
  (cl (fst (mP yi y)) (fst (yP year y)) 3e-12 0.0721 /\ cl (snd (mP yi y)) (snd (yP year y)) 1.2e-7 500).
Proof.
  destruct (yargs_near year y) as (_ & H1 & H2 & H3 & H4).
  assert (E0 : 0 <= eta) by (unfold eta; lra).
  pose proof (msin_close _ _ _ _ _ _ _ _ eta E0 H1 H2 H3 H4 moon_L ltac:(vm_compute; reflexivity)) as CL.
  pose proof (msin_close _ _ _ _ _ _ _ _ eta E0 H1 H2 H3 H4 moon_B ltac:(vm_compute; reflexivity)) as CB.
  pose proof (mcos_close _ _ _ _ _ _ _ _ eta E0 H1 H2 H3 H4 moon_P ltac:(vm_compute; reflexivity)) as CP.
  pose proof (famp_le moon_L famp 92 10 ltac:(lia) ltac:(vm_compute; discriminate)) as A1.
  pose proof (famp_le moon_L fampw 138 10 ltac:(lia) ltac:(vm_compute; discriminate)) as A2.
  pose proof (famp_le moon_B famp 61 10 ltac:(lia) ltac:(vm_compute; discriminate)) as A3.
  pose proof (famp_le moon_B fampw 76 10 ltac:(lia) ltac:(vm_compute; discriminate)) as A4.
  pose proof (famp_le moon_P famp 721 10000 ltac:(lia) ltac:(vm_compute; discriminate)) as A5.
  pose proof (famp_le moon_P fampw 103 1000 ltac:(lia) ltac:(vm_compute; discriminate)) as A6.
  unfold close3, eta in CL, CB, CP. destruct CL as (L1 & L2), CB as (B1 & B2), CP as (P1 & P2).
  split; [split|split; split].
  - eapply cl_weak; [exact L1|lra|lra].
  - eapply cl_weak; [exact L2|lra|lra].
  - eapply cl_weak; [exact B1|lra|lra].
  - eapply cl_weak; [exact B2|lra|lra].
  - eapply cl_weak; [exact P1|lra|lra].
  - eapply cl_weak; [exact P2|lra|lra].
Qed.

Lemma sph_near :
  anear 1e-10 (mel yi y) (xl year y) /\ anear 1e-10 (mb yi y) (xbb year y) /\ cl (mr yi y) (xr year y) 1e-12 0.0029 /\
  cl (31557600 * meld yi y) (xl' year y) 1e-6 200 /\ cl (31557600 * mbd yi y) (xb' year y) 1e-6 200 /\
  cl (31557600 * mrd yi y) (xr' year y) 5e-6 0.05.
Proof.
  destruct series_near as ((L1 & L2) & (B1 & B2) & (P1 & P2)). destruct (yargs_near year y) as (H0 & _).
  destruct k2_near as (K2 & K3 & K1).
  destruct (mp_trig yi y) as ((S & _) & (C & _)). destruct (small_trig _ (sp_low year y)) as ((S' & _) & C').
  set (k2 := frate (N := RNum) * 31557600) in *.
  assert (EP : cl (mp yi y) (xpp year y) 2e-13 1).
  { unfold mp, xpp. decs. rewrite (Rmult_comm _ (fdeg (N := RNum))). change (car RNum) with R in *.
    set (p := fst (mP yi y)) in *. set (p' := fst (yP year y)) in *. set (k := fdeg (N := RNum)) in *. clearbody p p' k. closes. }
  assert (SP : cl (sin (mp yi y)) (sin (xpp year y)) 2e-13 1) by exact (cl_sin _ _ _ (anear_cl _ _ _ _ EP)).
  pose proof (cl_inv _ _ _ 0.015 ltac:(lra) (Rlt_le _ _ S) (Rlt_le _ _ S') (proj1 SP)) as I.
  apply cl_weak with (e' := 1e-9) (b' := 66.7) in I; [|lra|lra].
  assert (RB : cl (mr yi y) (xr year y) 1e-12 0.00285).
  { assert (X : forall K K' u v, K' = K -> Rabs K <= 0.00004264 -> cl (/ u) (/ v) 1e-9 66.7 -> cl (K / u) (K' / v) 1e-12 0.00285).
    { intros K K' u v -> KB UV. closes. }
    apply X; [unfold earth_radius; decs; lra|decs; apply Rabs_le; lra|exact I]. }
  refine (conj _ (conj _ (conj _ (conj _ (conj _ _))))).
  - unfold mel, xl. rewrite Rplus_comm. change (car RNum) with R in *.
    eapply anear_weak; [apply anear_add; [exact H0|]|].
    + apply (anear_cl 2e-11 _ _ 1). rewrite (Rmult_comm _ (fdeg (N := RNum))). change (car RNum) with R in *.
      set (p := fst (mL yi y)) in *. set (p' := fst (yL year y)) in *. set (k := fdeg (N := RNum)) in *. clearbody p p' k. closes.
    + unfold eta. lra.
  - apply (anear_cl _ _ _ 1). unfold mb, xbb. rewrite (Rmult_comm _ (fdeg (N := RNum))). change (car RNum) with R in *.
    set (p := fst (mB yi y)) in *. set (p' := fst (yB year y)) in *. set (k := fdeg (N := RNum)) in *. clearbody p p' k. closes.
  - eapply cl_weak; [exact RB|lra|lra].
  - replace (31557600 * meld yi y) with (k2 * snd (mL yi y) + k2 / fdeg (N := RNum) * (4812678831 / 1000000)).
    + unfold xl'. rewrite <- Rmult_assoc. set (p := snd (mL yi y)) in *. set (p' := snd (yL year y)) in *. 
      set (k3 := k2 / _) in *. set (kk := kap * kap) in *. change (car RNum) with R in *. clearbody p p' k3 kk. clearbody k2. closes.
    + unfold meld, k2. decs. change (car RNum) with R in *. field. intros Z. pose proof kd_val. unfold fdeg in Z. revert Z. unR. decs. lra.
  - replace (31557600 * mbd yi y) with (k2 * snd (mB yi y)) by (unfold mbd, k2; change (car RNum) with R; ring).
    unfold xb'. rewrite <- Rmult_assoc. set (p := snd (mB yi y)) in *. set (p' := snd (yB year y)) in *. 
    set (kk := kap * kap) in *. change (car RNum) with R in *. clearbody p p' kk. clearbody k2. closes.
  - replace (31557600 * mrd yi y) with (- mr yi y * (k2 * snd (mP yi y) * 1) / sin (mp yi y)) by (unfold mrd, k2; change (car RNum) with R; field; lra).
    unfold xr', xp'. rewrite <- (Rmult_assoc kap kap).
    assert (CC : cl 1 (cos (xpp year y)) 0.00017 1) by (unfold cl; repeat split; apply Rabs_le; lra).
    set (p := snd (mP yi y)) in *. set (p' := snd (yP year y)) in *. set (kk := kap * kap) in *. set (c := cos (xpp year y)) in *.
    set (s := sin (mp yi y)) in *. set (s' := sin (xpp year y)) in *. set (r := mr yi y) in *. set (r' := xr year y) in *.
    change (car RNum) with R in *. clearbody p p' kk c s s' r r'. clearbody k2. clear SP. closes.
Qed.
End Close.

Lemma vec_eq (p q : RV) : v0 p = v0 q -> v1 p = v1 q -> v2 p = v2 q -> p = q.
Proof. destruct p, q; cbn. now intros -> -> ->. Qed.
Lemma frame_close e p q : norm (vsub (mapply (frame_x e) p) (mapply (frame_x e) q)) = norm (vsub p q).
Proof.
  replace (vsub (mapply (frame_x e) p) (mapply (frame_x e) q)) with (mapply (frame_x e) (vsub p q)).
  - unfold norm. f_equal. generalize (vsub p q). intros [a b c]. unfold mapply, frame_x, dot; cbn [v0 v1 v2 r0 r1 r2].
    pose proof (sin2_cos2 e) as A. unfold Rsqr in A. set (se := sin e) in *. set (ce := cos e) in *.
    replace (_ + _ + _) with (a * a + (se * se + ce * ce) * (b * b + c * c)) by ring. rewrite A. ring.
  - unfold mapply, frame_x, vsub, dot; cbn [v0 v1 v2 r0 r1 r2]. f_equal; ring.
Qed.
Lemma frame_scale e k p : scale k (mapply (frame_x e) p) = mapply (frame_x e) (scale k p).
Proof. unfold mapply, frame_x, scale, dot; cbn [v0 v1 v2 r0 r1 r2]. f_equal; ring. Qed.

Lemma per_day (w u : RV) : norm (vsub (scale 31557600 w) u) <= 9e-6 -> norm (vsub (scale 86400 w) (scale (4 / 1461) u)) <= 3e-8.
Proof.
  intros V. replace (vsub (scale 86400 w) (scale (4 / 1461) u)) with (scale (4 / 1461) (vsub (scale 31557600 w) u)).
  - rewrite norm_scale_abs, Rabs_pos_eq by lra. apply Rle_trans with (4 / 1461 * 9e-6); [|lra].
    apply Rmult_le_compat_l; [lra|exact V].
  - unfold vsub, scale; cbn [v0 v1 v2]. change (car RNum) with R in *. apply vec_eq; cbn [v0 v1 v2]; lra.
Qed.

Lemma moon_theory_near : forall (year day : Z) (f : R),
  (INT_MIN + 1900 <= year <= INT_MAX)%Z -> (-500000000 <= day <= 500000000)%Z ->
  let epoch g := IZR (year - 1900) + year_fraction year day g in
  let frame := frame_x (- almanac_obliquity (epoch f)) in
  exists pv u, moon (N := RNum) year day f = Some pv /\
    norm (vsub (pos pv) (mapply frame (almanac_moon (epoch f)))) <= 5e-12 /\
    velocity_at (fun g => almanac_moon (epoch g)) f u /\
    norm (vsub (scale 86400 (velo pv)) (mapply frame u)) <= 3e-8.
Proof.
  intros year day f Y D epoch frame. unfold frame, epoch. clear frame epoch.
  set (y := year_fraction year day f).
  destruct (sph_near (year - 1900) y) as (A1 & A2 & A3 & A4 & A5 & A6).
  destruct (sph_close _ _ _ _ _ _ _ _ _ _ _ _ A1 A2 A3 A4 A5 A6) as (X & V).
  pose proof (exact_velocity (year - 1900) y) as (V0 & V1 & V2).
  set (u := velo (ds2c6 (N := RNum) (SPV (N := RNum) (xl (year - 1900) y) (xbb (year - 1900) y) (xr (year - 1900) y)
              (xl' (year - 1900) y) (xb' (year - 1900) y) (xr' (year - 1900) y)))) in *.
  assert (DY : is_derive (year_fraction year day) f (4 / 1461)).
  { unfold year_fraction. set (c1 := IZR _). set (c2 := IZR (year mod 4)). auto_derive; [easy|]. lra. }
  assert (C : forall g g', derivable_pt_lim g y g' -> derivable_pt_lim (fun s => g (year_fraction year day s)) f (4 / 1461 * g')).
  { intros g g' G. apply is_derive_Reals in G. apply is_derive_Reals. exact (is_derive_comp g (year_fraction year day) f g' (4 / 1461) G DY). }
  unfold moon. rewrite (earth_time_eq year day f Y D), year_fraction_eq. fold y.
  eexists. exists (scale (4 / 1461) u). split; [reflexivity|]. cbn [pos velo].
  rewrite !moon_rotate_eq, moon_sph_eq. split; [|split].
  - rewrite frame_close. rewrite almanac_exact.
    rewrite !ds2c6_position in X; cbn [dist lon lat] in X. rewrite ds2c6_position; cbn [dist lon lat]. exact X.
  - unfold velocity_at, scale; cbn [v0 v1 v2]. split; [|split].
    + exact (C (fun s => v0 (almanac_moon (IZR (year - 1900) + s))) _ V0).
    + exact (C (fun s => v1 (almanac_moon (IZR (year - 1900) + s))) _ V1).
    + exact (C (fun s => v2 (almanac_moon (IZR (year - 1900) + s))) _ V2).
  - rewrite frame_scale, frame_close. rewrite <- velo_scale in V. fold u in V.
    exact (per_day _ _ V).
Qed.

Lemma moon_rate_near : forall (year day : Z) (f : R),
  (INT_MIN + 1900 <= year <= INT_MAX)%Z -> (-500000000 <= day <= 500000000)%Z ->
  let epoch g := IZR (year - 1900) + year_fraction year day g in
  exists pv u, moon (N := RNum) year day f = Some pv /\
    velocity_at (fun g => almanac_moon (epoch g)) f u /\
    norm (vsub (scale 86400 (velo pv)) (mapply (frame_x (- almanac_obliquity (epoch f))) u)) <= 3e-8.
Proof. intros year day f Y D epoch. destruct (moon_theory_near year day f Y D) as (pv & u & A & _ & B & C). exists pv, u. auto. Qed.
Lemma moon_place_near : forall (year day : Z) (f : R),
  (INT_MIN + 1900 <= year <= INT_MAX)%Z -> (-500000000 <= day <= 500000000)%Z ->
  let epoch := IZR (year - 1900) + year_fraction year day f in
  exists pv, moon (N := RNum) year day f = Some pv /\
    norm (vsub (pos pv) (mapply (frame_x (- almanac_obliquity epoch)) (almanac_moon epoch))) <= 5e-12.
Proof. intros year day f Y D epoch. destruct (moon_theory_near year day f Y D) as (pv & u & A & B & _). exists pv. auto. Qed.
