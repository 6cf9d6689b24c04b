(** Rotation matrices from axial vectors in binary64. *)
From Coq Require Import ZArith Reals Bool List Lia Lra Psatz.
From Flocq Require Import Core BinarySingleNaN.
From Verif Require Import Int32 Num NumB NumR M_Angle M_Vec M_Sphere S_Geom S_Sphere S_Frame S_Binary S_Float S_FloatSph L_Bin L_Flt L_Float.
From Verif Require Import L_Real L_Vec L_Rot L_Trig L_Frame L_Sphere L_FloatVec L_FltGeo L_FloatMat L_FloatSph L_Err L_ErrT L_FloatLand L_FloatFrame L_FloatHor L_FloatEt.
Import ListNotations.
Open Scope R_scope.

Definition av_mat {N : Num} (x y z s c : N) : mat N :=
  let w := n_sub (n_ofZ 1) c in
  M3 (V3 (n_add (n_mul (n_mul x x) w) c) (n_add (n_mul (n_mul x y) w) (n_mul z s)) (n_sub (n_mul (n_mul x z) w) (n_mul y s)))
     (V3 (n_sub (n_mul (n_mul x y) w) (n_mul z s)) (n_add (n_mul (n_mul y y) w) c) (n_add (n_mul (n_mul y z) w) (n_mul x s)))
     (V3 (n_add (n_mul (n_mul x z) w) (n_mul y s)) (n_sub (n_mul (n_mul y z) w) (n_mul x s)) (n_add (n_mul (n_mul z z) w) c)).
Definition av_env : list item := [cs_it; cs_it; cs_it; unit_it; unit_it].
Lemma av_mat64 lm (x1 x2 x3 x4 x5 : double) a1 a2 a3 a4 a5 :
  value64 x1 a1 -> value64 x2 a2 -> value64 x3 a3 -> value64 x4 a4 -> value64 x5 a5 ->
  Rabs a1 <= 1.001 -> Rabs a2 <= 1.001 -> Rabs a3 <= 1.001 -> Rabs a4 <= 1 -> Rabs a5 <= 1 ->
  let x := av_mat (N := B64 lm) x1 x2 x3 x4 x5 in let a := av_mat (N := RNum) a1 a2 a3 a4 a5 in
  (near 53 1024 (v0 (r0 x)) (v0 (r0 a)) 12e-16 /\ near 53 1024 (v1 (r0 x)) (v1 (r0 a)) 14e-16 /\ near 53 1024 (v2 (r0 x)) (v2 (r0 a)) 14e-16) /\
  (near 53 1024 (v0 (r1 x)) (v0 (r1 a)) 14e-16 /\ near 53 1024 (v1 (r1 x)) (v1 (r1 a)) 12e-16 /\ near 53 1024 (v2 (r1 x)) (v2 (r1 a)) 14e-16) /\
  (near 53 1024 (v0 (r2 x)) (v0 (r2 a)) 14e-16 /\ near 53 1024 (v1 (r2 x)) (v1 (r2 a)) 14e-16 /\ near 53 1024 (v2 (r2 x)) (v2 (r2 a)) 12e-16).
Proof.
  intros X1 X2 X3 X4 X5 A1 A2 A3 A4 A5 x a.
  assert (OK : okenv av_env [x1; x2; x3; x4; x5] [a1; a2; a3; a4; a5]) by (do 3 (split; [apply okk_cs; assumption|]); do 2 (split; [apply okk_unit; assumption|]); exact Logic.I).
  unfold x, a, av_mat. cbv zeta. cbn [v0 v1 v2 r0 r1 r2].
  (split; [|split]); (split; [|split]); err0 lm av_env [x1; x2; x3; x4; x5] [a1; a2; a3; a4; a5] OK.
Qed.
Lemma plus_0 (y : double) : Bsign y = false -> Bplus mode_NE (BofZ 53 1024 0) y = y.
Proof. destruct y as [[|]|[|]| |[|] m e H]; intros S; try discriminate S; reflexivity. Qed.
Lemma dvn_modulus lm (x : vec double) a : vec64 x a -> within 1e150 a ->
  snd (dvn (N := B64 lm) x) = n_sqrt (n := B64 lm) (n_add (n_add (n_mul (v0 x : B64 lm) (v0 x)) (n_mul (v1 x : B64 lm) (v1 x))) (n_mul (v2 x : B64 lm) (v2 x))).
Proof.
  intros (X0 & X1 & X2) (W0 & W1 & W2). unfold dvn. cbv zeta. cbn [snd]. pose proof room64 as RM. pose proof (prod_within _ _ _ _ W0 W0). assert (0 <= 1e150 * 1e150) by nra. pose proof Hh64.
  destruct (near_mul0 53 1024 (v0 x) (v0 x) _ _ _ X0 X0 (Rle_refl _) ltac:(lra)) as (p & (F & _) & _).
  do 3 f_equal. exact (plus_0 _ (sign_sq 53 1024 _ F)).
Qed.
Lemma av_entry x y z s c x0 y0 z0 s0 c0 d e : 0 <= d -> 0 <= e -> Rabs x0 <= 1 -> Rabs y0 <= 1 -> Rabs z0 <= 1 -> Rabs s <= 1 -> Rabs c <= 1 -> Rabs c0 <= 1 ->
  Rabs (x - x0) <= d -> Rabs (y - y0) <= d -> Rabs (z - z0) <= d -> Rabs (s - s0) <= e -> Rabs (c - c0) <= e -> d <= 1e-3 ->
  Rabs (x * y * (1 - c) - x0 * y0 * (1 - c0)) <= 4.01 * d + e /\ Rabs (z * s - z0 * s0) <= d + e.
Proof.
  intros D E X0 Y0 Z0 S C C0 DX DY DZ DS DC D1. split.
  - assert (XY : Rabs (x * y - x0 * y0) <= 2.001 * d).
    { replace (x * y - x0 * y0) with ((x - x0) * (y - y0) + x0 * (y - y0) + (x - x0) * y0) by ring.
      eapply Rle_trans; [apply Rabs_triang|]. eapply Rle_trans; [apply Rplus_le_compat_r, Rabs_triang|]. rewrite !Rabs_mult.
      pose proof (Rabs_pos (x - x0)). pose proof (Rabs_pos (y - y0)). pose proof (Rabs_pos x0). pose proof (Rabs_pos y0).
      assert (Rabs (x - x0) * Rabs (y - y0) <= 1e-3 * d) by nra. nra. }
    replace (x * y * (1 - c) - x0 * y0 * (1 - c0)) with ((x * y - x0 * y0) * (1 - c) + x0 * y0 * (c0 - c)) by ring.
    eapply Rle_trans; [apply Rabs_triang|]. rewrite (Rabs_mult (x * y - x0 * y0)), (Rabs_mult (x0 * y0)), (Rabs_minus_sym c0).
    pose proof (mul_abs1 _ _ X0 Y0). assert (Rabs (1 - c) <= 2) by (apply Rabs_le_inv in C; apply Rabs_le; lra).
    pose proof (Rabs_pos (x * y - x0 * y0)). pose proof (Rabs_pos (1 - c)). pose proof (Rabs_pos (x0 * y0)). pose proof (Rabs_pos (c - c0)). nra.
  - apply prod_err2; assumption.
Qed.
Lemma norm_sum9 A p : Rabs (v0 (r0 A)) <= p -> Rabs (v1 (r0 A)) <= p -> Rabs (v2 (r0 A)) <= p ->
  Rabs (v0 (r1 A)) <= p -> Rabs (v1 (r1 A)) <= p -> Rabs (v2 (r1 A)) <= p -> Rabs (v0 (r2 A)) <= p -> Rabs (v1 (r2 A)) <= p -> Rabs (v2 (r2 A)) <= p -> fnorm A <= 3 * p.
Proof.
  intros A1 A2 A3 A4 A5 A6 A7 A8 A9. pose proof (Rabs_pos (v0 (r0 A))). unfold fnorm, dot. rewrite <- (sqrt_square (3 * p)) by lra. apply sqrt_le_1_alt.
  assert (SQ : forall w, Rabs w <= p -> w * w <= p * p) by (intros w' H'; apply Rabs_le_inv in H'; nra).
  pose proof (SQ _ A1). pose proof (SQ _ A2). pose proof (SQ _ A3). pose proof (SQ _ A4). pose proof (SQ _ A5). pose proof (SQ _ A6). pose proof (SQ _ A7). pose proof (SQ _ A8). pose proof (SQ _ A9). lra.
Qed.
Lemma av_lip x y z s c x0 y0 z0 s0 c0 d e : 0 <= d -> 0 <= e -> Rabs x0 <= 1 -> Rabs y0 <= 1 -> Rabs z0 <= 1 -> Rabs s <= 1 -> Rabs c <= 1 -> Rabs c0 <= 1 ->
  Rabs (x - x0) <= d -> Rabs (y - y0) <= d -> Rabs (z - z0) <= d -> Rabs (s - s0) <= e -> Rabs (c - c0) <= e -> d <= 1e-3 ->
  fnorm (msub (av_mat (N := RNum) x y z s c) (av_mat (N := RNum) x0 y0 z0 s0 c0)) <= 15.1 * d + 6 * e.
Proof.
  intros D E X0 Y0 Z0 S C C0 DX DY DZ DS DC D1.
  pose proof (fun a b g a0 b0 g0 A0 B0 G0 DA DB DG => av_entry a b g s c a0 b0 g0 s0 c0 d e D E A0 B0 G0 S C C0 DA DB DG DS DC D1) as EN.
  destruct (EN _ _ _ _ _ _ X0 X0 X0 DX DX DX) as (XX & XS). destruct (EN _ _ _ _ _ _ Y0 Y0 Y0 DY DY DY) as (YY & YS). destruct (EN _ _ _ _ _ _ Z0 Z0 Z0 DZ DZ DZ) as (ZZ & ZS).
  destruct (EN _ _ _ _ _ _ X0 Y0 Z0 DX DY DZ) as (XY & _). destruct (EN _ _ _ _ _ _ X0 Z0 Y0 DX DZ DY) as (XZ & _). destruct (EN _ _ _ _ _ _ Y0 Z0 X0 DY DZ DX) as (YZ & _).
  replace (15.1 * d + 6 * e) with (3 * ((15.1 / 3) * d + 2 * e)) by field.
  apply norm_sum9; unfold msub, vsub, av_mat; unR; cbv zeta; cbn [v0 v1 v2 r0 r1 r2].
  all: first [eapply Rle_trans; [apply add_err; eassumption|lra] | eapply Rle_trans; [apply sub_err; eassumption|lra]].
Qed.
Lemma av_finish lm (x1 x2 x3 x4 x5 : double) a1 a2 a3 a4 a5 x0 y0 z0 s0 c0 d e :
  value64 x1 a1 -> value64 x2 a2 -> value64 x3 a3 -> value64 x4 a4 -> value64 x5 a5 ->
  0 <= d -> 0 <= e -> Rabs x0 <= 1 -> Rabs y0 <= 1 -> Rabs z0 <= 1 -> Rabs a4 <= 1 -> Rabs a5 <= 1 -> Rabs c0 <= 1 ->
  Rabs (a1 - x0) <= d -> Rabs (a2 - y0) <= d -> Rabs (a3 - z0) <= d -> Rabs (a4 - s0) <= e -> Rabs (a5 - c0) <= e -> d <= 1e-3 ->
  exists M, mat64 (av_mat (N := B64 lm) x1 x2 x3 x4 x5) M /\ fnorm (msub M (av_mat (N := RNum) x0 y0 z0 s0 c0)) <= 42e-16 + 15.1 * d + 6 * e.
Proof.
  intros F1 F2 F3 F4 F5 D E X0 Y0 Z0 S C C0 DX DY DZ DS DC D1.
  assert (BD : forall a b, Rabs b <= 1 -> Rabs (a - b) <= d -> Rabs a <= 1.001) by (intros a b B DB; apply Rabs_le_inv in B, DB; apply Rabs_le; lra).
  destruct (av_mat64 lm _ _ _ _ _ _ _ _ _ _ F1 F2 F3 F4 F5 (BD _ _ X0 DX) (BD _ _ Y0 DY) (BD _ _ Z0 DZ) S C) as ((N1 & N2 & N3) & (N4 & N5 & N6) & (N7 & N8 & N9)).
  destruct (near_value64 _ _ _ N1) as (m1 & G1 & E1). destruct (near_value64 _ _ _ N2) as (m2 & G2 & E2). destruct (near_value64 _ _ _ N3) as (m3 & G3 & E3).
  destruct (near_value64 _ _ _ N4) as (m4 & G4 & E4). destruct (near_value64 _ _ _ N5) as (m5 & G5 & E5). destruct (near_value64 _ _ _ N6) as (m6 & G6 & E6).
  destruct (near_value64 _ _ _ N7) as (m7 & G7 & E7). destruct (near_value64 _ _ _ N8) as (m8 & G8 & E8). destruct (near_value64 _ _ _ N9) as (m9 & G9 & E9).
  exists (M3 (V3 m1 m2 m3) (V3 m4 m5 m6) (V3 m7 m8 m9)). split; [repeat split; solve [apply G1|apply G2|apply G3|apply G4|apply G5|apply G6|apply G7|apply G8|apply G9]|].
  eapply Rle_trans; [apply (msub_via _ (av_mat (N := RNum) a1 a2 a3 a4 a5))|]. pose proof (av_lip _ _ _ _ _ _ _ _ _ _ d e D E X0 Y0 Z0 S C C0 DX DY DZ DS DC D1) as LP.
  assert (R : fnorm (msub (M3 (V3 m1 m2 m3) (V3 m4 m5 m6) (V3 m7 m8 m9)) (av_mat (N := RNum) a1 a2 a3 a4 a5)) <= 3 * 14e-16).
  { apply norm_sum9; unfold msub, vsub; cbn [v0 v1 v2 r0 r1 r2]; (eapply Rle_trans; [eassumption|lra]). }
  lra.
Qed.
Definition av_phi {N : Num} (v : vec N) : N := n_sqrt (n_add (n_add (n_mul (v0 v) (v0 v)) (n_mul (v1 v) (v1 v))) (n_mul (v2 v) (v2 v))).
Lemma dav2m_case {N : Num} (v : vec N) b : n_eqb (av_phi v) (n_ofZ 0) = b -> let ph := av_phi v in
  dav2m v = if b then av_mat (v0 v) (v1 v) (v2 v) (n_sin ph) (n_cos ph) else av_mat (n_div (v0 v) ph) (n_div (v1 v) ph) (n_div (v2 v) ph) (n_sin ph) (n_cos ph).
Proof. intros E ph. unfold dav2m. cbv zeta. fold (av_phi v). rewrite E. destruct b; reflexivity. Qed.
Lemma turned_0 n u : turned n 0 u = u.
Proof. unfold turned. rewrite cos_0, sin_0. destruct n as [n1 n2 n3], u as [u1 u2 u3]. geo; apply vec_eq; cbn [v0 v1 v2]; ring. Qed.
Lemma dav2m64 lm k x a : libm_ok lm k -> vec64 x a -> (a = vzero \/ 1e-150 <= norm a) -> norm a <= 1e6 ->
  exists M P, mat64 (dav2m (N := B64 lm) x) M /\ rotation P /\ (forall n t, dot n n = 1 -> 0 <= t -> a = scale t n -> forall u, mapply P u = turned n t u) /\
    fnorm (msub M P) <= 6 * k + (92 + 16 * norm a) * u64.
Proof.
  intros L X NA NB. pose proof (libm_k lm k L) as K. pose proof u64_num as UN. pose proof big150 as B150.
  assert (W : within 1e150 a).
  { apply L_FloatMat.within_norm. eapply Rle_trans; [exact NB|]. replace 1e6 with (1 * IZR (10 ^ 6)) by (cbn; lra). change 1e150 with (1 * IZR (10 ^ 150)). rewrite !Rmult_1_l. apply IZR_le, Z.leb_le. vm_compute. reflexivity. }
  assert (EX : exists M, mat64 (dav2m (N := B64 lm) x) M /\ fnorm (msub M (dav2m (N := RNum) a)) <= 6 * k + (92 + 16 * norm a) * u64).
  2: { destruct EX as (M & FM & EM). exists M, (dav2m (N := RNum) a). split; [exact FM|]. split; [apply dav2m_rotation|]. split; [|exact EM].
       intros n t U T E u. destruct (dav2m_turns a) as (T0 & T1 & _). destruct (Rle_lt_or_eq_dec 0 t T) as [TP|TZ]; [now apply T1|].
       rewrite T0 by (rewrite E, <- TZ; destruct n as [n1 n2 n3]; geo; apply vec_eq; cbn [v0 v1 v2]; ring). rewrite <- TZ, turned_0. apply mapply_ident. }
  pose proof (dvn_modulus lm x a X W) as DM. set (ph := n_sqrt _) in DM.
  assert (F0 : value64 (n_ofZ (n := B64 lm) 0) 0) by (apply (fin_ofZ 53 1024 0); reflexivity).
  destruct NA as [Z|NA].
  - subst a. destruct X as (X0 & X1 & X2). cbn [v0 v1 v2 vzero] in X0, X1, X2.
    assert (T0 : Rabs 0 <= 1e-162) by (rewrite Rabs_R0; change 1e-162 with (1 / IZR (10 ^ 162)); apply Rlt_le, Rdiv_lt_0_compat; [lra|apply IZR_lt; reflexivity]).
    pose proof (fin_0_add 53 1024 _ _ _ (fin_0_add 53 1024 _ _ _ (fin_sq0 _ _ X0 T0) (fin_sq0 _ _ X1 T0)) (fin_sq0 _ _ X2 T0)) as S.
    pose proof (fin_sqrt 53 1024 _ _ S (Rle_refl 0)) as FP. rewrite sqrt_0, rnd_0 in FP.
    assert (Q : n_eqb ph (n_ofZ (n := B64 lm) 0) = true) by (refine (eq_trans (fin_eqb _ _ 0 0 FP F0) _); now apply Req_bool_true).
    assert (E : dav2m (N := B64 lm) x = av_mat (N := B64 lm) (v0 x) (v1 x) (v2 x) (n_sin ph) (n_cos ph)) by exact (dav2m_case (N := B64 lm) x _ Q).
    rewrite E. destruct (trig64 lm k ph 0 L FP) as (s & c & FS & FC & S1 & C1 & DS & DC).
    assert (Z0 : Rabs (0 - 0) <= 0) by (rewrite Rminus_0_r, Rabs_R0; lra). assert (Z1 : Rabs 0 <= 1) by (rewrite Rabs_R0; lra).
    destruct (av_finish lm _ _ _ _ _ _ _ _ _ _ 0 0 0 (sin 0) (cos 0) 0 k X0 X1 X2 FS FC (Rle_refl 0) K Z1 Z1 Z1 S1 C1 (cos_abs1 0) Z0 Z0 Z0 DS DC ltac:(lra)) as (M & FM & EM).
    exists M. split; [exact FM|]. rewrite dav2m_zero. replace mident with (av_mat (N := RNum) 0 0 0 (sin 0) (cos 0)).
    + rewrite norm_vzero, UN. lra.
    + unfold av_mat, mident. unR. cbv zeta. rewrite sin_0, cos_0. f_equal; apply vec_eq; cbn [v0 v1 v2]; ring.
  - destruct (dvn64 lm x a X W NA) as (m & n & FM & (N0 & N1 & N2) & EM & EN & _). rewrite DM in FM.
    assert (NP : 0 < norm a) by (eapply Rlt_le_trans; [|exact NA]; change 1e-150 with (1 / IZR (10 ^ 150)); apply Rdiv_lt_0_compat; [lra|apply IZR_lt; reflexivity]).
    assert (MP : 0 < m) by (apply Rabs_le_inv in EM; rewrite UN in EM; lra).
    assert (Q : n_eqb ph (n_ofZ (n := B64 lm) 0) = false) by (refine (eq_trans (fin_eqb _ _ m 0 FM F0) _); apply Req_bool_false; lra).
    assert (Q' : n_leb ph (n_ofZ (n := B64 lm) 0) = false) by (refine (eq_trans (fin_leb 53 1024 _ _ m 0 FM F0) _); apply Rle_bool_false; lra).
    unfold dvn in N0, N1, N2, DM. cbv zeta in N0, N1, N2, DM. cbn [fst snd v0 v1 v2] in N0, N1, N2, DM. rewrite DM, Q' in N0, N1, N2.
    assert (E : dav2m (N := B64 lm) x = av_mat (N := B64 lm) (n_div (v0 x : B64 lm) ph) (n_div (v1 x : B64 lm) ph) (n_div (v2 x : B64 lm) ph) (n_sin ph) (n_cos ph)) by exact (dav2m_case (N := B64 lm) x _ Q).
    rewrite E. destruct (trig64 lm k ph m L FM) as (s & c & FS & FC & S1 & C1 & DS & DC).
    assert (AZ : a <> vzero) by (intros ->; rewrite norm_vzero in NP; lra). destruct (unit_axis_spec a AZ) as (U & _).
    rewrite (dav2m_axis a AZ). cbv zeta. change (scale (/ norm a) a) with (unit_axis a) in EN. set (b := unit_axis a) in *.
    assert (B1 : norm b = 1) by (unfold norm; rewrite U; apply sqrt_1).
    assert (CO : forall w : RV, Rabs (v0 w) <= norm w /\ Rabs (v1 w) <= norm w /\ Rabs (v2 w) <= norm w).
    { intros w. unfold norm, dot. repeat split; rewrite <- (sqrt_Rsqr_abs (_ w)); apply sqrt_le_1_alt; unfold Rsqr; nra. }
    destruct (CO b) as (Y0 & Y1 & Y2). rewrite B1 in Y0, Y1, Y2. destruct (CO (vsub n b)) as (V0 & V1 & V2). unfold vsub in V0, V1, V2. cbn [v0 v1 v2] in V0, V1, V2. fold (vsub n b) in V0, V1, V2.
    set (d := 3.53 * u64) in *. set (e := k + 2.51 * u64 * norm a).
    assert (DS' : Rabs (s - sin (norm a)) <= e) by (pose proof (L_Trig.sin_lip m (norm a)) as H; replace (s - sin (norm a)) with ((s - sin m) + (sin m - sin (norm a))) by ring; eapply Rle_trans; [apply Rabs_triang|]; unfold e; lra).
    assert (DC' : Rabs (c - cos (norm a)) <= e) by (pose proof (L_Trig.cos_lip m (norm a)) as H; replace (c - cos (norm a)) with ((c - cos m) + (cos m - cos (norm a))) by ring; eapply Rle_trans; [apply Rabs_triang|]; unfold e; lra).
    destruct (av_finish lm _ _ _ _ _ _ _ _ _ _ (v0 b) (v1 b) (v2 b) (sin (norm a)) (cos (norm a)) d e N0 N1 N2 FS FC) as (M & GM & EE); try assumption; try (apply cos_abs1); try lra.
    { unfold d. rewrite UN. lra. }
    { unfold e. rewrite UN. nra. }
    { unfold d. rewrite UN. lra. }
    exists M. split; [exact GM|]. eapply Rle_trans; [exact EE|]. unfold d, e. rewrite UN. lra.
Qed.
