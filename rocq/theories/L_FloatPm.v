(** Proper motion in binary64. *)
From Coq Require Import ZArith Reals Bool List Lia Lra Psatz.
From Flocq Require Import Core BinarySingleNaN.
From Coquelicot Require Import Coquelicot.
From Verif Require Import Int32 Num NumB NumR M_Angle M_Vec M_Sphere M_Site S_Geom S_Sphere S_Frame S_Site S_Binary S_Float S_FloatSph L_Bin L_Flt L_Float.
From Verif Require Import L_Real L_Frame L_Vec L_Site L_FloatVec L_FloatMat L_FltGeo L_FloatSph L_Err L_ErrT L_FloatLand L_FloatFrame L_FloatHor L_FloatEt.
Import ListNotations.
Open Scope R_scope.

(** The moved vector, from the sines and cosines and the interval. *)
Definition pm_w {N : Num} (rv px : N) : N := n_mul (n_mul (n_mul (n_div (n_mul (n_lit 36525 (-2)) (n_ofZ 86400)) (n_ofZ 149597870)) (n_lit 48481368111 (-16))) rv) px.
Definition pm_vec {N : Num} (sa ca sb cb ma mb rv px t : N) : vec N :=
  let x := n_mul ca cb in let y := n_mul sa cb in let w := pm_w rv px in
  V3 (n_add x (n_mul t (n_add (n_sub (n_mul (n_opp ma) y) (n_mul (n_mul mb ca) sb)) (n_mul w x))))
     (n_add y (n_mul t (n_add (n_sub (n_mul ma x) (n_mul (n_mul mb sa) sb)) (n_mul w y))))
     (n_add sb (n_mul t (n_add (n_mul mb cb) (n_mul w sb)))).
Lemma pm_pm_vec {N : Num} (a b ma mb px rv e0 e1 : N) : pm (Sph (N := N) a b) (Sph (N := N) ma mb) px rv e0 e1 =
  let r := dcc2s (pm_vec (n_sin a) (n_cos a) (n_sin b) (n_cos b) ma mb rv px (n_sub e1 e0)) in Sph (N := N) (dranrm (s_a r)) (s_b r).
Proof. reflexivity. Qed.
Definition m_it : item := It (- (Sc / 4999)) (Sc / 4999) 0.
Definition rv_it : item := It (- (500 * Sc)) (500 * Sc) 0.
Definition t_it : item := It (- (101 * Sc)) (101 * Sc) 0.
Definition pm_env : list item := [unit_it; unit_it; unit_it; unit_it; m_it; m_it; rv_it; unit_it; t_it].
Lemma okk_m (x : double) a : value64 x a -> Rabs a <= 2e-4 -> okk m_it x a.
Proof. intros X A. apply (okk_sym x a _ _ X A). pose proof (V_frac 4999 ltac:(lia)) as F. lra. Qed.
Lemma pm_vec64 lm (x1 x2 x3 x4 x5 x6 x7 x8 x9 : double) a1 a2 a3 a4 a5 a6 a7 a8 a9 :
  value64 x1 a1 -> value64 x2 a2 -> value64 x3 a3 -> value64 x4 a4 -> value64 x5 a5 -> value64 x6 a6 -> value64 x7 a7 -> value64 x8 a8 -> value64 x9 a9 ->
  Rabs a1 <= 1 -> Rabs a2 <= 1 -> Rabs a3 <= 1 -> Rabs a4 <= 1 -> Rabs a5 <= 2e-4 -> Rabs a6 <= 2e-4 -> Rabs a7 <= 500 -> Rabs a8 <= 1 -> Rabs a9 <= 101 ->
  let x := pm_vec (N := B64 lm) x1 x2 x3 x4 x5 x6 x7 x8 x9 in let a := pm_vec (N := RNum) a1 a2 a3 a4 a5 a6 a7 a8 a9 in
  near 53 1024 (v0 x) (v0 a) 40e-17 /\ near 53 1024 (v1 x) (v1 a) 40e-17 /\ near 53 1024 (v2 x) (v2 a) 30e-17.
Proof.
  intros X1 X2 X3 X4 X5 X6 X7 X8 X9 A1 A2 A3 A4 A5 A6 A7 A8 A9 x a.
  assert (OK : okenv pm_env [x1; x2; x3; x4; x5; x6; x7; x8; x9] [a1; a2; a3; a4; a5; a6; a7; a8; a9]).
  { unfold pm_env. do 4 (split; [now apply okk_unit|]). do 2 (split; [now apply okk_m|]). split; [apply (okk_sym x7 a7 _ _ X7 A7); rewrite V_Sc; lra|]. split; [now apply okk_unit|].
    split; [apply (okk_sym x9 a9 _ _ X9 A9); rewrite V_Sc; lra|]. exact Logic.I. }
  unfold x, a, pm_vec, pm_w. cbv zeta. cbn [v0 v1 v2].
  split; [|split]; err0 lm pm_env [x1; x2; x3; x4; x5; x6; x7; x8; x9] [a1; a2; a3; a4; a5; a6; a7; a8; a9] OK.
Qed.

(** ** Against the exact displacement *)
Lemma pm_w_R rv px : pm_w (N := RNum) rv px = km_s_arcsec * rv * px.
Proof.
  unfold pm_w, km_s_arcsec. cbn [n_mul n_div n_lit n_ofZ RNum]. replace (Rdec 36525 (-2)) with 365.25 by (decs; field). replace (Rdec 48481368111 (-16)) with 0.0000048481368111 by (decs; field). reflexivity.
Qed.
Lemma pm_w_small rv px : Rabs rv <= 500 -> Rabs px <= 1 -> Rabs (km_s_arcsec * rv * px) <= 5.12e-4.
Proof.
  intros A B. rewrite !Rabs_mult. assert (K : 0 <= km_s_arcsec <= 1.0229e-6) by (unfold km_s_arcsec; lra). rewrite (Rabs_pos_eq km_s_arcsec) by lra.
  pose proof (Rabs_pos rv). pose proof (Rabs_pos px). assert (km_s_arcsec * Rabs rv <= 1.0229e-6 * 500) by nra. assert (0 <= km_s_arcsec * Rabs rv) by nra. nra.
Qed.
Lemma term_lip m p q d : Rabs (p - q) <= d -> Rabs (m * p - m * q) <= Rabs m * d.
Proof. intros D. replace (m * p - m * q) with (m * (p - q)) by ring. rewrite Rabs_mult. apply Rmult_le_compat_l; [apply Rabs_pos|exact D]. Qed.
Definition pm_R (sa ca sb cb ma mb w t : R) : RV :=
  V3 (ca * cb + t * (- ma * (sa * cb) - mb * ca * sb + w * (ca * cb))) (sa * cb + t * (ma * (ca * cb) - mb * sa * sb + w * (sa * cb))) (sb + t * (mb * cb + w * sb)).
Lemma pm_vec_R sa ca sb cb ma mb rv px t : pm_vec (N := RNum) sa ca sb cb ma mb rv px t = pm_R sa ca sb cb ma mb (km_s_arcsec * rv * px) t.
Proof. unfold pm_vec. rewrite pm_w_R. reflexivity. Qed.
(** One component: a product plus the interval times three products. *)
Lemma comp_lip k p q r s p0 q0 r0 s0 ma mb w t t0 e : 0 <= k -> 0 <= e -> Rabs ma <= 2e-4 -> Rabs mb <= 2e-4 -> Rabs w <= 5.12e-4 -> Rabs t <= 101 ->
  Rabs q0 <= 1 -> Rabs r0 <= 1 -> Rabs s0 <= 1 ->
  Rabs (p - p0) <= 2 * k -> Rabs (q - q0) <= 2 * k -> Rabs (r - r0) <= 2 * k -> Rabs (s - s0) <= 2 * k -> Rabs (t - t0) <= e ->
  Rabs (p + t * (ma * q - mb * r + w * s) - (p0 + t0 * (ma * q0 - mb * r0 + w * s0))) <= 2.19 * k + 0.001 * e.
Proof.
  intros K E MA MB W T Q R S DP DQ DR DS DT.
  set (A := ma * q - mb * r + w * s). set (B := ma * q0 - mb * r0 + w * s0).
  assert (AB : Rabs (A - B) <= 1.824e-3 * k).
  { unfold A, B. replace (ma * q - mb * r + w * s - (ma * q0 - mb * r0 + w * s0)) with (ma * (q - q0) + - (mb * (r - r0)) + w * (s - s0)) by ring.
    eapply Rle_trans; [apply Rabs_triang|]. eapply Rle_trans; [apply Rplus_le_compat_r, Rabs_triang|]. rewrite Rabs_Ropp, !Rabs_mult.
    pose proof (Rmult_le_compat _ _ _ _ (Rabs_pos ma) (Rabs_pos _) MA DQ). pose proof (Rmult_le_compat _ _ _ _ (Rabs_pos mb) (Rabs_pos _) MB DR). pose proof (Rmult_le_compat _ _ _ _ (Rabs_pos w) (Rabs_pos _) W DS). lra. }
  assert (BB : Rabs B <= 0.001).
  { unfold B. replace (ma * q0 - mb * r0 + w * s0) with (ma * q0 + - (mb * r0) + w * s0) by ring.
    eapply Rle_trans; [apply Rabs_triang|]. eapply Rle_trans; [apply Rplus_le_compat_r, Rabs_triang|]. rewrite Rabs_Ropp, !Rabs_mult.
    pose proof (Rmult_le_compat _ _ _ _ (Rabs_pos ma) (Rabs_pos _) MA Q). pose proof (Rmult_le_compat _ _ _ _ (Rabs_pos mb) (Rabs_pos _) MB R). pose proof (Rmult_le_compat _ _ _ _ (Rabs_pos w) (Rabs_pos _) W S). lra. }
  replace (p + t * A - (p0 + t0 * B)) with ((p - p0) + t * (A - B) + (t - t0) * B) by ring.
  eapply Rle_trans; [apply Rabs_triang|]. eapply Rle_trans; [apply Rplus_le_compat_r, Rabs_triang|]. rewrite !Rabs_mult.
  pose proof (Rmult_le_compat _ _ _ _ (Rabs_pos t) (Rabs_pos _) T AB). pose proof (Rmult_le_compat _ _ _ _ (Rabs_pos _) (Rabs_pos _) DT BB). lra.
Qed.
(** The rate of change of the direction. *)
Definition pm_d (a b ma mb : R) : RV :=
  V3 (- ma * (sin a * cos b) - mb * cos a * sin b) (ma * (cos a * cos b) - mb * sin a * sin b) (mb * cos b).
Lemma pm_d_norm a b ma mb : Rabs ma <= 2e-4 -> Rabs mb <= 2e-4 -> norm (pm_d a b ma mb) <= 2.83e-4.
Proof.
  intros A B. unfold norm. rewrite <- (sqrt_square 2.83e-4) by lra. apply sqrt_le_1_alt.
  replace (dot (pm_d a b ma mb) (pm_d a b ma mb)) with (ma * ma * (cos b * cos b) * (sin a * sin a + cos a * cos a) + mb * mb * (sin b * sin b * (sin a * sin a + cos a * cos a) + cos b * cos b))
    by (unfold pm_d, dot; cbn [v0 v1 v2]; ring).
  rewrite (sc1 a), !Rmult_1_r, (sc1 b). apply Rabs_le_inv in A. apply Rabs_le_inv in B. pose proof (COS_bound b). assert (cos b * cos b <= 1) by nra. assert (ma * ma <= 4e-8) by nra. assert (mb * mb <= 4e-8) by nra. nra.
Qed.
Lemma pm_R_dir a b ma mb w t : pm_R (sin a) (cos a) (sin b) (cos b) ma mb w t = vadd (direction a b) (scale t (vadd (pm_d a b ma mb) (scale w (direction a b)))).
Proof. unfold pm_R, pm_d, direction, vadd, scale. cbn [v0 v1 v2]. f_equal; ring. Qed.
Lemma pm_d_rate a b ma mb : let D t := direction (a + ma * t) (b + mb * t) in let d := pm_d a b ma mb in
  derivable_pt_lim (fun t => v0 (D t)) 0 (v0 d) /\ derivable_pt_lim (fun t => v1 (D t)) 0 (v1 d) /\ derivable_pt_lim (fun t => v2 (D t)) 0 (v2 d).
Proof. intros D d. unfold D, d, pm_d, direction; cbn [v0 v1 v2]. split; [|split]; apply is_derive_Reals; auto_derive; try trivial; rewrite !Rmult_0_r, !Rplus_0_r; ring. Qed.
Lemma diff_rel lm (x y : double) a b : value64 x a -> value64 y b -> Rabs (a - b) <= 100 ->
  exists d, value64 (n_sub (x : B64 lm) (y : B64 lm)) d /\ Rabs (d - (a - b)) <= 101 * u64.
Proof.
  intros X Y A. pose proof Hh64. destruct (L_Flt.near_sub 53 1024 x y a b 0 0 100 (L_Flt.near_fin _ _ _ _ X) (L_Flt.near_fin _ _ _ _ Y) A) as (d & FD & ED); [lra|].
  exists d. split; [exact FD|]. pose proof eta64. eapply Rle_trans; [exact ED|]. rewrite u64_eq, u64_num. assert (1e-323 <= 1e-30) by (change 1e-30 with (1 / IZR (10 ^ 30)); change 1e-323 with (1 / IZR (10 ^ 323)); apply inv_le; [reflexivity|vm_compute; reflexivity]). lra.
Qed.
Lemma pm64 lm k s m (z r x0 x1 : double) a b ma mb px rv ep0 ep1 : libm_ok lm k -> k <= 1e-6 -> angles64 s a b -> angles64 m ma mb ->
  value64 z px -> value64 r rv -> value64 x0 ep0 -> value64 x1 ep1 -> Rabs ma <= 2e-4 -> Rabs mb <= 2e-4 -> Rabs px <= 1 -> Rabs rv <= 500 -> Rabs (ep1 - ep0) <= 100 ->
  let D t := direction (a + ma * t) (b + mb * t) in
  exists d : RV, (derivable_pt_lim (fun t => v0 (D t)) 0 (v0 d) /\ derivable_pt_lim (fun t => v1 (D t)) 0 (v1 d) /\ derivable_pt_lim (fun t => v2 (D t)) 0 (v2 d)) /\
  let u := direction a b in
  lands k (pm (N := B64 lm) s m z r x0 x1) (unit_of (vadd u (scale (ep1 - ep0) (vadd d (scale (km_s_arcsec * rv * px) u))))) (8.3 * k + 16 * u64).
Proof.
  intros L K S M Z R X0 X1 MA MB PX RV DT D. pose proof (libm_k lm k L) as K0. exists (pm_d a b ma mb). split; [apply pm_d_rate|]. intros u. unfold u. clear u.
  destruct (angles_Sph s a b S) as (x & y & -> & X & Y). destruct (angles_Sph m ma mb M) as (mx & my & -> & MX & MY).
  rewrite pm_pm_vec. cbv zeta.
  destruct (trig64 lm k x a L X) as (sa & ca & FSA & FCA & SA & CA & DSA & DCA). destruct (trig64 lm k y b L Y) as (sb & cb & FSB & FCB & SB & CB & DSB & DCB).
  destruct (diff_rel lm x1 x0 ep1 ep0 X1 X0 DT) as (t & FT & ET). pose proof u64_num as U.
  assert (T : Rabs t <= 101) by (apply Rabs_le_inv in DT; apply Rabs_le_inv in ET; apply Rabs_le; rewrite U in *; lra).
  destruct (pm_vec64 lm _ _ _ _ _ _ _ _ _ _ _ _ _ _ _ _ _ _ FSA FCA FSB FCB MX MY R Z FT SA CA SB CB MA MB RV PX T) as ((w0 & F0 & E0) & (w1 & F1 & E1) & (w2 & F2 & E2)).
  rewrite pm_vec_R in E0, E1, E2. pose proof (pm_w_small rv px RV PX) as W. set (w := km_s_arcsec * rv * px) in *.
  rewrite <- pm_R_dir. set (G := pm_R (sin a) (cos a) (sin b) (cos b) ma mb w (ep1 - ep0)).
  pose proof (mul_abs1 _ _ (sin_abs1 a) (cos_abs1 b)) as B1. pose proof (mul_abs1 _ _ (cos_abs1 a) (cos_abs1 b)) as B2.
  pose proof (mul_abs1 _ _ (sin_abs1 a) (sin_abs1 b)) as B3. pose proof (mul_abs1 _ _ (cos_abs1 a) (sin_abs1 b)) as B4.
  pose proof (prod_err sa cb (sin a) (cos b) k CB (sin_abs1 a) DSA DCB) as P1. pose proof (prod_err ca cb (cos a) (cos b) k CB (cos_abs1 a) DCA DCB) as P2.
  pose proof (prod_err sa sb (sin a) (sin b) k SB (sin_abs1 a) DSA DSB) as P3. pose proof (prod_err ca sb (cos a) (sin b) k SB (cos_abs1 a) DCA DSB) as P4.
  assert (E100 : 0 <= 101 * u64) by (rewrite U; lra).
  assert (MA' : Rabs (- ma) <= 2e-4) by now rewrite Rabs_Ropp.
  pose proof (comp_lip k _ _ _ _ _ _ _ _ (- ma) mb w t (ep1 - ep0) _ K0 E100 MA' MB W T B1 B4 B2 P2 P1 P4 P2 ET) as C0.
  pose proof (comp_lip k _ _ _ _ _ _ _ _ ma mb w t (ep1 - ep0) _ K0 E100 MA MB W T B2 B3 B1 P1 P2 P3 P1 ET) as C1.
  assert (Z0 : Rabs 0 <= 2e-4) by (rewrite Rabs_R0; lra). assert (Z1 : Rabs 0 <= 1) by (rewrite Rabs_R0; lra). assert (Z2 : Rabs (0 - 0) <= 2 * k) by (rewrite Rminus_0_r, Rabs_R0; lra).
  pose proof (comp_lip k sb cb 0 sb (sin b) (cos b) 0 (sin b) mb 0 w t (ep1 - ep0) _ K0 E100 MB Z0 W T (cos_abs1 b) Z1 (sin_abs1 b) ltac:(lra) ltac:(lra) Z2 ltac:(lra) ET) as C2.
  assert (BY : by64 (pm_vec (N := B64 lm) (n_sin (x : B64 lm)) (n_cos (x : B64 lm)) (n_sin (y : B64 lm)) (n_cos (y : B64 lm)) mx my r z (n_sub (x1 : B64 lm) (x0 : B64 lm))) G (3.8 * k + 6.1 * u64)).
  { exists (V3 w0 w1 w2). split; [split; [exact F0|split; [exact F1|exact F2]]|].
    pose proof (vsub_via (V3 w0 w1 w2) (pm_R sa ca sb cb ma mb w t) G) as VV.
    assert (H1 : norm (vsub (V3 w0 w1 w2) (pm_R sa ca sb cb ma mb w t)) <= 65e-17) by (apply (norm3 _ 40e-17 40e-17 30e-17); [exact E0|exact E1|exact E2|lra|lra]).
    assert (H2 : norm (vsub (pm_R sa ca sb cb ma mb w t) G) <= 1.7321 * (2.19 * k + 0.001 * (101 * u64))).
    { set (e := 2.19 * k + 0.001 * (101 * u64)) in *. assert (0 <= e) by (unfold e; lra). apply (norm3 _ e e e); [| | |nra|lra]; unfold G, pm_R, vsub; cbn [v0 v1 v2].
      - revert C0. match goal with |- Rabs ?p <= _ -> Rabs ?q <= _ => replace q with p by ring end. exact (fun h => h).
      - revert C1. match goal with |- Rabs ?p <= _ -> Rabs ?q <= _ => replace q with p by ring end. exact (fun h => h).
      - revert C2. match goal with |- Rabs ?p <= _ -> Rabs ?q <= _ => replace q with p by ring end. exact (fun h => h). }
    rewrite U in *. lra. }
  assert (NG : 0.92 <= norm G <= 1.08).
  { unfold G. rewrite pm_R_dir. pose proof (pm_d_norm a b ma mb MA MB) as ND. set (q := vadd (pm_d a b ma mb) (scale w (direction a b))).
    assert (NQ : norm q <= 7.95e-4) by (unfold q; eapply Rle_trans; [apply norm_triangle|]; rewrite norm_scale_abs, norm_direction; lra).
    assert (NS : norm (scale (ep1 - ep0) q) <= 0.0795) by (rewrite norm_scale_abs; pose proof (Rmult_le_compat _ _ _ _ (Rabs_pos (ep1 - ep0)) (norm_nonneg q) DT NQ); lra).
    pose proof (norm_lip (vadd (direction a b) (scale (ep1 - ep0) q)) (direction a b)) as NL. rewrite norm_direction in NL.
    replace (vsub (vadd (direction a b) (scale (ep1 - ep0) q)) (direction a b)) with (scale (ep1 - ep0) q) in NL by (unfold vsub, vadd, scale; cbn [v0 v1 v2]; f_equal; ring).
    apply Rabs_le_inv in NL. lra. }
  eapply lands_le; [exact (finish_ran lm k _ _ _ L (conj K0 K) BY ltac:(lra) ltac:(rewrite U; lra))|].
  assert (Q : (3.8 * k + 6.1 * u64) / norm G <= 1.087 * (3.8 * k + 6.1 * u64)).
  { apply (Rmult_le_reg_r (norm G)); [lra|]. unfold Rdiv. rewrite Rmult_assoc, Rinv_l by lra. rewrite U. nra. }
  rewrite U in *. lra.
Qed.
