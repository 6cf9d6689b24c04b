(** Radial velocity components in binary64. *)
From Coq Require Import ZArith Reals Bool List Lia Lra Psatz.
From Flocq Require Import Core BinarySingleNaN.
From Verif Require Import Int32 Num NumB NumR M_Angle M_Vec M_Sphere M_Site S_Geom S_Sphere S_Frame S_Site S_Binary S_Float S_FloatSph L_Bin L_Flt L_Float.
From Verif Require Import L_Real L_Vec L_Site L_FloatVec L_FloatSph L_Err L_ErrT L_FloatLand L_FloatHor.
Import ListNotations.
Open Scope R_scope.

(** A constant vector times the direction formed from sines and cosines. *)
Definition proj {N : Num} (c : vec N) (sa ca sb cb : N) : N := dvdv c (V3 (n_mul ca cb) (n_mul sa cb) sb).
Definition env4 : list item := [unit_it; unit_it; unit_it; unit_it].
Definition gal_c {N : Num} : vec N := V3 (n_lit (-10870408) (-5)) (n_lit 9786251 (-5)) (n_lit (-16433610) (-5)).
Definition lg_c {N : Num} : vec N := V3 (n_lit (-14823284) (-5)) (n_lit 13344888 (-5)) (n_lit (-22409467) (-5)).
Definition lsrd_c {N : Num} : vec N := V3 (n_lit 63823 (-5)) (n_lit 1458542 (-5)) (n_lit (-780116) (-5)).
Definition lsrk_c {N : Num} : vec N := V3 (n_lit (-29000) (-5)) (n_lit 1731726 (-5)) (n_lit (-1000141) (-5)).
Lemma proj64 lm (x1 x2 x3 x4 : double) a1 a2 a3 a4 : value64 x1 a1 -> value64 x2 a2 -> value64 x3 a3 -> value64 x4 a4 ->
  Rabs a1 <= 1 -> Rabs a2 <= 1 -> Rabs a3 <= 1 -> Rabs a4 <= 1 ->
  near 53 1024 (proj (N := B64 lm) gal_c x1 x2 x3 x4) (proj (N := RNum) gal_c a1 a2 a3 a4) 1e-12 /\
  near 53 1024 (proj (N := B64 lm) lg_c x1 x2 x3 x4) (proj (N := RNum) lg_c a1 a2 a3 a4) 1e-12 /\
  near 53 1024 (proj (N := B64 lm) lsrd_c x1 x2 x3 x4) (proj (N := RNum) lsrd_c a1 a2 a3 a4) 1e-12 /\
  near 53 1024 (proj (N := B64 lm) lsrk_c x1 x2 x3 x4) (proj (N := RNum) lsrk_c a1 a2 a3 a4) 1e-12.
Proof.
  intros X1 X2 X3 X4 A1 A2 A3 A4.
  assert (OK : okenv env4 [x1; x2; x3; x4] [a1; a2; a3; a4]).
  { unfold env4. do 4 (split; [apply okk_unit; assumption|]). exact Logic.I. }
  unfold proj, dvdv, gal_c, lg_c, lsrd_c, lsrk_c. cbn [v0 v1 v2]. split; [|split; [|split]]; err0 lm env4 [x1; x2; x3; x4] [a1; a2; a3; a4] OK.
Qed.
Lemma proj_lip k (c : vec R) a1 a2 a3 a4 b1 b2 b3 b4 m : 0 <= k -> Rabs a4 <= 1 -> Rabs b1 <= 1 -> Rabs b2 <= 1 ->
  Rabs (a1 - b1) <= k -> Rabs (a2 - b2) <= k -> Rabs (a3 - b3) <= k -> Rabs (a4 - b4) <= k -> 2 * Rabs (v0 c) + 2 * Rabs (v1 c) + Rabs (v2 c) <= m ->
  Rabs (proj (N := RNum) c a1 a2 a3 a4 - proj (N := RNum) c b1 b2 b3 b4) <= m * k.
Proof.
  intros K A4 B1 B2 D1 D2 D3 D4 M. pose proof (prod_err a2 a4 b2 b4 k A4 B2 D2 D4) as P. pose proof (prod_err a1 a4 b1 b4 k A4 B1 D1 D4) as Q.
  change (Rabs (v0 c * (a2 * a4) + v1 c * (a1 * a4) + v2 c * a3 - (v0 c * (b2 * b4) + v1 c * (b1 * b4) + v2 c * b3)) <= m * k).
  replace (v0 c * (a2 * a4) + v1 c * (a1 * a4) + v2 c * a3 - (v0 c * (b2 * b4) + v1 c * (b1 * b4) + v2 c * b3))
    with (v0 c * (a2 * a4 - b2 * b4) + v1 c * (a1 * a4 - b1 * b4) + v2 c * (a3 - b3)) by ring.
  eapply Rle_trans; [apply Rabs_triang|]. eapply Rle_trans; [apply Rplus_le_compat_r, Rabs_triang|]. rewrite !Rabs_mult.
  pose proof (Rabs_pos (v0 c)). pose proof (Rabs_pos (v1 c)). pose proof (Rabs_pos (v2 c)). nra.
Qed.
Lemma rv64 lm k p a b : libm_ok lm k -> angles64 p a b -> let u := direction a b in exists t1 t2 t3 t4,
  (value64 (rvgalc (N := B64 lm) p) t1 /\ Rabs (t1 - receding (galactic_vector 0 220 0) u) <= 3e-4 + 580 * k) /\
  (value64 (rvlg (N := B64 lm) p) t2 /\ Rabs (t2 - receding (galactic_vector 0 300 0) u) <= 3e-4 + 790 * k) /\
  (value64 (rvlsrd (N := B64 lm) p) t3 /\ Rabs (t3 - receding (galactic_vector 9 12 7) u) <= 3e-4 + 40 * k) /\
  (value64 (rvlsrk (N := B64 lm) p) t4 /\ Rabs (t4 - receding (scale 20 standard_apex) u) <= 3e-4 + 47 * k).
Proof.
  intros L P u. destruct (angles_Sph p a b P) as (x & y & -> & X & Y). pose proof (libm_k lm k L) as K.
  destruct (trig64 lm k x a L X) as (sa & ca & F1 & F2 & A1 & A2 & D1 & D2).
  destruct (trig64 lm k y b L Y) as (sb & cb & F3 & F4 & A3 & A4 & D3 & D4).
  destruct (proj64 lm _ _ _ _ _ _ _ _ F1 F2 F3 F4 A1 A2 A3 A4) as (N1 & N2 & N3 & N4).
  assert (PL : forall c m, 2 * Rabs (v0 c) + 2 * Rabs (v1 c) + Rabs (v2 c) <= m ->
    Rabs (proj (N := RNum) c sa ca sb cb - proj (N := RNum) c (sin a) (cos a) (sin b) (cos b)) <= m * k)
    by (intros c m M; exact (proj_lip k c sa ca sb cb (sin a) (cos a) (sin b) (cos b) m K A4 (sin_abs1 _) (cos_abs1 _) D1 D2 D3 D4 M)).
  set (q := Sph (N := RNum) a b).
  assert (FIN : forall (z : double) r s m, near 53 1024 z r 1e-12 -> Rabs (r - s) <= m * k -> forall w, Rabs (s - w) <= 2e-4 -> exists t, value64 z t /\ Rabs (t - w) <= 3e-4 + m * k).
  { intros z r s m (t & F & E) D w W. exists t. split; [exact F|]. replace (t - w) with ((t - r) + (r - s) + (s - w)) by ring. eapply Rle_trans; [apply Rabs_triang|]. eapply Rle_trans; [apply Rplus_le_compat_r, Rabs_triang|]. lra. }
  assert (G1 : 2 * Rabs (v0 (gal_c (N := RNum))) + 2 * Rabs (v1 (gal_c (N := RNum))) + Rabs (v2 (gal_c (N := RNum))) <= 580) by (unfold gal_c; cbn; unfold Rabs; repeat destruct Rcase_abs; lra).
  assert (G2 : 2 * Rabs (v0 (lg_c (N := RNum))) + 2 * Rabs (v1 (lg_c (N := RNum))) + Rabs (v2 (lg_c (N := RNum))) <= 790) by (unfold lg_c; cbn; unfold Rabs; repeat destruct Rcase_abs; lra).
  assert (G3 : 2 * Rabs (v0 (lsrd_c (N := RNum))) + 2 * Rabs (v1 (lsrd_c (N := RNum))) + Rabs (v2 (lsrd_c (N := RNum))) <= 40) by (unfold lsrd_c; cbn; unfold Rabs; repeat destruct Rcase_abs; lra).
  assert (G4 : 2 * Rabs (v0 (lsrk_c (N := RNum))) + 2 * Rabs (v1 (lsrk_c (N := RNum))) + Rabs (v2 (lsrk_c (N := RNum))) <= 47) by (unfold lsrk_c; cbn; unfold Rabs; repeat destruct Rcase_abs; lra).
  destruct (FIN _ _ _ _ N1 (PL _ _ G1) _ (rvgalc_spec q)) as (t1 & V1 & E1).
  destruct (FIN _ _ _ _ N2 (PL _ _ G2) _ (rvlg_spec q)) as (t2 & V2 & E2).
  destruct (FIN _ _ _ _ N3 (PL _ _ G3) _ (rvlsrd_spec q)) as (t3 & V3' & E3).
  destruct (FIN _ _ _ _ N4 (PL _ _ G4) _ (rvlsrk_spec q)) as (t4 & V4 & E4).
  exists t1, t2, t3, t4. repeat split; assumption || (apply V1 || apply V2 || apply V3' || apply V4).
Qed.
(** rverot *)
Definition rot4 {N : Num} (cp sd cb : N) : N := n_mul (n_mul (n_mul (n_lit 4655 (-4)) cp) sd) cb.
Lemma rot64 lm (x1 x2 x3 : double) a1 a2 a3 : value64 x1 a1 -> value64 x2 a2 -> value64 x3 a3 -> Rabs a1 <= 1 -> Rabs a2 <= 1 -> Rabs a3 <= 1 ->
  near 53 1024 (rot4 (N := B64 lm) x1 x2 x3) (rot4 (N := RNum) a1 a2 a3) 30e-17.
Proof.
  intros X1 X2 X3 A1 A2 A3.
  assert (OK : okenv [unit_it; unit_it; unit_it] [x1; x2; x3] [a1; a2; a3]) by (do 3 (split; [apply okk_unit; assumption|]); exact Logic.I).
  unfold rot4. err0 lm [unit_it; unit_it; unit_it] [x1; x2; x3] [a1; a2; a3] OK.
Qed.
Lemma rverot64 lm k p (z w : double) a b phi st : libm_ok lm k -> angles64 p a b -> value64 z phi -> value64 w st -> Rabs a <= 8 -> Rabs st <= 8 ->
  exists t, value64 (rverot (N := B64 lm) z p w) t /\ Rabs (t - receding (scale (0.4655 * cos phi) (east st)) (direction a b)) <= 1.4 * k + 7 * u64.
Proof.
  intros L P Z W RA RS. destruct (angles_Sph p a b P) as (x & y & -> & X & Y). pose proof (libm_k lm k L) as K. pose proof u64_num as U.
  destruct (diff8 lm w x st a W X RS RA) as (dd & FD & ED).
  destruct (trig64 lm k z phi L Z) as (sp & cp & _ & F1 & _ & A1 & _ & D1).
  destruct (trig64 lm k y b L Y) as (sb & cb & _ & F2 & _ & A2 & _ & D2).
  destruct (trig64 lm k _ dd L FD) as (sd & cd & F3 & _ & A3 & _ & D3 & _).
  destruct (rot64 lm _ _ _ _ _ _ F1 F3 F2 A1 A3 A2) as (t & FT & ET). exists t. split; [exact FT|].
  assert (D3' : Rabs (sd - sin (st - a)) <= k + 8 * u64).
  { replace (sd - sin (st - a)) with ((sd - sin dd) + (sin dd - sin (st - a))) by ring. eapply Rle_trans; [apply Rabs_triang|]. pose proof (sin_lip dd (st - a)). lra. }
  pose proof (prod_err2 cp sd (cos phi) (sin (st - a)) _ _ A3 (cos_abs1 _) D1 D3') as E1.
  pose proof (prod_err2 _ cb _ (cos b) _ _ A2 (mul_abs1 _ _ (cos_abs1 phi) (sin_abs1 (st - a))) E1 D2) as E2.
  assert (S : rverot (N := RNum) phi (Sph (N := RNum) a b) st = receding (scale (0.4655 * cos phi) (east st)) (direction a b)) by exact (rverot_spec phi (Sph (N := RNum) a b) st). rewrite <- S.
  change (rverot (N := RNum) phi (Sph (N := RNum) a b) st) with (rot4 (N := RNum) (cos phi) (sin (st - a)) (cos b)).
  assert (R4 : forall p q r, rot4 (N := RNum) p q r = 0.4655 * (p * q * r)) by (intros; unfold rot4; cbn; lra).
  rewrite R4 in *. set (m := cp * sd * cb) in *. set (n := cos phi * sin (st - a) * cos b) in *.
  replace (t - 0.4655 * n) with ((t - 0.4655 * m) + 0.4655 * (m - n)) by ring. eapply Rle_trans; [apply Rabs_triang|]. rewrite (Rabs_mult 0.4655), (Rabs_pos_eq 0.4655) by lra. rewrite U in *. lra.
Qed.
