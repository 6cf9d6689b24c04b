(** evp: heliocentric motion in ecliptic coordinates of date. *)
From Coq Require Import Reals ZArith Lra Lia List.
From Coquelicot Require Import Coquelicot.
From Verif Require Import Num NumR L_Pi L_Real M_Vec M_EphTab M_Eph M_EvpTab M_Evp S_Geom S_Eph L_Vec L_Trig L_Frame L_NutDiff L_Eph L_EphB L_EvpA L_EvpB L_EvpC L_EvpD.
Import ListNotations.
Open Scope R_scope.

Definition uS (t : R) : R := siS t * cos (beS t).
Definition uS' (t : R) : R := siS' t * cos (beS t) - siS t * sin (beS t) * beS' t.
Definition hpS (t : R) : RV :=
  V3 (rS t * cos (lS t) - uS t * cos (thS t)) (rS t * sin (lS t) - uS t * sin (thS t)) (- (siS t * sin (beS t))).
Definition hvS (t : R) : RV :=
  V3 (rS' t * cos (lS t) - rS t * lS' t * sin (lS t) - (uS' t * cos (thS t) - uS t * thS' t * sin (thS t)))
     (rS' t * sin (lS t) + rS t * lS' t * cos (lS t) - (uS' t * sin (thS t) + uS t * thS' t * cos (thS t)))
     (- (siS' t * sin (beS t) + siS t * cos (beS t) * beS' t)).

Lemma polar_derive (r l u h : R -> R) t r' l' u' h' : is_derive r t r' -> is_derive l t l' -> is_derive u t u' -> is_derive h t h' ->
  is_derive (fun s => r s * cos (l s) - u s * cos (h s)) t (r' * cos (l t) - r t * l' * sin (l t) - (u' * cos (h t) - u t * h' * sin (h t))) /\
  is_derive (fun s => r s * sin (l s) - u s * sin (h s)) t (r' * sin (l t) + r t * l' * cos (l t) - (u' * sin (h t) + u t * h' * cos (h t))).
Proof.
  intros A B C D. split; (auto_derive; [repeat split; first [exists r'; exact A|exists l'; exact B|exists u'; exact C|exists h'; exact D]|derives; ring]).
Qed.
Lemma hpS_derive t : Rabs t <= 10 -> is_derive (fun s => v0 (hpS s)) t (v0 (hvS t)) /\ is_derive (fun s => v1 (hpS s)) t (v1 (hvS t)) /\
  is_derive (fun s => v2 (hpS s)) t (v2 (hvS t)).
Proof.
  intros T. destruct (polar_derive rS lS uS thS t _ _ _ _ (rS_derive t T) (lS_derive t) (u_derive t) (th_derive t)) as [A B].
  split; [exact A|split; [exact B|apply z_derive]].
Qed.

(** ** The code *)
Section Helio.
Context (t : R) (T : Rabs t <= 10).
Let h := evp_helio (N := RNum) t.
Let b := evp_emb (N := RNum) t.
Let lh : R := emb_l b.
Let th : R := forbel (N := RNum) t 1 + mo_l (mah t).
Let fh : R := forbel (N := RNum) t 2.
Let sg : R := 3122140 / 100000000000 / (1 + mo_p (mah t)).
Let bt : R := 8978749 / 100000000 * sin fh.
Let va : R := sg * (2661699 / 1000000000000 + mo_ld (mah t)).
Let vb : R := sg * mo_pd (mah t).

Lemma helio_R : h = VPV (N := RNum)
  (V3 (emb_r b * cos lh - sg * cos bt * cos th) (emb_r b * sin lh - sg * cos bt * sin th) (- (sg * sin bt)))
  (V3 (emb_rd b * cos lh - emb_rld b * sin lh + va * sin th + vb * cos th)
      (emb_rd b * sin lh + emb_rld b * cos lh - va * cos th + vb * sin th)
      (- (sg * (2399485 / 10000000000000) * cos fh))).
Proof.
  unfold h, evp_helio. rewrite moon_R. fold b. fold fh. unfold evp_km, evp_mld, evp_fdi, evp_im. unR. decs.
  fold lh. fold th. fold sg. fold va. fold vb. fold bt. reflexivity.
Qed.

Lemma th_near : anear 3e-10 th (thS t).
Proof.
  eapply anear_weak; [apply anear_add; [apply (fast_near 1 t T); lia|apply anear_abs]|].
  - instantiate (1 := 6e-11). unfold mo_l.
    pose proof (anear_sin _ _ _ (mah_near t 0 T ltac:(lia))) as A. pose proof (anear_sin _ _ _ (mah_near t 1 T ltac:(lia))) as B.
    pose proof (anear_sin _ _ _ (mah_near t 2 T ltac:(lia))) as C.
    match goal with |- Rabs (?a * ?x + ?b * ?y + ?c * ?z - (?a * ?x' + ?b * ?y' + ?c * ?z')) <= _ =>
      replace (a * x + b * y + c * z - (a * x' + b * y' + c * z')) with (a * (x - x') + b * (y - y') + c * (z - z')) by ring end.
    bnd.
  - lra.
Qed.
Lemma bt_near : Rabs (bt - beS t) <= 2e-11.
Proof.
  unfold bt, beS. pose proof (anear_sin _ _ _ (fast_near 2 t T ltac:(lia))) as A. fold fh in A. fold (FmS t) in A.
  replace (8978749 / 100000000 * sin fh - 8978749 / 100000000 * sin (FmS t)) with (8978749 / 100000000 * (sin fh - sin (FmS t))) by ring. bnd.
Qed.
Lemma sg_near : Rabs (sg - siS t) <= 2e-15.
Proof.
  unfold sg, siS. pose proof (anear_cos _ _ _ (mah_near t 0 T ltac:(lia))) as A. pose proof (anear_cos _ _ _ (mah_near t 1 T ltac:(lia))) as B.
  pose proof (anear_cos _ _ _ (mah_near t 2 T ltac:(lia))) as C.
  assert (P : Rabs (mo_p (mah t) - mo_p (maS t)) <= 3e-11).
  { unfold mo_p. match goal with |- Rabs (?a * ?x + ?b * ?y + ?c * ?z - (?a * ?x' + ?b * ?y' + ?c * ?z')) <= _ =>
      replace (a * x + b * y + c * z - (a * x' + b * y' + c * z')) with (a * (x - x') + b * (y - y') + c * (z - z')) by ring end. bnd. }
  pose proof (mo_inv (mah t)) as I. pose proof (mo_inv (maS t)) as J. pose proof (mo_den (mah t)). pose proof (mo_den (maS t)).
  set (p := mo_p (mah t)) in *. set (q := mo_p (maS t)) in *.
  replace (3122140 / 100000000000 / (1 + p) - 3122140 / 100000000000 / (1 + q)) with (- (3122140 / 100000000000 * (p - q) * (/ (1 + p) * / (1 + q)))) by (field; lra).
  bnd.
Qed.
Lemma trig_near x y d : Rabs (x - y) <= d -> Rabs (sin x - sin y) <= d /\ Rabs (cos x - cos y) <= d.
Proof. intros H. split; [apply anear_sin|apply anear_cos]; apply anear_abs; exact H. Qed.

Lemma helio_pos : norm (vsub (pos h) (hpS t)) <= 1.6e-9.
Proof.
  rewrite helio_R. unfold hpS, vsub. cbn [pos v0 v1 v2]. unfold uS.
  pose proof (emb_r_near t T) as R1. fold b in R1. pose proof (emb_l_near t T) as L. fold b in L. fold lh in L.
  pose proof (anear_cos _ _ _ L) as LC. pose proof (anear_sin _ _ _ L) as LS.
  pose proof (anear_cos _ _ _ th_near) as TC. pose proof (anear_sin _ _ _ th_near) as TS.
  pose proof sg_near as SN. pose proof (si_bound t) as SB. destruct (trig_near _ _ _ bt_near) as [BS BC].
  assert (SH : Rabs sg <= 338 / 10000000) by (replace sg with ((sg - siS t) + siS t) by ring; bnd).
  assert (RB : Rabs (rS t) <= 1019 / 1000).
  { pose proof (psi_bound (eS t) (fS t) (e_bound t T)) as D. pose proof (amp_r (lin t)) as C'. fold (prS t) in C'. unfold rS; bnd. }
  apply (norm_box _ 1.04e-9 1.04e-9 1e-14); cbn [v0 v1 v2]; [| | |lra|lra].
  - match goal with |- Rabs (?r * ?c - ?s * ?k * ?d - (?r' * ?c' - ?s' * ?k' * ?d')) <= _ =>
      replace (r * c - s * k * d - (r' * c' - s' * k' * d')) with
        ((r - r') * c + r' * (c - c') - ((s - s') * k * d + s' * (k - k') * d + s' * k' * (d - d'))) by ring end. bnd.
  - match goal with |- Rabs (?r * ?c - ?s * ?k * ?d - (?r' * ?c' - ?s' * ?k' * ?d')) <= _ =>
      replace (r * c - s * k * d - (r' * c' - s' * k' * d')) with
        ((r - r') * c + r' * (c - c') - ((s - s') * k * d + s' * (k - k') * d + s' * k' * (d - d'))) by ring end. bnd.
  - replace (- (sg * sin bt) - - (siS t * sin (beS t))) with (- ((sg - siS t) * sin bt + siS t * (sin bt - sin (beS t)))) by ring. bnd.
Qed.

Lemma rS'_bound : Rabs (rS' t) <= 11.
Proof.
  pose proof (emb_rd_near t T) as A. fold b in A.
  pose proof (radial_rate (eS t) (eS' t) (gS t) (gS' t) (e_bound t T) (e'_bound t T) (g'_bound t T)) as RR.
  cbv zeta in RR. fold (phS t) in RR. fold (fS t) in RR. fold (phS' t) in RR. fold (psS' t) in RR.
  pose proof (e_bound t T) as EB. assert (NB : Rabs NC <= 629) by (unfold NC; bnd).
  assert (Q : Rabs (/ sqrt (1 - eS t * eS t)) <= 1.001).
  { pose proof (root (eS t) (e_bound t T)) as R1.
    replace (/ sqrt (1 - eS t * eS t)) with ((/ sqrt (1 - eS t * eS t) - (1 + eS t * eS t / 2)) + (1 + eS t * eS t / 2)) by ring. bnd. }
  assert (P : Rabs (psS' t) <= 1085 / 100).
  { unfold Rdiv in RR. replace (psS' t) with ((psS' t - NC * eS t * sin (fS t) * / sqrt (1 - eS t * eS t)) + NC * eS t * sin (fS t) * / sqrt (1 - eS t * eS t)) by ring. bnd. }
  pose proof (psi_bound (eS t) (fS t) EB) as D. pose proof (amp_r (lin t)) as C. fold (prS t) in C.
  pose proof (rated_r t) as TD. pose proof (ratea_r (lin t)) as TB.
  unfold rS'. replace (tder t rows_r) with ((tder t rows_r - SC * trate (lin t) rows_r) + SC * trate (lin t) rows_r) by ring. bnd.
Qed.
Lemma lS'_bound : Rabs (rS t * (lS' t - OM)) <= 665.
Proof.
  pose proof (psi_bound (eS t) (fS t) (e_bound t T)) as D. pose proof (amp_r (lin t)) as C. fold (prS t) in C.
  assert (RB : Rabs (rS t) <= 1019 / 1000) by (unfold rS; bnd).
  pose proof (centre_rate2 (eS t) (eS' t) (gS t) (gS' t) (e_bound t T) (e'_bound t T) (g'_bound t T)) as RR.
  fold (phS t) in RR. fold (fS t) in RR. fold (phS' t) in RR. pose proof (cphid_bound (eS t) (fS t) (e_bound t T)) as CB.
  pose proof (l'_bound t T) as LB. pose proof (sec'_bound t T) as SB. pose proof (rated_l t) as TD. pose proof (ratea_l (lin t)) as TB.
  assert (NB : Rabs NC <= 629) by (unfold NC; bnd).
  unfold lS'. set (m := qd' (row3 dcfel 0) t) in *. set (dd := tder t rows_l) in *. set (w := trate (lin t) rows_l) in *.
  replace (m + phS' t + (sec' t + dd) - OM) with ((m - OM - SC * (1990987 / 10000000000000)) + SC * (1990987 / 10000000000000) +
    (phS' t - NC * cphid (eS t) (fS t)) + NC * cphid (eS t) (fS t) + sec' t + (dd - SC * w) + SC * w) by ring.
  bnd.
Qed.
Lemma uS'_bound : Rabs (uS' t) <= 1.
Proof.
  unfold uS', siS'. pose proof (si_bound t) as S. pose proof (mp'_bound (maS t)) as P. pose proof (mo_inv (maS t)) as I. pose proof (be'_bound t T) as B'. bnd.
Qed.
Lemma uth_bound : Rabs (uS t * (thS' t - OM)) <= 1.
Proof.
  unfold uS, thS'. pose proof (si_bound t) as S. pose proof (ml'_bound (maS t)) as L. pose proof (m1'_bound t T) as M.
  set (m := qd' (row3 dcfel 2) t) in *. 
  replace (m + mlS' (maS t) - OM) with ((m - OM - SC * (2661699 / 1000000000000)) + SC * (2661699 / 1000000000000) + mlS' (maS t)) by ring. bnd.
Qed.
Lemma va_near : Rabs (SC * va - uS t * (thS' t - OM)) <= 141 / 100000.
Proof.
  pose proof (moon_tangential t T) as M. cbv zeta in M. fold (uS t) in M. pose proof sg_near as SN. pose proof (si_bound t) as SB.
  assert (D : Rabs (mo_ld (mah t) - mo_ld (maS t)) <= 2e-16).
  { pose proof (anear_cos _ _ _ (mah_near t 0 T ltac:(lia))) as A. pose proof (anear_cos _ _ _ (mah_near t 1 T ltac:(lia))) as B.
    pose proof (anear_cos _ _ _ (mah_near t 2 T ltac:(lia))) as C. unfold mo_ld.
    match goal with |- Rabs (?a * ?x + ?b * ?y + ?c * ?z - (?a * ?x' + ?b * ?y' + ?c * ?z')) <= _ =>
      replace (a * x + b * y + c * z - (a * x' + b * y' + c * z')) with (a * (x - x') + b * (y - y') + c * (z - z')) by ring end. bnd. }
  assert (LB : Rabs (mo_ld (mah t)) <= 4e-7) by (unfold mo_ld; bnd).
  unfold va. set (k := uS t * (thS' t - OM)) in *.
  replace (SC * (sg * (2661699 / 1000000000000 + mo_ld (mah t))) - k) with
    ((siS t * (SC * (2661699 / 1000000000000 + mo_ld (maS t))) - k) + SC * (siS t * (mo_ld (mah t) - mo_ld (maS t)))
     + SC * ((sg - siS t) * (2661699 / 1000000000000 + mo_ld (mah t)))) by ring.
  bnd.
Qed.
Lemma vb_near : Rabs (SC * vb + uS' t) <= 431 / 100000.
Proof.
  pose proof (moon_radial t T) as M. cbv zeta in M. fold (uS' t) in M. pose proof sg_near as SN. pose proof (si_bound t) as SB.
  assert (D : Rabs (mo_pd (mah t) - mo_pd (maS t)) <= 2e-16).
  { pose proof (anear_sin _ _ _ (mah_near t 0 T ltac:(lia))) as A. pose proof (anear_sin _ _ _ (mah_near t 1 T ltac:(lia))) as B.
    pose proof (anear_sin _ _ _ (mah_near t 2 T ltac:(lia))) as C. unfold mo_pd.
    match goal with |- Rabs (- (?a * ?x) - ?b * ?y - ?c * ?z - (- (?a * ?x') - ?b * ?y' - ?c * ?z')) <= _ =>
      replace (- (a * x) - b * y - c * z - (- (a * x') - b * y' - c * z')) with (- (a * (x - x')) - b * (y - y') - c * (z - z')) by ring end. bnd. }
  assert (LB : Rabs (mo_pd (mah t)) <= 4e-7) by (unfold mo_pd; bnd).
  unfold vb. replace (SC * (sg * mo_pd (mah t)) + uS' t) with
    ((siS t * (SC * mo_pd (maS t)) + uS' t) + SC * (siS t * (mo_pd (mah t) - mo_pd (maS t))) + SC * ((sg - siS t) * mo_pd (mah t))) by ring.
  bnd.
Qed.
Lemma vz_near : Rabs (SC * (- (sg * (2399485 / 10000000000000) * cos fh)) - - (siS' t * sin (beS t) + siS t * cos (beS t) * beS' t)) <= 251 / 100000.
Proof.
  pose proof (moon_vertical t T) as M. pose proof sg_near as SN. pose proof (si_bound t) as SB.
  pose proof (anear_cos _ _ _ (fast_near 2 t T ltac:(lia))) as A. fold fh in A. fold (FmS t) in A.
  set (k := - (siS' t * sin (beS t) + siS t * cos (beS t) * beS' t)) in *.
  replace (SC * (- (sg * (2399485 / 10000000000000) * cos fh)) - k) with
   ((- (siS t * (SC * (2399485 / 10000000000000)) * cos (FmS t)) - k) - SC * ((sg - siS t) * (2399485 / 10000000000000) * cos fh)
     - SC * (siS t * (2399485 / 10000000000000) * (cos fh - cos (FmS t)))) by ring.
  bnd.
Qed.

(** Velocity relative to the fixed stars: precession taken off. *)
Definition inertial (p v : RV) : RV := vsub v (scale OM (cross (V3 0 0 1) p)).
Lemma helio_velo : norm (vsub (scale SC (velo h)) (inertial (hpS t) (hvS t))) <= 123 / 10000.
Proof.
  rewrite helio_R. cbn [velo].
  pose proof (emb_l_near t T) as L. fold b in L. fold lh in L. pose proof (anear_cos _ _ _ L) as LC. pose proof (anear_sin _ _ _ L) as LS.
  pose proof (anear_cos _ _ _ th_near) as TC. pose proof (anear_sin _ _ _ th_near) as TS.
  pose proof (emb_rd_near t T) as E1. fold b in E1. pose proof (emb_rld_near t T) as E2. fold b in E2.
  pose proof va_near as E3. pose proof vb_near as E4. pose proof vz_near as E5.
  pose proof rS'_bound as B1. pose proof lS'_bound as B2. pose proof uS'_bound as B3. pose proof uth_bound as B4.
  set (e1 := SC * emb_rd b - rS' t) in *. set (e2 := SC * emb_rld b - rS t * (lS' t - OM)) in *.
  set (e3 := SC * va - uS t * (thS' t - OM)) in *. set (e4 := SC * vb + uS' t) in *.
  match type of E5 with Rabs ?x <= _ => set (e5 := x) in * end.
  set (P := V3 (e1 * cos lh - e2 * sin lh) (e1 * sin lh + e2 * cos lh) 0).
  set (Q := V3 (e3 * sin th + e4 * cos th) (e4 * sin th - e3 * cos th) e5).
  set (c1 := cos lh - cos (lS t)) in *. set (s1 := sin lh - sin (lS t)) in *. set (c2 := cos th - cos (thS t)) in *. set (s2 := sin th - sin (thS t)) in *.
  set (k1 := rS t * (lS' t - OM)) in *. set (k2 := uS t * (thS' t - OM)) in *.
  set (W := V3 (rS' t * c1 - k1 * s1 + (k2 * s2 - uS' t * c2)) (rS' t * s1 + k1 * c1 - (k2 * c2 + uS' t * s2)) 0).
  match goal with |- norm ?x <= _ => replace x with (vadd (vadd P Q) W) end.
  2: { unfold P, Q, W, e1, e2, e3, e4, e5, c1, s1, c2, s2, k1, k2, inertial, hpS, hvS, vadd, vsub, scale, cross. cbn [v0 v1 v2]. f_equal; ring. }
  assert (NP : norm P <= 7 / 1000).
  { unfold norm. rewrite <- (sqrt_square (7 / 1000)) by lra. apply sqrt_le_1_alt. unfold P, dot; cbn [v0 v1 v2].
    pose proof (sc1 lh) as SCL.
    replace ((e1 * cos lh - e2 * sin lh) * (e1 * cos lh - e2 * sin lh) + (e1 * sin lh + e2 * cos lh) * (e1 * sin lh + e2 * cos lh) + 0 * 0)
      with ((e1 * e1 + e2 * e2) * (sin lh * sin lh + cos lh * cos lh)) by ring. rewrite SCL.
    assert (X1 : Rabs (e1 * e1) <= (11 / 10000) * (11 / 10000)) by bnd. assert (X2 : Rabs (e2 * e2) <= (69 / 10000) * (69 / 10000)) by bnd.
    apply ab in X1, X2. lra. }
  assert (NQ : norm Q <= 52 / 10000).
  { unfold norm. rewrite <- (sqrt_square (52 / 10000)) by lra. apply sqrt_le_1_alt. unfold Q, dot; cbn [v0 v1 v2].
    pose proof (sc1 th) as SCL.
    replace ((e3 * sin th + e4 * cos th) * (e3 * sin th + e4 * cos th) + (e4 * sin th - e3 * cos th) * (e4 * sin th - e3 * cos th) + e5 * e5)
      with ((e3 * e3 + e4 * e4) * (sin th * sin th + cos th * cos th) + e5 * e5) by ring. rewrite SCL.
    assert (X1 : Rabs (e3 * e3) <= (141 / 100000) * (141 / 100000)) by bnd. assert (X2 : Rabs (e4 * e4) <= (431 / 100000) * (431 / 100000)) by bnd.
    assert (X3 : Rabs (e5 * e5) <= (251 / 100000) * (251 / 100000)) by bnd.
    apply ab in X1, X2, X3. lra. }
  assert (NW : norm W <= 1e-6).
  { apply (norm_box _ 7e-7 7e-7 0); unfold W; cbn [v0 v1 v2]; [bnd|bnd|rewrite Rabs_R0; lra|lra|lra]. }
  pose proof (norm_triangle (vadd P Q) W). pose proof (norm_triangle P Q). lra.
Qed.
End Helio.
