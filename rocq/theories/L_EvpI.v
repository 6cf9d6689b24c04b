(** evp: the claims. *)
From Coq Require Import Reals ZArith Lra Lia List.
From Coquelicot Require Import Coquelicot.
From Verif Require Import Num NumR L_Pi L_Real M_Vec M_Epoch M_Frame M_EphTab M_Eph M_EvpTab M_Evp S_Geom S_Frame S_Eph S_Evp L_Vec L_Trig L_Frame L_NutDiff L_Eph L_EphB L_EvpA L_EvpB L_EvpC L_EvpD L_EvpE L_EvpF L_EvpG L_EvpH.
Import ListNotations.
Open Scope R_scope.

(** ** Frame *)
Definition ecl (date : R) : vecpv RNum * vecpv RNum :=
  let t := centuries1900 date in (evp_helio (N := RNum) t, evp_bary (N := RNum) t).
Lemma evp_cases (date deqx : R) : evp (N := RNum) date deqx =
  let m := if Rlt_dec 0 deqx then mapply (iau1976_precession (julian_year date) deqx) else fun v => v in
  let f v := m (evp_equator (N := RNum) date v) in
  (VPV (N := RNum) (f (pos (fst (ecl date)))) (f (velo (fst (ecl date)))), VPV (N := RNum) (f (pos (snd (ecl date)))) (f (velo (snd (ecl date))))).
Proof.
  unfold evp, ecl. cbn [fst snd]. 
  replace (n_div (n_sub (date : RNum) (n_lit 150195 (-1))) (n_ofZ 36525)) with (centuries1900 date : RNum) by (unfold centuries1900; unR; decs; lra).
  unR. unfold Rltb. destruct (Rlt_dec 0 deqx); [|reflexivity].
  rewrite !dmxv_mapply, prec_spec, epj_spec. reflexivity.
Qed.
Lemma evp_date (date deqx : R) : deqx <= 0 -> evp (N := RNum) date deqx = evp (N := RNum) date 0.
Proof.
  intros D. rewrite !evp_cases. destruct (Rlt_dec 0 deqx); [lra|]. destruct (Rlt_dec 0 0); [lra|]. reflexivity.
Qed.
Lemma evp_frame (date deqx : R) : 0 < deqx -> let m := mapply (iau1976_precession (julian_year date) deqx) in
  let r := evp (N := RNum) date deqx in let d := evp (N := RNum) date 0 in
  pos (fst r) = m (pos (fst d)) /\ velo (fst r) = m (velo (fst d)) /\ pos (snd r) = m (pos (snd d)) /\ velo (snd r) = m (velo (snd d)).
Proof.
  intros D m r d. unfold r, d. rewrite !evp_cases. destruct (Rlt_dec 0 deqx); [|lra]. destruct (Rlt_dec 0 0); [lra|].
  cbn [fst snd pos velo]. repeat split.
Qed.

Lemma evp_ofdate (date : R) : Rabs (centuries1900 date) <= 10 -> let t := centuries1900 date in
  let f := eq_of (evp_obliquity t) (qT t) in let d := evp (N := RNum) date 0 in
  pos (fst d) = f (pos (evp_helio (N := RNum) t)) /\ velo (fst d) = f (velo (evp_helio (N := RNum) t)) /\
  pos (snd d) = f (pos (evp_bary (N := RNum) t)) /\ velo (snd d) = f (velo (evp_bary (N := RNum) t)).
Proof.
  intros T t f d. unfold d. rewrite evp_cases. destruct (Rlt_dec 0 0); [lra|]. cbn [fst snd pos velo ecl]. fold t.
  rewrite !(equator_R date _ T), !equatorial_t. repeat split.
Qed.

(** ** Distance and speed *)
Section At.
Context (t : R) (T : Rabs t <= 10).
Lemma psi_low e f : Rabs e <= 172 / 10000 -> 9827 / 10000 <= psi e f.
Proof.
  intros E. pose proof (psi_den e f E) as [L U]. unfold psi. apply Rmult_le_reg_r with (1 + e * cos f); [lra|].
  replace ((1 - e * e) / (1 + e * cos f) * (1 + e * cos f)) with (1 - e * e) by (field; lra). apply ab in E. nra.
Qed.
Lemma r_range : 9826 / 10000 <= rS t <= 10182 / 10000.
Proof.
  pose proof (psi_low (eS t) (fS t) (e_bound t T)) as A. pose proof (psi_bound (eS t) (fS t) (e_bound t T)) as B. apply ab in B.
  pose proof (amp_r (lin t)) as C. fold (prS t) in C. apply ab in C. unfold rS. nra.
Qed.
Lemma hp_norm : 9825 / 10000 <= norm (hpS t) <= 10183 / 10000.
Proof.
  pose proof r_range as R1. rewrite <- earth_S. unfold earth_from_sun. rewrite distance_S. destruct (moon_S t) as (_ & _ & C). rewrite C.
  pose proof (si_bound t) as S.
  pose proof (norm_apart (vsub (polar (rS t) (emb_longitude t) 0) (polar (siS t) (offset_longitude t) (offset_latitude t)))
    (polar (rS t) (emb_longitude t) 0) (338 / 10000000)) as N.
  rewrite polar_norm in N. rewrite (Rabs_pos_eq (rS t)) in N by lra.
  match type of N with ?h -> _ => assert (X : h) end; [|specialize (N X); lra].
  match goal with |- norm ?x <= _ => replace (norm x) with (norm (polar (siS t) (offset_longitude t) (offset_latitude t))) end.
  - rewrite polar_norm. eapply Rle_trans; [exact S|lra].
  - unfold norm, dot, vsub. cbn [v0 v1 v2]. f_equal. ring.
Qed.

Lemma X_range : 615 <= rS t * (lS' t - OM) <= 641.
Proof.
  pose proof (e_bound t T) as E. pose proof (psi_den (eS t) (fS t) E) as PD.
  pose proof (psi_bound (eS t) (fS t) E) as D. pose proof (psi_low (eS t) (fS t) E) as DL. pose proof (amp_r (lin t)) as C. fold (prS t) in C.
  pose proof (centre_rate2 (eS t) (eS' t) (gS t) (gS' t) E (e'_bound t T) (g'_bound t T)) as RR.
  fold (phS t) in RR. fold (fS t) in RR. fold (phS' t) in RR.
  pose proof (l'_bound t T) as LB. pose proof (sec'_bound t T) as SB. pose proof (rated_l t) as TD. pose proof (ratea_l (lin t)) as TB.
  assert (NB : Rabs NC <= 629) by (unfold NC; bnd).
  set (e := eS t) in *. set (f := fS t) in *.
  assert (K : Rabs (e * cos f) <= 172 / 10000) by bnd. set (k := e * cos f) in *.
  assert (CB : Rabs (cphid e f - 2 * k) <= 77 / 100000).
  { unfold cphid. replace ((e + e) * ((1 + e * e * (15 / 10)) * cos f + e * (125 / 100 - sin f * sin f * (5 / 10))) - 2 * k)
      with (2 * (k * (e * e)) * (15 / 10) + 2 * (e * e) * (125 / 100 - sin f * sin f * (5 / 10))) by (unfold k; ring).
    assert (Q : Rabs (125 / 100 - sin f * sin f * (5 / 10)) <= 125 / 100).
    { pose proof (sin1 f) as S1. apply ab in S1. apply Rabs_le. nra. }
    bnd. }
  set (m := qd' (row3 dcfel 0) t) in *. set (dd := tder t rows_l) in *. set (w := trate (lin t) rows_l) in *.
  set (s := (m - OM - SC * (1990987 / 10000000000000)) + (SC * (1990987 / 10000000000000) - NC) + (phS' t - NC * cphid e f) + NC * (cphid e f - 2 * k) + sec' t + (dd - SC * w) + SC * w).
  assert (NS : Rabs (SC * (1990987 / 10000000000000) - NC) <= 6 / 1000) by (unfold NC; apply Rabs_le; lra).
  assert (SS : Rabs s <= 7 / 10) by (unfold s; bnd).
  replace (lS' t - OM) with (NC * (1 + 2 * k) + s) by (unfold lS', s; fold m dd; ring).
  unfold rS. fold e f. set (p := psi e f) in *.
  assert (PK : p * (1 + k) = 1 - e * e) by (unfold p, psi, k; field; unfold k in PD; lra).
  assert (PL : 9813 / 10000 <= p * (1 + 2 * k) <= 10174 / 10000).
  { apply ab in K, E. assert (EE : 0 <= e * e <= 3 / 10000) by nra. replace (p * (1 + 2 * k)) with (2 * (p * (1 + k)) - p) by ring. rewrite PK. apply ab in D. lra. }
  replace (p * (1 + prS t) * (NC * (1 + 2 * k) + s)) with (NC * (p * (1 + 2 * k)) + p * (1 + prS t) * s + prS t * (NC * (p * (1 + 2 * k)))) by ring.
  set (z := p * (1 + 2 * k)) in *. assert (ZB : Rabs z <= 10174 / 10000) by (apply Rabs_le; lra).
  assert (J1 : Rabs (p * (1 + prS t) * s) <= 72 / 100) by bnd.
  assert (J2 : Rabs (prS t * (NC * z)) <= 6 / 100) by bnd.
  assert (N1 : 6283 / 10 <= NC <= 62831 / 100) by (unfold NC; lra).
  apply ab in J1, J2. split; nra.
Qed.
Lemma hv_norm : 613 <= norm (inertial (hpS t) (hvS t)) <= 643.
Proof.
  pose proof X_range as X. pose proof (rS'_bound t T) as B1. pose proof (uS'_bound t T) as B3. pose proof (uth_bound t T) as B4.
  set (x := rS t * (lS' t - OM)) in *. set (u := uS t * (thS' t - OM)) in *.
  set (A := V3 (rS' t * cos (lS t) - x * sin (lS t)) (rS' t * sin (lS t) + x * cos (lS t)) 0).
  set (B := V3 (- (uS' t * cos (thS t) - u * sin (thS t))) (- (uS' t * sin (thS t) + u * cos (thS t))) (- (siS' t * sin (beS t) + siS t * cos (beS t) * beS' t))).
  replace (inertial (hpS t) (hvS t)) with (vadd A B).
  2: { unfold A, B, inertial, hpS, hvS, x, u, vadd, vsub, scale, cross. cbn [v0 v1 v2]. f_equal; ring. }
  assert (NB : norm B <= 175 / 100).
  { assert (Z : Rabs (siS' t * sin (beS t) + siS t * cos (beS t) * beS' t) <= 1).
    { unfold siS'. pose proof (si_bound t) as S. pose proof (mp'_bound (maS t)) as P. pose proof (mo_inv (maS t)) as I. pose proof (be'_bound t T) as B'. bnd. }
    apply norm_le; [lra|]. unfold B, dot. cbn [v0 v1 v2]. set (z := siS' t * _ + _) in *. pose proof (sc1 (thS t)) as S.
    replace (- (uS' t * cos (thS t) - u * sin (thS t)) * - (uS' t * cos (thS t) - u * sin (thS t)) +
      - (uS' t * sin (thS t) + u * cos (thS t)) * - (uS' t * sin (thS t) + u * cos (thS t)) + - z * - z)
      with ((uS' t * uS' t + u * u) * (sin (thS t) * sin (thS t) + cos (thS t) * cos (thS t)) + z * z) by ring. rewrite S.
    apply ab in Z, B3, B4. clear - Z B3 B4. nra. }
  assert (NA : 615 <= norm A <= 6411 / 10).
  { assert (D : dot A A = rS' t * rS' t + x * x).
    { unfold A, dot. cbn [v0 v1 v2]. pose proof (sc1 (lS t)) as S.
      replace ((rS' t * cos (lS t) - x * sin (lS t)) * (rS' t * cos (lS t) - x * sin (lS t)) + (rS' t * sin (lS t) + x * cos (lS t)) * (rS' t * sin (lS t) + x * cos (lS t)) + 0 * 0)
        with ((rS' t * rS' t + x * x) * (sin (lS t) * sin (lS t) + cos (lS t) * cos (lS t))) by ring. rewrite S. ring. }
    apply ab in B1. split; [apply norm_ge|apply norm_le]; try lra; rewrite D; clear - X B1; nra. }
  pose proof (norm_apart (vadd A B) A (175 / 100)) as N. 
  match type of N with ?h -> _ => assert (Y : h) end; [|specialize (N Y); lra].
  replace (vsub (vadd A B) A) with B; [exact NB|]. apply vec_eq; unfold vadd, vsub; cbn [v0 v1 v2]; ring.
Qed.
End At.

Lemma evp_distance (date : R) : Rabs (centuries1900 date) <= 10 -> 0.982 <= norm (pos (fst (evp (N := RNum) date 0))) <= 1.019.
Proof.
  intros T. destruct (evp_ofdate date T) as (E & _). rewrite E.
  pose proof (norm_apart _ _ _ (helio_pos _ T)) as A. pose proof (hp_norm _ T) as B.
  destruct (eq_of_norm (evp_obliquity (centuries1900 date)) (qT (centuries1900 date)) (pos (evp_helio (N := RNum) (centuries1900 date))) (qT_bound _ T)) as [L U]. lra.
Qed.
Lemma evp_speed (date : R) : Rabs (centuries1900 date) <= 10 -> 1.94e-7 <= norm (velo (fst (evp (N := RNum) date 0))) <= 2.04e-7.
Proof.
  intros T. destruct (evp_ofdate date T) as (_ & E & _). rewrite E.
  pose proof (norm_apart _ _ _ (helio_velo _ T)) as A. rewrite norm_scale_abs, (Rabs_pos_eq SC) in A by lra. pose proof (hv_norm _ T) as B.
  destruct (eq_of_norm (evp_obliquity (centuries1900 date)) (qT (centuries1900 date)) (velo (evp_helio (N := RNum) (centuries1900 date))) (qT_bound _ T)) as [L U]. lra.
Qed.
(** ** The Sun's own motion *)
Lemma qh_norm t k : Rabs t <= 10 -> (k < 4)%nat -> norm (qh t k) <= 106 / 100 * Am k /\ norm (qvh t k) <= 108 / 100 * Vm k.
Proof.
  intros T K. destruct (planet_numbers t T k K) as (A & Nn & E & I & _). pose proof (Am_nuk k K) as V.
  assert (V0 : 0 <= Vm k) by (assert (0 <= Am k * nuk k) by (apply Rmult_le_pos; assumption); lra).
  split.
  - unfold qh. set (b := ick k t * _). set (l := evp_planet_l (N := RNum) t k : R). set (r := 1 - _).
    assert (R1 : Rabs r <= 106 / 100) by (unfold r; bnd).
    replace (V3 _ _ _) with (polar (- (Am k * r)) l b) by (unfold polar; f_equal; ring).
    rewrite polar_norm, Rabs_Ropp, Rabs_mult, (Rabs_pos_eq (Am k)) by exact A. nra.
  - set (l := evp_planet_l (N := RNum) t k : R). set (n := forbel (N := RNum) t (k + 3) - ndk k t).
    replace (qvh t k) with (vadd (polar (Vm k) (l - PI / 2) 0)
      (V3 (Vm k * (eck k t * sin (omk k t))) (- (Vm k * (eck k t * cos (omk k t)))) (- (Vm k * ick k t * cos n)))).
    2: { unfold qvh, vadd, polar. cbn [v0 v1 v2]. rewrite cos_0, sin_0, cos_minus, sin_minus, cos_PI2, sin_PI2. fold l n. f_equal; ring. }
    eapply Rle_trans; [apply norm_triangle|]. rewrite polar_norm, Rabs_pos_eq by exact V0.
    assert (W : norm (V3 (Vm k * (eck k t * sin (omk k t))) (- (Vm k * (eck k t * cos (omk k t)))) (- (Vm k * ick k t * cos n))) <= 77 / 1000 * Vm k).
    2: lra.
    apply norm_le; [lra|]. unfold dot. cbn [v0 v1 v2]. pose proof (sc1 (omk k t)) as S.
    replace (Vm k * (eck k t * sin (omk k t)) * (Vm k * (eck k t * sin (omk k t))) + - (Vm k * (eck k t * cos (omk k t))) * - (Vm k * (eck k t * cos (omk k t)))
      + - (Vm k * ick k t * cos n) * - (Vm k * ick k t * cos n))
      with (Vm k * Vm k * (eck k t * eck k t * (sin (omk k t) * sin (omk k t) + cos (omk k t) * cos (omk k t)) + ick k t * ick k t * (cos n * cos n))) by ring.
    rewrite S. assert (Q : Rabs (eck k t * eck k t * 1 + ick k t * ick k t * (cos n * cos n)) <= 57 / 10000) by bnd.
    apply ab in Q. assert (0 <= Vm k * Vm k) by nra. nra.
Qed.

Lemma sun_offset (t : R) : Rabs t <= 10 ->
  norm (vsub (pos (evp_bary (N := RNum) t)) (pos (evp_helio (N := RNum) t))) <= 1069 / 100000 + 4 / 1000000 /\
  norm (vsub (velo (evp_bary (N := RNum) t)) (velo (evp_helio (N := RNum) t))) <= 115 / 1000000000000.
Proof.
  intros T. rewrite (bary_R t T). cbn [pos velo].
  assert (F : forall h a b c d : RV, vsub (vadd (vadd (vadd (vadd (scale MM h) a) b) c) d) h = vadd (vadd (vadd (vadd (scale (MM - 1) h) a) b) c) d).
  { intros. apply vec_eq; unfold vsub, vadd, scale; cbn [v0 v1 v2]; ring. }
  rewrite !F.
  assert (G : forall a b c d e A B C D E, norm a <= A -> norm b <= B -> norm c <= C -> norm d <= D -> norm e <= E ->
    norm (vadd (vadd (vadd (vadd (scale (MM - 1) a) b) c) d) e) <= 31 / 10000000 * A + B + C + D + E).
  { intros. eapply Rle_trans; [apply norm_triangle|]. apply Rplus_le_compat; [|assumption].
    eapply Rle_trans; [apply norm_triangle|]. apply Rplus_le_compat; [|assumption].
    eapply Rle_trans; [apply norm_triangle|]. apply Rplus_le_compat; [|assumption].
    eapply Rle_trans; [apply norm_triangle|]. apply Rplus_le_compat; [|assumption].
    rewrite norm_scale_abs. assert (M1 : Rabs (MM - 1) <= 31 / 10000000) by (unfold MM; apply Rabs_le; lra).
    apply Rmult_le_compat; [apply Rabs_pos|apply norm_nonneg|exact M1|assumption]. }
  destruct (qh_norm t 0 T ltac:(lia)) as [P0 V0]. destruct (qh_norm t 1 T ltac:(lia)) as [P1 V1].
  destruct (qh_norm t 2 T ltac:(lia)) as [P2 V2]. destruct (qh_norm t 3 T ltac:(lia)) as [P3 V3'].
  pose proof (norm_apart _ _ _ (helio_pos t T)) as A. pose proof (hp_norm t T) as B.
  pose proof (norm_apart _ _ _ (helio_velo t T)) as A'. rewrite norm_scale_abs, (Rabs_pos_eq SC) in A' by lra. pose proof (hv_norm t T) as B'.
  split.
  - eapply Rle_trans; [apply (G _ _ _ _ _ 1.02); [lra|eassumption..]|]. unfold Am. cbn [nth ccpam]. dnum. lra.
  - eapply Rle_trans; [apply (G _ _ _ _ _ 2.1e-7); [lra|eassumption..]|]. unfold Vm. cbn [nth ccpamv]. dnum. lra.
Qed.
Lemma evp_sun (date : R) : Rabs (centuries1900 date) <= 10 -> let d := evp (N := RNum) date 0 in
  norm (vsub (pos (snd d)) (pos (fst d))) <= 0.0107 /\ norm (vsub (velo (snd d)) (velo (fst d))) <= 1.16e-10.
Proof.
  intros T d. destruct (evp_ofdate date T) as (E1 & E2 & E3 & E4). fold d in E1, E2, E3, E4. rewrite E1, E2, E3, E4, <- !eq_of_sub.
  destruct (sun_offset _ T) as [A B]. set (t := centuries1900 date) in *.
  pose proof (fun v => eq_of_norm (evp_obliquity t) (qT t) v (qT_bound t T)) as N.
  split; (eapply Rle_trans; [apply N|]); lra.
Qed.

(** ** The paths *)
Lemma near_path (t : R) (p u : RV) d : Rabs t <= 10 -> norm (vsub u p) <= d ->
  norm (vsub (eq_of (evp_obliquity t) (qT t) u) (eq_of (evp_obliquity t) (qT t) p)) <= 100000001 / 100000000 * d.
Proof. intros T D. rewrite <- eq_of_sub. eapply Rle_trans; [apply eq_of_norm, qT_bound, T|]. lra. Qed.
Lemma path_claim (date : R) (p v : R -> RV) (u : RV) d : let t := centuries1900 date in Rabs t <= 10 ->
  derives_to p t (v t) -> norm (p t) <= 103 / 100 -> norm (vsub (scale SC u) (inertial (p t) (v t))) <= d ->
  exists w, velocity_at (fun s => equatorial s (p (centuries1900 s))) date w /\
    norm (vsub (eq_of (evp_obliquity t) (qT t) u) (scale (/ 86400) (star_velocity date (equatorial date (p t)) w))) <= / SC * (100000001 / 100000000 * d + 36 / 100000).
Proof.
  intros t T D P V. exists (scale (/ 36525) (vadd (eq_of (evp_obliquity t) (qT t) (v t)) (turn t (p t)))). split.
  - pose proof (date_derive _ date _ (path_derive p t (v t) D)) as (X & Y & Z).
    assert (F : forall s, equatorial s (p (centuries1900 s)) = eq_of (evp_obliquity (centuries1900 s)) (qT (centuries1900 s)) (p (centuries1900 s))) by (intros; apply equatorial_t).
    unfold velocity_at. rewrite <- !is_derive_Reals in *.
    split; [|split]; eapply is_derive_ext; try (intros s; rewrite F; reflexivity); assumption.
  - pose proof (star_near t (p t) (v t) (scale SC u) d T P V) as S.
    rewrite equatorial_t. fold t. unfold star_velocity, ecliptic_pole. fold t.
    set (e := evp_obliquity t) in *. set (q := qT t) in *. rewrite eq_of_scale in S.
    set (F' := vadd (eq_of e q (v t)) (turn t (p t))) in *. set (K := cross (V3 0 (- sin e) (cos e)) (eq_of e q (p t))) in *.
    set (U := eq_of e q u) in *.
    replace (vsub U (scale (/ 86400) (vsub (scale (/ 36525) F') (scale precession_per_day K)))) with
      (scale (/ SC) (vsub (scale SC U) (vsub F' (scale (5029 * arcsecond) K)))).
    2: { apply vec_eq; unfold vsub, scale, precession_per_day; cbn [v0 v1 v2]; field. }
    rewrite norm_scale_abs, Rabs_pos_eq by lra. apply Rmult_le_compat_l; [lra|exact S].
Qed.
Lemma bp_norm t : Rabs t <= 10 -> norm (bpS t) <= 103 / 100.
Proof.
  intros T. pose proof (bary_pos t T) as A. pose proof (proj1 (sun_offset t T)) as B. pose proof (helio_pos t T) as C. pose proof (hp_norm t T) as D.
  apply norm_apart in A, B, C. lra.
Qed.

Lemma evp_helio_path (date : R) : Rabs (centuries1900 date) <= 10 -> let h := fst (evp (N := RNum) date 0) in
  norm (vsub (pos h) (heliocentric_path date)) <= 2e-9 /\
  exists w, velocity_at heliocentric_path date w /\
    norm (vsub (velo h) (scale (/ 86400) (star_velocity date (heliocentric_path date) w))) <= 4.1e-12.
Proof.
  intros T h. destruct (evp_ofdate date T) as (E1 & E2 & _). fold h in E1, E2. rewrite E1, E2. set (t := centuries1900 date) in *.
  assert (H : forall s, heliocentric_path s = equatorial s (hpS (centuries1900 s))) by (intros; unfold heliocentric_path; rewrite earth_S; reflexivity).
  rewrite H. fold t. split.
  - rewrite equatorial_t. fold t. eapply Rle_trans; [apply near_path; [exact T|apply helio_pos, T]|]. lra.
  - destruct (path_claim date hpS hvS (velo (evp_helio (N := RNum) t)) (123 / 10000) T (hpS_derive t T)) as (w & W & V).
    + eapply Rle_trans; [apply hp_norm, T|lra].
    + apply helio_velo, T.
    + exists w. split.
      * destruct W as (X & Y & Z). unfold velocity_at. rewrite <- !is_derive_Reals in *.
        split; [|split]; eapply is_derive_ext; try (intros s; symmetry; rewrite H; reflexivity); assumption.
      * eapply Rle_trans; [exact V|]. lra.
Qed.
Lemma evp_bary_path (date : R) : Rabs (centuries1900 date) <= 10 -> let b := snd (evp (N := RNum) date 0) in
  norm (vsub (pos b) (barycentric_path date)) <= 8.3e-9 /\
  exists w, velocity_at barycentric_path date w /\
    norm (vsub (velo b) (scale (/ 86400) (star_velocity date (barycentric_path date) w))) <= 7.1e-12.
Proof.
  intros T h. destruct (evp_ofdate date T) as (_ & _ & E1 & E2). fold h in E1, E2. rewrite E1, E2. set (t := centuries1900 date) in *.
  assert (H : forall s, barycentric_path s = equatorial s (bpS (centuries1900 s))) by (intros; unfold barycentric_path; rewrite bary_S; reflexivity).
  rewrite H. fold t. split.
  - rewrite equatorial_t. fold t. eapply Rle_trans; [apply near_path; [exact T|apply bary_pos, T]|]. lra.
  - destruct (path_claim date bpS bvS (velo (evp_bary (N := RNum) t)) (22 / 1000) T (bpS_derive t T)) as (w & W & V).
    + apply bp_norm, T.
    + apply bary_velo, T.
    + exists w. split.
      * destruct W as (X & Y & Z). unfold velocity_at. rewrite <- !is_derive_Reals in *.
        split; [|split]; eapply is_derive_ext; try (intros s; symmetry; rewrite H; reflexivity); assumption.
      * eapply Rle_trans; [exact V|]. lra.
Qed.
