(** The two Moon routines agree. *)
From Coq Require Import Reals List ZArith Lra Lia Bool.
From Verif Require Import Int32 Num NumR L_Pi L_Real M_Vec M_Calendar M_EphTab M_Eph S_Calendar S_Geom S_Eph S_Moon L_Calendar L_Vec L_Trig L_Frame L_NutDiff L_Eph L_EphB L_EvpA L_EvpB L_Moon L_MoonB L_Moon2 L_Moon3 L_Moon4 L_Moon5 L_Moon6 L_Moon7 L_Moon8 L_Moon9.
Open Scope R_scope.

Lemma frame_diff a b q e : Rabs (a - b) <= e -> norm (vsub (mapply (frame_x a) q) (mapply (frame_x b) q)) <= 4 * e * norm q.
Proof.
  intros E. assert (E0 : 0 <= e) by (eapply Rle_trans; [apply Rabs_pos|exact E]). apply anear_abs in E.
  pose proof (anear_sin _ _ _ E) as S. pose proof (anear_cos _ _ _ E) as C.
  pose proof (norm_nonneg q) as N0.
  assert (Q : forall i, i = v0 q \/ i = v1 q \/ i = v2 q -> Rabs i <= norm q).
  { intros i I. rewrite <- sqrt_Rsqr_abs. unfold norm. apply sqrt_le_1_alt. unfold dot, Rsqr.
    pose proof (Rle_0_sqr (v0 q)). pose proof (Rle_0_sqr (v1 q)). pose proof (Rle_0_sqr (v2 q)). unfold Rsqr in *.
    destruct I as [-> | [-> | ->]]; lra. }
  pose proof (Q (v1 q) ltac:(auto)) as Q1. pose proof (Q (v2 q) ltac:(auto)) as Q2. clear Q.
  set (n := norm q) in *. clearbody n.
  apply norm_box with (a := 0) (b := 2 * e * n) (c := 2 * e * n).
  - unfold vsub, mapply, frame_x, dot; cbn [v0 v1 v2 r0 r1 r2]. right. rewrite <- Rabs_R0. f_equal. ring.
  - unfold vsub, mapply, frame_x, dot; cbn [v0 v1 v2 r0 r1 r2].
    match goal with |- Rabs ?x <= _ => replace x with ((cos a - cos b) * v1 q + (sin a - sin b) * v2 q) by ring end.
    replace (2 * e * n) with (e * n + e * n) by ring. apply b_add; apply b_mul; assumption.
  - unfold vsub, mapply, frame_x, dot; cbn [v0 v1 v2 r0 r1 r2].
    match goal with |- Rabs ?x <= _ => replace x with ((cos a - cos b) * v2 q - (sin a - sin b) * v1 q) by ring end.
    replace (2 * e * n) with (e * n + e * n) by ring. apply b_sub; apply b_mul; assumption.
  - assert (0 <= e * n) by (apply Rmult_le_pos; assumption).
    assert (0 <= (e * n) * (e * n)) by (apply Rmult_le_pos; assumption). nra.
  - assert (0 <= e * n) by (apply Rmult_le_pos; assumption). lra.
Qed.
Lemma frame_norm a q : norm (mapply (frame_x a) q) = norm q.
Proof.
  pose proof (frame_close a q (V3 0 0 0)) as H.
  replace (vsub (mapply (frame_x a) q) (mapply (frame_x a) (V3 0 0 0))) with (mapply (frame_x a) q) in H.
  - rewrite H. f_equal. destruct q as [x y z]. unfold vsub; cbn [v0 v1 v2]. f_equal; ring.
  - unfold vsub, mapply, frame_x, dot; cbn [v0 v1 v2 r0 r1 r2]. f_equal; ring.
Qed.
Lemma pole_norm q : norm (cross (V3 0 0 1) q) <= norm q.
Proof.
  unfold norm. apply sqrt_le_1_alt. unfold cross, dot; cbn [v0 v1 v2]. pose proof (Rle_0_sqr (v2 q)). unfold Rsqr in *. lra.
Qed.

Lemma equators_agree date p q : Rabs (centuries1900 date) <= 2 -> norm p <= 0.0029 -> norm q <= 0.0029 ->
  norm (vsub (to_equator date p) (mapply (frame_x (- almanac_obliquity (100 * centuries1900 date))) q)) <= norm (vsub p q) + 1e-7.
Proof.
  intros T P Q. unfold to_equator. set (a := mean_obliquity date). set (b := almanac_obliquity _). set (k := equinox_correction date).
  assert (K : Rabs k <= 0.00002).
  { unfold k, equinox_correction, timesecond. unfold centuries1900 in T. apply ab in T. apply Rabs_le. lra. }
  assert (AB : Rabs (- a - - b) <= 0.000001).
  { unfold a, b, mean_obliquity, almanac_obliquity, arcsecond.
    replace ((date - 51544.5) / 36525) with (centuries1900 date - 1) by (unfold centuries1900; lra).
    set (t := centuries1900 date) in *. clearbody t. apply ab in T. cbv zeta.
    assert (0 <= t * t <= 4) by nra. assert (-8 <= t * t * t <= 8) by nra. cbn [pow]. apply Rabs_le. lra. }
  set (w := mapply (frame_x (- a)) p).
  replace (vsub (vadd w (scale k (cross (V3 0 0 1) w))) (mapply (frame_x (- b)) q)) with
    (vadd (vadd (vsub w (mapply (frame_x (- a)) q)) (scale k (cross (V3 0 0 1) w))) (vsub (mapply (frame_x (- a)) q) (mapply (frame_x (- b)) q)))
    by (unfold vadd, vsub; cbn [v0 v1 v2]; f_equal; ring).
  eapply Rle_trans; [apply norm_triangle|]. pose proof (frame_diff _ _ q _ AB) as F.
  pose proof (norm_triangle (vsub w (mapply (frame_x (- a)) q)) (scale k (cross (V3 0 0 1) w))) as N.
  assert (FC : norm (vsub w (mapply (frame_x (- a)) q)) = norm (vsub p q)) by apply frame_close.
  rewrite FC, norm_scale_abs in N.
  pose proof (pole_norm w) as PN. assert (FN : norm w = norm p) by apply frame_norm. rewrite FN in PN.
  pose proof (norm_nonneg (cross (V3 0 0 1) w)). pose proof (norm_nonneg q).
  assert (Rabs k * norm (cross (V3 0 0 1) w) <= 0.00002 * 0.0029) by (apply Rmult_le_compat; try lra; apply Rabs_pos). lra.
Qed.

(** ** Calendar *)
Lemma new_year_mjd year n : (1901 <= year <= 2099)%Z -> is_mjd (Dt year 1 1) n -> n = (15020 + 365 * (year - 1900) + (year - 1901) / 4)%Z.
Proof.
  intros Y H.
  assert (V : valid (Dt year 1 1)) by (unfold valid; cbn; lia).
  pose proof (mjdZ_is_mjd _ V ltac:(cbn; lia)) as M. cbn [yr mon dom] in M.
  rewrite (is_mjd_inj _ _ _ V ltac:(cbn; lia) H M).
  unfold mjdZ. change ((12 - 1) / 10)%Z with 1%Z. change ((306 * ((1 + 9) mod 12) + 5) / 10)%Z with 306%Z.
  Z.div_mod_to_equations. lia.
Qed.

Lemma epoch_date (year day n : Z) (f : R) : (1901 <= year <= 2099)%Z -> is_mjd (Dt year 1 1) n ->
  IZR (year - 1900) + year_fraction year day f = 100 * centuries1900 (IZR (n + day - 1) + f).
Proof.
  intros Y H. rewrite (new_year_mjd _ _ Y H). unfold year_fraction, centuries1900.
  assert (D : (4 * ((year - 1901) / 4) = year - 1900 - year mod 4 - 4 * (if (year mod 4 =? 0) then 1 else 0))%Z).
  { destruct (Z.eqb_spec (year mod 4) 0) as [M|M]; revert M; Z.div_mod_to_equations; lia. }
  apply (f_equal IZR) in D. rewrite mult_IZR, !minus_IZR, mult_IZR in D.
  set (c := IZR (if (year mod 4 =? 0)%Z then 1 else 0)) in *.
  rewrite !minus_IZR, !plus_IZR, !mult_IZR, !minus_IZR. fold c.
  set (q := IZR ((year - 1901) / 4)) in *. set (m := IZR (year mod 4)) in *. lra.
Qed.

Lemma moons_agree : forall (year day n : Z) (f : R),
  (1901 <= year <= 2099)%Z -> (1 <= day <= jyear_length year)%Z -> 0 <= f <= 1 -> is_mjd (Dt year 1 1) n ->
  exists pv, moon (N := RNum) year day f = Some pv /\
    norm (vsub (pos (dmoon (N := RNum) (IZR (n + day - 1) + f))) (pos pv)) <= 2e-5.
Proof.
  intros year day n f Y D' F H.
  assert (D : (1 <= day <= 366 /\ (year = 2099 -> day <= 365))%Z).
  { unfold jyear_length, jleap in D'. destruct (Z.eqb_spec (year mod 4) 0) as [M|M]; [|lia]. split; [lia|]. intros ->. now compute in M. }
  destruct (moon_place_near year day f ltac:(unfold INT_MIN, INT_MAX; lia) ltac:(lia)) as (pv & E & P).
  exists pv. split; [exact E|]. rewrite (epoch_date year day n f Y H) in P.
  assert (T : Rabs (centuries1900 (IZR (n + day - 1) + f)) <= 2).
  { rewrite (new_year_mjd _ _ Y H).
    assert (B : (15000 <= 15020 + 365 * (year - 1900) + (year - 1901) / 4 + day - 1 <= 88068)%Z) by (Z.div_mod_to_equations; lia).
    destruct B as (B1 & B2). apply IZR_le in B1, B2. unfold centuries1900. apply Rabs_le. lra. }
  set (date := IZR (n + day - 1) + f) in *. clearbody date.
  destruct (dmoon_theory date ltac:(lra)) as (Q & _).
  destruct (theories_agree (centuries1900 date) T) as (A & N1 & N2).
  pose proof (equators_agree date _ _ T N2 N1) as EA.
  set (x := pos (dmoon (N := RNum) date)) in *. set (y := to_equator date (moon_theory _)) in *.
  set (z := mapply (frame_x _) (almanac_moon _)) in *. set (w := pos pv) in *.
  assert (SY : norm (vsub z w) = norm (vsub w z)).
  { replace (vsub z w) with (scale (-1) (vsub w z)) by (unfold vsub, scale; cbn [v0 v1 v2]; f_equal; ring).
    rewrite norm_scale_abs. replace (Rabs (-1)) with 1 by (rewrite Rabs_left by lra; lra). ring. }
  replace (vsub x w) with (vadd (vadd (vsub x y) (vsub y z)) (vsub z w)) by (unfold vadd, vsub; cbn [v0 v1 v2]; f_equal; ring).
  eapply Rle_trans; [apply norm_triangle|]. pose proof (norm_triangle (vsub x y) (vsub y z)). rewrite SY. lra.
Qed.
