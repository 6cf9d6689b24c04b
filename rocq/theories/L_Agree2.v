(** The low-precision Earth against Newcomb's ellipse and against evp. *)
From Coq Require Import Reals ZArith Lra Lia List.
From Verif Require Import Int32 Num NumR L_Pi L_Real M_Vec M_Site M_Epoch M_Frame M_EphTab M_Eph M_EvpTab M_Evp S_Geom S_Frame S_Calendar S_Eph S_Site S_Evp S_Agree L_Vec L_Trig L_Frame L_NutDiff L_Rcc L_Site L_Eph L_EphB L_EvpA L_EvpB L_EvpC L_EvpD L_EvpE L_EvpF L_EvpG L_EvpH L_EvpI L_EvpJ L_Moon10 L_Agree.
Import ListNotations.
Open Scope R_scope.

Section Low.
Context (y : Z) (yf : R) (T : 0 <= IZR y + yf <= 201) (F : -0.01 <= yf <= 1.01).
Let t := IZR y + yf.
Let TT := t / 100.
Definition low_longitude : R := Rfmod (Rdec 4881628 (-6) + Rdec 628318530718 (-11) * yf + Rdec 13420 (-8) * t) (Rdec 628318530718 (-11)).
Definition low_perigee : R := Rdec 4908230 (-6) + Rdec 30005 (-8) * t.
Definition low_e : R := Rdec 16751 (-6) - Rdec 42 (-8) * t.
Definition low_centre (em : R) : R := 2 * low_e * sin em + 1.25 * (low_e * low_e) * sin (2 * em).
Lemma TT_range : 0 <= TT <= 2.01. Proof. unfold TT, t. lra. Qed.
Lemma TT2 : 0 <= TT * TT <= 4.0401. Proof. pose proof TT_range. nra. Qed.
Lemma low_longitude_near : anear 23e-6 low_longitude (sun_longitude TT).
Proof.
  unfold low_longitude. destruct (Rfmod_congr (Rdec 4881628 (-6) + Rdec 628318530718 (-11) * yf + Rdec 13420 (-8) * t) (Rdec 628318530718 (-11))) as [k K].
  destruct (Rfmod_range (Rdec 4881628 (-6) + Rdec 628318530718 (-11) * yf + Rdec 13420 (-8) * t) (Rdec 628318530718 (-11))) as [G _]; [decs; lra|].
  assert (Q : Rdec 628318530718 (-11) = 628318530718 / 100000000000) by (decs; lra).
  assert (Q1 : Rdec 4881628 (-6) = 4881628 / 1000000) by (decs; lra). assert (Q2 : Rdec 13420 (-8) = 13420 / 100000000) by (decs; lra).
  rewrite Q, Q1, Q2 in *. fold t in T.
  specialize (G ltac:(lra)). set (m := Rfmod _ _) in *.
  assert (KB : (-1 < k < 3)%Z). { split; apply lt_IZR; lra. } destruct KB as [KB1 KB2].
  assert (KR : 0 <= IZR k <= 2) by (split; apply IZR_le; lia).
  exists (- (k + y))%Z. rewrite opp_IZR, plus_IZR.
  pose proof TT2 as U. pose proof PI_bounds as P. unfold sun_longitude, dms, arcsecond.
  replace (TT ^ 2) with (TT * TT) by ring. set (u := TT * TT) in *. unfold TT. fold t.
  assert (PK : 0 <= (2 * PI - 628318530718 / 100000000000) * IZR k + 1e-11 <= 2e-11) by nra.
  assert (PY : - 1e-11 <= (2 * PI - 628318530718 / 100000000000) * yf <= 1e-11) by nra.
  assert (PT : Rabs ((2 * PI - 1296000 * 4.848136811095359935899141e-6) * t) <= 1e-11) by (apply Rabs_le; nra).
  apply ab in PT. replace (IZR y) with (t - yf) by (unfold t; ring). apply Rabs_le. split; lra.
Qed.
Lemma low_anomaly_near : anear 56e-6 (low_longitude - low_perigee) (sun_anomaly TT).
Proof.
  destruct low_longitude_near as [k K]. exists (k - 1)%Z. rewrite minus_IZR. apply ab in K. pose proof TT2 as U. pose proof TT_range as U1. pose proof PI_bounds as P.
  unfold low_perigee, sun_anomaly, sun_longitude, dms, arcsecond in *. replace (TT ^ 2) with (TT * TT) in * by ring. set (u := TT * TT) in *.
  replace t with (100 * TT) by (unfold TT; field).
  assert (Q1 : Rdec 4908230 (-6) = 4908230 / 1000000) by (decs; lra). assert (Q2 : Rdec 30005 (-8) = 30005 / 100000000) by (decs; lra). rewrite Q1, Q2.
  replace ((IZR k - 1) * (2 * PI)) with (IZR k * (2 * PI) - 2 * PI) by ring. set (kk := IZR k * (2 * PI)) in *. apply Rabs_le. split; lra.
Qed.
Let a := low_e.
Let b := eccentricity TT.
Lemma low_e_near : Rabs (a - b) <= 7e-7.
Proof.
  unfold a, b, low_e, eccentricity. assert (Q1 : Rdec 16751 (-6) = 16751 / 1000000) by (decs; lra). assert (Q2 : Rdec 42 (-8) = 42 / 100000000) by (decs; lra). rewrite Q1, Q2.
  pose proof TT2 as U. pose proof TT_range as U1. replace (TT ^ 2) with (TT * TT) by ring. set (u := TT * TT) in *.
  replace t with (100 * TT) by (unfold TT; field). apply Rabs_le. split; lra.
Qed.
Lemma low_a : Rabs a <= 168 / 10000.
Proof.
  unfold a, low_e. assert (Q1 : Rdec 16751 (-6) = 16751 / 1000000) by (decs; lra). assert (Q2 : Rdec 42 (-8) = 42 / 100000000) by (decs; lra). rewrite Q1, Q2.
  fold t in T. apply Rabs_le. lra.
Qed.
Lemma low_b : Rabs b <= 16801 / 1000000.
Proof. pose proof low_e_near as E. pose proof low_a as A. replace b with (a - (a - b)) by ring. bnd. Qed.
Let em := low_longitude - low_perigee.
Let g := sun_anomaly TT.
Lemma low_centre_near : Rabs (low_centre em - centre b g) <= 12e-6.
Proof.
  pose proof low_e_near as E. pose proof low_a as A. pose proof low_b as B. pose proof low_anomaly_near as N. fold em g in N.
  pose proof (anear_sin _ _ _ N) as S1. pose proof (anear_2 _ _ _ N) as N2. pose proof (anear_sin _ _ _ N2) as S2.
  unfold low_centre, centre. fold a. set (s1 := sin em) in *. set (s2 := sin (2 * em)) in *. set (k1 := sin g) in *. set (k2 := sin (2 * g)) in *. set (k3 := sin (3 * g)).
  assert (X1 : Rabs s1 <= 1) by apply sin1. assert (X2 : Rabs s2 <= 1) by apply sin1. assert (X3 : Rabs k1 <= 1) by apply sin1. assert (X4 : Rabs k2 <= 1) by apply sin1. assert (X5 : Rabs k3 <= 1) by apply sin1.
  set (d := a - b) in *.
  replace (2 * a * s1 + 1.25 * (a * a) * s2 - ((2 * b - b ^ 3 / 4) * k1 + 5 / 4 * b ^ 2 * k2 + 13 / 12 * b ^ 3 * k3)) with
    (2 * d * s1 + 2 * b * (s1 - k1) + 5 / 4 * (d * (a + b)) * s2 + 5 / 4 * (b * b) * (s2 - k2) + b * b * b * (1 / 4) * k1 - 13 / 12 * (b * b * b) * k3) by (unfold d; lra).
  bnd.
Qed.
Definition low_r : R := (1 - a * a) / (1 + a * cos (em + low_centre em)).
Lemma low_radius_near : Rabs (low_r - newcomb_r TT) <= 3e-6.
Proof.
  pose proof low_e_near as E. pose proof low_a as A. pose proof low_b as B. pose proof low_anomaly_near as N. fold em g in N. pose proof low_centre_near as C.
  pose proof (anear_cos _ _ _ (anear_add _ _ _ _ _ _ N (anear_abs _ _ _ C))) as CC.
  unfold newcomb_r, low_r. fold b g. set (cf := cos (em + low_centre em)) in *. assert (CF : Rabs cf <= 1) by apply cos1.
  set (ch := cos (g + centre b g)) in *. assert (CH : Rabs ch <= 1) by apply cos1. set (d := a - b) in *.
  assert (K1 : 98 / 100 <= 1 + a * cf). { assert (X : Rabs (a * cf) <= 2 / 100) by bnd. apply ab in X. lra. }
  assert (K2 : 98 / 100 <= 1 + b * ch). { assert (X : Rabs (b * ch) <= 2 / 100) by bnd. apply ab in X. lra. }
  assert (P0 : 0 < 98 / 100) by lra. pose proof (inv_bound _ _ P0 K1) as I1. pose proof (inv_bound _ _ P0 K2) as I2.
  replace ((1 - a * a) / (1 + a * cf) - (1 - b ^ 2) / (1 + b * ch)) with
    ((- ((a + b) * d) - (1 - a * a) * b * (cf - ch) - cf * (d * (1 + a * b))) * (/ (1 + a * cf) * / (1 + b * ch))).
  2: { unfold d. field. lra. }
  bnd.
Qed.
Definition low_ob : R := Rdec 40931975 (-8) - Rdec 227 (-8) * t.
Lemma low_ob_near : Rabs (low_ob - newcomb_obliquity TT) <= 1e-6.
Proof.
  unfold low_ob, newcomb_obliquity, dms, arcsecond. assert (Q1 : Rdec 40931975 (-8) = 40931975 / 100000000) by (decs; lra). assert (Q2 : Rdec 227 (-8) = 227 / 100000000) by (decs; lra). rewrite Q1, Q2.
  pose proof TT2 as U. pose proof TT_range as U1. pose proof PI_bounds. assert (U3 : 0 <= TT ^ 3 <= 8.1207) by (replace (TT ^ 3) with (TT * TT * TT) by ring; nra).
  replace (TT ^ 2) with (TT * TT) by ring. set (u := TT * TT) in *. set (w := TT ^ 3) in *. replace t with (100 * TT) by (unfold TT; field). apply Rabs_le. split; lra.
Qed.
Let moonlon := Rfmod (Rdec 472 (-2) + Rdec 839971 (-4) * t) (Rdec 628318530718 (-11)).
Lemma low_pos : pos (earth_pv (N := RNum) (IZR y) yf) = vadd (scale (-1) (eq_of low_ob 0 (polar low_r (low_longitude + low_centre em) 0)))
  (scale (Ropp 0.0000312) (V3 (cos moonlon) (sin moonlon * cos low_ob) 0)).
Proof.
  unfold earth_pv. unR. cbv zeta. cbn [pos]. fold t. fold low_longitude. fold low_perigee. fold em. fold low_e low_ob. fold moonlon.
  assert (Q1 : Rdec 20 (-1) = 2) by (decs; lra). assert (Q2 : Rdec 125 (-2) = 1.25) by (decs; lra). assert (Q3 : Rdec 10 (-1) = 1) by (decs; lra). assert (Q4 : Rdec 312 (-7) = 0.0000312) by (decs; lra).
  rewrite Q1, Q2, Q3, Q4.
  replace (em + 2 * low_e * sin em + 1.25 * (low_e * low_e) * sin (2 * em)) with (em + low_centre em) by (unfold low_centre; ring).
  fold a. fold low_r. replace (em + low_centre em + low_perigee) with (low_longitude + low_centre em) by (unfold em; ring).
  apply vec_eq; unfold vadd, scale, eq_of, polar; cbn [v0 v1 v2]; rewrite ?sin_0, ?cos_0; lra.
Qed.
Lemma low_moon_near : anear 25e-4 moonlon (mean_moon TT).
Proof.
  unfold moonlon. destruct (Rfmod_congr (Rdec 472 (-2) + Rdec 839971 (-4) * t) (Rdec 628318530718 (-11))) as [k K].
  destruct (Rfmod_range (Rdec 472 (-2) + Rdec 839971 (-4) * t) (Rdec 628318530718 (-11))) as [G _]; [decs; lra|].
  assert (Q : Rdec 628318530718 (-11) = 628318530718 / 100000000000) by (decs; lra).
  assert (Q1 : Rdec 472 (-2) = 472 / 100) by (decs; lra). assert (Q2 : Rdec 839971 (-4) = 839971 / 10000) by (decs; lra).
  rewrite Q, Q1, Q2 in *. fold t in T.
  specialize (G ltac:(lra)). set (m := Rfmod _ _) in *.
  assert (KB : (-1 < k < 3000)%Z). { split; apply lt_IZR; lra. } destruct KB as [KB1 KB2].
  assert (KR : 0 <= IZR k <= 3000) by (split; apply IZR_le; lia).
  exists (- k)%Z. rewrite opp_IZR. pose proof PI_bounds as P. unfold mean_moon. unfold TT.
  assert (PK : - 1e-7 <= (2 * PI - 628318530718 / 100000000000) * IZR k <= 1e-7) by nra.
  assert (PT : Rabs ((PI - 3.14159265358979) * t) <= 1e-9) by (apply Rabs_le; nra). apply ab in PT.
  apply Rabs_le. split; lra.
Qed.
Lemma low_newcomb : norm (vadd (vadd (pos (earth_pv (N := RNum) (IZR y) yf)) (newcomb_sun TT)) (scale 0.0000312 (moonward TT))) <= 4.5e-5.
Proof.
  rewrite low_pos. rewrite sun_flip. fold b g.
  pose proof low_radius_near as RN. pose proof low_ob_near as ON. pose proof low_centre_near as CN. destruct low_longitude_near as [k K].
  assert (RS : Rabs (low_r - 1) <= 18 / 1000).
  { unfold low_r. pose proof low_a as A. set (f := cos (em + low_centre em)). assert (FB : Rabs f <= 1) by apply cos1.
    assert (X : Rabs (a * f) <= 168 / 10000) by bnd. apply ab in X.
    assert (P : Rabs (/ (1 + a * f)) <= 10171 / 10000). { eapply Rle_trans; [apply (inv_bound _ (9832 / 10000)); lra|]. lra. }
    replace ((1 - a * a) / (1 + a * f) - 1) with (- (a * (a + f)) * / (1 + a * f)) by (field; lra). 
    assert (B : Rabs (a * (a + f)) <= 17083 / 1000000) by bnd. bnd. }
  apply ab in RS. pose proof (ab _ _ RN) as RN'.
  set (l := sun_longitude TT + centre b g) in *. set (m := low_longitude + low_centre em).
  replace (polar (newcomb_r TT) (l - PI) 0) with (scale (-1) (polar (newcomb_r TT) (l + IZR k * (2 * PI)) 0)).
  2: { apply vec_eq; unfold scale, polar; cbn [v0 v1 v2]; rewrite ?cos_minus, ?sin_minus, ?cos_PI, ?sin_PI, cos_period_Z || rewrite ?cos_minus, ?sin_minus, ?cos_PI, ?sin_PI, sin_period_Z || rewrite sin_0; rewrite ?cos_PI, ?sin_PI; ring. }
  set (p := polar low_r m 0). set (q := polar (newcomb_r TT) (l + IZR k * (2 * PI)) 0).
  assert (D : norm (vsub p q) <= 3e-6 + 11 / 10 * 35e-6).
  { apply polar_apart; [lra|lra|exact RN|]. unfold m, l. 
    replace (low_longitude + low_centre em - (sun_longitude TT + centre b g + IZR k * (2 * PI))) with ((low_longitude - sun_longitude TT - IZR k * (2 * PI)) + (low_centre em - centre b g)) by ring. bnd. }
  set (h := V3 (cos moonlon) (sin moonlon * cos low_ob) 0).
  assert (HM : norm (vsub (moonward TT) h) <= 36e-4).
  { pose proof (anear_cos _ _ _ low_moon_near) as MC. pose proof (anear_sin _ _ _ low_moon_near) as MS. destruct (trig_near _ _ _ ON) as [_ C].
    unfold h, moonward. change (dms 23 27 8.26 - arcsecond * (46.845 * TT + 0.0059 * TT ^ 2 - 0.00181 * TT ^ 3)) with (newcomb_obliquity TT).
    set (c1 := cos (newcomb_obliquity TT)) in *. set (c2 := cos low_ob) in *. assert (C2 : Rabs c1 <= 1) by apply cos1. assert (SB : Rabs (sin moonlon) <= 1) by apply sin1.
    set (ca := cos moonlon) in *. set (cb := cos (mean_moon TT)) in *. set (sa := sin moonlon) in *. set (sb := sin (mean_moon TT)) in *.
    apply (norm_box _ 25e-4 2502e-6 0); unfold vsub; cbn [v0 v1 v2]; try lra.
    - rewrite Rabs_minus_sym. exact MC.
    - replace (sb * c1 - sa * c2) with (- ((sa - sb) * c1) - sa * (c2 - c1)) by ring. bnd.
    - rewrite Rminus_0_r, Rabs_R0. lra. }
  set (k0 := 0.0000312) in *. replace (vadd (vadd (vadd (scale (-1) (eq_of low_ob 0 p)) (scale (- k0) h)) (scale (-1) (eq_of (newcomb_obliquity TT) 0 (scale (-1) q)))) (scale k0 (moonward TT))) with
    (vadd (scale (-1) (mapply (frame_x (- low_ob)) (vsub p q))) (vadd (scale k0 (vsub (moonward TT) h)) (vsub (eq_of (newcomb_obliquity TT) 0 q) (eq_of low_ob 0 q)))).
  2: { clearbody p q h k0. apply vec_eq; unfold vadd, vsub, scale, eq_of, mapply, frame_x, dot; cbn [v0 v1 v2 r0 r1 r2]; rewrite ?cos_neg, ?sin_neg; ring. }
  eapply Rle_trans; [apply norm_triangle|]. rewrite norm_scale_abs, rotation_norm by apply rotation_frame_x. rewrite Rabs_left by lra.
  assert (NN : norm (vadd (scale k0 (vsub (moonward TT) h)) (vsub (eq_of (newcomb_obliquity TT) 0 q) (eq_of low_ob 0 q))) <= 22e-7).
  { eapply Rle_trans; [apply norm_triangle|]. rewrite norm_scale_abs, Rabs_right by (unfold k0; lra).
    assert (E : norm (vsub (eq_of (newcomb_obliquity TT) 0 q) (eq_of low_ob 0 q)) <= 2e-6).
    { destruct (trig_near _ _ _ ON) as [S C]. assert (Q : norm q <= 102 / 100) by (unfold q; rewrite polar_norm, Rabs_pos_eq; lra).
      destruct (comp_norm q) as (_ & X1 & X2). assert (V2 : v2 q = 0) by (unfold q, polar; cbn [v2]; rewrite sin_0; ring).
      apply (norm_box _ 0 1.1e-6 1.1e-6); unfold vsub, eq_of; cbn [v0 v1 v2]; rewrite ?V2; try lra.
      - rewrite Rabs_right; lra.
      - set (c1 := cos (newcomb_obliquity TT)) in *. set (c2 := cos low_ob) in *. assert (Y : Rabs (v1 q) <= 102 / 100) by lra.
        match goal with |- Rabs ?z <= _ => replace z with (- ((c2 - c1) * v1 q)) by lra end. bnd.
      - set (c1 := sin (newcomb_obliquity TT)) in *. set (c2 := sin low_ob) in *. assert (Y : Rabs (v1 q) <= 102 / 100) by lra.
        match goal with |- Rabs ?z <= _ => replace z with (- ((c2 - c1) * v1 q)) by lra end. bnd. }
    unfold k0. lra. }
  lra.
Qed.
End Low.

Lemma moonward_norm T : norm (moonward T) <= 1.
Proof.
  unfold moonward. set (e := dms _ _ _ - _). apply norm_le; [lra|]. unfold dot; cbn [v0 v1 v2]. pose proof (sc1' (mean_moon T)). pose proof (cos1 e) as C1. apply ab in C1.
  assert (cos e * cos e <= 1) by nra. assert (0 <= sin (mean_moon T) * sin (mean_moon T)) by nra. nra.
Qed.
Lemma earth_yf_fraction year day f : earth_yf year day f = year_fraction year day f.
Proof.
  unfold earth_yf, year_fraction. rewrite !minus_IZR, mult_IZR, minus_IZR.
  set (c := IZR (if (year mod 4 =? 0)%Z then 1 else 0)). set (m := IZR (year mod 4)). lra.
Qed.
Lemma earth_newcomb (year day n : Z) (f : R) :
  (1901 <= year <= 2099)%Z -> (1 <= day <= jyear_length year)%Z -> 0 <= f <= 1 -> is_mjd (Dt year 1 1) n ->
  exists pv, earth (N := RNum) year day f = Some pv /\
    let T := centuries1900 (IZR (n + day - 1) + f) in
    norm (vadd (vadd (pos pv) (newcomb_sun T)) (scale 0.0000312 (moonward T))) <= 4.5e-5.
Proof.
  intros Y D F H.
  assert (D2 : (1 <= day <= 366)%Z). { unfold jyear_length in D. destruct (jleap year); lia. }
  eexists. split; [apply earth_some; unfold INT_MIN, INT_MAX; lia|].
  pose proof (epoch_date year day n f Y H) as E.
  pose proof (earth_yf_ge year day f ltac:(lia) (proj1 F)) as G.
  assert (U : earth_yf year day f <= 1.01).
  { unfold earth_yf. pose proof (Z.mod_pos_bound year 4 ltac:(lia)) as MB.
    assert (Z1 : (4 * (day - (if (year mod 4 =? 0) then 1 else 0)) - year mod 4 - 2 <= 1463)%Z) by (destruct (Z.eqb_spec (year mod 4) 0); lia).
    apply IZR_le in Z1. lra. }
  assert (YR : 1 <= IZR (year - 1900) <= 199) by (split; apply IZR_le; lia).
  rewrite <- earth_yf_fraction in E.
  cbv zeta. replace (centuries1900 (IZR (n + day - 1) + f)) with ((IZR (year - 1900) + earth_yf year day f) / 100) by (rewrite E; field).
  apply low_newcomb; lra.
Qed.
Lemma earth_evp (year day n : Z) (f : R) :
  (1901 <= year <= 2099)%Z -> (1 <= day <= jyear_length year)%Z -> 0 <= f <= 1 -> is_mjd (Dt year 1 1) n ->
  exists pv, earth (N := RNum) year day f = Some pv /\
    norm (vsub (pos pv) (pos (fst (evp (N := RNum) (IZR (n + day - 1) + f) 0)))) <= 6.3e-4.
Proof.
  intros Y D F H. destruct (earth_newcomb year day n f Y D F H) as (pv & E & B). exists pv. split; [exact E|].
  assert (T : Rabs (centuries1900 (IZR (n + day - 1) + f)) <= 10).
  { rewrite (new_year_mjd _ _ Y H). unfold jyear_length in D. assert (D2 : (1 <= day <= 366)%Z) by (destruct (jleap year); lia).
    assert (X : (15000 <= 15020 + 365 * (year - 1900) + (year - 1901) / 4 + day - 1 <= 88100)%Z) by (Z.div_mod_to_equations; lia).
    destruct X as (X1 & X2). apply IZR_le in X1, X2. unfold centuries1900. apply Rabs_le. lra. }
  pose proof (evp_newcomb _ T) as N. cbv zeta in B. pose proof (moonward_norm (centuries1900 (IZR (n + day - 1) + f))) as M.
  set (a := pos pv) in *. set (b := pos (fst _)) in *. set (s := newcomb_sun _) in *. set (m := moonward _) in *.
  replace (6.3e-4) with (8e-5 + 5.5e-4) by lra. apply (dist_trans a (scale (-1) s) b).
  - replace (vsub a (scale (-1) s)) with (vadd (vadd (vadd a s) (scale 0.0000312 m)) (scale (Ropp 0.0000312) m))
      by (set (k0 := 0.0000312); clearbody k0; apply vec_eq; unfold vsub, vadd, scale; cbn [v0 v1 v2]; ring).
    eapply Rle_trans; [apply norm_triangle|]. rewrite (norm_scale_abs (Ropp 0.0000312)), Rabs_left by lra. lra.
  - eapply Rle_trans; [|exact N]. right. rewrite norm_vsub_sym. f_equal. unfold vsub, vadd, scale; cbn [v0 v1 v2]. f_equal; ring.
Qed.
