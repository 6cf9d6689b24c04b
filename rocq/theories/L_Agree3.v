(** The velocity of the low-precision Earth against the motion of Newcomb's
    ellipse. *)
From Coq Require Import Reals ZArith Lra Lia List.
From Coquelicot Require Import Coquelicot.
From Verif Require Import Int32 Num NumR L_Pi L_Real M_Vec M_Site M_Epoch M_Frame M_EphTab M_Eph M_EvpTab M_Evp S_Geom S_Frame S_Calendar S_Eph S_Site S_Evp S_Agree L_Vec L_Trig L_Frame L_NutDiff L_Rcc L_Site L_Eph L_EphB L_EvpA L_EvpB L_EvpC L_EvpD L_EvpE L_EvpF L_EvpG L_EvpH L_EvpI L_EvpJ L_MoonB L_Moon10 L_Agree L_Agree2.
Import ListNotations.
From Verif Require L_FltGeo.
Open Scope R_scope.

Lemma sin_odd_cubic x : Rabs x <= 0.04 -> Rabs (sin x - x) <= 11e-6.
Proof.
  intros H. apply ab in H. destruct (Rtotal_order x 0) as [L | [-> | G]].
  - destruct (sin_small (- x) ltac:(lra)) as [A B]. rewrite sin_neg in A, B. assert (- x * - x * - x <= 64e-6) by nra. apply Rabs_le. lra.
  - rewrite sin_0, Rminus_0_r, Rabs_R0. lra.
  - destruct (sin_small x ltac:(lra)) as [A B]. assert (x * x * x <= 64e-6) by nra. apply Rabs_le. lra.
Qed.
Lemma cos_close x : Rabs x <= 0.034 -> Rabs (cos x - 1) <= 578e-6.
Proof.
  intros H. apply ab in H. pose proof (L_FltGeo.cos_quadratic x) as Q. pose proof (COS_bound x). apply Rabs_le. nra.
Qed.

(** Derivatives of the equation of the centre. *)
Definition centre_e (e g : R) : R := (2 - 3 / 4 * e ^ 2) * sin g + 5 / 2 * e * sin (2 * g) + 13 / 4 * e ^ 2 * sin (3 * g).
Definition centre_g (e g : R) : R := (2 * e - e ^ 3 / 4) * cos g + 5 / 2 * e ^ 2 * cos (2 * g) + 13 / 4 * e ^ 3 * cos (3 * g).
Lemma centre_derive (e g : R -> R) t e' g' : is_derive e t e' -> is_derive g t g' ->
  is_derive (fun t => centre (e t) (g t)) t (centre_e (e t) (g t) * e' + centre_g (e t) (g t) * g').
Proof.
  intros E G. unfold centre, centre_e, centre_g. auto_derive.
  - repeat split; try (exists e'; exact E); try (exists g'; exact G).
  - derives. field.
Qed.

(** Kepler's second law for the truncated series: the rate of the true anomaly
    times the squared distance. *)
Lemma areas e g : Rabs e <= 168 / 10000 ->
  Rabs (1 + centre_g e g - (1 + e * cos (g + centre e g)) ^ 2 - 3 / 2 * e ^ 2) <= 8e-5.
Proof.
  intros E. set (c := centre e g).
  assert (C : Rabs c <= 0.034) by (unfold c, centre; bnd).
  assert (C2 : Rabs (c - 2 * e * sin g) <= 37e-5).
  { unfold c, centre. replace ((2 * e - e ^ 3 / 4) * sin g + 5 / 4 * e ^ 2 * sin (2 * g) + 13 / 12 * e ^ 3 * sin (3 * g) - 2 * e * sin g) with
      (- (e ^ 3 / 4 * sin g) + 5 / 4 * e ^ 2 * sin (2 * g) + 13 / 12 * e ^ 3 * sin (3 * g)) by ring. bnd. }
  pose proof (sin_odd_cubic c ltac:(lra)) as S. pose proof (cos_close c C) as K.
  unfold centre_g. rewrite cos_plus, cos_2a. clearbody c.
  set (a := sin c - c) in *. set (b := cos c - 1) in *. set (d := c - 2 * e * sin g) in *. set (w := cos (3 * g)). assert (W : Rabs w <= 1) by apply cos1.
  replace (sin c) with (a + d + 2 * e * sin g) by (unfold a, d; ring). replace (cos c) with (b + 1) by (unfold b; ring).
  pose proof (sc1' g) as P. assert (SG : Rabs (sin g) <= 1) by apply sin1. assert (CG : Rabs (cos g) <= 1) by apply cos1.
  clearbody a b d w. set (s := sin g) in *. set (k := cos g) in *.
  set (h := b * k - s * (a + d + 2 * e * s)).
  assert (H : Rabs h <= 346e-4) by (unfold h; bnd).
  replace (1 + ((2 * e - e ^ 3 / 4) * k + 5 / 2 * e ^ 2 * (k * k - s * s) + 13 / 4 * e ^ 3 * w) - (1 + e * (k * (b + 1) - s * (a + d + 2 * e * s))) ^ 2 - 3 / 2 * e ^ 2)
    with (- (e ^ 3 / 4 * k) + 13 / 4 * e ^ 3 * w - 2 * e * (b * k) + 2 * e * (s * (a + d)) - e ^ 2 * (h * (2 * k + h))).
  2: { replace (b * k) with (h + s * (a + d + 2 * e * s)) by (unfold h; ring). 
       replace (k * (b + 1) - s * (a + d + 2 * e * s)) with (k + h) by (unfold h; ring).
       replace (k * k) with (1 - s * s) by lra.
       replace ((1 + e * (k + h)) ^ 2) with (1 + 2 * e * k + 2 * e * h + e ^ 2 * (k * k) + e ^ 2 * (2 * k * h + h * h)) by ring.
       replace (k * k) with (1 - s * s) by lra. field. }
  bnd.
Qed.

(** Newcomb's elements and their rates per century. *)
Section Newcomb.
Context (s : R) (Hs : 0 <= s <= 2.01).
Definition nc_e' : R := - 0.0000418 - 0.000000252 * s.
Definition nc_g' : R := arcsecond * (129596579.10 - 1.08 * s).
Definition nc_l' : R := arcsecond * (129602768.13 + 2.178 * s).
Definition nc_ob' : R := - (arcsecond * (46.845 + 0.0118 * s - 0.00543 * s ^ 2)).
Definition nc_m' : R := 481267.8831 * (PI / 180).
Lemma nc_e_derive : is_derive eccentricity s nc_e'.
Proof. unfold eccentricity, nc_e'. auto_derive; [trivial|lra]. Qed.
Lemma nc_g_derive : is_derive sun_anomaly s nc_g'.
Proof. unfold sun_anomaly, nc_g'. set (k := arcsecond). auto_derive; [trivial|lra]. Qed.
Lemma nc_l_derive : is_derive sun_longitude s nc_l'.
Proof. unfold sun_longitude, nc_l'. set (k := arcsecond). auto_derive; [trivial|lra]. Qed.
Lemma nc_ob_derive : is_derive newcomb_obliquity s nc_ob'.
Proof. unfold newcomb_obliquity, nc_ob'. set (k := arcsecond). auto_derive; [trivial|lra]. Qed.
Lemma nc_m_derive : is_derive mean_moon s nc_m'.
Proof. unfold mean_moon, nc_m'. set (k := PI / 180). auto_derive; [trivial|lra]. Qed.
Let e := eccentricity s.
Let g := sun_anomaly s.
Let c := centre e g.
Let v := g + c.
Let d := 1 + e * cos v.
Let l := sun_longitude s + c.
Let r := psi e v.
Definition nc_c' : R := centre_e e g * nc_e' + centre_g e g * nc_g'.
Definition nc_v' : R := nc_g' + nc_c'.
Definition nc_r' : R := psi_e e v * nc_e' + psi_f e v * nc_v'.
Lemma nc_e_bound : Rabs e <= 168 / 10000.
Proof. unfold e, eccentricity. apply Rabs_le. split; nra. Qed.
Lemma nc_d_bound : 983 / 1000 <= d <= 1017 / 1000.
Proof. pose proof nc_e_bound as E. assert (X : Rabs (e * cos v) <= 168 / 10000) by bnd. apply ab in X. unfold d. lra. Qed.
Lemma nc_c_derive : is_derive (fun s => centre (eccentricity s) (sun_anomaly s)) s nc_c'.
Proof. apply centre_derive; [apply nc_e_derive|apply nc_g_derive]. Qed.
Lemma nc_v_derive : is_derive (fun s => sun_anomaly s + centre (eccentricity s) (sun_anomaly s)) s nc_v'.
Proof. apply (is_derive_plus sun_anomaly); [apply nc_g_derive|apply nc_c_derive]. Qed.
Lemma nc_r_derive : is_derive (fun s => psi (eccentricity s) (sun_anomaly s + centre (eccentricity s) (sun_anomaly s))) s nc_r'.
Proof.
  apply (psi_derive eccentricity); [apply nc_e_derive|apply nc_v_derive|]. pose proof nc_d_bound as D. unfold d, v, c, e, g in D. lra.
Qed.
Lemma nc_ll_derive : is_derive (fun s => sun_longitude s + centre (eccentricity s) (sun_anomaly s)) s (nc_l' + nc_c').
Proof. apply (is_derive_plus sun_longitude); [apply nc_l_derive|apply nc_c_derive]. Qed.

(** The areal rate over the semi-latus rectum. *)
Definition nc_h : R := nc_v' * ((1 - e * e) * (/ d * / d)).
Definition kap : R := / 3155760000.
Lemma nc_h_near : Rabs (kap * nc_h - 1.9913e-7) <= 3e-11.
Proof.
  pose proof nc_e_bound as E. pose proof (areas e g E) as A. fold c v d in A. pose proof nc_d_bound as D.
  set (q := 1 + centre_g e g - d ^ 2 - 3 / 2 * e ^ 2) in A.
  assert (E2 : 276e-6 <= e * e <= 2823e-7).
  { unfold e, eccentricity. assert (0.0166 <= 0.01675104 - 0.0000418 * s - 0.000000126 * s ^ 2 <= 0.0168) by nra. nra. }
  assert (I : Rabs (/ d * / d - 1) <= 36e-3).
  { assert (P : 0 < / d) by (apply Rinv_0_lt_compat; lra). assert (X : / d * d = 1) by (field; lra). set (i := / d) in *.
    assert (0.983 <= i <= 1.0173) by nra. apply Rabs_le. nra. }
  assert (CE : Rabs (centre_e e g * nc_e') <= 1e-4).
  { assert (N : Rabs nc_e' <= 43e-6) by (unfold nc_e'; apply Rabs_le; lra). unfold centre_e. bnd. }
  assert (G : 628.301 <= nc_g' <= 628.302) by (unfold nc_g', arcsecond; nra).
  assert (GG : Rabs (kap * nc_g' - 1.990967e-7) <= 1e-12) by (unfold kap; apply Rabs_le; lra).
  assert (HH : nc_h = nc_g' * (1 + e * e / 2) + nc_g' * (q - 3 / 2 * (e * e) * (e * e) - (e * e) * q + (/ d * / d - 1) * ((1 - e * e) * (3 / 2 * (e * e) + q))) + (1 - e * e) * (/ d * / d) * (centre_e e g * nc_e')).
  { unfold nc_h, nc_v', nc_c'. set (ce := centre_e e g * nc_e'). replace (centre_g e g) with (q + d ^ 2 + 3 / 2 * e ^ 2 - 1) by (unfold q; ring). clearbody q. field. lra. }
  rewrite HH. set (u := e * e) in *. set (i := / d * / d - 1) in *. replace (/ d * / d) with (1 + i) by (unfold i; ring). set (x := centre_e e g * nc_e') in *.
  clearbody q u i x. clear HH.
  assert (U : Rabs u <= 2823e-7) by (apply Rabs_le; lra).
  assert (B : Rabs (q - 3 / 2 * u * u - u * q + i * ((1 - u) * (3 / 2 * u + q))) <= 99e-6) by bnd.
  assert (Y : Rabs ((1 - u) * (1 + i) * x) <= 105e-6) by bnd.
  set (z := q - 3 / 2 * u * u - u * q + i * ((1 - u) * (3 / 2 * u + q))) in *. set (y := (1 - u) * (1 + i) * x) in *. clearbody z y.
  apply ab in GG. set (k := kap * nc_g') in *.
  replace (kap * (nc_g' * (1 + u / 2) + nc_g' * z + y) - 1.9913e-7) with (k * (1 + u / 2) - 1.9913e-7 + k * z + kap * y) by (unfold k; ring).
  assert (K1 : Rabs k <= 2e-7) by (apply Rabs_le; lra). assert (K2 : Rabs (k * (1 + u / 2) - 1.9913e-7) <= 8e-12) by (apply Rabs_le; nra).
  assert (K3 : Rabs kap <= 4e-10) by (unfold kap; apply Rabs_le; lra). clearbody k. bnd.
Qed.
End Newcomb.

Definition k_moon : R := 0.0000312.
Definition ne_x' (s : R) : R :=
  let e := eccentricity s in let v := sun_anomaly s + centre e (sun_anomaly s) in let l := sun_longitude s + centre e (sun_anomaly s) in
  nc_h s * (sin l + e * sin (sun_longitude s - sun_anomaly s)) - psi_e e v * nc_e' s * cos l + psi e v * (nc_l' s - nc_g' s) * sin l.
Definition ne_y' (s : R) : R :=
  let e := eccentricity s in let v := sun_anomaly s + centre e (sun_anomaly s) in let l := sun_longitude s + centre e (sun_anomaly s) in
  - (nc_h s * (cos l + e * cos (sun_longitude s - sun_anomaly s))) - psi_e e v * nc_e' s * sin l - psi e v * (nc_l' s - nc_g' s) * cos l.
Definition ne_y (s : R) : R :=
  let e := eccentricity s in - (psi e (sun_anomaly s + centre e (sun_anomaly s)) * sin (sun_longitude s + centre e (sun_anomaly s))).
Definition ne_velo (s : R) : RV :=
  V3 (ne_x' s + k_moon * nc_m' * sin (mean_moon s))
     ((ne_y' s - k_moon * nc_m' * cos (mean_moon s)) * cos (newcomb_obliquity s) - (ne_y s - k_moon * sin (mean_moon s)) * (nc_ob' s * sin (newcomb_obliquity s)))
     (ne_y' s * sin (newcomb_obliquity s) + ne_y s * (nc_ob' s * cos (newcomb_obliquity s))).
Lemma plane_derive (r l : R -> R) s r' l' : is_derive r s r' -> is_derive l s l' ->
  is_derive (fun s => - (r s * cos (l s))) s (- (r' * cos (l s)) + r s * l' * sin (l s)) /\
  is_derive (fun s => - (r s * sin (l s))) s (- (r' * sin (l s)) - r s * l' * cos (l s)).
Proof. intros A B. split; (auto_derive; [repeat split; first [exists r'; exact A|exists l'; exact B]|derives; ring]). Qed.
Lemma ne_plane s : 0 <= s <= 2.01 ->
  is_derive (fun s => - (psi (eccentricity s) (sun_anomaly s + centre (eccentricity s) (sun_anomaly s)) * cos (sun_longitude s + centre (eccentricity s) (sun_anomaly s)))) s (ne_x' s) /\
  is_derive ne_y s (ne_y' s).
Proof.
  intros H. destruct (plane_derive _ _ s _ _ (nc_r_derive s H) (nc_ll_derive s)) as [X Y]. pose proof (nc_d_bound s H) as D.
  set (e := eccentricity s) in *. set (g := sun_anomaly s) in *. set (c := centre e g) in *.
  assert (LV : sun_longitude s - g = (sun_longitude s + c) - (g + c)) by ring.
  assert (R1 : nc_r' s = psi_e e (g + c) * nc_e' s + e * sin (g + c) * nc_h s).
  { unfold nc_r', nc_h, psi_f. fold e g c. field. lra. }
  assert (R2 : psi e (g + c) * (nc_l' s + nc_c' s) = nc_h s * (1 + e * cos (g + c)) + psi e (g + c) * (nc_l' s - nc_g' s)).
  { unfold nc_h, nc_v', psi. fold e g c. field. lra. }
  unfold ne_x', ne_y', ne_y. fold e g c. rewrite LV, sin_minus, cos_minus. split.
  - eapply is_derive_ext; [intros z; reflexivity|]. 
    match goal with |- is_derive _ _ ?d => match type of X with is_derive _ _ ?d' => replace d with d'; [exact X|] end end.
    rewrite R1. replace (psi e (g + c) * (nc_l' s + nc_c' s)) with (nc_h s * (1 + e * cos (g + c)) + psi e (g + c) * (nc_l' s - nc_g' s)) by (symmetry; exact R2). ring.
  - match goal with |- is_derive _ _ ?d => match type of Y with is_derive _ _ ?d' => replace d with d'; [exact Y|] end end.
    rewrite R1. replace (psi e (g + c) * (nc_l' s + nc_c' s)) with (nc_h s * (1 + e * cos (g + c)) + psi e (g + c) * (nc_l' s - nc_g' s)) by (symmetry; exact R2). ring.
Qed.
Lemma ne_derive s : 0 <= s <= 2.01 -> derives_to newcomb_earth s (ne_velo s).
Proof.
  intros H. destruct (ne_plane s H) as [X Y]. pose proof (nc_ob_derive s) as O. pose proof (nc_m_derive s) as M.
  assert (P : forall s, newcomb_earth s = V3 (- (psi (eccentricity s) (sun_anomaly s + centre (eccentricity s) (sun_anomaly s)) * cos (sun_longitude s + centre (eccentricity s) (sun_anomaly s))) - k_moon * cos (mean_moon s))
    ((ne_y s - k_moon * sin (mean_moon s)) * cos (newcomb_obliquity s)) (ne_y s * sin (newcomb_obliquity s))).
  { intros z. unfold newcomb_earth, newcomb_sun, moonward, ne_y, psi. cbv zeta. fold (newcomb_obliquity z). fold k_moon.
    replace (eccentricity z ^ 2) with (eccentricity z * eccentricity z) by ring. apply vec_eq; unfold vadd, scale; cbn [v0 v1 v2]; ring. }
  unfold derives_to, ne_velo. cbn [v0 v1 v2]. split; [|split].
  - eapply is_derive_ext; [intros z; rewrite P; reflexivity|]. cbn [v0]. set (f := fun s => - _) in X. 
    change (is_derive (fun s => f s - k_moon * cos (mean_moon s)) s (ne_x' s + k_moon * nc_m' * sin (mean_moon s))).
    set (x' := ne_x' s) in *. clearbody f x'. auto_derive; [repeat split; first [exists x'; exact X | eexists; exact M]|derives; ring].
  - eapply is_derive_ext; [intros z; rewrite P; reflexivity|]. cbn [v1]. 
    set (y' := ne_y' s) in *. clearbody y'. auto_derive; [repeat split; first [exists y'; exact Y | eexists; exact M | eexists; exact O]|derives; ring].
  - eapply is_derive_ext; [intros z; rewrite P; reflexivity|]. cbn [v2].
    set (y' := ne_y' s) in *. clearbody y'. auto_derive; [repeat split; first [exists y'; exact Y | eexists; exact O]|derives; ring].
Qed.

Section LowVelocity.
Context (y : Z) (yf : R) (T : 0 <= IZR y + yf <= 201) (F : -0.01 <= yf <= 1.01).
Let t := IZR y + yf.
Let s := t / 100.
Let Hs : 0 <= s <= 2.01.
Proof. unfold s, t. lra. Qed.
Let em := low_longitude y yf - low_perigee y yf.
Let m := low_longitude y yf + low_centre y yf em.
Let ga := low_perigee y yf.
Let a := low_e y yf.
Let ob := low_ob y yf.
Let ml := Rfmod (Rdec 472 (-2) + Rdec 839971 (-4) * t) (Rdec 628318530718 (-11)).
Let S0 : R := 1.9913e-7.
Let M0 : R := 831e-13.
Lemma low_velo : velo (earth_pv (N := RNum) (IZR y) yf) =
  V3 (S0 * (sin m + a * sin ga) + M0 * sin ml) ((- (S0 * (cos m + a * cos ga)) - M0 * cos ml) * cos ob) (- (S0 * (cos m + a * cos ga)) * sin ob).
Proof.
  unfold earth_pv. unR. cbv zeta. cbn [velo]. fold t.
  change (Rfmod (Rdec 4881628 (-6) + Rdec 628318530718 (-11) * yf + Rdec 13420 (-8) * t) (Rdec 628318530718 (-11))) with (low_longitude y yf).
  change (Rdec 4908230 (-6) + Rdec 30005 (-8) * t) with (low_perigee y yf). change (Rdec 16751 (-6) - Rdec 42 (-8) * t) with (low_e y yf).
  change (Rdec 40931975 (-8) - Rdec 227 (-8) * t) with (low_ob y yf). fold em. fold ml.
  assert (Q1 : Rdec 20 (-1) = 2) by (decs; lra). assert (Q2 : Rdec 125 (-2) = 1.25) by (decs; lra). assert (Q3 : Rdec 19913 (-11) = S0) by (unfold S0; decs; lra). assert (Q4 : Rdec 831 (-13) = M0) by (unfold M0; decs; lra).
  rewrite Q1, Q2, Q3, Q4. fold a ob ga.
  replace (em + 2 * a * sin em + 1.25 * (a * a) * sin (2 * em)) with (em + low_centre y yf em) by (unfold low_centre; fold a; ring).
  replace (em + low_centre y yf em + ga) with m by (unfold m, em, ga; ring).
  apply vec_eq; cbn [v0 v1 v2]; ring.
Qed.
Let e := eccentricity s.
Let l := sun_longitude s + centre e (sun_anomaly s).
Let ge := sun_longitude s - sun_anomaly s.
Lemma m_near : anear 35e-6 m l.
Proof.
  replace (35e-6) with (23e-6 + 12e-6) by lra. unfold m, l. apply anear_add; [exact (low_longitude_near y yf T F)|].
  apply anear_abs. exact (low_centre_near y yf T F).
Qed.
Lemma ga_near : anear 79e-6 ga ge.
Proof.
  replace (79e-6) with (23e-6 + 56e-6) by lra. replace ga with (low_longitude y yf - em) by (unfold em, ga; ring).
  unfold ge. apply anear_sub; [exact (low_longitude_near y yf T F)|exact (low_anomaly_near y yf T F)].
Qed.
Lemma part_bound (f1 f2 g1 g2 h1 h2 x1 x2 : R) : Rabs (f1 - f2) <= 35e-6 -> Rabs (g1 - g2) <= 79e-6 -> Rabs f2 <= 1 -> Rabs g2 <= 1 -> Rabs g1 <= 1 ->
  Rabs h1 <= 1 -> Rabs (h1 - h2) <= 25e-4 -> Rabs h2 <= 1 -> Rabs x1 <= 1 -> Rabs x2 <= 1 ->
  Rabs (S0 * (f1 + a * g1) + M0 * h1 - kap * (nc_h s * (f2 + e * g2) - psi_e e (sun_anomaly s + centre e (sun_anomaly s)) * nc_e' s * x1 +
    psi e (sun_anomaly s + centre e (sun_anomaly s)) * (nc_l' s - nc_g' s) * x2 + k_moon * nc_m' * h2)) <= 49e-12 /\
  Rabs (S0 * (f1 + a * g1) - kap * (nc_h s * (f2 + e * g2) - psi_e e (sun_anomaly s + centre e (sun_anomaly s)) * nc_e' s * x1 +
    psi e (sun_anomaly s + centre e (sun_anomaly s)) * (nc_l' s - nc_g' s) * x2)) <= 49e-12.
Proof.
  intros A1 A2 A3 A4 A5 A6 A7 A8 A9 A10.
  pose proof (nc_h_near s Hs) as H. fold S0 in H. pose proof (low_e_near y yf T) as E. change (Rabs (a - e) <= 7e-7) in E.
  pose proof (nc_e_bound s Hs) as EB. fold e in EB. assert (EB' : Rabs e <= 172 / 10000) by lra.
  set (v := sun_anomaly s + centre e (sun_anomaly s)).
  pose proof (psi_e_bound e v EB') as PE. pose proof (psi_bound e v EB') as PB.
  assert (N : Rabs (nc_e' s) <= 43e-6) by (unfold nc_e'; apply Rabs_le; lra).
  assert (G : Rabs (nc_l' s - nc_g' s) <= 3004e-5) by (unfold nc_l', nc_g', arcsecond; apply Rabs_le; lra).
  assert (K : Rabs kap <= 31689e-14) by (unfold kap; apply Rabs_le; lra).
  assert (MM : Rabs (M0 - kap * (k_moon * nc_m')) <= 1e-13).
  { unfold M0, kap, k_moon, nc_m'. pose proof PI_bounds. apply Rabs_le. lra. }
  assert (S1 : Rabs S0 <= 19913e-11) by (unfold S0; apply Rabs_le; lra). assert (M1 : Rabs M0 <= 831e-13) by (unfold M0; apply Rabs_le; lra).
  set (kh := kap * nc_h s) in *. set (q := M0 - kap * (k_moon * nc_m')) in *.
  set (p1 := psi_e e v) in *. set (p2 := psi e v) in *. set (n1 := nc_e' s) in *. set (n2 := nc_l' s - nc_g' s) in *.
  assert (C : S0 * (f1 + a * g1) - kap * (nc_h s * (f2 + e * g2) - p1 * n1 * x1 + p2 * n2 * x2) =
    S0 * (f1 - f2) + S0 * ((a - e) * g1 + e * (g1 - g2)) - (kh - S0) * (f2 + e * g2) + kap * (p1 * n1 * x1) - kap * (p2 * n2 * x2)) by (unfold kh; ring).
  assert (B : Rabs (S0 * (f1 + a * g1) - kap * (nc_h s * (f2 + e * g2) - p1 * n1 * x1 + p2 * n2 * x2)) <= 48e-12).
  { rewrite C. set (f := f1 - f2) in *. set (g := g1 - g2) in *. set (d := a - e) in *. set (w := kh - S0) in *. clearbody S0 f g d w p1 p2 n1 n2. clear - A1 A2 A3 A4 A5 A9 A10 H E EB PE PB N G K S1. bnd. }
  split; [|lra].
  set (z := S0 * (f1 + a * g1) - kap * (nc_h s * (f2 + e * g2) - p1 * n1 * x1 + p2 * n2 * x2)) in *.
  replace (S0 * (f1 + a * g1) + M0 * h1 - kap * (nc_h s * (f2 + e * g2) - p1 * n1 * x1 + p2 * n2 * x2 + k_moon * nc_m' * h2)) with (z + (M0 * (h1 - h2) + q * h2)) by (unfold z, q; ring).
  set (h := h1 - h2) in *. clearbody z q M0 h. clear - A7 A8 B MM M1. bnd.
Qed.
Lemma low_velocity : norm (vsub (velo (earth_pv (N := RNum) (IZR y) yf)) (scale kap (ne_velo s))) <= 7.1e-11.
Proof.
  rewrite low_velo. pose proof m_near as MN. pose proof ga_near as GN. pose proof (low_moon_near y yf T) as LN. fold t s ml in LN.
  pose proof (low_ob_near y yf T) as ON. fold t s ob in ON. destruct (trig_near _ _ _ ON) as [OS OC]. set (o := newcomb_obliquity s) in *.
  destruct (part_bound (sin m) (sin l) (sin ga) (sin ge) (sin ml) (sin (mean_moon s)) (cos l) (sin l)) as [BX _];
    try apply sin1; try apply cos1; [apply anear_sin, MN|apply anear_sin, GN|apply anear_sin, LN|].
  destruct (part_bound (cos m) (cos l) (cos ga) (cos ge) (cos ml) (cos (mean_moon s)) (- sin l) (cos l)) as [BY BZ];
    try apply sin1; try apply cos1; [apply anear_cos, MN|apply anear_cos, GN|apply anear_cos, LN|rewrite Rabs_Ropp; apply sin1|].
  set (X := S0 * (sin m + a * sin ga) + M0 * sin ml) in *. set (Y := S0 * (cos m + a * cos ga)) in *.
  assert (EX : X - kap * (ne_x' s + k_moon * nc_m' * sin (mean_moon s)) = X - kap * (nc_h s * (sin l + e * sin ge) - psi_e e (sun_anomaly s + centre e (sun_anomaly s)) * nc_e' s * cos l +
    psi e (sun_anomaly s + centre e (sun_anomaly s)) * (nc_l' s - nc_g' s) * sin l + k_moon * nc_m' * sin (mean_moon s))) by (unfold ne_x'; fold e l ge; ring).
  rewrite <- EX in BX. clear EX.
  assert (EY : - (Y + M0 * cos ml) - kap * (ne_y' s - k_moon * nc_m' * cos (mean_moon s)) = - (Y + M0 * cos ml - kap * (nc_h s * (cos l + e * cos ge) - psi_e e (sun_anomaly s + centre e (sun_anomaly s)) * nc_e' s * - sin l +
    psi e (sun_anomaly s + centre e (sun_anomaly s)) * (nc_l' s - nc_g' s) * cos l + k_moon * nc_m' * cos (mean_moon s)))) by (unfold ne_y'; fold e l ge; ring).
  rewrite <- Rabs_Ropp, <- EY in BY. clear EY.
  assert (EZ : - Y - kap * ne_y' s = - (Y - kap * (nc_h s * (cos l + e * cos ge) - psi_e e (sun_anomaly s + centre e (sun_anomaly s)) * nc_e' s * - sin l +
    psi e (sun_anomaly s + centre e (sun_anomaly s)) * (nc_l' s - nc_g' s) * cos l))) by (unfold ne_y'; fold e l ge; ring).
  rewrite <- Rabs_Ropp, <- EZ in BZ. clear EZ.
  assert (YB : Rabs (Y + M0 * cos ml) <= 21e-8 /\ Rabs Y <= 21e-8).
  { unfold Y. pose proof (low_a y yf T) as A. fold a in A. assert (S1 : Rabs S0 <= 2e-7) by (unfold S0; apply Rabs_le; lra). assert (M1 : Rabs M0 <= 1e-10) by (unfold M0; apply Rabs_le; lra). split; bnd. }
  destruct YB as [YB1 YB2].
  pose proof (nc_e_bound s Hs) as EB. fold e in EB. assert (EB' : Rabs e <= 172 / 10000) by lra.
  assert (NY : Rabs (ne_y s) <= 1018 / 1000). { unfold ne_y. fold e. pose proof (psi_bound e (sun_anomaly s + centre e (sun_anomaly s)) EB'). bnd. }
  assert (NO : Rabs (nc_ob' s) <= 24e-5) by (unfold nc_ob', arcsecond; apply Rabs_le; nra).
  assert (K : Rabs kap <= 32e-11) by (unfold kap; apply Rabs_le; lra).
  assert (KM : Rabs k_moon <= 1e-4) by (unfold k_moon; apply Rabs_le; lra).
  unfold ne_velo. fold o. 
  set (y1 := ne_y' s - k_moon * nc_m' * cos (mean_moon s)) in *. set (z1 := ne_y' s) in *. set (x1 := ne_x' s + k_moon * nc_m' * sin (mean_moon s)) in *.
  set (Y1 := Y + M0 * cos ml) in *. set (yy := ne_y s) in *. set (om := nc_ob' s) in *. set (ms := sin (mean_moon s)). assert (MS : Rabs ms <= 1) by apply sin1.
  set (co := cos o) in *. set (so := sin o) in *. set (cb := cos ob) in *. set (sb := sin ob) in *.
  assert (CS : cb * cb + sb * sb = 1) by apply sc1'.
  set (u := - Y1 - kap * y1) in *. set (w := - Y - kap * z1) in *. set (x := X - kap * x1) in *.
  set (P := V3 x (u * cb) (w * sb)).
  set (q1 := (- Y1 - u) * (cb - co) + kap * ((yy - k_moon * ms) * (om * so))).
  set (q2 := (- Y - w) * (sb - so) - kap * (yy * (om * co))).
  assert (CO : Rabs co <= 1) by apply cos1. assert (SO : Rabs so <= 1) by apply sin1.
  assert (Q1 : Rabs q1 <= 4e-13) by (unfold q1; clear - YB1 BY OC K NY KM MS NO SO; bnd).
  assert (Q2 : Rabs q2 <= 4e-13) by (unfold q2; clear - YB2 BZ OS K NY NO CO; bnd).
  replace (vsub _ _) with (vadd P (V3 0 q1 q2)).
  2: { unfold P, q1, q2, x, u, w. apply vec_eq; unfold vadd, vsub, scale; cbn [v0 v1 v2].
       - ring.
       - replace (- Y - M0 * cos ml) with (- Y1) by (unfold Y1; ring). clearbody Y1 y1. ring.
       - clearbody Y z1. ring. }
  eapply Rle_trans; [apply norm_triangle|].
  assert (NQ : norm (V3 0 q1 q2) <= 6e-13).
  { apply (norm_box _ 0 4e-13 4e-13); cbn [v0 v1 v2]; try lra. rewrite Rabs_R0. lra. }
  assert (NP : norm P <= 7e-11).
  { apply norm_le; [lra|]. unfold P, dot; cbn [v0 v1 v2]. apply ab in BX, BY, BZ. clearbody x u w cb sb. clear - BX BY BZ CS.
    assert (x * x <= 2401e-24) by nra. assert (u * u <= 2401e-24) by nra. assert (w * w <= 2401e-24) by nra.
    assert (0 <= cb * cb) by nra. assert (0 <= sb * sb) by nra. nra. }
  lra.
Qed.
End LowVelocity.

Lemma earth_velocity (year day n : Z) (f : R) :
  (1901 <= year <= 2099)%Z -> (1 <= day <= jyear_length year)%Z -> 0 <= f <= 1 -> is_mjd (Dt year 1 1) n ->
  exists pv w, earth (N := RNum) year day f = Some pv /\ velocity_at newcomb_path (IZR (n + day - 1) + f) w /\
    norm (vsub (velo pv) (scale (/ 86400) w)) <= 7.1e-11.
Proof.
  intros Y D F H.
  assert (D2 : (1 <= day <= 366)%Z). { unfold jyear_length in D. destruct (jleap year); lia. }
  eexists. eexists. split; [apply earth_some; unfold INT_MIN, INT_MAX; lia|].
  pose proof (epoch_date year day n f Y H) as E.
  pose proof (earth_yf_ge year day f ltac:(lia) (proj1 F)) as G.
  assert (U : earth_yf year day f <= 1.01).
  { unfold earth_yf. pose proof (Z.mod_pos_bound year 4 ltac:(lia)) as MB.
    assert (Z1 : (4 * (day - (if (year mod 4 =? 0) then 1 else 0)) - year mod 4 - 2 <= 1463)%Z) by (destruct (Z.eqb_spec (year mod 4) 0); lia).
    apply IZR_le in Z1. lra. }
  assert (YR : 1 <= IZR (year - 1900) <= 199) by (split; apply IZR_le; lia).
  rewrite <- earth_yf_fraction in E.
  assert (C : centuries1900 (IZR (n + day - 1) + f) = (IZR (year - 1900) + earth_yf year day f) / 100) by (rewrite E; field).
  split.
  - apply (date_derive newcomb_earth). apply ne_derive. rewrite C. lra.
  - rewrite C. 
    match goal with |- norm (vsub ?p (scale _ (scale _ ?v))) <= _ => replace (scale (/ 86400) (scale (/ 36525) v)) with (scale kap v) end.
    2: { unfold kap, scale. cbn [v0 v1 v2]. f_equal; field. }
    apply low_velocity; lra.
Qed.
