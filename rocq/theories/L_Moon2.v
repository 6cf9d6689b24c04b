From Coq Require Import Reals List ZArith Lra Lia Bool Nsatz.
From Coquelicot Require Import Coquelicot.
From Verif Require Import Int32 Num NumR M_Vec M_Site M_EphTab M_Eph S_Geom S_Eph L_Pi L_Vec L_Rot L_Trig L_Frame L_FrameGal L_Site L_Eph L_EphB L_Moon L_MoonB.
Import ListNotations.
Open Scope R_scope.

Definition frow := (dec * (Z * Z * Z * Z))%type.
Definition rated_k (k : R) (p : R -> R * R) (t : R) : Prop := is_derive (fun s => fst (p s)) t (k * snd (p t)).

Section Series.
Context (em emp d f : R -> R) (t k : R)
  (H1 : is_derive em t (k * Rdec 359990498 (-6))) (H2 : is_derive emp t (k * Rdec 4771988491 (-6)))
  (H3 : is_derive d t (k * Rdec 4452671142 (-6))) (H4 : is_derive f t (k * Rdec 4832020251 (-6))).

Lemma theta_k : forall r, rated_k k (fun s => moon_theta (N := RNum) (em s) (emp s) (d s) (f s) r) t.
Proof.
  intros [[[a b] c] h]. unfold rated_k, moon_theta; cbn [fst snd]. unR.
  assert (X : forall f1 f2 f3 f4 : R -> R, forall d1 d2 d3 d4 x1 x2 x3 x4, is_derive f1 t (k * d1) -> is_derive f2 t (k * d2) -> is_derive f3 t (k * d3) -> is_derive f4 t (k * d4) ->
    is_derive (fun s => x1 * f1 s + x2 * f2 s + x3 * f3 s + x4 * f4 s) t (k * (x1 * d1 + x2 * d2 + x3 * d3 + x4 * d4))).
  { intros. rate_step. }
  exact (X _ _ _ _ _ _ _ _ (IZR a) (IZR b) (IZR c) (IZR h) H1 H2 H3 H4).
Qed.
Lemma k_by : forall (p : R -> R * R) (g : R -> R) (e : R), is_derive g t (k * e) -> (forall s, fst (p s) = g s) -> snd (p t) = e -> rated_k k p t.
Proof.
  intros p g e D E F. unfold rated_k. rewrite F.
  apply is_derive_ext with (f := g); [|exact D]. intros s; now rewrite E.
Qed.
Lemma sin_k : forall l, rated_k k (fun s => fold_right (moon_sin (N := RNum) (em s) (emp s) (d s) (f s)) (n_ofZ (n := RNum) 0, n_ofZ (n := RNum) 0) l) t.
Proof.
  induction l as [|r l IH]; cbn [fold_right].
  - unfold rated_k; cbn [fst snd]. change (n_ofZ (n := RNum) 0) with 0. rewrite Rmult_0_r. exact (is_derive_const 0 t).
  - pose proof (theta_k (snd r)) as T. unfold rated_k in IH, T.
    assert (X : forall f1 f2 : R -> R, forall d1 d2 c, is_derive f1 t (k * d1) -> is_derive f2 t (k * d2) ->
      is_derive (fun s => f1 s + c * sin (f2 s)) t (k * (d1 + c * cos (f2 t) * d2))).
    { intros. rate_step. }
    apply (k_by _ _ _ (X _ _ _ _ (lit (N := RNum) (fst r)) IH T)); [intros x|]; unfold moon_sin at 1; pairs.
Qed.
Lemma cos_k : forall l, rated_k k (fun s => fold_right (moon_cos (N := RNum) (em s) (emp s) (d s) (f s)) (n_ofZ (n := RNum) 0, n_ofZ (n := RNum) 0) l) t.
Proof.
  induction l as [|r l IH]; cbn [fold_right].
  - unfold rated_k; cbn [fst snd]. change (n_ofZ (n := RNum) 0) with 0. rewrite Rmult_0_r. exact (is_derive_const 0 t).
  - pose proof (theta_k (snd r)) as T. unfold rated_k in IH, T.
    assert (X : forall f1 f2 : R -> R, forall d1 d2 c, is_derive f1 t (k * d1) -> is_derive f2 t (k * d2) ->
      is_derive (fun s => f1 s + c * cos (f2 s)) t (k * (d1 - c * sin (f2 t) * d2))).
    { intros. rate_step. }
    apply (k_by _ _ _ (X _ _ _ _ (lit (N := RNum) (fst r)) IH T)); [intros x|]; unfold moon_cos at 1; pairs.
Qed.
End Series.

Lemma cos_ampk : forall a b c e (l : list frow), forallb (fun r : frow => fine (fst r)) l = true ->
  Rabs (fst (fold_right (moon_cos (N := RNum) a b c e) (n_ofZ (n := RNum) 0, n_ofZ (n := RNum) 0) l)) <=
  IZR (fold_right (fun (r : frow) acc => (mag (fst r) + acc)%Z) 0%Z l) / IZR unit30.
Proof.
  intros a b c e l. induction l as [|r l IH]; intros F; cbn [fold_right].
  - cbn [fst]. change (n_ofZ (n := RNum) 0) with 0. rewrite Rabs_R0. unfold Rdiv. rewrite Rmult_0_l. lra.
  - cbn [forallb] in F. apply andb_prop in F as (F & G). specialize (IH G).
    unfold moon_cos at 1. pairs. unR.
    rewrite plus_IZR, Rdiv_plus_distr, <- abs_decimal by exact F.
    eapply Rle_trans; [apply Rabs_triang|]. rewrite Rplus_comm. apply Rplus_le_compat; [|exact IH].
    rewrite lit_decimal. apply abs1, cos1.
Qed.

Section Moon.
Context (yi : R).
Local Notation zz := (n_ofZ (n := RNum) 0, n_ofZ (n := RNum) 0).
Let em (y : R) : R := moon_em (N := RNum) (yi + y).
Let emp (y : R) : R := moon_emp (N := RNum) (yi + y) y.
Let dd (y : R) : R := moon_d (N := RNum) (yi + y) y.
Let ff (y : R) : R := moon_f (N := RNum) (yi + y) y.
Let elp (y : R) : R := moon_elp (N := RNum) (yi + y) y.
Let kd : R := fdeg (N := RNum).
Let kr : R := frate (N := RNum).
Definition mL (y : R) : R * R := fold_right (moon_sin (N := RNum) (em y) (emp y) (dd y) (ff y)) zz moon_L.
Definition mB (y : R) : R * R := fold_right (moon_sin (N := RNum) (em y) (emp y) (dd y) (ff y)) zz moon_B.
Definition mP (y : R) : R * R := fold_right (moon_cos (N := RNum) (em y) (emp y) (dd y) (ff y)) zz moon_P.
Definition mel (y : R) : R := fst (mL y) * kd + elp y.
Definition mb (y : R) : R := fst (mB y) * kd.
Definition mp (y : R) : R := (fst (mP y) + Rdec 950724 (-6)) * kd.
Definition mr (y : R) : R := Rdec 42635212653763 (-18) / sin (mp y).
Definition meld (y : R) : R := kr * (snd (mL y) + Rdec 4812678831 (-6) / kd).
Definition mbd (y : R) : R := snd (mB y) * kr.
Definition mrd (y : R) : R := - mr y * (snd (mP y) * kr) / sin (mp y).

Lemma moon_sph_eq : forall y, moon_sph (N := RNum) yi y = SPV (N := RNum) (mel y) (mb y) (mr y) (meld y) (mbd y) (mrd y).
Proof.
  intros y. unfold moon_sph. pairs.
Qed.

Lemma arg_k : forall c0 c1 c2 y, (forall k : Z, k <> 0%Z -> c0 + c1 * y + c2 * (yi + y) <> 360 * IZR k) ->
  is_derive (fun s => moon_arg (N := RNum) c0 c1 c2 (yi + s) s) y (kd * (c1 + c2)).
Proof.
  intros c0 c1 c2 y H.
  assert (D : is_derive (fun s => c0 + c1 * s + c2 * (yi + s)) y (c1 + c2)).
  { auto_derive; [easy|]. ring. }
  apply fmod_derive with (c := 360) in D; [|lra|intros k K; rewrite (Rmult_comm (IZR k)); exact (H k K)].
  apply (is_derive_scal _ _ kd) in D. exact D.
Qed.

Lemma args_k : forall y, almanac_between_turns y (yi + y) ->
  is_derive elp y (kd * Rdec 4812678831 (-6)) /\
  is_derive em y (kd * Rdec 359990498 (-6)) /\ is_derive emp y (kd * Rdec 4771988491 (-6)) /\
  is_derive dd y (kd * Rdec 4452671142 (-6)) /\ is_derive ff y (kd * Rdec 4832020251 (-6)).
Proof.
  intros y B.
  assert (X : forall c0 c1 c2 (c : R) (a : R), In a (almanac_arguments y (yi + y)) -> a = c0 + c1 * y + c2 * (yi + y) -> c1 + c2 = c ->
              is_derive (fun s => moon_arg (N := RNum) c0 c1 c2 (yi + s) s) y (kd * c)).
  { intros c0 c1 c2 c a I E <-. apply arg_k. rewrite <- E. exact (B _ I). }
  unfold almanac_arguments in X.
  refine (conj _ (conj _ (conj _ (conj _ _)))).
  - eapply X; [left; reflexivity| |]; unR; decs; lra.
  - assert (E : is_derive (fun s => moon_arg (N := RNum) (Rdec 358475833 (-6)) 0 (Rdec 359990498 (-6)) (yi + s) s) y (kd * Rdec 359990498 (-6))).
    { eapply X; [right; left; reflexivity| |]; decs; lra. }
    eapply is_derive_ext; [|exact E]. intros s. unfold em, moon_em, moon_arg. unR. rewrite Rmult_0_l, Rplus_0_r. reflexivity.
  - eapply X; [do 2 right; left; reflexivity| |]; unR; decs; lra.
  - eapply X; [do 3 right; left; reflexivity| |]; unR; decs; lra.
  - eapply X; [do 4 right; left; reflexivity| |]; unR; decs; lra.
Qed.

Lemma kd_val : kd = 1745329252 / 100000000000. Proof. unfold kd, fdeg; unR; decs; reflexivity. Qed.
Lemma kr_val : kr = 9652743551 / 1000000000000000000000. Proof. unfold kr, frate; unR; decs; reflexivity. Qed.

Lemma mp_bounds : forall y, 0.0153 < mp y < 0.0179.
Proof.
  intros y. unfold mp, mP. pose proof (cos_ampk (em y) (emp y) (dd y) (ff y) moon_P ltac:(vm_compute; reflexivity)) as A.
  set (s := fst _) in *. clearbody s.
  assert (A2 : IZR (fold_right (fun (r : frow) acc => (mag (fst r) + acc)%Z) 0%Z moon_P) / IZR unit30 <= 0.0721).
  { let x := eval vm_compute in (fold_right (fun (r : frow) acc => (mag (fst r) + acc)%Z) 0%Z moon_P) in
    change (fold_right (fun (r : frow) acc => (mag (fst r) + acc)%Z) 0%Z moon_P) with x.
    let x := eval vm_compute in unit30 in change unit30 with x. lra. }
  apply ab in A. rewrite kd_val. decs. lra.
Qed.
Lemma mp_trig : forall y, 0.015 < sin (mp y) < 0.0179 /\ 0.99983 < cos (mp y) <= 1.
Proof.
  intros y. pose proof (mp_bounds y) as P. set (p := mp y) in *. clearbody p.
  destruct (sin_small p ltac:(lra)) as (L & U).
  assert (p * p * p <= 0.018 * 0.018 * 0.018).
  { apply Rmult_le_compat; [nra|lra| |lra]. apply Rmult_le_compat; lra. }
  assert (p * p <= 0.0179 * 0.0179) by (apply Rmult_le_compat; lra).
  split; [split; lra|]. split; [|apply COS_bound].
  pose proof PI_bounds.
  destruct (pre_cos_bound p 0 ltac:(lra) ltac:(lra)) as (C & _).
  unfold cos_approx in C. cbn in C. unfold cos_term in C. cbn in C. lra.
Qed.

(** The rates are the derivatives, up to the constant [ck] and, for the
    distance, the cosine of the parallax. *)
Definition ck : R := kd * kd / kr.
Lemma kr_pos : kr <> 0. Proof. rewrite kr_val. lra. Qed.
Lemma kd_pos : kd <> 0. Proof. rewrite kd_val. lra. Qed.

Lemma moon_rates : forall y, almanac_between_turns y (yi + y) ->
  is_derive mel y (ck * meld y) /\ is_derive mb y (ck * mbd y) /\ is_derive mr y (ck * cos (mp y) * mrd y).
Proof.
  intros y B. destruct (args_k y B) as (H0 & H1 & H2 & H3 & H4).
  pose proof (sin_k em emp dd ff y kd H1 H2 H3 H4 moon_L) as L.
  pose proof (sin_k em emp dd ff y kd H1 H2 H3 H4 moon_B) as Bb.
  pose proof (cos_k em emp dd ff y kd H1 H2 H3 H4 moon_P) as P.
  unfold rated_k in *. fold (mL y) in L. fold (mB y) in Bb. fold (mP y) in P.
  pose proof kd_pos as KD. pose proof kr_pos as KR. pose proof (mp_trig y) as (SP & CP).
  change (is_derive (fun s => fst (mL s)) y (kd * snd (mL y))) in L.
  change (is_derive (fun s => fst (mB s)) y (kd * snd (mB y))) in Bb.
  change (is_derive (fun s => fst (mP s)) y (kd * snd (mP y))) in P.
  assert (XP : is_derive mp y (kd * (kd * snd (mP y)))).
  { assert (X : forall g : R -> R, forall g' a, is_derive g y g' -> is_derive (fun s => (g s + a) * kd) y (kd * g')).
    { intros. rate_step. }
    exact (X _ _ (Rdec 950724 (-6)) P). }
  refine (conj _ (conj _ _)).
  - assert (X : forall g h : R -> R, forall g' h', is_derive g y g' -> is_derive h y h' -> is_derive (fun s => g s * kd + h s) y (g' * kd + h')).
    { intros. rate_step. }
    replace (ck * meld y) with (kd * snd (mL y) * kd + kd * Rdec 4812678831 (-6)).
    + exact (X _ _ _ _ L H0).
    + unfold ck, meld. field. split; assumption.
  - assert (X : forall g : R -> R, forall g', is_derive g y g' -> is_derive (fun s => g s * kd) y (g' * kd)).
    { intros. rate_step. }
    replace (ck * mbd y) with (kd * snd (mB y) * kd).
    + exact (X _ _ Bb).
    + unfold ck, mbd. field. assumption.
  - assert (X : forall g : R -> R, forall g' k, is_derive g y g' -> sin (g y) <> 0 -> is_derive (fun s => k / sin (g s)) y (- k * cos (g y) * g' / (sin (g y) * sin (g y)))).
    { intros g g' k G S. auto_derive; [repeat split; try (eexists; eassumption); assumption|]. derives. field. exact S. }
    replace (ck * cos (mp y) * mrd y) with
      (- Rdec 42635212653763 (-18) * cos (mp y) * (kd * (kd * snd (mP y))) / (sin (mp y) * sin (mp y))).
    + apply X; [exact XP|lra].
    + unfold ck, mrd, mr. field. split; [lra|assumption].
Qed.
End Moon.

(** ** moon: the public routine *)
Lemma speed_sq : forall a b r a' b' r',
  let v := velo (ds2c6 (N := RNum) (SPV (N := RNum) a b r a' b' r')) in
  dot v v = r' * r' + r * r * (b' * b' + cos b * cos b * (a' * a')).
Proof.
  intros. subst v. unfold ds2c6; cbn [lon lat dist dlon dlat ddist velo]. unR. unfold dot; cbn [v0 v1 v2].
  pose proof (sin2_cos2 a) as A. pose proof (sin2_cos2 b) as B. unfold Rsqr in *.
  set (sa := sin a) in *. set (ca := cos a) in *. set (sb := sin b) in *. set (cb := cos b) in *.
  nsatz.
Qed.

Lemma velo_linear : forall a b r k1 a' b' r' k2 a2 b2 r2,
  vsub (scale k1 (velo (ds2c6 (N := RNum) (SPV (N := RNum) a b r a' b' r'))))
       (scale k2 (velo (ds2c6 (N := RNum) (SPV (N := RNum) a b r a2 b2 r2)))) =
  velo (ds2c6 (N := RNum) (SPV (N := RNum) a b r (k1 * a' - k2 * a2) (k1 * b' - k2 * b2) (k1 * r' - k2 * r2))).
Proof.
  intros. unfold ds2c6; cbn [lon lat dist dlon dlat ddist velo]. unR. unfold vsub, scale; cbn [v0 v1 v2].
  change (car RNum) with R. f_equal; ring.
Qed.

Lemma speed_ratio : forall a b r x1 x2 x3 y1 y2 y3 q, 0 <= q ->
  Rabs x1 <= q * Rabs y1 -> Rabs x2 <= q * Rabs y2 -> Rabs x3 <= q * Rabs y3 ->
  norm (velo (ds2c6 (N := RNum) (SPV (N := RNum) a b r x1 x2 x3))) <=
  q * norm (velo (ds2c6 (N := RNum) (SPV (N := RNum) a b r y1 y2 y3))).
Proof.
  intros a b r x1 x2 x3 y1 y2 y3 q Q H1 H2 H3.
  assert (X : forall x y, Rabs x <= q * Rabs y -> x * x <= q * q * (y * y)).
  { intros x y H. replace (x * x) with (Rabs x * Rabs x) by (rewrite <- Rabs_mult, Rabs_pos_eq by apply Rle_0_sqr; reflexivity).
    replace (y * y) with (Rabs y * Rabs y) by (rewrite <- Rabs_mult, Rabs_pos_eq by apply Rle_0_sqr; reflexivity).
    replace (q * q * (Rabs y * Rabs y)) with (q * Rabs y * (q * Rabs y)) by ring.
    apply Rmult_le_compat; try apply Rabs_pos; assumption. }
  apply X in H1. apply X in H2. apply X in H3.
  rewrite <- (sqrt_square q Q). unfold norm. rewrite <- sqrt_mult_alt by (apply Rle_0_sqr).
  apply sqrt_le_1_alt. rewrite !speed_sq.
  pose proof (Rle_0_sqr r) as R0. pose proof (Rle_0_sqr (cos b)) as C0. unfold Rsqr in *.
  replace (q * q * (y3 * y3 + r * r * (y2 * y2 + cos b * cos b * (y1 * y1))))
    with (q * q * (y3 * y3) + r * r * (q * q * (y2 * y2) + cos b * cos b * (q * q * (y1 * y1)))) by ring.
  apply Rplus_le_compat; [assumption|]. apply Rmult_le_compat_l; [assumption|].
  apply Rplus_le_compat; [assumption|]. apply Rmult_le_compat_l; assumption.
Qed.

Lemma moon_rotate_eq : forall t q, moon_rotate (N := RNum) t q = mapply (frame_x (- almanac_obliquity t)) q.
Proof.
  intros t [x y z]. unfold moon_rotate, mapply, frame_x, dot, fdeg; cbn [v0 v1 v2 r0 r1 r2]. unR.
  rewrite cos_neg, sin_neg.
  replace (Rdec 1745329252 (-11) * (Rdec 2345229 (-5) - Rdec 13 (-5) * t)) with (almanac_obliquity t)
    by (unfold almanac_obliquity; decs; lra).
  change (car RNum) with R in *. f_equal; ring.
Qed.

Lemma year_fraction_eq : forall year day f, earth_yf year day f = year_fraction year day f.
Proof.
  intros. unfold earth_yf, year_fraction. rewrite !minus_IZR, mult_IZR, !minus_IZR. lra.
Qed.

Definition moon_ecl (year day : Z) (f : R) : RV :=
  pos (ds2c6 (N := RNum) (moon_sph (N := RNum) (IZR (year - 1900)) (year_fraction year day f))).

Lemma moon_velocity : forall (year day : Z) (f : R),
  (INT_MIN + 1900 <= year <= INT_MAX)%Z -> (-500000000 <= day <= 500000000)%Z ->
  let epoch g := IZR (year - 1900) + year_fraction year day g in
  almanac_between_turns (year_fraction year day f) (epoch f) ->
  exists (ecl : R -> RV) (v u : RV),
    (forall g, exists pv, moon (N := RNum) year day g = Some pv /\
       pos pv = mapply (frame_x (- almanac_obliquity (epoch g))) (ecl g) /\
       (g = f -> velo pv = mapply (frame_x (- almanac_obliquity (epoch f))) v)) /\
    velocity_at ecl f u /\ norm (vsub (scale 86400 v) u) <= 0.0002 * norm u.
Proof.
  intros year day f Y D epoch B. unfold epoch in *.
  set (yi := IZR (year - 1900)) in *. set (y := year_fraction year day f) in *.
  destruct (moon_rates yi y B) as (E1 & E2 & E3).
  assert (DY : is_derive (year_fraction year day) f (4 / 1461)).
  { unfold year_fraction. set (c1 := IZR _). set (c2 := IZR (year mod 4)). auto_derive; [easy|]. lra. }
  assert (C : forall g g', is_derive g y g' -> is_derive (fun s => g (year_fraction year day s)) f (4 / 1461 * g')).
  { intros g g' G. exact (is_derive_comp g (year_fraction year day) f g' (4 / 1461) G DY). }
  apply C in E1. apply C in E2. apply C in E3.
  exists (moon_ecl year day).
  exists (velo (ds2c6 (N := RNum) (moon_sph (N := RNum) yi y))).
  exists (velo (ds2c6 (N := RNum) (SPV (N := RNum) (mel yi y) (mb yi y) (mr yi y)
     (4 / 1461 * (ck * meld yi y)) (4 / 1461 * (ck * mbd yi y)) (4 / 1461 * (ck * cos (mp yi y) * mrd yi y))))).
  split; [|split].
  - intros g. unfold moon. rewrite (earth_time_eq year day g Y D), year_fraction_eq. eexists. split; [reflexivity|].
    cbn [pos velo]. split; [apply moon_rotate_eq|]. intros ->. apply moon_rotate_eq.
  - apply is_derive_Reals in E1. apply is_derive_Reals in E2. apply is_derive_Reals in E3.
    pose proof (ds2c6_velocity _ _ _ _ _ _ _ E1 E2 E3) as V. cbv zeta in V.
    eapply velocity_ext; [|exact V].
    intros s. unfold moon_ecl. fold yi. rewrite moon_sph_eq, ds2c6_position. reflexivity.
  - rewrite moon_sph_eq.
    match goal with |- norm (vsub (scale 86400 ?a) ?b) <= _ => replace b with (scale 1 b) at 1 by (unfold scale; rewrite !Rmult_1_l; now destruct b) end.
    rewrite velo_linear.
    assert (CK : 86399.99 < 4 / 1461 * ck < 86400.01) by (unfold ck; rewrite kd_val, kr_val; lra).
    destruct (mp_trig yi y) as (_ & CP). set (cc := 4 / 1461 * ck) in *.
    apply speed_ratio; [lra| | |].
    + replace (86400 * meld yi y - 1 * (4 / 1461 * (ck * meld yi y))) with ((86400 - cc) * meld yi y) by (unfold cc; ring).
      replace (4 / 1461 * (ck * meld yi y)) with (cc * meld yi y) by (unfold cc; ring).
      rewrite !Rabs_mult, <- Rmult_assoc. apply Rmult_le_compat_r; [apply Rabs_pos|].
      rewrite (Rabs_pos_eq cc) by lra. apply Rabs_le; lra.
    + replace (86400 * mbd yi y - 1 * (4 / 1461 * (ck * mbd yi y))) with ((86400 - cc) * mbd yi y) by (unfold cc; ring).
      replace (4 / 1461 * (ck * mbd yi y)) with (cc * mbd yi y) by (unfold cc; ring).
      rewrite !Rabs_mult, <- Rmult_assoc. apply Rmult_le_compat_r; [apply Rabs_pos|].
      rewrite (Rabs_pos_eq cc) by lra. apply Rabs_le; lra.
    + set (cp := cos (mp yi y)) in *.
      replace (86400 * mrd yi y - 1 * (4 / 1461 * (ck * cp * mrd yi y))) with ((86400 - cc * cp) * mrd yi y) by (unfold cc; ring).
      replace (4 / 1461 * (ck * cp * mrd yi y)) with (cc * cp * mrd yi y) by (unfold cc; ring).
      rewrite (Rabs_mult (86400 - cc * cp)), (Rabs_mult (cc * cp)), <- Rmult_assoc. apply Rmult_le_compat_r; [apply Rabs_pos|].
      assert (86385 <= cc * cp <= 86400.01).
      { split.
        - apply Rle_trans with (86399.99 * 0.99983); [lra|]. apply Rmult_le_compat; lra.
        - apply Rle_trans with (86400.01 * 1); [|lra]. apply Rmult_le_compat; lra. }
      rewrite (Rabs_pos_eq (cc * cp)) by lra. apply Rabs_le; lra.
Qed.
