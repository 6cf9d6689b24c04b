From Coq Require Import Reals List ZArith Lra Lia Bool.
From Verif Require Import Num NumR M_Vec M_EphTab M_Eph S_Geom S_Eph L_Pi L_Vec L_Trig L_Frame L_FrameGal L_Eph.
Import ListNotations.
Open Scope R_scope.

(** ** Exact sums of amplitudes, in units of 10^-30 *)
Definition unit30 : Z := (10 ^ 30)%Z.
Definition mag (d : dec) : Z := (Z.abs (fst d) * 10 ^ (snd d + 30))%Z.
Definition fine (d : dec) : bool := (-30 <=? snd d)%Z.
Definition amp (l : list term) : Z := fold_right (fun (r : term) acc => (mag (fst (fst r)) + acc)%Z) 0%Z l.
Definition amp' (l : list term) : Z := fold_right (fun (r : term) acc => (mag (fst (fst r)) * mag (snd r) + acc)%Z) 0%Z l.
Definition allfine (l : list term) : bool := forallb (fun r : term => fine (fst (fst r)) && fine (snd r)) l.

Lemma unit30_pos : 0 < IZR unit30.
Proof. apply IZR_lt. reflexivity. Qed.

Lemma abs_decimal : forall d, fine d = true -> Rabs (decimal d) = IZR (mag d) / IZR unit30.
Proof.
  intros [m e] F. unfold fine in F; cbn [fst snd] in F. apply Z.leb_le in F.
  unfold decimal, mag; cbn [fst snd]. rewrite mult_IZR, abs_IZR. pose proof unit30_pos as U.
  destruct (Z.ltb_spec e 0).
  - assert (P : (0 < 10 ^ (- e))%Z) by (apply Z.pow_pos_nonneg; lia).
    assert (Q : (10 ^ (e + 30) * 10 ^ (- e) = unit30)%Z).
    { unfold unit30. rewrite <- Z.pow_add_r by lia. f_equal; lia. }
    rewrite <- Q, mult_IZR. apply IZR_lt in P.
    assert (0 < IZR (10 ^ (e + 30))) by (apply IZR_lt, Z.pow_pos_nonneg; lia).
    unfold Rdiv at 1. rewrite Rabs_mult, (Rabs_pos_eq (/ _)) by (apply Rlt_le, Rinv_0_lt_compat; exact P).
    field. lra.
  - assert (P : (0 < 10 ^ e)%Z) by (apply Z.pow_pos_nonneg; lia). apply IZR_lt in P.
    rewrite Rabs_mult, (Rabs_pos_eq (IZR (10 ^ e))) by lra.
    rewrite Z.pow_add_r, mult_IZR by lia. fold unit30. field. lra.
Qed.

Lemma abs1 : forall a x, Rabs x <= 1 -> Rabs (a * x) <= Rabs a.
Proof. intros. rewrite Rabs_mult. rewrite <- (Rmult_1_r (Rabs a)) at 2. apply Rmult_le_compat_l; [apply Rabs_pos|assumption]. Qed.
Lemma cos1 : forall x, Rabs (cos x) <= 1.
Proof. intros. apply Rabs_le, COS_bound. Qed.
Lemma sin1 : forall x, Rabs (sin x) <= 1.
Proof. intros. apply Rabs_le, SIN_bound. Qed.

Lemma harmonic_amp : forall l t, allfine l = true -> Rabs (harmonic l t) <= IZR (amp l) / IZR unit30.
Proof.
  induction l as [|[[a b] c] l IH]; intros t F; cbn [harmonic].
  - rewrite Rabs_R0. unfold amp; cbn [fold_right]. unfold Rdiv; rewrite Rmult_0_l; lra.
  - cbn [allfine forallb fst snd] in F. apply andb_prop in F as (F & G). apply andb_prop in F as (F & _).
    eapply Rle_trans; [apply Rabs_triang|]. cbn [amp fold_right fst snd]. fold (amp l).
    rewrite plus_IZR, Rdiv_plus_distr, <- abs_decimal by exact F.
    apply Rplus_le_compat; [|exact (IH t G)]. apply abs1, cos1.
Qed.
Lemma harmonic'_amp : forall l t, allfine l = true -> Rabs (harmonic' l t) <= IZR (amp' l) / (IZR unit30 * IZR unit30).
Proof.
  pose proof unit30_pos as U.
  induction l as [|[[a b] c] l IH]; intros t F; cbn [harmonic'].
  - rewrite Rabs_R0. unfold amp'; cbn [fold_right]. unfold Rdiv; rewrite Rmult_0_l; lra.
  - cbn [allfine forallb fst snd] in F. apply andb_prop in F as (F & G). apply andb_prop in F as (F & F').
    eapply Rle_trans; [apply Rabs_triang|]. cbn [amp' fold_right fst snd]. fold (amp' l).
    rewrite plus_IZR, mult_IZR, Rdiv_plus_distr.
    apply Rplus_le_compat; [|exact (IH t G)]. rewrite Rabs_Ropp.
    eapply Rle_trans; [apply abs1, sin1|]. rewrite Rabs_mult, !abs_decimal by assumption. right; field. lra.
Qed.

Lemma ab : forall x b, Rabs x <= b -> - b <= x <= b.
Proof. intros x b H. unfold Rabs in H. destruct (Rcase_abs x); lra. Qed.

(** A bound checked by computation. *)
Lemma harmonic_le : forall l t (n d : Z), (allfine l && (0 <? d) && (amp l * d <=? n * unit30))%Z = true ->
  Rabs (harmonic l t) <= IZR n / IZR d.
Proof.
  intros l t n d H. apply andb_prop in H as (H & K). apply andb_prop in H as (F & D).
  apply Z.ltb_lt in D. apply Z.leb_le in K. apply IZR_lt in D. apply IZR_le in K. rewrite !mult_IZR in K.
  pose proof unit30_pos as U. eapply Rle_trans; [apply harmonic_amp, F|].
  apply Rmult_le_reg_r with (IZR unit30 * IZR d); [apply Rmult_lt_0_compat; assumption|].
  replace (IZR (amp l) / IZR unit30 * (IZR unit30 * IZR d)) with (IZR (amp l) * IZR d) by (field; lra).
  replace (IZR n / IZR d * (IZR unit30 * IZR d)) with (IZR n * IZR unit30) by (field; lra). exact K.
Qed.
Lemma harmonic'_le : forall l t (n d : Z), (allfine l && (0 <? d) && (amp' l * d <=? n * (unit30 * unit30)))%Z = true ->
  Rabs (harmonic' l t) <= IZR n / IZR d.
Proof.
  intros l t n d H. apply andb_prop in H as (H & K). apply andb_prop in H as (F & D).
  apply Z.ltb_lt in D. apply Z.leb_le in K. apply IZR_lt in D. apply IZR_le in K. rewrite !mult_IZR in K.
  pose proof unit30_pos as U. eapply Rle_trans; [apply harmonic'_amp, F|].
  assert (U2 : 0 < IZR unit30 * IZR unit30) by (apply Rmult_lt_0_compat; assumption).
  apply Rmult_le_reg_r with (IZR unit30 * IZR unit30 * IZR d); [apply Rmult_lt_0_compat; assumption|].
  replace (IZR (amp' l) / (IZR unit30 * IZR unit30) * (IZR unit30 * IZR unit30 * IZR d)) with (IZR (amp' l) * IZR d) by (field; lra).
  replace (IZR n / IZR d * (IZR unit30 * IZR unit30 * IZR d)) with (IZR n * (IZR unit30 * IZR unit30)) by (field; lra). exact K.
Qed.

Ltac hb := vm_compute; reflexivity.
Lemma bE0x t : Rabs (harmonic (tl epv_E0x) t) <= 144 / 10000. Proof. apply harmonic_le; hb. Qed.
Lemma bE0y t : Rabs (harmonic (tl epv_E0y) t) <= 332 / 10000. Proof. apply harmonic_le; hb. Qed.
Lemma bE0z t : Rabs (harmonic epv_E0z t) <= 84 / 10000000. Proof. apply harmonic_le; hb. Qed.
Lemma bE1x t : Rabs (harmonic epv_E1x t) <= 18 / 10000000. Proof. apply harmonic_le; hb. Qed.
Lemma bE1y t : Rabs (harmonic epv_E1y t) <= 15 / 10000000. Proof. apply harmonic_le; hb. Qed.
Lemma bE1z t : Rabs (harmonic epv_E1z t) <= 24 / 10000000. Proof. apply harmonic_le; hb. Qed.
Lemma bE2x t : Rabs (harmonic epv_E2x t) <= 11 / 100000000000. Proof. apply harmonic_le; hb. Qed.
Lemma bE2y t : Rabs (harmonic epv_E2y t) <= 11 / 100000000000. Proof. apply harmonic_le; hb. Qed.
Lemma bE2z t : Rabs (harmonic epv_E2z t) <= 11 / 100000000000. Proof. apply harmonic_le; hb. Qed.
Lemma bS0x t : Rabs (harmonic epv_S0x t) <= 1072 / 100000. Proof. apply harmonic_le; hb. Qed.
Lemma bS0y t : Rabs (harmonic epv_S0y t) <= 1076 / 100000. Proof. apply harmonic_le; hb. Qed.
Lemma bS0z t : Rabs (harmonic epv_S0z t) <= 32 / 100000. Proof. apply harmonic_le; hb. Qed.
Lemma bS1x t : Rabs (harmonic epv_S1x t) <= 1 / 10000000. Proof. apply harmonic_le; hb. Qed.
Lemma bS1y t : Rabs (harmonic epv_S1y t) <= 1 / 10000000. Proof. apply harmonic_le; hb. Qed.
Lemma bS1z t : Rabs (harmonic epv_S1z t) <= 1 / 10000000. Proof. apply harmonic_le; hb. Qed.
Lemma bS2x t : Rabs (harmonic epv_S2x t) <= 1 / 100000000000. Proof. apply harmonic_le; hb. Qed.
Lemma bS2y t : Rabs (harmonic epv_S2y t) <= 1 / 100000000000. Proof. apply harmonic_le; hb. Qed.
Lemma bS2z t : Rabs (harmonic epv_S2z t) <= 1 / 100000000000. Proof. apply harmonic_le; hb. Qed.
Lemma cE0x t : Rabs (harmonic' (tl epv_E0x) t) <= 112 / 1000. Proof. apply harmonic'_le; hb. Qed.
Lemma cE0y t : Rabs (harmonic' (tl epv_E0y) t) <= 112 / 1000. Proof. apply harmonic'_le; hb. Qed.
Lemma cE0z t : Rabs (harmonic' epv_E0z t) <= 3 / 10000. Proof. apply harmonic'_le; hb. Qed.
Lemma cE1x t : Rabs (harmonic' epv_E1x t) <= 7 / 1000000. Proof. apply harmonic'_le; hb. Qed.
Lemma cE1y t : Rabs (harmonic' epv_E1y t) <= 7 / 1000000. Proof. apply harmonic'_le; hb. Qed.
Lemma cE1z t : Rabs (harmonic' epv_E1z t) <= 15 / 1000000. Proof. apply harmonic'_le; hb. Qed.
Lemma cE2x t : Rabs (harmonic' epv_E2x t) <= 1 / 1000000000. Proof. apply harmonic'_le; hb. Qed.
Lemma cE2y t : Rabs (harmonic' epv_E2y t) <= 1 / 1000000000. Proof. apply harmonic'_le; hb. Qed.
Lemma cE2z t : Rabs (harmonic' epv_E2z t) <= 1 / 1000000000. Proof. apply harmonic'_le; hb. Qed.

(** ** The leading circle *)
Definition AU0 : R := 0.9998292878132.
Definition mean_longitude (t : R) : R := 1.753485171504 + 6.283075850446 * t.
Definition circle (t : R) : RV := V3 (AU0 * cos (mean_longitude t)) (AU0 * sin (mean_longitude t)) 0.
Definition circle' (t : R) : RV :=
  V3 (- (AU0 * 6.283075850446 * sin (mean_longitude t))) (AU0 * 6.283075850446 * cos (mean_longitude t)) 0.

Ltac dcm := unfold decimal; cbn [fst snd Z.ltb Z.compare Z.opp];
  repeat match goal with |- context [(10 ^ ?p)%Z] =>
    let v := eval vm_compute in (10 ^ p)%Z in change (10 ^ p)%Z with v end; lra.

Lemma headx : epv_E0x = ((9998292878132, -13), (1753485171504, -12), (6283075850446, -12))%Z :: tl epv_E0x.
Proof. reflexivity. Qed.
Lemma heady : epv_E0y = ((9998921098898, -13), (1826583913846, -13), (6283075850446, -12))%Z :: tl epv_E0y.
Proof. reflexivity. Qed.
Lemma d1 : decimal (9998292878132, -13)%Z = AU0. Proof. unfold AU0; dcm. Qed.
Lemma d2 : decimal (1753485171504, -12)%Z = 1.753485171504. Proof. dcm. Qed.
Lemma d3 : decimal (6283075850446, -12)%Z = 6.283075850446. Proof. dcm. Qed.
Lemma d4 : decimal (9998921098898, -13)%Z = 0.9998921098898. Proof. dcm. Qed.
Lemma d5 : decimal (1826583913846, -13)%Z = 0.1826583913846. Proof. dcm. Qed.

Lemma splitx : forall t, harmonic epv_E0x t = v0 (circle t) + harmonic (tl epv_E0x) t.
Proof. intros. rewrite headx at 1. cbn [harmonic circle v0]. rewrite d1, d2, d3. reflexivity. Qed.
Lemma splitx' : forall t, harmonic' epv_E0x t = v0 (circle' t) + harmonic' (tl epv_E0x) t.
Proof. intros. rewrite headx at 1. cbn [harmonic' circle' v0]. rewrite d1, d2, d3. reflexivity. Qed.

Definition gap : R := 0.1826583913846 - 1.753485171504 + PI / 2.
Lemma gap_small : Rabs gap <= 0.000031.
Proof. unfold gap. pose proof PI_bounds. apply Rabs_le; lra. Qed.
Lemma phase_y : forall t, 0.1826583913846 + 6.283075850446 * t = (mean_longitude t + gap) - PI / 2.
Proof. intros. unfold mean_longitude, gap. ring. Qed.
Lemma cos_m90 x : cos (x - PI / 2) = sin x.
Proof. replace (x - PI / 2) with (- (PI / 2 - x)) by ring. rewrite cos_neg. apply cos_shift. Qed.
Lemma sin_m90 x : sin (x - PI / 2) = - cos x.
Proof. replace (x - PI / 2) with (- (PI / 2 - x)) by ring. rewrite sin_neg, sin_shift. reflexivity. Qed.

Lemma splity : forall t, exists e, harmonic epv_E0y t = v1 (circle t) + e /\ Rabs e <= 0.0333.
Proof.
  intros. exists (harmonic epv_E0y t - v1 (circle t)). split; [ring|].
  rewrite heady at 1. cbn [harmonic circle v1]. rewrite d4, d5, d3, phase_y, cos_m90.
  set (th := mean_longitude t). pose proof gap_small. pose proof (bE0y t). set (h := harmonic (tl epv_E0y) t) in *.
  pose proof (sin_lip (th + gap) th) as L. replace (th + gap - th) with gap in L by ring.
  pose proof (sin1 (th + gap)) as S1. unfold AU0.

  replace (0.9998921098898 * sin (th + gap) + h - 0.9998292878132 * sin th)
    with (0.9998292878132 * (sin (th + gap) - sin th) + 0.0000628220766 * sin (th + gap) + h) by lra.
  set (u := sin (th + gap) - sin th) in *. set (w := sin (th + gap)) in *.
  pose proof (ab u (0.000031) ltac:(lra)) as Hu.
  pose proof (ab w (1) ltac:(lra)) as Hw.
  pose proof (ab h (332 / 10000) ltac:(lra)) as Hh.
  apply Rabs_le; lra.
Qed.
Lemma splity' : forall t, exists e, harmonic' epv_E0y t = v1 (circle' t) + e /\ Rabs e <= 0.1127.
Proof.
  intros. exists (harmonic' epv_E0y t - v1 (circle' t)). split; [ring|].
  rewrite heady at 1. cbn [harmonic' circle' v1]. rewrite d4, d5, d3, phase_y, sin_m90.
  set (th := mean_longitude t). pose proof gap_small. pose proof (cE0y t). set (h := harmonic' (tl epv_E0y) t) in *.
  pose proof (cos_lip (th + gap) th) as L. replace (th + gap - th) with gap in L by ring.
  pose proof (cos1 (th + gap)) as S1. unfold AU0.
  replace (- (0.9998921098898 * 6.283075850446 * - cos (th + gap)) + h - 0.9998292878132 * 6.283075850446 * cos th)
    with (0.9998292878132 * 6.283075850446 * (cos (th + gap) - cos th) + 0.0000628220766 * 6.283075850446 * cos (th + gap) + h) by lra.
  set (u := cos (th + gap) - cos th) in *. set (w := cos (th + gap)) in *.
  pose proof (ab u (0.000031) ltac:(lra)) as Hu.
  pose proof (ab w (1) ltac:(lra)) as Hw.
  pose proof (ab h (112 / 1000) ltac:(lra)) as Hh.
  apply Rabs_le; lra.
Qed.

Lemma norm_box : forall v a b c d, Rabs (v0 v) <= a -> Rabs (v1 v) <= b -> Rabs (v2 v) <= c ->
  a * a + b * b + c * c <= d * d -> 0 <= d -> norm v <= d.
Proof.
  intros v a b c d A B C S D. unfold norm. rewrite <- (sqrt_square d D). apply sqrt_le_1_alt. unfold dot.
  assert (X : forall x y, Rabs x <= y -> x * x <= y * y).
  { intros x y H. replace (x * x) with (Rabs x * Rabs x) by (rewrite <- Rabs_mult, Rabs_pos_eq by apply Rle_0_sqr; reflexivity).
    pose proof (Rabs_pos x). apply Rmult_le_compat; lra. }
  pose proof (X _ _ A). pose proof (X _ _ B). pose proof (X _ _ C). lra.
Qed.

Lemma orient_norm : forall v, (1 - 1e-9) * norm v <= norm (mapply orient v) <= (1 + 1e-9) * norm v.
Proof.
  intros v. pose proof (norm_nonneg v) as P. pose proof (norm_sq v) as Q.
  assert (E : (1 - 1e-9) * (1 - 1e-9) * dot v v <= dot (mapply orient v) (mapply orient v) <= (1 + 1e-9) * (1 + 1e-9) * dot v v).
  { destruct v as [x y z]. unfold mapply, orient, dot; cbn [v0 v1 v2 r0 r1 r2]. decs.
    pose proof (Rle_0_sqr (x - y)) as A1. pose proof (Rle_0_sqr (x + y)) as A2. pose proof (Rle_0_sqr (x - z)) as A3.
    pose proof (Rle_0_sqr (x + z)) as A4. pose proof (Rle_0_sqr (y - z)) as A5. pose proof (Rle_0_sqr (y + z)) as A6.
    pose proof (Rle_0_sqr x). pose proof (Rle_0_sqr y). pose proof (Rle_0_sqr z).
    unfold Rsqr in *. split; lra. }
  split.
  - unfold norm at 2. rewrite <- (sqrt_square ((1 - 1e-9) * norm v)) by (apply Rmult_le_pos; lra).
    apply sqrt_le_1_alt. replace ((1 - 1e-9) * norm v * ((1 - 1e-9) * norm v)) with ((1 - 1e-9) * (1 - 1e-9) * (norm v * norm v)) by ring.
    rewrite Q. apply E.
  - unfold norm at 1. rewrite <- (sqrt_square ((1 + 1e-9) * norm v)) by (apply Rmult_le_pos; lra).
    apply sqrt_le_1_alt. replace ((1 + 1e-9) * norm v * ((1 + 1e-9) * norm v)) with ((1 + 1e-9) * (1 + 1e-9) * (norm v * norm v)) by ring.
    rewrite Q. apply E.
Qed.

Lemma tbound : forall t h b, Rabs t <= 1000 -> Rabs h <= b -> Rabs (t * h) <= 1000 * b.
Proof. intros. rewrite Rabs_mult. apply Rmult_le_compat; try apply Rabs_pos; assumption. Qed.
Lemma t2bound : forall t h b, Rabs t <= 1000 -> Rabs h <= b -> Rabs (t * t * h) <= 1000000 * b.
Proof. intros. rewrite Rmult_assoc. replace (1000000 * b) with (1000 * (1000 * b)) by ring. apply tbound; [|apply tbound]; assumption. Qed.

Lemma helio_near : forall t, Rabs t <= 1000 -> exists e,
  V3 (helio epv_x t) (helio epv_y t) (helio epv_z t) = vadd (circle t) e /\ norm e <= 0.04.
Proof.
  intros t T. destruct (splity t) as (ey & Ey & By).
  exists (V3 (helio epv_x t - v0 (circle t)) (helio epv_y t - v1 (circle t)) (helio epv_z t)).
  split; [unfold vadd, circle; cbn [v0 v1 v2]; f_equal; ring|].
  unfold helio, poisson, epv_x, epv_y, epv_z; cbn [e0 e1 e2]. rewrite splitx, Ey.
  apply norm_box with (a := 0.0164) (b := 0.0350) (c := 0.0026); cbn [v0 v1 v2]; try lra.
  - pose proof (ab _ _ (bE0x t)). pose proof (ab _ _ (tbound _ _ _ T (bE1x t))). pose proof (ab _ _ (t2bound _ _ _ T (bE2x t))).
    apply Rabs_le; lra.
  - pose proof (ab _ _ By). pose proof (ab _ _ (tbound _ _ _ T (bE1y t))). pose proof (ab _ _ (t2bound _ _ _ T (bE2y t))).
    apply Rabs_le; lra.
  - pose proof (ab _ _ (bE0z t)). pose proof (ab _ _ (tbound _ _ _ T (bE1z t))). pose proof (ab _ _ (t2bound _ _ _ T (bE2z t))).
    apply Rabs_le; lra.
Qed.

Lemma helio_near' : forall t, Rabs t <= 1000 -> exists e,
  V3 (helio' epv_x t) (helio' epv_y t) (helio' epv_z t) = vadd (circle' t) e /\ norm e <= 0.172.
Proof.
  intros t T. destruct (splity' t) as (ey & Ey & By).
  exists (V3 (helio' epv_x t - v0 (circle' t)) (helio' epv_y t - v1 (circle' t)) (helio' epv_z t)).
  split; [unfold vadd, circle'; cbn [v0 v1 v2]; f_equal; ring|].
  unfold helio', poisson', epv_x, epv_y, epv_z; cbn [e0 e1 e2]. rewrite splitx', Ey.
  apply norm_box with (a := 0.1202) (b := 0.1209) (c := 0.0165); cbn [v0 v1 v2]; try lra.
  - pose proof (ab _ _ (cE0x t)). pose proof (ab _ _ (bE1x t)). pose proof (ab _ _ (tbound _ _ _ T (cE1x t))).
    pose proof (ab _ _ (tbound _ _ _ T (bE2x t))). pose proof (ab _ _ (t2bound _ _ _ T (cE2x t))).
    apply Rabs_le; lra.
  - pose proof (ab _ _ By). pose proof (ab _ _ (bE1y t)). pose proof (ab _ _ (tbound _ _ _ T (cE1y t))).
    pose proof (ab _ _ (tbound _ _ _ T (bE2y t))). pose proof (ab _ _ (t2bound _ _ _ T (cE2y t))).
    apply Rabs_le; lra.
  - pose proof (ab _ _ (cE0z t)). pose proof (ab _ _ (bE1z t)). pose proof (ab _ _ (tbound _ _ _ T (cE1z t))).
    pose proof (ab _ _ (tbound _ _ _ T (bE2z t))). pose proof (ab _ _ (t2bound _ _ _ T (cE2z t))).
    apply Rabs_le; lra.
Qed.

Lemma solar_small : forall t, Rabs t <= 1000 -> norm (V3 (solar epv_x t) (solar epv_y t) (solar epv_z t)) <= 0.0155.
Proof.
  intros t T. unfold solar, poisson, epv_x, epv_y, epv_z; cbn [s0 s1 s2].
  apply norm_box with (a := 0.01084) (b := 0.01088) (c := 0.00044); cbn [v0 v1 v2]; try lra.
  - pose proof (ab _ _ (bS0x t)). pose proof (ab _ _ (tbound _ _ _ T (bS1x t))). pose proof (ab _ _ (t2bound _ _ _ T (bS2x t))).
    apply Rabs_le; lra.
  - pose proof (ab _ _ (bS0y t)). pose proof (ab _ _ (tbound _ _ _ T (bS1y t))). pose proof (ab _ _ (t2bound _ _ _ T (bS2y t))).
    apply Rabs_le; lra.
  - pose proof (ab _ _ (bS0z t)). pose proof (ab _ _ (tbound _ _ _ T (bS1z t))). pose proof (ab _ _ (t2bound _ _ _ T (bS2z t))).
    apply Rabs_le; lra.
Qed.

Lemma norm_circle : forall t, norm (circle t) = AU0.
Proof.
  intros. unfold norm, dot, circle; cbn [v0 v1 v2]. set (th := mean_longitude t).
  replace (AU0 * cos th * (AU0 * cos th) + AU0 * sin th * (AU0 * sin th) + 0 * 0)
    with (AU0 * AU0 * ((sin th)² + (cos th)²)) by (unfold Rsqr; ring).
  rewrite sin2_cos2, Rmult_1_r. apply sqrt_square. unfold AU0; lra.
Qed.
Lemma norm_circle' : forall t, norm (circle' t) = AU0 * 6.283075850446.
Proof.
  intros. unfold norm, dot, circle'; cbn [v0 v1 v2]. set (th := mean_longitude t). set (k := AU0 * 6.283075850446).
  replace (- (k * sin th) * - (k * sin th) + k * cos th * (k * cos th) + 0 * 0)
    with (k * k * ((sin th)² + (cos th)²)) by (unfold Rsqr; ring).
  rewrite sin2_cos2, Rmult_1_r. apply sqrt_square. unfold k, AU0; lra.
Qed.

Lemma since_range : forall date, Rabs (date - 51544.5) <= 365250 -> Rabs (since date) <= 1000.
Proof.
  intros date H. apply ab in H. unfold since, jyear. decs.
  apply Rabs_le. split; lra.
Qed.

Lemma epv_distance : forall date, Rabs (date - 51544.5) <= 365250 ->
  0.95 < norm (pos (fst (epv (N := RNum) date))) < 1.05.
Proof.
  intros date H. unfold epv. rewrite epv_with_eq. cbn [fst pos].
  destruct (helio_near _ (since_range _ H)) as (e & E & B). rewrite E.
  pose proof (orient_norm (vadd (circle (since date)) e)) as O.
  pose proof (norm_triangle (circle (since date)) e) as U. pose proof (proj2 (norm_vsub_ge (circle (since date)) e)) as L.
  rewrite norm_circle in U, L. unfold AU0 in U, L. pose proof (norm_nonneg e). lra.
Qed.

Lemma div_vec : forall k a b c, V3 (a / k) (b / k) (c / k) = scale (/ k) (V3 a b c).
Proof. intros. unfold scale; cbn [v0 v1 v2]. unfold Rdiv. f_equal; ring. Qed.

Lemma epv_speed : forall date, Rabs (date - 51544.5) <= 365250 ->
  0.0167 < norm (velo (fst (epv (N := RNum) date))) < 0.0177.
Proof.
  intros date H. unfold epv. rewrite epv_with_eq. cbn [fst velo].
  destruct (helio_near' _ (since_range _ H)) as (e & E & B). rewrite div_vec, E.
  pose proof (orient_norm (scale (/ jyear) (vadd (circle' (since date)) e))) as O.
  pose proof (norm_triangle (circle' (since date)) e) as U. pose proof (proj2 (norm_vsub_ge (circle' (since date)) e)) as L.
  rewrite norm_circle' in U, L. unfold AU0 in U, L. pose proof (norm_nonneg e).
  assert (J : / jyear = 100 / 36525) by (unfold jyear; decs; lra).
  rewrite norm_scale_abs, J, Rabs_pos_eq in O by lra. rewrite J. lra.
Qed.

Lemma epv_sun : forall date, Rabs (date - 51544.5) <= 365250 ->
  norm (vsub (pos (snd (epv (N := RNum) date))) (pos (fst (epv (N := RNum) date)))) <= 0.016.
Proof.
  intros date H. unfold epv. rewrite epv_with_eq. cbn [fst snd pos].
  pose proof (solar_small _ (since_range _ H)) as S. set (t := since date) in *.
  match goal with |- norm (vsub ?a ?b) <= _ => replace (vsub a b) with (mapply orient (V3 (solar epv_x t) (solar epv_y t) (solar epv_z t))) end.
  - pose proof (orient_norm (V3 (solar epv_x t) (solar epv_y t) (solar epv_z t))).
    pose proof (norm_nonneg (V3 (solar epv_x t) (solar epv_y t) (solar epv_z t))). lra.
  - unfold vsub, mapply, dot; cbn [v0 v1 v2]. f_equal; ring.
Qed.

Lemma since_years : forall date, since date = years2000 date.
Proof. intros. unfold since, years2000, jyear. decs. lra. Qed.
Lemma orient_icrs : orient = ecliptic_to_icrs.
Proof. unfold orient, ecliptic_to_icrs. decs. repeat f_equal; lra. Qed.

Lemma epv_series : forall ax ay az date,
  let t := years2000 date in
  let h x := poisson (e0 x) (e1 x) (e2 x) t in
  let s x := poisson (s0 x) (s1 x) (s2 x) t in
  let '(hel, bar) := epv_with (N := RNum) ax ay az date in
  pos hel = mapply ecliptic_to_icrs (V3 (h ax) (h ay) (h az)) /\
  pos bar = mapply ecliptic_to_icrs (V3 (h ax + s ax) (h ay + s ay) (h az + s az)).
Proof.
  intros. rewrite epv_with_eq. cbn [pos]. rewrite since_years, orient_icrs. split; reflexivity.
Qed.
