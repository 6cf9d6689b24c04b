From Coq Require Import Reals List ZArith Lra Lia Bool Nsatz.
From Coquelicot Require Import Coquelicot.
From Verif Require Import Num NumR M_Vec M_EphTab M_Eph S_Geom S_Eph L_Pi L_Vec L_Trig L_Frame L_FrameGal L_Eph L_EphB L_Moon.
Import ListNotations.
Open Scope R_scope.

Definition row := (dec * (Z * Z * Z * Z * Z))%type.
Definition ampr (l : list row) : Z := fold_right (fun (r : row) acc => (mag (fst r) + acc)%Z) 0%Z l.

Lemma cos_amp : forall g l B, (forall i, Rabs (fst (dmoon_en (N := RNum) g i)) <= B) ->
  forallb (fun r : row => fine (fst r)) l = true ->
  Rabs (fst (fold_right (dmoon_cos (N := RNum) g) (n_ofZ (n := RNum) 0, n_ofZ (n := RNum) 0) l)) <= B * (IZR (ampr l) / IZR unit30).
Proof.
  intros g l B E. induction l as [|r l IH]; intros F; cbn [fold_right].
  - cbn [fst]. change (n_ofZ (n := RNum) 0) with 0. rewrite Rabs_R0. unfold ampr; cbn [fold_right]. unfold Rdiv. rewrite Rmult_0_l, Rmult_0_r. lra.
  - cbn [forallb] in F. apply andb_prop in F as (F & G). specialize (IH G).
    unfold dmoon_cos at 1. pairs. unR.
    cbn [ampr fold_right]. fold (ampr l). rewrite plus_IZR, Rdiv_plus_distr, Rmult_plus_distr_l, <- abs_decimal by exact F.
    eapply Rle_trans; [apply Rabs_triang|]. rewrite Rplus_comm. apply Rplus_le_compat; [|exact IH].
    rewrite lit_decimal. rewrite Rabs_mult, Rmult_comm. apply Rmult_le_compat; try apply Rabs_pos; [apply E|].
    apply abs1, cos1.
Qed.

Lemma en_bound : forall t i, Rabs t <= 10 -> Rabs (fst (dmoon_en (N := RNum) (dmoon_args (N := RNum) t) i)) <= 1.05.
Proof.
  intros t i T. apply ab in T. unfold dmoon_en. rewrite args_eq. cbn [g_e].
  set (e := Rdec 10 (-1) + (Rdec (-2495) (-6) + Rdec (-752) (-8) * t) * t).
  assert (E : 0.97 <= e <= 1.0245).
  { unfold e. decs. nra. }
  destruct (i =? 0)%Z; [|destruct (i =? 1)%Z]; cbn [fst]; unR.
  - rewrite one. apply Rabs_le; lra.
  - apply Rabs_le; lra.
  - apply Rabs_le. nra.
Qed.

Lemma parallax_bounds : forall t, Rabs t <= 10 -> 0.01519 < parallax t < 0.0180.
Proof.
  intros t T. unfold parallax, dmoon_p.
  set (g := dmoon_args (N := RNum) t). 
  assert (H : dmoon_P = ((950724, -6), (0, 0, 0, 0, 0))%Z :: tl dmoon_P) by reflexivity.
  rewrite H. cbn [fold_right].
  pose proof (cos_amp g (tl dmoon_P) 1.05 (fun i => en_bound t i T) ltac:(vm_compute; reflexivity)) as A.
  set (S := fold_right (dmoon_cos (N := RNum) g) (n_ofZ (n := RNum) 0, n_ofZ (n := RNum) 0) (tl dmoon_P)) in *.
  clearbody S. destruct S as [v dv]. cbn [fst] in A.
  assert (A2 : IZR (ampr (tl dmoon_P)) / IZR unit30 <= 0.0762).
  { pose proof unit30_pos. apply Rmult_le_reg_r with (IZR unit30); [assumption|].
    replace (IZR (ampr (tl dmoon_P)) / IZR unit30 * IZR unit30) with (IZR (ampr (tl dmoon_P))) by (field; lra).
    let x := eval vm_compute in (ampr (tl dmoon_P)) in change (ampr (tl dmoon_P)) with x.
    let x := eval vm_compute in unit30 in change unit30 with x. lra. }
  apply ab in A. unfold dmoon_cos. cbn [fst snd]. unfold dmoon_en, dmoon_theta. cbn [Z.eqb]. pairs.
  unfold lit, deg; cbn [fst snd]. unR. rewrite one, !Rmult_0_l, !Rplus_0_l, cos_0, !Rmult_1_r. decs. lra.
Qed.

Lemma sin_small : forall x, 0 < x < 1 -> x - x * x * x / 6 <= sin x <= x.
Proof.
  intros x X. pose proof PI_bounds. split.
  - destruct (pre_sin_bound x 0 ltac:(lra) ltac:(lra)) as (L & _).
    unfold sin_approx in L. cbn in L. unfold sin_term in L. cbn in L. lra.
  - left. apply sin_lt_x. lra.
Qed.

Lemma sin_parallax : forall t, Rabs t <= 10 -> 0.015189 < sin (parallax t) < 0.0180.
Proof.
  intros t T. pose proof (parallax_bounds t T) as P. set (p := parallax t) in *. clearbody p.
  destruct (sin_small p ltac:(lra)) as (L & U).
  assert (p * p * p <= 0.018 * 0.018 * 0.018).
  { apply Rmult_le_compat; [nra|lra| |lra]. apply Rmult_le_compat; lra. }
  split; [|lra]. lra.
Qed.

Lemma cart_norm : forall e l q, 0 < sin (fst q) ->
  norm (pos (cart e l q)) = Rdec 42635212653763 (-18) / sin (fst q).
Proof.
  intros [el del] [b db] [p dp] S. unfold cart; cbn [pos fst] in *.
  set (r := Rdec 42635212653763 (-18) / sin p). unfold norm, dot; cbn [v0 v1 v2].
  assert (R0 : 0 <= r).
  { unfold r. apply Rlt_le, Rdiv_lt_0_compat; [decs; lra|exact S]. }
  replace (r * cos b * cos el * (r * cos b * cos el) + r * cos b * sin el * (r * cos b * sin el) + r * sin b * (r * sin b))
    with (r * r * ((sin b)² + (cos b)² * ((sin el)² + (cos el)²))) by (unfold Rsqr; ring).
  rewrite sin2_cos2, Rmult_1_r, sin2_cos2, Rmult_1_r. apply sqrt_square, R0.
Qed.

Lemma ecl_distance : forall t, Rabs t <= 10 -> 0.00236 < norm (pos (dmoon_ecl (N := RNum) t)) < 0.00281.
Proof.
  intros t T. pose proof (sin_parallax t T) as S. rewrite ecl_cart, cart_norm by (change (0 < sin (parallax t)); lra).
  change (fst (dmoon_p (N := RNum) (dmoon_args (N := RNum) t))) with (parallax t).
  set (s := sin (parallax t)) in *. set (k := Rdec 42635212653763 (-18)).
  assert (K : k = 42635212653763 / 1000000000000000000) by (unfold k; decs; reflexivity).
  assert (E : k / s * s = k) by (field; lra).
  split; apply Rmult_lt_reg_r with s; try lra; rewrite E; lra.
Qed.

(** ** The equatorial frame *)
Lemma rotate_to_equator : forall date q, dmoon_rotate (N := RNum) date q = to_equator date q.
Proof.
  intros date [x y z]. unfold dmoon_rotate, to_equator, mapply, frame_x, cross, vadd, scale, dot; cbn [v0 v1 v2 r0 r1 r2]. unR.
  rewrite cos_neg, sin_neg.
  replace (Rdec 4848136811095359935899141 (-30) *
    (Rdec 84381448 (-3) + (Rdec (-468150) (-4) + (Rdec (-59) (-5) + Rdec 1813 (-6) * ((date - Rdec 515445 (-1)) / 36525)) *
      ((date - Rdec 515445 (-1)) / 36525)) * ((date - Rdec 515445 (-1)) / 36525))) with (mean_obliquity date)
    by (unfold mean_obliquity, arcsecond; cbv zeta; replace (Rdec 515445 (-1)) with 51544.5 by (decs; lra);
        set (t := (date - 51544.5) / 36525); decs; lra).
  replace (Rdec 7272205216643039903848712 (-29) *
    (Rdec 35 (-3) + Rdec 85 (-5) * (2000 + (date - Rdec 515445 (-1)) / 36525 * 100 - Rdec 19499997904423 (-10))))
    with (equinox_correction date) by (unfold equinox_correction, timesecond; cbv zeta; decs; lra).
  f_equal; ring.
Qed.

(** ** The public routine in terms of the date *)
Lemma centuries_date : forall date : R,
  (date - n_lit (n := RNum) 150195 (-1)) / 36525 = centuries1900 date.
Proof. intros. unfold centuries1900. unR. decs. lra. Qed.

Lemma dmoon_eq : forall date,
  dmoon (N := RNum) date = VPV (N := RNum) (to_equator date (pos (dmoon_ecl (N := RNum) (centuries1900 date))))
                                (to_equator date (velo (dmoon_ecl (N := RNum) (centuries1900 date)))).
Proof.
  intros. unfold dmoon. rewrite <- !rotate_to_equator.
  change (n_div (n_sub date (n_lit (n := RNum) 150195 (-1))) (n_ofZ (n := RNum) 36525)) with ((date - n_lit (n := RNum) 150195 (-1)) / 36525).
  rewrite centuries_date. reflexivity.
Qed.

Lemma dmoon_velocity : forall date, Rabs (centuries1900 date) <= 10 -> between_turns (centuries1900 date) ->
  exists (ecl : R -> RV) (v : RV),
    (forall d, pos (dmoon (N := RNum) d) = to_equator d (ecl d)) /\
    velocity_at ecl date (scale 86400 v) /\
    velo (dmoon (N := RNum) date) = to_equator date v.
Proof.
  intros date H B. exists (fun d => pos (dmoon_ecl (N := RNum) (centuries1900 d))), (velo (dmoon_ecl (N := RNum) (centuries1900 date))).
  split; [|split].
  - intros d. now rewrite dmoon_eq.
  - destruct (sin_parallax _ H) as (S & _).
    destruct (ecl_velocity _ B ltac:(lra)) as (A0 & A1 & A2).
    assert (D : is_derive centuries1900 date (/ 36525)) by (unfold centuries1900; auto_derive; [easy|lra]).
    assert (X : forall (g : R -> R) (w : R), derivable_pt_lim g (centuries1900 date) (3155760000 * w) ->
      derivable_pt_lim (fun d => g (centuries1900 d)) date (86400 * w)).
    { intros g w G. apply is_derive_Reals in G. apply is_derive_Reals.
      pose proof (is_derive_comp g centuries1900 date _ _ G D) as E.
      replace (86400 * w) with (scal (/ 36525) (3155760000 * w)); [exact E|].
      unfold scal; cbn. unfold mult; cbn. lra. }
    unfold velocity_at, scale in *; cbn [v0 v1 v2] in *.
    split; [|split].
    + exact (X (fun s => v0 (pos (dmoon_ecl (N := RNum) s))) _ A0).
    + exact (X (fun s => v1 (pos (dmoon_ecl (N := RNum) s))) _ A1).
    + exact (X (fun s => v2 (pos (dmoon_ecl (N := RNum) s))) _ A2).
  - now rewrite dmoon_eq.
Qed.

Lemma to_equator_norm : forall date q, Rabs (equinox_correction date) <= 0.0001 ->
  norm q <= norm (to_equator date q) <= 1.00000001 * norm q.
Proof.
  intros date q K. unfold to_equator. set (w := mapply _ q).
  assert (W : dot w w = dot q q).
  { destruct q as [x y z]. subst w. unfold mapply, frame_x, dot; cbn [v0 v1 v2 r0 r1 r2]. 
    pose proof (sin2_cos2 (- mean_obliquity date)) as A. unfold Rsqr in A.
    set (sa := sin _) in *. set (ca := cos _) in *. nsatz. }
  set (k := equinox_correction date) in *. 
  assert (E : dot (vadd w (scale k (cross (V3 0 0 1) w))) (vadd w (scale k (cross (V3 0 0 1) w))) =
    dot q q + k * k * (v0 w * v0 w + v1 w * v1 w)).
  { rewrite <- W. unfold vadd, scale, cross, dot; cbn [v0 v1 v2]. ring. }
  apply ab in K.
  assert (KK : 0 <= k * k <= 0.00000001).
  { split; [apply Rle_0_sqr|]. replace (k * k) with (Rabs k * Rabs k) by (rewrite <- Rabs_mult, Rabs_pos_eq by apply Rle_0_sqr; reflexivity).
    apply Rle_trans with (0.0001 * 0.0001); [|lra]. apply Rmult_le_compat; try apply Rabs_pos; apply Rabs_le; lra. }
  assert (P : 0 <= v0 w * v0 w + v1 w * v1 w <= dot q q).
  { rewrite <- W. unfold dot. pose proof (Rle_0_sqr (v0 w)). pose proof (Rle_0_sqr (v1 w)). pose proof (Rle_0_sqr (v2 w)). unfold Rsqr in *. lra. }
  unfold norm. rewrite E. set (s := v0 w * v0 w + v1 w * v1 w) in *.
  assert (0 <= k * k * s) by (apply Rmult_le_pos; lra).
  assert (k * k * s <= 0.00000001 * dot q q) by (apply Rmult_le_compat; lra).
  split; [apply sqrt_le_1_alt; lra|].
  rewrite <- (sqrt_square 1.00000001) by lra. rewrite <- sqrt_mult_alt by lra. apply sqrt_le_1_alt. lra.
Qed.

Lemma dmoon_distance : forall date, Rabs (centuries1900 date) <= 10 ->
  0.00236 < norm (pos (dmoon (N := RNum) date)) < 0.00282.
Proof.
  intros date H. rewrite dmoon_eq; cbn [pos].
  destruct (ecl_distance _ H) as (A & B).
  assert (K : Rabs (equinox_correction date) <= 0.0001).
  { unfold equinox_correction, timesecond. unfold centuries1900 in H. apply ab in H. apply Rabs_le. lra. }
  destruct (to_equator_norm date (pos (dmoon_ecl (N := RNum) (centuries1900 date))) K) as (C & D). lra.
Qed.
