(** The two lunar theories agree. *)
From Coq Require Import Reals List ZArith Lra Lia Bool.
From Verif Require Import Int32 Num NumR L_Pi L_Real M_Vec M_Calendar M_EphTab M_Eph S_Calendar S_Geom S_Eph S_Moon L_Calendar L_Vec L_Trig L_Frame L_NutDiff L_Eph L_EphB L_EvpA L_EvpB L_Moon L_MoonB L_Moon2 L_Moon3 L_Moon4 L_Moon5 L_Moon6 L_Moon7 L_Moon8.
Import ListNotations.
Open Scope R_scope.

(** ** Matching the short table with the long one *)
Definition key_eqb (a b : Z * Z * Z * Z) : bool :=
  let '(i, j, k, l) := a in let '(i', j', k', l') := b in ((i =? i') && (j =? j') && (k =? k') && (l =? l'))%Z.
Fixpoint take (key : Z * Z * Z * Z) (rows : list row) : option ((Z * Z) * Z * list row) :=
  match rows with
  | nil => None
  | (c, (i, j, k, l, n)) :: rows =>
    if key_eqb key (i, j, k, l) then Some (c, n, rows)
    else match take key rows with Some (c', n', rest) => Some (c', n', (c, (i, j, k, l, n)) :: rest) | None => None end
  end.
Definition long_ok (r : row) : bool := fine (fst r) && n_ok r.
Fixpoint budget (short : list frow) (long : list row) : option (Z * Z * Z) :=
  match short with
  | nil => if forallb long_ok long then Some (0, 0, ampr long)%Z else None
  | (c, key) :: short =>
    match take key long with
    | Some (c', n, rest) =>
      if ((fst c =? fst c') && (snd c =? snd c') && (0 <=? n) && (n <=? 2))%Z && fine c then
        match budget short rest with
        | Some (w, e, r) => Some (mag c * wt key + w, (if n =? 0 then 0 else mag c) + e, r)%Z
        | None => None end
      else None
    | None => None end
  end.

Definition long_arg (key : Z * Z * Z * Z) (t : R) : R := let '(i, j, k, l) := key in
  IZR i * S_Moon.sun_anomaly t + IZR j * moon_anomaly t + IZR k * elongation t + IZR l * node_distance t.
Definition short_arg (key : Z * Z * Z * Z) (t : R) : R := let '(i, j, k, l) := key in
  IZR i * (358.475833 + 359.990498 * t) + IZR j * (296.104608 + 4771.988491 * t) +
  IZR k * (350.737486 + 4452.671142 * t) + IZR l * (11.250889 + 4832.020251 * t).

Lemma take_sum f t key : forall rows c n rest, take key rows = Some (c, n, rest) ->
  lunar_series f rows t = decimal c * ecc t ^ Z.to_nat n * f (long_arg key t) + lunar_series f rest t.
Proof.
  induction rows as [|[c [[[[i j] k] l] n]] rows IH]; intros c' n' rest; cbn [take]; [discriminate|].
  destruct (key_eqb key (i, j, k, l)) eqn:K.
  - intros E; injection E as <- <- <-. destruct key as [[[i' j'] k'] l']. cbn [key_eqb] in K.
    rewrite !andb_true_iff, !Z.eqb_eq in K. destruct K as (((-> & ->) & ->) & ->). reflexivity.
  - destruct (take key rows) as [[[c2 n2] rest2]|]; [|discriminate]. intros E; injection E as <- <- <-.
    cbn [lunar_series]. rewrite (IH _ _ _ eq_refl). ring.
Qed.

Section Compare.
Context (f : R -> R) (F1 : forall x, Rabs (f x) <= 1) (F2 : forall x y, Rabs (f x - f y) <= kap * Rabs (x - y))
  (t : R) (T : Rabs t <= 2).

Lemma ecc_near n : (0 <= n <= 2)%Z -> Rabs (ecc t ^ Z.to_nat n - 1) <= 0.0102 /\ Rabs (ecc t ^ Z.to_nat n) <= 1.0102.
Proof.
  intros N. apply ab in T. assert (E : 0.9949 <= ecc t <= 1.005) by (unfold ecc; nra).
  assert (n = 0 \/ n = 1 \/ n = 2)%Z as [-> | [-> | ->]] by lia.
  - change (Z.to_nat 0) with 0%nat. cbn [pow]. split; apply Rabs_le; lra.
  - change (Z.to_nat 1) with 1%nat. cbn [pow]. split; apply Rabs_le; lra.
  - change (Z.to_nat 2) with 2%nat. cbn [pow]. split; apply Rabs_le; nra.
Qed.

(** Largest difference of an argument, degrees. *)
Lemma arg_diff key : Rabs (long_arg key t - short_arg key (100 * t)) <= IZR (wt key) * 0.046.
Proof.
  destruct key as [[[i j] k] l]. unfold long_arg, short_arg, wt. rewrite !plus_IZR, !abs_IZR.
  assert (SB : forall x, Rabs (sind x) <= 1) by (intros; apply sin1).
  assert (A : Rabs (additive t) <= 1) by apply sin1.
  assert (V : Rabs (great_venus t) <= 0.003964).
  { unfold great_venus. rewrite <- (Rmult_1_r 0.003964) at 2. apply b_mul; [apply Rabs_le; lra|apply SB]. }
  pose proof (SB (node t)) as N1. pose proof (SB (node' t)) as N2.
  apply ab in A, V, N1, N2. apply ab in T.
  assert (T2 : 0 <= t * t <= 4) by nra. assert (T3 : -8 <= t * t * t <= 8) by nra.
  assert (X : forall z x, Rabs x <= 0.046 -> Rabs (IZR z * x) <= Rabs (IZR z) * 0.046).
  { intros z x H. rewrite Rabs_mult. apply Rmult_le_compat_l; [apply Rabs_pos|exact H]. }
  assert (D1 : Rabs (S_Moon.sun_anomaly t - (358.475833 + 359.990498 * (100 * t))) <= 0.046).
  { unfold S_Moon.sun_anomaly, cubic; cbn [pow]. apply Rabs_le. lra. }
  assert (D2 : Rabs (moon_anomaly t - (296.104608 + 4771.988491 * (100 * t))) <= 0.046).
  { unfold moon_anomaly, cubic; cbn [pow]. apply Rabs_le. lra. }
  assert (D3 : Rabs (elongation t - (350.737486 + 4452.671142 * (100 * t))) <= 0.046).
  { unfold elongation, cubic; cbn [pow]. apply Rabs_le. lra. }
  assert (D4 : Rabs (node_distance t - (11.250889 + 4832.020251 * (100 * t))) <= 0.046).
  { unfold node_distance, cubic; cbn [pow]. apply Rabs_le. lra. }
  match goal with |- Rabs ?x <= _ => replace x with
    (IZR i * (S_Moon.sun_anomaly t - (358.475833 + 359.990498 * (100 * t))) + IZR j * (moon_anomaly t - (296.104608 + 4771.988491 * (100 * t))) +
     IZR k * (elongation t - (350.737486 + 4452.671142 * (100 * t))) + IZR l * (node_distance t - (11.250889 + 4832.020251 * (100 * t)))) by ring end.
  rewrite !Rmult_plus_distr_r. apply b_add; [apply b_add; [apply b_add|]|]; apply X; assumption.
Qed.

Lemma rest_bound : forall l : list row, forallb long_ok l = true -> Rabs (lunar_series f l t) <= IZR (ampr l) / IZR unit30 * 1.0102.
Proof.
  induction l as [|r l IH]; intros F; cbn [lunar_series].
  - unfold ampr; cbn [fold_right]. rewrite Rabs_R0. unfold Rdiv. rewrite !Rmult_0_l. lra.
  - cbn [forallb] in F. apply andb_prop in F as (F & F'). apply andb_prop in F as (F & N). specialize (IH F').
    cbn [ampr fold_right]. fold (ampr l). rewrite plus_IZR, Rdiv_plus_distr, <- abs_decimal by exact F.
    rewrite Rmult_plus_distr_r. destruct r as [c [[[[i j] k] h] n]]. cbn [fst n_ok] in *.
    apply andb_prop in N as (N0 & N1). apply Z.leb_le in N0, N1. destruct (ecc_near n ltac:(lia)) as (_ & E).
    apply b_add; [|exact IH].
    rewrite <- (Rmult_1_r (_ * 1.0102)). apply b_mul; [|apply F1]. apply b_mul; [lra|exact E].
Qed.

Lemma budget_bound : forall short long w e r, budget short long = Some (w, e, r) ->
  Rabs (lunar_series f long t - short_series f short (100 * t)) <=
    IZR w / IZR unit30 * (0.046 * kap) + IZR e / IZR unit30 * 0.0102 + IZR r / IZR unit30 * 1.0102.
Proof.
  pose proof unit30_pos as U. assert (K0 : 0 < kap) by (pose proof PI_bounds; unfold kap; lra).
  induction short as [|[c key] short IH]; intros long w e r; cbn [budget short_series].
  - destruct (forallb long_ok long) eqn:F; [|discriminate]. intros E; injection E as <- <- <-.
    pose proof (rest_bound _ F). unfold Rdiv at 1 2. rewrite !Rmult_0_l, !Rplus_0_l, Rminus_0_r. assumption.
  - destruct (take key long) as [[[c' n] rest]|] eqn:K; [|discriminate].
    destruct ((_ && _)%bool) eqn:C; [|discriminate]. apply andb_prop in C as (C & Fc).
    rewrite !andb_true_iff, !Z.eqb_eq, !Z.leb_le in C. destruct C as (((C1 & C2) & N0) & N1).
    assert (c' = c) by (rewrite (surjective_pairing c), (surjective_pairing c'), C1, C2; reflexivity). subst c'.
    destruct (budget short rest) as [[[w' e'] r']|] eqn:B; [|discriminate]. intros E; injection E as <- <- <-.
    specialize (IH _ _ _ _ B). rewrite (take_sum f t key _ _ _ _ K).
    destruct key as [[[i j] k] l].
    change (decimal c * f (IZR i * (358.475833 + 359.990498 * (100 * t)) + IZR j * (296.104608 + 4771.988491 * (100 * t)) +
       IZR k * (350.737486 + 4452.671142 * (100 * t)) + IZR l * (11.250889 + 4832.020251 * (100 * t)))) with (decimal c * f (short_arg (i, j, k, l) (100 * t))).
    set (key := (i, j, k, l)) in *. clearbody key.
    pose proof (arg_diff key) as A. pose proof (F2 (long_arg key t) (short_arg key (100 * t))) as D.
    pose proof (F1 (long_arg key t)) as G.
    set (x := f (long_arg key t)) in *. set (y := f (short_arg key (100 * t))) in *.
    assert (D' : Rabs (x - y) <= IZR (wt key) * (0.046 * kap)).
    { eapply Rle_trans; [exact D|]. replace (IZR (wt key) * (0.046 * kap)) with (kap * (IZR (wt key) * 0.046)) by ring.
      apply Rmult_le_compat_l; [lra|exact A]. }
    set (E := ecc t ^ Z.to_nat n) in *.
    assert (EE : Rabs ((E - 1) * x) <= (if (n =? 0)%Z then 0 else 1) * 0.0102).
    { destruct (Z.eqb_spec n 0) as [->|N].
      - unfold E. change (Z.to_nat 0) with 0%nat. cbn [pow]. rewrite Rminus_diag_eq, Rmult_0_l, Rabs_R0 by reflexivity. lra.
      - destruct (ecc_near n ltac:(lia)) as (EN & _). fold E in EN. rewrite Rmult_1_l, <- (Rmult_1_r 0.0102). apply b_mul; assumption. }
    rewrite !plus_IZR, !Rdiv_plus_distr, mult_IZR.
    replace (IZR (if (n =? 0)%Z then 0 else mag c) / IZR unit30) with ((if (n =? 0)%Z then 0 else 1) * Rabs (decimal c))
      by (rewrite abs_decimal by exact Fc; destruct (n =? 0)%Z; field; lra).
    replace (IZR (mag c) * IZR (wt key) / IZR unit30) with (Rabs (decimal c) * IZR (wt key)) by (rewrite abs_decimal by exact Fc; field; lra).
    match goal with |- Rabs ?z <= _ => replace z with
      (decimal c * ((E - 1) * x + (x - y)) + (lunar_series f rest t - short_series f short (100 * t))) by ring end.
    eapply Rle_trans; [apply b_add; [apply b_mul; [apply Rle_refl|apply b_add; [exact EE|exact D']]|exact IH]|].
    set (b := if (n =? 0)%Z then 0 else 1). lra.
Qed.
End Compare.

Lemma sind_lip x y : Rabs (sind x - sind y) <= kap * Rabs (x - y).
Proof.
  unfold sind. eapply Rle_trans; [apply anear_sin, anear_abs, Rle_refl|].
  unfold radians. rewrite <- Rmult_minus_distr_r, Rabs_mult, Rmult_comm. pose proof PI_bounds. unfold kap. rewrite (Rabs_pos_eq (PI / 180)) by lra. lra.
Qed.
Lemma cosd_lip x y : Rabs (cosd x - cosd y) <= kap * Rabs (x - y).
Proof.
  unfold cosd. eapply Rle_trans; [apply anear_cos, anear_abs, Rle_refl|].
  unfold radians. rewrite <- Rmult_minus_distr_r, Rabs_mult, Rmult_comm. pose proof PI_bounds. unfold kap. rewrite (Rabs_pos_eq (PI / 180)) by lra. lra.
Qed.
Lemma sind1 x : Rabs (sind x) <= 1. Proof. apply sin1. Qed.
Lemma cosd1 x : Rabs (cosd x) <= 1. Proof. apply cos1. Qed.
Lemma kap_in : 0.017453 < kap < 0.017454. Proof. pose proof PI_bounds. unfold kap. lra. Qed.

Definition P0 : list frow := ((950724, -6), (0, 0, 0, 0))%Z :: moon_P.
Lemma P0_series t : short_series cosd P0 t = 0.950724 + short_series cosd moon_P t.
Proof.
  unfold P0; cbn [short_series]. rewrite !Rmult_0_l, !Rplus_0_l. unfold cosd at 1, radians. rewrite Rmult_0_l, cos_0.
  unfold decimal; cbn. lra.
Qed.

Section Agree.
Context (t : R) (T : Rabs t <= 2).

Lemma bud3 (w e r : Z) (a b c : Z) (d : R) : (w * 1000000 <= a * unit30)%Z -> (e * 1000000 <= b * unit30)%Z -> (r * 1000000 <= c * unit30)%Z ->
  IZR a / 1000000 * (0.046 * 0.017454) + IZR b / 1000000 * 0.0102 + IZR c / 1000000 * 1.0102 <= d ->
  (0 <= w)%Z -> forall x, Rabs x <= IZR w / IZR unit30 * (0.046 * kap) + IZR e / IZR unit30 * 0.0102 + IZR r / IZR unit30 * 1.0102 -> Rabs x <= d.
Proof.
  intros A B C D W0 x X. pose proof unit30_pos as U. pose proof kap_in as K. apply IZR_le in A, B, C, W0. rewrite !mult_IZR in A, B, C.
  assert (Q : forall z n, IZR z * 1000000 <= IZR n * IZR unit30 -> IZR z / IZR unit30 <= IZR n / 1000000).
  { intros z n H. apply (Rmult_le_reg_r (IZR unit30 * 1000000)); [lra|].
    replace (IZR z / IZR unit30 * (IZR unit30 * 1000000)) with (IZR z * 1000000) by (field; lra).
    replace (IZR n / 1000000 * (IZR unit30 * 1000000)) with (IZR n * IZR unit30) by (field; lra). exact H. }
  apply Q in A, B, C.
  assert (0 <= IZR w / IZR unit30) by (apply Rmult_le_pos; [exact W0|apply Rlt_le, Rinv_0_lt_compat; exact U]).
  assert (IZR w / IZR unit30 * (0.046 * kap) <= IZR a / 1000000 * (0.046 * 0.017454)) by (apply Rmult_le_compat; lra). lra.
Qed.

Lemma diff_L : Rabs (lunar_series sind dmoon_L t - short_series sind moon_L (100 * t)) <= 0.0226.
Proof.
  destruct (budget moon_L dmoon_L) as [[[w e] r]|] eqn:B; [|vm_compute in B; discriminate].
  pose proof (budget_bound sind sind1 sind_lip t T _ _ _ _ _ B) as H.
  revert H. apply bud3 with (a := 13708000%Z) (b := 403600%Z) (c := 7272%Z); try lra; vm_compute in B; injection B as <- <- <-; vm_compute; discriminate.
Qed.
Lemma diff_B : Rabs (lunar_series sind dmoon_B t - short_series sind moon_B (100 * t)) <= 0.0142.
Proof.
  destruct (budget moon_B dmoon_B) as [[[w e] r]|] eqn:B; [|vm_compute in B; discriminate].
  pose proof (budget_bound sind sind1 sind_lip t T _ _ _ _ _ B) as H.
  revert H. apply bud3 with (a := 7557400%Z) (b := 29720%Z) (c := 7671%Z); try lra; vm_compute in B; injection B as <- <- <-; vm_compute; discriminate.
Qed.
Lemma diff_P : Rabs (lunar_series cosd dmoon_P t - short_series cosd P0 (100 * t)) <= 0.00426.
Proof.
  destruct (budget P0 dmoon_P) as [[[w e] r]|] eqn:B; [|vm_compute in B; discriminate].
  pose proof (budget_bound cosd cosd1 cosd_lip t T _ _ _ _ _ B) as H.
  revert H. apply bud3 with (a := 102000%Z) (b := 1990%Z) (c := 4109%Z); try lra; vm_compute in B; injection B as <- <- <-; vm_compute; discriminate.
Qed.

Lemma arc_close x y d e : Rabs (x - y) <= d -> d * 0.017454 <= e -> Rabs (radians x - radians y) <= e.
Proof.
  intros D E. pose proof kap_in as K. unfold radians. fold kap. rewrite <- Rmult_minus_distr_r.
  eapply Rle_trans; [apply b_mul; [exact D|rewrite Rabs_pos_eq by lra; apply Rle_refl]|].
  eapply Rle_trans; [|exact E]. apply Rmult_le_compat_l; [|lra]. eapply Rle_trans; [apply Rabs_pos|exact D].
Qed.
Lemma lat_amp : Rabs (lunar_series sind dmoon_B t) <= 6.15.
Proof.
  eapply Rle_trans; [apply (rest_bound sind sind1 sind_lip t T dmoon_B); vm_compute; reflexivity|].
  pose proof (amp_le dmoon_B 6082 1000 ltac:(lia) ltac:(vm_compute; discriminate)). lra.
Qed.

Lemma lon_diff : Rabs (radians (moon_longitude t) - radians (270.434164 + 4812.678831 * (100 * t) + short_series sind moon_L (100 * t))) <= 0.0006.
Proof.
  apply arc_close with (d := 0.0335); [|lra]. unfold moon_longitude, S_Moon.mean_longitude.
  assert (A : Rabs (additive t) <= 1) by apply sin1.
  assert (V : Rabs (great_venus t) <= 0.003964).
  { unfold great_venus. rewrite <- (Rmult_1_r 0.003964) at 2. apply b_mul; [apply Rabs_le; lra|apply sind1]. }
  pose proof (sind1 (node t)) as N1. apply ab in A, V, N1. pose proof (ab _ _ T) as T'.
  assert (T2 : 0 <= t * t <= 4) by nra. assert (T3 : -8 <= t * t * t <= 8) by nra.
  pose proof (ab _ _ diff_L) as D. unfold cubic; cbn [pow]. apply Rabs_le. lra.
Qed.
Lemma lat_diff : Rabs (radians (moon_latitude t) - radians (short_series sind moon_B (100 * t))) <= 0.00031.
Proof.
  apply arc_close with (d := 0.0176); [|lra]. unfold moon_latitude.
  pose proof diff_B as D. pose proof lat_amp as M.
  assert (Q : Rabs (0.0004664 * cosd (node t) + 0.0000754 * cosd (node' t)) <= 0.0005418).
  { replace 0.0005418 with (0.0004664 * 1 + 0.0000754 * 1) by lra. apply b_add; (apply b_mul; [apply Rabs_le; lra|apply cosd1]). }
  set (q := 0.0004664 * cosd (node t) + 0.0000754 * cosd (node' t)) in *.
  set (a := lunar_series sind dmoon_B t) in *. set (b := short_series sind moon_B (100 * t)) in *.
  replace (a * (1 - 0.0004664 * cosd (node t) - 0.0000754 * cosd (node' t)) - b) with ((a - b) - a * q) by (unfold q; ring).
  eapply Rle_trans; [apply b_sub; [exact D|apply b_mul; [exact M|exact Q]]|lra].
Qed.
Lemma par_diff : Rabs (radians (moon_parallax t) - radians (0.950724 + short_series cosd moon_P (100 * t))) <= 0.0000745.
Proof. apply arc_close with (d := 0.00426); [|lra]. unfold moon_parallax. rewrite <- P0_series. exact diff_P. Qed.

Lemma dir_close a b a' b' d e : Rabs (a - a') <= d -> Rabs (b - b') <= e -> 0 <= d -> 0 <= e ->
  norm (vsub (direction a b) (direction a' b')) <= 1.8 * (d + e).
Proof.
  intros A B D E. apply anear_abs in A, B.
  pose proof (cl_sin _ _ _ A) as SA. pose proof (cl_cos _ _ _ A) as CA. pose proof (cl_sin _ _ _ B) as SB. pose proof (cl_cos _ _ _ B) as CB.
  apply norm_box with (a := d + e) (b := d + e) (c := d + e); unfold vsub, direction; cbn [v0 v1 v2].
  - assert (X : cl (cos b * cos a) (cos b' * cos a') (d + e) 1) by closes. apply (fun H => Rle_trans _ _ _ H (Rle_refl _)).
    rewrite ?(Rmult_comm (cos a)), ?(Rmult_comm (cos a')). exact (proj1 X).
  - assert (X : cl (cos b * sin a) (cos b' * sin a') (d + e) 1) by closes.
    rewrite ?(Rmult_comm (sin a)), ?(Rmult_comm (sin a')). exact (proj1 X).
  - eapply Rle_trans; [exact (proj1 SB)|lra].
  - assert (0 <= (d + e) * (d + e)) by (apply Rmult_le_pos; lra). lra.
  - lra.
Qed.

Lemma place_eq p l b : place p l b = scale (earth_radius / sin (radians p)) (direction (radians l) (radians b)).
Proof. reflexivity. Qed.
Lemma theories_agree : norm (vsub (moon_theory t) (almanac_moon (100 * t))) <= 1.93e-5 /\ norm (almanac_moon (100 * t)) <= 0.0029 /\ norm (moon_theory t) <= 0.0029.
Proof.
  pose proof lon_diff as DL. pose proof lat_diff as DB. pose proof par_diff as DP.
  unfold moon_theory, almanac_moon. rewrite !place_eq.
  set (l := radians (moon_longitude t)) in *. set (b := radians (moon_latitude t)) in *.
  assert (S : 0.015 <= sin (radians (moon_parallax t))).
  { assert (T10 : Rabs t <= 10) by lra. pose proof (theory_sin t T10) as S. unfold xp in S; cbn [fst] in S.
    rewrite cos_lunar in S by (vm_compute; reflexivity). rewrite kap_rad in S. exact S. }
  set (p := radians (moon_parallax t)) in *.
  set (l' := radians (270.434164 + _ + _)) in *. set (b' := radians (short_series sind moon_B _)) in *. set (p' := radians (0.950724 + _)) in *.
  clearbody l b p l' b' p'.
  assert (SP : Rabs (sin p - sin p') <= 0.0000745) by (apply anear_sin, anear_abs, DP).
  pose proof (ab _ _ SP) as SP'.
  pose proof (cl_inv (sin p) (sin p') _ 0.0149 ltac:(lra) ltac:(lra) ltac:(lra) SP) as (I0 & I1 & I2).
  assert (ER : 0 < earth_radius < 0.000042636) by (unfold earth_radius; lra).
  set (r := earth_radius / sin p). set (r' := earth_radius / sin p').
  assert (RR : Rabs (r - r') <= 1.44e-5).
  { replace (r - r') with (earth_radius * (/ sin p - / sin p')) by (unfold r, r'; field; lra).
    eapply Rle_trans; [apply b_mul; [rewrite Rabs_pos_eq by lra; apply Rle_refl|exact I0]|].
    eapply Rle_trans; [apply Rmult_le_compat_r; [|apply Rlt_le, (proj2 ER)]|]; lra. }
  assert (B0 : forall x, Rabs (/ x) <= / 0.0149 -> Rabs (earth_radius / x) <= 0.0029).
  { intros x X. unfold Rdiv. eapply Rle_trans; [apply b_mul; [rewrite Rabs_pos_eq by lra; apply Rlt_le, (proj2 ER)|exact X]|lra]. }
  assert (R1 : Rabs r <= 0.0029) by exact (B0 _ I1). assert (R2 : Rabs r' <= 0.0029) by exact (B0 _ I2).
  split; [|split; rewrite norm_scale_abs, norm_direction, Rmult_1_r; assumption].
  replace (vsub (scale r (direction l b)) (scale r' (direction l' b'))) with
    (vadd (scale (r - r') (direction l b)) (scale r' (vsub (direction l b) (direction l' b'))))
    by (unfold vadd, vsub, scale; cbn [v0 v1 v2]; f_equal; ring).
  eapply Rle_trans; [apply norm_triangle|]. rewrite !norm_scale_abs, norm_direction, Rmult_1_r.
  pose proof (dir_close _ _ _ _ _ _ DL DB ltac:(lra) ltac:(lra)) as N.
  pose proof (norm_nonneg (vsub (direction l b) (direction l' b'))).
  assert (Rabs r' * norm (vsub (direction l b) (direction l' b')) <= 0.0029 * (1.8 * (0.0006 + 0.00031))).
  { apply Rmult_le_compat; [apply Rabs_pos|assumption|exact R2|exact N]. }
  lra.
Qed.
End Agree.
