(** Proofs about bearings and the horizon system over the reals. *)
From Coq Require Import ZArith Reals Lra Lia Psatz Nsatz Bool.
From Verif Require Import Num NumR L_Real M_Vec S_Geom L_Vec L_Rot M_Angle L_Angle M_Sphere S_Sphere L_Sphere.
Open Scope R_scope.

Lemma bearing_atan2 a b v t : t = Ratan2 (dot v (east a)) (dot v (north a b)) -> bearing_of a b v t.
Proof.
  intros ->. set (x := dot v (north a b)). set (y := dot v (east a)). unfold bearing_of. fold x y.
  destruct (Req_EM_T x 0) as [X|X]; [destruct (Req_EM_T y 0) as [Y|Y]|].
  - right. rewrite X, Y. repeat split; try reflexivity. apply atan2_00.
  - left. split; [apply atan2_range|]. exists (hyp x y). split; [apply hyp_pos; tauto|]. rewrite atan2_cos, atan2_sin. split; reflexivity.
  - left. split; [apply atan2_range|]. exists (hyp x y). split; [apply hyp_pos; tauto|]. rewrite atan2_cos, atan2_sin. split; reflexivity.
Qed.

Lemma bearing_unique a b v s t : bearing_of a b v s -> bearing_of a b v t -> s = t.
Proof.
  assert (Z : forall k u, 0 < k -> k * cos u = 0 -> k * sin u = 0 -> False).
  { intros k u K C S. apply Rmult_integral in C, S. pose proof (sc1 u). destruct C; [lra|]. destruct S; [lra|]. rewrite H0, H1 in H. lra. }
  intros [(R1 & k & K & C & S)|(C & S & E)] [(R2 & k' & K' & C' & S')|(C' & S' & E')].
  - rewrite C in C'. rewrite S in S'. 
    assert (s = Ratan2 (k * sin s) (k * cos s)) by (symmetry; apply atan2_polar_eq; assumption).
    assert (t = Ratan2 (k' * sin t) (k' * cos t)) by (symmetry; apply atan2_polar_eq; assumption).
    rewrite H, H0, C', S'. reflexivity.
  - exfalso. apply (Z k s K); lra.
  - exfalso. apply (Z k' t K'); lra.
  - congruence.
Qed.

Lemma dbear_eq (p q : sph RNum) : let d := direction (s_a q) (s_b q) in
  dbear (N := RNum) p q = Ratan2 (dot d (east (s_a p))) (dot d (north (s_a p) (s_b p))).
Proof.
  cbv zeta. destruct p as [pa pb], q as [qa qb]. unfold dbear. cbn [s_a s_b]. unR. cbv zeta.
  replace (sin qb * cos pb - cos qb * sin pb * cos (qa - pa)) with (dot (direction qa qb) (north pa pb)).
  2:{ unfold dot, direction, north; cbn [v0 v1 v2]. rewrite cos_minus. ring. }
  replace (sin (qa - pa) * cos qb) with (dot (direction qa qb) (east pa)).
  2:{ unfold dot, direction, east; cbn [v0 v1 v2]. rewrite sin_minus. ring. }
  set (x := dot _ (north _ _)). set (y := dot _ (east _)).
  destruct (Reqb_spec x 0) as [->|]; cbn [negb orb]; [|reflexivity].
  destruct (Reqb_spec y 0) as [->|]; cbn [negb orb]; [|reflexivity]. symmetry. apply atan2_00.
Qed.
Lemma dbear_spec (p q : sph RNum) : bearing_of (s_a p) (s_b p) (direction (s_a q) (s_b q)) (dbear (N := RNum) p q).
Proof. apply bearing_atan2. apply dbear_eq. Qed.

Lemma bearing_scale a b v k t : 0 < k -> bearing_of a b v t -> bearing_of a b (scale k v) t.
Proof.
  intros K [(R1 & j & J & C & S)|(C & S & E)].
  - left. split; [assumption|]. exists (k * j). rewrite !dot_scale_l, C, S. split; [apply Rmult_lt_0_compat; assumption|split; ring].
  - right. rewrite !dot_scale_l, C, S. repeat split; try ring. assumption.
Qed.

Lemma dpav_spec a b k v : 0 < k -> - (PI / 2) < b < PI / 2 ->
  bearing_of a b v (dpav (N := RNum) (scale k (direction a b)) v).
Proof.
  intros K B. apply bearing_atan2. pose proof (cos_gt_0 b ltac:(lra) ltac:(lra)) as CB.
  unfold dpav. unR. cbv zeta.
  match goal with |- context [sqrt ?e] => replace (sqrt e) with (norm (scale k (direction a b))) by reflexivity end.
  rewrite norm_scale, norm_direction by lra.
  replace (negb (Reqb (k * 1) 0)) with true by (symmetry; apply negb_true_iff; apply Reqb_false; lra).
  destruct v as [x y z]. unfold scale, direction; cbn [v0 v1 v2].
  replace (k * (cos a * cos b) / (k * 1)) with (cos a * cos b) by (field; lra).
  replace (k * (sin a * cos b) / (k * 1)) with (sin a * cos b) by (field; lra).
  replace (k * sin b / (k * 1)) with (sin b) by (field; lra).
  replace (y * (cos a * cos b) - x * (sin a * cos b)) with (cos b * dot (V3 x y z) (east a)) by (unfold dot, east; cbn [v0 v1 v2]; ring).
  replace (z * (cos a * cos b * (cos a * cos b) + sin a * cos b * (sin a * cos b)) - sin b * (x * (cos a * cos b) + y * (sin a * cos b)))
    with (cos b * dot (V3 x y z) (north a b)).
  2:{ unfold dot, north; cbn [v0 v1 v2]. pose proof (sc1 a) as H1. unfold Rsqr in H1.
      assert (cos b * z * cos b * (cos a * cos a + sin a * sin a - 1) = 0) by (replace (cos a * cos a + sin a * sin a - 1) with 0 by lra; ring). nra. }
  set (X := dot _ (north _ _)). set (Y := dot _ (east _)).
  destruct (Reqb_spec (cos b * Y) 0) as [E|E]; [destruct (Reqb_spec (cos b * X) 0) as [F|F]|]; cbn [andb].
  - apply Rmult_integral in E, F. destruct E as [E|E]; [lra|]. destruct F as [F|F]; [lra|].
    rewrite E, F. rewrite atan2_00, Rmult_0_r. unfold Ratan2. destruct (Rlt_dec 0 1); [|lra]. replace (0 / 1) with 0 by field. apply atan_0.
  - apply atan2_scale. assumption.
  - apply atan2_scale. assumption.
Qed.

Lemma dpav_dbear (p q : sph RNum) j k : 0 < j -> 0 < k -> - (PI / 2) < s_b p < PI / 2 ->
  dpav (N := RNum) (scale j (direction (s_a p) (s_b p))) (scale k (direction (s_a q) (s_b q))) = dbear (N := RNum) p q.
Proof.
  intros J K B. apply (bearing_unique (s_a p) (s_b p) (scale k (direction (s_a q) (s_b q)))).
  - apply dpav_spec; assumption.
  - apply bearing_scale; [assumption|]. apply dbear_spec.
Qed.

(** On the polar axis (and for a null first vector) dpav gives up. *)
Lemma dpav_pole z v : dpav (N := RNum) (V3 0 0 z) v = 0.
Proof.
  destruct v as [x y w]. unfold dpav. unR. cbv zeta. cbn [v0 v1 v2].
  replace (0 / sqrt (0 * 0 + 0 * 0 + z * z)) with 0 by (unfold Rdiv; ring).
  generalize (if negb (Reqb (sqrt (0 * 0 + 0 * 0 + z * z)) 0) then z / sqrt (0 * 0 + 0 * 0 + z * z) else z). intros u.
  replace (if negb (Reqb (sqrt (0 * 0 + 0 * 0 + z * z)) 0) then 0 else 0) with 0 by (destruct (negb _); reflexivity).
  replace (y * 0 - x * 0) with 0 by ring. replace (w * (0 * 0 + 0 * 0) - u * (x * 0 + y * 0)) with 0 by ring.
  destruct (Reqb_spec 0 0); [|lra]. cbn [andb]. unfold Ratan2. destruct (Rlt_dec 0 1); [|lra]. replace (0 / 1) with 0 by field. apply atan_0.
Qed.
Lemma pole_disagree : ~ (forall p q : sph RNum,
  dpav (N := RNum) (direction (s_a p) (s_b p)) (direction (s_a q) (s_b q)) = dbear (N := RNum) p q).
Proof.
  intros H. specialize (H (Sph (N := RNum) 0 (PI / 2)) (Sph (N := RNum) (PI / 2) 0)). cbn [s_a s_b] in H.
  rewrite dbear_eq in H. cbn [s_a s_b] in H.
  replace (direction 0 (PI / 2)) with (V3 0 0 1) in H.
  2:{ unfold direction. rewrite sin_PI2, cos_PI2. apply vec_eq; cbn [v0 v1 v2]; ring. }
  rewrite dpav_pole in H. unfold dot, direction, east, north in H; cbn [v0 v1 v2] in H.
  rewrite sin_PI2, cos_PI2, sin_0, cos_0 in H.
  replace (0 * 1 * - 0 + 1 * 1 * 1 + 0 * 0) with 1 in H by ring. replace (0 * 1 * - (1 * 1) + 1 * 1 * - (0 * 1) + 0 * 0) with 0 in H by ring.
  unfold Ratan2 in H. destruct (Rlt_dec 0 0); [lra|]. destruct (Rlt_dec 0 1); [|lra]. pose proof PI_RGT_0. lra.
Qed.

(** ** The horizon system *)
Lemma polar_two x y : x * x + y * y = 1 -> 0 <= x -> let t := Ratan2 y x in
  - (PI / 2) <= t <= PI / 2 /\ cos t = x /\ sin t = y.
Proof.
  intros E P t. pose proof (atan2_cos y x) as C. pose proof (atan2_sin y x) as S.
  assert (H : hyp x y = 1) by (apply hyp_eq; lra). rewrite H in C, S.
  split; [apply atan2_range_pos; assumption|]. unfold t. lra.
Qed.

Lemma horizon_xyz phi ha dec : let v := direction ha dec in
  dot v (north_point phi) * dot v (north_point phi) + dot v east_point * dot v east_point + dot v (zenith phi) * dot v (zenith phi) = 1.
Proof.
  cbv zeta. unfold dot, direction, north_point, east_point, zenith, direction; cbn [v0 v1 v2]. rewrite sin_0, cos_0.
  pose proof (sc1 ha) as A. pose proof (sc1 dec) as B. pose proof (sc1 phi) as C. unfold Rsqr in *. nsatz.
Qed.

Lemma de2h_spec (p : sph RNum) phi : let h := de2h (N := RNum) p phi in
  horizon phi (direction (s_a p) (s_b p)) (s_a h) (s_b h).
Proof.
  destruct p as [ha dec]. cbn [s_a s_b]. pose proof (horizon_xyz phi ha dec) as U. cbv zeta in *. unfold de2h. cbn [s_a s_b]. unR. cbv zeta.
  replace (- cos ha * cos dec * sin phi + sin dec * cos phi) with (dot (direction ha dec) (north_point phi)) by (unfold dot, direction, north_point; cbn [v0 v1 v2]; ring).
  replace (- sin ha * cos dec) with (dot (direction ha dec) east_point) by (unfold dot, direction, east_point; cbn [v0 v1 v2]; ring).
  replace (cos ha * cos dec * cos phi + sin dec * sin phi) with (dot (direction ha dec) (zenith phi)) by (unfold dot, direction, zenith, direction; cbn [v0 v1 v2]; rewrite sin_0, cos_0; ring).
  unfold horizon. cbn [s_a s_b].
  set (x := dot _ (north_point phi)) in *. set (y := dot _ east_point) in *. set (z := dot _ (zenith phi)) in *.
  fold (hyp x y). pose proof (hyp_sq x y) as HS. pose proof (hyp_nonneg x y) as HN.
  destruct (polar_two (hyp x y) z ltac:(lra) HN) as (RG & C & S). rewrite C, S.
  pose proof PI_RGT_0 as P. 
  destruct (Reqb_spec (hyp x y) 0) as [E|E].
  - destruct (hyp_0 x y E) as [X0 Y0]. rewrite E in RG |- *. repeat split; lra.
  - pose proof (atan2_range y x) as AR. pose proof (atan2_cos y x) as AC. pose proof (atan2_sin y x) as AS.
    destruct (Rltb_spec (Ratan2 y x) 0) as [L|L].
    + replace (Ratan2 y x + 2 * PI) with (Ratan2 y x + IZR 1 * (2 * PI)) by (cbn; lra).
      rewrite cos_period_Z, sin_period_Z. repeat split; try lra.
    + repeat split; try lra.
Qed.

(** The horizon spec determines azimuth (except at the zenith and nadir) and elevation. *)
Lemma horizon_unique phi v az el az' el' : horizon phi v az el -> horizon phi v az' el' ->
  el = el' /\ (cos el <> 0 -> az = az').
Proof.
  intros (A1 & A2 & A3 & A4 & A5) (B1 & B2 & B3 & B4 & B5).
  assert (E : el = el').
  { destruct (Rtotal_order el el') as [L|[L|L]]; [|assumption|].
    - pose proof (sin_increasing_1 el el'). lra.
    - pose proof (sin_increasing_1 el' el). lra. }
  split; [assumption|]. intros C. subst el'. apply same_angle_eq0; [|assumption|assumption].
  apply cos_sin_same_angle; apply Rmult_eq_reg_r with (cos el); try assumption; lra.
Qed.

Lemma dh2e_spec az el phi : let s := dh2e (N := RNum) az el phi in let v := direction (s_a s) (s_b s) in
  - PI < s_a s <= PI /\ - (PI / 2) <= s_b s <= PI / 2 /\
  dot v (north_point phi) = cos az * cos el /\ dot v east_point = sin az * cos el /\ dot v (zenith phi) = sin el.
Proof.
  cbv zeta. unfold dh2e. unR. cbv zeta.
  set (x := - cos az * cos el * sin phi + sin el * cos phi). set (y := - sin az * cos el). set (z := cos az * cos el * cos phi + sin el * sin phi).
  assert (U : x * x + y * y + z * z = 1).
  { unfold x, y, z. pose proof (sc1 az) as A. pose proof (sc1 el) as B. pose proof (sc1 phi) as C. unfold Rsqr in *. clear x y z. nsatz. }
  fold (hyp x y). pose proof (hyp_sq x y) as HS. pose proof (hyp_nonneg x y) as HN.
  destruct (polar_two (hyp x y) z ltac:(lra) HN) as (RG & C & S). cbn [s_a s_b].
  assert (D : (- PI < (if Reqb (hyp x y) 0 then 0 else Ratan2 y x) <= PI) /\
     hyp x y * cos (if Reqb (hyp x y) 0 then 0 else Ratan2 y x) = x /\ hyp x y * sin (if Reqb (hyp x y) 0 then 0 else Ratan2 y x) = y).
  { destruct (Reqb_spec (hyp x y) 0) as [E|E].
    - destruct (hyp_0 x y E) as [X0 Y0]. rewrite E. pose proof PI_RGT_0. repeat split; lra.
    - split; [apply atan2_range|]. split; [apply atan2_cos|apply atan2_sin]. }
  destruct D as (DR & DC & DS). set (a := if Reqb (hyp x y) 0 then 0 else Ratan2 y x) in *.
  split; [exact DR|]. split; [exact RG|].
  unfold dot, direction, north_point, east_point, zenith, direction; cbn [v0 v1 v2]. rewrite C, S, sin_0, cos_0.
  rewrite (Rmult_comm (cos a)), (Rmult_comm (sin a)), DC, DS. unfold x, y, z. pose proof (sc1 phi) as CP. unfold Rsqr in CP.
  clear - CP. repeat split; try ring; nsatz.
Qed.

(** Vectors with the same three components in the horizon frame are equal. *)
Lemma horizon_frame phi v w : dot v (north_point phi) = dot w (north_point phi) -> dot v east_point = dot w east_point ->
  dot v (zenith phi) = dot w (zenith phi) -> v = w.
Proof.
  destruct v as [a b c], w as [d e f]. unfold dot, north_point, east_point, zenith, direction; cbn [v0 v1 v2]. rewrite sin_0, cos_0.
  intros N E Z. pose proof (sc1 phi) as CP. unfold Rsqr in CP. apply vec_eq; cbn [v0 v1 v2]; [nsatz|lra|nsatz].
Qed.

Lemma dh2e_de2h (p : sph RNum) phi : let h := de2h (N := RNum) p phi in
  let q := dh2e (N := RNum) (s_a h) (s_b h) phi in direction (s_a q) (s_b q) = direction (s_a p) (s_b p).
Proof.
  intros h q. destruct (de2h_spec p phi) as (_ & _ & N1 & E1 & Z1). fold h in N1, E1, Z1.
  destruct (dh2e_spec (s_a h) (s_b h) phi) as (_ & _ & N2 & E2 & Z2). fold q in N2, E2, Z2.
  apply (horizon_frame phi); [exact (eq_trans N2 (eq_sym N1))|exact (eq_trans E2 (eq_sym E1))|exact (eq_trans Z2 (eq_sym Z1))].
Qed.

Lemma direction_inj a b a' b' : direction a b = direction a' b' -> - (PI / 2) < b < PI / 2 -> - (PI / 2) <= b' <= PI / 2 ->
  - PI < a <= PI -> - PI < a' <= PI -> a = a' /\ b = b'.
Proof.
  intros E B B' A A'. unfold direction in E. apply vinj in E. destruct E as (E1 & E2 & E3).
  assert (b = b').
  { destruct (Rtotal_order b b') as [L|[L|L]]; [|assumption|].
    - pose proof (sin_increasing_1 b b'). lra.
    - pose proof (sin_increasing_1 b' b). lra. }
  subst b'. split; [|reflexivity]. pose proof (cos_gt_0 b ltac:(lra) ltac:(lra)).
  apply same_angle_eq; [|assumption|assumption]. apply cos_sin_same_angle; apply Rmult_eq_reg_r with (cos b); lra.
Qed.

Lemma dh2e_de2h_eq ha dec phi : - PI < ha <= PI -> - (PI / 2) < dec < PI / 2 ->
  let h := de2h (N := RNum) (Sph (N := RNum) ha dec) phi in
  dh2e (N := RNum) (s_a h) (s_b h) phi = Sph (N := RNum) ha dec.
Proof.
  intros A B h. pose proof (dh2e_de2h (Sph (N := RNum) ha dec) phi) as E. cbv zeta in E. fold h in E. cbn [s_a s_b] in E.
  destruct (dh2e_spec (s_a h) (s_b h) phi) as (R1 & R2 & _).
  destruct (dh2e (N := RNum) (s_a h) (s_b h) phi) as [x y]. cbn [s_a s_b] in *.
  destruct (direction_inj ha dec x y (eq_sym E)) as [-> ->]; try assumption. reflexivity.
Qed.

Lemma de2h_dh2e az el phi : 0 <= az < 2 * PI -> - (PI / 2) < el < PI / 2 ->
  let p := dh2e (N := RNum) az el phi in de2h (N := RNum) p phi = Sph (N := RNum) az el.
Proof.
  intros A B p. pose proof (de2h_spec p phi) as S1. cbv zeta in S1.
  destruct (dh2e_spec az el phi) as (_ & _ & N2 & E2 & Z2). fold p in N2, E2, Z2.
  assert (S2 : horizon phi (direction (s_a p) (s_b p)) az el) by (repeat split; try lra; assumption).
  destruct (horizon_unique _ _ _ _ _ _ S2 S1) as [E1 E3]. pose proof (cos_gt_0 el ltac:(lra) ltac:(lra)).
  destruct (de2h (N := RNum) p phi) as [x y]. cbn [s_a s_b] in *. subst y. rewrite E3 by lra. reflexivity.
Qed.

(** ** Zenith distance and parallactic angle *)
Lemma zd_spec (p : sph RNum) phi : zd (N := RNum) p phi = PI / 2 - s_b (de2h (N := RNum) p phi) /\
  zd (N := RNum) p phi = dsep (N := RNum) p (Sph (N := RNum) 0 phi).
Proof.
  assert (Z : 0 <= zd (N := RNum) p phi <= PI /\ cos (zd (N := RNum) p phi) = dot (direction (s_a p) (s_b p)) (zenith phi)).
  { destruct p as [ha dec]. cbn [s_a s_b]. pose proof (horizon_xyz phi ha dec) as U. cbv zeta in *. unfold zd. cbn [s_a s_b]. unR. cbv zeta.
    replace (cos ha * cos dec * sin phi - sin dec * cos phi) with (- dot (direction ha dec) (north_point phi)) by (unfold dot, direction, north_point; cbn [v0 v1 v2]; ring).
    replace (sin ha * cos dec) with (- dot (direction ha dec) east_point) by (unfold dot, direction, east_point; cbn [v0 v1 v2]; ring).
    replace (cos ha * cos dec * cos phi + sin dec * sin phi) with (dot (direction ha dec) (zenith phi)) by (unfold dot, direction, zenith, direction; cbn [v0 v1 v2]; rewrite sin_0, cos_0; ring).
    set (x := dot _ (north_point phi)) in *. set (y := dot _ east_point) in *. set (z := dot _ (zenith phi)) in *.
    fold (hyp (- x) (- y)). pose proof (hyp_sq (- x) (- y)) as HS. pose proof (hyp_nonneg (- x) (- y)) as HN.
    split; [apply atan2_range_up; assumption|].
    pose proof (atan2_cos (hyp (- x) (- y)) z) as C. replace (hyp z (hyp (- x) (- y))) with 1 in C; [lra|]. symmetry. apply hyp_eq; [lra|]. rewrite HS. lra. }
  destruct Z as [ZR ZC]. pose proof PI_RGT_0.
  destruct (de2h_spec p phi) as (_ & ER & _ & _ & EZ).
  destruct (dsep_spec p (Sph (N := RNum) 0 phi)) as [SR SC]. cbn [s_a s_b] in SC. fold (zenith phi) in SC.
  assert (INJ : forall s t, 0 <= s <= PI -> 0 <= t <= PI -> cos s = cos t -> s = t).
  { intros s t S1 T1 E. destruct (Rtotal_order s t) as [L|[L|L]]; [|assumption|]; [pose proof (cos_decreasing_1 s t)|pose proof (cos_decreasing_1 t s)]; lra. }
  split; apply INJ; try assumption; try (change (car RNum) with R in *; lra).
  - rewrite cos_shift. exact (eq_trans ZC EZ).
Qed.

Lemma pa_eq (p : sph RNum) phi : pa (N := RNum) p phi = dbear (N := RNum) (Sph (N := RNum) (- s_a p) (s_b p)) (Sph (N := RNum) 0 phi).
Proof.
  rewrite dbear_eq. destruct p as [ha dec]. cbn [s_a s_b]. unfold pa. cbn [s_a s_b]. unR. cbv zeta.
  replace (dot (direction 0 phi) (east (- ha))) with (cos phi * sin ha) by (unfold dot, direction, east; cbn [v0 v1 v2]; rewrite sin_0, cos_0, sin_neg; ring).
  replace (dot (direction 0 phi) (north (- ha) dec)) with (sin phi * cos dec - cos phi * sin dec * cos ha)
    by (unfold dot, direction, north; cbn [v0 v1 v2]; rewrite sin_0, cos_0, sin_neg, cos_neg; ring).
  set (x := sin phi * cos dec - _). set (y := cos phi * sin ha).
  destruct (Reqb_spec y 0) as [->|]; [destruct (Reqb_spec x 0) as [->|]|]; cbn [andb]; try reflexivity.
  rewrite atan2_00. unfold Ratan2. destruct (Rlt_dec 0 1); [|lra]. replace (0 / 1) with 0 by field. apply atan_0.
Qed.
Lemma pa_spec (p : sph RNum) phi : bearing_of (- s_a p) (s_b p) (direction 0 phi) (pa (N := RNum) p phi).
Proof. rewrite pa_eq. apply (dbear_spec (Sph (N := RNum) (- s_a p) (s_b p)) (Sph (N := RNum) 0 phi)). Qed.
Lemma pa_zenith phi : pa (N := RNum) (Sph (N := RNum) 0 phi) phi = 0.
Proof.
  pose proof (pa_spec (Sph (N := RNum) 0 phi) phi) as B. cbn [s_a s_b] in B. apply (bearing_unique _ _ _ _ _ B). right.
  replace (- 0) with 0 by ring. unfold dot, direction, north, east; cbn [v0 v1 v2]. rewrite sin_0, cos_0. repeat split; ring.
Qed.
(** At the zenith in the other representation (hour angle half a turn, past the pole). *)

Lemma altaz_de2h (p : sph RNum) phi : am_az (altaz (N := RNum) p phi) = s_a (de2h (N := RNum) p phi) /\
  am_el (altaz (N := RNum) p phi) = s_b (de2h (N := RNum) p phi).
Proof.
  destruct p as [ha dec]. unfold altaz, de2h. cbn [am_az am_el s_a s_b]. unR. cbv zeta.
  replace (- (cos ha * cos dec)) with (- cos ha * cos dec) by ring.
  set (x := - cos ha * cos dec * sin phi + sin dec * cos phi). set (y := - sin ha * cos dec).
  fold (hyp x y). split; [|reflexivity].
  destruct (Reqb_spec (x * x + y * y) 0) as [E|E]; destruct (Reqb_spec (hyp x y) 0) as [F|F].
  - destruct (Rltb_spec 0 0); [lra|reflexivity].
  - exfalso. apply F. apply hyp_eq; lra.
  - exfalso. apply E. rewrite <- hyp_sq, F. ring.
  - reflexivity.
Qed.
Lemma altaz_pa (p : sph RNum) phi :
  am_pa (altaz (N := RNum) p phi) = (if Req_EM_T (sin (zd (N := RNum) p phi)) 0 then PI - s_a p else pa (N := RNum) p phi).
Proof.
  rewrite pa_eq, dbear_eq. 
  destruct (dsepv_spec (direction (s_a p) (s_b p)) (zenith phi)) as [_ ZS].
  assert (ZE : zd (N := RNum) p phi = dsepv (N := RNum) (direction (s_a p) (s_b p)) (zenith phi)).
  { destruct (zd_spec p phi) as [_ E]. unfold dsep in E. rewrite !dcs2c_direction in E. exact E. }
  rewrite <- ZE in ZS. rewrite norm_direction in ZS. unfold zenith in ZS. rewrite norm_direction, !Rmult_1_l in ZS.
  rewrite <- ZS. clear ZS ZE. destruct p as [ha dec]. cbn [s_a s_b]. unfold altaz. cbn [am_pa s_a s_b]. unR. cbv zeta.
  replace (dot (direction 0 phi) (east (- ha))) with (sin ha * cos phi) by (unfold dot, direction, east; cbn [v0 v1 v2]; rewrite sin_0, cos_0, sin_neg; ring).
  replace (dot (direction 0 phi) (north (- ha) dec)) with (cos dec * sin phi - cos ha * (sin dec * cos phi))
    by (unfold dot, direction, north; cbn [v0 v1 v2]; rewrite sin_0, cos_0, sin_neg, cos_neg; ring).
  set (x := cos dec * sin phi - _). set (y := sin ha * cos phi).
  assert (NE : norm (cross (direction ha dec) (direction 0 phi)) = hyp x y).
  { symmetry. apply hyp_eq; [apply norm_nonneg|]. rewrite norm_sq. unfold x, y, dot, cross, direction; cbn [v0 v1 v2]. rewrite sin_0, cos_0.
    pose proof (sc1 ha) as A. pose proof (sc1 dec) as B. pose proof (sc1 phi) as C. unfold Rsqr in *. clear x y. nsatz. }
  rewrite NE. destruct (Rltb_spec 0 (x * x + y * y)) as [L|L]; destruct (Req_EM_T (hyp x y) 0) as [E|E]; try reflexivity.
  - rewrite <- hyp_sq, E in L. lra.
  - exfalso. apply E. apply hyp_eq; [lra|]. nra.
Qed.
