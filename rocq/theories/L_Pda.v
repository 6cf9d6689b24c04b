(** Hour angle from azimuth or parallactic angle (pda2h, pdq2h) over the reals. *)
From Coq Require Import ZArith Reals Lra Lia Psatz Bool.
From Verif Require Import L_Pi Num NumR L_Real M_Vec S_Geom L_Vec L_Rot M_Angle L_Angle M_Sphere S_Sphere L_Sphere L_Bear.
Open Scope R_scope.

Definition tiny : R := Rdec 1 (-12).
Lemma tiny_val : tiny = 1 / 1000000000000.
Proof. unfold tiny, Rdec. reflexivity. Qed.

Lemma asin_two_roots x s : -1 <= s <= 1 -> sin x = s -> same_angle x (asin s) \/ same_angle x (- asin s - PI).
Proof.
  intros B E. pose proof (sin_asin s B) as SA. pose proof (cos_asin s B) as CA.
  pose proof (sc1 x) as Q. rewrite E in Q.
  assert (Z : cos x * cos x = sqrt (1 - s²) * sqrt (1 - s²)). { rewrite sqrt_sqrt by (unfold Rsqr; nra). unfold Rsqr. lra. }
  assert (P : (cos x - sqrt (1 - s²)) * (cos x + sqrt (1 - s²)) = 0) by lra. apply Rmult_integral in P. destruct P as [P|P].
  - left. apply cos_sin_same_angle; lra.
  - right. apply cos_sin_same_angle.
    + replace (- asin s - PI) with (- (asin s + PI)) by ring. rewrite cos_neg, neg_cos. lra.
    + replace (- asin s - PI) with (- (asin s + PI)) by ring. rewrite sin_neg, neg_sin. lra.
Qed.

Lemma sin_pos_range x : 0 <= x <= PI -> 0 <= sin x. Proof. intros. apply sin_ge_0; lra. Qed.
Lemma sin_neg_range x : - PI <= x <= 0 -> sin x <= 0.
Proof. intros. rewrite <- (Ropp_involutive x), sin_neg. pose proof (sin_pos_range (- x) ltac:(lra)). lra. Qed.

Lemma same_sign_sin x y : - PI <= x <= PI -> - PI < y < PI -> y <> 0 -> 0 <= x * y -> 0 <= sin x * sin y.
Proof.
  intros X Y NZ P. destruct (Rtotal_order y 0) as [L|[L|L]]; [|lra|].
  - assert (x <= 0) by nra. pose proof (sin_neg_range x ltac:(lra)). pose proof (sin_neg_range y ltac:(lra)). nra.
  - assert (0 <= x) by nra. pose proof (sin_pos_range x ltac:(lra)). pose proof (sin_pos_range y ltac:(lra)). nra.
Qed.
Lemma opp_sign_sin x y : - PI <= x <= PI -> - PI < y < PI -> y <> 0 -> x * y <= 0 -> sin x * sin y <= 0.
Proof. intros. pose proof (same_sign_sin (- x) y ltac:(lra) ltac:(lra) ltac:(lra) ltac:(lra)) as K. rewrite sin_neg in K. lra. Qed.
Lemma sin_ne_0 y : - PI < y < PI -> y <> 0 -> sin y <> 0.
Proof.
  intros Y NZ. destruct (Rtotal_order y 0) as [L|[L|L]]; [|lra|].
  - pose proof (sin_gt_0 (- y) ltac:(lra) ltac:(lra)) as K. rewrite sin_neg in K. lra.
  - pose proof (sin_gt_0 y ltac:(lra) ltac:(lra)). lra.
Qed.

(** The common scheme: solve c * q * sin (h + t) = qt. *)
Section Roots.
Variables c u w qt : R.   (* c * (cos h * u + sin h * w) = qt *)
Hypothesis C : 0 < c.
Hypothesis NZ : u <> 0 \/ w <> 0 \/ qt <> 0.
Let q := sqrt (w * w + u * u).
Let qb := c * q.
Let t := Ratan2 u w.
Let hpt := asin (qt / qb).
Lemma q_t : q * cos t = w /\ q * sin t = u.
Proof. unfold q, t. change (sqrt (w * w + u * u)) with (hyp w u). split; [apply atan2_cos|apply atan2_sin]. Qed.
Lemma eqn h : c * (cos h * u + sin h * w) = qb * sin (h + t).
Proof. destruct q_t as [QC QS]. unfold qb. rewrite sin_plus. rewrite <- QC at 1. rewrite <- QS at 1. ring. Qed.
Lemma q_nonneg : 0 <= q. Proof. apply sqrt_pos. Qed.
Lemma qb_pos : Rabs qt <= qb -> 0 < qb.
Proof.
  intros H. destruct (Rle_lt_or_eq_dec 0 q q_nonneg) as [P|P]; [apply Rmult_lt_0_compat; assumption|exfalso].
  assert (Z : hyp w u = 0) by (symmetry; exact P). apply hyp_0 in Z. destruct Z as [-> ->].
  unfold qb in H. rewrite <- P in H. rewrite Rmult_0_r in H. pose proof (Rabs_pos qt). assert (Rabs qt = 0) as Q by lra.
  destruct NZ as [?|[?|Z]]; try lra. apply Rabs_no_R0 in Z. lra.
Qed.
Lemma roots_sound h : Rabs qt <= qb -> same_angle (hpt - t) h \/ same_angle (- hpt - (t + PI)) h ->
  c * (cos h * u + sin h * w) = qt.
Proof.
  intros H E. pose proof (qb_pos H) as P. rewrite eqn.
  assert (B : -1 <= qt / qb <= 1).
  { assert (- qb <= qt <= qb) by (unfold Rabs in H; destruct (Rcase_abs qt); lra). split; [apply Rmult_le_reg_r with qb|apply Rmult_le_reg_r with qb]; try assumption; unfold Rdiv; rewrite Rmult_assoc, Rinv_l; lra. }
  assert (S : sin (h + t) = qt / qb).
  { rewrite sin_plus. destruct E as [E|E]; rewrite <- (same_angle_sin _ _ E), <- (same_angle_cos _ _ E), <- sin_plus.
    - replace (hpt - t + t) with hpt by ring. apply sin_asin; assumption.
    - replace (- hpt - (t + PI) + t) with (- (hpt + PI)) by ring. rewrite sin_neg, neg_sin. unfold hpt. rewrite sin_asin by assumption. ring. }
  rewrite S. field. lra.
Qed.
Lemma roots_complete h : c * (cos h * u + sin h * w) = qt ->
  Rabs qt <= qb /\ (same_angle h (hpt - t) \/ same_angle h (- hpt - (t + PI))).
Proof.
  intros E. rewrite eqn in E. pose proof (SIN_bound (h + t)) as SB.
  assert (Q0 : 0 <= qb) by (apply Rmult_le_pos; [lra|apply q_nonneg]).
  assert (H : Rabs qt <= qb). { rewrite <- E, Rabs_mult, (Rabs_right qb) by lra. assert (Rabs (sin (h + t)) <= 1) by (apply Rabs_le; lra). nra. }
  split; [exact H|]. pose proof (qb_pos H) as P.
  assert (S : sin (h + t) = qt / qb) by (rewrite <- E; field; lra).
  destruct (asin_two_roots (h + t) (qt / qb) ltac:(rewrite <- S; lra) S) as [[k K]|[k K]]; fold hpt in K.
  - left. exists k. lra.
  - right. exists k. lra.
Qed.
End Roots.

(** Adjustments. *)
Lemma f_sign_cases (x : R) : f_sign (N := RNum) (n_lit (n := RNum) 1 (-12)) x = tiny /\ 0 <= x \/
  f_sign (N := RNum) (n_lit (n := RNum) 1 (-12)) x = - tiny /\ x < 0.
Proof.
  unfold f_sign. unR. fold tiny. assert (0 <= tiny) by (rewrite tiny_val; lra). rewrite Rabs_right by lra.
  destruct (Rleb_spec 0 x); [left|right]; split; (reflexivity || lra).
Qed.

Ltac abs1 x :=
  lazymatch x with context [Rabs _] => fail | _ =>
    let H := fresh "AB" in destruct (Rle_lt_dec 0 x) as [H|H];
    [rewrite ?(Rabs_right x (Rle_ge _ _ H)) in *|rewrite ?(Rabs_left x H) in *] end.
Ltac cases_abs := repeat match goal with |- context [Rabs ?x] => abs1 x | _ : context [Rabs ?x] |- _ => abs1 x end.

Lemma adjust_lat_spec lat : - (PI / 2) <= lat <= PI / 2 -> let p := adjust_lat (N := RNum) lat in
  Rabs (p - lat) <= 2 * tiny /\ - (PI / 2) < p < PI / 2 /\ p <> 0 /\
  (tiny <= Rabs lat <= PI / 2 - tiny -> p = lat).
Proof.
  intros L. pose proof PI_bounds as PB. pose proof tiny_val as TV. unfold adjust_lat. cbv zeta.
  rewrite (drange_id lat) by (apply Rabs_def1; lra).
  destruct (f_sign_cases lat) as [[-> G]|[-> G]]; unR; fold tiny;
  repeat match goal with |- context [Rltb ?a ?b] => destruct (Rltb_spec a b) end; repeat split; intros; cases_abs; lra.
Qed.
Lemma adjust_dec_a_spec lat dec : - (PI / 2) <= dec <= PI / 2 -> let p := adjust_dec_a (N := RNum) lat dec in
  Rabs (p - dec) <= 2 * tiny /\ - (PI / 2) < p < PI / 2 /\
  (tiny <= Rabs dec <= PI / 2 - tiny -> tiny <= Rabs (Rabs dec - Rabs lat) -> p = dec).
Proof.
  intros L. pose proof PI_bounds as PB. pose proof tiny_val as TV. unfold adjust_dec_a. cbv zeta.
  rewrite (drange_id dec) by (apply Rabs_def1; lra).
  destruct (f_sign_cases dec) as [[-> G]|[-> G]]; unR; fold tiny; set (al := Rabs lat);
  repeat match goal with |- context [Rltb ?a ?b] => destruct (Rltb_spec a b) end; cbn [orb]; repeat split; intros; cases_abs; lra.
Qed.
Lemma adjust_dec_q_spec lat dec : - (PI / 2) <= dec <= PI / 2 -> let p := adjust_dec_q (N := RNum) lat dec in
  Rabs (p - dec) <= 2 * tiny /\ - (PI / 2) < p < PI / 2 /\
  (Rabs dec <= PI / 2 - tiny -> tiny <= Rabs (Rabs dec - Rabs lat) -> p = dec).
Proof.
  intros L. pose proof PI_bounds as PB. pose proof tiny_val as TV. unfold adjust_dec_q. cbv zeta.
  rewrite (drange_id dec) by (apply Rabs_def1; lra).
  destruct (f_sign_cases dec) as [[-> G]|[-> G]]; unR; fold tiny; set (al := Rabs lat);
  repeat match goal with |- context [Rltb ?a ?b] => destruct (Rltb_spec a b) end; cbn [orb]; repeat split; intros; cases_abs; lra.
Qed.
Lemma adjust_az_spec az : let p := adjust_az (N := RNum) az in
  near_angle (2 * tiny) az p /\ - PI < p < PI /\ p <> 0 /\
  (forall z, congruent az z -> tiny <= Rabs z <= PI - tiny -> p = z).
Proof.
  pose proof PI_bounds as PB. pose proof tiny_val as TV. unfold adjust_az. cbv zeta.
  destruct (drange_spec az) as (E & RG & _). set (d := drange (N := RNum) az) in *. change (car RNum) with R in d.
  assert (U : forall z, congruent az z -> tiny <= Rabs z <= PI - tiny -> d = z).
  { intros z [k K] Z. destruct E as [j E]. assert (d = z + IZR (k - j) * (2 * PI)) as D by (rewrite minus_IZR; lra).
    assert (-1 < IZR (k - j) < 1). { cases_abs; split; nra. }
    assert (k - j = 0)%Z as W by (destruct H as [H1 H2]; apply lt_IZR in H1, H2; lia). rewrite W in D. lra. }
  destruct (f_sign_cases d) as [[-> G]|[-> G]]; unR; fold tiny;
  repeat match goal with |- context [Rltb ?a ?b] => destruct (Rltb_spec a b) end; (split; [exists d; split; [exact E|cases_abs; lra]|]);
   (split; [cases_abs; lra|split; [cases_abs; lra|]]); intros z Z1 Z2; specialize (U z Z1 Z2); try exact U; subst z; cases_abs; lra.
Qed.


Lemma pda2h_core lat dec azimuth :
  let phi := adjust_lat (N := RNum) lat in let A := adjust_az (N := RNum) azimuth in let d := adjust_dec_a (N := RNum) lat dec in
  - (PI / 2) < phi < PI / 2 -> phi <> 0 -> - (PI / 2) < d < PI / 2 -> - PI < A < PI -> A <> 0 ->
  (forall h, flagged (pda2h (N := RNum) lat dec azimuth) h -> - PI <= h <= PI /\ on_azimuth phi (direction h d) A) /\
  (forall h, strictly_on_azimuth phi (direction h d) A -> exists h', flagged (pda2h (N := RNum) lat dec azimuth) h' /\ congruent h h').
Proof.
  intros phi A d P P0 D AR A0. pose proof (cos_gt_0 d ltac:(lra) ltac:(lra)) as CD.
  pose proof (sin_ne_0 A AR A0) as SA. pose proof (sin_ne_0 phi ltac:(lra) P0) as SP.
  assert (DEF : pda2h (N := RNum) lat dec azimuth =
    let u := sin A * sin phi in let w := - cos A in let qt := sin d * sin A * cos phi in
    let qb := cos d * sqrt (cos A * cos A + u * u) in
    if Rleb (Rabs qt) qb then
      let h1 := drange (N := RNum) (asin (qt / qb) - Ratan2 u w) in
      let h2 := drange (N := RNum) (- asin (qt / qb) - (Ratan2 u w + PI)) in
      ((Some h1, Rleb (h1 * A) 0), (Some h2, Rleb (h2 * A) 0))
    else ((None, false), (None, false))) by reflexivity.
  rewrite DEF. clear DEF. clearbody phi A d. clear lat dec azimuth. cbv zeta.
  set (u := sin A * sin phi). set (qt := sin d * sin A * cos phi).
  assert (U : u <> 0). { unfold u. intros Z. apply Rmult_integral in Z. tauto. }
  replace (cos A * cos A) with (- cos A * - cos A) by ring. set (w := - cos A). set (qb := cos d * sqrt (w * w + u * u)).
  assert (NZ : u <> 0 \/ w <> 0 \/ qt <> 0) by tauto.
  assert (EQ : forall h, cos d * (cos h * u + sin h * w) = qt <->
     dot (direction h d) (north_point phi) * sin A = dot (direction h d) east_point * cos A).
  { intros h. unfold u, w, qt, dot, direction, north_point, east_point; cbn [v0 v1 v2]. split; intros; lra. }
  assert (EE : forall h, dot (direction h d) east_point = - (cos d * sin h)).
  { intros. unfold dot, direction, east_point; cbn [v0 v1 v2]. ring. }
  assert (SND : forall x, Rabs qt <= qb -> x = asin (qt / qb) - Ratan2 u w \/ x = - asin (qt / qb) - (Ratan2 u w + PI) ->
     Rleb (drange (N := RNum) x * A) 0 = true -> - PI <= drange (N := RNum) x <= PI /\ on_azimuth phi (direction (drange (N := RNum) x) d) A).
  { intros x Q X F. destruct (drange_spec x) as (E & RG & _). set (h := drange (N := RNum) x) in *. change (car RNum) with R in h.
    split; [exact RG|]. apply Rleb_true in F.
    assert (G : cos d * (cos h * u + sin h * w) = qt). { apply roots_sound; [exact CD|exact NZ|exact Q|]. destruct X as [-> | ->]; [left|right]; exact E. }
    apply EQ in G. pose proof (opp_sign_sin h A RG AR A0 F) as SS. pose proof (EE h) as E1.
    exists (dot (direction h d) east_point / sin A). repeat split.
    - rewrite E1. replace (- (cos d * sin h) / sin A) with (cos d * (- (sin h * sin A)) * / (sin A * sin A)) by (field; exact SA).
      apply Rmult_le_pos; [apply Rmult_le_pos; lra|]. left. apply Rinv_0_lt_compat. assert (0 < sin A * sin A) by (apply Rsqr_pos_lt in SA; exact SA). assumption.
    - replace (dot (direction h d) east_point / sin A * cos A) with (dot (direction h d) east_point * cos A / sin A) by (field; exact SA).
      rewrite <- G. field. exact SA.
    - field. exact SA. }
  split.
  - intros h F. destruct (Rleb_spec (Rabs qt) qb) as [Q|Q]; [|destruct F as [F|F]; discriminate].
    destruct F as [F|F]; cbn [fst snd] in F; injection F as F1 F2; subst h; apply SND; auto.
  - intros h (k & K & KN & KE).
    assert (G : cos d * (cos h * u + sin h * w) = qt). { apply EQ. rewrite KN, KE. ring. }
    destruct (roots_complete (cos d) u w qt CD NZ h G) as [Q R1]. fold qb in Q, R1. destruct (Rleb_spec (Rabs qt) qb) as [_|Q']; [|contradiction].
    assert (FL : forall x, same_angle h x -> congruent h (drange (N := RNum) x) /\ Rleb (drange (N := RNum) x * A) 0 = true).
    { intros x X. destruct (drange_spec x) as (E & RG & _). set (h' := drange (N := RNum) x) in *. change (car RNum) with R in h'.
      assert (HH : same_angle h h') by (eapply same_angle_trans; eassumption). split; [exact HH|]. apply Rleb_true.
      assert (SS : cos d * (sin h' * sin A) < 0).
      { rewrite <- (same_angle_sin _ _ HH). rewrite EE in KE. replace (cos d * (sin h * sin A)) with (- (k * sin A) * sin A) by (rewrite <- KE; ring).
        assert (0 < sin A * sin A) by (apply Rsqr_pos_lt in SA; exact SA). nra. }
      apply Rnot_lt_le. intros BAD. pose proof (same_sign_sin h' A RG AR A0 ltac:(lra)). nra. }
    destruct R1 as [R1|R1]; destruct (FL _ R1) as [F1 F2].
    + eexists. split; [left|exact F1]. cbn [fst]. rewrite F2. reflexivity.
    + eexists. split; [right|exact F1]. cbn [snd]. rewrite F2. reflexivity.
Qed.

Lemma pdq2h_core lat dec pa :
  let phi := adjust_lat (N := RNum) lat in let A := adjust_az (N := RNum) pa in let d := adjust_dec_q (N := RNum) lat dec in
  - (PI / 2) < phi < PI / 2 -> phi <> 0 -> - (PI / 2) < d < PI / 2 -> - PI < A < PI -> A <> 0 ->
  (forall h, flagged (pdq2h (N := RNum) lat dec pa) h -> - PI <= h <= PI /\ on_bearing (- h) d (direction 0 phi) A) /\
  (forall h, strictly_on_bearing (- h) d (direction 0 phi) A -> exists h', flagged (pdq2h (N := RNum) lat dec pa) h' /\ congruent h h').
Proof.
  intros phi A d P P0 D AR A0. pose proof (cos_gt_0 d ltac:(lra) ltac:(lra)) as CD. pose proof (cos_gt_0 phi ltac:(lra) ltac:(lra)) as CP.
  pose proof (sin_ne_0 A AR A0) as SA. pose proof (sin_ne_0 phi ltac:(lra) P0) as SP.
  assert (DEF : pdq2h (N := RNum) lat dec pa =
    let u := sin A * sin d in let w := cos A in let qt := sin phi * sin A * cos d in
    let qb := cos phi * sqrt (w * w + u * u) in
    if Rleb (Rabs qt) qb then
      let h1 := drange (N := RNum) (asin (qt / qb) - Ratan2 u w) in
      let h2 := drange (N := RNum) (- asin (qt / qb) - (Ratan2 u w + PI)) in
      ((Some h1, Rleb 0 (h1 * A)), (Some h2, Rleb 0 (h2 * A)))
    else ((None, false), (None, false))) by reflexivity.
  rewrite DEF. clear DEF. clearbody phi A d. clear lat dec pa. cbv zeta.
  set (u := sin A * sin d). set (qt := sin phi * sin A * cos d).
  assert (U : qt <> 0). { unfold qt. intros Z. apply Rmult_integral in Z. destruct Z as [Z|Z]; [apply Rmult_integral in Z; tauto|lra]. }
  set (w := cos A). set (qb := cos phi * sqrt (w * w + u * u)).
  assert (NZ : u <> 0 \/ w <> 0 \/ qt <> 0) by tauto.
  assert (EE : forall h, dot (direction 0 phi) (east (- h)) = cos phi * sin h).
  { intros. unfold dot, direction, east; cbn [v0 v1 v2]. rewrite sin_neg, sin_0, cos_0. ring. }
  assert (NN : forall h, dot (direction 0 phi) (north (- h) d) = sin phi * cos d - cos phi * sin d * cos h).
  { intros. unfold dot, direction, north; cbn [v0 v1 v2]. rewrite sin_neg, cos_neg, sin_0, cos_0. ring. }
  assert (EQ : forall h, cos phi * (cos h * u + sin h * w) = qt <->
     dot (direction 0 phi) (north (- h) d) * sin A = dot (direction 0 phi) (east (- h)) * cos A).
  { intros h. rewrite EE, NN. unfold u, w, qt. split; intros; lra. }
  assert (SND : forall x, Rabs qt <= qb -> x = asin (qt / qb) - Ratan2 u w \/ x = - asin (qt / qb) - (Ratan2 u w + PI) ->
     Rleb 0 (drange (N := RNum) x * A) = true -> - PI <= drange (N := RNum) x <= PI /\ on_bearing (- drange (N := RNum) x) d (direction 0 phi) A).
  { intros x Q X F. destruct (drange_spec x) as (E & RG & _). set (h := drange (N := RNum) x) in *. change (car RNum) with R in h.
    split; [exact RG|]. apply Rleb_true in F.
    assert (G : cos phi * (cos h * u + sin h * w) = qt). { apply roots_sound; [exact CP|exact NZ|exact Q|]. destruct X as [-> | ->]; [left|right]; exact E. }
    apply EQ in G. pose proof (same_sign_sin h A RG AR A0 F) as SS. pose proof (EE h) as E1.
    exists (dot (direction 0 phi) (east (- h)) / sin A). change (car RNum) with R in *. repeat split.
    - rewrite E1. replace (cos phi * sin h / sin A) with (cos phi * (sin h * sin A) * / (sin A * sin A)) by (field; exact SA).
      apply Rmult_le_pos; [apply Rmult_le_pos; lra|]. left. apply Rinv_0_lt_compat. assert (0 < sin A * sin A) by (apply Rsqr_pos_lt in SA; exact SA). assumption.
    - replace (dot (direction 0 phi) (east (- h)) / sin A * cos A) with (dot (direction 0 phi) (east (- h)) * cos A / sin A) by (field; exact SA).
      rewrite <- G. field. exact SA.
    - field. exact SA. }
  split.
  - intros h F. destruct (Rleb_spec (Rabs qt) qb) as [Q|Q]; [|destruct F as [F|F]; discriminate].
    destruct F as [F|F]; cbn [fst snd] in F; injection F as F1 F2; subst h; apply SND; auto.
  - intros h (k & K & KN & KE).
    assert (G : cos phi * (cos h * u + sin h * w) = qt). { apply EQ. rewrite KN, KE. ring. }
    destruct (roots_complete (cos phi) u w qt CP NZ h G) as [Q R1]. fold qb in Q, R1. destruct (Rleb_spec (Rabs qt) qb) as [_|Q']; [|contradiction].
    assert (FL : forall x, same_angle h x -> congruent h (drange (N := RNum) x) /\ Rleb 0 (drange (N := RNum) x * A) = true).
    { intros x X. destruct (drange_spec x) as (E & RG & _). set (h' := drange (N := RNum) x) in *. change (car RNum) with R in h'.
      assert (HH : same_angle h h') by (eapply same_angle_trans; eassumption). split; [exact HH|]. apply Rleb_true.
      assert (SS : 0 < cos phi * (sin h' * sin A)).
      { rewrite <- (same_angle_sin _ _ HH). rewrite EE in KE. replace (cos phi * (sin h * sin A)) with ((k * sin A) * sin A) by (rewrite <- KE; ring).
        assert (0 < sin A * sin A) by (apply Rsqr_pos_lt in SA; exact SA). nra. }
      apply Rnot_lt_le. intros BAD. pose proof (opp_sign_sin h' A RG AR A0 ltac:(lra)). nra. }
    destruct R1 as [R1|R1]; destruct (FL _ R1) as [F1 F2].
    + eexists. split; [left|exact F1]. cbn [fst]. rewrite F2. reflexivity.
    + eexists. split; [right|exact F1]. cbn [snd]. rewrite F2. reflexivity.
Qed.

Lemma pda2h_spec lat dec azimuth : - (PI / 2) <= lat <= PI / 2 -> - (PI / 2) <= dec <= PI / 2 ->
  exists phi d A, Rabs (phi - lat) <= 2 / 10 ^ 12 /\ Rabs (d - dec) <= 2 / 10 ^ 12 /\ near_angle (2 / 10 ^ 12) azimuth A /\
  (forall h, flagged (pda2h (N := RNum) lat dec azimuth) h -> - PI <= h <= PI /\ on_azimuth phi (direction h d) A) /\
  (forall h, strictly_on_azimuth phi (direction h d) A -> exists h', flagged (pda2h (N := RNum) lat dec azimuth) h' /\ congruent h h').
Proof.
  intros L D. destruct (adjust_lat_spec lat L) as (L1 & L2 & L3 & _). destruct (adjust_dec_a_spec lat dec D) as (D1 & D2 & _).
  destruct (adjust_az_spec azimuth) as (A1 & A2 & A3 & _). pose proof (pda2h_core lat dec azimuth L2 L3 D2 A2 A3) as [S1 S2].
  replace (2 / 10 ^ 12) with (2 * tiny) by (rewrite tiny_val; lra).
  exists (adjust_lat (N := RNum) lat), (adjust_dec_a (N := RNum) lat dec), (adjust_az (N := RNum) azimuth). auto.
Qed.
Lemma pdq2h_spec lat dec pa : - (PI / 2) <= lat <= PI / 2 -> - (PI / 2) <= dec <= PI / 2 ->
  exists phi d A, Rabs (phi - lat) <= 2 / 10 ^ 12 /\ Rabs (d - dec) <= 2 / 10 ^ 12 /\ near_angle (2 / 10 ^ 12) pa A /\
  (forall h, flagged (pdq2h (N := RNum) lat dec pa) h -> - PI <= h <= PI /\ on_bearing (- h) d (direction 0 phi) A) /\
  (forall h, strictly_on_bearing (- h) d (direction 0 phi) A -> exists h', flagged (pdq2h (N := RNum) lat dec pa) h' /\ congruent h h').
Proof.
  intros L D. destruct (adjust_lat_spec lat L) as (L1 & L2 & L3 & _). destruct (adjust_dec_q_spec lat dec D) as (D1 & D2 & _).
  destruct (adjust_az_spec pa) as (A1 & A2 & A3 & _). pose proof (pdq2h_core lat dec pa L2 L3 D2 A2 A3) as [S1 S2].
  replace (2 / 10 ^ 12) with (2 * tiny) by (rewrite tiny_val; lra).
  exists (adjust_lat (N := RNum) lat), (adjust_dec_q (N := RNum) lat dec), (adjust_az (N := RNum) pa). auto.
Qed.

(** Inputs at least 1e-12 away from the critical values are used unchanged. *)

Lemma pda2h_exact lat dec azimuth A : - (PI / 2) <= lat <= PI / 2 -> - (PI / 2) <= dec <= PI / 2 ->
  away lat 0 -> away lat (PI / 2) -> away dec 0 -> away dec (PI / 2) -> away dec (Rabs lat) ->
  congruent azimuth A -> - PI <= A <= PI -> away A 0 -> away A PI ->
  (forall h, flagged (pda2h (N := RNum) lat dec azimuth) h -> - PI <= h <= PI /\ on_azimuth lat (direction h dec) A) /\
  (forall h, strictly_on_azimuth lat (direction h dec) A -> exists h', flagged (pda2h (N := RNum) lat dec azimuth) h' /\ congruent h h').
Proof.
  intros L D. unfold away. replace (1 / 10 ^ 12) with tiny by (rewrite tiny_val; lra). intros W1 W2 W3 W4 W5 CA AR W6 W7.
  pose proof PI_bounds as PB. pose proof tiny_val as TV.
  destruct (adjust_lat_spec lat L) as (L1 & L2 & L3 & L4). destruct (adjust_dec_a_spec lat dec D) as (D1 & D2 & D3).
  destruct (adjust_az_spec azimuth) as (A1 & A2 & A3 & A4). pose proof (pda2h_core lat dec azimuth L2 L3 D2 A2 A3) as S1.
  rewrite L4 in S1 by (clear - W1 W2 L TV PB; cases_abs; lra). rewrite D3 in S1 by (clear - W3 W4 W5 D TV PB; cases_abs; lra).
  rewrite (A4 A CA) in S1 by (clear - W6 W7 AR TV PB; cases_abs; lra). exact S1.
Qed.
Lemma pdq2h_exact lat dec pa A : - (PI / 2) <= lat <= PI / 2 -> - (PI / 2) <= dec <= PI / 2 ->
  away lat 0 -> away lat (PI / 2) -> away dec (PI / 2) -> away dec (Rabs lat) ->
  congruent pa A -> - PI <= A <= PI -> away A 0 -> away A PI ->
  (forall h, flagged (pdq2h (N := RNum) lat dec pa) h -> - PI <= h <= PI /\ on_bearing (- h) dec (direction 0 lat) A) /\
  (forall h, strictly_on_bearing (- h) dec (direction 0 lat) A -> exists h', flagged (pdq2h (N := RNum) lat dec pa) h' /\ congruent h h').
Proof.
  intros L D. unfold away. replace (1 / 10 ^ 12) with tiny by (rewrite tiny_val; lra). intros W1 W2 W4 W5 CA AR W6 W7.
  pose proof PI_bounds as PB. pose proof tiny_val as TV.
  destruct (adjust_lat_spec lat L) as (L1 & L2 & L3 & L4). destruct (adjust_dec_q_spec lat dec D) as (D1 & D2 & D3).
  destruct (adjust_az_spec pa) as (A1 & A2 & A3 & A4). pose proof (pdq2h_core lat dec pa L2 L3 D2 A2 A3) as S1.
  rewrite L4 in S1 by (clear - W1 W2 L TV PB; cases_abs; lra). rewrite D3 in S1 by (clear - W4 W5 D TV PB; cases_abs; lra).
  rewrite (A4 A CA) in S1 by (clear - W6 W7 AR TV PB; cases_abs; lra). exact S1.
Qed.
