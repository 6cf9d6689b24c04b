(** Proofs about refv, refcoq, atmdsp and the two rays that refco fits. *)
From Coq Require Import ZArith Bool QArith Qreals Reals Lra Lia Psatz.
From Coquelicot Require Import Coquelicot.
From Verif Require Import Num NumR L_Pi L_Real L_Vec L_Angle L_Trig L_Frame L_Site M_Vec M_Angle S_Geom M_Refr S_Refr L_Refr L_Refr2 L_Refr3.
Open Scope R_scope.

(** * The arctangent near zero *)
Lemma atan_cubic_pos x : 0 <= x -> 0 <= x - atan x <= x ^ 3 / 3.
Proof.
  intros H.
  split.
    + destruct (MVT_gen (fun x => x - atan x) 0 x (fun x => 1 - / (1 + x ^ 2))) as (d & D & F).
      * intros y Y. auto_derive; [trivial|]. field. nra.
      * intros y Y. apply continuity_pt_filterlim. apply (ex_derive_continuous (V := R_NormedModule) (fun x : R => x - atan x)).
        auto_derive. trivial.
      * rewrite atan_0, !Rminus_0_r in F. rewrite F. apply Rmult_le_pos; [|exact H].
        assert (/ (1 + d ^ 2) <= 1); [|lra]. rewrite <- Rinv_1. apply Rinv_le_contravar; nra.
    + destruct (MVT_gen (fun x => x ^ 3 / 3 - (x - atan x)) 0 x (fun x => x ^ 4 / (1 + x ^ 2))) as (d & D & F).
      * intros y Y. auto_derive; [trivial|]. field. nra.
      * intros y Y. apply continuity_pt_filterlim. apply (ex_derive_continuous (V := R_NormedModule) (fun x : R => x ^ 3 / 3 - (x - atan x))).
        auto_derive. trivial.
      * rewrite atan_0 in F. assert (P : 0 <= d ^ 4 / (1 + d ^ 2) * (x - 0)).
        { apply Rmult_le_pos; [|lra]. apply Rdiv_le_0_compat; [|nra]. replace (d ^ 4) with ((d ^ 2) ^ 2) by ring. apply pow2_ge_0. }
        rewrite <- F in P. lra.
Qed.
Lemma atan_cubic x : Rabs (x - atan x) <= Rabs x ^ 3 / 3.
Proof.
  destruct (Rle_lt_dec 0 x) as [H|H].
  - rewrite (Rabs_pos_eq x) by exact H. destruct (atan_cubic_pos x H). rewrite Rabs_pos_eq; lra.
  - rewrite (Rabs_left x) by exact H. destruct (atan_cubic_pos (- x)) as [L U]; [lra|]. rewrite atan_opp in L, U.
    rewrite Rabs_left1; lra.
Qed.

(** * refv *)
Definition ratio (d : R) : R := (1 - d ^ 2 / 2) * sqrt (1 + d ^ 2).
Lemma ratio_near d : Rabs d <= 1 -> Rabs (ratio d - 1) <= d ^ 4.
Proof.
  intros H. assert (D : 0 <= d ^ 2 <= 1).
  { split; [apply pow2_ge_0|]. rewrite <- (pow2_abs d). replace 1 with (1 ^ 2) by ring. apply pow_incr. split; [apply Rabs_pos|exact H]. }
  replace (d ^ 4) with (d ^ 2 * d ^ 2) by ring. unfold ratio. set (x := d ^ 2) in *. clearbody x.
  set (r := (1 - x / 2) * sqrt (1 + x)).
  assert (S : sqrt (1 + x) * sqrt (1 + x) = 1 + x) by (apply sqrt_sqrt; lra).
  assert (R0 : 0 <= r) by (apply Rmult_le_pos; [lra|apply sqrt_pos]).
  assert (E : r * r = 1 - 3 / 4 * (x * x) + x * x * x / 4).
  { unfold r. replace ((1 - x / 2) * sqrt (1 + x) * ((1 - x / 2) * sqrt (1 + x))) with ((1 - x / 2) * (1 - x / 2) * (sqrt (1 + x) * sqrt (1 + x))) by ring.
    rewrite S. field. }
  assert (X : 0 <= x * x * x <= x * x) by (split; [apply Rmult_le_pos; nra|nra]).
  assert (R1 : r <= 1) by nra. apply Rabs_le. nra.
Qed.

Lemma atan_angle z d : sqrt (1 + d ^ 2) * sin (z - atan d) = sin z - d * cos z /\
  sqrt (1 + d ^ 2) * cos (z - atan d) = cos z + d * sin z.
Proof.
  assert (S : 0 < sqrt (1 + d ^ 2)) by (apply sqrt_lt_R0; pose proof (pow2_ge_0 d); lra).
  rewrite sin_minus, cos_minus, sin_atan, cos_atan. unfold Rsqr. replace (d * d) with (d ^ 2) by ring. split; field; lra.
Qed.

(** Model-level form: [d] is the Newton step and [w] its ratio to the tangent. *)
Lemma refv_direction (a z A B : R) : 0 <= z <= PI / 2 -> 0.05 <= cos z ->
  let d := newton_step A B (tan z) in
  refv (N := RNum) (direction a (PI / 2 - z)) A B = scale (ratio d) (direction a (PI / 2 - (z - atan d))).
Proof.
  intros Z C d. assert (S : 0 <= sin z) by (apply sin_ge_0; lra).
  assert (SC : sin z * sin z + cos z * cos z = 1) by (pose proof (sin2_cos2 z) as H; unfold Rsqr in H; exact H).
  assert (SA : sin a * sin a + cos a * cos a = 1) by (pose proof (sin2_cos2 a) as H; unfold Rsqr in H; exact H).
  unfold direction. rewrite !cos_shift, !sin_shift.
  unfold refv. cbn [v0 v1 v2]. cbv zeta.
  set (c := cos z) in *. set (s := sin z) in *. set (ca := cos a) in *. set (sa := sin a) in *.
  replace (@n_max RNum c (n_lit 5 (-2))) with c.
  2: { unR. assert (E : Rdec 5 (-2) = 0.05) by (decs; lra). rewrite E. destruct (Rltb_spec c 0.05); [lra|reflexivity]. }
  unR. replace (ca * s * (ca * s) + sa * s * (sa * s)) with (s * s * (sa * sa + ca * ca)) by ring. rewrite SA, Rmult_1_r.
  rewrite sqrt_square by exact S.
  set (wt := (A + B * (s * s) / (c * c)) / (1 + (A + 3 * (B * (s * s) / (c * c))) * (c * c + s * s) / (c * c))).
  assert (Dd : wt * s / c = d).
  { unfold d, newton_step, wt, tan. fold s c.
    replace (1 + (A + 3 * (B * (s * s) / (c * c))) * (c * c + s * s) / (c * c)) with (1 + (A + 3 * B * (s / c) ^ 2) * (1 + (s / c) ^ 2)) by (field; lra).
    replace (A + B * (s * s) / (c * c)) with (A + B * (s / c) ^ 2) by (field; lra). unfold Rdiv. ring. }
  rewrite Dd. destruct (atan_angle z d) as [E1 E2]. fold s c in E1, E2.
  assert (Dw : wt * s = d * c) by (rewrite <- Dd; field; lra).
  unfold scale, ratio. cbn [v0 v1 v2]. apply vec_eq; cbn [v0 v1 v2]; asR.
  - transitivity ((1 - d ^ 2 / 2) * (sqrt (1 + d ^ 2) * sin (z - atan d)) * ca); [rewrite E1|ring].
    replace (s - d * c) with (s * (1 - wt)) by (rewrite <- Dw; ring). field.
  - transitivity ((1 - d ^ 2 / 2) * (sqrt (1 + d ^ 2) * sin (z - atan d)) * sa); [rewrite E1|ring].
    replace (s - d * c) with (s * (1 - wt)) by (rewrite <- Dw; ring). field.
  - transitivity ((1 - d ^ 2 / 2) * (sqrt (1 + d ^ 2) * cos (z - atan d))); [rewrite E2|ring]. field.
Qed.

(** How far the result misses the law, in terms of tangents. *)
Lemma miss_tangent A B z : cos z <> 0 ->
  let t := tan z in let d := newton_step A B t in let h := d * (1 + t ^ 2) / (1 + t * d) in
  1 + (A + 3 * B * t ^ 2) * (1 + t ^ 2) <> 0 -> 1 + t * d <> 0 ->
  miss A B z (z - atan d) =
  Rabs ((d - atan d) + (A + 3 * B * t ^ 2) * (1 + t ^ 2) * t * d ^ 2 / (1 + t * d) + 3 * B * t * h ^ 2 - B * h ^ 3).
Proof.
  intros C t d h Q K. unfold miss, law.
  assert (T : tan (z - atan d) = (t - d) / (1 + t * d)).
  { destruct (atan_angle z d) as [E1 E2]. unfold tan at 1.
    assert (S : 0 < sqrt (1 + d ^ 2)) by (apply sqrt_lt_R0; pose proof (pow2_ge_0 d); lra).
    replace (sin (z - atan d) / cos (z - atan d)) with ((sqrt (1 + d ^ 2) * sin (z - atan d)) / (sqrt (1 + d ^ 2) * cos (z - atan d))).
    - rewrite E1, E2. unfold t, tan. unfold t, tan in K. field. repeat split; try exact C.
      intros F. apply K. field_simplify_eq; [|exact C]. lra.
    - assert (N : cos (z - atan d) <> 0).
      { intros F. rewrite F, Rmult_0_r in E2. apply K. unfold t, tan. field_simplify_eq; [|exact C]. lra. }
      field. split; [exact N|lra]. }
  rewrite T. assert (L : d * (1 + (A + 3 * B * t ^ 2) * (1 + t ^ 2)) = A * t + B * t ^ 3) by (unfold d, newton_step; field; exact Q).
  f_equal. unfold h. clearbody d t. 
  assert (E : A * t = d * (1 + (A + 3 * B * t ^ 2) * (1 + t ^ 2)) - B * t ^ 3) by lra.
  assert (E' : A * ((t - d) / (1 + t * d)) = (A * t - A * d) / (1 + t * d)) by (field; exact K).
  replace (A * ((t - d) / (1 + t * d))) with (A * t - A * (d * (1 + t ^ 2) / (1 + t * d))) by (field; exact K).
  rewrite E. field. exact K.
Qed.

Lemma abs_prod a b x y : Rabs a <= x -> Rabs b <= y -> Rabs (a * b) <= x * y.
Proof. intros H K. rewrite Rabs_mult. apply Rmult_le_compat; auto using Rabs_pos. Qed.

Lemma miss_bound A B z T Am Bm dm k hm e :
  cos z <> 0 -> 0 <= tan z <= T -> 0 <= A <= Am -> - Bm <= B <= 0 ->
  3 * Bm * T ^ 2 <= Am -> 3 * Bm * T ^ 2 * (1 + T ^ 2) < 1 -> Am * T <= dm * (1 - 3 * Bm * T ^ 2 * (1 + T ^ 2)) ->
  T * dm < 1 -> 1 <= k * (1 - T * dm) -> dm * (1 + T ^ 2) * k <= hm ->
  dm ^ 3 / 3 + Am * (1 + T ^ 2) * T * dm ^ 2 * k + 3 * Bm * T * hm ^ 2 + Bm * hm ^ 3 <= e ->
  Rabs (newton_step A B (tan z)) <= dm /\ miss A B z (z - atan (newton_step A B (tan z))) <= e.
Proof.
  intros C [T0 T1] [A0 A1] [B0 B1] H1 H2 H3 H4 H5 H6 H7.
  pose proof (miss_tangent A B z C) as M. cbv zeta in M.
  set (t := tan z) in *. set (t2 := t ^ 2) in *. set (T2 := T ^ 2) in *.
  assert (Tt : 0 <= t2 <= T2) by (unfold t2, T2; split; [apply pow2_ge_0|apply pow_incr; lra]).
  assert (Bt : - (Bm * T2) <= B * t2 <= 0) by (split; nra).
  assert (L : Rabs (A + B * t2) <= Am) by (apply Rabs_le; nra).
  assert (D : Rabs (A + 3 * B * t2) <= Am) by (apply Rabs_le; nra).
  set (q := 1 - 3 * Bm * T2 * (1 + T2)) in *.
  assert (Q : q <= 1 + (A + 3 * B * t2) * (1 + t2)).
  { unfold q. assert (- (3 * Bm * T2) * (1 + T2) <= (A + 3 * B * t2) * (1 + t2)); [|lra].
    assert (0 <= Bm) by lra. assert (0 <= 3 * Bm * T2) by nra.
    apply Rle_trans with (- (3 * Bm * T2) * (1 + t2)); [nra|]. apply Rmult_le_compat_r; lra. }
  assert (Q0 : 0 < q) by (unfold q; lra).
  set (qq := 1 + (A + 3 * B * t2) * (1 + t2)) in *.
  set (d := newton_step A B t) in *.
  assert (Dd : d * qq = t * (A + B * t2)) by (unfold d, newton_step; fold t2; fold qq; unfold t2; field; lra).
  assert (Dm : Rabs d <= dm).
  { assert (E : Rabs d * q <= dm * q).
    { apply Rle_trans with (Rabs d * qq); [apply Rmult_le_compat_l; [apply Rabs_pos|exact Q]|].
      replace (Rabs d * qq) with (Rabs (d * qq)) by (rewrite Rabs_mult, (Rabs_pos_eq qq) by lra; reflexivity).
      rewrite Dd. apply Rle_trans with (T * Am); [|lra]. apply abs_prod; [rewrite Rabs_pos_eq by lra; lra|exact L]. }
    apply Rmult_le_reg_r with q; assumption. }
  split; [exact Dm|].
  assert (d0 : 0 <= dm) by (pose proof (Rabs_pos d); lra).
  assert (TD : Rabs (t * d) <= T * dm) by (apply abs_prod; [rewrite Rabs_pos_eq; lra|exact Dm]).
  assert (K0 : 0 < 1 - T * dm) by lra.
  assert (TD' : 1 - T * dm <= 1 + t * d) by (apply Rabs_le_between in TD; lra).
  assert (KK : Rabs (/ (1 + t * d)) <= k).
  { rewrite Rabs_pos_eq by (left; apply Rinv_0_lt_compat; lra).
    apply Rle_trans with (/ (1 - T * dm)); [apply Rinv_le_contravar; lra|].
    apply Rmult_le_reg_r with (1 - T * dm); [lra|]. rewrite Rinv_l; lra. }
  rewrite M by lra.
  set (h := d * (1 + t2) / (1 + t * d)).
  assert (Hh : Rabs h <= hm).
  { apply Rle_trans with (dm * (1 + T2) * k); [|exact H6]. unfold h, Rdiv. apply abs_prod; [|exact KK].
    apply abs_prod; [exact Dm|rewrite Rabs_pos_eq; lra]. }
  assert (P3 : Rabs (3 * B * t * h ^ 2) <= 3 * Bm * T * hm ^ 2).
  { apply abs_prod; [|rewrite <- RPow_abs; apply pow_incr; split; [apply Rabs_pos|exact Hh]].
    apply abs_prod; [|rewrite Rabs_pos_eq; lra]. apply abs_prod; [rewrite Rabs_pos_eq; lra|apply Rabs_le; lra]. }
  assert (P4 : Rabs (B * h ^ 3) <= Bm * hm ^ 3).
  { apply abs_prod; [apply Rabs_le; lra|rewrite <- RPow_abs; apply pow_incr; split; [apply Rabs_pos|exact Hh]]. }
  assert (P2 : Rabs ((A + 3 * B * t2) * (1 + t2) * t * d ^ 2 / (1 + t * d)) <= Am * (1 + T2) * T * dm ^ 2 * k).
  { unfold Rdiv. apply abs_prod; [|exact KK].
    apply abs_prod; [|rewrite <- RPow_abs; apply pow_incr; split; [apply Rabs_pos|exact Dm]].
    apply abs_prod; [|rewrite Rabs_pos_eq; lra]. apply abs_prod; [exact D|rewrite Rabs_pos_eq; lra]. }
  assert (P1 : Rabs (d - atan d) <= dm ^ 3 / 3).
  { eapply Rle_trans; [apply atan_cubic|]. unfold Rdiv. apply Rmult_le_compat_r; [lra|].
    apply pow_incr. split; [apply Rabs_pos|exact Dm]. }
  apply Rabs_le_between in P1. apply Rabs_le_between in P2. apply Rabs_le_between in P3. apply Rabs_le_between in P4.
  apply Rabs_le. lra.
Qed.

Lemma tan_le z q T : 0 <= z <= q -> q < PI / 2 -> 0 <= T -> sin q <= T * cos q -> 0 < cos z /\ 0 <= tan z <= T.
Proof.
  intros Z Q T0 H. assert (C : 0 < cos z) by (apply cos_gt_0; lra).
  assert (S : 0 <= sin z) by (apply sin_ge_0; lra).
  assert (Sq : sin z <= sin q) by (apply sin_incr_1; lra).
  assert (Cq : cos q <= cos z) by (apply cos_decr_1; lra).
  split; [exact C|]. unfold tan. split; [apply Rdiv_le_0_compat; assumption|].
  apply Rmult_le_reg_r with (cos z); [exact C|]. unfold Rdiv. rewrite Rmult_assoc, Rinv_l, Rmult_1_r by lra.
  apply Rle_trans with (1 := Sq), Rle_trans with (1 := H). apply Rmult_le_compat_l; assumption.
Qed.
Lemma tan_enclosed (q T : Q) n : 0 <= Q2R q <= 1.57 -> Qle (qs_sum q (2 * (n + 1))) (T * qc_sum q (2 * n + 1)) -> (0 <= Q2R T)%R ->
  sin (Q2R q) <= Q2R T * cos (Q2R q).
Proof.
  intros H E T0. pose proof PI_bounds.
  destruct (sin_enclosure q n) as [_ S]; [lra|]. destruct (cos_enclosure q n) as [C _]; [lra|].
  apply Rle_trans with (1 := S). apply Qle_Rle in E. apply Rle_trans with (1 := E). rewrite Q2R_mult.
  apply Rmult_le_compat_l; assumption.
Qed.
Lemma tan_30 z : 0 <= z <= PI / 6 -> 0 < cos z /\ 0 <= tan z <= 0.5774.
Proof.
  intros H. pose proof PI_bounds. apply tan_le with (PI / 6); try lra.
  rewrite sin_PI6, cos_PI6. assert (1.732 < sqrt 3) by (rewrite <- (sqrt_pow2 1.732) by lra; apply sqrt_lt_1; lra). lra.
Qed.
Lemma tan_70 z : 0 <= z <= 70 * PI / 180 -> 0 < cos z /\ 0 <= tan z <= 2.7476.
Proof.
  intros H. pose proof PI_bounds. apply tan_le with (Q2R (Qmake 122174 100000)); try (unfold Q2R; cbn [Qnum Qden]; lra).
  replace 2.7476 with (Q2R (Qmake 27476 10000)) by (unfold Q2R; cbn [Qnum Qden]; lra).
  apply (tan_enclosed _ _ 4); try (unfold Q2R; cbn [Qnum Qden]; lra). vm_compute. discriminate.
Qed.
Lemma tan_83 z : 0 <= z <= 83 / deg -> 0 < cos z /\ 0 <= tan z <= 8.15.
Proof.
  intros H. pose proof PI_bounds. pose proof zd83_bounds. apply tan_le with (Q2R (Qmake 14487 10000)); try (unfold Q2R; cbn [Qnum Qden]; lra).
  replace 8.15 with (Q2R (Qmake 815 100)) by (unfold Q2R; cbn [Qnum Qden]; lra).
  apply (tan_enclosed _ _ 4); try (unfold Q2R; cbn [Qnum Qden]; lra). vm_compute. discriminate.
Qed.

Lemma miss_30 A B z : 0 <= A <= 0.00029 -> -0.0000005 <= B <= 0 -> 0 <= z <= PI / 6 ->
  Rabs (newton_step A B (tan z)) <= 0.000168 /\ miss A B z (z - atan (newton_step A B (tan z))) <= 1 / 10 ^ 11.
Proof.
  intros HA HB Z. destruct (tan_30 z Z) as [C T].
  eapply (miss_bound A B z 0.5774 0.00029 0.0000005 0.000168 1.0002 0.000225); lra.
Qed.
Lemma miss_70 A B z : 0 <= A <= 0.00029 -> -0.0000005 <= B <= 0 -> 0 <= z <= 70 * PI / 180 ->
  Rabs (newton_step A B (tan z)) <= 0.000798 /\ miss A B z (z - atan (newton_step A B (tan z))) <= 4.8 / 10 ^ 9.
Proof.
  intros HA HB Z. destruct (tan_70 z Z) as [C T].
  eapply (miss_bound A B z 2.7476 0.00029 0.0000005 0.000798 1.0023 0.00684); lra.
Qed.
Lemma miss_83 A B z : terrestrial A B -> 0 <= z <= 83 / deg ->
  Rabs (newton_step A B (tan z)) <= 0.00414 /\ miss A B z (z - atan (newton_step A B (tan z))) <= 8 / 10 ^ 6.
Proof.
  intros [HA HB] Z. destruct (tan_83 z Z) as [C T].
  eapply (miss_bound A B z 8.15 0.0005 0.000001 0.00414 1.035 0.29); lra.
Qed.

(** The documented microarcsecond is missed. *)
Lemma miss_micro : exists A B z, 0 <= A <= 0.00029 /\ -0.0000005 <= B <= 0 /\ 0 <= z <= PI / 6 /\
  microarcsec < miss A B z (z - atan (newton_step A B (tan z))).
Proof.
  exists 0.00028, (-0.0000003), (atan 0.577). pose proof PI_bounds.
  split; [lra|]. split; [lra|]. split.
  { split; [rewrite <- atan_0; left; apply atan_increasing; lra|].
    assert (S : 1.7325 > sqrt 3) by (rewrite <- (sqrt_pow2 1.7325) by lra; apply sqrt_lt_1; lra).
    assert (S0 : 0 < sqrt 3) by (apply sqrt_lt_R0; lra).
    rewrite <- (atan_tan (PI / 6)) by lra. left. apply atan_increasing.
    unfold tan. rewrite sin_PI6, cos_PI6. replace (1 / 2 / (sqrt 3 / 2)) with (/ sqrt 3) by (field; lra).
    apply Rmult_lt_reg_r with (sqrt 3); [exact S0|]. rewrite Rinv_l by lra. lra. }
  assert (C : cos (atan 0.577) <> 0).
  { rewrite cos_atan. apply Rgt_not_eq, Rdiv_lt_0_compat; [lra|]. apply sqrt_lt_R0. unfold Rsqr. lra. }
  pose proof (miss_tangent 0.00028 (-0.0000003) (atan 0.577) C) as M. cbv zeta in M.
  rewrite tan_atan in M |- *. set (d := newton_step 0.00028 (-0.0000003) 0.577) in *.
  assert (D : d * (1 + (0.00028 + 3 * -0.0000003 * 0.577 ^ 2) * (1 + 0.577 ^ 2)) = 0.00028 * 0.577 + -0.0000003 * 0.577 ^ 3).
  { unfold d, newton_step. field. lra. }
  assert (D1 : 0.0001614 <= d <= 0.0001616) by lra.
  destruct (atan_cubic_pos d) as [P _]; [lra|].
  rewrite M by lra.
  assert (K : 0.9999 <= / (1 + 0.577 * d) <= 1).
  { split; [apply Rmult_le_reg_r with (1 + 0.577 * d); [lra|]; rewrite Rinv_l by lra; lra|].
    rewrite <- Rinv_1. apply Rinv_le_contravar; lra. }
  unfold Rdiv. set (k := / (1 + 0.577 * d)) in *. set (h := d * (1 + 0.577 ^ 2) * k).
  assert (D2 : 2.604 / 10 ^ 8 <= d ^ 2) by nra.
  assert (DK : 2.6037 / 10 ^ 8 <= d ^ 2 * k) by nra.
  assert (H1 : 0 <= d * (1 + 0.577 ^ 2) <= 0.00022) by lra.
  assert (Hh : 0 <= h <= 0.00022) by (unfold h; split; nra).
  assert (H2 : h ^ 2 <= 4.84 / 10 ^ 8) by nra.
  assert (H3 : 0 <= h ^ 3) by (apply pow_le; lra).
  apply Rlt_le_trans with (2 := Rle_abs _). unfold microarcsec.
  replace ((0.00028 + 3 * -0.0000003 * 0.577 ^ 2) * (1 + 0.577 ^ 2) * 0.577 * d ^ 2 * k) with ((0.00028 + 3 * -0.0000003 * 0.577 ^ 2) * (1 + 0.577 ^ 2) * 0.577 * (d ^ 2 * k)) by ring.
  set (x := d ^ 2 * k) in *. set (y := h ^ 2) in *. set (w := h ^ 3) in *. clearbody x y w. lra.
Qed.

(** Low elevations, azimuth and zenith. *)
Lemma refv_low (x y z A B : R) : z <= 0.05 ->
  refv (N := RNum) (V3 x y z) A B = vadd (refv (N := RNum) (V3 x y (0.05 : R)) A B) (V3 0 0 (z - 0.05)).
Proof.
  intros H. unfold refv. cbn [v0 v1 v2]. cbv zeta.
  assert (E : Rdec 5 (-2) = 0.05) by (decs; lra).
  assert (E1 : @n_max RNum z (n_lit 5 (-2)) = (0.05 : R)).
  { unR. rewrite E. destruct (Rltb_spec z 0.05); lra. }
  assert (E2 : @n_max RNum (0.05 : R) (n_lit 5 (-2)) = (0.05 : R)).
  { unR. rewrite E. destruct (Rltb_spec 0.05 0.05); lra. }
  rewrite E1, E2. unfold vadd. cbn [v0 v1 v2]. unR. apply vec_eq; cbn [v0 v1 v2]; asR; ring.
Qed.

Lemma refv_azimuth (x y z A B : R) : terrestrial A B -> x ^ 2 + y ^ 2 <= 1 -> exists f : R, 0.99 <= f /\
  v0 (refv (N := RNum) (V3 x y z) A B) = f * x /\ v1 (refv (N := RNum) (V3 x y z) A B) = f * y.
Proof.
  intros [[A0 A1] [B0 B1]] H. unfold refv. cbn [v0 v1 v2]. cbv zeta.
  set (Z := @n_max RNum z (n_lit 5 (-2))).
  assert (E : Rdec 5 (-2) = 0.05) by (decs; lra).
  assert (Z0 : 0.05 <= Z) by (unfold Z; unR; rewrite E; destruct (Rltb_spec z 0.05); lra).
  clearbody Z. unR. set (r2 := x * x + y * y).
  assert (R2 : 0 <= r2 <= 1) by (unfold r2; split; nra).
  assert (Z2 : 0.0025 <= Z * Z) by nra.
  assert (Q : 0 <= r2 / (Z * Z) <= 400).
  { split; [apply Rdiv_le_0_compat; lra|]. apply Rmult_le_reg_r with (Z * Z); [lra|]. unfold Rdiv. rewrite Rmult_assoc, Rinv_l by lra. lra. }
  set (w := B * r2 / (Z * Z)).
  assert (W : -0.0004 <= w <= 0).
  { unfold w. replace (B * r2 / (Z * Z)) with (B * (r2 / (Z * Z))) by (unfold Rdiv; ring). split; nra. }
  set (den := 1 + (A + 3 * w) * (Z * Z + r2) / (Z * Z)).
  assert (D : 0.5 <= den).
  { unfold den. replace ((A + 3 * w) * (Z * Z + r2) / (Z * Z)) with ((A + 3 * w) * (1 + r2 / (Z * Z))) by (field; lra). nra. }
  set (wt := (A + w) / den).
  assert (WT : Rabs wt <= 0.001).
  { unfold wt, Rdiv. rewrite Rabs_mult, (Rabs_pos_eq (/ den)) by (left; apply Rinv_0_lt_compat; lra).
    apply Rmult_le_reg_r with den; [lra|]. rewrite Rmult_assoc, Rinv_l, Rmult_1_r by lra.
    apply Rle_trans with 0.0005; [apply Rabs_le; lra|lra]. }
  set (d := wt * sqrt r2 / Z).
  assert (S : 0 <= sqrt r2 <= 1) by (split; [apply sqrt_pos|rewrite <- sqrt_1; apply sqrt_le_1; lra]).
  assert (Dd : Rabs d <= 0.02).
  { unfold d, Rdiv. rewrite !Rabs_mult. rewrite (Rabs_pos_eq (sqrt r2)) by lra. rewrite (Rabs_pos_eq (/ Z)) by (left; apply Rinv_0_lt_compat; lra).
    apply Rmult_le_reg_r with Z; [lra|]. rewrite Rmult_assoc, Rinv_l, Rmult_1_r by lra. pose proof (Rabs_pos wt). nra. }
  apply Rabs_le_between in WT. apply Rabs_le_between in Dd. clearbody d wt.
  exists ((1 - d * d / 2) * (1 - wt)). split; [|split; asR; ring].
  assert (d * d <= 0.0004) by nra. nra.
Qed.

Lemma refv_zenith (z A B : R) : refv (N := RNum) (V3 (0 : R) (0 : R) z) A B = V3 (0 : R) (0 : R) z.
Proof.
  unfold refv. cbn [v0 v1 v2]. cbv zeta. set (Z := @n_max RNum z (n_lit 5 (-2))). clearbody Z. unR.
  replace (0 * 0 + 0 * 0) with 0 by ring. rewrite sqrt_0. unfold Rdiv.
  apply vec_eq; cbn [v0 v1 v2]; asR; ring.
Qed.

(** * The two rays of refco *)
Lemma atan1_lit : Rabs (0.7853981633974483 - atan 1) <= 1 / 10 ^ 15.
Proof. rewrite Ratan.atan_1. pose proof PI_bounds. apply Rabs_le. lra. Qed.
Lemma atan4_lit : Rabs (1.325817663668033 - atan 4) <= 1 / 10 ^ 15.
Proof.
  pose proof PI_bounds. apply Rabs_le.
  assert (L : 1.325817663668032 <= atan 4).
  { rewrite <- (atan_tan 1.325817663668032) by lra.
    assert (T : tan 1.325817663668032 <= 4).
    { apply (tan_le _ 1.325817663668032 4); try lra.
      replace 1.325817663668032 with (Q2R (Qmake 1325817663668032 1000000000000000)) by (unfold Q2R; cbn [Qnum Qden]; lra).
      replace 4 with (Q2R (Qmake 4 1)) by (unfold Q2R; cbn [Qnum Qden]; lra).
      apply (tan_enclosed _ _ 10); try (unfold Q2R; cbn [Qnum Qden]; lra). vm_compute. discriminate. }
    destruct (Rle_lt_or_eq_dec _ _ T) as [T'|T']; [left; apply atan_increasing, T'|rewrite T'; right; reflexivity]. }
  assert (U : atan 4 <= 1.325817663668034).
  { rewrite <- (atan_tan 1.325817663668034) by lra.
    assert (T : 4 <= tan 1.325817663668034).
    { set (q := Qmake 1325817663668034 1000000000000000).
      assert (Eq : 1.325817663668034 = Q2R q) by (unfold q, Q2R; cbn [Qnum Qden]; lra).
      destruct (sin_enclosure q 10) as [S _]; [rewrite <- Eq; lra|]. destruct (cos_enclosure q 10) as [_ C]; [rewrite <- Eq; lra|].
      assert (P : 0 < cos (Q2R q)) by (apply cos_gt_0; rewrite <- Eq; lra).
      unfold tan. apply Rmult_le_reg_r with (cos (Q2R q)); [exact P|]. unfold Rdiv. rewrite Rmult_assoc, Rinv_l, Rmult_1_r by lra.
      apply Rle_trans with (2 := S). apply Rle_trans with (1 := Rmult_le_compat_l 4 _ _ ltac:(lra) C).
      replace 4 with (Q2R (Qmake 4 1)) by (unfold Q2R; cbn [Qnum Qden]; lra). rewrite <- Q2R_mult. apply Qle_Rle. vm_compute. discriminate. }
    destruct (Rle_lt_or_eq_dec _ _ T) as [T'|T']; [left; apply atan_increasing, T'|rewrite T'; right; reflexivity]. }
  lra.
Qed.

(** * refcoq *)
Lemma saturation_spec (T P : R) : saturation (N := RNum) T P = saturation_pressure T P.
Proof.
  unfold saturation, saturation_pressure. cbv zeta. unR. rewrite Rpow_pos by lra. decs.
  asR. apply (f_equal2 Rmult); [apply (f_equal (Rpower 10)); apply (f_equal2 Rdiv); lra|lra].
Qed.
Lemma vapour_spec (T P h : R) : 0 < P -> vapour_pressure (N := RNum) T P h = water_vapour T P h.
Proof.
  intros H. unfold vapour_pressure, water_vapour. cbv zeta. rewrite saturation_spec. unR.
  destruct (Rltb_spec 0 P); [reflexivity|lra].
Qed.
Lemma refcoq_vacuum (atk apm arh wl : R) : apm <= 0 -> refcoq (N := RNum) atk apm arh wl = ((0, 0) : R * R).
Proof.
  intros H. unfold refcoq. cbv zeta.
  replace (clip (N := RNum) apm (n_ofZ 0) (n_ofZ 10000)) with (0 : R).
  2: { unfold clip. unR. destruct (Rltb_spec apm 0); [|assert (apm = 0) by lra; subst]; destruct (Rltb_spec 10000 0); lra. }
  replace (vapour_pressure (N := RNum) _ (0 : R) _) with (0 : R).
  2: { unfold vapour_pressure. unR. destruct (Rltb_spec 0 0); [lra|reflexivity]. }
  unR. destruct (Rleb wl 100); apply (f_equal2 (@pair R R)); unfold Rdiv; ring.
Qed.
Lemma clip_pos (x hi : R) : 0 < x -> 0 < hi -> 0 < clamp x 0 hi.
Proof. intros. unfold clamp, Rmin, Rmax. repeat destruct (Rle_dec _ _); lra. Qed.
Lemma refcoq_spec (atk apm arh wl : R) : 0 < apm ->
  let T := clamp atk 100 500 in let P := clamp apm 0 10000 in let pw := water_vapour T P (clamp arh 0 1) in
  (wl <= 100 -> refcoq (N := RNum) atk apm arh wl =
     green (optical_refractivity T P pw (clamp wl 0.1 1000000)) (4.4474 / 10 ^ 6 * T)) /\
  (100 < wl -> refcoq (N := RNum) atk apm arh wl =
     green (radio_refractivity T P pw) (4.4474 / 10 ^ 6 * T * (1 - 0.0074 * pw))).
Proof.
  intros H T P pw.
  assert (T0 : 100 <= T) by (unfold T, clamp, Rmin, Rmax; repeat destruct (Rle_dec _ _); lra).
  assert (P0 : 0 < P) by (apply clip_pos; lra).
  assert (W0 : 0.1 <= clamp wl 0.1 1000000) by (unfold clamp, Rmin, Rmax; repeat destruct (Rle_dec _ _); lra).
  unfold refcoq. cbv zeta. rewrite !clip_clamp.
  change (@n_ofZ RNum 0) with 0. change (@n_ofZ RNum 1) with 1. change (@n_ofZ RNum 100) with 100. change (@n_ofZ RNum 500) with 500.
  change (@n_ofZ RNum 10000) with 10000. change (@n_ofZ RNum 1000000) with 1000000.
  assert (E : @n_lit RNum 1 (-1) = (0.1 : R)) by (unR; decs; lra). rewrite E. fold T P.
  rewrite vapour_spec by exact P0. fold pw. clearbody T P pw. set (w := clamp wl 0.1 1000000) in *. clearbody w.
  split; intros W.
  - replace (@n_leb RNum wl 100) with true by (symmetry; unR; apply Rleb_true; exact W). cbn [negb].
    unfold green, optical_refractivity. unR. decs. apply (f_equal2 (@pair R R)); field; lra.
  - replace (@n_leb RNum wl 100) with false by (symmetry; unR; apply Rleb_false; exact W). cbn [negb].
    unfold green, radio_refractivity. unR. decs. apply (f_equal2 (@pair R R)); field; lra.
Qed.

Lemma water_vapour_range T P h : 0 < P -> 0 <= h <= 1 -> 0 <= saturation_pressure T P < P -> 0 <= water_vapour T P h <= P.
Proof.
  intros P0 H S. unfold water_vapour. set (s := saturation_pressure T P) in *. clearbody s.
  assert (X : 0 <= s / P < 1).
  { split; [apply Rdiv_le_0_compat; lra|]. apply Rmult_lt_reg_r with P; [lra|]. unfold Rdiv. rewrite Rmult_assoc, Rinv_l; lra. }
  assert (D : 0 < 1 - (1 - h) * s / P).
  { replace ((1 - h) * s / P) with ((1 - h) * (s / P)) by (unfold Rdiv; ring). nra. }
  split; [apply Rdiv_le_0_compat; [nra|exact D]|].
  apply Rmult_le_reg_r with (1 - (1 - h) * s / P); [exact D|]. unfold Rdiv at 1. rewrite Rmult_assoc, Rinv_l, Rmult_1_r by lra.
  replace (P * (1 - (1 - h) * s / P)) with (P - (1 - h) * s) by (field; lra). nra.
Qed.
Lemma saturation_pos T P : 200 <= T <= 500 -> 0 <= P -> 0 <= saturation_pressure T P.
Proof.
  intros HT HP. unfold saturation_pressure. apply Rmult_le_pos; [left; apply exp_pos|].
  pose proof (pow2_ge_0 (T - 273.15)). assert (0 <= P * (4.5 / 10 ^ 6 + 6 / 10 ^ 10 * (T - 273.15) ^ 2)) by (apply Rmult_le_pos; [lra|nra]). lra.
Qed.
Lemma clamp_id lo hi x : lo <= x <= hi -> clamp x lo hi = x.
Proof. intros. unfold clamp, Rmin, Rmax. repeat destruct (Rle_dec _ _); lra. Qed.

Lemma refcoq_terrestrial (atk apm arh wl : R) : 200 <= atk <= 320 -> 0 < apm <= 1100 -> 0 <= arh <= 1 -> 0.3 <= wl <= 100 ->
  saturation_pressure atk apm < apm ->
  terrestrial (fst (refcoq (N := RNum) atk apm arh wl)) (snd (refcoq (N := RNum) atk apm arh wl)).
Proof.
  intros HT HP HH HW HS. destruct (refcoq_spec atk apm arh wl) as [O _]; [lra|]. rewrite O by lra. clear O.
  rewrite !clamp_id by lra.
  pose proof (water_vapour_range atk apm arh ltac:(lra) HH (conj (saturation_pos atk apm ltac:(lra) ltac:(lra)) HS)) as V.
  set (pw := water_vapour atk apm arh) in *. clearbody pw. unfold green. cbn [fst snd].
  assert (G : 0 <= optical_refractivity atk apm pw wl <= 0.00046).
  { unfold optical_refractivity.
    assert (W2 : 0 <= / wl ^ 2 <= 11.2).
    { split; [left; apply Rinv_0_lt_compat; nra|]. apply Rle_trans with (/ 0.09); [apply Rinv_le_contravar; nra|lra]. }
    replace (0.003666 / wl ^ 4) with (0.003666 * (/ wl ^ 2 * / wl ^ 2)) by (field; nra).
    replace (0.439108 / wl ^ 2) with (0.439108 * / wl ^ 2) by reflexivity.
    set (i := / wl ^ 2) in *. clearbody i. assert (I2 : 0 <= i * i <= 126) by nra. set (i2 := i * i) in *. clearbody i2.
    set (k := 77.53484 + 0.439108 * i + 0.003666 * i2). assert (Kk : 77 <= k <= 82.93) by (unfold k; lra). clearbody k.
    assert (It : / 320 <= / atk <= / 200) by (split; apply Rinv_le_contravar; lra).
    assert (N : 0 <= k * apm - 11.2684 * pw <= 91223) by nra.
    unfold Rdiv. split.
    - apply Rmult_le_pos; [|lra]. apply Rmult_le_pos; lra.
    - assert ((k * apm - 11.2684 * pw) * / atk <= 91223 * / 200); [|lra]. apply Rmult_le_compat; lra. }
  set (g := optical_refractivity atk apm pw wl) in *. clearbody g.
  unfold terrestrial. split; split; nra.
Qed.

(** * atmdsp *)
Lemma atmdsp_radio (atk apm arh wl1 a1 b1 wl2 : R) : 100 < wl1 \/ 100 < wl2 ->
  atmdsp (N := RNum) atk apm arh wl1 a1 b1 wl2 = (a1, b1).
Proof.
  intros H. unfold atmdsp. replace (@n_ltb RNum (n_ofZ 100) wl1 || @n_ltb RNum (n_ofZ 100) wl2)%bool with true; [reflexivity|].
  symmetry. apply orb_true_iff. unR. destruct H as [H|H]; [left|right]; apply Rltb_true; exact H.
Qed.

Lemma refractivity_spec (T P h wl : R) : T <> 0 ->
  refractivity (N := RNum) T P (@n_mul RNum (n_lit 112684 (-10)) (@n_mul RNum h (n_pow (n_ofZ 10) (@n_add RNum (n_opp (n_lit 87115 (-4))) (@n_mul RNum (n_lit 3477 (-5)) T))))) wl
  = dispersion_refractivity T P h (Rmax 0.1 wl).
Proof.
  intros T0. unfold refractivity, dispersion_refractivity. cbv zeta. unR. rewrite Rpow_pos by lra.
  assert (E : Rdec 1 (-1) = 0.1) by (decs; lra). rewrite E.
  replace (if Rltb wl 0.1 then 0.1 else wl) with (Rmax 0.1 wl).
  2: { unfold Rmax. destruct (Rle_dec 0.1 wl), (Rltb_spec wl 0.1); lra. }
  assert (W : 0.1 <= Rmax 0.1 wl) by apply Rmax_l. set (w := Rmax 0.1 wl) in *. clearbody w. decs.
  replace (- (87115 / 10000) + 3477 / 100000 * T) with (0.03477 * T - 8.7115) by lra.
  set (p := Rpower 10 _). clearbody p. asR. field. lra.
Qed.
Lemma atmdsp_spec (atk apm arh wl1 a1 b1 wl2 : R) : wl1 <= 100 -> wl2 <= 100 ->
  let n := dispersion_refractivity (clamp atk 100 500) (clamp apm 0 10000) (clamp arh 0 1) in
  let n1 := n (Rmax 0.1 wl1) in let n2 := n (Rmax 0.1 wl2) in
  atmdsp (N := RNum) atk apm arh wl1 a1 b1 wl2 =
  (if Req_EM_T n1 0 then (a1, b1)
   else (a1 * (n2 / n1), if Req_EM_T n1 a1 then b1 * (n2 / n1) else b1 * (n2 / n1) * (1 + n1 * (n1 - n2) / (2 * (n1 - a1))))).
Proof.
  intros H1 H2 n n1 n2. unfold atmdsp. 
  replace (@n_ltb RNum (n_ofZ 100) wl1 || @n_ltb RNum (n_ofZ 100) wl2)%bool with false.
  2: { symmetry. apply orb_false_iff. unR. split; apply Rltb_false; assumption. }
  cbv zeta. rewrite !clip_clamp.
  change (@n_ofZ RNum 0) with 0. change (@n_ofZ RNum 500) with 500. change (@n_ofZ RNum 100) with 100. change (@n_ofZ RNum 10000) with 10000.
  change (clamp arh 0 (@n_ofZ RNum 1)) with (clamp arh 0 1).
  rewrite !refractivity_spec by (unfold clamp, Rmin, Rmax; repeat destruct (Rle_dec _ _); lra).
  fold (n (Rmax 0.1 wl1)). fold (n (Rmax 0.1 wl2)). fold n1 n2. clearbody n1 n2. unR.
  destruct (Reqb_spec n1 0), (Req_EM_T n1 0); try contradiction; [reflexivity|]. cbn [negb].
  destruct (Reqb_spec n1 a1), (Req_EM_T n1 a1); try contradiction; cbn [negb]; reflexivity.
Qed.
Lemma atmdsp_same (atk apm arh wl a1 b1 : R) : atmdsp (N := RNum) atk apm arh wl a1 b1 wl = (a1, b1).
Proof.
  destruct (Rle_lt_dec wl 100) as [H|H]; [|apply atmdsp_radio; left; exact H].
  rewrite atmdsp_spec by exact H. cbv zeta. set (n := dispersion_refractivity _ _ _ _). clearbody n.
  destruct (Req_EM_T n 0); [reflexivity|]. destruct (Req_EM_T n a1); apply (f_equal2 (@pair R R)); try (field; assumption).
  field. repeat split; lra.
Qed.
Lemma atmdsp_vacuum (atk apm arh wl1 a1 b1 wl2 : R) : apm <= 0 -> atmdsp (N := RNum) atk apm arh wl1 a1 b1 wl2 = (a1, b1).
Proof.
  intros H. destruct (Rle_lt_dec wl1 100) as [H1|H1]; [|apply atmdsp_radio; left; exact H1].
  destruct (Rle_lt_dec wl2 100) as [H2|H2]; [|apply atmdsp_radio; right; exact H2].
  rewrite atmdsp_spec by assumption. cbv zeta.
  replace (clamp apm 0 10000) with 0 by (unfold clamp, Rmin, Rmax; repeat destruct (Rle_dec _ _); lra).
  replace (dispersion_refractivity (clamp atk 100 500) 0 (clamp arh 0 1) (Rmax 0.1 wl2)) with (dispersion_refractivity (clamp atk 100 500) 0 (clamp arh 0 1) (Rmax 0.1 wl1)).
  2: { unfold dispersion_refractivity. rewrite !Rmult_0_r. reflexivity. }
  set (n := dispersion_refractivity _ _ _ _). clearbody n.
  destruct (Req_EM_T n 0); [reflexivity|]. destruct (Req_EM_T n a1); apply (f_equal2 (@pair R R)); try (field; assumption).
  field. repeat split; lra.
Qed.
(** Green's coefficients for the first wavelength become Green's coefficients
    for the second. *)
Lemma atmdsp_green (atk apm arh wl1 wl2 b : R) : wl1 <= 100 -> wl2 <= 100 -> b <> 0 ->
  let n := dispersion_refractivity (clamp atk 100 500) (clamp apm 0 10000) (clamp arh 0 1) in
  let n1 := n (Rmax 0.1 wl1) in let n2 := n (Rmax 0.1 wl2) in
  n1 <> 0 ->
  atmdsp (N := RNum) atk apm arh wl1 (fst (green n1 b)) (snd (green n1 b)) wl2 =
  (fst (green n2 b), snd (green n2 b) + n1 * n2 * (n1 - n2) / (4 * b)).
Proof.
  intros H1 H2 B n n1 n2 N. rewrite atmdsp_spec by assumption. cbv zeta. fold n. fold n1 n2. clearbody n1 n2.
  destruct (Req_EM_T n1 0); [contradiction|]. unfold green. cbn [fst snd].
  destruct (Req_EM_T n1 (n1 * (1 - b))) as [F|F].
  - exfalso. assert (n1 * b = 0) by lra. apply Rmult_integral in H. tauto.
  - apply (f_equal2 (@pair R R)); [field; exact N|]. field. repeat split; try assumption. intros G. apply F. lra.
Qed.

(** * The observer's air in refro *)
Lemma refro_surface (hm tdk pmb rh wl phi alpha : R) : 100 <= tdk <= 320 -> 0 < pmb -> wl <> 0 ->
  index (atmt (N := RNum) (refro_tropo (N := RNum) hm tdk pmb rh wl phi alpha)) (6378120 + hm) =
  1 + surface_refractivity tdk pmb (water_vapour tdk pmb rh) wl.
Proof.
  intros T P W. unfold index, atmt, refro_tropo. cbv zeta. cbn [t_r0 t_t0 t_alpha t_gamm2 t_delm2 t_c1 t_c2 t_c3 t_c4 t_c5 t_c6 fst].
  rewrite vapour_spec by exact P. set (pw := water_vapour tdk pmb rh). clearbody pw.
  match goal with |- context [atmt_t ?m _] => assert (E : atmt_t (N := RNum) m (6378120 + hm) = tdk) end.
  { unfold atmt_t. cbn [t_r0 t_t0 t_alpha]. unfold earth_radius. unR.
    replace (tdk - alpha * (6378120 + hm - (6378120 + hm))) with tdk by ring.
    destruct (Rltb_spec 320 tdk); destruct (Rltb_spec tdk 100); rcases; lra. }
  rewrite E. unR.
  assert (Q : tdk / tdk = 1) by (field; lra). rewrite Q.
  assert (P1 : forall x, Rpow 1 x = 1) by (intros x; rewrite Rpow_pos by lra; unfold Rpower; rewrite ln_1, Rmult_0_r; apply exp_0).
  rewrite !P1. set (gam := refro_gamal (N := RNum) hm phi / alpha). clearbody gam.
  clear E. match goal with |- context [pmb + ?x] => set (w := x) end. clearbody w. unfold surface_refractivity.
  destruct (Rleb_spec wl 100), (Rle_dec wl 100); try lra; decs; asR; field; repeat split; lra.
Qed.
Lemma strato_continuous (rt tt dnt gamal : R) : index (atms (N := RNum) rt tt dnt gamal) rt = dnt.
Proof.
  unfold index, atms. cbv zeta. cbn [fst]. unR. replace (- (gamal / tt) * (rt - rt)) with 0 by ring. rewrite exp_0. asR. ring.
Qed.

(** * Forms used by the property theorems *)
Lemma drange_zero (ozd : R) : drange (N := RNum) ozd = 0 <-> cos ozd = 1.
Proof.
  pose proof PI_RGT_0. destruct (drange_spec ozd) as (SA & RG & _).
  assert (C : cos (drange (N := RNum) ozd) = cos ozd) by (destruct SA as [k E]; rewrite E at 2; symmetry; apply cos_period_Z). split; intros E.
  - rewrite <- C, E. apply cos_0.
  - set (x := drange (N := RNum) ozd) in *. clearbody x. rewrite E in C.
    destruct (Req_dec x 0) as [Z|Z]; [exact Z|exfalso].
    assert (Y : 0 < Rabs x <= PI) by (split; [apply Rabs_pos_lt, Z|apply Rabs_le, RG]).
    assert (C' : cos (Rabs x) = 1) by (unfold Rabs; destruct (Rcase_abs x); [rewrite cos_neg|]; exact C).
    assert (cos (Rabs x) < cos 0) by (apply cos_decreasing_1; lra). rewrite cos_0 in *. lra.
Qed.
Lemma refro_odd' (ozd oh atk apm arh wl phi tlr eps v : R) :
  refro (N := RNum) ozd oh atk apm arh wl phi tlr eps = Some v -> cos ozd <> 1 ->
  refro (N := RNum) (- ozd) oh atk apm arh wl phi tlr eps = Some (- v).
Proof. intros H C. apply refro_odd; [exact H|]. intros D. apply C, drange_zero, D. Qed.
Lemma refro_zenith' (ozd oh atk apm arh wl phi tlr eps : R) : same_angle ozd 0 ->
  refro (N := RNum) ozd oh atk apm arh wl phi tlr eps = Some 0.
Proof. intros [k E]. apply refro_zenith, drange_zero. rewrite E, cos_period_Z. apply cos_0. Qed.
Lemma vapour_zero : exists arh : R, 0 <= arh <= 1 /\ 1 - (1 - arh) * saturation_pressure 500 1000 / 1000 = 0.
Proof. rewrite <- saturation_spec. exact vapour_division_by_zero. Qed.
Lemma refco_vacuum (oh atk apm arh wl phi tlr eps : R) : apm <= 0 ->
  refco (N := RNum) oh atk apm arh wl phi tlr eps = Some ((0, 0) : R * R).
Proof.
  intros H. unfold refco. rewrite !refro_vacuum by exact H. unR. apply f_equal. apply (f_equal2 (@pair R R)); field.
Qed.
Lemma refv_turn (a z A B : R) : 0 <= z <= PI / 2 -> 0.05 <= cos z ->
  let d := newton_step A B (tan z) in
  exists rho, (Rabs d <= 1 -> Rabs (rho - 1) <= d ^ 4) /\
    refv (N := RNum) (direction a (PI / 2 - z)) A B = scale rho (direction a (PI / 2 - (z - atan d))).
Proof.
  intros Z C d. exists (ratio d). split; [apply ratio_near|apply refv_direction; assumption].
Qed.
Lemma refv_accuracy (A B z : R) : let z' := z - atan (newton_step A B (tan z)) in
  (0 <= A <= 0.00029 -> -0.0000005 <= B <= 0 -> 0 <= z <= PI / 6 -> miss A B z z' <= 3 * microarcsec) /\
  (0 <= A <= 0.00029 -> -0.0000005 <= B <= 0 -> 0 <= z <= 70 * PI / 180 -> miss A B z z' <= 1000 * microarcsec) /\
  (terrestrial A B -> 0 <= z <= 83 / deg -> miss A B z z' <= 1700000 * microarcsec).
Proof.
  intros z'. pose proof PI_bounds. unfold microarcsec. split; [|split].
  - intros HA HB Z. destruct (miss_30 A B z HA HB Z) as [_ M]. fold z' in M. lra.
  - intros HA HB Z. destruct (miss_70 A B z HA HB Z) as [_ M]. fold z' in M. lra.
  - intros HA Z. destruct (miss_83 A B z HA Z) as [_ M]. fold z' in M. lra.
Qed.
Lemma saturation_example : saturation_pressure 273.15 1000 < 1000.
Proof.
  unfold saturation_pressure. replace (273.15 - 273.15) with 0 by lra.
  replace ((0.7859 + 0.03477 * 0) / (1 + 0.00412 * 0)) with 0.7859 by field.
  assert (P : Rpower 10 0.7859 <= 10).
  { rewrite <- (Rpower_1 10) at 2 by lra. apply Rle_Rpower; lra. }
  assert (0 < Rpower 10 0.7859) by apply exp_pos. nra.
Qed.
