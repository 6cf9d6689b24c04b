(** Observer's position and velocity in binary64. *)
From Coq Require Import ZArith Reals Bool List Lia Lra Psatz.
From Flocq Require Import Core BinarySingleNaN.
From Verif Require Import Int32 Num NumB NumR M_Angle M_Vec M_Sphere M_Site S_Geom S_Sphere S_Frame S_Site S_FloatObs S_Binary S_Float S_FloatSph L_Bin L_Flt L_Float.
From Verif Require Import L_Real L_Frame L_Vec L_Site L_FloatVec L_FloatSph L_Err L_ErrT L_FloatLand L_FloatFrame L_FloatHor L_FloatEt.
Import ListNotations.
Open Scope R_scope.

Definition ob_B {N : Num} : N := let B2 := n_sub (n_ofZ 1) (n_div (n_ofZ 1) (n_lit 298257 (-3))) in n_mul B2 B2.
Definition ob_q {N : Num} (s c : N) : N := n_add (n_mul c c) (n_mul (n_mul ob_B s) s).
Definition ob_ax {N : Num} (q c h : N) : N := n_div (n_mul (n_add (n_mul (n_ofZ 6378140) (n_div (n_ofZ 1) (n_sqrt q))) h) c) (n_lit 149597870 3).
Definition ob_eq {N : Num} (q s h : N) : N := n_div (n_mul (n_add (n_mul (n_ofZ 6378140) (n_mul ob_B (n_div (n_ofZ 1) (n_sqrt q)))) h) s) (n_lit 149597870 3).
Definition ob_pv {N : Num} (q s c h sl cl : N) : vecpv N :=
  let v := n_mul (n_lit 7292115855306589 (-20)) (ob_ax q c h) in
  VPV (V3 (n_mul (ob_ax q c h) cl) (n_mul (ob_ax q c h) sl) (ob_eq q s h)) (V3 (n_mul (n_opp v) sl) (n_mul v cl) (n_ofZ 0)).
Lemma geoc_ob {N : Num} (lat h : N) : geoc lat h = (ob_ax (ob_q (n_sin lat) (n_cos lat)) (n_cos lat) h, ob_eq (ob_q (n_sin lat) (n_cos lat)) (n_sin lat) h).
Proof. reflexivity. Qed.
Lemma pvobs_ob {N : Num} (lat h lst : N) : pvobs lat h lst = ob_pv (ob_q (n_sin lat) (n_cos lat)) (n_sin lat) (n_cos lat) h (n_sin lst) (n_cos lst).
Proof. reflexivity. Qed.

Definition q_it : item := It (Sc - Sc / 50) (Sc + Sc / 50) 0.
Definition h_it : item := It (- (100000 * Sc)) (100000 * Sc) 0.
Lemma okk_q (x : double) a : value64 x a -> 0.9801 <= a <= 1.0199 -> okk q_it x a.
Proof.
  intros X A. split; cbn [lo hi er q_it]; [rewrite V_0; now apply near_fin|]. rewrite V_sub, V_add. pose proof (V_frac 50 ltac:(lia)) as F. pose proof (V_Sc 1) as O. rewrite Z.mul_1_l in O. rewrite O. lra.
Qed.
Lemma okk_h (x : double) a : value64 x a -> Rabs a <= 100000 -> okk h_it x a.
Proof. intros X A. apply (okk_sym x a _ _ X A). rewrite V_Sc. lra. Qed.
Lemma ob_q64 lm (x y : double) a b : value64 x a -> value64 y b -> Rabs a <= 1 -> Rabs b <= 1 ->
  near 53 1024 (ob_q (N := B64 lm) x y) (ob_q (N := RNum) a b) 12e-16.
Proof.
  intros X Y A B. assert (OK : okenv [unit_it; unit_it] [x; y] [a; b]) by (do 2 (split; [apply okk_unit; assumption|]); exact Logic.I).
  unfold ob_q, ob_B. cbv zeta. err0 lm [unit_it; unit_it] [x; y] [a; b] OK.
Qed.
Definition ob_env : list item := [q_it; unit_it; unit_it; h_it; unit_it; unit_it].
Lemma ob_pv64 lm (x1 x2 x3 x4 x5 x6 : double) a1 a2 a3 a4 a5 a6 :
  value64 x1 a1 -> value64 x2 a2 -> value64 x3 a3 -> value64 x4 a4 -> value64 x5 a5 -> value64 x6 a6 ->
  0.9801 <= a1 <= 1.0199 -> Rabs a2 <= 1 -> Rabs a3 <= 1 -> Rabs a4 <= 100000 -> Rabs a5 <= 1 -> Rabs a6 <= 1 ->
  let x := ob_pv (N := B64 lm) x1 x2 x3 x4 x5 x6 in let a := ob_pv (N := RNum) a1 a2 a3 a4 a5 a6 in
  (near 53 1024 (v0 (pos x)) (v0 (pos a)) 4e-20 /\ near 53 1024 (v1 (pos x)) (v1 (pos a)) 4e-20 /\ near 53 1024 (v2 (pos x)) (v2 (pos a)) 6e-20) /\
  (near 53 1024 (v0 (velo x)) (v0 (velo a)) 4e-24 /\ near 53 1024 (v1 (velo x)) (v1 (velo a)) 4e-24 /\ value64 (v2 (velo x)) 0).
Proof.
  intros X1 X2 X3 X4 X5 X6 A1 A2 A3 A4 A5 A6 x a.
  assert (OK : okenv ob_env [x1; x2; x3; x4; x5; x6] [a1; a2; a3; a4; a5; a6]).
  { unfold ob_env. split; [now apply okk_q|]. split; [now apply okk_unit|]. split; [now apply okk_unit|]. split; [now apply okk_h|]. do 2 (split; [apply okk_unit; assumption|]). exact Logic.I. }
  unfold x, a, ob_pv, ob_ax, ob_eq, ob_B. cbv zeta. cbn [v0 v1 v2 pos velo].
  split; (split; [|split]); try (err0 lm ob_env [x1; x2; x3; x4; x5; x6] [a1; a2; a3; a4; a5; a6] OK).
  apply (fin_ofZ 53 1024 0); reflexivity.
Qed.

(** ** Against the exact position *)
Lemma ob_B_R : 0.9933 <= ob_B (N := RNum) <= 0.99331 /\ ob_B (N := RNum) = (1 - 1 / 298.257) * (1 - 1 / 298.257).
Proof.
  assert (E : ob_B (N := RNum) = (1 - 1 / 298.257) * (1 - 1 / 298.257)).
  { unfold ob_B. cbv zeta. cbn [n_sub n_div n_mul n_ofZ n_lit RNum]. replace (Rdec 298257 (-3)) with 298.257 by (decs; field). reflexivity. }
  split; [|exact E]. rewrite E. lra.
Qed.
Lemma inv_sqrt_lip p q d : 0.98 <= p -> 0.98 <= q -> Rabs (p - q) <= d -> Rabs (1 / sqrt p - 1 / sqrt q) <= 0.532 * d.
Proof.
  intros P Q D. assert (SP : 0.98 <= sqrt p) by (rewrite <- (sqrt_square 0.98) by lra; apply sqrt_le_1_alt; nra).
  assert (SQ : 0.98 <= sqrt q) by (rewrite <- (sqrt_square 0.98) by lra; apply sqrt_le_1_alt; nra).
  assert (EP : sqrt p * sqrt p = p) by (apply sqrt_sqrt; lra). assert (EQ : sqrt q * sqrt q = q) by (apply sqrt_sqrt; lra).
  set (x := sqrt p) in *. set (y := sqrt q) in *.
  assert (M : 1.88 <= x * y * (x + y)) by (assert (0.96 <= x * y) by nra; nra).
  replace (1 / x - 1 / y) with ((q - p) * / (x * y * (x + y))) by (rewrite <- EP, <- EQ; field; repeat split; nra).
  rewrite Rabs_mult, (Rabs_pos_eq (/ _)) by (apply Rlt_le, Rinv_0_lt_compat; lra). rewrite Rabs_minus_sym.
  assert (I : / (x * y * (x + y)) <= 0.532) by (apply Rle_trans with (/ 1.88); [apply Rinv_le_contravar; lra|lra]).
  pose proof (Rinv_0_lt_compat (x * y * (x + y)) ltac:(lra)). pose proof (Rabs_pos (p - q)). nra.
Qed.
(** Distance from the axis and from the equator, metres. *)
Lemma ob_ax_R q c h : ob_ax (N := RNum) q c h * au_m = (earth_a * (1 / sqrt q) + h) * c.
Proof. unfold ob_ax, au_m, earth_a. cbn [n_add n_mul n_div n_sqrt n_ofZ n_lit RNum]. replace (Rdec 149597870 3) with 149597870000 by (unfold Rdec; f_equal). set (i := 1 / sqrt q). field. Qed.
Lemma ob_eq_R q c h : ob_eq (N := RNum) q c h * au_m = (earth_a * (ob_B (N := RNum) * (1 / sqrt q)) + h) * c.
Proof. unfold ob_eq, au_m, earth_a. cbn [n_add n_mul n_div n_sqrt n_ofZ n_lit RNum]. replace (Rdec 149597870 3) with 149597870000 by (unfold Rdec; f_equal). set (i := 1 / sqrt q). set (b := ob_B (N := RNum)). clearbody i b. field. Qed.
Lemma arm_lip B i i0 h c c0 k d : 0 <= B <= 1 -> 0 <= i0 <= 1.0205 -> Rabs h <= 100000 -> Rabs c <= 1 -> Rabs (c - c0) <= k -> Rabs (i - i0) <= d ->
  Rabs ((earth_a * (B * i) + h) * c - (earth_a * (B * i0) + h) * c0) <= 6378140 * d + 6609000 * k.
Proof.
  intros HB I H C K D. unfold earth_a.
  replace ((6378140 * (B * i) + h) * c - (6378140 * (B * i0) + h) * c0) with (6378140 * (B * (i - i0)) * c + (6378140 * (B * i0) + h) * (c - c0)) by ring.
  eapply Rle_trans; [apply Rabs_triang|]. rewrite (Rabs_mult (6378140 * _)), (Rabs_mult 6378140), (Rabs_mult B), (Rabs_mult (_ + _)), (Rabs_pos_eq 6378140), (Rabs_pos_eq B) by lra.
  pose proof (Rabs_pos (i - i0)). pose proof (Rabs_pos c). pose proof (Rabs_pos (c - c0)).
  assert (W : Rabs (6378140 * (B * i0) + h) <= 6609000) by (apply Rabs_le_inv in H; apply Rabs_le; nra).
  assert (Z1 : B * Rabs (i - i0) <= d) by nra. assert (Z0 : 0 <= B * Rabs (i - i0)) by nra.
  pose proof (Rabs_pos (6378140 * (B * i0) + h)). assert (Z2 : 6378140 * (B * Rabs (i - i0)) * Rabs c <= 6378140 * d) by nra. nra.
Qed.
Lemma ob_q_lip k s c a : 0 <= k -> Rabs s <= 1 -> Rabs c <= 1 -> Rabs (s - sin a) <= k -> Rabs (c - cos a) <= k ->
  Rabs (ob_q (N := RNum) s c - ob_q (N := RNum) (sin a) (cos a)) <= 4 * k.
Proof.
  intros K S C DS DC. destruct ob_B_R as ((B1 & B2) & _). unfold ob_q. set (B := ob_B (N := RNum)) in *. cbn [n_add n_mul RNum]. 
  pose proof (prod_err s s (sin a) (sin a) k S (sin_abs1 a) DS DS) as E1. pose proof (prod_err c c (cos a) (cos a) k C (cos_abs1 a) DC DC) as E2.
  change (Rabs (c * c + B * s * s - (cos a * cos a + B * sin a * sin a)) <= 4 * k).
  replace (c * c + B * s * s - (cos a * cos a + B * sin a * sin a)) with ((c * c - cos a * cos a) + B * (s * s - sin a * sin a)) by ring.
  eapply Rle_trans; [apply Rabs_triang|]. rewrite Rabs_mult, (Rabs_pos_eq B) by lra. pose proof (Rabs_pos (s * s - sin a * sin a)). nra.
Qed.
Lemma ob_q_R a : 0.99 <= ob_q (N := RNum) (sin a) (cos a) <= 1.
Proof.
  destruct ob_B_R as ((B1 & B2) & _). unfold ob_q. set (B := ob_B (N := RNum)) in *. change (0.99 <= cos a * cos a + B * sin a * sin a <= 1).
  pose proof (sc1 a). set (x := sin a * sin a) in *. assert (0 <= x) by (unfold x; nra). replace (B * sin a * sin a) with (B * x) by (unfold x; ring). nra.
Qed.

Lemma pvobs64 lm k (x y z : double) lat h lst : libm_ok lm k -> k <= 1e-6 -> value64 x lat -> value64 y h -> value64 z lst -> Rabs h <= 100000 ->
  exists p v P, vec64 (pos (pvobs (N := B64 lm) x y z)) p /\ vec64 (velo (pvobs (N := B64 lm) x y z)) v /\ observer_at lat h lst P /\
  norm (vsub (scale au_m p) P) <= 2e-8 + 4.4e7 * k /\ norm (vsub (scale au_m v) (carried_round P)) <= sidereal_rate * (2e-8 + 4.4e7 * k).
Proof.
  intros L K X Y Z H. pose proof (libm_k lm k L) as K0. rewrite pvobs_ob.
  destruct (trig64 lm k x lat L X) as (s & c & FS & FC & S1 & C1 & DS & DC). destruct (trig64 lm k z lst L Z) as (sl & cl & FSL & FCL & SL1 & CL1 & DSL & DCL).
  destruct (ob_q64 lm _ _ _ _ FS FC S1 C1) as (q & FQ & EQ). pose proof (ob_q_lip k s c lat K0 S1 C1 DS DC) as LQ. pose proof (ob_q_R lat) as RQ.
  set (q0 := ob_q (N := RNum) (sin lat) (cos lat)) in *. set (q1 := ob_q (N := RNum) s c) in *.
  assert (DQ : Rabs (q - q0) <= 4 * k + 12e-16).
  { replace (q - q0) with ((q - q1) + (q1 - q0)) by ring. eapply Rle_trans; [apply Rabs_triang|]. lra. }
  assert (RQ1 : 0.9801 <= q <= 1.0199) by (apply Rabs_le_inv in DQ; lra).
  destruct (ob_pv64 lm _ _ _ _ _ _ _ _ _ _ _ _ FQ FS FC Y FSL FCL RQ1 S1 C1 H SL1 CL1) as (((p0 & G0 & E0) & (p1 & G1 & E1) & (p2 & G2 & E2)) & ((w0 & H0 & I0) & (w1 & H1 & I1) & H2)).
  cbn [ob_pv pos velo v0 v1 v2] in E0, E1, E2, I0, I1.
  pose proof (inv_sqrt_lip q q0 _ ltac:(lra) ltac:(lra) DQ) as IS.
  assert (I0R : 0 <= 1 / sqrt q0 <= 1.0205).
  { assert (0.98 <= sqrt q0) by (rewrite <- (sqrt_square 0.98) by lra; apply sqrt_le_1_alt; nra). split; [apply Rlt_le, Rdiv_lt_0_compat; lra|].
    unfold Rdiv. rewrite Rmult_1_l. apply Rle_trans with (/ 0.98); [apply Rinv_le_contravar; lra|lra]. }
  set (i := 1 / sqrt q) in *. set (i0 := 1 / sqrt q0) in *.
  set (d := 0.532 * (4 * k + 12e-16)) in *. destruct ob_B_R as (BR & BE). pose proof (geoc_spec lat h) as GS. rewrite geoc_ob in GS.
  change (n_sin (lat : RNum)) with (sin lat) in GS. change (n_cos (lat : RNum)) with (cos lat) in GS. fold q0 in GS. destruct GS as (rho & z0 & SP & XA & ZA).
  rewrite ob_ax_R in XA. rewrite ob_eq_R in ZA. fold i0 in XA, ZA.
  pose proof (ob_ax_R q c h) as AX. pose proof (ob_eq_R q s h) as AE. fold i in AX, AE.
  set (ax := ob_ax (N := RNum) q c h) in *. set (ae := ob_eq (N := RNum) q s h) in *. set (B := ob_B (N := RNum)) in *.
  pose proof (arm_lip 1 i i0 h c (cos lat) k d ltac:(lra) I0R H C1 DC IS) as LA. rewrite !Rmult_1_l in LA.
  pose proof (arm_lip B i i0 h s (sin lat) k d ltac:(lra) I0R H S1 DS IS) as LE.
  rewrite XA, <- AX in LA. rewrite ZA, <- AE in LE.
  set (A := rho + h * cos lat) in *. set (E := z0 + h * sin lat) in *.
  assert (AB : Rabs A <= 6609000).
  { rewrite <- XA. rewrite Rabs_mult. pose proof (cos_abs1 lat). pose proof (Rabs_pos (cos lat)).
    assert (Rabs (earth_a * i0 + h) <= 6609000) by (unfold earth_a; apply Rabs_le_inv in H; apply Rabs_le; nra). pose proof (Rabs_pos (earth_a * i0 + h)). nra. }
  assert (U : au_m = 149597870000) by reflexivity. assert (SR : 0 < sidereal_rate <= 0.00007292115855306589) by (unfold sidereal_rate; lra).
  (* the horizontal components *)
  assert (HC : forall t t0, Rabs t <= 1 -> Rabs (t - t0) <= k -> Rabs (ax * au_m * t - A * t0) <= 6378140 * d + 13218000 * k).
  { intros t t0 T DT. replace (ax * au_m * t - A * t0) with ((ax * au_m - A) * t + A * (t - t0)) by ring. eapply Rle_trans; [apply Rabs_triang|]. rewrite !Rabs_mult.
    pose proof (Rabs_pos (ax * au_m - A)). pose proof (Rabs_pos t). pose proof (Rabs_pos (t - t0)). pose proof (Rabs_pos A). nra. }
  pose proof (HC sl (sin lst) SL1 DSL) as HS. pose proof (HC cl (cos lst) CL1 DCL) as HCo.
  assert (PE : forall p u w e m, Rabs (p - u) <= e -> Rabs (u * au_m - w) <= m -> Rabs (au_m * p - w) <= 149597870000 * e + m).
  { intros p u w e m P1 P2. replace (au_m * p - w) with (au_m * (p - u) + (u * au_m - w)) by ring. eapply Rle_trans; [apply Rabs_triang|]. rewrite Rabs_mult, (Rabs_pos_eq au_m) by (rewrite U; lra). assert (au_m * Rabs (p - u) <= 149597870000 * e) by (rewrite U; apply Rmult_le_compat_l; [lra|exact P1]). lra. }
  exists (V3 p0 p1 p2), (V3 w0 w1 0), (mapply (frame_z (- lst)) (V3 A 0 E)).
  assert (PV : mapply (frame_z (- lst)) (V3 A 0 E) = V3 (A * cos lst) (A * sin lst) E).
  { unfold mapply, frame_z, dot. cbn [v0 v1 v2 r0 r1 r2]. rewrite cos_neg, sin_neg. f_equal; ring. }
  split; [split; [exact G0|split; [exact G1|exact G2]]|]. split; [split; [exact H0|split; [exact H1|exact H2]]|].
  split; [exists rho, z0; split; [exact SP|reflexivity]|]. rewrite PV. clear PV.
  change (Rabs (p0 - ax * cl) <= 4e-20) in E0. change (Rabs (p1 - ax * sl) <= 4e-20) in E1. change (Rabs (p2 - ae) <= 6e-20) in E2.
  assert (N0 : Rabs (au_m * p0 - A * cos lst) <= 1.02e-8 + 2.68e7 * k).
  { eapply Rle_trans; [eapply (fun w m => PE p0 (ax * cl) w _ m E0); replace (ax * cl * au_m) with (ax * au_m * cl) by ring; exact HCo|]. unfold d. lra. }
  assert (N1 : Rabs (au_m * p1 - A * sin lst) <= 1.02e-8 + 2.68e7 * k).
  { eapply Rle_trans; [eapply (fun w m => PE p1 (ax * sl) w _ m E1); replace (ax * sl * au_m) with (ax * au_m * sl) by ring; exact HS|]. unfold d. lra. }
  assert (N2 : Rabs (au_m * p2 - E) <= 1.32e-8 + 2.02e7 * k).
  { eapply Rle_trans; [eapply (PE p2 ae _ _ _ E2 LE)|]. unfold d. lra. }
  split.
  - apply (norm3 _ (1.02e-8 + 2.68e7 * k) (1.02e-8 + 2.68e7 * k) (1.32e-8 + 2.02e7 * k)); [exact N0|exact N1|exact N2|nra|nra].
  - assert (RD : Rdec 7292115855306589 (-20) = sidereal_rate) by (unfold sidereal_rate; decs; field).
    change (n_lit (n := RNum) 7292115855306589 (-20)) with (Rdec 7292115855306589 (-20)) in *. rewrite RD in *.
    change (Rabs (w0 - - (sidereal_rate * ax) * sl) <= 4e-24) in I0. change (Rabs (w1 - sidereal_rate * ax * cl) <= 4e-24) in I1.
    assert (RS : forall u v m, Rabs (u - v) <= m -> Rabs (sidereal_rate * u - sidereal_rate * v) <= sidereal_rate * m).
    { intros u v m M. replace (sidereal_rate * u - sidereal_rate * v) with (sidereal_rate * (u - v)) by ring. rewrite Rabs_mult, (Rabs_pos_eq sidereal_rate) by lra. pose proof (Rabs_pos (u - v)). nra. }
    assert (M0 : Rabs (au_m * w0 - sidereal_rate * - (A * sin lst)) <= sidereal_rate * (1.3e-8 + 2.68e7 * k)).
    { eapply Rle_trans; [eapply (fun w m => PE w0 (- (sidereal_rate * ax) * sl) w _ m I0); replace (- (sidereal_rate * ax) * sl * au_m) with (sidereal_rate * - (ax * au_m * sl)) by ring; apply (RS (- (ax * au_m * sl)) (- (A * sin lst)) (6378140 * d + 13218000 * k)), opp_err, HS|]. unfold d, sidereal_rate. lra. }
    assert (M1 : Rabs (au_m * w1 - sidereal_rate * (A * cos lst)) <= sidereal_rate * (1.3e-8 + 2.68e7 * k)).
    { eapply Rle_trans; [eapply (fun w m => PE w1 (sidereal_rate * ax * cl) w _ m I1); replace (sidereal_rate * ax * cl * au_m) with (sidereal_rate * (ax * au_m * cl)) by ring; apply (RS (ax * au_m * cl) (A * cos lst) (6378140 * d + 13218000 * k)), HCo|]. unfold d, sidereal_rate. lra. }
    replace (carried_round (V3 (A * cos lst) (A * sin lst) E)) with (V3 (sidereal_rate * - (A * sin lst)) (sidereal_rate * (A * cos lst)) 0) by (unfold carried_round, scale, cross; cbn [v0 v1 v2]; f_equal; ring).
    apply (norm3 _ (sidereal_rate * (1.3e-8 + 2.68e7 * k)) (sidereal_rate * (1.3e-8 + 2.68e7 * k)) 0); [exact M0|exact M1| | |].
    + unfold vsub, scale. cbn [v2]. rewrite Rmult_0_r, Rminus_0_r, Rabs_R0. lra.
    + set (r := sidereal_rate) in *. replace (r * (2e-8 + 4.4e7 * k) * (r * (2e-8 + 4.4e7 * k))) with (r * r * ((2e-8 + 4.4e7 * k) * (2e-8 + 4.4e7 * k))) by ring.
      replace (r * (1.3e-8 + 2.68e7 * k) * (r * (1.3e-8 + 2.68e7 * k)) + r * (1.3e-8 + 2.68e7 * k) * (r * (1.3e-8 + 2.68e7 * k)) + 0 * 0) with (r * r * (2 * ((1.3e-8 + 2.68e7 * k) * (1.3e-8 + 2.68e7 * k)))) by ring.
      apply Rmult_le_compat_l; [nra|]. nra.
    + nra.
Qed.

(** ** The two distances *)
Lemma ob_geoc64 lm (x1 x2 x3 x4 : double) a1 a2 a3 a4 :
  value64 x1 a1 -> value64 x2 a2 -> value64 x3 a3 -> value64 x4 a4 -> 0.9801 <= a1 <= 1.0199 -> Rabs a2 <= 1 -> Rabs a3 <= 1 -> Rabs a4 <= 100000 ->
  near 53 1024 (ob_ax (N := B64 lm) x1 x3 x4) (ob_ax (N := RNum) a1 a3 a4) 4e-20 /\ near 53 1024 (ob_eq (N := B64 lm) x1 x2 x4) (ob_eq (N := RNum) a1 a2 a4) 6e-20.
Proof.
  intros X1 X2 X3 X4 A1 A2 A3 A4.
  assert (OK : okenv [q_it; unit_it; unit_it; h_it] [x1; x2; x3; x4] [a1; a2; a3; a4]).
  { split; [now apply okk_q|]. split; [now apply okk_unit|]. split; [now apply okk_unit|]. split; [now apply okk_h|]. exact Logic.I. }
  unfold ob_ax, ob_eq, ob_B. cbv zeta.
  split; err0 lm [q_it; unit_it; unit_it; h_it] [x1; x2; x3; x4] [a1; a2; a3; a4] OK.
Qed.
Lemma geoc64 lm k (x y : double) lat h : libm_ok lm k -> k <= 1e-6 -> value64 x lat -> value64 y h -> Rabs h <= 100000 ->
  exists p q rho z0, value64 (fst (geoc (N := B64 lm) x y)) p /\ value64 (snd (geoc (N := B64 lm) x y)) q /\ spheroid_point lat rho z0 /\
  Rabs (au_m * p - (rho + h * cos lat)) <= 1.02e-8 + 2.02e7 * k /\ Rabs (au_m * q - (z0 + h * sin lat)) <= 1.32e-8 + 2.02e7 * k.
Proof.
  intros L K X Y H. pose proof (libm_k lm k L) as K0. rewrite geoc_ob. cbn [fst snd].
  destruct (trig64 lm k x lat L X) as (s & c & FS & FC & S1 & C1 & DS & DC).
  destruct (ob_q64 lm _ _ _ _ FS FC S1 C1) as (q & FQ & EQ). pose proof (ob_q_lip k s c lat K0 S1 C1 DS DC) as LQ. pose proof (ob_q_R lat) as RQ.
  set (q0 := ob_q (N := RNum) (sin lat) (cos lat)) in *. set (q1 := ob_q (N := RNum) s c) in *.
  assert (DQ : Rabs (q - q0) <= 4 * k + 12e-16).
  { replace (q - q0) with ((q - q1) + (q1 - q0)) by ring. eapply Rle_trans; [apply Rabs_triang|]. lra. }
  assert (RQ1 : 0.9801 <= q <= 1.0199) by (apply Rabs_le_inv in DQ; lra).
  destruct (ob_geoc64 lm _ _ _ _ _ _ _ _ FQ FS FC Y RQ1 S1 C1 H) as ((p1 & G1 & E1) & (p2 & G2 & E2)).
  pose proof (inv_sqrt_lip q q0 _ ltac:(lra) ltac:(lra) DQ) as IS.
  assert (I0R : 0 <= 1 / sqrt q0 <= 1.0205).
  { assert (0.98 <= sqrt q0) by (rewrite <- (sqrt_square 0.98) by lra; apply sqrt_le_1_alt; nra). split; [apply Rlt_le, Rdiv_lt_0_compat; lra|].
    unfold Rdiv. rewrite Rmult_1_l. apply Rle_trans with (/ 0.98); [apply Rinv_le_contravar; lra|lra]. }
  set (i := 1 / sqrt q) in *. set (i0 := 1 / sqrt q0) in *.
  set (d := 0.532 * (4 * k + 12e-16)) in *. destruct ob_B_R as (BR & BE). pose proof (geoc_spec lat h) as GS. rewrite geoc_ob in GS.
  change (n_sin (lat : RNum)) with (sin lat) in GS. change (n_cos (lat : RNum)) with (cos lat) in GS. fold q0 in GS. destruct GS as (rho & z0 & SP & XA & ZA).
  rewrite ob_ax_R in XA. rewrite ob_eq_R in ZA. fold i0 in XA, ZA.
  pose proof (ob_ax_R q c h) as AX. pose proof (ob_eq_R q s h) as AE. fold i in AX, AE.
  set (ax := ob_ax (N := RNum) q c h) in *. set (ae := ob_eq (N := RNum) q s h) in *. set (B := ob_B (N := RNum)) in *.
  pose proof (arm_lip 1 i i0 h c (cos lat) k d ltac:(lra) I0R H C1 DC IS) as LA. rewrite !Rmult_1_l in LA.
  pose proof (arm_lip B i i0 h s (sin lat) k d ltac:(lra) I0R H S1 DS IS) as LE.
  rewrite XA, <- AX in LA. rewrite ZA, <- AE in LE.
  assert (U : au_m = 149597870000) by reflexivity.
  assert (PE : forall p u w e m, Rabs (p - u) <= e -> Rabs (u * au_m - w) <= m -> Rabs (au_m * p - w) <= 149597870000 * e + m).
  { intros p u w e m P1 P2. replace (au_m * p - w) with (au_m * (p - u) + (u * au_m - w)) by ring. eapply Rle_trans; [apply Rabs_triang|]. rewrite Rabs_mult, (Rabs_pos_eq au_m) by (rewrite U; lra). assert (au_m * Rabs (p - u) <= 149597870000 * e) by (rewrite U; apply Rmult_le_compat_l; [lra|exact P1]). lra. }
  exists p1, p2, rho, z0. split; [exact G1|]. split; [exact G2|]. split; [exact SP|]. split.
  - eapply Rle_trans; [eapply (PE p1 ax _ _ _ E1 LA)|]. unfold d. lra.
  - eapply Rle_trans; [eapply (PE p2 ae _ _ _ E2 LE)|]. unfold d. lra.
Qed.
