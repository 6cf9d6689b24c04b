(** The E-terms of aberration in binary64. *)
From Coq Require Import ZArith Reals Bool List Lia Lra Psatz.
From Flocq Require Import Core BinarySingleNaN.
From Verif Require Import Int32 Num NumB NumR M_Angle M_Vec M_Frame S_Geom S_Frame S_Binary S_Float S_FloatSph L_Bin L_Flt L_FltVec L_Float.
From Verif Require Import L_Real L_Vec L_Rot L_Trig L_Frame L_FloatVec L_FloatMat L_FltGeo L_FloatSph L_Err L_ErrT L_FloatTf L_FloatEp L_FloatFrame L_FloatLand L_FloatHor L_FrameGal.
From Verif Require L_Binary L_Pi.
Import ListNotations.
Open Scope R_scope.

Definition et_parts {N : Num} (be : N) : N * N * N :=
  let jc := n_mul (n_sub be (n_ofZ 1950)) (n_lit 100002135903 (-13)) in
  let e := n_sub (n_lit 1673011 (-8)) (n_mul (n_add (n_lit 4193 (-8)) (n_mul (n_lit 126 (-9)) jc)) jc) in
  let e0 := n_mul (n_sub (n_lit 84404836 (-3)) (n_mul (n_add (n_lit 468495 (-4)) (n_mul (n_add (n_lit 319 (-5)) (n_mul (n_lit 181 (-5)) jc)) jc)) jc)) as2r in
  let pl := n_mul (n_add (n_lit 1015489951 (-3)) (n_mul (n_add (n_lit 619067 (-2)) (n_mul (n_add (n_lit 165 (-2)) (n_mul (n_lit 12 (-3)) jc)) jc)) jc)) as2r in
  (n_mul (n_mul e (n_lit 2049552 (-5))) as2r, pl, e0).
Definition et_vec {N : Num} (ek sp cp se ce : N) : vec N := V3 (n_mul ek sp) (n_mul (n_mul (n_opp ek) cp) ce) (n_mul (n_mul (n_opp ek) cp) se).
Lemma etrms_eq {N : Num} (be : N) : etrms be =
  let '(ek, pl, e0) := et_parts be in et_vec ek (n_sin pl) (n_cos pl) (n_sin e0) (n_cos e0).
Proof. reflexivity. Qed.

Lemma et_parts64 lm (x : double) a : value64 x a -> 0 <= a <= 4000 ->
  let '(ek, pl, e0) := et_parts (N := B64 lm) x in let '(ek', pl', e0') := et_parts (N := RNum) a in
  near 53 1024 ek ek' 1e-20 /\ near 53 1024 pl pl' 1e-14 /\ near 53 1024 e0 e0' 1e-14.
Proof.
  intros X A. pose proof (env1 x a 0 4000 X A) as OK. unfold et_parts, as2r. cbv zeta.
  split; [|split]; err0 lm [it 0 4000] [x] [a] OK.
Qed.
Definition ek_it : item := It 0 (Sc / 100000) 0.
Lemma et_vec64 lm (x1 x2 x3 x4 x5 : double) a1 a2 a3 a4 a5 :
  value64 x1 a1 -> value64 x2 a2 -> value64 x3 a3 -> value64 x4 a4 -> value64 x5 a5 ->
  0 <= a1 <= 9e-6 -> Rabs a2 <= 1 -> Rabs a3 <= 1 -> Rabs a4 <= 1 -> Rabs a5 <= 1 ->
  let v := et_vec (N := B64 lm) x1 x2 x3 x4 x5 in let w := et_vec (N := RNum) a1 a2 a3 a4 a5 in
  near 53 1024 (v0 v) (v0 w) 1e-20 /\ near 53 1024 (v1 v) (v1 w) 1e-20 /\ near 53 1024 (v2 v) (v2 w) 1e-20.
Proof.
  intros X1 X2 X3 X4 X5 A1 A2 A3 A4 A5.
  assert (OK : okenv [ek_it; unit_it; unit_it; unit_it; unit_it] [x1; x2; x3; x4; x5] [a1; a2; a3; a4; a5]).
  { split; [|do 4 (split; [apply okk_unit; assumption|]); exact Logic.I]. unfold okk, ek_it. cbn [lo hi er]. rewrite V_0. split; [now apply near_fin|].
    split; [lra|]. apply Rle_trans with 9e-6; [lra|]. unfold V. pose proof Sc_pos as P. apply (Rmult_le_reg_r (IZR Sc)); [exact P|].
    replace (IZR (Sc / 100000) / IZR Sc * IZR Sc) with (IZR (Sc / 100000)) by (field; lra). unfold Sc. change (2 ^ 128 / 100000)%Z with ltac:(let v := eval vm_compute in (2 ^ 128 / 100000)%Z in exact v).
    change (2 ^ 128)%Z with ltac:(let v := eval vm_compute in (2 ^ 128)%Z in exact v). lra. }
  unfold et_vec. cbv zeta. cbn [v0 v1 v2].
  split; [|split]; err0 lm [ek_it; unit_it; unit_it; unit_it; unit_it] [x1; x2; x3; x4; x5] [a1; a2; a3; a4; a5] OK.
Qed.
Lemma et_parts_R a : 1000 <= a <= 3000 -> let '(ek, pl, e0) := et_parts (N := RNum) a in 1e-7 <= ek <= 3e-6 /\
  e_terms a = et_vec (N := RNum) ek (sin pl) (cos pl) (sin e0) (cos e0).
Proof.
  intros A. rewrite <- etrms_spec, etrms_eq. destruct (et_parts (N := RNum) a) as [[ek pl] e0] eqn:E. split; [|reflexivity].
  assert (EK : ek = fst (fst (et_parts (N := RNum) a))) by (now rewrite E). rewrite EK. clear E EK. unfold et_parts. cbv zeta. cbn [fst snd]. rewrite as2r_arcsec. unR. unfold arcsec.
  set (t := (a - 1950) * Rdec 100002135903 (-13)). assert (T : -10 <= t <= 11) by (unfold t; decs; lra). clearbody t. decs.
  assert (0 <= t * t <= 121) by nra. split; lra.
Qed.
Lemma etrms64 lm k (x : double) a : libm_ok lm k -> 0 <= k <= 1e-6 -> value64 x a -> 1000 <= a <= 3000 -> by64 (etrms (N := B64 lm) x) (e_terms a) (2e-5 * k + 2e-19).
Proof.
  intros L K X A. rewrite etrms_eq. pose proof (et_parts64 lm x a X ltac:(lra)) as P. pose proof (et_parts_R a A) as R.
  destruct (et_parts (N := B64 lm) x) as [[ek pl] e0]. destruct (et_parts (N := RNum) a) as [[ek' pl'] e0']. destruct R as (KR & ->).
  destruct P as ((e & FE & EE) & (p & FP & EP) & (o & FO & EO)).
  destruct (trig64 lm k _ _ L FP) as (sp & cp & F1 & F2 & A1 & A2 & D1 & D2). destruct (trig64 lm k _ _ L FO) as (so & co & F3 & F4 & A3 & A4 & D3 & D4).
  assert (D1' : Rabs (sp - sin pl') <= k + 1e-14) by (replace (sp - sin pl') with ((sp - sin p) + (sin p - sin pl')) by ring; eapply Rle_trans; [apply Rabs_triang|]; pose proof (sin_lip p pl'); lra).
  assert (D2' : Rabs (cp - cos pl') <= k + 1e-14) by (replace (cp - cos pl') with ((cp - cos p) + (cos p - cos pl')) by ring; eapply Rle_trans; [apply Rabs_triang|]; pose proof (cos_lip p pl'); lra).
  assert (D3' : Rabs (so - sin e0') <= k + 1e-14) by (replace (so - sin e0') with ((so - sin o) + (sin o - sin e0')) by ring; eapply Rle_trans; [apply Rabs_triang|]; pose proof (sin_lip o e0'); lra).
  assert (D4' : Rabs (co - cos e0') <= k + 1e-14) by (replace (co - cos e0') with ((co - cos o) + (cos o - cos e0')) by ring; eapply Rle_trans; [apply Rabs_triang|]; pose proof (cos_lip o e0'); lra).
  apply Rabs_le_inv in EE. 

  destruct (et_vec64 lm _ _ _ _ _ e sp cp so co FE F1 F2 F3 F4 ltac:(lra) A1 A2 A3 A4) as ((q0 & G0 & H0) & (q1 & G1 & H1) & (q2 & G2 & H2)).
  exists (V3 q0 q1 q2). split; [split; [exact G0|split; [exact G1|exact G2]]|].
  assert (EE' : Rabs (e - ek') <= 1e-20) by (apply Rabs_le; lra).
  assert (P1 : forall r s, Rabs r <= 1 -> Rabs (r - s) <= 2 * (k + 1e-14) -> Rabs (e * r - ek' * s) <= 1e-20 + 3e-6 * (2 * (k + 1e-14))).
  { intros r s R S. replace (e * r - ek' * s) with ((e - ek') * r + ek' * (r - s)) by ring. eapply Rle_trans; [apply Rabs_triang|]. rewrite !Rabs_mult.
    pose proof (Rabs_pos (e - ek')). pose proof (Rabs_pos r). pose proof (Rabs_pos (r - s)). rewrite (Rabs_pos_eq ek') by lra. nra. }
  assert (P2 : forall r s, Rabs r <= 1 -> Rabs (r - s) <= 2 * (k + 1e-14) -> Rabs (- e * r - - ek' * s) <= 1e-20 + 3e-6 * (2 * (k + 1e-14))).
  { intros r s R S. replace (- e * r - - ek' * s) with (- (e * r - ek' * s)) by ring. rewrite Rabs_Ropp. now apply P1. }
  assert (V : forall p q r, Rabs (p - q) <= 1e-20 -> Rabs (q - r) <= 1e-20 + 3e-6 * (2 * (k + 1e-14)) -> Rabs (p - r) <= 6e-6 * k + 8.1e-20).
  { intros u v w U W. replace (u - w) with ((u - v) + (v - w)) by ring. eapply Rle_trans; [apply Rabs_triang|]. lra. }
  change (v0 (et_vec (N := RNum) e sp cp so co)) with (e * sp) in H0. change (v1 (et_vec (N := RNum) e sp cp so co)) with (- e * cp * co) in H1.
  change (v2 (et_vec (N := RNum) e sp cp so co)) with (- e * cp * so) in H2.
  change (et_vec (N := RNum) ek' (sin pl') (cos pl') (sin e0') (cos e0')) with (V3 (ek' * sin pl') (- ek' * cos pl' * cos e0') (- ek' * cos pl' * sin e0')).
  rewrite Rmult_assoc in H1, H2.
  apply (norm3 _ (6e-6 * k + 8.1e-20) (6e-6 * k + 8.1e-20) (6e-6 * k + 8.1e-20)); unfold vsub; cbn [v0 v1 v2]; [| | |nra|nra].
  - apply (V _ _ _ H0). apply P1; [exact A1|]. pose proof (Rabs_pos (sp - sin pl')). lra.
  - rewrite Rmult_assoc. apply (V _ _ _ H1). apply P2; [now apply mul_abs1|]. apply prod_err; try assumption. apply cos_abs1.
  - rewrite Rmult_assoc. apply (V _ _ _ H2). apply P2; [now apply mul_abs1|]. apply prod_err; try assumption. apply cos_abs1.
Qed.

(** ** addet, subet *)
Lemma finish_ran lm k x w e : libm_ok lm k -> 0 <= k <= 1e-6 -> by64 x w e -> 0.9 <= norm w <= 1.1 -> e <= 1e-3 * norm w ->
  let s := dcc2s (N := B64 lm) x in lands k (Sph (N := B64 lm) (dranrm (s_a s)) (s_b s)) (unit_of w) (4 * k + 8.9 * u64 + 1.002 * (e / norm w)).
Proof.
  intros L K X N E s. destruct (ends64 lm k x w e L X N E) as (t & b & T & B & RT & RB & D). fold s in T, B.
  destruct (longitude64 lm k _ t b K T RT) as (c & FC & RC & DC). exists c, b. split; [split; [exact FC|exact B]|]. split; [exact RC|]. split; [exact RB|].
  unfold vdist. pose proof (vsub_via (direction c b) (direction t b) (unit_of w)). lra.
Qed.
Lemma comp_norm (w : RV) : Rabs (v0 w) <= norm w /\ Rabs (v1 w) <= norm w /\ Rabs (v2 w) <= norm w.
Proof.
  assert (H : forall c, c * c <= dot w w -> Rabs c <= norm w).
  { intros c C. unfold norm. rewrite <- sqrt_Rsqr_abs. apply sqrt_le_1_alt. exact C. }
  unfold dot in H. split; [|split]; apply H; nra.
Qed.
Lemma vadd64 lm (x y : vec (B64 lm)) p q e f : by64 x p e -> by64 y q f -> norm p + norm q + (e + f) <= 1.01 ->
  by64 (V3 (n_add (v0 x) (v0 y)) (n_add (v1 x) (v1 y)) (n_add (v2 x) (v2 y))) (vadd p q) (e + f + 1.8 * u64).
Proof.
  intros (r & (R0 & R1 & R2) & ER) (s & (S0 & S1 & S2) & ES) B. pose proof u64_num as U.
  pose proof (norm_lip r p) as N1. pose proof (norm_lip s q) as N2. apply Rabs_le_inv in N1, N2. pose proof (norm_triangle r s) as TR.
  destruct (comp_norm (vadd r s)) as (C0 & C1 & C2). cbn [vadd v0 v1 v2] in C0, C1, C2.
  pose proof Hh64 as HH. pose proof He64 as HE. rewrite u64_eq in HE.
  assert (A : forall (x y : double) a b, value64 x a -> value64 y b -> Rabs (a + b) <= norm (vadd r s) -> exists t, value64 (Bplus mode_NE x y) t /\ Rabs (t - (a + b)) <= 1.02 * u64).
  { intros x' y' a b X Y M. destruct (L_Flt.near_add 53 1024 x' y' a b 0 0 1.01 (near_fin _ _ _ _ X) (near_fin _ _ _ _ Y) ltac:(lra) ltac:(lra)) as (t & FT & ET).
    exists t. split; [exact FT|]. rewrite u64_eq in ET. lra. }
  destruct (A _ _ _ _ R0 S0 C0) as (t0 & F0 & T0). destruct (A _ _ _ _ R1 S1 C1) as (t1 & F1 & T1). destruct (A _ _ _ _ R2 S2 C2) as (t2 & F2 & T2).
  exists (V3 t0 t1 t2). split; [split; [exact F0|split; [exact F1|exact F2]]|].
  pose proof (vsub_via (V3 t0 t1 t2) (vadd r s) (vadd p q)) as VV.
  assert (H1 : norm (vsub (V3 t0 t1 t2) (vadd r s)) <= 1.8 * u64).
  { apply (norm3 _ (1.02 * u64) (1.02 * u64) (1.02 * u64)); unfold vsub, vadd; cbn [v0 v1 v2]; try assumption; rewrite U; lra. }
  assert (H2 : norm (vsub (vadd r s) (vadd p q)) <= e + f).
  { replace (vsub (vadd r s) (vadd p q)) with (vadd (vsub r p) (vsub s q)) by (unfold vadd, vsub; cbn [v0 v1 v2]; f_equal; ring). pose proof (norm_triangle (vsub r p) (vsub s q)). lra. }
  lra.
Qed.
Lemma addet_lands lm k s z a b c : libm_ok lm k -> 0 <= k <= 1e-6 -> angles64 s a b -> value64 z c -> 1000 <= c <= 3000 ->
  lands k (addet (N := B64 lm) s z) (unit_of (vadd (direction a b) (e_terms c))) (7.1 * k + 12.5 * u64).
Proof.
  intros L K S Z C. destruct (angles_Sph s a b S) as (x & y & -> & X & Y). pose proof (start64 lm k x y a b L X Y) as S0.
  pose proof (etrms64 lm k z c L K Z C) as S1. pose proof (e_terms_small c C) as ES. pose proof (norm_direction a b) as N0. pose proof u64_num as U.
  pose proof (vadd64 lm _ _ _ _ _ _ S0 S1 ltac:(rewrite U; lra)) as S2.
  destruct (norm_vsub_ge (direction a b) (e_terms c)) as (_ & G). pose proof (norm_triangle (direction a b) (e_terms c)) as GT.
  pose proof (finish_ran lm k _ _ _ L K S2 ltac:(lra) ltac:(rewrite U; lra)) as F. eapply lands_le; [exact F|].
  assert (Q : (3 * k + 1.5 * u64 + (2e-5 * k + 2e-19) + 1.8 * u64) / norm (vadd (direction a b) (e_terms c)) <= 1.0001 * (3 * k + 1.5 * u64 + (2e-5 * k + 2e-19) + 1.8 * u64)).
  { apply (Rmult_le_reg_r (norm (vadd (direction a b) (e_terms c)))); [lra|]. unfold Rdiv. rewrite Rmult_assoc, Rinv_l by lra. rewrite U. nra. }
  rewrite U in *. lra.
Qed.

Definition sub_vec {N : Num} (a b c d e f : N) : vec N :=
  let g := n_add (n_ofZ 1) (dvdv (V3 a b c) (V3 d e f)) in V3 (n_sub (n_mul a g) d) (n_sub (n_mul b g) e) (n_sub (n_mul c g) f).
Lemma subet_eq {N : Num} (s : sph N) (be : N) : subet s be =
  let v := dcs2c s in let et := etrms be in let r := dcc2s (sub_vec (v0 v) (v1 v) (v2 v) (v0 et) (v1 et) (v2 et)) in Sph (dranrm (s_a r)) (s_b r).
Proof. reflexivity. Qed.
Definition cs_it : item := It (- (Sc + Sc / 100)) (Sc + Sc / 100) 0.
Definition et_it : item := It (- (Sc / 100000)) (Sc / 100000) 0.
Lemma V_frac n : (0 < n)%Z -> / IZR n - 1e-20 <= V (Sc / n).
Proof.
  intros N. unfold V. assert (P : 0 < IZR n) by now apply IZR_lt. pose proof Sc_pos as S.
  assert (B : IZR Sc / IZR n - 1 <= IZR (Sc / n)).
  { pose proof (Z.div_mod Sc n ltac:(lia)). pose proof (Z.mod_pos_bound Sc n N) as M. apply Rle_trans with ((IZR Sc - IZR n) / IZR n); [apply Req_le; field; lra|].
    apply (Rmult_le_reg_r (IZR n)); [exact P|]. replace ((IZR Sc - IZR n) / IZR n * IZR n) with (IZR Sc - IZR n) by (field; lra). rewrite <- mult_IZR, <- minus_IZR. apply IZR_le. lia. }
  apply (Rmult_le_reg_r (IZR Sc)); [exact S|]. replace (IZR (Sc / n) / IZR Sc * IZR Sc) with (IZR (Sc / n)) by (field; lra).
  assert (1e20 <= IZR Sc) by (change 1e20 with (1 * IZR (10 ^ 20)); rewrite <- mult_IZR; apply IZR_le, Z.leb_le; vm_compute; reflexivity).
  unfold Rdiv in B. nra.
Qed.
Lemma okk_sym (x : double) a h m : value64 x a -> Rabs a <= m -> m <= V h -> okk (It (- h) h 0) x a.
Proof. intros X A M. split; cbn [lo hi er]; [rewrite V_0; now apply near_fin|]. rewrite V_opp. apply Rabs_le_inv in A. lra. Qed.
Lemma okk_cs (x : double) a : value64 x a -> Rabs a <= 1.001 -> okk cs_it x a.
Proof.
  intros X A. apply (okk_sym x a _ _ X A). rewrite V_add. pose proof (V_frac 100 ltac:(lia)) as F. pose proof (V_Sc 1) as O. rewrite Z.mul_1_l in O. rewrite O. lra.
Qed.
Lemma okk_et (x : double) a : value64 x a -> Rabs a <= 9e-6 -> okk et_it x a.
Proof. intros X A. apply (okk_sym x a _ _ X A). pose proof (V_frac 100000 ltac:(lia)) as F. lra. Qed.
Lemma sub_vec64 lm (x1 x2 x3 x4 x5 x6 : double) a1 a2 a3 a4 a5 a6 :
  value64 x1 a1 -> value64 x2 a2 -> value64 x3 a3 -> value64 x4 a4 -> value64 x5 a5 -> value64 x6 a6 ->
  Rabs a1 <= 1.001 -> Rabs a2 <= 1.001 -> Rabs a3 <= 1.001 -> Rabs a4 <= 9e-6 -> Rabs a5 <= 9e-6 -> Rabs a6 <= 9e-6 ->
  let v := sub_vec (N := B64 lm) x1 x2 x3 x4 x5 x6 in let w := sub_vec (N := RNum) a1 a2 a3 a4 a5 a6 in
  near 53 1024 (v0 v) (v0 w) 36e-17 /\ near 53 1024 (v1 v) (v1 w) 36e-17 /\ near 53 1024 (v2 v) (v2 w) 36e-17.
Proof.
  intros X1 X2 X3 X4 X5 X6 A1 A2 A3 A4 A5 A6.
  assert (OK : okenv [cs_it; cs_it; cs_it; et_it; et_it; et_it] [x1; x2; x3; x4; x5; x6] [a1; a2; a3; a4; a5; a6]).
  { do 3 (split; [apply okk_cs; assumption|]). do 3 (split; [apply okk_et; assumption|]). exact Logic.I. }
  unfold sub_vec, dvdv. cbv zeta. cbn [v0 v1 v2].
  split; [|split]; err0 lm [cs_it; cs_it; cs_it; et_it; et_it; et_it] [x1; x2; x3; x4; x5; x6] [a1; a2; a3; a4; a5; a6] OK.
Qed.
Lemma sub_vec_R (v e : vec RNum) : sub_vec (N := RNum) (v0 v) (v1 v) (v2 v) (v0 e) (v1 e) (v2 e) = subtracted v e.
Proof. destruct v as [a b c], e as [d f g]. unfold sub_vec, subtracted, dvdv, dot, vsub, scale. cbn. f_equal; ring. Qed.
Lemma subtracted_lip r t v e D F : norm v = 1 -> norm r <= 1.001 -> norm t <= 9e-6 -> norm (vsub r v) <= D -> norm (vsub t e) <= F ->
  norm (vsub (subtracted r t) (subtracted v e)) <= 1.00002 * D + 2 * F.
Proof.
  intros V R T HD HF.
  assert (E : vsub (subtracted r t) (subtracted v e) = vadd (vadd (scale (1 + dot r t) (vsub r v)) (scale (dot (vsub r v) t + dot v (vsub t e)) v)) (scale (- 1) (vsub t e))).
  { unfold subtracted, vadd, vsub, scale, dot. cbn [v0 v1 v2]. f_equal; ring. }
  rewrite E. eapply Rle_trans; [apply norm_triangle|]. eapply Rle_trans; [apply Rplus_le_compat_r, norm_triangle|]. rewrite !norm_scale_abs, V, Rmult_1_r.
  replace (Rabs (- 1)) with 1 by (rewrite Rabs_left; lra).
  pose proof (cauchy_abs r t) as C1. pose proof (cauchy_abs (vsub r v) t) as C2. pose proof (cauchy_abs v (vsub t e)) as C3. rewrite V, Rmult_1_l in C3.
  pose proof (norm_nonneg (vsub r v)). pose proof (norm_nonneg r). pose proof (norm_nonneg t). pose proof (norm_nonneg (vsub t e)).
  pose proof (Rabs_triang (dot (vsub r v) t) (dot v (vsub t e))) as T1. pose proof (Rabs_triang 1 (dot r t)) as T2. rewrite Rabs_R1 in T2.
  assert (B1 : norm r * norm t <= 1.001 * 9e-6) by (apply Rmult_le_compat; assumption).
  assert (B2 : norm (vsub r v) * norm t <= 9e-6 * D) by nra.
  assert (B3 : Rabs (1 + dot r t) * norm (vsub r v) <= 1.00001 * D) by (apply Rmult_le_compat; try assumption; [apply Rabs_pos|lra]).
  lra.
Qed.
Lemma subet_by lm k (x y z : double) a b c : libm_ok lm k -> 0 <= k <= 1e-6 -> value64 x a -> value64 y b -> value64 z c -> 1000 <= c <= 3000 ->
  let v := dcs2c (N := B64 lm) (Sph (N := B64 lm) x y) in let et := etrms (N := B64 lm) z in
  by64 (sub_vec (N := B64 lm) (v0 v) (v1 v) (v2 v) (v0 et) (v1 et) (v2 et)) (subtracted (direction a b) (e_terms c)) (3.0002 * k + 7.2 * u64).
Proof.
  intros L K X Y Z C v et. destruct (start64 lm k x y a b L X Y) as (r & (R0 & R1 & R2) & ER).
  destruct (etrms64 lm k z c L K Z C) as (t & (T0 & T1 & T2) & ET). fold v in R0, R1, R2. fold et in T0, T1, T2.
  pose proof (e_terms_small c C) as ES. pose proof (norm_direction a b) as N0. pose proof u64_num as U.
  pose proof (norm_lip r (direction a b)) as N1. pose proof (norm_lip t (e_terms c)) as N2. apply Rabs_le_inv in N1, N2.
  assert (NR : norm r <= 1.001) by (rewrite U in *; lra). assert (NT : norm t <= 9e-6) by lra.
  destruct (comp_norm r) as (A0 & A1 & A2). destruct (comp_norm t) as (B0 & B1 & B2).
  destruct (sub_vec64 lm _ _ _ _ _ _ _ _ _ _ _ _ R0 R1 R2 T0 T1 T2) as ((w0 & F0 & E0) & (w1 & F1 & E1) & (w2 & F2 & E2)); try lra.
  rewrite sub_vec_R in E0, E1, E2. exists (V3 w0 w1 w2). split; [split; [exact F0|split; [exact F1|exact F2]]|].
  pose proof (vsub_via (V3 w0 w1 w2) (subtracted r t) (subtracted (direction a b) (e_terms c))) as VV.
  pose proof (subtracted_lip r t _ _ _ _ N0 NR NT ER ET) as LP.
  assert (H1 : norm (vsub (V3 w0 w1 w2) (subtracted r t)) <= 63e-17).
  { apply (norm3 _ 36e-17 36e-17 36e-17); [exact E0|exact E1|exact E2|lra|lra]. }
  rewrite U in *. lra.
Qed.
Lemma subet_lands lm k s z a b c : libm_ok lm k -> 0 <= k <= 1e-6 -> angles64 s a b -> value64 z c -> 1000 <= c <= 3000 ->
  lands k (subet (N := B64 lm) s z) (unit_of (subtracted (direction a b) (e_terms c))) (7.1 * k + 16.2 * u64).
Proof.
  intros L K S Z C. destruct (angles_Sph s a b S) as (x & y & -> & X & Y). pose proof (subet_by lm k x y z a b c L K X Y Z C) as S2.
  destruct (subtracted_norm (direction a b) (e_terms c) (norm_direction a b)) as (G & GU). pose proof (e_terms_small c C) as ES. pose proof (norm_nonneg (e_terms c)). pose proof u64_num as U.
  pose proof (finish_ran lm k _ _ _ L K S2 ltac:(nra) ltac:(rewrite U; lra)) as F. eapply lands_le; [exact F|].
  assert (Q : (3.0002 * k + 7.2 * u64) / norm (subtracted (direction a b) (e_terms c)) <= 3.0002 * k + 7.2 * u64).
  { apply (Rmult_le_reg_r (norm (subtracted (direction a b) (e_terms c)))); [lra|]. unfold Rdiv. rewrite Rmult_assoc, Rinv_l by lra. rewrite U. nra. }
  rewrite U in *. lra.
Qed.
(** Both conversions move nearby directions together. *)
Lemma div_1 d n : 0 <= d -> 0.999 <= n -> d / n <= 1.0011 * d.
Proof. intros D N. apply (Rmult_le_reg_r n); [lra|]. unfold Rdiv. rewrite Rmult_assoc, Rinv_l by lra. nra. Qed.
Lemma add_lip2 v w e d : norm w = 1 -> norm e <= 2e-6 -> vdist v w <= d -> d <= 0.9 -> vdist (unit_of (vadd v e)) (unit_of (vadd w e)) <= 2.01 * d.
Proof.
  intros W E D B. destruct (norm_vsub_ge w e) as (_ & G).
  assert (X : vdist (vadd v e) (vadd w e) = vdist v w) by (unfold vdist; f_equal; unfold vsub, vadd; cbn [v0 v1 v2]; f_equal; ring).
  pose proof (norm_nonneg (vsub v w)) as P. fold (vdist v w) in P.
  eapply Rle_trans; [apply unit_of_lip|]; [apply norm_nz; lra | rewrite X; lra|]. rewrite X. pose proof (div_1 (vdist v w) (norm (vadd w e)) P ltac:(lra)). lra.
Qed.
Lemma sub_lip v w e d : norm w = 1 -> norm e <= 2e-6 -> vdist v w <= d -> d <= 1e-3 -> vdist (unit_of (subtracted v e)) (unit_of (subtracted w e)) <= 2.01 * d.
Proof.
  intros W E D B. destruct (subtracted_norm w e W) as (G & _). pose proof (norm_lip v w) as NL. apply Rabs_le_inv in NL. unfold vdist in D.
  assert (Z : norm (vsub e e) <= 0).
  { apply Req_le. unfold norm, dot, vsub. cbn [v0 v1 v2]. rewrite !Rminus_diag_eq by reflexivity. replace (0 * 0 + 0 * 0 + 0 * 0) with 0 by ring. apply sqrt_0. }
  pose proof (subtracted_lip v e w e d 0 W ltac:(lra) ltac:(lra) D Z) as LP. fold (vdist (subtracted v e) (subtracted w e)) in LP.
  pose proof (norm_nonneg (vsub (subtracted v e) (subtracted w e))) as P. fold (vdist (subtracted v e) (subtracted w e)) in P.
  eapply Rle_trans; [apply unit_of_lip|]; [apply norm_nz; lra | lra|]. pose proof (div_1 _ (norm (subtracted w e)) P ltac:(lra)). lra.
Qed.
Lemma add_unit w e : norm w = 1 -> norm e <= 2e-6 -> norm (unit_of (vadd w e)) = 1.
Proof. intros W E. destruct (norm_vsub_ge w e) as (_ & G). apply norm_unit_of, norm_nz. lra. Qed.
Lemma sub_unit w e : norm w = 1 -> norm (unit_of (subtracted w e)) = 1.
Proof. intros W. destruct (subtracted_norm w e W) as (G & _). apply norm_unit_of, norm_nz. lra. Qed.
Lemma et_both_lands lm k s z a b c : libm_ok lm k -> 0 <= k <= 1e-6 -> angles64 s a b -> value64 z c -> 1000 <= c <= 3000 ->
  lands k (subet (N := B64 lm) (addet (N := B64 lm) s z) z) (direction a b) (22 * k + 42 * u64) /\
  lands k (addet (N := B64 lm) (subet (N := B64 lm) s z) z) (direction a b) (22 * k + 46 * u64).
Proof.
  intros L K S Z C. pose proof (norm_direction a b) as N0. pose proof (e_terms_small c C) as ES. pose proof (norm_nonneg (e_terms c)) as EP. pose proof u64_num as U.
  assert (E3 : 2 * norm (e_terms c) ^ 3 <= 2e-17) by (assert (norm (e_terms c) ^ 3 <= (2e-6) ^ 3) by (apply pow_incr; lra); lra).
  split.
  - destruct (addet_lands lm k s z a b c L K S Z C) as (p & q & A & _ & _ & D). pose proof (subet_lands lm k _ z p q c L K A Z C) as F.
    pose proof (sub_lip _ _ _ _ (add_unit _ _ N0 ES) ES D ltac:(rewrite U; lra)) as LP. pose proof (et_round1 (direction a b) (e_terms c) N0 ltac:(lra)) as RT.
    eapply lands_le; [exact (lands_via _ _ _ _ _ _ (lands_via _ _ _ _ _ _ F LP) RT)|]. rewrite U in *. lra.
  - destruct (subet_lands lm k s z a b c L K S Z C) as (p & q & A & _ & _ & D). pose proof (addet_lands lm k _ z p q c L K A Z C) as F.
    pose proof (add_lip2 _ _ _ _ (sub_unit _ (e_terms c) N0) ES D ltac:(rewrite U; lra)) as LP. pose proof (et_round2 (direction a b) (e_terms c) N0 ltac:(lra)) as RT.
    eapply lands_le; [exact (lands_via _ _ _ _ _ _ (lands_via _ _ _ _ _ _ F LP) RT)|]. rewrite U in *. lra.
Qed.

(** ** [eg50] and [ge50] *)
Lemma rotation_dist m v w : rotation m -> vdist (mapply m v) (mapply m w) = vdist v w.
Proof. intros M. unfold vdist. rewrite <- (rotation_norm m (vsub v w) M). f_equal. unfold mapply, vsub, dot. cbn [v0 v1 v2]. f_equal; ring. Qed.
Lemma conv_again lm k (s : sph (B64 lm)) w e : 0 <= k <= 1e-6 -> lands k s w e -> lands k (conv_range (N := B64 lm) s) w (e + 2.5 * u64).
Proof.
  intros K (p & q & (P & Q) & RP & RQ & D). pose proof L_Pi.PI_bounds as PB. assert (PD : pi_double <= PI <= pi_double + 1.3e-16) by (unfold pi_double; lra).
  destruct (L_Binary.dranrm64 lm _ p P) as (j & c & FC & RC & EQ & J & _). destruct (EQ (proj1 RP)) as (EC & LC).
  assert (EB : s_b (conv_range (N := B64 lm) s) = s_b s) by (cbn [conv_range s_b]; apply (L_Binary.drange64_id lm (s_b s) q Q); assert (3.1 <= pi_double) by (unfold pi_double; lra); lra).
  assert (P3 : 3.1 <= pi_double <= 3.2) by (unfold pi_double; lra).
  assert (J1 : (-1 < j)%Z) by (apply lt_IZR; nra). assert (J2 : (j < 2)%Z) by (apply lt_IZR; nra).
  exists c, q. split; [split; [exact FC|rewrite EB; exact Q]|]. split; [exact RC|]. split; [exact RQ|].
  assert (X : vdist (direction c q) (direction p q) <= 2.5 * u64).
  { assert (JC : j = 0%Z \/ j = 1%Z) by lia. destruct JC as [-> | ->].
    - replace c with p by lra. unfold vdist. eapply Rle_trans; [apply norm_dir_lon|]. rewrite Rminus_diag_eq, Rabs_R0 by reflexivity. rewrite u64_num. lra.
    - replace (direction p q) with (direction (p - 2 * PI) q).
      + unfold vdist. eapply Rle_trans; [apply norm_dir_lon|]. rewrite u64_num. apply Rabs_le. lra.
      + unfold direction. pose proof (cos_period (p - 2 * PI) 1) as C1. pose proof (sin_period (p - 2 * PI) 1) as S1. cbn [INR] in C1, S1. rewrite Rmult_1_r in C1, S1.
        replace (p - 2 * PI + 2 * PI) with p in C1, S1 by ring. now rewrite <- C1, <- S1. }
  pose proof (vsub_via (direction c q) (direction p q) w) as V. unfold vdist in *. lra.
Qed.
Lemma value64_1950 lm : value64 (n_ofZ (n := B64 lm) 1950) 1950.
Proof. apply (int64 1950); lia. Qed.
Notation GB := galactic_frame_B1950.
Lemma GB_rotation : rotation GB. Proof. apply pole_frame_rotation. Qed.
Lemma eg50_lands lm k s a b : libm_ok lm k -> 0 <= k <= 1e-6 -> angles64 s a b ->
  lands k (eg50 (N := B64 lm) s) (mapply GB (unit_of (subtracted (direction a b) (e_terms 1950)))) (1e-10 + 14.2 * k + 36.2 * u64).
Proof.
  intros L K S. destruct (subet_lands lm k s _ a b 1950 L K S (value64_1950 lm) ltac:(lra)) as (p & q & A & _ & _ & D).
  destruct (gal_mats64 lm k L K) as (_ & _ & M). destruct (angles_Sph _ p q A) as (x & y & E & X & Y).
  destruct (through64 lm k _ _ GB x y p q L K M (mnear_weak _ _ _ 1e-7 L_Gal.gal50_near ltac:(lra)) GB_rotation X Y) as ((c & d & C1 & D1 & RC & RD & DD) & _). cbv zeta in *.
  destruct (L_FrameGal.sph_matrix (gal50_mat (N := RNum)) GB (direction p q) 1e-12 L_Gal.gal50_near GB_rotation (norm_direction p q) ltac:(lra)) as (_ & _ & _ & D2).
  cbv zeta in D2. unfold eg50. rewrite E.
  eapply lands_le.
  - refine (lands_via k _ _ _ _ _ (lands_via k _ _ _ _ _ _ D2) (_ : vdist _ (mapply GB (unit_of (subtracted (direction a b) (e_terms 1950)))) <= _)).
    + exists c, d. split; [split; [exact C1|exact D1]|]. split; [exact RC|]. split; [exact RD|]. exact DD.
    + rewrite (rotation_dist GB _ _ GB_rotation). exact D.
  - lra.
Qed.
Lemma ge50_lands lm k s a b : libm_ok lm k -> 0 <= k <= 1e-6 -> angles64 s a b ->
  lands k (ge50 (N := B64 lm) s) (unit_of (vadd (mapply (transpose GB) (direction a b)) (e_terms 1950))) (1e-10 + 22 * k + 42 * u64).
Proof.
  intros L K S. destruct (angles_Sph s a b S) as (x & y & -> & X & Y). pose proof u64_num as U. pose proof (norm_direction a b) as N0.
  pose proof (start64 lm k x y a b L X Y) as S0. set (v := dcs2c (N := B64 lm) (Sph (N := B64 lm) x y)) in *.
  destruct (gal_mats64 lm k L K) as (_ & _ & MF). destruct (mfin64 _ _ _ MF) as (A & FA & EA).
  pose proof L_Gal.gal50_near as MN. pose proof (mnear_fnorm _ _ _ MN) as EM. pose proof (msub_via A (gal50_mat (N := RNum)) GB) as EG.
  pose proof (back64 lm _ v A GB _ _ _ _ _ FA GB_rotation (Rle_trans _ _ 1e-4 EG ltac:(lra)) ltac:(lra) EA S0 ltac:(lra) ltac:(rewrite U; lra)) as S1.
  pose proof (L_FrameGal.mnear_transpose _ _ _ MN) as MT. pose proof (rotation_transpose _ GB_rotation) as GT.
  destruct (L_FrameGal.sph_matrix (transpose (gal50_mat (N := RNum))) (transpose GB) (direction a b) 1e-12 MT GT N0 ltac:(lra)) as (_ & D & _ & DG). cbv zeta in D, DG. rewrite D in DG.
  set (w := mapply (transpose (gal50_mat (N := RNum))) (direction a b)) in *.
  pose proof (mnear_apply _ _ _ _ MT N0) as NM. unfold vdist in NM. fold w in NM.
  pose proof (norm_lip (mapply (transpose GB) (direction a b)) w) as NL. rewrite (rotation_norm _ _ GT), N0 in NL. apply Rabs_le_inv in NL.
  destruct (ends64 lm k _ _ _ L S1 ltac:(lra) ltac:(rewrite U; lra)) as (t & c & FT & FC & _ & _ & DE).
  match type of DE with context [?e / norm w] => pose proof (div_1 e (norm w) ltac:(rewrite U; lra) ltac:(lra)) as Q end.
  assert (DW : vdist (direction t c) (mapply (transpose GB) (direction a b)) <= 7.1 * k + 13.4 * u64 + 8e-12).
  { pose proof (vsub_via (direction t c) (unit_of w) (mapply (transpose GB) (direction a b))). unfold vdist in *. rewrite U in *. lra. }
  pose proof (addet_lands lm k _ _ t c 1950 L K (conj FT FC) (value64_1950 lm) ltac:(lra)) as F.
  pose proof (add_lip2 _ _ (e_terms 1950) _ (eq_trans (rotation_norm _ _ GT) N0) e1950_small DW ltac:(rewrite U; lra)) as LP.
  eapply lands_le; [exact (conv_again lm k _ _ _ K (lands_via _ _ _ _ _ _ F LP))|]. rewrite U. lra.
Qed.
Lemma GB_back v : mapply GB (mapply (transpose GB) v) = v /\ mapply (transpose GB) (mapply GB v) = v.
Proof. destruct (rotation_inv GB v GB_rotation) as (A & B). split; assumption. Qed.
Lemma g50_both_lands lm k s a b : libm_ok lm k -> 0 <= k <= 1e-6 -> angles64 s a b ->
  lands k (ge50 (N := B64 lm) (eg50 (N := B64 lm) s)) (direction a b) (4e-10 + 51 * k + 115 * u64) /\
  lands k (eg50 (N := B64 lm) (ge50 (N := B64 lm) s)) (direction a b) (4e-10 + 59 * k + 121 * u64).
Proof.
  intros L K S. pose proof u64_num as U. pose proof (norm_direction a b) as N0. pose proof e1950_small as ES. pose proof e1950_cube as E3. pose proof (rotation_transpose _ GB_rotation) as GT. split.
  - destruct (eg50_lands lm k s a b L K S) as (p & q & A & _ & _ & D). pose proof (ge50_lands lm k _ p q L K A) as F.
    rewrite <- (rotation_dist _ _ _ GT), (proj2 (GB_back _)) in D.
    pose proof (add_lip2 _ _ (e_terms 1950) _ (sub_unit _ _ N0) ES D ltac:(rewrite U; lra)) as LP. pose proof (et_round2 (direction a b) (e_terms 1950) N0 ltac:(lra)) as RT.
    eapply lands_le; [exact (lands_via _ _ _ _ _ _ (lands_via _ _ _ _ _ _ F LP) RT)|]. rewrite U in *. lra.
  - destruct (ge50_lands lm k s a b L K S) as (p & q & A & _ & _ & D). pose proof (eg50_lands lm k _ p q L K A) as F.
    assert (N1 : norm (mapply (transpose GB) (direction a b)) = 1) by (rewrite (rotation_norm _ _ GT); exact N0).
    pose proof (sub_lip _ _ (e_terms 1950) _ (add_unit _ _ N1 ES) ES D ltac:(rewrite U; lra)) as LP. pose proof (et_round1 _ (e_terms 1950) N1 ltac:(lra)) as RT.
    rewrite <- (rotation_dist _ _ _ GB_rotation) in LP. rewrite <- (rotation_dist _ _ _ GB_rotation) in RT. rewrite (proj1 (GB_back _)) in RT.
    eapply lands_le; [exact (lands_via _ _ _ _ _ _ (lands_via _ _ _ _ _ _ F LP) RT)|]. rewrite U in *. lra.
Qed.
