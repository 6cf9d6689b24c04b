(** Spherical coordinates and separations in binary64. *)
From Coq Require Import ZArith Reals Bool Lia Lra Psatz.
From Flocq Require Import Core BinarySingleNaN Relative.
From Verif Require Import Int32 Num NumB NumR M_Vec M_Sphere S_Geom S_Sphere S_Frame S_Binary S_Float L_Bin L_Flt L_FltVec L_Float.
From Verif Require Import L_Real L_Vec L_Rot L_Frame L_Sphere L_FloatVec L_FloatMat L_FltGeo.
From Verif Require L_FrameGal.
Open Scope R_scope.

(** ** Signs *)
Section Sign.
Context (prec emax : Z) {Hp : Prec_gt_0 prec} {Hm : Prec_lt_emax prec emax}.
Notation bf := (binary_float prec emax).
Lemma sign_pos (x : bf) : Bsign x = false -> 0 <= B2R x.
Proof.
  destruct x as [[]|[]| |[] m e H]; cbn; intros S; try discriminate; try lra. apply F2R_ge_0. cbn. lia.
Qed.
Lemma plus_fin (x y : bf) : is_finite (Bplus mode_NE x y) = true -> is_finite x = true /\ is_finite y = true.
Proof.
  destruct x as [[]|[]| |[] m e H], y as [[]|[]| |[] n f G]; cbn; intros F; auto; discriminate.
Qed.
Lemma sign_plus (x y : bf) : is_finite (Bplus mode_NE x y) = true -> Bsign x = false -> Bsign y = false -> Bsign (Bplus mode_NE x y) = false.
Proof.
  intros F SX SY. destruct (plus_fin x y F) as (FX & FY). pose proof (Bplus_correct prec emax Hp Hm mode_NE x y FX FY) as C.
  destruct (Rlt_bool _ _).
  - destruct C as (_ & _ & C). rewrite C, SX, SY. pose proof (sign_pos x SX). pose proof (sign_pos y SY).
    destruct (Rcompare_spec (B2R x + B2R y) 0); [lra|reflexivity|reflexivity].
  - destruct C as (C & _). rewrite SX in C. destruct (Bplus mode_NE x y) as [[]|[]| |[] m e H]; try reflexivity; try discriminate F; try discriminate C.
Qed.
Lemma sign_sq (x : bf) : is_finite (Bmult mode_NE x x) = true -> Bsign (Bmult mode_NE x x) = false.
Proof.
  intros F. pose proof (Bmult_correct prec emax Hp Hm mode_NE x x) as C. destruct (Rlt_bool _ _).
  - destruct C as (_ & _ & C). rewrite C; [apply xorb_nilpotent|]. destruct (Bmult mode_NE x x); try reflexivity; discriminate F.
  - rewrite xorb_nilpotent in C. destruct (Bmult mode_NE x x) as [[]|[]| |[] m e H]; try reflexivity; try discriminate F; discriminate C.
Qed.
Lemma sign_sqrt (x : bf) : is_finite (Bsqrt mode_NE x) = true -> Bsign (Bsqrt mode_NE x) = Bsign x.
Proof.
  intros F. destruct (Bsqrt_correct prec emax Hp Hm mode_NE x) as (_ & _ & C). apply C. destruct (Bsqrt mode_NE x); try reflexivity; discriminate F.
Qed.
End Sign.

Lemma sum2 prec emax {Hp : Prec_gt_0 prec} {Hm : Prec_lt_emax prec emax} x0 x1 p0 p1 :
  u prec <= / 16777216 -> eta prec emax <= / 1000 * u prec -> 1000 <= huge emax ->
  near prec emax x0 p0 (u prec * Rabs p0 + eta prec emax) -> near prec emax x1 p1 (u prec * Rabs p1 + eta prec emax) -> Rabs p0 + Rabs p1 <= huge emax / 2 ->
  near prec emax (Bplus mode_NE x0 x1) (p0 + p1) (2.001 * u prec * (Rabs p0 + Rabs p1) + 4 * eta prec emax).
Proof.
  intros Hu He Hh X0 X1 H. pose proof (u_pos prec) as U0. pose proof (eta_pos prec emax) as E0.
  pose proof (small_u prec Hu (Rabs p0) (Rabs_pos _)) as (A0 & A1 & A2). pose proof (small_u prec Hu (Rabs p1) (Rabs_pos _)) as (B0 & B1 & B2).
  pose proof (Rabs_pos p0). pose proof (Rabs_pos p1).
  assert (UP : forall P, 0 <= P -> u prec * P <= / 16777216 * P) by (intros; nra).
  pose proof (UP _ H0). pose proof (UP _ H1). pose proof (UP (eta prec emax) ltac:(lra)).
  pose proof (Rabs_triang p0 p1) as T.
  assert (S1 := near_add prec emax _ _ _ _ _ _ (Rabs p0 + Rabs p1) X0 X1 T ltac:(lra)).
  eapply near_weak; [exact S1|]. lra.
Qed.

(** ** Square roots of sums of squares *)
Lemma q150 : 1e-150 * 1e-150 = 1e-300.
Proof.
  change 1e-300 with (1 / IZR (10 ^ 300)). change 1e-150 with (1 / IZR (10 ^ 150)).
  replace (IZR (10 ^ 300)) with (IZR (10 ^ 150) * IZR (10 ^ 150)) by (rewrite <- mult_IZR; apply f_equal; reflexivity).
  assert (0 < IZR (10 ^ 150)) by (apply IZR_lt; reflexivity). field. lra.
Qed.
Lemma p150 : 0 < 1e-150.
Proof. change 1e-150 with (1 / IZR (10 ^ 150)). apply Rdiv_lt_0_compat; [lra|apply IZR_lt; reflexivity]. Qed.
Lemma inv_le (m n : Z) : (0 < n)%Z -> (n <=? m = true)%Z -> 1 / IZR m <= 1 / IZR n.
Proof.
  intros P H. apply Z.leb_le in H. unfold Rdiv. rewrite !Rmult_1_l. apply Rinv_le_contravar; [now apply IZR_lt|now apply IZR_le].
Qed.
Lemma small_321 : 1e-321 <= 1e-20 * 1e-300.
Proof.
  change 1e-321 with (1 / IZR (10 ^ 321)). change 1e-300 with (1 / IZR (10 ^ 300)). change 1e-20 with (1 / IZR (10 ^ 20)).
  replace (1 / IZR (10 ^ 20) * (1 / IZR (10 ^ 300))) with (1 / IZR (10 ^ 320)).
  - apply inv_le; [reflexivity|vm_compute; reflexivity].
  - replace (10 ^ 320)%Z with (10 ^ 20 * 10 ^ 300)%Z by reflexivity. rewrite mult_IZR.
    assert (0 < IZR (10 ^ 300)) by (apply IZR_lt; reflexivity). assert (0 < IZR (10 ^ 20)) by (apply IZR_lt; reflexivity). field. lra.
Qed.
Lemma eta_150 : eta 53 1024 <= 1e-150 / 1000.
Proof.
  pose proof eta64. assert (1e-323 <= 1e-150 / 1000); [|pose proof (eta_pos 53 1024); lra].
  replace (1e-150 / 1000) with (1 / IZR (10 ^ 153)).
  - change 1e-323 with (1 / IZR (10 ^ 323)). apply inv_le; [reflexivity|vm_compute; reflexivity].
  - change 1e-150 with (1 / IZR (10 ^ 150)). replace (10 ^ 153)%Z with (10 ^ 150 * 1000)%Z by reflexivity. rewrite mult_IZR.
    assert (0 < IZR (10 ^ 150)) by (apply IZR_lt; reflexivity). field. lra.
Qed.
Lemma root64 (z : double) s Q : value64 z s -> Bsign z = false -> 0 <= Q -> Rabs (s - Q) <= 3.001 * u64 * Q + 1e-321 ->
  exists m, value64 (Bsqrt mode_NE z) m /\ Bsign (Bsqrt mode_NE z) = false /\ 0 <= m /\ Rabs (m - sqrt Q) <= 2.51 * u64 * sqrt Q + 2 * 1e-150.
Proof.
  intros F SG HQ E. assert (S0 : 0 <= s) by (destruct F as (_ & <-); now apply sign_pos).
  pose proof (fin_sqrt 53 1024 z s F S0) as FM. exists (rnd 53 1024 (sqrt s)). split; [exact FM|]. destruct FM as (FF & FV).
  assert (SM : Bsign (Bsqrt mode_NE z) = false) by (rewrite sign_sqrt; assumption).
  split; [exact SM|]. split; [rewrite <- FV; now apply sign_pos|].
  pose proof (rnd_err 53 1024 (sqrt s)) as RE. rewrite u64_eq in RE. rewrite (Rabs_pos_eq (sqrt s)) in RE by apply sqrt_pos.
  pose proof eta_150 as H1. pose proof small_321 as H2. pose proof q150 as H3. pose proof p150 as H4.
  assert (U : 0 < u64 <= 1e-15) by (rewrite u64_num; lra). assert (U2 : 1e-17 <= u64) by (rewrite u64_num; lra).
  assert (U3 : u64 * u64 <= 1e-15 * u64) by nra.
  set (e := 1e-150) in *. set (q := 1e-300) in *. set (t := 1e-321) in *. set (h := eta 53 1024) in *. set (v := u64) in *.
  assert (Q0 : 0 < q) by (rewrite <- H3; nra).
  apply Rabs_le_inv in RE. destruct (Rle_or_lt q Q) as [G|G].
  - assert (P : 0 < Q) by lra.
    assert (D : Rabs (s - Q) <= 3.002 * v * Q) by (assert (t <= 0.001 * v * Q) by nra; lra).
    pose proof (sqrt_rel Q s (3.002 * v) P ltac:(lra) D) as R. pose proof (sqrt_pos Q). set (n := sqrt Q) in *. set (m := sqrt s) in *.
    assert (B : (3.002 * v / 2 + 3.002 * v * (3.002 * v)) * n <= 1.5011 * v * n) by nra.
    apply Rabs_le_inv in R. assert (v * m <= 1.0001 * v * n) by nra. apply Rabs_le. lra.
  - assert (N1 : sqrt Q <= e). { rewrite <- (sqrt_square e) by lra. apply sqrt_le_1_alt. lra. }
    assert (N2 : sqrt s <= 1.01 * e).
    { rewrite <- (sqrt_square (1.01 * e)) by lra. apply sqrt_le_1_alt. apply Rabs_le_inv in E. assert (v * Q <= 1e-15 * q) by nra. nra. }
    pose proof (sqrt_pos Q). pose proof (sqrt_pos s). set (n := sqrt Q) in *. set (m := sqrt s) in *.
    assert (0 <= v * m <= 0.01 * e) by nra. assert (0 <= v * n) by nra. apply Rabs_le. lra.
Qed.

Lemma low321 : 6 * eta 53 1024 <= 1e-321.
Proof.
  pose proof low64. pose proof t322 as (A & _). assert (1e-321 = 10 * 1e-322); [|lra].
  change 1e-322 with (1 / IZR (10 ^ 322)). change 1e-321 with (1 / IZR (10 ^ 321)).
  replace (10 ^ 322)%Z with (10 * 10 ^ 321)%Z by reflexivity. rewrite mult_IZR.
  assert (0 < IZR (10 ^ 321)) by (apply IZR_lt; reflexivity). field. lra.
Qed.
Lemma modulus64 lm x a : vec64 x a -> within 1e150 a ->
  exists m, value64 (snd (dvn (N := B64 lm) x)) m /\ Bsign (snd (dvn (N := B64 lm) x)) = false /\ 0 <= m /\
    Rabs (m - norm a) <= 2.51 * u64 * norm a + 2 * 1e-150.
Proof.
  intros X W. pose proof (adot_within _ _ _ _ W W) as AW. pose proof room64 as RM.
  destruct (acc3_near 53 1024 lm Hu64 He64 Hh64 x x a a X X ltac:(lra)) as (s & FS & ES).
  change (snd (dvn (N := B64 lm) x)) with (Bsqrt mode_NE (acc3 (N := B64 lm) x x)). 
  assert (AD : adot a a = dot a a) by (unfold adot, dot; rewrite !Rabs_pos_eq by apply Rle_0_sqr; reflexivity).
  rewrite AD, u64_eq in ES. pose proof low321.
  apply (root64 _ s (dot a a)); [exact FS| |unfold dot; nra|lra].
  destruct FS as (FF & _). change (is_finite (Bplus mode_NE (Bplus mode_NE (Bplus mode_NE (n_ofZ (n := B64 lm) 0) (Bmult mode_NE (v0 x) (v0 x))) (Bmult mode_NE (v1 x) (v1 x))) (Bmult mode_NE (v2 x) (v2 x))) = true) in FF.
  change (Bsign (Bplus mode_NE (Bplus mode_NE (Bplus mode_NE (n_ofZ (n := B64 lm) 0) (Bmult mode_NE (v0 x) (v0 x))) (Bmult mode_NE (v1 x) (v1 x))) (Bmult mode_NE (v2 x) (v2 x))) = false).
  destruct (plus_fin _ _ _ _ FF) as (F2 & G2). destruct (plus_fin _ _ _ _ F2) as (F1 & G1). destruct (plus_fin _ _ _ _ F1) as (F0 & G0).
  repeat (apply sign_plus; [assumption| |now apply sign_sq]). reflexivity.
Qed.

(** ** dcs2c *)
Lemma near_eq prec emax {Hp : Prec_gt_0 prec} {Hm : Prec_lt_emax prec emax} x a : near prec emax x a 0 -> fin prec emax x a.
Proof. intros (r & F & E). assert (r = a) by (apply Rabs_le_inv in E; lra). subst. exact F. Qed.
Lemma prod_err p q c d k : Rabs q <= 1 -> Rabs c <= 1 -> Rabs (p - c) <= k -> Rabs (q - d) <= k -> Rabs (p * q - c * d) <= 2 * k.
Proof.
  intros Q C P E. replace (p * q - c * d) with ((p - c) * q + c * (q - d)) by ring.
  eapply Rle_trans; [apply Rabs_triang|]. rewrite !Rabs_mult. pose proof (Rabs_pos (p - c)). pose proof (Rabs_pos (q - d)).
  pose proof (Rabs_pos q). pose proof (Rabs_pos c). nra.
Qed.
Lemma mul1_64 (x y : double) p q : value64 x p -> value64 y q -> Rabs p <= 1 -> Rabs q <= 1 ->
  exists r, value64 (Bmult mode_NE x y) r /\ Rabs (r - p * q) <= 1.001 * u64.
Proof.
  intros X Y P Q. assert (B : Rabs (p * q) <= 1) by (rewrite Rabs_mult; pose proof (Rabs_pos p); pose proof (Rabs_pos q); nra).
  pose proof Hh64. destruct (near_mul0 53 1024 x y p q 1 X Y B ltac:(lra)) as (r & F & E). exists r. split; [exact F|].
  rewrite u64_eq in E. pose proof He64 as H0. rewrite u64_eq in H0. lra.
Qed.
Lemma norm_sides (w : RV) e k : 0 <= e -> Rabs (v0 w) <= 2 * k + e -> Rabs (v1 w) <= 2 * k + e -> Rabs (v2 w) <= k -> norm w <= 3 * k + 1.42 * e.
Proof.
  intros E A B C. pose proof (Rabs_pos (v0 w)). pose proof (Rabs_pos (v2 w)).
  apply Rle_trans with (norm (V3 (2 * k + e) (2 * k + e) k)); [now apply norm_mono|].
  unfold norm. rewrite <- (sqrt_square (3 * k + 1.42 * e)) by lra. apply sqrt_le_1_alt. unfold dot. cbn [v0 v1 v2]. nra.
Qed.
Lemma cos_abs1 a : Rabs (cos a) <= 1. Proof. apply Rabs_le. pose proof (COS_bound a). lra. Qed.
Lemma sin_abs1 a : Rabs (sin a) <= 1. Proof. apply Rabs_le. pose proof (SIN_bound a). lra. Qed.
Lemma dcs2c64 lm k x y a b : libm_ok lm k -> value64 x a -> value64 y b ->
  exists r, vec64 (dcs2c (N := B64 lm) (Sph (N := B64 lm) x y)) r /\ norm (vsub r (direction a b)) <= 3 * k + 1.5 * u64.
Proof.
  intros (LS & LC & _) X Y.
  destruct (LC x a X) as (ca & FCA & CA1 & ECA). destruct (LS x a X) as (sa & FSA & SA1 & ESA).
  destruct (LC y b Y) as (cb & FCB & CB1 & ECB). destruct (LS y b Y) as (sb & FSB & SB1 & ESB).
  destruct (mul1_64 _ _ _ _ FCA FCB CA1 CB1) as (p & FP & EP). destruct (mul1_64 _ _ _ _ FSA FCB SA1 CB1) as (q & FQ & EQ).
  exists (V3 p q sb). split; [split; [exact FP|split; [exact FQ|exact FSB]]|].
  assert (0 < u64) by apply u64_pos.
  eapply Rle_trans; [apply (norm_sides _ (1.001 * u64) k); [lra|..]|lra]; cbn [vsub direction v0 v1 v2].
  - pose proof (prod_err ca cb (cos a) (cos b) k CB1 (cos_abs1 a) ECA ECB) as H0.
    replace (p - cos a * cos b) with ((p - ca * cb) + (ca * cb - cos a * cos b)) by ring.
    eapply Rle_trans; [apply Rabs_triang|lra].
  - pose proof (prod_err sa cb (sin a) (cos b) k CB1 (sin_abs1 a) ESA ECB) as H0.
    replace (q - sin a * cos b) with ((q - sa * cb) + (sa * cb - sin a * cos b)) by ring.
    eapply Rle_trans; [apply Rabs_triang|lra].
  - exact ESB.
Qed.

(** ** dcc2s *)
Lemma hyp64 (x y : double) a b : value64 x a -> value64 y b -> Rabs a <= 1e150 -> Rabs b <= 1e150 ->
  let r := Bsqrt mode_NE (Bplus mode_NE (Bmult mode_NE x x) (Bmult mode_NE y y)) in
  exists m, value64 r m /\ 0 <= m /\ Rabs (m - hyp a b) <= 2.51 * u64 * hyp a b + 2 * 1e-150.
Proof.
  intros X Y A B r. pose proof room64 as RM. pose proof (prod_within _ _ _ _ A A). pose proof (prod_within _ _ _ _ B B).
  assert (0 <= 1e150 * 1e150) by nra. pose proof Hh64.
  pose proof (near_mul0 53 1024 x x a a _ X X (Rle_refl _) ltac:(lra)) as P. pose proof (near_mul0 53 1024 y y b b _ Y Y (Rle_refl _) ltac:(lra)) as Q.
  destruct (sum2 53 1024 _ _ _ _ Hu64 He64 Hh64 P Q ltac:(lra)) as (s & FS & ES).
  rewrite (Rabs_pos_eq (a * a)), (Rabs_pos_eq (b * b)) in ES by apply Rle_0_sqr. rewrite u64_eq in ES. pose proof low321. pose proof (eta_pos 53 1024).
  assert (SQ : 0 <= a * a + b * b) by nra. pose proof u64_pos.
  assert (SG : Bsign (Bplus mode_NE (Bmult mode_NE x x) (Bmult mode_NE y y)) = false).
  { destruct FS as (FF & _). destruct (plus_fin _ _ _ _ FF) as (F0 & G0). apply sign_plus; [exact FF|now apply sign_sq|now apply sign_sq]. }
  destruct (root64 _ s (a * a + b * b) FS SG SQ ltac:(nra)) as (m & FM & _ & M0 & EM). exists m. split; [exact FM|]. split; [exact M0|exact EM].
Qed.
Lemma fin_eqb (x y : double) a b : value64 x a -> value64 y b -> Beqb x y = Req_bool a b.
Proof.
  intros (FX & <-) (FY & <-). exact (Beqb_correct 53 1024 x y FX FY).
Qed.

Lemma hyp_lip_polar a b m : norm (vsub (V3 (m * cos (Ratan2 b a)) (m * sin (Ratan2 b a)) 0) (V3 a b 0)) = Rabs (m - hyp a b).
Proof.
  destruct (atan2_cos_sin b a) as (C & S). set (t := Ratan2 b a) in *. set (h := hyp a b) in *.
  unfold norm, dot, vsub. cbn [v0 v1 v2]. rewrite <- C, <- S. pose proof (sin2_cos2 t) as SC. unfold Rsqr in SC.
  replace ((m * cos t - h * cos t) * (m * cos t - h * cos t) + (m * sin t - h * sin t) * (m * sin t - h * sin t) + (0 - 0) * (0 - 0))
    with ((m - h) * (m - h) * (sin t * sin t + cos t * cos t)) by ring.
  rewrite SC, Rmult_1_r. apply (sqrt_Rsqr_abs (m - h)).
Qed.
Lemma direction_polar m z t : 0 <= m -> (m <> 0 \/ z <> 0) ->
  direction t (Ratan2 z m) = unit_of (V3 (m * cos t) (m * sin t) z).
Proof.
  intros M NZ. destruct (atan2_cos_sin z m) as (C & S). pose proof (hyp_pos m z NZ) as H.
  assert (E : norm (V3 (m * cos t) (m * sin t) z) = hyp m z).
  { unfold norm, dot, hyp. cbn [v0 v1 v2]. f_equal. pose proof (sin2_cos2 t) as SC. unfold Rsqr in SC.
    replace (m * cos t * (m * cos t) + m * sin t * (m * sin t)) with (m * m * (sin t * sin t + cos t * cos t)) by ring. rewrite SC. ring. }
  unfold unit_of. rewrite E. unfold direction, scale. cbn [v0 v1 v2].
  set (h := hyp m z) in *. set (b := Ratan2 z m) in *.
  apply vec_eq; cbn [v0 v1 v2]; [rewrite <- C|rewrite <- C|rewrite <- S]; field; lra.
Qed.
Lemma direction_turn b : direction (- PI) b = direction PI b.
Proof. unfold direction. now rewrite cos_neg, sin_neg, sin_PI, Ropp_0. Qed.

Lemma within_norm a b : within b a -> norm a <= 2 * b.
Proof.
  intros W. pose proof (norm_room _ _ W) as R. destruct W as (W & _). pose proof (Rabs_pos (v0 a)).
  unfold norm. rewrite <- (sqrt_square (2 * b)) by lra. apply sqrt_le_1_alt. nra.
Qed.
Lemma hyp_le_norm (a : RV) : hyp (v0 a) (v1 a) <= norm a.
Proof. unfold hyp, norm, dot. apply sqrt_le_1_alt. nra. Qed.
Lemma tiny_rel n : 1e-130 <= n -> 2 * 1e-150 <= 1e-3 * u64 * n.
Proof.
  intros H. rewrite u64_num. assert (1e-150 = 1e-20 * 1e-130); [|lra].
  change 1e-150 with (1 / IZR (10 ^ 150)). change 1e-130 with (1 / IZR (10 ^ 130)). change 1e-20 with (1 / IZR (10 ^ 20)).
  replace (10 ^ 150)%Z with (10 ^ 20 * 10 ^ 130)%Z by reflexivity. rewrite mult_IZR.
  assert (0 < IZR (10 ^ 130)) by (apply IZR_lt; reflexivity). assert (0 < IZR (10 ^ 20)) by (apply IZR_lt; reflexivity). field. lra.
Qed.
Lemma p130 : 0 < 1e-130.
Proof. change 1e-130 with (1 / IZR (10 ^ 130)). apply Rdiv_lt_0_compat; [lra|apply IZR_lt; reflexivity]. Qed.

Lemma dcc2s64 lm k x a : libm_ok lm k -> vec64 x a -> within 1e150 a -> 1e-130 <= norm a ->
  exists t b, value64 (s_a (dcc2s (N := B64 lm) x)) t /\ value64 (s_b (dcc2s (N := B64 lm) x)) b /\
    Rabs t <= PI + 2 * k /\ Rabs b <= PI / 2 + 2 * k /\ norm (vsub (direction t b) (unit_of a)) <= 4 * k + 2.6 * u64.
Proof.
  intros (_ & _ & LA) (X0 & X1 & X2) (W0 & W1 & W2) NA.
  destruct (hyp64 _ _ _ _ X0 X1 W0 W1) as (m & FM & M0 & EM). set (rr := Bsqrt mode_NE _) in FM.
  pose proof (hyp_le_norm a) as HN. pose proof (hyp_nonneg (v0 a) (v1 a)) as H0. pose proof (tiny_rel _ NA) as TR. pose proof u64_pos as U.
  pose proof p130. assert (UN : 0 <= u64 * norm a) by nra.
  assert (EM' : Rabs (m - hyp (v0 a) (v1 a)) <= 2.512 * u64 * norm a) by nra.
  assert (K : 0 <= k).
  { destruct (LA (n_ofZ (n := B64 lm) 1) (n_ofZ (n := B64 lm) 1) 1 1) as (t & _ & [E|E]).
    - apply (fin_ofZ 53 1024 1). reflexivity.
    - apply (fin_ofZ 53 1024 1). reflexivity.
    - left. lra.
    - pose proof (Rabs_pos (t - Ratan2 1 1)). lra.
    - lra. }
  set (al := Ratan2 (v1 a) (v0 a)). set (be := Ratan2 (v2 a) m).
  pose proof PI_RGT_0 as PI0.
  (* the exact direction of (m cos al, m sin al, z) is close to that of a *)
  assert (NZ : m <> 0 \/ v2 a <> 0).
  { destruct (Req_dec m 0) as [E|E]; [right|left; exact E]. intros Z. rewrite E in EM'.
    assert (hyp (v0 a) (v1 a) = norm a) by (unfold hyp, norm, dot; f_equal; rewrite Z; ring).
    rewrite H1 in EM'. apply Rabs_le_inv in EM'. rewrite u64_num in EM'. lra. }
  assert (D0 : norm (vsub (direction al be) (unit_of a)) <= 2.6 * u64).
  { unfold be. rewrite (direction_polar m (v2 a) al M0 NZ).
    eapply Rle_trans; [apply (unit_near _ a (2.512 * u64))|rewrite u64_num; lra]; [lra| |rewrite u64_num; lra].
    apply Rle_trans with (2 := EM'). rewrite <- hyp_lip_polar. fold al. apply Req_le. unfold norm, dot, vsub. cbn [v0 v1 v2]. f_equal. ring. }
  (* the latitude *)
  assert (LB : exists b, value64 (s_b (dcc2s (N := B64 lm) x)) b /\ Rabs (b - be) <= 2 * k).
  { assert (QE : n_eqb (v2 x : B64 lm) (n_ofZ 0) = Req_bool (v2 a) 0) by (apply fin_eqb; [exact X2|apply (fin_ofZ 53 1024 0); reflexivity]).
    unfold dcc2s. cbn [s_b]. cbv zeta. match goal with |- context [if ?c then _ else _] => replace c with (Req_bool (v2 a) 0) by (symmetry; exact QE) end. destruct (Req_bool_spec (v2 a) 0) as [E|E].
    - exists 0. split; [apply (fin_ofZ 53 1024 0); reflexivity|]. unfold be. rewrite E.
      assert (MP : 0 < m) by lra.
      replace (Ratan2 0 m) with 0; [rewrite Rminus_0_r, Rabs_R0; lra|]. symmetry. apply (atan2_unique 0 m m 0); [exact MP|rewrite cos_0; ring|rewrite sin_0; ring|lra].
    - destruct (LA (v2 x) rr (v2 a) m X2 FM (or_introl E)) as (b & FB & [EB|EB]); [|lra].
      exists b. split; [exact FB|exact EB]. }
  destruct LB as (b & FB & EB).
  pose proof (atan2_range_pos (v2 a) m M0) as RB. fold be in RB. pose proof (atan2_range (v1 a) (v0 a)) as RA. fold al in RA.
  assert (BB : Rabs b <= PI / 2 + 2 * k) by (apply Rabs_le_inv in EB; apply Rabs_le; lra).
  (* the longitude *)
  assert (LT : exists t, value64 (s_a (dcc2s (N := B64 lm) x)) t /\ Rabs t <= PI + 2 * k /\ norm (vsub (direction t be) (direction al be)) <= 2 * k).
  { assert (QE : n_eqb (rr : B64 lm) (n_ofZ 0) = Req_bool m 0) by (apply fin_eqb; [exact FM|apply (fin_ofZ 53 1024 0); reflexivity]).
    unfold dcc2s. cbn [s_a]. cbv zeta. match goal with |- context [if ?c then _ else _] => replace c with (Req_bool m 0) by (symmetry; exact QE) end. destruct (Req_bool_spec m 0) as [E|E].
    - exists 0. split; [apply (fin_ofZ 53 1024 0); reflexivity|]. split; [rewrite Rabs_R0; lra|].
      assert (CB : cos be = 0).
      { destruct (atan2_cos_sin (v2 a) m) as (C & _). fold be in C. rewrite E in C at 2. pose proof (hyp_pos m (v2 a) NZ). nra. }
      replace (direction 0 be) with (direction al be); [|unfold direction; rewrite CB; f_equal; ring].
      rewrite norm_sub_self || (unfold norm, dot, vsub; cbn [v0 v1 v2]; rewrite !Rminus_eq_0, !Rmult_0_l, !Rplus_0_l, sqrt_0; lra).
    - assert (NXY : v1 a <> 0 \/ v0 a <> 0).
      { destruct (Req_dec (v1 a) 0) as [E1|E1]; [right|left; exact E1]. intros E0. apply E.
        assert (HZ : rr = Bsqrt mode_NE (Bplus mode_NE (Bmult mode_NE (v0 x) (v0 x)) (Bmult mode_NE (v1 x) (v1 x)))) by reflexivity.
        rewrite E0 in X0. rewrite E1 in X1.
        assert (T0 : Rabs 0 <= 1e-162) by (rewrite Rabs_R0; change 1e-162 with (1 / IZR (10 ^ 162)); apply Rlt_le, Rdiv_lt_0_compat; [lra|apply IZR_lt; reflexivity]).
        pose proof (fin_sq0 _ _ X0 T0) as P0. pose proof (fin_sq0 _ _ X1 T0) as P1. pose proof (fin_0_add 53 1024 _ _ _ P0 P1) as S.
        pose proof (fin_sqrt 53 1024 _ _ S (Rle_refl 0)) as (_ & V). rewrite sqrt_0, rnd_0 in V. rewrite <- HZ in V. destruct FM as (_ & V2). rewrite V in V2. symmetry. exact V2. }
      destruct (LA (v1 x) (v0 x) (v1 a) (v0 a) X1 X0 NXY) as (t & FT & [ET|(B0 & A0 & _ & ET)]).
      + exists t. split; [exact FT|]. fold al in ET. split; [apply Rabs_le_inv in ET; apply Rabs_le; lra|].
        eapply Rle_trans; [apply norm_dir_lon|exact ET].
      + exists t. split; [exact FT|]. split; [apply Rabs_le_inv in ET; apply Rabs_le; lra|].
        assert (AP : al = PI).
        { unfold al. apply (atan2_unique _ _ (- v0 a) PI); [lra|rewrite cos_PI; ring|rewrite B0, sin_PI; ring|lra]. }
        rewrite AP, <- (direction_turn be). eapply Rle_trans; [apply norm_dir_lon|]. replace (t - - PI) with (t + PI) by ring. exact ET. }
  destruct LT as (t & FT & BT & ET).
  exists t, b. split; [exact FT|]. split; [exact FB|]. split; [exact BT|]. split; [exact BB|].
  eapply Rle_trans; [apply (vsub_via _ (direction t be))|]. pose proof (norm_dir_lat t b be) as DL.
  pose proof (vsub_via (direction t be) (direction al be) (unit_of a)). lra.
Qed.

(** ** Separations *)
Lemma big60 : 3 * (1e60 * 1e60) <= 1e150 /\ 1e60 <= 1e150.
Proof.
  change 1e150 with (1 * IZR (10 ^ 150)). change 1e60 with (1 * IZR (10 ^ 60)). rewrite <- !mult_IZR. split; apply IZR_le, Z.leb_le; vm_compute; reflexivity.
Qed.
Lemma small60 n m : 1e-60 <= n -> 1e-60 <= m -> 1e-130 <= 1e-8 * (n * m) /\ 0 < n /\ 0 < m.
Proof.
  intros N M. assert (P : 0 < 1e-60) by (change 1e-60 with (1 / IZR (10 ^ 60)); apply Rdiv_lt_0_compat; [lra|apply IZR_lt; reflexivity]).
  split; [|lra]. assert (Q : 1e-130 <= 1e-8 * (1e-60 * 1e-60)); [|nra].
  change 1e-60 with (1 / IZR (10 ^ 60)). change 1e-130 with (1 / IZR (10 ^ 130)). change 1e-8 with (1 / IZR (10 ^ 8)).
  replace (1 / IZR (10 ^ 8) * (1 / IZR (10 ^ 60) * (1 / IZR (10 ^ 60)))) with (1 / IZR (10 ^ 128)).
  - apply inv_le; [reflexivity|vm_compute; reflexivity].
  - replace (10 ^ 128)%Z with (10 ^ 8 * (10 ^ 60 * 10 ^ 60))%Z by reflexivity. rewrite !mult_IZR.
    assert (0 < IZR (10 ^ 60)) by (apply IZR_lt; reflexivity). assert (0 < IZR (10 ^ 8)) by (apply IZR_lt; reflexivity). field. lra.
Qed.
Lemma t322_130 : 1e-322 <= 1e-130.
Proof. change 1e-322 with (1 / IZR (10 ^ 322)). change 1e-130 with (1 / IZR (10 ^ 130)). apply inv_le; [reflexivity|vm_compute; reflexivity]. Qed.
Lemma t150_130 : 1e-150 <= 1e-20 * 1e-130.
Proof. pose proof (tiny_rel 1e-130 (Rle_refl _)) as T. rewrite u64_num in T. pose proof p130. lra. Qed.
Lemma angle_is_atan2 a b t : norm a <> 0 -> norm b <> 0 -> angle_between a b t -> t = Ratan2 (norm (cross a b)) (dot a b).
Proof.
  intros A B (T & C). rewrite <- dsepv_eq. destruct (dsepv_spec a b) as ((T2 & C2) & _).
  apply cos_inj; [exact T|exact T2|]. rewrite C in C2. apply Rmult_eq_reg_l in C2; [exact C2|]. now apply Rmult_integral_contrapositive.
Qed.
Lemma norm_plane c s : norm (V3 c s 0) = hyp c s.
Proof. unfold norm, dot, hyp. cbn [v0 v1 v2]. f_equal. ring. Qed.

Lemma dsepv64 lm k x y a b : libm_ok lm k -> vec64 x a -> vec64 y b -> within 1e60 a -> within 1e60 b -> 1e-60 <= norm a -> 1e-60 <= norm b ->
  exists t, value64 (dsepv (N := B64 lm) x y) t /\ forall s, angle_between a b s -> Rabs (t - s) <= 2 * k + 6.2 * u64.
Proof.
  intros (_ & _ & LA) X Y WA WB NA NB. destruct big60 as (G1 & G2). destruct (small60 _ _ NA NB) as (SM & A0 & B0).
  pose proof t322_130 as H1. pose proof t150_130 as H2. pose proof p130 as H3. pose proof t322 as (H4 & _). pose proof p150 as H5. pose proof u64_pos as U.
  assert (WA' : within 1e150 a) by (destruct WA as (? & ? & ?); repeat split; lra).
  assert (WB' : within 1e150 b) by (destruct WB as (? & ? & ?); repeat split; lra).
  destruct (dvxv64 lm x y a b X Y WA' WB') as (r & FR & ER).
  assert (ES : norm (vsub r (cross a b)) <= 2.001 * u64 * (1.415 * (norm a * norm b)) + 2 * 1e-322).
  { eapply Rle_trans; [apply (vbound_norm (2.001 * u64) 1e-322 _ _ (cross_abs a b)); [lra|lra|exact ER]|].
    pose proof (norm_cross_abs a b). nra. }
  set (P := norm a * norm b) in *. assert (P0 : 0 < P) by (unfold P; nra).
  assert (U1 : u64 <= 1e-15) by (rewrite u64_num; lra). assert (U2 : 1e-17 <= u64) by (rewrite u64_num; lra).
  assert (UP : 1e-17 * P <= u64 * P <= 1e-15 * P) by nra.
  assert (W3 : within 1e150 r).
  { pose proof (across_within a b 1e60 1e60 WA WB) as (Q0 & Q1 & Q2). rewrite across_abs in Q0, Q1, Q2.
    destruct ER as (R0 & R1 & R2). 
    assert (CR : forall c d e, Rabs (c - d) <= 2.001 * u64 * e + 1e-322 -> Rabs d <= e -> e <= 2 * (1e60 * 1e60) -> Rabs c <= 1e150).
    { intros c d e D1 D2 D3. replace c with ((c - d) + d) by ring. eapply Rle_trans; [apply Rabs_triang|].
      pose proof (Rabs_pos d). assert (u64 * e <= 1e-15 * e) by nra. assert (1e-322 <= 1e60 * 1e60 / 2); [|lra].
      assert (1e-130 <= 1e60 * 1e60 / 2); [|lra]. apply Rle_trans with 1.
      - change 1e-130 with (1 / IZR (10 ^ 130)). apply Rle_trans with (1 / IZR 1); [apply inv_le; [reflexivity|vm_compute; reflexivity]|lra].
      - assert (2 <= 1e60) by (change 1e60 with (1 * IZR (10 ^ 60)); rewrite <- mult_IZR; apply IZR_le, Z.leb_le; vm_compute; reflexivity). nra. }
    assert (TR : forall p q, Rabs (p - q) <= Rabs p + Rabs q) by (intros; eapply Rle_trans; [apply Rabs_triang|rewrite Rabs_Ropp; lra]).
    split; [|split]; [apply (CR _ _ _ R0)|apply (CR _ _ _ R1)|apply (CR _ _ _ R2)]; try assumption; cbn [cross cross_abs v0 v1 v2]; (eapply Rle_trans; [apply TR|]); rewrite !Rabs_mult; lra. }
  destruct (modulus64 lm _ r FR W3) as (s & FS & SG & S0 & EM).
  destruct (dvdv64 lm x y a b X Y WA' WB') as (c & FC & EC).
  pose proof (L_FrameGal.cauchy_abs (vabs a) (vabs b)) as CS. rewrite !norm_vabs in CS. fold P in CS. apply Rabs_le_inv in CS.
  assert (EC' : Rabs (c - dot a b) <= 3.002 * u64 * P) by nra.
  pose proof (norm_lip r (cross a b)) as NL. pose proof (norm_cross_le a b) as NC. fold P in NC. pose proof (norm_nonneg r) as R0. pose proof (norm_nonneg (cross a b)) as X0.
  assert (NR : norm r <= 1.0001 * P) by (apply Rabs_le_inv in NL; nra).
  assert (ESS : Rabs (s - norm (cross a b)) <= 5.343 * u64 * P).
  { replace (s - norm (cross a b)) with ((s - norm r) + (norm r - norm (cross a b))) by ring. eapply Rle_trans; [apply Rabs_triang|]. nra. }
  assert (NQ : norm (V3 (dot a b) (norm (cross a b)) 0) = P).
  { rewrite norm_plane. apply hyp_eq; [lra|]. rewrite (norm_sq (cross a b)), lagrange. rewrite <- !norm_sq. unfold P. ring. }
  assert (DQ : norm (vsub (V3 c s 0) (V3 (dot a b) (norm (cross a b)) 0)) <= 6.14 * u64 * P).
  { unfold vsub. cbn [v0 v1 v2]. rewrite Rminus_0_r. rewrite norm_plane. unfold hyp. rewrite <- (sqrt_square (6.14 * u64 * P)) by nra. apply sqrt_le_1_alt.
    assert (SQ : forall w e, Rabs w <= e -> w * w <= e * e) by (intros w e H; apply Rabs_le_inv in H; nra).
    pose proof (SQ _ _ EC'). pose proof (SQ _ _ ESS). pose proof (Rle_0_sqr (u64 * P)) as SS. unfold Rsqr in SS. nra. }
  assert (PA : Rabs (Ratan2 s c - Ratan2 (norm (cross a b)) (dot a b)) <= 1.002 * (6.14 * u64)).
  { apply (plane_angle (V3 c s 0) (V3 (dot a b) (norm (cross a b)) 0) (6.14 * u64)); cbn [v0 v1 v2]; try reflexivity; try assumption; try lra; rewrite NQ; lra. }
  assert (NSC : s <> 0 \/ c <> 0).
  { destruct (Req_dec s 0) as [E|E]; [right|left; exact E]. intros E2. rewrite E, E2 in DQ.
    replace (vsub (V3 0 0 0) (V3 (dot a b) (norm (cross a b)) 0)) with (scale (- 1) (V3 (dot a b) (norm (cross a b)) 0)) in DQ
      by (unfold vsub, scale; cbn [v0 v1 v2]; f_equal; ring).
    rewrite norm_scale_abs, NQ in DQ. replace (Rabs (- 1)) with 1 in DQ by (rewrite Rabs_left; lra). nra. }
  destruct (LA _ _ s c FS FC NSC) as (t & FT & [ET|(_ & _ & BS & _)]); [|rewrite SG in BS; discriminate].
  exists t. split.
  - unfold dsepv. cbv zeta.
    match goal with |- context [if ?d then _ else _] => replace d with true; [exact FT|] end.
    symmetry. apply orb_true_iff.
    assert (F0 : value64 (n_ofZ (n := B64 lm) 0) 0) by (apply (fin_ofZ 53 1024 0); reflexivity).
    destruct NSC as [E|E]; [left|right]; apply negb_true_iff.
    + refine (eq_trans (fin_eqb _ _ _ _ FS F0) _). apply Req_bool_false. exact E.
    + refine (eq_trans (fin_eqb _ _ _ _ FC F0) _). apply Req_bool_false. exact E.
  - intros w HW. rewrite (angle_is_atan2 a b w ltac:(lra) ltac:(lra) HW).
    apply Rabs_le_inv in ET. apply Rabs_le_inv in PA. apply Rabs_le. lra.
Qed.

Lemma near_direction r p d : norm p = 1 -> norm (vsub r p) <= d -> d <= 1e-3 -> within 1e60 r /\ 1e-60 <= norm r /\ 0 < norm r /\ r <> vzero.
Proof.
  intros P E D. pose proof (norm_lip r p) as L. apply Rabs_le_inv in L. rewrite P in L.
  assert (B : 2 <= 1e60) by (change 1e60 with (1 * IZR (10 ^ 60)); rewrite <- mult_IZR; apply IZR_le, Z.leb_le; vm_compute; reflexivity).
  assert (S : 1e-60 <= 0.1).
  { replace 0.1 with (1 / IZR 10) by lra. change 1e-60 with (1 / IZR (10 ^ 60)). apply inv_le; [reflexivity|vm_compute; reflexivity]. }
  split; [|split; [lra|split; [lra|]]].
  - assert (C : forall w : RV, Rabs (v0 w) <= norm w /\ Rabs (v1 w) <= norm w /\ Rabs (v2 w) <= norm w).
    { intros w. unfold norm, dot. assert (Q : forall c s, 0 <= s -> Rabs c <= sqrt (c * c + s)).
      { intros c s HS. rewrite <- sqrt_Rsqr_abs. apply sqrt_le_1_alt. unfold Rsqr. lra. }
      split; [|split].
      - rewrite Rplus_assoc. apply Q. nra.
      - replace (v0 w * v0 w + v1 w * v1 w + v2 w * v2 w) with (v1 w * v1 w + (v0 w * v0 w + v2 w * v2 w)) by ring. apply Q. nra.
      - rewrite Rplus_comm. apply Q. nra. }
    destruct (C r) as (? & ? & ?). repeat split; lra.
  - intros Z. assert (H : 0 < norm r) by lra. rewrite Z in H. unfold norm, dot, vzero in H. cbn [v0 v1 v2] in H.
    rewrite !Rmult_0_l, !Rplus_0_l, sqrt_0 in H. lra.
Qed.
Lemma dsep64 lm k x y z w a b c d : libm_ok lm k -> 0 <= k <= 1e-6 -> value64 x a -> value64 y b -> value64 z c -> value64 w d ->
  exists t, value64 (dsep (N := B64 lm) (Sph (N := B64 lm) x y) (Sph (N := B64 lm) z w)) t /\
    forall s, angle_between (direction a b) (direction c d) s -> Rabs (t - s) <= 8.1 * k + 9.3 * u64.
Proof.
  intros L K X Y Z W. destruct (dcs2c64 lm k x y a b L X Y) as (p & FP & EP). destruct (dcs2c64 lm k z w c d L Z W) as (q & FQ & EQ).
  pose proof u64_pos as U. assert (U1 : u64 <= 1e-15) by (rewrite u64_num; lra). set (e := 3 * k + 1.5 * u64) in *. assert (E3 : e <= 1e-3) by (unfold e; lra).
  destruct (near_direction p _ e (norm_direction a b) EP E3) as (P1 & P2 & P3 & P4). destruct (near_direction q _ e (norm_direction c d) EQ E3) as (Q1 & Q2 & Q3 & Q4).
  destruct (dsepv64 lm k _ _ p q L FP FQ P1 Q1 P2 Q2) as (t & FT & ET). exists t. split; [exact FT|]. intros s HS.
  destruct (dsepv_spec p q) as (APQ & _). specialize (ET _ APQ).
  assert (ND : forall u v, direction u v <> vzero).
  { intros u v. apply norm_1_nz. apply norm_direction. }
  assert (SS : s = dsepv (N := RNum) (direction a b) (direction c d)).
  { rewrite dsepv_eq. apply angle_is_atan2; [rewrite norm_direction; lra|rewrite norm_direction; lra|exact HS]. }
  destruct (angle_near p (direction a b) e) as (TP & _); [rewrite norm_direction; lra|rewrite norm_direction; lra|exact E3|].
  destruct (angle_near q (direction c d) e) as (TQ & _); [rewrite norm_direction; lra|rewrite norm_direction; lra|exact E3|].
  pose proof (dsepv_triangle p (direction a b) q P4 (ND _ _) Q4) as T1. pose proof (dsepv_triangle (direction a b) (direction c d) q (ND _ _) (ND _ _) Q4) as T2.
  pose proof (dsepv_triangle (direction a b) p (direction c d) (ND _ _) P4 (ND _ _)) as T3. pose proof (dsepv_triangle p q (direction c d) P4 Q4 (ND _ _)) as T4.
  rewrite (dsepv_sym (direction c d) q) in T2. rewrite (dsepv_sym (direction a b) p) in T3.
  apply Rabs_le_inv in ET. apply Rabs_le. unfold e in *. lra.
Qed.

(** Round trips. *)
Lemma dcc2s_dcs2c64 lm k x a : libm_ok lm k -> vec64 x a -> within 1e150 a -> 1e-130 <= norm a ->
  exists r, vec64 (dcs2c (N := B64 lm) (dcc2s (N := B64 lm) x)) r /\ norm (vsub r (unit_of a)) <= 7 * k + 4.1 * u64.
Proof.
  intros L X W N. destruct (dcc2s64 lm k x a L X W N) as (t & b & FT & FB & _ & _ & E).
  destruct (dcs2c64 lm k _ _ t b L FT FB) as (r & FR & ER). exists r. split.
  - destruct (dcc2s (N := B64 lm) x). exact FR.
  - pose proof (vsub_via r (direction t b) (unit_of a)). lra.
Qed.
Lemma dcs2c_dcc2s64 lm k x y a b : libm_ok lm k -> 0 <= k <= 1e-6 -> value64 x a -> value64 y b ->
  let r := dcc2s (N := B64 lm) (dcs2c (N := B64 lm) (Sph (N := B64 lm) x y)) in
  exists c d, value64 (s_a r) c /\ value64 (s_b r) d /\ norm (vsub (direction c d) (direction a b)) <= 7.1 * k + 4.2 * u64.
Proof.
  intros L K X Y r. destruct (dcs2c64 lm k x y a b L X Y) as (p & FP & EP). pose proof u64_pos as U.
  assert (U1 : u64 <= 1e-15) by (rewrite u64_num; lra). set (e := 3 * k + 1.5 * u64) in *. assert (E3 : e <= 1e-3) by (unfold e; lra).
  destruct (near_direction p _ e (norm_direction a b) EP E3) as (P1 & P2 & P3 & P4).
  destruct big60 as (_ & G2). assert (W : within 1e150 p) by (destruct P1 as (? & ? & ?); repeat split; lra).
  assert (S : 1e-130 <= norm p).
  { apply Rle_trans with (2 := P2). change 1e-130 with (1 / IZR (10 ^ 130)). change 1e-60 with (1 / IZR (10 ^ 60)). apply inv_le; [reflexivity|vm_compute; reflexivity]. }
  destruct (dcc2s64 lm k _ p L FP W S) as (c & d & FC & FD & _ & _ & E). exists c, d. split; [exact FC|]. split; [exact FD|].
  pose proof (unit_near p (direction a b) e) as UN. rewrite norm_direction in UN. specialize (UN ltac:(lra) ltac:(lra) E3).
  rewrite (unit_of_unit (direction a b) (norm_direction a b)) in UN.
  pose proof (vsub_via (direction c d) (unit_of p) (direction a b)). unfold e in *. lra.
Qed.
