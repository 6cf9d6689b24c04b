(** The vector and matrix kernels at the two precisions. *)
From Coq Require Import ZArith Reals Bool Lia Lra Psatz.
From Flocq Require Import Core BinarySingleNaN Relative.
From Verif Require Import Int32 Num NumB NumR M_Vec S_Geom S_Binary S_Float L_Bin L_Flt L_FltVec L_Float.
From Verif Require Import L_Vec L_Rot L_Frame.
From Verif Require L_FrameGal.
Open Scope R_scope.

Lemma adot_vabs a b : adot a b = dot (vabs a) (vabs b).
Proof. unfold adot, dot, vabs. cbn [v0 v1 v2]. now rewrite !Rabs_mult. Qed.
Lemma prod_within p q A B : Rabs p <= A -> Rabs q <= B -> Rabs (p * q) <= A * B.
Proof. intros. rewrite Rabs_mult. pose proof (Rabs_pos p). pose proof (Rabs_pos q). nra. Qed.
Lemma adot_within a b A B : within A a -> within B b -> adot a b <= 3 * (A * B).
Proof.
  intros (A0 & A1 & A2) (B0 & B1 & B2). unfold adot.
  pose proof (prod_within _ _ _ _ A0 B0). pose proof (prod_within _ _ _ _ A1 B1). pose proof (prod_within _ _ _ _ A2 B2). lra.
Qed.
Lemma across_within a b A B : within A a -> within B b ->
  v0 (across a b) <= 2 * (A * B) /\ v1 (across a b) <= 2 * (A * B) /\ v2 (across a b) <= 2 * (A * B).
Proof.
  intros (A0 & A1 & A2) (B0 & B1 & B2). cbn [across v0 v1 v2].
  pose proof (prod_within _ _ _ _ A1 B2). pose proof (prod_within _ _ _ _ A2 B1). pose proof (prod_within _ _ _ _ A2 B0).
  pose proof (prod_within _ _ _ _ A0 B2). pose proof (prod_within _ _ _ _ A0 B1). pose proof (prod_within _ _ _ _ A1 B0). lra.
Qed.
Lemma across_abs a b : across a b = cross_abs a b.
Proof. unfold across, cross_abs. now rewrite !Rabs_mult. Qed.

Lemma Hu64 : u 53 <= / 16777216. Proof. rewrite u64_eq, u64_num. lra. Qed.
Lemma Hu32 : u 24 <= / 16777216. Proof. rewrite u32_eq, u32_num. lra. Qed.
Lemma e323 : 1e-323 = / IZR (10 ^ 323).
Proof. change 1e-323 with (1 / IZR (10 ^ 323)). unfold Rdiv. ring. Qed.
Lemma tiny323 : 1e-323 <= 1e-20.
Proof. rewrite e323. replace 1e-20 with (/ IZR (10 ^ 20)) by lra. apply Rinv_le_contravar; [apply IZR_lt; reflexivity|]. apply IZR_le. now vm_compute. Qed.
Lemma He64 : eta 53 1024 <= / 1000 * u 53.
Proof. rewrite u64_eq, u64_num. pose proof eta64. pose proof tiny323. lra. Qed.
Lemma He32 : eta 24 128 <= / 1000 * u 24.
Proof. rewrite u32_eq, u32_num. pose proof eta32. lra. Qed.
Lemma Hh64 : 1000 <= huge 1024. Proof. pose proof huge64. assert (1000 <= 4e307) by (replace 4e307 with (IZR (4 * 10 ^ 307)) by (rewrite mult_IZR; reflexivity); apply IZR_le; now vm_compute). lra. Qed.
Lemma Hh32 : 1000 <= huge 128. Proof. pose proof huge32. lra. Qed.
Lemma room64 : 3 * (1e150 * 1e150) <= huge 1024 / 2.
Proof.
  pose proof huge64. assert (E : 6 * (1e150 * 1e150) <= 4e307); [|lra].
  replace (6 * (1e150 * 1e150)) with (IZR (6 * (10 ^ 150 * 10 ^ 150))).
  - replace 4e307 with (IZR (4 * 10 ^ 307)) by (rewrite mult_IZR; reflexivity). apply IZR_le. now vm_compute.
  - rewrite !mult_IZR. change 1e150 with (1 * IZR (10 ^ 150)). ring.
Qed.
Lemma room32 : 3 * (1e18 * 1e18) <= huge 128 / 2.
Proof. pose proof huge32. lra. Qed.
Lemma low64 : 6 * eta 53 1024 <= 1e-322.
Proof.
  pose proof eta64. assert (1e-322 = 10 * 1e-323); [|pose proof (eta_pos 53 1024); lra].
  change 1e-322 with (1 / IZR (10 ^ 322)). rewrite e323. 
  replace (IZR (10 ^ 323)) with (10 * IZR (10 ^ 322)) by (rewrite <- mult_IZR; apply f_equal; reflexivity).
  rewrite Rinv_mult. unfold Rdiv. lra.
Qed.
Lemma low32 : 6 * eta 24 128 <= 1e-44. Proof. pose proof eta32. lra. Qed.

Lemma dvdv64 lm x y a b : vec64 x a -> vec64 y b -> within 1e150 a -> within 1e150 b ->
  exists r, value64 (dvdv (N := B64 lm) x y) r /\ Rabs (r - dot a b) <= 3.001 * u64 * dot (vabs a) (vabs b) + 1e-322.
Proof.
  intros X Y A B. pose proof (adot_within _ _ _ _ A B) as H. pose proof room64. 
  destruct (dvdv_near 53 1024 lm Hu64 He64 Hh64 x y a b X Y ltac:(lra)) as (r & F & E). exists r. split; [exact F|].
  rewrite u64_eq, adot_vabs in E. pose proof low64. lra.
Qed.
Lemma vdv32 lm x y a b : vec32 x a -> vec32 y b -> within 1e18 a -> within 1e18 b ->
  exists r, value32 (dvdv (N := B32 lm) x y) r /\ Rabs (r - dot a b) <= 3.001 * u32 * dot (vabs a) (vabs b) + 1e-44.
Proof.
  intros X Y A B. pose proof (adot_within _ _ _ _ A B) as H. pose proof room32. 
  destruct (dvdv_near 24 128 lm Hu32 He32 Hh32 x y a b X Y ltac:(lra)) as (r & F & E). exists r. split; [exact F|].
  rewrite u32_eq, adot_vabs in E. pose proof low32. lra.
Qed.

Lemma dvxv64 lm x y a b : vec64 x a -> vec64 y b -> within 1e150 a -> within 1e150 b ->
  exists r, vec64 (dvxv (N := B64 lm) x y) r /\ vbound (2.001 * u64) 1e-322 r (cross a b) (cross_abs a b).
Proof.
  intros X Y A B. destruct (across_within _ _ _ _ A B) as (H0 & H1 & H2). pose proof room64. assert (0 <= 1e150 * 1e150) by lra.
  destruct (dvxv_near 53 1024 lm Hu64 He64 Hh64 x y a b X Y ltac:(lra) ltac:(lra) ltac:(lra)) as ((p & P & EP) & (q & Q & EQ) & (r & R & ER)).
  exists (V3 p q r). split; [split; [exact P|split; [exact Q|exact R]]|].
  rewrite u64_eq in *. pose proof low64. pose proof (eta_pos 53 1024). unfold vbound. rewrite <- across_abs. cbn [v0 v1 v2 cross across] in *. lra.
Qed.
Lemma vxv32 lm x y a b : vec32 x a -> vec32 y b -> within 1e18 a -> within 1e18 b ->
  exists r, vec32 (dvxv (N := B32 lm) x y) r /\ vbound (2.001 * u32) 1e-44 r (cross a b) (cross_abs a b).
Proof.
  intros X Y A B. destruct (across_within _ _ _ _ A B) as (H0 & H1 & H2). pose proof room32.
  destruct (dvxv_near 24 128 lm Hu32 He32 Hh32 x y a b X Y ltac:(lra) ltac:(lra) ltac:(lra)) as ((p & P & EP) & (q & Q & EQ) & (r & R & ER)).
  exists (V3 p q r). split; [split; [exact P|split; [exact Q|exact R]]|].
  rewrite u32_eq in *. pose proof low32. pose proof (eta_pos 24 128). unfold vbound. rewrite <- across_abs. cbn [v0 v1 v2 cross across] in *. lra.
Qed.

(** ** dvn *)
Lemma norm_mono a b : Rabs (v0 a) <= v0 b -> Rabs (v1 a) <= v1 b -> Rabs (v2 a) <= v2 b -> norm a <= norm b.
Proof.
  intros A B C. unfold norm. apply sqrt_le_1_alt. unfold dot.
  assert (S : forall p q, Rabs p <= q -> p * p <= q * q).
  { intros p q H. rewrite <- (Rabs_pos_eq (p * p)) by apply Rle_0_sqr. rewrite Rabs_mult. pose proof (Rabs_pos p). nra. }
  pose proof (S _ _ A). pose proof (S _ _ B). pose proof (S _ _ C). lra.
Qed.
Lemma norm_vabs a : norm (vabs a) = norm a.
Proof.
  unfold norm, dot, vabs. cbn [v0 v1 v2]. f_equal.
  assert (S : forall p, Rabs p * Rabs p = p * p) by (intros; rewrite <- Rabs_mult; apply Rabs_pos_eq, Rle_0_sqr).
  now rewrite !S.
Qed.
(** A componentwise bound as a bound of the norm. *)
Lemma vbound_norm k t r a e : 0 <= k -> 0 <= t -> vbound k t r a e -> norm (vsub r a) <= k * norm e + 2 * t.
Proof.
  intros K T (B0 & B1 & B2).
  set (w := vadd (scale k (vabs e)) (V3 t t t)).
  apply Rle_trans with (norm w).
  - apply norm_mono; cbn [vsub w vadd scale vabs v0 v1 v2].
    + pose proof (Rle_abs (v0 e)). nra.
    + pose proof (Rle_abs (v1 e)). nra.
    + pose proof (Rle_abs (v2 e)). nra.
  - unfold w. eapply Rle_trans; [apply norm_triangle|]. rewrite norm_scale by exact K. rewrite norm_vabs.
    assert (norm (V3 t t t) <= 2 * t); [|lra].
    unfold norm, dot. cbn [v0 v1 v2]. rewrite <- (sqrt_square (2 * t)) by lra. apply sqrt_le_1_alt. nra.
Qed.

Lemma norm_unit_scale a : norm a <> 0 -> norm (scale (/ norm a) a) = 1.
Proof.
  intros H. pose proof (norm_nonneg a). assert (0 < norm a) by lra.
  rewrite norm_scale by (apply Rlt_le, Rinv_0_lt_compat; assumption). field. lra.
Qed.
Lemma norm_lip a b : Rabs (norm a - norm b) <= norm (vsub a b).
Proof.
  apply Rabs_le. split.
  - destruct (L_FrameGal.norm_vsub_ge b a) as (G & _). replace (norm (vsub a b)) with (norm (vsub b a)); [lra|].
    unfold norm, dot, vsub. cbn [v0 v1 v2]. f_equal. ring.
  - destruct (L_FrameGal.norm_vsub_ge a b) as (G & _). lra.
Qed.

Section Dvn.
Context (prec emax : Z) {Hp : Prec_gt_0 prec} {Hm : Prec_lt_emax prec emax} (lm : libm prec emax).
Context (Hu : u prec <= / 16777216) (He : eta prec emax <= / 1000 * u prec) (Hh : 1000 <= huge emax).
Lemma dvn_unit (x : vec (BNum prec emax lm)) a : vfin prec emax x a -> norm a <> 0 ->
  10000 * eta prec emax <= u prec * dot a a -> dot a a <= huge emax / 2 ->
  exists m n, fin prec emax (snd (dvn x)) m /\ vfin prec emax (fst (dvn x)) n /\
    Rabs (m - norm a) <= 2.51 * u prec * norm a /\ norm (vsub n (scale (/ norm a) a)) <= 3.53 * u prec /\ Rabs (norm n - 1) <= 3.53 * u prec.
Proof.
  intros X NZ L H. destruct (dvn_near prec emax lm Hu He Hh x a X NZ L H) as (m & FM & M0 & EM & (p & P & EP) & (q & Q & EQ) & (r & R & ER)).
  exists m, (V3 p q r). split; [exact FM|]. split; [split; [exact P|split; [exact Q|exact R]]|]. split; [exact EM|].
  pose proof (u_pos prec) as U0. pose proof (eta_pos prec emax) as E0.
  assert (N1 : norm (vsub (V3 p q r) (scale (/ norm a) a)) <= 3.53 * u prec).
  { eapply Rle_trans.
    - apply (vbound_norm (3.52 * u prec) (eta prec emax) _ _ (vabs (scale (/ norm a) a))); [lra|lra|].
      cbn [v0 v1 v2 scale] in EP, EQ, ER. unfold vbound. cbn [v0 v1 v2 scale vabs].
      rewrite !(Rmult_comm (/ norm a)) in *. repeat split; [exact EP|exact EQ|exact ER].
    - rewrite norm_vabs, norm_unit_scale by exact NZ. lra. }
  split; [exact N1|]. rewrite <- (norm_unit_scale a NZ) at 1. eapply Rle_trans; [apply norm_lip|exact N1].
Qed.
End Dvn.

Lemma norm_room b a : within b a -> dot a a <= 3 * (b * b).
Proof.
  intros W. pose proof (adot_within _ _ _ _ W W). unfold adot in H. unfold dot.
  pose proof (Rle_abs (v0 a * v0 a)). pose proof (Rle_abs (v1 a * v1 a)). pose proof (Rle_abs (v2 a * v2 a)). lra.
Qed.
Lemma floor64 : 10000 * eta 53 1024 <= u64 * 1e-300.
Proof.
  rewrite u64_num. pose proof eta64. assert (E : 1e-323 * 1e20 <= 1e-300); [|nra].
  change 1e-300 with (1 / IZR (10 ^ 300)). rewrite e323. replace (1e20) with (IZR (10 ^ 20)) by lra.
  replace (IZR (10 ^ 323)) with (IZR (10 ^ 300) * IZR (10 ^ 23)) by (rewrite <- mult_IZR; apply f_equal; reflexivity).
  rewrite Rinv_mult. assert (0 < IZR (10 ^ 300)) by (apply IZR_lt; reflexivity).
  pose proof (Rinv_0_lt_compat _ H0) as I. unfold Rdiv. rewrite Rmult_1_l.
  assert (/ IZR (10 ^ 23) * IZR (10 ^ 20) <= 1) by lra. nra.
Qed.

Lemma dvn64 lm x a : vec64 x a -> within 1e150 a -> 1e-150 <= norm a ->
  exists m n, value64 (snd (dvn (N := B64 lm) x)) m /\ vec64 (fst (dvn (N := B64 lm) x)) n /\
    Rabs (m - norm a) <= 2.51 * u64 * norm a /\ norm (vsub n (scale (/ norm a) a)) <= 3.53 * u64 /\ Rabs (norm n - 1) <= 3.53 * u64.
Proof.
  intros X W L. assert (I : 0 < 1e-150) by (change 1e-150 with (1 / IZR (10 ^ 150)); apply Rdiv_lt_0_compat; [lra|apply IZR_lt; reflexivity]).
  assert (Q : 1e-300 <= dot a a).
  { rewrite <- norm_sq. apply Rle_trans with (1e-150 * 1e-150); [|nra].
    change 1e-300 with (1 / IZR (10 ^ 300)). change 1e-150 with (1 / IZR (10 ^ 150)).
    replace (IZR (10 ^ 300)) with (IZR (10 ^ 150) * IZR (10 ^ 150)) by (rewrite <- mult_IZR; apply f_equal; reflexivity).
    assert (0 < IZR (10 ^ 150)) by (apply IZR_lt; reflexivity). apply Req_le. field. lra. }
  pose proof (norm_room _ _ W). pose proof room64. pose proof floor64 as FL. assert (0 < u64) by (rewrite u64_num; lra).
  pose proof (dvn_unit 53 1024 lm Hu64 He64 Hh64 x a X ltac:(lra)) as D. rewrite u64_eq in D. apply D; [nra|lra].
Qed.
Lemma vn32 lm x a : vec32 x a -> within 1e18 a -> 1e-16 <= norm a ->
  exists m n, value32 (snd (dvn (N := B32 lm) x)) m /\ vec32 (fst (dvn (N := B32 lm) x)) n /\
    Rabs (m - norm a) <= 2.51 * u32 * norm a /\ norm (vsub n (scale (/ norm a) a)) <= 3.53 * u32 /\ Rabs (norm n - 1) <= 3.53 * u32.
Proof.
  intros X W L.
  assert (Q : 1e-32 <= dot a a) by (rewrite <- norm_sq; nra).
  pose proof (norm_room _ _ W). pose proof room32. pose proof eta32.
  pose proof (dvn_unit 24 128 lm Hu32 He32 Hh32 x a X ltac:(lra)) as D. rewrite u32_eq in D. apply D; [rewrite u32_num; lra|lra].
Qed.

(** Vectors that are too short or too long are not normalised. *)
Lemma rnd_tiny y : Rabs y < bpow radix2 (-1075) -> rnd 53 1024 y = 0.
Proof.
  intros H. destruct (Req_dec y 0) as [->|NZ]; [now apply rnd_0|].
  assert (M : (mag radix2 y <= -1075)%Z) by (apply mag_le_bpow; assumption).
  unfold rnd, round, scaled_mantissa, cexp.
  replace (SpecFloat.fexp 53 1024 (mag radix2 y)) with (-1074)%Z by (unfold SpecFloat.fexp, SpecFloat.emin; lia).
  rewrite (Znearest_imp _ _ 0); [unfold F2R; cbn; ring|].
  rewrite Rminus_0_r, Rabs_mult, (Rabs_pos_eq (bpow _ _)) by apply bpow_ge_0.
  change (- -1074)%Z with 1074%Z. apply Rlt_le_trans with (bpow radix2 (-1075) * bpow radix2 1074).
  - apply Rmult_lt_compat_r; [apply bpow_gt_0|exact H].
  - rewrite <- bpow_plus. cbn. lra.
Qed.
Lemma e162 : 1e-162 * 1e-162 < bpow radix2 (-1075).
Proof.
  change (-1075)%Z with (- (1075))%Z. rewrite bpow_inv by lia.
  replace (1e-162 * 1e-162) with (/ IZR (10 ^ 162 * 10 ^ 162)).
  - apply Rinv_lt_contravar; [apply Rmult_lt_0_compat; apply IZR_lt; reflexivity|]. apply IZR_lt. now vm_compute.
  - rewrite mult_IZR, Rinv_mult. change (1e-162) with (1 / IZR (10 ^ 162)). unfold Rdiv. ring.
Qed.
Lemma sq_tiny c : Rabs c <= 1e-162 -> Rabs (c * c) < bpow radix2 (-1075).
Proof.
  intros H. apply Rle_lt_trans with (1e-162 * 1e-162); [|exact e162]. now apply prod_within.
Qed.
Lemma fin_sq0 (z : double) c : fin 53 1024 z c -> Rabs c <= 1e-162 -> fin 53 1024 (Bmult mode_NE z z) 0.
Proof.
  intros Z H. rewrite <- (rnd_tiny (c * c) (sq_tiny c H)). apply fin_mul; [exact Z|exact Z|].
  rewrite (rnd_tiny _ (sq_tiny c H)), Rabs_R0. apply top_pos.
Qed.
Lemma fin_div1 (z : double) c lm : fin 53 1024 z c -> fin 53 1024 (Bdiv mode_NE z (n_ofZ 1 : B64 lm)) c.
Proof.
  intros Z. replace c with (c / 1) by field.
  apply fin_div_exact; [exact Z|apply (fin_ofZ 53 1024 1); reflexivity|lra| |].
  - replace (c / 1) with c by field. now apply (fin_fmt 53 1024 z).
  - replace (c / 1) with c by field. now apply (fin_top 53 1024 z).
Qed.
Lemma dvn_short lm x a : vec64 x a -> within 1e-162 a ->
  vec64 (fst (dvn (N := B64 lm) x)) a /\ value64 (snd (dvn (N := B64 lm) x)) 0.
Proof.
  intros (X0 & X1 & X2) (W0 & W1 & W2). unfold dvn. cbv zeta. cbn [fst snd v0 v1 v2].
  pose proof (fin_sq0 _ _ X0 W0) as P0. pose proof (fin_sq0 _ _ X1 W1) as P1. pose proof (fin_sq0 _ _ X2 W2) as P2.
  pose proof (fin_0_add 53 1024 _ _ _ (fin0 53 1024 lm) P0) as S0.
  pose proof (fin_0_add 53 1024 _ _ _ S0 P1) as S1. pose proof (fin_0_add 53 1024 _ _ _ S1 P2) as S2.
  pose proof (fin_sqrt 53 1024 _ _ S2 (Rle_refl 0)) as M. rewrite sqrt_0 in M. rewrite rnd_0 in M.
  set (y := Bsqrt mode_NE _) in M. 
  assert (LE : n_leb (y : B64 lm) (n_ofZ 0) = true).
  { refine (eq_trans (fin_leb 53 1024 _ _ _ _ M (fin0 53 1024 lm)) _). apply Rle_bool_true. lra. }
  change (n_sqrt _) with (y : B64 lm). rewrite LE. split; [|exact M].
  split; [|split]; apply (fin_div1 _ _ lm); assumption.
Qed.

Definition long_vec : vec double := V3 (Blit 53 1024 1 200) (Blit 53 1024 1 200) (BofZ 53 1024 0).
Lemma dvn_long lm : snd (dvn (N := B64 lm) long_vec) = B754_infinity false /\ vec64 (fst (dvn (N := B64 lm) long_vec)) vzero.
Proof.
  split; [apply B2SF_inj; vm_compute; reflexivity|].
  assert (Z : forall z : double, B2SF z = SpecFloat.S754_zero false -> value64 z 0).
  { intros z H. destruct z; try discriminate H. split; reflexivity. }
  split; [|split]; apply Z; vm_compute; reflexivity.
Qed.
Lemma long_vec_value : exists c, vec64 long_vec (V3 c c 0) /\ 1e199 <= c.
Proof.
  exists (B2R (Blit 53 1024 1 200)). split.
  - split; [|split]; [apply fin_self; vm_compute; reflexivity..|apply (fin_ofZ 53 1024 0); reflexivity].
  - assert (E : B2SF (Blit 53 1024 1 200) = SpecFloat.S754_finite false 5883593420661338 612) by (vm_compute; reflexivity).
    rewrite <- SF2R_B2SF, E. unfold SF2R, F2R. cbn [SpecFloat.cond_Zopp Fnum Fexp]. rewrite bpow_nat by lia.
    rewrite <- !mult_IZR. apply IZR_le, Z.leb_le. vm_compute. reflexivity.
Qed.
