(** Matrix kernels and products of rotations, in double. *)
From Coq Require Import ZArith Reals Bool Lia Lra Psatz List Ascii String.
From Flocq Require Import Core BinarySingleNaN Relative.
From Verif Require Import Int32 Num NumB NumR M_Vec S_Geom S_Binary S_Float L_Bin L_Flt L_FltVec L_Float L_FloatVec.
From Verif Require Import L_Vec L_Rot L_Frame.
From Verif Require L_FrameGal.
Import ListNotations.
Open Scope R_scope.

(** ** The kernels *)
Lemma acc64 lm x y a b : vec64 x a -> vec64 y b -> within 1e150 a -> within 1e150 b ->
  exists r, value64 (acc3 (N := B64 lm) x y) r /\ Rabs (r - dot a b) <= 3.001 * u64 * dot (vabs a) (vabs b) + 1e-322.
Proof.
  intros X Y A B. pose proof (adot_within _ _ _ _ A B) as H. pose proof room64.
  destruct (acc3_near 53 1024 lm Hu64 He64 Hh64 x y a b X Y ltac:(lra)) as (r & F & E). exists r. split; [exact F|].
  rewrite u64_eq, adot_vabs in E. pose proof low64. lra.
Qed.

Lemma dmxv64 lm x y A a : mat64 x A -> vec64 y a -> mwithin 1e150 A -> within 1e150 a ->
  exists r, vec64 (dmxv (N := B64 lm) x y) r /\ vbound (3.001 * u64) 1e-322 r (mapply A a) (mapply (mabs A) (vabs a)).
Proof.
  intros (X0 & X1 & X2) Y (W0 & W1 & W2) W.
  destruct (acc64 lm _ _ _ _ X0 Y W0 W) as (p & P & EP). destruct (acc64 lm _ _ _ _ X1 Y W1 W) as (q & Q & EQ).
  destruct (acc64 lm _ _ _ _ X2 Y W2 W) as (r & R & ER).
  exists (V3 p q r). split; [split; [exact P|split; [exact Q|exact R]]|]. split; [exact EP|split; [exact EQ|exact ER]].
Qed.

Lemma col64 lm x A : mat64 x A -> vec64 (col0 (N := B64 lm) x) (col A 0) /\ vec64 (col1 (N := B64 lm) x) (col A 1) /\ vec64 (col2 (N := B64 lm) x) (col A 2).
Proof. intros ((A0 & A1 & A2) & (B0 & B1 & B2) & (C0 & C1 & C2)). repeat split; cbn; first [apply A0|apply A1|apply A2|apply B0|apply B1|apply B2|apply C0|apply C1|apply C2]. Qed.
Lemma mwithin_transpose b A : mwithin b A -> mwithin b (transpose A).
Proof. intros ((A0 & A1 & A2) & (B0 & B1 & B2) & (C0 & C1 & C2)). repeat split; cbn; assumption. Qed.
Lemma mat64_transpose lm x A : mat64 x A -> mat64 (M3 (col0 (N := B64 lm) x) (col1 (N := B64 lm) x) (col2 (N := B64 lm) x)) (transpose A).
Proof. intros H. exact (col64 lm x A H). Qed.

Lemma dimxv64 lm x y A a : mat64 x A -> vec64 y a -> mwithin 1e150 A -> within 1e150 a ->
  exists r, vec64 (dimxv (N := B64 lm) x y) r /\ vbound (3.001 * u64) 1e-322 r (mapply (transpose A) a) (mapply (mabs (transpose A)) (vabs a)).
Proof.
  intros X Y W V. exact (dmxv64 lm _ y _ a (mat64_transpose lm x A X) Y (mwithin_transpose _ _ W) V).
Qed.

Lemma vabs_col A : vabs (col A 0) = col (mabs A) 0 /\ vabs (col A 1) = col (mabs A) 1 /\ vabs (col A 2) = col (mabs A) 2.
Proof. repeat split. Qed.
Lemma within_cols b A : mwithin b A -> within b (col A 0) /\ within b (col A 1) /\ within b (col A 2).
Proof. intros H. exact (mwithin_transpose b A H). Qed.

Lemma dmxm64 lm x y A B : mat64 x A -> mat64 y B -> mwithin 1e150 A -> mwithin 1e150 B ->
  exists C, mat64 (dmxm (N := B64 lm) x y) C /\ mbound (3.001 * u64) 1e-322 C (mmul A B) (mmul (mabs A) (mabs B)).
Proof.
  intros (X0 & X1 & X2) Y (W0 & W1 & W2) W.
  destruct (col64 lm y B Y) as (Y0 & Y1 & Y2). destruct (within_cols _ _ W) as (V0 & V1 & V2).
  assert (G : forall z a, vec64 z a -> within 1e150 a -> exists r,
    vec64 (V3 (acc3 (N := B64 lm) z (col0 (N := B64 lm) y)) (acc3 (N := B64 lm) z (col1 (N := B64 lm) y)) (acc3 (N := B64 lm) z (col2 (N := B64 lm) y))) r /\
    vbound (3.001 * u64) 1e-322 r (V3 (dot a (col B 0)) (dot a (col B 1)) (dot a (col B 2)))
      (V3 (dot (vabs a) (col (mabs B) 0)) (dot (vabs a) (col (mabs B) 1)) (dot (vabs a) (col (mabs B) 2)))).
  { intros z a Z ZW. destruct (acc64 lm _ _ _ _ Z Y0 ZW V0) as (p & P & EP). destruct (acc64 lm _ _ _ _ Z Y1 ZW V1) as (q & Q & EQ).
    destruct (acc64 lm _ _ _ _ Z Y2 ZW V2) as (r & R & ER).
    exists (V3 p q r). split; [split; [exact P|split; [exact Q|exact R]]|]. split; [exact EP|split; [exact EQ|exact ER]]. }
  destruct (G _ _ X0 W0) as (c0 & C0 & E0). destruct (G _ _ X1 W1) as (c1 & C1 & E1). destruct (G _ _ X2 W2) as (c2 & C2 & E2).
  exists (M3 c0 c1 c2). split; [split; [exact C0|split; [exact C1|exact C2]]|]. split; [exact E0|split; [exact E1|exact E2]].
Qed.

(** ** Frobenius norm *)
Lemma fnorm_nonneg A : 0 <= fnorm A. Proof. apply sqrt_pos. Qed.
Lemma fnorm_sq A : fnorm A * fnorm A = dot (r0 A) (r0 A) + dot (r1 A) (r1 A) + dot (r2 A) (r2 A).
Proof. apply sqrt_sqrt. pose proof (dot_self_nonneg (r0 A)). pose proof (dot_self_nonneg (r1 A)). pose proof (dot_self_nonneg (r2 A)). lra. Qed.
Definition rows (A : RM) : RV := V3 (norm (r0 A)) (norm (r1 A)) (norm (r2 A)).
Lemma fnorm_rows A : fnorm A = norm (rows A).
Proof. unfold fnorm. unfold norm at 1. f_equal. unfold dot at 4. cbn [rows v0 v1 v2]. now rewrite !norm_sq. Qed.
Lemma fnorm_transpose A : fnorm (transpose A) = fnorm A.
Proof. unfold fnorm. f_equal. unfold dot. cbn. ring. Qed.
Lemma fnorm_mabs A : fnorm (mabs A) = fnorm A.
Proof. rewrite !fnorm_rows. unfold rows, mabs. cbn [r0 r1 r2]. now rewrite !norm_vabs. Qed.

Lemma norm_mapply A v : norm (mapply A v) <= fnorm A * norm v.
Proof.
  rewrite fnorm_rows. rewrite Rmult_comm. rewrite <- norm_scale by apply norm_nonneg.
  apply norm_mono; cbn [mapply scale rows v0 v1 v2]; rewrite Rmult_comm; apply L_FrameGal.cauchy_abs.
Qed.
Lemma mmul_rows A B : mmul A B = M3 (mapply (transpose B) (r0 A)) (mapply (transpose B) (r1 A)) (mapply (transpose B) (r2 A)).
Proof. unfold mmul, mapply, transpose, dot. cbn. f_equal; f_equal; ring. Qed.
Lemma norm_rows_le A B k : 0 <= k -> norm (r0 A) <= k * norm (r0 B) -> norm (r1 A) <= k * norm (r1 B) -> norm (r2 A) <= k * norm (r2 B) -> fnorm A <= k * fnorm B.
Proof.
  intros K H0 H1 H2. rewrite !fnorm_rows, <- norm_scale by exact K.
  apply norm_mono; cbn [rows scale v0 v1 v2]; rewrite Rabs_pos_eq by apply norm_nonneg; assumption.
Qed.
Lemma fnorm_mmul A B : fnorm (mmul A B) <= fnorm A * fnorm B.
Proof.
  rewrite Rmult_comm. apply norm_rows_le; [apply fnorm_nonneg|..]; rewrite mmul_rows; cbn [r0 r1 r2];
    rewrite <- (fnorm_transpose B); apply norm_mapply.
Qed.
Lemma fnorm_mmul_rot A Q : rotation Q -> fnorm (mmul A Q) = fnorm A.
Proof.
  intros H. rewrite !fnorm_rows. f_equal. rewrite mmul_rows. unfold rows. cbn [r0 r1 r2].
  now rewrite !(rotation_norm _ _ (rotation_transpose _ H)).
Qed.
Lemma fnorm_rot_mmul P B : rotation P -> fnorm (mmul P B) = fnorm B.
Proof.
  intros H. rewrite <- fnorm_transpose.
  replace (transpose (mmul P B)) with (mmul (transpose B) (transpose P)) by (unfold mmul, transpose, dot; cbn; f_equal; f_equal; ring).
  rewrite fnorm_mmul_rot by now apply rotation_transpose. apply fnorm_transpose.
Qed.
Definition madd (a b : RM) : RM := M3 (vadd (r0 a) (r0 b)) (vadd (r1 a) (r1 b)) (vadd (r2 a) (r2 b)).
Lemma fnorm_triangle A B : fnorm (madd A B) <= fnorm A + fnorm B.
Proof.
  rewrite !fnorm_rows. eapply Rle_trans; [|apply norm_triangle].
  apply norm_mono; cbn [rows madd vadd v0 v1 v2 r0 r1 r2]; rewrite Rabs_pos_eq by apply norm_nonneg; apply (norm_triangle (V3 _ _ _) (V3 _ _ _)).
Qed.
Lemma norm_fnorm_row A : norm (r0 A) <= fnorm A /\ norm (r1 A) <= fnorm A /\ norm (r2 A) <= fnorm A.
Proof.
  rewrite fnorm_rows. pose proof (norm_comp (rows A)) as (H0 & H1 & H2). cbn [rows v0 v1 v2] in *.
  rewrite !Rabs_pos_eq in * by apply norm_nonneg. auto.
Qed.
Lemma mbound_fnorm k t C A E : 0 <= k -> 0 <= t -> mbound k t C A E -> fnorm (msub C A) <= k * fnorm E + 4 * t.
Proof.
  intros K T (B0 & B1 & B2). apply (vbound_norm _ _ _ _ _ K T) in B0, B1, B2.
  rewrite !fnorm_rows. apply Rle_trans with (norm (vadd (scale k (rows E)) (V3 (2 * t) (2 * t) (2 * t)))).
  - apply norm_mono; cbn [rows msub vadd scale v0 v1 v2 r0 r1 r2]; rewrite Rabs_pos_eq by apply norm_nonneg; assumption.
  - eapply Rle_trans; [apply norm_triangle|]. rewrite norm_scale by exact K. apply Rplus_le_compat_l.
    unfold norm, dot. cbn [v0 v1 v2]. rewrite <- (sqrt_square (4 * t)) by lra. apply sqrt_le_1_alt. nra.
Qed.
Lemma fnorm_rotation P : rotation P -> fnorm P <= 1.7320509.
Proof.
  intros H. assert (E : fnorm P * fnorm P = 3).
  { rewrite <- (fnorm_rot_mmul (transpose P) P) by now apply rotation_transpose. destruct H as (_ & -> & _).
    rewrite fnorm_sq. unfold dot, mident. cbn. ring. }
  pose proof (fnorm_nonneg P). nra.
Qed.
Lemma within_norm b a : norm a <= b -> within b a.
Proof. intros H. pose proof (norm_comp a) as (A & B & C). repeat split; lra. Qed.
Lemma mwithin_fnorm b A : fnorm A <= b -> mwithin b A.
Proof. intros H. pose proof (norm_fnorm_row A) as (A0 & A1 & A2). repeat split; apply within_norm; lra. Qed.
Lemma big150 : 10 <= 1e150.
Proof. change 1e150 with (1 * IZR (10 ^ 150)). rewrite <- mult_IZR. apply IZR_le, Z.leb_le. vm_compute. reflexivity. Qed.

(** ** Computed matrices close to rotations *)
Lemma u64_pos : 0 < u64. Proof. rewrite u64_num. lra. Qed.
Lemma t322 : 0 < 1e-322 /\ 1e-322 <= 1e-30.
Proof.
  change 1e-322 with (1 / IZR (10 ^ 322)). split; [apply Rdiv_lt_0_compat; [lra|apply IZR_lt; reflexivity]|].
  change 1e-30 with (1 / IZR (10 ^ 30)). unfold Rdiv. rewrite !Rmult_1_l. apply Rinv_le_contravar; [apply IZR_lt; reflexivity|].
  apply IZR_le, Z.leb_le. vm_compute. reflexivity.
Qed.
Lemma close_rotation A P d : rotation P -> fnorm (msub A P) <= d -> fnorm A <= 1.7320509 + d.
Proof.
  intros H D. replace A with (madd (msub A P) P).
  - eapply Rle_trans; [apply fnorm_triangle|]. pose proof (fnorm_rotation P H). lra.
  - destruct A as [[] [] []], P as [[] [] []]. unfold madd, msub, vadd, vsub. cbn. f_equal; f_equal; ring.
Qed.

Lemma dmxm_rot lm x y A B P Q d e : mat64 x A -> mat64 y B -> rotation P -> rotation Q ->
  fnorm (msub A P) <= d -> fnorm (msub B Q) <= e -> d <= 1e-3 -> e <= 1e-3 ->
  exists C, mat64 (dmxm (N := B64 lm) x y) C /\ fnorm (msub C (mmul P Q)) <= d + e + d * e + 9.1 * u64.
Proof.
  intros X Y HP HQ HD HE D E. pose proof u64_pos as U0. pose proof t322 as (T0 & T1). pose proof big150 as B150.
  pose proof (close_rotation A P d HP HD) as NA. pose proof (close_rotation B Q e HQ HE) as NB.
  pose proof (fnorm_nonneg (msub A P)). pose proof (fnorm_nonneg (msub B Q)).
  destruct (dmxm64 lm x y A B X Y) as (C & FC & EC); [apply mwithin_fnorm; lra..|].
  exists C. split; [exact FC|].
  apply (mbound_fnorm (3.001 * u64) 1e-322) in EC; [|lra|lra].
  assert (K : fnorm (mmul (mabs A) (mabs B)) <= 3.0075).
  { eapply Rle_trans; [apply fnorm_mmul|]. rewrite !fnorm_mabs. pose proof (fnorm_nonneg A). pose proof (fnorm_nonneg B). nra. }
  assert (S : fnorm (msub C (mmul A B)) <= 9.1 * u64) by (rewrite u64_num in *; lra).
  replace (msub C (mmul P Q)) with (madd (msub C (mmul A B)) (madd (mmul (msub A P) (msub B Q)) (madd (mmul (msub A P) Q) (mmul P (msub B Q))))).
  - eapply Rle_trans; [apply fnorm_triangle|]. apply (Rle_trans _ (9.1 * u64 + (d * e + (d + e)))); [|lra].
    apply Rplus_le_compat; [exact S|]. eapply Rle_trans; [apply fnorm_triangle|]. apply Rplus_le_compat.
    + eapply Rle_trans; [apply fnorm_mmul|]. apply Rmult_le_compat; assumption.
    + eapply Rle_trans; [apply fnorm_triangle|]. rewrite fnorm_mmul_rot by exact HQ. rewrite fnorm_rot_mmul by exact HP. lra.
  - clear. destruct A as [[] [] []], P as [[] [] []], B as [[] [] []], Q as [[] [] []], C as [[] [] []].
    unfold madd, msub, mmul, vadd, vsub, dot, col. cbn. f_equal; f_equal; ring.
Qed.

Lemma dmxv_rot lm x y A P a d : mat64 x A -> vec64 y a -> rotation P -> fnorm (msub A P) <= d -> d <= 1e-3 -> within 1e150 a ->
  exists r, vec64 (dmxv (N := B64 lm) x y) r /\ norm (vsub r (mapply P a)) <= (d + 5.3 * u64) * norm a + 1e-321.
Proof.
  intros X Y HP HD D W. pose proof u64_pos as U0. pose proof t322 as (T0 & T1). pose proof big150 as B150.
  pose proof (close_rotation A P d HP HD) as NA. pose proof (fnorm_nonneg (msub A P)).
  destruct (dmxv64 lm x y A a X Y) as (r & FR & ER); [apply mwithin_fnorm; lra|exact W|].
  exists r. split; [exact FR|].
  apply (vbound_norm (3.001 * u64) 1e-322) in ER; [|lra|lra].
  pose proof (norm_mapply (mabs A) (vabs a)) as K. rewrite fnorm_mabs, norm_vabs in K.
  pose proof (norm_mapply (msub A P) a) as K2. pose proof (norm_nonneg a) as N0.
  assert (S : norm (vsub r (mapply P a)) <= norm (vsub r (mapply A a)) + norm (mapply (msub A P) a)).
  { replace (vsub r (mapply P a)) with (vadd (vsub r (mapply A a)) (mapply (msub A P) a)); [apply norm_triangle|].
    clear. destruct A as [[] [] []], P as [[] [] []], a, r. unfold mapply, msub, vadd, vsub, dot. cbn. f_equal; ring. }
  assert (T2 : 2 * 1e-322 <= 1e-321).
  { change 1e-322 with (1 / IZR (10 ^ 322)). change 1e-321 with (1 / IZR (10 ^ 321)).
    replace (IZR (10 ^ 322)) with (10 * IZR (10 ^ 321)) by (rewrite <- mult_IZR; apply f_equal; reflexivity).
    assert (0 < IZR (10 ^ 321)) by (apply IZR_lt; reflexivity). unfold Rdiv. rewrite Rinv_mult. pose proof (Rinv_0_lt_compat _ H0). lra. }
  assert (K3 : fnorm A * norm a <= (1.7320509 + d) * norm a) by (apply Rmult_le_compat_r; lra).
  assert (K4 : fnorm (msub A P) * norm a <= d * norm a) by (apply Rmult_le_compat_r; lra).
  assert (K5 : d * norm a <= 1e-3 * norm a) by (apply Rmult_le_compat_r; lra).
  assert (K7 : 0 <= u64 * norm a) by (apply Rmult_le_pos; lra).
  assert (K6 : u64 * norm (mapply (mabs A) (vabs a)) <= u64 * (1.7331 * norm a)) by (apply Rmult_le_compat_l; lra).
  lra.
Qed.

(** ** deuler *)
Lemma fin_one lm : value64 (n_ofZ 1 : B64 lm) 1. Proof. apply (fin_ofZ 53 1024 1). reflexivity. Qed.
Lemma fin_zero lm : value64 (n_ofZ 0 : B64 lm) 0. Proof. apply (fin_ofZ 53 1024 0). reflexivity. Qed.
Lemma ident64 lm : mat64 (ident (N := B64 lm)) mident.
Proof. repeat split; try apply (fin_one lm); apply (fin_zero lm). Qed.

Lemma fnorm_4 p q r s A : dot (r0 A) (r0 A) + dot (r1 A) (r1 A) + dot (r2 A) (r2 A) = p * p + q * q + r * r + s * s ->
  forall k, Rabs p <= k -> Rabs q <= k -> Rabs r <= k -> Rabs s <= k -> fnorm A <= 2 * k.
Proof.
  intros E k P Q R S. unfold fnorm. rewrite E.
  assert (0 <= k) by (pose proof (Rabs_pos p); lra).
  rewrite <- (sqrt_square (2 * k)) by lra. apply sqrt_le_1_alt.
  assert (G : forall w, Rabs w <= k -> w * w <= k * k).
  { intros w W. rewrite <- (Rabs_pos_eq (w * w)) by apply Rle_0_sqr. rewrite Rabs_mult. pose proof (Rabs_pos w). nra. }
  pose proof (G _ P). pose proof (G _ Q). pose proof (G _ R). pose proof (G _ S). lra.
Qed.

Lemma axis64 lm ch (xs xc : double) s c a k : value64 xs s -> value64 xc c -> Rabs (s - sin a) <= k -> Rabs (c - cos a) <= k ->
  match euler_axis (N := B64 lm) ch xs xc, euler_axis (N := RNum) ch (sin a) (cos a) with
  | Some x, Some P => rotation P /\ exists A, mat64 x A /\ fnorm (msub A P) <= 2 * k
  | None, None => True
  | _, _ => False
  end.
Proof.
  intros XS XC ES EC. unfold euler_axis. pose proof (fin_one lm) as F1. pose proof (fin_zero lm) as F0.
  assert (XN : value64 (Bopp xs) (- s)) by (apply fin_opp; exact XS).
  assert (EN : Rabs (- s - - sin a) <= k) by (replace (- s - - sin a) with (- (s - sin a)) by ring; now rewrite Rabs_Ropp).
  repeat destruct (_ || _)%bool; [..|exact Logic.I].
  - split; [exact (rotation_frame_x a)|]. exists (M3 (V3 1 0 0) (V3 0 c s) (V3 0 (- s) c)). split; [repeat split; first [apply F1|apply F0|apply XS|apply XC|apply XN]|].
    apply (fnorm_4 (c - cos a) (s - sin a) (- s - - sin a) (c - cos a)); try assumption. unfold dot. cbn. ring.
  - split; [exact (rotation_frame_y a)|]. exists (M3 (V3 c 0 (- s)) (V3 0 1 0) (V3 s 0 c)). split; [repeat split; first [apply F1|apply F0|apply XS|apply XC|apply XN]|].
    apply (fnorm_4 (c - cos a) (s - sin a) (- s - - sin a) (c - cos a)); try assumption. unfold dot. cbn. ring.
  - split; [exact (rotation_frame_z a)|]. exists (M3 (V3 c s 0) (V3 (- s) c 0) (V3 0 0 1)). split; [repeat split; first [apply F1|apply F0|apply XS|apply XC|apply XN]|].
    apply (fnorm_4 (c - cos a) (s - sin a) (- s - - sin a) (c - cos a)); try assumption. unfold dot. cbn. ring.
Qed.

Lemma fnorm_self P : fnorm (msub P P) = 0.
Proof. unfold fnorm. rewrite <- sqrt_0. f_equal. destruct P as [[] [] []]. unfold dot, msub, vsub. cbn. ring. Qed.

(** One step adds at most 2.01 k + 9.2 u. *)
Lemma loop64 lm k : libm_ok lm k -> 0 <= k <= 1e-6 -> forall order (xs : list double) (l : list R) y B Q e,
  Forall2 value64 xs l -> mat64 y B -> rotation Q -> fnorm (msub B Q) <= e -> 0 <= e -> e + 1e-5 * INR (List.length l) <= 1e-3 ->
  exists C, mat64 (euler_loop (N := B64 lm) order xs y) C /\
    fnorm (msub C (euler_loop (N := RNum) order l Q)) <= e + INR (List.length l) * (2.01 * k + 9.2 * u64).
Proof.
  intros (HS & HC & _) K. pose proof u64_pos as U0. induction order as [|ch order IH]; intros xs l y B Q e XL Y HQ HE E0 EL.
  - cbn. exists B. split; [exact Y|]. pose proof (pos_INR (List.length l)). assert (0 <= INR (List.length l) * (2.01 * k + 9.2 * u64)) by (apply Rmult_le_pos; lra). lra.
  - destruct XL as [|x a xs l XA XL].
    + cbn. exists B. split; [exact Y|]. lra.
    + cbn [euler_loop]. cbn [List.length] in *. rewrite S_INR in *. pose proof (pos_INR (List.length l)) as L0.
      destruct (HS x a XA) as (s & XS & _ & ES). destruct (HC x a XA) as (c & XC & _ & EC).
      pose proof (axis64 lm ch _ _ s c a k XS XC ES EC) as AX.
      change (n_sin (x : B64 lm)) with (m_sin 53 1024 lm x). change (n_cos (x : B64 lm)) with (m_cos 53 1024 lm x).
      change (n_sin (a : RNum)) with (sin a). change (n_cos (a : RNum)) with (cos a).
      destruct (euler_axis (N := B64 lm) ch _ _) as [z|], (euler_axis (N := RNum) ch _ _) as [P|]; try contradiction.
      * destruct AX as (HP & A & Z & EA).
        destruct (dmxm_rot lm z y A B P Q (2 * k) e Z Y HP HQ EA HE) as (C & FC & ECC); [lra|lra|].
        assert (Q2 : dmxm (N := RNum) P Q = mmul P Q) by apply L_Vec.dmxm_mmul.
        rewrite Q2.
        destruct (IH xs l _ C (mmul P Q) (e + (2.01 * k + 9.2 * u64)) XL FC) as (D & FD & ED).
        -- now apply rotation_mmul.
        -- eapply Rle_trans; [exact ECC|]. nra.
        -- lra.
        -- rewrite u64_num. lra.
        -- exists D. split; [exact FD|]. lra.
      * destruct (dmxm_rot lm _ y mident B mident Q 0 e (ident64 lm) Y rotation_ident HQ) as (C & FC & ECC); [rewrite fnorm_self; lra|exact HE|lra|lra|].
        exists C. split; [exact FC|].
        replace (dmxm (N := RNum) (ident (N := RNum)) Q) with (mmul mident Q) by (symmetry; apply L_Vec.dmxm_mmul).
        assert (0 <= INR (List.length l) * (2.01 * k + 9.2 * u64)) by (apply Rmult_le_pos; lra). lra.
Qed.

Lemma deuler64 lm k order x y z a b c m : libm_ok lm k -> 0 <= k <= 1e-6 -> value64 x a -> value64 y b -> value64 z c -> euler order [a; b; c] m ->
  exists C, mat64 (deuler (N := B64 lm) order x y z) C /\ fnorm (msub C m) <= 6.03 * k + 27.6 * u64.
Proof.
  intros L K X Y Z E.
  assert (F : Forall2 value64 [x; y; z] [a; b; c]) by (apply Forall2_cons; [exact X|]; apply Forall2_cons; [exact Y|]; apply Forall2_cons; [exact Z|]; apply Forall2_nil).
  destruct (loop64 lm k L K order [x; y; z] [a; b; c] _ _ mident 0 F (ident64 lm) rotation_ident) as (C & FC & EC).
  - rewrite fnorm_self. lra.
  - lra.
  - cbn. lra.
  - exists C. split; [exact FC|].
    rewrite (euler_det _ _ _ _ E (deuler_spec order a b c)). unfold deuler.
    eapply Rle_trans; [exact EC|]. cbn [List.length INR]. lra.
Qed.
