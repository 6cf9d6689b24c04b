(** Precession matrices, ecliptic and galactic conversions in binary64. *)
From Coq Require Import ZArith Reals Bool List String Lia Lra Psatz.
From Flocq Require Import Core BinarySingleNaN Relative.
From Verif Require Import Int32 Num NumB NumR M_Angle M_Vec M_Frame M_Epoch S_Geom S_Sphere S_Frame S_Binary S_Float L_Bin L_Flt L_FltVec L_Float.
From Verif Require Import L_Real L_Vec L_Rot L_Frame L_Trig L_FloatVec L_FloatMat L_FltGeo L_FloatSph L_Err L_ErrT.
From Verif Require L_FrameGal L_BinAngle L_Binary L_Pi L_Gal.
Import ListNotations.
Open Scope R_scope.

(** ** Rotations by nearby angles *)
Lemma fnorm_turn (f : R -> RM) : f = frame_x \/ f = frame_y \/ f = frame_z -> forall a b, fnorm (msub (f a) (f b)) <= 1.415 * Rabs (a - b).
Proof.
  intros F a b. assert (C : cos (Rabs (a - b)) = cos (a - b)) by (unfold Rabs; destruct (Rcase_abs _); [apply cos_neg|reflexivity]).
  pose proof (cos_quadratic (Rabs (a - b))) as Q. rewrite C, cos_minus in Q. pose proof (Rabs_pos (a - b)) as P. set (d := Rabs (a - b)) in *.
  assert (E : fnorm (msub (f a) (f b)) * fnorm (msub (f a) (f b)) = 4 * (1 - (cos a * cos b + sin a * sin b))).
  { rewrite fnorm_sq. pose proof (sin2_cos2 a) as A. pose proof (sin2_cos2 b) as B. unfold Rsqr in A, B.
    destruct F as [-> | [-> | ->]]; unfold dot, msub, vsub, frame_x, frame_y, frame_z; cbn [r0 r1 r2 v0 v1 v2]; nra. }
  pose proof (fnorm_nonneg (msub (f a) (f b))). nra.
Qed.
Lemma msub_via A B C : fnorm (msub A C) <= fnorm (msub A B) + fnorm (msub B C).
Proof.
  replace (msub A C) with (madd (msub A B) (msub B C)); [apply fnorm_triangle|].
  destruct A as [[] [] []], B as [[] [] []], C as [[] [] []]. unfold madd, msub, vadd, vsub. cbn. f_equal; f_equal; ring.
Qed.
Lemma mmul_msub_l A B C : mmul (msub A B) C = msub (mmul A C) (mmul B C).
Proof. destruct A as [[] [] []], B as [[] [] []], C as [[] [] []]. unfold mmul, msub, vsub, mapply, dot. cbn. f_equal; f_equal; ring. Qed.
Lemma mmul_msub_r A B C : mmul A (msub B C) = msub (mmul A B) (mmul A C).
Proof. destruct A as [[] [] []], B as [[] [] []], C as [[] [] []]. unfold mmul, msub, vsub, mapply, dot. cbn. f_equal; f_equal; ring. Qed.
Lemma fnorm_prod P Q P' Q' : rotation P -> rotation Q' -> fnorm (msub (mmul P Q) (mmul P' Q')) <= fnorm (msub P P') + fnorm (msub Q Q').
Proof.
  intros RP RQ. eapply Rle_trans; [apply (msub_via _ (mmul P Q'))|]. rewrite <- mmul_msub_r, <- mmul_msub_l.
  rewrite (fnorm_rot_mmul P _ RP), (fnorm_mmul_rot _ Q' RQ). lra.
Qed.
Lemma precession_lip z1 z2 t1 t2 y1 y2 : fnorm (msub (precession z1 y1 t1) (precession z2 y2 t2)) <= 1.415 * (Rabs (z1 - z2) + Rabs (y1 - y2) + Rabs (t1 - t2)).
Proof.
  unfold precession.
  eapply Rle_trans; [apply fnorm_prod; [apply rotation_frame_z|apply rotation_mmul; [apply rotation_frame_y|apply rotation_frame_z]]|].
  pose proof (fnorm_turn frame_z ltac:(auto) (- y1) (- y2)) as A.
  pose proof (fnorm_prod (frame_y t1) (frame_z (- z1)) (frame_y t2) (frame_z (- z2)) (rotation_frame_y _) (rotation_frame_z _)) as B.
  pose proof (fnorm_turn frame_z ltac:(auto) (- z1) (- z2)) as C. pose proof (fnorm_turn frame_y ltac:(auto) t1 t2) as D.
  replace (- y1 - - y2) with (- (y1 - y2)) in A by ring. replace (- z1 - - z2) with (- (z1 - z2)) in C by ring. rewrite Rabs_Ropp in A, C. lra.
Qed.
Lemma zyz64 lm k (x y z : double) a b c e f g : libm_ok lm k -> 0 <= k <= 1e-6 -> near 53 1024 x a e -> near 53 1024 y b f -> near 53 1024 z c g ->
  exists C, mat64 (deuler (N := B64 lm) "ZYZ"%string (Bopp x) z (Bopp y)) C /\ fnorm (msub C (precession a b c)) <= 6.03 * k + 27.6 * u64 + 1.415 * (e + f + g).
Proof.
  intros L K (a' & FX & EX) (b' & FY & EY) (c' & FZ & EZ).
  assert (EU : euler "ZYZ"%string [- a'; c'; - b'] (mmul (mmul (mmul mident (frame_z (- b'))) (frame_y c')) (frame_z (- a')))).
  { do 3 (apply euler_turn; [reflexivity|]). apply euler_no_angle. }
  destruct (deuler64 lm k "ZYZ"%string _ _ _ _ _ _ _ L K (fin_opp _ _ _ _ FX) FZ (fin_opp _ _ _ _ FY) EU) as (C & FC & EC).
  exists C. split; [exact FC|]. replace (mmul (mmul (mmul mident _) _) _) with (precession a' b' c') in EC by (unfold precession; now rewrite mmul_ident_l, mmul_assoc).
  eapply Rle_trans; [apply (msub_via _ (precession a' b' c'))|]. pose proof (precession_lip a' a c' c b' b) as PL. lra.
Qed.

(** ** The three precession models, epochs between years 0 and 4000 *)
Definition yr : item := It (0 * Sc) (4000 * Sc) 0.
Lemma yr2 (x y : double) a b : value64 x a -> value64 y b -> 0 <= a <= 4000 -> 0 <= b <= 4000 -> okenv [yr; yr] [x; y] [a; b].
Proof. intros X Y A B. split; [now apply okk_in|]. split; [now apply okk_in|exact Logic.I]. Qed.
Lemma k1 k : 0 <= k <= 1e-6 -> k <= V Sc.
Proof. intros K. replace (V Sc) with 1 by (unfold V; field; apply Rgt_not_eq, Sc_pos). lra. Qed.

Lemma prec_angles64 lm k x y a b : libm_ok lm k -> 0 <= k <= 1e-6 -> value64 x a -> value64 y b -> 0 <= a <= 4000 -> 0 <= b <= 4000 ->
  let p := prec_angles (N := B64 lm) x y in let q := prec_angles (N := RNum) a b in
  near 53 1024 (fst (fst p)) (fst (fst q)) 5e-16 /\ near 53 1024 (snd (fst p)) (snd (fst q)) 5e-16 /\ near 53 1024 (snd p) (snd q) 5e-16.
Proof.
  intros L K X Y A B. pose proof (yr2 x y a b X Y A B) as OK. pose proof (k1 k K) as HK.
  unfold prec_angles, as2r. cbv zeta. cbn [fst snd]. 
  split; [|split]; err (ana_sound lm k Sc L HK) lm Sc [yr; yr] [x; y] [a; b] OK.
Qed.
Lemma prebn_angles64 lm k x y a b : libm_ok lm k -> 0 <= k <= 1e-6 -> value64 x a -> value64 y b -> 0 <= a <= 4000 -> 0 <= b <= 4000 ->
  let p := prebn_angles (N := B64 lm) x y in let q := prebn_angles (N := RNum) a b in
  near 53 1024 (fst (fst p)) (fst (fst q)) 5e-16 /\ near 53 1024 (snd (fst p)) (snd (fst q)) 5e-16 /\ near 53 1024 (snd p) (snd q) 5e-16.
Proof.
  intros L K X Y A B. pose proof (yr2 x y a b X Y A B) as OK. pose proof (k1 k K) as HK.
  unfold prebn_angles, as2r. cbv zeta. cbn [fst snd]. 
  split; [|split]; err (ana_sound lm k Sc L HK) lm Sc [yr; yr] [x; y] [a; b] OK.
Qed.
Lemma precl_angles64 lm k x y a b : libm_ok lm k -> 0 <= k <= 1e-6 -> value64 x a -> value64 y b -> 0 <= a <= 4000 -> 0 <= b <= 4000 ->
  let p := precl_angles (N := B64 lm) x y in let q := precl_angles (N := RNum) a b in
  near 53 1024 (fst (fst p)) (fst (fst q)) 5e-16 /\ near 53 1024 (snd (fst p)) (snd (fst q)) 5e-16 /\ near 53 1024 (snd p) (snd q) 5e-16.
Proof.
  intros L K X Y A B. pose proof (yr2 x y a b X Y A B) as OK. pose proof (k1 k K) as HK.
  unfold precl_angles, as2r. cbv zeta. cbn [fst snd]. 
  split; [|split]; err (ana_sound lm k Sc L HK) lm Sc [yr; yr] [x; y] [a; b] OK.
Qed.
Lemma real_precession (ep0 ep1 : R) :
  (let q := prec_angles (N := RNum) ep0 ep1 in precession (fst (fst q)) (snd (fst q)) (snd q)) = iau1976_precession ep0 ep1 /\
  (let q := prebn_angles (N := RNum) ep0 ep1 in precession (fst (fst q)) (snd (fst q)) (snd q)) = newcomb_precession ep0 ep1 /\
  (let q := precl_angles (N := RNum) ep0 ep1 in precession (fst (fst q)) (snd (fst q)) (snd q)) = simon_precession ep0 ep1.
Proof.
  rewrite <- prec_spec, <- prebn_spec, <- precl_spec. unfold prec, prebn, precl.
  destruct (prec_angles (N := RNum) ep0 ep1) as [[a b] c]. destruct (prebn_angles (N := RNum) ep0 ep1) as [[d e] f]. destruct (precl_angles (N := RNum) ep0 ep1) as [[g h] i].
  cbv zeta. cbn [fst snd]. change (car RNum) with R in *.
  rewrite !(deuler_3 _ _ _ frame_z frame_y frame_z) by reflexivity. repeat split; reflexivity.
Qed.
Lemma prec64 lm k x y a b : libm_ok lm k -> 0 <= k <= 1e-6 -> value64 x a -> value64 y b -> 0 <= a <= 4000 -> 0 <= b <= 4000 ->
  exists C, mat64 (prec (N := B64 lm) x y) C /\ fnorm (msub C (iau1976_precession a b)) <= 6.03 * k + 48 * u64.
Proof.
  intros L K X Y A B. destruct (prec_angles64 lm k x y a b L K X Y A B) as (P & Q & R). destruct (real_precession a b) as (E & _). cbv zeta in *.
  destruct (zyz64 lm k _ _ _ _ _ _ _ _ _ L K P Q R) as (C & FC & EC). exists C. split.
  - unfold prec. destruct (prec_angles (N := B64 lm) x y) as [[p q] r]. exact FC.
  - rewrite E in EC. rewrite u64_num in *. lra.
Qed.
Lemma prebn64 lm k x y a b : libm_ok lm k -> 0 <= k <= 1e-6 -> value64 x a -> value64 y b -> 0 <= a <= 4000 -> 0 <= b <= 4000 ->
  exists C, mat64 (prebn (N := B64 lm) x y) C /\ fnorm (msub C (newcomb_precession a b)) <= 6.03 * k + 48 * u64.
Proof.
  intros L K X Y A B. destruct (prebn_angles64 lm k x y a b L K X Y A B) as (P & Q & R). destruct (real_precession a b) as (_ & E & _). cbv zeta in *.
  destruct (zyz64 lm k _ _ _ _ _ _ _ _ _ L K P Q R) as (C & FC & EC). exists C. split.
  - unfold prebn. destruct (prebn_angles (N := B64 lm) x y) as [[p q] r]. exact FC.
  - rewrite E in EC. rewrite u64_num in *. lra.
Qed.
Lemma precl64 lm k x y a b : libm_ok lm k -> 0 <= k <= 1e-6 -> value64 x a -> value64 y b -> 0 <= a <= 4000 -> 0 <= b <= 4000 ->
  exists C, mat64 (precl (N := B64 lm) x y) C /\ fnorm (msub C (simon_precession a b)) <= 6.03 * k + 48 * u64.
Proof.
  intros L K X Y A B. destruct (precl_angles64 lm k x y a b L K X Y A B) as (P & Q & R). destruct (real_precession a b) as (_ & _ & E). cbv zeta in *.
  destruct (zyz64 lm k _ _ _ _ _ _ _ _ _ L K P Q R) as (C & FC & EC). exists C. split.
  - unfold precl. destruct (precl_angles (N := B64 lm) x y) as [[p q] r]. exact FC.
  - rewrite E in EC. rewrite u64_num in *. lra.
Qed.

(** ** From angles through a matrix back to angles *)
Definition by64 (x : vec double) (w : RV) (e : R) : Prop := exists r, vec64 x r /\ norm (vsub r w) <= e.
Lemma start64 lm k x y a b : libm_ok lm k -> value64 x a -> value64 y b -> by64 (dcs2c (N := B64 lm) (Sph (N := B64 lm) x y)) (direction a b) (3 * k + 1.5 * u64).
Proof. exact (dcs2c64 lm k x y a b). Qed.
Lemma mapply_vsub A p q : mapply A (vsub p q) = vsub (mapply A p) (mapply A q).
Proof. unfold mapply, vsub, dot. cbn [v0 v1 v2]. f_equal; ring. Qed.
Lemma mapply_msub A B p : mapply (msub A B) p = vsub (mapply A p) (mapply B p).
Proof. unfold mapply, msub, vsub, dot. cbn [r0 r1 r2 v0 v1 v2]. f_equal; ring. Qed.
Lemma vadd_vsub (p q : RV) : vadd (vsub p q) q = p.
Proof. destruct p, q. unfold vadd, vsub. cbn. f_equal; ring. Qed.
Lemma turn64 lm x y A P M d f w e : mat64 x A -> rotation P -> fnorm (msub A P) <= d -> d <= 1e-3 -> fnorm (msub A M) <= f ->
  by64 y w e -> norm w <= 1.001 -> e <= 1e-3 -> by64 (dmxv (N := B64 lm) x y) (mapply M w) (1.001 * (e + f) + 5.32 * u64).
Proof.
  intros X HP HD D HF (q & FQ & EQ) N E. pose proof u64_pos as U0. pose proof t322 as (T0 & T1). pose proof big150 as B150.
  pose proof (close_rotation A P d HP HD) as NA. pose proof (fnorm_nonneg (msub A P)). pose proof (fnorm_nonneg (msub A M)) as F0.
  pose proof (norm_lip q w) as NQ. apply Rabs_le_inv in NQ. pose proof (norm_nonneg (vsub q w)) as E0. pose proof (norm_nonneg q) as Q0.
  destruct (dmxv64 lm x y A q X FQ) as (r & FR & ER); [apply mwithin_fnorm; lra|apply L_FloatMat.within_norm; lra|].
  exists r. split; [exact FR|]. apply (vbound_norm (3.001 * u64) 1e-322) in ER; [|lra|lra].
  pose proof (norm_mapply (mabs A) (vabs q)) as K. rewrite fnorm_mabs, norm_vabs in K.
  assert (K1 : norm (mapply (mabs A) (vabs q)) <= 1.7331 * 1.0021) by (eapply Rle_trans; [exact K|]; apply Rmult_le_compat; try lra; apply fnorm_nonneg).
  assert (S1 : norm (vsub r (mapply A q)) <= 5.32 * u64).
  { assert (3.001 * u64 * norm (mapply (mabs A) (vabs q)) <= 3.001 * u64 * (1.7331 * 1.0021)) by (apply Rmult_le_compat_l; lra).
    assert (1e-30 <= 1e-10 * u64) by (rewrite u64_num; lra). lra. }
  assert (S2 : norm (vsub (mapply A q) (mapply A w)) <= 1.001 * e).
  { rewrite <- mapply_vsub. replace (mapply A (vsub q w)) with (vadd (mapply (msub A P) (vsub q w)) (mapply P (vsub q w))).
    - eapply Rle_trans; [apply norm_triangle|]. rewrite (rotation_norm P _ HP). pose proof (norm_mapply (msub A P) (vsub q w)). nra.
    - rewrite mapply_msub. apply vadd_vsub. }
  assert (S3 : norm (vsub (mapply A w) (mapply M w)) <= 1.001 * f).
  { rewrite <- mapply_msub. pose proof (norm_mapply (msub A M) w). pose proof (norm_nonneg w). nra. }
  pose proof (vsub_via r (mapply A q) (mapply M w)). pose proof (vsub_via (mapply A q) (mapply A w) (mapply M w)). lra.
Qed.
Lemma msub_transpose A B : msub (transpose A) (transpose B) = transpose (msub A B). Proof. reflexivity. Qed.
Lemma back64 lm x y A P M d f w e : mat64 x A -> rotation P -> fnorm (msub A P) <= d -> d <= 1e-3 -> fnorm (msub A M) <= f ->
  by64 y w e -> norm w <= 1.001 -> e <= 1e-3 -> by64 (dimxv (N := B64 lm) x y) (mapply (transpose M) w) (1.001 * (e + f) + 5.32 * u64).
Proof.
  intros X HP HD D HF Y N E.
  refine (turn64 lm _ y (transpose A) (transpose P) (transpose M) d f w e (mat64_transpose lm x A X) (rotation_transpose _ HP) _ D _ Y N E);
    rewrite msub_transpose, fnorm_transpose; assumption.
Qed.
Lemma ends64 lm k x w e : libm_ok lm k -> by64 x w e -> 0.9 <= norm w <= 1.1 -> e <= 1e-3 * norm w ->
  exists t b, value64 (s_a (dcc2s (N := B64 lm) x)) t /\ value64 (s_b (dcc2s (N := B64 lm) x)) b /\
    Rabs t <= PI + 2 * k /\ Rabs b <= PI / 2 + 2 * k /\ norm (vsub (direction t b) (unit_of w)) <= 4 * k + 2.6 * u64 + 1.002 * (e / norm w).
Proof.
  intros L (r & FR & ER) N E. pose proof (norm_lip r w) as NQ. apply Rabs_le_inv in NQ. pose proof big150 as B150.
  assert (S : 1e-130 <= norm r).
  { apply Rle_trans with (1 / IZR 2); [change 1e-130 with (1 / IZR (10 ^ 130)); apply inv_le; [reflexivity|vm_compute; reflexivity]|lra]. }
  destruct (dcc2s64 lm k x r L FR) as (t & b & FT & FB & T & B & D); [apply L_FloatMat.within_norm; lra|exact S|].
  exists t, b. do 4 (split; [assumption|]).
  pose proof (unit_near r w (e / norm w)) as UN. replace (e / norm w * norm w) with e in UN by (field; lra).
  specialize (UN ltac:(lra) ER). assert (e / norm w <= 1e-3) by (apply Rmult_le_reg_r with (norm w); [lra|]; replace (e / norm w * norm w) with e by (field; lra); exact E).
  specialize (UN H). pose proof (vsub_via (direction t b) (unit_of r) (unit_of w)). lra.
Qed.
Lemma conv64 lm k (s : sph (B64 lm)) t b : 0 <= k <= 1e-6 -> value64 (s_a s) t -> value64 (s_b s) b -> Rabs t <= PI + 2 * k -> Rabs b <= PI / 2 + 2 * k ->
  s_b (conv_range (N := B64 lm) s) = s_b s /\ exists c, value64 (s_a (conv_range (N := B64 lm) s)) c /\ 0 <= c <= 2 * pi_double /\    norm (vsub (direction c b) (direction t b)) <= 6.3 * u64.
Proof.
  intros K T B BT BB. pose proof L_Pi.PI_bounds as PB. assert (PD : 3.1 <= pi_double <= 3.2) by (unfold pi_double; lra). split.
  - cbn [conv_range s_b]. apply (L_Binary.drange64_id lm (s_b s) b B). lra.
  - destruct (L_Binary.dranrm64 lm _ t T) as (j & c & FC & RC & _ & J & _ & D). exists c. split; [exact FC|]. split; [exact RC|].
    apply Rabs_le_inv in BT. assert (J1 : (-2 < j)%Z) by (apply lt_IZR; nra). assert (J2 : (j < 1)%Z) by (apply lt_IZR; nra).
    assert (JJ : Rabs (IZR j) <= 1) by (apply Rabs_le; change (- (1)) with (IZR (-1)); split; apply IZR_le; lia).
    assert (DD : Rabs (c - (t - IZR j * (2 * PI))) <= 6.3 * u64) by (eapply Rle_trans; [exact D|]; rewrite u64_num; lra).
    replace (direction t b) with (direction (t - IZR j * (2 * PI)) b).
    + eapply Rle_trans; [apply norm_dir_lon|exact DD].
    + assert (JC : j = 0%Z \/ j = (-1)%Z) by lia. destruct JC as [-> | ->].
      * f_equal. ring.
      * unfold direction. replace (t - IZR (-1) * (2 * PI)) with (t + 2 * PI) by ring.
        pose proof (cos_period t 1) as C1. pose proof (sin_period t 1) as S1. cbn [INR] in C1, S1. rewrite Rmult_1_r in C1, S1. now rewrite C1, S1.
Qed.
Lemma finish64 lm k x w e : libm_ok lm k -> 0 <= k <= 1e-6 -> by64 x w e -> 0.9 <= norm w <= 1.1 -> e <= 1e-3 * norm w ->
  let s := conv_range (N := B64 lm) (dcc2s (N := B64 lm) x) in exists c d, value64 (s_a s) c /\ value64 (s_b s) d /\
    0 <= c <= 2 * pi_double /\ Rabs d <= PI / 2 + 2 * k /\ norm (vsub (direction c d) (unit_of w)) <= 4 * k + 8.9 * u64 + 1.002 * (e / norm w).
Proof.
  intros L K X N E s. destruct (ends64 lm k x w e L X N E) as (t & b & T & B & RT & RB & D).
  destruct (conv64 lm k _ t b K T B RT RB) as (EB & c & FC & RC & DC). fold s in EB, FC. exists c, b. split; [exact FC|]. rewrite EB. split; [exact B|].
  do 2 (split; [assumption|]). pose proof (vsub_via (direction c b) (direction t b) (unit_of w)). lra.
Qed.

(** ** The ecliptic *)
Definition mjd4000 : item := It (-678000 * Sc) (782000 * Sc) 0.
Lemma date1 (x : double) a : value64 x a -> -678000 <= a <= 782000 -> okenv [mjd4000] [x] [a].
Proof. intros X A. split; [now apply okk_in|exact Logic.I]. Qed.
Lemma date_angles64 lm k x a : libm_ok lm k -> 0 <= k <= 1e-6 -> value64 x a -> -678000 <= a <= 782000 ->
  let p := prec_angles (N := B64 lm) (n_ofZ (n := B64 lm) 2000) (epj (N := B64 lm) x) in let q := prec_angles (N := RNum) 2000 (epj (N := RNum) a) in
  near 53 1024 (fst (fst p)) (fst (fst q)) 5e-16 /\ near 53 1024 (snd (fst p)) (snd (fst q)) 5e-16 /\ near 53 1024 (snd p) (snd q) 5e-16.
Proof.
  intros L K X A. pose proof (date1 x a X A) as OK. pose proof (k1 k K) as HK. change 2000 with (n_ofZ (n := RNum) 2000).
  unfold prec_angles, as2r, epj. cbv zeta. cbn [fst snd].
  split; [|split]; err (ana_sound lm k Sc L HK) lm Sc [mjd4000] [x] [a] OK.
Qed.
Lemma precdate64 lm k x a : libm_ok lm k -> 0 <= k <= 1e-6 -> value64 x a -> -678000 <= a <= 782000 ->
  exists C, mat64 (prec (N := B64 lm) (n_ofZ (n := B64 lm) 2000) (epj (N := B64 lm) x)) C /\ fnorm (msub C (iau1976_precession 2000 (julian_year a))) <= 6.03 * k + 48 * u64.
Proof.
  intros L K X A. destruct (date_angles64 lm k x a L K X A) as (P & Q & R). rewrite <- epj_spec. destruct (real_precession 2000 (epj (N := RNum) a)) as (E & _). cbv zeta in *.
  destruct (zyz64 lm k _ _ _ _ _ _ _ _ _ L K P Q R) as (C & FC & EC). exists C. split.
  - unfold prec. destruct (prec_angles (N := B64 lm) (n_ofZ (n := B64 lm) 2000) (epj (N := B64 lm) x)) as [[p q] r]. exact FC.
  - rewrite E in EC. rewrite u64_num in *. lra.
Qed.
Definition phi_of {N : Num} (date : N) : N :=
  let t := ((date - n_lit 515445 (-1)) / n_ofZ 36525)%num in
  (as2r * (n_lit 84381448 (-3) + (n_lit (-46815) (-3) + (n_lit (-59) (-5) + n_lit 1813 (-6) * t) * t) * t))%num.
Lemma phi_real a : phi_of (N := RNum) a = obliquity a.
Proof.
  unfold phi_of. cbv zeta. rewrite as2r_arcsec. unfold obliquity, centuries_J2000. cbv zeta. unR. generalize arcsec as k. intros k. decs. field.
Qed.
Lemma phi64 lm k x a : libm_ok lm k -> 0 <= k <= 1e-6 -> value64 x a -> -678000 <= a <= 782000 -> near 53 1024 (phi_of (N := B64 lm) x) (obliquity a) 5e-16.
Proof.
  intros L K X A. pose proof (date1 x a X A) as OK. pose proof (k1 k K) as HK. rewrite <- phi_real. unfold phi_of, as2r. cbv zeta.
  err (ana_sound lm k Sc L HK) lm Sc [mjd4000] [x] [a] OK.
Qed.
Lemma ecmat64 lm k x a : libm_ok lm k -> 0 <= k <= 1e-6 -> value64 x a -> -678000 <= a <= 782000 ->
  exists C, mat64 (ecmat (N := B64 lm) x) C /\ fnorm (msub C (frame_x (obliquity a))) <= 6.03 * k + 34 * u64.
Proof.
  intros L K X A. destruct (phi64 lm k x a L K X A) as (p & FP & EP).
  assert (EU : euler "X"%string [p; 0; 0] (mmul mident (frame_x p))) by (apply euler_turn; [reflexivity|]; apply euler_no_order).
  destruct (deuler64 lm k "X"%string _ _ _ _ _ _ _ L K FP (fin_zero lm) (fin_zero lm) EU) as (C & FC & EC).
  exists C. split; [exact FC|]. rewrite mmul_ident_l in EC. pose proof (fnorm_turn frame_x ltac:(auto) p (obliquity a)).
  pose proof (msub_via C (frame_x p) (frame_x (obliquity a))). rewrite u64_num in *. lra.
Qed.
Lemma norm_turned P w : rotation P -> norm w = 1 -> norm (mapply P w) = 1.
Proof. intros H W. now rewrite (rotation_norm P w H). Qed.
Lemma obl_rotation a : rotation (frame_x (obliquity a)). Proof. apply rotation_frame_x. Qed.
Lemma iau_rotation a b : rotation (iau1976_precession a b). Proof. apply precession_rotation. Qed.
Lemma fnorm_pos_le A e : fnorm A <= e -> 0 <= e. Proof. pose proof (fnorm_nonneg A). lra. Qed.
Lemma unit1 w : norm w = 1 -> unit_of w = w. Proof. apply unit_of_unit. Qed.

Lemma eqecl64 lm k x y z a b c : libm_ok lm k -> 0 <= k <= 1e-6 -> value64 x a -> value64 y b -> value64 z c -> -678000 <= c <= 782000 ->
  let s := eqecl (N := B64 lm) (Sph (N := B64 lm) x y) z in exists p q, value64 (s_a s) p /\ value64 (s_b s) q /\
    0 <= p <= 2 * pi_double /\ Rabs q <= PI / 2 + 2 * k /\ norm (vsub (direction p q) (mapply (ecliptic_frame c) (direction a b))) <= 20 * k + 104 * u64.
Proof.
  intros L K X Y Z C. pose proof u64_pos as U0. assert (U1 : u64 <= 1e-15) by (rewrite u64_num; lra).
  destruct (precdate64 lm k z c L K Z C) as (P & FP & EP). destruct (ecmat64 lm k z c L K Z C) as (Q & FQ & EQ).
  pose proof (norm_direction a b) as N0. pose proof (start64 lm k x y a b L X Y) as S0.
  pose proof (norm_turned _ _ (iau_rotation 2000 (julian_year c)) N0) as N1.
  pose proof (turn64 lm _ _ _ _ _ _ _ _ _ FP (iau_rotation _ _) EP ltac:(lra) EP S0 ltac:(lra) ltac:(lra)) as S1.
  pose proof (norm_turned _ _ (obl_rotation c) N1) as N2.
  pose proof (turn64 lm _ _ _ _ _ _ _ _ _ FQ (obl_rotation _) EQ ltac:(lra) EQ S1 ltac:(lra) ltac:(lra)) as S2.
  destruct (finish64 lm k _ _ _ L K S2 ltac:(lra) ltac:(lra)) as (p & q & FC & FD & RC & RD & E). rewrite unit1 in E by exact N2.
  exists p, q. split; [exact FC|]. split; [exact FD|]. split; [exact RC|]. split; [exact RD|].
  unfold ecliptic_frame. rewrite mapply_mmul. rewrite N2 in E. lra.
Qed.
Lemma ecleq64 lm k x y z a b c : libm_ok lm k -> 0 <= k <= 1e-6 -> value64 x a -> value64 y b -> value64 z c -> -678000 <= c <= 782000 ->
  let s := ecleq (N := B64 lm) (Sph (N := B64 lm) x y) z in exists p q, value64 (s_a s) p /\ value64 (s_b s) q /\
    0 <= p <= 2 * pi_double /\ Rabs q <= PI / 2 + 2 * k /\ norm (vsub (direction p q) (mapply (transpose (ecliptic_frame c)) (direction a b))) <= 20 * k + 104 * u64.
Proof.
  intros L K X Y Z C. pose proof u64_pos as U0. assert (U1 : u64 <= 1e-15) by (rewrite u64_num; lra).
  destruct (precdate64 lm k z c L K Z C) as (P & FP & EP). destruct (ecmat64 lm k z c L K Z C) as (Q & FQ & EQ).
  pose proof (norm_direction a b) as N0. pose proof (start64 lm k x y a b L X Y) as S0.
  pose proof (norm_turned _ _ (rotation_transpose _ (obl_rotation c)) N0) as N1.
  pose proof (back64 lm _ _ _ _ _ _ _ _ _ FQ (obl_rotation _) EQ ltac:(lra) EQ S0 ltac:(lra) ltac:(lra)) as S1.
  pose proof (norm_turned _ _ (rotation_transpose _ (iau_rotation 2000 (julian_year c))) N1) as N2.
  pose proof (back64 lm _ _ _ _ _ _ _ _ _ FP (iau_rotation _ _) EP ltac:(lra) EP S1 ltac:(lra) ltac:(lra)) as S2.
  destruct (finish64 lm k _ _ _ L K S2 ltac:(lra) ltac:(lra)) as (p & q & FC & FD & RC & RD & E). rewrite unit1 in E by exact N2.
  exists p, q. split; [exact FC|]. split; [exact FD|]. split; [exact RC|]. split; [exact RD|].
  unfold ecliptic_frame. rewrite transpose_mmul, mapply_mmul. rewrite N2 in E. lra.
Qed.
Lemma rot_back P v : rotation P -> mapply (transpose P) (mapply P v) = v /\ mapply P (mapply (transpose P) v) = v.
Proof. intros (E & F & _). now rewrite <- !mapply_mmul, E, F, mapply_ident. Qed.
(** ** preces *)
Lemma longitude64 lm k (x : double) t b : 0 <= k <= 1e-6 -> value64 x t -> Rabs t <= PI + 2 * k ->
  exists c, value64 (dranrm (N := B64 lm) x) c /\ 0 <= c <= 2 * pi_double /\ norm (vsub (direction c b) (direction t b)) <= 6.3 * u64.
Proof.
  intros K T R. destruct (conv64 lm k (Sph (N := B64 lm) x (n_ofZ (n := B64 lm) 0)) t 0 K T (fin_zero lm) R) as (_ & c & FC & RC & D).
  - rewrite Rabs_R0. pose proof L_Pi.PI_bounds. lra.
  - exists c. split; [exact FC|]. split; [exact RC|]. revert D. unfold norm. intros D. eapply Rle_trans; [|exact D]. apply sqrt_le_1_alt.
    unfold dot, vsub, direction. cbn [v0 v1 v2]. rewrite cos_0, sin_0. pose proof (COS_bound b). pose proof (Rle_0_sqr (cos c - cos t)). pose proof (Rle_0_sqr (sin c - sin t)). unfold Rsqr in *. 
    assert (cos b * cos b <= 1) by nra. nra.
Qed.
Lemma preces_go lm k (m : mat (B64 lm)) A P d x y a b : libm_ok lm k -> 0 <= k <= 1e-6 -> mat64 m A -> rotation P -> fnorm (msub A P) <= d -> d <= 1e-4 -> value64 x a -> value64 y b ->
  let s := dcc2s (N := B64 lm) (dmxv (N := B64 lm) m (dcs2c (N := B64 lm) (Sph (N := B64 lm) x y))) in
  exists p q, value64 (dranrm (N := B64 lm) (s_a s)) p /\ value64 (s_b s) q /\ 0 <= p <= 2 * pi_double /\ Rabs q <= PI / 2 + 2 * k /\
    norm (vsub (direction p q) (mapply P (direction a b))) <= 7.1 * k + 1.1 * d + 16 * u64.
Proof.
  intros L K M R D D1 X Y s. pose proof u64_pos as U0. assert (U1 : u64 <= 1e-15) by (rewrite u64_num; lra).
  pose proof (norm_direction a b) as N0. pose proof (start64 lm k x y a b L X Y) as S0. pose proof (norm_turned _ _ R N0) as N1. pose proof (fnorm_pos_le _ _ D).
  pose proof (turn64 lm _ _ _ _ _ _ _ _ _ M R D ltac:(lra) D S0 ltac:(lra) ltac:(lra)) as S1.
  destruct (ends64 lm k _ _ _ L S1 ltac:(lra) ltac:(lra)) as (t & q & FT & FQ & RT & RQ & E). fold s in FT, FQ.
  destruct (longitude64 lm k _ t q K FT RT) as (p & FP & RP & E2). rewrite unit1, N1 in E by exact N1.
  exists p, q. split; [exact FP|]. split; [exact FQ|]. split; [exact RP|]. split; [exact RQ|]. pose proof (vsub_via (direction p q) (direction t q) (mapply P (direction a b))). lra.
Qed.
Lemma sa_Sph {N : Num} (a b : N) : s_a (Sph (N := N) a b) = a. Proof. reflexivity. Qed.
Lemma sb_Sph {N : Num} (a b : N) : s_b (Sph (N := N) a b) = b. Proof. reflexivity. Qed.
Lemma preces_eq lm cat z w pos : cat <> CAT_OTHER -> preces (N := B64 lm) cat z w pos =
  let s := dcc2s (N := B64 lm) (dmxv (N := B64 lm) (match cat with CAT_FK4 => prebn (N := B64 lm) z w | _ => prec (N := B64 lm) z w end) (dcs2c (N := B64 lm) pos)) in
  Sph (N := B64 lm) (dranrm (N := B64 lm) (s_a s)) (s_b s).
Proof. destruct cat; [| |congruence]; intros _; reflexivity. Qed.
Lemma preces64 lm k x y z w a b c d : libm_ok lm k -> 0 <= k <= 1e-6 -> value64 x a -> value64 y b -> value64 z c -> value64 w d -> 0 <= c <= 4000 -> 0 <= d <= 4000 ->
  forall cat, cat <> CAT_OTHER -> let s := preces (N := B64 lm) cat z w (Sph (N := B64 lm) x y) in exists p q, value64 (s_a s) p /\ value64 (s_b s) q /\
    0 <= p <= 2 * pi_double /\ Rabs q <= PI / 2 + 2 * k /\
    norm (vsub (direction p q) (mapply (match cat with CAT_FK4 => newcomb_precession c d | _ => iau1976_precession c d end) (direction a b))) <= 14 * k + 69 * u64.
Proof.
  intros L K X Y Z W C D cat CA. pose proof u64_pos as U0. assert (U1 : u64 <= 1e-15) by (rewrite u64_num; lra).
  rewrite (preces_eq lm cat z w _ CA). cbv zeta. rewrite sa_Sph, sb_Sph. destruct cat; [| |congruence].
  - destruct (prebn64 lm k z w c d L K Z W C D) as (A & FA & EA).
    destruct (preces_go lm k _ A _ _ x y a b L K FA (precession_rotation _ _ _) EA ltac:(lra) X Y) as (p & q & FP & FQ & RP & RQ & E).
    exists p, q. split; [exact FP|]. split; [exact FQ|]. split; [exact RP|]. split; [exact RQ|]. eapply Rle_trans; [exact E|lra].
  - destruct (prec64 lm k z w c d L K Z W C D) as (A & FA & EA).
    destruct (preces_go lm k _ A _ _ x y a b L K FA (precession_rotation _ _ _) EA ltac:(lra) X Y) as (p & q & FP & FQ & RP & RQ & E).
    exists p, q. split; [exact FP|]. split; [exact FQ|]. split; [exact RP|]. split; [exact RQ|]. eapply Rle_trans; [exact E|lra].
Qed.

(** ** Galactic and supergalactic coordinates *)
Lemma lits64 lm k (e : ex) i : libm_ok lm k -> k <= V Sc -> ana Sc [] e = Some i -> okk i (eval (B64 lm) [] e) (eval RNum [] e).
Proof. intros L K. exact (ana_sound lm k Sc L K [] [] [] Logic.I e i). Qed.
Definition mfin (m : mat double) (A : RM) (e : R) : Prop :=
  (near 53 1024 (v0 (r0 m)) (v0 (r0 A)) e /\ near 53 1024 (v1 (r0 m)) (v1 (r0 A)) e /\ near 53 1024 (v2 (r0 m)) (v2 (r0 A)) e) /\
  (near 53 1024 (v0 (r1 m)) (v0 (r1 A)) e /\ near 53 1024 (v1 (r1 m)) (v1 (r1 A)) e /\ near 53 1024 (v2 (r1 m)) (v2 (r1 A)) e) /\
  (near 53 1024 (v0 (r2 m)) (v0 (r2 A)) e /\ near 53 1024 (v1 (r2 m)) (v1 (r2 A)) e /\ near 53 1024 (v2 (r2 m)) (v2 (r2 A)) e).
Lemma sq_le x e : Rabs x <= e -> x * x <= e * e.
Proof. intros H. apply Rabs_le_inv in H. nra. Qed.
Lemma fnorm_entries (D : RM) e : Rabs (v0 (r0 D)) <= e -> Rabs (v1 (r0 D)) <= e -> Rabs (v2 (r0 D)) <= e -> Rabs (v0 (r1 D)) <= e -> Rabs (v1 (r1 D)) <= e -> Rabs (v2 (r1 D)) <= e ->
  Rabs (v0 (r2 D)) <= e -> Rabs (v1 (r2 D)) <= e -> Rabs (v2 (r2 D)) <= e -> fnorm D <= 3 * e.
Proof.
  intros A0 A1 A2 B0 B1 B2 C0 C1 C2. assert (E : 0 <= e) by (pose proof (Rabs_pos (v0 (r0 D))); lra).
  apply sq_le in A0, A1, A2, B0, B1, B2, C0, C1, C2. pose proof (fnorm_sq D) as F. unfold dot in F. pose proof (fnorm_nonneg D). nra.
Qed.
Lemma mfin64 m M e : mfin m M e -> exists A, mat64 m A /\ fnorm (msub A M) <= 3 * e.
Proof.
  intros (((a0 & A0 & EA0) & (a1 & A1 & EA1) & (a2 & A2 & EA2)) & ((b0 & B0 & EB0) & (b1 & B1 & EB1) & (b2 & B2 & EB2)) & ((c0 & C0 & EC0) & (c1 & C1 & EC1) & (c2 & C2 & EC2))).
  exists (M3 (V3 a0 a1 a2) (V3 b0 b1 b2) (V3 c0 c1 c2)). split; [split; [|split]; (split; [|split]); assumption|].
  apply fnorm_entries; assumption.
Qed.
Lemma mnear_fnorm M g e : L_Gal.mnear g M e -> fnorm (msub M g) <= 3 * e.
Proof.
  intros ((A0 & A1 & A2) & (B0 & B1 & B2) & (C0 & C1 & C2)). unfold L_Gal.near in *.
  apply fnorm_entries; cbn [msub vsub r0 r1 r2 v0 v1 v2]; rewrite Rabs_minus_sym; assumption.
Qed.
Lemma through64 lm k (m : mat (B64 lm)) M g x y a b : libm_ok lm k -> 0 <= k <= 1e-6 -> mfin m M 12e-17 -> L_Gal.mnear g M 1e-7 -> rotation g -> value64 x a -> value64 y b ->
  let go t := conv_range (N := B64 lm) (dcc2s (N := B64 lm) t) in
  let v := dcs2c (N := B64 lm) (Sph (N := B64 lm) x y) in
  let w t := conv_range (N := RNum) (dcc2s (N := RNum) t) in
  (exists p q, value64 (s_a (go (dmxv (N := B64 lm) m v))) p /\ value64 (s_b (go (dmxv (N := B64 lm) m v))) q /\ 0 <= p <= 2 * pi_double /\ Rabs q <= PI / 2 + 2 * k /\
    vdist (direction p q) (direction (s_a (w (mapply M (direction a b)))) (s_b (w (mapply M (direction a b))))) <= 7.1 * k + 20 * u64) /\
  (exists p q, value64 (s_a (go (dimxv (N := B64 lm) m v))) p /\ value64 (s_b (go (dimxv (N := B64 lm) m v))) q /\ 0 <= p <= 2 * pi_double /\ Rabs q <= PI / 2 + 2 * k /\
    vdist (direction p q) (direction (s_a (w (mapply (transpose M) (direction a b)))) (s_b (w (mapply (transpose M) (direction a b))))) <= 7.1 * k + 20 * u64).
Proof.
  intros L K MF MN G X Y go v w. pose proof u64_pos as U0. assert (U1 : 1.1e-16 <= u64 <= 12e-17) by (rewrite u64_num; lra).
  destruct (mfin64 _ _ _ MF) as (A & FA & EA). pose proof (mnear_fnorm _ _ _ MN) as EM. pose proof (msub_via A M g) as EG.
  pose proof (norm_direction a b) as N0. pose proof (start64 lm k x y a b L X Y) as S0. fold v in S0.
  assert (G3 : forall e, 0 <= e -> forall d, 0.999 <= d <= 1.001 -> e / d <= 1.0011 * e).
  { intros e E d D. apply Rmult_le_reg_r with d; [lra|]. replace (e / d * d) with e by (field; lra). nra. }
  assert (EG' : fnorm (msub A g) <= 1e-4) by lra.
  split.
  - pose proof (turn64 lm m v A g M _ _ _ _ FA G EG' ltac:(lra) EA S0 ltac:(lra) ltac:(lra)) as S1.
    destruct (L_FrameGal.sph_matrix M g (direction a b) 1e-7 MN G N0 ltac:(lra)) as (_ & D & _). change (direction (s_a (w (mapply M (direction a b)))) (s_b (w (mapply M (direction a b)))) = unit_of (mapply M (direction a b))) in D.
    pose proof (mnear_apply _ _ _ _ MN N0) as NM. unfold vdist in NM. pose proof (norm_lip (mapply g (direction a b)) (mapply M (direction a b))) as NL. rewrite (rotation_norm _ _ G), N0 in NL. apply Rabs_le_inv in NL.
    destruct (finish64 lm k _ _ _ L K S1 ltac:(lra) ltac:(lra)) as (p & q & FP & FQ & RP & RQ & E). exists p, q. split; [exact FP|]. split; [exact FQ|]. split; [exact RP|]. split; [exact RQ|].
    rewrite D. unfold vdist. eapply Rle_trans; [exact E|]. match goal with |- context [?e / norm ?z] => pose proof (G3 e ltac:(lra) (norm z) ltac:(lra)) end. lra.
  - pose proof (back64 lm m v A g M _ _ _ _ FA G EG' ltac:(lra) EA S0 ltac:(lra) ltac:(lra)) as S1.
    pose proof (L_FrameGal.mnear_transpose _ _ _ MN) as MT. pose proof (rotation_transpose _ G) as GT.
    destruct (L_FrameGal.sph_matrix (transpose M) (transpose g) (direction a b) 1e-7 MT GT N0 ltac:(lra)) as (_ & D & _). change (direction (s_a (w (mapply (transpose M) (direction a b)))) (s_b (w (mapply (transpose M) (direction a b)))) = unit_of (mapply (transpose M) (direction a b))) in D.
    pose proof (mnear_apply _ _ _ _ MT N0) as NM. unfold vdist in NM. pose proof (norm_lip (mapply (transpose g) (direction a b)) (mapply (transpose M) (direction a b))) as NL. rewrite (rotation_norm _ _ GT), N0 in NL. apply Rabs_le_inv in NL.
    destruct (finish64 lm k _ _ _ L K S1 ltac:(lra) ltac:(lra)) as (p & q & FP & FQ & RP & RQ & E). exists p, q. split; [exact FP|]. split; [exact FQ|]. split; [exact RP|]. split; [exact RQ|].
    rewrite D. unfold vdist. eapply Rle_trans; [exact E|]. match goal with |- context [?e / norm ?z] => pose proof (G3 e ltac:(lra) (norm z) ltac:(lra)) end. lra.
Qed.
Ltac mat_lits lm k L HK := split; [|split]; (split; [|split]); cbn [gal_mat sup_mat gal50_mat r0 r1 r2 v0 v1 v2];
  err (ana_sound lm k Sc L HK) lm Sc (@nil item) (@nil double) (@nil R) Logic.I.
Lemma gal_mats64 lm k : libm_ok lm k -> 0 <= k <= 1e-6 -> mfin (gal_mat (N := B64 lm)) (gal_mat (N := RNum)) 12e-17 /\
  mfin (sup_mat (N := B64 lm)) (sup_mat (N := RNum)) 12e-17 /\ mfin (gal50_mat (N := B64 lm)) (gal50_mat (N := RNum)) 12e-17.
Proof.
  intros L K. pose proof (k1 k K) as HK. split; [|split]; mat_lits lm k L HK.
Qed.
