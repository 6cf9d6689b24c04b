(** The nutation matrix, precession with nutation, and the equation of the
    equinoxes in binary64. *)
From Coq Require Import ZArith Reals Bool List Lia Lra Psatz Ascii String.
From Flocq Require Import Core BinarySingleNaN.
From Verif Require Import Int32 Num NumB NumR M_Angle M_Vec M_Nutc M_Frame M_Epoch S_Geom S_Frame S_Epoch S_Binary S_Float L_Bin L_Flt L_Float.
From Verif Require Import L_Vec L_Rot L_Frame L_Nut L_FloatVec L_FloatMat L_FloatSph L_Err L_ErrT L_FloatTf L_FloatEp L_FloatFrame L_FloatHor L_FloatEt L_FloatNut L_FloatNutc L_Epoch.
Import ListNotations.
Open Scope R_scope.

Lemma nutation_lip p p' e e' o o' : fnorm (msub (nutation p e o) (nutation p' e' o')) <= 1.415 * (Rabs (p - p') + Rabs (o - o') + Rabs (o + e - (o' + e'))).
Proof.
  unfold nutation.
  eapply Rle_trans; [apply fnorm_prod; [apply rotation_frame_x|apply rotation_mmul; [apply rotation_frame_z|apply rotation_frame_x]]|].
  pose proof (fnorm_turn frame_x ltac:(auto) (- (o + e)) (- (o' + e'))) as A.
  pose proof (fnorm_prod (frame_z (- p)) (frame_x o) (frame_z (- p')) (frame_x o') (rotation_frame_z _) (rotation_frame_x _)) as B.
  pose proof (fnorm_turn frame_x ltac:(auto) o o') as C. pose proof (fnorm_turn frame_z ltac:(auto) (- p) (- p')) as D.
  replace (- (o + e) - - (o' + e')) with (- (o + e - (o' + e'))) in A by ring. replace (- p - - p') with (- (p - p')) in D by ring. rewrite Rabs_Ropp in A, D. lra.
Qed.
Lemma nutc_small a : -21505 <= a <= 124594 -> let r := nutc (N := RNum) a in Rabs (fst (fst r)) <= 0.001 /\ Rabs (snd (fst r)) <= 0.001 /\ 0.4 <= snd r <= 0.42.
Proof.
  intros A r. pose proof (nutc_bound a) as B. cbv zeta in B. assert (TB : Rabs (centuries_J2000 a) <= 2) by (apply Rabs_le; unfold centuries_J2000; lra).
  unfold r. assert (E0 : 0.4 <= snd (nutc (N := RNum) a) <= 0.42).
  { rewrite nutc_nc. cbv zeta. cbn [snd]. rewrite (proj1 (n80_R a)). set (T := centuries_J2000 a) in *. apply Rabs_le_inv in TB. unfold nc_e0, nc_A. unR. decs.
    assert (T2 : 0 <= T * T <= 4) by nra. assert (T3 : -8 <= T * T * T <= 8) by nra. assert (T4 : 0 <= T * T * (T * T) <= 16) by nra. assert (T5 : -32 <= T * T * (T * T) * T <= 32) by nra.
    split; lra. }
  destruct (nutc (N := RNum) a) as [[p e] o]. cbn [fst snd] in *. destruct B as [B1 B2]. unfold arcsec in *. split; [|split; [|exact E0]]; lra.
Qed.
Lemma nut64 lm k (x : double) a : libm_ok lm k -> k <= 1e-15 -> value64 x a -> -21505 <= a <= 124594 ->
  exists C, mat64 (nut (N := B64 lm) x) C /\ fnorm (msub C (nut (N := RNum) a)) <= 6.03 * k + 27.6 * u64 + 1e-14.
Proof.
  intros L K X A. assert (K2 : 0 <= k <= 1e-6) by (pose proof (libm_k lm k L); lra). rewrite nut_spec.
  destruct (nutc_64 lm k x a L K X A) as (p & e & o & H). cbv zeta in H. destruct (nutc_small a A) as (S1 & S2 & S3). unfold nut.
  destruct (nutc (N := B64 lm) x) as [[xp xe] xo]. destruct (nutc (N := RNum) a) as [[p' e'] o']. cbn [fst snd] in *. destruct H as (FP & FE & FO & DP & DE & DO).
  change (car RNum) with R in *. apply Rabs_le_inv in S1. apply Rabs_le_inv in S2. apply Rabs_le_inv in DE. apply Rabs_le_inv in DO.
  assert (OK : okenv [it (-1) 1; it (-1) 1] [xo; xe] [o; e]) by (split; [apply okk_in; [exact FO|lra]|]; split; [apply okk_in; [exact FE|lra]|exact Logic.I]).
  assert (NS : near 53 1024 (n_add (n := B64 lm) xo xe) (n_add (n := RNum) o e) 3e-16) by (err0 lm [it (-1) 1; it (-1) 1] [xo; xe] [o; e] OK).
  destruct NS as (s & FS & ES). change (n_add (n := RNum)) with Rplus in ES. change (car RNum) with R in *.
  assert (EU : euler "XZX"%string [o; - p; - s] (mmul (mmul (mmul mident (frame_x (- s))) (frame_z (- p))) (frame_x o))).
  { do 3 (apply euler_turn; [reflexivity|]). apply euler_no_angle. }
  destruct (deuler64 lm k "XZX"%string _ _ _ _ _ _ _ L K2 FO (fin_opp _ _ _ _ FP) (fin_opp _ _ _ _ FS) EU) as (C & FC & EC).
  exists C. split; [exact FC|]. replace (mmul (mmul (mmul mident _) _) _) with (nutation p (s - o) o) in EC by (unfold nutation; rewrite mmul_ident_l, mmul_assoc; replace (o + (s - o)) with s by ring; reflexivity).
  eapply Rle_trans; [apply (msub_via _ (nutation p (s - o) o))|]. pose proof (nutation_lip p p' (s - o) e' o o') as PL. replace (o + (s - o)) with s in PL by ring.
  apply Rabs_le_inv in ES. assert (D1 : Rabs (s - (o' + e')) <= 2.6e-15) by (apply Rabs_le; lra). assert (D2 : Rabs (o - o') <= 2e-16) by (apply Rabs_le; lra). lra.
Qed.
(** The equation of the equinoxes from its ingredients. *)
Definition nq {N : Num} (psi e0 om : N) : N := psi *! n_cos e0 +! n80_u *! (n_lit 264 (-5) *! n_sin om +! n_lit 63 (-6) *! n_sin (om +! om)).
Lemma eqeqx_nq {N : Num} (x : N) : eqeqx x = nq (fst (fst (nutc x))) (snd (nutc x)) (n80_om (n80_c x)).
Proof. unfold eqeqx. destruct (nutc x) as [[p e] o]. reflexivity. Qed.
Lemma eqeqx64 lm k (x : double) a : libm_ok lm k -> k <= 1e-15 -> value64 x a -> -21505 <= a <= 124594 ->
  exists v, value64 (eqeqx (N := B64 lm) x) v /\ let r := nutc (N := RNum) a in Rabs (v - equation_of_equinoxes (fst (fst r)) (snd r) (centuries_J2000 a)) <= 6e-15.
Proof.
  intros L K X A. destruct (nutc_64 lm k x a L K X A) as (p & e & o & H). cbv zeta in H. destruct (nutc_small a A) as (S1 & S2 & S3). pose proof (eqeqx_spec a) as EQ. rewrite !eqeqx_nq in *. cbv zeta.
  destruct (n80_args64 lm x a X A) as (_ & _ & _ & _ & _ & ((w & FW & EW) & MW) & _).
  set (W := n80_om (N := RNum) (n80_c (N := RNum) a)) in *. set (xw := n80_om (N := B64 lm) _) in *. clearbody W xw.
  destruct (nutc (N := B64 lm) x) as [[xp xe] xo]. destruct (nutc (N := RNum) a) as [[p' e'] o']. cbn [fst snd] in *. destruct H as (FP & FE & FO & DP & DE & DO). rewrite <- EQ. clear EQ.
  change (car RNum) with R in *. apply Rabs_le_inv in S1. apply Rabs_le_inv in S2. apply Rabs_le_inv in DP. apply Rabs_le_inv in DO. apply Rabs_le_inv in MW. apply Rabs_le_inv in EW.
  assert (HK : k <= V KN) by (pose proof KN_ok; lra). clear FE DE.
  assert (OK : okenv [it (-1) 1; it (-1) 1; it (-17001) 17001] [xp; xo; xw] [p; o; w]).
  { split; [apply okk_in; [exact FP|lra]|]. split; [apply okk_in; [exact FO|lra]|]. split; [apply okk_in; [exact FW|lra]|exact Logic.I]. }
  assert (NS : near 53 1024 (nq (N := B64 lm) xp xo xw) (nq (N := RNum) p o w) 15e-16)
    by (unfold nq, n80_u; err (ana_sound lm k KN L HK) lm KN [it (-1) 1; it (-1) 1; it (-17001) 17001] [xp; xo; xw] [p; o; w] OK).
  destruct NS as (v & FV & EV). exists v. split; [exact FV|].
  pose proof (sin_lip w W) as L1. pose proof (sin_lip (w + w) (W + W)) as L2. pose proof (cos_lip o o') as L3.
  assert (B1 : Rabs (w - W) <= 20e-12) by (apply Rabs_le; lra). assert (B2 : Rabs (w + w - (W + W)) <= 40e-12) by (apply Rabs_le; lra). assert (B3 : Rabs (o - o') <= 2e-16) by (apply Rabs_le; lra).
  assert (B4 : Rabs (p - p') <= 4e-15) by (apply Rabs_le; lra).
  assert (P1 : Rabs (p * cos o - p' * cos o') <= 4.3e-15).
  { replace (p * cos o - p' * cos o') with ((p - p') * cos o + p' * (cos o - cos o')) by ring. eapply Rle_trans; [apply Rabs_triang|]. rewrite !Rabs_mult.
    assert (P' : Rabs p' <= 1) by (apply Rabs_le; lra). pose proof (cos_abs1 o). pose proof (Rabs_pos (p - p')). pose proof (Rabs_pos (cos o - cos o')). pose proof (Rabs_pos p'). pose proof (Rabs_pos (cos o)). nra. }
  assert (Q1 : Rabs (sin w - sin W) <= 20e-12) by lra. assert (Q2 : Rabs (sin (w + w) - sin (W + W)) <= 40e-12) by lra.
  revert EV. unfold nq, n80_u. unR. decs. set (x1 := p * cos o) in *. set (x2 := p' * cos o') in *. set (x3 := sin w) in *. set (x4 := sin W) in *. set (x5 := sin (w + w)) in *. set (x6 := sin (W + W)) in *. intros EV.
  clearbody x1 x2 x3 x4 x5 x6. apply Rabs_le_inv in EV. apply Rabs_le_inv in P1. apply Rabs_le_inv in Q1. apply Rabs_le_inv in Q2. apply Rabs_le. lra.
Qed.
(** Precession followed by nutation. *)
Lemma je_angles64 lm k x y a b : libm_ok lm k -> 0 <= k <= 1e-6 -> value64 x a -> value64 y b -> 0 <= a <= 4000 -> -21505 <= b <= 124594 ->
  let p := prec_angles (N := B64 lm) x (epj (N := B64 lm) y) in let q := prec_angles (N := RNum) a (epj (N := RNum) b) in
  near 53 1024 (fst (fst p)) (fst (fst q)) 5e-16 /\ near 53 1024 (snd (fst p)) (snd (fst q)) 5e-16 /\ near 53 1024 (snd p) (snd q) 5e-16.
Proof.
  intros L K X Y A B. assert (OK : okenv [yr; it (-21505) 124594] [x; y] [a; b]) by (split; [now apply okk_in|]; split; [now apply okk_in|exact Logic.I]). pose proof (k1 k K) as HK.
  unfold prec_angles, as2r, epj. cbv zeta. cbn [fst snd].
  split; [|split]; err (ana_sound lm k Sc L HK) lm Sc [yr; it (-21505) 124594] [x; y] [a; b] OK.
Qed.
Lemma prenut64 lm k x y a b : libm_ok lm k -> k <= 1e-15 -> value64 x a -> value64 y b -> 0 <= a <= 4000 -> -21505 <= b <= 124594 ->
  exists C, mat64 (prenut (N := B64 lm) x y) C /\ fnorm (msub C (mmul (nut (N := RNum) b) (iau1976_precession a (julian_year b)))) <= 12.1 * k + 86 * u64 + 1e-14.
Proof.
  intros L K X Y A B. pose proof (libm_k lm k L) as K0. assert (K2 : 0 <= k <= 1e-6) by lra.
  destruct (je_angles64 lm k x y a b L K2 X Y A B) as (P & Q & R). rewrite <- epj_spec. destruct (real_precession a (epj (N := RNum) b)) as (E & _). cbv zeta in *.
  destruct (zyz64 lm k _ _ _ _ _ _ _ _ _ L K2 P Q R) as (C & FC & EC). rewrite E in EC.
  destruct (nut64 lm k y b L K Y B) as (D & FD & ED).
  assert (RN : rotation (nut (N := RNum) b)) by (rewrite nut_spec; destruct (nutc (N := RNum) b) as [[p e] o]; unfold nutation; repeat apply rotation_mmul; auto using rotation_frame_x, rotation_frame_z).
  assert (FC' : mat64 (prec (N := B64 lm) x (epj (N := B64 lm) y)) C) by (unfold prec; destruct (prec_angles (N := B64 lm) x (epj (N := B64 lm) y)) as [[p q] r]; exact FC).
  pose proof u64_num as U.
  destruct (dmxm_rot lm _ _ D C _ _ _ _ FD FC' RN (L_Frame.precession_rotation _ _ _) ED EC ltac:(lra) ltac:(lra)) as (G & FG & EG).
  exists G. split; [exact FG|]. eapply Rle_trans; [exact EG|]. 
  match goal with |- ?d + ?e + ?d * ?e + _ <= _ => assert (DE : d * e <= 1e-20) by (apply (Rle_trans _ (1e-13 * 1e-13)); [apply Rmult_le_compat; lra|lra]) end. lra.
Qed.

Lemma nut64_nutation lm k (x : double) a : libm_ok lm k -> k <= 1e-15 -> value64 x a -> -21505 <= a <= 124594 ->
  exists C, mat64 (nut (N := B64 lm) x) C /\
  let '(psi, eps, eps0) := nutc (N := RNum) a in fnorm (msub C (nutation psi eps eps0)) <= 6.03 * k + 27.6 * u64 + 1e-14.
Proof.
  intros L K X A. destruct (nut64 lm k x a L K X A) as (C & FC & EC). exists C. split; [exact FC|]. rewrite nut_spec in EC. destruct (nutc (N := RNum) a) as [[p e] o]. exact EC.
Qed.
Lemma prenut64_nutation lm k (x y : double) a b : libm_ok lm k -> k <= 1e-15 -> value64 x a -> value64 y b -> 0 <= a <= 4000 -> -21505 <= b <= 124594 ->
  exists C, mat64 (prenut (N := B64 lm) x y) C /\
  let '(psi, eps, eps0) := nutc (N := RNum) b in
  fnorm (msub C (mmul (nutation psi eps eps0) (iau1976_precession a (julian_year b)))) <= 12.1 * k + 86 * u64 + 1e-14.
Proof.
  intros L K X Y A B. destruct (prenut64 lm k x y a b L K X Y A B) as (C & FC & EC). exists C. split; [exact FC|]. rewrite nut_spec in EC. destruct (nutc (N := RNum) b) as [[p e] o]. exact EC.
Qed.
Lemma eqeqx64_spec lm k (x : double) a : libm_ok lm k -> k <= 1e-15 -> value64 x a -> -21505 <= a <= 124594 ->
  exists v, value64 (eqeqx (N := B64 lm) x) v /\
  let '(psi, eps, eps0) := nutc (N := RNum) a in Rabs (v - equation_of_equinoxes psi eps0 (centuries_J2000 a)) <= 6e-15.
Proof.
  intros L K X A. destruct (eqeqx64 lm k x a L K X A) as (v & F & E). exists v. split; [exact F|]. cbv zeta in E. destruct (nutc (N := RNum) a) as [[p e] o]. exact E.
Qed.
