(** Nutation (IAU 1980) in binary64. *)
From Coq Require Import ZArith Reals Bool List Lia Lra Psatz.
From Flocq Require Import Core BinarySingleNaN.
From Verif Require Import Int32 Num NumB NumR M_Angle M_Vec M_Nutc S_Geom S_Frame S_Nut S_Binary S_Float L_Bin L_Flt L_Float.
From Verif Require Import L_Real L_Frame L_Nut L_NutDiff L_FloatVec L_FloatSph L_Err L_ErrT L_FloatTf L_FloatEp L_FloatHor L_FloatEt.
From Verif Require L_Binary L_Pi.
Import ListNotations.
Open Scope R_scope.

Notation "x +! y" := (n_add x y) (at level 50, left associativity).
Notation "x -! y" := (n_sub x y) (at level 50, left associativity).
Notation "x *! y" := (n_mul x y) (at level 40, left associativity).
Definition n80_c {N : Num} (tdb : N) : N := n_div (tdb -! n_lit 515445 (-1)) (n_ofZ 36525).
Definition n80_u {N : Num} : N := n_lit 484813681109535994 (-23).
Definition n80_l {N : Num} (c : N) : N := n80_u *! (n_lit 485866733 (-3) +! (n_ofZ 1325 *! n_ofZ 1296000 +! n_lit 715922633 (-3) +! (n_lit 3131 (-2) +! n_lit 64 (-3) *! c) *! c) *! c).
Definition n80_lp {N : Num} (c : N) : N := n80_u *! (n_lit 1287099804 (-3) +! (n_ofZ 99 *! n_ofZ 1296000 +! n_lit 1292581224 (-3) +! (n_lit (-577) (-3) -! n_lit 12 (-3) *! c) *! c) *! c).
Definition n80_f {N : Num} (c : N) : N := n80_u *! (n_lit 335778877 (-3) +! (n_ofZ 1342 *! n_ofZ 1296000 +! n_lit 295263137 (-3) +! (n_lit (-13257) (-3) +! n_lit 11 (-3) *! c) *! c) *! c).
Definition n80_d {N : Num} (c : N) : N := n80_u *! (n_lit 1072261307 (-3) +! (n_ofZ 1236 *! n_ofZ 1296000 +! n_lit 1105601328 (-3) +! (n_lit (-6891) (-3) +! n_lit 19 (-3) *! c) *! c) *! c).
Definition n80_om {N : Num} (c : N) : N := n80_u *! (n_lit 45016028 (-2) +! (n_ofZ (-5) *! n_ofZ 1296000 -! n_lit 482890539 (-3) +! (n_lit 7455 (-3) +! n_lit 8 (-3) *! c) *! c) *! c).
Definition n80_e0 {N : Num} (c : N) : N := n80_u *! (n_lit 84381448 (-3) +! (n_lit (-46815) (-3) +! (n_lit (-59) (-5) +! n_lit 1813 (-6) *! c) *! c) *! c).
Lemma args_n80 {N : Num} (t : N) : nutc80_args t = (n80_c t, drange (n80_l (n80_c t)), drange (n80_lp (n80_c t)), drange (n80_f (n80_c t)), drange (n80_d (n80_c t)), drange (n80_om (n80_c t))).
Proof. reflexivity. Qed.
Lemma nutc80_n80 {N : Num} (t : N) : nutc80 t = let s := nutc80_series (n80_c t) (drange (n80_l (n80_c t))) (drange (n80_lp (n80_c t))) (drange (n80_f (n80_c t))) (drange (n80_d (n80_c t))) (drange (n80_om (n80_c t))) in
  (fst s *! n_div n80_u (n_ofZ 10000), snd s *! n_div n80_u (n_ofZ 10000), n80_e0 (n80_c t)).
Proof. reflexivity. Qed.
(** The arguments before reduction, and the mean obliquity. *)
Lemma n80_args64 lm (x : double) a : value64 x a -> -21505 <= a <= 124594 ->
  near 53 1024 (n80_c (N := B64 lm) x) (n80_c (N := RNum) a) 8e-16 /\
  (near 53 1024 (n80_l (N := B64 lm) (n80_c (N := B64 lm) x)) (n80_l (N := RNum) (n80_c (N := RNum) a)) 20e-12 /\ Rabs (n80_l (N := RNum) (n80_c (N := RNum) a)) <= 17000) /\
  (near 53 1024 (n80_lp (N := B64 lm) (n80_c (N := B64 lm) x)) (n80_lp (N := RNum) (n80_c (N := RNum) a)) 20e-12 /\ Rabs (n80_lp (N := RNum) (n80_c (N := RNum) a)) <= 17000) /\
  (near 53 1024 (n80_f (N := B64 lm) (n80_c (N := B64 lm) x)) (n80_f (N := RNum) (n80_c (N := RNum) a)) 20e-12 /\ Rabs (n80_f (N := RNum) (n80_c (N := RNum) a)) <= 17000) /\
  (near 53 1024 (n80_d (N := B64 lm) (n80_c (N := B64 lm) x)) (n80_d (N := RNum) (n80_c (N := RNum) a)) 20e-12 /\ Rabs (n80_d (N := RNum) (n80_c (N := RNum) a)) <= 17000) /\
  (near 53 1024 (n80_om (N := B64 lm) (n80_c (N := B64 lm) x)) (n80_om (N := RNum) (n80_c (N := RNum) a)) 20e-12 /\ Rabs (n80_om (N := RNum) (n80_c (N := RNum) a)) <= 17000) /\
  near 53 1024 (n80_e0 (N := B64 lm) (n80_c (N := B64 lm) x)) (n80_e0 (N := RNum) (n80_c (N := RNum) a)) 2e-16.
Proof.
  intros X A. pose proof (env1 x a (-21505) 124594 X A) as OK. unfold n80_l, n80_lp, n80_f, n80_d, n80_om, n80_e0, n80_c, n80_u.
  repeat match goal with |- _ /\ _ => first [errm0 lm [it (-21505) 124594] [x] [a] OK|split] end; err0 lm [it (-21505) 124594] [x] [a] OK.
Qed.
(** The series at given arguments. *)
Definition ang_it : item := it (-4) 4.
Definition cen_it : item := it (-3) 3.
Definition nut_env : list item := [cen_it; ang_it; ang_it; ang_it; ang_it; ang_it].
Definition KN : Z := Sc / 999900000000000.
Lemma KN_ok : 1e-15 <= V KN.
Proof. pose proof (V_frac 999900000000000 ltac:(lia)) as F. unfold KN. lra. Qed.
Lemma n80_series64 lm k (x0 x1 x2 x3 x4 x5 : double) a0 a1 a2 a3 a4 a5 : libm_ok lm k -> k <= 1e-15 ->
  value64 x0 a0 -> value64 x1 a1 -> value64 x2 a2 -> value64 x3 a3 -> value64 x4 a4 -> value64 x5 a5 ->
  -3 <= a0 <= 3 -> -4 <= a1 <= 4 -> -4 <= a2 <= 4 -> -4 <= a3 <= 4 -> -4 <= a4 <= 4 -> -4 <= a5 <= 4 ->
  let s := nutc80_series (N := B64 lm) x0 x1 x2 x3 x4 x5 in let r := nutc80_series (N := RNum) a0 a1 a2 a3 a4 a5 in
  near 53 1024 (n_mul (n := B64 lm) (fst s) (n_div (n := B64 lm) n80_u (n_ofZ 10000))) (n_mul (n := RNum) (fst r) (n_div (n := RNum) n80_u (n_ofZ 10000))) 1e-18 /\
  near 53 1024 (n_mul (n := B64 lm) (snd s) (n_div (n := B64 lm) n80_u (n_ofZ 10000))) (n_mul (n := RNum) (snd r) (n_div (n := RNum) n80_u (n_ofZ 10000))) 1e-18.
Proof.
  intros L K X0 X1 X2 X3 X4 X5 A0 A1 A2 A3 A4 A5 s r. assert (HK : k <= V KN) by (pose proof KN_ok; lra).
  assert (OK : okenv nut_env [x0; x1; x2; x3; x4; x5] [a0; a1; a2; a3; a4; a5]) by (unfold nut_env; repeat (split; [now apply okk_in|]); exact Logic.I).
  unfold s, r, nutc80_series, n80_u. cbv zeta. cbn [fst snd].
  split; err (ana_sound lm k KN L HK) lm KN nut_env [x0; x1; x2; x3; x4; x5] [a0; a1; a2; a3; a4; a5] OK.
Qed.
(** Reduction of an argument. *)
Lemma reduce64 lm (x : double) a e : near 53 1024 x a e -> e <= 1e-10 -> Rabs a <= 17000 -> exists r, value64 (drange (N := B64 lm) x) r /\ -4 <= r <= 4 /\ anear (e + 7e-13) r a.
Proof.
  intros (v & F & E) E1 A. destruct (L_Binary.drange64 lm x v F) as (j & FR & RB & _ & _ & D). set (r := v - IZR j * (2 * pi_double)) in *.
  assert (PD : 3.141 <= pi_double <= 3.142) by (unfold pi_double; lra). exists r. split; [exact FR|]. apply Rabs_le_inv in RB. split; [lra|].
  exists (- j)%Z. rewrite opp_IZR. replace (r - a - - IZR j * (2 * PI)) with ((r - (v - IZR j * (2 * PI))) + (v - a)) by ring.
  eapply Rle_trans; [apply Rabs_triang|].
  assert (J : Rabs (IZR j) <= 2750).
  { apply Rabs_le_inv in A. apply Rabs_le_inv in E. assert (-17010 <= IZR j * (2 * pi_double) <= 17010) by (unfold r in RB; lra). apply Rabs_le. nra. }
  lra.
Qed.
(** One term of the series moves little when the arguments and the time do. *)
Lemma wt_row r : wt (nr_angles r) = (Z.abs (n_l r) + Z.abs (n_lp r) + Z.abs (n_F r) + Z.abs (n_D r) + Z.abs (n_Om r))%Z.
Proof. reflexivity. Qed.
Lemma angle80_near e l lp f d om T r : anear e l (iau1980_l T) -> anear e lp (iau1980_lp T) -> anear e f (iau1980_F T) -> anear e d (iau1980_D T) -> anear e om (iau1980_Om T) ->
  anear (IZR (wt (nr_angles r)) * e) (angle80 l lp f d om r) (iau1980_angle T r).
Proof.
  intros H1 H2 H3 H4 H5. rewrite wt_row, !plus_IZR. unfold angle80, iau1980_angle.
  replace ((IZR (Z.abs (n_l r)) + IZR (Z.abs (n_lp r)) + IZR (Z.abs (n_F r)) + IZR (Z.abs (n_D r)) + IZR (Z.abs (n_Om r))) * e)
    with (IZR (Z.abs (n_l r)) * e + IZR (Z.abs (n_lp r)) * e + IZR (Z.abs (n_F r)) * e + IZR (Z.abs (n_D r)) * e + IZR (Z.abs (n_Om r)) * e) by ring.
  repeat apply anear_add; now apply anear_mul.
Qed.
Lemma nut_term a b t t' s s' w e g : 0 <= e -> 0 <= w -> Rabs t' <= 3 -> Rabs s <= 1 -> Rabs (t' - t) <= g -> Rabs (s' - s) <= w * e ->
  Rabs ((IZR a + IZR b / 10 * t') * s' - (IZR a + IZR b / 10 * t) * s) <= (10 * Rabs (IZR a) + 3 * Rabs (IZR b)) * w * (e / 10) + Rabs (IZR b) * (g / 10).
Proof.
  intros E W T S G D. 
  replace ((IZR a + IZR b / 10 * t') * s' - (IZR a + IZR b / 10 * t) * s) with ((IZR a + IZR b / 10 * t') * (s' - s) + IZR b / 10 * (t' - t) * s) by field.
  eapply Rle_trans; [apply Rabs_triang|]. rewrite !Rabs_mult. apply Rplus_le_compat.
  - assert (Q : Rabs (IZR a + IZR b / 10 * t') <= Rabs (IZR a) + 3 * Rabs (IZR b) / 10).
    { eapply Rle_trans; [apply Rabs_triang|]. rewrite Rabs_mult. unfold Rdiv. rewrite Rabs_mult, (Rabs_pos_eq (/ 10)) by lra. pose proof (Rabs_pos (IZR b)). nra. }
    pose proof (Rmult_le_compat _ _ _ _ (Rabs_pos _) (Rabs_pos _) Q D). lra.
  - unfold Rdiv. rewrite Rabs_mult, (Rabs_pos_eq (/ 10)) by lra. pose proof (Rabs_pos (IZR b)). pose proof (Rabs_pos (t' - t)). pose proof (Rabs_pos s).
    assert (Rabs (t' - t) * Rabs s <= g) by nra. assert (0 <= Rabs (t' - t) * Rabs s) by nra. replace (Rabs (IZR b) * / 10 * Rabs (t' - t) * Rabs s) with (Rabs (IZR b) * / 10 * (Rabs (t' - t) * Rabs s)) by ring.
    replace (Rabs (IZR b) * (g * / 10)) with (Rabs (IZR b) * / 10 * g) by ring. apply Rmult_le_compat_l; lra.
Qed.
Lemma Rsum_diff {A} (f g : A -> R) (z y : A -> Z) l u v : (forall r, Rabs (f r - g r) <= IZR (z r) * u + IZR (y r) * v) ->
  Rabs (Rsum (map f l) - Rsum (map g l)) <= IZR (zfold z l) * u + IZR (zfold y l) * v.
Proof.
  intros H. induction l as [|x l IH]; cbn [map Rsum zfold fold_right].
  - rewrite Rminus_0_r, Rabs_R0. lra.
  - rewrite !plus_IZR. fold (zfold z l) (zfold y l). replace (f x + Rsum (map f l) - (g x + Rsum (map g l))) with ((f x - g x) + (Rsum (map f l) - Rsum (map g l))) by ring.
    eapply Rle_trans; [apply Rabs_triang|]. specialize (H x). lra.
Qed.
Definition zw (a b : nut_row -> Z) (r : nut_row) : Z := ((10 * Z.abs (a r) + 3 * Z.abs (b r)) * wt (nr_angles r))%Z.
Lemma wt_pos0 r : 0 <= IZR (wt (nr_angles r)).
Proof. rewrite wt_row. apply IZR_le. lia. Qed.
Lemma zw_sums : zfold (zw n_psi n_psi') iau1980_table = 2802605%Z /\ zfold (fun r => Z.abs (n_psi' r)) iau1980_table = 1823%Z /\
  zfold (zw n_eps n_eps') iau1980_table = 1377482%Z /\ zfold (fun r => Z.abs (n_eps' r)) iau1980_table = 141%Z.
Proof. vm_compute. auto. Qed.
Lemma series_lip e g t T l lp f d om : 0 <= e -> Rabs t <= 3 -> Rabs (t - T) <= g ->
  anear e l (iau1980_l T) -> anear e lp (iau1980_lp T) -> anear e f (iau1980_F T) -> anear e d (iau1980_D T) -> anear e om (iau1980_Om T) ->
  let s := nutc80_series (N := RNum) t l lp f d om in let u := 0.0001 * arcsec in
  Rabs (fst s * u - iau1980_dpsi T) <= (2802605 * (e / 10) + 1823 * (g / 10)) * u /\ Rabs (snd s * u - iau1980_deps T) <= (1377482 * (e / 10) + 141 * (g / 10)) * u.
Proof.
  intros E B G H1 H2 H3 H4 H5 s u. assert (U : 0 < u) by (unfold u, arcsec; lra). unfold s. rewrite series80. cbn [fst snd]. unfold accp, acce.
  rewrite (fold_acc (fun r => (IZR (n_psi r) + IZR (n_psi' r) / 10 * t) * sin (angle80 l lp f d om r))), (fold_acc (fun r => (IZR (n_eps r) + IZR (n_eps' r) / 10 * t) * cos (angle80 l lp f d om r))).
  pose proof (fun r => angle80_near e l lp f d om T r H1 H2 H3 H4 H5) as AN. destruct zw_sums as (Z1 & Z2 & Z3 & Z4).
  unfold iau1980_dpsi, iau1980_deps. set (P := Rsum (map (fun r => _ * sin (angle80 _ _ _ _ _ _)) _)). set (Q := Rsum (map (fun r => _ * cos (angle80 _ _ _ _ _ _)) _)).
  set (P0 := Rsum (map (fun r => _ * sin (iau1980_angle _ _)) _)). set (Q0 := Rsum (map (fun r => _ * cos (iau1980_angle _ _)) _)).
  assert (DP : Rabs (P - P0) <= 2802605 * (e / 10) + 1823 * (g / 10)).
  { rewrite <- Z1, <- Z2. apply Rsum_diff. intros r. unfold zw. rewrite mult_IZR, plus_IZR, !mult_IZR, !abs_IZR.
    apply nut_term; [exact E|apply wt_pos0|exact B|apply sin_abs1|exact G|apply anear_sin, AN]. }
  assert (DQ : Rabs (Q - Q0) <= 1377482 * (e / 10) + 141 * (g / 10)).
  { rewrite <- Z3, <- Z4. apply Rsum_diff. intros r. unfold zw. rewrite mult_IZR, plus_IZR, !mult_IZR, !abs_IZR.
    apply nut_term; [exact E|apply wt_pos0|exact B|apply cos_abs1|exact G|apply anear_cos, AN]. }
  split; [replace (P * u - P0 * 0.0001 * arcsec) with ((P - P0) * u) by (unfold u; ring)|replace (Q * u - Q0 * 0.0001 * arcsec) with ((Q - Q0) * u) by (unfold u; ring)];
    rewrite Rabs_mult, (Rabs_pos_eq u) by lra; apply Rmult_le_compat_r; lra.
Qed.
Lemma n80_R a : let T := centuries_J2000 a in n80_c (N := RNum) a = T /\ n80_l (N := RNum) T = iau1980_l T /\ n80_lp (N := RNum) T = iau1980_lp T /\ n80_f (N := RNum) T = iau1980_F T /\
  n80_d (N := RNum) T = iau1980_D T /\ n80_om (N := RNum) T = iau1980_Om T /\ n80_e0 (N := RNum) T = obliquity a.
Proof.
  intros T. split; [unfold n80_c, T, centuries_J2000; unR; decs; lra|]. unfold n80_l, n80_lp, n80_f, n80_d, n80_om, n80_e0, n80_u, iau1980_l, iau1980_lp, iau1980_F, iau1980_D, iau1980_Om, obliquity, arcsec.
  fold T. cbv zeta. unR. repeat split; decs; field.
Qed.
Lemma nutc80_64 lm k (x : double) a : libm_ok lm k -> k <= 1e-15 -> value64 x a -> -21505 <= a <= 124594 ->
  exists psi eps eps0, let r := nutc80 (N := B64 lm) x in value64 (fst (fst r)) psi /\ value64 (snd (fst r)) eps /\ value64 (snd r) eps0 /\
  let T := centuries_J2000 a in Rabs (psi - iau1980_dpsi T) <= 3e-15 /\ Rabs (eps - iau1980_deps T) <= 1.5e-15 /\ Rabs (eps0 - obliquity a) <= 2e-16.
Proof.
  intros L K X A. pose proof (n80_args64 lm x a X A) as ((c & FC & EC) & (N1 & M1) & (N2 & M2) & (N3 & M3) & (N4 & M4) & (N5 & M5) & (e0 & FE & EE)).
  destruct (n80_R a) as (R0 & R1 & R2 & R3 & R4 & R5 & R6). set (T := centuries_J2000 a) in *.
  rewrite R0 in *. rewrite R1 in *. rewrite R2 in *. rewrite R3 in *. rewrite R4 in *. rewrite R5 in *. rewrite R6 in *.
  destruct (reduce64 lm _ _ _ N1 ltac:(lra) M1) as (l & FL & LB & LA). destruct (reduce64 lm _ _ _ N2 ltac:(lra) M2) as (lp & FLP & LPB & LPA).
  destruct (reduce64 lm _ _ _ N3 ltac:(lra) M3) as (f & FF & FB & FA). destruct (reduce64 lm _ _ _ N4 ltac:(lra) M4) as (d & FD & DB & DA).
  destruct (reduce64 lm _ _ _ N5 ltac:(lra) M5) as (om & FO & OB & OA).
  assert (TB : -2 <= T <= 2) by (unfold T, centuries_J2000; lra).
  assert (CB : -3 <= c <= 3) by (apply Rabs_le_inv in EC; lra).
  destruct (n80_series64 lm k _ _ _ _ _ _ _ _ _ _ _ _ L K FC FL FLP FF FD FO CB LB LPB FB DB OB) as ((psi & FP & EP) & (eps & FEp & EEp)).
  exists psi, eps, e0. cbv zeta. rewrite nutc80_n80. cbv zeta. cbn [fst snd]. split; [exact FP|]. split; [exact FEp|]. split; [exact FE|].
  assert (C3 : Rabs c <= 3) by (apply Rabs_le; lra).
  destruct (series_lip (20e-12 + 7e-13) _ c T l lp f d om ltac:(lra) C3 EC LA LPA FA DA OA) as (SP & SE). 
  assert (U : n_div (n := RNum) n80_u (n_ofZ 10000) = 0.0001 * arcsec) by (unfold n80_u, arcsec; unR; decs; field).
  rewrite U in EP, EEp. set (s := nutc80_series (N := RNum) c l lp f d om) in *.
  change (Rabs (psi - fst s * (0.0001 * arcsec)) <= 1e-18) in EP. change (Rabs (eps - snd s * (0.0001 * arcsec)) <= 1e-18) in EEp. unfold arcsec in *.
  split; [|split; [|exact EE]].
  - replace (psi - iau1980_dpsi T) with ((psi - fst s * (0.0001 * 0.00000484813681109535994)) + (fst s * (0.0001 * 0.00000484813681109535994) - iau1980_dpsi T)) by ring. eapply Rle_trans; [apply Rabs_triang|]. lra.
  - replace (eps - iau1980_deps T) with ((eps - snd s * (0.0001 * 0.00000484813681109535994)) + (snd s * (0.0001 * 0.00000484813681109535994) - iau1980_deps T)) by ring. eapply Rle_trans; [apply Rabs_triang|]. lra.
Qed.
