(** Refraction of a zenith distance in binary64. *)
From Coq Require Import ZArith Reals Bool List Lia Lra Psatz.
From Flocq Require Import Core BinarySingleNaN.
From Verif Require Import Int32 Num NumB NumR M_Angle M_Refr S_Refr S_Binary S_Float L_Bin L_Flt L_Float.
From Verif Require Import L_Real L_Refr L_Refr3 L_FloatVec L_FloatMat L_FloatSph L_Err L_ErrT L_FloatHor L_FloatEt L_FloatRefv.
Import ListNotations.
Open Scope R_scope.

Definition rz1 {N : Num} (z s c A B : N) : N :=
  let t := n_div s c in let t2 := n_mul t t in let t3 := n_mul t t2 in
  n_sub z (n_div (n_add (n_mul A t) (n_mul B t3)) (n_add (n_ofZ 1) (n_div (n_add A (n_mul (n_mul (n_ofZ 3) B) t2)) (n_mul c c)))).
Definition rz2 {N : Num} (u z s c A B : N) : N :=
  let t := n_div s c in let t2 := n_mul t t in let t3 := n_mul t t2 in
  n_add (n_sub u z) (n_div (n_add (n_add (n_sub z u) (n_mul A t)) (n_mul B t3)) (n_add (n_ofZ 1) (n_div (n_add A (n_mul (n_mul (n_ofZ 3) B) t2)) (n_mul c c)))).
Definition rz3 {N : Num} (ref E : N) : N :=
  let E2 := n_mul E E in
  n_div (n_mul (n_div ref ref83) (n_add (n_add rz_c1 (n_mul rz_c2 E)) (n_mul rz_c3 E2))) (n_add (n_add (n_ofZ 1) (n_mul rz_c4 E)) (n_mul rz_c5 E2)).
Definition rz_low {N : Num} (u A B : N) : N := let z := rz1 u (n_sin u) (n_cos u) A B in rz2 u z (n_sin z) (n_cos z) A B.
Lemma refz_rz {N : Num} (zu A B : N) : let u := n_min zu zd83 in
  refz zu A B = n_sub zu (if n_ltb u zu then rz3 (rz_low u A B) (n_sub (n_ofZ 90) (n_min (n_ofZ 93) (n_mul zu r2d))) else rz_low u A B).
Proof. reflexivity. Qed.
Lemma rz_low_R (u A B : R) : rz_low (N := RNum) u A B = low_ref A B u.
Proof. reflexivity. Qed.

Definition A_it : item := It 0 (Sc / 2000 + 1) 0.
Definition B_it : item := It (- (Sc / 1000000 + 1)) 0 0.
Definition tr_env (e f : Z) : list item := [It (- (1456 * Sc / 1000)) (1456 * Sc / 1000) (e * e17); It (- Sc) Sc (f * e17); It (115 * Sc / 1000) Sc (f * e17); A_it; B_it].
Lemma rz1_64 lm (x1 x2 x3 x4 x5 : double) a1 a2 a3 a4 a5 : okenv (tr_env 4 105) [x1; x2; x3; x4; x5] [a1; a2; a3; a4; a5] ->
  near 53 1024 (rz1 (N := B64 lm) x1 x2 x3 x4 x5) (rz1 (N := RNum) a1 a2 a3 a4 a5) 33e-17.
Proof.
  intros OK. let e := eval vm_compute in (tr_env 4 105) in change (okenv e [x1; x2; x3; x4; x5] [a1; a2; a3; a4; a5]) in OK; unfold rz1; cbv zeta; err0 lm e [x1; x2; x3; x4; x5] [a1; a2; a3; a4; a5] OK.
Qed.
Definition rz2d {N : Num} (d d' s c A B : N) : N :=
  let t := n_div s c in let t2 := n_mul t t in let t3 := n_mul t t2 in
  n_add d (n_div (n_add (n_add d' (n_mul A t)) (n_mul B t3)) (n_add (n_ofZ 1) (n_div (n_add A (n_mul (n_mul (n_ofZ 3) B) t2)) (n_mul c c)))).
Definition d_it : item := It (- (6 * Sc / 1000)) (6 * Sc / 1000) (39 * e17).
Definition rz_env : list item := [d_it; d_it; It (- Sc) Sc (136 * e17); It (115 * Sc / 1000) Sc (136 * e17); A_it; B_it].
Lemma rz2_64 lm (x0 x1 x2 x3 x4 x5 : double) a0 a1 a2 a3 a4 a5 : okenv rz_env [x0; x1; x2; x3; x4; x5] [a0; a1; a2; a3; a4; a5] ->
  near 53 1024 (rz2d (N := B64 lm) x0 x1 x2 x3 x4 x5) (rz2d (N := RNum) a0 a1 a2 a3 a4 a5) 12e-16.
Proof.
  intros OK. let e := eval vm_compute in rz_env in change (okenv e [x0; x1; x2; x3; x4; x5] [a0; a1; a2; a3; a4; a5]) in OK; unfold rz2d; cbv zeta; err0 lm e [x0; x1; x2; x3; x4; x5] [a0; a1; a2; a3; a4; a5] OK.
Qed.
Lemma rz_sub lm (x y : double) a b e f : near 53 1024 x a e -> near 53 1024 y b f -> e <= 4e-17 -> f <= 33e-17 -> Rabs (a - b) <= 0.0059 ->
  near 53 1024 (n_sub (n := B64 lm) x y) (a - b) 38e-17 /\ near 53 1024 (n_sub (n := B64 lm) y x) (b - a) 38e-17.
Proof.
  intros X Y E F D. pose proof Hh64 as H. pose proof eta64 as ET. pose proof u64_num as UN. pose proof u64_eq as UE.
  assert (S : 1e-323 <= 1e-19) by (change 1e-323 with (1 / IZR (10 ^ 323)); change 1e-19 with (1 / IZR (10 ^ 19)); apply inv_le; [reflexivity|vm_compute; reflexivity]).
  apply near_weak with (f := 4e-17) in X; [|exact E]. apply near_weak with (f := 33e-17) in Y; [|exact F].
  assert (D' : Rabs (b - a) <= 0.0059) by (rewrite Rabs_minus_sym; exact D). rewrite UN in UE.
  split; (eapply near_weak; [first [apply (near_sub 53 1024 x y a b _ _ _ X Y D)|apply (near_sub 53 1024 y x b a _ _ _ Y X D')]; lra|rewrite UE; lra]).
Qed.
(** The low-elevation model, in three ranges of elevation. *)
Definition h_env (l h : Z) : list item := [It (- (6 * Sc / 1000)) (6 * Sc / 1000) (125 * e17); It (l * Sc) (h * Sc + Sc / 100) (6400 * e17)].
Lemma rz3_64 lm (x0 x1 : double) a0 a1 l h : (l, h) = (-3, -1)%Z \/ (l, h) = (-1, 1)%Z \/ (l, h) = (1, 7)%Z -> okenv (h_env l h) [x0; x1] [a0; a1] ->
  near 53 1024 (rz3 (N := B64 lm) x0 x1) (rz3 (N := RNum) a0 a1) 70e-15.
Proof.
  intros C OK. unfold rz3, ref83, rz_c1, rz_c2, rz_c3, rz_c4, rz_c5. cbv zeta. destruct C as [C|[C|C]]; injection C as -> ->.
  - let e := eval vm_compute in (h_env (-3) (-1)) in change (okenv e [x0; x1] [a0; a1]) in OK; err0 lm e [x0; x1] [a0; a1] OK.
  - let e := eval vm_compute in (h_env (-1) 1) in change (okenv e [x0; x1] [a0; a1]) in OK; err0 lm e [x0; x1] [a0; a1] OK.
  - let e := eval vm_compute in (h_env 1 7) in change (okenv e [x0; x1] [a0; a1]) in OK; err0 lm e [x0; x1] [a0; a1] OK.
Qed.
(** The limit of 83 degrees: no double lies strictly between its rounded and its real value. *)
Definition q83 : R := 6524019260204006 / 4503599627370496.
Lemma zd83_64 lm : value64 (zd83 (N := B64 lm)) q83.
Proof.
  assert (E : B2SF (zd83 (N := B64 lm)) = SpecFloat.S754_finite false 6524019260204006 (-52)) by (vm_compute; reflexivity).
  assert (FI : is_finite (zd83 (N := B64 lm)) = true) by (vm_compute; reflexivity).
  split; [exact FI|]. rewrite <- SF2R_B2SF, E. unfold SF2R, F2R, q83. cbn [Fnum Fexp cond_Zopp bpow]. change (Z.pow_pos radix2 52) with 4503599627370496%Z. unfold cond_Zopp. lra.
Qed.
Lemma q83_near : q83 <= 83 / deg <= q83 + 3e-17.
Proof.
  unfold q83, deg, Rdiv. assert (I : 57.29577951308232 * / 57.29577951308232 = 1) by (apply Rinv_r; lra). set (i := / 57.29577951308232) in *. lra.
Qed.
Lemma next83 (lm : libm 53 1024) (x : double) a : value64 x a -> q83 < a -> 83 / deg < a.
Proof.
  intros [FX EX] L. destruct (zd83_64 lm) as [FQ EQ]. pose proof q83_near as N.
  assert (S : succ radix2 (SpecFloat.fexp 53 1024) q83 <= a).
  { rewrite <- EX, <- EQ. apply succ_le_lt; try apply generic_format_B2R; [apply fexp_correct; reflexivity|rewrite EX, EQ; exact L]. }
  assert (P : 1 <= q83 < 2) by (unfold q83; lra).
  rewrite succ_eq_pos, ulp_neq_0 in S by lra. unfold cexp in S.
  rewrite (mag_unique radix2 q83 1) in S by (rewrite Rabs_pos_eq by lra; cbn; lra).
  change (SpecFloat.fexp 53 1024 1) with (-52)%Z in S. assert (B : 1e-16 <= bpow radix2 (-52)) by (cbn [bpow]; change (Z.pow_pos radix2 52) with 4503599627370496%Z; lra). lra.
Qed.
Lemma AB_ok (y z : double) A B : value64 y A -> value64 z B -> terrestrial A B -> okk A_it y A /\ okk B_it z B.
Proof.
  intros Y Z [TA TB].
  assert (VA : 0.0005 <= V (Sc / 2000 + 1)) by (replace 0.0005 with (5 / 10000) by lra; apply (V_ge _ 5 10000); [lia|vm_compute; reflexivity]).
  assert (VB : 0.000001 <= V (Sc / 1000000 + 1)) by (replace 0.000001 with (1 / 1000000) by lra; apply (V_ge _ 1 1000000); [lia|vm_compute; reflexivity]).
  split; (split; cbn [lo hi er A_it B_it]; rewrite V_0; [now apply near_fin|rewrite ?V_opp; lra]).
Qed.
(** The refraction down to 83 degrees. *)
Lemma rz_low64 lm k (x y z : double) W A B : libm_ok lm k -> k <= 1e-15 -> near 53 1024 x W 3e-17 -> Rabs W <= 1.4487 ->
  value64 y A -> value64 z B -> terrestrial A B -> near 53 1024 (rz_low (N := B64 lm) x y z) (low_ref A B W) 12e-16 /\ Rabs (low_ref A B W) <= 0.0045.
Proof.
  intros L K X WB Y Z T. destruct (AB_ok _ _ _ _ Y Z T) as [OA OB]. pose proof (libm_k lm k L) as K0.
  assert (E4 : 39e-18 <= V (4 * e17)) by (apply (V_ge _ 39 1000000000000000000); [lia|vm_compute; reflexivity]).
  assert (E39 : 38e-17 <= V (39 * e17)) by (apply (V_ge _ 38 100000000000000000); [lia|vm_compute; reflexivity]).
  assert (E105 : 104e-17 <= V (105 * e17)) by (apply (V_ge _ 104 100000000000000000); [lia|vm_compute; reflexivity]).
  assert (E136 : 135e-17 <= V (136 * e17)) by (apply (V_ge _ 135 100000000000000000); [lia|vm_compute; reflexivity]).
  assert (V1 : V Sc = 1) by exact V_1.
  assert (V115 : V (115 * Sc / 1000) <= 115 / 1000) by (apply (V_le _ 115 1000); [lia|vm_compute; reflexivity]).
  assert (V1456 : 1455 / 1000 <= V (1456 * Sc / 1000)) by (apply (V_ge _ 1455 1000); [lia|vm_compute; reflexivity]).
  assert (V6 : 59 / 10000 <= V (6 * Sc / 1000)) by (apply (V_ge _ 59 10000); [lia|vm_compute; reflexivity]).
  assert (TR : forall (x : double) W e, near 53 1024 x W e -> near 53 1024 (n_sin (n := B64 lm) x) (sin W) (1e-15 + e) /\ near 53 1024 (n_cos (n := B64 lm) x) (cos W) (1e-15 + e)).
  { intros x0 W0 e (r & FR & ER). destruct (trig64 lm k x0 r L FR) as (s & c & FS & FC & _ & _ & ES & EC). pose proof (L_Trig.sin_lip r W0) as LS. pose proof (L_Trig.cos_lip r W0) as LC.
    split; [exists s|exists c]; (split; [assumption|]).
    - replace (s - sin W0) with ((s - sin r) + (sin r - sin W0)) by ring. eapply Rle_trans; [apply Rabs_triang|]. lra.
    - replace (c - cos W0) with ((c - cos r) + (cos r - cos W0)) by ring. eapply Rle_trans; [apply Rabs_triang|]. lra. }
  pose proof (cos_domain W ltac:(lra)) as C0. destruct (TR _ _ _ X) as [S1 S2].
  destruct (next_residual A B T W W 0.004305) as (R1 & D1 & N1); [lra|replace (W + law A B W - W) with (law A B W) by ring; apply law_small; [exact T|lra]|lra|].
  destruct (next_residual A B T W (next A B W W) (1.25 / 10 ^ 5)) as (R2 & D2 & N2); [exact N1|eapply Rle_trans; [exact R1|lra]| |].
  { pose proof (Rabs_triang (next A B W W - W) W) as TI. replace (next A B W W - W + W) with (next A B W W) in TI by ring. lra. }
  pose proof (cos_domain _ N1) as C1. pose proof (low_ref_next A B W ltac:(lra) ltac:(lra)) as LN.
  assert (LB : Rabs (low_ref A B W) <= 0.0045).
  { rewrite LN. replace (W - next A B W (next A B W W)) with (- ((next A B W (next A B W W) - next A B W W) + (next A B W W - W))) by ring. rewrite Rabs_Ropp. eapply Rle_trans; [apply Rabs_triang|]. lra. }
  split; [|exact LB]. unfold rz_low. cbv zeta.
  assert (Z1 : rz1 (N := RNum) W (sin W) (cos W) A B = next A B W W).
  { unfold rz1, next. cbv zeta. change (W - (A * tan W + B * (tan W * (tan W * tan W))) / (1 + (A + 3 * B * (tan W * tan W)) / (cos W * cos W)) = W - (W + law A B W - W) / law' A B W).
    f_equal. f_equal; [unfold law; ring|]. unfold law'. pose proof (cos_sec W ltac:(lra)) as SC. rewrite <- SC. field. lra. }
  assert (Q1 : near 53 1024 (rz1 (N := B64 lm) x (n_sin (n := B64 lm) x) (n_cos (n := B64 lm) x) y z) (next A B W W) 33e-17).
  { rewrite <- Z1. apply rz1_64. pose proof (SIN_bound W) as SB. pose proof (COS_bound W) as CB. apply Rabs_le_inv in WB.
    split; [apply (okk_er _ _ _ _ _ _ X); [lra|rewrite V_opp; lra]|]. split; [apply (okk_er _ _ _ _ _ _ S1); [lra|rewrite V_opp; lra]|].
    split; [apply (okk_er _ _ _ _ _ _ S2); [lra|lra]|]. split; [exact OA|]. split; [exact OB|exact Logic.I]. }
  set (z1 := rz1 (N := B64 lm) x (n_sin (n := B64 lm) x) (n_cos (n := B64 lm) x) y z) in *. set (w := next A B W W) in *.
  destruct (rz_sub lm _ _ _ _ _ _ X Q1) as [P1 P2]; [lra|lra|rewrite Rabs_minus_sym; lra|]. destruct (TR _ _ _ Q1) as [S3 S4].
  assert (LR : low_ref A B W = rz2d (N := RNum) (W - w) (w - W) (sin w) (cos w) A B).
  { rewrite <- rz_low_R. unfold rz_low. cbv zeta. change (n_sin (n := RNum) W) with (sin W). change (n_cos (n := RNum) W) with (cos W). rewrite Z1. reflexivity. }
  rewrite LR. change (near 53 1024 (rz2d (N := B64 lm) (n_sub (n := B64 lm) x z1) (n_sub (n := B64 lm) z1 x) (n_sin (n := B64 lm) z1) (n_cos (n := B64 lm) z1) y z) (rz2d (N := RNum) (W - w) (w - W) (sin w) (cos w) A B) 12e-16).
  apply rz2_64. pose proof (SIN_bound w) as SB. pose proof (COS_bound w) as CB. pose proof D1 as D1'. apply Rabs_le_inv in D1'.
  split; [apply (okk_er _ _ _ _ _ _ P1); [lra|rewrite V_opp; lra]|]. split; [apply (okk_er _ _ _ _ _ _ P2); [lra|rewrite V_opp; lra]|].
  split; [apply (okk_er _ _ _ _ _ _ S3); [lra|rewrite V_opp; lra]|]. split; [apply (okk_er _ _ _ _ _ _ S4); [lra|lra]|]. split; [exact OA|]. split; [exact OB|exact Logic.I].
Qed.
(** The elevation used below 83 degrees. *)
Lemma elev64 lm (x : double) a : value64 x a -> 0 <= a <= 4 -> near 53 1024 (n_sub (n := B64 lm) (n_ofZ 90) (n_min (N := B64 lm) (n_ofZ 93) (n_mul (n := B64 lm) x r2d))) (90 - Rmin 93 (a * deg)) 63e-15.
Proof.
  intros X AB. assert (OK : okenv [It (0 * Sc) (4 * Sc) 0] [x] [a]) by (split; [apply okk_in; [exact X|lra]|exact Logic.I]).
  assert (M : near 53 1024 (n_mul (n := B64 lm) x r2d) (a * deg) 52e-15) by (rewrite <- r2d_deg; unfold r2d; change (a * n_lit (n := RNum) 5729577951308232 (-14)) with (n_mul (n := RNum) a (n_lit (n := RNum) 5729577951308232 (-14))); err0 lm [It (0 * Sc) (4 * Sc) 0] [x] [a] OK).
  assert (F93 : value64 (n_ofZ (n := B64 lm) 93) 93) by (apply (fin_ofZ 53 1024); reflexivity).
  assert (F90 : value64 (n_ofZ (n := B64 lm) 90) 90) by (apply (fin_ofZ 53 1024); reflexivity).
  assert (MN : near 53 1024 (n_min (N := B64 lm) (n_ofZ 93) (n_mul (n := B64 lm) x r2d)) (Rmin 93 (a * deg)) 52e-15).
  { destruct M as (c & FC & EC). unfold n_min. change (n_ltb (n := B64 lm) (n_mul (n := B64 lm) x r2d) (n_ofZ (n := B64 lm) 93)) with (Bltb (n_mul (n := B64 lm) x r2d) (n_ofZ (n := B64 lm) 93)).
    rewrite (fin_ltb 53 1024 _ _ _ _ FC F93). pose proof (Rabs_pos (c - a * deg)). apply Rabs_le_inv in EC.
    destruct (Rlt_bool_spec c 93) as [LT|LT]; [exists c|exists 93]; (split; [assumption|]); apply Rabs_le; unfold Rmin; destruct (Rle_dec 93 (a * deg)); lra. }
  pose proof Hh64 as H. pose proof eta64 as ET. pose proof u64_num as UN. pose proof u64_eq as UE. rewrite UN in UE.
  assert (S : 1e-323 <= 1e-19) by (change 1e-323 with (1 / IZR (10 ^ 323)); change 1e-19 with (1 / IZR (10 ^ 19)); apply inv_le; [reflexivity|vm_compute; reflexivity]).
  assert (BD : Rabs (90 - Rmin 93 (a * deg)) <= 90).
  { assert (0 <= a * deg) by (unfold deg; nra). apply Rabs_le. unfold Rmin. destruct (Rle_dec 93 (a * deg)); lra. }
  eapply near_weak; [apply (near_sub 53 1024 _ _ _ _ _ _ _ (near_fin 53 1024 _ _ F90) MN BD); lra|rewrite UE; lra].
Qed.
Lemma refz64 lm k (x y z : double) a A B : libm_ok lm k -> k <= 1e-15 -> value64 x a -> value64 y A -> value64 z B -> terrestrial A B -> - (83 / deg) <= a <= 4 ->
  exists b, value64 (refz (N := B64 lm) x y z) b /\ Rabs (b - refz (N := RNum) a A B) <= 71e-15 /\ (a <= 83 / deg -> Rabs (b - refz (N := RNum) a A B) <= 14e-16).
Proof.
  intros L K X Y Z T AB. pose proof (zd83_64 lm) as F83. pose proof q83_near as QN. pose proof zd83_bounds as ZB.
  pose proof Hh64 as H. pose proof eta64 as ET. pose proof u64_num as UN. pose proof u64_eq as UE. rewrite UN in UE.
  assert (S : 1e-323 <= 1e-19) by (change 1e-323 with (1 / IZR (10 ^ 323)); change 1e-19 with (1 / IZR (10 ^ 19)); apply inv_le; [reflexivity|vm_compute; reflexivity]).
  rewrite refz_rz. cbv zeta. unfold n_min at 1 2 4.
  change (n_ltb (n := B64 lm) zd83 x) with (Bltb (zd83 (N := B64 lm)) x). pose proof (fin_ltb 53 1024 _ _ _ _ F83 X) as LT.
  destruct (Rlt_le_dec q83 a) as [C|C].
  - rewrite (Rlt_bool_true _ _ C) in LT. rewrite LT. change (n_ltb (n := B64 lm) zd83 x) with (Bltb (zd83 (N := B64 lm)) x). rewrite LT.
    pose proof (next83 lm x a X C) as GT.
    assert (NW : near 53 1024 (zd83 (N := B64 lm)) (83 / deg) 3e-17) by (exists q83; split; [exact F83|apply Rabs_le; lra]).
    destruct (rz_low64 lm k _ _ _ _ _ _ L K NW ltac:(rewrite Rabs_pos_eq; lra) Y Z T) as [NL LB].
    pose proof (elev64 lm x a X ltac:(unfold q83 in C; lra)) as NE.
    set (E := 90 - Rmin 93 (a * deg)) in *.
    assert (DG : 83 <= a * deg). { replace 83 with (83 / deg * deg) by (field; unfold deg; lra). apply Rmult_le_compat_r; [unfold deg; lra|lra]. }
    assert (EB : -3 <= E <= 7) by (unfold E, Rmin; destruct (Rle_dec 93 (a * deg)); lra).
    assert (E64 : 63e-15 <= V (6400 * e17)) by (apply (V_ge _ 63 1000000000000000); [lia|vm_compute; reflexivity]).
    assert (E125 : 12e-16 <= V (125 * e17)) by (apply (V_ge _ 12 10000000000000000); [lia|vm_compute; reflexivity]).
    assert (V6 : 59 / 10000 <= V (6 * Sc / 1000)) by (apply (V_ge _ 59 10000); [lia|vm_compute; reflexivity]).
    assert (VC : 0 <= V (Sc / 100)) by (replace 0 with (0 / 100) by lra; apply (V_ge _ 0 100); [lia|vm_compute; reflexivity]).
    apply Rabs_le_inv in LB.
    assert (OK : forall l h, IZR l <= E <= IZR h -> okenv (h_env l h) [rz_low (N := B64 lm) zd83 y z; n_sub (n := B64 lm) (n_ofZ 90) (n_min (N := B64 lm) (n_ofZ 93) (n_mul (n := B64 lm) x r2d))] [low_ref A B (83 / deg); E]).
    { intros l h LH. split; [apply (okk_er _ _ _ _ _ _ NL); [lra|rewrite V_opp; lra]|]. split; [apply (okk_er _ _ _ _ _ _ NE); [lra|rewrite V_add, !V_Sc; lra]|exact Logic.I]. }
    assert (N3 : near 53 1024 (rz3 (N := B64 lm) (rz_low (N := B64 lm) zd83 y z) (n_sub (n := B64 lm) (n_ofZ 90) (n_min (N := B64 lm) (n_ofZ 93) (n_mul (n := B64 lm) x r2d)))) (rz3 (N := RNum) (low_ref A B (83 / deg)) E) 70e-15).
    { destruct (Rle_lt_dec E (-1)); [apply (rz3_64 lm _ _ _ _ (-3) (-1)); [auto|apply OK; lra]|].
      destruct (Rle_lt_dec E 1); [apply (rz3_64 lm _ _ _ _ (-1) 1); [auto|apply OK; lra]|apply (rz3_64 lm _ _ _ _ 1 7); [auto|apply OK; lra]]. }
    assert (R3 : rz3 (N := RNum) (low_ref A B (83 / deg)) E = low_ref A B (83 / deg) * (low_elevation E / low_elevation 7)).
    { unfold rz3. cbv zeta. rewrite ref83_eq, <- (high_model E). set (t := low_elevation 7). unR. unfold Rdiv. ring. }
    assert (RB : Rabs (a - rz3 (N := RNum) (low_ref A B (83 / deg)) E) <= 4.1).
    { assert (Q7 : 0.137 <= low_elevation 7) by (unfold low_elevation, Rdiv; apply Rmult_le_reg_r with (1 + 0.28385 * 7 + 0.02390 * 7 ^ 2); [lra|]; rewrite Rmult_assoc, Rinv_l; lra).
      assert (QE : 0 <= low_elevation E <= 2.5).
      { unfold low_elevation, Rdiv. assert (D : 0.3 <= 1 + 0.28385 * E + 0.02390 * E ^ 2) by nra. assert (I : 0 < / (1 + 0.28385 * E + 0.02390 * E ^ 2)) by (apply Rinv_0_lt_compat; lra).
        split; [apply Rmult_le_pos; [nra|lra]|]. apply Rmult_le_reg_r with (1 + 0.28385 * E + 0.02390 * E ^ 2); [lra|]. rewrite Rmult_assoc, Rinv_l by lra. nra. }
      rewrite R3. assert (RT : 0 <= low_elevation E / low_elevation 7 <= 20).
      { unfold Rdiv. assert (I : 0 < / low_elevation 7) by (apply Rinv_0_lt_compat; lra). split; [apply Rmult_le_pos; lra|]. apply Rmult_le_reg_r with (low_elevation 7); [lra|]. rewrite Rmult_assoc, Rinv_l by lra. lra. }
      unfold q83 in C. apply Rabs_le. nra. }
    rewrite (refz_high a A B GT). fold E. rewrite <- R3.
    destruct (near_sub 53 1024 _ _ _ _ _ _ _ (near_fin 53 1024 _ _ X) N3 RB ltac:(lra)) as (b & FB & EB').
    exists b. split; [exact FB|]. split; [eapply Rle_trans; [exact EB'|rewrite UE; lra]|intros; lra].
  - rewrite (Rlt_bool_false _ _ C) in LT. rewrite LT. change (n_ltb (n := B64 lm) x x) with (Bltb x x). rewrite (fin_ltb 53 1024 _ _ _ _ X X), (Rlt_bool_false a a) by lra.
    assert (NW : near 53 1024 x a 3e-17) by (apply near_weak with (e := 0); [now apply near_fin|lra]).
    assert (AA : Rabs a <= 1.4487) by (apply Rabs_le; lra).
    destruct (rz_low64 lm k _ _ _ _ _ _ L K NW AA Y Z T) as [NL LB].
    rewrite (refz_low a A B) by lra. apply Rabs_le_inv in LB. apply Rabs_le_inv in AA.
    assert (RB : Rabs (a - low_ref A B a) <= 1.454) by (apply Rabs_le; lra).
    destruct (near_sub 53 1024 _ _ _ _ _ _ _ (near_fin 53 1024 _ _ X) NL RB ltac:(lra)) as (b & FB & EB').
    exists b. split; [exact FB|]. assert (Rabs (b - (a - low_ref A B a)) <= 14e-16) by (eapply Rle_trans; [exact EB'|rewrite UE; lra]). split; [lra|intros; assumption].
Qed.
(** The law itself. *)
Lemma refz_solves64 lm k (x y z : double) a A B : libm_ok lm k -> k <= 1e-15 -> value64 x a -> value64 y A -> value64 z B -> terrestrial A B -> Rabs a <= 83 / deg ->
  exists b, value64 (refz (N := B64 lm) x y z) b /\ Rabs (b + law A B b - a) <= 2.0001 / 10 ^ 10.
Proof.
  intros L K X Y Z T AB. pose proof zd83_bounds as ZB. pose proof (Rabs_le_inv _ _ AB) as AB'.
  destruct (refz64 lm k x y z a A B L K X Y Z T ltac:(lra)) as (b & FB & _ & E). specialize (E ltac:(lra)). exists b. split; [exact FB|].
  pose proof (refz_solves a A B T AB) as S. cbv zeta in S. set (c := refz (N := RNum) a A B) in *.
  assert (NW : near 53 1024 x a 3e-17) by (apply near_weak with (e := 0); [now apply near_fin|lra]).
  destruct (rz_low64 lm k _ _ _ _ _ _ L K NW ltac:(lra) Y Z T) as [_ LB]. apply Rabs_le_inv in LB.
  assert (CC : c = a - low_ref A B a) by (apply refz_low; lra).
  assert (CB : Rabs c <= 1.455) by (rewrite CC; apply Rabs_le; lra). pose proof (Rabs_le_inv _ _ E) as E'.
  assert (BB : Rabs b <= 1.455) by (apply Rabs_le; lra).
  pose proof (law_second A B T c b CB BB) as LS. pose proof (law'_bounds A B T c CB) as LP.
  set (d := b - c) in *. set (P := b + law A B b) in *. set (Q := c + law A B c) in *.
  assert (M1 : Rabs (law' A B c * d) <= 1.0375 * 14e-16) by (rewrite Rabs_mult, (Rabs_pos_eq (law' A B c)) by lra; apply Rmult_le_compat; try apply Rabs_pos; lra).
  assert (M2 : 0.6458 * (Rabs d * Rabs d) <= 14e-16) by (pose proof (Rabs_pos d); nra).
  apply Rabs_le_inv in S. apply Rabs_le_inv in LS. apply Rabs_le_inv in M1. apply Rabs_le. lra.
Qed.
