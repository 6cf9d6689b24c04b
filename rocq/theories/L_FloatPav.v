(** The bearing between two vectors in binary64. *)
From Coq Require Import ZArith Reals Bool List Lia Lra Psatz.
From Flocq Require Import Core BinarySingleNaN.
From Verif Require Import Int32 Num NumB NumR M_Angle M_Vec M_Sphere S_Geom S_Sphere S_Frame S_Binary S_Float S_FloatSph S_FloatHor L_Bin L_Flt L_FltVec L_Float.
From Verif Require Import L_Real L_Vec L_Rot L_Trig L_Frame L_Sphere L_FloatVec L_FloatMat L_FltGeo L_FloatSph L_Err L_ErrT L_FloatFrame L_FloatLand L_FloatHor L_FloatEt L_FloatObs.
Import ListNotations.
Open Scope R_scope.

Definition pv_q {N : Num} (x y z : N) : N := n_add (n_add (n_mul x x) (n_mul y y)) (n_mul z z).
Definition pv_s {N : Num} (l x y p q : N) : N := n_sub (n_mul q (n_div x l)) (n_mul p (n_div y l)).
Definition pv_c {N : Num} (l x y z p q r : N) : N :=
  let x := n_div x l in let y := n_div y l in let z := n_div z l in
  n_sub (n_mul r (n_add (n_mul x x) (n_mul y y))) (n_mul z (n_add (n_mul p x) (n_mul q y))).

Lemma pv_q64 lm (x y z : double) a b c : value64 x a -> value64 y b -> value64 z c -> Rabs a <= 1.001 -> Rabs b <= 1.001 -> Rabs c <= 1.001 ->
  near 53 1024 (pv_q (N := B64 lm) x y z) (pv_q (N := RNum) a b c) 12e-16.
Proof.
  intros X Y Z A B C. assert (OK : okenv [cs_it; cs_it; cs_it] [x; y; z] [a; b; c]) by (do 3 (split; [apply okk_cs; assumption|]); exact Logic.I).
  unfold pv_q. err0 lm [cs_it; cs_it; cs_it] [x; y; z] [a; b; c] OK.
Qed.
Lemma pv_root64 lm (x : double) a : value64 x a -> 0.9801 <= a <= 1.0199 -> near 53 1024 (n_sqrt (x : B64 lm)) (sqrt a) 3e-16.
Proof.
  intros X A. assert (OK : okenv [q_it] [x] [a]) by (split; [now apply okk_q|exact Logic.I]).
  change (sqrt a) with (n_sqrt (a : RNum)). err0 lm [q_it] [x] [a] OK.
Qed.
Lemma pv_pair64 lm (l x y z p q r : double) a0 a1 a2 a3 a4 a5 a6 :
  value64 l a0 -> value64 x a1 -> value64 y a2 -> value64 z a3 -> value64 p a4 -> value64 q a5 -> value64 r a6 -> 0.9801 <= a0 <= 1.0199 ->
  Rabs a1 <= 1.001 -> Rabs a2 <= 1.001 -> Rabs a3 <= 1.001 -> Rabs a4 <= 1.001 -> Rabs a5 <= 1.001 -> Rabs a6 <= 1.001 ->
  near 53 1024 (pv_s (N := B64 lm) l x y p q) (pv_s (N := RNum) a0 a1 a2 a4 a5) 12e-16 /\
  near 53 1024 (pv_c (N := B64 lm) l x y z p q r) (pv_c (N := RNum) a0 a1 a2 a3 a4 a5 a6) 30e-16.
Proof.
  intros X0 X1 X2 X3 X4 X5 X6 A0 A1 A2 A3 A4 A5 A6.
  assert (OK : okenv [q_it; cs_it; cs_it; cs_it; cs_it; cs_it; cs_it] [l; x; y; z; p; q; r] [a0; a1; a2; a3; a4; a5; a6]).
  { split; [now apply okk_q|]. do 6 (split; [apply okk_cs; assumption|]). exact Logic.I. }
  unfold pv_s, pv_c. cbv zeta.
  split; err0 lm [q_it; cs_it; cs_it; cs_it; cs_it; cs_it; cs_it] [l; x; y; z; p; q; r] [a0; a1; a2; a3; a4; a5; a6] OK.
Qed.
Lemma bear64_wide lm k (x y r : double) a b n e d : libm_ok lm k -> value64 x a -> value64 y b ->
  norm (vsub (V3 a b 0) (V3 n e 0)) <= d -> hyp n e <= 1.001 ->
  ((a <> 0 \/ b <> 0) -> r = n_atan2 (y : B64 lm) (x : B64 lm)) -> (a = 0 -> b = 0 -> exists t, value64 r t /\ Rabs t <= PI + 2 * k) ->
  exists t, value64 r t /\ Rabs t <= PI + 2 * k /\ norm (vsub (V3 (hyp n e * cos t) (hyp n e * sin t) 0) (V3 n e 0)) <= 2.002 * k + 2 * d.
Proof.
  intros L X Y D S R1 R0. pose proof (libm_k lm k L) as K. pose proof (hyp_nonneg n e) as S0. set (s := hyp n e) in *.
  assert (SN : norm (V3 n e 0) = s) by apply norm_plane.
  destruct (Req_dec a 0) as [EA|EA]; [destruct (Req_dec b 0) as [EB|EB]|].
  { destruct (R0 EA EB) as (t & FT & RT). exists t. split; [exact FT|]. split; [exact RT|]. subst a b.
    assert (SD : s <= d).
    { rewrite <- SN. eapply Rle_trans; [|exact D]. apply Req_le. unfold norm, dot, vsub. cbn [v0 v1 v2]. f_equal. ring. }
    pose proof (plane_radial s 0 t) as PR. rewrite Rminus_0_r, Rabs_pos_eq in PR by exact S0.
    eapply Rle_trans; [apply (vsub_via _ (V3 (0 * cos t) (0 * sin t) 0))|]. rewrite PR.
    assert (norm (vsub (V3 (0 * cos t) (0 * sin t) 0) (V3 n e 0)) <= d); [|lra]. now rewrite !Rmult_0_l. }
  all: set (al := Ratan2 b a); destruct (atan2_cos_sin b a) as (CA & SA); fold al in CA, SA; pose proof (atan2_range b a) as RA; fold al in RA.
  all: assert (NZ : b <> 0 \/ a <> 0) by auto; rewrite (R1 ltac:(auto)); destruct L as (_ & _ & LA); destruct (LA y x b a Y X NZ) as (t & FT & ET).
  all: assert (DT : norm (vsub (V3 (s * cos t) (s * sin t) 0) (V3 (s * cos al) (s * sin al) 0)) <= s * (2 * k) /\ Rabs t <= PI + 2 * k).
  1,3: destruct ET as [ET|(B0 & A0 & _ & ET)].
  1,3: fold al in ET; split; [eapply Rle_trans; [apply plane_polar; exact S0|]; nra|apply Rabs_le_inv in ET; apply Rabs_le; lra].
  1,2: assert (AP : al = PI) by (unfold al; apply (atan2_unique _ _ (- a) PI); [lra|rewrite cos_PI; ring|rewrite B0, sin_PI; ring|pose proof PI_RGT_0; lra]).
  1,2: rewrite AP, <- plane_pi; split; [eapply Rle_trans; [apply plane_polar; exact S0|]; replace (t - - PI) with (t + PI) by ring; nra|apply Rabs_le_inv in ET; apply Rabs_le; lra].
  all: destruct DT as (DT & RT); exists t; split; [exact FT|]; split; [exact RT|].
  all: eapply Rle_trans; [apply (vsub_via _ (V3 (s * cos al) (s * sin al) 0))|]; eapply Rle_trans; [apply Rplus_le_compat_l, (vsub_via _ (V3 a b 0))|].
  all: assert (HL : norm (vsub (V3 (s * cos al) (s * sin al) 0) (V3 a b 0)) <= d);
    [replace (V3 a b 0) with (V3 (hyp a b * cos al) (hyp a b * sin al) 0) by (now rewrite CA, SA); rewrite plane_radial; rewrite <- (norm_plane a b), <- SN, Rabs_minus_sym; eapply Rle_trans; [apply norm_lip|exact D]|nra].
Qed.
Lemma comp_le (v : RV) m : norm v <= m -> Rabs (v0 v) <= m /\ Rabs (v1 v) <= m /\ Rabs (v2 v) <= m.
Proof.
  intros H. pose proof (norm_nonneg v) as P. pose proof (norm_sq v) as S. unfold dot in S. set (n := norm v) in *.
  repeat split; apply Rabs_le; split; nra.
Qed.
Lemma frame_hyp v a b : hyp (dot v (north a b)) (dot v (east a)) <= norm v.
Proof.
  assert (S : norm (V3 (dot v (north a b)) (dot v (east a)) (dot v (direction a b))) = norm v).
  { unfold norm. f_equal. unfold north, east, direction, dot. cbn [v0 v1 v2].
    set (x := v0 v). set (y := v1 v). set (z := v2 v).
    transitivity ((sin b * sin b + cos b * cos b) * ((x * cos a + y * sin a) * (x * cos a + y * sin a) + z * z) + (y * cos a - x * sin a) * (y * cos a - x * sin a)); [ring|].
    rewrite (sc1 b). transitivity ((sin a * sin a + cos a * cos a) * (x * x + y * y) + z * z); [ring|]. rewrite (sc1 a). ring. }
  rewrite <- S. apply (hyp_le_norm (V3 (dot v (north a b)) (dot v (east a)) (dot v (direction a b)))).
Qed.
Lemma hyp_scale c n e : 0 <= c -> hyp (c * n) (c * e) = c * hyp n e.
Proof.
  intros C. unfold hyp. replace (c * n * (c * n) + c * e * (c * e)) with (c * c * (n * n + e * e)) by ring.
  rewrite sqrt_mult_alt by nra. rewrite sqrt_square by exact C. reflexivity.
Qed.

Lemma dpav64 lm k (x y : vec (B64 lm)) r a b v : libm_ok lm k -> vec64 x (scale r (direction a b)) -> vec64 y v -> Rabs (r - 1) <= 0.001 -> norm v <= 1.001 -> 0 < cos b ->
  bears k (dpav (N := B64 lm) x y) a b v ((2.002 * k + 1.1e-14) / cos b).
Proof.
  intros L X Y RR NV CB. destruct x as [x1 y1 z1], y as [x2 y2 z2]. destruct X as (X1 & X2 & X3), Y as (Y1 & Y2 & Y3). cbn [v0 v1 v2] in X1, X2, X3, Y1, Y2, Y3.
  pose proof (libm_k lm k L) as K. apply Rabs_le_inv in RR.
  assert (NX : norm (scale r (direction a b)) <= 1.001) by (rewrite norm_scale, norm_direction by lra; lra).
  destruct (comp_le _ _ NX) as (B1 & B2 & B3). destruct (comp_le _ _ NV) as (C1 & C2 & C3).
  set (A := scale r (direction a b)) in *.
  destruct (pv_q64 lm x1 y1 z1 _ _ _ X1 X2 X3 B1 B2 B3) as (q & FQ & EQ).
  assert (QR : pv_q (N := RNum) (v0 A) (v1 A) (v2 A) = r * r).
  { pose proof (norm_sq A) as S. unfold A in S at 1 2. rewrite norm_scale, norm_direction in S by lra. unfold dot in S.
    change (v0 A * v0 A + v1 A * v1 A + v2 A * v2 A = r * r). lra. }
  rewrite QR in EQ. apply Rabs_le_inv in EQ. assert (Q1 : 0.9801 <= q <= 1.0199) by nra.
  destruct (pv_root64 lm _ q FQ Q1) as (l & FL & EL). apply Rabs_le_inv in EL.
  assert (SQ : 0.99 <= sqrt q <= 1.01). { split; [rewrite <- (sqrt_square 0.99) by lra; apply sqrt_le_1_alt; lra|rewrite <- (sqrt_square 1.01) by lra; apply sqrt_le_1_alt; lra]. }
  pose proof (sqrt_sqrt q ltac:(lra)) as SS. set (w := sqrt q) in *.
  assert (LR : - 9.3e-16 <= l - r <= 9.3e-16). { assert (- 6.2e-16 <= w - r <= 6.2e-16) by (split; nra). lra. }
  destruct (pv_pair64 lm _ _ _ _ _ _ _ l _ _ _ _ _ _ FL X1 X2 X3 Y1 Y2 Y3 ltac:(lra) B1 B2 B3 C1 C2 C3) as (N2 & N1).
  set (e := dot v (east a)). set (n := dot v (north a b)).
  set (m := r / l). assert (M : - 9.4e-16 <= m - 1 <= 9.4e-16).
  { assert (ML : m * l = r) by (unfold m; field; lra). assert (ML2 : (m - 1) * l = r - l) by lra. split; nra. }
  assert (RS : pv_s (N := RNum) l (v0 A) (v1 A) (v0 v) (v1 v) = m * (cos b * e)).
  { unfold pv_s, e, m, A, dot, east, scale, direction. cbn [v0 v1 v2 n_sub n_mul n_div RNum]. match goal with |- @eq _ ?a ?b => change (@eq R a b) end. field. lra. }
  assert (RC : pv_c (N := RNum) l (v0 A) (v1 A) (v2 A) (v0 v) (v1 v) (v2 v) = m * m * (cos b * n)).
  { unfold pv_c, n, m, A, dot, north, scale, direction. cbv zeta. cbn [v0 v1 v2 n_add n_sub n_mul n_div RNum].
    match goal with |- @eq _ ?a ?b => change (@eq R a b) end. pose proof (sc1 a) as SA.
    transitivity (r / l * (r / l) * (v2 v * (cos b * cos b) * (sin a * sin a + cos a * cos a) - cos b * sin b * (v0 v * cos a + v1 v * sin a))); [field; lra|]. rewrite SA. ring. }
  rewrite RS in N2. rewrite RC in N1.
  pose proof (frame_hyp v a b) as HV. fold n e in HV. pose proof (hyp_nonneg n e) as H0. pose proof (COS_bound b) as CB1.
  assert (HN : Rabs (cos b * n) <= 1.001 /\ Rabs (cos b * e) <= 1.001).
  { assert (HH : hyp n e * hyp n e = n * n + e * e) by (unfold hyp; apply sqrt_sqrt; nra). set (h := hyp n e) in *. assert (hh : h <= 1.001) by lra. clear - HH hh H0 CB CB1.
    assert (A1 : Rabs n <= 1.001) by (apply Rabs_le; split; nra). assert (A2 : Rabs e <= 1.001) by (apply Rabs_le; split; nra).
    split; rewrite Rabs_mult, (Rabs_pos_eq (cos b)) by lra; [pose proof (Rabs_pos n)|pose proof (Rabs_pos e)]; nra. }
  destruct HN as (HN & HE). set (n' := cos b * n) in *. set (e' := cos b * e) in *.
  assert (D1 : Rabs (m * m * n' - n') <= 19e-16). { replace (m * m * n' - n') with ((m * m - 1) * n') by ring. rewrite Rabs_mult. assert (Rabs (m * m - 1) <= 18.85e-16) by (apply Rabs_le; nra). pose proof (Rabs_pos (m * m - 1)). pose proof (Rabs_pos n'). nra. }
  assert (D2 : Rabs (m * e' - e') <= 9.5e-16). { replace (m * e' - e') with ((m - 1) * e') by ring. rewrite Rabs_mult. assert (Rabs (m - 1) <= 9.4e-16) by (apply Rabs_le; lra). pose proof (Rabs_pos (m - 1)). pose proof (Rabs_pos e'). nra. }
  destruct (near_add _ _ _ _ _ N1 D1) as (e1 & V1 & E1). destruct (near_add _ _ _ _ _ N2 D2) as (e2 & V2 & E2).
  assert (NN : norm (vsub (V3 e1 e2 0) (V3 n' e' 0)) <= 55e-16) by (apply (pair_norm _ _ _ _ _ _ _ E1 E2); lra).
  assert (F0 : value64 (n_ofZ (n := B64 lm) 0) 0) by (apply (fin_ofZ 53 1024 0); reflexivity).
  assert (G : n_eqb (n_sqrt (pv_q (N := B64 lm) x1 y1 z1)) (n_ofZ (n := B64 lm) 0) = false).
  { transitivity (Req_bool l 0); [apply fin_eqb; [exact FL|exact F0]|]. apply Req_bool_false. lra. }
  set (S := pv_s (N := B64 lm) (n_sqrt (pv_q (N := B64 lm) x1 y1 z1)) x1 y1 x2 y2) in *.
  set (C := pv_c (N := B64 lm) (n_sqrt (pv_q (N := B64 lm) x1 y1 z1)) x1 y1 z1 x2 y2 z2) in *.
  assert (EP : dpav (N := B64 lm) (V3 (A := B64 lm) x1 y1 z1) (V3 (A := B64 lm) x2 y2 z2) =
    n_atan2 S (if andb (n_eqb S (n_ofZ (n := B64 lm) 0)) (n_eqb C (n_ofZ (n := B64 lm) 0)) then n_ofZ (n := B64 lm) 1 else C)).
  { unfold dpav. cbn [v0 v1 v2]. fold (pv_q (N := B64 lm) x1 y1 z1). cbv zeta. rewrite G. reflexivity. }
  assert (ES : n_eqb S (n_ofZ (n := B64 lm) 0) = Req_bool e2 0) by (apply fin_eqb; [exact V2|exact F0]).
  assert (EC : n_eqb C (n_ofZ (n := B64 lm) 0) = Req_bool e1 0) by (apply fin_eqb; [exact V1|exact F0]).
  rewrite ES, EC in EP.
  assert (HS : hyp n' e' = cos b * hyp n e) by (apply hyp_scale; lra).
  destruct (bear64_wide lm k C S (dpav (N := B64 lm) (V3 (A := B64 lm) x1 y1 z1) (V3 (A := B64 lm) x2 y2 z2)) e1 e2 n' e' _ L V1 V2 NN) as (t & FT & RT & DT).
  - rewrite HS. nra.
  - intros NZ. rewrite EP. destruct (Req_bool_spec e2 0); destruct (Req_bool_spec e1 0); cbn [andb]; try reflexivity. destruct NZ; contradiction.
  - intros Z1 Z2. rewrite EP. rewrite !Req_bool_true by assumption. cbn [andb].
    assert (F1 : value64 (n_ofZ (n := B64 lm) 1) 1) by (apply (fin_ofZ 53 1024 1); reflexivity).
    destruct L as (_ & _ & LA). destruct (LA S _ e2 1 V2 F1 ltac:(right; lra)) as (t & FT & [ET|(_ & W & _)]); [|lra].
    exists t. split; [exact FT|]. pose proof (atan2_range e2 1). apply Rabs_le_inv in ET. apply Rabs_le. lra.
  - exists t. split; [exact FT|]. split; [exact RT|]. unfold vdist. fold n e. fold (hyp n e). rewrite HS in DT.
    set (h := hyp n e) in *. 
    replace (vsub (V3 (h * cos t) (h * sin t) 0) (V3 n e 0)) with (scale (/ cos b) (vsub (V3 (cos b * h * cos t) (cos b * h * sin t) 0) (V3 n' e' 0))).
    2: { unfold n', e', scale, vsub. cbn [v0 v1 v2]. f_equal; field; lra. }
    pose proof (Rinv_0_lt_compat _ CB) as IC. rewrite norm_scale by lra. unfold Rdiv. rewrite (Rmult_comm _ (/ cos b)). apply Rmult_le_compat_l; [lra|]. lra.
Qed.
