(** The tangent plane in binary64. *)
From Coq Require Import ZArith Reals Bool List Lia Lra Psatz Nsatz.
From Flocq Require Import Core BinarySingleNaN Relative.
From Verif Require Import Int32 Num NumB NumR M_Angle M_Vec M_Sphere S_Geom S_Sphere S_Frame S_Binary S_Float S_FloatSph S_FloatHor L_Bin L_Flt L_FltVec L_Float.
From Verif Require Import L_Real L_Vec L_Rot L_Trig L_Frame L_Sphere L_FloatVec L_FloatMat L_FltGeo L_FloatSph L_Err L_ErrT L_FloatFrame L_FloatLand L_FloatHor.
From Verif Require L_BinAngle L_Binary L_Pi L_FrameGal.
Import ListNotations.
Open Scope R_scope.

(** ** ds2tp *)
Definition tden {N : Num} (sd st cd ct c : N) : N := n_add (n_mul sd st) (n_mul (n_mul cd ct) c).
Lemma tden64 lm (x1 x2 x3 x4 x5 : double) a1 a2 a3 a4 a5 :
  value64 x1 a1 -> value64 x2 a2 -> value64 x3 a3 -> value64 x4 a4 -> value64 x5 a5 ->
  Rabs a1 <= 1 -> Rabs a2 <= 1 -> Rabs a3 <= 1 -> Rabs a4 <= 1 -> Rabs a5 <= 1 ->
  near 53 1024 (tden (N := B64 lm) x1 x2 x3 x4 x5) (tden (N := RNum) a1 a2 a3 a4 a5) 56e-17.
Proof.
  intros X1 X2 X3 X4 X5 A1 A2 A3 A4 A5.
  assert (OK : okenv env5 [x1; x2; x3; x4; x5] [a1; a2; a3; a4; a5]).
  { unfold env5. do 5 (split; [apply okk_unit; assumption|]). exact Logic.I. }
  unfold tden. err0 lm env5 [x1; x2; x3; x4; x5] [a1; a2; a3; a4; a5] OK.
Qed.
Lemma tden_lip j k a1 a2 a3 a4 a5 b1 b2 b3 b4 b5 : 0 <= k ->
  Rabs a1 <= 1 -> Rabs a2 <= 1 -> Rabs a3 <= 1 -> Rabs a4 <= 1 -> Rabs a5 <= 1 -> Rabs b1 <= 1 -> Rabs b3 <= 1 -> Rabs b4 <= 1 ->
  Rabs (a1 - b1) <= k -> Rabs (a2 - b2) <= k -> Rabs (a3 - b3) <= k -> Rabs (a4 - b4) <= k -> Rabs (a5 - b5) <= j ->
  Rabs (tden (N := RNum) a1 a2 a3 a4 a5 - tden (N := RNum) b1 b2 b3 b4 b5) <= 4 * k + j.
Proof.
  intros K A1 A2 A3 A4 A5 B1 B3 B4 D1 D2 D3 D4 D5.
  change (Rabs (a1 * a2 + a3 * a4 * a5 - (b1 * b2 + b3 * b4 * b5)) <= 4 * k + j).
  replace (4 * k + j) with (2 * k + (2 * k + j)) by ring. apply add_err; [apply prod_err; assumption|].
  apply prod_err2; [exact A5|now apply mul_abs1|now apply prod_err|exact D5].
Qed.
(** The three dot products the code forms. *)
Definition tp_parts {N : Num} (p t : sph N) : N * N * N :=
  let d := n_sub (s_a p) (s_a t) in
  (tden (n_sin (s_b p)) (n_sin (s_b t)) (n_cos (s_b p)) (n_cos (s_b t)) (n_cos d),
   be (n_cos (s_b p)) (n_sin d),
   bn (n_sin (s_b p)) (n_cos (s_b p)) (n_sin (s_b t)) (n_cos (s_b t)) (n_cos d)).
Lemma ds2tp_parts lm p t : ds2tp (N := B64 lm) p t =
  let '(d, x, y) := tp_parts (N := B64 lm) p t in let '(st, d) := tp_denom d in (st, n_div x d, n_div y d).
Proof. reflexivity. Qed.
Definition tp_err (k : R) : R := 5 * k + 13.1 * u64.
Lemma tp_parts64 lm k p t a b a0 b0 : libm_ok lm k -> angles64 p a b -> angles64 t a0 b0 -> Rabs a <= 8 -> Rabs a0 <= 8 ->
  let '(d, x, y) := tp_parts (N := B64 lm) p t in let v := direction a b in exists d' x' y', value64 d d' /\ value64 x x' /\ value64 y y' /\
    Rabs (d' - dot v (direction a0 b0)) <= tp_err k /\ Rabs (x' - dot v (east a0)) <= tp_err k /\ Rabs (y' - dot v (north a0 b0)) <= tp_err k.
Proof.
  intros L P T RA RA0. destruct (angles_Sph p a b P) as (x & y & -> & X & Y). destruct (angles_Sph t a0 b0 T) as (x0 & y0 & -> & X0 & Y0).
  unfold tp_parts. cbn [s_a s_b]. cbv zeta. pose proof (libm_k lm k L) as K. pose proof u64_num as U. pose proof u64_pos as UP. unfold tp_err.
  destruct (diff8 lm x x0 a a0 X X0 RA RA0) as (dd & FD & ED).
  destruct (trig64 lm k y b L Y) as (sd & cd & F1 & F2 & A1 & A2 & D1 & D2).
  destruct (trig64 lm k y0 b0 L Y0) as (st & ct & F3 & F4 & A3 & A4 & D3 & D4).
  destruct (trig64 lm k _ dd L FD) as (sr & cr & F5 & F6 & A5 & A6 & D5 & D6).
  assert (D5' : Rabs (sr - sin (a - a0)) <= k + 8 * u64).
  { replace (sr - sin (a - a0)) with ((sr - sin dd) + (sin dd - sin (a - a0))) by ring. eapply Rle_trans; [apply Rabs_triang|]. pose proof (sin_lip dd (a - a0)). lra. }
  assert (D6' : Rabs (cr - cos (a - a0)) <= k + 8 * u64).
  { replace (cr - cos (a - a0)) with ((cr - cos dd) + (cos dd - cos (a - a0))) by ring. eapply Rle_trans; [apply Rabs_triang|]. pose proof (cos_lip dd (a - a0)). lra. }
  pose proof (tden64 lm _ _ _ _ _ _ _ _ _ _ F1 F3 F2 F4 F6 A1 A3 A2 A4 A6) as N0.
  destruct (bn64 lm _ _ _ _ _ _ _ _ _ _ F1 F2 F3 F4 F6 A1 A2 A3 A4 A6) as (N2 & _).
  destruct (bn64 lm _ _ _ _ _ _ _ _ _ _ F2 F5 F3 F4 F6 A2 A5 A3 A4 A6) as (_ & N1).
  pose proof (tden_lip (k + 8 * u64) k sd st cd ct cr (sin b) (sin b0) (cos b) (cos b0) (cos (a - a0)) K A1 A3 A2 A4 A6 (sin_abs1 _) (cos_abs1 _) (cos_abs1 _) D1 D3 D2 D4 D6') as L0.
  pose proof (bn_lip (k + 8 * u64) k sd cd st ct cr (sin b) (cos b) (sin b0) (cos b0) (cos (a - a0)) K A1 A2 A3 A4 A6 (sin_abs1 _) (cos_abs1 _) (sin_abs1 _) D1 D2 D3 D4 D6') as L2.
  pose proof (prod_err2 cd sr (cos b) (sin (a - a0)) _ _ A5 (cos_abs1 _) D2 D5') as L1.
  destruct (L_FloatHor.near_add _ _ _ _ _ N0 L0) as (e0 & V0 & E0).
  destruct (L_FloatHor.near_add _ _ _ _ _ N1 L1) as (e1 & V1 & E1).
  destruct (L_FloatHor.near_add _ _ _ _ _ N2 L2) as (e2 & V2 & E2).
  exists e0, e1, e2. split; [exact V0|]. split; [exact V1|]. split; [exact V2|].
  replace (tden (N := RNum) (sin b) (sin b0) (cos b) (cos b0) (cos (a - a0))) with (dot (direction a b) (direction a0 b0)) in E0
    by (unfold tden, dot, direction; cbn [v0 v1 v2 n_add n_mul RNum]; rewrite cos_minus; match goal with |- @eq _ ?a ?b => change (@eq R a b) end; ring).
  replace (cos b * sin (a - a0)) with (dot (direction a b) (east a0)) in E1 by (unfold dot, direction, east; cbn [v0 v1 v2]; rewrite sin_minus; ring).
  replace (bn (N := RNum) (sin b) (cos b) (sin b0) (cos b0) (cos (a - a0))) with (dot (direction a b) (north a0 b0)) in E2
    by (unfold bn, dot, direction, north; cbn [v0 v1 v2 n_sub n_mul RNum]; rewrite cos_minus; match goal with |- @eq _ ?a ?b => change (@eq R a b) end; ring).
  rewrite U in *. split; [lra|]. split; lra.
Qed.
(** The status. *)
Lemma tiny64 lm : exists t, value64 (n_lit (n := B64 lm) 1 (-6)) t /\ Rabs (t - 1e-6) <= 1e-21.
Proof.
  assert (G : near 53 1024 (n_lit (n := B64 lm) 1 (-6)) (n_lit (n := RNum) 1 (-6)) 1e-21) by (err0 lm (@nil item) (@nil double) (@nil R) Logic.I).
  destruct G as (t & F & E). exists t. split; [exact F|]. replace (n_lit (n := RNum) 1 (-6)) with 1e-6 in E; [exact E|]. cbn. lra.
Qed.
Lemma tp_denom64 lm (d : double) d' : value64 d d' -> exists t, value64 (n_lit (n := B64 lm) 1 (-6)) t /\ Rabs (t - 1e-6) <= 1e-21 /\
  (t < d' -> tp_denom (N := B64 lm) d = (TPP_OK, d)) /\
  (0 <= d' <= t -> fst (tp_denom (N := B64 lm) d) = TPP_TOO_FAR) /\
  (- t < d' < 0 -> fst (tp_denom (N := B64 lm) d) = TPP_ASTAR_ON_TP) /\
  (d' <= - t -> tp_denom (N := B64 lm) d = (TPP_ASTAR_TOO_FAR, d)).
Proof.
  intros D. destruct (tiny64 lm) as (t & F & E). exists t. split; [exact F|]. split; [exact E|]. apply Rabs_le_inv in E.
  assert (F0 : value64 (n_ofZ (n := B64 lm) 0) 0) by (apply (fin_ofZ 53 1024 0); reflexivity).
  assert (FO : value64 (n_opp (n_lit (n := B64 lm) 1 (-6))) (- t)) by (apply (fin_opp 53 1024); exact F).
  assert (E1 : n_ltb (n_lit (n := B64 lm) 1 (-6)) d = Rlt_bool t d') by (apply (fin_ltb 53 1024); assumption).
  assert (E2 : n_leb (n_ofZ (n := B64 lm) 0) d = Rle_bool 0 d') by (apply (fin_leb 53 1024); assumption).
  assert (E3 : n_ltb (n_opp (n_lit (n := B64 lm) 1 (-6))) d = Rlt_bool (- t) d') by (apply (fin_ltb 53 1024); assumption).
  unfold tp_denom. cbv zeta. rewrite E1, E2, E3.
  repeat split; intros H; repeat match goal with |- context [Rlt_bool ?a ?b] => destruct (Rlt_bool_spec a b); try lra | |- context [Rle_bool ?a ?b] => destruct (Rle_bool_spec a b); try lra end; reflexivity.
Qed.
Lemma ds2tp_status lm k p t a b a0 b0 : libm_ok lm k -> angles64 p a b -> angles64 t a0 b0 -> Rabs a <= 8 -> Rabs a0 <= 8 ->
  let d := dot (direction a b) (direction a0 b0) in let st := fst (fst (ds2tp (N := B64 lm) p t)) in let e := 5 * k + 14 * u64 in
  (1e-6 + e < d -> st = TPP_OK) /\ (e <= d <= 1e-6 - e -> st = TPP_TOO_FAR) /\
  (- 1e-6 + e < d < - e -> st = TPP_ASTAR_ON_TP) /\ (d <= - 1e-6 - e -> st = TPP_ASTAR_TOO_FAR).
Proof.
  intros L P T RA RA0 d st e. pose proof (tp_parts64 lm k p t a b a0 b0 L P T RA RA0) as H. unfold st. rewrite ds2tp_parts.
  destruct (tp_parts (N := B64 lm) p t) as ((dh & xh) & yh). destruct H as (d' & x' & y' & FD & _ & _ & ED & _). fold d in ED.
  destruct (tp_denom64 lm dh d' FD) as (ti & _ & ET & H1 & H2 & H3 & H4). unfold tp_err in ED. unfold e. pose proof u64_num as U. apply Rabs_le_inv in ED. apply Rabs_le_inv in ET. rewrite U in *.
  repeat split; intros G.
  - rewrite H1 by lra. reflexivity.
  - specialize (H2 ltac:(lra)). destruct (tp_denom (N := B64 lm) dh). exact H2.
  - specialize (H3 ltac:(lra)). destruct (tp_denom (N := B64 lm) dh). exact H3.
  - rewrite H4 by lra. reflexivity.
Qed.
(** A quotient of nearby values. *)
Lemma quot_err x d a b e : 0 < b -> e <= 1e-3 * b -> Rabs (x - a) <= e -> Rabs (d - b) <= e -> 0 <= e ->
  0 < d /\ Rabs (x / d - a / b) <= 1.0011 * (e / b) * (1 + Rabs (a / b)).
Proof.
  intros B E X D E0. apply Rabs_le_inv in D. assert (D0 : 0.999 * b <= d) by lra. assert (DP : 0 < d) by lra. split; [exact DP|].
  replace (x / d - a / b) with (((x - a) - a / b * (d - b)) / d) by (field; lra).
  unfold Rdiv at 1. rewrite Rabs_mult, (Rabs_pos_eq (/ d)) by (apply Rlt_le, Rinv_0_lt_compat, DP).
  assert (N : Rabs ((x - a) - a / b * (d - b)) <= e * (1 + Rabs (a / b))).
  { eapply Rle_trans; [apply Rabs_triang|]. rewrite Rabs_Ropp, Rabs_mult. pose proof (Rabs_pos (a / b)). assert (Rabs (d - b) <= e) by (apply Rabs_le; lra). nra. }
  assert (I : / d <= 1.0011 * / b).
  { apply Rle_trans with (/ (0.999 * b)); [apply Rinv_le_contravar; nra|]. rewrite Rinv_mult by lra. assert (0 < / b) by (now apply Rinv_0_lt_compat). assert (/ 0.999 <= 1.0011) by lra. nra. }
  replace (1.0011 * (e / b) * (1 + Rabs (a / b))) with ((e * (1 + Rabs (a / b))) * (1.0011 * / b)) by (unfold Rdiv; ring).
  apply Rmult_le_compat; [apply Rabs_pos|apply Rlt_le, Rinv_0_lt_compat, DP|exact N|exact I].
Qed.
Lemma quot64 lm (x d : double) x' d' a b e : value64 x x' -> value64 d d' -> 1e-5 <= b -> b <= 1 -> Rabs a <= 1 -> e <= 1e-3 * b -> 13 * u64 <= e -> Rabs (x' - a) <= e -> Rabs (d' - b) <= e ->
  exists q, value64 (n_div (x : B64 lm) (d : B64 lm)) q /\ Rabs (q - a / b) <= 1.09 * (e / b) * (1 + Rabs (a / b)).
Proof.
  intros X D B B1 A E EU EX ED. pose proof u64_num as U. destruct (quot_err x' d' a b e ltac:(lra) E EX ED ltac:(lra)) as (DP & Q).
  assert (AB : Rabs (a / b) <= 1e5).
  { unfold Rdiv. rewrite Rabs_mult, (Rabs_pos_eq (/ b)) by (apply Rlt_le, Rinv_0_lt_compat; lra). replace 1e5 with (1 * / 1e-5) by lra.
    apply Rmult_le_compat; [apply Rabs_pos|apply Rlt_le, Rinv_0_lt_compat; lra|exact A|apply Rinv_le_contravar; lra]. }
  pose proof (Rabs_pos (a / b)) as P0. assert (EB : 0 <= e / b <= 1e-3).
  { split; [unfold Rdiv; apply Rmult_le_pos; [lra|apply Rlt_le, Rinv_0_lt_compat; lra]|]. apply (Rmult_le_reg_r b); [lra|]. unfold Rdiv. rewrite Rmult_assoc, Rinv_l by lra. lra. }
  assert (EB2 : 13 * u64 <= e / b).
  { apply (Rmult_le_reg_r b); [lra|]. replace (e / b * b) with e by (field; lra). assert (0 <= u64) by (rewrite U; lra). nra. }
  assert (M : Rabs (x' / d') <= 1.01 * Rabs (a / b) + 0.01).
  { replace (x' / d') with ((x' / d' - a / b) + a / b) by ring. eapply Rle_trans; [apply Rabs_triang|]. nra. }
  destruct (near_div0 53 1024 x d x' d' _ X D ltac:(lra) M) as (q & F & EQ).
  { pose proof huge64. apply Rle_trans with 1000000; [lra|]. eapply Rle_trans; [|exact H]. replace 4e307 with (IZR (4 * 10 ^ 307)) by (rewrite mult_IZR; reflexivity). apply IZR_le. now vm_compute. }
  exists q. split; [exact F|]. pose proof He64 as HE. rewrite u64_eq in EQ, HE. replace (q - a / b) with ((q - x' / d') + (x' / d' - a / b)) by ring. eapply Rle_trans; [apply Rabs_triang|].
  set (r := Rabs (a / b)) in *. set (f := e / b) in *.
  assert (u64 * (1.01 * r + 0.01) + / 1000 * u64 <= 0.08 * f * (1 + r)) by nra. nra.
Qed.
Lemma ds2tp64 lm k p t a b a0 b0 xi eta : libm_ok lm k -> k <= 1e-9 -> angles64 p a b -> angles64 t a0 b0 -> Rabs a <= 8 -> Rabs a0 <= 8 ->
  projects a0 b0 (direction a b) xi eta -> let d := dot (direction a b) (direction a0 b0) in 1e-5 <= d ->
  exists x y x' y', ds2tp (N := B64 lm) p t = (TPP_OK, x, y) /\ value64 x x' /\ value64 y y' /\
    Rabs (x' - xi) <= (5.5 * k + 14.3 * u64) / d * (1 + Rabs xi) /\ Rabs (y' - eta) <= (5.5 * k + 14.3 * u64) / d * (1 + Rabs eta).
Proof.
  intros L K P T RA RA0 (PR0 & PR1 & PR2) d D. fold d in PR0, PR1, PR2. pose proof (tp_parts64 lm k p t a b a0 b0 L P T RA RA0) as H. rewrite ds2tp_parts. pose proof (libm_k lm k L) as K0.
  destruct (tp_parts (N := B64 lm) p t) as ((dh & xh) & yh). destruct H as (d' & x' & y' & FD & FX & FY & ED & EX & EY). fold d in ED. pose proof u64_num as U.
  destruct (tp_denom64 lm dh d' FD) as (ti & _ & ET & H1 & _). rewrite H1.
  2: { unfold tp_err in ED. rewrite U in ED. apply Rabs_le_inv in ED. apply Rabs_le_inv in ET. lra. }
  assert (CB : forall v w, norm v = 1 -> norm w = 1 -> Rabs (dot v w) <= 1).
  { intros v w V W. pose proof (L_FrameGal.cauchy_abs v w) as C. rewrite V, W in C. lra. }
  assert (D1 : d <= 1) by (pose proof (CB (direction a b) (direction a0 b0) (norm_direction _ _) (norm_direction _ _)) as C; apply Rabs_le_inv in C; apply C).
  assert (NE : norm (east a0) = 1) by (unfold norm, dot, east; cbn [v0 v1 v2]; pose proof (sin2_cos2 a0) as S; unfold Rsqr in S; rewrite <- sqrt_1; f_equal; lra).
  assert (NN : norm (north a0 b0) = 1).
  { unfold norm, dot, north; cbn [v0 v1 v2]. pose proof (sin2_cos2 a0) as S. pose proof (sin2_cos2 b0) as S'. unfold Rsqr in *. rewrite <- sqrt_1. f_equal.
    transitivity ((sin a0 * sin a0 + cos a0 * cos a0) * (sin b0 * sin b0) + cos b0 * cos b0); [ring|rewrite S; lra]. }
  pose proof (CB _ _ (norm_direction a b) NE) as CE. pose proof (CB _ _ (norm_direction a b) NN) as CN.
  assert (TE : tp_err k <= 1e-3 * d /\ 13 * u64 <= tp_err k) by (unfold tp_err; rewrite U; lra). destruct TE as (TE & TU).
  destruct (quot64 lm xh dh x' d' _ d _ FX FD D D1 CE TE TU EX ED) as (qx & VX & QX).
  destruct (quot64 lm yh dh y' d' _ d _ FY FD D D1 CN TE TU EY ED) as (qy & VY & QY).
  exists (n_div (n := B64 lm) xh dh), (n_div (n := B64 lm) yh dh), qx, qy. split; [reflexivity|]. split; [exact VX|]. split; [exact VY|].
  replace (dot (direction a b) (east a0) / d) with xi in QX by (rewrite PR1; field; lra).
  replace (dot (direction a b) (north a0 b0) / d) with eta in QY by (rewrite PR2; field; lra).
  assert (EE : 1.09 * (tp_err k / d) <= (5.5 * k + 14.3 * u64) / d).
  { unfold Rdiv. rewrite <- Rmult_assoc. apply Rmult_le_compat_r; [apply Rlt_le, Rinv_0_lt_compat; lra|]. unfold tp_err. rewrite U. lra. }
  pose proof (Rabs_pos xi). pose proof (Rabs_pos eta). split; (eapply Rle_trans; [eassumption|]; apply Rmult_le_compat_r; [lra|exact EE]).
Qed.

(** ** dtp2s *)
Lemma atan_pair64 lm k (x y z r : double) (a : RV) m : libm_ok lm k -> value64 x (v0 a) -> value64 y (v1 a) -> value64 z (v2 a) -> value64 r m -> 0 <= m ->
  Rabs (m - hyp (v0 a) (v1 a)) <= 2.51 * u64 * hyp (v0 a) (v1 a) + 2 * 1e-150 -> 1e-130 <= norm a -> v1 a <> 0 \/ v0 a <> 0 ->
  exists t b, value64 (n_atan2 (y : B64 lm) x) t /\ value64 (n_atan2 (z : B64 lm) r) b /\
    Rabs t <= PI + 2 * k /\ Rabs b <= PI / 2 + 2 * k /\ norm (vsub (direction t b) (unit_of a)) <= 4 * k + 2.6 * u64.
Proof.
  intros L X0 X1 X2 FM M0 EM NA NXY. pose proof (libm_k lm k L) as K. destruct L as (_ & _ & LA).
  pose proof (hyp_le_norm a) as HN. pose proof (hyp_nonneg (v0 a) (v1 a)) as H0. pose proof (tiny_rel _ NA) as TR. pose proof u64_pos as U.
  pose proof p130. assert (UN : 0 <= u64 * norm a) by nra.
  assert (EM' : Rabs (m - hyp (v0 a) (v1 a)) <= 2.512 * u64 * norm a) by nra.
  set (al := Ratan2 (v1 a) (v0 a)). set (be := Ratan2 (v2 a) m). pose proof PI_RGT_0 as PI0.
  assert (NZ : v2 a <> 0 \/ m <> 0).
  { destruct (Req_dec m 0) as [E|E]; [left|right; exact E]. intros Z. rewrite E in EM'.
    assert (HE : hyp (v0 a) (v1 a) = norm a) by (unfold hyp, norm, dot; f_equal; rewrite Z; ring).
    rewrite HE in EM'. apply Rabs_le_inv in EM'. rewrite u64_num in EM'. lra. }
  assert (D0 : norm (vsub (direction al be) (unit_of a)) <= 2.6 * u64).
  { unfold be. rewrite (direction_polar m (v2 a) al M0) by (destruct NZ; auto).
    eapply Rle_trans; [apply (unit_near _ a (2.512 * u64))|rewrite u64_num; lra]; [lra| |rewrite u64_num; lra].
    apply Rle_trans with (2 := EM'). rewrite <- hyp_lip_polar. fold al. apply Req_le. unfold norm, dot, vsub. cbn [v0 v1 v2]. f_equal. ring. }
  destruct (LA z r (v2 a) m X2 FM NZ) as (b & FB & [EB|(_ & C & _)]); [|lra]. fold be in EB.
  pose proof (atan2_range_pos (v2 a) m M0) as RB. fold be in RB. pose proof (atan2_range (v1 a) (v0 a)) as RA. fold al in RA.
  assert (BB : Rabs b <= PI / 2 + 2 * k) by (apply Rabs_le_inv in EB; apply Rabs_le; lra).
  destruct (LA y x (v1 a) (v0 a) X1 X0 NXY) as (t & FT & ET).
  assert (LT : Rabs t <= PI + 2 * k /\ norm (vsub (direction t be) (direction al be)) <= 2 * k).
  { destruct ET as [ET|(B0 & A0 & _ & ET)].
    - fold al in ET. split; [apply Rabs_le_inv in ET; apply Rabs_le; lra|]. eapply Rle_trans; [apply norm_dir_lon|exact ET].
    - split; [apply Rabs_le_inv in ET; apply Rabs_le; lra|].
      assert (AP : al = PI). { unfold al. apply (atan2_unique _ _ (- v0 a) PI); [lra|rewrite cos_PI; ring|rewrite B0, sin_PI; ring|lra]. }
      rewrite AP, <- (direction_turn be). eapply Rle_trans; [apply norm_dir_lon|]. replace (t - - PI) with (t + PI) by ring. exact ET. }
  destruct LT as (BT & DT). exists t, b. split; [exact FT|]. split; [exact FB|]. split; [exact BT|]. split; [exact BB|].
  eapply Rle_trans; [apply (vsub_via _ (direction t be))|]. pose proof (norm_dir_lat t b be) as DL.
  pose proof (vsub_via (direction t be) (direction al be) (unit_of a)) as V. lra.
Qed.
(** The sum of two products as the code forms it, for any factor [eta]. *)
Lemma lin64 (x y z : double) a b c p q k : value64 x a -> value64 y b -> value64 z c -> Rabs a <= 1 -> Rabs c <= 1 -> Rabs b <= 1e100 -> 0 <= k <= 1 ->
  Rabs (a - p) <= k -> Rabs (c - q) <= k ->
  near 53 1024 (Bminus mode_NE x (Bmult mode_NE y z)) (p - b * q) ((1 + Rabs b) * (k + 2.01 * u64)) /\
  near 53 1024 (Bplus mode_NE x (Bmult mode_NE y z)) (p + b * q) ((1 + Rabs b) * (k + 2.01 * u64)).
Proof.
  intros X Y Z A C B K DA DC. pose proof (Rabs_pos b) as B0. pose proof He64 as HE. rewrite u64_eq in HE. pose proof (eta_pos 53 1024) as EP. pose proof u64_num as U.
  assert (BC : Rabs (b * c) <= Rabs b) by (rewrite Rabs_mult; pose proof (Rabs_pos c); nra).
  assert (HG : 100 * 1e100 <= huge 1024).
  { pose proof huge64. eapply Rle_trans; [|exact H]. replace (100 * 1e100) with (IZR (100 * 10 ^ 100)) by (change 1e100 with (1 * IZR (10 ^ 100)); rewrite mult_IZR; ring). replace 4e307 with (IZR (4 * 10 ^ 307)) by (rewrite mult_IZR; reflexivity). apply IZR_le. now vm_compute. }
  assert (B1 : 1 <= 1e100) by (change 1e100 with (1 * IZR (10 ^ 100)); rewrite <- mult_IZR; apply IZR_le; now vm_compute).
  pose proof (near_mul0 53 1024 y z b c (Rabs b) Y Z BC ltac:(lra)) as P. rewrite u64_eq in P.
  assert (E1 : u64 * Rabs b + eta 53 1024 <= 1.001 * u64 * (1 + Rabs b)) by nra.
  assert (S1 : Rabs (a - b * c) <= 1 + Rabs b) by (eapply Rle_trans; [apply Rabs_triang|]; rewrite Rabs_Ropp; lra).
  assert (S2 : Rabs (a + b * c) <= 1 + Rabs b) by (eapply Rle_trans; [apply Rabs_triang|]; lra).
  assert (BQ : Rabs (b * c - b * q) <= Rabs b * k) by (replace (b * c - b * q) with (b * (c - q)) by ring; rewrite Rabs_mult; nra).
  assert (UB : 1.001 * u64 * (1 + Rabs b) <= 0.001 * (1 + Rabs b)) by (rewrite U; nra).
  split.
  - pose proof (near_sub 53 1024 x _ a (b * c) 0 _ _ (near_fin 53 1024 x a X) P S1 ltac:(lra)) as N. rewrite u64_eq in N.
    eapply near_weak; [eapply (near_shift 53 1024 _ _ (p - b * q) _ ((1 + Rabs b) * k) N)|].
    + replace (a - b * c - (p - b * q)) with ((a - p) - (b * c - b * q)) by ring. eapply Rle_trans; [apply Rabs_triang|]. rewrite Rabs_Ropp. nra.
    + nra.
  - pose proof (L_Flt.near_add 53 1024 x _ a (b * c) 0 _ _ (near_fin 53 1024 x a X) P S2 ltac:(lra)) as N. rewrite u64_eq in N.
    eapply near_weak; [eapply (near_shift 53 1024 _ _ (p + b * q) _ ((1 + Rabs b) * k) N)|].
    + replace (a + b * c - (p + b * q)) with ((a - p) + (b * c - b * q)) by ring. eapply Rle_trans; [apply Rabs_triang|]. nra.
    + nra.
Qed.
Definition zrot (a : R) (v : RV) : RV := V3 (cos a * v0 v - sin a * v1 v) (sin a * v0 v + cos a * v1 v) (v2 v).
Lemma zrot_norm a v : norm (zrot a v) = norm v.
Proof.
  unfold norm. f_equal. unfold zrot, dot. cbn [v0 v1 v2]. pose proof (sin2_cos2 a) as S. unfold Rsqr in S.
  transitivity ((sin a * sin a + cos a * cos a) * (v0 v * v0 v + v1 v * v1 v) + v2 v * v2 v); [ring|rewrite S; ring].
Qed.
Lemma zrot_sub a v w : vsub (zrot a v) (zrot a w) = zrot a (vsub v w).
Proof. unfold zrot, vsub. cbn [v0 v1 v2]. f_equal; ring. Qed.
Lemma zrot_dir a t b : direction (t + a) b = zrot a (direction t b).
Proof. unfold zrot, direction. cbn [v0 v1 v2]. rewrite cos_plus, sin_plus. f_equal; ring. Qed.
(** The vector of the code for standard coordinates, in the frame turned by the longitude of the tangent point. *)
Definition tvec (b0 xi eta : R) : RV := V3 (cos b0 - eta * sin b0) xi (sin b0 + eta * cos b0).
Lemma tvec_norm2 b0 xi eta : dot (tvec b0 xi eta) (tvec b0 xi eta) = 1 + xi * xi + eta * eta.
Proof.
  unfold tvec, dot. cbn [v0 v1 v2]. pose proof (sin2_cos2 b0) as S. unfold Rsqr in S.
  transitivity ((sin b0 * sin b0 + cos b0 * cos b0) * (1 + eta * eta) + xi * xi); [ring|rewrite S; ring].
Qed.
Lemma tvec_norm b0 xi eta : norm (tvec b0 xi eta) = sqrt (1 + xi * xi + eta * eta).
Proof. unfold norm. now rewrite tvec_norm2. Qed.
Lemma tvec_big b0 xi eta : 1 <= norm (tvec b0 xi eta) /\ 1 + Rabs eta <= 1.4143 * norm (tvec b0 xi eta) /\ 1 + Rabs xi <= 1.4143 * norm (tvec b0 xi eta).
Proof.
  pose proof (norm_sq (tvec b0 xi eta)) as S. rewrite tvec_norm2 in S. pose proof (norm_nonneg (tvec b0 xi eta)) as P. set (F := norm _) in *.
  pose proof (Rabs_pos eta). pose proof (Rabs_pos xi). assert (Rabs eta * Rabs eta = eta * eta) by (rewrite <- Rabs_mult; apply Rabs_pos_eq; nra). assert (Rabs xi * Rabs xi = xi * xi) by (rewrite <- Rabs_mult; apply Rabs_pos_eq; nra).
  set (e := Rabs eta) in *. set (x := Rabs xi) in *.
  assert (Q : forall y, 0 <= y -> y * y <= (1.4143 * F) * (1.4143 * F) -> y <= 1.4143 * F).
  { intros y Y G. destruct (Rle_or_lt y (1.4143 * F)) as [?|C]; [assumption|]. assert (0 <= 1.4143 * F) by lra. nra. }
  split; [destruct (Rle_or_lt 1 F); [assumption|nra]|]. pose proof (Rle_0_sqr (1 - e)) as SE. pose proof (Rle_0_sqr (1 - x)) as SX. pose proof (Rle_0_sqr e) as SE'. pose proof (Rle_0_sqr x) as SX'. unfold Rsqr in *. split; apply Q; try lra; replace (1.4143 * F * (1.4143 * F)) with (1.4143 * 1.4143 * (F * F)) by ring; rewrite S; lra.
Qed.
Lemma projects_tvec a0 b0 v xi eta : norm v = 1 -> projects a0 b0 v xi eta -> v = zrot a0 (unit_of (tvec b0 xi eta)).
Proof.
  intros V (P0 & P1 & P2). set (d := dot v (direction a0 b0)) in *.
  assert (E : v = scale d (zrot a0 (tvec b0 xi eta))).
  { unfold zrot, tvec, scale. cbn [v0 v1 v2]. assert (D : d = dot v (direction a0 b0)) by reflexivity. clearbody d. clear P0 V.
    unfold dot, direction, east, north in *. cbn [v0 v1 v2] in *. pose proof (sin2_cos2 a0) as S. pose proof (sin2_cos2 b0) as S'. unfold Rsqr in *. destruct v as [x y z]. cbn [v0 v1 v2] in *.
    apply vec_eq; cbn [v0 v1 v2]; match goal with |- @eq _ ?a ?b => change (@eq R a b) end; nsatz. }
  assert (N : d * norm (tvec b0 xi eta) = 1) by (rewrite <- V, E at 1; rewrite norm_scale_abs, zrot_norm, Rabs_pos_eq by lra; reflexivity).
  rewrite E. destruct (tvec_big b0 xi eta) as (T & _). unfold unit_of, zrot, scale. cbn [v0 v1 v2].
  assert (DI : d = / norm (tvec b0 xi eta)) by (apply (Rmult_eq_reg_r (norm (tvec b0 xi eta))); [rewrite N, Rinv_l; lra|lra]).
  rewrite <- DI. f_equal; ring.
Qed.
Lemma projects_of a0 b0 xi eta : projects a0 b0 (zrot a0 (unit_of (tvec b0 xi eta))) xi eta /\ norm (zrot a0 (unit_of (tvec b0 xi eta))) = 1.
Proof.
  destruct (tvec_big b0 xi eta) as (T & _). set (n := norm (tvec b0 xi eta)) in *. assert (I : 0 < / n) by (apply Rinv_0_lt_compat; lra).
  assert (D0 : dot (zrot a0 (unit_of (tvec b0 xi eta))) (direction a0 b0) = / n).
  { unfold unit_of. fold n. unfold tvec, zrot, scale, direction, dot. cbn [v0 v1 v2]. pose proof (sin2_cos2 a0) as S. pose proof (sin2_cos2 b0) as S'. unfold Rsqr in *. clearbody n. nsatz. }
  split.
  - split; [rewrite D0; exact I|]. rewrite D0. unfold unit_of. fold n. unfold tvec, zrot, scale, direction, east, north, dot. cbn [v0 v1 v2].
    pose proof (sin2_cos2 a0) as S. pose proof (sin2_cos2 b0) as S'. unfold Rsqr in *. clearbody n. split; nsatz.
  - rewrite zrot_norm. unfold unit_of. apply norm_unit_scale. fold n. lra.
Qed.
Lemma turn_sum lm (x y : double) t a0 : value64 x t -> value64 y a0 -> Rabs t <= 3.2 -> Rabs a0 <= 8 ->
  exists c, value64 (dranrm (N := B64 lm) (n_add (x : B64 lm) y)) c /\ 0 <= c <= 2 * pi_double /\ forall b, norm (vsub (direction c b) (direction (t + a0) b)) <= 16.6 * u64.
Proof.
  intros X Y T A. apply Rabs_le_inv in T. apply Rabs_le_inv in A. pose proof u64_num as U.
  assert (FS : value64 (n_add (x : B64 lm) y) (rnd 53 1024 (t + a0))).
  { apply (fin_add 53 1024); [exact X|exact Y|]. assert (TT : Rabs (rnd 53 1024 (t + a0)) <= 16) by (apply rnd_abs_le; [easy..|apply (fmt_Z 53 1024 16); reflexivity|apply Rabs_le; lra]).
    apply Rle_lt_trans with (1 := TT). change 16 with (bpow radix2 4). apply bpow_lt. reflexivity. }
  assert (ES : Rabs (rnd 53 1024 (t + a0) - (t + a0)) <= 8 * u64).
  { eapply Rle_trans; [apply (rnd_error 53 1024 _ 4); [change (bpow radix2 4) with 16; apply Rabs_lt; lra|unfold SpecFloat.emin; lia]|]. change (bpow radix2 (4 - 53 - 1)) with (/ 1125899906842624). rewrite U. lra. }
  destruct (L_Binary.dranrm64 lm _ _ FS) as (j & c & FC & RC & _ & J & _ & D). exists c. split; [exact FC|]. split; [exact RC|]. intros b.
  set (s := rnd 53 1024 (t + a0)) in *. assert (PD : 3.141 <= pi_double <= 3.142) by (unfold pi_double; lra). apply Rabs_le_inv in ES. rewrite U in ES.
  assert (J1 : (-3 < j)%Z) by (apply lt_IZR; nra). assert (J2 : (j < 2)%Z) by (apply lt_IZR; nra).
  assert (JJ : Rabs (IZR j) <= 2) by (apply Rabs_le; change (- (2)) with (IZR (-2)); split; apply IZR_le; lia).
  replace (direction (t + a0) b) with (direction (t + a0 - IZR j * (2 * PI)) b).
  - eapply Rle_trans; [apply norm_dir_lon|]. apply Rabs_le_inv in D. replace (/ 2 ^ 51) with (/ 2251799813685248) in D by (f_equal; ring). rewrite U. apply Rabs_le. lra.
  - unfold direction. assert (PER : cos (t + a0 - IZR j * (2 * PI)) = cos (t + a0) /\ sin (t + a0 - IZR j * (2 * PI)) = sin (t + a0)); [|destruct PER as (-> & ->); reflexivity].
    clear. split; [rewrite <- (cos_period_Z (t + a0 - IZR j * (2 * PI)) j)|rewrite <- (sin_period_Z (t + a0 - IZR j * (2 * PI)) j)]; f_equal; ring.
Qed.
Lemma dtp2s64 lm k (x y : double) t xi eta a0 b0 v : libm_ok lm k -> k <= 1e-6 -> value64 x xi -> value64 y eta -> Rabs xi <= 1e100 -> Rabs eta <= 1e100 ->
  angles64 t a0 b0 -> Rabs a0 <= 8 -> xi <> 0 \/ (1 + Rabs eta) * (k + 2.01 * u64) < Rabs (cos b0 - eta * sin b0) ->
  norm v = 1 -> projects a0 b0 v xi eta -> lands k (dtp2s (N := B64 lm) x y t) v (6.1 * k + 23.3 * u64).
Proof.
  intros L KK X Y BX BY T RA NP V PR. destruct (angles_Sph t a0 b0 T) as (p & q & -> & P & Q). pose proof (libm_k lm k L) as K. pose proof u64_num as U.
  destruct (trig64 lm k q b0 L Q) as (st & ct & F1 & F2 & A1 & A2 & D1 & D2).
  destruct (lin64 _ y _ ct eta st (cos b0) (sin b0) k F2 Y F1 A2 A1 BY ltac:(lra) D2 D1) as ((d' & FD & ED) & _).
  destruct (lin64 _ y _ st eta ct (sin b0) (cos b0) k F1 Y F2 A1 A2 BY ltac:(lra) D1 D2) as (_ & (z' & FZ & EZ)).
  destruct (tvec_big b0 xi eta) as (T1 & T2 & _). set (F := norm (tvec b0 xi eta)) in *. set (a := V3 d' xi z').
  assert (EP : norm (vsub a (tvec b0 xi eta)) <= (2.001 * k + 4.03 * u64) * F).
  { apply (norm3 _ ((1 + Rabs eta) * (k + 2.01 * u64)) 0 ((1 + Rabs eta) * (k + 2.01 * u64))); unfold vsub, a, tvec; cbn [v0 v1 v2]; try assumption; [rewrite Rminus_eq_0, Rabs_R0; lra| |rewrite U; nra].
    set (h := k + 2.01 * u64). assert (H : 0 <= h) by (unfold h; rewrite U; lra). pose proof (Rabs_pos eta). set (e := 1 + Rabs eta) in *. assert (E2 : e * e <= 2.0003 * (F * F)) by (assert (e * e <= 1.4143 * F * (1.4143 * F)) by (apply Rmult_le_compat; unfold e in *; lra); assert (0 <= F * F) by nra; lra).
    assert (HH : 2.002 * h <= 2.003 * k + 4.03 * u64) by (unfold h; rewrite U; lra).
    replace (e * h * (e * h) + 0 * 0 + e * h * (e * h)) with (2 * (h * h) * (e * e)) by ring.
    apply Rle_trans with (2 * (h * h) * (2.0003 * (F * F))); [apply Rmult_le_compat_l; [nra|exact E2]|].
    replace (2 * (h * h) * (2.0003 * (F * F))) with (4.0006 * (h * h) * (F * F)) by lra.
    replace ((2.001 * k + 4.03 * u64) * F * ((2.001 * k + 4.03 * u64) * F)) with ((2.001 * k + 4.03 * u64) * (2.001 * k + 4.03 * u64) * (F * F)) by ring.
    apply Rmult_le_compat_r; [nra|]. assert (G : 2.0005 * h <= 2.001 * k + 4.03 * u64) by (unfold h; rewrite U; lra). nra. }
  assert (BIG : forall w, Rabs w <= 1e100 -> Rabs w <= 1e150).
  { intros w W. eapply Rle_trans; [exact W|]. change 1e100 with (1 * IZR (10 ^ 100)). change 1e150 with (1 * IZR (10 ^ 150)). rewrite <- !mult_IZR. apply IZR_le. now vm_compute. }
  assert (B2 : forall w c, Rabs (w - c) <= (1 + Rabs eta) * (k + 2.01 * u64) -> Rabs c <= 1 + Rabs eta -> Rabs w <= 1e150).
  { intros w c W C. replace w with ((w - c) + c) by ring. eapply Rle_trans; [apply Rabs_triang|]. pose proof (Rabs_pos eta).
    assert (5 * 1e100 <= 1e150) by (change 1e100 with (1 * IZR (10 ^ 100)); change 1e150 with (1 * IZR (10 ^ 150)); rewrite <- !mult_IZR; apply IZR_le; now vm_compute).
    assert (1 <= 1e100) by (change 1e100 with (1 * IZR (10 ^ 100)); rewrite <- mult_IZR; apply IZR_le; now vm_compute).
    assert ((1 + Rabs eta) * (k + 2.01 * u64) <= 1 + Rabs eta) by (rewrite U; nra). lra. }
  assert (CD : Rabs (cos b0 - eta * sin b0) <= 1 + Rabs eta).
  { eapply Rle_trans; [apply Rabs_triang|]. rewrite Rabs_Ropp, Rabs_mult. pose proof (cos_abs1 b0). pose proof (sin_abs1 b0). pose proof (Rabs_pos eta). nra. }
  destruct (hyp64 x _ xi d' X FD (BIG _ BX) (B2 _ _ ED CD)) as (m & FM & M0 & EM).
  assert (HS : hyp xi d' = hyp (v0 a) (v1 a)) by (unfold a, hyp; cbn [v0 v1]; f_equal; ring). rewrite HS in EM.
  assert (E3 : 2.001 * k + 4.03 * u64 <= 1e-3) by (rewrite U; lra).
  pose proof (norm_lip a (tvec b0 xi eta)) as NL. fold F in NL. apply Rabs_le_inv in NL.
  assert (NA : 1e-130 <= norm a).
  { apply Rle_trans with (1 / IZR 2); [change 1e-130 with (1 / IZR (10 ^ 130)); apply inv_le; [reflexivity|vm_compute; reflexivity]|nra]. }
  assert (NXY : v1 a <> 0 \/ v0 a <> 0).
  { unfold a. cbn [v0 v1]. destruct NP as [NP|NP]; [left; exact NP|right]. intros Z. rewrite Z in ED. replace (0 - (cos b0 - eta * sin b0)) with (- (cos b0 - eta * sin b0)) in ED by ring. rewrite Rabs_Ropp in ED. lra. }
  destruct (atan_pair64 lm k _ x _ _ a m L FD X FZ FM M0 EM NA NXY) as (l & b & FL & FB & RL & RB & DL).
  destruct (turn_sum lm _ p l a0 FL P) as (c & FC & RC & DC); [pose proof L_Pi.PI_bounds; lra|exact RA|].
  exists c, b. split; [split; [exact FC|exact FB]|]. split; [exact RC|]. split; [exact RB|]. unfold vdist.
  rewrite (projects_tvec a0 b0 v xi eta V PR). eapply Rle_trans; [apply (vsub_via _ (direction (l + a0) b))|]. rewrite zrot_dir, zrot_sub, zrot_norm.
  specialize (DC b). rewrite zrot_dir in DC. pose proof (vsub_via (direction l b) (unit_of a) (unit_of (tvec b0 xi eta))) as VV.
  pose proof (unit_near a (tvec b0 xi eta) (2.001 * k + 4.03 * u64) ltac:(fold F; lra) ltac:(fold F; exact EP) E3) as UN. rewrite U in *. lra.
Qed.
Lemma plane_sub_le (v w : RV) : norm (vsub (V3 (v0 v) (v1 v) 0) (V3 (v0 w) (v1 w) 0)) <= norm (vsub v w).
Proof.
  destruct v as [a b c], w as [d e f]. unfold norm, dot, vsub. cbn [v0 v1 v2]. apply sqrt_le_1_alt. pose proof (Rle_0_sqr (c - f)). unfold Rsqr in *. lra.
Qed.
(** From the sphere to the plane and back. *)
Lemma ds2tp_back lm k p t a b a0 b0 : libm_ok lm k -> k <= 1e-10 -> angles64 p a b -> angles64 t a0 b0 -> Rabs a <= 8 -> Rabs a0 <= 8 ->
  let d := dot (direction a b) (direction a0 b0) in 1e-5 <= d -> (11.1 * k + 28.7 * u64) / d + 1.5 * k + 3 * u64 < Rabs (cos b) ->
  let '(_, x, y) := ds2tp (N := B64 lm) p t in lands k (dtp2s (N := B64 lm) x y t) (direction a b) ((11.1 * k + 28.7 * u64) / d + 6.1 * k + 23.3 * u64).
Proof.
  intros L KK P T RA RA0 d D CB. pose proof u64_num as U. pose proof (libm_k lm k L) as K. set (v := direction a b) in *.
  set (xi := dot v (east a0) / d). set (eta := dot v (north a0 b0) / d).
  assert (PR : projects a0 b0 v xi eta) by (split; [fold d; lra|]; fold d; unfold xi, eta; split; field; lra).
  destruct (ds2tp64 lm k p t a b a0 b0 xi eta L ltac:(lra) P T RA RA0 PR D) as (x & y & x' & y' & -> & FX & FY & EX & EY). fold v d in EX, EY.
  set (g := (5.5 * k + 14.3 * u64) / d) in *. assert (G0 : 0 <= g <= 1e-4).
  { unfold g. split; [unfold Rdiv; apply Rmult_le_pos; [rewrite U; lra|apply Rlt_le, Rinv_0_lt_compat; lra]|]. apply (Rmult_le_reg_r d); [lra|]. replace (_ / d * d) with (5.5 * k + 14.3 * u64) by (field; lra). rewrite U. lra. }
  destruct (tvec_big b0 xi eta) as (T1 & T2 & T3). set (F := norm (tvec b0 xi eta)) in *.
  assert (TV : norm (vsub (tvec b0 x' y') (tvec b0 xi eta)) <= 2.0002 * g * F).
  { assert (E : norm (vsub (tvec b0 x' y') (tvec b0 xi eta)) = norm (V3 (x' - xi) (y' - eta) 0)).
    { unfold norm. f_equal. unfold vsub, tvec, dot. cbn [v0 v1 v2]. pose proof (sin2_cos2 b0) as S. unfold Rsqr in S.
      transitivity ((sin b0 * sin b0 + cos b0 * cos b0) * ((y' - eta) * (y' - eta)) + (x' - xi) * (x' - xi)); [ring|rewrite S; ring]. }
    rewrite E. apply (norm3 _ (g * (1 + Rabs xi)) (g * (1 + Rabs eta)) 0); cbn [v0 v1 v2]; try assumption; [rewrite Rabs_R0; lra| |nra].
    assert (SQ : (1 + Rabs xi) * (1 + Rabs xi) <= 2.00025 * (F * F) /\ (1 + Rabs eta) * (1 + Rabs eta) <= 2.00025 * (F * F)) by (pose proof (Rabs_pos xi); pose proof (Rabs_pos eta); assert (0 <= F * F) by nra; assert ((1 + Rabs xi) * (1 + Rabs xi) <= 1.4143 * F * (1.4143 * F)) by (apply Rmult_le_compat; lra); assert ((1 + Rabs eta) * (1 + Rabs eta) <= 1.4143 * F * (1.4143 * F)) by (apply Rmult_le_compat; lra); split; lra).
    destruct SQ as (S1 & S2).
    replace (g * (1 + Rabs xi) * (g * (1 + Rabs xi)) + g * (1 + Rabs eta) * (g * (1 + Rabs eta)) + 0 * 0) with (g * g * ((1 + Rabs xi) * (1 + Rabs xi) + (1 + Rabs eta) * (1 + Rabs eta))) by ring.
    replace (2.0002 * g * F * (2.0002 * g * F)) with (g * g * (2.0002 * 2.0002 * (F * F))) by ring. apply Rmult_le_compat_l; [nra|]. nra. }
  pose proof (unit_near (tvec b0 x' y') (tvec b0 xi eta) (2.0002 * g) ltac:(fold F; lra) ltac:(fold F; exact TV) ltac:(lra)) as UN.
  destruct (projects_of a0 b0 x' y') as (PR' & V'). set (v' := zrot a0 (unit_of (tvec b0 x' y'))) in *.
  assert (VD : norm (vsub v' v) <= (11.1 * k + 28.7 * u64) / d).
  { rewrite (projects_tvec a0 b0 v xi eta (norm_direction a b) PR). unfold v'. rewrite zrot_sub, zrot_norm. eapply Rle_trans; [exact UN|].
    replace (1.002 * (2.0002 * g)) with (1.002 * 2.0002 * (5.5 * k + 14.3 * u64) * / d) by (unfold g, Rdiv; ring). unfold Rdiv. apply Rmult_le_compat_r; [apply Rlt_le, Rinv_0_lt_compat; lra|rewrite U; lra]. }
  assert (B100 : forall w c, Rabs (w - c) <= g * (1 + Rabs c) -> Rabs c <= 1e5 -> Rabs w <= 1e100).
  { intros w c W C. replace w with ((w - c) + c) by ring. eapply Rle_trans; [apply Rabs_triang|]. pose proof (Rabs_pos c). apply Rle_trans with 200000; [nra|]. change 1e100 with (1 * IZR (10 ^ 100)). rewrite <- mult_IZR. apply IZR_le. now vm_compute. }
  assert (C1 : forall w, norm w = 1 -> Rabs (dot v w / d) <= 1e5).
  { intros w W. pose proof (L_FrameGal.cauchy_abs v w) as C. rewrite W in C. unfold v in C at 2. rewrite norm_direction in C. unfold Rdiv. rewrite Rabs_mult, (Rabs_pos_eq (/ d)) by (apply Rlt_le, Rinv_0_lt_compat; lra).
    replace 1e5 with (1 * / 1e-5) by lra. apply Rmult_le_compat; [apply Rabs_pos|apply Rlt_le, Rinv_0_lt_compat; lra|lra|apply Rinv_le_contravar; lra]. }
  assert (NE : norm (east a0) = 1) by (unfold norm, dot, east; cbn [v0 v1 v2]; pose proof (sin2_cos2 a0) as S; unfold Rsqr in S; rewrite <- sqrt_1; f_equal; lra).
  assert (NN : norm (north a0 b0) = 1).
  { unfold norm, dot, north; cbn [v0 v1 v2]. pose proof (sin2_cos2 a0) as S. pose proof (sin2_cos2 b0) as S'. unfold Rsqr in *. rewrite <- sqrt_1. f_equal.
    transitivity ((sin a0 * sin a0 + cos a0 * cos a0) * (sin b0 * sin b0) + cos b0 * cos b0); [ring|rewrite S; lra]. }
  destruct (tvec_big b0 x' y') as (T1' & T2' & _). set (F' := norm (tvec b0 x' y')) in *.
  eapply lands_le; [eapply (lands_via k _ v' v)|].
  - apply (dtp2s64 lm k x y t x' y' a0 b0 v' L ltac:(lra) FX FY (B100 _ _ EX (C1 _ NE)) (B100 _ _ EY (C1 _ NN)) T RA0); [|exact V'|exact PR'].
    destruct (Req_dec x' 0) as [Z|Z]; [right|left; exact Z].
    assert (CV : Rabs (cos b) - norm (vsub v' v) <= Rabs (cos b0 - y' * sin b0) / F').
    { assert (HV : hyp (v0 v) (v1 v) = Rabs (cos b)).
      { unfold v, hyp, direction. cbn [v0 v1]. pose proof (sin2_cos2 a) as S. unfold Rsqr in S. rewrite <- sqrt_Rsqr_abs. f_equal. unfold Rsqr. transitivity (cos b * cos b * (sin a * sin a + cos a * cos a)); [ring|rewrite S; ring]. }
      assert (HV' : hyp (v0 v') (v1 v') = Rabs (cos b0 - y' * sin b0) / F').
      { unfold v', unit_of, zrot, scale. fold F'. unfold tvec. cbn [v0 v1 v2]. rewrite Z. unfold hyp. pose proof (sin2_cos2 a0) as S. unfold Rsqr in S.
        set (w := cos b0 - y' * sin b0). set (i := / F').
        replace ((cos a0 * (i * w) - sin a0 * (i * 0)) * (cos a0 * (i * w) - sin a0 * (i * 0)) + (sin a0 * (i * w) + cos a0 * (i * 0)) * (sin a0 * (i * w) + cos a0 * (i * 0))) with (Rsqr (i * w)).
        - rewrite sqrt_Rsqr_abs, Rabs_mult. unfold i. rewrite (Rabs_pos_eq (/ F')) by (apply Rlt_le, Rinv_0_lt_compat; lra). unfold Rdiv. ring.
        - unfold Rsqr. transitivity ((i * w) * (i * w) * (sin a0 * sin a0 + cos a0 * cos a0)); [rewrite S; ring|ring]. }
      rewrite <- HV, <- HV'. pose proof (norm_lip (V3 (v0 v') (v1 v') 0) (V3 (v0 v) (v1 v) 0)) as NL. rewrite !norm_plane in NL.
      assert (NS : norm (vsub (V3 (v0 v') (v1 v') 0) (V3 (v0 v) (v1 v) 0)) <= norm (vsub v' v)) by apply plane_sub_le.
      apply Rabs_le_inv in NL. lra. }
    apply (Rmult_lt_reg_r (/ F')); [apply Rinv_0_lt_compat; lra|]. apply Rle_lt_trans with (1.4143 * (k + 2.01 * u64)).
    + replace (1.4143 * (k + 2.01 * u64)) with (1.4143 * F' * (k + 2.01 * u64) * / F') by (field; lra). apply Rmult_le_compat_r; [apply Rlt_le, Rinv_0_lt_compat; lra|]. apply Rmult_le_compat_r; [rewrite U; lra|exact T2'].
    + change (Rabs (cos b0 - y' * sin b0) * / F') with (Rabs (cos b0 - y' * sin b0) / F'). rewrite U in *. lra.
  - exact VD.
  - lra.
Qed.
Lemma tan_case : 1e-5 <= dot (direction 3 1) (direction 3 0) /\
  (11.1 * (2 * u64) + 28.7 * u64) / dot (direction 3 1) (direction 3 0) + 1.5 * (2 * u64) + 3 * u64 < Rabs (cos 1).
Proof.
  assert (E : dot (direction 3 1) (direction 3 0) = cos 1).
  { unfold direction, dot. cbn [v0 v1 v2]. rewrite sin_0, cos_0. pose proof (sin2_cos2 3) as S. unfold Rsqr in S.
    replace (cos 3 * cos 1 * (cos 3 * 1) + sin 3 * cos 1 * (sin 3 * 1) + sin 1 * 0) with ((sin 3 * sin 3 + cos 3 * cos 3) * cos 1) by ring. rewrite S. ring. }
  rewrite E. assert (C : 1 / 2 <= cos 1) by (rewrite <- cos_PI3; pose proof PI_RGT_0; pose proof L_Pi.PI_bounds; apply cos_decr_1; lra).
  split; [lra|]. rewrite u64_num, Rabs_pos_eq by lra. apply Rle_lt_trans with ((11.1 * (2 * 1.11023e-16) + 28.7 * 1.11023e-16) / (1 / 2) + 1.5 * (2 * 1.11023e-16) + 3 * 1.11023e-16); [|lra].
  apply Rplus_le_compat; [apply Rplus_le_compat|]; try lra. unfold Rdiv. apply Rmult_le_compat; try lra.
  - apply Rlt_le, Rinv_0_lt_compat. lra.
  - apply Rinv_le_contravar; lra.
Qed.
