(** The gnomonic projection of vectors in binary64. *)
From Coq Require Import ZArith Reals Bool List Lia Lra Psatz.
From Flocq Require Import Core BinarySingleNaN.
From Verif Require Import Int32 Num NumB NumR M_Angle M_Vec M_Sphere S_Geom S_Sphere S_Frame S_Binary S_Float S_FloatSph S_FloatHor L_Bin L_Flt L_FltVec L_Float.
From Verif Require Import L_Real L_Vec L_Rot L_Trig L_Frame L_Sphere L_FloatVec L_FloatMat L_FltGeo L_FloatSph L_Err L_ErrT L_FloatFrame L_FloatLand L_FloatHor L_FloatEt L_FloatTan L_FloatObs L_FloatPav.
Import ListNotations.
Open Scope R_scope.

(** The squared distance of the tangent point from the axis, that distance, and
    the denominator, as analyser inputs. *)
Definition t2_it : item := It (Sc / 102) (Sc + Sc / 50) 0.
Definition t1_it : item := It (Sc / 11) (Sc + Sc / 50) 0.
Definition td_it : item := It (Sc / 3) (Sc + Sc / 50) 0.
Lemma okk_range (x : double) a p lo' : value64 x a -> (0 < p)%Z -> lo' <= a <= 1.0199 -> / IZR p <= lo' -> okk (It (Sc / p) (Sc + Sc / 50) 0) x a.
Proof.
  intros X P A B. split; cbn [lo hi er]; [rewrite V_0; now apply near_fin|]. rewrite V_add. pose proof (V_frac 50 ltac:(lia)) as F. pose proof (V_Sc 1) as O. rewrite Z.mul_1_l in O. rewrite O.
  split; [|lra]. apply Rle_trans with (/ IZR p); [|lra]. unfold V. pose proof (Zdiv.Z_mult_div_ge Sc p ltac:(lia)) as G. apply IZR_le in G. rewrite mult_IZR in G.
  assert (PP : 0 < IZR p) by (apply IZR_lt; lia). pose proof Sc_pos as S. apply (Rmult_le_reg_l (IZR p)); [exact PP|]. rewrite Rinv_r by lra.
  apply (Rmult_le_reg_r (IZR Sc)); [exact S|]. field_simplify; lra.
Qed.
Definition tv_q {N : Num} (x y : N) : N := n_add (n_mul x x) (n_mul y y).
Definition tv_w {N : Num} (x y x0 y0 : N) : N := n_add (n_mul x x0) (n_mul y y0).
Definition tv_d {N : Num} (x y z x0 y0 z0 : N) : N := n_add (tv_w x y x0 y0) (n_mul z z0).
Definition tv_x {N : Num} (l d x y x0 y0 : N) : N := n_div (n_sub (n_mul y x0) (n_mul x y0)) (n_mul d l).
Definition tv_y {N : Num} (q l d x y z x0 y0 z0 : N) : N := n_div (n_sub (n_mul z q) (n_mul z0 (tv_w x y x0 y0))) (n_mul d l).

Lemma tv_q64 lm (x y : double) a b : value64 x a -> value64 y b -> Rabs a <= 1.001 -> Rabs b <= 1.001 -> near 53 1024 (tv_q (N := B64 lm) x y) (tv_q (N := RNum) a b) 6e-16.
Proof.
  intros X Y A B. assert (OK : okenv [cs_it; cs_it] [x; y] [a; b]) by (do 2 (split; [apply okk_cs; assumption|]); exact Logic.I).
  unfold tv_q. err0 lm [cs_it; cs_it] [x; y] [a; b] OK.
Qed.
Lemma tv_l64 lm (x : double) a : value64 x a -> 0.0099 <= a <= 1.0199 -> near 53 1024 (n_sqrt (x : B64 lm)) (sqrt a) 3e-16.
Proof.
  intros X A. assert (OK : okenv [t2_it] [x] [a]) by (split; [apply (okk_range x a 102 0.0099 X ltac:(lia) A); lra|exact Logic.I]).
  change (sqrt a) with (n_sqrt (a : RNum)). err0 lm [t2_it] [x] [a] OK.
Qed.
Definition env6 : list item := [cs_it; cs_it; cs_it; cs_it; cs_it; cs_it].
Lemma tv_d64 lm (x y z x0 y0 z0 : double) a b c a0 b0 c0 : value64 x a -> value64 y b -> value64 z c -> value64 x0 a0 -> value64 y0 b0 -> value64 z0 c0 ->
  Rabs a <= 1.001 -> Rabs b <= 1.001 -> Rabs c <= 1.001 -> Rabs a0 <= 1.001 -> Rabs b0 <= 1.001 -> Rabs c0 <= 1.001 ->
  near 53 1024 (tv_d (N := B64 lm) x y z x0 y0 z0) (tv_d (N := RNum) a b c a0 b0 c0) 12e-16.
Proof.
  intros X Y Z X0 Y0 Z0 A B C A0 B0 C0.
  assert (OK : okenv env6 [x; y; z; x0; y0; z0] [a; b; c; a0; b0; c0]) by (unfold env6; do 6 (split; [apply okk_cs; assumption|]); exact Logic.I).
  unfold tv_d, tv_w. err0 lm env6 [x; y; z; x0; y0; z0] [a; b; c; a0; b0; c0] OK.
Qed.
Definition env9 : list item := t2_it :: t1_it :: td_it :: env6.
Lemma tv_xy64 lm (q l d x y z x0 y0 z0 : double) q' l' d' a b c a0 b0 c0 : value64 q q' -> value64 l l' -> value64 d d' ->
  value64 x a -> value64 y b -> value64 z c -> value64 x0 a0 -> value64 y0 b0 -> value64 z0 c0 -> 0.0099 <= q' <= 1.0199 -> 0.099 <= l' <= 1.0199 -> 0.499 <= d' <= 1.0199 ->
  Rabs a <= 1.001 -> Rabs b <= 1.001 -> Rabs c <= 1.001 -> Rabs a0 <= 1.001 -> Rabs b0 <= 1.001 -> Rabs c0 <= 1.001 ->
  near 53 1024 (tv_x (N := B64 lm) l d x y x0 y0) (tv_x (N := RNum) l' d' a b a0 b0) 4e-13 /\
  near 53 1024 (tv_y (N := B64 lm) q l d x y z x0 y0 z0) (tv_y (N := RNum) q' l' d' a b c a0 b0 c0) 8e-13.
Proof.
  intros Q L D X Y Z X0 Y0 Z0 Q' L' D' A B C A0 B0 C0.
  assert (OK : okenv env9 [q; l; d; x; y; z; x0; y0; z0] [q'; l'; d'; a; b; c; a0; b0; c0]).
  { unfold env9. split; [apply (okk_range q q' 102 0.0099 Q ltac:(lia) Q'); lra|]. split; [apply (okk_range l l' 11 0.099 L ltac:(lia) L'); lra|]. split; [apply (okk_range d d' 3 0.499 D ltac:(lia) D'); lra|].
    unfold env6. do 6 (split; [apply okk_cs; assumption|]). exact Logic.I. }
  unfold tv_x, tv_y, tv_w. split; err0 lm env9 [q; l; d; x; y; z; x0; y0; z0] [q'; l'; d'; a; b; c; a0; b0; c0] OK.
Qed.

Lemma quot_near n n' p p' e : 0 < p -> 0 < p' -> Rabs (n / p * (p - p')) <= e * p' -> n = n' -> Rabs (n / p - n' / p') <= e.
Proof.
  intros P P' E ->. replace (n' / p - n' / p') with (- (n' / p * (p - p')) / p') by (field; lra).
  unfold Rdiv at 1. rewrite Rabs_mult, Rabs_Ropp, (Rabs_pos_eq (/ p')) by (apply Rlt_le, Rinv_0_lt_compat, P').
  apply (Rmult_le_reg_r p'); [exact P'|]. rewrite Rmult_assoc, Rinv_l by lra. lra.
Qed.
Lemma dv2tp64 lm (x y : vec (B64 lm)) r a0 b0 v xi eta : vec64 x v -> vec64 y (scale r (direction a0 b0)) -> Rabs (r - 1) <= 0.001 -> norm v <= 1.001 ->
  projects a0 b0 v xi eta -> 1 / 2 <= dot v (direction a0 b0) -> 1 / 10 <= cos b0 ->
  exists X Y x' y', dv2tp (N := B64 lm) x y = (TPP_OK, X, Y) /\ value64 X x' /\ value64 Y y' /\ Rabs (x' - xi / r) <= 6e-13 /\ Rabs (y' - eta) <= 1e-12.
Proof.
  intros X Y RR NV (_ & PX & PY) DD CB. destruct x as [x1 y1 z1], y as [x2 y2 z2]. destruct X as (X1 & X2 & X3), Y as (Y1 & Y2 & Y3). cbn [v0 v1 v2] in X1, X2, X3, Y1, Y2, Y3.
  apply Rabs_le_inv in RR.
  assert (NX : norm (scale r (direction a0 b0)) <= 1.001) by (rewrite norm_scale, norm_direction by lra; lra).
  destruct (comp_le _ _ NX) as (B1 & B2 & B3). destruct (comp_le _ _ NV) as (C1 & C2 & C3).
  set (A := scale r (direction a0 b0)) in *. set (d := dot v (direction a0 b0)) in *.
  set (e := dot v (east a0)) in *. set (n := dot v (north a0 b0)) in *. pose proof (COS_bound b0) as CB1.
  set (c := r * cos b0). assert (CR : 0.0999 <= c <= 1.001) by (unfold c; clear - RR CB CB1; nra).
  assert (DV : d <= 1.001).
  { unfold d. pose proof (cauchy v (direction a0 b0)) as DL. rewrite norm_direction in DL. lra. }
  destruct (tv_q64 lm x2 y2 _ _ Y1 Y2 B1 B2) as (q & FQ & EQ).
  assert (QR : tv_q (N := RNum) (v0 A) (v1 A) = c * c).
  { unfold tv_q, A, c, scale, direction. cbn [v0 v1 n_add n_mul RNum]. match goal with |- @eq _ ?a ?b => change (@eq R a b) end. pose proof (sc1 a0) as SA.
    transitivity (r * cos b0 * (r * cos b0) * (sin a0 * sin a0 + cos a0 * cos a0)); [ring|]. rewrite SA. ring. }
  rewrite QR in EQ. apply Rabs_le_inv in EQ. assert (C2R : 0.00998 <= c * c <= 1.0021) by (clear - CR; nra). assert (Q1 : 0.0099 <= q <= 1.0199) by lra.
  destruct (tv_l64 lm _ q FQ Q1) as (l & FL & EL). apply Rabs_le_inv in EL.
  assert (SQ : 0.0994 <= sqrt q) by (rewrite <- (sqrt_square 0.0994) by lra; apply sqrt_le_1_alt; lra).
  pose proof (sqrt_sqrt q ltac:(lra)) as SS. set (w := sqrt q) in *.
  assert (LC : - 3.4e-15 <= l - c <= 3.4e-15). { assert (WC : (w - c) * (w + c) = q - c * c) by (rewrite <- SS; ring). assert (W2 : 0.199 <= w + c) by lra. set (g := w - c) in *. set (h := w + c) in *.
    assert (- 3.1e-15 <= g <= 3.1e-15). { clear - WC W2 EQ. set (o := q - c * c) in *. clearbody g h o. split; apply Rnot_lt_le; intros G; nra. } unfold g in *. lra. }
  destruct (tv_d64 lm x1 y1 z1 x2 y2 z2 _ _ _ _ _ _ X1 X2 X3 Y1 Y2 Y3 C1 C2 C3 B1 B2 B3) as (dd & FD & ED).
  assert (DR : tv_d (N := RNum) (v0 v) (v1 v) (v2 v) (v0 A) (v1 A) (v2 A) = r * d).
  { unfold tv_d, tv_w, A, d, dot, scale. cbn [v0 v1 v2 n_add n_mul RNum]. match goal with |- @eq _ ?a ?b => change (@eq R a b) end. ring. }
  rewrite DR in ED. apply Rabs_le_inv in ED. assert (D1 : 0.4994 <= r * d <= 1.0021) by (clear - RR DD DV; nra).
  destruct (tv_xy64 lm _ _ _ _ _ _ _ _ _ q l dd _ _ _ _ _ _ FQ FL FD X1 X2 X3 Y1 Y2 Y3 Q1 ltac:(lra) ltac:(lra) C1 C2 C3 B1 B2 B3) as (NX1 & NY1).
  destruct NX1 as (x' & VX & EX). destruct NY1 as (y' & VY & EY).
  assert (RX : tv_x (N := RNum) l dd (v0 v) (v1 v) (v0 A) (v1 A) = c * e / (dd * l)).
  { unfold tv_x, e, c, A, dot, east, scale, direction. cbn [v0 v1 v2 n_add n_sub n_mul n_div RNum]. match goal with |- @eq _ ?a ?b => change (@eq R a b) end. f_equal. ring. }
  assert (RY : tv_y (N := RNum) q l dd (v0 v) (v1 v) (v2 v) (v0 A) (v1 A) (v2 A) = r * c * n / (dd * l) + v2 v * (q - c * c) / (dd * l)).
  { unfold tv_y, tv_w, n, c, A, dot, north, scale, direction. cbn [v0 v1 v2 n_add n_sub n_mul n_div RNum]. match goal with |- @eq _ ?a ?b => change (@eq R a b) end. field. lra. }
  rewrite RX in EX. rewrite RY in EY.
  assert (DB : 0.4993 <= dd <= 1.003) by lra. assert (LB : 0.0998 <= l <= 1.002) by lra. assert (PP : 0.0495 <= dd * l) by (clear - DB LB; nra). assert (PP' : 0 < r * d * c) by (clear - D1 CR; nra).
  assert (PD : Rabs (dd * l - r * d * c) <= 1.2e-15 * c + 3.5e-15).
  { replace (dd * l - r * d * c) with ((dd - r * d) * c + dd * (l - c)) by ring. eapply Rle_trans; [apply Rabs_triang|]. rewrite !Rabs_mult, (Rabs_pos_eq c), (Rabs_pos_eq dd) by lra.
    assert (Rabs (dd - r * d) <= 1.2e-15) by (apply Rabs_le; lra). assert (Rabs (l - c) <= 3.4e-15) by (apply Rabs_le; lra). pose proof (Rabs_pos (dd - r * d)). pose proof (Rabs_pos (l - c)). set (u := Rabs (dd - r * d)) in *. set (t := Rabs (l - c)) in *. clearbody u t. clear - H H0 H1 H2 DB CR. assert (u * c <= 1.2e-15 * c) by nra. assert (dd * t <= 1.003 * 3.4e-15) by nra. lra. }
  pose proof (frame_hyp v a0 b0) as HV. fold n e in HV.
  assert (HN : Rabs n <= 1.001 /\ Rabs e <= 1.001).
  { pose proof (hyp_nonneg n e) as H0. assert (HH : hyp n e * hyp n e = n * n + e * e) by (unfold hyp; apply sqrt_sqrt; nra). set (h := hyp n e) in *. assert (hh : h <= 1.001) by lra. clear - HH hh H0.
    split; apply Rabs_le; split; nra. }
  destruct HN as (HN & HE).
  assert (QN : forall s, Rabs s <= 1.0021 -> Rabs (c * s / (dd * l) - c * s / (r * d * c)) <= 1.5e-13).
  { intros s S. apply quot_near; [lra|exact PP'| |reflexivity]. rewrite Rabs_mult. unfold Rdiv. rewrite !Rabs_mult, (Rabs_pos_eq c), (Rabs_pos_eq (/ _)) by (try apply Rlt_le, Rinv_0_lt_compat; lra).
    assert (CL : c * / (dd * l) <= 2.01). { apply (Rmult_le_reg_r (dd * l)); [lra|]. rewrite Rmult_assoc, Rinv_l by lra. assert (0.4993 * l <= dd * l) by (clear - DB LB; nra). lra. }
    assert (I0 : 0 <= / (dd * l)) by (apply Rlt_le, Rinv_0_lt_compat; lra).
    pose proof (Rabs_pos s). pose proof (Rabs_pos (dd * l - r * d * c)) as P0.
    assert (G : c * Rabs s * / (dd * l) <= 2.0143). { replace (c * Rabs s * / (dd * l)) with (c * / (dd * l) * Rabs s) by ring. assert (Z0 : 0 <= c * / (dd * l)) by (clear - CR I0; nra). set (u := c * / (dd * l)) in *. clearbody u. clear - Z0 CL S H. nra. }
    assert (G0 : 0 <= c * Rabs s * / (dd * l)) by (assert (0 <= c * Rabs s) by (clear - CR H; nra); apply Rmult_le_pos; assumption).
    apply Rle_trans with (2.0143 * (1.2e-15 * c + 3.5e-15)); [apply Rmult_le_compat; lra|]. assert (0.4994 * c <= r * d * c) by (clear - D1 CR; nra). lra. }
  exists (tv_x (N := B64 lm) (n_sqrt (tv_q (N := B64 lm) x2 y2)) (tv_d (N := B64 lm) x1 y1 z1 x2 y2 z2) x1 y1 x2 y2),
    (tv_y (N := B64 lm) (tv_q (N := B64 lm) x2 y2) (n_sqrt (tv_q (N := B64 lm) x2 y2)) (tv_d (N := B64 lm) x1 y1 z1 x2 y2 z2) x1 y1 z1 x2 y2 z2), x', y'.
  split; [|split; [exact VX|split; [exact VY|split]]].
  - assert (F0 : value64 (n_ofZ (n := B64 lm) 0) 0) by (apply (fin_ofZ 53 1024 0); reflexivity).
    assert (G : n_eqb (n_sqrt (tv_q (N := B64 lm) x2 y2)) (n_ofZ (n := B64 lm) 0) = false).
    { transitivity (Req_bool l 0); [apply fin_eqb; [exact FL|exact F0]|]. apply Req_bool_false. lra. }
    destruct (tp_denom64 lm _ dd FD) as (ti & _ & ET & H1 & _). apply Rabs_le_inv in ET. specialize (H1 ltac:(lra)).
    unfold dv2tp. cbn [v0 v1 v2]. fold (tv_q (N := B64 lm) x2 y2). cbv zeta. rewrite G. fold (tv_w (N := B64 lm) x1 y1 x2 y2). fold (tv_d (N := B64 lm) x1 y1 z1 x2 y2 z2). rewrite H1. reflexivity.
  - assert (XE : xi / r = c * e / (r * d * c)) by (rewrite PX; field; lra). rewrite XE. pose proof (QN e ltac:(lra)) as Q2.
    replace (x' - c * e / (r * d * c)) with ((x' - c * e / (dd * l)) + (c * e / (dd * l) - c * e / (r * d * c))) by ring. eapply Rle_trans; [apply Rabs_triang|]. lra.
  - assert (YE : eta = c * (r * n) / (r * d * c)) by (rewrite PY; field; lra). rewrite YE.
    assert (RN : Rabs (r * n) <= 1.0021) by (rewrite Rabs_mult, (Rabs_pos_eq r) by lra; pose proof (Rabs_pos n); nra). pose proof (QN (r * n) RN) as Q2.
    assert (ZQ : Rabs (v2 v * (q - c * c) / (dd * l)) <= 2e-14).
    { unfold Rdiv. rewrite !Rabs_mult, (Rabs_pos_eq (/ _)) by (apply Rlt_le, Rinv_0_lt_compat; lra).
      assert (I1 : / (dd * l) <= / 0.0495) by (apply Rinv_le_contravar; lra). assert (I0 : 0 <= / (dd * l)) by (apply Rlt_le, Rinv_0_lt_compat; lra).
      assert (QC : Rabs (q - c * c) <= 6e-16) by (apply Rabs_le; lra). pose proof (Rabs_pos (v2 v)). pose proof (Rabs_pos (q - c * c)).
      assert (Rabs (v2 v) * Rabs (q - c * c) <= 6.01e-16) by nra. assert (0 <= Rabs (v2 v) * Rabs (q - c * c)) by nra.
      apply Rle_trans with (6.01e-16 * / 0.0495); [apply Rmult_le_compat; lra|lra]. }
    replace (y' - c * (r * n) / (r * d * c)) with ((y' - (r * c * n / (dd * l) + v2 v * (q - c * c) / (dd * l))) + (c * (r * n) / (dd * l) - c * (r * n) / (r * d * c)) + v2 v * (q - c * c) / (dd * l)) by (unfold Rdiv; ring).
    eapply Rle_trans; [apply Rabs_triang|]. apply Rle_trans with (8e-13 + 1.5e-13 + 2e-14); [|lra]. apply Rplus_le_compat; [|exact ZQ]. eapply Rle_trans; [apply Rabs_triang|]. apply Rplus_le_compat; [exact EY|exact Q2].
Qed.
