(** Polar motion in binary64. *)
From Coq Require Import ZArith Reals Bool List Lia Lra Psatz.
From Flocq Require Import Core BinarySingleNaN.
From Verif Require Import Int32 Num NumB NumR M_Angle M_Vec M_Sphere M_Site S_Geom S_Sphere S_Frame S_Site S_Binary S_Float S_FloatSph S_FloatHor L_Bin L_Flt L_Float.
From Verif Require Import L_Real L_Vec L_Rot L_Trig L_Frame L_Sphere L_Site L_FloatVec L_FltGeo L_FloatMat L_FloatSph L_Err L_ErrT L_FloatLand L_FloatFrame L_FloatHor.
Import ListNotations.
Open Scope R_scope.

(** The true direction, and its conversion to angles. *)
Definition po_vec {N : Num} (sl cl sp cp sx cx sy cy : N) : vec N :=
  let xm := n_mul cl cp in let ym := n_mul sl cp in
  let zw := n_add (n_mul (n_opp ym) sy) (n_mul sp cy) in
  V3 (n_sub (n_mul xm cx) (n_mul zw sx)) (n_add (n_mul ym cy) (n_mul sp sy)) (n_add (n_mul xm sx) (n_mul zw cx)).
Definition po_ang {N : Num} (v : vec N) : sph N :=
  let r := n_sqrt (n_add (n_mul (v0 v) (v0 v)) (n_mul (v1 v) (v1 v))) in
  let x := if n_eqb r (n_ofZ 0) then n_ofZ 1 else v0 v in
  Sph (if (negb (n_eqb x (n_ofZ 0)) || negb (n_eqb (v1 v) (n_ofZ 0)))%bool then n_atan2 (v1 v) x else n_ofZ 0) (n_atan2 (v2 v) r).
Lemma polmo_po {N : Num} (ml mp x y : N) : let p := polmo ml mp x y in
  Sph (fst (fst p)) (snd (fst p)) = po_ang (po_vec (n_sin ml) (n_cos ml) (n_sin mp) (n_cos mp) (n_sin x) (n_cos x) (n_sin y) (n_cos y)).
Proof. reflexivity. Qed.

Lemma cos_half_atan z : z <> 0 -> cos (Ratan2 z 0) = 0.
Proof.
  intros Z. destruct (atan2_cos_sin z 0) as (C & _). pose proof (hyp_pos 0 z (or_intror Z)). nra.
Qed.
Lemma po_ang64 lm k x a : libm_ok lm k -> vec64 x a -> within 1e150 a -> 1e-130 <= norm a ->
  exists t b, value64 (s_a (po_ang (N := B64 lm) x)) t /\ value64 (s_b (po_ang (N := B64 lm) x)) b /\
    Rabs t <= PI + 2 * k /\ Rabs b <= PI / 2 + 2 * k /\ norm (vsub (direction t b) (unit_of a)) <= 10 * k + 2.6 * u64.
Proof.
  intros L X W NA. pose proof (libm_k lm k L) as K. destruct (polar64 lm k x a L X W NA) as (t & b & FT & FB & RT & RB & D).
  assert (F0 : value64 (n_ofZ (n := B64 lm) 0) 0) by (apply (fin_ofZ 53 1024 0); reflexivity).
  assert (F1 : value64 (n_ofZ (n := B64 lm) 1) 1) by (apply (fin_ofZ 53 1024 1); reflexivity).
  destruct X as (X0 & X1 & X2). destruct W as (W0 & W1 & W2).
  destruct (hyp64 _ _ _ _ X0 X1 W0 W1) as (m & FM & M0 & EM). set (rr := Bsqrt mode_NE _) in FM.
  assert (QR : n_eqb (rr : B64 lm) (n_ofZ 0) = Req_bool m 0) by (apply fin_eqb; [exact FM|exact F0]).
  change (s_b (po_ang (N := B64 lm) x)) with (s_b (polar (N := B64 lm) x)).
  unfold po_ang, polar in *. cbn [s_a s_b] in *. cbv zeta in *. change (n_sqrt _) with rr in FT, FB |- *. 
  match type of FT with context [if ?c then _ else _] => set (q := c) in * end.
  assert (QQ : q = Req_bool m 0) by exact QR. clearbody q. subst q.
  destruct (Req_bool_spec m 0) as [E|E]; cbv iota.
  - match goal with |- context [if ?c then _ else _] => replace c with true end.
    destruct L as (_ & _ & LA). destruct (LA (v1 x) (n_ofZ (n := B64 lm) 1) (v1 a) 1 X1 F1 (or_intror R1_neq_R0)) as (t' & FT' & [ET|(_ & C & _)]); [|lra].
    pose proof (atan2_range (v1 a) 1) as RA. exists t', b. split; [exact FT'|]. split; [exact FB|]. split; [apply Rabs_le_inv in ET; apply Rabs_le; lra|]. split; [exact RB|].
    assert (Z : v2 a <> 0).
    { intros Z. subst m. assert (HN : hyp (v0 a) (v1 a) = norm a) by (unfold hyp, norm, dot; f_equal; rewrite Z; ring).
      pose proof (tiny_rel _ NA) as TR. pose proof u64_pos. pose proof p130. pose proof u64_num as UN. rewrite HN in EM. apply Rabs_le_inv in EM. rewrite UN in EM, TR. lra. }
    subst m. destruct (LA (v2 x) rr (v2 a) 0 X2 FM (or_introl Z)) as (b' & FB' & [EB|(_ & C & _)]); [|lra].
    assert (BB : b' = b) by (destruct FB' as (_ & <-); destruct FB as (_ & <-); reflexivity). subst b'.
    pose proof (cos_half_atan _ Z) as CB. set (be := Ratan2 (v2 a) 0) in *.
    assert (DE : direction t' be = direction t be) by (unfold direction; rewrite CB; f_equal; ring).
    pose proof (vsub_via (direction t' b) (direction t' be) (unit_of a)) as V1. pose proof (vsub_via (direction t be) (direction t b) (unit_of a)) as V2.
    pose proof (norm_dir_lat t' b be) as L1. pose proof (norm_dir_lat t be b) as L2. rewrite Rabs_minus_sym in L2. rewrite DE in V1 at 2. lra.
  - exists t, b. split; [|split; [exact FB|split; [exact RT|split; [exact RB|lra]]]].
    match goal with |- context [if ?c then _ else _] => replace c with true end; [exact FT|].
    symmetry. apply orb_true_intro. cbn [B64 n_eqb]. 
    assert (Q0 : n_eqb (v0 x : B64 lm) (n_ofZ 0) = Req_bool (v0 a) 0) by (apply fin_eqb; [exact X0|exact F0]).
    assert (Q1 : n_eqb (v1 x : B64 lm) (n_ofZ 0) = Req_bool (v1 a) 0) by (apply fin_eqb; [exact X1|exact F0]).
    destruct (Req_dec (v0 a) 0) as [E0|E0]; [right|left]; apply negb_true_iff; [etransitivity; [exact Q1|]|etransitivity; [exact Q0|]]; apply Req_bool_false; [|exact E0].
    intros E1. apply E.
    assert (HZ : rr = Bsqrt mode_NE (Bplus mode_NE (Bmult mode_NE (v0 x) (v0 x)) (Bmult mode_NE (v1 x) (v1 x)))) by reflexivity.
    rewrite E0 in X0. rewrite E1 in X1.
    assert (T0 : Rabs 0 <= 1e-162) by (rewrite Rabs_R0; change 1e-162 with (1 / IZR (10 ^ 162)); apply Rlt_le, Rdiv_lt_0_compat; [lra|apply IZR_lt; reflexivity]).
    pose proof (fin_sq0 _ _ X0 T0) as P0. pose proof (fin_sq0 _ _ X1 T0) as P1. pose proof (fin_0_add 53 1024 _ _ _ P0 P1) as S.
    pose proof (fin_sqrt 53 1024 _ _ S (Rle_refl 0)) as (_ & V). rewrite sqrt_0, rnd_0 in V. rewrite <- HZ in V. destruct FM as (_ & V2). rewrite V in V2. symmetry. exact V2.
Qed.
Lemma by_po64 lm k x w e : libm_ok lm k -> by64 x w e -> norm w = 1 -> e <= 1e-3 ->
  lands_pm (lm := lm) k (po_ang (N := B64 lm) x) w (10 * k + 2.6 * u64 + 1.002 * e).
Proof.
  intros L (r & FR & ER) N E. pose proof (norm_lip r w) as NQ. apply Rabs_le_inv in NQ. pose proof big150 as B150.
  assert (S : 1e-130 <= norm r).
  { apply Rle_trans with (1 / IZR 2); [change 1e-130 with (1 / IZR (10 ^ 130)); apply inv_le; [reflexivity|vm_compute; reflexivity]|lra]. }
  destruct (po_ang64 lm k x r L FR) as (t & b & FT & FB & T & B & D); [apply L_FloatMat.within_norm; lra|exact S|].
  exists t, b. split; [split; [exact FT|exact FB]|]. split; [exact T|]. split; [exact B|].
  unfold vdist. assert (UW : unit_of w = w) by (unfold unit_of, scale; rewrite N; destruct w as [w0 w1 w2]; cbn [v0 v1 v2]; f_equal; field).
  eapply Rle_trans; [apply (vsub_via _ (unit_of r))|]. apply Rplus_le_compat; [exact D|]. rewrite <- UW at 1. apply unit_near; rewrite ?N; lra.
Qed.

Definition po_env : list item := [unit_it; unit_it; unit_it; unit_it; unit_it; unit_it; unit_it; unit_it].
Lemma po_vec64 lm (x1 x2 x3 x4 x5 x6 x7 x8 : double) a1 a2 a3 a4 a5 a6 a7 a8 :
  value64 x1 a1 -> value64 x2 a2 -> value64 x3 a3 -> value64 x4 a4 -> value64 x5 a5 -> value64 x6 a6 -> value64 x7 a7 -> value64 x8 a8 ->
  Rabs a1 <= 1 -> Rabs a2 <= 1 -> Rabs a3 <= 1 -> Rabs a4 <= 1 -> Rabs a5 <= 1 -> Rabs a6 <= 1 -> Rabs a7 <= 1 -> Rabs a8 <= 1 ->
  let x := po_vec (N := B64 lm) x1 x2 x3 x4 x5 x6 x7 x8 in let a := po_vec (N := RNum) a1 a2 a3 a4 a5 a6 a7 a8 in
  near 53 1024 (v0 x) (v0 a) 14e-16 /\ near 53 1024 (v1 x) (v1 a) 7e-16 /\ near 53 1024 (v2 x) (v2 a) 14e-16.
Proof.
  intros X1 X2 X3 X4 X5 X6 X7 X8 A1 A2 A3 A4 A5 A6 A7 A8 x a.
  assert (OK : okenv po_env [x1; x2; x3; x4; x5; x6; x7; x8] [a1; a2; a3; a4; a5; a6; a7; a8]) by (do 8 (split; [apply okk_unit; assumption|]); exact Logic.I).
  unfold x, a, po_vec. cbv zeta. cbn [v0 v1 v2].
  split; [|split]; err0 lm po_env [x1; x2; x3; x4; x5; x6; x7; x8] [a1; a2; a3; a4; a5; a6; a7; a8] OK.
Qed.
Lemma po_vec_R ml mp x y : po_vec (N := RNum) (sin ml) (cos ml) (sin mp) (cos mp) (sin x) (cos x) (sin y) (cos y) = mapply (polar_motion x y) (direction ml mp).
Proof. unfold po_vec, polar_motion. unR. cbv zeta. geo; apply vec_eq; cbn [v0 v1 v2]; ring. Qed.
Lemma rot_abs1 a b t : a * a + b * b <= 1 -> Rabs (- a * sin t + b * cos t) <= 1.
Proof.
  intros H. pose proof (sc1 t) as S. set (s := sin t) in *. set (c := cos t) in *. apply Rabs_le.
  assert (Q : (- a * s + b * c) * (- a * s + b * c) <= 1).
  { assert (E : (- a * s + b * c) * (- a * s + b * c) + (a * c + b * s) * (a * c + b * s) = (a * a + b * b) * (s * s + c * c)) by ring.
    replace (s * s + c * c) with 1 in E by lra. pose proof (Rle_0_sqr (a * c + b * s)) as P. unfold Rsqr in P. lra. }
  split; nra.
Qed.
Lemma po_lip k ml mp x y a1 a2 a3 a4 a5 a6 a7 a8 : 0 <= k ->
  Rabs a1 <= 1 -> Rabs a2 <= 1 -> Rabs a3 <= 1 -> Rabs a4 <= 1 -> Rabs a5 <= 1 -> Rabs a6 <= 1 -> Rabs a7 <= 1 -> Rabs a8 <= 1 ->
  Rabs (a1 - sin ml) <= k -> Rabs (a2 - cos ml) <= k -> Rabs (a3 - sin mp) <= k -> Rabs (a4 - cos mp) <= k ->
  Rabs (a5 - sin x) <= k -> Rabs (a6 - cos x) <= k -> Rabs (a7 - sin y) <= k -> Rabs (a8 - cos y) <= k ->
  norm (vsub (po_vec (N := RNum) a1 a2 a3 a4 a5 a6 a7 a8) (mapply (polar_motion x y) (direction ml mp))) <= 13.7 * k.
Proof.
  intros K A1 A2 A3 A4 A5 A6 A7 A8 D1 D2 D3 D4 D5 D6 D7 D8. rewrite <- po_vec_R.
  pose proof (prod_err _ _ _ _ k A4 (cos_abs1 ml) D2 D4) as XM. pose proof (prod_err _ _ _ _ k A4 (sin_abs1 ml) D1 D4) as YM.
  assert (XO : Rabs (cos ml * cos mp) <= 1) by (apply mul_abs1; apply cos_abs1). assert (YO : Rabs (sin ml * cos mp) <= 1) by (apply mul_abs1; [apply sin_abs1|apply cos_abs1]).
  assert (ZW : Rabs (- (a1 * a4) * a7 + a3 * a8 - (- (sin ml * cos mp) * sin y + sin mp * cos y)) <= 3 * k + 2 * k).
  { apply add_err; [|exact (prod_err _ _ _ _ k A8 (sin_abs1 mp) D3 D8)]. replace (3 * k) with (2 * k + k) by ring.
    apply prod_err2; [exact A7|rewrite Rabs_Ropp; exact YO|now apply opp_err|exact D7]. }
  assert (ZO : Rabs (- (sin ml * cos mp) * sin y + sin mp * cos y) <= 1).
  { apply rot_abs1. pose proof (sc1 mp). pose proof (sc1 ml). set (s := sin mp) in *. set (c := cos mp) in *. set (s' := sin ml) in *. set (c' := cos ml) in *.
    assert (s' * s' <= 1) by nra. assert (0 <= c * c) by nra. nra. }
  apply (norm3 _ (9 * k) (5 * k) (9 * k)); [| | |nra|lra]; unfold vsub, po_vec; unR; cbv zeta; cbn [v0 v1 v2].
  - replace (9 * k) with ((2 * k + k) + (3 * k + 2 * k + k)) by ring. apply sub_err; apply prod_err2; assumption.
  - replace (5 * k) with ((2 * k + k) + 2 * k) by ring. apply add_err; [apply prod_err2; assumption|]. exact (prod_err _ _ _ _ k A7 (sin_abs1 mp) D3 D7).
  - replace (9 * k) with ((2 * k + k) + (3 * k + 2 * k + k)) by ring. apply add_err; apply prod_err2; assumption.
Qed.
Lemma polmo64 lm k (u v x y : double) ml mp xp yp : libm_ok lm k -> k <= 1e-6 -> value64 u ml -> value64 v mp -> value64 x xp -> value64 y yp ->
  let p := polmo (N := B64 lm) u v x y in
  lands_pm (lm := lm) k (Sph (N := B64 lm) (fst (fst p)) (snd (fst p))) (mapply (polar_motion xp yp) (direction ml mp)) (23.8 * k + 22 * u64).
Proof.
  intros L K U V X Y p. pose proof (libm_k lm k L) as K0. unfold p. rewrite (polmo_po (N := B64 lm) u v x y).
  destruct (trig64 lm k u ml L U) as (a1 & a2 & F1 & F2 & A1 & A2 & D1 & D2). destruct (trig64 lm k v mp L V) as (a3 & a4 & F3 & F4 & A3 & A4 & D3 & D4).
  destruct (trig64 lm k x xp L X) as (a5 & a6 & F5 & F6 & A5 & A6 & D5 & D6). destruct (trig64 lm k y yp L Y) as (a7 & a8 & F7 & F8 & A7 & A8 & D7 & D8).
  destruct (po_vec64 lm _ _ _ _ _ _ _ _ _ _ _ _ _ _ _ _ F1 F2 F3 F4 F5 F6 F7 F8 A1 A2 A3 A4 A5 A6 A7 A8) as (N0 & N1 & N2).
  pose proof (po_lip k ml mp xp yp _ _ _ _ _ _ _ _ K0 A1 A2 A3 A4 A5 A6 A7 A8 D1 D2 D3 D4 D5 D6 D7 D8) as LP.
  destruct (near_value64 _ _ _ N0) as (r0 & V0 & E0). destruct (near_value64 _ _ _ N1) as (r1 & V1 & E1). destruct (near_value64 _ _ _ N2) as (r2 & V2 & E2).
  set (w := mapply (polar_motion xp yp) (direction ml mp)) in *. set (z := po_vec (N := RNum) a1 a2 a3 a4 a5 a6 a7 a8) in *. pose proof u64_num as UN.
  assert (B : by64 (po_vec (N := B64 lm) (n_sin (u : B64 lm)) (n_cos (u : B64 lm)) (n_sin (v : B64 lm)) (n_cos (v : B64 lm)) (n_sin (x : B64 lm)) (n_cos (x : B64 lm)) (n_sin (y : B64 lm)) (n_cos (y : B64 lm))) w (13.7 * k + 19 * u64)).
  { exists (V3 r0 r1 r2). split; [split; [exact V0|split; [exact V1|exact V2]]|].
    eapply Rle_trans; [apply (vsub_via _ z)|]. rewrite Rplus_comm. apply Rplus_le_compat; [exact LP|].
    apply (norm3 _ 14e-16 7e-16 14e-16); unfold vsub; cbn [v0 v1 v2]; try assumption; rewrite UN; lra. }
  destruct (by_po64 lm k _ _ _ L B) as (t & q & A & T & Q & E).
  - unfold w. rewrite rotation_norm by apply rotation_polar. apply norm_direction.
  - lra.
  - exists t, q. split; [exact A|]. split; [exact T|]. split; [exact Q|]. lra.
Qed.
