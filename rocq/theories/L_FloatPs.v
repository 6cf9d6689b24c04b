(** Spherical coordinates and rates from position and velocity (dc62s) in binary64. *)
From Coq Require Import ZArith Reals Bool List Lia Lra Psatz.
From Flocq Require Import Core BinarySingleNaN.
From Verif Require Import Num NumB NumR M_Vec S_Geom S_Binary S_Float S_FloatSph S_Frame L_Vec L_Real L_Bin L_Flt L_FltVec L_Float L_FloatVec L_FloatMat L_FloatSph L_FloatPol L_FltRel L_FloatPv L_FloatInv L_FloatHor L_FltGeo.
Open Scope R_scope.

(** A small relative error on a square. *)
Lemma rel_of x a c : nr x a a c 1e-240 -> 1e-30 <= a -> 0 <= c <= 20 -> exists v, value64 x v /\ Rabs (v - a) <= (c + 0.001) * u64 * Rabs a.
Proof.
  intros [(v & F & E) _] A C. exists v. split; [exact F|]. rewrite (Rabs_pos_eq a) by lra. eapply Rle_trans; [exact E|].
  pose proof u64_num as UN. assert (U : 1e-17 <= u64) by (rewrite UN; lra). clear UN. assert (1e-50 <= u64 * a) by (apply Rle_trans with (1e-17 * 1e-30); [lra|apply Rmult_le_compat; lra]).
  replace ((c + 0.001) * u64 * a) with (c * u64 * a + 0.001 * (u64 * a)) by ring. lra.
Qed.
Lemma sqrt_of (z : double) v a c : value64 z v -> 1e-30 <= a -> 0 <= c <= 20 -> Rabs (v - a) <= c * u64 * Rabs a ->
  exists m, value64 (Bsqrt mode_NE z) m /\ Rabs (m - sqrt a) <= (c / 2 + 1.01) * u64 * Rabs (sqrt a).
Proof.
  intros FV A C E. rewrite (Rabs_pos_eq a) in E by lra. pose proof u64_num as UN. assert (U : 1e-17 <= u64 <= 1.2e-16) by (rewrite UN; lra). clear UN.
  assert (CU : 0 <= c * u64 <= 1e-14) by (split; [apply Rmult_le_pos; lra|apply Rle_trans with (20 * 1.2e-16); [apply Rmult_le_compat; lra|lra]]).
  assert (V0 : 0 <= v). { apply Rabs_le_inv in E. assert (c * u64 * a <= 1e-14 * a) by (apply Rmult_le_compat_r; lra). lra. }
  pose proof (sqrt_rel a v (c * u64) ltac:(lra) ltac:(lra) E) as SR.
  pose proof (fin_sqrt 53 1024 z v FV V0) as FM. exists (rnd 53 1024 (sqrt v)). split; [exact FM|].
  pose proof (rnd_err 53 1024 (sqrt v)) as RE. rewrite u64_eq, (Rabs_pos_eq (sqrt v)) in RE by apply sqrt_pos. pose proof eta300 as ET.
  assert (S0 : 1e-15 <= sqrt a) by (rewrite <- (sqrt_square 1e-15) by lra; apply sqrt_le_1_alt; lra). rewrite (Rabs_pos_eq (sqrt a)) by lra.
  set (s := sqrt a) in *. set (r := sqrt v) in *. apply Rabs_le_inv in SR as SR'.
  assert (US : 1e-32 <= u64 * s) by (apply Rle_trans with (1e-17 * 1e-15); [lra|apply Rmult_le_compat; lra]).
  assert (CC : c * u64 * (c * u64) * s <= 1e-4 * (u64 * s)).
  { replace (c * u64 * (c * u64) * s) with (c * (c * u64) * (u64 * s)) by ring. apply Rmult_le_compat_r; [lra|]. apply Rle_trans with (20 * 1e-14); [apply Rmult_le_compat; lra|lra]. }
  assert (SR2 : (c * u64 / 2 + c * u64 * (c * u64)) * s <= c / 2 * (u64 * s) + 1e-4 * (u64 * s)) by (replace ((c * u64 / 2 + c * u64 * (c * u64)) * s) with (c / 2 * (u64 * s) + c * u64 * (c * u64) * s) by field; lra).
  assert (C2 : c / 2 * (u64 * s) <= 10 * (u64 * s)) by (apply Rmult_le_compat_r; lra).
  assert (UR : u64 * r <= 1.001 * (u64 * s)). { replace (1.001 * (u64 * s)) with (u64 * (1.001 * s)) by ring. apply Rmult_le_compat_l; [lra|]. assert (u64 * s <= 1.2e-16 * s) by (apply Rmult_le_compat_r; lra). lra. }
  replace (rnd 53 1024 r - s) with ((rnd 53 1024 r - r) + (r - s)) by ring. eapply Rle_trans; [apply Rabs_triang|].
  replace ((c / 2 + 1.01) * u64 * s) with (c / 2 * (u64 * s) + 1.01 * (u64 * s)) by ring. lra.
Qed.
(** Product of two numbers known to small relative errors. *)
Lemma mul_of lm x y v w a b c d : value64 x v -> value64 y w -> Rabs (v - a) <= c * u64 * Rabs a -> Rabs (w - b) <= d * u64 * Rabs b ->
  0 <= c <= 20 -> 0 <= d <= 20 -> 1e-60 <= Rabs (a * b) -> Rabs a <= 1e50 -> Rabs b <= 1e50 ->
  exists p, value64 (n_mul (n := B64 lm) x y) p /\ Rabs (p - a * b) <= (c + d + 1.011) * u64 * Rabs (a * b).
Proof.
  intros X Y EX EY C D AB A B.
  assert (NX : nr x a (Rabs a) c 1e-300) by (split; [exists v; split; [exact X|lra]|apply Rle_refl]). assert (NY : nr y b (Rabs b) d 1e-300) by (split; [exists w; split; [exact Y|lra]|apply Rle_refl]).
  destruct (nr_mul' lm _ _ _ _ _ _ _ _ _ NX NY C D ltac:(lra) A B) as [(p & FP & EP) _]. exists p. split; [exact FP|]. rewrite <- Rabs_mult in EP. eapply Rle_trans; [exact EP|].
  pose proof u64_num as UN. assert (U : 1e-17 <= u64) by (rewrite UN; lra). clear UN. set (q := Rabs (a * b)) in *. assert (1e-77 <= u64 * q) by (apply Rle_trans with (1e-17 * 1e-60); [lra|apply Rmult_le_compat; lra]).
  replace ((c + d + 1.011) * u64 * q) with ((c + d + 1.01) * u64 * q + 0.001 * (u64 * q)) by (replace 1.011 with (1.01 + 0.001) by lra; ring). lra.
Qed.

Lemma dc62s64 lm k (c : vecpv (B64 lm)) x y z xd yd zd : libm_ok lm k -> vec64 (pos c) (V3 x y z) -> vec64 (velo c) (V3 xd yd zd) ->
  within 1e12 (V3 x y z) -> within 1e12 (V3 xd yd zd) -> 1e-18 <= x ^ 2 + y ^ 2 ->
  let s := dc62s (N := B64 lm) c in
  let e := dc62s (N := RNum) (VPV (N := RNum) (V3 x y z) (V3 xd yd zd)) in
  exists t b r t' b' r', value64 (lon s) t /\ value64 (lat s) b /\ value64 (dist s) r /\ value64 (dlon s) t' /\ value64 (dlat s) b' /\ value64 (ddist s) r' /\
    norm (vsub (direction t b) (unit_of (V3 x y z))) <= 6 * k + 2.6 * u64 /\
    Rabs (r - norm (V3 x y z)) <= 2.6 * u64 * norm (V3 x y z) /\
    Rabs (t' - dlon e) <= 5.2 * u64 * ((Rabs (x * yd) + Rabs (y * xd)) / (x ^ 2 + y ^ 2)) + 1e-100 /\
    Rabs (b' - dlat e) <= 12 * u64 * ((Rabs zd * (x ^ 2 + y ^ 2) + Rabs z * (Rabs (x * xd) + Rabs (y * yd))) / ((x ^ 2 + y ^ 2 + z ^ 2) * sqrt (x ^ 2 + y ^ 2))) + 1e-100 /\
    Rabs (r' - ddist e) <= 6.9 * u64 * ((Rabs (x * xd) + Rabs (y * yd) + Rabs (z * zd)) / norm (V3 x y z)) + 1e-100.
Proof.
  intros L (X & Y & Z) (XD & YD & ZD) (HX & HY & HZ) (HXD & HYD & HZD) HR s e. destruct c as [[x0 y0 z0] [xd0 yd0 zd0]]. cbn [pos velo v0 v1 v2] in *.
  pose proof u64_num as UN. assert (U : 1e-17 <= u64 <= 1.2e-16) by (rewrite UN; lra). clear UN.
  assert (SQ : forall w, Rabs w * Rabs w = w * w) by (intros w; rewrite <- Rabs_mult; apply Rabs_pos_eq, Rle_0_sqr).
  assert (SB : forall w, Rabs w <= 1e12 -> 0 <= w * w <= 1e24) by (intros w H; rewrite <- SQ; pose proof (Rabs_pos w); split; [apply Rmult_le_pos; lra|apply Rle_trans with (1e12 * 1e12); [apply Rmult_le_compat; lra|lra]]).
  pose proof (SB x HX) as BX. pose proof (SB y HY) as BY. pose proof (SB z HZ) as BZ.
  replace (x ^ 2 + y ^ 2 + z ^ 2) with (x * x + y * y + z * z) by ring. replace (x ^ 2 + y ^ 2) with (x * x + y * y) in * by ring.
  assert (ML : forall p q a b, value64 p a -> value64 q b -> Rabs a <= 1e12 -> Rabs b <= 1e12 -> nr (n_mul (n := B64 lm) p q) (a * b) (Rabs (a * b)) 1.01 1e-245 /\ Rabs (a * b) <= 1e24).
  { intros p q a b P Q HA HB. split.
    - eapply nr_weak; [rewrite Rabs_mult; apply (nr_mul' lm _ _ _ _ _ _ _ _ _ (nr300 _ _ P) (nr300 _ _ Q)); lra|lra|lra].
    - rewrite Rabs_mult. pose proof (Rabs_pos a). pose proof (Rabs_pos b). apply Rle_trans with (1e12 * 1e12); [apply Rmult_le_compat; lra|lra]. }
  destruct (ML _ _ _ _ X X HX HX) as [XX _]. destruct (ML _ _ _ _ Y Y HY HY) as [YY _]. destruct (ML _ _ _ _ Z Z HZ HZ) as [ZZ _]. rewrite Rabs_pos_eq in XX, YY, ZZ by lra.
  pose proof (nr_add' lm _ _ _ _ _ _ _ _ 1.01 _ XX YY ltac:(lra) ltac:(lra) ltac:(lra) ltac:(lra) ltac:(lra) ltac:(lra)) as RXY. apply nr_weak with (d := 2.02) (j := 1e-244) in RXY; [|lra|lra].
  apply nr_weak with (d := 1.01) (j := 1e-244) in ZZ; [|lra|lra].
  pose proof (nr_add' lm _ _ _ _ _ _ _ _ 2.02 _ RXY ZZ ltac:(lra) ltac:(lra) ltac:(lra) ltac:(lra) ltac:(lra) ltac:(lra)) as R2. apply nr_weak with (d := 3.03) (j := 1e-240) in R2; [|lra|lra].
  assert (RXY' : nr (n_add (n := B64 lm) (n_mul (n := B64 lm) x0 x0) (n_mul (n := B64 lm) y0 y0)) (x * x + y * y) (x * x + y * y) 2.02 1e-240) by (eapply nr_weak; [exact RXY|lra|lra]).
  destruct (rel_of _ _ _ RXY' ltac:(lra) ltac:(lra)) as (p & FP & EP). destruct (rel_of _ _ _ R2 ltac:(lra) ltac:(lra)) as (q & FQ & EQ).
  destruct (sqrt_of _ p (x * x + y * y) (2.02 + 0.001) FP ltac:(lra) ltac:(lra) EP) as (h & FH & EH). destruct (sqrt_of _ q (x * x + y * y + z * z) (3.03 + 0.001) FQ ltac:(lra) ltac:(lra) EQ) as (r & FR & ER).
  assert (PB : 1e-18 <= x * x + y * y <= 2e24) by lra. assert (QB : 1e-18 <= x * x + y * y + z * z <= 3e24) by lra. assert (PQ : x * x + y * y <= x * x + y * y + z * z) by lra.
  set (P := x * x + y * y) in *. set (Q := P + z * z) in *.
  assert (h0 : 1e-9 <= sqrt P) by (rewrite <- (sqrt_square 1e-9) by lra; apply sqrt_le_1_alt; lra). assert (r0 : 1e-9 <= sqrt Q) by (rewrite <- (sqrt_square 1e-9) by lra; apply sqrt_le_1_alt; lra).
  assert (h1 : sqrt P <= 1e13) by (rewrite <- (sqrt_square 1e13) by lra; apply sqrt_le_1_alt; lra). assert (r1 : sqrt Q <= 1e13) by (rewrite <- (sqrt_square 1e13) by lra; apply sqrt_le_1_alt; lra).
  assert (NQ : norm (V3 x y z) = sqrt Q) by (unfold norm, dot; cbn [v0 v1 v2]; reflexivity).
  assert (PU : forall c a, 0 <= a -> 0 <= c <= 20 -> 0 <= c * u64 * a <= 1e-14 * a) by (intros c0 a A C; split; [apply Rmult_le_pos; [apply Rmult_le_pos; lra|exact A]|apply Rmult_le_compat_r; [exact A|]; apply Rle_trans with (20 * 1.2e-16); [apply Rmult_le_compat; lra|lra]]).
  rewrite (Rabs_pos_eq P) in EP by lra. rewrite (Rabs_pos_eq Q) in EQ by (lra). rewrite (Rabs_pos_eq (sqrt P)) in EH by lra. rewrite (Rabs_pos_eq (sqrt Q)) in ER by lra.
  pose proof (PU (2.02 + 0.001) P ltac:(lra) ltac:(lra)) as UP. pose proof (PU (3.03 + 0.001) Q ltac:(lra) ltac:(lra)) as UQ.
  pose proof (PU ((2.02 + 0.001) / 2 + 1.01) (sqrt P) ltac:(lra) ltac:(lra)) as UH. pose proof (PU ((3.03 + 0.001) / 2 + 1.01) (sqrt Q) ltac:(lra) ltac:(lra)) as UR.
  assert (p0 : p <> 0) by (apply Rabs_le_inv in EP; lra). assert (q0 : q <> 0) by (apply Rabs_le_inv in EQ; lra). assert (rn0 : r <> 0) by (apply Rabs_le_inv in ER; lra). assert (hn0 : h <> 0) by (apply Rabs_le_inv in EH; lra).
  assert (O : value64 (n_ofZ (n := B64 lm) 0) 0) by (apply (fin_ofZ 53 1024 0); reflexivity).
  assert (NZ : forall (w : double) v, value64 w v -> v <> 0 -> n_eqb (n := B64 lm) w (n_ofZ (n := B64 lm) 0) = false) by (intros w v W V; transitivity (Req_bool v 0); [exact (fin_eqb _ _ _ _ W O)|now apply Req_bool_false]).
  (* the products with the velocity *)
  destruct (ML _ _ _ _ X XD HX HXD) as [N1 B1]. destruct (ML _ _ _ _ Y YD HY HYD) as [N2 B2]. destruct (ML _ _ _ _ Z ZD HZ HZD) as [N3 B3]. destruct (ML _ _ _ _ X YD HX HYD) as [N4 B4]. destruct (ML _ _ _ _ Y XD HY HXD) as [N5 B5].
  pose proof (Rabs_pos (x * xd)) as a1. pose proof (Rabs_pos (y * yd)) as a2. pose proof (Rabs_pos (z * zd)) as a3. pose proof (Rabs_pos (x * yd)) as a4. pose proof (Rabs_pos (y * xd)) as a5. pose proof (Rabs_pos z) as z0'. pose proof (Rabs_pos zd) as zd0'.
  pose proof (nr_add' lm _ _ _ _ _ _ _ _ 1.01 _ N1 N2 ltac:(lra) ltac:(lra) ltac:(lra) ltac:(lra) ltac:(lra) ltac:(lra)) as XY. apply nr_weak with (d := 2.02) (j := 1e-244) in XY; [|lra|lra].
  apply nr_weak with (d := 1.01) (j := 1e-244) in N3; [|lra|lra].
  pose proof (nr_add' lm _ _ _ _ _ _ _ _ 2.02 _ XY N3 ltac:(lra) ltac:(lra) ltac:(lra) ltac:(lra) ltac:(lra) ltac:(lra)) as NR. apply nr_weak with (d := 3.03) (j := 1e-240) in NR; [|lra|lra].
  pose proof (nr_sub' lm _ _ _ _ _ _ _ _ 1.01 _ N4 N5 ltac:(lra) ltac:(lra) ltac:(lra) ltac:(lra) ltac:(lra) ltac:(lra)) as NL. apply nr_weak with (d := 2.02) (j := 1e-240) in NL; [|lra|lra].
  assert (ZDW : nr zd0 zd (Rabs zd) 0 1e-244) by (eapply nr_weak; [apply nr300; exact ZD|lra|lra]). assert (ZW : nr z0 z (Rabs z) 0 1e-244) by (eapply nr_weak; [apply nr300; exact Z|lra|lra]).
  pose proof (nr_mul' lm _ _ _ _ _ _ _ _ _ ZDW RXY ltac:(lra) ltac:(lra) ltac:(lra) ltac:(lra) ltac:(lra)) as NA. pose proof (nr_mul' lm _ _ _ _ _ _ _ _ _ ZW XY ltac:(lra) ltac:(lra) ltac:(lra) ltac:(lra) ltac:(lra)) as NB.
  apply nr_weak with (d := 3.03) (j := 1e-190) in NA; [|lra|lra]. apply nr_weak with (d := 3.03) (j := 1e-190) in NB; [|lra|lra].
  assert (MA : 0 <= Rabs zd * P <= 1e40) by (split; [apply Rmult_le_pos; lra|apply Rle_trans with (1e12 * 2e24); [apply Rmult_le_compat; lra|lra]]).
  assert (MB : 0 <= Rabs z * (Rabs (x * xd) + Rabs (y * yd)) <= 1e40) by (split; [apply Rmult_le_pos; lra|apply Rle_trans with (1e12 * 2e24); [apply Rmult_le_compat; lra|lra]]).
  pose proof (nr_sub' lm _ _ _ _ _ _ _ _ 3.03 _ NA NB ltac:(lra) ltac:(lra) ltac:(lra) ltac:(lra) ltac:(lra) ltac:(lra)) as ND. apply nr_weak with (d := 4.04) (j := 1e-185) in ND; [|lra|lra].
  (* the quotients *)
  assert (EP' : Rabs (p - P) <= (2.021 * u64) * Rabs P) by (rewrite (Rabs_pos_eq P) by lra; replace 2.021 with (2.02 + 0.001) by lra; exact EP).
  assert (ER' : Rabs (r - sqrt Q) <= (2.53 * u64) * Rabs (sqrt Q)) by (rewrite (Rabs_pos_eq (sqrt Q)) by lra; eapply Rle_trans; [exact ER|]; apply Rmult_le_compat_r; [lra|apply Rmult_le_compat_r; lra]).
  assert (EQ' : Rabs (q - Q) <= 3.031 * u64 * Rabs Q) by (rewrite (Rabs_pos_eq Q) by (lra); replace 3.031 with (3.03 + 0.001) by lra; exact EQ).
  assert (EH' : Rabs (h - sqrt P) <= 2.03 * u64 * Rabs (sqrt P)) by (rewrite (Rabs_pos_eq (sqrt P)) by lra; eapply Rle_trans; [exact EH|]; apply Rmult_le_compat_r; [lra|apply Rmult_le_compat_r; lra]).
  assert (QP : 1e-27 <= Q * sqrt P) by (apply Rle_trans with (1e-18 * 1e-9); [lra|apply Rmult_le_compat; lra]).
  destruct (mul_of lm _ _ _ _ _ _ _ _ FQ FH EQ' EH' ltac:(lra) ltac:(lra) ltac:(rewrite Rabs_pos_eq; lra) ltac:(rewrite Rabs_pos_eq; lra) ltac:(rewrite Rabs_pos_eq; lra)) as (g & FG & EG).
  assert (EG' : Rabs (g - Q * sqrt P) <= (6.08 * u64) * Rabs (Q * sqrt P)) by (eapply Rle_trans; [exact EG|]; apply Rmult_le_compat_r; [apply Rabs_pos|apply Rmult_le_compat_r; lra]).
  destruct (nr_div lm _ _ _ _ _ _ _ _ (2.021 * u64) NL FP EP' ltac:(lra) ltac:(lra) ltac:(lra) ltac:(rewrite Rabs_pos_eq; lra) ltac:(lra)) as (t' & FT' & ET').
  destruct (nr_div lm _ _ _ _ _ _ _ _ (6.08 * u64) ND FG EG' ltac:(lra) ltac:(lra) ltac:(lra) ltac:(rewrite Rabs_pos_eq; lra) ltac:(lra)) as (b' & FB' & EB').
  destruct (nr_div lm _ _ _ _ _ _ _ _ (2.53 * u64) NR FR ER' ltac:(lra) ltac:(lra) ltac:(lra) ltac:(rewrite Rabs_pos_eq; lra) ltac:(lra)) as (r' & FR' & ER'').
  rewrite (Rabs_pos_eq P) in ET' by lra. rewrite (Rabs_pos_eq (Q * sqrt P)) in EB' by lra. rewrite (Rabs_pos_eq (sqrt Q)) in ER'' by lra.
  (* the direction *)
  assert (NN : 1e-130 <= norm (V3 x y z)) by (rewrite NQ; lra).
  assert (V : vec64 (V3 x0 y0 z0) (V3 x y z)) by (repeat split; cbn [v0 v1 v2]; assumption || apply X || apply Y || apply Z).
  assert (W : within 1e150 (V3 x y z)) by (repeat split; cbn [v0 v1 v2]; lra).
  destruct (dcc2s64 lm k _ _ L V W NN) as (t & b & FT & FB & _ & _ & EDIR).
  assert (SA : s_a (dcc2s (N := B64 lm) (V3 x0 y0 z0)) = m_atan2 _ _ lm y0 x0).
  { unfold dcc2s. cbv zeta. cbn [s_a v0 v1 v2]. rewrite (NZ (n_sqrt (n := B64 lm) _) _ FH hn0). reflexivity. }
  rewrite SA in FT.
  (* the value of the exact routine *)
  assert (EE : e = SPV (N := RNum) (Ratan2 y x) (Ratan2 z (sqrt P)) (sqrt Q) ((x * yd - y * xd) / P) ((zd * P - z * (x * xd + y * yd)) / (Q * sqrt P)) ((x * xd + y * yd + z * zd) / sqrt Q)).
  { unfold e, dc62s. unR. cbv zeta. cbn [pos velo v0 v1 v2]. fold P. fold Q. destruct (Reqb_spec Q 0) as [H|_]; [unfold Q in H; lra|]. destruct (Reqb_spec (sqrt Q) 0) as [H|_]; [lra|]. destruct (Reqb_spec P 0) as [H|_]; [lra|]. reflexivity. }
  rewrite EE. cbn [lon lat dist dlon dlat ddist]. rewrite NQ in *.
  (* the computed routine *)
  assert (ES : s = SPV (N := B64 lm) (m_atan2 _ _ lm y0 x0) (m_atan2 _ _ lm z0 (Bsqrt mode_NE (n_add (n := B64 lm) (n_mul (n := B64 lm) x0 x0) (n_mul (n := B64 lm) y0 y0))))
     (Bsqrt mode_NE (n_add (n := B64 lm) (n_add (n := B64 lm) (n_mul (n := B64 lm) x0 x0) (n_mul (n := B64 lm) y0 y0)) (n_mul (n := B64 lm) z0 z0)))
     (n_div (n := B64 lm) (n_sub (n := B64 lm) (n_mul (n := B64 lm) x0 yd0) (n_mul (n := B64 lm) y0 xd0)) (n_add (n := B64 lm) (n_mul (n := B64 lm) x0 x0) (n_mul (n := B64 lm) y0 y0)))
     (n_div (n := B64 lm) (n_sub (n := B64 lm) (n_mul (n := B64 lm) zd0 (n_add (n := B64 lm) (n_mul (n := B64 lm) x0 x0) (n_mul (n := B64 lm) y0 y0))) (n_mul (n := B64 lm) z0 (n_add (n := B64 lm) (n_mul (n := B64 lm) x0 xd0) (n_mul (n := B64 lm) y0 yd0))))
        (n_mul (n := B64 lm) (n_add (n := B64 lm) (n_add (n := B64 lm) (n_mul (n := B64 lm) x0 x0) (n_mul (n := B64 lm) y0 y0)) (n_mul (n := B64 lm) z0 z0)) (Bsqrt mode_NE (n_add (n := B64 lm) (n_mul (n := B64 lm) x0 x0) (n_mul (n := B64 lm) y0 y0)))))
     (n_div (n := B64 lm) (n_add (n := B64 lm) (n_add (n := B64 lm) (n_mul (n := B64 lm) x0 xd0) (n_mul (n := B64 lm) y0 yd0)) (n_mul (n := B64 lm) z0 zd0)) (Bsqrt mode_NE (n_add (n := B64 lm) (n_add (n := B64 lm) (n_mul (n := B64 lm) x0 x0) (n_mul (n := B64 lm) y0 y0)) (n_mul (n := B64 lm) z0 z0))))).
  { unfold s, dc62s. cbv zeta. cbn [pos velo v0 v1 v2]. rewrite (NZ _ _ FQ q0). rewrite (NZ _ _ FP p0). rewrite (NZ (n_sqrt (n := B64 lm) _) _ FR rn0). reflexivity. }
  rewrite ES. cbn [lon lat dist dlon dlat ddist].
  pose proof (libm_k lm k L) as K0.
  assert (LB : exists b2, value64 (m_atan2 _ _ lm z0 (Bsqrt mode_NE (n_add (n := B64 lm) (n_mul (n := B64 lm) x0 x0) (n_mul (n := B64 lm) y0 y0)))) b2 /\ norm (vsub (direction t b2) (direction t b)) <= 2 * k).
  { destruct (Req_dec z 0) as [Z1|Z1].
    - destruct L as (_ & _ & LA). destruct (LA z0 _ z h Z FH (or_intror hn0)) as (b2 & FB2 & EB2). exists b2. split; [exact FB2|].
      assert (h2 : 0 < h) by (apply Rabs_le_inv in EH; lra). destruct EB2 as [EB2|EB2]; [|lra].
      assert (R0 : Ratan2 z h = 0) by (rewrite Z1; apply (atan2_unique 0 h h 0); [exact h2|rewrite cos_0; ring|rewrite sin_0; ring|pose proof PI_RGT_0; lra]).
      assert (b0 : b = 0).
      { destruct FB as (_ & <-). unfold dcc2s. cbn [s_b v0 v1 v2]. cbv zeta. assert (QE : n_eqb (n := B64 lm) z0 (n_ofZ (n := B64 lm) 0) = true) by (transitivity (Req_bool z 0); [exact (fin_eqb _ _ _ _ Z O)|now apply Req_bool_true]). rewrite QE. exact (proj2 O). }
      rewrite b0. rewrite R0 in EB2. eapply Rle_trans; [apply norm_dir_lat|exact EB2].
    - exists b. split; [|assert (DZ : vsub (direction t b) (direction t b) = vzero) by (unfold vsub, vzero; cbn [v0 v1 v2]; f_equal; ring); rewrite DZ; unfold norm, dot, vzero; cbn [v0 v1 v2]; rewrite Rmult_0_l, !Rplus_0_l, sqrt_0; lra].
      revert FB. unfold dcc2s. cbn [s_b v0 v1 v2]. cbv zeta. rewrite (NZ _ _ Z Z1). exact (fun H => H). }
  destruct LB as (b2 & FB2 & EB2).
  exists t, b2, r, t', b', r'. split; [exact FT|]. split; [exact FB2|]. split; [exact FR|]. split; [exact FT'|]. split; [exact FB'|]. split; [exact FR'|].
  split; [eapply Rle_trans; [apply (vsub_via _ (direction t b))|]; lra|].
  split; [eapply Rle_trans; [exact ER|]; apply Rmult_le_compat_r; [lra|apply Rmult_le_compat_r; lra]|].
  assert (IQ : forall m d, 0 <= m -> 0 < d -> 0 <= u64 * (m / d)) by (intros m d M D; apply Rmult_le_pos; [lra|apply Rmult_le_pos; [exact M|apply Rlt_le, Rinv_0_lt_compat, D]]).
  split; [eapply Rle_trans; [exact ET'|]; pose proof (IQ (Rabs (x * yd) + Rabs (y * xd)) P ltac:(lra) ltac:(lra)) as I; set (m := _ / P) in *; replace (((1.01 * 2.02 + 1.01) * u64 + 1.001 * (2.021 * u64)) * m) with ((1.01 * 2.02 + 1.01 + 1.001 * 2.021) * (u64 * m)) by ring; clearbody m; clear - I; lra|].
  split; [eapply Rle_trans; [exact EB'|]; pose proof (IQ (Rabs zd * P + Rabs z * (Rabs (x * xd) + Rabs (y * yd))) (Q * sqrt P) ltac:(lra) ltac:(lra)) as I; set (m := _ / (Q * sqrt P)) in *; replace (((1.01 * 4.04 + 1.01) * u64 + 1.001 * (6.08 * u64)) * m) with ((1.01 * 4.04 + 1.01 + 1.001 * 6.08) * (u64 * m)) by ring; clearbody m; clear - I; lra|].
  eapply Rle_trans; [exact ER''|]. pose proof (IQ (Rabs (x * xd) + Rabs (y * yd) + Rabs (z * zd)) (sqrt Q) ltac:(lra) ltac:(lra)) as I; set (m := _ / sqrt Q) in *; replace (((1.01 * 3.03 + 1.01) * u64 + 1.001 * (2.53 * u64)) * m) with ((1.01 * 3.03 + 1.01 + 1.001 * 2.53) * (u64 * m)) by ring; clearbody m; clear - I; lra.
Qed.
