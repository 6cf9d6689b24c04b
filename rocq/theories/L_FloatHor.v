(** Horizon coordinates, zenith distance and bearings in binary64. *)
From Coq Require Import ZArith Reals Bool List Lia Lra Psatz Nsatz.
From Flocq Require Import Core BinarySingleNaN Relative.
From Verif Require Import Int32 Num NumB NumR M_Angle M_Vec M_Sphere S_Geom S_Sphere S_Frame S_Binary S_Float S_FloatSph S_FloatHor L_Bin L_Flt L_FltVec L_Float.
From Verif Require Import L_Real L_Vec L_Rot L_Trig L_Frame L_Sphere L_FloatVec L_FloatMat L_FltGeo L_FloatSph L_Err L_ErrT L_FloatFrame L_FloatLand.
From Verif Require L_BinAngle L_Binary L_Pi.
Import ListNotations.
Open Scope R_scope.

(** Sine and cosine values as analyser inputs. *)
Definition unit_it : item := It (- Sc) Sc 0.
Lemma okk_unit (x : double) a : value64 x a -> Rabs a <= 1 -> okk unit_it x a.
Proof. intros X A. apply Rabs_le_inv in A. change unit_it with (It (-1 * Sc) (1 * Sc) 0). apply okk_in; [exact X|lra]. Qed.
Lemma trig64 lm k x a : libm_ok lm k -> value64 x a -> exists s c, value64 (n_sin (x : B64 lm)) s /\ value64 (n_cos (x : B64 lm)) c /\
  Rabs s <= 1 /\ Rabs c <= 1 /\ Rabs (s - sin a) <= k /\ Rabs (c - cos a) <= k.
Proof. intros (S & C & _) X. destruct (S x a X) as (s & S1 & S2 & S3). destruct (C x a X) as (c & C1 & C2 & C3). exists s, c. auto 10. Qed.
Lemma prod3_err p q r a b c k : Rabs q <= 1 -> Rabs r <= 1 -> Rabs a <= 1 -> Rabs b <= 1 -> Rabs (p - a) <= k -> Rabs (q - b) <= k -> Rabs (r - c) <= k -> Rabs (p * q * r - a * b * c) <= 3 * k.
Proof.
  intros Q R A B P1 Q1 R1. pose proof (prod_err p q a b k Q A P1 Q1) as E.
  replace (p * q * r - a * b * c) with ((p * q - a * b) * r + a * b * (r - c)) by ring.
  eapply Rle_trans; [apply Rabs_triang|]. rewrite !Rabs_mult. pose proof (Rabs_pos (p * q - a * b)). pose proof (Rabs_pos r). pose proof (Rabs_pos a). pose proof (Rabs_pos b). pose proof (Rabs_pos (r - c)).
  assert (Rabs (p * q - a * b) * Rabs r <= 2 * k) by nra. assert (Rabs a * Rabs b <= 1) by nra. assert (Rabs a * Rabs b * Rabs (r - c) <= 1 * k) by (apply Rmult_le_compat; try assumption; nra). lra.
Qed.
(** The vector both conversions form, from the sines and cosines. *)
Definition hvec {N : Num} (sa ca sb cb sp cp : N) : vec N :=
  V3 (n_add (n_mul (n_mul (n_opp ca) cb) sp) (n_mul sb cp)) (n_mul (n_opp sa) cb) (n_add (n_mul (n_mul ca cb) cp) (n_mul sb sp)).
Definition env6 : list item := [unit_it; unit_it; unit_it; unit_it; unit_it; unit_it].
Lemma hvec64 lm (x1 x2 x3 x4 x5 x6 : double) a1 a2 a3 a4 a5 a6 :
  value64 x1 a1 -> value64 x2 a2 -> value64 x3 a3 -> value64 x4 a4 -> value64 x5 a5 -> value64 x6 a6 ->
  Rabs a1 <= 1 -> Rabs a2 <= 1 -> Rabs a3 <= 1 -> Rabs a4 <= 1 -> Rabs a5 <= 1 -> Rabs a6 <= 1 ->
  let x := hvec (N := B64 lm) x1 x2 x3 x4 x5 x6 in let a := hvec (N := RNum) a1 a2 a3 a4 a5 a6 in
  near 53 1024 (v0 x) (v0 a) 56e-17 /\ near 53 1024 (v1 x) (v1 a) 12e-17 /\ near 53 1024 (v2 x) (v2 a) 56e-17.
Proof.
  intros X1 X2 X3 X4 X5 X6 A1 A2 A3 A4 A5 A6 x a.
  assert (OK : okenv env6 [x1; x2; x3; x4; x5; x6] [a1; a2; a3; a4; a5; a6]).
  { unfold env6. do 6 (split; [apply okk_unit; assumption|]). exact Logic.I. }
  unfold x, a, hvec. cbn [v0 v1 v2]. split; [|split]; err0 lm env6 [x1; x2; x3; x4; x5; x6] [a1; a2; a3; a4; a5; a6] OK.
Qed.

(** ** The vector, against the exact one *)
Lemma norm3 (w : RV) p q r e : Rabs (v0 w) <= p -> Rabs (v1 w) <= q -> Rabs (v2 w) <= r -> p * p + q * q + r * r <= e * e -> 0 <= e -> norm w <= e.
Proof.
  intros A B C E E0. unfold norm, dot. rewrite <- (sqrt_square e E0). apply sqrt_le_1_alt.
  assert (SQ : forall w e, Rabs w <= e -> w * w <= e * e) by (intros w' e' H; apply Rabs_le_inv in H; nra).
  pose proof (SQ _ _ A). pose proof (SQ _ _ B). pose proof (SQ _ _ C). lra.
Qed.
Lemma add_err a b c d e f : Rabs (a - c) <= e -> Rabs (b - d) <= f -> Rabs (a + b - (c + d)) <= e + f.
Proof. intros A B. replace (a + b - (c + d)) with ((a - c) + (b - d)) by ring. eapply Rle_trans; [apply Rabs_triang|]. lra. Qed.
Lemma sub_err a b c d e f : Rabs (a - c) <= e -> Rabs (b - d) <= f -> Rabs (a - b - (c - d)) <= e + f.
Proof. intros A B. replace (a - b - (c - d)) with ((a - c) - (b - d)) by ring. eapply Rle_trans; [apply Rabs_triang|]. rewrite Rabs_Ropp. lra. Qed.
Lemma opp_err a b e : Rabs (a - b) <= e -> Rabs (- a - - b) <= e.
Proof. intros H. replace (- a - - b) with (- (a - b)) by ring. now rewrite Rabs_Ropp. Qed.
Lemma hvec_lip k a1 a2 a3 a4 a5 a6 b1 b2 b3 b4 b5 b6 : 0 <= k ->
  Rabs a1 <= 1 -> Rabs a2 <= 1 -> Rabs a3 <= 1 -> Rabs a4 <= 1 -> Rabs a5 <= 1 -> Rabs a6 <= 1 ->
  Rabs b1 <= 1 -> Rabs b2 <= 1 -> Rabs b3 <= 1 -> Rabs b4 <= 1 -> Rabs b5 <= 1 -> Rabs b6 <= 1 ->
  Rabs (a1 - b1) <= k -> Rabs (a2 - b2) <= k -> Rabs (a3 - b3) <= k -> Rabs (a4 - b4) <= k -> Rabs (a5 - b5) <= k -> Rabs (a6 - b6) <= k ->
  let a := hvec (N := RNum) a1 a2 a3 a4 a5 a6 in let b := hvec (N := RNum) b1 b2 b3 b4 b5 b6 in
  Rabs (v0 a - v0 b) <= 5 * k /\ Rabs (v1 a - v1 b) <= 2 * k /\ Rabs (v2 a - v2 b) <= 5 * k.
Proof.
  intros K A1 A2 A3 A4 A5 A6 B1 B2 B3 B4 B5 B6 D1 D2 D3 D4 D5 D6 a b. unfold a, b, hvec. cbn [v0 v1 v2].
  change (Rabs (- a2 * a4 * a5 + a3 * a6 - (- b2 * b4 * b5 + b3 * b6)) <= 5 * k /\ Rabs (- a1 * a4 - - b1 * b4) <= 2 * k /\ Rabs (a2 * a4 * a6 + a3 * a5 - (b2 * b4 * b6 + b3 * b5)) <= 5 * k).
  assert (NO : forall u, Rabs u <= 1 -> Rabs (- u) <= 1) by (intros; now rewrite Rabs_Ropp).
  split; [|split].
  - replace (5 * k) with (3 * k + 2 * k) by ring. apply add_err; [apply prod3_err|apply prod_err]; auto using opp_err.
  - apply prod_err; auto using opp_err.
  - replace (5 * k) with (3 * k + 2 * k) by ring. apply add_err; [apply prod3_err|apply prod_err]; auto using opp_err.
Qed.
Lemma libm_k lm k : libm_ok lm k -> 0 <= k.
Proof.
  intros L. assert (F0 : value64 (n_ofZ (n := B64 lm) 0) 0) by (apply (fin_ofZ 53 1024 0); reflexivity).
  destruct (trig64 lm k _ _ L F0) as (s & c & _ & _ & _ & _ & E & _). pose proof (Rabs_pos (s - sin 0)). lra.
Qed.
Lemma near_value64 (x : double) r e : near 53 1024 x r e -> exists v, value64 x v /\ Rabs (v - r) <= e.
Proof. exact (fun H => H). Qed.
(** The horizon components as the code's expressions. *)
Lemma hvec_parts a b phi : hvec (N := RNum) (sin a) (cos a) (sin b) (cos b) (sin phi) (cos phi) = horizon_parts phi (direction a b).
Proof.
  unfold hvec, horizon_parts, direction, north_point, east_point, zenith, direction, dot. cbn [v0 v1 v2]. rewrite sin_0, cos_0.
  apply vec_eq; cbn [v0 v1 v2]; match goal with |- @eq _ ?a ?b => change (@eq R a b) end; cbn [n_add n_mul n_opp RNum]; ring.
Qed.
Lemma parts_norm phi v : norm (horizon_parts phi v) = norm v.
Proof.
  unfold norm. f_equal. unfold horizon_parts, north_point, east_point, zenith, direction, dot. cbn [v0 v1 v2]. rewrite sin_0, cos_0.
  pose proof (sin2_cos2 phi) as S. unfold Rsqr in S. set (s := sin phi) in *. set (c := cos phi) in *.
  transitivity (v0 v * v0 v * (s * s + c * c) + v1 v * v1 v + v2 v * v2 v * (s * s + c * c)); [ring|rewrite S; ring].
Qed.
Lemma parts_sub phi v w : vsub (horizon_parts phi v) (horizon_parts phi w) = horizon_parts phi (vsub v w).
Proof. unfold horizon_parts, vsub, dot. cbn [v0 v1 v2]. f_equal; ring. Qed.
Lemma parts_parts phi v : horizon_parts phi (horizon_parts phi v) = v.
Proof.
  unfold horizon_parts, north_point, east_point, zenith, direction, dot. cbn [v0 v1 v2]. rewrite sin_0, cos_0.
  pose proof (sin2_cos2 phi) as S. unfold Rsqr in S. set (s := sin phi) in *. set (c := cos phi) in *.
  apply vec_eq; cbn [v0 v1 v2]; match goal with |- @eq _ ?a ?b => change (@eq R a b) end.
  - transitivity (v0 v * (s * s + c * c)); [ring|rewrite S; ring].
  - ring.
  - transitivity (v2 v * (s * s + c * c)); [ring|rewrite S; ring].
Qed.
(** The vector formed in binary64. *)
Lemma hparts64 lm k (x y z : double) a b phi : libm_ok lm k -> value64 x a -> value64 y b -> value64 z phi ->
  by64 (hvec (N := B64 lm) (n_sin (x : B64 lm)) (n_cos (x : B64 lm)) (n_sin (y : B64 lm)) (n_cos (y : B64 lm)) (n_sin (z : B64 lm)) (n_cos (z : B64 lm)))
    (horizon_parts phi (direction a b)) (7.4 * k + 7.4 * u64).
Proof.
  intros L X Y Z. pose proof (libm_k lm k L) as K.
  destruct (trig64 lm k x a L X) as (a1 & a2 & F1 & F2 & A1 & A2 & D1 & D2).
  destruct (trig64 lm k y b L Y) as (a3 & a4 & F3 & F4 & A3 & A4 & D3 & D4).
  destruct (trig64 lm k z phi L Z) as (a5 & a6 & F5 & F6 & A5 & A6 & D5 & D6).
  destruct (hvec64 lm _ _ _ _ _ _ _ _ _ _ _ _ F1 F2 F3 F4 F5 F6 A1 A2 A3 A4 A5 A6) as (N0 & N1 & N2).
  destruct (near_value64 _ _ _ N0) as (r0 & V0 & E0). destruct (near_value64 _ _ _ N1) as (r1 & V1 & E1). destruct (near_value64 _ _ _ N2) as (r2 & V2 & E2).
  exists (V3 r0 r1 r2). split; [split; [exact V0|split; [exact V1|exact V2]]|].
  set (w := hvec (N := RNum) a1 a2 a3 a4 a5 a6) in *.
  eapply Rle_trans; [apply (vsub_via _ w)|]. rewrite <- hvec_parts.
  destruct (hvec_lip k a1 a2 a3 a4 a5 a6 (sin a) (cos a) (sin b) (cos b) (sin phi) (cos phi) K A1 A2 A3 A4 A5 A6
    (sin_abs1 _) (cos_abs1 _) (sin_abs1 _) (cos_abs1 _) (sin_abs1 _) (cos_abs1 _) D1 D2 D3 D4 D5 D6) as (Q0 & Q1 & Q2). fold w in Q0, Q1, Q2.
  rewrite Rplus_comm. apply Rplus_le_compat.
  - apply (norm3 _ (5 * k) (2 * k) (5 * k)); unfold vsub; cbn [v0 v1 v2]; try assumption; nra.
  - pose proof u64_num as U. apply (norm3 _ 56e-17 12e-17 56e-17); unfold vsub; cbn [v0 v1 v2]; try assumption; rewrite U; lra.
Qed.

(** ** Back to angles *)
(** Both routines take the arctangent for the latitude without testing for zero. *)
Definition polar {N : Num} (v : vec N) : sph N :=
  let r := n_sqrt (n_add (n_mul (v0 v) (v0 v)) (n_mul (v1 v) (v1 v))) in
  Sph (if n_eqb r (n_ofZ 0) then n_ofZ 0 else n_atan2 (v1 v) (v0 v)) (n_atan2 (v2 v) r).
Lemma polar64 lm k x a : libm_ok lm k -> vec64 x a -> within 1e150 a -> 1e-130 <= norm a ->
  exists t b, value64 (s_a (polar (N := B64 lm) x)) t /\ value64 (s_b (polar (N := B64 lm) x)) b /\
    Rabs t <= PI + 2 * k /\ Rabs b <= PI / 2 + 2 * k /\ norm (vsub (direction t b) (unit_of a)) <= 6 * k + 2.6 * u64.
Proof.
  intros L X W NA. pose proof (libm_k lm k L) as K. destruct (dcc2s64 lm k x a L X W NA) as (t & b & FT & FB & RT & RB & D).
  assert (F0 : value64 (n_ofZ (n := B64 lm) 0) 0) by (apply (fin_ofZ 53 1024 0); reflexivity).
  assert (SA : s_a (polar (N := B64 lm) x) = s_a (dcc2s (N := B64 lm) x)) by reflexivity. rewrite SA.
  destruct X as (X0 & X1 & X2). assert (QE : n_eqb (v2 x : B64 lm) (n_ofZ 0) = Req_bool (v2 a) 0) by (apply fin_eqb; [exact X2|exact F0]).
  unfold dcc2s in FB. cbn [s_b] in FB. cbv zeta in FB.
  match type of FB with context [if ?c then _ else _] => replace c with (Req_bool (v2 a) 0) in FB by (symmetry; exact QE) end.
  destruct (Req_bool_spec (v2 a) 0) as [E|E].
  2: { exists t, b. repeat (split; [assumption|]). lra. }
  assert (B0 : b = 0) by (destruct FB as (_ & <-); destruct F0 as (_ & V); exact V). subst b.
  destruct L as (_ & _ & LA). destruct W as (W0 & W1 & W2).
  destruct (hyp64 _ _ _ _ X0 X1 W0 W1) as (m & FM & M0 & EM).
  assert (HE : hyp (v0 a) (v1 a) = norm a) by (unfold hyp, norm, dot; rewrite E; f_equal; ring). rewrite HE in EM.
  pose proof (tiny_rel _ NA) as TR. pose proof u64_pos. pose proof p130. pose proof u64_num as UN.
  assert (MP : m <> 0) by (intros ->; apply Rabs_le_inv in EM; rewrite UN in EM, TR; lra).
  destruct (LA (v2 x) _ (v2 a) m X2 FM (or_intror MP)) as (b & FB2 & [EB|(_ & C & _)]); [|lra].
  rewrite E in EB. replace (Ratan2 0 m) with 0 in EB by (symmetry; apply (atan2_unique 0 m m 0); [lra|rewrite cos_0; ring|rewrite sin_0; ring|pose proof PI_RGT_0; lra]).
  rewrite Rminus_0_r in EB. exists t, b. split; [exact FT|]. split; [exact FB2|]. split; [exact RT|]. pose proof PI_RGT_0. split; [lra|].
  eapply Rle_trans; [apply (vsub_via _ (direction t 0))|]. pose proof (norm_dir_lat t b 0) as DL. rewrite Rminus_0_r in DL. lra.
Qed.
Lemma by_polar64 lm k x w e : libm_ok lm k -> by64 x w e -> norm w = 1 -> e <= 1e-3 ->
  lands_pm (lm := lm) k (polar (N := B64 lm) x) w (6 * k + 2.6 * u64 + 1.002 * e).
Proof.
  intros L (r & FR & ER) N E. pose proof (norm_lip r w) as NQ. apply Rabs_le_inv in NQ. pose proof big150 as B150.
  assert (S : 1e-130 <= norm r).
  { apply Rle_trans with (1 / IZR 2); [change 1e-130 with (1 / IZR (10 ^ 130)); apply inv_le; [reflexivity|vm_compute; reflexivity]|lra]. }
  destruct (polar64 lm k x r L FR) as (t & b & FT & FB & T & B & D); [apply L_FloatMat.within_norm; lra|exact S|].
  exists t, b. split; [split; [exact FT|exact FB]|]. split; [exact T|]. split; [exact B|].
  unfold vdist. assert (UW : unit_of w = w) by (unfold unit_of, scale; rewrite N; destruct w as [w0 w1 w2]; cbn [v0 v1 v2]; f_equal; field).
  eapply Rle_trans; [apply (vsub_via _ (unit_of r))|]. apply Rplus_le_compat; [exact D|]. rewrite <- UW at 1. apply unit_near; rewrite ?N; lra.
Qed.
Lemma dh2e_polar lm (x y z : double) : dh2e (N := B64 lm) x y z =
  polar (N := B64 lm) (hvec (N := B64 lm) (n_sin (x : B64 lm)) (n_cos (x : B64 lm)) (n_sin (y : B64 lm)) (n_cos (y : B64 lm)) (n_sin (z : B64 lm)) (n_cos (z : B64 lm))).
Proof. reflexivity. Qed.
Lemma dh2e_lands lm k (x y z : double) a b phi : libm_ok lm k -> k <= 1e-6 -> value64 x a -> value64 y b -> value64 z phi ->
  lands_pm (lm := lm) k (dh2e (N := B64 lm) x y z) (horizon_parts phi (direction a b)) (13.5 * k + 10.1 * u64).
Proof.
  intros L K X Y Z. rewrite dh2e_polar. pose proof u64_num as U. pose proof (libm_k lm k L).
  destruct (by_polar64 lm k _ _ _ L (hparts64 lm k x y z a b phi L X Y Z)) as (p & q & A & P & Q & E).
  - rewrite parts_norm. apply norm_direction.
  - lra.
  - exists p, q. split; [exact A|]. split; [exact P|]. split; [exact Q|]. lra.
Qed.
Definition up {N : Num} (a : N) : N := if n_ltb a (n_ofZ 0) then n_add a n_2pi else a.
Lemma de2h_polar lm (x y z : double) : let p := polar (N := B64 lm) (hvec (N := B64 lm) (n_sin (x : B64 lm)) (n_cos (x : B64 lm)) (n_sin (y : B64 lm)) (n_cos (y : B64 lm)) (n_sin (z : B64 lm)) (n_cos (z : B64 lm))) in
  s_b (de2h (N := B64 lm) (Sph (N := B64 lm) x y) z) = s_b p /\ s_a (de2h (N := B64 lm) (Sph (N := B64 lm) x y) z) = up (N := B64 lm) (s_a p).
Proof.
  intros p. split; [reflexivity|]. unfold p, polar, de2h, up, hvec. cbn [s_a s_b v0 v1 v2]. cbv zeta.
  match goal with |- (if ?c then _ else _) = _ => destruct c end; [|reflexivity]. reflexivity.
Qed.
Lemma up64 lm (x : double) t : value64 x t -> Rabs t <= 3.2 ->
  exists c, value64 (up (N := B64 lm) x) c /\ 0 <= c <= 2 * pi_double /\ forall b, norm (vsub (direction c b) (direction t b)) <= 6.3 * u64.
Proof.
  intros X T. apply Rabs_le_inv in T. assert (PD : 3.141 <= pi_double <= 3.142) by (unfold pi_double; lra).
  assert (F0 : value64 (n_ofZ (n := B64 lm) 0) 0) by (apply (fin_ofZ 53 1024 0); reflexivity).
  assert (QE : n_ltb (x : B64 lm) (n_ofZ 0) = Rlt_bool t 0) by (apply (fin_ltb 53 1024); [exact X|exact F0]).
  unfold up. match goal with |- context [if ?c then _ else _] => replace c with (Rlt_bool t 0) by (symmetry; exact QE) end.
  destruct (Rlt_bool_spec t 0) as [G|G].
  - pose proof (L_Binary.FP64_2 lm) as FP. pose proof (fin_fmt 53 1024 _ _ FP) as FF.
    assert (B : 0 <= rnd 53 1024 (t + 2 * pi_double) <= 2 * pi_double).
    { split; [apply rnd_ge_fmt; [easy..|apply fmt_0|lra]|apply rnd_le_fmt; [easy..|exact FF|lra]]. }
    exists (rnd 53 1024 (t + 2 * pi_double)). split; [|split; [exact B|]].
    + apply (fin_add 53 1024); [exact X|exact FP|]. pose proof (fin_top 53 1024 _ _ FP) as T2. rewrite Rabs_pos_eq in T2 by lra. rewrite Rabs_pos_eq by lra. lra.
    + intros b. assert (E : Rabs (rnd 53 1024 (t + 2 * pi_double) - (t + 2 * pi_double)) <= bpow radix2 (3 - 53 - 1)).
      { apply (rnd_error 53 1024); [|unfold SpecFloat.emin; lia]. rewrite Rabs_pos_eq by lra. change (bpow radix2 3) with 8. lra. }
      change (bpow radix2 (3 - 53 - 1)) with (/ 2251799813685248) in E.
      replace (direction t b) with (direction (t + 2 * PI) b) by (unfold direction; now rewrite (cos_plus t), (sin_plus t), cos_2PI, sin_2PI, !Rmult_1_r, !Rmult_0_r, Rminus_0_r, Rplus_0_r).
      eapply Rle_trans; [apply norm_dir_lon|]. rewrite u64_num.
      pose proof L_Pi.PI_bounds as PB. unfold pi_double in *. apply Rabs_le_inv in E. apply Rabs_le. lra.
  - exists t. split; [exact X|]. split; [lra|]. intros b. pose proof u64_pos.
    replace (vsub (direction t b) (direction t b)) with vzero by (unfold vsub, vzero; rewrite !Rminus_eq_0; reflexivity).
    replace (norm vzero) with 0; [lra|]. unfold norm, dot, vzero. cbn [v0 v1 v2]. rewrite Rmult_0_l, !Rplus_0_l, sqrt_0. reflexivity.
Qed.
Lemma de2h_lands lm k s (z : double) a b phi : libm_ok lm k -> k <= 1e-6 -> angles64 s a b -> value64 z phi ->
  lands k (de2h (N := B64 lm) s z) (horizon_parts phi (direction a b)) (13.5 * k + 16.4 * u64).
Proof.
  intros L K S Z. destruct (angles_Sph s a b S) as (x & y & -> & X & Y). destruct (de2h_polar lm x y z) as (EB & EA).
  pose proof u64_num as U. pose proof (libm_k lm k L).
  destruct (by_polar64 lm k _ _ _ L (hparts64 lm k x y z a b phi L X Y Z)) as (p & q & (A1 & A2) & P & Q & E).
  - rewrite parts_norm. apply norm_direction.
  - lra.
  - destruct (up64 lm _ p A1) as (c & C & RC & DC); [pose proof L_Pi.PI_bounds; lra|].
    exists c, q. split; [split; [rewrite EA; exact C|rewrite EB; exact A2]|]. split; [exact RC|]. split; [exact Q|].
    unfold vdist in *. specialize (DC q). pose proof (vsub_via (direction c q) (direction p q) (horizon_parts phi (direction a b))). lra.
Qed.
(** There and back, both ways. *)
Lemma de2h_back lm k s (z : double) a b phi : libm_ok lm k -> k <= 1e-6 -> angles64 s a b -> value64 z phi ->
  let h := de2h (N := B64 lm) s z in lands_pm (lm := lm) k (dh2e (N := B64 lm) (s_a h) (s_b h) z) (direction a b) (27 * k + 26.5 * u64).
Proof.
  intros L K S Z h. destruct (de2h_lands lm k s z a b phi L K S Z) as (p & q & (A1 & A2) & _ & _ & D).
  destruct (dh2e_lands lm k _ _ z p q phi L K A1 A2 Z) as (p' & q' & A' & P & Q & E). exists p', q'. split; [exact A'|]. split; [exact P|]. split; [exact Q|].
  unfold vdist in *. eapply Rle_trans; [apply (vsub_via _ (horizon_parts phi (direction p q)))|].
  rewrite <- (parts_parts phi (direction a b)), parts_sub, parts_norm. lra.
Qed.
Lemma dh2e_back lm k (x y z : double) a b phi : libm_ok lm k -> k <= 1e-6 -> value64 x a -> value64 y b -> value64 z phi ->
  lands k (de2h (N := B64 lm) (dh2e (N := B64 lm) x y z) z) (direction a b) (27 * k + 26.5 * u64).
Proof.
  intros L K X Y Z. destruct (dh2e_lands lm k x y z a b phi L K X Y Z) as (p & q & S & _ & _ & D).
  destruct (de2h_lands lm k _ z p q phi L K S Z) as (p' & q' & A' & P & Q & E). exists p', q'. split; [exact A'|]. split; [exact P|]. split; [exact Q|].
  unfold vdist in *. eapply Rle_trans; [apply (vsub_via _ (horizon_parts phi (direction p q)))|].
  rewrite <- (parts_parts phi (direction a b)), parts_sub, parts_norm. lra.
Qed.

(** ** Zenith distance *)
Definition zvec {N : Num} (sa ca sb cb sp cp : N) : vec N :=
  V3 (n_sub (n_mul (n_mul ca cb) sp) (n_mul sb cp)) (n_mul sa cb) (n_add (n_mul (n_mul ca cb) cp) (n_mul sb sp)).
Lemma zvec64 lm (x1 x2 x3 x4 x5 x6 : double) a1 a2 a3 a4 a5 a6 :
  value64 x1 a1 -> value64 x2 a2 -> value64 x3 a3 -> value64 x4 a4 -> value64 x5 a5 -> value64 x6 a6 ->
  Rabs a1 <= 1 -> Rabs a2 <= 1 -> Rabs a3 <= 1 -> Rabs a4 <= 1 -> Rabs a5 <= 1 -> Rabs a6 <= 1 ->
  let x := zvec (N := B64 lm) x1 x2 x3 x4 x5 x6 in let a := zvec (N := RNum) a1 a2 a3 a4 a5 a6 in
  near 53 1024 (v0 x) (v0 a) 56e-17 /\ near 53 1024 (v1 x) (v1 a) 12e-17 /\ near 53 1024 (v2 x) (v2 a) 56e-17.
Proof.
  intros X1 X2 X3 X4 X5 X6 A1 A2 A3 A4 A5 A6 x a.
  assert (OK : okenv env6 [x1; x2; x3; x4; x5; x6] [a1; a2; a3; a4; a5; a6]).
  { unfold env6. do 6 (split; [apply okk_unit; assumption|]). exact Logic.I. }
  unfold x, a, zvec. cbn [v0 v1 v2]. split; [|split]; err0 lm env6 [x1; x2; x3; x4; x5; x6] [a1; a2; a3; a4; a5; a6] OK.
Qed.
Lemma zvec_lip k a1 a2 a3 a4 a5 a6 b1 b2 b3 b4 b5 b6 : 0 <= k ->
  Rabs a1 <= 1 -> Rabs a2 <= 1 -> Rabs a3 <= 1 -> Rabs a4 <= 1 -> Rabs a5 <= 1 -> Rabs a6 <= 1 ->
  Rabs b1 <= 1 -> Rabs b2 <= 1 -> Rabs b3 <= 1 -> Rabs b4 <= 1 -> Rabs b5 <= 1 -> Rabs b6 <= 1 ->
  Rabs (a1 - b1) <= k -> Rabs (a2 - b2) <= k -> Rabs (a3 - b3) <= k -> Rabs (a4 - b4) <= k -> Rabs (a5 - b5) <= k -> Rabs (a6 - b6) <= k ->
  let a := zvec (N := RNum) a1 a2 a3 a4 a5 a6 in let b := zvec (N := RNum) b1 b2 b3 b4 b5 b6 in
  Rabs (v0 a - v0 b) <= 5 * k /\ Rabs (v1 a - v1 b) <= 2 * k /\ Rabs (v2 a - v2 b) <= 5 * k.
Proof.
  intros K A1 A2 A3 A4 A5 A6 B1 B2 B3 B4 B5 B6 D1 D2 D3 D4 D5 D6 a b. unfold a, b, zvec. cbn [v0 v1 v2].
  change (Rabs (a2 * a4 * a5 - a3 * a6 - (b2 * b4 * b5 - b3 * b6)) <= 5 * k /\ Rabs (a1 * a4 - b1 * b4) <= 2 * k /\ Rabs (a2 * a4 * a6 + a3 * a5 - (b2 * b4 * b6 + b3 * b5)) <= 5 * k).
  split; [|split].
  - replace (5 * k) with (3 * k + 2 * k) by ring. apply sub_err; [apply prod3_err|apply prod_err]; auto.
  - apply prod_err; auto.
  - replace (5 * k) with (3 * k + 2 * k) by ring. apply add_err; [apply prod3_err|apply prod_err]; auto.
Qed.
Lemma zvec_parts a b phi : let w := horizon_parts phi (direction a b) in
  zvec (N := RNum) (sin a) (cos a) (sin b) (cos b) (sin phi) (cos phi) = V3 (- v0 w) (- v1 w) (v2 w).
Proof.
  intros w. unfold w, zvec, horizon_parts, direction, north_point, east_point, zenith, direction, dot. cbn [v0 v1 v2]. rewrite sin_0, cos_0.
  apply vec_eq; cbn [v0 v1 v2]; match goal with |- @eq _ ?a ?b => change (@eq R a b) end; cbn [n_add n_sub n_mul n_opp RNum]; ring.
Qed.
Lemma hyp_sign (x y : double) a b : value64 x a -> value64 y b -> Rabs a <= 1e150 -> Rabs b <= 1e150 ->
  Bsign (Bsqrt mode_NE (Bplus mode_NE (Bmult mode_NE x x) (Bmult mode_NE y y))) = false.
Proof.
  intros X Y A B. pose proof room64 as RM. pose proof (prod_within _ _ _ _ A A). pose proof (prod_within _ _ _ _ B B).
  assert (0 <= 1e150 * 1e150) by nra. pose proof Hh64.
  pose proof (near_mul0 53 1024 x x a a _ X X (Rle_refl _) ltac:(lra)) as P. pose proof (near_mul0 53 1024 y y b b _ Y Y (Rle_refl _) ltac:(lra)) as Q.
  destruct (sum2 53 1024 _ _ _ _ Hu64 He64 Hh64 P Q ltac:(lra)) as (s & FS & ES).
  assert (SG : Bsign (Bplus mode_NE (Bmult mode_NE x x) (Bmult mode_NE y y)) = false).
  { destruct FS as (FF & _). destruct (plus_fin _ _ _ _ FF) as (F0 & G0). apply sign_plus; [exact FF|now apply sign_sq|now apply sign_sq]. }
  destruct (hyp64 x y a b X Y A B) as (m & FM & _). rewrite sign_sqrt; [exact SG|exact (proj1 FM)].
Qed.
Lemma zd64 lm k s (z : double) a b phi : libm_ok lm k -> k <= 1e-6 -> angles64 s a b -> value64 z phi ->
  exists t, value64 (zd (N := B64 lm) s z) t /\ forall w, angle_between (direction a b) (zenith phi) w -> Rabs (t - w) <= 9.6 * k + 9.5 * u64.
Proof.
  intros L KK S Z. destruct (angles_Sph s a b S) as (x & y & -> & X & Y). pose proof (libm_k lm k L) as K.
  destruct (trig64 lm k x a L X) as (a1 & a2 & F1 & F2 & A1 & A2 & D1 & D2).
  destruct (trig64 lm k y b L Y) as (a3 & a4 & F3 & F4 & A3 & A4 & D3 & D4).
  destruct (trig64 lm k z phi L Z) as (a5 & a6 & F5 & F6 & A5 & A6 & D5 & D6).
  destruct (zvec64 lm _ _ _ _ _ _ _ _ _ _ _ _ F1 F2 F3 F4 F5 F6 A1 A2 A3 A4 A5 A6) as (N0 & N1 & N2).
  destruct (near_value64 _ _ _ N0) as (r0 & V0 & E0). destruct (near_value64 _ _ _ N1) as (r1 & V1 & E1). destruct (near_value64 _ _ _ N2) as (r2 & V2 & E2).
  destruct (zvec_lip k a1 a2 a3 a4 a5 a6 (sin a) (cos a) (sin b) (cos b) (sin phi) (cos phi) K A1 A2 A3 A4 A5 A6
    (sin_abs1 _) (cos_abs1 _) (sin_abs1 _) (cos_abs1 _) (sin_abs1 _) (cos_abs1 _) D1 D2 D3 D4 D5 D6) as (Q0 & Q1 & Q2).
  rewrite zvec_parts in Q0, Q1, Q2. cbn [v0 v1 v2] in Q0, Q1, Q2.
  pose proof (parts_norm phi (direction a b)) as PN. rewrite norm_direction in PN. set (w := horizon_parts phi (direction a b)) in *.
  set (g := zvec (N := RNum) a1 a2 a3 a4 a5 a6) in *. pose proof u64_num as U.
  assert (TR : forall p q r d e, Rabs (p - q) <= d -> Rabs (q - r) <= e -> Rabs (p - r) <= d + e).
  { intros p q r d e H1 H2. replace (p - r) with ((p - q) + (q - r)) by ring. eapply Rle_trans; [apply Rabs_triang|]. lra. }
  pose proof (TR _ _ _ _ _ E0 Q0) as T0. pose proof (TR _ _ _ _ _ E1 Q1) as T1. pose proof (TR _ _ _ _ _ E2 Q2) as T2.
  set (h0 := hyp (v0 w) (v1 w)). assert (H0 : hyp (- v0 w) (- v1 w) = h0) by (unfold h0, hyp; f_equal; ring).
  assert (HD : Rabs (hyp r0 r1 - h0) <= 5.4 * k + 5.2 * u64).
  { rewrite <- H0, <- !norm_plane. eapply Rle_trans; [apply norm_lip|]. unfold vsub. cbn [v0 v1 v2].
    apply (norm3 _ (56e-17 + 5 * k) (12e-17 + 2 * k) 0); cbn [v0 v1 v2]; try assumption; [rewrite Rminus_eq_0, Rabs_R0; lra| |rewrite U; lra]. rewrite U. nra. }
  assert (H1 : 0 <= h0 <= 1) by (split; [apply hyp_nonneg|unfold h0; rewrite <- PN; apply hyp_le_norm]).
  assert (B1 : forall r c d, Rabs (r - c) <= d -> d <= 1 -> Rabs c <= 1 -> Rabs r <= 1e150).
  { intros r c d R1 R2 R3. pose proof big150. replace r with ((r - c) + c) by ring. eapply Rle_trans; [apply Rabs_triang|]. lra. }
  assert (WC : Rabs (v0 w) <= 1 /\ Rabs (v1 w) <= 1 /\ Rabs (v2 w) <= 1).
  { rewrite <- PN. assert (Q : forall c s, 0 <= s -> Rabs c <= sqrt (c * c + s)) by (intros c s HS; rewrite <- sqrt_Rsqr_abs; apply sqrt_le_1_alt; unfold Rsqr; lra).
    unfold norm, dot. split; [|split].
    - replace (v0 w * v0 w + v1 w * v1 w + v2 w * v2 w) with (v0 w * v0 w + (v1 w * v1 w + v2 w * v2 w)) by ring. apply Q. nra.
    - replace (v0 w * v0 w + v1 w * v1 w + v2 w * v2 w) with (v1 w * v1 w + (v0 w * v0 w + v2 w * v2 w)) by ring. apply Q. nra.
    - replace (v0 w * v0 w + v1 w * v1 w + v2 w * v2 w) with (v2 w * v2 w + (v1 w * v1 w + v0 w * v0 w)) by ring. apply Q. nra. }
  destruct WC as (W0 & W1 & W2).
  assert (RA0 : Rabs r0 <= 1e150) by (apply (B1 _ _ _ T0); [lra|rewrite Rabs_Ropp; exact W0]).
  assert (RA1 : Rabs r1 <= 1e150) by (apply (B1 _ _ _ T1); [lra|rewrite Rabs_Ropp; exact W1]).
  destruct (hyp64 _ _ r0 r1 V0 V1 RA0 RA1) as (m & FM & M0 & EM).
  assert (EM' : Rabs (m - hyp r0 r1) <= 2.6 * u64).
  { eapply Rle_trans; [apply EM|]. pose proof (tiny_rel 1) as TI. apply Rabs_le_inv in HD. rewrite U in *.
    assert (1e-130 <= 1) by (change 1e-130 with (1 / IZR (10 ^ 130)); apply Rle_trans with (1 / IZR 1); [apply inv_le; [reflexivity|vm_compute; reflexivity]|lra]). specialize (TI H). nra. }
  pose proof (TR _ _ _ _ _ EM' HD) as TM.
  assert (NQ : norm (V3 (v2 w) h0 0) = 1).
  { rewrite norm_plane. apply hyp_eq; [lra|]. unfold h0. pose proof (norm_sq w) as NS. rewrite PN in NS. unfold dot in NS.
    assert (hyp (v0 w) (v1 w) * hyp (v0 w) (v1 w) = v0 w * v0 w + v1 w * v1 w) by (unfold hyp; apply sqrt_sqrt; nra). lra. }
  assert (DQ : norm (vsub (V3 r2 m 0) (V3 (v2 w) h0 0)) <= (7.5 * k + 9.4 * u64) * norm (V3 (v2 w) h0 0)).
  { rewrite NQ, Rmult_1_r. apply (norm3 _ (56e-17 + 5 * k) (2.6 * u64 + (5.4 * k + 5.2 * u64)) 0); unfold vsub; cbn [v0 v1 v2]; try assumption; [rewrite Rminus_eq_0, Rabs_R0; lra| |rewrite U; lra]. rewrite U. nra. }
  assert (PA : Rabs (Ratan2 m r2 - Ratan2 h0 (v2 w)) <= 1.002 * (7.5 * k + 9.4 * u64)).
  { apply (plane_angle (V3 r2 m 0) (V3 (v2 w) h0 0) (7.5 * k + 9.4 * u64)); cbn [v0 v1 v2]; try reflexivity; try assumption; try lra; rewrite ?NQ; try lra; rewrite U; lra. }
  assert (NSC : m <> 0 \/ r2 <> 0).
  { destruct (Req_dec m 0) as [E|E]; [right|left; exact E]. intros E2'. subst m r2. rewrite NQ in DQ. pose proof (norm_lip (V3 0 0 0) (V3 (v2 w) h0 0)) as NL.
    rewrite NQ in NL. replace (norm (V3 0 0 0)) with 0 in NL by (unfold norm, dot; cbn [v0 v1 v2]; rewrite Rmult_0_l, !Rplus_0_l, sqrt_0; reflexivity).
    apply Rabs_le_inv in NL. rewrite U in *. lra. }
  destruct L as (_ & _ & LA). destruct (LA _ _ m r2 FM V2 NSC) as (t & FT & [ET|(_ & C2 & BS & _)]).
  - exists t. split; [exact FT|]. intros v HV.
    rewrite (angle_is_atan2 (direction a b) (zenith phi) v) by first [exact HV|unfold zenith; rewrite norm_direction; lra].
    replace (norm (cross (direction a b) (zenith phi))) with h0.
    + change (dot (direction a b) (zenith phi)) with (v2 w). apply Rabs_le_inv in ET. apply Rabs_le_inv in PA. apply Rabs_le. lra.
    + symmetry. apply Rsqr_inj; [apply norm_nonneg|lra|]. unfold Rsqr. rewrite norm_sq, lagrange, <- !norm_sq. unfold zenith. rewrite !norm_direction.
      fold (zenith phi). change (dot (direction a b) (zenith phi)) with (v2 w). rewrite norm_plane in NQ.
      assert (HH : v2 w * v2 w + h0 * h0 = 1) by (unfold hyp in NQ; rewrite <- (sqrt_sqrt (v2 w * v2 w + h0 * h0)) by nra; rewrite NQ; ring). lra.
  - exfalso. rewrite (hyp_sign _ _ _ _ V0 V1 RA0 RA1) in BS. discriminate.
Qed.

(** ** Bearings *)
Lemma plane_polar s t u : 0 <= s -> norm (vsub (V3 (s * cos t) (s * sin t) 0) (V3 (s * cos u) (s * sin u) 0)) <= s * Rabs (t - u).
Proof.
  intros S. replace (vsub (V3 (s * cos t) (s * sin t) 0) (V3 (s * cos u) (s * sin u) 0)) with (scale s (vsub (direction t 0) (direction u 0))).
  - rewrite norm_scale_abs, Rabs_pos_eq by exact S. apply Rmult_le_compat_l; [exact S|]. apply norm_dir_lon.
  - unfold scale, vsub, direction. cbn [v0 v1 v2]. rewrite cos_0, sin_0. f_equal; ring.
Qed.
Lemma plane_radial s h t : norm (vsub (V3 (s * cos t) (s * sin t) 0) (V3 (h * cos t) (h * sin t) 0)) = Rabs (s - h).
Proof.
  replace (vsub (V3 (s * cos t) (s * sin t) 0) (V3 (h * cos t) (h * sin t) 0)) with (scale (s - h) (direction t 0)).
  - rewrite norm_scale_abs, norm_direction. ring.
  - unfold scale, vsub, direction. cbn [v0 v1 v2]. rewrite cos_0, sin_0. f_equal; ring.
Qed.
Lemma plane_pi s : V3 (s * cos (- PI)) (s * sin (- PI)) 0 = V3 (s * cos PI) (s * sin PI) 0.
Proof. now rewrite cos_neg, sin_neg, sin_PI, Ropp_0. Qed.
(** The angle of a computed pair of components. *)
Lemma bear64 lm k (x y r : double) a b n e d : libm_ok lm k -> value64 x a -> value64 y b ->
  norm (vsub (V3 a b 0) (V3 n e 0)) <= d -> hyp n e <= 1 ->
  ((a <> 0 \/ b <> 0) -> r = n_atan2 (y : B64 lm) (x : B64 lm)) -> (a = 0 -> b = 0 -> exists t, value64 r t /\ Rabs t <= PI + 2 * k) ->
  exists t, value64 r t /\ Rabs t <= PI + 2 * k /\ norm (vsub (V3 (hyp n e * cos t) (hyp n e * sin t) 0) (V3 n e 0)) <= 2 * k + 2 * d.
Proof.
  intros L X Y D S R1 R0. pose proof (libm_k lm k L) as K. pose proof (hyp_nonneg n e) as S0. set (s := hyp n e) in *.
  assert (SN : norm (V3 n e 0) = s) by apply norm_plane.
  destruct (Req_dec a 0) as [EA|EA]; [destruct (Req_dec b 0) as [EB|EB]|].
  { destruct (R0 EA EB) as (t & FT & RT). exists t. split; [exact FT|]. split; [exact RT|]. subst a b.
    assert (SD : s <= d).
    { rewrite <- SN. eapply Rle_trans; [|exact D]. apply Req_le. unfold norm, dot, vsub. cbn [v0 v1 v2]. f_equal. ring. }
    pose proof (plane_radial s 0 t) as PR. rewrite Rminus_0_r, Rabs_pos_eq in PR by exact S0.
    eapply Rle_trans; [apply (vsub_via _ (V3 (0 * cos t) (0 * sin t) 0))|]. rewrite PR.
    assert (norm (vsub (V3 (0 * cos t) (0 * sin t) 0) (V3 n e 0)) <= d); [|lra]. now rewrite !Rmult_0_l. }
  all: set (al := Ratan2 b a); destruct (atan2_cos_sin b a) as (CA & SA); fold al in CA, SA; pose proof (atan2_range b a) as RA; fold al in RA.
  all: assert (NZ : b <> 0 \/ a <> 0) by auto; rewrite (R1 ltac:(auto)); destruct L as (_ & _ & LA); destruct (LA y x b a Y X NZ) as (t & FT & ET).
  all: assert (DT : norm (vsub (V3 (s * cos t) (s * sin t) 0) (V3 (s * cos al) (s * sin al) 0)) <= s * (2 * k) /\ Rabs t <= PI + 2 * k).
  1,3: destruct ET as [ET|(B0 & A0 & _ & ET)].
  1,3: fold al in ET; split; [eapply Rle_trans; [apply plane_polar; exact S0|]; nra|apply Rabs_le_inv in ET; apply Rabs_le; lra].
  1,2: assert (AP : al = PI) by (unfold al; apply (atan2_unique _ _ (- a) PI); [lra|rewrite cos_PI; ring|rewrite B0, sin_PI; ring|pose proof PI_RGT_0; lra]).
  1,2: rewrite AP, <- plane_pi; split; [eapply Rle_trans; [apply plane_polar; exact S0|]; replace (t - - PI) with (t + PI) by ring; nra|apply Rabs_le_inv in ET; apply Rabs_le; lra].
  all: destruct DT as (DT & RT); exists t; split; [exact FT|]; split; [exact RT|].
  all: eapply Rle_trans; [apply (vsub_via _ (V3 (s * cos al) (s * sin al) 0))|]; eapply Rle_trans; [apply Rplus_le_compat_l, (vsub_via _ (V3 a b 0))|].
  all: assert (HL : norm (vsub (V3 (s * cos al) (s * sin al) 0) (V3 a b 0)) <= d);
    [replace (V3 a b 0) with (V3 (hyp a b * cos al) (hyp a b * sin al) 0) by (now rewrite CA, SA); rewrite plane_radial; rewrite <- (norm_plane a b), <- SN, Rabs_minus_sym; eapply Rle_trans; [apply norm_lip|exact D]|nra].
Qed.
Lemma prod_err2 p q a b j k : Rabs q <= 1 -> Rabs a <= 1 -> Rabs (p - a) <= j -> Rabs (q - b) <= k -> Rabs (p * q - a * b) <= j + k.
Proof.
  intros Q A P E. replace (p * q - a * b) with ((p - a) * q + a * (q - b)) by ring. eapply Rle_trans; [apply Rabs_triang|]. rewrite !Rabs_mult.
  pose proof (Rabs_pos (p - a)). pose proof (Rabs_pos q). pose proof (Rabs_pos a). pose proof (Rabs_pos (q - b)). nra.
Qed.
Lemma mul_abs1 a b : Rabs a <= 1 -> Rabs b <= 1 -> Rabs (a * b) <= 1.
Proof. intros A B. rewrite Rabs_mult. pose proof (Rabs_pos a). pose proof (Rabs_pos b). nra. Qed.
(** North and east components in terms of sines and cosines: those of the
    other point's latitude, of this one's, and of the longitude difference. *)
Definition bn {N : Num} (sq cq sp cp cd : N) : N := n_sub (n_mul sq cp) (n_mul (n_mul cq sp) cd).
Definition be {N : Num} (sd c : N) : N := n_mul sd c.
Definition env5 : list item := [unit_it; unit_it; unit_it; unit_it; unit_it].
Lemma bn64 lm (x1 x2 x3 x4 x5 : double) a1 a2 a3 a4 a5 :
  value64 x1 a1 -> value64 x2 a2 -> value64 x3 a3 -> value64 x4 a4 -> value64 x5 a5 ->
  Rabs a1 <= 1 -> Rabs a2 <= 1 -> Rabs a3 <= 1 -> Rabs a4 <= 1 -> Rabs a5 <= 1 ->
  near 53 1024 (bn (N := B64 lm) x1 x2 x3 x4 x5) (bn (N := RNum) a1 a2 a3 a4 a5) 56e-17 /\
  near 53 1024 (be (N := B64 lm) x1 x2) (be (N := RNum) a1 a2) 12e-17.
Proof.
  intros X1 X2 X3 X4 X5 A1 A2 A3 A4 A5.
  assert (OK : okenv env5 [x1; x2; x3; x4; x5] [a1; a2; a3; a4; a5]).
  { unfold env5. do 5 (split; [apply okk_unit; assumption|]). exact Logic.I. }
  unfold bn, be. split; err0 lm env5 [x1; x2; x3; x4; x5] [a1; a2; a3; a4; a5] OK.
Qed.
Lemma bn_lip j k a1 a2 a3 a4 a5 b1 b2 b3 b4 b5 : 0 <= k ->
  Rabs a1 <= 1 -> Rabs a2 <= 1 -> Rabs a3 <= 1 -> Rabs a4 <= 1 -> Rabs a5 <= 1 -> Rabs b1 <= 1 -> Rabs b2 <= 1 -> Rabs b3 <= 1 ->
  Rabs (a1 - b1) <= k -> Rabs (a2 - b2) <= k -> Rabs (a3 - b3) <= k -> Rabs (a4 - b4) <= k -> Rabs (a5 - b5) <= j ->
  Rabs (bn (N := RNum) a1 a2 a3 a4 a5 - bn (N := RNum) b1 b2 b3 b4 b5) <= 4 * k + j.
Proof.
  intros K A1 A2 A3 A4 A5 B1 B2 B3 D1 D2 D3 D4 D5.
  change (Rabs (a1 * a4 - a2 * a3 * a5 - (b1 * b4 - b2 * b3 * b5)) <= 4 * k + j).
  replace (4 * k + j) with (2 * k + (2 * k + j)) by ring. apply sub_err; [apply prod_err; assumption|].
  apply prod_err2; [exact A5|now apply mul_abs1|now apply prod_err|exact D5].
Qed.
Lemma pair_norm a b n e p q d : Rabs (a - n) <= p -> Rabs (b - e) <= q -> p * p + q * q <= d * d -> 0 <= d -> norm (vsub (V3 a b 0) (V3 n e 0)) <= d.
Proof. intros A B D D0. apply (norm3 _ p q 0); unfold vsub; cbn [v0 v1 v2]; try assumption; [rewrite Rminus_eq_0, Rabs_R0; lra|lra]. Qed.
Lemma hyp_unit v a b : norm v = 1 -> hyp (dot v (north a b)) (dot v (east a)) <= 1.
Proof.
  intros V. assert (S : norm (V3 (dot v (north a b)) (dot v (east a)) (dot v (direction a b))) = 1).
  { rewrite <- V. unfold norm. f_equal. unfold north, east, direction, dot. cbn [v0 v1 v2].
    pose proof (sin2_cos2 a) as SA. pose proof (sin2_cos2 b) as SB. unfold Rsqr in *.
    set (x := v0 v). set (y := v1 v). set (z := v2 v).
    assert (CA : cos a * cos a = 1 - sin a * sin a) by lra. assert (CB : cos b * cos b = 1 - sin b * sin b) by lra. nsatz. }
  rewrite <- S. apply (hyp_le_norm (V3 (dot v (north a b)) (dot v (east a)) (dot v (direction a b)))).
Qed.
Lemma near_add x r s d e : near 53 1024 x r d -> Rabs (r - s) <= e -> exists v, value64 x v /\ Rabs (v - s) <= d + e.
Proof. intros (v & F & E) D. exists v. split; [exact F|]. replace (v - s) with ((v - r) + (r - s)) by ring. eapply Rle_trans; [apply Rabs_triang|]. lra. Qed.

Lemma diff8 lm (x y : double) a b : value64 x a -> value64 y b -> Rabs a <= 8 -> Rabs b <= 8 ->
  exists d, value64 (n_sub (x : B64 lm) (y : B64 lm)) d /\ Rabs (d - (a - b)) <= 8 * u64.
Proof.
  intros X Y A B. apply Rabs_le_inv in A. apply Rabs_le_inv in B. pose proof Hh64.
  exists (rnd 53 1024 (a - b)). split.
  - apply (fin_sub 53 1024); [exact X|exact Y|].
    assert (T : Rabs (rnd 53 1024 (a - b)) <= 16) by (apply rnd_abs_le; [easy..|apply (fmt_Z 53 1024 16); reflexivity|apply Rabs_le; lra]).
    apply Rle_lt_trans with (1 := T). change 16 with (bpow radix2 4). apply bpow_lt. reflexivity.
  - pose proof u64_pos. destruct (Rle_or_lt 16 (Rabs (a - b))) as [G|G].
    + assert (E : a - b = IZR 16 \/ a - b = IZR (-16)) by (destruct (Rle_or_lt 0 (a - b)); [rewrite Rabs_pos_eq in G by assumption; left; lra|rewrite Rabs_left in G by assumption; right; lra]).
      assert (FM : fmt 53 1024 (a - b)) by (destruct E as [-> | ->]; apply (fmt_Z 53 1024); reflexivity).
      rewrite (rnd_fmt 53 1024 _ FM), Rminus_eq_0, Rabs_R0. lra.
    + eapply Rle_trans; [apply (rnd_error 53 1024 _ 4); [change (bpow radix2 4) with 16; exact G|unfold SpecFloat.emin; lia]|]. change (bpow radix2 (4 - 53 - 1)) with (/ 1125899906842624). rewrite u64_num. lra.
Qed.
Lemma sin_lip a b : Rabs (sin a - sin b) <= Rabs (a - b).
Proof.
  pose proof (norm_dir_lon a b 0) as N. eapply Rle_trans; [|exact N]. unfold norm, dot, vsub, direction. cbn [v0 v1 v2]. rewrite cos_0.
  rewrite <- sqrt_Rsqr_abs. apply sqrt_le_1_alt. pose proof (Rle_0_sqr (cos a - cos b)). unfold Rsqr in *. lra.
Qed.
Lemma cos_lip a b : Rabs (cos a - cos b) <= Rabs (a - b).
Proof.
  pose proof (norm_dir_lon a b 0) as N. eapply Rle_trans; [|exact N]. unfold norm, dot, vsub, direction. cbn [v0 v1 v2]. rewrite cos_0.
  rewrite <- sqrt_Rsqr_abs. apply sqrt_le_1_alt. pose proof (Rle_0_sqr (sin a - sin b)). unfold Rsqr in *. lra.
Qed.
Lemma guard_or lm (x y : double) a b : value64 x a -> value64 y b ->
  orb (negb (n_eqb (x : B64 lm) (n_ofZ 0))) (negb (n_eqb (y : B64 lm) (n_ofZ 0))) = orb (negb (Req_bool a 0)) (negb (Req_bool b 0)).
Proof.
  intros X Y. assert (F0 : value64 (n_ofZ (n := B64 lm) 0) 0) by (apply (fin_ofZ 53 1024 0); reflexivity).
  assert (E1 : n_eqb (x : B64 lm) (n_ofZ 0) = Req_bool a 0) by (apply fin_eqb; [exact X|exact F0]).
  assert (E2 : n_eqb (y : B64 lm) (n_ofZ 0) = Req_bool b 0) by (apply fin_eqb; [exact Y|exact F0]). now rewrite E1, E2.
Qed.
Lemma dbear64 lm k p q a b c d : libm_ok lm k -> k <= 1e-6 -> angles64 p a b -> angles64 q c d -> Rabs a <= 8 -> Rabs c <= 8 ->
  bears k (dbear (N := B64 lm) p q) a b (direction c d) (12.8 * k + 33 * u64).
Proof.
  intros L KK P Q RA RC. destruct (angles_Sph p a b P) as (x & y & -> & X & Y). destruct (angles_Sph q c d Q) as (x' & y' & -> & X' & Y').
  pose proof (libm_k lm k L) as K. pose proof u64_num as U. destruct (diff8 lm x' x c a X' X RC RA) as (dd & FD & ED).
  destruct (trig64 lm k y b L Y) as (sp & cp & F1 & F2 & A1 & A2 & D1 & D2).
  destruct (trig64 lm k y' d L Y') as (sq & cq & F3 & F4 & A3 & A4 & D3 & D4).
  destruct (trig64 lm k _ dd L FD) as (sd & cd & F5 & F6 & A5 & A6 & D5 & D6).
  assert (D5' : Rabs (sd - sin (c - a)) <= k + 8 * u64).
  { replace (sd - sin (c - a)) with ((sd - sin dd) + (sin dd - sin (c - a))) by ring. eapply Rle_trans; [apply Rabs_triang|]. pose proof (sin_lip dd (c - a)). lra. }
  assert (D6' : Rabs (cd - cos (c - a)) <= k + 8 * u64).
  { replace (cd - cos (c - a)) with ((cd - cos dd) + (cos dd - cos (c - a))) by ring. eapply Rle_trans; [apply Rabs_triang|]. pose proof (cos_lip dd (c - a)). lra. }
  destruct (bn64 lm _ _ _ _ _ _ _ _ _ _ F3 F4 F1 F2 F6 A3 A4 A1 A2 A6) as (N1 & _).
  destruct (bn64 lm _ _ _ _ _ _ _ _ _ _ F5 F4 F1 F2 F6 A5 A4 A1 A2 A6) as (_ & N2).
  pose proof (bn_lip (k + 8 * u64) k sq cq sp cp cd (sin d) (cos d) (sin b) (cos b) (cos (c - a)) K A3 A4 A1 A2 A6 (sin_abs1 _) (cos_abs1 _) (sin_abs1 _) D3 D4 D1 D2 D6') as L1.
  pose proof (prod_err2 sd cq (sin (c - a)) (cos d) _ _ A4 (sin_abs1 _) D5' D4) as L2.
  destruct (near_add _ _ _ _ _ N1 L1) as (e1 & V1 & E1).
  destruct (near_add _ _ _ _ _ N2 L2) as (e2 & V2 & E2).
  set (n := dot (direction c d) (north a b)). set (e := dot (direction c d) (east a)).
  replace (bn (N := RNum) (sin d) (cos d) (sin b) (cos b) (cos (c - a))) with n in E1
    by (unfold n, bn, dot, direction, north; cbn [v0 v1 v2 n_sub n_mul RNum]; rewrite cos_minus; match goal with |- @eq _ ?a ?b => change (@eq R a b) end; ring).
  replace (sin (c - a) * cos d) with e in E2 by (unfold e, dot, direction, east; cbn [v0 v1 v2]; rewrite sin_minus; ring).
  assert (NN : norm (vsub (V3 e1 e2 0) (V3 n e 0)) <= 5.4 * k + 16.1 * u64).
  { apply (pair_norm _ _ _ _ _ _ _ E1 E2); rewrite U; nra. }
  destruct (bear64 lm k _ _ (dbear (N := B64 lm) (Sph (N := B64 lm) x y) (Sph (N := B64 lm) x' y')) e1 e2 n e _ L V1 V2 NN) as (t & FT & RT & DT).
  - apply hyp_unit. apply norm_direction.
  - intros NZ. unfold dbear. cbn [s_a s_b]. cbv zeta.
    match goal with |- (if ?g then _ else _) = _ => replace g with true; [reflexivity|] end. symmetry.
    refine (eq_trans (guard_or lm _ _ _ _ V1 V2) _). apply orb_true_iff. destruct NZ as [NZ|NZ]; [left|right]; apply negb_true_iff; now apply Req_bool_false.
  - intros Z1 Z2. exists 0. split; [|rewrite Rabs_R0; pose proof PI_RGT_0; lra]. unfold dbear. cbn [s_a s_b]. cbv zeta.
    match goal with |- value64 (if ?g then _ else _) _ => replace g with false; [apply (fin_ofZ 53 1024 0); reflexivity|] end. symmetry.
    refine (eq_trans (guard_or lm _ _ _ _ V1 V2) _). subst e1 e2. now rewrite !Req_bool_true.
  - exists t. split; [exact FT|]. split; [exact RT|]. unfold vdist. fold n e. eapply Rle_trans; [exact DT|]. rewrite U. lra.
Qed.
Lemma pa64 lm k s (z : double) a b phi : libm_ok lm k -> k <= 1e-6 -> angles64 s a b -> value64 z phi ->
  bears k (pa (N := B64 lm) s z) (- a) b (zenith phi) (12.8 * k + 11 * u64).
Proof.
  intros L KK P Z. destruct (angles_Sph s a b P) as (x & y & -> & X & Y). pose proof (libm_k lm k L) as K. pose proof u64_num as U.
  destruct (trig64 lm k x a L X) as (sd & cd & F5 & F6 & A5 & A6 & D5 & D6).
  destruct (trig64 lm k y b L Y) as (sp & cp & F1 & F2 & A1 & A2 & D1 & D2).
  destruct (trig64 lm k z phi L Z) as (sq & cq & F3 & F4 & A3 & A4 & D3 & D4).
  destruct (bn64 lm _ _ _ _ _ _ _ _ _ _ F3 F4 F1 F2 F6 A3 A4 A1 A2 A6) as (N1 & _).
  destruct (bn64 lm _ _ _ _ _ _ _ _ _ _ F4 F5 F1 F2 F6 A4 A5 A1 A2 A6) as (_ & N2).
  pose proof (bn_lip k k sq cq sp cp cd (sin phi) (cos phi) (sin b) (cos b) (cos a) K A3 A4 A1 A2 A6 (sin_abs1 _) (cos_abs1 _) (sin_abs1 _) D3 D4 D1 D2 D6) as L1.
  pose proof (prod_err cq sd (cos phi) (sin a) _ A5 (cos_abs1 _) D4 D5) as L2.
  destruct (near_add _ _ _ _ _ N1 L1) as (e1 & V1 & E1).
  destruct (near_add _ _ _ _ _ N2 L2) as (e2 & V2 & E2).
  set (n := dot (zenith phi) (north (- a) b)). set (e := dot (zenith phi) (east (- a))).
  replace (bn (N := RNum) (sin phi) (cos phi) (sin b) (cos b) (cos a)) with n in E1
    by (unfold n, bn, zenith, dot, direction, north; cbn [v0 v1 v2 n_sub n_mul RNum]; rewrite cos_neg, cos_0, sin_0; match goal with |- @eq _ ?a ?b => change (@eq R a b) end; ring).
  replace (cos phi * sin a) with e in E2 by (unfold e, zenith, dot, direction, east; cbn [v0 v1 v2]; rewrite sin_neg, cos_0, sin_0; ring).
  assert (NN : norm (vsub (V3 e1 e2 0) (V3 n e 0)) <= 5.4 * k + 5.4 * u64).
  { apply (pair_norm _ _ _ _ _ _ _ E1 E2); rewrite U; nra. }
  assert (F0 : value64 (n_ofZ (n := B64 lm) 0) 0) by (apply (fin_ofZ 53 1024 0); reflexivity).
  assert (G : pa (N := B64 lm) (Sph (N := B64 lm) x y) z = n_atan2 (n := B64 lm) (be (N := B64 lm) (n_cos (z : B64 lm)) (n_sin (x : B64 lm)))
    (if andb (Req_bool e2 0) (Req_bool e1 0) then n_ofZ 1 else bn (N := B64 lm) (n_sin (z : B64 lm)) (n_cos (z : B64 lm)) (n_sin (y : B64 lm)) (n_cos (y : B64 lm)) (n_cos (x : B64 lm)))).
  { rewrite <- (fin_eqb _ _ _ _ V1 F0), <- (fin_eqb _ _ _ _ V2 F0). reflexivity. }
  destruct (bear64 lm k _ _ (pa (N := B64 lm) (Sph (N := B64 lm) x y) z) e1 e2 n e _ L V1 V2 NN) as (t & FT & RT & DT).
  - apply hyp_unit. apply norm_direction.
  - intros NZ. rewrite G. replace (andb (Req_bool e2 0) (Req_bool e1 0)) with false; [reflexivity|]. symmetry. apply andb_false_iff.
    destruct NZ as [NZ|NZ]; [right|left]; now apply Req_bool_false.
  - intros Z1 Z2. rewrite G. subst e1 e2. rewrite (Req_bool_true 0 0 eq_refl). cbn [andb].
    assert (FO : value64 (n_ofZ (n := B64 lm) 1) 1) by (apply (fin_ofZ 53 1024 1); reflexivity).
    destruct L as (_ & _ & LA). destruct (LA _ _ 0 1 V2 FO (or_intror R1_neq_R0)) as (t & FT & [ET|(_ & C & _)]); [|lra].
    exists t. split; [exact FT|]. pose proof (atan2_range 0 1). apply Rabs_le_inv in ET. apply Rabs_le. lra.
  - exists t. split; [exact FT|]. split; [exact RT|]. unfold vdist. fold n e. eapply Rle_trans; [exact DT|]. rewrite U. lra.
Qed.
Lemma dh2e_seen lm k (x y z : double) a b phi : libm_ok lm k -> k <= 1e-6 -> value64 x a -> value64 y b -> value64 z phi ->
  exists p q, angles64 (dh2e (N := B64 lm) x y z) p q /\ Rabs p <= PI + 2 * k /\ Rabs q <= PI / 2 + 2 * k /\
    vdist (horizon_parts phi (direction p q)) (direction a b) <= 13.5 * k + 10.1 * u64.
Proof.
  intros L K X Y Z. destruct (dh2e_lands lm k x y z a b phi L K X Y Z) as (p & q & A & P & Q & D). exists p, q. split; [exact A|]. split; [exact P|]. split; [exact Q|].
  unfold vdist in *. rewrite <- (parts_parts phi (direction a b)), parts_sub, parts_norm. exact D.
Qed.
Lemma parts_case : horizon_parts 1 (direction 0 1) = V3 0 0 1.
Proof.
  unfold horizon_parts, north_point, east_point, zenith, direction, dot. cbn [v0 v1 v2]. rewrite sin_0, cos_0.
  pose proof (sin2_cos2 1) as S. unfold Rsqr in S. apply vec_eq; cbn [v0 v1 v2]; match goal with |- @eq _ ?a ?b => change (@eq R a b) end; lra.
Qed.
