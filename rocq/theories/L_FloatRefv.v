(** Refraction of a vector in binary64. *)
From Coq Require Import ZArith Reals Bool List Lia Lra Psatz.
From Flocq Require Import Core BinarySingleNaN.
From Verif Require Import Int32 Num NumB NumR M_Angle M_Vec M_Refr S_Geom S_Refr S_Binary S_Float S_FloatSph L_Bin L_Flt L_Float.
From Verif Require Import L_Real L_Vec L_FloatVec L_FltGeo L_FloatMat L_FloatSph L_Err L_ErrT L_FloatLand L_FloatFrame L_FloatHor L_FloatEt.
Import ListNotations.
Open Scope R_scope.

Definition rv_of {N : Num} (x y z1 z r2 r A B : N) : vec N :=
  let zz := n_mul z z in
  let wb := n_div (n_mul B r2) zz in
  let wt := n_div (n_add A wb) (n_add (n_ofZ 1) (n_div (n_mul (n_add A (n_mul (n_ofZ 3) wb)) (n_add zz r2)) zz)) in
  let d := n_div (n_mul wt r) z in
  let cd := n_sub (n_ofZ 1) (n_div (n_mul d d) (n_ofZ 2)) in
  let f := n_mul cd (n_sub (n_ofZ 1) wt) in
  V3 (n_mul x f) (n_mul y f) (n_add (n_mul cd (n_add z (n_mul d r))) (n_sub z1 z)).
Lemma refv_of {N : Num} (v : vec N) A B : let r2 := n_add (n_mul (v0 v) (v0 v)) (n_mul (v1 v) (v1 v)) in
  refv v A B = rv_of (v0 v) (v1 v) (v2 v) (n_max (v2 v) (n_lit 5 (-2))) r2 (n_sqrt r2) A B.
Proof. reflexivity. Qed.

(** The scale of the initial errors. *)
Definition e17 : Z := Sc / 100000000000000000.
Lemma V_e17 : 99e-19 <= V e17 <= 1e-17.
Proof. unfold e17. split; [apply (V_ge _ 99 10000000000000000000); [lia|vm_compute; reflexivity]|apply (V_le _ 1 100000000000000000); [lia|vm_compute; reflexivity]]. Qed.
Definition rv_env (lz hz : Z) : list item :=
  [cs_it; cs_it; cs_it; It (lz * Sc / 1000) (hz * Sc / 1000) e17; It 0 (Sc + Sc / 100) (60 * e17); It 0 (Sc + Sc / 100) (40 * e17); It 0 (Sc / 2000 + 1) 0; It (- (Sc / 1000000 + 1)) 0 0].
Ltac rv_go lm e xs rs OK := split; [|split]; err0 lm e xs rs OK.
Lemma rv_of64 lm (x1 x2 x3 x4 x5 x6 x7 x8 : double) a1 a2 a3 a4 a5 a6 a7 a8 lz hz :
  (lz, hz) = (49, 100)%Z \/ (lz, hz) = (100, 300)%Z \/ (lz, hz) = (300, 1009)%Z ->
  okenv (rv_env lz hz) [x1; x2; x3; x4; x5; x6; x7; x8] [a1; a2; a3; a4; a5; a6; a7; a8] ->
  let x := rv_of (N := B64 lm) x1 x2 x3 x4 x5 x6 x7 x8 in let a := rv_of (N := RNum) a1 a2 a3 a4 a5 a6 a7 a8 in
  near 53 1024 (v0 x) (v0 a) 8e-16 /\ near 53 1024 (v1 x) (v1 a) 8e-16 /\ near 53 1024 (v2 x) (v2 a) 20e-16.
Proof.
  intros C OK x a. unfold x, a, rv_of. cbv zeta. cbn [v0 v1 v2]. destruct C as [C|[C|C]]; injection C as -> ->.
  - let e := eval vm_compute in (rv_env 49 100) in change (okenv e [x1; x2; x3; x4; x5; x6; x7; x8] [a1; a2; a3; a4; a5; a6; a7; a8]) in OK; rv_go lm e [x1; x2; x3; x4; x5; x6; x7; x8] [a1; a2; a3; a4; a5; a6; a7; a8] OK.
  - let e := eval vm_compute in (rv_env 100 300) in change (okenv e [x1; x2; x3; x4; x5; x6; x7; x8] [a1; a2; a3; a4; a5; a6; a7; a8]) in OK; rv_go lm e [x1; x2; x3; x4; x5; x6; x7; x8] [a1; a2; a3; a4; a5; a6; a7; a8] OK.
  - let e := eval vm_compute in (rv_env 300 1009) in change (okenv e [x1; x2; x3; x4; x5; x6; x7; x8] [a1; a2; a3; a4; a5; a6; a7; a8]) in OK; rv_go lm e [x1; x2; x3; x4; x5; x6; x7; x8] [a1; a2; a3; a4; a5; a6; a7; a8] OK.
Qed.

Lemma okk_er (x : double) a l h e f : near 53 1024 x a f -> f <= V e -> V l <= a <= V h -> okk (It l h e) x a.
Proof. intros X F R. split; cbn [lo hi er]; [eapply near_weak; eassumption|exact R]. Qed.
Lemma lit05 lm : near 53 1024 (n_lit (n := B64 lm) 5 (-2)) (n_lit (n := RNum) 5 (-2)) 7e-18.
Proof. err0 lm (@nil item) (@nil double) (@nil R) Logic.I. Qed.
Lemma near_max lm (x y : double) a b e : value64 x a -> near 53 1024 y b e -> near 53 1024 (n_max (N := B64 lm) x y) (Rmax a b) e.
Proof.
  intros X (c & Y & E). unfold n_max. change (n_ltb (n := B64 lm) x y) with (Bltb x y). rewrite (fin_ltb 53 1024 _ _ _ _ X Y). pose proof (Rabs_pos (c - b)). apply Rabs_le_inv in E.
  destruct (Rlt_bool_spec a c) as [L|L]; [exists c|exists a]; (split; [assumption|]); apply Rabs_le; unfold Rmax; destruct (Rle_dec a b); lra.
Qed.
Lemma n_max_R (a b : R) : n_max (N := RNum) a b = Rmax a b.
Proof. unfold n_max. change (n_ltb (n := RNum) a b) with (Rltb a b). destruct (Rltb_spec a b) as [L|L]; unfold Rmax; destruct (Rle_dec a b); lra. Qed.
Lemma sq2_64 lm (x y : double) a b : value64 x a -> value64 y b -> Rabs a <= 1.001 -> Rabs b <= 1.001 ->
  near 53 1024 (n_add (n := B64 lm) (n_mul (n := B64 lm) x x) (n_mul (n := B64 lm) y y)) (n_add (n := RNum) (n_mul (n := RNum) a a) (n_mul (n := RNum) b b)) 5e-16.
Proof.
  intros X Y A B. assert (OK : okenv [cs_it; cs_it] [x; y] [a; b]) by (split; [now apply okk_cs|split; [now apply okk_cs|exact Logic.I]]).
  err0 lm [cs_it; cs_it] [x; y] [a; b] OK.
Qed.
Lemma V_1 : V Sc = 1. Proof. pose proof (V_Sc 1) as O. rewrite Z.mul_1_l in O. exact O. Qed.
Lemma V_cent : V (Sc / 100) >= 0.0099. Proof. apply Rle_ge, (V_ge _ 99 10000); [lia|vm_compute; reflexivity]. Qed.
Lemma refv64 lm x y z a A B : vec64 x a -> value64 y A -> value64 z B -> norm a <= 1.001 -> terrestrial A B ->
  exists b, vec64 (refv (N := B64 lm) x y z) b /\ norm (vsub b (refv (N := RNum) a A B)) <= 24e-16.
Proof.
  intros (X0 & X1 & X2) Y Z NA (TA & TB). pose proof u64_num as UN.
  assert (CO : Rabs (v0 a) <= 1.001 /\ Rabs (v1 a) <= 1.001 /\ Rabs (v2 a) <= 1.001).
  { assert (CO : forall w : RV, Rabs (v0 w) <= norm w /\ Rabs (v1 w) <= norm w /\ Rabs (v2 w) <= norm w).
    { intros w. unfold norm, dot. repeat split; rewrite <- (sqrt_Rsqr_abs (_ w)); apply sqrt_le_1_alt; unfold Rsqr; nra. }
    destruct (CO a) as (? & ? & ?). lra. }
  destruct CO as (C0 & C1 & C2).
  assert (R2 : 0 <= v0 a * v0 a + v1 a * v1 a <= 1.0021).
  { pose proof (norm_sq a) as Q. unfold dot in Q. pose proof (Rle_0_sqr (v2 a)) as P. unfold Rsqr in P. pose proof (Rle_0_sqr (v0 a)) as P0. pose proof (Rle_0_sqr (v1 a)) as P1. unfold Rsqr in P0, P1.
    assert (0 <= norm a) by apply sqrt_pos. nra. }
  set (q := v0 a * v0 a + v1 a * v1 a) in *.
  assert (RR : 0 <= sqrt q <= 1.0021) by (split; [apply sqrt_pos|rewrite <- (sqrt_square 1.0021) by lra; apply sqrt_le_1_alt; lra]).
  assert (B150 : forall w, Rabs w <= 1.001 -> Rabs w <= 1e150) by (intros w H; pose proof big150; lra).
  destruct (hyp64 _ _ _ _ X0 X1 (B150 _ C0) (B150 _ C1)) as (m & FM & M0 & EM). unfold hyp in EM. fold q in EM.
  assert (T150 : 1e-150 <= 1e-19) by (change 1e-150 with (1 / IZR (10 ^ 150)); change 1e-19 with (1 / IZR (10 ^ 19)); apply inv_le; [reflexivity|vm_compute; reflexivity]).
  pose proof (sq2_64 lm _ _ _ _ X0 X1 C0 C1) as NQ. pose proof (near_max lm _ _ _ _ _ X2 (lit05 lm)) as NZ.
  set (zm := Rmax (v2 a) (n_lit (n := RNum) 5 (-2))) in *.
  assert (L05 : n_lit (n := RNum) 5 (-2) = 0.05) by (unfold n_lit; cbn [RNum]; unfold Rdec; cbn; lra).
  assert (ZM : 0.05 <= zm <= 1.001). { unfold zm. rewrite L05. apply Rabs_le_inv in C2. unfold Rmax. destruct (Rle_dec (v2 a) 0.05); lra. }
  pose proof V_e17 as E17. pose proof V_1 as V1. pose proof V_cent as VC.
  assert (V60 : 59e-17 <= V (60 * e17)) by (apply (V_ge _ 59 100000000000000000); [lia|vm_compute; reflexivity]).
  assert (V40 : 39e-17 <= V (40 * e17)) by (apply (V_ge _ 39 100000000000000000); [lia|vm_compute; reflexivity]).
  assert (VA : 0.0005 <= V (Sc / 2000 + 1)) by (replace 0.0005 with (5 / 10000) by lra; apply (V_ge _ 5 10000); [lia|vm_compute; reflexivity]).
  assert (VB : 0.000001 <= V (Sc / 1000000 + 1)) by (replace 0.000001 with (1 / 1000000) by lra; apply (V_ge _ 1 1000000); [lia|vm_compute; reflexivity]).
  assert (EX : exists lz hz, ((lz, hz) = (49, 100)%Z \/ (lz, hz) = (100, 300)%Z \/ (lz, hz) = (300, 1009)%Z) /\ V (lz * Sc / 1000) <= zm <= V (hz * Sc / 1000)).
  { assert (LO : forall n, V (n * Sc / 1000) <= IZR n / 1000) by (intros n; apply (V_le _ n 1000); [lia|]; apply Z.leb_le; rewrite Z.mul_comm; apply Z.mul_div_le; lia).
    assert (H1 : V (100 * Sc / 1000) >= 0.1 - 1e-9) by (apply Rle_ge; replace (0.1 - 1e-9) with (99999999 / 1000000000) by lra; apply (V_ge _ 99999999 1000000000); [lia|vm_compute; reflexivity]).
    assert (H2 : V (300 * Sc / 1000) >= 0.3 - 1e-9) by (apply Rle_ge; replace (0.3 - 1e-9) with (299999999 / 1000000000) by lra; apply (V_ge _ 299999999 1000000000); [lia|vm_compute; reflexivity]).
    assert (H3 : V (1009 * Sc / 1000) >= 1.008) by (apply Rle_ge; replace 1.008 with (1008 / 1000) by lra; apply (V_ge _ 1008 1000); [lia|vm_compute; reflexivity]).
    destruct (Rle_dec zm (V (100 * Sc / 1000))) as [D1|D1]; [exists 49%Z, 100%Z; split; [auto|pose proof (LO 49%Z); lra]|].
    destruct (Rle_dec zm (V (300 * Sc / 1000))) as [D2|D2]; [exists 100%Z, 300%Z; split; [auto|lra]|].
    exists 300%Z, 1009%Z. split; [auto|lra]. }
  destruct EX as (lz & hz & CS & IV).
  pose proof (refv_of (N := B64 lm) x y z) as RB. pose proof (refv_of (N := RNum) a A B) as RA. cbv zeta in RA, RB.
  set (zx := n_max (N := B64 lm) (v2 x) _) in *. set (r2 := n_add (n := B64 lm) _ _) in *.
  change (n_add (n := RNum) (n_mul (n := RNum) (v0 a) (v0 a)) (n_mul (n := RNum) (v1 a) (v1 a))) with q in RA, NQ. rewrite n_max_R in RA. fold zm in RA. change (n_sqrt (n := RNum) q) with (sqrt q) in RA.
  assert (NR : near 53 1024 (n_sqrt (n := B64 lm) r2) (sqrt q) (2.52 * u64)).
  { exists m. split; [exact FM|]. eapply Rle_trans; [exact EM|]. assert (2.51 * u64 * sqrt q <= 2.5153 * u64) by (rewrite UN; lra). rewrite UN in *. lra. }
  assert (OK : okenv (rv_env lz hz) [v0 x; v1 x; v2 x; zx; r2; n_sqrt (n := B64 lm) r2; y; z] [v0 a; v1 a; v2 a; zm; q; sqrt q; A; B]).
  { do 3 (split; [apply okk_cs; assumption|]). split; [apply (okk_er _ _ _ _ _ _ NZ); [lra|exact IV]|].
    split; [apply (okk_er _ _ _ _ _ _ NQ); [lra|rewrite V_0, V_add; lra]|]. split; [apply (okk_er _ _ _ _ _ _ NR); [rewrite UN; lra|rewrite V_0, V_add; lra]|].
    split; [split; cbn [lo hi er]; rewrite V_0; [now apply near_fin|lra]|]. split; [split; cbn [lo hi er]; rewrite V_0; [now apply near_fin|rewrite V_opp; lra]|exact Logic.I]. }
  destruct (rv_of64 lm _ _ _ _ _ _ _ _ _ _ _ _ _ _ _ _ lz hz CS OK) as ((b0 & F0 & E0) & (b1 & F1 & E1) & (b2 & F2 & E2)).
  rewrite RA, RB. exists (V3 b0 b1 b2). split; [split; [exact F0|split; [exact F1|exact F2]]|].
  apply (norm3 _ 8e-16 8e-16 20e-16); unfold vsub; cbn [v0 v1 v2]; try assumption; lra.
Qed.
