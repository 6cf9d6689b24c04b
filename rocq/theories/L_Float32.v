(** Single precision: matrix kernels and unit vectors. *)
From Coq Require Import ZArith Reals Bool Lia Lra Psatz.
From Flocq Require Import Core BinarySingleNaN Relative.
From Verif Require Import Int32 Num NumB NumR M_Vec M_Sphere S_Geom S_Sphere S_Binary S_Float S_Float32 L_Real L_Bin L_Flt L_FltVec L_Float L_FloatVec L_FloatMat L_FloatSph.
Open Scope R_scope.

Lemma acc32 lm x y a b : vec32 x a -> vec32 y b -> within 1e18 a -> within 1e18 b ->
  exists r, value32 (acc3 (N := B32 lm) x y) r /\ Rabs (r - dot a b) <= 3.001 * u32 * dot (vabs a) (vabs b) + 1e-44.
Proof.
  intros X Y A B. pose proof (adot_within _ _ _ _ A B) as H. pose proof room32.
  destruct (acc3_near 24 128 lm Hu32 He32 Hh32 x y a b X Y ltac:(lra)) as (r & F & E). exists r. split; [exact F|].
  rewrite u32_eq, adot_vabs in E. pose proof low32. lra.
Qed.

Lemma dmxv32 lm x y A a : mat32 x A -> vec32 y a -> mwithin 1e18 A -> within 1e18 a ->
  exists r, vec32 (dmxv (N := B32 lm) x y) r /\ vbound (3.001 * u32) 1e-44 r (mapply A a) (mapply (mabs A) (vabs a)).
Proof.
  intros (X0 & X1 & X2) Y (W0 & W1 & W2) W.
  destruct (acc32 lm _ _ _ _ X0 Y W0 W) as (p & P & EP). destruct (acc32 lm _ _ _ _ X1 Y W1 W) as (q & Q & EQ).
  destruct (acc32 lm _ _ _ _ X2 Y W2 W) as (r & R & ER).
  exists (V3 p q r). split; [split; [exact P|split; [exact Q|exact R]]|]. split; [exact EP|split; [exact EQ|exact ER]].
Qed.

Lemma col32 lm x A : mat32 x A -> vec32 (col0 (N := B32 lm) x) (col A 0) /\ vec32 (col1 (N := B32 lm) x) (col A 1) /\ vec32 (col2 (N := B32 lm) x) (col A 2).
Proof. intros ((A0 & A1 & A2) & (B0 & B1 & B2) & (C0 & C1 & C2)). repeat split; cbn; first [apply A0|apply A1|apply A2|apply B0|apply B1|apply B2|apply C0|apply C1|apply C2]. Qed.
Lemma mat32_transpose lm x A : mat32 x A -> mat32 (M3 (col0 (N := B32 lm) x) (col1 (N := B32 lm) x) (col2 (N := B32 lm) x)) (transpose A).
Proof. intros H. exact (col32 lm x A H). Qed.

Lemma dimxv32 lm x y A a : mat32 x A -> vec32 y a -> mwithin 1e18 A -> within 1e18 a ->
  exists r, vec32 (dimxv (N := B32 lm) x y) r /\ vbound (3.001 * u32) 1e-44 r (mapply (transpose A) a) (mapply (mabs (transpose A)) (vabs a)).
Proof.
  intros X Y W V. exact (dmxv32 lm _ y _ a (mat32_transpose lm x A X) Y (mwithin_transpose _ _ W) V).
Qed.


Lemma dmxm32 lm x y A B : mat32 x A -> mat32 y B -> mwithin 1e18 A -> mwithin 1e18 B ->
  exists C, mat32 (dmxm (N := B32 lm) x y) C /\ mbound (3.001 * u32) 1e-44 C (mmul A B) (mmul (mabs A) (mabs B)).
Proof.
  intros (X0 & X1 & X2) Y (W0 & W1 & W2) W.
  destruct (col32 lm y B Y) as (Y0 & Y1 & Y2). destruct (within_cols _ _ W) as (V0 & V1 & V2).
  assert (G : forall z a, vec32 z a -> within 1e18 a -> exists r,
    vec32 (V3 (acc3 (N := B32 lm) z (col0 (N := B32 lm) y)) (acc3 (N := B32 lm) z (col1 (N := B32 lm) y)) (acc3 (N := B32 lm) z (col2 (N := B32 lm) y))) r /\
    vbound (3.001 * u32) 1e-44 r (V3 (dot a (col B 0)) (dot a (col B 1)) (dot a (col B 2)))
      (V3 (dot (vabs a) (col (mabs B) 0)) (dot (vabs a) (col (mabs B) 1)) (dot (vabs a) (col (mabs B) 2)))).
  { intros z a Z ZW. destruct (acc32 lm _ _ _ _ Z Y0 ZW V0) as (p & P & EP). destruct (acc32 lm _ _ _ _ Z Y1 ZW V1) as (q & Q & EQ).
    destruct (acc32 lm _ _ _ _ Z Y2 ZW V2) as (r & R & ER).
    exists (V3 p q r). split; [split; [exact P|split; [exact Q|exact R]]|]. split; [exact EP|split; [exact EQ|exact ER]]. }
  destruct (G _ _ X0 W0) as (c0 & C0 & E0). destruct (G _ _ X1 W1) as (c1 & C1 & E1). destruct (G _ _ X2 W2) as (c2 & C2 & E2).
  exists (M3 c0 c1 c2). split; [split; [exact C0|split; [exact C1|exact C2]]|]. split; [exact E0|split; [exact E1|exact E2]].
Qed.
Lemma mul1_32 (x y : single) p q : value32 x p -> value32 y q -> Rabs p <= 1 -> Rabs q <= 1 ->
  exists r, value32 (Bmult mode_NE x y) r /\ Rabs (r - p * q) <= 1.001 * u32.
Proof.
  intros X Y P Q. assert (B : Rabs (p * q) <= 1) by (rewrite Rabs_mult; pose proof (Rabs_pos p); pose proof (Rabs_pos q); nra).
  pose proof Hh32. destruct (near_mul0 24 128 x y p q 1 X Y B ltac:(lra)) as (r & F & E). exists r. split; [exact F|].
  rewrite u32_eq in E. pose proof He32 as H0. rewrite u32_eq in H0. lra.
Qed.
Lemma dcs2c32 lm k x y a b : libm32_ok lm k -> value32 x a -> value32 y b ->
  exists r, vec32 (dcs2c (N := B32 lm) (Sph (N := B32 lm) x y)) r /\ norm (vsub r (direction a b)) <= 3 * k + 1.5 * u32.
Proof.
  intros (LS & LC) X Y.
  destruct (LC x a X) as (ca & FCA & CA1 & ECA). destruct (LS x a X) as (sa & FSA & SA1 & ESA).
  destruct (LC y b Y) as (cb & FCB & CB1 & ECB). destruct (LS y b Y) as (sb & FSB & SB1 & ESB).
  destruct (mul1_32 _ _ _ _ FCA FCB CA1 CB1) as (p & FP & EP). destruct (mul1_32 _ _ _ _ FSA FCB SA1 CB1) as (q & FQ & EQ).
  exists (V3 p q sb). split; [split; [exact FP|split; [exact FQ|exact FSB]]|].
  assert (0 < u32) by (rewrite u32_num; lra).
  eapply Rle_trans; [apply (norm_sides _ (1.001 * u32) k); [lra|..]|lra]; cbn [vsub direction v0 v1 v2].
  - pose proof (prod_err ca cb (cos a) (cos b) k CB1 (cos_abs1 a) ECA ECB) as H0.
    replace (p - cos a * cos b) with ((p - ca * cb) + (ca * cb - cos a * cos b)) by ring.
    eapply Rle_trans; [apply Rabs_triang|lra].
  - pose proof (prod_err sa cb (sin a) (cos b) k CB1 (sin_abs1 a) ESA ECB) as H0.
    replace (q - sin a * cos b) with ((q - sa * cb) + (sa * cb - sin a * cos b)) by ring.
    eapply Rle_trans; [apply Rabs_triang|lra].
  - exact ESB.
Qed.
Definition Bround32 (r : R) : single :=
  binary_normalize 24 128 Hp24 Hm128 mode_NE (ZnearestE (scaled_mantissa radix2 (SpecFloat.fexp 24 128) r)) (cexp radix2 (SpecFloat.fexp 24 128) r) false.

Lemma Bround32_fin r : Rabs (rnd 24 128 r) < top 128 -> value32 (Bround32 r) (rnd 24 128 r).
Proof.
  intros H. unfold Bround32.
  pose proof (binary_normalize_correct 24 128 Hp24 Hm128 mode_NE (ZnearestE (scaled_mantissa radix2 (SpecFloat.fexp 24 128) r)) (cexp radix2 (SpecFloat.fexp 24 128) r) false) as C.
  cbv zeta in C. change (F2R _) with (rnd 24 128 r) in C. cbn [round_mode] in C.
  change (round radix2 (SpecFloat.fexp 24 128) ZnearestE (rnd 24 128 r)) with (rnd 24 128 (rnd 24 128 r)) in C.
  rewrite (rnd_fmt 24 128 _ (fmt_rnd 24 128 r)) in C.
  rewrite Rlt_bool_true in C by exact H. destruct C as (C1 & C2 & _). split; assumption.
Qed.

Definition ideal_libm32 : libm 24 128 :=
  let f (g : R -> R) (x : single) := Bround32 (g (B2R x)) in
  Libm 24 128 (f sin) (f cos) (f tan) (f asin) (f acos) (f atan) (f exp) (f ln)
    (fun y x => Bround32 (Ratan2 (B2R y) (B2R x))) (fun x y => Bround32 (Rpow (B2R x) (B2R y))).
Lemma near1_32 r : Rabs r <= 1 -> exists s, value32 (Bround32 r) s /\ Rabs s <= 1 /\ Rabs (s - r) <= 2 * u32.
Proof.
  intros H. exists (rnd 24 128 r). split; [apply Bround32_fin; apply (rnd_fits 24 128); pose proof Hh32; lra|]. split; [apply rnd_abs_le; [easy..| |exact H]; apply (fmt_Z 24 128 1); reflexivity|].
  pose proof (rnd_err 24 128 r) as E. rewrite u32_eq in E. pose proof eta32. rewrite u32_num in *. lra.
Qed.
Lemma ideal_libm32_ok : libm32_ok ideal_libm32 (2 * u32).
Proof.
  split; intros x a (_ & <-); apply near1_32; apply Rabs_le; [pose proof (SIN_bound (B2R x))|pose proof (COS_bound (B2R x))]; lra.
Qed.
