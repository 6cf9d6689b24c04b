(** A correctly rounded libm meets the accuracy assumption. *)
From Coq Require Import ZArith Reals Bool Lia Lra Psatz.
From Flocq Require Import Core BinarySingleNaN Relative.
From Verif Require Import Int32 Num NumB NumR S_Geom S_Binary S_Float L_Pi L_Real L_Bin L_Flt L_Float L_FloatVec.
Open Scope R_scope.

Definition Bround (r : R) : double :=
  binary_normalize 53 1024 Hp53 Hm1024 mode_NE (ZnearestE (scaled_mantissa radix2 (SpecFloat.fexp 53 1024) r)) (cexp radix2 (SpecFloat.fexp 53 1024) r) false.

Lemma Bround_fin r : Rabs (rnd 53 1024 r) < top 1024 -> value64 (Bround r) (rnd 53 1024 r).
Proof.
  intros H. unfold Bround.
  pose proof (binary_normalize_correct 53 1024 Hp53 Hm1024 mode_NE (ZnearestE (scaled_mantissa radix2 (SpecFloat.fexp 53 1024) r)) (cexp radix2 (SpecFloat.fexp 53 1024) r) false) as C.
  cbv zeta in C. change (F2R _) with (rnd 53 1024 r) in C. cbn [round_mode] in C.
  change (round radix2 (SpecFloat.fexp 53 1024) ZnearestE (rnd 53 1024 r)) with (rnd 53 1024 (rnd 53 1024 r)) in C.
  rewrite (rnd_fmt 53 1024 _ (fmt_rnd 53 1024 r)) in C.
  rewrite Rlt_bool_true in C by exact H. destruct C as (C1 & C2 & _). split; assumption.
Qed.

Lemma Bround_near r : Rabs r <= 4 -> exists s, value64 (Bround r) s /\ s = rnd 53 1024 r /\ Rabs (s - r) <= u64 * Rabs r + 1e-20 * u64.
Proof.
  intros H. exists (rnd 53 1024 r). split; [apply Bround_fin; apply (rnd_fits 53 1024); pose proof Hh64; lra|]. split; [reflexivity|].
  pose proof (rnd_err 53 1024 r) as E. rewrite u64_eq in E. pose proof eta64. 
  assert (1e-323 <= 1e-20 * u64); [|pose proof (eta_pos 53 1024); lra].
  rewrite e323, u64_num. replace (1e-20 * / 9007199254740992) with (/ IZR (10 ^ 20 * 9007199254740992)).
  - apply Rinv_le_contravar; [apply IZR_lt; reflexivity|]. apply IZR_le, Z.leb_le. vm_compute. reflexivity.
  - rewrite mult_IZR, Rinv_mult. change 1e-20 with (1 / IZR (10 ^ 20)). unfold Rdiv. ring.
Qed.

Definition ideal_libm : libm 53 1024 :=
  let f (g : R -> R) (x : double) := Bround (g (B2R x)) in
  Libm 53 1024 (f sin) (f cos) (f tan) (f asin) (f acos) (f atan) (f exp) (f ln)
    (fun y x => Bround (Ratan2 (B2R y) (B2R x))) (fun x y => Bround (Rpow (B2R x) (B2R y))).

Lemma rnd_le_1 r : Rabs r <= 1 -> Rabs (rnd 53 1024 r) <= 1.
Proof. intros H. apply rnd_abs_le; [easy..| |exact H]. apply (fmt_Z 53 1024 1). reflexivity. Qed.

Lemma ideal_libm_ok : libm_ok ideal_libm (2 * u64).
Proof.
  assert (U0 : 0 < u64) by (rewrite u64_num; lra).
  repeat split.
  - intros x a (_ & <-). assert (B : Rabs (sin (B2R x)) <= 1) by (pose proof (SIN_bound (B2R x)); apply Rabs_le; lra).
    destruct (Bround_near (sin (B2R x)) ltac:(lra)) as (s & F & E & D). exists s. split; [exact F|]. split; [rewrite E; now apply rnd_le_1|nra].
  - intros x a (_ & <-). assert (B : Rabs (cos (B2R x)) <= 1) by (pose proof (COS_bound (B2R x)); apply Rabs_le; lra).
    destruct (Bround_near (cos (B2R x)) ltac:(lra)) as (s & F & E & D). exists s. split; [exact F|]. split; [rewrite E; now apply rnd_le_1|nra].
  - intros y x b a (_ & <-) (_ & <-) _. pose proof PI_bounds as PB. pose proof (atan2_range (B2R y) (B2R x)) as RG.
    assert (B : Rabs (Ratan2 (B2R y) (B2R x)) <= 3.15) by (apply Rabs_le; lra).
    destruct (Bround_near (Ratan2 (B2R y) (B2R x)) ltac:(lra)) as (s & F & E & D). exists s. split; [exact F|]. left. nra.
Qed.
