(** Rounding errors of the basic operations, in either precision. *)
From Coq Require Import ZArith Reals Bool Lia Lra Psatz.
From Flocq Require Import Core BinarySingleNaN Relative.
From Verif Require Import Int32 Num NumB L_Bin.
Open Scope R_scope.

Section Flt.
Context (prec emax : Z) {Hp : Prec_gt_0 prec} {Hm : Prec_lt_emax prec emax}.
Notation bf := (binary_float prec emax).
Notation fexp := (SpecFloat.fexp prec emax).
Notation emin := (SpecFloat.emin prec emax).
Notation fin := (fin prec emax).
Notation rnd := (rnd prec emax).

(** Unit roundoff, half the least positive number, and a size at which nothing
    overflows. *)
Definition u : R := bpow radix2 (- prec).
Definition eta : R := bpow radix2 (emin - 1).
Definition huge : R := bpow radix2 (emax - 1).

Lemma u_pos : 0 < u. Proof. apply bpow_gt_0. Qed.
Lemma eta_pos : 0 < eta. Proof. apply bpow_gt_0. Qed.
Lemma huge_pos : 0 < huge. Proof. apply bpow_gt_0. Qed.

Lemma rnd_err x : Rabs (rnd x - x) <= u * Rabs x + eta.
Proof.
  pose proof Hp as P. unfold Prec_gt_0 in P.
  pose proof (error_N_FLT radix2 emin prec P (fun z => negb (Z.even z)) x) as (eps & et & He & Ht & _ & E).
  assert (E' : rnd x = x * (1 + eps) + et) by exact E. rewrite E'.
  replace (x * (1 + eps) + et - x) with (x * eps + et) by ring.
  assert (U : / 2 * bpow radix2 (- prec + 1) = u).
  { unfold u. rewrite bpow_plus. change (bpow radix2 1) with 2. field. }
  assert (T : / 2 * bpow radix2 emin = eta).
  { unfold eta. replace emin with ((emin - 1) + 1)%Z at 1 by ring. rewrite bpow_plus. change (bpow radix2 1) with 2. field. }
  rewrite U in He. rewrite T in Ht.
  eapply Rle_trans; [apply Rabs_triang|]. rewrite Rabs_mult. pose proof (Rabs_pos x). pose proof (Rabs_pos eps). nra.
Qed.

Lemma rnd_fits x : Rabs x <= huge -> Rabs (rnd x) < top emax.
Proof.
  intros H. apply Rle_lt_trans with huge; [|apply bpow_lt; lia].
  apply rnd_abs_le; [easy..| |exact H]. unfold huge.
  rewrite <- (Rmult_1_l (bpow radix2 (emax - 1))). apply (fmt_F2R prec emax 1 (emax - 1)).
  - apply (Z.pow_gt_1 2 prec); [easy|exact Hp].
  - unfold SpecFloat.emin. pose proof Hp. pose proof Hm. unfold Prec_gt_0, Prec_lt_emax in *. lia.
Qed.

(** [x] is finite and within [e] of [a]. *)
Definition near (x : bf) (a e : R) : Prop := exists r, fin x r /\ Rabs (r - a) <= e.

Lemma near_fin x a : fin x a -> near x a 0.
Proof. intros F. exists a. split; [exact F|]. rewrite Rminus_diag_eq, Rabs_R0; [lra|reflexivity]. Qed.
Lemma near_weak x a e f : near x a e -> e <= f -> near x a f.
Proof. intros (r & F & E) L. exists r. split; [exact F|lra]. Qed.
Lemma near_shift x a b e f : near x a e -> Rabs (a - b) <= f -> near x b (e + f).
Proof. intros (r & F & E) L. exists r. split; [exact F|]. replace (r - b) with ((r - a) + (a - b)) by ring. eapply Rle_trans; [apply Rabs_triang|lra]. Qed.

Lemma near_rnd (r a e M : R) : Rabs (r - a) <= e -> Rabs a <= M -> M + e <= huge -> Rabs (rnd r) < top emax /\ Rabs (rnd r - a) <= e + u * (M + e) + eta.
Proof.
  intros E A H. assert (R : Rabs r <= M + e).
  { replace r with ((r - a) + a) by ring. eapply Rle_trans; [apply Rabs_triang|lra]. }
  split; [apply rnd_fits; lra|].
  replace (rnd r - a) with ((rnd r - r) + (r - a)) by ring. eapply Rle_trans; [apply Rabs_triang|].
  pose proof (rnd_err r). pose proof u_pos. nra.
Qed.

Lemma near_add x y a b e f M : near x a e -> near y b f -> Rabs (a + b) <= M -> M + (e + f) <= huge ->
  near (Bplus mode_NE x y) (a + b) ((e + f) + u * (M + (e + f)) + eta).
Proof.
  intros (r & X & E) (s & Y & F) A H.
  assert (S : Rabs ((r + s) - (a + b)) <= e + f).
  { replace ((r + s) - (a + b)) with ((r - a) + (s - b)) by ring. eapply Rle_trans; [apply Rabs_triang|lra]. }
  destruct (near_rnd (r + s) (a + b) (e + f) M S A H) as (T & B). exists (rnd (r + s)). split; [now apply fin_add|exact B].
Qed.
Lemma near_sub x y a b e f M : near x a e -> near y b f -> Rabs (a - b) <= M -> M + (e + f) <= huge ->
  near (Bminus mode_NE x y) (a - b) ((e + f) + u * (M + (e + f)) + eta).
Proof.
  intros (r & X & E) (s & Y & F) A H.
  assert (S : Rabs ((r - s) - (a - b)) <= e + f).
  { replace ((r - s) - (a - b)) with ((r - a) - (s - b)) by ring. eapply Rle_trans; [apply Rabs_triang|]. rewrite Rabs_Ropp. lra. }
  destruct (near_rnd (r - s) (a - b) (e + f) M S A H) as (T & B). exists (rnd (r - s)). split; [now apply fin_sub|exact B].
Qed.
Lemma near_mul x y a b e f A B : near x a e -> near y b f -> Rabs a <= A -> Rabs b <= B -> A * B + (A * f + B * e + e * f) <= huge ->
  near (Bmult mode_NE x y) (a * b) ((A * f + B * e + e * f) + u * (A * B + (A * f + B * e + e * f)) + eta).
Proof.
  intros (r & X & E) (s & Y & F) HA HB H.
  pose proof (Rabs_pos a). pose proof (Rabs_pos b). pose proof (Rabs_pos (r - a)). pose proof (Rabs_pos (s - b)).
  assert (S : Rabs (r * s - a * b) <= A * f + B * e + e * f).
  { replace (r * s - a * b) with (a * (s - b) + b * (r - a) + (r - a) * (s - b)) by ring.
    eapply Rle_trans; [apply Rabs_triang|]. eapply Rle_trans; [apply Rplus_le_compat_r, Rabs_triang|]. rewrite !Rabs_mult.
    repeat apply Rplus_le_compat; apply Rmult_le_compat; lra. }
  assert (M : Rabs (a * b) <= A * B) by (rewrite Rabs_mult; apply Rmult_le_compat; lra).
  destruct (near_rnd (r * s) (a * b) _ (A * B) S M H) as (T & Q). exists (rnd (r * s)). split; [now apply fin_mul|exact Q].
Qed.
(** Exact factors: the bound is in terms of the product itself. *)
Lemma near_mul0 x y a b M : fin x a -> fin y b -> Rabs (a * b) <= M -> M <= huge -> near (Bmult mode_NE x y) (a * b) (u * M + eta).
Proof.
  intros X Y A H. destruct (near_rnd (a * b) (a * b) 0 M) as (T & Q); [rewrite Rminus_diag_eq, Rabs_R0; [lra|reflexivity]|exact A|lra|].
  exists (rnd (a * b)). split; [now apply fin_mul|lra].
Qed.
Lemma near_div0 x y a b M : fin x a -> fin y b -> b <> 0 -> Rabs (a / b) <= M -> M <= huge -> near (Bdiv mode_NE x y) (a / b) (u * M + eta).
Proof.
  intros X Y NB A H. destruct (near_rnd (a / b) (a / b) 0 M) as (T & Q); [rewrite Rminus_diag_eq, Rabs_R0; [lra|reflexivity]|exact A|lra|].
  exists (rnd (a / b)). split; [now apply fin_div|lra].
Qed.
Lemma near_opp x a e : near x a e -> near (Bopp x) (- a) e.
Proof.
  intros (r & F & E). exists (- r). split; [now apply fin_opp|]. replace (- r - - a) with (- (r - a)) by ring. now rewrite Rabs_Ropp.
Qed.
(** Adding zero is exact. *)
Lemma fin_0_add z x a : fin z 0 -> fin x a -> fin (Bplus mode_NE z x) a.
Proof.
  intros Z X. rewrite <- (Rplus_0_l a). apply fin_add_exact; [exact Z|exact X|rewrite Rplus_0_l; now apply (fin_fmt prec emax x)|].
  rewrite Rplus_0_l. now apply (fin_top prec emax x).
Qed.
Lemma near_0_add z x a e : fin z 0 -> near x a e -> near (Bplus mode_NE z x) a e.
Proof. intros Z (r & X & E). exists r. split; [now apply fin_0_add|exact E]. Qed.

Lemma fin_sqrt x a : fin x a -> 0 <= a -> fin (Bsqrt mode_NE x) (rnd (sqrt a)).
Proof.
  intros [X <-] H. pose proof (Bsqrt_correct prec emax Hp Hm mode_NE x) as (C1 & C2 & _). cbn [round_mode] in C1. split; [|exact C1].
  rewrite C2. destruct x as [s|s| |s m e B]; try discriminate X; try reflexivity.
  destruct s; [|reflexivity]. exfalso. cbn [B2R] in H. 
  assert (F2R (Float radix2 (SpecFloat.cond_Zopp true (Z.pos m)) e) < 0) by (apply F2R_lt_0; reflexivity). lra.
Qed.

End Flt.
