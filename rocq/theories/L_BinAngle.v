From Coq Require Import ZArith Reals Bool Lia Lra.
From Flocq Require Import Core BinarySingleNaN Sterbenz.
From Verif Require Import Int32 Num NumB M_Angle L_Bin.
Open Scope R_scope.

(** The interface operations at [BNum]. *)
Ltac unB :=
  cbv beta iota delta [B64 B32 BNum car n_lit n_pi n_2pi n_ofZ n_opp n_abs n_sqrt n_trunc n_round n_add n_sub n_mul n_div
    n_fmod n_ltb n_leb n_eqb n_toZ f_sign f_nint f_aint f_anint n_min n_max].

Lemma trunc_between a b : 0 < b ->
  let r := a - IZR (Ztrunc (a / b)) * b in Rabs r < b /\ (0 <= a -> 0 <= r) /\ (a <= 0 -> r <= 0).
Proof.
  intros B r. set (q := a / b). assert (A : a = q * b) by (unfold q; field; lra).
  assert (E : r = (q - IZR (Ztrunc q)) * b) by (unfold r; fold q; rewrite A at 1; ring).
  destruct (Rle_or_lt 0 q) as [Q|Q].
  - rewrite Ztrunc_floor in E by exact Q. pose proof (Zfloor_lb q). pose proof (Zfloor_ub q).
    assert (0 <= r < b) by (rewrite E; nra). assert (0 <= a) by nra. rewrite Rabs_pos_eq by lra. repeat split; try lra.
    intros. assert (Z : a = 0) by lra. assert (Q0 : q = 0) by (unfold q; rewrite Z; unfold Rdiv; ring).
    rewrite Q0 in E. rewrite (Zfloor_IZR 0) in E. rewrite E. lra.
  - rewrite Ztrunc_ceil in E by lra. pose proof (Zceil_ub q). pose proof (Zceil_lb q).
    assert (- b < r <= 0) by (rewrite E; nra). assert (a < 0) by nra. rewrite Rabs_left1 by lra. repeat split; lra.
Qed.

Lemma trunc_small a b : Rabs a < b -> a - IZR (Ztrunc (a / b)) * b = a.
Proof.
  intros H. assert (0 < b) by (pose proof (Rabs_pos a); lra). apply Rabs_lt_inv in H.
  assert (Ztrunc (a / b) = 0%Z).
  { assert (A : a / b * b = a) by (field; lra). set (q := a / b) in *.
    destruct (Rle_or_lt 0 q).
    - rewrite Ztrunc_floor by assumption. apply Zfloor_imp. cbn. split; nra.
    - rewrite Ztrunc_ceil by lra. apply Zceil_imp. cbn. split; nra. }
  rewrite H1. ring.
Qed.

Section Range.
Context (prec emax : Z) {Hp : Prec_gt_0 prec} {Hm : Prec_lt_emax prec emax} (lm : libm prec emax) (P : R).
Notation N := (BNum prec emax lm).
Context (P0 : 0 < P) (FP : fin prec emax (n_pi : N) P) (FP2 : fin prec emax (n_2pi : N) (2 * P)).

Lemma drange_bin (x : N) a : fin prec emax x a -> exists k : Z,
  fin prec emax (drange (N := N) x) (a - IZR k * (2 * P)) /\
  Rabs (a - IZR k * (2 * P)) <= P /\ (0 <= a -> a - IZR k * (2 * P) < P) /\ (a <= 0 -> - P < a - IZR k * (2 * P)).
Proof.
  intros X. unfold drange.
  destruct (fin_fmod prec emax x (n_2pi : N) a (2 * P) X FP2 ltac:(lra)) as (F & _).
  set (k0 := Ztrunc (a / (2 * P))) in *. destruct (trunc_between a (2 * P) ltac:(lra)) as (R1 & R2 & R3). fold k0 in R1, R2, R3.
  set (r := a - IZR k0 * (2 * P)) in *.
  change (n_fmod x n_2pi) with (Bfmod prec emax x (n_2pi : N)). set (res := Bfmod prec emax x (n_2pi : N)) in *.
  change (n_leb (n_pi : N) (n_abs (res : N))) with (Bleb (n_pi : N) (Babs res)).
  rewrite (fin_leb prec emax _ _ _ _ FP (fin_abs prec emax _ _ F)).
  destruct (Rle_bool_spec P (Rabs r)) as [G|G].
  - assert (FS : fin prec emax (f_sign (n_2pi : N) x) (if Rle_bool 0 a then 2 * P else - (2 * P))).
    { unfold f_sign. unB. rewrite (fin_leb prec emax _ _ 0 a); [|apply (fin_ofZ prec emax 0); apply (Zpower_gt_0 radix2); pose proof Hp; unfold Prec_gt_0 in *; lia|exact X].
      destruct (Rle_bool 0 a); [|apply fin_opp]; rewrite <- (Rabs_pos_eq (2 * P)) by lra; apply fin_abs; exact FP2. }
    change (n_sub (res : N) (f_sign n_2pi x)) with (Bminus mode_NE res (f_sign (n_2pi : N) x)).
    pose proof (fin_fmt prec emax _ _ F) as FR. pose proof (fin_fmt prec emax _ _ FP2) as FF.
    pose proof (fin_top prec emax _ _ FP2) as T2. rewrite Rabs_pos_eq in T2 by lra.
    destruct (Rle_bool_spec 0 a) as [A|A].
    + specialize (R2 A). rewrite Rabs_pos_eq in R1, G by lra.
      exists (k0 + 1)%Z. rewrite plus_IZR. replace (a - (IZR k0 + 1) * (2 * P)) with (r - 2 * P) by (unfold r; ring).
      split; [|split; [apply Rabs_le; lra|split; lra]].
      apply fin_sub_exact; [exact F|exact FS| |rewrite Rabs_left1 by lra; lra].
      apply sterbenz; auto using Vfexp, Mfexp; lra.
    + assert (A' : a <= 0) by lra. specialize (R3 A'). rewrite Rabs_left1 in R1, G by lra.
      exists (k0 - 1)%Z. rewrite minus_IZR. replace (a - (IZR k0 - 1) * (2 * P)) with (r - - (2 * P)) by (unfold r; ring).
      split; [|split; [apply Rabs_le; lra|split; lra]].
      apply fin_sub_exact; [exact F|exact FS| |rewrite Rabs_pos_eq by lra; lra].
      replace (r - - (2 * P)) with (- (- r - 2 * P)) by ring. apply fmt_opp.
      apply sterbenz; auto using Vfexp, Mfexp; [now apply fmt_opp|lra].
  - exists k0. fold r. split; [exact F|]. split; [lra|]. apply Rabs_lt_inv in G. lra.
Qed.

Lemma drange_bin_id (x : N) a : fin prec emax x a -> Rabs a < P -> drange (N := N) x = x.
Proof.
  intros X A. unfold drange.
  destruct (fin_fmod prec emax x (n_2pi : N) a (2 * P) X FP2 ltac:(lra)) as (F & S).
  rewrite trunc_small in F by lra.
  change (n_fmod x n_2pi) with (Bfmod prec emax x (n_2pi : N)). set (res := Bfmod prec emax x (n_2pi : N)) in *.
  change (n_leb (n_pi : N) (n_abs (res : N))) with (Bleb (n_pi : N) (Babs res)).
  rewrite (fin_leb prec emax _ _ _ _ FP (fin_abs prec emax _ _ F)).
  rewrite Rle_bool_false by exact A. destruct F as (F1 & F2), X as (X1 & X2).
  apply B2R_Bsign_inj; congruence.
Qed.

Lemma drange_bin_nan (x : N) : is_finite x = false -> drange (N := N) x = B754_nan.
Proof.
  intros X. unfold drange. change (n_fmod x n_2pi) with (Bfmod prec emax x (n_2pi : N)).
  assert (E : Bfmod prec emax x (n_2pi : N) = B754_nan).
  { destruct FP2 as (H & _). unfold Bfmod. destruct (n_2pi : N); try discriminate H; destruct x; try discriminate X; reflexivity. }
  rewrite E. change (n_leb (n_pi : N) (n_abs (B754_nan : N))) with (Bleb (n_pi : N) (Babs (B754_nan : N))).
  replace (Bleb (n_pi : N) (Babs (B754_nan : N))) with false; [reflexivity|].
  destruct FP as (H & _). destruct (n_pi : N); try discriminate H; reflexivity.
Qed.

(** dranrm: exact unless the remainder is negative, then one rounding. *)
Lemma dranrm_bin (x : N) a : fin prec emax x a -> 2 * P < 8 -> exists (k : Z) (r : R),
  fin prec emax (dranrm (N := N) x) r /\ 0 <= r <= 2 * P /\
  (0 <= a -> r = a - IZR k * (2 * P) /\ r < 2 * P) /\
  Rabs (r - (a - IZR k * (2 * P))) <= bpow radix2 (2 - prec) /\ 0 <= a - IZR k * (2 * P) < 2 * P.
Proof.
  intros X P8. unfold dranrm.
  destruct (fin_fmod prec emax x (n_2pi : N) a (2 * P) X FP2 ltac:(lra)) as (F & _).
  set (k0 := Ztrunc (a / (2 * P))) in *. destruct (trunc_between a (2 * P) ltac:(lra)) as (R1 & R2 & R3). fold k0 in R1, R2, R3.
  set (r := a - IZR k0 * (2 * P)) in *.
  change (n_fmod x n_2pi) with (Bfmod prec emax x (n_2pi : N)). set (res := Bfmod prec emax x (n_2pi : N)) in *.
  assert (F0 : fin prec emax (n_ofZ 0 : N) 0) by (apply (fin_ofZ prec emax 0); apply (Zpower_gt_0 radix2); pose proof Hp; unfold Prec_gt_0 in *; lia).
  change (n_ltb (res : N) (n_ofZ 0)) with (Bltb res (n_ofZ 0 : N)).
  rewrite (fin_ltb prec emax _ _ _ _ F F0).
  pose proof (bpow_gt_0 radix2 (2 - prec)) as EP.
  destruct (Rlt_bool_spec r 0) as [G|G].
  - rewrite Rabs_left in R1 by exact G.
    pose proof (fin_fmt prec emax _ _ F) as FR. pose proof (fin_fmt prec emax _ _ FP2) as FF.
    assert (B : 0 <= rnd prec emax (r + 2 * P) <= 2 * P).
    { split; [apply rnd_ge_fmt; [auto..|apply fmt_0|lra]|apply rnd_le_fmt; [auto..|exact FF|lra]]. }
    exists (k0 - 1)%Z, (rnd prec emax (r + 2 * P)). rewrite minus_IZR.
    replace (a - (IZR k0 - 1) * (2 * P)) with (r + 2 * P) by (unfold r; ring).
    split; [|split; [exact B|split; [|split; [|lra]]]].
    + apply fin_add; [exact F|exact FP2|]. rewrite Rabs_pos_eq by lra.
      pose proof (fin_top prec emax _ _ FP2) as T2. rewrite Rabs_pos_eq in T2 by lra. lra.
    + intros A. specialize (R2 A). lra.
    + replace (2 - prec)%Z with (3 - prec - 1)%Z by ring. apply rnd_error; auto.
      * rewrite Rabs_pos_eq by lra. change (bpow radix2 3) with 8. lra.
      * unfold SpecFloat.emin. pose proof Hm. unfold Prec_lt_emax in *. pose proof Hp. unfold Prec_gt_0 in *. lia.
  - rewrite Rabs_pos_eq in R1 by exact G. exists k0, r. fold r.
    split; [exact F|]. split; [lra|]. split; [intros; split; lra|]. split; [|lra].
    rewrite Rminus_diag_eq by reflexivity. rewrite Rabs_R0. lra.
Qed.

End Range.

(** ** The two precisions *)
Lemma finite_lit prec emax {Hp : Prec_gt_0 prec} {Hm : Prec_lt_emax prec emax} (x : binary_float prec emax) m e :
  B2SF x = SpecFloat.S754_finite false m e -> fin prec emax x (IZR (Zpos m) * bpow radix2 e).
Proof.
  intros H. destruct x as [s|s| |s m' e' B]; try discriminate H. cbn in H. injection H as -> -> ->. now split.
Qed.

Definition pi64 : R := 7074237752028440 * bpow radix2 (-51).
Definition pi32 : R := 13176795 * bpow radix2 (-22).

Lemma pi64_value : pi64 = 884279719003555 / 281474976710656.
Proof. unfold pi64. change (bpow radix2 (-51)) with (/ IZR (2 ^ 51)). change (IZR (2 ^ 51)) with 2251799813685248. lra. Qed.
Lemma pi32_value : pi32 = 13176795 / 4194304.
Proof. unfold pi32. change (bpow radix2 (-22)) with (/ IZR (2 ^ 22)). change (IZR (2 ^ 22)) with 4194304. lra. Qed.

Lemma pi64_fin lm : fin 53 1024 (n_pi : B64 lm) pi64.
Proof. apply (finite_lit 53 1024 (n_pi : B64 lm) 7074237752028440 (-51)). vm_compute. reflexivity. Qed.
Lemma twopi64_fin lm : fin 53 1024 (n_2pi : B64 lm) (2 * pi64).
Proof.
  replace (2 * pi64) with (IZR 7074237752028440 * bpow radix2 (-50))
    by (unfold pi64; change (-50)%Z with (1 + -51)%Z; rewrite bpow_plus; change (bpow radix2 1) with 2; ring).
  apply (finite_lit 53 1024 (n_2pi : B64 lm) 7074237752028440 (-50)). vm_compute. reflexivity.
Qed.
Lemma pi32_fin lm : fin 24 128 (n_pi : B32 lm) pi32.
Proof. apply (finite_lit 24 128 (n_pi : B32 lm) 13176795 (-22)). vm_compute. reflexivity. Qed.
Lemma twopi32_fin lm : fin 24 128 (n_2pi : B32 lm) (2 * pi32).
Proof.
  replace (2 * pi32) with (IZR 13176795 * bpow radix2 (-21))
    by (unfold pi32; change (-21)%Z with (1 + -22)%Z; rewrite bpow_plus; change (bpow radix2 1) with 2; ring).
  apply (finite_lit 24 128 (n_2pi : B32 lm) 13176795 (-21)). vm_compute. reflexivity.
Qed.
