(** A run of [svd] in binary64 that goes through the cancellation of more than
    one superdiagonal element. *)
From Coq Require Import ZArith Reals Arith List Lia Lra Bool.
From Flocq Require Import Core BinarySingleNaN.
From Verif Require Import Num NumR NumB M_Lin S_Lin M_Svd S_Svd.
Open Scope R_scope.

(** ( 0 1 0 ), ( 0 1 1 ), ( 0 0 1 ). *)
Definition A3 (lm : libm 53 1024) : mx (B64 lm) := fun r c =>
  match r, c with
  | 0%nat, 1%nat | 1%nat, 1%nat | 1%nat, 2%nat | 2%nat, 2%nat => n_ofZ 1
  | _, _ => n_ofZ 0
  end.
Definition sf {lm : libm 53 1024} (x : B64 lm) : SpecFloat.spec_float := B2SF (x : double).
Definition rd {lm : libm 53 1024} (x : B64 lm) : R := B2R (x : double).

Lemma rd_sf lm (x : B64 lm) y : sf x = y -> rd x = SF2R radix2 y.
Proof. intros <-. unfold rd, sf. destruct (x : double); reflexivity. Qed.

Lemma svd_A3_run lm :
  match svd (N := B64 lm) 3 3 (A3 lm) (fun _ => n_ofZ 0) (fun _ _ => n_ofZ 0) (fun _ => n_ofZ 0) with
  | Some (st, q) => Some (st, (sf (q_a q 0%nat 0%nat), sf (q_a q 0%nat 1%nat), sf (q_a q 0%nat 2%nat)),
      (sf (q_w q 0%nat), sf (q_w q 1%nat), sf (q_w q 2%nat)), (sf (q_v q 2%nat 0%nat), sf (q_v q 2%nat 1%nat), sf (q_v q 2%nat 2%nat)))
  | None => None
  end = Some (0%Z,
    (SpecFloat.S754_finite false 5200308914369309 (-53), SpecFloat.S754_finite true 7518485256115557 (-54), SpecFloat.S754_finite false 6320958825457654 (-53)),
    (SpecFloat.S754_zero false, SpecFloat.S754_finite false 8646607123950217 (-52), SpecFloat.S754_finite false 8125768507774722 (-53)),
    (SpecFloat.S754_zero false, SpecFloat.S754_finite true 6901177279941254 (-53), SpecFloat.S754_finite true 5788211344226238 (-53))).
Proof. vm_compute. reflexivity. Qed.

Lemma svd_A3 lm : exists q,
  svd (N := B64 lm) 3 3 (A3 lm) (fun _ => n_ofZ 0) (fun _ _ => n_ofZ 0) (fun _ => n_ofZ 0) = Some (0%Z, q) /\
  rd (A3 lm 0%nat 2%nat) = 0 /\
  1 / 5 <= usv 3 (fun r k => rd (q_a q r k)) (fun k => rd (q_w q k)) (fun r k => rd (q_v q r k)) 0 2.
Proof.
  assert (H := svd_A3_run lm). revert H.
  destruct (svd (N := B64 lm) 3 3 (A3 lm) (fun _ => n_ofZ 0) (fun _ _ => n_ofZ 0) (fun _ => n_ofZ 0)) as [[st q] | ]; [ | discriminate ].
  intros H. injection H as H0 U0 U1 U2 W0 W1 W2 V0 V1 V2.
  exists q. split; [ congruence | ]. split; [ reflexivity | ].
  unfold usv. cbn [sum].
  rewrite (rd_sf lm _ _ U1), (rd_sf lm _ _ U2), (rd_sf lm _ _ W0), (rd_sf lm _ _ W1), (rd_sf lm _ _ W2), (rd_sf lm _ _ V1), (rd_sf lm _ _ V2).
  unfold SF2R, F2R, bpow, cond_Zopp, radix2, radix_val, Fnum, Fexp. cbn [Z.opp].
  change (Z.pow_pos 2 53) with 9007199254740992%Z. change (Z.pow_pos 2 54) with 18014398509481984%Z. change (Z.pow_pos 2 52) with 4503599627370496%Z.
  lra.
Qed.
