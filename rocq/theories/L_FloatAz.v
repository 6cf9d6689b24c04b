(** Alt-azimuth positions in binary64: the same doubles by either route. *)
From Coq Require Import ZArith Reals Bool Lia Lra Psatz.
From Flocq Require Import Core BinarySingleNaN.
From Verif Require Import Num NumB M_Vec M_Sphere L_Bin L_Flt S_Binary L_Float L_FloatSph.
Open Scope R_scope.

Section Neg.
Context (prec emax : Z) {Hp : Prec_gt_0 prec} {Hm : Prec_lt_emax prec emax}.
Notation bf := (binary_float prec emax).
Lemma B2SF_inf (z : bf) s : B2SF z = SpecFloat.S754_infinity s -> z = B754_infinity s.
Proof. destruct z; cbn; intros E; try discriminate E. now inversion E. Qed.
Lemma mult_opp_l (x y : bf) : Bmult mode_NE (Bopp x) y = Bopp (Bmult mode_NE x y).
Proof.
  destruct x as [sx|sx| |sx mx ex Hx], y as [sy|sy| |sy my ey Hy]; try reflexivity; try (destruct sx, sy; reflexivity).
  set (x := B754_finite sx mx ex Hx). set (y := B754_finite sy my ey Hy).
  pose proof (Bmult_correct prec emax Hp Hm mode_NE (Bopp x) y) as C1. pose proof (Bmult_correct prec emax Hp Hm mode_NE x y) as C2.
  rewrite B2R_Bopp, Ropp_mult_distr_l_reverse in C1. change (round_mode mode_NE) with ZnearestE in C1, C2. rewrite round_NE_opp, Rabs_Ropp in C1.
  set (z1 := Bmult mode_NE (Bopp x) y) in *. set (z2 := Bmult mode_NE x y) in *.
  assert (SX : Bsign (Bopp x) = negb (Bsign x)) by reflexivity.
  destruct (Rlt_bool _ _) eqn:O in C1; rewrite O in C2.
  - destruct C1 as (R1 & F1 & S1), C2 as (R2 & F2 & S2). 
    change (is_finite (Bopp x)) with true in F1. change (is_finite x) with true in F2. change (is_finite y) with true in F1, F2. cbn [andb] in F1, F2.
    assert (N1 : is_nan z1 = false) by (destruct z1; try reflexivity; discriminate F1). assert (N2 : is_nan z2 = false) by (destruct z2; try reflexivity; discriminate F2).
    apply B2R_Bsign_inj; [exact F1|now rewrite is_finite_Bopp|rewrite B2R_Bopp, R1, R2; reflexivity|].
    rewrite (S1 N1), (Bsign_Bopp _ _ z2 N2), (S2 N2), SX. now destruct (Bsign x), (Bsign y).
  - apply B2SF_inf in C1, C2. rewrite C1, C2, SX. now destruct (Bsign x), (Bsign y).
Qed.
End Neg.

(** A square root is zero only when its operand is. *)
Lemma sqrt_eq0 (x : double) : Beqb (Bsqrt mode_NE x) (BofZ 53 1024 0) = Beqb x (BofZ 53 1024 0).
Proof.
  destruct x as [s|[|]| |[|] m e H]; try reflexivity.
  set (x := B754_finite false m e H : double).
  assert (G : bpow radix2 (-1074) <= B2R x).
  { assert (P : 0 < B2R x) by (apply F2R_gt_0; reflexivity). pose proof (abs_B2R_ge_emin 53 1024 x eq_refl) as A. rewrite Rabs_pos_eq in A by lra. exact A. }
  pose proof (bpow_gt_0 radix2 (-1074)) as B0.
  destruct (fin_sqrt 53 1024 x (B2R x) (conj eq_refl eq_refl) ltac:(lra)) as (F & R).
  rewrite !Beqb_correct by assumption || reflexivity. replace (B2R (BofZ 53 1024 0)) with 0 by reflexivity.
  rewrite (Req_bool_false (B2R x)) by lra. apply Req_bool_false. rewrite R.
  assert (S : bpow radix2 (-537) <= sqrt (B2R x)).
  { rewrite <- (sqrt_square (bpow radix2 (-537))) by apply bpow_ge_0. apply sqrt_le_1_alt. rewrite <- bpow_plus. exact G. }
  assert (Q : bpow radix2 (-537) <= rnd 53 1024 (sqrt (B2R x))).
  { apply round_ge_generic; [typeclasses eauto|typeclasses eauto| |exact S]. apply generic_format_bpow. unfold SpecFloat.fexp, SpecFloat.emin. cbn. lia. }
  pose proof (bpow_gt_0 radix2 (-537)). lra.
Qed.
Lemma altaz_same lm (p : sph (B64 lm)) (phi : double) :
  am_az (altaz (N := B64 lm) p phi) = s_a (de2h (N := B64 lm) p phi) /\ am_el (altaz (N := B64 lm) p phi) = s_b (de2h (N := B64 lm) p phi).
Proof.
  unfold altaz, de2h. cbv zeta. cbn [am_az am_el s_a s_b].
  set (ch := n_cos (s_a p)). set (cd := n_cos (s_b p)).
  assert (E : n_mul (n_opp ch) cd = n_opp (n_mul ch cd)) by exact (mult_opp_l 53 1024 ch cd).
  rewrite E. split; [|reflexivity].
  set (r2 := n_add (n_mul _ _) (n_mul _ _)).
  assert (Q : n_eqb (n_sqrt r2) (n_ofZ 0) = n_eqb r2 (n_ofZ 0)) by exact (sqrt_eq0 r2).
  rewrite Q. destruct (n_eqb r2 (n_ofZ 0)); reflexivity.
Qed.
