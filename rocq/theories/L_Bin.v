From Coq Require Import ZArith Reals Bool Lia Lra.
From Flocq Require Import Core BinarySingleNaN Bracket Sterbenz Relative.
From Verif Require Import Int32 Num NumB.
Open Scope R_scope.

Section Bin.
Context (prec emax : Z) {Hp : Prec_gt_0 prec} {Hm : Prec_lt_emax prec emax}.
Notation bf := (binary_float prec emax).
Notation fexp := (SpecFloat.fexp prec emax).
Notation emin := (SpecFloat.emin prec emax).

Local Instance Vfexp : Valid_exp fexp.
Proof. apply (@FLT_exp_valid emin prec Hp). Qed.
Local Instance Mfexp : Monotone_exp fexp.
Proof. apply (FLT_exp_monotone emin prec). Qed.

Definition rnd (x : R) : R := round radix2 fexp ZnearestE x.
Definition fmt (x : R) : Prop := generic_format radix2 fexp x.
Definition top : R := bpow radix2 emax.

(** [x] is finite and stands for the real [r]. *)
Definition fin (x : bf) (r : R) : Prop := is_finite x = true /\ B2R x = r.

Lemma fin_self x : is_finite x = true -> fin x (B2R x).
Proof. now split. Qed.
Lemma fin_fmt x r : fin x r -> fmt r.
Proof. intros [_ <-]. apply generic_format_B2R. Qed.
Lemma fin_top x r : fin x r -> Rabs r < top.
Proof. intros [_ <-]. apply abs_B2R_lt_emax. Qed.
Lemma rnd_fmt x : fmt x -> rnd x = x.
Proof. intros. apply round_generic; auto with typeclass_instances. Qed.
Lemma fmt_rnd x : fmt (rnd x).
Proof. apply generic_format_round; auto with typeclass_instances. Qed.
Lemma rnd_mono x y : x <= y -> rnd x <= rnd y.
Proof. apply round_le; auto with typeclass_instances. Qed.
Lemma rnd_opp x : rnd (- x) = - rnd x.
Proof. apply round_NE_opp. Qed.
Lemma rnd_0 : rnd 0 = 0.
Proof. apply round_0; auto with typeclass_instances. Qed.
Lemma fmt_opp x : fmt x -> fmt (- x).
Proof. apply generic_format_opp. Qed.
Lemma fmt_0 : fmt 0.
Proof. apply generic_format_0. Qed.

(** m * 2^e with few enough digits. *)
Lemma fmt_F2R m e : (Z.abs m < 2 ^ prec)%Z -> (emin <= e)%Z -> fmt (IZR m * bpow radix2 e).
Proof.
  intros M E. apply (generic_format_FLT radix2 emin prec).
  exists (Float radix2 m e); [reflexivity|exact M|exact E].
Qed.

Lemma emin_neg : (emin <= 0)%Z.
Proof. unfold SpecFloat.emin. pose proof Hp. pose proof Hm. unfold Prec_gt_0, Prec_lt_emax in *. lia. Qed.

Lemma fmt_Z m : (Z.abs m < 2 ^ prec)%Z -> fmt (IZR m).
Proof.
  intros M. rewrite <- (Rmult_1_r (IZR m)). apply (fmt_F2R m 0 M). pose proof emin_neg; lia.
Qed.

Lemma rnd_le_fmt x y : fmt y -> x <= y -> rnd x <= y.
Proof. intros F H. rewrite <- (rnd_fmt y F). now apply rnd_mono. Qed.
Lemma rnd_ge_fmt x y : fmt y -> y <= x -> y <= rnd x.
Proof. intros F H. rewrite <- (rnd_fmt y F). now apply rnd_mono. Qed.
Lemma rnd_abs_le x y : fmt y -> Rabs x <= y -> Rabs (rnd x) <= y.
Proof.
  intros F H. apply Rabs_le_inv in H. apply Rabs_le. split.
  - apply rnd_ge_fmt; [now apply fmt_opp|lra].
  - apply rnd_le_fmt; [assumption|lra].
Qed.

(** Rounding error below a power of two. *)
Lemma rnd_error x e : Rabs x < bpow radix2 e -> (emin <= e - prec)%Z ->
  Rabs (rnd x - x) <= bpow radix2 (e - prec - 1).
Proof.
  intros H E. destruct (Req_dec x 0) as [->|N].
  { rewrite rnd_0, Rminus_0_r, Rabs_R0. apply bpow_ge_0. }
  apply Rle_trans with (/ 2 * ulp radix2 fexp x); [apply error_le_half_ulp; auto with typeclass_instances|].
  rewrite ulp_neq_0 by exact N. unfold cexp.
  assert (M : (mag radix2 x <= e)%Z) by (apply mag_le_bpow; assumption).
  assert (F : (fexp (mag radix2 x) <= e - prec)%Z) by (unfold SpecFloat.fexp; lia).
  apply (bpow_le radix2) in F. replace (e - prec)%Z with ((e - prec - 1) + 1)%Z in F at 1 by ring.
  rewrite bpow_plus in F. change (bpow radix2 1) with 2 in F. lra.
Qed.

(** ** Operations *)
Lemma fin_add x y a b : fin x a -> fin y b -> Rabs (rnd (a + b)) < top -> fin (Bplus mode_NE x y) (rnd (a + b)).
Proof.
  intros [X <-] [Y <-] H. pose proof (Bplus_correct prec emax Hp Hm mode_NE x y X Y) as C. cbn [round_mode] in C.
  rewrite Rlt_bool_true in C by exact H. destruct C as (C1 & C2 & _). now split.
Qed.
Lemma fin_sub x y a b : fin x a -> fin y b -> Rabs (rnd (a - b)) < top -> fin (Bminus mode_NE x y) (rnd (a - b)).
Proof.
  intros [X <-] [Y <-] H. pose proof (Bminus_correct prec emax Hp Hm mode_NE x y X Y) as C. cbn [round_mode] in C.
  rewrite Rlt_bool_true in C by exact H. destruct C as (C1 & C2 & _). now split.
Qed.
Lemma fin_mul x y a b : fin x a -> fin y b -> Rabs (rnd (a * b)) < top -> fin (Bmult mode_NE x y) (rnd (a * b)).
Proof.
  intros [X <-] [Y <-] H. pose proof (Bmult_correct prec emax Hp Hm mode_NE x y) as C. cbn [round_mode] in C.
  rewrite Rlt_bool_true in C by exact H. destruct C as (C1 & C2 & _). split; [|exact C1]. now rewrite C2, X, Y.
Qed.
Lemma fin_div x y a b : fin x a -> fin y b -> b <> 0 -> Rabs (rnd (a / b)) < top -> fin (Bdiv mode_NE x y) (rnd (a / b)).
Proof.
  intros [X <-] [Y <-] N H. pose proof (Bdiv_correct prec emax Hp Hm mode_NE x y N) as C. cbn [round_mode] in C.
  rewrite Rlt_bool_true in C by exact H. destruct C as (C1 & C2 & _). split; [|exact C1]. now rewrite C2, X.
Qed.
Lemma fin_abs x a : fin x a -> fin (Babs x) (Rabs a).
Proof. intros [X <-]. split; [now rewrite is_finite_Babs|apply B2R_Babs]. Qed.
Lemma fin_opp x a : fin x a -> fin (Bopp x) (- a).
Proof. intros [X <-]. split; [now rewrite is_finite_Bopp|apply B2R_Bopp]. Qed.

Lemma top_pos : 0 < top. Proof. apply bpow_gt_0. Qed.

(** Exact cases. *)
Lemma fin_add_exact x y a b : fin x a -> fin y b -> fmt (a + b) -> Rabs (a + b) < top -> fin (Bplus mode_NE x y) (a + b).
Proof. intros X Y F T. rewrite <- (rnd_fmt _ F). apply fin_add; auto. now rewrite rnd_fmt. Qed.
Lemma fin_sub_exact x y a b : fin x a -> fin y b -> fmt (a - b) -> Rabs (a - b) < top -> fin (Bminus mode_NE x y) (a - b).
Proof. intros X Y F T. rewrite <- (rnd_fmt _ F). apply fin_sub; auto. now rewrite rnd_fmt. Qed.
Lemma fin_mul_exact x y a b : fin x a -> fin y b -> fmt (a * b) -> Rabs (a * b) < top -> fin (Bmult mode_NE x y) (a * b).
Proof. intros X Y F T. rewrite <- (rnd_fmt _ F). apply fin_mul; auto. now rewrite rnd_fmt. Qed.
Lemma fin_div_exact x y a b : fin x a -> fin y b -> b <> 0 -> fmt (a / b) -> Rabs (a / b) < top -> fin (Bdiv mode_NE x y) (a / b).
Proof. intros X Y N F T. rewrite <- (rnd_fmt _ F). apply fin_div; auto. now rewrite rnd_fmt. Qed.

(** Comparisons. *)
Lemma fin_ltb x y a b : fin x a -> fin y b -> Bltb x y = Rlt_bool a b.
Proof. intros [X <-] [Y <-]. now apply Bltb_correct. Qed.
Lemma fin_leb x y a b : fin x a -> fin y b -> Bleb x y = Rle_bool a b.
Proof. intros [X <-] [Y <-]. now apply Bleb_correct. Qed.

(** Integers. *)
Lemma pow_top z : (Z.abs z < 2 ^ prec)%Z -> Rabs (IZR z) < top.
Proof.
  intros H. rewrite <- abs_IZR. apply IZR_lt in H. eapply Rlt_trans; [exact H|].
  pose proof Hp. pose proof Hm. unfold Prec_gt_0, Prec_lt_emax in *.
  change (2 ^ prec)%Z with (Zpower radix2 prec). rewrite IZR_Zpower by lia. apply bpow_lt. lia.
Qed.

Lemma fin_ofZ z : (Z.abs z < 2 ^ prec)%Z -> fin (BofZ prec emax z) (IZR z).
Proof.
  intros H. pose proof (binary_normalize_correct prec emax Hp Hm mode_NE z 0 false) as C. cbn [round_mode] in C.
  assert (E : F2R (Float radix2 z 0) = IZR z) by (unfold F2R; cbn; ring).
  rewrite E in C. change (round radix2 fexp ZnearestE (IZR z)) with (rnd (IZR z)) in C.
  rewrite (rnd_fmt _ (fmt_Z z H)) in C. rewrite Rlt_bool_true in C by (now apply pow_top).
  destruct C as (C1 & C2 & _). now split.
Qed.

Lemma round_fix0 f `{Valid_rnd f} r : round radix2 (FIX_exp 0) f r = IZR (f r).
Proof.
  unfold round, scaled_mantissa, F2R, cexp, FIX_exp. cbn. rewrite !Rmult_1_r. reflexivity.
Qed.

Lemma fin_trunc x r : fin x r -> fin (Bnearbyint mode_ZR x) (IZR (Ztrunc r)).
Proof.
  intros [X <-]. pose proof (Bnearbyint_correct prec emax Hm mode_ZR x) as (C1 & C2 & _). split; [now rewrite C2|].
  rewrite C1. now rewrite round_fix0 by auto with typeclass_instances.
Qed.
Lemma fin_anint x r : fin x r -> fin (Bnearbyint mode_NA x) (IZR (ZnearestA r)).
Proof.
  intros [X <-]. pose proof (Bnearbyint_correct prec emax Hm mode_NA x) as (C1 & C2 & _). split; [now rewrite C2|].
  rewrite C1. now rewrite round_fix0 by auto with typeclass_instances.
Qed.
Lemma fin_toZ x r : fin x r -> BtoZ prec emax x = chk (Ztrunc r).
Proof.
  intros [X <-]. unfold BtoZ. rewrite X. f_equal. apply eq_IZR. rewrite Btrunc_correct by exact Hm.
  now rewrite round_fix0 by auto with typeclass_instances.
Qed.
Lemma fin_nint x z : fin x (IZR z) -> BtoZ prec emax (Bnearbyint mode_NA x) = chk z.
Proof.
  intros X. apply fin_anint in X. rewrite (fin_toZ _ _ X). f_equal.
  rewrite Ztrunc_IZR. apply (Znearest_imp (Zle_bool 0) (IZR z) z).
  rewrite Rminus_diag_eq by reflexivity. rewrite Rabs_R0. lra.
Qed.

(** ** fmod *)
Lemma pow2 k : (0 <= k)%Z -> IZR (2 ^ k) = bpow radix2 k.
Proof. intros H. change (2 ^ k)%Z with (Zpower radix2 k). now apply IZR_Zpower. Qed.

Lemma mant m e : SpecFloat.bounded prec emax m e = true -> (Zpos m < 2 ^ prec)%Z /\ (emin <= e)%Z.
Proof.
  intros H. apply andb_prop in H. destruct H as (H & _). apply Zeq_bool_eq in H.
  rewrite Zpos_digits2_pos in H. unfold SpecFloat.fexp in H. split; [|lia].
  apply (Zpower_gt_Zdigits radix2 prec (Zpos m)). lia.
Qed.

Lemma shifted m e e0 : (e0 <= e)%Z -> IZR (m * 2 ^ (e - e0)) * bpow radix2 e0 = IZR m * bpow radix2 e.
Proof.
  intros H. rewrite mult_IZR, pow2 by lia. rewrite Rmult_assoc, <- bpow_plus. do 2 f_equal. lia.
Qed.

(** The remainder of the truncating division, exactly. *)
Lemma fin_fmod x y a b : fin x a -> fin y b -> b <> 0 ->
  fin (Bfmod prec emax x y) (a - IZR (Ztrunc (a / b)) * b) /\ Bsign (Bfmod prec emax x y) = Bsign x.
Proof.
  intros [X EX] [Y EY] NB.
  assert (Z0 : forall s, a = 0 -> fin (@B754_zero prec emax s) (a - IZR (Ztrunc (a / b)) * b)).
  { intros s ->. split; [reflexivity|]. unfold Rdiv. rewrite Rmult_0_l. rewrite (Ztrunc_IZR 0). cbn. ring. }
  destruct y as [sy|sy| |sy my ey By]; try discriminate Y; [cbn in EY; lra|].
  destruct x as [sx|sx| |sx mx ex Bx]; try discriminate X.
  - split; [apply Z0; now rewrite <- EX|reflexivity].
  - cbn [Bfmod]. set (e := Z.min ex ey).
    set (P := (Zpos mx * 2 ^ (ex - e))%Z). set (Q := (Zpos my * 2 ^ (ey - e))%Z).
    destruct (mant _ _ Bx) as (MX & EMX). destruct (mant _ _ By) as (MY & EMY).
    assert (Q0 : (0 < Q)%Z) by (unfold Q; apply Z.mul_pos_pos; [reflexivity|]; apply (Zpower_gt_0 radix2); lia).
    assert (P0 : (0 < P)%Z) by (unfold P; apply Z.mul_pos_pos; [reflexivity|]; apply (Zpower_gt_0 radix2); lia).
    pose proof (Z.mod_pos_bound P Q Q0) as R0. pose proof (Z.div_mod P Q ltac:(lia)) as DM.
    assert (D0 : (0 <= P / Q)%Z) by (apply Z.div_pos; lia).
    set (r := (P mod Q)%Z) in *. set (d := (P / Q)%Z) in *.
    assert (RS : (r < 2 ^ prec)%Z).
    { destruct (Z.le_ge_cases ex ey) as [L|L].
      - assert (P = Zpos mx) by (unfold P, e; rewrite Z.min_l, Z.sub_diag by assumption; cbn [Z.pow]; lia). nia.
      - assert (Q = Zpos my) by (unfold Q, e; rewrite Z.min_r, Z.sub_diag by assumption; cbn [Z.pow]; lia). lia. }
    assert (AE : a = IZR (SpecFloat.cond_Zopp sx P) * bpow radix2 e).
    { rewrite <- EX. unfold B2R, F2R; cbn [Fnum Fexp].
      destruct sx; cbn [SpecFloat.cond_Zopp]; [change (Zneg mx) with (- Zpos mx)%Z; rewrite !opp_IZR, !Ropp_mult_distr_l_reverse; f_equal|]; symmetry; apply shifted; unfold e; lia. }
    assert (BE : b = IZR (SpecFloat.cond_Zopp sy Q) * bpow radix2 e).
    { rewrite <- EY. unfold B2R, F2R; cbn [Fnum Fexp].
      destruct sy; cbn [SpecFloat.cond_Zopp]; [change (Zneg my) with (- Zpos my)%Z; rewrite !opp_IZR, !Ropp_mult_distr_l_reverse; f_equal|]; symmetry; apply shifted; unfold e; lia. }
    assert (B0 : 0 < bpow radix2 e) by apply bpow_gt_0.
    assert (QR : 0 < IZR Q) by (apply (IZR_lt 0); lia).
    assert (DT : 0 <= IZR P / IZR Q -> Ztrunc (IZR P / IZR Q) = d).
    { intros W. rewrite Ztrunc_floor by exact W. apply Zfloor_imp.
      rewrite plus_IZR. replace (IZR P) with (IZR Q * IZR d + IZR r) by (rewrite <- mult_IZR, <- plus_IZR; f_equal; lia).
      assert (0 <= IZR r) by (apply (IZR_le 0); lia). assert (IZR r < IZR Q) by (apply IZR_lt; lia).
      replace ((IZR Q * IZR d + IZR r) / IZR Q) with (IZR d + IZR r / IZR Q) by (field; lra).
      assert (0 <= IZR r / IZR Q) by (apply Rmult_le_pos; [assumption|apply Rlt_le, Rinv_0_lt_compat; assumption]).
      assert (IZR r / IZR Q < 1) by (apply Rmult_lt_reg_r with (IZR Q); [assumption|]; field_simplify; lra).
      lra. }
    assert (PQ : 0 <= IZR P / IZR Q).
    { apply Rmult_le_pos; [apply (IZR_le 0); lia|apply Rlt_le, Rinv_0_lt_compat; assumption]. }
    specialize (DT PQ).
    assert (T : IZR (Ztrunc (a / b)) * b = IZR (SpecFloat.cond_Zopp sx (d * Q)) * bpow radix2 e).
    { rewrite AE, BE.
      assert (QE : forall u v, v <> 0 -> u * bpow radix2 e / (v * bpow radix2 e) = u / v) by (intros; field; split; lra).
      destruct sx, sy; cbn [SpecFloat.cond_Zopp]; rewrite ?opp_IZR; rewrite QE by lra.
      - replace (- IZR P / - IZR Q) with (IZR P / IZR Q) by (field; lra). rewrite DT, mult_IZR. ring.
      - replace (- IZR P / IZR Q) with (- (IZR P / IZR Q)) by (field; lra). rewrite Ztrunc_opp, DT, mult_IZR, opp_IZR. ring.
      - replace (IZR P / - IZR Q) with (- (IZR P / IZR Q)) by (field; lra). rewrite Ztrunc_opp, DT, mult_IZR, opp_IZR. ring.
      - rewrite DT, mult_IZR. ring. }
    assert (RE : a - IZR (Ztrunc (a / b)) * b = IZR (SpecFloat.cond_Zopp sx r) * bpow radix2 e).
    { rewrite T, AE. replace P with (d * Q + r)%Z at 1 by lia.
      destruct sx; cbn [SpecFloat.cond_Zopp]; rewrite ?opp_IZR, plus_IZR; ring. }
    pose proof (binary_normalize_correct prec emax Hp Hm mode_NE (SpecFloat.cond_Zopp sx r) e sx) as C. cbn [round_mode] in C.
    unfold F2R in C; cbn [Fnum Fexp] in C.
    set (v := IZR (SpecFloat.cond_Zopp sx r) * bpow radix2 e) in *.
    change (round radix2 fexp ZnearestE v) with (rnd v) in C.
    assert (VF : fmt v) by (unfold v; apply fmt_F2R; [destruct sx; cbn [SpecFloat.cond_Zopp]; lia|unfold e; lia]).
    rewrite (rnd_fmt v VF) in C.
    assert (VB : Rabs v <= Rabs b).
    { unfold v. rewrite BE, !Rabs_mult. apply Rmult_le_compat_r; [apply Rabs_pos|]. rewrite <- !abs_IZR. apply IZR_le.
      destruct sx, sy; cbn [SpecFloat.cond_Zopp]; lia. }
    assert (VT : Rabs v < top).
    { eapply Rle_lt_trans; [exact VB|]. apply (fin_top (B754_finite sy my ey By)). now split. }
    rewrite Rlt_bool_true in C by exact VT. destruct C as (C1 & C2 & C3). rewrite RE. split; [now split|].
    rewrite C3. cbn [Bsign]. unfold v. destruct sx; cbn [SpecFloat.cond_Zopp].
    + destruct (Rcompare_spec (IZR (- r) * bpow radix2 e) 0) as [H|H|H]; try reflexivity.
      exfalso. rewrite opp_IZR in H. assert (0 <= IZR r * bpow radix2 e) by (apply Rmult_le_pos; [apply (IZR_le 0); lia|lra]). lra.
    + destruct (Rcompare_spec (IZR r * bpow radix2 e) 0) as [H|H|H]; try reflexivity.
      exfalso. assert (0 <= IZR r * bpow radix2 e) by (apply Rmult_le_pos; [apply (IZR_le 0); lia|lra]). lra.
Qed.

(** ** Literals *)
Lemma fin_quot n d : (n <> 0)%Z -> (0 < d)%Z -> Rabs (rnd (IZR n / IZR d)) < top ->
  fin (Bquot prec emax n d) (rnd (IZR n / IZR d)).
Proof.
  intros N D H. unfold Bquot. set (k := (prec + 2 + Zdigits radix2 d)%Z). set (a := (Z.abs n * 2 ^ k)%Z).
  assert (D' : 0 < IZR d) by (apply (IZR_lt 0); lia).
  pose proof (Zdigits_ge_0 radix2 d) as DG. pose proof Hp as HP. unfold Prec_gt_0 in HP.
  set (x := IZR n / IZR d) in *.
  assert (AX : Rabs x = IZR (Z.abs n) / IZR d).
  { unfold x, Rdiv. rewrite Rabs_mult, <- abs_IZR, (Rabs_pos_eq (/ IZR d)); [reflexivity|]. apply Rlt_le, Rinv_0_lt_compat; assumption. }
  pose proof (Z.mod_pos_bound a d D) as R0. pose proof (Z.div_mod a d ltac:(lia)) as DM.
  assert (NE : IZR n <> 0) by (intros E; apply N; now apply eq_IZR).
  assert (X0 : x <> 0).
  { unfold x, Rdiv. apply Rmult_integral_contrapositive. split; [exact NE|]. apply Rinv_neq_0_compat. lra. }
  assert (BK : bpow radix2 (- k) * IZR (2 ^ k) = 1).
  { rewrite pow2 by lia. rewrite <- bpow_plus. replace (- k + k)%Z with 0%Z by lia. reflexivity. }
  assert (AD : Rabs x = IZR a / IZR d * bpow radix2 (- k)).
  { rewrite AX. unfold a. rewrite mult_IZR. unfold Rdiv.
    replace (IZR (Z.abs n) * IZR (2 ^ k) * / IZR d * bpow radix2 (- k)) with (IZR (Z.abs n) * / IZR d * (bpow radix2 (- k) * IZR (2 ^ k))) by ring.
    rewrite BK. ring. }
  assert (IB : inbetween_float radix2 (a / d) (- k) (Rabs x) (new_location d (a mod d) SpecFloat.loc_Exact)).
  { assert (A1 : IZR a = IZR d * IZR (a / d) + IZR (a mod d)) by (rewrite <- mult_IZR, <- plus_IZR; f_equal; exact DM).
    assert (B0 : 0 < bpow radix2 (- k)) by apply bpow_gt_0.
    unfold inbetween_float. destruct (Z.eq_dec d 1) as [D1|D1].
    - replace (a mod d)%Z with 0%Z by lia. rewrite D1. unfold new_location, new_location_odd; cbn [Z.even Zeq_bool Z.compare].
      apply inbetween_Exact. rewrite AD, A1. unfold F2R; cbn [Fnum Fexp]. replace (a mod d)%Z with 0%Z by lia. rewrite D1. field.
    - unfold F2R; cbn [Fnum Fexp]. rewrite plus_IZR, Rmult_plus_distr_r, Rmult_1_l.
      replace (bpow radix2 (- k)) with (IZR d * (bpow radix2 (- k) / IZR d)) at 3 by (field; lra).
      apply new_location_correct; [|lia|lia|].
      + apply Rdiv_lt_0_compat; assumption.
      + apply inbetween_Exact. rewrite AD, A1. field. lra. }
  assert (CE : (- k <= cexp radix2 fexp x)%Z).
  { unfold cexp, SpecFloat.fexp. apply Z.le_trans with (mag radix2 x - prec)%Z; [|apply Z.le_max_l].
    assert (- Zdigits radix2 d < mag radix2 x)%Z; [|unfold k; lia].
    apply (mag_gt_bpow radix2). rewrite AX.
    assert (1 <= IZR (Z.abs n)) by (apply (IZR_le 1); lia).
    assert (DL : IZR d <= bpow radix2 (Zdigits radix2 d)).
    { rewrite <- IZR_Zpower by assumption. apply IZR_le. pose proof (Zdigits_correct radix2 d) as (_ & Q). rewrite Z.abs_eq in Q by lia. lia. }
    rewrite bpow_opp. apply Rle_trans with (/ IZR d); [now apply Rinv_le|].
    rewrite <- (Rmult_1_l (/ IZR d)). apply Rmult_le_compat_r; [|assumption]. apply Rlt_le, Rinv_0_lt_compat; assumption. }
  pose proof (binary_round_aux_correct' prec emax Hp Hm mode_NE x _ _ _ X0 IB CE) as C. cbv zeta in C. cbn [round_mode] in C.
  change (round radix2 fexp ZnearestE x) with (rnd x) in C.
  assert (SG : Rlt_bool x 0 = (n <? 0)%Z).
  { assert (XN : x * IZR d = IZR n) by (unfold x; field; lra).
    destruct (Z.ltb_spec n 0) as [L|L].
    - apply Rlt_bool_true. apply IZR_lt in L. apply Rnot_le_lt. intros G. assert (0 <= x * IZR d) by (apply Rmult_le_pos; lra). lra.
    - apply Rlt_bool_false. apply IZR_le in L. unfold x. apply Rmult_le_pos; [exact L|]. apply Rlt_le, Rinv_0_lt_compat; assumption. }
  rewrite SG in C. rewrite Rlt_bool_true in C by exact H. destruct C as (V & C1 & C2 & _).
  unfold of_spec. destruct (Sumbool.sumbool_of_bool _) as [W|W]; [|congruence].
  split; [now rewrite is_finite_SF2B|now rewrite B2R_SF2B].
Qed.

(** A decimal literal is the nearest representable number. *)
Lemma fin_lit m e : let v := IZR (m * 10 ^ Z.max e 0) / IZR (10 ^ Z.max (- e) 0) in
  Rabs (rnd v) < top -> fin (Blit prec emax m e) (rnd v).
Proof.
  intros v H. unfold Blit. destruct (Z.eqb_spec m 0) as [->|M].
  - split; [reflexivity|]. unfold v. cbn [Z.mul]. unfold Rdiv. rewrite Rmult_0_l, rnd_0. reflexivity.
  - apply fin_quot; [|apply Z.pow_pos_nonneg; lia|exact H].
    apply Z.neq_mul_0. split; [exact M|]. apply Z.pow_nonzero; lia.
Qed.

End Bin.
