From Coq Require Import ZArith Reals Bool Lia Lra.
From Flocq Require Import Core BinarySingleNaN Relative.
From Verif Require Import Int32 Num NumB M_Calendar M_Angle L_Bin L_BinAngle.
Open Scope R_scope.

Notation fin64 := (fin 53 1024).
Notation rnd64 := (rnd 53 1024).
Notation fmt64 := (fmt 53 1024).
Notation top64 := (top 1024).

Lemma big : bpow radix2 90 = 1237940039285380274899124224.
Proof. reflexivity. Qed.
Lemma rnd_top x : Rabs x <= 1000000000000000000000000000 -> Rabs (rnd64 x) < top64.
Proof.
  intros H. apply Rle_lt_trans with (bpow radix2 90); [|apply bpow_lt; reflexivity].
  apply rnd_abs_le; [easy..| |rewrite big; lra].
  rewrite <- (Rmult_1_l (bpow radix2 90)). apply (fmt_F2R 53 1024 1 90); [reflexivity|]. unfold SpecFloat.emin. lia.
Qed.
Lemma small_top x : Rabs x <= 1000000000000000000000000000 -> Rabs x < top64.
Proof.
  intros H. apply Rle_lt_trans with (bpow radix2 90); [rewrite big; lra|apply bpow_lt; reflexivity].
Qed.

Lemma fin64_Z z : (Z.abs z < 9007199254740992)%Z -> fin64 (BofZ 53 1024 z) (IZR z).
Proof. intros H. apply fin_ofZ. exact H. Qed.
Lemma fmt64_Z z : (Z.abs z < 9007199254740992)%Z -> fmt64 (IZR z).
Proof. intros H. apply fmt_Z; [easy..|exact H]. Qed.

Lemma bp x e : bpow radix2 e = x -> x = bpow radix2 e. Proof. easy. Qed.

(** Rounding to nearest keeps a value close to an integer close to it. *)
Lemma near_int x n : (Z.abs n < 1000000000000)%Z -> Rabs (x - IZR n) <= / 4 -> Rabs (rnd64 x - IZR n) <= / 4.
Proof.
  intros N H. apply Rabs_le_inv in H.
  assert (Q : forall k, (Z.abs k < 9007199254740992)%Z -> fmt64 (IZR k * / 4)).
  { intros k K. apply (fmt_F2R 53 1024 k (-2)); [exact K|]. unfold SpecFloat.emin. lia. }
  apply Rabs_le. split.
  - assert (IZR (4 * n - 1) * / 4 <= rnd64 x).
    { apply rnd_ge_fmt; [easy..|apply Q; lia|]. rewrite minus_IZR, mult_IZR. lra. }
    rewrite minus_IZR, mult_IZR in H0. lra.
  - assert (rnd64 x <= IZR (4 * n + 1) * / 4).
    { apply rnd_le_fmt; [easy..|apply Q; lia|]. rewrite plus_IZR, mult_IZR. lra. }
    rewrite plus_IZR, mult_IZR in H0. lra.
Qed.

Lemma trunc1 a : a - IZR (Ztrunc (a / 1)) * 1 = a - IZR (Ztrunc a).
Proof. unfold Rdiv. rewrite Rinv_1, !Rmult_1_r. reflexivity. Qed.

Lemma chk_small z : (-2147483648 <= z <= 2147483647)%Z -> chk z = Some z.
Proof.
  intros H. unfold chk, in_int, INT_MIN, INT_MAX. rewrite (proj2 (Z.leb_le _ _)) by lia. rewrite (proj2 (Z.leb_le _ _)) by lia. reflexivity.
Qed.

(** ** djcl *)
Lemma djcl_bin lm (x : double) a : fin64 x a -> -2395520 < a < 1000000000 ->
  exists (f : double) (fr : R),
    djcl (N := B64 lm) x = match djcl_date (Zfloor a) with Some (y, m, d) => Some (Some (y, m, d, f)) | None => None end /\
    fin64 f fr /\ 0 <= fr <= 1 /\ Rabs (fr - (a - IZR (Zfloor a))) <= bpow radix2 (-54) /\
    (0 <= a -> fr = a - IZR (Zfloor a)).
Proof.
  intros X A. unfold djcl. unB.
  rewrite (fin_leb 53 1024 x (BofZ 53 1024 (-2395520)) a (-2395520) X (fin64_Z (-2395520) ltac:(lia))).
  rewrite (fin_leb 53 1024 (BofZ 53 1024 1000000000) x 1000000000 a (fin64_Z 1000000000 ltac:(lia)) X).
  rewrite !Rle_bool_false by lra. cbn [orb].
  pose proof (fin64_Z 1 ltac:(lia)) as F1. pose proof (fin64_Z 0 ltac:(lia)) as F0.
  destruct (fin_fmod 53 1024 x (BofZ 53 1024 1) a 1 X F1 ltac:(lra)) as (F & _). rewrite trunc1 in F.
  set (res := Bfmod 53 1024 x (BofZ 53 1024 1)) in *.
  rewrite (fin_ltb 53 1024 _ _ _ _ F F0).
  pose proof (Zfloor_lb a) as FL. pose proof (Zfloor_ub a) as FU. set (n := Zfloor a) in *.
  assert (NB : (-2395521 <= n < 1000000000)%Z).
  { split; [apply Zfloor_lub; lra|]. apply lt_IZR. lra. }
  assert (EP : 0 < bpow radix2 (-54) <= / 4).
  { split; [apply bpow_gt_0|]. apply (bpow_le radix2 (-54) (-2)). lia. }
  assert (FIN : forall f fr, fin64 f fr -> 0 <= fr <= 1 -> Rabs (fr - (a - IZR n)) <= bpow radix2 (-54) ->
     BtoZ 53 1024 (Bnearbyint mode_NA (Bnearbyint mode_NA (Bminus mode_NE x f))) = Some n).
  { intros f fr Ff B E.
    assert (D : fin64 (Bminus mode_NE x f) (rnd64 (a - fr))).
    { apply fin_sub; auto. apply rnd_top. apply Rabs_le; lra. }
    assert (C : Rabs (rnd64 (a - fr) - IZR n) <= / 4).
    { apply near_int; [lia|]. replace (a - fr - IZR n) with (- (fr - (a - IZR n))) by ring. rewrite Rabs_Ropp. lra. }
    apply (fin_anint 53 1024) in D. rewrite (Znearest_imp (Zle_bool 0) _ n) in D by lra.
    rewrite (fin_nint 53 1024 _ n D). apply chk_small. lia. }
  destruct (Rlt_bool_spec (a - IZR (Ztrunc a)) 0) as [G|G].
  - assert (AN : a < 0).
    { apply Rnot_le_lt. intros L. rewrite Ztrunc_floor in G by exact L. fold n in G. lra. }
    rewrite Ztrunc_ceil in F, G by lra.
    assert (CN : IZR (Zceil a) = IZR n + 1).
    { unfold n. rewrite Zceil_floor_neq; [rewrite plus_IZR; reflexivity|]. fold n. intros E.
      rewrite <- E, Zceil_IZR in G. lra. }
    rewrite CN in F, G.
    set (f := Bplus mode_NE res (BofZ 53 1024 1)).
    assert (FF : fin64 f (rnd64 (a - IZR n))).
    { replace (a - IZR n) with (a - (IZR n + 1) + 1) by ring. apply fin_add; auto. apply rnd_top. apply Rabs_le. lra. }
    assert (B : 0 <= rnd64 (a - IZR n) <= 1).
    { split; [apply rnd_ge_fmt; [easy..|apply fmt_0|lra]|apply rnd_le_fmt; [easy..|apply (fmt64_Z 1); lia|lra]]. }
    assert (E : Rabs (rnd64 (a - IZR n) - (a - IZR n)) <= bpow radix2 (-54)).
    { apply (rnd_error 53 1024 (a - IZR n) 0); [rewrite Rabs_pos_eq by lra; change (bpow radix2 0) with 1; lra|unfold SpecFloat.emin; lia]. }
    exists f, (rnd64 (a - IZR n)). rewrite (FIN f _ FF B E).
    split; [now destruct (djcl_date n) as [[[? ?] ?]|]|]. split; [exact FF|]. split; [exact B|]. split; [exact E|]. lra.
  - assert (TN : IZR (Ztrunc a) = IZR n).
    { destruct (Rle_or_lt 0 a) as [L|L]; [now rewrite Ztrunc_floor by exact L|].
      rewrite Ztrunc_ceil in * by lra. pose proof (Zceil_ub a) as U.
      assert (E : a = IZR (Zceil a)) by lra. unfold n. rewrite E at 2. now rewrite Zfloor_IZR. }
    rewrite TN in F. exists res, (a - IZR n).
    assert (B : 0 <= a - IZR n <= 1) by lra.
    assert (E : Rabs (a - IZR n - (a - IZR n)) <= bpow radix2 (-54)) by (rewrite Rminus_diag_eq, Rabs_R0 by reflexivity; lra).
    rewrite (FIN res _ F B E).
    split; [now destruct (djcl_date n) as [[[? ?] ?]|]|]. split; [exact F|]. split; [exact B|]. split; [exact E|]. reflexivity.
Qed.

Lemma djcl_bin_reject lm (x : double) a : fin64 x a -> (a <= -2395520 \/ 1000000000 <= a) -> djcl (N := B64 lm) x = Some None.
Proof.
  intros X A. unfold djcl. unB.
  rewrite (fin_leb 53 1024 x (BofZ 53 1024 (-2395520)) a (-2395520) X (fin64_Z (-2395520) ltac:(lia))).
  rewrite (fin_leb 53 1024 (BofZ 53 1024 1000000000) x 1000000000 a (fin64_Z 1000000000 ltac:(lia)) X).
  destruct A as [A|A].
  - rewrite Rle_bool_true by exact A. reflexivity.
  - rewrite (Rle_bool_true 1000000000 a) by exact A. rewrite orb_true_r. reflexivity.
Qed.

Lemma djcl_bin_special lm :
  djcl (N := B64 lm) (B754_infinity true) = Some None /\ djcl (N := B64 lm) (B754_infinity false) = Some None /\
  djcl (N := B64 lm) B754_nan = None.
Proof. repeat split; vm_compute; reflexivity. Qed.

(** ** Rounding to an integer after a rounded product *)
Lemma rel_error x : bpow radix2 (-1022) <= Rabs x -> Rabs (rnd64 x - x) <= bpow radix2 (-53) * Rabs x.
Proof.
  intros H. pose proof (relative_error_N_FLT radix2 (-1074) 53 ltac:(lia) (fun z => negb (Z.even z)) x H) as E.
  replace (/ 2 * bpow radix2 (- (53) + 1)) with (bpow radix2 (-53)) in E
    by (rewrite bpow_plus; change (bpow radix2 1) with 2; change (- (53))%Z with (-53)%Z; lra).
  exact E.
Qed.

Lemma quarter_fmt : fmt64 (/ 4).
Proof. rewrite <- (Rmult_1_l (/ 4)). apply (fmt_F2R 53 1024 1 (-2)); [reflexivity|unfold SpecFloat.emin; lia]. Qed.

Lemma nearA_err y : Rabs (IZR (ZnearestA y) - y) <= / 2.
Proof. rewrite Rabs_minus_sym. apply Znearest_half. Qed.

Lemma nearest_rnd x : Rabs (IZR (ZnearestA (rnd64 x)) - x) <= / 2 + bpow radix2 (-53) * Rabs x.
Proof.
  pose proof (bpow_gt_0 radix2 (-53)) as E0. pose proof (Rabs_pos x) as X0.
  destruct (Rle_or_lt (bpow radix2 (-1022)) (Rabs x)) as [H|H].
  - replace (IZR (ZnearestA (rnd64 x)) - x) with ((IZR (ZnearestA (rnd64 x)) - rnd64 x) + (rnd64 x - x)) by ring.
    eapply Rle_trans; [apply Rabs_triang|]. apply Rplus_le_compat; [apply nearA_err|now apply rel_error].
  - assert (S : Rabs x <= / 4).
    { apply Rlt_le. eapply Rlt_le_trans; [exact H|]. apply (bpow_le radix2 (-1022) (-2)). lia. }
    assert (R : Rabs (rnd64 x) <= / 4) by (apply rnd_abs_le; [easy..|apply quarter_fmt|exact S]).
    rewrite (Znearest_imp (Zle_bool 0) _ 0) by (rewrite Rminus_0_r; lra).
    replace (0 - x) with (- x) by ring. rewrite Rabs_Ropp. nra.
Qed.

Lemma nearA_mono x y : x <= y -> (ZnearestA x <= ZnearestA y)%Z.
Proof. apply Zrnd_le, valid_rnd_N. Qed.
Lemma nearA_Z n : ZnearestA (IZR n) = n.
Proof. apply Zrnd_IZR, valid_rnd_N. Qed.

(** ** djcal *)
Definition pow10_ok (lm : libm 53 1024) : Prop := forall k, (0 <= k <= 9)%Z ->
  exists p, fin64 (m_pow lm (BofZ 53 1024 10) (BofZ 53 1024 k)) p /\ Rabs (p - IZR (10 ^ k)) < / 2.

Lemma pow10_bounds k : (0 <= k <= 9)%Z -> (1 <= 10 ^ k <= 1000000000)%Z.
Proof. intros K. split; [apply (Z.pow_le_mono_r 10 0); lia|]. apply (Z.pow_le_mono_r 10 k 9); lia. Qed.

(** Multiples of 10^k by moderate integers are representable. *)
Lemma fmt_pow10 q k : (0 <= k <= 9)%Z -> (Z.abs q <= 2000000000)%Z -> fmt64 (IZR (q * 10 ^ k)).
Proof.
  intros K Q. replace (q * 10 ^ k)%Z with ((q * 5 ^ k) * 2 ^ k)%Z by (rewrite <- Z.mul_assoc, <- Z.pow_mul_l; f_equal; lia).
  rewrite mult_IZR. rewrite (pow2 k) by lia. apply fmt_F2R; [|unfold SpecFloat.emin; lia].
  assert (1 <= 5 ^ k)%Z by (apply (Z.pow_le_mono_r 5 0); lia).
  assert (5 ^ k <= 1953125)%Z by (apply (Z.pow_le_mono_r 5 k 9); lia).
  rewrite Z.abs_mul, (Z.abs_eq (5 ^ k)) by lia. change (2 ^ 53)%Z with 9007199254740992%Z. nia.
Qed.

Lemma fmod_Z n d : (0 < d)%Z -> IZR n - IZR (Ztrunc (IZR n / IZR d)) * IZR d = IZR (Z.rem n d).
Proof.
  intros D. assert (T : Ztrunc (IZR n / IZR d) = Z.quot n d).
  { destruct (Z.le_gt_cases 0 n) as [N|N].
    - rewrite Ztrunc_floor by (apply Rmult_le_pos; [apply (IZR_le 0); lia|apply Rlt_le, Rinv_0_lt_compat; apply (IZR_lt 0); lia]).
      rewrite Zfloor_div by lia. rewrite Z.quot_div_nonneg by lia. reflexivity.
    - replace (IZR n / IZR d) with (- (IZR (- n) / IZR d)) by (rewrite opp_IZR; field; apply IZR_neq; lia).
      rewrite Ztrunc_opp. rewrite Ztrunc_floor by (apply Rmult_le_pos; [apply (IZR_le 0); lia|apply Rlt_le, Rinv_0_lt_compat; apply (IZR_lt 0); lia]).
      rewrite Zfloor_div by lia. rewrite <- Z.quot_div_nonneg by lia. rewrite Z.quot_opp_l by lia. lia. }
  rewrite T, <- mult_IZR, <- minus_IZR. f_equal. pose proof (Z.quot_rem' n d). lia.
Qed.

Lemma djcal_bin lm (ndp : Z) (x : double) a : pow10_ok lm -> (ndp <= 9)%Z -> fin64 x a -> -2395520 < a < 1000000000 ->
  let u := (10 ^ Z.max ndp 0)%Z in
  exists D : Z, Rabs (IZR D - a * IZR u) <= / 2 + bpow radix2 (-53) * Rabs (a * IZR u) /\
    (forall b : Z, (-2000000000 <= b <= 2000000000)%Z -> (IZR b <= a -> (b * u <= D)%Z) /\ (a <= IZR b -> (D <= b * u)%Z)) /\
    djcal (N := B64 lm) ndp x = match djcal_date (D / u) with Some (y, m, d) => Some (Some (y, m, d, (D mod u)%Z)) | None => None end.
Proof.
  intros PW K X A u. set (k := Z.max ndp 0) in *.
  assert (KB : (0 <= k <= 9)%Z) by (unfold k; lia).
  pose proof (pow10_bounds k KB) as UB. fold u in UB.
  assert (U1 : 1 <= IZR u <= 1000000000) by (split; apply IZR_le; lia).
  exists (ZnearestA (rnd64 (a * IZR u))). split; [apply nearest_rnd|].
  assert (MONO : forall b : Z, (-2000000000 <= b <= 2000000000)%Z ->
     (IZR b <= a -> (b * u <= ZnearestA (rnd64 (a * IZR u)))%Z) /\ (a <= IZR b -> (ZnearestA (rnd64 (a * IZR u)) <= b * u)%Z)).
  { intros b B. assert (F : fmt64 (IZR (b * u))) by (apply fmt_pow10; [assumption|lia]).
    split; intros L; rewrite <- (nearA_Z (b * u)); apply nearA_mono.
    - apply rnd_ge_fmt; [easy..|exact F|]. rewrite mult_IZR. apply Rmult_le_compat_r; lra.
    - apply rnd_le_fmt; [easy..|exact F|]. rewrite mult_IZR. apply Rmult_le_compat_r; lra. }
  split; [exact MONO|].
  unfold djcal. fold k. unB.
  rewrite (fin_leb 53 1024 x (BofZ 53 1024 (-2395520)) a (-2395520) X (fin64_Z (-2395520) ltac:(lia))).
  rewrite (fin_leb 53 1024 (BofZ 53 1024 1000000000) x 1000000000 a (fin64_Z 1000000000 ltac:(lia)) X).
  rewrite !Rle_bool_false by lra. cbn [orb].
  cbv beta iota delta [n_pow].
  destruct (PW k KB) as (p & FP & EP).
  assert (TU : BtoZ 53 1024 (Bnearbyint mode_NA (m_pow lm (BofZ 53 1024 10) (BofZ 53 1024 k))) = Some u).
  { apply (fin_anint 53 1024) in FP. rewrite (fin_toZ 53 1024 _ _ FP). rewrite Ztrunc_IZR.
    rewrite (Znearest_imp (Zle_bool 0) p u) by exact EP. apply chk_small. lia. }
  rewrite TU.
  pose proof (fin64_Z u ltac:(lia)) as FU. set (fu := BofZ 53 1024 u) in *.
  assert (AU : Rabs (a * IZR u) <= 1000000000 * 1000000000).
  { rewrite Rabs_mult. apply Rmult_le_compat; try apply Rabs_pos; apply Rabs_le; lra. }
  assert (FM : fin64 (Bmult mode_NE x fu) (rnd64 (a * IZR u))) by (apply fin_mul; auto; apply rnd_top; lra).
  apply (fin_anint 53 1024) in FM.
  set (D := ZnearestA (rnd64 (a * IZR u))) in *. set (df := Bnearbyint mode_NA (Bmult mode_NE x fu)) in *.
  assert (UN : IZR u <> 0) by lra.
  destruct (fin_fmod 53 1024 df fu (IZR D) (IZR u) FM FU UN) as (FR & _). rewrite fmod_Z in FR by lia.
  set (res := Bfmod 53 1024 df fu) in *.
  rewrite (fin_ltb 53 1024 _ _ _ _ FR (fin64_Z 0 ltac:(lia))).
  assert (DB : (-2395520 * u <= D <= 1000000000 * u)%Z) by (split; [apply (MONO (-2395520)%Z); [lia|lra]|apply (MONO 1000000000%Z); [lia|lra]]).
  pose proof (Z.mod_pos_bound D u ltac:(lia)) as MB. pose proof (Z.div_mod D u ltac:(lia)) as DM.
  assert (FF : fin64 (if Rlt_bool (IZR (Z.rem D u)) 0 then Bplus mode_NE res fu else res) (IZR (D mod u))).
  { pose proof (Z.quot_rem' D u) as QR. pose proof (Z.rem_bound_abs D u ltac:(lia)) as RB. rewrite (Z.abs_eq u) in RB by lia.
    destruct (Rlt_bool_spec (IZR (Z.rem D u)) 0) as [L|L].
    - apply lt_IZR in L. replace (IZR (D mod u)) with (IZR (Z.rem D u) + IZR u).
      + apply fin_add_exact; auto; rewrite <- plus_IZR; [apply fmt64_Z; lia|]. apply small_top. rewrite <- abs_IZR. apply IZR_le. lia.
      + rewrite <- plus_IZR. f_equal. apply (Z.mod_unique_pos D u (Z.quot D u - 1)); lia.
    - apply le_IZR in L. replace (D mod u)%Z with (Z.rem D u); [exact FR|]. apply (Z.mod_unique_pos D u (Z.quot D u)); lia. }
  set (f := if Rlt_bool (IZR (Z.rem D u)) 0 then Bplus mode_NE res fu else res) in *.
  assert (QB : (-2395520 <= D / u <= 1000000000)%Z).
  { split; [apply Z.div_le_lower_bound; lia|]. apply Z.lt_succ_r. apply Z.div_lt_upper_bound; lia. }
  assert (FS : fin64 (Bminus mode_NE df f) (IZR (D / u * u))).
  { replace (IZR (D / u * u)) with (IZR D - IZR (D mod u)) by (rewrite <- minus_IZR; f_equal; lia).
    apply fin_sub_exact; auto; rewrite <- minus_IZR; replace (D - D mod u)%Z with (D / u * u)%Z by lia.
    - apply fmt_pow10; [exact KB|lia].
    - apply small_top. rewrite <- abs_IZR. apply IZR_le. nia. }
  assert (FD : fin64 (Bdiv mode_NE (Bminus mode_NE df f) fu) (IZR (D / u))).
  { replace (IZR (D / u)) with (IZR (D / u * u) / IZR u) by (rewrite mult_IZR; field; exact UN).
    assert (E : IZR (D / u * u) / IZR u = IZR (D / u)) by (rewrite mult_IZR; field; exact UN).
    apply fin_div_exact; auto; rewrite E; [apply fmt64_Z; lia|]. apply small_top. rewrite <- abs_IZR. apply IZR_le. lia. }
  rewrite (fin_nint 53 1024 _ _ FD), (fin_nint 53 1024 _ _ FF). rewrite !chk_small by lia.
  now destruct (djcal_date (D / u)) as [[[? ?] ?]|].
Qed.
