From Coq Require Import ZArith Reals Bool Lia Lra.
From Flocq Require Import Core BinarySingleNaN.
From Verif Require Import Int32 Num NumB M_Calendar M_Angle M_Single S_Calendar S_Angle S_Binary L_Pi L_Bin L_BinAngle L_BinDate L_BinTf L_Calendar.
Open Scope R_scope.

Lemma pi_double_eq : pi_double = pi64. Proof. symmetry. exact pi64_value. Qed.
Lemma pi_float_eq : pi_float = pi32. Proof. symmetry. exact pi32_value. Qed.
Lemma pi_double_pos : 0 < pi_double. Proof. unfold pi_double. lra. Qed.
Lemma pi_float_pos : 0 < pi_float. Proof. unfold pi_float. lra. Qed.
Lemma FP64 lm : fin 53 1024 (n_pi : B64 lm) pi_double. Proof. rewrite pi_double_eq. apply pi64_fin. Qed.
Lemma FP64_2 lm : fin 53 1024 (n_2pi : B64 lm) (2 * pi_double). Proof. rewrite pi_double_eq. apply twopi64_fin. Qed.
Lemma FP32 lm : fin 24 128 (n_pi : B32 lm) pi_float. Proof. rewrite pi_float_eq. apply pi32_fin. Qed.
Lemma FP32_2 lm : fin 24 128 (n_2pi : B32 lm) (2 * pi_float). Proof. rewrite pi_float_eq. apply twopi32_fin. Qed.

Lemma bpn n : bpow radix2 (- Z.of_nat n) = / 2 ^ n.
Proof. rewrite bpow_opp, <- IZR_Zpower by lia. f_equal. rewrite (pow_IZR 2 n). reflexivity. Qed.

(** Multiples of the stored 2 pi against multiples of 2 pi. *)
Lemma drift p e a k : Rabs (2 * PI - 2 * p) <= e -> Rabs ((a - IZR k * (2 * p)) - (a - IZR k * (2 * PI))) <= Rabs (IZR k) * e.
Proof.
  intros E. replace ((a - IZR k * (2 * p)) - (a - IZR k * (2 * PI))) with (IZR k * (2 * PI - 2 * p)) by ring.
  rewrite Rabs_mult. apply Rmult_le_compat_l; [apply Rabs_pos|exact E].
Qed.
Lemma drift64 : Rabs (2 * PI - 2 * pi_double) <= 25 / 100000000000000000.
Proof. rewrite pi_double_eq. pose proof pi64_close. apply Rabs_le. lra. Qed.
Lemma drift32 : Rabs (2 * PI - 2 * pi_float) <= 19 / 100000000.
Proof. rewrite pi_float_eq. pose proof pi32_close. apply Rabs_le. lra. Qed.

Lemma drange64 lm (x : double) a : value64 x a -> exists k : Z, let r := a - IZR k * (2 * pi_double) in
  value64 (drange (N := B64 lm) x) r /\ Rabs r <= pi_double /\ (0 <= a -> r < pi_double) /\ (a <= 0 -> - pi_double < r) /\
  Rabs (r - (a - IZR k * (2 * PI))) <= Rabs (IZR k) * (25 / 100000000000000000).
Proof.
  intros X. destruct (drange_bin 53 1024 lm pi_double pi_double_pos (FP64 lm) (FP64_2 lm) x a X) as (k & A & B & C & D).
  exists k. split; [exact A|]. repeat (split; [assumption|]). apply drift, drift64.
Qed.
Lemma drange32 lm (x : single) a : value32 x a -> exists k : Z, let r := a - IZR k * (2 * pi_float) in
  value32 (drange (N := B32 lm) x) r /\ Rabs r <= pi_float /\ (0 <= a -> r < pi_float) /\ (a <= 0 -> - pi_float < r) /\
  Rabs (r - (a - IZR k * (2 * PI))) <= Rabs (IZR k) * (19 / 100000000).
Proof.
  intros X. destruct (drange_bin 24 128 lm pi_float pi_float_pos (FP32 lm) (FP32_2 lm) x a X) as (k & A & B & C & D).
  exists k. split; [exact A|]. repeat (split; [assumption|]). apply drift, drift32.
Qed.
Lemma drange64_id lm (x : double) a : value64 x a -> Rabs a < pi_double -> drange (N := B64 lm) x = x.
Proof. exact (drange_bin_id 53 1024 lm pi_double pi_double_pos (FP64 lm) (FP64_2 lm) x a). Qed.
Lemma drange32_id lm (x : single) a : value32 x a -> Rabs a < pi_float -> drange (N := B32 lm) x = x.
Proof. exact (drange_bin_id 24 128 lm pi_float pi_float_pos (FP32 lm) (FP32_2 lm) x a). Qed.
Lemma drange64_nan lm (x : double) : is_finite x = false -> drange (N := B64 lm) x = B754_nan.
Proof. exact (drange_bin_nan 53 1024 lm pi_double (FP64 lm) (FP64_2 lm) x). Qed.

Lemma dranrm64 lm (x : double) a : value64 x a -> exists (k : Z) (r : R),
  value64 (dranrm (N := B64 lm) x) r /\ 0 <= r <= 2 * pi_double /\ (0 <= a -> r = a - IZR k * (2 * pi_double) /\ r < 2 * pi_double) /\
  0 <= a - IZR k * (2 * pi_double) < 2 * pi_double /\ Rabs (r - (a - IZR k * (2 * pi_double))) <= / 2 ^ 51 /\
  Rabs (r - (a - IZR k * (2 * PI))) <= / 2 ^ 51 + Rabs (IZR k) * (25 / 100000000000000000).
Proof.
  intros X. destruct (dranrm_bin 53 1024 lm pi_double pi_double_pos (FP64_2 lm) x a X ltac:(unfold pi_double; lra)) as (k & r & A & B & C & D & E).
  assert (BP : bpow radix2 (2 - 53) = / 2 ^ 51) by exact (bpn 51).
  rewrite BP in D. exists k, r. repeat (split; [assumption|]).
  replace (r - (a - IZR k * (2 * PI))) with ((r - (a - IZR k * (2 * pi_double))) + ((a - IZR k * (2 * pi_double)) - (a - IZR k * (2 * PI)))) by ring.
  eapply Rle_trans; [apply Rabs_triang|]. apply Rplus_le_compat; [exact D|]. apply drift, drift64.
Qed.
Lemma dranrm32 lm (x : single) a : value32 x a -> exists (k : Z) (r : R),
  value32 (dranrm (N := B32 lm) x) r /\ 0 <= r <= 2 * pi_float /\ (0 <= a -> r = a - IZR k * (2 * pi_float) /\ r < 2 * pi_float) /\
  0 <= a - IZR k * (2 * pi_float) < 2 * pi_float /\ Rabs (r - (a - IZR k * (2 * pi_float))) <= / 2 ^ 22 /\
  Rabs (r - (a - IZR k * (2 * PI))) <= / 2 ^ 22 + Rabs (IZR k) * (19 / 100000000).
Proof.
  intros X. destruct (dranrm_bin 24 128 lm pi_float pi_float_pos (FP32_2 lm) x a X ltac:(unfold pi_float; lra)) as (k & r & A & B & C & D & E).
  assert (BP : bpow radix2 (2 - 24) = / 2 ^ 22) by exact (bpn 22).
  rewrite BP in D. exists k, r. repeat (split; [assumption|]).
  replace (r - (a - IZR k * (2 * PI))) with ((r - (a - IZR k * (2 * pi_float))) + ((a - IZR k * (2 * pi_float)) - (a - IZR k * (2 * PI)))) by ring.
  eapply Rle_trans; [apply Rabs_triang|]. apply Rplus_le_compat; [exact D|]. apply drift, drift32.
Qed.

(** A tiny negative double, -10^-20. *)
Definition tiny : double := Blit 53 1024 (-1) (-20).
Lemma tiny_neg : B2R tiny < 0 /\ is_finite tiny = true.
Proof.
  split; [|vm_compute; reflexivity].
  assert (T : exists m e B, tiny = B754_finite true m e B).
  { destruct tiny as [s|s| |s m e B] eqn:E; try (vm_compute in E; discriminate E).
    assert (S : B2SF tiny = SpecFloat.S754_finite s m e) by now rewrite E.
    vm_compute in S. injection S as <- <- <-. now eexists _, _, _. }
  destruct T as (m & e & B & ->). cbn. apply F2R_lt_0. cbn. lia.
Qed.
Lemma dranrm_tiny lm : value64 (dranrm (N := B64 lm) tiny) (2 * pi_double).
Proof.
  rewrite pi_double_eq. replace (2 * pi64) with (IZR 7074237752028440 * bpow radix2 (-50))
    by (unfold pi64; change (-50)%Z with (1 + -51)%Z; rewrite bpow_plus; change (bpow radix2 1) with 2; ring).
  apply (finite_lit 53 1024 (dranrm (N := B64 lm) tiny) 7074237752028440 (-50)). vm_compute. reflexivity.
Qed.
Lemma dranrm64_refuted lm : ~ (forall x a, value64 x a -> exists r, value64 (dranrm (N := B64 lm) x) r /\ 0 <= r < 2 * pi_double).
Proof.
  intros H. destruct tiny_neg as (T1 & T2). destruct (H tiny (B2R tiny) (conj T2 eq_refl)) as (r & (_ & R1) & R2).
  destruct (dranrm_tiny lm) as (_ & E). lra.
Qed.

(** ** Dates *)
Lemma djcl64 lm (x : double) a : value64 x a -> -2395520 < a < 534459924 ->
  exists (w : date) (f : double) (fr : R), djcl (N := B64 lm) x = Some (Some (yr w, mon w, dom w, f)) /\
    valid w /\ is_mjd w (Zfloor a) /\ value64 f fr /\ 0 <= fr <= 1 /\
    Rabs (fr - (a - IZR (Zfloor a))) <= / 2 ^ 54 /\ (0 <= a -> fr = a - IZR (Zfloor a)).
Proof.
  intros X A. destruct (djcl_bin lm x a X ltac:(lra)) as (f & fr & E & F & B & C & D).
  assert (FL : (-2395520 <= Zfloor a <= 534459923)%Z).
  { split; [apply Zfloor_lub; lra|]. apply Z.lt_succ_r, lt_IZR. eapply Rle_lt_trans; [apply Zfloor_lb|]. cbn. lra. }
  destruct (djcl_date_spec _ FL) as (w & W1 & W2 & W3). rewrite W1 in E.
  assert (BP : bpow radix2 (-54) = / 2 ^ 54) by exact (bpn 54).
  rewrite BP in C. exists w, f, fr. repeat (split; [assumption|]). assumption.
Qed.
Lemma djcl64_undefined lm (x : double) a : value64 x a -> 534459924 <= a < 1000000000 -> djcl (N := B64 lm) x = None.
Proof.
  intros X A. destruct (djcl_bin lm x a X ltac:(lra)) as (f & fr & E & _).
  assert (FL : (534459924 <= Zfloor a < 1000000000)%Z).
  { split; [apply Zfloor_lub; lra|]. apply lt_IZR. eapply Rle_lt_trans; [apply Zfloor_lb|]. lra. }
  assert (N : djcl_date (Zfloor a) = None) by (apply djcl_defined_iff; lia). now rewrite N in E.
Qed.
Lemma djcl64_tiny lm : djcl (N := B64 lm) tiny = Some (Some (1858, 11, 16, BofZ 53 1024 1))%Z.
Proof.
  assert (S : match djcl (N := B64 lm) tiny with Some (Some (y, m, d, f)) => Some (y, m, d, B2SF (f : double)) | _ => None end
    = Some (1858, 11, 16, B2SF (BofZ 53 1024 1))%Z) by (vm_compute; reflexivity).
  destruct (djcl (N := B64 lm) tiny) as [[[[[y m] d] f]|]|]; try discriminate S.
  injection S as -> -> -> E. 
  assert (E' : B2SF (f : double) = B2SF (BofZ 53 1024 1)) by (rewrite E; vm_compute; reflexivity).
  apply B2SF_inj in E'. now rewrite E'.
Qed.
Lemma djcl64_refuted lm : ~ (forall x y m d f, djcl (N := B64 lm) x = Some (Some (y, m, d, f)) -> exists fr, value64 f fr /\ 0 <= fr < 1).
Proof.
  intros H. destruct (H _ _ _ _ _ (djcl64_tiny lm)) as (fr & (_ & R1) & R2).
  pose proof (fin64_Z 1 ltac:(lia)) as (_ & E). rewrite E in R1. lra.
Qed.

Lemma djcal64 lm ndp (x : double) a : pow10_good lm -> (ndp <= 9)%Z -> value64 x a -> -2395520 < a <= 534459923 ->
  let u := (10 ^ Z.max ndp 0)%Z in
  exists (w : date) (n i : Z), djcal (N := B64 lm) ndp x = Some (Some (yr w, mon w, dom w, i)) /\
    valid w /\ is_mjd w n /\ (0 <= i < u)%Z /\ Rabs (IZR (n * u + i) - a * IZR u) <= / 2 + / 2 ^ 53 * Rabs (a * IZR u).
Proof.
  intros PW K X A u. destruct (djcal_bin lm ndp x a PW K X ltac:(lra)) as (D & D1 & D2 & D3). fold u in D1, D2, D3.
  pose proof (pow10_bounds (Z.max ndp 0) ltac:(lia)) as UB. fold u in UB.
  assert (LO : (-2395520 * u <= D)%Z) by (apply (D2 (-2395520)%Z ltac:(lia)); lra).
  assert (HI : (D <= 534459923 * u)%Z) by (apply (D2 534459923%Z ltac:(lia)); lra).
  assert (Q : (-2395520 <= D / u <= 534459923)%Z) by (split; [apply Z.div_le_lower_bound; lia|apply Z.div_le_upper_bound; lia]).
  rewrite (djcal_djcl _ Q) in D3. destruct (djcl_date_spec _ Q) as (w & W1 & W2 & W3). rewrite W1 in D3.
  exists w, (D / u)%Z, (D mod u)%Z. split; [exact D3|]. split; [exact W2|]. split; [exact W3|].
  split; [apply Z.mod_pos_bound; lia|].
  replace (D / u * u + D mod u)%Z with D by (rewrite (Z.div_mod D u) at 1; lia).
  assert (BP : bpow radix2 (-53) = / 2 ^ 53) by exact (bpn 53).
  rewrite <- BP. exact D1.
Qed.

(** A libm meeting the hypothesis of djcal64: an integer power, correctly rounded. *)
Definition some_libm : libm 53 1024 := Libm 53 1024 (fun x => x) (fun x => x) (fun x => x) (fun x => x) (fun x => x) (fun x => x)
  (fun x => x) (fun x => x) (fun x _ => x) (fun x y => BofZ 53 1024 (Btrunc x ^ Btrunc y)).
Lemma some_libm_good : pow10_good some_libm.
Proof.
  intros k K. exists (IZR (10 ^ k)). pose proof (pow10_bounds k K) as B.
  assert (E : m_pow some_libm (BofZ 53 1024 10) (BofZ 53 1024 k) = BofZ 53 1024 (10 ^ k)).
  { cbn. replace (Btrunc (BofZ 53 1024 10)) with 10%Z by (vm_compute; reflexivity).
    replace (Btrunc (BofZ 53 1024 k)) with k; [reflexivity|].
    assert (C : (k = 0 \/ k = 1 \/ k = 2 \/ k = 3 \/ k = 4 \/ k = 5 \/ k = 6 \/ k = 7 \/ k = 8 \/ k = 9)%Z) by lia.
    clear B K. destruct C as [->|[->|[->|[->|[->|[->|[->|[->|[->| ->]]]]]]]]]; vm_compute; reflexivity. }
  split; [rewrite E; apply fin64_Z; lia|]. rewrite Rminus_diag_eq by reflexivity. rewrite Rabs_R0. lra.
Qed.
