(** Property theorems C07-C09, C12, C13 in IEEE 754 arithmetic (NumB): binary64
    for the [double] routines, binary32 for the [float] ones, any libm.
    Vocabulary: S_Binary, S_Angle, S_Calendar.  Models: M_Angle, M_Single. *)
From Coq Require Import ZArith Reals Bool Lia Lra.
From Flocq Require Import Core BinarySingleNaN.
From Verif Require Import Int32 Num NumB M_Calendar M_Angle M_Single S_Calendar S_Angle S_Binary L_Bin L_BinDate L_BinTf L_Binary.
Open Scope R_scope.

(** C07: djcl on every double of the range in which it is defined: the date is
    that of floor(mjd), and the fraction is right to 2^-54, exactly so when the
    MJD is not negative. *)
Theorem C07_djcl : forall lm (x : double) a, value64 x a -> -2395520 < a < 534459924 ->
  exists (w : date) (f : double) (fr : R), djcl (N := B64 lm) x = Some (Some (yr w, mon w, dom w, f)) /\
    valid w /\ is_mjd w (Zfloor a) /\ value64 f fr /\ 0 <= fr <= 1 /\
    Rabs (fr - (a - IZR (Zfloor a))) <= / 2 ^ 54 /\ (0 <= a -> fr = a - IZR (Zfloor a)).
Proof. exact djcl64. Qed.
Print Assumptions C07_djcl.

(** Outside the accepted range every double is rejected, infinities included. *)
Theorem C07_djcl_rejects : forall lm (x : double) a, value64 x a -> (a <= -2395520 \/ 1000000000 <= a) -> djcl (N := B64 lm) x = Some None.
Proof. exact djcl_bin_reject. Qed.
Print Assumptions C07_djcl_rejects.

(** Infinities are rejected; NaN passes the range test and reaches a conversion
    to int with undefined behaviour. *)
Theorem C07_djcl_not_finite : forall lm, djcl (N := B64 lm) (B754_infinity true) = Some None /\
  djcl (N := B64 lm) (B754_infinity false) = Some None /\ djcl (N := B64 lm) B754_nan = None.
Proof. exact djcl_bin_special. Qed.
Print Assumptions C07_djcl_not_finite.

(** Accepted, but the integer arithmetic overflows. *)
Theorem C07_djcl_undefined : forall lm (x : double) a, value64 x a -> 534459924 <= a < 1000000000 -> djcl (N := B64 lm) x = None.
Proof. exact djcl64_undefined. Qed.
Print Assumptions C07_djcl_undefined.

(** The fraction is not always below 1: *)
Theorem C07_fraction_below_one_refuted : forall lm,
  ~ (forall x y m d f, djcl (N := B64 lm) x = Some (Some (y, m, d, f)) -> exists fr, value64 f fr /\ 0 <= fr < 1).
Proof. exact djcl64_refuted. Qed.
Print Assumptions C07_fraction_below_one_refuted.

Example C07_case : forall lm, djcl (N := B64 lm) (Blit 53 1024 (-1) (-20)) = Some (Some (1858, 11, 16, BofZ 53 1024 1))%Z.
Proof. exact djcl64_tiny. Qed.

(** C08: djcal rounds the MJD to the requested resolution, to within the
    rounding of one product, and splits the rounded value without error. *)
Theorem C08_djcal : forall lm ndp (x : double) a, pow10_good lm -> (ndp <= 9)%Z -> value64 x a -> -2395520 < a <= 534459923 ->
  let u := (10 ^ Z.max ndp 0)%Z in
  exists (w : date) (n i : Z), djcal (N := B64 lm) ndp x = Some (Some (yr w, mon w, dom w, i)) /\
    valid w /\ is_mjd w n /\ (0 <= i < u)%Z /\ Rabs (IZR (n * u + i) - a * IZR u) <= / 2 + / 2 ^ 53 * Rabs (a * IZR u).
Proof. exact djcal64. Qed.
Print Assumptions C08_djcal.

(** A pow that qualifies exists, and rounding carries over midnight, month and year:
    MJD 51543.99999 (1999 December 31) to two decimals. *)
Example C08_pow : pow10_good some_libm.
Proof. exact some_libm_good. Qed.
Example C08_case : djcal (N := B64 some_libm) 2 (Blit 53 1024 5154399999 (-5)) = Some (Some (2000, 1, 1, 0))%Z.
Proof. vm_compute. reflexivity. Qed.

(** C09 *)
Theorem C09_dd2tf_binary : forall lm ndp (x : double) a, (ndp <= 9)%Z -> value64 x a ->
  let q := Z.max ndp 0 in let X := IZR (10 ^ q) * 86400 * Rabs a in
  X <= 9007199254740991 -> Rabs a <= 89478484 ->
  exists f, dd2tf (N := B64 lm) ndp x = Some f /\ canonical q f /\
    Rabs (IZR (units q f) - X) <= / 2 + bpow radix2 (-53) * X /\ (fd_sign f = true <-> 0 <= a).
Proof. exact dd2tf_bin_spec. Qed.
Print Assumptions C09_dd2tf_binary.

Theorem C09_cd2tf_binary : forall lm ndp (x : single) a, (ndp <= 9)%Z -> value32 x a ->
  let q := Z.max ndp 0 in let X := IZR (10 ^ q) * 86400 * Rabs a in
  X <= 9007199254740991 -> Rabs a <= 89478484 ->
  exists f, cd2tf lm ndp x = Some f /\ canonical q f /\
    Rabs (IZR (units q f) - X) <= / 2 + bpow radix2 (-53) * X /\ (fd_sign f = true <-> 0 <= a).
Proof. exact cd2tf_bin. Qed.
Print Assumptions C09_cd2tf_binary.

Theorem C09_dr2tf_binary : forall lm ndp (x : double) a, (ndp <= 9)%Z -> value64 x a ->
  let q := Z.max ndp 0 in let v := Rabs a / (2 * PI) in let Y := IZR (10 ^ q) * 86400 * v in
  Y <= 9007199254000000 -> v <= 89000000 ->
  exists f, dr2tf (N := B64 lm) ndp x = Some f /\ canonical q f /\
    Rabs (IZR (units q f) - Y) <= / 2 + 3 / 10000000000000000 * Y /\ signed_as f a.
Proof. exact dr2tf_bin. Qed.
Print Assumptions C09_dr2tf_binary.

Theorem C09_dr2af_binary : forall lm ndp (x : double) a, (ndp <= 9)%Z -> value64 x a ->
  let q := Z.max ndp 0 in let Y := IZR (10 ^ q) * 3600 * (Rabs a * (180 / PI)) in
  Y <= 9007199254000000 -> Rabs a <= 29000000 ->
  exists f, dr2af (N := B64 lm) ndp x = Some f /\ canonical q f /\
    Rabs (IZR (units q f) - Y) <= / 2 + 4 / 10000000000000000 * Y /\ signed_as f a.
Proof. exact dr2af_bin. Qed.
Print Assumptions C09_dr2af_binary.

Theorem C09_cr2tf_binary : forall lm lm32 ndp (x : single) a, (ndp <= 9)%Z -> value32 x a ->
  let q := Z.max ndp 0 in let v := Rabs a / (2 * PI) in let Y := IZR (10 ^ q) * 86400 * v in
  Y <= 9007000000000000 -> v <= 89000000 ->
  exists f, cr2tf lm lm32 ndp x = Some f /\ canonical q f /\
    Rabs (IZR (units q f) - Y) <= / 2 + 9 / 100000000 * Y /\ signed_as f a.
Proof. exact cr2tf_bin. Qed.
Print Assumptions C09_cr2tf_binary.

Theorem C09_cr2af_binary : forall lm lm32 ndp (x : single) a, (ndp <= 9)%Z -> value32 x a ->
  let q := Z.max ndp 0 in let Y := IZR (10 ^ q) * 3600 * (Rabs a * (180 / PI)) in
  Y <= 9007000000000000 -> Rabs a <= 29000000 ->
  exists f, cr2af lm lm32 ndp x = Some f /\ canonical q f /\
    Rabs (IZR (units q f) - Y) <= / 2 + 9 / 100000000 * Y /\ signed_as f a.
Proof. exact cr2af_bin. Qed.
Print Assumptions C09_cr2af_binary.

(** A carry to 24 hours, and one radian as time, as an arc, and as a float. *)
Example C09_binary_case : forall lm lm32,
  dd2tf (N := B64 lm) 1 (Blit 53 1024 99999999 (-8)) = Some (Fields 24 0 0 0 true) /\
  dr2tf (N := B64 lm) 3 (Blit 53 1024 (-1) 0) = Some (Fields 3 49 10 987 false) /\
  dr2af (N := B64 lm) 2 (Blit 53 1024 (-1) 0) = Some (Fields 57 17 44 81 false) /\
  cr2af lm lm32 1 (Blit 24 128 1 0) = Some (Fields 57 17 44 8 true).
Proof. intros. repeat split; vm_compute; reflexivity. Qed.

(** C12: the range reduction is exact with respect to the stored 2 pi, so the
    only error is the drift of that constant. *)
Theorem C12_drange_binary : forall lm (x : double) a, value64 x a -> exists k : Z, let r := a - IZR k * (2 * pi_double) in
  value64 (drange (N := B64 lm) x) r /\ Rabs r <= pi_double /\ (0 <= a -> r < pi_double) /\ (a <= 0 -> - pi_double < r) /\
  Rabs (r - (a - IZR k * (2 * PI))) <= Rabs (IZR k) * (25 / 100000000000000000).
Proof. exact drange64. Qed.
Print Assumptions C12_drange_binary.

Theorem C12_range_binary : forall lm (x : single) a, value32 x a -> exists k : Z, let r := a - IZR k * (2 * pi_float) in
  value32 (drange (N := B32 lm) x) r /\ Rabs r <= pi_float /\ (0 <= a -> r < pi_float) /\ (a <= 0 -> - pi_float < r) /\
  Rabs (r - (a - IZR k * (2 * PI))) <= Rabs (IZR k) * (19 / 100000000).
Proof. exact drange32. Qed.
Print Assumptions C12_range_binary.

Theorem C12_drange_binary_id : forall lm (x : double) a, value64 x a -> Rabs a < pi_double -> drange (N := B64 lm) x = x.
Proof. exact drange64_id. Qed.
Print Assumptions C12_drange_binary_id.
Theorem C12_range_binary_id : forall lm (x : single) a, value32 x a -> Rabs a < pi_float -> drange (N := B32 lm) x = x.
Proof. exact drange32_id. Qed.
Print Assumptions C12_range_binary_id.
Theorem C12_drange_not_finite : forall lm (x : double), is_finite x = false -> drange (N := B64 lm) x = B754_nan.
Proof. exact drange64_nan. Qed.
Print Assumptions C12_drange_not_finite.

Example C12_binary_case : value64 (Blit 53 1024 7 0) 7.
Proof. exact (fin64_Z 7 ltac:(lia)). Qed.

(** C13 *)
Theorem C13_dranrm_binary : forall lm (x : double) a, value64 x a -> exists (k : Z) (r : R),
  value64 (dranrm (N := B64 lm) x) r /\ 0 <= r <= 2 * pi_double /\ (0 <= a -> r = a - IZR k * (2 * pi_double) /\ r < 2 * pi_double) /\
  0 <= a - IZR k * (2 * pi_double) < 2 * pi_double /\ Rabs (r - (a - IZR k * (2 * pi_double))) <= / 2 ^ 51 /\
  Rabs (r - (a - IZR k * (2 * PI))) <= / 2 ^ 51 + Rabs (IZR k) * (25 / 100000000000000000).
Proof. exact dranrm64. Qed.
Print Assumptions C13_dranrm_binary.

Theorem C13_ranorm_binary : forall lm (x : single) a, value32 x a -> exists (k : Z) (r : R),
  value32 (dranrm (N := B32 lm) x) r /\ 0 <= r <= 2 * pi_float /\ (0 <= a -> r = a - IZR k * (2 * pi_float) /\ r < 2 * pi_float) /\
  0 <= a - IZR k * (2 * pi_float) < 2 * pi_float /\ Rabs (r - (a - IZR k * (2 * pi_float))) <= / 2 ^ 22 /\
  Rabs (r - (a - IZR k * (2 * PI))) <= / 2 ^ 22 + Rabs (IZR k) * (19 / 100000000).
Proof. exact dranrm32. Qed.
Print Assumptions C13_ranorm_binary.

(** The half-open range fails in binary64: -1e-20 gives 2 pi itself. *)
Theorem C13_half_open_refuted : forall lm,
  ~ (forall x a, value64 x a -> exists r, value64 (dranrm (N := B64 lm) x) r /\ 0 <= r < 2 * pi_double).
Proof. exact dranrm64_refuted. Qed.
Print Assumptions C13_half_open_refuted.
Example C13_binary_case : forall lm, value64 (dranrm (N := B64 lm) (Blit 53 1024 (-1) (-20))) (2 * pi_double).
Proof. exact dranrm_tiny. Qed.
