From Coq Require Import ZArith Reals Bool Lia Lra.
From Flocq Require Import Core BinarySingleNaN Relative.
From Verif Require Import Int32 Num NumB M_Calendar M_Angle M_Single S_Angle L_Pi L_Bin L_BinAngle L_BinDate.
From Verif Require L_Angle.
Open Scope R_scope.

(** Rounding a quotient of integers below 2^53 does not reach the next integer. *)
Lemma trunc_quot n d : (0 <= n < 9007199254740992)%Z -> (0 < d < 9007199254740992)%Z ->
  Ztrunc (rnd64 (IZR n / IZR d)) = (n / d)%Z.
Proof.
  intros N D. set (h := (n / d)%Z).
  assert (H0 : (0 <= h)%Z) by (apply Z.div_pos; lia).
  pose proof (Z.div_mod n d ltac:(lia)) as DM. pose proof (Z.mod_pos_bound n d ltac:(lia)) as MB. fold h in DM.
  assert (HN : (h <= n)%Z) by (unfold h; apply Z.div_le_upper_bound; nia).
  assert (DR : 0 < IZR d) by (apply (IZR_lt 0); lia).
  set (x := IZR n / IZR d). assert (XE : x * IZR d = IZR n) by (unfold x; field; lra).
  assert (NE : IZR n = IZR d * IZR h + IZR (n mod d)) by (rewrite <- mult_IZR, <- plus_IZR; f_equal; exact DM).
  assert (M0 : 0 <= IZR (n mod d)) by (apply (IZR_le 0); lia).
  assert (M1 : IZR (n mod d) <= IZR d - 1) by (rewrite <- minus_IZR; apply IZR_le; lia).
  assert (HR : 0 <= IZR h) by (apply (IZR_le 0); lia).
  assert (XL : IZR h <= x) by (apply Rmult_le_reg_r with (IZR d); [exact DR|]; rewrite XE, NE; nra).
  assert (XU : x <= IZR h + 1 - / IZR d).
  { apply Rmult_le_reg_r with (IZR d); [exact DR|]. rewrite XE, NE.
    replace ((IZR h + 1 - / IZR d) * IZR d) with (IZR h * IZR d + IZR d - 1) by (field; lra). lra. }
  assert (DI : 0 < / IZR d) by (apply Rinv_0_lt_compat; exact DR).
  assert (RL : IZR h <= rnd64 x) by (apply rnd_ge_fmt; [easy..|apply fmt64_Z; lia|exact XL]).
  assert (RU : rnd64 x < IZR h + 1).
  { set (e := Zdigits radix2 h).
    assert (E0 : (0 <= e)%Z) by apply Zdigits_ge_0.
    assert (XB : x < bpow radix2 e).
    { pose proof (Zdigits_correct radix2 h) as (_ & U). fold e in U. rewrite Z.abs_eq in U by lia.
      assert (L : (h + 1 <= Zpower radix2 e)%Z) by lia. apply IZR_le in L. rewrite plus_IZR, IZR_Zpower in L by exact E0. lra. }
    assert (ER : Rabs (rnd64 x - x) <= bpow radix2 (e - 53 - 1)).
    { apply (rnd_error 53 1024 x e); [rewrite Rabs_pos_eq by lra; exact XB|unfold SpecFloat.emin; lia]. }
    assert (SM : bpow radix2 (e - 53 - 1) < / IZR d).
    { apply Rmult_lt_reg_r with (IZR d); [exact DR|]. rewrite Rinv_l by lra.
      destruct (Z.eq_dec h 0) as [Z|Z].
      - unfold e. rewrite Z. cbn [Zdigits]. assert (IZR d <= IZR 9007199254740991) by (apply IZR_le; lia).
        change (bpow radix2 (0 - 53 - 1)) with (/ IZR (2 ^ 54)). change (IZR (2 ^ 54)) with 18014398509481984. lra.
      - pose proof (Zdigits_correct radix2 h) as (L & _). fold e in L. rewrite Z.abs_eq in L by lia.
        assert (E1 : (0 < e)%Z) by (apply Zdigits_gt_0; exact Z).
        assert (DH : (d * Zpower radix2 (e - 1) < 9007199254740992)%Z) by nia.
        apply IZR_lt in DH. rewrite mult_IZR, IZR_Zpower in DH by lia.
        replace (e - 53 - 1)%Z with ((e - 1) + -53)%Z by ring. rewrite bpow_plus.
        change (bpow radix2 (-53)) with (/ IZR (2 ^ 53)). change (IZR (2 ^ 53)) with 9007199254740992. lra. }
    apply Rabs_le_inv in ER. lra. }
  rewrite Ztrunc_floor by lra. apply Zfloor_imp. rewrite plus_IZR. split; assumption.
Qed.

Lemma pow10_bounds' q : (0 <= q <= 9)%Z -> (1 <= 10 ^ q <= 1000000000)%Z.
Proof. exact (pow10_bounds q). Qed.

Lemma dd2tf_bin lm ndp (x : double) a : (ndp <= 9)%Z -> fin64 x a ->
  let u := (10 ^ Z.max ndp 0)%Z in
  IZR u * 86400 * Rabs a <= 9007199254740991 ->
  let n := ZnearestA (rnd64 (IZR u * 86400 * Rabs a)) in
  (0 <= n < 9007199254740992)%Z /\
  dd2tf (N := B64 lm) ndp x =
  if (n / (u * 3600) <=? INT_MAX)%Z then
    Some (Fields (n / (u * 3600)) ((n mod (u * 3600)) / (u * 60)) ((n mod (u * 60)) / u) (n mod u) (Rle_bool 0 a))
  else None.
Proof.
  intros K X u B n. set (k := Z.max ndp 0) in *.
  assert (KB : (0 <= k <= 9)%Z) by (unfold k; lia).
  pose proof (pow10_bounds k KB) as UB. fold u in UB.
  assert (U1 : 1 <= IZR u <= 1000000000) by (split; apply IZR_le; lia).
  pose proof (Rabs_pos a) as A0.
  assert (T0 : 0 <= IZR u * 86400 * Rabs a) by (apply Rmult_le_pos; lra).
  assert (NB : (0 <= n < 9007199254740992)%Z).
  { split.
    - rewrite <- (nearA_Z 0). apply nearA_mono. apply rnd_ge_fmt; [easy..|apply fmt_0|exact T0].
    - apply Z.le_lt_trans with 9007199254740991%Z; [|lia]. rewrite <- (nearA_Z 9007199254740991). apply nearA_mono.
      apply rnd_le_fmt; [easy..|apply (fmt64_Z 9007199254740991); lia|exact B]. }
  split; [exact NB|].
  unfold dd2tf. rewrite (L_Angle.times10_ok ndp K). fold k u. unB.
  pose proof (fin64_Z u ltac:(lia)) as FU. set (rs := BofZ 53 1024 u) in *.
  assert (SM : forall z, (Z.abs z < 9007199254740992)%Z -> Rabs (IZR z) < top64).
  { intros z H. apply small_top. rewrite <- abs_IZR. apply IZR_le. lia. }
  assert (MUL : forall (p q : double) (y z : Z), fin64 p (IZR y) -> fin64 q (IZR z) -> (Z.abs (y * z) < 9007199254740992)%Z ->
     fin64 (Bmult mode_NE p q) (IZR (y * z))).
  { intros p q y z P Q H. rewrite mult_IZR. apply fin_mul_exact; auto; rewrite <- mult_IZR; [apply fmt64_Z|apply SM]; exact H. }
  assert (SUB : forall (p q : double) (y z : Z), fin64 p (IZR y) -> fin64 q (IZR z) -> (Z.abs (y - z) < 9007199254740992)%Z ->
     fin64 (Bminus mode_NE p q) (IZR (y - z))).
  { intros p q y z P Q H. rewrite minus_IZR. apply fin_sub_exact; auto; rewrite <- minus_IZR; [apply fmt64_Z|apply SM]; exact H. }
  assert (QUO : forall (p q : double) (y z : Z), fin64 p (IZR y) -> fin64 q (IZR z) -> (0 <= y < 9007199254740992)%Z -> (0 < z < 9007199254740992)%Z ->
     fin64 (Bnearbyint mode_ZR (Bdiv mode_NE p q)) (IZR (y / z))).
  { intros p q y z P Q H1 H2. rewrite <- (trunc_quot y z H1 H2). apply fin_trunc. apply fin_div; auto; [apply IZR_neq; lia|].
    apply rnd_top. rewrite Rabs_pos_eq.
    - apply Rle_trans with (IZR y); [|apply (IZR_le y 1000000000000000000000000000); lia].
      assert (1 <= IZR z) by (apply (IZR_le 1); lia). assert (0 <= IZR y) by (apply (IZR_le 0); lia).
      apply Rmult_le_reg_r with (IZR z); [lra|]. unfold Rdiv. rewrite Rmult_assoc, Rinv_l by lra. nra.
    - apply Rmult_le_pos; [apply (IZR_le 0); lia|]. apply Rlt_le, Rinv_0_lt_compat, (IZR_lt 0). lia. }
  pose proof (MUL _ _ _ _ FU (fin64_Z 60 ltac:(lia)) ltac:(lia)) as FM. set (rm := Bmult mode_NE rs (BofZ 53 1024 60)) in *.
  pose proof (MUL _ _ _ _ FM (fin64_Z 60 ltac:(lia)) ltac:(lia)) as FH. set (rh := Bmult mode_NE rm (BofZ 53 1024 60)) in *.
  pose proof (MUL _ _ _ _ FU (fin64_Z 86400 ltac:(lia)) ltac:(lia)) as FT.
  pose proof (fin_abs 53 1024 _ _ X) as FA.
  assert (FI : fin64 (Bmult mode_NE (Bmult mode_NE rs (BofZ 53 1024 86400)) (Babs x)) (rnd64 (IZR u * 86400 * Rabs a))).
  { rewrite <- (mult_IZR u 86400). apply fin_mul; auto. apply rnd_top. rewrite mult_IZR. rewrite Rabs_pos_eq by exact T0. lra. }
  apply (fin_anint 53 1024) in FI. fold n in FI. set (i0 := Bnearbyint mode_NA _) in *.
  replace (u * 60 * 60)%Z with (u * 3600)%Z in FH by ring.
  pose proof (QUO _ _ _ _ FI FH NB ltac:(lia)) as QH. set (hh := Bnearbyint mode_ZR (Bdiv mode_NE i0 rh)) in *.
  pose proof (Z.div_mod n (u * 3600) ltac:(lia)) as DH. pose proof (Z.mod_pos_bound n (u * 3600) ltac:(lia)) as BH.
  set (h := (n / (u * 3600))%Z) in *. set (n1 := (n mod (u * 3600))%Z) in *.
  assert (H0 : (0 <= h)%Z) by (apply Z.div_pos; lia).
  pose proof (MUL _ _ _ _ QH FH ltac:(lia)) as FHH.
  pose proof (SUB _ _ _ _ FI FHH ltac:(lia)) as F1. replace (n - h * (u * 3600))%Z with n1 in F1 by lia.
  set (i1 := Bminus mode_NE i0 (Bmult mode_NE hh rh)) in *.
  pose proof (QUO _ _ _ _ F1 FM ltac:(lia) ltac:(lia)) as QM. set (mm := Bnearbyint mode_ZR (Bdiv mode_NE i1 rm)) in *.
  pose proof (Z.div_mod n1 (u * 60) ltac:(lia)) as DM. pose proof (Z.mod_pos_bound n1 (u * 60) ltac:(lia)) as BM.
  assert (M12 : (n1 mod (u * 60) = n mod (u * 60))%Z).
  { apply (Z.mod_unique_pos n (u * 60) (h * 60 + n1 / (u * 60))); [exact BM|]. lia. }
  rewrite <- M12 in *. set (m := (n1 / (u * 60))%Z) in *. set (n2 := (n1 mod (u * 60))%Z) in *.
  assert (M0 : (0 <= m < 60)%Z) by (split; [apply Z.div_pos; lia|apply Z.div_lt_upper_bound; lia]).
  pose proof (MUL _ _ _ _ QM FM ltac:(lia)) as FMM.
  pose proof (SUB _ _ _ _ F1 FMM ltac:(lia)) as F2. replace (n1 - m * (u * 60))%Z with n2 in F2 by lia.
  set (i2 := Bminus mode_NE i1 (Bmult mode_NE mm rm)) in *.
  pose proof (QUO _ _ _ _ F2 FU ltac:(lia) ltac:(lia)) as QS. set (ss := Bnearbyint mode_ZR (Bdiv mode_NE i2 rs)) in *.
  pose proof (Z.div_mod n2 u ltac:(lia)) as DS. pose proof (Z.mod_pos_bound n2 u ltac:(lia)) as BS.
  assert (M23 : (n2 mod u = n mod u)%Z).
  { apply (Z.mod_unique_pos n u (h * 3600 + m * 60 + n2 / u)); [exact BS|]. lia. }
  rewrite <- M23 in *. set (s := (n2 / u)%Z) in *. set (n3 := (n2 mod u)%Z) in *.
  assert (S0 : (0 <= s < 60)%Z) by (split; [apply Z.div_pos; lia|apply Z.div_lt_upper_bound; lia]).
  pose proof (MUL _ _ _ _ QS FU ltac:(lia)) as FSS.
  pose proof (SUB _ _ _ _ F2 FSS ltac:(lia)) as F3. replace (n2 - s * u)%Z with n3 in F3 by lia.
  set (i3 := Bminus mode_NE i2 (Bmult mode_NE ss rs)) in *.
  pose proof (SUB _ _ _ _ FU (fin64_Z 1 ltac:(lia)) ltac:(lia)) as F4.
  rewrite (fin_ltb 53 1024 _ _ _ _ F4 F3). rewrite Rlt_bool_false by (apply IZR_le; lia).
  rewrite (fin_nint 53 1024 _ _ QH), (fin_nint 53 1024 _ _ QM), (fin_nint 53 1024 _ _ QS), (fin_nint 53 1024 _ _ F3).
  rewrite (chk_small m), (chk_small s), (chk_small n3) by lia.
  rewrite (fin_leb 53 1024 _ _ _ _ (fin64_Z 0 ltac:(lia)) X).
  destruct (Z.leb_spec h INT_MAX) as [L|L]; unfold INT_MAX in L.
  - rewrite (chk_small h) by lia. f_equal. f_equal; lia.
  - replace (chk h) with (@None Z); [reflexivity|]. unfold chk, in_int, INT_MIN, INT_MAX.
    rewrite (proj2 (Z.leb_gt h 2147483647)) by lia. now rewrite andb_false_r.
Qed.

(** Fields of a unit count. *)
Lemma fields_of n u sg : (0 <= n)%Z -> (0 < u)%Z -> forall q, u = (10 ^ q)%Z ->
  let f := Fields (n / (u * 3600)) ((n mod (u * 3600)) / (u * 60)) ((n mod (u * 60)) / u) (n mod u) sg in
  canonical q f /\ units q f = n.
Proof.
  intros N U q E f. unfold canonical, units, f; cbn [fd_h fd_m fd_s fd_f]. rewrite <- E.
  pose proof (Z.div_mod n (u * 3600) ltac:(lia)) as DH. pose proof (Z.mod_pos_bound n (u * 3600) ltac:(lia)) as BH.
  set (h := (n / (u * 3600))%Z) in *. set (n1 := (n mod (u * 3600))%Z) in *.
  assert (H0 : (0 <= h)%Z) by (apply Z.div_pos; lia).
  pose proof (Z.div_mod n1 (u * 60) ltac:(lia)) as DM. pose proof (Z.mod_pos_bound n1 (u * 60) ltac:(lia)) as BM.
  assert (M12 : (n1 mod (u * 60) = n mod (u * 60))%Z).
  { apply (Z.mod_unique_pos n (u * 60) (h * 60 + n1 / (u * 60))); [exact BM|]. lia. }
  rewrite <- M12 in *. set (m := (n1 / (u * 60))%Z) in *. set (n2 := (n1 mod (u * 60))%Z) in *.
  assert (M0 : (0 <= m < 60)%Z) by (split; [apply Z.div_pos; lia|apply Z.div_lt_upper_bound; lia]).
  pose proof (Z.div_mod n2 u ltac:(lia)) as DS. pose proof (Z.mod_pos_bound n2 u ltac:(lia)) as BS.
  assert (M23 : (n2 mod u = n mod u)%Z).
  { apply (Z.mod_unique_pos n u (h * 3600 + m * 60 + n2 / u)); [exact BS|]. lia. }
  rewrite <- M23 in *. set (s := (n2 / u)%Z) in *. set (n3 := (n2 mod u)%Z) in *.
  assert (S0 : (0 <= s < 60)%Z) by (split; [apply Z.div_pos; lia|apply Z.div_lt_upper_bound; lia]).
  repeat split; lia.
Qed.

Lemma bp53 : bpow radix2 (-53) = / 9007199254740992.
Proof. reflexivity. Qed.

Lemma dd2tf_bin_spec lm ndp (x : double) a : (ndp <= 9)%Z -> fin64 x a ->
  let q := Z.max ndp 0 in let X := IZR (10 ^ q) * 86400 * Rabs a in
  X <= 9007199254740991 -> Rabs a <= 89478484 ->
  exists f, dd2tf (N := B64 lm) ndp x = Some f /\ canonical q f /\
    Rabs (IZR (units q f) - X) <= / 2 + bpow radix2 (-53) * X /\ (fd_sign f = true <-> 0 <= a).
Proof.
  intros K FX q X B A. destruct (dd2tf_bin lm ndp x a K FX B) as (NB & E). fold q in NB, E.
  pose proof (pow10_bounds q ltac:(unfold q; lia)) as UB.
  set (u := (10 ^ q)%Z) in *. change (IZR u * 86400 * Rabs a) with X in NB, E.
  assert (U1 : 1 <= IZR u) by (apply (IZR_le 1); lia). pose proof (Rabs_pos a) as A0.
  assert (X0 : 0 <= X) by (unfold X; apply Rmult_le_pos; lra).
  pose proof (nearest_rnd X) as NR. rewrite (Rabs_pos_eq X X0) in NR.
  set (n := ZnearestA (rnd64 X)) in *.
  assert (HB : (n / (u * 3600) <= INT_MAX)%Z).
  { assert (NX : IZR n <= IZR (u * 86400 * 89478484 + 2)).
    { rewrite plus_IZR, !mult_IZR. rewrite bp53 in NR. apply Rabs_le_inv in NR.
      assert (X <= IZR u * 86400 * 89478484) by (unfold X; apply Rmult_le_compat_l; lra). lra. }
    apply le_IZR in NX. unfold INT_MAX. apply Z.lt_succ_r, Z.div_lt_upper_bound; lia. }
  apply Z.leb_le in HB. rewrite HB in E. eexists. split; [exact E|].
  destruct (fields_of n u (Rle_bool 0 a) ltac:(lia) ltac:(lia) q eq_refl) as (C1 & C2).
  split; [exact C1|]. split; [rewrite C2; exact NR|]. cbn [fd_sign]. split.
  - intros T. apply Rnot_lt_le. intros L. now rewrite Rle_bool_false in T.
  - intros L. now apply Rle_bool_true.
Qed.

(** With the interval [d] known to a relative [e], or so small that no unit
    shows. *)
Lemma dd2tf_bin_near lm ndp (x : double) d v e c : (ndp <= 9)%Z -> fin64 x d ->
  let q := Z.max ndp 0 in let Y := IZR (10 ^ q) * 86400 * v in
  0 <= v -> 0 <= e -> e + bpow radix2 (-53) * (1 + e) <= c -> (1 + e) * Y <= 9007199254740991 -> (1 + e) * v <= 89478484 ->
  (Rabs (Rabs d - v) <= e * v \/ (Rabs d <= / 1000000000000000000 /\ v <= / 1000000000000000000)) ->
  exists f, dd2tf (N := B64 lm) ndp x = Some f /\ canonical q f /\
    Rabs (IZR (units q f) - Y) <= / 2 + c * Y /\ (fd_sign f = true <-> 0 <= d).
Proof.
  intros K FX q Y V0 E0 CE B A C.
  pose proof (pow10_bounds q ltac:(unfold q; lia)) as UB. set (u := (10 ^ q)%Z) in *.
  assert (U1 : 1 <= IZR u <= 1000000000) by (split; apply IZR_le; lia).
  assert (T1 : 86400 <= IZR u * 86400 <= 86400000000000) by lra. set (T := IZR u * 86400) in *.
  assert (Y0 : 0 <= Y) by (unfold Y; apply Rmult_le_pos; lra). pose proof (Rabs_pos d) as DP.
  assert (D : T * Rabs d <= 9007199254740991 /\ Rabs d <= 89478484).
  { destruct C as [C|C].
    - apply Rabs_le_inv in C. split; [|lra]. apply Rle_trans with (T * ((1 + e) * v)); [apply Rmult_le_compat_l; lra|].
      replace (T * ((1 + e) * v)) with ((1 + e) * Y) by (unfold Y; fold T; ring). exact B.
    - destruct C as (C1 & C2). split; [|lra].
      apply Rle_trans with (86400000000000 * 1); [|lra]. apply Rmult_le_compat; lra. }
  destruct D as (D1 & D2).
  destruct (dd2tf_bin_spec lm ndp x d K FX D1 D2) as (f & F1 & F2 & F3 & F4). fold q u T in F3.
  exists f. split; [exact F1|]. split; [exact F2|]. split; [|exact F4].
  fold q in F2. set (n := units q f) in *. rewrite bp53 in *.
  assert (N0 : (0 <= n)%Z).
  { unfold n, units. unfold canonical in F2. fold u in F2. fold u. nia. }
  apply IZR_le in N0. assert (CY : (e + / 9007199254740992 * (1 + e)) * Y <= c * Y) by (apply Rmult_le_compat_r; lra).
  destruct C as [C|C].
  - assert (TD : Rabs (T * Rabs d - Y) <= e * Y).
    { unfold Y. fold T. rewrite <- Rmult_minus_distr_l, Rabs_mult, (Rabs_pos_eq T) by lra.
      replace (e * (T * v)) with (T * (e * v)) by ring. apply Rmult_le_compat_l; [lra|exact C]. }
    apply Rabs_le_inv in TD. apply Rabs_le_inv in F3.
    assert (T * Rabs d <= (1 + e) * Y) by lra.
    apply Rabs_le. lra.
  - destruct C as (C1 & C2).
    assert (TS : T * Rabs d <= / 1000).
    { apply Rle_trans with (86400000000000 * / 1000000000000000000); [|lra]. apply Rmult_le_compat; lra. }
    assert (YS : Y <= / 1000).
    { unfold Y. fold T. apply Rle_trans with (86400000000000 * / 1000000000000000000); [|lra]. apply Rmult_le_compat; lra. }
    apply Rabs_le_inv in F3. assert (IZR n < 1) by lra. apply (lt_IZR n 1) in H. apply (le_IZR 0 n) in N0.
    replace n with 0%Z by lia. assert (0 <= (e + / 9007199254740992 * (1 + e)) * Y) by (apply Rmult_le_pos; lra).
    apply Rabs_le. lra.
Qed.

(** ** Radians *)
Section Rel.
Context (prec emax : Z) {Hp : Prec_gt_0 prec} {Hm : Prec_lt_emax prec emax}.
Notation emin := (SpecFloat.emin prec emax).
Lemma rel_err x : bpow radix2 (emin + prec - 1) <= Rabs x -> Rabs (rnd prec emax x - x) <= bpow radix2 (- prec) * Rabs x.
Proof.
  intros H. pose proof (relative_error_N_FLT radix2 emin prec Hp (fun z => negb (Z.even z)) x H) as E.
  replace (/ 2 * bpow radix2 (- prec + 1)) with (bpow radix2 (- prec)) in E
    by (rewrite bpow_plus; change (bpow radix2 1) with 2; lra).
  exact E.
Qed.
Lemma rnd_abs x : Rabs (rnd prec emax x) = rnd prec emax (Rabs x).
Proof.
  destruct (Rle_or_lt 0 x) as [H|H].
  - rewrite (Rabs_pos_eq x H). apply Rabs_pos_eq. apply rnd_ge_fmt; [easy..|apply fmt_0|exact H].
  - rewrite (Rabs_left x H), rnd_opp. apply Rabs_left1. apply rnd_le_fmt; [easy..|apply fmt_0|lra].
Qed.
Lemma fmt_bpow e : (emin <= e)%Z -> fmt prec emax (bpow radix2 e).
Proof.
  intros H. rewrite <- (Rmult_1_l (bpow radix2 e)). apply (fmt_F2R prec emax 1 e); [|exact H].
  apply (Z.pow_gt_1 2 prec); [lia|]. exact Hp.
Qed.
(** A rounded value, relative to a nearby one, outside underflow. *)
Lemma rnd_near w v e e' : (emin + prec - 1 <= -100)%Z -> (0 < prec)%Z -> 0 <= v -> 0 <= e <= / 2 ->
  e + bpow radix2 (- prec) * (1 + e) <= e' -> Rabs (Rabs w - v) <= e * v ->
  Rabs (Rabs (rnd prec emax w) - v) <= e' * v \/
  (Rabs (rnd prec emax w) <= / 1000000000000000000 /\ v <= / 1000000000000000000).
Proof.
  intros EM P0 V E E' W.
  destruct (Rle_or_lt (bpow radix2 (emin + prec - 1)) (Rabs w)) as [H|H].
  - left. pose proof (rel_err (Rabs w)) as RE. rewrite Rabs_Rabsolu, <- rnd_abs in RE. specialize (RE H).
    apply Rabs_le_inv in W. pose proof (bpow_gt_0 radix2 (- prec)) as BP.
    assert (bpow radix2 (- prec) * Rabs w <= bpow radix2 (- prec) * ((1 + e) * v)) by (apply Rmult_le_compat_l; lra).
    assert ((e + bpow radix2 (- prec) * (1 + e)) * v <= e' * v) by (apply Rmult_le_compat_r; lra).
    apply Rabs_le_inv in RE. apply Rabs_le. lra.
  - right. assert (S : Rabs w <= bpow radix2 (-100)).
    { apply Rlt_le. eapply Rlt_le_trans; [exact H|]. apply bpow_le. exact EM. }
    assert (T : bpow radix2 (-100) <= / 10000000000000000000).
    { change (bpow radix2 (-100)) with (/ IZR (2 ^ 100)). apply Rinv_le; [lra|]. apply IZR_le. vm_compute. discriminate. }
    split.
    + apply Rle_trans with (bpow radix2 (-100)); [|lra]. apply rnd_abs_le; [easy..| |exact S].
      apply fmt_bpow. lia.
    + apply Rabs_le_inv in W. assert (e * v <= / 2 * v) by (apply Rmult_le_compat_r; lra). lra.
Qed.
(** The sign survives outside underflow. *)
Lemma rnd_sign w : (emin + prec - 1 <= -100)%Z -> (0 < prec)%Z ->
  (0 <= w -> 0 <= rnd prec emax w) /\ (w <= - bpow radix2 (-100) -> rnd prec emax w < 0).
Proof.
  intros EM P0. split; intros H.
  - apply rnd_ge_fmt; [easy..|apply fmt_0|exact H].
  - assert (rnd prec emax w <= - bpow radix2 (-100)) by (apply rnd_le_fmt; [easy..|apply fmt_opp, fmt_bpow; lia|exact H]).
    pose proof (bpow_gt_0 radix2 (-100)). lra.
Qed.
End Rel.

Lemma pi64_close : 0 < PI - pi64 < / 8000000000000000.
Proof. rewrite pi64_value. pose proof PI_bounds. lra. Qed.
Lemma pi32_close : 0 < pi32 - PI < / 11000000.
Proof. rewrite pi32_value. pose proof PI_bounds. lra. Qed.

(** Dividing by a nearby divisor. *)
Lemma div_near a p p' e : 0 < p -> 0 < p' -> 0 <= e -> Rabs (p - p') <= e * p' -> Rabs (Rabs (a / p') - Rabs a / p) <= e * (Rabs a / p).
Proof.
  intros P P' E D. unfold Rdiv at 1. rewrite Rabs_mult, (Rabs_pos_eq (/ p')) by (apply Rlt_le, Rinv_0_lt_compat; lra).
  replace (Rabs a * / p' - Rabs a / p) with ((Rabs a / p) * ((p - p') / p')) by (field; lra).
  rewrite Rabs_mult. unfold Rdiv at 2. rewrite Rabs_mult, (Rabs_pos_eq (/ p')) by (apply Rlt_le, Rinv_0_lt_compat; lra).
  assert (V : 0 <= Rabs a / p) by (apply Rmult_le_pos; [apply Rabs_pos|apply Rlt_le, Rinv_0_lt_compat; lra]).
  rewrite (Rabs_pos_eq (Rabs a / p)) by exact V. rewrite (Rmult_comm e). apply Rmult_le_compat_l; [exact V|].
  apply Rmult_le_reg_r with p'; [lra|]. rewrite Rmult_assoc, Rinv_l, Rmult_1_r by lra. exact D.
Qed.
Lemma mul_near a f f' e : 0 < f -> 0 < f' -> Rabs (f' - f) <= e * f -> Rabs (Rabs (a * f') - Rabs a * f) <= e * (Rabs a * f).
Proof.
  intros F F' D. rewrite Rabs_mult, (Rabs_pos_eq f') by lra. rewrite <- Rmult_minus_distr_l, Rabs_mult, Rabs_Rabsolu.
  replace (e * (Rabs a * f)) with (Rabs a * (e * f)) by ring. apply Rmult_le_compat_l; [apply Rabs_pos|exact D].
Qed.
Lemma bp24 : bpow radix2 (-24) = / 16777216.
Proof. reflexivity. Qed.

(** Signs of a quotient or a product, up to underflow. *)
Definition sign_of (f : fields) (a : R) : Prop :=
  (0 <= a -> fd_sign f = true) /\ (a <= - / 1000000000000000000 -> fd_sign f = false).
Lemma tiny100 : 0 < bpow radix2 (-100) <= / 100000000000000000000.
Proof.
  split; [apply bpow_gt_0|]. change (bpow radix2 (-100)) with (/ IZR (2 ^ 100)). apply Rinv_le; [lra|].
  apply IZR_le. vm_compute. discriminate.
Qed.
Lemma sign_of_rnd prec emax {Hp : Prec_gt_0 prec} {Hm : Prec_lt_emax prec emax} f a k :
  (SpecFloat.emin prec emax + prec - 1 <= -100)%Z -> (0 < prec)%Z -> / 10 <= k ->
  (fd_sign f = true <-> 0 <= rnd prec emax (a * k)) -> sign_of f a.
Proof.
  intros EM P K S. destruct (rnd_sign prec emax (a * k) EM P) as (S1 & S2). pose proof tiny100 as T.
  split; intros A.
  - apply S, S1. apply Rmult_le_pos; lra.
  - destruct (fd_sign f); [|reflexivity]. assert (0 <= rnd prec emax (a * k)) by (now apply S).
    assert (a * k <= - / 1000000000000000000 * / 10).
    { replace (a * k) with (- (- a * k)) by ring. replace (- / 1000000000000000000 * / 10) with (- (/ 1000000000000000000 * / 10)) by ring.
      apply Ropp_le_contravar. apply Rmult_le_compat; lra. }
    specialize (S2 ltac:(lra)). lra.
Qed.

Lemma dr2tf_bin lm ndp (x : double) a : (ndp <= 9)%Z -> fin64 x a ->
  let q := Z.max ndp 0 in let v := Rabs a / (2 * PI) in let Y := IZR (10 ^ q) * 86400 * v in
  Y <= 9007199254000000 -> v <= 89000000 ->
  exists f, dr2tf (N := B64 lm) ndp x = Some f /\ canonical q f /\
    Rabs (IZR (units q f) - Y) <= / 2 + 3 / 10000000000000000 * Y /\ sign_of f a.
Proof.
  intros K FX q v Y B A. pose proof pi64_close as PC. pose proof PI_bounds as PB.
  assert (V0 : 0 <= v) by (apply Rmult_le_pos; [apply Rabs_pos|apply Rlt_le, Rinv_0_lt_compat; lra]).
  assert (Y0 : 0 <= Y).
  { apply Rmult_le_pos; [|exact V0]. pose proof (pow10_bounds q ltac:(unfold q; lia)) as UB. destruct UB as (U & _). apply IZR_le in U. lra. }
  assert (W : Rabs (Rabs (a / (2 * pi64)) - v) <= / 20000000000000000 * v).
  { apply div_near; [lra..|]. apply Rabs_le. lra. }
  assert (FD : fin64 (Bdiv mode_NE x (n_2pi : B64 lm)) (rnd64 (a / (2 * pi64)))).
  { apply fin_div; [exact FX|apply twopi64_fin|lra|]. apply rnd_top. apply Rabs_le_inv in W. lra. }
  assert (NR := rnd_near 53 1024 (a / (2 * pi64)) v (/ 20000000000000000) (17 / 100000000000000000)
    ltac:(vm_compute; discriminate) ltac:(lia) V0 ltac:(lra) ltac:(change (- (53))%Z with (-53)%Z; rewrite bp53; lra) W).
  destruct (dd2tf_bin_near lm ndp _ _ v (17 / 100000000000000000) (3 / 10000000000000000) K FD V0 ltac:(lra) ltac:(rewrite bp53; lra)
     ltac:(fold q; fold Y; lra) ltac:(lra) NR) as (f & F1 & F2 & F3 & F4).
  exists f. split; [exact F1|]. split; [exact F2|]. split; [exact F3|].
  apply (sign_of_rnd 53 1024 f a (/ (2 * pi64))); [vm_compute; discriminate|lia| |exact F4].
  apply Rinv_le; lra.
Qed.

Lemma factor64 : exists F, (forall lm, fin64 (n_div (n_ofZ 15 : B64 lm) n_2pi) F) /\ Rabs (F - 15 / (2 * PI)) <= 17 / 100000000000000000 * (15 / (2 * PI)).
Proof.
  exists (IZR 5375776068021243 * bpow radix2 (-51)). split.
  - intros lm. apply (finite_lit 53 1024 (n_div (n_ofZ 15 : B64 lm) n_2pi) 5375776068021243 (-51)). vm_compute. reflexivity.
  - change (bpow radix2 (-51)) with (/ IZR (2 ^ 51)). change (IZR (2 ^ 51)) with 2251799813685248. pose proof PI_bounds as PB.
    assert (I1 : / 3.1415926535897932384627 <= / PI <= / 3.1415926535897932384626) by (split; apply Rinv_le; lra).
    replace (15 / (2 * PI)) with (15 / 2 * / PI) by (field; lra). apply Rabs_le. lra.
Qed.

Lemma radians a : Rabs a * (15 / (2 * PI)) = 15 * (Rabs a / (2 * PI)).
Proof. field. pose proof PI_bounds. lra. Qed.
Lemma degrees_units u a : IZR u * 86400 * (Rabs a * (15 / (2 * PI))) = IZR u * 3600 * (Rabs a * (180 / PI)).
Proof. field. pose proof PI_bounds. lra. Qed.
Lemma fac_bounds : 2 <= 15 / (2 * PI) <= 3.
Proof.
  pose proof PI_bounds as PB. assert (I1 : / 4 <= / PI <= / 3) by (split; apply Rinv_le; lra).
  assert (I2 : / 3.2 <= / PI) by (apply Rinv_le; lra).
  replace (15 / (2 * PI)) with (15 / 2 * / PI) by (field; lra). lra.
Qed.

Lemma dr2af_bin lm ndp (x : double) a : (ndp <= 9)%Z -> fin64 x a ->
  let q := Z.max ndp 0 in let Y := IZR (10 ^ q) * 3600 * (Rabs a * (180 / PI)) in
  Y <= 9007199254000000 -> Rabs a <= 29000000 ->
  exists f, dr2af (N := B64 lm) ndp x = Some f /\ canonical q f /\
    Rabs (IZR (units q f) - Y) <= / 2 + 4 / 10000000000000000 * Y /\ sign_of f a.
Proof.
  intros K FX q Y B A. destruct factor64 as (F & FF & FC). pose proof fac_bounds as FB.
  unfold Y in *. rewrite <- degrees_units in *. clear Y. set (v := Rabs a * (15 / (2 * PI))) in *.
  set (Y := IZR (10 ^ q) * 86400 * v) in *.
  assert (V0 : 0 <= v) by (apply Rmult_le_pos; [apply Rabs_pos|lra]).
  assert (VB : v <= 29000000 * 3) by (apply Rmult_le_compat; [apply Rabs_pos|lra..]).
  assert (Y0 : 0 <= Y).
  { apply Rmult_le_pos; [|exact V0]. pose proof (pow10_bounds q ltac:(unfold q; lia)) as UB. destruct UB as (U & _). apply IZR_le in U. lra. }
  pose proof (Rabs_le_inv _ _ FC) as FC'.
  assert (W : Rabs (Rabs (a * F) - v) <= 17 / 100000000000000000 * v) by (apply mul_near; lra).
  assert (FD : fin64 (Bmult mode_NE x (n_div (n_ofZ 15 : B64 lm) n_2pi)) (rnd64 (a * F))).
  { apply fin_mul; [exact FX|apply FF|]. apply rnd_top. apply Rabs_le_inv in W. lra. }
  assert (NR := rnd_near 53 1024 (a * F) v (17 / 100000000000000000) (285 / 1000000000000000000)
    ltac:(vm_compute; discriminate) ltac:(lia) V0 ltac:(lra) ltac:(change (- (53))%Z with (-53)%Z; rewrite bp53; lra) W).
  destruct (dd2tf_bin_near lm ndp _ _ v (285 / 1000000000000000000) (4 / 10000000000000000) K FD V0 ltac:(lra) ltac:(rewrite bp53; lra)
     ltac:(fold q; fold Y; lra) ltac:(lra) NR) as (f & F1 & F2 & F3 & F4).
  exists f. split; [exact F1|]. split; [exact F2|]. split; [exact F3|].
  apply (sign_of_rnd 53 1024 f a F); [vm_compute; discriminate|lia|lra|exact F4].
Qed.

(** ** Single precision *)
Notation fin32 := (fin 24 128).
Notation rnd32 := (rnd 24 128).

Lemma widen_fin (x : single) a : fin32 x a -> fin64 (widen x) a.
Proof.
  intros (FX & <-). destruct x as [s|s| |s m e BD]; try discriminate FX; [now split|].
  unfold widen, convert. destruct (mant 24 128 m e BD) as (M1 & M2).
  assert (M3 : (-149 <= e)%Z) by exact M2.
  pose proof (binary_normalize_correct 53 1024 Hp53 Hm1024 mode_NE (SpecFloat.cond_Zopp s (Zpos m)) e s) as C. cbv zeta in C.
  assert (V : F2R (Float radix2 (SpecFloat.cond_Zopp s (Zpos m)) e) = B2R (B754_finite s m e BD)) by reflexivity.
  assert (FM : fmt64 (F2R (Float radix2 (SpecFloat.cond_Zopp s (Zpos m)) e))).
  { apply (fmt_F2R 53 1024 (SpecFloat.cond_Zopp s (Zpos m)) e); [|apply Z.le_trans with (-149)%Z; [vm_compute; discriminate|exact M3]]. apply Z.lt_trans with (2 ^ 24)%Z; [|reflexivity]. rewrite abs_cond_Zopp. exact M1. }
  change (round radix2 (SpecFloat.fexp 53 1024) (round_mode mode_NE) ?z) with (rnd64 z) in C.
  rewrite (rnd_fmt 53 1024 _ FM) in C. rewrite Rlt_bool_true in C.
  - destruct C as (C1 & C2 & _). split; [exact C2|]. rewrite C1. exact V.
  - rewrite V. pose proof (abs_B2R_lt_emax 24 128 (B754_finite s m e BD)) as T.
    eapply Rlt_trans; [exact T|]. apply bpow_lt. reflexivity.
Qed.

Lemma rnd_top32 x : Rabs x <= 1000000000000000000000000000 -> Rabs (rnd32 x) < top 128.
Proof.
  intros H. apply Rle_lt_trans with (bpow radix2 90); [|apply bpow_lt; reflexivity].
  apply rnd_abs_le; [easy..| |rewrite big; lra]. apply fmt_bpow; [easy|unfold SpecFloat.emin; lia].
Qed.

Lemma cd2tf_bin lm ndp (x : single) a : (ndp <= 9)%Z -> fin32 x a ->
  let q := Z.max ndp 0 in let X := IZR (10 ^ q) * 86400 * Rabs a in
  X <= 9007199254740991 -> Rabs a <= 89478484 ->
  exists f, cd2tf lm ndp x = Some f /\ canonical q f /\
    Rabs (IZR (units q f) - X) <= / 2 + bpow radix2 (-53) * X /\ (fd_sign f = true <-> 0 <= a).
Proof. intros K FX. exact (dd2tf_bin_spec lm ndp (widen x) a K (widen_fin x a FX)). Qed.

Lemma cr2tf_bin lm lm32 ndp (x : single) a : (ndp <= 9)%Z -> fin32 x a ->
  let q := Z.max ndp 0 in let v := Rabs a / (2 * PI) in let Y := IZR (10 ^ q) * 86400 * v in
  Y <= 9007000000000000 -> v <= 89000000 ->
  exists f, cr2tf lm lm32 ndp x = Some f /\ canonical q f /\
    Rabs (IZR (units q f) - Y) <= / 2 + 9 / 100000000 * Y /\ sign_of f a.
Proof.
  intros K FX q v Y B A. pose proof pi32_close as PC. pose proof PI_bounds as PB.
  assert (V0 : 0 <= v) by (apply Rmult_le_pos; [apply Rabs_pos|apply Rlt_le, Rinv_0_lt_compat; lra]).
  assert (Y0 : 0 <= Y).
  { apply Rmult_le_pos; [|exact V0]. pose proof (pow10_bounds q ltac:(unfold q; lia)) as UB. destruct UB as (U & _). apply IZR_le in U. lra. }
  assert (W : Rabs (Rabs (a / (2 * pi32)) - v) <= 3 / 100000000 * v).
  { apply div_near; [lra..|]. apply Rabs_le. lra. }
  assert (FD : fin32 (Bdiv mode_NE x (n_2pi : B32 lm32)) (rnd32 (a / (2 * pi32)))).
  { apply fin_div; [exact FX|apply twopi32_fin|lra|]. apply rnd_top32. apply Rabs_le_inv in W. lra. }
  assert (NR := rnd_near 24 128 (a / (2 * pi32)) v (3 / 100000000) (8999 / 100000000000)
    ltac:(vm_compute; discriminate) ltac:(lia) V0 ltac:(lra) ltac:(change (- (24))%Z with (-24)%Z; rewrite bp24; lra) W).
  destruct (dd2tf_bin_near lm ndp _ _ v (8999 / 100000000000) (9 / 100000000) K (widen_fin _ _ FD) V0 ltac:(lra) ltac:(rewrite bp53; lra)
     ltac:(fold q; fold Y; lra) ltac:(lra) NR) as (f & F1 & F2 & F3 & F4).
  exists f. split; [exact F1|]. split; [exact F2|]. split; [exact F3|].
  apply (sign_of_rnd 24 128 f a (/ (2 * pi32))); [vm_compute; discriminate|lia| |exact F4].
  apply Rinv_le; lra.
Qed.

Lemma factor32 : exists F, (forall lm, fin32 (narrow (n_div (n_ofZ 15 : B64 lm) n_2pi)) F) /\ Rabs (F - 15 / (2 * PI)) <= 22 / 1000000000 * (15 / (2 * PI)).
Proof.
  exists (IZR 10013163 * bpow radix2 (-22)). split.
  - intros lm. apply (finite_lit 24 128 (narrow (n_div (n_ofZ 15 : B64 lm) n_2pi)) 10013163 (-22)). vm_compute. reflexivity.
  - change (bpow radix2 (-22)) with (/ IZR (2 ^ 22)). change (IZR (2 ^ 22)) with 4194304. pose proof PI_bounds as PB.
    assert (I1 : / 3.1415926535897932384627 <= / PI <= / 3.1415926535897932384626) by (split; apply Rinv_le; lra).
    replace (15 / (2 * PI)) with (15 / 2 * / PI) by (field; lra). apply Rabs_le. lra.
Qed.

Lemma cr2af_bin lm lm32 ndp (x : single) a : (ndp <= 9)%Z -> fin32 x a ->
  let q := Z.max ndp 0 in let Y := IZR (10 ^ q) * 3600 * (Rabs a * (180 / PI)) in
  Y <= 9007000000000000 -> Rabs a <= 29000000 ->
  exists f, cr2af lm lm32 ndp x = Some f /\ canonical q f /\
    Rabs (IZR (units q f) - Y) <= / 2 + 9 / 100000000 * Y /\ sign_of f a.
Proof.
  intros K FX q Y B A. destruct factor32 as (F & FF & FC). pose proof fac_bounds as FB.
  unfold Y in *. rewrite <- degrees_units in *. clear Y. set (v := Rabs a * (15 / (2 * PI))) in *.
  set (Y := IZR (10 ^ q) * 86400 * v) in *.
  assert (V0 : 0 <= v) by (apply Rmult_le_pos; [apply Rabs_pos|lra]).
  assert (VB : v <= 29000000 * 3) by (apply Rmult_le_compat; [apply Rabs_pos|lra..]).
  assert (Y0 : 0 <= Y).
  { apply Rmult_le_pos; [|exact V0]. pose proof (pow10_bounds q ltac:(unfold q; lia)) as UB. destruct UB as (U & _). apply IZR_le in U. lra. }
  pose proof (Rabs_le_inv _ _ FC) as FC'.
  assert (W : Rabs (Rabs (a * F) - v) <= 22 / 1000000000 * v) by (apply mul_near; lra).
  assert (FD : fin32 (Bmult mode_NE x (narrow (n_div (n_ofZ 15 : B64 lm) n_2pi))) (rnd32 (a * F))).
  { apply fin_mul; [exact FX|apply FF|]. apply rnd_top32. apply Rabs_le_inv in W. lra. }
  assert (NR := rnd_near 24 128 (a * F) v (22 / 1000000000) (8999 / 100000000000)
    ltac:(vm_compute; discriminate) ltac:(lia) V0 ltac:(lra) ltac:(change (- (24))%Z with (-24)%Z; rewrite bp24; lra) W).
  destruct (dd2tf_bin_near lm ndp _ _ v (8999 / 100000000000) (9 / 100000000) K (widen_fin _ _ FD) V0 ltac:(lra) ltac:(rewrite bp53; lra)
     ltac:(fold q; fold Y; lra) ltac:(lra) NR) as (f & F1 & F2 & F3 & F4).
  exists f. split; [exact F1|]. split; [exact F2|]. split; [exact F3|].
  apply (sign_of_rnd 24 128 f a F); [vm_compute; discriminate|lia|lra|exact F4].
Qed.
