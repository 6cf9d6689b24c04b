(** Proofs about normalisation and sexagesimal conversion over the reals. *)
From Coq Require Import ZArith Reals Lra Lia Psatz Bool.
From Flocq Require Import Core.Raux.
From Verif Require Import L_Pi Int32 Num NumR L_Real M_Calendar M_Angle S_Angle.
Open Scope R_scope.

Lemma drange_spec a : let r := drange (N := RNum) a in
  same_angle a r /\ - PI <= r <= PI /\ (0 <= a -> r < PI) /\ (a <= 0 -> - PI < r).
Proof.
  pose proof PI_RGT_0 as P. unfold drange. unR. cbv zeta.
  destruct (Rfmod_congr a (2 * PI)) as [k Hk].
  destruct (Rfmod_range a (2 * PI) ltac:(lra)) as [Hp Hn].
  set (r := Rfmod a (2 * PI)) in *.
  rewrite (Rabs_right (2 * PI)) by lra.
  destruct (Rleb_spec PI (Rabs r)) as [L|L]; destruct (Rleb_spec 0 a) as [A|A].
  - specialize (Hp A). rewrite Rabs_right in L by lra. split; [exists (k + 1)%Z; rewrite plus_IZR; lra|].
    repeat split; intros; lra.
  - specialize (Hn ltac:(lra)). rewrite Rabs_left1 in L by lra. split; [exists (k - 1)%Z; rewrite minus_IZR; lra|].
    repeat split; intros; lra.
  - specialize (Hp A). rewrite Rabs_right in L by lra. split; [exists k; lra|].
    assert (a = 0 -> r = 0). { intros ->. specialize (Hn ltac:(lra)). lra. }
    repeat split; intros; lra.
  - specialize (Hn ltac:(lra)). rewrite Rabs_left1 in L by lra. split; [exists k; lra|].
    repeat split; intros; lra.
Qed.

Lemma drange_id a : Rabs a < PI -> drange (N := RNum) a = a.
Proof.
  intros H. apply Rabs_def2 in H. destruct (drange_spec a) as (S & RG & P & Q).
  apply same_angle_sym in S.
  destruct (Rle_lt_dec 0 a) as [L|L].
  - specialize (P L). destruct S as [k E]. pose proof PI_RGT_0.
    assert (IZR k * (2 * PI) < 1 * (2 * PI)) by lra. assert (-1 * (2 * PI) < IZR k * (2 * PI)) by lra.
    apply Rmult_lt_reg_r in H1; [|lra]. apply Rmult_lt_reg_r in H2; [|lra]. apply lt_IZR in H1, H2.
    assert (k = 0%Z) by lia. subst k. lra.
  - apply same_angle_eq; [exact S| |lra]. specialize (Q ltac:(lra)). lra.
Qed.

Lemma drange_minus_pi : drange (N := RNum) (- PI) = PI /\ drange (N := RNum) PI = - PI.
Proof.
  pose proof PI_RGT_0. split.
  - destruct (drange_spec (- PI)) as ([k E] & RG & _ & Q). specialize (Q ltac:(lra)).
    set (r := drange (N := RNum) (- PI)) in *. change (car RNum) with R in r.
    assert (IZR k * (2 * PI) < 0 * (2 * PI)) by lra. assert (-2 * (2 * PI) < IZR k * (2 * PI)) by lra.
    apply Rmult_lt_reg_r in H0; [|lra]. apply Rmult_lt_reg_r in H1; [|lra]. apply lt_IZR in H0, H1.
    assert (k = -1)%Z by lia. subst k. lra.
  - destruct (drange_spec PI) as ([k E] & RG & Q & _). specialize (Q ltac:(lra)).
    set (r := drange (N := RNum) PI) in *. change (car RNum) with R in r.
    assert (IZR k * (2 * PI) < 2 * (2 * PI)) by lra. assert (0 * (2 * PI) < IZR k * (2 * PI)) by lra.
    apply Rmult_lt_reg_r in H0; [|lra]. apply Rmult_lt_reg_r in H1; [|lra]. apply lt_IZR in H0, H1.
    assert (k = 1)%Z by lia. subst k. lra.
Qed.

Lemma dranrm_spec a : let r := dranrm (N := RNum) a in same_angle a r /\ 0 <= r < 2 * PI.
Proof.
  pose proof PI_RGT_0 as P. unfold dranrm. unR. cbv zeta.
  destruct (Rfmod_congr a (2 * PI)) as [k Hk].
  destruct (Rfmod_range a (2 * PI) ltac:(lra)) as [Hp Hn].
  set (r := Rfmod a (2 * PI)) in *.
  destruct (Rltb_spec r 0) as [L|L].
  - split; [exists (k - 1)%Z; rewrite minus_IZR; lra|].
    destruct (Rle_lt_dec 0 a) as [A|A]; [specialize (Hp A)|specialize (Hn ltac:(lra))]; lra.
  - split; [exists k; lra|]. destruct (Rle_lt_dec 0 a) as [A|A]; [specialize (Hp A)|specialize (Hn ltac:(lra))]; lra.
Qed.
Lemma dranrm_id a : 0 <= a < 2 * PI -> dranrm (N := RNum) a = a.
Proof.
  intros. destruct (dranrm_spec a) as [S RG]. apply same_angle_eq0; [|exact RG|assumption].
  apply same_angle_sym. exact S.
Qed.

(** ** Days to fields *)
Lemma chk_ok z : (INT_MIN <= z <= INT_MAX)%Z -> chk z = Some z.
Proof.
  intros. unfold chk, in_int. destruct (Z.leb_spec INT_MIN z); [|lia]. destruct (Z.leb_spec z INT_MAX); [|lia]. reflexivity.
Qed.
Lemma chk_bad z : ~ (INT_MIN <= z <= INT_MAX)%Z -> chk z = None.
Proof.
  intros. unfold chk, in_int. destruct (Z.leb_spec INT_MIN z); cbn; [|reflexivity]. destruct (Z.leb_spec z INT_MAX); [lia|reflexivity].
Qed.

Lemma times10_gen k : forall z, (0 <= z)%Z -> (z * 10 ^ Z.of_nat k <= INT_MAX)%Z -> times10 k (Some z) = Some (z * 10 ^ Z.of_nat k)%Z.
Proof.
  induction k as [|k IH]; intros z P H; cbn [times10].
  - f_equal. change (10 ^ Z.of_nat 0)%Z with 1%Z. lia.
  - rewrite Nat2Z.inj_succ, Z.pow_succ_r in * by lia.
    assert (1 <= 10 ^ Z.of_nat k)%Z by (apply (Z.pow_le_mono_r 10 0); lia).
    cbn [lift2 imul I]. rewrite chk_ok by (unfold INT_MIN; nia). rewrite IH; [f_equal; ring|lia|lia].
Qed.
Lemma times10_None k : times10 k None = None.
Proof. induction k; [reflexivity|exact IHk]. Qed.
Lemma times10_ok p : (p <= 9)%Z -> times10 (Z.to_nat p) (I 1) = Some (10 ^ Z.max p 0)%Z.
Proof.
  intros H. unfold I. rewrite times10_gen.
  - f_equal. rewrite Z.mul_1_l. f_equal. lia.
  - lia.
  - rewrite Z.mul_1_l. replace (Z.of_nat (Z.to_nat p)) with (Z.max p 0) by lia.
    transitivity (10 ^ 9)%Z; [apply Z.pow_le_mono_r; lia|]. unfold INT_MAX. vm_compute. discriminate.
Qed.
Lemma times10_overflow p : (10 <= p)%Z -> times10 (Z.to_nat p) (I 1) = None.
Proof.
  intros H. replace (Z.to_nat p) with (10 + (Z.to_nat (p - 10)))%nat by lia.
  set (k := Z.to_nat (p - 10)). cbn [times10 Nat.add].
  replace (I 1 * I 10 * I 10 * I 10 * I 10 * I 10 * I 10 * I 10 * I 10 * I 10 * I 10)%cint with (@None Z) by (vm_compute; reflexivity).
  apply times10_None.
Qed.

Lemma nearest_round x : 0 <= x -> nearest x (Zround x).
Proof.
  intros H. unfold nearest, Zround. destruct (Rle_dec 0 x); [|lra].
  pose proof (Zfloor_lb (x + / 2)). pose proof (Zfloor_ub (x + / 2)). lra.
Qed.

Lemma Rtrunc_div (a b : Z) : (0 <= a)%Z -> (0 < b)%Z -> Rtrunc (IZR a / IZR b) = IZR (a / b).
Proof.
  intros A B. unfold Rtrunc. f_equal.
  assert (0 < IZR b) by (apply IZR_lt; assumption).
  assert (0 <= IZR a) by (apply IZR_le; assumption).
  rewrite Ztrunc_floor. 2:{ apply Rmult_le_pos; [assumption|]. left. apply Rinv_0_lt_compat. assumption. }
  apply Zfloor_imp. pose proof (Z.div_mod a b ltac:(lia)) as E. pose proof (Z.mod_pos_bound a b B) as M.
  assert (EE : IZR a = IZR b * IZR (a / b) + IZR (a mod b)) by (rewrite <- mult_IZR, <- plus_IZR; f_equal; exact E).
  assert (0 <= IZR (a mod b)) by (apply IZR_le; lia). assert (IZR (a mod b) < IZR b) by (apply IZR_lt; lia).
  split.
  - apply Rmult_le_reg_r with (IZR b); [assumption|]. unfold Rdiv. rewrite Rmult_assoc, Rinv_l by lra. lra.
  - apply Rmult_lt_reg_r with (IZR b); [assumption|]. unfold Rdiv. rewrite Rmult_assoc, Rinv_l by lra. rewrite plus_IZR. lra.
Qed.

(** The whole routine, in exact arithmetic, from the rounded interval [n]. *)
Lemma dd2tf_eq p days : (p <= 9)%Z ->
  let P := (10 ^ Z.max p 0)%Z in
  let n := Zround (IZR P * 86400 * Rabs days) in
  dd2tf (N := RNum) p days =
  if (n / (P * 3600) <=? INT_MAX)%Z then
    Some (Fields (n / (P * 3600)) ((n mod (P * 3600)) / (P * 60)) ((n mod (P * 60)) / P) (n mod P) (Rleb 0 days))
  else None.
Proof.
  intros Hp P n. unfold dd2tf. rewrite times10_ok by assumption. fold P.
  assert (P1 : (1 <= P)%Z) by (apply (Z.pow_le_mono_r 10 0); lia).
  assert (P9 : (P <= 10 ^ 9)%Z) by (apply Z.pow_le_mono_r; lia). change (10 ^ 9)%Z with 1000000000%Z in P9.
  assert (N0 : (0 <= n)%Z).
  { apply Zround_nonneg. apply Rmult_le_pos; [|apply Rabs_pos]. assert (1 <= IZR P) by (apply IZR_le; assumption). lra. }
  assert (K : forall d e, (0 < d)%Z -> (0 < e)%Z -> ((n mod (d * e)) mod d = n mod d)%Z).
  { intros d e D E. symmetry. apply Znumtheory.Zmod_div_mod; [lia|nia|exists e; ring]. }
  assert (S : forall x d, (0 < d)%Z -> (x - x / d * d = x mod d)%Z) by (intros; rewrite Z.mod_eq by lia; ring).
  assert (D60 : ((n mod (P * 60)) / P < 60)%Z).
  { apply Z.div_lt_upper_bound; [lia|]. apply Z.mod_pos_bound. lia. }
  assert (D3600 : ((n mod (P * 3600)) / (P * 60) < 60)%Z).
  { apply Z.div_lt_upper_bound; [lia|]. replace (P * 60 * 60)%Z with (P * 3600)%Z by ring. apply Z.mod_pos_bound. lia. }
  pose proof (Z.mod_pos_bound n (P * 3600) ltac:(lia)) as M1.
  pose proof (Z.mod_pos_bound n (P * 60) ltac:(lia)) as M2.
  pose proof (Z.mod_pos_bound n P ltac:(lia)) as M3.
  assert (G1 : (0 <= n / (P * 3600))%Z) by (apply Z.div_pos; lia).
  assert (G2 : (0 <= n mod (P * 3600) / (P * 60))%Z) by (apply Z.div_pos; lia).
  assert (G3 : (0 <= n mod (P * 60) / P)%Z) by (apply Z.div_pos; lia).
  unR. cbv zeta. unfold Rround. rewrite <- !mult_IZR.
  replace (P * 60 * 60)%Z with (P * 3600)%Z by ring.
  replace (IZR (P * 86400) * Rabs days) with (IZR P * 86400 * Rabs days) by (rewrite mult_IZR; reflexivity).
  fold n. rewrite Rtrunc_div by lia. rewrite <- !mult_IZR, <- !minus_IZR. rewrite S by lia.
  rewrite Rtrunc_div by lia. rewrite <- !mult_IZR, <- !minus_IZR. rewrite S by lia.
  replace (P * 3600)%Z with ((P * 60) * 60)%Z by ring. rewrite K by lia. replace (P * 60 * 60)%Z with (P * 3600)%Z by ring.
  rewrite Rtrunc_div by lia. rewrite <- !mult_IZR, <- !minus_IZR. rewrite S by lia. rewrite K by lia.
  assert (EF : (if Rltb (IZR (P - 1)) (IZR (n mod P)) then IZR (P - 1) else IZR (n mod P)) = IZR (n mod P)).
  { destruct (Rltb_spec (IZR (P - 1)) (IZR (n mod P))) as [L|L]; [apply lt_IZR in L; lia|reflexivity]. }
  rewrite EF. rewrite !Zround_IZR. unfold RtoZ. rewrite !Ztrunc_IZR.
  rewrite (chk_ok (n mod (P * 3600) / (P * 60))) by (unfold INT_MIN, INT_MAX; lia).
  rewrite (chk_ok (n mod (P * 60) / P)) by (unfold INT_MIN, INT_MAX; lia).
  rewrite (chk_ok (n mod P)) by (unfold INT_MIN, INT_MAX; lia).
  destruct (Z.leb_spec (n / (P * 3600)) INT_MAX) as [L|L].
  - rewrite chk_ok by (unfold INT_MIN; lia). f_equal. f_equal; lia.
  - rewrite chk_bad by lia. reflexivity.
Qed.

Lemma units_eq p n : (0 <= p)%Z -> let P := (10 ^ p)%Z in
  (((n / (P * 3600) * 60 + (n mod (P * 3600)) / (P * 60)) * 60 + (n mod (P * 60)) / P) * P + n mod P = n)%Z.
Proof.
  intros Hp P. assert (P1 : (1 <= P)%Z) by (apply (Z.pow_le_mono_r 10 0); lia).
  assert (K : forall d e, (0 < d)%Z -> (0 < e)%Z -> ((n mod (d * e)) mod d = n mod d)%Z).
  { intros d e D E. symmetry. apply Znumtheory.Zmod_div_mod; [lia|nia|exists e; ring]. }
  pose proof (Z.div_mod n (P * 3600) ltac:(lia)) as E1.
  pose proof (Z.div_mod (n mod (P * 3600)) (P * 60) ltac:(lia)) as E2.
  pose proof (Z.div_mod (n mod (P * 60)) P ltac:(lia)) as E3.
  pose proof (K (P * 60)%Z 60%Z ltac:(lia) ltac:(lia)) as K1. replace (P * 60 * 60)%Z with (P * 3600)%Z in K1 by ring.
  rewrite K1 in E2. rewrite (K P 60%Z ltac:(lia) ltac:(lia)) in E3.
  set (a := (n / (P * 3600))%Z) in *. set (b := (n mod (P * 3600) / (P * 60))%Z) in *. set (c := (n mod (P * 60) / P)%Z) in *. lia.
Qed.

Lemma dd2tf_spec p days f : dd2tf (N := RNum) p days = Some f ->
  let q := Z.max p 0 in
  canonical q f /\ nearest (IZR (10 ^ q) * 86400 * Rabs days) (units q f) /\ (fd_sign f = true <-> 0 <= days).
Proof.
  intros H q. destruct (Z_le_gt_dec p 9) as [Hp|Hp].
  2:{ unfold dd2tf in H. rewrite times10_overflow in H by lia. discriminate. }
  rewrite dd2tf_eq in H by assumption. cbv zeta in H. fold q in H.
  set (P := (10 ^ q)%Z) in *. assert (P1 : (1 <= P)%Z) by (apply (Z.pow_le_mono_r 10 0); lia).
  set (n := Zround (IZR P * 86400 * Rabs days)) in *.
  assert (X0 : 0 <= IZR P * 86400 * Rabs days).
  { apply Rmult_le_pos; [|apply Rabs_pos]. assert (1 <= IZR P) by (apply IZR_le; assumption). lra. }
  assert (N0 : (0 <= n)%Z) by (apply Zround_nonneg; assumption).
  destruct (n / (P * 3600) <=? INT_MAX)%Z; [|discriminate]. injection H as <-.
  unfold canonical, units; cbn [fd_h fd_m fd_s fd_f fd_sign]. fold P.
  split; [|split].
  - pose proof (Z.mod_pos_bound n (P * 3600) ltac:(lia)) as M1.
    pose proof (Z.mod_pos_bound n (P * 60) ltac:(lia)) as M2.
    pose proof (Z.mod_pos_bound n P ltac:(lia)) as M3.
    split; [apply Z.div_pos; lia|]. split; [|split].
    + split; [apply Z.div_pos; lia|apply Z.div_lt_upper_bound; lia].
    + split; [apply Z.div_pos; lia|apply Z.div_lt_upper_bound; lia].
    + assumption.
  - unfold P. rewrite units_eq by lia. fold P. apply nearest_round. assumption.
  - apply Rleb_true.
Qed.

Lemma dd2tf_defined p days : (exists f, dd2tf (N := RNum) p days = Some f) <->
  (p <= 9)%Z /\ IZR (10 ^ Z.max p 0) * 86400 * Rabs days < 2147483648 * 3600 * IZR (10 ^ Z.max p 0) - / 2.
Proof.
  destruct (Z_le_gt_dec p 9) as [Hp|Hp].
  2:{ unfold dd2tf. rewrite times10_overflow by lia. split; [intros [f E]; discriminate|lia]. }
  rewrite dd2tf_eq by assumption. cbv zeta. set (P := (10 ^ Z.max p 0)%Z).
  assert (P1 : (1 <= P)%Z) by (apply (Z.pow_le_mono_r 10 0); lia).
  set (x := IZR P * 86400 * Rabs days).
  assert (X0 : 0 <= x).
  { apply Rmult_le_pos; [|apply Rabs_pos]. assert (1 <= IZR P) by (apply IZR_le; assumption). lra. }
  pose proof (nearest_round x X0) as [A B].
  set (n := Zround x) in *. assert (N0 : (0 <= n)%Z) by (apply Zround_nonneg; assumption).
  assert (Q : (n / (P * 3600) <= INT_MAX)%Z <-> (n < 2147483648 * 3600 * P)%Z).
  { unfold INT_MAX. pose proof (Z.div_mod n (P * 3600) ltac:(lia)). pose proof (Z.mod_pos_bound n (P * 3600) ltac:(lia)).
    split; intros; [nia|]. apply Z.lt_succ_r. apply Z.div_lt_upper_bound; lia. }
  assert (QR : x < 2147483648 * 3600 * IZR P - / 2 <-> (n < 2147483648 * 3600 * P)%Z).
  { rewrite <- !mult_IZR. split; intros L.
    - apply lt_IZR. lra.
    - assert (n + 1 <= 2147483648 * 3600 * P)%Z as L' by lia. apply IZR_le in L'. rewrite plus_IZR in L'. lra. }
  destruct (Z.leb_spec (n / (P * 3600)) INT_MAX) as [L|L].
  - split; [intros _|intros _; eexists; reflexivity]. split; [assumption|]. apply QR, Q, L.
  - split; [intros [f E]; discriminate|]. intros [_ H]. apply QR, Q in H. lia.
Qed.

(** ** Fields to days *)
Lemma dtf2d_status h m s : fst (dtf2d (N := RNum) h m s) =
  if negb (Rleb 0 s && Rltb s 60) then T2D_BAD_SECONDS
  else if negb ((0 <=? m) && (m <=? 59))%Z then T2D_BAD_MINUTES
  else if negb ((0 <=? h) && (h <=? 23))%Z then T2D_BAD_HOURS else T2D_OK.
Proof.
  unfold dtf2d. unR. cbv zeta. cbn [fst].
  destruct (Rltb_spec s 0); destruct (Rleb_spec 60 s); destruct (Rleb_spec 0 s); destruct (Rltb_spec s 60); cbn; try lra; try reflexivity.
  destruct (Z.ltb_spec m 0); destruct (Z.leb_spec 0 m); try lia; cbn; [reflexivity|].
  rewrite Z.gtb_ltb. destruct (Z.ltb_spec 59 m); destruct (Z.leb_spec m 59); try lia; cbn; [reflexivity|].
  destruct (Z.ltb_spec h 0); destruct (Z.leb_spec 0 h); try lia; cbn; [reflexivity|].
  rewrite Z.gtb_ltb. destruct (Z.ltb_spec 23 h); destruct (Z.leb_spec h 23); try lia; cbn; reflexivity.
Qed.
Lemma daf2r_status d m s : fst (daf2r (N := RNum) d m s) =
  if negb ((0 <=? d) && (d <=? 359))%Z then D2R_BAD_DEGREES
  else if negb ((0 <=? m) && (m <=? 59))%Z then D2R_BAD_ARCMINUTES
  else if negb (Rleb 0 s && Rltb s 60) then D2R_BAD_ARCSECONDS else D2R_OK.
Proof.
  unfold daf2r. unR. cbv zeta. cbn [fst].
  destruct (Z.ltb_spec d 0); destruct (Z.leb_spec 0 d); try lia; cbn; [reflexivity|].
  rewrite (Z.gtb_ltb d). destruct (Z.ltb_spec 359 d); destruct (Z.leb_spec d 359); try lia; cbn; [reflexivity|].
  destruct (Z.ltb_spec m 0); destruct (Z.leb_spec 0 m); try lia; cbn; [reflexivity|].
  rewrite Z.gtb_ltb. destruct (Z.ltb_spec 59 m); destruct (Z.leb_spec m 59); try lia; cbn; [reflexivity|].
  destruct (Rltb_spec s 0); destruct (Rleb_spec 60 s); destruct (Rleb_spec 0 s); destruct (Rltb_spec s 60); cbn; try lra; reflexivity.
Qed.
Lemma dtf2d_value h m s : snd (dtf2d (N := RNum) h m s) * 86400 = IZR h * 3600 + IZR m * 60 + s.
Proof. unfold dtf2d. unR. cbv zeta. cbn [snd]. field. Qed.

Lemma round_trip p days f : dd2tf (N := RNum) p days = Some f ->
  let q := Z.max p 0 in
  let back := snd (dtf2d (N := RNum) (fd_h f) (fd_m f) (IZR (fd_s f) + IZR (fd_f f) / IZR (10 ^ q))) in
  Rabs (Rabs days - back) <= / 2 / (86400 * IZR (10 ^ q)) /\ fst (dtf2d (N := RNum) (fd_h f) (fd_m f) (IZR (fd_s f) + IZR (fd_f f) / IZR (10 ^ q))) <> T2D_BAD_SECONDS.
Proof.
  intros H q back. destruct (dd2tf_spec p days f H) as ((C1 & C2 & C3 & C4) & (A & B) & _). fold q in A, B, C4.
  assert (P1 : (1 <= 10 ^ q)%Z) by (apply (Z.pow_le_mono_r 10 0); unfold q; lia).
  set (P := (10 ^ q)%Z) in *. assert (PR : 1 <= IZR P) by (apply IZR_le; assumption).
  split.
  - assert (E : back * 86400 * IZR P = IZR (units q f)).
    { unfold back. rewrite dtf2d_value. unfold units. fold P. rewrite plus_IZR, !mult_IZR, !plus_IZR, !mult_IZR, plus_IZR, mult_IZR. field. lra. }
    rewrite <- E in A, B. apply Rabs_le.
    assert (0 < / (86400 * IZR P)) by (apply Rinv_0_lt_compat; lra).
    split.
    + apply Rmult_le_reg_r with (86400 * IZR P); [lra|]. replace (- (/ 2 / (86400 * IZR P)) * (86400 * IZR P)) with (- / 2) by (field; lra). lra.
    + apply Rmult_le_reg_r with (86400 * IZR P); [lra|]. replace ((/ 2 / (86400 * IZR P)) * (86400 * IZR P)) with (/ 2) by (field; lra). lra.
  - rewrite dtf2d_status.
    assert (0 <= IZR (fd_s f)) by (apply IZR_le; lia). assert (IZR (fd_s f) <= 59) by (apply IZR_le; lia).
    assert (0 <= IZR (fd_f f)) by (apply IZR_le; lia). assert (IZR (fd_f f) < IZR P) by (apply IZR_lt; lia).
    assert (Q1 : 0 <= IZR (fd_f f) / IZR P) by (apply Rmult_le_pos; [assumption|left; apply Rinv_0_lt_compat; lra]).
    assert (Q2 : IZR (fd_f f) / IZR P < 1).
    { apply Rmult_lt_reg_r with (IZR P); [lra|]. unfold Rdiv. rewrite Rmult_assoc, Rinv_l by lra. lra. }
    destruct (Rleb_spec 0 (IZR (fd_s f) + IZR (fd_f f) / IZR P)); [|lra].
    destruct (Rltb_spec (IZR (fd_s f) + IZR (fd_f f) / IZR P) 60); [|lra]. cbn [andb negb].
    destruct (negb _); [discriminate|]. destruct (negb _); discriminate.
Qed.

(** ** Corollaries in the form of the property theorems *)
Lemma dr2tf_spec p angle f : dr2tf (N := RNum) p angle = Some f ->
  let q := Z.max p 0 in
  canonical q f /\ nearest (IZR (10 ^ q) * 86400 * (Rabs angle / (2 * PI))) (units q f) /\ (fd_sign f = true <-> 0 <= angle).
Proof.
  intros H q. pose proof PI_RGT_0. unfold dr2tf in H. apply dd2tf_spec in H. unR_in H. fold q in H.
  destruct H as (C & A & B). split; [exact C|]. split.
  - unfold Rdiv in *. rewrite Rabs_mult, (Rabs_right (/ (2 * PI))) in A; [exact A|]. left. apply Rinv_0_lt_compat. lra.
  - rewrite B. split; intros.
    + apply Rmult_le_reg_r with (/ (2 * PI)); [apply Rinv_0_lt_compat; lra|]. rewrite Rmult_0_l. assumption.
    + apply Rmult_le_pos; [assumption|left; apply Rinv_0_lt_compat; lra].
Qed.
Lemma dr2af_spec p angle f : dr2af (N := RNum) p angle = Some f ->
  let q := Z.max p 0 in
  canonical q f /\ nearest (IZR (10 ^ q) * 3600 * (Rabs angle * (180 / PI))) (units q f) /\ (fd_sign f = true <-> 0 <= angle).
Proof.
  intros H q. pose proof PI_RGT_0. unfold dr2af in H. apply dd2tf_spec in H. unR_in H. fold q in H.
  assert (0 < 15 / (2 * PI)) by (apply Rdiv_lt_0_compat; lra).
  destruct H as (C & A & B). split; [exact C|]. split.
  - rewrite Rabs_mult, (Rabs_right (15 / _)) in A by lra.
    replace (IZR (10 ^ q) * 3600 * (Rabs angle * (180 / PI))) with (IZR (10 ^ q) * 86400 * (Rabs angle * (15 / (2 * PI)))) by (field; lra). exact A.
  - rewrite B. split; intros.
    + apply Rmult_le_reg_r with (15 / (2 * PI)); [assumption|]. rewrite Rmult_0_l. assumption.
    + apply Rmult_le_pos; lra.
Qed.

Lemma dtf2d_cases h m s : let st := fst (dtf2d (N := RNum) h m s) in
  (st = T2D_OK <-> (0 <= h < 24)%Z /\ (0 <= m < 60)%Z /\ 0 <= s < 60) /\
  (st = T2D_BAD_SECONDS <-> ~ 0 <= s < 60) /\
  (st = T2D_BAD_MINUTES <-> 0 <= s < 60 /\ ~ (0 <= m < 60)%Z) /\
  (st = T2D_BAD_HOURS <-> 0 <= s < 60 /\ (0 <= m < 60)%Z /\ ~ (0 <= h < 24)%Z).
Proof.
  intros st. unfold st. rewrite dtf2d_status.
  destruct (Rleb_spec 0 s); destruct (Rltb_spec s 60); cbn [andb negb];
  destruct (Z.leb_spec 0 m); destruct (Z.leb_spec m 59); cbn [andb negb];
  destruct (Z.leb_spec 0 h); destruct (Z.leb_spec h 23); cbn [andb negb];
  repeat split; intros; try discriminate; try lia; try lra; try reflexivity; exfalso;
  repeat match goal with H : _ /\ _ |- _ => destruct H end; try lia; try lra;
  match goal with H : ~ _ |- _ => apply H; repeat split; (lia || lra) | _ => idtac end.
Qed.
Lemma daf2r_cases d m s : let st := fst (daf2r (N := RNum) d m s) in
  (st = D2R_OK <-> (0 <= d < 360)%Z /\ (0 <= m < 60)%Z /\ 0 <= s < 60) /\
  (st = D2R_BAD_DEGREES <-> ~ (0 <= d < 360)%Z) /\
  (st = D2R_BAD_ARCMINUTES <-> (0 <= d < 360)%Z /\ ~ (0 <= m < 60)%Z) /\
  (st = D2R_BAD_ARCSECONDS <-> (0 <= d < 360)%Z /\ (0 <= m < 60)%Z /\ ~ 0 <= s < 60).
Proof.
  intros st. unfold st. rewrite daf2r_status.
  destruct (Rleb_spec 0 s); destruct (Rltb_spec s 60); cbn [andb negb];
  destruct (Z.leb_spec 0 m); destruct (Z.leb_spec m 59); cbn [andb negb];
  destruct (Z.leb_spec 0 d); destruct (Z.leb_spec d 359); cbn [andb negb];
  repeat split; intros; try discriminate; try lia; try lra; try reflexivity; exfalso;
  repeat match goal with H : _ /\ _ |- _ => destruct H end; try lia; try lra;
  match goal with H : ~ _ |- _ => apply H; repeat split; (lia || lra) | _ => idtac end.
Qed.

Lemma dtf2r_value h m s : fst (dtf2r (N := RNum) h m s) = fst (dtf2d (N := RNum) h m s) /\
  snd (dtf2r (N := RNum) h m s) = (IZR h * 3600 + IZR m * 60 + s) / 86400 * (2 * PI).
Proof.
  unfold dtf2r. pose proof (dtf2d_value h m s) as V. destruct (dtf2d (N := RNum) h m s) as [st v]. cbn [fst snd] in *.
  split; [reflexivity|]. unR. rewrite <- V. field.
Qed.
Lemma daf2r_value d m s : let v := snd (daf2r (N := RNum) d m s) in let arcsec := IZR d * 3600 + IZR m * 60 + s in
  v = arcsec * 4.84813681109535994e-6 /\ Rabs (v - arcsec / 3600 * (PI / 180)) <= Rabs arcsec * 1e-23.
Proof.
  intros v a.
  assert (E : v = a * 4.84813681109535994e-6).
  { unfold v, daf2r, a. unR. cbv zeta. cbn [snd]. unfold Rdec.
    replace (IZR (Z.pow_pos 10 23)) with 1e23 by lra. lra. }
  split; [exact E|]. rewrite E.
  assert (B : Rabs (4.84813681109535994e-6 - PI / 648000) <= 1e-23).
  { pose proof PI_bounds as [L U]. apply Rabs_le. split; lra. }
  revert B. generalize 4.84813681109535994e-6 1e-23. intros c e B.
  replace (a * c - a / 3600 * (PI / 180)) with (a * (c - PI / 648000)) by field.
  rewrite Rabs_mult. apply Rmult_le_compat_l; [apply Rabs_pos|assumption].
Qed.

(** Whole-library reading of the round trip below one day: the status is OK
    unless rounding carried to 24 hours. *)
Lemma round_trip_full p days f : dd2tf (N := RNum) p days = Some f -> Rabs days < 1 ->
  let q := Z.max p 0 in
  let back := dtf2d (N := RNum) (fd_h f) (fd_m f) (IZR (fd_s f) + IZR (fd_f f) / IZR (10 ^ q)) in
  Rabs (days - (if fd_sign f then snd back else - snd back)) <= / 2 / (86400 * IZR (10 ^ q)) /\
  (fst back = T2D_OK \/ fst back = T2D_BAD_HOURS /\ f = Fields 24 0 0 0 (fd_sign f)).
Proof.
  intros H D q back. destruct (round_trip p days f H) as [E NS]. destruct (dd2tf_spec p days f H) as ((C1 & C2 & C3 & C4) & (A & B) & SG).
  fold q in E, NS, C4, A, B. fold back in E, NS.
  split.
  - destruct (fd_sign f).
    + rewrite (Rabs_right days) in E by (apply Rle_ge; apply SG; reflexivity). exact E.
    + assert (days < 0). { destruct (Rle_lt_dec 0 days) as [L|L]; [apply SG in L; discriminate|exact L]. }
      rewrite (Rabs_left days) in E by assumption. rewrite <- Rabs_Ropp. replace (- (days - - snd back)) with (- days - snd back) by ring. exact E.
  - destruct (dtf2d_cases (fd_h f) (fd_m f) (IZR (fd_s f) + IZR (fd_f f) / IZR (10 ^ q))) as (K1 & K2 & K3 & K4). fold back in K1, K2, K3, K4.
    destruct (fst back) eqn:ST; [left; reflexivity| |exfalso|exfalso; apply NS; reflexivity].
    + right. split; [reflexivity|]. destruct K4 as [K4 _]. destruct (K4 eq_refl) as (_ & _ & BH).
      assert (P1 : (1 <= 10 ^ q)%Z) by (apply (Z.pow_le_mono_r 10 0); unfold q; lia).
      set (P := (10 ^ q)%Z) in *. unfold units in *. fold P in A, B.
      assert (PR : 1 <= IZR P) by (apply IZR_le; assumption).
      assert (U : (((fd_h f * 60 + fd_m f) * 60 + fd_s f) * P + fd_f f <= 86400 * P)%Z).
      { apply Z.lt_succ_r. unfold Z.succ. apply lt_IZR. rewrite (plus_IZR (86400 * P)), mult_IZR.
        assert (IZR P * 86400 * Rabs days < IZR P * 86400 * 1) by (apply Rmult_lt_compat_l; lra). lra. }
      destruct f as [fh fm fs ff sg]; cbn [fd_h fd_m fd_s fd_f fd_sign] in *. f_equal; nia.
    + destruct K3 as [K3 _]. destruct (K3 eq_refl). lia.
Qed.

Lemma fields_unique q x f g : (0 <= q)%Z -> canonical q f -> canonical q g ->
  nearest x (units q f) -> nearest x (units q g) -> fd_sign f = fd_sign g -> f = g.
Proof.
  intros Q (A1 & A2 & A3 & A4) (B1 & B2 & B3 & B4) [N1 N2] [N3 N4] SG.
  assert (U : units q f = units q g).
  { assert (units q f < units q g + 1)%Z by (apply lt_IZR; rewrite plus_IZR; lra).
    assert (units q g < units q f + 1)%Z by (apply lt_IZR; rewrite plus_IZR; lra). lia. }
  unfold units in U. assert (P1 : (1 <= 10 ^ q)%Z) by (apply (Z.pow_le_mono_r 10 0); lia).
  set (P := (10 ^ q)%Z) in *. destruct f as [a b c d e], g as [a' b' c' d' e']. cbn [fd_h fd_m fd_s fd_f fd_sign] in *. subst e'.
  assert (d = d' /\ (a * 60 + b) * 60 + c = (a' * 60 + b') * 60 + c')%Z as [-> U'].
  { split.
    - rewrite <- (Z.mod_small d P), <- (Z.mod_small d' P) by lia.
      rewrite <- (Z.mod_add d ((a * 60 + b) * 60 + c) P), <- (Z.mod_add d' ((a' * 60 + b') * 60 + c') P) by lia. f_equal. lia.
    - nia. }
  f_equal; lia.
Qed.
Lemma dd2tf_total p days : (p <= 9)%Z -> Rabs days < 1 -> exists f, dd2tf (N := RNum) p days = Some f.
Proof.
  intros Hp D. apply dd2tf_defined. split; [assumption|].
  assert (P1 : (1 <= 10 ^ Z.max p 0)%Z) by (apply (Z.pow_le_mono_r 10 0); lia).
  assert (PR : 1 <= IZR (10 ^ Z.max p 0)) by (apply IZR_le; assumption).
  assert (IZR (10 ^ Z.max p 0) * 86400 * Rabs days < IZR (10 ^ Z.max p 0) * 86400 * 1) by (apply Rmult_lt_compat_l; lra). lra.
Qed.
Lemma Zround_eq x n : 0 <= x -> IZR n - / 2 <= x < IZR n + / 2 -> Zround x = n.
Proof.
  intros P [A B]. pose proof (nearest_round x P) as [C D].
  assert (Zround x < n + 1)%Z by (apply lt_IZR; rewrite plus_IZR; lra).
  assert (n < Zround x + 1)%Z by (apply lt_IZR; rewrite plus_IZR; lra). lia.
Qed.
Lemma dd2tf_example : dd2tf (N := RNum) 2 (- (1 / 48 - 1 / 86400000)) = Some (Fields 0 30 0 0 false).
Proof.
  rewrite dd2tf_eq by lia. cbv zeta. change (10 ^ Z.max 2 0)%Z with 100%Z.
  rewrite (Rabs_left (- _)) by lra. rewrite (Zround_eq _ 180000) by lra.
  replace (Rleb 0 (- (1 / 48 - 1 / 86400000))) with false by (symmetry; apply Rleb_false; lra). reflexivity.
Qed.
Lemma carry_example : dd2tf (N := RNum) 0 (1 - 1 / 864000) = Some (Fields 24 0 0 0 true) /\ fst (dtf2d (N := RNum) 24 0 0) = T2D_BAD_HOURS.
Proof.
  split.
  - rewrite dd2tf_eq by lia. cbv zeta. change (10 ^ Z.max 0 0)%Z with 1%Z.
    rewrite (Rabs_right (1 - _)) by lra. rewrite (Zround_eq _ 86400) by lra.
    replace (Rleb 0 (1 - 1 / 864000)) with true by (symmetry; apply Rleb_true; lra). reflexivity.
  - apply dtf2d_cases. repeat split; try lra; lia.
Qed.
Lemma status_example : fst (dtf2d (N := RNum) 25 60 60) = T2D_BAD_SECONDS /\ fst (daf2r (N := RNum) 360 60 60) = D2R_BAD_DEGREES.
Proof. split; [apply dtf2d_cases; lra|apply daf2r_cases; lia]. Qed.
Lemma drange_half_open_refuted : ~ (forall a, - PI <= drange (N := RNum) a < PI).
Proof. intros H. specialize (H (- PI)). destruct drange_minus_pi as [E _]. rewrite E in H. lra. Qed.
Lemma dranrm_example : dranrm (N := RNum) (- 1) = 2 * PI - 1.
Proof.
  pose proof PI_bounds. destruct (dranrm_spec (- 1)) as [[k E] B]. set (r := dranrm (N := RNum) (- 1)) in *. change (car RNum) with R in r.
  assert (k = -1)%Z; [|subst k; lra].
  assert (IZR k * (2 * PI) < 0 * (2 * PI)) as H1 by lra. assert (-2 * (2 * PI) < IZR k * (2 * PI)) as H2 by lra.
  apply Rmult_lt_reg_r in H1; [|lra]. apply Rmult_lt_reg_r in H2; [|lra]. apply lt_IZR in H1, H2. lia.
Qed.
