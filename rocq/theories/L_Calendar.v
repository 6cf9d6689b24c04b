(** Proofs about the calendar model. *)
From Coq Require Import ZArith Bool List Lia ZifyBool.
From Verif Require Import Int32 M_Calendar S_Calendar.
Open Scope Z_scope.
Ltac Zify.zify_post_hook ::= Z.div_mod_to_equations.

(** ** Evaluating checked [int] expressions *)
Lemma chk_ok z : INT_MIN <= z <= INT_MAX -> chk z = Some z.
Proof. intros H. unfold chk, in_int. destruct (_ && _)%bool eqn:E; [reflexivity|]. unfold INT_MIN, INT_MAX in *. lia. Qed.

Lemma iadd_ok x y : INT_MIN <= x + y <= INT_MAX -> iadd (Some x) (Some y) = Some (x + y).
Proof. apply chk_ok. Qed.
Lemma isub_ok x y : INT_MIN <= x - y <= INT_MAX -> isub (Some x) (Some y) = Some (x - y).
Proof. apply chk_ok. Qed.
Lemma imul_ok x y : INT_MIN <= x * y <= INT_MAX -> imul (Some x) (Some y) = Some (x * y).
Proof. apply chk_ok. Qed.
Lemma idiv_ok x y : 0 <= x <= INT_MAX -> 0 < y -> idiv (Some x) (Some y) = Some (x / y).
Proof.
  intros Hx Hy. unfold idiv, lift2. destruct (Z.eqb_spec y 0); [lia|].
  rewrite Z.quot_div_nonneg by lia. apply chk_ok.
  assert (x / y <= x) by (apply Z.div_le_upper_bound; nia).
  assert (0 <= x / y) by (apply Z.div_pos; lia). unfold INT_MIN; lia.
Qed.
Lemma imod_ok x y : 0 <= x <= INT_MAX -> 0 < y -> imod (Some x) (Some y) = Some (x mod y).
Proof.
  intros Hx Hy. unfold imod, lift2. destruct (Z.eqb_spec y 0); [lia|].
  rewrite Z.quot_div_nonneg by lia. rewrite Z.rem_mod_nonneg by lia.
  assert (x / y <= x) by (apply Z.div_le_upper_bound; nia).
  assert (0 <= x / y) by (apply Z.div_pos; lia).
  unfold in_int. destruct (_ && _)%bool eqn:E; [reflexivity|]. unfold INT_MIN, INT_MAX in *. lia.
Qed.

Ltac iev1 :=
  first [ rewrite iadd_ok by (unfold INT_MIN, INT_MAX in *; lia)
        | rewrite isub_ok by (unfold INT_MIN, INT_MAX in *; lia)
        | rewrite imul_ok by (unfold INT_MIN, INT_MAX in *; lia)
        | rewrite idiv_ok by (unfold INT_MIN, INT_MAX in *; lia)
        | rewrite imod_ok by (unfold INT_MIN, INT_MAX in *; lia) ].
Ltac iev := unfold I; repeat iev1.

(** ** Pure closed forms *)
Definition mjdZ (y m d : Z) : Z :=
  (1461 * (y - (12 - m) / 10 + 4712)) / 4 + (306 * ((m + 9) mod 12) + 5) / 10
  - (3 * ((y - (12 - m) / 10 + 4900) / 100)) / 4 + d - 2399904.

(** Largest year for which [1461 * (y + 4712)] fits in an [int]. *)
Definition cldj_max_year : Z := 1465160.

Lemma cldj_expr_ok y m d :
  -4699 <= y <= cldj_max_year -> 1 <= m <= 12 -> -2000000000 <= d <= 1600000000 ->
  cldj_expr y m d = Some (mjdZ y m d).
Proof.
  intros Hy Hm Hd. unfold cldj_expr, mjdZ, cldj_max_year in *.
  iev. reflexivity.
Qed.

Lemma cldj_expr_overflow y m d :
  1 <= m <= 12 -> y <= INT_MAX - 10000 ->
  y - (12 - m) / 10 > cldj_max_year -> cldj_expr y m d = None.
Proof.
  intros Hm Hy Ho. unfold cldj_expr, cldj_max_year in *.
  unfold I. rewrite (isub_ok 12 m), idiv_ok, isub_ok, iadd_ok by (unfold INT_MIN, INT_MAX in *; lia).
  unfold imul at 1, lift2. unfold chk at 1, in_int.
  destruct (_ && _)%bool eqn:E; [unfold INT_MIN, INT_MAX in *; lia|].
  reflexivity.
Qed.

(** Hatcher's inverse, as unbounded integers. *)
Definition n4Z (jd : Z) : Z := 4 * (jd + ((6 * ((4 * jd - 17918) / 146097)) / 4 + 1) / 2 - 37).
Definition nd10Z (n4 : Z) : Z := 10 * (((n4 - 237) mod 1461) / 4) + 5.
Definition yearZ (d : Z) : Z := n4Z (d + 2400001) / 1461 - 4712.
Definition monthZ (d : Z) : Z := ((nd10Z (n4Z (d + 2400001)) / 306 + 2) mod 12) + 1.
Definition dayZ (d : Z) : Z := (nd10Z (n4Z (d + 2400001)) mod 306) / 10 + 1.

(** A valid date seen from March: [Y] years (of 1461/4 days) and month [m']. *)
Definition leapday_ok (Y c m' d : Z) : Prop :=
  m' = 11 -> d <= 28 \/ (d = 29 /\ Y mod 4 = 3 /\ (Y = 100 * c + 99 - 188 -> c mod 4 = 0)).

Lemma inv_century c Y m' d jd :
  2 <= c -> 100 * c - 188 <= Y < 100 * c - 88 -> 0 <= m' <= 11 -> 1 <= d <= 31 ->
  jd = (1461 * Y) / 4 + (306 * m' + 5) / 10 - (3 * c) / 4 + d + 97 ->
  leapday_ok Y c m' d -> (4 * jd - 17918) / 146097 = c - 2.
Proof. unfold leapday_ok. intros. lia. Qed.

Lemma inv_corr c : ((6 * (c - 2)) / 4 + 1) / 2 = (3 * c) / 4 - 1.
Proof. lia. Qed.

Lemma div_unique_pos a b q r : 0 <= r < b -> a = b * q + r -> a / b = q.
Proof. intros. symmetry. apply (Z.div_unique_pos a b q r); assumption. Qed.
Lemma mod_unique_pos a b q r : 0 <= r < b -> a = b * q + r -> a mod b = r.
Proof. intros. symmetry. apply (Z.mod_unique_pos a b q r); assumption. Qed.

Lemma inv_n4 Y k : 4 * ((1461 * Y) / 4 + k + 60) = 1461 * Y + 4 * k + 240 - Y mod 4.
Proof. lia. Qed.

Lemma inv_month m' d k :
  0 <= m' <= 11 -> 1 <= d <= 31 -> (m' = 1 \/ m' = 3 \/ m' = 6 \/ m' = 8 -> d <= 30) -> (m' = 11 -> d <= 29) ->
  k = (306 * m' + 5) / 10 + d - 1 ->
  (10 * k + 5) / 306 = m' /\ ((10 * k + 5) mod 306) / 10 = d - 1 /\ 0 <= k <= 365.
Proof.
  intros Hm Hd H30 Hf Hk.
  assert (m' = 0 \/ m' = 1 \/ m' = 2 \/ m' = 3 \/ m' = 4 \/ m' = 5 \/ m' = 6 \/ m' = 7 \/ m' = 8 \/ m' = 9 \/ m' = 10 \/ m' = 11)
    as C by lia.
  repeat match type of C with _ \/ _ => destruct C as [C | C] end; subst m' k; lia.
Qed.

Lemma inv_main c Y m' d jd :
  2 <= c -> 100 * c - 188 <= Y < 100 * c - 88 -> 0 <= m' <= 11 -> 1 <= d <= 31 ->
  (m' = 1 \/ m' = 3 \/ m' = 6 \/ m' = 8 -> d <= 30) ->
  jd = (1461 * Y) / 4 + (306 * m' + 5) / 10 - (3 * c) / 4 + d + 97 ->
  leapday_ok Y c m' d ->
  n4Z jd / 1461 = Y + (if m' <? 10 then 0 else 1) /\
  nd10Z (n4Z jd) / 306 = m' /\ (nd10Z (n4Z jd) mod 306) / 10 = d - 1.
Proof.
  intros Hc HY Hm Hd H30 Hjd Hl.
  assert (Hf : m' = 11 -> d <= 29) by (intros E; specialize (Hl E); lia).
  destruct (inv_month m' d _ Hm Hd H30 Hf eq_refl) as (M1 & M2 & M3).
  pose (k := (306 * m' + 5) / 10 + d - 1). fold k in M1, M2, M3.
  assert (Hn4 : n4Z jd = 1461 * Y + 4 * k + 240 - Y mod 4).
  { unfold n4Z. rewrite (inv_century c Y m' d jd) by assumption. rewrite inv_corr.
    rewrite <- inv_n4. subst jd k. lia. }
  assert (Hk : k = 365 -> Y mod 4 = 3).
  { intros E. unfold k in E. assert (m' = 11) by lia. specialize (Hl H). lia. }
  assert (HYm : 0 <= Y mod 4 < 4) by (apply Z.mod_pos_bound; lia).
  assert (Hr : (n4Z jd - 237) mod 1461 = 4 * k + 3 - Y mod 4).
  { rewrite Hn4. apply mod_unique_pos with (q := Y); lia. }
  assert (Hnd : nd10Z (n4Z jd) = 10 * k + 5).
  { unfold nd10Z. rewrite Hr. rewrite (div_unique_pos (4 * k + 3 - Y mod 4) 4 k (3 - Y mod 4)) by lia. lia. }
  rewrite Hnd. split; [|split; assumption].
  rewrite Hn4. destruct (Z.ltb_spec m' 10).
  - assert (k <= 305) by (unfold k; lia).
    rewrite Z.add_0_r. apply div_unique_pos with (r := 4 * k + 240 - Y mod 4); lia.
  - assert (306 <= k) by (unfold k; lia).
    apply div_unique_pos with (r := 4 * k + 240 - Y mod 4 - 1461); lia.
Qed.

(** The inverse on every valid date from 4701 BC March 1 on. *)
Lemma leap_true y : leap y = true <-> y mod 4 = 0 /\ (y mod 100 <> 0 \/ y mod 400 = 0).
Proof. unfold leap. rewrite andb_true_iff, orb_true_iff, negb_true_iff, !Z.eqb_eq, Z.eqb_neq. reflexivity. Qed.

Lemma march_form y m d : valid (Dt y m d) -> -4700 <= y - (12 - m) / 10 ->
  let Y := y - (12 - m) / 10 + 4712 in let c := (Y + 188) / 100 in let m' := (m + 9) mod 12 in
  2 <= c /\ 100 * c - 188 <= Y < 100 * c - 88 /\ 0 <= m' <= 11 /\ 1 <= d <= 31 /\
  (m' = 1 \/ m' = 3 \/ m' = 6 \/ m' = 8 -> d <= 30) /\ leapday_ok Y c m' d /\
  mjdZ y m d + 2400001 = (1461 * Y) / 4 + (306 * m' + 5) / 10 - (3 * c) / 4 + d + 97 /\
  y = Y - 4712 + (if m' <? 10 then 0 else 1) /\ m = (m' + 2) mod 12 + 1.
Proof.
  unfold valid, mjdZ. cbn [yr mon dom]. intros [Hm Hd] Hy.
  assert (m = 1 \/ m = 2 \/ m = 3 \/ m = 4 \/ m = 5 \/ m = 6 \/ m = 7 \/ m = 8 \/ m = 9 \/ m = 10 \/ m = 11 \/ m = 12)
    as C by lia.
  unfold leapday_ok.
  assert (L : leap y = true -> y mod 4 = 0 /\ (y mod 100 <> 0 \/ y mod 400 = 0)) by (apply leap_true).
  repeat match type of C with _ \/ _ => destruct C as [C | C] end; subst m;
    cbn [month_length] in Hd; [ | destruct (leap y); [specialize (L eq_refl)|clear L] | .. ];
    cbv zeta;
    repeat match goal with |- _ /\ _ => split end;
    try (match goal with |- context [if ?b then _ else _] => let v := eval vm_compute in b in change b with v end; cbv iota; lia);
    try (clear L; lia); lia.
Qed.

Lemma date_of_mjdZ y m d :
  valid (Dt y m d) -> -4700 <= y - (12 - m) / 10 ->
  yearZ (mjdZ y m d) = y /\ monthZ (mjdZ y m d) = m /\ dayZ (mjdZ y m d) = d.
Proof.
  intros V Hy. destruct (march_form y m d V Hy) as (H1 & H2 & H3 & H4 & H5 & H6 & H7 & H8 & H9).
  cbv zeta in *. unfold yearZ, monthZ, dayZ. rewrite H7.
  destruct (inv_main _ _ _ _ _ H1 H2 H3 H4 H5 eq_refl H6) as (I1 & I2 & I3).
  rewrite I1, I2, I3. repeat split; [ | | ]; try lia.
Qed.

(** One calendar step adds one to the day number. *)
Lemma valid_tomorrow x : valid x -> valid (tomorrow x).
Proof.
  destruct x as [y m d]. unfold valid, tomorrow; cbn [yr mon dom]. intros [Hm Hd].
  destruct (Z.ltb_spec d (month_length y m)); cbn [yr mon dom]; [lia|].
  assert (forall y' m', 1 <= month_length y' m') as ML.
  { intros y' m'. unfold month_length. destruct m' as [|p|p]; try lia.
    do 4 (try destruct p as [p|p|]; try lia; try (destruct (leap y'); lia)). }
  destruct (Z.ltb_spec m 12); cbn [yr mon dom]; split; try lia.
  - specialize (ML y (m + 1)); lia.
  - cbn; lia.
Qed.

Lemma mjdZ_tomorrow x : valid x -> -4712 <= yr x ->
  mjdZ (yr (tomorrow x)) (mon (tomorrow x)) (dom (tomorrow x)) = mjdZ (yr x) (mon x) (dom x) + 1.
Proof.
  destruct x as [y m d]. unfold valid, tomorrow; cbn [yr mon dom]. intros [Hm Hd] Hy.
  destruct (Z.ltb_spec d (month_length y m)); cbn [yr mon dom]; [unfold mjdZ; lia|].
  assert (d = month_length y m) as -> by lia. clear Hd H.
  assert (m = 1 \/ m = 2 \/ m = 3 \/ m = 4 \/ m = 5 \/ m = 6 \/ m = 7 \/ m = 8 \/ m = 9 \/ m = 10 \/ m = 11 \/ m = 12)
    as C by lia.
  repeat match type of C with _ \/ _ => destruct C as [C | C] end; subst m;
    cbn [Z.ltb Z.compare Pos.compare Pos.compare_cont yr mon dom month_length];
    try (unfold mjdZ; lia).
  destruct (leap y) eqn:EL; unfold mjdZ.
  - pose proof (proj1 (leap_true y) EL); lia.
  - assert (~ (y mod 4 = 0 /\ (y mod 100 <> 0 \/ y mod 400 = 0))) by (rewrite <- leap_true; congruence). lia.
Qed.

Lemma yr_days_after n x : yr x <= yr (days_after n x).
Proof.
  induction n as [|n IH]; cbn [days_after]; [lia|]. unfold tomorrow at 1.
  destruct (_ <? _); [exact IH|]. destruct (_ <? _); cbn [yr] in *; lia.
Qed.

Lemma valid_days_after n x : valid x -> valid (days_after n x).
Proof. intros V; induction n; cbn; [assumption|apply valid_tomorrow; assumption]. Qed.

Lemma mjdZ_days_after n x : valid x -> -4712 <= yr x ->
  mjdZ (yr (days_after n x)) (mon (days_after n x)) (dom (days_after n x))
  = mjdZ (yr x) (mon x) (dom x) + Z.of_nat n.
Proof.
  intros V Hy. induction n as [|n IH]; [cbn; lia|].
  cbn [days_after]. rewrite mjdZ_tomorrow, IH; [lia|apply valid_days_after; assumption|].
  pose proof (yr_days_after n x); lia.
Qed.

Lemma mjdZ_inj x x' : valid x -> valid x' -> -4700 <= yr x - (12 - mon x) / 10 -> -4700 <= yr x' - (12 - mon x') / 10 ->
  mjdZ (yr x) (mon x) (dom x) = mjdZ (yr x') (mon x') (dom x') -> x = x'.
Proof.
  destruct x as [y m d], x' as [y' m' d']; cbn [yr mon dom]. intros V V' Hy Hy' E.
  assert (1 <= m <= 12 /\ 1 <= m' <= 12) as [Hm Hm'] by (destruct V, V'; cbn in *; lia).
  destruct (date_of_mjdZ y m d V ltac:(lia)) as (E1 & E2 & E3).
  destruct (date_of_mjdZ y' m' d' V' ltac:(lia)) as (E1' & E2' & E3').
  rewrite E in E1, E2, E3. congruence.
Qed.

Lemma march_days_after n x : valid x -> -4700 <= yr x - (12 - mon x) / 10 ->
  -4700 <= yr (days_after n x) - (12 - mon (days_after n x)) / 10.
Proof.
  intros V Hy. induction n as [|n IH]; [exact Hy|]. cbn [days_after].
  pose proof (valid_days_after n x V) as [Hm _]. unfold tomorrow.
  destruct (_ <? _); [exact IH|]. destruct (Z.ltb_spec (mon (days_after n x)) 12); cbn [yr mon]; lia.
Qed.

Lemma mjdZ_is_mjd x : valid x -> -4700 <= yr x - (12 - mon x) / 10 -> is_mjd x (mjdZ (yr x) (mon x) (dom x)).
Proof.
  intros V Hy. set (n := mjdZ (yr x) (mon x) (dom x)).
  assert (VE : valid mjd_epoch) by (unfold valid, mjd_epoch; cbn; lia).
  assert (HE : -4700 <= yr mjd_epoch - (12 - mon mjd_epoch) / 10) by (unfold mjd_epoch; cbn; lia).
  assert (E0 : mjdZ (yr mjd_epoch) (mon mjd_epoch) (dom mjd_epoch) = 0) by reflexivity.
  assert (1 <= mon x <= 12) by (apply V).
  destruct (Z_lt_le_dec n 0) as [Hn|Hn]; [right|left]; (split; [lia|]).
  - apply mjdZ_inj; try assumption; try (apply valid_days_after; assumption); try (apply march_days_after; assumption).
    rewrite mjdZ_days_after by (assumption || lia). rewrite E0. fold n. lia.
  - apply mjdZ_inj; try assumption; try (apply valid_days_after; assumption); try (apply march_days_after; assumption).
    rewrite mjdZ_days_after by (assumption || (unfold mjd_epoch; cbn; lia)). rewrite E0. fold n. lia.
Qed.

Definition first_march : date := Dt (-4700) 3 1.

Lemma date_exists n : -2395521 <= n ->
  exists x, valid x /\ (-4700 < yr x \/ yr x = -4700 /\ 3 <= mon x) /\ mjdZ (yr x) (mon x) (dom x) = n
            /\ x = days_after (Z.to_nat (n + 2395521)) first_march.
Proof.
  intros Hn. exists (days_after (Z.to_nat (n + 2395521)) first_march).
  assert (V : valid first_march) by (unfold valid, first_march; cbn; lia).
  split; [apply valid_days_after; assumption|].
  split.
  - induction (Z.to_nat (n + 2395521)) as [|k IH]; [cbn; lia|].
    cbn [days_after]. unfold tomorrow.
    destruct (_ <? _); [exact IH|]. destruct (_ <? _); cbn [yr mon] in *; lia.
  - split; [|reflexivity]. rewrite mjdZ_days_after; [|assumption|unfold first_march; cbn; lia].
    change (mjdZ (yr first_march) (mon first_march) (dom first_march)) with (-2395521). lia.
Qed.

Lemma mjdZ_of_date n : -2395521 <= n ->
  let x := Dt (yearZ n) (monthZ n) (dayZ n) in
  valid x /\ (-4700 < yr x \/ yr x = -4700 /\ 3 <= mon x) /\ mjdZ (yr x) (mon x) (dom x) = n.
Proof.
  intros Hn. destruct (date_exists n Hn) as ([y m d] & V & Hy & E & _). cbn [yr mon dom] in *.
  assert (1 <= m <= 12) by (destruct V; cbn in *; lia).
  destruct (date_of_mjdZ y m d V ltac:(lia)) as (E1 & E2 & E3). rewrite E in E1, E2, E3.
  cbv zeta. rewrite E1, E2, E3. auto.
Qed.

(** Largest integral MJD for which [djcl]'s [int] arithmetic is defined. *)
Definition djcl_max : Z := 534459923.

Lemma n4Z_mono a b : a <= b -> n4Z a <= n4Z b.
Proof. unfold n4Z. intros. lia. Qed.

Lemma djcl_date_ok n : -2395520 <= n <= djcl_max ->
  djcl_date n = Some (yearZ n, monthZ n, dayZ n).
Proof.
  intros Hn. unfold djcl_date. unfold djcl_max in Hn.
  assert (B : n4Z 4481 <= n4Z (n + 2400001) <= n4Z 536859924) by (split; apply n4Z_mono; lia).
  change (n4Z 4481) with 17776 in B.
  let v := eval vm_compute in (n4Z 536859924) in change (n4Z 536859924) with v in B.
  unfold I. rewrite (iadd_ok n) by (unfold INT_MIN, INT_MAX; lia). cbv zeta.
  set (jd := n + 2400001) in *. assert (4481 <= jd <= 536859924) by lia.
  rewrite (imul_ok 4 jd), isub_ok, idiv_ok by (unfold INT_MIN, INT_MAX; lia).
  set (q := (4 * jd - 17918) / 146097) in *. assert (0 <= q <= 20000) by lia.
  rewrite (imul_ok 6), idiv_ok, iadd_ok, idiv_ok, iadd_ok, isub_ok by (unfold INT_MIN, INT_MAX; lia).
  rewrite imul_ok by (unfold n4Z in B; fold q in B; unfold INT_MIN, INT_MAX; lia).
  fold (n4Z jd). set (n4 := n4Z jd) in *.
  change (4 * (jd + (6 * q / 4 + 1) / 2 - 37)) with n4.
  rewrite (isub_ok n4 237), imod_ok, (idiv_ok _ 4), (imul_ok 10), (iadd_ok _ 5) by (unfold INT_MIN, INT_MAX; lia).
  fold (nd10Z n4). assert (0 <= nd10Z n4 <= 3660) by (unfold nd10Z; lia).
  iev. reflexivity.
Qed.

Lemma djcl_date_overflow n : djcl_max < n <= INT_MAX - 2400001 -> djcl_date n = None.
Proof.
  intros Hn. unfold djcl_date. unfold djcl_max in Hn.
  assert (B : n4Z 536859925 <= n4Z (n + 2400001)) by (apply n4Z_mono; lia).
  let v := eval vm_compute in (n4Z 536859925) in change (n4Z 536859925) with v in B.
  unfold I. rewrite (iadd_ok n) by (unfold INT_MIN, INT_MAX in *; lia). cbv zeta.
  set (jd := n + 2400001) in *.
  destruct (Z_le_gt_dec jd 536870911).
  - rewrite (imul_ok 4 jd), isub_ok, idiv_ok by (unfold INT_MIN, INT_MAX; lia).
    set (q := (4 * jd - 17918) / 146097) in *. assert (0 <= q <= 20000) by lia.
    rewrite (imul_ok 6), idiv_ok, iadd_ok, idiv_ok, iadd_ok, isub_ok by (unfold INT_MIN, INT_MAX; lia).
    unfold imul at 1 3, lift2. unfold chk at 1 2, in_int.
    destruct (_ && _)%bool eqn:E; [|reflexivity].
    exfalso. unfold n4Z in B; fold q in B. unfold INT_MIN, INT_MAX in E. lia.
  - assert (O : imul (Some 4) (Some jd) = None).
    { unfold imul, lift2, chk, in_int. destruct (_ && _)%bool eqn:E; [|reflexivity]. unfold INT_MIN, INT_MAX in E; lia. }
    rewrite O. reflexivity.
Qed.

Lemma djcal_djcl n : -2395520 <= n <= djcl_max -> djcal_date n = djcl_date n.
Proof.
  intros Hn. rewrite djcl_date_ok by assumption. unfold djcal_date. unfold djcl_max in Hn.
  assert (B : n4Z 4481 <= n4Z (n + 2400001) <= n4Z 536859924) by (split; apply n4Z_mono; lia).
  change (n4Z 4481) with 17776 in B.
  let v := eval vm_compute in (n4Z 536859924) in change (n4Z 536859924) with v in B.
  unfold I. rewrite (iadd_ok n) by (unfold INT_MIN, INT_MAX; lia). cbv zeta.
  set (jd := n + 2400001) in *. assert (4481 <= jd <= 536859924) by lia.
  rewrite (imul_ok 4 jd), isub_ok, idiv_ok by (unfold INT_MIN, INT_MAX; lia).
  set (q := (4 * jd - 17918) / 146097) in *. assert (0 <= q <= 20000) by lia.
  rewrite (imul_ok 2), (imul_ok (2 * q)), idiv_ok, iadd_ok, idiv_ok, iadd_ok, isub_ok by (unfold INT_MIN, INT_MAX; lia).
  replace (2 * q * 3) with (6 * q) by lia.
  rewrite imul_ok by (unfold n4Z in B; fold q in B; unfold INT_MIN, INT_MAX; lia).
  fold (n4Z jd). set (n4 := n4Z jd) in *.
  change (4 * (jd + (6 * q / 4 + 1) / 2 - 37)) with n4.
  rewrite (isub_ok n4 237), imod_ok, (idiv_ok _ 4), (imul_ok 10), (iadd_ok _ 5) by (unfold INT_MIN, INT_MAX; lia).
  fold (nd10Z n4). assert (0 <= nd10Z n4 <= 3660) by (unfold nd10Z; lia).
  iev. reflexivity.
Qed.

(** ** The routines themselves *)
Lemma rem_mod0 y k : 0 < k -> Z.rem y k = 0 <-> y mod k = 0.
Proof.
  intros. rewrite Z.rem_divide, Z.mod_divide by lia. reflexivity.
Qed.

Lemma validate_spec y m d : 1 <= m <= 12 ->
  validate_gregorian_day y m d =
  Some (if (1 <=? d) && (d <=? month_length y m) then G2J_OK else G2J_BAD_DAY).
Proof.
  intros Hm. unfold validate_gregorian_day.
  assert (EL : ((Z.rem y 4 =? 0) && (negb (Z.rem y 100 =? 0) || (Z.rem y 400 =? 0)))%bool = leap y).
  { apply eq_true_iff_eq. rewrite leap_true, andb_true_iff, orb_true_iff, negb_true_iff, !Z.eqb_eq, Z.eqb_neq.
    rewrite !rem_mod0 by lia. reflexivity. }
  rewrite EL.
  assert (E : (if m =? 2 then Some (if leap y then 29 else 28)
               else if (1 <=? m) && (m <=? 12) then nth_error days_in_month (Z.to_nat (m - 1)) else None)
              = Some (month_length y m)).
  { assert (m = 1 \/ m = 2 \/ m = 3 \/ m = 4 \/ m = 5 \/ m = 6 \/ m = 7 \/ m = 8 \/ m = 9 \/ m = 10 \/ m = 11 \/ m = 12)
      as C by lia.
    repeat match type of C with _ \/ _ => destruct C as [C | C] end; subst m; reflexivity. }
  rewrite E. generalize (month_length y m). intros n.
  destruct ((1 <=? d) && (d <=? n))%bool eqn:E1; destruct ((d <? 1) || (d >? n))%bool eqn:E2; try reflexivity; lia.
Qed.

Lemma validate_ok y m d : valid (Dt y m d) -> validate_gregorian_day y m d = Some G2J_OK.
Proof.
  intros [Hm Hd]. cbn [yr mon dom] in *. rewrite validate_spec by assumption.
  destruct (_ && _)%bool eqn:E; [reflexivity|lia].
Qed.

Lemma month_length_le y m : month_length y m <= 31.
Proof.
  unfold month_length. destruct m as [|p|p]; try lia.
  do 4 (try destruct p as [p|p|]; try lia; try (destruct (leap y); lia)).
Qed.

Lemma cldj_valid x : valid x -> -4699 <= yr x <= cldj_max_year ->
  cldj (yr x) (mon x) (dom x) = Some (G2J_OK, Some (mjdZ (yr x) (mon x) (dom x))).
Proof.
  intros V Hy. destruct x as [y m d]. cbn [yr mon dom] in *.
  pose proof (validate_ok y m d V) as W. destruct V as [Hm Hd]. cbn [yr mon dom] in *.
  pose proof (month_length_le y m).
  unfold cldj. destruct (y >=? -4699) eqn:E1; [|lia].
  destruct ((m >=? 1) && (m <=? 12))%bool eqn:E2; [|lia].
  rewrite cldj_expr_ok by (unfold cldj_max_year in *; lia). rewrite W. reflexivity.
Qed.

Lemma cldj_counts_days x : valid x -> -4699 <= yr x <= 1465160 ->
  exists n, cldj (yr x) (mon x) (dom x) = Some (G2J_OK, Some n) /\ is_mjd x n.
Proof.
  intros V Hy. exists (mjdZ (yr x) (mon x) (dom x)). split; [apply cldj_valid; assumption|].
  assert (1 <= mon x <= 12) by (apply V).
  apply mjdZ_is_mjd; [assumption|lia].
Qed.

Lemma is_mjd_inj x n n' : valid x -> -4712 <= yr x -> is_mjd x n -> is_mjd x n' -> n = n'.
Proof.
  intros V Hy.
  assert (VE : valid mjd_epoch) by (unfold valid, mjd_epoch; cbn; lia).
  assert (E0 : mjdZ (yr mjd_epoch) (mon mjd_epoch) (dom mjd_epoch) = 0) by reflexivity.
  assert (forall k, is_mjd x k -> k = mjdZ (yr x) (mon x) (dom x)) as U.
  { intros k [[Hk E]|[Hk E]].
    - rewrite E. rewrite mjdZ_days_after by (assumption || (unfold mjd_epoch; cbn; lia)). lia.
    - pose proof (mjdZ_days_after (Z.to_nat (- k)) x V Hy) as M. rewrite E in M. lia. }
  intros H H'. rewrite (U _ H), (U _ H'). reflexivity.
Qed.

Lemma djcl_date_spec n : -2395520 <= n <= 534459923 ->
  exists x, djcl_date n = Some (yr x, mon x, dom x) /\ valid x /\ is_mjd x n.
Proof.
  intros Hn. destruct (mjdZ_of_date n ltac:(lia)) as (V & Hy & E).
  exists (Dt (yearZ n) (monthZ n) (dayZ n)). split; [apply djcl_date_ok; exact Hn|].
  split; [exact V|]. cbn [yr mon dom] in *. 
  assert (1 <= monthZ n <= 12) by (apply V).
  pose proof (mjdZ_is_mjd _ V) as M. cbn [yr mon dom] in M. rewrite E in M. apply M. lia.
Qed.

Lemma djcl_cldj x n : valid x -> -4699 <= yr x <= 1465160 -> n <= 534459923 ->
  cldj (yr x) (mon x) (dom x) = Some (G2J_OK, Some n) -> djcl_date n = Some (yr x, mon x, dom x).
Proof.
  intros V Hy Hn H. rewrite cldj_valid in H by assumption. injection H as E.
  destruct x as [y m d]; cbn [yr mon dom] in *.
  assert (1 <= m <= 12) by (apply V).
  destruct (date_of_mjdZ y m d V ltac:(lia)) as (E1 & E2 & E3). rewrite E in E1, E2, E3.
  assert (-2395520 <= n). { rewrite <- E. unfold mjdZ. destruct V as [_ [V _]]; cbn in V. lia. }
  rewrite djcl_date_ok by (unfold djcl_max; lia). rewrite E1, E2, E3. reflexivity.
Qed.

Lemma cldj_djcl n y m d : -2395215 <= n <= 534459923 -> djcl_date n = Some (y, m, d) ->
  cldj y m d = Some (G2J_OK, Some n).
Proof.
  intros Hn H. rewrite djcl_date_ok in H by (unfold djcl_max; lia). injection H as <- <- <-.
  destruct (mjdZ_of_date n ltac:(lia)) as (V & Hy & E). cbn [yr mon dom] in *.
  assert (1 <= monthZ n <= 12) by (apply V).
  assert (1 <= dayZ n <= 31). { destruct V as [_ V]; cbn in V. pose proof (month_length_le (yearZ n) (monthZ n)). lia. }
  rewrite <- E at 4. apply (cldj_valid (Dt (yearZ n) (monthZ n) (dayZ n)) V). cbn [yr mon dom].
  unfold cldj_max_year. split.
  - assert (yearZ n <> -4700); [|lia]. intros Y. rewrite Y in E. unfold mjdZ in E. lia.
  - unfold mjdZ in E. lia.
Qed.

(** Exact domain of definedness. *)
Lemma cldj_defined_iff x : valid x -> -4699 <= yr x <= INT_MAX ->
  cldj (yr x) (mon x) (dom x) = None <-> yr x > 1465160 + (if mon x <=? 2 then 1 else 0).
Proof.
  intros V Hy. destruct x as [y m d]. cbn [yr mon dom] in *.
  assert (Hm : 1 <= m <= 12) by (apply V).
  assert (Ei : (12 - m) / 10 = if m <=? 2 then 1 else 0) by (destruct (Z.leb_spec m 2); lia).
  assert (Hi : 0 <= (12 - m) / 10 <= 1) by lia.
  rewrite <- Ei. split.
  - intros H. destruct (Z_le_gt_dec (y - (12 - m) / 10) 1465160) as [L|G]; [exfalso|lia].
    pose proof (validate_ok y m d V) as W. pose proof (month_length_le y m). destruct V as [_ Hd]; cbn [yr mon dom] in Hd.
    unfold cldj in H. destruct (y >=? -4699) eqn:E1; [|lia].
    destruct ((m >=? 1) && (m <=? 12))%bool eqn:E2; [|lia].
    assert (EX : cldj_expr y m d = Some (mjdZ y m d)).
    { unfold cldj_expr, mjdZ. generalize (L), Hi. intros L' Hi'.
      unfold I. rewrite (isub_ok 12 m), (idiv_ok (12 - m)) by (unfold INT_MIN, INT_MAX; lia).
      revert L' Hi'. generalize ((12 - m) / 10). intros i L' Hi'.
      iev. reflexivity. }
    rewrite EX, W in H. discriminate.
  - intros G. unfold cldj. destruct (y >=? -4699) eqn:E1; [|lia].
    destruct ((m >=? 1) && (m <=? 12))%bool eqn:E2; [|lia].
    destruct (Z_le_gt_dec y (INT_MAX - 10000)).
    + rewrite cldj_expr_overflow by (unfold cldj_max_year; lia). reflexivity.
    + assert (X : cldj_expr y m d = None); [|rewrite X; reflexivity].
      unfold cldj_expr, I. rewrite (isub_ok 12 m), (idiv_ok (12 - m)), (isub_ok y) by (unfold INT_MIN, INT_MAX in *; lia).
      assert (O : imul (Some 1461) (iadd (Some (y - (12 - m) / 10)) (Some 4712)) = None).
      { clear E2. unfold iadd, lift2, chk, in_int. match goal with |- context [if ?b then _ else _] => destruct b eqn:E3 end; [|reflexivity].
        unfold imul, lift2, chk, in_int. match goal with |- (if ?b then _ else _) = _ => destruct b eqn:E4 end; [|reflexivity].
        unfold INT_MIN, INT_MAX in *. lia. }
      rewrite O. reflexivity.
Qed.

(** Status and outputs. *)
Lemma cldj_cases y m d r : cldj y m d = Some r ->
  (y < -4699 /\ r = (G2J_BAD_YEAR, None)) \/
  (-4699 <= y /\ ~ 1 <= m <= 12 /\ r = (G2J_BAD_MONTH, None)) \/
  (-4699 <= y /\ 1 <= m <= 12 /\ exists v, cldj_expr y m d = Some v /\
     r = (if (1 <=? d) && (d <=? month_length y m) then G2J_OK else G2J_BAD_DAY, Some v)).
Proof.
  unfold cldj. intros H. destruct (y >=? -4699) eqn:E1.
  - right. destruct ((m >=? 1) && (m <=? 12))%bool eqn:E2.
    + right. split; [lia|]. split; [lia|]. destruct (cldj_expr y m d) as [v|]; [|discriminate].
      rewrite validate_spec in H by lia. injection H as <-. exists v. split; reflexivity.
    + left. injection H as <-. repeat split; lia.
  - left. injection H as <-. split; [lia|reflexivity].
Qed.

Lemma cldj_status y m d st out : cldj y m d = Some (st, out) ->
  (st = G2J_BAD_YEAR <-> y < -4699) /\
  (st = G2J_BAD_MONTH <-> -4699 <= y /\ ~ 1 <= m <= 12) /\
  (st = G2J_BAD_DAY <-> -4699 <= y /\ 1 <= m <= 12 /\ ~ valid (Dt y m d)) /\
  (st = G2J_OK <-> -4699 <= y /\ valid (Dt y m d)) /\
  (out = None <-> st = G2J_BAD_YEAR \/ st = G2J_BAD_MONTH).
Proof.
  intros H. destruct (cldj_cases _ _ _ _ H) as [[H1 E]|[(H1 & H2 & E)|(H1 & H2 & v & EX & E)]];
    injection E as -> ->; unfold valid; cbn [yr mon dom].
  1,2: (repeat split; intros; try discriminate; try lia; auto).
  destruct ((1 <=? d) && (d <=? month_length y m))%bool eqn:E; repeat split; intros; try discriminate; try lia; auto.
  1,2: destruct H0; discriminate.
Qed.

Lemma cldj_expr_linear y m d d' v v' : cldj_expr y m d = Some v -> cldj_expr y m d' = Some v' -> v' - v = d' - d.
Proof.
  unfold cldj_expr, I. intros H H'.
  match type of H with isub (iadd ?e _) _ = _ => destruct e as [a|]; [|discriminate] end.
  unfold isub, iadd, lift2, chk in *.
  destruct (in_int (a + d)); [|discriminate]. destruct (in_int (a + d')); [|discriminate].
  destruct (in_int (a + d - 2399904)); [|discriminate]. destruct (in_int (a + d' - 2399904)); [|discriminate].
  injection H as <-. injection H' as <-. lia.
Qed.

Lemma cldj_linear y m d d' st st' v v' :
  cldj y m d = Some (st, Some v) -> cldj y m d' = Some (st', Some v') -> v' - v = d' - d.
Proof.
  intros H H'.
  destruct (cldj_cases _ _ _ _ H) as [[H1 E]|[(H1 & H2 & E)|(H1 & H2 & u & EX & E)]]; try discriminate.
  destruct (cldj_cases _ _ _ _ H') as [[H1' E']|[(H1' & H2' & E')|(H1' & H2' & u' & EX' & E')]]; try discriminate.
  injection E as _ ->. injection E' as _ ->. exact (cldj_expr_linear _ _ _ _ _ _ EX EX').
Qed.

Lemma cldj_total y m d : INT_MIN <= y <= 1465160 -> INT_MIN <= m <= INT_MAX -> -2000000000 <= d <= 1600000000 ->
  exists r, cldj y m d = Some r.
Proof.
  intros Hy Hm Hd. unfold cldj. destruct (y >=? -4699) eqn:E1; [|eexists; reflexivity].
  destruct ((m >=? 1) && (m <=? 12))%bool eqn:E2; [|eexists; reflexivity].
  rewrite cldj_expr_ok by (unfold cldj_max_year; lia). rewrite validate_spec by lia. eexists; reflexivity.
Qed.

(** djcl: exact domain of the integer part. *)
Lemma djcl_defined_iff n : -2395520 <= n < 1000000000 -> djcl_date n = None <-> n > 534459923.
Proof.
  intros Hn. split.
  - intros H. destruct (Z_le_gt_dec n 534459923); [|assumption].
    rewrite djcl_date_ok in H by (unfold djcl_max; lia). discriminate.
  - intros G. apply djcl_date_overflow. unfold djcl_max, INT_MAX. lia.
Qed.

Lemma process_year_defaults_spec y :
  (0 <= y <= 49 -> process_year_defaults y = y + 2000) /\
  (50 <= y <= 99 -> process_year_defaults y = y + 1900) /\
  (y < 0 \/ 100 <= y -> process_year_defaults y = y).
Proof.
  unfold process_year_defaults.
  destruct ((y >=? 0) && (y <=? 49))%bool eqn:E1; destruct ((y >=? 50) && (y <=? 99))%bool eqn:E2; lia.
Qed.
