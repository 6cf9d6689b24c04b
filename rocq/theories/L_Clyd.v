(** Proofs about [clyd]: the aligned Julian calendar. *)
From Coq Require Import ZArith Bool List Lia ZifyBool.
From Verif Require Import Int32 M_Calendar S_Calendar L_Calendar.
Import ListNotations.
Open Scope Z_scope.
Ltac Zify.zify_post_hook ::= Z.div_mod_to_equations.

Definition clyd_max_year : Z := 1465072.

(** Year and day from the intermediate day number [j >= 1]. *)
Definition Lz (j : Z) := j - 1461 * ((j - 1) / 1461).
Definition Nz (L : Z) := (L - 1) / 365 - L / 1461.
Definition jz (L : Z) := ((80 * (L - 365 * Nz L + 30)) / 2447) / 11.
Definition iz (L : Z) := Nz L + jz L.
Definition dz (L : Z) := 59 + L - 365 * iz L + ((4 - Nz L) / 4) * (1 - jz L).
Definition ydz (j : Z) : ydate := Yd (4 * ((j - 1) / 1461) + iz (Lz j) - 4716) (dz (Lz j)).

Definition LL (L : Z) : Prop := 1 <= L <= 1461.

(** Facts about one 1461-day cycle, established by evaluating all of it. *)
Definition cyc : list Z := map Z.of_nat (seq 1 1461).
Lemma in_cyc L : LL L -> In L cyc.
Proof. intros H. unfold LL in H. unfold cyc. apply in_map_iff. exists (Z.to_nat L). split; [lia|]. apply in_seq. lia. Qed.

Definition fact1 (L : Z) : bool :=
  (0 <=? Nz L) && (Nz L <=? 3) && (0 <=? L - 365 * Nz L + 30) && (L - 365 * Nz L + 30 <=? 400) && (0 <=? jz L) && (jz L <=? 1)
  && (1 <=? dz L) && (dz L <=? jyear_length (iz L)) && (0 <=? iz L) && (iz L <=? 4).
Lemma fact1_all : forallb fact1 cyc = true.
Proof. vm_compute. reflexivity. Qed.
Definition fact2 (L : Z) : bool :=
  (L =? 1461) ||
  let a := ytomorrow (Yd (iz L) (dz L)) in (yd_year a =? iz (L + 1)) && (yd_day a =? dz (L + 1)).
Lemma fact2_all : forallb fact2 cyc = true.
Proof. vm_compute. reflexivity. Qed.
Lemma fact3 : ytomorrow (Yd (iz 1461) (dz 1461)) = Yd (4 + iz 1) (dz 1).
Proof. vm_compute. reflexivity. Qed.

Lemma jleap_shift k y : jleap (4 * k + y) = jleap y.
Proof. unfold jleap. f_equal. lia. Qed.
Lemma ytomorrow_shift k y d :
  ytomorrow (Yd (4 * k + y) d) = Yd (4 * k + yd_year (ytomorrow (Yd y d))) (yd_day (ytomorrow (Yd y d))).
Proof.
  unfold ytomorrow; cbn [yd_year yd_day]. unfold jyear_length. rewrite jleap_shift.
  destruct (_ <? _); cbn [yd_year yd_day]; f_equal; lia.
Qed.

Lemma Lz_LL j : LL (Lz j).
Proof. unfold LL, Lz. lia. Qed.

Lemma fact1_at L : LL L -> fact1 L = true.
Proof. intros H. exact (proj1 (forallb_forall _ _) fact1_all L (in_cyc L H)). Qed.

Lemma ydz_valid j : yvalid (ydz j).
Proof.
  pose proof (fact1_at _ (Lz_LL j)) as F. unfold fact1 in F. unfold yvalid, ydz; cbn [yd_year yd_day].
  replace (4 * ((j - 1) / 1461) + iz (Lz j) - 4716) with (4 * ((j - 1) / 1461 - 1179) + iz (Lz j)) by lia.
  unfold jyear_length in *. rewrite jleap_shift. lia.
Qed.

Lemma ydz_step j : ydz (j + 1) = ytomorrow (ydz j).
Proof.
  unfold ydz. set (k := (j - 1) / 1461).
  replace (4 * k + iz (Lz j) - 4716) with (4 * (k - 1179) + iz (Lz j)) by lia.
  rewrite ytomorrow_shift. pose proof (Lz_LL j) as HL. unfold LL in HL.
  destruct (Z.eq_dec (Lz j) 1461) as [E|E].
  - assert (H1 : (j + 1 - 1) / 1461 = k + 1) by (unfold Lz in E; fold k in E; lia).
    assert (H2 : Lz (j + 1) = 1) by (unfold Lz in *; fold k in E; rewrite H1; lia).
    rewrite H1, H2, E. rewrite fact3. cbn [yd_year yd_day]. f_equal; lia.
  - assert (H1 : (j + 1 - 1) / 1461 = k) by (unfold Lz in *; fold k in E, HL; lia).
    assert (H2 : Lz (j + 1) = Lz j + 1) by (unfold Lz; rewrite H1; fold k; lia).
    rewrite H1, H2.
    pose proof (proj1 (forallb_forall _ _) fact2_all (Lz j) (in_cyc _ HL)) as F. unfold fact2 in F.
    apply orb_true_iff in F. destruct F as [F|F]; [lia|].
    apply andb_true_iff in F. destruct F as [F1 F2]. apply Z.eqb_eq in F1, F2.
    rewrite F1, F2. f_equal. lia.
Qed.

(** The intermediate day number is the MJD plus a constant. *)
Lemma clyd_j y m d : 1 <= m <= 12 ->
  (1461 * (y - (14 - m) / 12 + 4800)) / 4 + (367 * (m - 2 + 12 * ((14 - m) / 12))) / 12
  - (3 * ((y - (14 - m) / 12 + 4900) / 100)) / 4 + d - 30660 = mjdZ y m d + 2401416.
Proof.
  intros Hm. unfold mjdZ.
  assert (E1 : (14 - m) / 12 = (12 - m) / 10) by lia.
  assert (E2 : (367 * (m - 2 + 12 * ((12 - m) / 10))) / 12 = (306 * ((m + 9) mod 12) + 5) / 10 + 30).
  { assert (m = 1 \/ m = 2 \/ m = 3 \/ m = 4 \/ m = 5 \/ m = 6 \/ m = 7 \/ m = 8 \/ m = 9 \/ m = 10 \/ m = 11 \/ m = 12)
      as C by lia.
    repeat match type of C with _ \/ _ => destruct C as [C | C] end; subst m; reflexivity. }
  rewrite E1, E2. generalize ((306 * ((m + 9) mod 12) + 5) / 10) as B. intros B.
  generalize ((12 - m) / 10) as i. intros i. lia.
Qed.

Lemma clyd_expr_ok y m d :
  -4711 <= y -> y - (14 - m) / 12 <= clyd_max_year -> 1 <= m <= 12 -> 1 <= d <= 1600000000 ->
  let r := ydz (mjdZ y m d + 2401416) in
  clyd_expr y m d = Some (yd_year r, yd_day r).
Proof.
  intros Hy Hy' Hm Hd. cbv zeta. rewrite <- clyd_j by assumption.
  unfold clyd_expr, clyd_max_year, ydz in *. cbn [yd_year yd_day].
  unfold I. rewrite (isub_ok 14 m) by (unfold INT_MIN, INT_MAX; lia).
  rewrite (idiv_ok (14 - m)) by (unfold INT_MIN, INT_MAX; lia). cbv zeta.
  assert (Hi : 0 <= (14 - m) / 12 <= 1) by lia.
  assert (Hmi : 0 <= m - 2 + 12 * ((14 - m) / 12) <= 13) by lia.
  revert Hy' Hi Hmi. generalize ((14 - m) / 12). intros i Hy' Hi Hmi.
  rewrite (isub_ok y i) by (unfold INT_MIN, INT_MAX; lia).
  rewrite (iadd_ok (y - i) 4800), (imul_ok 1461), (idiv_ok (1461 * (y - i + 4800)) 4),
    (isub_ok m 2), (imul_ok 12), (iadd_ok (m - 2)), (imul_ok 367), (idiv_ok _ 12) by (unfold INT_MIN, INT_MAX; lia).
  set (A := (1461 * (y - i + 4800)) / 4). set (B := (367 * (m - 2 + 12 * i)) / 12).
  assert (32142 - 400 <= A <= 536870911) by (unfold A; lia).
  assert (0 <= B <= 400) by (unfold B; lia).
  rewrite (iadd_ok A B), (iadd_ok (y - i) 4900), (idiv_ok _ 100), (imul_ok 3), (idiv_ok _ 4) by (unfold INT_MIN, INT_MAX; lia).
  set (C := (3 * ((y - i + 4900) / 100)) / 4).
  assert (0 <= C <= 20000) by (unfold C; lia).
  assert (C <= A - 30900) by (unfold C, A; lia).
  rewrite (isub_ok (A + B)), (iadd_ok _ d), (isub_ok _ 30660) by (unfold INT_MIN, INT_MAX; lia).
  set (j := A + B - C + d - 30660). assert (1 <= j <= INT_MAX) by (unfold INT_MAX; lia).
  rewrite (isub_ok j 1), (idiv_ok _ 1461) by (unfold INT_MIN, INT_MAX in *; lia).
  set (k := (j - 1) / 1461). assert (0 <= k <= 1469873) by (unfold k, INT_MAX in *; lia).
  rewrite (imul_ok 1461 k), (isub_ok j) by (unfold k, INT_MIN, INT_MAX in *; lia).
  fold (Lz j). pose proof (Lz_LL j) as HL. unfold LL in HL.
  change (j - 1461 * k) with (Lz j). pose proof (fact1_at _ (Lz_LL j)) as F. unfold fact1 in F.
  set (L := Lz j) in *.
  rewrite (isub_ok L 1), (idiv_ok (L - 1)), (idiv_ok L) by (unfold INT_MIN, INT_MAX; lia).
  rewrite (isub_ok ((L - 1) / 365)) by (unfold INT_MIN, INT_MAX; lia).
  fold (Nz L). set (N := Nz L) in *.
  rewrite (imul_ok 365 N), (isub_ok L), (iadd_ok _ 30), (imul_ok 80), (idiv_ok _ 2447), (idiv_ok _ 11) by (unfold INT_MIN, INT_MAX; lia).
  change ((80 * (L - 365 * N + 30)) / 2447 / 11) with (jz L). set (J := jz L) in *.
  rewrite (iadd_ok N J) by (unfold INT_MIN, INT_MAX; lia). change (N + J) with (iz L). set (Q := iz L) in *.
  rewrite (imul_ok 4 k), (iadd_ok (4 * k)), (isub_ok _ 4716) by (unfold INT_MIN, INT_MAX; lia).
  rewrite (iadd_ok 59), (imul_ok 365 Q), (isub_ok (59 + L)), (isub_ok 4 N), (idiv_ok (4 - N)), (isub_ok 1 J) by (unfold INT_MIN, INT_MAX; lia).
  assert (0 <= (4 - N) / 4 <= 1) by lia.
  rewrite imul_ok by (unfold INT_MIN, INT_MAX; nia).
  rewrite iadd_ok by (unfold INT_MIN, INT_MAX; nia).
  reflexivity.
Qed.

Lemma clyd_valid x : valid x -> -4711 <= yr x <= clyd_max_year ->
  let r := ydz (mjdZ (yr x) (mon x) (dom x) + 2401416) in
  clyd (yr x) (mon x) (dom x) = Some (G2J_OK, Some (yd_year r, yd_day r)).
Proof.
  intros V Hy. destruct x as [y m d]. cbn [yr mon dom] in *. cbv zeta.
  pose proof (validate_ok y m d V) as W. destruct V as [Hm Hd]. cbn [yr mon dom] in *.
  pose proof (month_length_le y m).
  unfold clyd. destruct (y >=? -4711) eqn:E1; [|lia].
  destruct ((m >=? 1) && (m <=? 12))%bool eqn:E2; [|lia].
  rewrite clyd_expr_ok by (unfold clyd_max_year in *; lia). rewrite W. reflexivity.
Qed.

Lemma ydz_days n j : ydz (j + Z.of_nat n) = ydays_after n (ydz j).
Proof.
  induction n as [|n IH]; [cbn [ydays_after Z.of_nat]; rewrite Z.add_0_r; reflexivity|].
  cbn [ydays_after]. rewrite <- IH, <- ydz_step. f_equal. lia.
Qed.

Lemma clyd_calendar n : let x := days_after n (Dt (-4711) 1 1) in yr x <= 1465072 ->
  let r := ydays_after n (Yd (-4711) 52) in
  clyd (yr x) (mon x) (dom x) = Some (G2J_OK, Some (yd_year r, yd_day r)).
Proof.
  cbv zeta. intros Hy.
  assert (V0 : valid (Dt (-4711) 1 1)) by (unfold valid; cbn; lia).
  pose proof (valid_days_after n _ V0) as V. pose proof (yr_days_after n (Dt (-4711) 1 1)) as Y. cbn [yr] in Y.
  rewrite clyd_valid by (assumption || (unfold clyd_max_year; lia)). cbv zeta.
  rewrite mjdZ_days_after by (assumption || (cbn; lia)).
  set (M := mjdZ (yr (Dt (-4711) 1 1)) (mon (Dt (-4711) 1 1)) (dom (Dt (-4711) 1 1))).
  replace (M + Z.of_nat n + 2401416) with (M + 2401416 + Z.of_nat n) by lia. rewrite ydz_days.
  assert (E : ydz (M + 2401416) = Yd (-4711) 52) by (vm_compute; reflexivity). rewrite E. reflexivity.
Qed.

Lemma yvalid_days_after n x : yvalid x -> yvalid (ydays_after n x).
Proof.
  intros V; induction n as [|n IH]; cbn [ydays_after]; [assumption|].
  unfold ytomorrow, yvalid in *. destruct (Z.ltb_spec (yd_day (ydays_after n x)) (jyear_length (yd_year (ydays_after n x))));
    cbn [yd_year yd_day]; [lia|]. unfold jyear_length. destruct (jleap _); lia.
Qed.

Lemma clyd_reaches x : valid x -> -4711 <= yr x -> exists n, x = days_after n (Dt (-4711) 1 1).
Proof.
  (* by strong induction on the day number, stepping back one day *)
  assert (Ind : forall k x, valid x -> -4711 <= yr x ->
     mjdZ (yr x) (mon x) (dom x) = mjdZ (-4711) 1 1 + Z.of_nat k -> exists n, x = days_after n (Dt (-4711) 1 1)).
  { induction k as [|k IH]; intros [y m d] V Hy E; cbn [yr mon dom] in *.
    - exists 0%nat. cbn [days_after].
      destruct V as [Hm Hd]; cbn [yr mon dom] in *.
      assert (y = -4711) by (unfold mjdZ in E; lia). subst y.
      assert (m = 1 \/ m = 2 \/ m = 3 \/ m = 4 \/ m = 5 \/ m = 6 \/ m = 7 \/ m = 8 \/ m = 9 \/ m = 10 \/ m = 11 \/ m = 12)
        as C by lia.
      repeat match type of C with _ \/ _ => destruct C as [C | C] end; subst m; unfold mjdZ in E; f_equal; lia.
    - (* the day before *)
      destruct V as [Hm Hd]; cbn [yr mon dom] in *.
      destruct (Z_lt_le_dec 1 d).
      + destruct (IH (Dt y m (d - 1))) as [n Hn].
        * split; cbn [yr mon dom]; lia.
        * cbn; lia.
        * cbn [yr mon dom]. unfold mjdZ in *. lia.
        * exists (S n). cbn [days_after]. rewrite <- Hn. unfold tomorrow; cbn [yr mon dom].
          destruct (Z.ltb_spec (d - 1) (month_length y m)); [f_equal; lia|lia].
      + assert (d = 1) by lia. subst d.
        assert (ML : forall y' m', 28 <= month_length y' m').
        { intros y' m'. unfold month_length. destruct m' as [|p|p]; try lia.
          do 4 (try destruct p as [p|p|]; try lia; try (destruct (leap y'); lia)). }
        destruct (Z_lt_le_dec 1 m).
        * pose (z := Dt y (m - 1) (month_length y (m - 1))).
          assert (VZ : valid z) by (split; cbn [yr mon dom z]; [lia|specialize (ML y (m - 1)); lia]).
          assert (TZ : tomorrow z = Dt y m 1).
          { unfold tomorrow, z; cbn [yr mon dom]. rewrite Z.ltb_irrefl.
            destruct (Z.ltb_spec (m - 1) 12); [f_equal; lia|lia]. }
          pose proof (mjdZ_tomorrow z VZ ltac:(cbn; lia)) as MT. rewrite TZ in MT. cbn [yr mon dom] in MT.
          destruct (IH z VZ ltac:(cbn; lia) ltac:(lia)) as [n Hn].
          exists (S n). cbn [days_after]. rewrite <- Hn. symmetry. exact TZ.
        * assert (m = 1) by lia. subst m.
          destruct (Z.eq_dec y (-4711)) as [->|NE]; [exists 0%nat; reflexivity|].
          pose (z := Dt (y - 1) 12 31).
          assert (VZ : valid z) by (split; cbn; lia).
          assert (TZ : tomorrow z = Dt y 1 1) by (unfold tomorrow, z; cbn; f_equal; lia).
          pose proof (mjdZ_tomorrow z VZ ltac:(cbn; lia)) as MT. rewrite TZ in MT. cbn [yr mon dom] in MT.
          destruct (IH z VZ ltac:(cbn; lia) ltac:(lia)) as [n Hn].
          exists (S n). cbn [days_after]. rewrite <- Hn. symmetry. exact TZ. }
  intros V Hy. apply (Ind (Z.to_nat (mjdZ (yr x) (mon x) (dom x) - mjdZ (-4711) 1 1))); [assumption|assumption|].
  destruct x as [y m d], V as [Hm Hd]; cbn [yr mon dom] in *.
  assert (mjdZ (-4711) 1 1 <= mjdZ y m d); [|lia]. unfold mjdZ.
  assert (m = 1 \/ m = 2 \/ m = 3 \/ m = 4 \/ m = 5 \/ m = 6 \/ m = 7 \/ m = 8 \/ m = 9 \/ m = 10 \/ m = 11 \/ m = 12)
    as C by lia.
  repeat match type of C with _ \/ _ => destruct C as [C | C] end; subst m; lia.
Qed.

(** Agreement with the Gregorian day of the year. *)
Definition agree (y m d : Z) : bool :=
  match clyd y m d with
  | Some (G2J_OK, Some (y', d')) => (y' =? y) && (d' =? day_of_year (Dt y m d))
  | _ => false
  end.
Definition zrange (a : Z) (n : nat) : list Z := map (fun i => a + Z.of_nat i) (seq 0 n).
Lemma in_zrange a n z : a <= z < a + Z.of_nat n -> In z (zrange a n).
Proof. intros H. unfold zrange. apply in_map_iff. exists (Z.to_nat (z - a)). split; [lia|]. apply in_seq. lia. Qed.

Lemma sweep3 (P : Z -> Z -> Z -> bool) a n b k c l :
  forallb (fun y => forallb (fun m => forallb (fun d => P y m d) (zrange c l)) (zrange b k)) (zrange a n) = true ->
  forall y m d, a <= y < a + Z.of_nat n -> b <= m < b + Z.of_nat k -> c <= d < c + Z.of_nat l -> P y m d = true.
Proof.
  intros A y m d Hy Hm Hd.
  rewrite forallb_forall in A. specialize (A y (in_zrange _ _ _ Hy)).
  rewrite forallb_forall in A. specialize (A m (in_zrange _ _ _ Hm)).
  rewrite forallb_forall in A. exact (A d (in_zrange _ _ _ Hd)).
Qed.

Definition agreeP (y m d : Z) : bool := agree y m d || negb (d <=? month_length y m) || ((y =? 2100) && (3 <=? m)).
Lemma agree_all_true :
  forallb (fun y => forallb (fun m => forallb (fun d => agreeP y m d) (zrange 1 31)) (zrange 1 12)) (zrange 1901 200) = true.
Proof. vm_compute. reflexivity. Qed.

Lemma clyd_agrees x : valid x -> 1901 <= yr x <= 2100 -> (yr x = 2100 -> mon x <= 2) ->
  clyd (yr x) (mon x) (dom x) = Some (G2J_OK, Some (yr x, day_of_year x)).
Proof.
  destruct x as [y m d]. intros [Hm Hd] Hy H21; cbn [yr mon dom] in *. pose proof (month_length_le y m) as ML.
  assert (A : agreeP y m d = true).
  { apply (sweep3 agreeP _ _ _ _ _ _ agree_all_true); clear - Hm Hd Hy ML; lia. }
  unfold agreeP in A.
  assert (B : agree y m d = true).
  { destruct (agree y m d); [reflexivity|]. exfalso.
    destruct (Z.leb_spec d (month_length y m)); [|lia].
    destruct (Z.eqb_spec y 2100); destruct (Z.leb_spec 3 m); cbn in A; try discriminate. lia. }
  clear A. unfold agree in B. destruct (clyd y m d) as [[[] [[y' d']|]]|]; try discriminate.
  apply andb_true_iff in B. destruct B as [B1 B2]. apply Z.eqb_eq in B1, B2. subst. reflexivity.
Qed.

(** For 1900 the two differ from March 1 on. *)
Definition agree1900 (y m d : Z) : bool := negb (d <=? month_length y m) ||
     match clyd y m d with
     | Some (G2J_OK, Some (y', d')) => (y' =? y) && (d' =? day_of_year (Dt y m d) + 1) | _ => false end.
Lemma agree1900_true :
  forallb (fun y => forallb (fun m => forallb (fun d => agree1900 y m d) (zrange 1 31)) (zrange 3 10)) (zrange 1900 1) = true.
Proof. vm_compute. reflexivity. Qed.

Lemma clyd_1900 x : valid x -> yr x = 1900 -> 3 <= mon x ->
  clyd (yr x) (mon x) (dom x) = Some (G2J_OK, Some (1900, day_of_year x + 1)).
Proof.
  destruct x as [y m d]. intros [Hm Hd] Hy H3; cbn [yr mon dom] in *. pose proof (month_length_le y m) as ML.
  assert (A : agree1900 y m d = true).
  { apply (sweep3 agree1900 _ _ _ _ _ _ agree1900_true); clear - Hm Hd Hy ML H3; lia. }
  unfold agree1900 in A.
  destruct (Z.leb_spec d (month_length y m)); [|lia]. cbn [negb orb] in A.
  destruct (clyd y m d) as [[[] [[y' d']|]]|]; try discriminate.
  apply andb_true_iff in A. destruct A as [B1 B2]. apply Z.eqb_eq in B1, B2. subst y' d'. rewrite Hy. reflexivity.
Qed.

(** Status discipline of clyd. *)
Lemma clyd_cases y m d r : clyd y m d = Some r ->
  (y < -4711 /\ r = (G2J_BAD_YEAR, None)) \/
  (-4711 <= y /\ ~ 1 <= m <= 12 /\ r = (G2J_BAD_MONTH, None)) \/
  (-4711 <= y /\ 1 <= m <= 12 /\ exists v, clyd_expr y m d = Some v /\
     r = (if (1 <=? d) && (d <=? month_length y m) then G2J_OK else G2J_BAD_DAY, Some v)).
Proof.
  unfold clyd. intros H. destruct (y >=? -4711) eqn:E1.
  - right. destruct ((m >=? 1) && (m <=? 12))%bool eqn:E2.
    + right. split; [lia|]. split; [lia|]. destruct (clyd_expr y m d) as [v|]; [|discriminate].
      rewrite validate_spec in H by lia. injection H as <-. exists v. split; reflexivity.
    + left. injection H as <-. repeat split; lia.
  - left. injection H as <-. split; [lia|reflexivity].
Qed.

Lemma clyd_status y m d st out : clyd y m d = Some (st, out) ->
  (st = G2J_BAD_YEAR <-> y < -4711) /\
  (st = G2J_BAD_MONTH <-> -4711 <= y /\ ~ 1 <= m <= 12) /\
  (st = G2J_BAD_DAY <-> -4711 <= y /\ 1 <= m <= 12 /\ ~ valid (Dt y m d)) /\
  (st = G2J_OK <-> -4711 <= y /\ valid (Dt y m d)) /\
  (out = None <-> st = G2J_BAD_YEAR \/ st = G2J_BAD_MONTH).
Proof.
  intros H. destruct (clyd_cases _ _ _ _ H) as [[H1 E]|[(H1 & H2 & E)|(H1 & H2 & v & EX & E)]];
    injection E as -> ->; unfold valid; cbn [yr mon dom].
  1,2: (repeat split; intros; try discriminate; try lia; auto).
  destruct ((1 <=? d) && (d <=? month_length y m))%bool eqn:E; repeat split; intros; try discriminate; try lia; auto.
  1,2: destruct H0; discriminate.
Qed.

(** Exact domain of definedness of clyd on valid dates. *)
Lemma clyd_defined_iff x : valid x -> -4711 <= yr x <= INT_MAX ->
  clyd (yr x) (mon x) (dom x) = None <-> yr x > 1465072 + (if mon x <=? 2 then 1 else 0).
Proof.
  intros V Hy. destruct x as [y m d]. cbn [yr mon dom] in *.
  assert (Hm : 1 <= m <= 12) by (apply V).
  assert (Hd : 1 <= d <= 31) by (pose proof (month_length_le y m); destruct V as [_ Hd]; cbn [yr mon dom] in Hd; lia).
  assert (Ei : (14 - m) / 12 = if m <=? 2 then 1 else 0) by (destruct (Z.leb_spec m 2); lia).
  assert (Hi : 0 <= (14 - m) / 12 <= 1) by lia.
  rewrite <- Ei. unfold clyd. destruct (y >=? -4711) eqn:E1; [|lia].
  destruct ((m >=? 1) && (m <=? 12))%bool eqn:E2; [|lia]. clear E2 E1. split.
  - intros H. destruct (Z_le_gt_dec (y - (14 - m) / 12) 1465072) as [L|G]; [exfalso|lia].
    rewrite clyd_expr_ok in H by (unfold clyd_max_year; lia).
    rewrite validate_spec in H by lia. discriminate.
  - intros G. assert (X : clyd_expr y m d = None); [|rewrite X; reflexivity].
    unfold clyd_expr, I. rewrite (isub_ok 14 m), (idiv_ok (14 - m)) by (unfold INT_MIN, INT_MAX in *; lia).
    clear Ei. revert Hi G. generalize ((14 - m) / 12). intros i Hi G. cbv zeta.
    rewrite (isub_ok y i) by (unfold INT_MIN, INT_MAX in *; lia).
    assert (O : imul (Some 1461) (iadd (Some (y - i)) (Some 4800)) = None).
    { unfold iadd, lift2, chk, in_int. match goal with |- context [if ?b then _ else _] => destruct b eqn:E3 end; [|reflexivity].
      unfold imul, lift2, chk, in_int. match goal with |- (if ?b then _ else _) = _ => destruct b eqn:E4 end; [|reflexivity].
      unfold INT_MIN, INT_MAX in *. lia. }
    rewrite O. reflexivity.
Qed.

Lemma two_digit_years y m d :
  (0 <= y <= 49 -> caldj y m d = cldj (y + 2000) m d /\ calyd y m d = clyd (y + 2000) m d) /\
  (50 <= y <= 99 -> caldj y m d = cldj (y + 1900) m d /\ calyd y m d = clyd (y + 1900) m d) /\
  (y < 0 \/ 100 <= y -> caldj y m d = cldj y m d /\ calyd y m d = clyd y m d).
Proof.
  unfold caldj, calyd. destruct (process_year_defaults_spec y) as (H1 & H2 & H3).
  repeat split; intros; rewrite ?H1, ?H2, ?H3 by assumption; reflexivity.
Qed.
