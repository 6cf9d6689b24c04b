(** Rational enclosures of sine and cosine, from the standard library's
    alternating series. *)
From Coq Require Import Reals Lra Lia ZArith QArith Qreals.
From Verif Require Import L_Pi.
Open Scope R_scope.

(** Partial sums of the sine and cosine series in Horner form: [b] is 1 for the
    sine and 0 for the cosine. *)
Fixpoint rhorner (b : nat) (x : R) (i m : nat) : R :=
  match m with
  | O => 1
  | S m => 1 - x * x / INR ((2 * i + 1 + b) * (2 * i + 2 + b)) * rhorner b x (S i) m
  end.
Fixpoint qhorner (b : nat) (q : Q) (i m : nat) : Q :=
  match m with
  | O => 1
  | S m => 1 - q * q / inject_Z (Z.of_nat ((2 * i + 1 + b) * (2 * i + 2 + b))) * qhorner b q (S i) m
  end%Q.
Definition qs_sum (q : Q) (n : nat) : Q := (q * qhorner 1 q 0 n)%Q.
Definition qc_sum (q : Q) (n : nat) : Q := qhorner 0 q 0 n.

Lemma qhorner_R b q m : forall i, Q2R (qhorner b q i m) = rhorner b (Q2R q) i m.
Proof.
  induction m as [|m IH]; intros i; cbn [qhorner rhorner]; [unfold Q2R; cbn; lra|].
  rewrite Q2R_minus, Q2R_mult, Q2R_div, Q2R_mult, IH, inject_R, <- INR_IZR_INZ.
  2: { unfold inject_Z, Qeq; cbn [Qnum Qden]. nia. }
  replace (Q2R 1) with 1 by (unfold Q2R; cbn; lra). reflexivity.
Qed.
Lemma rhorner_sum b x m : forall i,
  x ^ (2 * i + b) / INR (fact (2 * i + b)) * rhorner b x i m =
  sum_f_R0 (fun j => (-1) ^ j * (x ^ (2 * (i + j) + b) / INR (fact (2 * (i + j) + b)))) m.
Proof.
  induction m as [|m IH]; intros i.
  - cbn [rhorner sum_f_R0 pow]. rewrite Nat.add_0_r. ring.
  - cbn [rhorner]. rewrite decomp_sum by lia. cbn [pred]. rewrite Nat.add_0_r.
    rewrite (sum_eq _ (fun j => ((-1) ^ j * (x ^ (2 * (S i + j) + b) / INR (fact (2 * (S i + j) + b)))) * (-1))).
    2: { intros j _. replace (i + S j)%nat with (S i + j)%nat by lia. cbn [pow]. ring. }
    rewrite <- scal_sum, <- IH. cbn [pow].
    replace (2 * S i + b)%nat with (S (S (2 * i + b))) by lia.
    rewrite !fact_simpl, !mult_INR. cbn [pow].
    replace (INR (2 * i + 1 + b)) with (INR (S (2 * i + b))) by (f_equal; lia).
    replace (INR (2 * i + 2 + b)) with (INR (S (S (2 * i + b)))) by (f_equal; lia).
    pose proof (INR_fact_neq_0 (2 * i + b)). pose proof (not_0_INR (S (2 * i + b)) ltac:(lia)).
    pose proof (not_0_INR (S (S (2 * i + b))) ltac:(lia)). field. auto.
Qed.
Lemma qs_sum_R q n : Q2R (qs_sum q n) = sum_f_R0 (sin_term (Q2R q)) n.
Proof.
  unfold qs_sum. rewrite Q2R_mult, qhorner_R. pose proof (rhorner_sum 1 (Q2R q) n 0) as E.
  cbn [Nat.mul Nat.add fact pow] in E. replace (Q2R q * 1 / INR 1) with (Q2R q) in E by (cbn [INR]; field). rewrite E. apply sum_eq. intros. unfold sin_term. reflexivity.
Qed.
Lemma qc_sum_R q n : Q2R (qc_sum q n) = sum_f_R0 (cos_term (Q2R q)) n.
Proof.
  unfold qc_sum. rewrite qhorner_R. pose proof (rhorner_sum 0 (Q2R q) n 0) as E.
  cbn [Nat.mul Nat.add fact pow] in E. replace (1 / INR 1 * rhorner 0 (Q2R q) 0 n) with (rhorner 0 (Q2R q) 0 n) in E by (cbn [INR]; field).
  rewrite E. apply sum_eq. intros. unfold cos_term. rewrite Nat.add_0_r. reflexivity.
Qed.

Lemma sin_enclosure q n : 0 <= Q2R q <= PI ->
  Q2R (qs_sum q (2 * n + 1)) <= sin (Q2R q) <= Q2R (qs_sum q (2 * (n + 1))).
Proof.
  intros [A B]. rewrite !qs_sum_R. apply sin_bound; assumption.
Qed.
Lemma cos_enclosure q n : - PI / 2 <= Q2R q <= PI / 2 ->
  Q2R (qc_sum q (2 * n + 1)) <= cos (Q2R q) <= Q2R (qc_sum q (2 * (n + 1))).
Proof.
  intros [A B]. rewrite !qc_sum_R.
  apply cos_bound; assumption.
Qed.

Lemma sin_lip x y : Rabs (sin x - sin y) <= Rabs (x - y).
Proof.
  destruct (Req_dec x y) as [->|N]; [unfold Rminus; rewrite !Rplus_opp_r; lra|].
  destruct (MVT_abs sin cos y x) as (c & E & _). { intros. apply derivable_pt_lim_sin. }
  rewrite E. rewrite <- (Rmult_1_l (Rabs (x - y))) at 2. apply Rmult_le_compat_r; [apply Rabs_pos|].
  pose proof (COS_bound c). apply Rabs_le; lra.
Qed.
Lemma cos_lip x y : Rabs (cos x - cos y) <= Rabs (x - y).
Proof.
  rewrite !cos_sin. replace (x - y) with ((PI / 2 + x) - (PI / 2 + y)) by ring. apply sin_lip.
Qed.

(** [x] is within [e] of the rational [q], and the partial sums of the series at
    [q] are within [e] of [v]: the sine (cosine) of [x] is within [2 e] of [v]. *)
Lemma sin_near (x : R) (q v e : Q) n : Rabs (x - Q2R q) <= Q2R e -> (0 <= q <= 3)%Q ->
  (v - e <= qs_sum q (2 * n + 1))%Q -> (qs_sum q (2 * (n + 1)) <= v + e)%Q ->
  Rabs (sin x - Q2R v) <= 2 * Q2R e.
Proof.
  intros H [Q0 Q1] L U. apply Qle_Rle in Q0, Q1, L, U. pose proof PI_bounds as [P _].
  replace (Q2R 0) with 0 in Q0 by (unfold Q2R; cbn; lra). replace (Q2R 3) with 3 in Q1 by (unfold Q2R; cbn; lra).
  destruct (sin_enclosure q n) as [A B]; [split; lra|].
  rewrite Q2R_minus in L. rewrite Q2R_plus in U. pose proof (sin_lip x (Q2R q)) as X.
  replace (sin x - Q2R v) with ((sin x - sin (Q2R q)) + (sin (Q2R q) - Q2R v)) by ring.
  eapply Rle_trans; [apply Rabs_triang|].
  assert (Rabs (sin (Q2R q) - Q2R v) <= Q2R e) by (apply Rabs_le; lra). lra.
Qed.
Lemma cos_near (x : R) (q v e : Q) n : Rabs (x - Q2R q) <= Q2R e -> (-(3 # 2) <= q <= 3 # 2)%Q ->
  (v - e <= qc_sum q (2 * n + 1))%Q -> (qc_sum q (2 * (n + 1)) <= v + e)%Q ->
  Rabs (cos x - Q2R v) <= 2 * Q2R e.
Proof.
  intros H [Q0 Q1] L U. apply Qle_Rle in Q0, Q1, L, U. pose proof PI_bounds as [P _].
  replace (Q2R (- (3 # 2))) with (- 3 / 2) in Q0 by (unfold Q2R; cbn; lra).
  replace (Q2R (3 # 2)) with (3 / 2) in Q1 by (unfold Q2R; cbn; lra).
  destruct (cos_enclosure q n) as [A B]; [split; lra|].
  rewrite Q2R_minus in L. rewrite Q2R_plus in U. pose proof (cos_lip x (Q2R q)) as X.
  replace (cos x - Q2R v) with ((cos x - cos (Q2R q)) + (cos (Q2R q) - Q2R v)) by ring.
  eapply Rle_trans; [apply Rabs_triang|].
  assert (Rabs (cos (Q2R q) - Q2R v) <= Q2R e) by (apply Rabs_le; lra). lra.
Qed.
