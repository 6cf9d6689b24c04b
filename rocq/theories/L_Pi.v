(** Twenty decimals of pi, from the standard library's arctangent series. *)
From Coq Require Import Reals Lra Lia ZArith QArith Qreals AltSeries Machin Ratan.
Open Scope R_scope.

Fixpoint qpow (q : Q) (n : nat) : Q := match n with O => 1%Q | S n => Qred (q * qpow q n)%Q end.
Definition qterm (n : nat) : Q :=
  (((qpow (1 # 3) (2 * n + 1)) / inject_Z (Z.of_nat (2 * n + 1))) * 2 + qpow (1 # 7) (2 * n + 1) / inject_Z (Z.of_nat (2 * n + 1)))%Q.
Fixpoint qsum (n : nat) : Q :=
  let s := (if Nat.even n then 1 else -1)%Q in
  match n with O => qterm 0 | S m => Qred (qsum m + s * qterm (S m))%Q end.

Lemma Q2R_red q : Q2R (Qred q) = Q2R q.
Proof. apply Qeq_eqR. apply Qred_correct. Qed.
Lemma qpow_R q n : Q2R (qpow q n) = (Q2R q) ^ n.
Proof.
  induction n as [|n IH]; [unfold Q2R; cbn; lra|].
  cbn [qpow pow]. rewrite Q2R_red, Q2R_mult, IH. reflexivity.
Qed.
Lemma inject_R z : Q2R (inject_Z z) = IZR z.
Proof. unfold Q2R, inject_Z; cbn. field. Qed.
Lemma qterm_R n : Q2R (qterm n) = PI_2_3_7_tg n.
Proof.
  unfold qterm, PI_2_3_7_tg, Ratan_seq. rewrite Q2R_plus, Q2R_mult.
  rewrite !Q2R_div. 2,3: unfold inject_Z, Qeq; cbn; lia.
  rewrite !qpow_R, !inject_R, INR_IZR_INZ. 
  replace (Q2R (1 # 3)) with (/ 3) by (unfold Q2R; cbn; lra). replace (Q2R (1 # 7)) with (/ 7) by (unfold Q2R; cbn; lra).
  replace (Q2R 2) with 2 by (unfold Q2R; cbn; lra). ring.
Qed.
Lemma sgn_R n : Q2R (if Nat.even n then 1 else -1)%Q = (-1) ^ n.
Proof.
  destruct (Nat.even n) eqn:E.
  - apply Nat.even_spec in E. destruct E as [k ->]. rewrite pow_1_even. unfold Q2R; cbn; lra.
  - assert (O : Nat.odd n = true) by (unfold Nat.odd; rewrite E; reflexivity).
    apply Nat.odd_spec in O. destruct O as [k ->]. replace (2 * k + 1)%nat with (S (2 * k)) by lia. rewrite pow_1_odd. unfold Q2R; cbn; lra.
Qed.
Lemma qsum_R n : Q2R (qsum n) = sum_f_R0 (tg_alt PI_2_3_7_tg) n.
Proof.
  induction n as [|n IH].
  - cbn [qsum sum_f_R0]. unfold tg_alt. rewrite qterm_R. cbn [pow]. ring.
  - cbn [qsum sum_f_R0]. rewrite Q2R_red, Q2R_plus, Q2R_mult, IH, qterm_R. unfold tg_alt at 2.
    rewrite (sgn_R (S n)). reflexivity.
Qed.

Lemma PI_bounds : 3.1415926535897932384626 < PI < 3.1415926535897932384627.
Proof.
  destruct (PI_2_3_7_ineq 12) as [A B]. rewrite <- !qsum_R in A, B.
  assert (LO : Q2R (31415926535897932384626 # 40000000000000000000000)%Q < Q2R (qsum (S (2 * 12)))).
  { apply Qlt_Rlt. vm_compute. reflexivity. }
  assert (HI : Q2R (qsum (2 * 12)) < Q2R (31415926535897932384627 # 40000000000000000000000)%Q).
  { apply Qlt_Rlt. vm_compute. reflexivity. }
  replace (Q2R (31415926535897932384626 # 40000000000000000000000)%Q) with (31415926535897932384626 / 40000000000000000000000) in LO by (unfold Q2R; cbn; lra).
  replace (Q2R (31415926535897932384627 # 40000000000000000000000)%Q) with (31415926535897932384627 / 40000000000000000000000) in HI by (unfold Q2R; cbn; lra).
  lra.
Qed.
