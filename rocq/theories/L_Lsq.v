(** [svdsol] and [svdcov]. *)
From Coq Require Import Reals Arith List Lia Lra Bool.
From Verif Require Import Num NumR M_Lin S_Lin L_Sum.
Import ListNotations.
Open Scope R_scope.

(** Accumulation loops. *)
Lemma for_sum n (f : nat -> R) s0 : for_ 0 n (fun i (s : R) => s + f i) s0 = s0 + sum n f.
Proof.
  apply (for_inv _ (fun k s => s = s0 + sum k f)); [ lia | cbn; ring | ].
  intros i s _ ->. cbn [sum]. ring.
Qed.
Lemma for_set1 T n (f : nat -> T) (a0 : nat -> T) k : (k < n)%nat -> for_ 0 n (fun j a => set1 a j (f j)) a0 k = f k.
Proof.
  intros Hk.
  assert (H : forall k, (k < n)%nat -> for_ 0 n (fun j a => set1 a j (f j)) a0 k = f k).
  { apply (for_inv _ (fun m a => forall k, (k < m)%nat -> a k = f k)); [ lia | intros; lia | ].
    intros i a _ IH j Hj. destruct (Nat.eq_dec j i) as [-> | ]; [ apply set1_same | ].
    rewrite set1_other by auto. apply IH. lia. }
  now apply H.
Qed.

Lemma svdsol_spec m n b U w V ws0 x0 k : (k < n)%nat ->
  svdsol (N := RNum) m n b U w V ws0 x0 k =
  sum n (fun l => V k l * (if Reqb (w l) 0 then 0 else sum m (fun i => U i l * b i) / w l)).
Proof.
  intros Hk. unfold svdsol.
  rewrite (for_set1 (car RNum) n (fun k => for_ 0 n (fun l s2 => (s2 + V k l * svdsol_ws m n b U w ws0 l)%num) (n_ofZ 0))) by exact Hk.
  etransitivity; [ exact (for_sum n (fun l => V k l * svdsol_ws (N := RNum) m n b U w ws0 l) 0) | ].
  rewrite Rplus_0_l. apply sum_ext. intros l Hl. f_equal. unfold svdsol_ws.
  rewrite (for_set1 (car RNum) n (fun j => if negb (w j =? #0)%num
              then (for_ 0 m (fun i s1 => s1 + U i j * b i) #0 / w j)%num else (#0)%num)) by exact Hl.
  unR. destruct (Reqb (w l) 0); cbn [negb]; [ reflexivity | ]. f_equal.
  rewrite (for_sum m (fun i => U i l * b i) 0). ring.
Qed.

Section Lsq.
Context (m n : nat) (A U : nat -> nat -> R) (w : nat -> R) (V : nat -> nat -> R) (b : nat -> R).
Context (F : factorises m n A U w V).

Let beta k := sum m (fun i => U i k * b i).
Let coef (z : nat -> R) k := sum n (fun j => V j k * z j).

Lemma A_apply z i : (i < m)%nat -> mulv n A z i = sum n (fun k => U i k * (w k * coef z k)).
Proof.
  intros Hi. destruct F as [F1 _]. unfold mulv.
  rewrite (sum_ext n _ (fun j => sum n (fun k => U i k * w k * V j k * z j))).
  - rewrite sum_swap. apply sum_ext. intros k _. unfold coef. rewrite <- !sum_scal. apply sum_ext. intros. ring.
  - intros j Hj. rewrite F1, <- sum_scal_r by auto. reflexivity.
Qed.

Lemma sum_mult p q f g : sum p f * sum q g = sum p (fun i => sum q (fun j => f i * g j)).
Proof.
  rewrite <- sum_scal_r. apply sum_ext. intros i _. rewrite <- sum_scal. reflexivity.
Qed.

(** The squared residual in terms of the components along the singular vectors. *)
Lemma residual_coef z :
  residual2 m n A b z = norm2 m b + sum n (fun k => (w k * coef z k) ^ 2 - 2 * (w k * coef z k) * beta k).
Proof.
  destruct F as [_ [F2 _]].
  unfold residual2, norm2. set (t := fun k => w k * coef z k).
  transitivity (sum m (fun i => b i * b i + (sum n (fun k => U i k * t k) * sum n (fun k => U i k * t k)
     - 2 * (sum n (fun k => U i k * t k) * b i)))).
  { apply sum_ext. intros i Hi. rewrite A_apply by exact Hi.
    change (sum n (fun k => U i k * (w k * coef z k))) with (sum n (fun k => U i k * t k)). ring. }
  rewrite sum_plus. f_equal. rewrite sum_minus, sum_minus. f_equal.
  - rewrite (sum_ext m _ (fun i => sum n (fun k => sum n (fun l => t k * t l * (U i k * U i l))))).
    2: { intros i _. rewrite sum_mult. apply sum_ext. intros k _. apply sum_ext. intros l _. ring. }
    rewrite sum_swap. apply sum_ext. intros k Hk. rewrite sum_swap.
    rewrite (sum_one n k); auto.
    + rewrite sum_scal. fold (t k). destruct (Req_dec (w k) 0) as [E | E].
      * unfold t. rewrite E. ring.
      * rewrite F2 by auto. unfold delta. rewrite Nat.eqb_refl. ring.
    + intros l Hl Hlk. rewrite sum_scal. destruct (Req_dec (w k) 0) as [E | E]; [ unfold t; rewrite E; ring | ].
      destruct (Req_dec (w l) 0) as [E' | E']; [ unfold t; rewrite E'; ring | ].
      rewrite F2 by auto. unfold delta. apply Nat.neq_sym, Nat.eqb_neq in Hlk. rewrite Hlk. ring.
  - rewrite sum_scal.
    rewrite (sum_ext m _ (fun i => sum n (fun k => t k * (U i k * b i)))).
    2: { intros i _. rewrite <- sum_scal_r. apply sum_ext. intros. ring. }
    rewrite sum_swap, <- sum_scal. apply sum_ext. intros k _. rewrite sum_scal. fold (beta k) (t k). ring.
Qed.

(** The components of the solution. *)
Lemma coef_sol g k : (k < n)%nat -> coef (fun i => sum n (fun l => V i l * g l)) k = g k.
Proof.
  destruct F as [_ [_ F3]]. intros Hk. unfold coef.
  rewrite (sum_ext n _ (fun j => sum n (fun l => g l * (V j k * V j l)))).
  2: { intros j _. rewrite <- sum_scal. apply sum_ext. intros. ring. }
  rewrite sum_swap. rewrite (sum_ext n _ (fun l => delta k l * g l)).
  - now apply sum_delta_l.
  - intros l Hl. rewrite sum_scal. destruct (F3 k l Hk Hl) as [_ E]. unfold mulm, transp in E. rewrite E. ring.
Qed.
Lemma coef_ext z z' k : (forall i, (i < n)%nat -> z i = z' i) -> coef z k = coef z' k.
Proof. intros H. apply sum_ext. intros i Hi. now rewrite H. Qed.

Definition gam (w' : nat -> R) k := if Reqb (w' k) 0 then 0 else beta k / w' k.
Lemma coef_svdsol w' ws0 x0 k : (k < n)%nat -> coef (svdsol (N := RNum) m n b U w' V ws0 x0) k = gam w' k.
Proof.
  intros Hk. rewrite (coef_ext _ (fun i => sum n (fun l => V i l * gam w' l))).
  - now apply coef_sol.
  - intros i Hi. now apply svdsol_spec.
Qed.

Lemma svdsol_without w' ws0 x0 k : (k < n)%nat -> w' k = 0 ->
  without n V k (svdsol (N := RNum) m n b U w' V ws0 x0).
Proof.
  intros Hk E. unfold without. change (coef (svdsol (N := RNum) m n b U w' V ws0 x0) k = 0).
  rewrite coef_svdsol by exact Hk. unfold gam. destruct (Reqb_spec (w' k) 0); [ reflexivity | contradiction ].
Qed.

Lemma svdsol_best w' ws0 x0 z :
  (forall k, (k < n)%nat -> w' k = w k \/ w' k = 0) ->
  (forall k, (k < n)%nat -> w' k = 0 -> w k = 0 \/ without n V k z) ->
  residual2 m n A b (svdsol (N := RNum) m n b U w' V ws0 x0) <= residual2 m n A b z.
Proof.
  intros Hw Hz. rewrite !residual_coef. apply Rplus_le_compat_l, sum_le. intros k Hk.
  rewrite coef_svdsol by exact Hk. unfold gam.
  destruct (Reqb_spec (w' k) 0) as [E | E].
  - destruct (Hz k Hk E) as [-> | H]; [ lra | ]. change (coef z k = 0) in H. rewrite H. lra.
  - destruct (Hw k Hk) as [E2 | ]; [ | contradiction ]. rewrite <- E2.
    replace (w' k * (beta k / w' k)) with (beta k) by (field; exact E).
    set (t := w' k * coef z k). assert (Q := pow2_ge_0 (t - beta k)). nra.
Qed.

Lemma norm_coef z : sum n (fun k => coef z k ^ 2) = norm2 n z.
Proof.
  destruct F as [_ [_ F3]]. unfold coef, norm2.
  rewrite (sum_ext n _ (fun k => sum n (fun i => sum n (fun j => z i * z j * (V i k * V j k))))).
  2: { intros k _. cbn [pow]. rewrite Rmult_1_r, sum_mult. apply sum_ext. intros i _. apply sum_ext. intros. ring. }
  rewrite sum_swap. apply sum_ext. intros i Hi. rewrite sum_swap.
  rewrite (sum_ext n _ (fun j => z i * (delta i j * z j))).
  - rewrite sum_scal, sum_delta_l by exact Hi. reflexivity.
  - intros j Hj. rewrite sum_scal. destruct (F3 i j Hi Hj) as [E _]. unfold mulm, transp in E. rewrite E. ring.
Qed.

Lemma svdsol_shortest ws0 x0 z :
  residual2 m n A b z <= residual2 m n A b (svdsol (N := RNum) m n b U w V ws0 x0) ->
  norm2 n (svdsol (N := RNum) m n b U w V ws0 x0) <= norm2 n z.
Proof.
  intros H. rewrite !residual_coef in H. apply Rplus_le_reg_l in H.
  set (x := svdsol (N := RNum) m n b U w V ws0 x0) in *.
  assert (T : forall k, (k < n)%nat ->
    ((w k * coef z k) ^ 2 - 2 * (w k * coef z k) * beta k) - ((w k * coef x k) ^ 2 - 2 * (w k * coef x k) * beta k) =
    (w k * (coef z k - gam w k)) ^ 2).
  { intros k Hk. unfold x. rewrite coef_svdsol by exact Hk. unfold gam.
    destruct (Reqb_spec (w k) 0) as [E | E]; [ rewrite E; ring | ]. field. exact E. }
  assert (Z : forall k, (k < n)%nat -> (w k * (coef z k - gam w k)) ^ 2 = 0).
  { apply sum_pos_0.
    - intros i _. apply pow2_ge_0.
    - apply Rle_antisym; [ | apply sum_pos; intros; apply pow2_ge_0 ].
      rewrite <- (sum_ext n _ _ T), sum_minus. lra. }
  rewrite <- !norm_coef. apply sum_le. intros k Hk. unfold x. rewrite coef_svdsol by exact Hk.
  specialize (Z k Hk). unfold gam in *. destruct (Reqb_spec (w k) 0) as [E | E].
  - rewrite pow_ne_zero by lia. apply pow2_ge_0.
  - assert (Q : w k * (coef z k - beta k / w k) = 0) by (apply Rsqr_0_uniq; unfold Rsqr; lra).
    apply Rmult_integral in Q. destruct Q as [Q | Q]; [ contradiction | ].
    replace (coef z k) with (beta k / w k) by lra. apply Rle_refl.
Qed.
End Lsq.

(** svdcov *)
Lemma svdcov_spec n w V ws0 c0 i j : (i < n)%nat -> (j < n)%nat ->
  svdcov (N := RNum) n w V ws0 c0 i j =
  sum n (fun k => V i k * V j k * (if Reqb (w k) 0 then 0 else 1 / (w k * w k))).
Proof.
  intros Hi Hj. unfold svdcov.
  set (ws := svdcov_ws (N := RNum) n w ws0).
  assert (EW : forall k, (k < n)%nat -> ws k = if Reqb (w k) 0 then 0 else 1 / (w k * w k)).
  { intros k Hk. unfold ws, svdcov_ws.
    rewrite (for_set1 (car RNum) n (fun l => if negb (w l =? #0)%num then (#1 / (w l * w l))%num else (#0)%num)) by exact Hk.
    unR. destruct (Reqb (w k) 0); reflexivity. }
  set (s2 := fun i j => sum n (fun k => V i k * V j k * ws k)).
  assert (ES : forall i j, for_ 0 n (fun k s2 => s2 + V i k * V j k * ws k)%num (@n_ofZ RNum 0) = s2 i j).
  { intros p q. etransitivity; [ exact (for_sum n (fun k => V p k * V q k * ws k) 0) | ]. apply Rplus_0_l. }
  assert (SY : forall i j, s2 i j = s2 j i).
  { intros p q. apply sum_ext. intros. ring. }
  transitivity (s2 i j).
  2: { apply sum_ext. intros k Hk. now rewrite EW. }
  assert (H : forall i j, (i < n)%nat -> (j < n)%nat -> 
    for_ 0 n (fun (i : nat) (c : mx RNum) =>
      for_ 0 (S i) (fun (j : nat) (c0 : mx RNum) =>
        let s3 := for_ 0 n (fun (k : nat) (s3 : RNum) => (s3 + V i k * V j k * ws k)%num) #0%num in
        set2 (set2 c0 i j s3) j i s3) c) c0 i j = s2 i j); [ | now apply H ].
  apply (for_inv _ (fun p (c : mx RNum) => forall i j, (i < p)%nat -> (j < p)%nat -> c i j = s2 i j)); [ lia | intros; lia | ].
  intros p c Hp IH.
  assert (H : forall i j, ((i < p /\ j < p) \/ (i = p /\ j < S p) \/ (j = p /\ i < S p))%nat ->
    for_ 0 (S p) (fun (j : nat) (c0 : mx RNum) =>
        let s3 := for_ 0 n (fun (k : nat) (s3 : RNum) => (s3 + V p k * V j k * ws k)%num) #0%num in
        set2 (set2 c0 p j s3) j p s3) c i j = s2 i j).
  { apply (for_inv _ (fun q (c : mx RNum) => forall i j, ((i < p /\ j < p) \/ (i = p /\ j < q) \/ (j = p /\ i < q))%nat -> c i j = s2 i j)).
    - lia.
    - intros i' j' H'. apply IH; lia.
    - intros q c' Hq IH' i' j' H'. cbv zeta. rewrite ES.
      destruct (Nat.eq_dec i' q) as [-> | Hiq].
      + destruct (Nat.eq_dec j' p) as [-> | Hjp]; [ rewrite set2_same; apply SY | ].
        rewrite set2_other by auto.
        destruct (Nat.eq_dec q p) as [-> | Hqp].
        * rewrite set2_other by auto. apply IH'. lia.
        * rewrite set2_other by auto. apply IH'. lia.
      + rewrite set2_other by auto.
        destruct (Nat.eq_dec i' p) as [-> | Hip].
        * destruct (Nat.eq_dec j' q) as [-> | Hjq]; [ apply set2_same | ]. rewrite set2_other by auto.
          apply IH'. lia.
        * rewrite set2_other by auto. apply IH'. lia. }
  intros i' j' Hi' Hj'. apply H. lia.
Qed.

Lemma svdcov_sym n w V ws0 c0 i j : (i < n)%nat -> (j < n)%nat ->
  svdcov (N := RNum) n w V ws0 c0 i j = svdcov (N := RNum) n w V ws0 c0 j i.
Proof. intros Hi Hj. rewrite !svdcov_spec by auto. apply sum_ext. intros. ring. Qed.

Lemma svdcov_psd n w V ws0 c0 z :
  0 <= sum n (fun i => sum n (fun j => z i * svdcov (N := RNum) n w V ws0 c0 i j * z j)).
Proof.
  rewrite (sum_ext n _ (fun i => sum n (fun j => sum n (fun k =>
     (z i * V i k) * (z j * V j k) * (if Reqb (w k) 0 then 0 else 1 / (w k * w k)))))).
  2: { intros i Hi. apply sum_ext. intros j Hj. rewrite svdcov_spec by auto.
       rewrite <- sum_scal, <- sum_scal_r. apply sum_ext. intros. ring. }
  rewrite (sum_ext n _ (fun i => sum n (fun k => sum n (fun j =>
     (z i * V i k) * (z j * V j k) * (if Reqb (w k) 0 then 0 else 1 / (w k * w k)))))) by (intros; apply sum_swap).
  rewrite sum_swap. apply sum_pos. intros k _.
  rewrite (sum_ext n _ (fun i => z i * V i k * (sum n (fun j => z j * V j k) * (if Reqb (w k) 0 then 0 else 1 / (w k * w k))))).
  2: { intros i _. rewrite <- sum_scal_r, <- sum_scal. apply sum_ext. intros. ring. }
  rewrite sum_scal_r. set (S := sum n _).
  destruct (Reqb_spec (w k) 0) as [E | E]; [ nra | ].
  replace (S * (S * (1 / (w k * w k)))) with ((S / w k) * (S / w k)) by (field; exact E).
  apply Rle_0_sqr.
Qed.

(** The covariance of the solution when the right-hand sides have independent
    unit errors. *)
Lemma svdcov_propagates m n A U w V ws0 c0 ws1 x1 i j :
  factorises m n A U w V -> (i < n)%nat -> (j < n)%nat ->
  let response r := svdsol (N := RNum) m n (delta r) U w V ws1 x1 in
  svdcov (N := RNum) n w V ws0 c0 i j = sum m (fun r => response r i * response r j).
Proof.
  intros [_ [F2 _]] Hi Hj. cbv zeta.
  set (g := fun k => if Reqb (w k) 0 then 0 else / w k).
  assert (E : forall r p, (r < m)%nat -> (p < n)%nat ->
    svdsol (N := RNum) m n (delta r) U w V ws1 x1 p = sum n (fun k => V p k * (U r k * g k))).
  { intros r p Hr Hp. rewrite svdsol_spec by exact Hp. apply sum_ext. intros k _. f_equal. unfold g.
    destruct (Reqb (w k) 0); [ ring | ].
    rewrite (sum_ext m _ (fun i => U i k * delta i r)) by (intros; rewrite (delta_sym r); reflexivity).
    rewrite sum_delta_r by exact Hr. reflexivity. }
  rewrite (sum_ext m _ (fun r => sum n (fun k => sum n (fun l => V i k * g k * V j l * g l * (U r k * U r l))))).
  2: { intros r Hr. rewrite !E by auto. rewrite <- sum_scal_r. apply sum_ext. intros k _.
       rewrite <- sum_scal. apply sum_ext. intros. ring. }
  rewrite sum_swap, svdcov_spec by auto. apply sum_ext. intros k Hk. rewrite sum_swap.
  rewrite (sum_one n k); auto.
  - rewrite sum_scal. unfold g. destruct (Reqb_spec (w k) 0) as [Z | Z]; [ ring | ].
    rewrite F2 by auto. unfold delta. rewrite Nat.eqb_refl. field. exact Z.
  - intros l Hl Hlk. rewrite sum_scal. unfold g.
    destruct (Reqb_spec (w k) 0) as [Z | Z]; [ ring | ]. destruct (Reqb_spec (w l) 0) as [Z' | Z']; [ ring | ].
    rewrite F2 by auto. unfold delta. apply Nat.neq_sym, Nat.eqb_neq in Hlk. rewrite Hlk. ring.
Qed.

(** With no zero singular value, the inverse of the normal matrix A^T A. *)
Lemma svdcov_normal m n A U w V ws0 c0 :
  factorises m n A U w V -> (forall k, (k < n)%nat -> w k <> 0) ->
  inverse n (fun i j => sum m (fun r => A r i * A r j)) (svdcov (N := RNum) n w V ws0 c0).
Proof.
  intros [F1 [F2 F3]] Hw.
  set (C := fun i j => sum n (fun k => V i k * V j k * (1 / (w k * w k)))).
  set (B := fun i j => sum n (fun k => V i k * V j k * (w k * w k))).
  assert (EC : forall i j, (i < n)%nat -> (j < n)%nat -> svdcov (N := RNum) n w V ws0 c0 i j = C i j).
  { intros i j Hi Hj. rewrite svdcov_spec by auto. apply sum_ext. intros k Hk.
    destruct (Reqb_spec (w k) 0) as [Z | Z]; [ now apply Hw in Z | reflexivity ]. }
  assert (EB : forall i j, (i < n)%nat -> (j < n)%nat -> sum m (fun r => A r i * A r j) = B i j).
  { intros i j Hi Hj.
    rewrite (sum_ext m _ (fun r => sum n (fun k => sum n (fun l => V i k * w k * V j l * w l * (U r k * U r l))))).
    2: { intros r Hr. rewrite !F1 by auto. rewrite <- sum_scal_r. apply sum_ext. intros k _.
         rewrite <- sum_scal. apply sum_ext. intros. ring. }
    rewrite sum_swap. apply sum_ext. intros k Hk. rewrite sum_swap. rewrite (sum_one n k); auto.
    - rewrite sum_scal, F2 by auto. unfold delta. rewrite Nat.eqb_refl. ring.
    - intros l Hl Hlk. rewrite sum_scal, F2 by auto. unfold delta. apply Nat.neq_sym, Nat.eqb_neq in Hlk.
      rewrite Hlk. ring. }
  (* V D V^T times V D' V^T *)
  assert (P : forall (D D' : nat -> R), (forall k, (k < n)%nat -> D k * D' k = 1) -> forall i j, (i < n)%nat -> (j < n)%nat ->
    sum n (fun p => sum n (fun k => V i k * V p k * D k) * sum n (fun l => V p l * V j l * D' l)) = delta i j).
  { intros D D' HD i j Hi Hj.
    rewrite (sum_ext n _ (fun p => sum n (fun k => sum n (fun l => V i k * D k * V j l * D' l * (V p k * V p l))))).
    2: { intros p _. rewrite <- sum_scal_r. apply sum_ext. intros k _. rewrite <- sum_scal. apply sum_ext. intros. ring. }
    rewrite sum_swap. destruct (F3 i j Hi Hj) as [E _]. rewrite <- E. unfold mulm, transp. apply sum_ext. intros k Hk.
    rewrite sum_swap.
    assert (O : forall l, (l < n)%nat -> sum n (fun p => V p k * V p l) = delta k l).
    { intros l Hl. destruct (F3 k l Hk Hl) as [_ E']. exact E'. }
    rewrite (sum_one n k); auto.
    - rewrite sum_scal, O by auto. unfold delta. rewrite Nat.eqb_refl.
      replace (V i k * D k * V j k * D' k * 1) with (V i k * V j k * (D k * D' k)) by ring. rewrite HD by auto. ring.
    - intros l Hl Hlk. rewrite sum_scal, O by auto. unfold delta. apply Nat.neq_sym, Nat.eqb_neq in Hlk. rewrite Hlk. ring. }
  intros i j Hi Hj. unfold mulm. split.
  - rewrite <- (P (fun k => w k * w k) (fun k => 1 / (w k * w k))); auto.
    + apply sum_ext. intros p Hp. rewrite EB, EC by auto. reflexivity.
    + intros k Hk. field. now apply Hw.
  - rewrite <- (P (fun k => 1 / (w k * w k)) (fun k => w k * w k)); auto.
    + apply sum_ext. intros p Hp. rewrite EB, EC by auto. reflexivity.
    + intros k Hk. field. now apply Hw.
Qed.
