(** The accumulation of the transformations in [svd]. *)
From Coq Require Import ZArith Reals Arith List Lia Lra Bool.
From Verif Require Import Num NumR M_Lin S_Lin L_Sum M_Svd S_Svd L_SvdA L_SvdB.
Import ListNotations.
Open Scope R_scope.

Ltac nring := match goal with |- @eq _ ?x ?y => change (@eq R x y) end; ring.

(** U B V^T for an n x n matrix [B]. *)
Definition prod3 (n : nat) (U B V : nat -> nat -> R) (r c : nat) : R :=
  sum n (fun k => sum n (fun j => U r k * B k j * V c j)).
Lemma prod3_ext n U U' B B' V V' r c : (forall k, (k < n)%nat -> U r k = U' r k) ->
  (forall k j, (k < n)%nat -> (j < n)%nat -> B k j = B' k j) -> (forall k, (k < n)%nat -> V c k = V' c k) ->
  prod3 n U B V r c = prod3 n U' B' V' r c.
Proof. intros H1 H2 H3. apply sum_ext. intros k Hk. apply sum_ext. intros j Hj. rewrite H1, H2, H3; auto. Qed.

Lemma refl_prod3_r n m b u U B V r c :
  refl m b u (fun c => prod3 n U B V r c) c = prod3 n U B (fun c j => refl m b u (fun c => V c j) c) r c.
Proof.
  assert (E : forall V c, prod3 n U B V r c = sum n (fun j => V c j * sum n (fun k => U r k * B k j))).
  { intros V' c'. unfold prod3. rewrite sum_swap. apply sum_ext. intros j _. rewrite <- sum_scal. apply sum_ext. intros; ring. }
  transitivity (refl m b u (fun c => sum n (fun j => V c j * sum n (fun k => U r k * B k j))) c).
  - apply refl_agree; intros; rewrite ?E; auto.
  - rewrite refl_linear, E. reflexivity.
Qed.
Lemma refl_prod3_l n m b u U B V r c :
  refl m b u (fun r => prod3 n U B V r c) r = prod3 n (fun r k => refl m b u (fun r => U r k) r) B V r c.
Proof.
  assert (E : forall U r, prod3 n U B V r c = sum n (fun k => U r k * sum n (fun j => B k j * V c j))).
  { intros V' c'. unfold prod3. apply sum_ext. intros j _. rewrite <- sum_scal. apply sum_ext. intros; ring. }
  transitivity (refl m b u (fun r => sum n (fun k => U r k * sum n (fun j => B k j * V c j))) r).
  - apply refl_agree; intros; rewrite ?E; auto.
  - rewrite refl_linear, E. reflexivity.
Qed.

(** The product of the reflections [i], [i + 1], ..., [i + d - 1]. *)
Fixpoint acc (m : nat) (b : nat -> R) (u : nat -> nat -> R) (d i : nat) : nat -> nat -> R :=
  match d with
  | O => delta
  | S d => fun r k => refl m (b i) (u i) (fun r => acc m b u d (S i) r k) r
  end.

Lemma acc_cols m b u d : forall i, (forall j, (i <= j < i + d)%nat -> b j * (b j * dot m (u j) (u j) + 2) = 0) ->
  forall j k, (j < m)%nat -> (k < m)%nat -> sum m (fun r => acc m b u d i r j * acc m b u d i r k) = delta j k.
Proof.
  induction d as [ | d IH]; intros i H j k Hj Hk; cbn [acc].
  - rewrite (sum_ext m _ (fun r => delta j r * delta r k)) by (intros r Hr; rewrite (delta_sym r j); reflexivity).
    exact (sum_delta_l m j (fun r => delta r k) Hj).
  - etransitivity; [ apply (refl_isometry m (b i) (u i) (H i ltac:(lia))) | ]. apply IH; auto. intros; apply H; lia.
Qed.
Lemma acc_rows m b u d : forall i, (forall j, (i <= j < i + d)%nat -> b j * (b j * dot m (u j) (u j) + 2) = 0) ->
  forall j k, (j < m)%nat -> (k < m)%nat -> sum m (fun r => acc m b u d i j r * acc m b u d i k r) = delta j k.
Proof.
  induction d as [ | d IH]; intros i H j k Hj Hk; cbn [acc].
  - rewrite (sum_ext m _ (fun r => delta j r * delta r k)) by (intros r Hr; rewrite (delta_sym k r); reflexivity).
    exact (sum_delta_l m j (fun r => delta r k) Hj).
  - set (T := acc m b u d (S i)) in *.
    assert (IH' : forall j k, (j < m)%nat -> (k < m)%nat -> sum m (fun r => T j r * T k r) = delta j k) by (apply IH; intros; apply H; lia).
    rewrite <- (refl_linear m (b i) (u i) m (fun r => refl m (b i) (u i) (fun r0 => T r0 r) k) T j).
    transitivity (refl m (b i) (u i) (fun r => refl m (b i) (u i) (fun c => delta c k) r) j).
    + apply refl_ext; auto. intros r Hr.
      rewrite (sum_ext m _ (fun k0 => refl m (b i) (u i) (fun r0 => T r0 k0) k * T r k0)) by (intros; ring).
      rewrite <- (refl_linear m (b i) (u i) m (fun k0 => T r k0) T k).
      rewrite (refl_ext m (b i) (u i) (u i) _ (fun c => delta c r)); auto.
      unfold refl, dot. rewrite !sum_delta_r by auto. rewrite (delta_sym k r). ring.
    + rewrite (refl_refl m (b i) (u i) (H i ltac:(lia))). reflexivity.
Qed.

Section Acc.
Context (eqb : R -> R -> bool) (eqb0 : forall x, eqb x 0 = true <-> x = 0).
Notation N := (RWith eqb).
Notation coef := (coef eqb).

Definition pad (i : nat) (V : nat -> nat -> R) (c k : nat) : R :=
  if ((c <? i) || (k <? i))%nat%bool then delta c k else V c k.
Lemma pad_out i V c k : (c < i \/ k < i)%nat -> pad i V c k = delta c k.
Proof. intros H. unfold pad. destruct (Nat.ltb_spec c i), (Nat.ltb_spec k i); try lia; reflexivity. Qed.
Lemma pad_in i V c k : (i <= c)%nat -> (i <= k)%nat -> pad i V c k = V c k.
Proof. intros H H'. unfold pad. destruct (Nat.ltb_spec c i), (Nat.ltb_spec k i); try lia; reflexivity. Qed.

(** The loop over [j] that updates column [j] from rows [lo] on. *)
Lemma for_cols lo hi l n (F : nat -> (nat -> nat -> R) -> nat -> R) (body : nat -> (nat -> nat -> R) -> nat -> nat -> R) a0 :
  (l <= n)%nat ->
  (forall j a r c, (l <= j < n)%nat -> body j a r c = if ((c =? j) && (lo <=? r) && (r <? hi))%nat%bool then F j a r else a r c) ->
  (forall j a a', (l <= j < n)%nat -> (forall r c, (c < l \/ j <= c)%nat -> a r c = a' r c) -> forall r, F j a r = F j a' r) ->
  forall r c, for_ l n body a0 r c =
    if ((l <=? c) && (c <? n) && (lo <=? r) && (r <? hi))%nat%bool then F c a0 r else a0 r c.
Proof.
  intros Hl HB HF r c.
  destruct (for_local (fun j r c => ((c =? j) && (lo <=? r) && (r <? hi))%nat%bool) (fun j a r _ => F j a r) body l n) with (a0 := a0)
    as [P Q]; [ | exact HB | | exact Hl | ].
  - intros j j' r' c' H1 H2. apply andb_true_iff in H1, H2. destruct H1 as [H1 _], H2 as [H2 _].
    apply andb_true_iff in H1, H2. destruct H1 as [H1 _], H2 as [H2 _]. apply Nat.eqb_eq in H1, H2. congruence.
  - intros j a a' Hj H r' c' _. apply HF; [ exact Hj | ]. intros r1 c1 H1. apply H. intros j' Hj'.
    destruct (Nat.eqb_spec c1 j'); [ lia | reflexivity ].
  - destruct (Nat.leb_spec l c), (Nat.ltb_spec c n); cbn [andb];
      [ destruct (((lo <=? r) && (r <? hi))%nat%bool) eqn:E | | | ].
    + apply P; [ lia | ]. rewrite Nat.eqb_refl. exact E.
    + apply Q. intros j Hj. rewrite <- andb_assoc, E, andb_false_r. reflexivity.
    + apply Q. intros j Hj. destruct (Nat.eqb_spec c j); [ lia | reflexivity ].
    + apply Q. intros j Hj. destruct (Nat.eqb_spec c j); [ lia | reflexivity ].
    + apply Q. intros j Hj. destruct (Nat.eqb_spec c j); [ lia | reflexivity ].
Qed.

Lemma vacc_cells n (a1 : nat -> nat -> R) (WS : nat -> R) i (V : nat -> nat -> R) : (i < n)%nat -> let V' : nat -> nat -> R := vacc_step (N := N) n a1 WS i V in
  V' i i = 1 /\ (forall j, (i < j < n)%nat -> V' i j = 0 /\ V' j i = 0) /\
  (forall k j, (i < k < n)%nat -> (i < j < n)%nat ->
     V' k j = V k j + (if eqb (WS (S i)) 0 then 0 else sum n (from (S i) (fun k => a1 i k * V k j)) * (a1 i k / a1 i (S i) / WS (S i)))).
Proof.
  intros Hi V'.
  set (l := S i) in *.
  set (Va := for_ l n (fun j (v : nat -> nat -> R) => set2 v j i (a1 i j / a1 i l / WS l)) V).
  set (Vb := for_ l n (fun j (v : nat -> nat -> R) =>
        for_ l n (fun k (v0 : nat -> nat -> R) => set2 v0 k j (v0 k j + dotp (N := N) l n (fun k => a1 i k) (fun k => v k j) * v0 k i)) v) Va).
  set (Vc := if negb (eqb (WS l) 0) then Vb else V).
  set (Vd := for_ l n (fun j (v : nat -> nat -> R) => set2 (set2 v i j 0) j i 0) Vc).
  set (Ve := if negb (i =? n - 1)%nat then Vd else V).
  change V' with (set2 Ve i i 1). clear V'.
  assert (HVa : forall r c, Va r c = if ((c =? i) && (l <=? r) && (r <? n))%nat%bool then a1 i r / a1 i l / WS l else V r c).
  { apply (for_col R (fun j _ => a1 i j / a1 i l / WS l)); [ lia | reflexivity ]. }
  assert (HVb : forall r c, Vb r c = if ((l <=? c) && (c <? n) && (l <=? r) && (r <? n))%nat%bool
      then Va r c + dotp (N := N) l n (fun k => a1 i k) (fun k => Va k c) * Va r i else Va r c).
  { apply (for_cols l n l n (fun j a r => a r j + dotp (N := N) l n (fun k => a1 i k) (fun k => a k j) * a r i)); [ lia | | ].
    - intros j a r c Hj. rewrite (for_col R (fun k v0 => v0 k j + dotp (N := N) l n (fun k => a1 i k) (fun k => a k j) * v0 k i)); [ | lia | ].
      + destruct (Nat.eqb_spec c j) as [-> | ]; reflexivity.
      + intros k b1 b2 H. rewrite !H; [ reflexivity | left; lia | right; left; lia ].
    - intros j a a' Hj H r. rewrite !H by lia. f_equal. f_equal. rewrite !dotp_from by lia. apply sum_ext. intros k _.
      unfold from. destruct (k <? l)%nat; [ reflexivity | ]. rewrite !H by lia. reflexivity. }
  assert (HVd : (forall j, (i < j < n)%nat -> Vd i j = 0 /\ Vd j i = 0) /\
                (forall r c, r <> i -> c <> i -> Vd r c = Vc r c)).
  { pose (I := fun k (v : nat -> nat -> R) => (forall j, (i < j < k)%nat -> v i j = 0 /\ v j i = 0) /\
                (forall r c, r <> i -> c <> i -> v r c = Vc r c)).
    apply (for_inv _ I); unfold I; [ lia | split; [ intros; lia | reflexivity ] | ].
    intros j v Hj [I1 I2]. split.
    - intros k Hk. destruct (Nat.eq_dec k j) as [-> | ].
      + rewrite set2_same, set2_other, set2_same by lia. auto.
      + rewrite !set2_other by lia. apply I1. lia.
    - intros r c Hr Hc. rewrite set2_other by (right; lia). rewrite set2_other by (left; lia). auto. }
  destruct HVd as [HVd1 HVd2].
  assert (Hlast : negb (i =? n - 1)%nat = true \/ (forall j, ~ (i < j < n)%nat)).
  { destruct (Nat.eqb_spec i (n - 1)); [ right; intros; lia | left; reflexivity ]. }
  split; [ apply set2_same | ]. split.
  - intros j Hj. destruct Hlast as [E | E]; [ | elim (E j Hj) ]. unfold Ve. rewrite E.
    rewrite !set2_other by lia. apply HVd1. exact Hj.
  - intros k j Hk Hj. destruct Hlast as [E | E]; [ | elim (E j Hj) ]. unfold Ve. rewrite E.
    rewrite set2_other by lia. rewrite HVd2 by lia. unfold Vc. destruct (eqb (WS l) 0) eqn:EW; cbn [negb]; [ ring | ].
    rewrite HVb. destruct (Nat.leb_spec l j), (Nat.ltb_spec j n), (Nat.leb_spec l k), (Nat.ltb_spec k n); try lia. cbn [andb].
    rewrite dotp_from by lia.
    assert (Ea : forall k, Va k j = V k j) by (intros k'; rewrite HVa; destruct (Nat.eqb_spec j i); [ lia | reflexivity ]).
    rewrite Ea. f_equal.
    rewrite HVa, Nat.eqb_refl. destruct (Nat.leb_spec l k), (Nat.ltb_spec k n); try lia. cbn [andb]. f_equal.
    apply sum_ext. intros k' _. unfold from. destruct (k' <? l)%nat; [ reflexivity | ]. rewrite Ea. reflexivity.
Qed.

Lemma vacc_spec n (a1 : nat -> nat -> R) (WS : nat -> R) i (V T : nat -> nat -> R) : (i < n)%nat ->
  (forall c k, (c < n)%nat -> (k < n)%nat -> pad (S i) V c k = T c k) ->
  forall c k, (c < n)%nat -> (k < n)%nat ->
    pad i (vacc_step (N := N) n a1 WS i V) c k = refl n (ref_q eqb n a1 WS i) (ref_v a1 i) (fun c => T c k) c.
Proof.
  intros Hi HT c k Hc Hk. destruct (vacc_cells n a1 WS i V Hi) as (C1 & C2 & C3).
  set (V' := vacc_step (N := N) n a1 WS i V : nat -> nat -> R) in *.
  rewrite (refl_ext n _ _ (ref_v a1 i) _ (fun c => pad (S i) V c k)) by (auto; intros; symmetry; auto).
  assert (v0 : forall j, (j <= i)%nat -> ref_v a1 i j = 0) by (intros; apply from_out; lia).
  destruct (Nat.leb_spec c i) as [Hci | Hci].
  { rewrite refl_out by auto. rewrite (pad_out (S i)) by lia.
    destruct (Nat.ltb_spec c i); [ apply pad_out; lia | ]. assert (c = i) by lia. subst c.
    destruct (Nat.ltb_spec k i); [ apply pad_out; lia | ]. rewrite pad_in by lia.
    destruct (Nat.eq_dec k i) as [-> | ]; [ rewrite C1, delta_same; reflexivity | ].
    destruct (C2 k ltac:(lia)) as [-> _]. now rewrite delta_other by lia. }
  destruct (Nat.leb_spec k i) as [Hki | Hki].
  { rewrite refl_fix by (apply sum_0; intros j Hj; destruct (Nat.leb_spec j i);
      [ rewrite v0 by lia; ring | rewrite pad_out, delta_other by lia; ring ]).
    rewrite (pad_out (S i)) by lia.
    destruct (Nat.ltb_spec k i); [ apply pad_out; lia | ]. assert (k = i) by lia. subst k.
    rewrite pad_in by lia. destruct (C2 c ltac:(lia)) as [_ ->]. now rewrite delta_other by lia. }
  rewrite pad_in by lia. rewrite C3 by lia. unfold refl. rewrite pad_in by lia. f_equal.
  unfold ref_q, coef. rewrite (proj2 (Nat.ltb_lt (S i) n)) by lia.
  destruct (eqb (WS (S i)) 0) eqn:E; [ ring | ].
  replace (dot n (ref_v a1 i) (fun c0 => pad (S i) V c0 k)) with (sum n (from (S i) (fun k0 => a1 i k0 * V k0 k))).
  - unfold ref_v. rewrite from_in by lia. unfold Rdiv. rewrite Rinv_mult. ring.
  - apply sum_ext. intros j Hj. unfold ref_v, from. destruct (Nat.ltb_spec j (S i)); [ ring | ].
    rewrite pad_in by lia. reflexivity.
Qed.

Lemma uacc_cells m n (W : nat -> R) i (a : nat -> nat -> R) : (i < n <= m)%nat -> let a' : nat -> nat -> R := uacc_step (N := N) m n W i a in
  (forall r c, (c < i)%nat -> a' r c = a r c) /\
  (forall r, (i <= r < m)%nat -> a' r i = delta r i + (if eqb (W i) 0 then 0 else a r i / W i)) /\
  (forall r j, (i <= r < m)%nat -> (i < j < n)%nat ->
     a' r j = (if (r =? i)%nat then 0 else a r j) +
       (if eqb (W i) 0 then 0 else sum m (from (S i) (fun k => a k i * a k j)) / a i i / W i * a r i)).
Proof.
  intros Hi a'. set (l := S i) in *. subst a'. unfold uacc_step. cbv zeta. fold l.
  change (n_eqb (n := N) (W i) (n_ofZ 0)) with (eqb (W i) 0). unfold l. rewrite !if_last by lia. fold l.
  set (b := for_ l n (fun j (a : mx N) => set2 a i j (n_ofZ 0)) a).
  assert (HB : forall r c, b r c = if ((r =? i) && (l <=? c) && (c <? n))%nat%bool then 0 else a r c).
  { apply (for_row R (fun _ _ => 0)); [ lia | reflexivity ]. }
  destruct (eqb (W i) 0) eqn:E; cbn [negb].
  - set (c := for_ i m (fun j (a : mx N) => set2 a j i (n_ofZ 0)) b).
    assert (HC : forall r k, c r k = if ((k =? i) && (i <=? r) && (r <? m))%nat%bool then 0 else b r k).
    { apply (for_col R (fun _ _ => 0)); [ lia | reflexivity ]. }
    repeat split.
    + intros r k Hk. rewrite set2_other by lia. rewrite HC, HB.
      destruct (Nat.eqb_spec k i); [ lia | ]. destruct (Nat.leb_spec l k); [ lia | ]. rewrite andb_false_r. reflexivity.
    + intros r Hr. assert (Hz : forall r, (i <= r < m)%nat -> c r i = 0).
      { intros r' Hr'. rewrite HC, Nat.eqb_refl. destruct (Nat.leb_spec i r'), (Nat.ltb_spec r' m); try lia. reflexivity. }
      unfold set2. rewrite Nat.eqb_refl, andb_true_r. unfold delta. destruct (Nat.eqb_spec r i) as [-> | ].
      * unW. rewrite Hz by lia. nring.
      * rewrite Hz by lia. nring.
    + intros r j Hr Hj. rewrite set2_other by lia. rewrite HC, HB.
      destruct (Nat.eqb_spec j i); [ lia | ]. cbn [andb].
      destruct (Nat.leb_spec l j), (Nat.ltb_spec j n); try lia. rewrite !andb_true_r. destruct (r =? i)%nat; nring.
  - match goal with |- context [for_ i m _ ?t] => set (c := t) end.
    assert (HC : forall r k, c r k = if ((l <=? k) && (k <? n) && (i <=? r) && (r <? m))%nat%bool
      then b r k + dotp (N := N) l m (fun k => b k i) (fun r => b r k) / b i i / W i * b r i else b r k).
    { apply (for_cols i m l n (fun j a r => a r j + dotp (N := N) l m (fun k => a k i) (fun k => a k j) / a i i / W i * a r i)); [ lia | | ].
      - intros j d r k Hj. unW.
        rewrite (for_col R (fun k v0 => v0 k j + dotp (N := N) l m (fun k => d k i) (fun k => d k j) / d i i / W i * v0 k i)); [ | lia | ].
        + destruct (Nat.eqb_spec k j) as [-> | ]; reflexivity.
        + intros q b1 b2 H. rewrite !H; [ reflexivity | left; lia | right; left; lia ].
      - intros j d d' Hj H r. rewrite !H by lia. f_equal. f_equal. f_equal. f_equal. rewrite !dotp_from by lia. apply sum_ext. intros k _.
        unfold from. destruct (k <? l)%nat; [ reflexivity | ]. rewrite !H by lia. reflexivity. }
    match goal with |- context [for_ i m ?f c] => set (d := for_ i m f c) end.
    assert (HD : forall r k, d r k = if ((k =? i) && (i <=? r) && (r <? m))%nat%bool then c r i / W i else c r k).
    { apply (for_col R (fun j a => a j i / W i)); [ lia | ]. intros k b1 b2 H. rewrite H by (right; left; lia). reflexivity. }
    assert (Hbi : forall r, b r i = a r i).
    { intros r. rewrite HB. destruct (Nat.leb_spec l i); [ lia | ]. rewrite andb_false_r. reflexivity. }
    repeat split.
    + intros r k Hk. rewrite set2_other by lia. rewrite HD.
      destruct (Nat.eqb_spec k i); [ lia | ]. cbn [andb]. rewrite HC. destruct (Nat.leb_spec l k); [ lia | ]. cbn [andb]. rewrite HB.
      destruct (Nat.leb_spec l k); [ lia | ]. rewrite andb_false_r. reflexivity.
    + intros r Hr. assert (Hz : forall r, (i <= r < m)%nat -> d r i = a r i / W i).
      { intros r' Hr'. rewrite HD, Nat.eqb_refl. destruct (Nat.leb_spec i r'), (Nat.ltb_spec r' m); try lia. cbn [andb].
        rewrite HC. destruct (Nat.leb_spec l i); [ lia | ]. cbn [andb]. now rewrite Hbi. }
      unfold set2. rewrite Nat.eqb_refl, andb_true_r. unfold delta. destruct (Nat.eqb_spec r i) as [-> | ].
      * unW. rewrite Hz by lia. nring.
      * rewrite Hz by lia. nring.
    + intros r j Hr Hj. rewrite set2_other by lia. rewrite HD.
      destruct (Nat.eqb_spec j i); [ lia | ]. cbn [andb]. rewrite HC.
      destruct (Nat.leb_spec l j), (Nat.ltb_spec j n), (Nat.leb_spec i r), (Nat.ltb_spec r m); try lia. cbn [andb].
      rewrite dotp_from by lia. rewrite !Hbi. rewrite HB.
      destruct (Nat.leb_spec l j), (Nat.ltb_spec j n); try lia. rewrite !andb_true_r. f_equal. f_equal. f_equal. f_equal.
      apply sum_ext. intros k Hk. unfold from. destruct (Nat.ltb_spec k l); [ reflexivity | ]. rewrite Hbi, HB.
      destruct (Nat.eqb_spec k i); [ lia | ]. reflexivity.
Qed.

Lemma uacc_spec m n (a1 : nat -> nat -> R) (W : nat -> R) i (U T : nat -> nat -> R) : (i < n <= m)%nat -> (W i <> 0 -> a1 i i <> 0) ->
  (forall r c, (c < S i)%nat -> U r c = a1 r c) ->
  (forall r k, (r < m)%nat -> (k < n)%nat -> pad (S i) U r k = T r k) ->
  let U' : nat -> nat -> R := uacc_step (N := N) m n W i U in
  (forall r c, (c < i)%nat -> U' r c = a1 r c) /\
  forall r k, (r < m)%nat -> (k < n)%nat ->
    pad i U' r k = refl m (ref_p eqb a1 W i) (ref_u a1 i) (fun r => T r k) r.
Proof.
  intros Hi Hd HU HT U'. destruct (uacc_cells m n W i U Hi) as (C1 & C2 & C3). fold U' in C1, C2, C3.
  split; [ intros r c Hc; rewrite C1 by lia; apply HU; lia | ].
  intros r k Hr Hk.
  rewrite (refl_ext m _ _ (ref_u a1 i) _ (fun r => pad (S i) U r k)) by (auto; intros; symmetry; auto).
  assert (u0 : forall j, (j < i)%nat -> ref_u a1 i j = 0) by (intros; apply from_out; lia).
  destruct (Nat.ltb_spec r i) as [Hri | Hri].
  { rewrite refl_out by auto. rewrite !pad_out by lia. reflexivity. }
  destruct (Nat.ltb_spec k i) as [Hki | Hki].
  { rewrite refl_fix by (apply sum_0; intros j Hj; destruct (Nat.ltb_spec j i);
      [ rewrite u0 by lia; ring | rewrite pad_out, delta_other by lia; ring ]).
    rewrite !pad_out by lia. reflexivity. }
  rewrite pad_in by lia.
  destruct (Nat.eq_dec k i) as [-> | Hne].
  - rewrite C2 by lia. unfold refl. rewrite pad_out by lia. f_equal.
    replace (dot m (ref_u a1 i) (fun c => pad (S i) U c i)) with (a1 i i).
    2: { unfold dot. rewrite (sum_ext m _ (fun k => ref_u a1 i k * delta k i)) by (intros; rewrite pad_out by lia; reflexivity).
         rewrite sum_delta_r by lia. unfold ref_u. rewrite from_in by lia. reflexivity. }
    unfold ref_p, coef. destruct (eqb (W i) 0) eqn:E; [ ring | ].
    assert (W i <> 0) by (apply (eqb0_false eqb eqb0); exact E).
    unfold ref_u. rewrite from_in by lia. rewrite HU by lia. field. auto.
  - rewrite C3 by lia. unfold refl.
    assert (Ep : pad (S i) U r k = if (r =? i)%nat then 0 else U r k).
    { destruct (Nat.eqb_spec r i) as [-> | ]; [ rewrite pad_out, delta_other by lia; reflexivity | apply pad_in; lia ]. }
    rewrite Ep. f_equal. unfold ref_p, coef. destruct (eqb (W i) 0) eqn:E; [ ring | ].
    replace (dot m (ref_u a1 i) (fun c => pad (S i) U c k)) with (sum m (from (S i) (fun r => U r i * U r k))).
    + unfold ref_u. rewrite from_in by lia. rewrite !HU by lia. unfold Rdiv. rewrite Rinv_mult. ring.
    + apply sum_ext. intros j Hj. unfold ref_u, from. destruct (Nat.ltb_spec j (S i)).
      * rewrite pad_out by lia. rewrite delta_other by lia. ring.
      * destruct (Nat.ltb_spec j i); [ lia | ]. rewrite pad_in, HU by lia. reflexivity.
Qed.

(** The first three phases. *)
Section Three.
Context (m n : nat) (Hmn : (n <= m)%nat) (A : nat -> nat -> R) (w0 ws0 : nat -> R) (v0 : nat -> nat -> R).
Let b : bid N := for_ 0 n (bid_step (N := N) m n) (Bid (N := N) A w0 ws0 0 0 0).
Let U : nat -> nat -> R := down_ n (uacc_step (N := N) m n (b_w b)) (b_a b).
Let V : nat -> nat -> R := down_ n (vacc_step (N := N) n (b_a b) (b_ws b)) v0.
Let W : nat -> R := b_w b.
Let WS : nat -> R := b_ws b.
Let bp := ref_p eqb (b_a b) W.
Let bq := ref_q eqb n (b_a b) WS.
Let u := ref_u (b_a b).
Let v := ref_v (b_a b).

Lemma U_acc r k : (r < m)%nat -> (k < n)%nat -> U r k = acc m bp u n 0 r k.
Proof.
  enough (H : (fun i (U : nat -> nat -> R) => (forall r c, (c < i)%nat -> U r c = b_a b r c) /\
            forall r k, (r < m)%nat -> (k < n)%nat -> pad i U r k = acc m bp u (n - i) i r k) 0%nat U).
  { destruct H as [_ H]. intros Hr Hk. specialize (H r k Hr Hk). rewrite pad_in, Nat.sub_0_r in H by lia. exact H. }
  apply (down_inv _ (fun i (U : nat -> nat -> R) => (forall r c, (c < i)%nat -> U r c = b_a b r c) /\
            forall r k, (r < m)%nat -> (k < n)%nat -> pad i U r k = acc m bp u (n - i) i r k)).
  - split; [ reflexivity | ]. intros r' k' Hr Hk. rewrite Nat.sub_diag, pad_out by lia. reflexivity.
  - intros i U' Hi [I1 I2]. destruct (bid_stage eqb eqb0 m n Hmn A w0 ws0 i Hi) as (S0 & _).
    destruct (uacc_spec m n (b_a b) (b_w b) i U' _ ltac:(lia) S0 I1 I2) as [P Q]. split; [ exact P | ].
    intros r' k' Hr Hk. rewrite (Q r' k' Hr Hk). replace (n - i)%nat with (S (n - S i)) by lia. reflexivity.
Qed.
Lemma V_acc c k : (c < n)%nat -> (k < n)%nat -> V c k = acc n bq v n 0 c k.
Proof.
  enough (H : (fun i (V : nat -> nat -> R) =>
            forall r k, (r < n)%nat -> (k < n)%nat -> pad i V r k = acc n bq v (n - i) i r k) 0%nat V).
  { intros Hr Hk. specialize (H c k Hr Hk). cbv beta in H. rewrite pad_in, Nat.sub_0_r in H by lia. exact H. }
  apply (down_inv _ (fun i (V : nat -> nat -> R) =>
            forall r k, (r < n)%nat -> (k < n)%nat -> pad i V r k = acc n bq v (n - i) i r k)).
  - intros r' k' Hr Hk. rewrite Nat.sub_diag, pad_out by lia. reflexivity.
  - intros i V' Hi I. intros r' k' Hr Hk.
    rewrite (vacc_spec n (b_a b) (b_ws b) i V' _ Hi I r' k' Hr Hk). replace (n - i)%nat with (S (n - S i)) by lia. reflexivity.
Qed.

Lemma three_phases :
  (forall j k, (j < n)%nat -> (k < n)%nat -> sum m (fun r => U r j * U r k) = delta j k) /\
  (forall j k, (j < n)%nat -> (k < n)%nat -> sum n (fun r => V r j * V r k) = delta j k) /\
  (forall j k, (j < n)%nat -> (k < n)%nat -> sum n (fun r => V j r * V k r) = delta j k) /\
  (forall r c, (r < m)%nat -> (c < n)%nat -> A r c = prod3 n U (bdiag W WS) V r c).
Proof.
  pose (lgi := fun i r c => if (r <? i)%nat then bdiag W WS r c else if (c <? i)%nat then 0
    else (b_a (for_ 0 i (bid_step (N := N) m n) (Bid (N := N) A w0 ws0 0 0 0)) : nat -> nat -> R) r c).
  assert (HS : forall i, (i < n)%nat -> (W i <> 0 -> b_a b i i <> 0) /\
    bp i * (bp i * dot m (u i) (u i) + 2) = 0 /\ bq i * (bq i * dot n (v i) (v i) + 2) = 0 /\
    forall r c, (r < m)%nat -> (c < n)%nat ->
      refl n (bq i) (v i) (fun c => refl m (bp i) (u i) (fun r => lgi i r c) r) c = lgi (S i) r c)
    by exact (bid_stage eqb eqb0 m n Hmn A w0 ws0).
  assert (CP : forall i, (0 <= i < 0 + n)%nat -> bp i * (bp i * dot m (u i) (u i) + 2) = 0) by (intros i Hi; apply HS; lia).
  assert (CQ : forall i, (0 <= i < 0 + n)%nat -> bq i * (bq i * dot n (v i) (v i) + 2) = 0) by (intros i Hi; apply HS; lia).
  split; [ | split; [ | split ] ].
  - intros j k Hj Hk. rewrite (sum_ext m _ (fun r => acc m bp u n 0 r j * acc m bp u n 0 r k)) by (intros; now rewrite !U_acc).
    apply acc_cols; auto; lia.
  - intros j k Hj Hk. rewrite (sum_ext n _ (fun r => acc n bq v n 0 r j * acc n bq v n 0 r k)) by (intros; now rewrite !V_acc).
    apply acc_cols; auto; lia.
  - intros j k Hj Hk. rewrite (sum_ext n _ (fun r => acc n bq v n 0 j r * acc n bq v n 0 k r)) by (intros; now rewrite !V_acc).
    apply acc_rows; auto; lia.
  - intros r c Hr Hc. rewrite (prod3_ext n U (acc m bp u n 0) _ (bdiag W WS) V (acc n bq v n 0)); auto using U_acc, V_acc.
    enough (H : forall d i, (i + d = n)%nat -> forall r c, (r < m)%nat -> (c < n)%nat ->
      lgi i r c = prod3 n (acc m bp u d i) (bdiag W WS) (acc n bq v d i) r c) by (exact (H n O eq_refl r c Hr Hc)).
    clear r c Hr Hc. induction d as [ | d IH]; intros i Hd r c Hr Hc.
    + replace i with n by lia. unfold lgi. rewrite (proj2 (Nat.ltb_lt c n)) by lia. cbn [acc]. unfold prod3.
      destruct (Nat.ltb_spec r n).
      * rewrite (sum_one n r); auto.
        -- rewrite (sum_one n c); auto; [ rewrite !delta_same; ring | ]. intros j _ Hj. rewrite (delta_other c j) by auto. ring.
        -- intros k _ Hk. apply sum_0. intros j _. rewrite (delta_other r k) by auto. ring.
      * symmetry. apply sum_0. intros k Hk. apply sum_0. intros j _. rewrite (delta_other r k) by lia. ring.
    + destruct (HS i ltac:(lia)) as (_ & C1 & C2 & C3).
      transitivity (refl m (bp i) (u i) (fun r => refl m (bp i) (u i) (fun r => lgi i r c) r) r);
        [ symmetry; exact (refl_refl m (bp i) (u i) C1 (fun r => lgi i r c) r) | ].
      transitivity (refl m (bp i) (u i) (fun r => prod3 n (acc m bp u d (S i)) (bdiag W WS) (acc n bq v (S d) i) r c) r).
      2: { rewrite refl_prod3_l. reflexivity. }
      apply refl_ext; auto. intros k Hk.
      transitivity (refl n (bq i) (v i) (fun c => refl n (bq i) (v i) (fun c => refl m (bp i) (u i) (fun r => lgi i r c) k) c) c);
        [ symmetry; exact (refl_refl n (bq i) (v i) C2 (fun c => refl m (bp i) (u i) (fun r => lgi i r c) k) c) | ].
      transitivity (refl n (bq i) (v i) (fun c => prod3 n (acc m bp u d (S i)) (bdiag W WS) (acc n bq v d (S i)) k c) c).
      2: { rewrite refl_prod3_r. reflexivity. }
      apply refl_ext; auto. intros j Hj. rewrite <- IH by (auto; lia). exact (C3 k j Hk Hj).
Qed.
End Three.
End Acc.
