(** Rotations, and the last phase of [svd]. *)
From Coq Require Import ZArith Reals Arith List Lia Lra Bool.
From Verif Require Import Num NumR M_Lin S_Lin L_Sum M_Svd S_Svd L_SvdA L_SvdB L_SvdC.
Import ListNotations.
Open Scope R_scope.

(** ** Rotations of two components *)
Definition rotv (p q : nat) (c s : R) (x : nat -> R) (k : nat) : R :=
  if (k =? p)%nat then c * x p + s * x q else if (k =? q)%nat then - s * x p + c * x q else x k.

Lemma sum_pair n p q f : (p < n)%nat -> (q < n)%nat -> p <> q ->
  sum n f = f p + f q + sum n (fun k => if ((k =? p) || (k =? q))%nat%bool then 0 else f k).
Proof.
  intros Hp Hq Hpq. rewrite (sum_pick n p f Hp), (sum_pick n q _ Hq).
  apply Nat.neq_sym in Hpq. apply Nat.eqb_neq in Hpq. rewrite Hpq. rewrite Rplus_assoc. f_equal. f_equal.
  apply sum_ext. intros k _. destruct (k =? p)%nat, (k =? q)%nat; reflexivity.
Qed.
Lemma rotv_dot n p q c s x y : (p < n)%nat -> (q < n)%nat -> p <> q -> c * c + s * s = 1 ->
  sum n (fun k => rotv p q c s x k * rotv p q c s y k) = sum n (fun k => x k * y k).
Proof.
  intros Hp Hq Hpq H. rewrite (sum_pair n p q _ Hp Hq Hpq), (sum_pair n p q (fun k => x k * y k) Hp Hq Hpq). f_equal.
  - unfold rotv. rewrite !Nat.eqb_refl. apply Nat.neq_sym in Hpq. apply Nat.eqb_neq in Hpq. rewrite Hpq.
    transitivity ((c * c + s * s) * (x p * y p + x q * y q)); [ ring | rewrite H; ring ].
  - apply sum_ext. intros k _. unfold rotv. destruct (k =? p)%nat, (k =? q)%nat; reflexivity.
Qed.
Lemma rotv_ext n p q c s x y k : (p < n)%nat -> (q < n)%nat -> (k < n)%nat -> (forall j, (j < n)%nat -> x j = y j) ->
  rotv p q c s x k = rotv p q c s y k.
Proof. intros Hp Hq Hk H. unfold rotv. rewrite !H; auto. Qed.
Lemma rotv_sum n p q c s (X : nat -> nat -> R) (y : nat -> R) k :
  sum n (fun j => rotv p q c s (fun k => X k j) k * y j) = rotv p q c s (fun k => sum n (fun j => X k j * y j)) k.
Proof.
  unfold rotv. destruct (k =? p)%nat; [ | destruct (k =? q)%nat ]; try reflexivity;
    rewrite <- !sum_scal, <- sum_plus; apply sum_ext; intros; ring.
Qed.

(** The columns of a matrix. *)
Lemma rot_cells eqb rows p q c s a r k : p <> q ->
  rot_cols (N := RWith eqb) rows p q c s a r k =
  if (r <? rows)%nat then rotv p q c s (a r) k else (a r k : R).
Proof.
  intros Hpq. unfold rot_cols.
  destruct (for_local (fun j r _ => (r =? j)%nat) (fun j (a : nat -> nat -> R) r k => rotv p q c s (a r) k)
    (fun j (a : nat -> nat -> R) => set2 (set2 a j p (a j p * c + a j q * s)) j q (- a j p * s + a j q * c)) 0 rows)
    with (a0 := a : nat -> nat -> R) as [P Q]; [ | | | lia | ].
  - intros j j' r' c' H1 H2. apply Nat.eqb_eq in H1, H2. congruence.
  - intros j b r' k' _. unfold set2, rotv. destruct (Nat.eqb_spec r' j) as [-> | ]; cbn [andb]; [ | reflexivity ].
    destruct (Nat.eqb_spec k' q) as [-> | ].
    + apply Nat.neq_sym, Nat.eqb_neq in Hpq. rewrite Hpq. ring.
    + destruct (Nat.eqb_spec k' p) as [-> | ]; [ ring | reflexivity ].
  - intros j b b' Hj H r' k' E. apply Nat.eqb_eq in E. subst r'. unfold rotv.
    assert (HH : forall c, b j c = b' j c) by (intros c'; apply H; intros j' Hj'; apply Nat.eqb_neq; lia).
    rewrite !HH. reflexivity.
  - destruct (Nat.ltb_spec r rows).
    + exact (P r r k ltac:(lia) (Nat.eqb_refl r)).
    + apply Q. intros j Hj. apply Nat.eqb_neq. lia.
Qed.

Lemma sum4 m c1 c2 c3 c4 (f g f' g' : nat -> R) :
  sum m (fun r => (c1 * f r + c2 * g r) * (c3 * f' r + c4 * g' r)) =
  c1 * c3 * sum m (fun r => f r * f' r) + c1 * c4 * sum m (fun r => f r * g' r) +
  c2 * c3 * sum m (fun r => g r * f' r) + c2 * c4 * sum m (fun r => g r * g' r).
Proof. rewrite <- !sum_scal, <- !sum_plus. apply sum_ext. intros; ring. Qed.

Lemma rotv_orthonormal m n p q c s (U U' : nat -> nat -> R) : (p < n)%nat -> (q < n)%nat -> p <> q -> c * c + s * s = 1 ->
  (forall r k, (r < m)%nat -> U' r k = rotv p q c s (U r) k) -> orthonormal m n U -> orthonormal m n U'.
Proof.
  intros Hp Hq Hpq H HU O j k Hj Hk.
  pose (sg := fun k => if (k =? p)%nat then q else if (k =? q)%nat then p else k).
  pose (al := fun k => if (k =? p)%nat then c else if (k =? q)%nat then c else 1).
  pose (be := fun k => if (k =? p)%nat then s else if (k =? q)%nat then - s else 0).
  assert (E : forall r k, rotv p q c s (U r) k = al k * U r k + be k * U r (sg k)).
  { intros r k'. unfold rotv, al, be, sg. destruct (Nat.eqb_spec k' p) as [-> | ]; [ ring | ].
    destruct (Nat.eqb_spec k' q) as [-> | ]; ring. }
  assert (Hs : forall k, (k < n)%nat -> (sg k < n)%nat).
  { intros k' Hk'. unfold sg. destruct (k' =? p)%nat, (k' =? q)%nat; auto. }
  rewrite (sum_ext m _ (fun r => (al j * U r j + be j * U r (sg j)) * (al k * U r k + be k * U r (sg k)))).
  2: { intros r Hr. rewrite !HU, !E by exact Hr. reflexivity. }
  rewrite sum4, !O by auto. unfold al, be, sg, delta.
  destruct (Nat.eqb_spec j p), (Nat.eqb_spec j q), (Nat.eqb_spec k p), (Nat.eqb_spec k q); subst;
    rewrite ?Nat.eqb_refl; repeat match goal with |- context [(?a =? ?b)%nat] => destruct (Nat.eqb_spec a b); try lia end; try lia; lra.
Qed.

Lemma prod3_l n U B V r c : prod3 n U B V r c = sum n (fun k => U r k * sum n (fun j => B k j * V c j)).
Proof. unfold prod3. apply sum_ext. intros k _. rewrite <- sum_scal. apply sum_ext. intros; ring. Qed.
Lemma prod3_r n U B V r c : prod3 n U B V r c = sum n (fun j => sum n (fun k => B k j * U r k) * V c j).
Proof. unfold prod3. rewrite sum_swap. apply sum_ext. intros j _. rewrite <- sum_scal_r. apply sum_ext. intros; ring. Qed.
Lemma prod3_rot_l n p q cc s U B V r c : (p < n)%nat -> (q < n)%nat -> p <> q -> cc * cc + s * s = 1 ->
  prod3 n (fun r => rotv p q cc s (U r)) (fun k j => rotv p q cc s (fun k => B k j) k) V r c = prod3 n U B V r c.
Proof.
  intros Hp Hq Hpq H. rewrite !prod3_l.
  rewrite <- (rotv_dot n p q cc s (U r) (fun k => sum n (fun j => B k j * V c j)) Hp Hq Hpq H).
  apply sum_ext. intros k _. f_equal. apply rotv_sum.
Qed.
Lemma prod3_rot_r n p q cc s U B V r c : (p < n)%nat -> (q < n)%nat -> p <> q -> cc * cc + s * s = 1 ->
  prod3 n U (fun k j => rotv p q cc s (B k) j) (fun c => rotv p q cc s (V c)) r c = prod3 n U B V r c.
Proof.
  intros Hp Hq Hpq H. rewrite !prod3_r.
  rewrite <- (rotv_dot n p q cc s (fun j => sum n (fun k => B k j * U r k)) (V c) Hp Hq Hpq H).
  apply sum_ext. intros j _. f_equal.
  exact (rotv_sum n p q cc s (fun j k => B k j) (U r) j).
Qed.

(** Bidiagonal matrices, with the superdiagonal up to column [K]. *)
Definition bd (K : nat) (w ws : nat -> R) (k j : nat) : R :=
  if (j =? k)%nat then w k else if ((j =? S k) && (j <=? K))%nat%bool then ws j else 0.
(** In the middle of a sweep. *)
Definition ch (l p K : nat) (w ws : nat -> R) (f x c s : R) (k j : nat) : R :=
  if (k =? p)%nat then (if (j =? p)%nat then x else if ((j =? S p) && (j <=? K))%nat%bool then c * ws j else 0)
  else if ((S k =? p) && (l <? p))%nat%bool then
    (if (j =? k)%nat then w k else if (j =? p)%nat then f else if ((j =? S p) && (j <=? K))%nat%bool then s * ws j else 0)
  else if (j =? k)%nat then w k else if ((j =? S k) && (j <=? K) && negb (j =? l))%nat%bool then ws j else 0.

Ltac nats := repeat match goal with
  | |- context [(?a =? ?b)%nat] => destruct (Nat.eqb_spec a b); try lia
  | |- context [(?a <=? ?b)%nat] => destruct (Nat.leb_spec a b); try lia
  | |- context [(?a <? ?b)%nat] => destruct (Nat.ltb_spec a b); try lia
  end; cbn [andb orb negb].

Lemma ch_start l K w ws f : forall k j, ch l l K w ws f (w l) 1 1 k j = bd K w (set1 ws l 0) k j.
Proof.
  intros k j. unfold ch, bd, set1. rewrite Nat.ltb_irrefl, andb_false_r.
  destruct (Nat.eqb_spec k l) as [-> | ].
  - destruct (Nat.eqb_spec j l); [ reflexivity | ]. destruct ((j =? S l) && (j <=? K))%nat%bool; ring.
  - destruct (j =? k)%nat; [ reflexivity | ].
    destruct ((j =? S k) && (j <=? K))%nat%bool, (j =? l)%nat; reflexivity.
Qed.
Lemma ch_end l K w ws f x c s : (l < K)%nat -> forall k j,
  ch l K K w ws f x c s k j = bd K (set1 w K x) (set1 (set1 ws l 0) K f) k j.
Proof. intros H k j. unfold ch, bd, set1. nats; reflexivity. Qed.
Lemma ch_step l p K w ws f x c s c1 s1 c2 s2 z1 z2 f' g' h' y' : (l <= p < K)%nat ->
  c1 * f + s1 * (s * ws (S p)) = z1 -> - s1 * f + c1 * (s * ws (S p)) = 0 ->
  f' = x * c1 + c * ws (S p) * s1 -> g' = - x * s1 + c * ws (S p) * c1 -> h' = w (S p) * s1 -> y' = w (S p) * c1 ->
  c2 * f' + s2 * h' = z2 -> - s2 * f' + c2 * h' = 0 ->
  forall k j, ch l (S p) K (set1 w p z2) (set1 ws p z1) (c2 * g' + s2 * y') (- s2 * g' + c2 * y') c2 s2 k j =
    rotv p (S p) c2 s2 (fun k => rotv p (S p) c1 s1 (fun j => ch l p K w ws f x c s k j) j) k.
Proof.
  intros H E1 E2 Ef Eg Eh Ey E3 E4 k j. unfold rotv.
  destruct (Nat.eqb_spec k p) as [-> | Hkp]; [ | destruct (Nat.eqb_spec k (S p)) as [-> | Hkq] ].
  - destruct (Nat.eqb_spec j p) as [-> | Hjp]; [ | destruct (Nat.eqb_spec j (S p)) as [-> | Hjq] ];
      unfold ch, set1; nats; subst; try lra; ring.
  - destruct (Nat.eqb_spec j p) as [-> | Hjp]; [ | destruct (Nat.eqb_spec j (S p)) as [-> | Hjq] ];
      unfold ch, set1; nats; subst; try lra; ring.
  - destruct (Nat.eqb_spec j p) as [-> | Hjp]; [ | destruct (Nat.eqb_spec j (S p)) as [-> | Hjq] ];
      unfold ch, set1; nats; subst; try lra; ring.
Qed.
