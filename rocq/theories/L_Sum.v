(** Finite sums, the determinant of [S_Lin], and the loops of [M_Lin]. *)
From Coq Require Import Reals Arith List Lia Lra Bool.
From Verif Require Import Num M_Lin S_Lin.
Import ListNotations.
Open Scope R_scope.

(** ** Sums *)
Lemma sum_ext n f g : (forall i, (i < n)%nat -> f i = g i) -> sum n f = sum n g.
Proof. induction n; intros H; cbn; auto. rewrite IHn, H; auto with arith. Qed.
Lemma sum_0 n f : (forall i, (i < n)%nat -> f i = 0) -> sum n f = 0.
Proof. induction n; intros H; cbn; auto. rewrite IHn, H; auto with arith; lra. Qed.
Lemma sum_plus n f g : sum n (fun i => f i + g i) = sum n f + sum n g.
Proof. induction n; cbn; [ lra | rewrite IHn; lra ]. Qed.
Lemma sum_minus n f g : sum n (fun i => f i - g i) = sum n f - sum n g.
Proof. induction n; cbn; [ lra | rewrite IHn; lra ]. Qed.
Lemma sum_opp n f : sum n (fun i => - f i) = - sum n f.
Proof. induction n; cbn; [ lra | rewrite IHn; lra ]. Qed.
Lemma sum_scal n c f : sum n (fun i => c * f i) = c * sum n f.
Proof. induction n; cbn; [ lra | rewrite IHn; lra ]. Qed.
Lemma sum_scal_r n c f : sum n (fun i => f i * c) = sum n f * c.
Proof. induction n; cbn; [ lra | rewrite IHn; lra ]. Qed.
Lemma sum_swap n m f : sum n (fun i => sum m (fun j => f i j)) = sum m (fun j => sum n (fun i => f i j)).
Proof.
  induction n; cbn.
  - symmetry. apply sum_0. auto.
  - rewrite IHn, <- sum_plus. reflexivity.
Qed.
Lemma sum_le n f g : (forall i, (i < n)%nat -> f i <= g i) -> sum n f <= sum n g.
Proof. induction n; intros H; cbn; [ lra | ]. specialize (IHn ltac:(auto with arith)). specialize (H n ltac:(lia)). lra. Qed.
Lemma sum_pos n f : (forall i, (i < n)%nat -> 0 <= f i) -> 0 <= sum n f.
Proof. intros H. rewrite <- (sum_0 n (fun _ => 0)) by auto. apply sum_le. exact H. Qed.
Lemma sum_pos_0 n f : (forall i, (i < n)%nat -> 0 <= f i) -> sum n f = 0 -> forall i, (i < n)%nat -> f i = 0.
Proof.
  induction n; intros H E i Hi; [ lia | ]. cbn in E.
  assert (P := sum_pos n f ltac:(auto with arith)). assert (Q := H n ltac:(lia)).
  destruct (Nat.eq_dec i n) as [-> | ]; [ lra | ]. apply IHn; auto with arith; [ lra | lia ].
Qed.
(** One term singled out. *)
Lemma sum_one n k f : (k < n)%nat -> (forall i, (i < n)%nat -> i <> k -> f i = 0) -> sum n f = f k.
Proof.
  induction n; intros Hk H; [ lia | ]. cbn. destruct (Nat.eq_dec k n) as [-> | ].
  - rewrite sum_0; [ lra | ]. intros i Hi. apply H; lia.
  - rewrite IHn; [ | lia | intros; apply H; lia ]. rewrite (H n); [ lra | lia | lia ].
Qed.
Lemma sum_pick n k f : (k < n)%nat ->
  sum n f = f k + sum n (fun i => if Nat.eqb i k then 0 else f i).
Proof.
  intros Hk.
  transitivity (sum n (fun i => if Nat.eqb i k then f i else 0) + sum n (fun i => if Nat.eqb i k then 0 else f i)).
  - rewrite <- sum_plus. apply sum_ext. intros i _. destruct (Nat.eqb i k); lra.
  - f_equal. rewrite (sum_one n k); [ now rewrite Nat.eqb_refl | exact Hk | ].
    intros i _ Hi. apply Nat.eqb_neq in Hi. now rewrite Hi.
Qed.
Lemma sum_two n p q f : (p < n)%nat -> (q < n)%nat -> p <> q ->
  (forall i, (i < n)%nat -> i <> p -> i <> q -> f i = 0) -> sum n f = f p + f q.
Proof.
  intros Hp Hq Hpq H. rewrite (sum_pick n p) by auto. f_equal.
  rewrite (sum_one n q); [ | auto | ].
  - apply Nat.neq_sym in Hpq. apply Nat.eqb_neq in Hpq. now rewrite Hpq.
  - intros i Hi Hiq. destruct (Nat.eqb i p) eqn:E; auto. apply Nat.eqb_neq in E. auto.
Qed.
Lemma sum_head n f : sum (S n) f = f O + sum n (fun i => f (S i)).
Proof. induction n; cbn in *; [ lra | ]. rewrite IHn. lra. Qed.
Lemma sum_delta_l n i f : (i < n)%nat -> sum n (fun k => delta i k * f k) = f i.
Proof.
  intros Hi. rewrite (sum_one n i); [ | auto | ].
  - unfold delta. rewrite Nat.eqb_refl. lra.
  - intros k _ Hk. unfold delta. apply Nat.neq_sym, Nat.eqb_neq in Hk. rewrite Hk. lra.
Qed.
Lemma sum_delta_r n i f : (i < n)%nat -> sum n (fun k => f k * delta k i) = f i.
Proof.
  intros Hi. rewrite (sum_one n i); [ | auto | ].
  - unfold delta. rewrite Nat.eqb_refl. lra.
  - intros k _ Hk. unfold delta. apply Nat.eqb_neq in Hk. rewrite Hk. lra.
Qed.
Lemma delta_sym i j : delta i j = delta j i.
Proof. unfold delta. now rewrite Nat.eqb_sym. Qed.

(** ** Loops *)
Lemma for_empty S lo hi (f : nat -> S -> S) s : (hi <= lo)%nat -> for_ lo hi f s = s.
Proof. intros H. unfold for_. replace (hi - lo)%nat with O by lia. reflexivity. Qed.
Lemma for_last S lo hi (f : nat -> S -> S) s : (lo <= hi)%nat ->
  for_ lo (Datatypes.S hi) f s = f hi (for_ lo hi f s).
Proof.
  intros H. unfold for_. replace (Datatypes.S hi - lo)%nat with (hi - lo + 1)%nat by lia.
  rewrite seq_app, fold_left_app. cbn. now replace (lo + (hi - lo))%nat with hi by lia.
Qed.
(** The invariant rule. *)
Lemma for_inv S (I : nat -> S -> Prop) lo hi f s : (lo <= hi)%nat -> I lo s ->
  (forall i s, (lo <= i < hi)%nat -> I i s -> I (Datatypes.S i) (f i s)) ->
  I hi (for_ lo hi f s).
Proof.
  intros Hle H0 HS. induction hi.
  - replace lo with O in * by lia. exact H0.
  - destruct (Nat.eq_dec lo (Datatypes.S hi)) as [-> | ].
    + rewrite for_empty by lia. exact H0.
    + rewrite for_last by lia. apply HS; [ lia | ]. apply IHhi; [ lia | ]. intros; apply HS; auto; lia.
Qed.
Lemma set1_same T (a : nat -> T) i x : set1 a i x i = x.
Proof. unfold set1. now rewrite Nat.eqb_refl. Qed.
Lemma set1_other T (a : nat -> T) i j x : j <> i -> set1 a i x j = a j.
Proof. intros H. unfold set1. apply Nat.eqb_neq in H. now rewrite H. Qed.
Lemma set2_same T (a : nat -> nat -> T) i j x : set2 a i j x i j = x.
Proof. unfold set2. now rewrite !Nat.eqb_refl. Qed.
Lemma set2_other T (a : nat -> nat -> T) i j k l x : (k <> i \/ l <> j) -> set2 a i j x k l = a k l.
Proof.
  intros H. unfold set2. destruct H as [H | H]; apply Nat.eqb_neq in H; rewrite H; [ reflexivity | ].
  now rewrite andb_false_r.
Qed.

(** ** The determinant *)
Lemma minor_ext i A B n : (i < S n)%nat ->
  (forall r c, (r < S n)%nat -> (c < S n)%nat -> A r c = B r c) ->
  forall r c, (r < n)%nat -> (c < n)%nat -> minor i A r c = minor i B r c.
Proof. intros Hi H r c Hr Hc. unfold minor. apply H; [ destruct (Nat.ltb r i); lia | lia ]. Qed.
Lemma det_ext n : forall A B, (forall r c, (r < n)%nat -> (c < n)%nat -> A r c = B r c) -> det n A = det n B.
Proof.
  induction n; intros A B H; [ reflexivity | ]. cbn [det]. apply sum_ext. intros i Hi.
  rewrite (H i O) by lia. f_equal. apply IHn. apply minor_ext; auto.
Qed.

(** Replacing row [r] by the vector [x]. *)
Definition setrow (A : nat -> nat -> R) (r : nat) (x : nat -> R) : nat -> nat -> R :=
  fun i j => if Nat.eqb i r then x j else A i j.

Lemma minor_setrow_same r A x : forall i j, minor r (setrow A r x) i j = minor r A i j.
Proof.
  intros i j. unfold minor, setrow. destruct (Nat.ltb_spec i r).
  - replace (Nat.eqb i r) with false; auto. symmetry. apply Nat.eqb_neq. lia.
  - replace (Nat.eqb (S i) r) with false; auto. symmetry. apply Nat.eqb_neq. lia.
Qed.
(** Row [r] of [A] is row [r'] of the minor without row [k]. *)
Definition down (k r : nat) : nat := if Nat.ltb r k then r else pred r.
Lemma minor_setrow_other k r A x : k <> r ->
  forall i j, minor k (setrow A r x) i j = setrow (minor k A) (down k r) (fun c => x (S c)) i j.
Proof.
  intros Hk i j. unfold minor, setrow, down.
  destruct (Nat.ltb_spec i k), (Nat.ltb_spec r k).
  - destruct (Nat.eqb_spec i r); auto.
  - destruct (Nat.eqb_spec i r), (Nat.eqb_spec i (pred r)); auto; lia.
  - destruct (Nat.eqb_spec (S i) r), (Nat.eqb_spec i r); auto; lia.
  - destruct (Nat.eqb_spec (S i) r), (Nat.eqb_spec i (pred r)); auto; lia.
Qed.
Lemma down_lt k r n : (k < S n)%nat -> (r < S n)%nat -> k <> r -> (down k r < n)%nat.
Proof. intros. unfold down. destruct (Nat.ltb_spec r k); lia. Qed.

Lemma det_minor_same n r A x : det n (minor r (setrow A r x)) = det n (minor r A).
Proof. apply det_ext. intros. apply minor_setrow_same. Qed.
Lemma det_minor_other n k r A x : k <> r ->
  det n (minor k (setrow A r x)) = det n (setrow (minor k A) (down k r) (fun c => x (S c))).
Proof. intros H. apply det_ext. intros. now apply minor_setrow_other. Qed.

(** Linearity in each row. *)
Lemma det_row_linear n : forall A r x y a b, (r < n)%nat ->
  det n (setrow A r (fun j => a * x j + b * y j)) = a * det n (setrow A r x) + b * det n (setrow A r y).
Proof.
  induction n; intros A r x y a b Hr; [ lia | ]. cbn [det].
  rewrite <- !sum_scal, <- sum_plus. apply sum_ext. intros i Hi.
  destruct (Nat.eq_dec i r) as [-> | Hir].
  - rewrite !det_minor_same.
    unfold setrow at 1 2 3. rewrite Nat.eqb_refl. ring.
  - rewrite !det_minor_other by exact Hir.
    rewrite (IHn (minor i A) (down i r) (fun c => x (S c)) (fun c => y (S c))) by (apply down_lt; auto).
    assert (E : forall z, setrow A r z i O = A i O).
    { intros z. unfold setrow. apply Nat.eqb_neq in Hir. now rewrite Hir. }
    rewrite !E. ring.
Qed.

(** Two equal adjacent rows. *)
Lemma det_adjacent n : forall A r, (S r < n)%nat -> (forall j, A r j = A (S r) j) -> det n A = 0.
Proof.
  induction n; intros A r Hr H; [ lia | ]. cbn [det].
  rewrite (sum_two (S n) r (S r)); [ | lia | lia | lia | ].
  - rewrite (H O).
    rewrite (det_ext n (minor (S r) A) (minor r A)).
    { cbn [pow]. ring. }
    intros i j _ _. unfold minor. destruct (Nat.ltb_spec i (S r)), (Nat.ltb_spec i r); auto; [ | lia ].
    replace i with r by lia. apply H.
  - intros i Hi Hir HiSr.
    rewrite (IHn (minor i A) (down i r)); [ ring | | ].
    + unfold down. destruct (Nat.ltb_spec r i); lia.
    + intros j. unfold minor, down. destruct (Nat.ltb_spec r i).
      * replace (Nat.ltb r i) with true by (symmetry; apply Nat.ltb_lt; lia).
        replace (Nat.ltb (S r) i) with true by (symmetry; apply Nat.ltb_lt; lia). apply H.
      * replace (Nat.ltb (pred r) i) with false by (symmetry; apply Nat.ltb_ge; lia).
        replace (Nat.ltb (S (pred r)) i) with false by (symmetry; apply Nat.ltb_ge; lia).
        replace (S (pred r)) with r by lia. apply H.
Qed.

(** The permutation that exchanges [p] and [q]. *)
Definition tr (p q i : nat) : nat := if Nat.eqb i p then q else if Nat.eqb i q then p else i.
Lemma tr_l p q : tr p q p = q. Proof. unfold tr. now rewrite Nat.eqb_refl. Qed.
Lemma tr_r p q : tr p q q = p.
Proof. unfold tr. destruct (Nat.eqb_spec q p); [ now subst | now rewrite Nat.eqb_refl ]. Qed.
Lemma tr_o p q i : i <> p -> i <> q -> tr p q i = i.
Proof. intros H1 H2. unfold tr. apply Nat.eqb_neq in H1, H2. now rewrite H1, H2. Qed.
Lemma tr_tr p q i : tr p q (tr p q i) = i.
Proof.
  destruct (Nat.eq_dec i p) as [-> | ]; [ rewrite tr_l; apply tr_r | ].
  destruct (Nat.eq_dec i q) as [-> | ]; [ rewrite tr_r; apply tr_l | ]. now rewrite !(tr_o p q i).
Qed.
Lemma tr_lt p q i n : (p < n)%nat -> (q < n)%nat -> (i < n)%nat -> (tr p q i < n)%nat.
Proof. intros. unfold tr. destruct (Nat.eqb i p), (Nat.eqb i q); lia. Qed.
Lemma tr_id p i : tr p p i = i.
Proof. unfold tr. destruct (Nat.eqb_spec i p); congruence. Qed.

Lemma setrow_self A r : forall i j, setrow A r (A r) i j = A i j.
Proof. intros. unfold setrow. destruct (Nat.eqb_spec i r); subst; auto. Qed.

Lemma det_linear2 n A r x y a : (r < n)%nat ->
  det n (setrow A r (fun j => x j + a * y j)) = det n (setrow A r x) + a * det n (setrow A r y).
Proof.
  intros Hr. rewrite (det_ext n _ (setrow A r (fun j => 1 * x j + a * y j))).
  - rewrite det_row_linear by exact Hr. ring.
  - intros i j _ _. unfold setrow. destruct (Nat.eqb i r); ring.
Qed.

Ltac row_eq := repeat (intro); unfold setrow, tr;
  repeat match goal with |- context[Nat.eqb ?a ?b] => destruct (Nat.eqb_spec a b) end;
  subst; try lia; try ring; try congruence.

(** Exchange of adjacent rows. *)
Lemma det_swap_adjacent n A r : (S r < n)%nat -> det n (fun i j => A (tr r (S r) i) j) = - det n A.
Proof.
  intros Hr.
  (* rows r and r+1 both x + y *)
  set (x := A r). set (y := A (S r)).
  set (B := fun u v => setrow (setrow A r u) (S r) v).
  assert (Z : forall u, det n (B u u) = 0).
  { intros u. apply (det_adjacent n _ r Hr). intros j. unfold B, setrow.
    rewrite Nat.eqb_refl. replace (Nat.eqb r (S r)) with false by (symmetry; apply Nat.eqb_neq; lia).
    now rewrite Nat.eqb_refl. }
  assert (C : forall u v, det n (B u v) = det n (setrow (setrow A (S r) v) r u)).
  { intros u v. apply det_ext. intros i j _ _. unfold B. row_eq. }
  assert (L1 : forall u v, det n (B u (fun j => x j + 1 * v j)) = det n (B u x) + 1 * det n (B u v)).
  { intros u v. apply det_linear2. lia. }
  assert (L2 : forall u v, det n (B (fun j => x j + 1 * u j) v) = det n (B x v) + 1 * det n (B u v)).
  { intros u v. rewrite !C. apply det_linear2. lia. }
  assert (E := Z (fun j => x j + 1 * y j)).
  rewrite L1, !L2, !Z in E.
  assert (E1 : det n (B x y) = det n A).
  { apply det_ext. intros i j _ _. unfold B, x, y. row_eq. }
  assert (E2 : det n (B y x) = det n (fun i j => A (tr r (S r) i) j)).
  { apply det_ext. intros i j _ _. unfold B, x, y. row_eq. }
  lra.
Qed.

(** Exchange of any two rows, by induction on their distance. *)
Lemma det_swap_lt n : forall d A p, (p + S d < n)%nat ->
  det n (fun i j => A (tr p (p + S d) i) j) = - det n A.
Proof.
  induction d; intros A p H.
  - replace (p + 1)%nat with (S p) by lia. apply det_swap_adjacent. lia.
  - (* (p, p+d+2) = (q, q+1) o (p, q) o (q, q+1) with q = p+d+1 *)
    set (q := (p + S d)%nat).
    rewrite (det_ext n _ (fun i j => (fun i j => (fun i j => A (tr q (S q) i) j) (tr p q i) j) (tr q (S q) i) j)).
    + rewrite (det_swap_adjacent n (fun i j => (fun i j => A (tr q (S q) i) j) (tr p q i) j)) by (unfold q; lia).
      unfold q at 1. rewrite (IHd (fun i j => A (tr q (S q) i) j)) by lia.
      rewrite det_swap_adjacent by (unfold q; lia). ring.
    + intros i j _ _. cbv beta. replace (p + S (S d))%nat with (S q) by (unfold q; lia).
      assert (Hq : p <> q /\ p <> S q /\ q <> S q) by (unfold q; lia). destruct Hq as [H1 [H2 H3]].
      f_equal. destruct (Nat.eq_dec i p) as [-> | ].
      { rewrite tr_l, (tr_o q (S q) p), tr_l, tr_l; auto. }
      destruct (Nat.eq_dec i (S q)) as [-> | ].
      { rewrite tr_r, tr_r, tr_r, (tr_o q (S q) p); auto. }
      destruct (Nat.eq_dec i q) as [-> | ].
      { rewrite tr_l, (tr_o p (S q) q), (tr_o p q (S q)), tr_r; auto. }
      rewrite (tr_o p (S q) i), (tr_o q (S q) i), (tr_o p q i), (tr_o q (S q) i); auto.
Qed.
Lemma det_swap n A p q : (p < n)%nat -> (q < n)%nat -> p <> q ->
  det n (fun i j => A (tr p q i) j) = - det n A.
Proof.
  intros Hp Hq Hpq. destruct (Nat.lt_ge_cases p q).
  - replace q with (p + S (q - p - 1))%nat by lia. apply det_swap_lt. lia.
  - rewrite (det_ext n _ (fun i j => A (tr q p i) j)).
    + replace p with (q + S (p - q - 1))%nat by lia. apply det_swap_lt. lia.
    + intros i j _ _. f_equal. unfold tr.
      destruct (Nat.eqb_spec i p), (Nat.eqb_spec i q); lia.
Qed.
(** Two equal rows. *)
Lemma det_equal_rows n A p q : (p < n)%nat -> (q < n)%nat -> p <> q ->
  (forall j, A p j = A q j) -> det n A = 0.
Proof.
  intros Hp Hq Hpq H. assert (E := det_swap n A p q Hp Hq Hpq).
  rewrite (det_ext n _ A) in E; [ lra | ].
  intros i j _ _. unfold tr. destruct (Nat.eqb_spec i p), (Nat.eqb_spec i q); subst; auto.
Qed.
(** Adding a multiple of one row to another. *)
Lemma det_add_row n A p q c : (p < n)%nat -> (q < n)%nat -> p <> q ->
  det n (setrow A p (fun j => A p j + c * A q j)) = det n A.
Proof.
  intros Hp Hq Hpq. rewrite det_linear2 by exact Hp.
  rewrite (det_ext n (setrow A p (A p)) A) by (intros; apply setrow_self).
  rewrite (det_equal_rows n (setrow A p (A q)) p q); auto; [ ring | ].
  intros j. unfold setrow. rewrite Nat.eqb_refl. apply Nat.neq_sym, Nat.eqb_neq in Hpq. now rewrite Hpq.
Qed.
(** Subtracting multiples of row 0 from every other row. *)
Lemma det_clear n A c : forall k, (k <= n)%nat ->
  det (S n) (fun i j => if Nat.eqb i 0 then A O j else if Nat.leb i k then A i j + c i * A O j else A i j) = det (S n) A.
Proof.
  induction k; intros Hk.
  - apply det_ext. intros i j _ _. destruct i; reflexivity.
  - rewrite <- IHk by lia. symmetry.
    match goal with |- det _ ?B = _ => rewrite <- (det_add_row (S n) B (S k) O (c (S k))) by lia end.
    apply det_ext. intros i j _ _. unfold setrow.
    destruct (Nat.eqb_spec i (S k)) as [-> | ].
    + change (Nat.eqb (S k) 0) with false. cbn [Nat.eqb].
      rewrite Nat.leb_refl. replace (Nat.leb (S k) k) with false; [ reflexivity | ].
      symmetry. apply Nat.leb_gt. lia.
    + destruct (Nat.eqb_spec i 0); auto.
      destruct (Nat.leb_spec i k), (Nat.leb_spec i (S k)); auto; lia.
Qed.
(** One step of elimination: the Schur complement of the first entry. *)
Lemma det_schur n A : A O O <> 0 ->
  det (S n) A = A O O * det n (fun i j => A (S i) (S j) - A (S i) O * (A O (S j) / A O O)).
Proof.
  intros H. rewrite <- (det_clear n A (fun i => - A i O / A O O) n (le_n n)).
  cbn [det]. rewrite sum_head. rewrite sum_0.
  - cbn [pow Nat.eqb]. rewrite Rplus_0_r. f_equal; [ ring | ].
    apply det_ext. intros i j Hi Hj. unfold minor. change (Nat.ltb i 0) with false. cbv iota.
    change (Nat.eqb (S i) 0) with false. cbv iota.
    replace (Nat.leb (S i) n) with true by (symmetry; apply Nat.leb_le; lia).
    field. exact H.
  - intros i Hi. change (Nat.eqb (S i) 0) with false.
    replace (Nat.leb (S i) n) with true by (symmetry; apply Nat.leb_le; lia).
    replace (A (S i) O + - A (S i) O / A O O * A O O) with 0 by (field; exact H). ring.
Qed.
Lemma det_first_column_zero n A : (forall i, (i < S n)%nat -> A i O = 0) -> det (S n) A = 0.
Proof. intros H. cbn [det]. apply sum_0. intros i Hi. rewrite H by exact Hi. ring. Qed.
Lemma det_id n : det n delta = 1.
Proof.
  induction n; [ reflexivity | ]. cbn [det]. rewrite sum_head, sum_0.
  - rewrite (det_ext n (minor 0 delta) delta).
    + rewrite IHn. unfold delta. cbn. ring.
    + intros i j _ _. reflexivity.
  - intros i _. unfold delta. cbn. ring.
Qed.
