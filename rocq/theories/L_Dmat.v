(** [dmat]: the loops, the exchange invariant, the determinant invariant. *)
From Coq Require Import Reals Arith List Lia Lra Bool.
From Verif Require Import Num NumR M_Lin S_Lin L_Sum.
Import ListNotations.
Open Scope R_scope.

Section Loops.
Context {N : Num}.

Lemma row_swap_spec n p q (a : mx N) r j : (j < n)%nat -> row_swap n p q a r j = a (tr p q r) j.
Proof.
  intros Hj.
  assert (H : forall r j, row_swap n p q a r j = if Nat.ltb j n then a (tr p q r) j else a r j).
  { apply (for_inv _ (fun m (a' : mx N) => forall r j, a' r j = if Nat.ltb j m then a (tr p q r) j else a r j));
      [ lia | reflexivity | ].
    intros m a' _ IH i l.
    assert (Em : forall r, a' r m = a r m).
    { intros. rewrite IH. now replace (Nat.ltb m m) with false by (symmetry; apply Nat.ltb_ge; lia). }
    destruct (Nat.eq_dec l m) as [-> | Hl].
    - replace (Nat.ltb m (S m)) with true by (symmetry; apply Nat.ltb_lt; lia).
      destruct (Nat.eq_dec i q) as [-> | Hq]; [ rewrite set2_same, tr_r; apply Em | ].
      rewrite set2_other by auto.
      destruct (Nat.eq_dec i p) as [-> | Hp]; [ rewrite set2_same, tr_l; apply Em | ].
      rewrite set2_other, tr_o by auto. apply Em.
    - rewrite !set2_other by auto. rewrite IH.
      destruct (Nat.ltb_spec l m), (Nat.ltb_spec l (S m)); auto; lia. }
  rewrite H. apply Nat.ltb_lt in Hj. now rewrite Hj.
Qed.

Lemma col_swap_spec n p q (a : mx N) r j : (r < n)%nat -> col_swap n p q a r j = a r (tr p q j).
Proof.
  intros Hr.
  assert (H : forall r j, col_swap n p q a r j = if Nat.ltb r n then a r (tr p q j) else a r j).
  { apply (for_inv _ (fun m (a' : mx N) => forall r j, a' r j = if Nat.ltb r m then a r (tr p q j) else a r j));
      [ lia | reflexivity | ].
    intros m a' _ IH l i.
    assert (Em : forall j, a' m j = a m j).
    { intros. rewrite IH. now replace (Nat.ltb m m) with false by (symmetry; apply Nat.ltb_ge; lia). }
    destruct (Nat.eq_dec l m) as [-> | Hl].
    - replace (Nat.ltb m (S m)) with true by (symmetry; apply Nat.ltb_lt; lia).
      destruct (Nat.eq_dec i q) as [-> | Hq]; [ rewrite set2_same, tr_r; apply Em | ].
      rewrite set2_other by auto.
      destruct (Nat.eq_dec i p) as [-> | Hp]; [ rewrite set2_same, tr_l; apply Em | ].
      rewrite set2_other, tr_o by auto. apply Em.
    - rewrite !set2_other by auto. rewrite IH.
      destruct (Nat.ltb_spec l m), (Nat.ltb_spec l (S m)); auto; lia. }
  rewrite H. apply Nat.ltb_lt in Hr. now rewrite Hr.
Qed.

Lemma vec_swap_spec p q (v : vx N) r : vec_swap p q v r = v (tr p q r).
Proof.
  unfold vec_swap. destruct (Nat.eq_dec r q) as [-> | Hq]; [ now rewrite set1_same, tr_r | ].
  rewrite set1_other by auto.
  destruct (Nat.eq_dec r p) as [-> | Hp]; [ now rewrite set1_same, tr_l | ].
  now rewrite set1_other, tr_o by auto.
Qed.

(** A loop that rewrites the cells of one row, except column [k], each from
    its own old value. *)
Lemma row_loop n i k (g : nat -> N -> N) (a : mx N) (body : nat -> mx N -> mx N) :
  (forall j a', body j a' = if negb (Nat.eqb j k) then set2 a' i j (g j (a' i j)) else a') ->
  forall r j, (j < n)%nat ->
    for_ 0 n body a r j = if (Nat.eqb r i && negb (Nat.eqb j k))%bool then g j (a i j) else a r j.
Proof.
  intros Hb.
  assert (H : forall r j, for_ 0 n body a r j =
     if (Nat.ltb j n && (Nat.eqb r i && negb (Nat.eqb j k)))%bool then g j (a i j) else a r j).
  { apply (for_inv _ (fun m (a' : mx N) => forall r j, a' r j =
      if (Nat.ltb j m && (Nat.eqb r i && negb (Nat.eqb j k)))%bool then g j (a i j) else a r j));
      [ lia | reflexivity | ].
    intros m a' _ IH r j. rewrite Hb.
    assert (Em : forall r, a' r m = a r m).
    { intros. rewrite IH. now replace (Nat.ltb m m) with false by (symmetry; apply Nat.ltb_ge; lia). }
    destruct (Nat.eqb_spec m k) as [-> | Hmk]; cbn [negb].
    - rewrite IH. destruct (Nat.ltb_spec j k), (Nat.ltb_spec j (S k)); cbn [andb]; auto; try lia.
      replace j with k by lia. now rewrite Nat.eqb_refl, andb_false_r.
    - destruct (Nat.eq_dec j m) as [-> | Hj].
      + replace (Nat.ltb m (S m)) with true by (symmetry; apply Nat.ltb_lt; lia). cbn [andb].
        apply Nat.eqb_neq in Hmk. rewrite Hmk. cbn [negb]. rewrite andb_true_r.
        destruct (Nat.eqb_spec r i) as [-> | Hr].
        * now rewrite set2_same, Em.
        * rewrite set2_other by auto. apply Em.
      + rewrite set2_other by auto. rewrite IH.
        destruct (Nat.ltb_spec j m), (Nat.ltb_spec j (S m)); auto; lia. }
  intros r j Hj. rewrite H. apply Nat.ltb_lt in Hj. now rewrite Hj.
Qed.

(** The same for a column. *)
Lemma col_loop n j k (g : N -> N) (a : mx N) (body : nat -> mx N -> mx N) :
  (forall i a', body i a' = if negb (Nat.eqb i k) then set2 a' i j (g (a' i j)) else a') ->
  forall i c, (i < n)%nat ->
    for_ 0 n body a i c = if (Nat.eqb c j && negb (Nat.eqb i k))%bool then g (a i j) else a i c.
Proof.
  intros Hb.
  assert (H : forall i c, for_ 0 n body a i c =
     if (Nat.ltb i n && (Nat.eqb c j && negb (Nat.eqb i k)))%bool then g (a i j) else a i c).
  { apply (for_inv _ (fun m (a' : mx N) => forall i c, a' i c =
      if (Nat.ltb i m && (Nat.eqb c j && negb (Nat.eqb i k)))%bool then g (a i j) else a i c));
      [ lia | reflexivity | ].
    intros m a' _ IH i c. rewrite Hb.
    assert (Em : forall c, a' m c = a m c).
    { intros. rewrite IH. now replace (Nat.ltb m m) with false by (symmetry; apply Nat.ltb_ge; lia). }
    destruct (Nat.eqb_spec m k) as [-> | Hmk]; cbn [negb].
    - rewrite IH. destruct (Nat.ltb_spec i k), (Nat.ltb_spec i (S k)); cbn [andb]; auto; try lia.
      replace i with k by lia. now rewrite Nat.eqb_refl, andb_false_r.
    - destruct (Nat.eq_dec i m) as [-> | Hj].
      + replace (Nat.ltb m (S m)) with true by (symmetry; apply Nat.ltb_lt; lia). cbn [andb].
        apply Nat.eqb_neq in Hmk. rewrite Hmk. cbn [negb]. rewrite andb_true_r.
        destruct (Nat.eqb_spec c j) as [-> | Hr].
        * now rewrite set2_same, Em.
        * rewrite set2_other by auto. apply Em.
      + rewrite set2_other by auto. rewrite IH.
        destruct (Nat.ltb_spec i m), (Nat.ltb_spec i (S m)); auto; lia. }
  intros i c Hi. rewrite H. apply Nat.ltb_lt in Hi. now rewrite Hi.
Qed.

(** dmat.cc:98-122 cell by cell. *)
Lemma eliminate_spec n k (a : mx N) (v : vx N) : (k < n)%nat ->
  let akk := (#1 / a k k)%num in
  let row := fun j => (a k j * akk)%num in
  let yk := (v k * akk)%num in
  forall i j, (i < n)%nat -> (j < n)%nat ->
  fst (dmat_eliminate n k a v) i j =
    (if Nat.eqb i k then (if Nat.eqb j k then akk else row j)
     else if Nat.eqb j k then (- (a i k) * akk)%num else (a i j - a i k * row j)%num) /\
  snd (dmat_eliminate n k a v) i = (if Nat.eqb i k then yk else (v i - a i k * yk)%num).
Proof.
  intros Hk akk row yk.
  unfold dmat_eliminate. fold akk yk.
  set (a1 := for_ 0 n _ (set2 a k k akk)).
  assert (H1 : forall r j, (j < n)%nat -> a1 r j =
    if Nat.eqb r k then (if Nat.eqb j k then akk else row j) else a r j).
  { intros r j Hj. unfold a1. rewrite (row_loop n k k (fun _ x => (x * akk)%num)) by (auto; reflexivity).
    destruct (Nat.eqb_spec r k) as [-> | Hr]; cbn [andb].
    - destruct (Nat.eqb_spec j k) as [-> | Hjk]; cbn [negb]; [ apply set2_same | ].
      unfold row. f_equal. apply set2_other. auto.
    - apply set2_other. auto. }
  clearbody a1.
  match goal with |- context[for_ 0 n ?f (a1, _)] => set (body := f) end.
  assert (H2 : (forall i j, (j < n)%nat ->
             fst (for_ 0 n body (a1, set1 v k yk)) i j =
               if (Nat.ltb i n && negb (Nat.eqb i k) && negb (Nat.eqb j k))%bool then (a i j - a i k * row j)%num else a1 i j) /\
               (forall i, snd (for_ 0 n body (a1, set1 v k yk)) i =
               if Nat.eqb i k then yk else if Nat.ltb i n then (v i - a i k * yk)%num else v i)).
  { apply (for_inv _ (fun m (s : mx N * vx N) => (forall i j, (j < n)%nat -> fst s i j =
               if (Nat.ltb i m && negb (Nat.eqb i k) && negb (Nat.eqb j k))%bool then (a i j - a i k * row j)%num else a1 i j) /\
               (forall i, snd s i =
               if Nat.eqb i k then yk else if Nat.ltb i m then (v i - a i k * yk)%num else v i))).
    - lia.
    - split; intros; cbn [fst snd]; [ reflexivity | ].
      change (Nat.ltb i 0) with false. cbv iota. destruct (Nat.eqb_spec i k) as [-> | ].
      + apply set1_same.
      + now apply set1_other.
    - intros m [a' v'] Hm [IH1 IH2]. cbn [fst snd] in IH1, IH2. unfold body.
      assert (Em : forall j, (j < n)%nat -> a' m j = a1 m j).
      { intros j Hj. rewrite IH1 by exact Hj. now replace (Nat.ltb m m) with false by (symmetry; apply Nat.ltb_ge; lia). }
      assert (Ek : forall j, (j < n)%nat -> a' k j = a1 k j).
      { intros j Hj. rewrite IH1 by exact Hj. rewrite Nat.eqb_refl. cbn [negb]. now rewrite andb_false_r. }
      assert (Ev : v' m = if Nat.eqb m k then yk else v m).
      { rewrite IH2. now replace (Nat.ltb m m) with false by (symmetry; apply Nat.ltb_ge; lia). }
      destruct (Nat.eqb_spec m k) as [-> | Hmk]; cbn [negb fst snd].
      + split; intros.
        * rewrite IH1 by auto. destruct (Nat.ltb_spec i k), (Nat.ltb_spec i (S k)); auto; try lia.
          replace i with k by lia. rewrite Nat.eqb_refl. cbn [negb andb]. reflexivity.
        * rewrite IH2. destruct (Nat.eqb_spec i k); auto.
          destruct (Nat.ltb_spec i k), (Nat.ltb_spec i (S k)); auto; lia.
      + assert (Ek2 : a' m k = a m k).
        { rewrite Em, H1 by auto. apply Nat.eqb_neq in Hmk. now rewrite Hmk. }
        split.
        * intros i j Hj.
          assert (L : forall r c, (c < n)%nat ->
            for_ 0 n (fun j (a0 : mx N) => if negb (Nat.eqb j k) then set2 a0 m j (a0 m j - a' m k * a0 k j)%num else a0) a' r c =
            if (Nat.eqb r m && negb (Nat.eqb c k))%bool then (a' m c - a' m k * a' k c)%num else a' r c).
          { (* the pivot row is not written by this loop *)
            intros r c Hc.
            assert (G : for_ 0 n (fun j (a0 : mx N) => if negb (Nat.eqb j k) then set2 a0 m j (a0 m j - a' m k * a0 k j)%num else a0) a' r c =
              for_ 0 n (fun j (a0 : mx N) => if negb (Nat.eqb j k) then set2 a0 m j (a0 m j - a' m k * a' k j)%num else a0) a' r c /\
              forall c, for_ 0 n (fun j (a0 : mx N) => if negb (Nat.eqb j k) then set2 a0 m j (a0 m j - a' m k * a0 k j)%num else a0) a' k c = a' k c).
            { split.
              - revert r c Hc. 
                assert (G : forall hi, (forall r c,
                    for_ 0 hi (fun j (a0 : mx N) => if negb (Nat.eqb j k) then set2 a0 m j (a0 m j - a' m k * a0 k j)%num else a0) a' r c =
                    for_ 0 hi (fun j (a0 : mx N) => if negb (Nat.eqb j k) then set2 a0 m j (a0 m j - a' m k * a' k j)%num else a0) a' r c) /\
                    forall c, for_ 0 hi (fun j (a0 : mx N) => if negb (Nat.eqb j k) then set2 a0 m j (a0 m j - a' m k * a0 k j)%num else a0) a' k c = a' k c).
                { induction hi as [ | hi [G1 G2] ]; [ split; reflexivity | ].
                  rewrite !for_last by lia. destruct (Nat.eqb hi k); cbn [negb]; [ split; auto | ]. split.
                  - intros r c. rewrite !G2, !G1. unfold set2. rewrite G1. reflexivity.
                  - intros c. rewrite set2_other by auto. apply G2. }
                intros r c _. apply G.
              - intros c'. apply (for_inv _ (fun _ (a0 : mx N) => a0 k c' = a' k c')); [ lia | reflexivity | ].
                intros j' a0 _ E. destruct (Nat.eqb j' k); cbn [negb]; auto. rewrite set2_other; auto. }
            destruct G as [-> _].
            exact (row_loop n m k (fun j x => (x - a' m k * a' k j)%num) a' _ (fun j a0 => eq_refl) r c Hc). }
          rewrite L by exact Hj. rewrite Ek2.
          destruct (Nat.eqb_spec i m) as [-> | Him]; cbn [andb].
          -- replace (Nat.ltb m (S m)) with true by (symmetry; apply Nat.ltb_lt; lia).
             assert (Hmk' := Hmk). apply Nat.eqb_neq in Hmk'. rewrite Hmk'. cbn [negb andb].
             destruct (Nat.eqb_spec j k) as [-> | Hjk]; cbn [negb].
             ++ apply Em. exact Hk.
             ++ rewrite Em, Ek by exact Hj. rewrite !H1 by exact Hj. rewrite Hmk', Nat.eqb_refl.
                apply Nat.eqb_neq in Hjk. now rewrite Hjk.
          -- rewrite IH1 by exact Hj. destruct (Nat.ltb_spec i m), (Nat.ltb_spec i (S m)); auto; lia.
        * intros i. destruct (Nat.eq_dec i m) as [-> | Him].
          -- rewrite set1_same, Ev, Ek2. apply Nat.eqb_neq in Hmk. rewrite Hmk.
             now replace (Nat.ltb m (S m)) with true by (symmetry; apply Nat.ltb_lt; lia).
          -- rewrite set1_other by exact Him. rewrite IH2. destruct (Nat.eqb i k); auto.
             destruct (Nat.ltb_spec i m), (Nat.ltb_spec i (S m)); auto; lia. }
  destruct (for_ 0 n body (a1, set1 v k yk)) as [a2 v2]. cbn [fst snd] in *.
  destruct H2 as [H2 H3].
  intros i j Hi Hj. split.
  - etransitivity; [ exact (col_loop n k k (fun x => (- x * akk)%num) a2 _ (fun i a0 => eq_refl) i j Hi) | ].
    rewrite !H2 by auto. assert (Hi' := Hi). apply Nat.ltb_lt in Hi'. rewrite Hi', Nat.eqb_refl. cbn [negb andb].
    rewrite andb_false_r. rewrite !H1 by auto.
    destruct (Nat.eqb_spec i k) as [-> | Hik]; cbn [negb andb].
    + rewrite andb_false_r. reflexivity.
    + destruct (Nat.eqb_spec j k) as [-> | Hjk]; cbn [negb andb]; reflexivity.
  - cbn [snd]. rewrite H3. apply Nat.ltb_lt in Hi. now rewrite Hi.
Qed.

End Loops.

(** ** Over the reals *)
Lemma pivot_spec n k (a : nat -> nat -> R) : (k < n)%nat ->
  exists imx, dmat_pivot (N := RNum) n k a = (Rabs (a imx k), imx) /\ (k <= imx < n)%nat /\
    forall i, (k <= i < n)%nat -> Rabs (a i k) <= Rabs (a imx k).
Proof.
  intros Hk.
  assert (H : exists imx, dmat_pivot (N := RNum) n k a = (Rabs (a imx k), imx) /\ (k <= imx < Nat.max n (S k))%nat /\
    forall i, (k <= i < n)%nat -> Rabs (a i k) <= Rabs (a imx k)).
  { unfold dmat_pivot.
    apply (for_inv _ (fun m s => exists imx, s = (Rabs (a imx k), imx) /\ (k <= imx < Nat.max n (S k))%nat /\
      forall i, (k <= i < m)%nat -> Rabs (a i k) <= Rabs (a imx k))).
    - lia.
    - exists k. split; [ reflexivity | ]. split; [ lia | ]. intros i Hi. replace i with k by lia. apply Rle_refl.
    - intros i s Hi [imx [-> [Hx IH]]]. cbn [fst]. unR. cbv zeta.
      destruct (Rltb_spec (Rabs (a imx k)) (Rabs (a i k))) as [L | L].
      + exists i. split; [ reflexivity | ]. split; [ lia | ]. intros i' Hi'.
        destruct (Nat.eq_dec i' i) as [-> | ]; [ apply Rle_refl | ].
        assert (Q := IH i' ltac:(lia)). lra.
      + exists imx. split; [ reflexivity | ]. split; [ lia | ]. intros i' Hi'.
        destruct (Nat.eq_dec i' i) as [-> | ]; [ lra | ]. apply IH. lia. }
  destruct H as [imx [E [Hx H]]]. exists imx. split; [ exact E | ]. split; [ lia | exact H ].
Qed.

(** One exchange step, as a statement about equations. *)
Lemma exchange n k (C C' : nat -> nat -> R) (v v' : nat -> R) (o u : nat -> R) :
  (k < n)%nat -> C k k <> 0 ->
  (forall i j, (i < n)%nat -> (j < n)%nat ->
    C' i j = (if Nat.eqb i k then (if Nat.eqb j k then 1 / C k k else C k j * (1 / C k k))
     else if Nat.eqb j k then - C i k * (1 / C k k) else C i j - C i k * (C k j * (1 / C k k)))) ->
  (forall i, (i < n)%nat -> v' i = if Nat.eqb i k then v k * (1 / C k k) else v i - C i k * (v k * (1 / C k k))) ->
  ((forall i, (i < n)%nat -> o i + sum n (fun j => C i j * u j) = v i) <->
   (forall i, (i < n)%nat -> set1 o k (u k) i + sum n (fun j => C' i j * set1 u k (o k) j) = v' i)).
Proof.
  intros Hk Hp HC Hv.
  set (T := fun i => sum n (fun j => if Nat.eqb j k then 0 else C i j * u j)).
  assert (E1 : forall i, sum n (fun j => C i j * u j) = C i k * u k + T i).
  { intros i. rewrite (sum_pick n k) by exact Hk. reflexivity. }
  assert (E2 : sum n (fun j => C' k j * set1 u k (o k) j) = 1 / C k k * o k + T k * (1 / C k k)).
  { rewrite (sum_pick n k) by exact Hk. rewrite set1_same, HC, !Nat.eqb_refl by exact Hk. f_equal.
    unfold T. rewrite <- sum_scal_r. apply sum_ext. intros j Hj.
    destruct (Nat.eqb_spec j k) as [-> | Hjk]; [ ring | ].
    rewrite set1_other, HC, Nat.eqb_refl by auto. apply Nat.eqb_neq in Hjk. rewrite Hjk. ring. }
  assert (E3 : forall i, (i < n)%nat -> i <> k ->
    sum n (fun j => C' i j * set1 u k (o k) j) = - C i k * (1 / C k k) * o k + T i - C i k * (1 / C k k) * T k).
  { intros i Hi Hik. rewrite (sum_pick n k) by exact Hk. rewrite set1_same, HC, Nat.eqb_refl by auto.
    apply Nat.eqb_neq in Hik. rewrite Hik. unfold Rminus at 1. rewrite Rplus_assoc. f_equal.
    unfold T. rewrite <- sum_scal.
    change (sum n (fun j => if Nat.eqb j k then 0 else C' i j * set1 u k (o k) j) =
      sum n (fun j => if Nat.eqb j k then 0 else C i j * u j) -
      sum n (fun j => C i k * (1 / C k k) * (if Nat.eqb j k then 0 else C k j * u j))).
    rewrite <- sum_minus. apply sum_ext. intros j Hj.
    destruct (Nat.eqb_spec j k) as [-> | Hjk]; [ ring | ].
    rewrite set1_other, HC, Hik by auto. apply Nat.eqb_neq in Hjk. rewrite Hjk. ring. }
  assert (Rk : (o k + (C k k * u k + T k) = v k) <-> (u k + (1 / C k k * o k + T k * (1 / C k k)) = v k * (1 / C k k))).
  { split; intros H.
    - rewrite <- H. field. exact Hp.
    - apply (f_equal (fun z => C k k * z)) in H.
      replace (C k k * (v k * (1 / C k k))) with (v k) in H by (field; exact Hp).
      rewrite <- H. field. exact Hp. }
  assert (Hvk : v' k = v k * (1 / C k k)) by (rewrite Hv, Nat.eqb_refl by exact Hk; reflexivity).
  split; intros H i Hi.
  - destruct (Nat.eq_dec i k) as [-> | Hik].
    + rewrite set1_same, E2, Hvk. apply Rk. rewrite <- E1. apply H. exact Hi.
    + rewrite set1_other, E3, Hv by auto. assert (Hik' := Hik). apply Nat.eqb_neq in Hik'. rewrite Hik'.
      assert (K := H k Hk). rewrite E1 in K. assert (I := H i Hi). rewrite E1 in I.
      rewrite <- I, <- K. field. exact Hp.
  - assert (K := H k Hk). rewrite set1_same, E2, Hvk in K. apply Rk in K.
    destruct (Nat.eq_dec i k) as [-> | Hik].
    + rewrite E1. exact K.
    + assert (I := H i Hi). rewrite set1_other, E3, Hv in I by auto.
      assert (Hik' := Hik). apply Nat.eqb_neq in Hik'. rewrite Hik' in I.
      rewrite E1. rewrite <- K in I.
      replace (v i) with (v i - C i k * ((o k + (C k k * u k + T k)) * (1 / C k k)) + C i k * ((o k + (C k k * u k + T k)) * (1 / C k k))) by ring.
      rewrite <- I. field. exact Hp.
Qed.

(** The row permutation that the first [k] exchanges make, and its inverse. *)
Fixpoint perm (ws : nat -> nat) (k i : nat) : nat :=
  match k with O => i | S k => perm ws k (tr k (ws k) i) end.
Fixpoint invp (ws : nat -> nat) (k i : nat) : nat :=
  match k with O => i | S k => tr k (ws k) (invp ws k i) end.
Lemma perm_invp ws k : forall i, perm ws k (invp ws k i) = i.
Proof. induction k; intros i; cbn; auto. now rewrite tr_tr. Qed.
Lemma invp_perm ws k : forall i, invp ws k (perm ws k i) = i.
Proof. induction k; intros i; cbn; auto. rewrite IHk. apply tr_tr. Qed.
Definition ws_ok (n k : nat) (ws : nat -> nat) := forall m, (m < k)%nat -> (m <= ws m < n)%nat.
Lemma perm_lt n ws k : (k <= n)%nat -> ws_ok n k ws -> forall i, (i < n)%nat -> (perm ws k i < n)%nat.
Proof.
  induction k; intros Hk H i Hi; cbn; auto. apply IHk; [ lia | intros m Hm; apply H; lia | ].
  apply tr_lt; auto. apply H. lia.
Qed.
Lemma invp_lt n ws k : (k <= n)%nat -> ws_ok n k ws -> forall i, (i < n)%nat -> (invp ws k i < n)%nat.
Proof.
  induction k; intros Hk H i Hi; cbn; auto. apply tr_lt; auto.
  - apply H. lia.
  - apply IHk; auto; [ lia | intros m Hm; apply H; lia ].
Qed.
Lemma perm_ext ws ws' k : (forall m, (m < k)%nat -> ws m = ws' m) -> forall i, perm ws k i = perm ws' k i.
Proof. induction k; intros H i; cbn; auto. rewrite H by lia. apply IHk. auto. Qed.
Lemma perm_inj ws k i j : perm ws k i = perm ws k j -> i = j.
Proof. intros H. rewrite <- (invp_perm ws k i), H. apply invp_perm. Qed.
Lemma perm_set ws k i x : perm (set1 ws k x) k i = perm ws k i.
Proof. apply perm_ext. intros m Hm. apply set1_other. lia. Qed.

Definition rows (ws : nat -> nat) (k : nat) : list nat := map (perm ws k) (seq 0 k).
Lemma rows_succ ws k : (k <= ws k)%nat -> rows ws (S k) = rows ws k ++ [perm ws k (ws k)].
Proof.
  intros H. unfold rows. rewrite seq_S, map_app. cbn. rewrite tr_l. f_equal.
  apply map_ext_in. intros i Hi. apply in_seq in Hi. rewrite tr_o; auto; lia.
Qed.
Lemma rows_ext ws ws' k : (forall m, (m < k)%nat -> ws m = ws' m) -> rows ws k = rows ws' k.
Proof. intros H. apply map_ext. intros i. now apply perm_ext. Qed.
Lemma in_rows ws k r : In r (rows ws k) <-> (invp ws k r < k)%nat.
Proof.
  unfold rows. rewrite in_map_iff. split.
  - intros [i [<- Hi]]. apply in_seq in Hi. rewrite invp_perm. lia.
  - intros H. exists (invp ws k r). rewrite perm_invp. split; auto. apply in_seq. lia.
Qed.
Lemma rows_nth ws k i : (i < k)%nat -> nth i (rows ws k) O = perm ws k i.
Proof.
  intros H. unfold rows. rewrite (nth_indep _ O (perm ws k O)) by (rewrite map_length, seq_length; lia).
  rewrite map_nth, seq_nth by lia. reflexivity.
Qed.
Lemma rows_length ws k : length (rows ws k) = k.
Proof. unfold rows. now rewrite map_length, seq_length. Qed.

(** The arrays of unknowns (x) and right-hand sides (y) after [k] exchanges. *)
Definition out (k : nat) (x y : nat -> R) (i : nat) : R := if Nat.ltb i k then x i else - y i.
Definition inp (k : nat) (x y : nat -> R) (j : nat) : R := if Nat.ltb j k then - y j else x j.
Lemma out_succ k x y i : set1 (out k x y) k (inp k x y k) i = out (S k) x y i.
Proof.
  unfold set1, out, inp. destruct (Nat.eqb_spec i k) as [-> | ].
  - rewrite Nat.ltb_irrefl. now replace (Nat.ltb k (S k)) with true by (symmetry; apply Nat.ltb_lt; lia).
  - destruct (Nat.ltb_spec i k), (Nat.ltb_spec i (S k)); auto; lia.
Qed.
Lemma inp_succ k x y j : set1 (inp k x y) k (out k x y k) j = inp (S k) x y j.
Proof.
  unfold set1, out, inp. destruct (Nat.eqb_spec j k) as [-> | ].
  - rewrite Nat.ltb_irrefl. now replace (Nat.ltb k (S k)) with true by (symmetry; apply Nat.ltb_lt; lia).
  - destruct (Nat.ltb_spec j k), (Nat.ltb_spec j (S k)); auto; lia.
Qed.

Section Dmat.
Context (n : nat) (A : nat -> nat -> R) (b : nat -> R).

(** The system with the rows permuted by [p], right-hand side offset by [y]. *)
Definition system (p : nat -> nat) (x y : nat -> R) : Prop :=
  forall i, (i < n)%nat -> y i = sum n (fun j => A (p i) j * x j) - b (p i).
Definition tableau (k : nat) (C : nat -> nat -> R) (v : nat -> R) (x y : nat -> R) : Prop :=
  forall i, (i < n)%nat -> out k x y i + sum n (fun j => C i j * inp k x y j) = v i.
(** Determinants made of the first [k] rows and any others. *)
Definition bordered (p : nat -> nat) (k t : nat) (rho : nat -> nat) : R :=
  det (k + t) (fun i j => A (p (if Nat.ltb i k then i else rho (i - k)%nat)) j).

Record good (k : nat) (p : nat -> nat) (C : nat -> nat -> R) (v : nat -> R) (d pi : R) : Prop := Good {
  g_lt : forall i, (i < n)%nat -> (p i < n)%nat;
  g_sys : forall x y, system p x y <-> tableau k C v x y;
  g_det : d * det n (fun i j => A (p i) j) = pi * det n A;
  g_abs : Rabs d = Rabs pi;
  g_pi : pi <> 0;
  g_border : forall t rho, (k + t <= n)%nat -> (forall i, (i < t)%nat -> (k <= rho i < n)%nat) ->
    bordered p k t rho = pi * det t (fun i j => C (rho i) (k + j)%nat) }.

Lemma good_start : good 0 (fun i => i) A b 1 1.
Proof.
  split; auto; try lra.
  - intros x y. unfold system, tableau, out, inp.
    assert (E : forall i, sum n (fun j => A i j * (if Nat.ltb j 0 then - y j else x j)) = sum n (fun j => A i j * x j)).
    { intros i. apply sum_ext. reflexivity. }
    split; intros H i Hi; specialize (H i Hi); change (Nat.ltb i 0) with false in *; cbv iota in *;
      rewrite E in *; lra.
  - intros t rho _ _. unfold bordered. rewrite Rmult_1_l. cbn [plus]. apply det_ext.
    intros i j _ _. change (Nat.ltb i 0) with false. cbv iota. now rewrite Nat.sub_0_r.
Qed.

Lemma good_swap k q p C v d pi : (k <= q < n)%nat -> good k p C v d pi ->
  good k (fun i => p (tr k q i)) (fun i j => C (tr k q i) j) (fun i => v (tr k q i))
    (if Nat.eqb q k then d else - d) pi.
Proof.
  intros Hq [G1 G2 G3 G4 G5 G6]. split.
  - intros i Hi. apply G1. apply tr_lt; lia.
  - intros x y. assert (S1 : system (fun i => p (tr k q i)) x y <-> system p x (fun i => y (tr k q i))).
    { unfold system. split; intros H i Hi.
      - rewrite (H (tr k q i)) by (apply tr_lt; lia). now rewrite tr_tr.
      - rewrite <- (H (tr k q i)) by (apply tr_lt; lia). now rewrite tr_tr. }
    rewrite S1, G2. unfold tableau.
    assert (I : forall j, inp k x (fun i => y (tr k q i)) j = inp k x y j).
    { intros j. unfold inp. destruct (Nat.ltb_spec j k); auto. rewrite tr_o; auto; lia. }
    assert (O : forall i, out k x (fun i => y (tr k q i)) (tr k q i) = out k x y i).
    { intros i. unfold out. rewrite tr_tr.
      destruct (Nat.eq_dec i k) as [-> | ].
      { rewrite tr_l. destruct (Nat.ltb_spec q k), (Nat.ltb_spec k k); auto; lia. }
      destruct (Nat.eq_dec i q) as [-> | ].
      { rewrite tr_r. destruct (Nat.ltb_spec q k), (Nat.ltb_spec k k); auto; lia. }
      rewrite tr_o by auto. reflexivity. }
    split; intros H i Hi.
    + rewrite <- (H (tr k q i)) by (apply tr_lt; lia). rewrite O. f_equal.
      apply sum_ext. intros j _. now rewrite I.
    + assert (E := H (tr k q i) ltac:(apply tr_lt; lia)). rewrite tr_tr in E. rewrite <- E.
      rewrite <- (O (tr k q i)), tr_tr. f_equal. apply sum_ext. intros j _. now rewrite I.
  - destruct (Nat.eqb_spec q k) as [-> | Hqk].
    + rewrite <- G3. f_equal. apply det_ext. intros i j _ _. now rewrite tr_id.
    + rewrite (det_swap n (fun i j => A (p i) j) k q) by lia. rewrite <- G3. ring.
  - destruct (Nat.eqb q k); [ exact G4 | ]. now rewrite Rabs_Ropp.
  - exact G5.
  - intros t rho Ht Hr.
    assert (E : bordered (fun i => p (tr k q i)) k t rho = bordered p k t (fun i => tr k q (rho i))).
    { unfold bordered. apply det_ext. intros i j Hi _. f_equal.
      destruct (Nat.ltb_spec i k); auto. rewrite tr_o; auto; lia. }
    rewrite E, G6; auto. intros i Hi. specialize (Hr i Hi). unfold tr.
    destruct (Nat.eqb (rho i) k), (Nat.eqb (rho i) q); lia.
Qed.

Lemma good_pivot k p C C' v v' d pi : (k < n)%nat -> C k k <> 0 ->
  (forall i j, (i < n)%nat -> (j < n)%nat ->
    C' i j = (if Nat.eqb i k then (if Nat.eqb j k then 1 / C k k else C k j * (1 / C k k))
     else if Nat.eqb j k then - C i k * (1 / C k k) else C i j - C i k * (C k j * (1 / C k k)))) ->
  (forall i, (i < n)%nat -> v' i = if Nat.eqb i k then v k * (1 / C k k) else v i - C i k * (v k * (1 / C k k))) ->
  good k p C v d pi -> good (S k) p C' v' (d * C k k) (pi * C k k).
Proof.
  intros Hk Hp HC Hv [G1 G2 G3 G4 G5 G6]. split.
  - exact G1.
  - intros x y. rewrite G2. unfold tableau.
    rewrite (exchange n k C C' v v' (out k x y) (inp k x y) Hk Hp HC Hv).
    split; intros H i Hi.
    + rewrite <- (H i Hi), <- out_succ. f_equal. apply sum_ext. intros j _. now rewrite <- inp_succ.
    + rewrite <- (H i Hi), <- out_succ. f_equal. apply sum_ext. intros j _. now rewrite <- inp_succ.
  - rewrite Rmult_assoc, (Rmult_comm (C k k)), <- Rmult_assoc, G3. ring.
  - rewrite !Rabs_mult, G4. reflexivity.
  - now apply Rmult_integral_contrapositive.
  - intros t rho Ht Hr.
    set (rho1 := fun i => match i with O => k | S i => rho i end).
    assert (E : bordered p (S k) t rho = bordered p k (S t) rho1).
    { unfold bordered. replace (k + S t)%nat with (S k + t)%nat by lia. apply det_ext.
      intros i j Hi _. f_equal. f_equal. unfold rho1.
      destruct (Nat.ltb_spec i k), (Nat.ltb_spec i (S k)); try lia; auto.
      - replace (i - k)%nat with O by lia. lia.
      - replace (i - k)%nat with (S (i - S k)) by lia. reflexivity. }
    rewrite E, G6.
    + rewrite det_schur; unfold rho1; [ | rewrite Nat.add_0_r; exact Hp ].
      rewrite Nat.add_0_r, <- Rmult_assoc. f_equal. apply det_ext. intros i j Hi Hj.
      specialize (Hr i Hi).
      rewrite HC by lia. replace (Nat.eqb (rho i) k) with false by (symmetry; apply Nat.eqb_neq; lia).
      replace (Nat.eqb (S k + j) k) with false by (symmetry; apply Nat.eqb_neq; lia).
      replace (k + S j)%nat with (S k + j)%nat by lia. field. exact Hp.
    + lia.
    + intros i Hi. unfold rho1. destruct i; [ lia | ]. specialize (Hr i ltac:(lia)). lia.
Qed.

(** What the bordered determinants say about [lead]. *)
Lemma good_lead k ws C v d pi : (k <= n)%nat -> good k (perm ws k) C v d pi -> lead (rows ws k) A = pi.
Proof.
  intros Hk G. assert (E := g_border _ _ _ _ _ _ G O (fun i => i) ltac:(lia) ltac:(intros; lia)).
  cbn [det] in E. rewrite Rmult_1_r in E. rewrite <- E. unfold lead, bordered, rows_of.
  rewrite rows_length, Nat.add_0_r. apply det_ext. intros i j Hi _.
  rewrite rows_nth by exact Hi. apply Nat.ltb_lt in Hi. now rewrite Hi.
Qed.
Lemma good_lead1 k ws C v d pi r : good k (perm ws k) C v d pi -> (k <= r < n)%nat ->
  lead (rows ws k ++ [perm ws k r]) A = pi * C r k.
Proof.
  intros G Hr. assert (E := g_border _ _ _ _ _ _ G 1%nat (fun i => r) ltac:(lia) ltac:(intros; lia)).
  transitivity (pi * det 1 (fun i j => C r (k + j)%nat)).
  - rewrite <- E. unfold lead, bordered, rows_of. rewrite app_length, rows_length. cbn [length].
    apply det_ext. intros i j Hi _. f_equal. destruct (Nat.ltb_spec i k).
    + rewrite app_nth1 by (rewrite rows_length; lia). now apply rows_nth.
    + rewrite app_nth2 by (rewrite rows_length; lia). rewrite rows_length.
      replace (i - k)%nat with O by lia. reflexivity.
  - f_equal. cbn. rewrite Nat.add_0_r. ring.
Qed.
(** Every row not yet used is [perm ws k r] for some r >= k. *)
Lemma unused ws k r : (k <= n)%nat -> ws_ok n k ws -> (r < n)%nat -> ~ In r (rows ws k) ->
  exists q, (k <= q < n)%nat /\ r = perm ws k q.
Proof.
  intros Hk Hw Hr H. rewrite in_rows in H. exists (invp ws k r). rewrite perm_invp. split; auto.
  assert (L := invp_lt n ws k Hk Hw r Hr). lia.
Qed.

Definition eps : R := epsilon (N := RNum).
Lemma eps_val : eps = / 10 ^ 20.
Proof.
  unfold eps, epsilon. unR. change (Rdec 1 (-20)) with (1 / IZR (10 ^ 20)).
  change (10 ^ 20)%Z with (Z.pow 10 (Z.of_nat 20)). rewrite <- (pow_IZR 10 20). unfold Rdiv. apply Rmult_1_l.
Qed.
Lemma eps_pos : 0 < eps.
Proof. rewrite eps_val. apply Rinv_0_lt_compat, pow_lt. lra. Qed.
Definition fails : Prop := nearly_singular n A eps.
Definition fine (k : nat) (s : dmat_st (N := RNum)) : Prop :=
  ws_ok n k (d_ws s) /\ greedy n A (rows (d_ws s) k) /\
  (k <> O -> eps <= Rabs (d_det s)) /\
  exists pi, good k (perm (d_ws s) k) (d_mat s) (d_vec s) (d_det s) pi.

Lemma dmat_step_singular k s : d_singular s = true -> d_singular (dmat_step (N := RNum) n k s) = true.
Proof.
  destruct s as [a v d ws sg]. cbn [d_singular]. intros ->. unfold dmat_step.
  destruct (dmat_pivot n k a) as [amx imx]. destruct (n_ltb amx epsilon); [ reflexivity | ].
  destruct (if negb (Nat.eqb imx k) then _ else _) as [[a' v'] d']. cbv zeta.
  destruct (n_ltb _ epsilon); [ reflexivity | ]. destruct (dmat_eliminate n k a' v'). reflexivity.
Qed.

Lemma dmat_step_spec k s : (k < n)%nat -> d_singular s = false -> fine k s ->
  (d_singular (dmat_step (N := RNum) n k s) = false -> fine (S k) (dmat_step (N := RNum) n k s)) /\
  (d_singular (dmat_step (N := RNum) n k s) = true -> fails).
Proof.
  intros Hk. destruct s as [a v d ws sg]. unfold fine. cbn [d_singular d_mat d_vec d_det d_ws].
  intros -> [Hw [Hg [Hd [pi G]]]].
  unfold dmat_step. destruct (pivot_spec n k a Hk) as [imx [-> [Hx Hmax]]].
  assert (HP := g_pi _ _ _ _ _ _ G). assert (HA := g_abs _ _ _ _ _ _ G).
  assert (HL : lead (rows ws k) A = pi) by (apply (good_lead k ws a v d); auto; lia).
  assert (Hlen := rows_length ws k).
  change (@n_ltb RNum (Rabs (a imx k)) epsilon) with (Rltb (Rabs (a imx k)) eps).
  destruct (Rltb_spec (Rabs (a imx k)) eps) as [L | L].
  { cbn [d_singular]. split; [ discriminate | ]. intros _.
    exists (rows ws k). rewrite Hlen, HL. repeat split; auto. left. intros r Hr Hn.
    destruct (unused ws k r ltac:(lia) Hw Hr Hn) as [q [Hq ->]].
    rewrite (good_lead1 k ws a v d pi q G Hq), Rabs_mult, Rmult_comm.
    apply Rmult_lt_compat_r; [ now apply Rabs_pos_lt | ]. assert (Q := Hmax q Hq). lra. }
  (* the exchange *)
  set (tri := if negb (Nat.eqb imx k) then _ else _).
  assert (T : snd tri = (if Nat.eqb imx k then d else - d) /\
              (forall i j, (j < n)%nat -> fst (fst tri) i j = a (tr k imx i) j) /\
              (forall i, snd (fst tri) i = v (tr k imx i))).
  { unfold tri. destruct (Nat.eqb_spec imx k) as [-> | Hne]; cbn [negb fst snd].
    - split; [ reflexivity | ]. split; intros; now rewrite tr_id.
    - split; [ reflexivity | ]. split; intros.
      + now apply row_swap_spec.
      + apply vec_swap_spec. }
  clearbody tri. destruct tri as [[a1 v1] d1]. cbn [fst snd] in T. destruct T as [Ed [Ta Tv]]. cbv zeta.
  assert (G1 : good k (fun i => perm ws k (tr k imx i)) a1 v1 d1 pi).
  { rewrite Ed. destruct (good_swap k imx _ _ _ _ _ Hx G) as [Q1 Q2 Q3 Q4 Q5 Q6]. split; auto.
    - intros x y. rewrite Q2. unfold tableau. split; intros H i Hi.
      + rewrite Tv, <- H by exact Hi. f_equal. apply sum_ext. intros j Hj. now rewrite Ta.
      + rewrite <- Tv, <- H by exact Hi. f_equal. apply sum_ext. intros j Hj. now rewrite Ta.
    - intros t rho Ht Hr. rewrite Q6 by auto. f_equal. apply det_ext. intros i j Hi Hj. rewrite Ta; auto; lia. }
  clear Ed.
  assert (HA1 := g_abs _ _ _ _ _ _ G1).
  assert (Ea : a1 k k = a imx k) by (rewrite Ta, tr_l by exact Hk; reflexivity).
  assert (HM : forall r, (r < n)%nat -> ~ In r (rows ws k) ->
    Rabs (lead (rows ws k ++ [r]) A) <= Rabs (lead (rows ws k ++ [perm ws k imx]) A)).
  { intros r Hr Hn. destruct (unused ws k r ltac:(lia) Hw Hr Hn) as [q [Hq ->]].
    rewrite (good_lead1 k ws a v d pi q G Hq), (good_lead1 k ws a v d pi imx G Hx), !Rabs_mult.
    apply Rmult_le_compat_l; [ apply Rabs_pos | ]. now apply Hmax. }
  change (@n_ltb RNum (@n_abs RNum (@n_mul RNum d1 (a1 k k))) epsilon) with (Rltb (Rabs (d1 * a1 k k)) eps).
  destruct (Rltb_spec (Rabs (d1 * a1 k k)) eps) as [L2 | L2].
  { cbn [d_singular]. split; [ discriminate | ]. intros _.
    exists (rows ws k). rewrite Hlen, HL. repeat split; auto. right. intros r Hr Hn.
    eapply Rle_lt_trans; [ apply HM; auto | ].
    rewrite (good_lead1 k ws a v d pi imx G Hx), Rabs_mult, <- Ea, <- HA1, <- Rabs_mult. exact L2. }
  assert (Hnz : a1 k k <> 0).
  { rewrite Ea. intros E. rewrite E, Rabs_R0 in L. assert (0 < eps); [ | lra ].
    exact eps_pos. }
  assert (ES := eliminate_spec (N := RNum) n k a1 v1 Hk). cbv zeta in ES.
  destruct (dmat_eliminate n k a1 v1) as [a2 v2] eqn:EE. cbn [fst snd] in ES.
  cbn [d_singular d_mat d_vec d_det d_ws]. split; [ intros _ | discriminate ].
  assert (Hwk : set1 ws k imx k = imx) by apply set1_same.
  assert (HR : rows (set1 ws k imx) (S k) = rows ws k ++ [perm ws k imx]).
  { rewrite rows_succ by (rewrite Hwk; lia). rewrite Hwk, perm_set. f_equal.
    apply rows_ext. intros m Hm. apply set1_other. lia. }
  split; [ | split; [ | split ] ].
  - intros m Hm. destruct (Nat.eq_dec m k) as [-> | ]; [ rewrite Hwk; lia | ].
    rewrite set1_other by auto. apply Hw. lia.
  - rewrite HR. apply greedy_snoc; auto.
    + apply (perm_lt n ws k); auto; lia.
    + rewrite in_rows, invp_perm. lia.
  - intros _. apply Rnot_lt_le. exact L2.
  - exists (pi * a1 k k).
    assert (G2 := good_pivot k _ a1 a2 v1 v2 d1 pi Hk Hnz
      (fun i j Hi Hj => proj1 (ES i j Hi Hj)) (fun i Hi => proj2 (ES i k Hi Hk)) G1).
    destruct G2 as [Q1 Q2 Q3 Q4 Q5 Q6].
    assert (PE : forall i, perm (set1 ws k imx) (S k) i = perm ws k (tr k imx i)).
    { intros i. cbn [perm]. rewrite Hwk. apply perm_set. }
    split; auto.
    + intros i Hi. rewrite PE. auto.
    + intros x y. rewrite <- Q2. unfold system. split; intros H i Hi; specialize (H i Hi); rewrite PE in *; exact H.
    + erewrite (det_ext n (fun i j => A (perm _ _ i) j)); [ exact Q3 | ]. intros i j _ _. cbv beta. now rewrite PE.
    + intros t rho Ht Hr. rewrite <- Q6 by auto. unfold bordered. apply det_ext. intros i j _ _. now rewrite PE.
Qed.

(** The loop. *)
Lemma dmat_loop (ws : nat -> nat) :
  let s := for_ 0 n (dmat_step (N := RNum) n) (DmatSt (N := RNum) A b (IZR 1) ws false) in
  (d_singular s = true -> fails) /\ (d_singular s = false -> fine n s).
Proof.
  cbv zeta.
  apply (for_inv _ (fun k s => (d_singular s = true -> fails) /\ (d_singular s = false -> fine k s))).
  - lia.
  - split; [ discriminate | ]. intros _. unfold fine. cbn [d_ws d_mat d_vec d_det]. split; [ | split; [ | split ] ].
    + intros m Hm. lia.
    + apply greedy_nil.
    + congruence.
    + exists 1. exact good_start.
  - intros k s Hk [IH1 IH2]. destruct (d_singular s) eqn:E.
    + split; [ auto | ]. rewrite dmat_step_singular by exact E. discriminate.
    + destruct (dmat_step_spec k s ltac:(lia) E (IH2 eq_refl)) as [Q1 Q2]. split; auto.
Qed.

(** dmat.cc:130-140: the columns end up where the inverse of [A] has them. *)
Lemma unscramble_spec ws (C : nat -> nat -> R) i j : (i < n)%nat ->
  dmat_unscramble (N := RNum) n ws C i j = C i (invp ws n j).
Proof.
  intros Hi. unfold dmat_unscramble.
  assert (H : forall j, for_ 0 n (fun k (a : mx RNum) =>
      let np1mk := (n - 1 - k)%nat in let ki := ws np1mk in
      if negb (Nat.eqb np1mk ki) then col_swap n np1mk ki a else a) C i (invp ws (n - n) j) = C i (invp ws n j)).
  { apply (for_inv _ (fun k (a : mx RNum) => forall j, a i (invp ws (n - k) j) = C i (invp ws n j))).
    - lia.
    - intros j'. now rewrite Nat.sub_0_r.
    - intros k a Hk IH j'. rewrite <- IH. cbv zeta. replace (n - 1 - k)%nat with (n - S k)%nat by lia.
      replace (n - k)%nat with (S (n - S k)) by lia. cbn [invp].
      destruct (Nat.eqb_spec (n - S k) (ws (n - S k)%nat)) as [E | E]; cbn [negb].
      + rewrite <- E, tr_id. reflexivity.
      + now rewrite col_swap_spec. }
  specialize (H j). rewrite Nat.sub_diag in H. exact H.
Qed.

Lemma sum_tr p q f : (p < n)%nat -> (q < n)%nat -> sum n (fun i => f (tr p q i)) = sum n f.
Proof.
  intros Hp Hq. destruct (Nat.eq_dec p q) as [<- | Hpq].
  { apply sum_ext. intros i _. now rewrite tr_id. }
  rewrite (sum_pick n p f), (sum_pick n p (fun i => f (tr p q i))) by auto.
  rewrite (sum_pick n q (fun i => if Nat.eqb i p then 0 else f i)) by auto.
  rewrite (sum_pick n q (fun i => if Nat.eqb i p then 0 else f (tr p q i))) by auto.
  rewrite tr_l, tr_r. apply Nat.neq_sym, Nat.eqb_neq in Hpq. rewrite Hpq.
  rewrite (sum_ext n (fun i => if Nat.eqb i q then 0 else if Nat.eqb i p then 0 else f (tr p q i))
                     (fun i => if Nat.eqb i q then 0 else if Nat.eqb i p then 0 else f i)).
  { ring. }
  intros i _. destruct (Nat.eqb_spec i q), (Nat.eqb_spec i p); auto. now rewrite tr_o.
Qed.
Lemma sum_perm ws f : forall k, (k <= n)%nat -> ws_ok n k ws -> sum n (fun i => f (perm ws k i)) = sum n f.
Proof.
  induction k; intros Hk Hw; [ reflexivity | ]. cbn [perm].
  rewrite (sum_tr k (ws k) (fun i => f (perm ws k i))); [ | lia | apply Hw; lia ].
  apply IHk; [ lia | ]. intros m Hm. apply Hw. lia.
Qed.

Lemma dmat_correct ws B x d : dmat (N := RNum) n A b ws = (false, B, x, d) ->
  inverse n A B /\ (forall i, (i < n)%nat -> mulv n A x i = b i) /\ d = det n A /\ (n <> O -> eps <= Rabs d).
Proof.
  unfold dmat. set (s := for_ 0 n _ _). destruct (dmat_loop ws) as [_ HF].
  change (d_singular s = false -> fine n s) in HF.
  destruct (d_singular s) eqn:ES; [ discriminate | ]. specialize (HF eq_refl).
  destruct HF as [Hw [_ [Hd [pi G]]]].
  intros E. apply (f_equal (fun t => (snd (fst (fst t)), snd (fst t), snd t))) in E. cbn [fst snd] in E.
  assert (EB : dmat_unscramble n (d_ws s) (d_mat s) = B) by exact (f_equal (fun t => fst (fst t)) E).
  assert (Ex : d_vec s = x) by exact (f_equal (fun t => snd (fst t)) E).
  assert (Ed : d_det s = d) by exact (f_equal snd E). clear E.
  set (ws' := d_ws s) in *. set (C := d_mat s) in *.
  assert (HB : forall i j, (i < n)%nat -> B i j = C i (invp ws' n j)).
  { intros i j Hi. rewrite <- EB. now apply unscramble_spec. }
  rewrite Ex, Ed in G. rewrite Ed in Hd. clear EB. clearbody C ws'.
  assert (S1 := g_sys _ _ _ _ _ _ G).
  assert (TN : forall x0 y, tableau n C x x0 y <-> (forall i, (i < n)%nat -> x0 i - sum n (fun j => C i j * y j) = x i)).
  { intros x0 y. unfold tableau.
    assert (TE : forall i, (i < n)%nat -> out n x0 y i + sum n (fun j => C i j * inp n x0 y j) = x0 i - sum n (fun j => C i j * y j)).
    { intros i Hi. unfold out. apply Nat.ltb_lt in Hi. rewrite Hi. unfold Rminus. f_equal.
      rewrite <- sum_opp. apply sum_ext. intros j Hj. unfold inp. apply Nat.ltb_lt in Hj. rewrite Hj. ring. }
    split; intros H i Hi; specialize (H i Hi); rewrite TE in * by exact Hi; exact H. }
  assert (PL : forall i, (i < n)%nat -> (perm ws' n i < n)%nat) by (apply perm_lt; auto).
  assert (IL : forall i, (i < n)%nat -> (invp ws' n i < n)%nat) by (apply invp_lt; auto).
  (* the solution *)
  assert (SOL : forall i, (i < n)%nat -> mulv n A x i = b i).
  { intros i Hi.
    assert (Q : system (perm ws' n) x (fun _ => 0)).
    { apply S1, TN. intros k Hk. rewrite sum_0; [ ring | intros; ring ]. }
    specialize (Q (invp ws' n i) (IL i Hi)). rewrite perm_invp in Q. unfold mulv. lra. }
  split; [ | split; [ exact SOL | split ] ].
  - intros i c Hi Hc. split; unfold mulm.
    + assert (Q : system (perm ws' n) (fun k => x k + C k (invp ws' n c)) (fun k => delta k (invp ws' n c))).
      { apply S1, TN. intros k Hk. rewrite sum_delta_r by auto. ring. }
      specialize (Q (invp ws' n i) (IL i Hi)). rewrite perm_invp in Q. cbv beta in Q.
      assert (D : delta (invp ws' n i) (invp ws' n c) = delta i c).
      { unfold delta. destruct (Nat.eqb_spec i c) as [-> | Hne]; [ now rewrite Nat.eqb_refl | ].
        replace (Nat.eqb _ _) with false; auto. symmetry. apply Nat.eqb_neq. intros E. apply Hne.
        rewrite <- (perm_invp ws' n i), E. apply perm_invp. }
      rewrite <- D, Q. specialize (SOL i Hi). unfold mulv in SOL. rewrite <- SOL, <- sum_minus.
      apply sum_ext. intros j Hj. rewrite HB by exact Hj. ring.
    + assert (Q : tableau n C x (fun k => x k + delta k c) (fun k => A (perm ws' n k) c)).
      { apply S1. intros k Hk. specialize (SOL (perm ws' n k) (PL k Hk)). unfold mulv in SOL.
        rewrite <- SOL, <- sum_minus.
        rewrite <- (sum_delta_r n c (fun j => A (perm ws' n k) j)) by exact Hc.
        apply sum_ext. intros j _. ring. }
      rewrite TN in Q. specialize (Q i Hi).
      transitivity (sum n (fun j => C i j * A (perm ws' n j) c)).
      * rewrite <- (sum_perm ws' (fun k => B i k * A k c) n) by auto.
        apply sum_ext. intros j _. rewrite HB by exact Hi. now rewrite invp_perm.
      * lra.
  - assert (PD : det n (fun i j => A (perm ws' n i) j) = pi).
    { assert (E := g_border _ _ _ _ _ _ G O (fun i => i) ltac:(lia) ltac:(intros; lia)).
      cbn [det] in E. rewrite Rmult_1_r, <- (Nat.add_0_r n) in E.
      transitivity (bordered (perm ws' n) n 0 (fun i => i)).
      - unfold bordered. rewrite Nat.add_0_r. apply det_ext. intros i j Hi _.
        apply Nat.ltb_lt in Hi. now rewrite Hi.
      - rewrite <- (Nat.add_0_r n). exact E. }
    assert (E := g_det _ _ _ _ _ _ G). rewrite PD, Rmult_comm in E.
    apply Rmult_eq_reg_l with pi; [ exact E | exact (g_pi _ _ _ _ _ _ G) ].
  - exact Hd.
Qed.

Lemma dmat_reported ws B x d : dmat (N := RNum) n A b ws = (true, B, x, d) -> nearly_singular n A eps /\ d = 0.
Proof.
  unfold dmat. set (s := for_ 0 n _ _). destruct (dmat_loop ws) as [HT _].
  change (d_singular s = true -> fails) in HT.
  destruct (d_singular s); [ | discriminate ]. intros E. split; [ now apply HT | ].
  symmetry. exact (f_equal snd E).
Qed.

End Dmat.
