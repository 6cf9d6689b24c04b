(** The reduction of [svd] to bidiagonal form. *)
From Coq Require Import ZArith Reals Arith List Lia Lra Bool.
From Verif Require Import Num NumR M_Lin S_Lin L_Sum M_Svd S_Svd L_SvdA.
Import ListNotations.
Open Scope R_scope.

(** Replace the interface operations at [RWith _] by the real ones. *)
Ltac unW :=
  cbv beta iota delta [RWith mx vx car n_lit n_pi n_2pi n_ofZ n_opp n_abs n_sqrt n_add n_sub n_mul n_div n_ltb n_leb n_eqb
    f_sign n_min n_max].
Ltac unW_in H :=
  cbv beta iota delta [RWith mx vx car n_lit n_pi n_2pi n_ofZ n_opp n_abs n_sqrt n_add n_sub n_mul n_div n_ltb n_leb n_eqb
    f_sign n_min n_max] in H.

Section Bid.
Context (eqb : R -> R -> bool) (eqb0 : forall x, eqb x 0 = true <-> x = 0).
Notation N := (RWith eqb).

Lemma eqb0_false x : eqb x 0 = false <-> x <> 0.
Proof. destruct (eqb x 0) eqn:E; [ apply eqb0 in E | ]; split; intros; try congruence; lra || auto. intros E'. apply eqb0 in E'. congruence. Qed.

Lemma dotp_from lo hi x y : (lo <= hi)%nat -> dotp (N := N) lo hi x y = sum hi (from lo (fun k => x k * y k)).
Proof. intros H. unfold dotp. unW. rewrite for_from by exact H. ring. Qed.

Lemma if_last T i n (f : nat -> T -> T) a : (i < n)%nat ->
  (if negb (i =? n - 1)%nat then for_ (S i) n f a else a) = for_ (S i) n f a.
Proof.
  intros H. destruct (Nat.eqb_spec i (n - 1)); cbn [negb]; [ | reflexivity ]. rewrite for_empty by lia. reflexivity.
Qed.

(** Scaling a column, or a row, and summing the squares. *)
Lemma scale_col i m scale (a : nat -> nat -> R) : (i <= m)%nat ->
  exists a1, for_ i m (fun k st => let '(a, s) := st in
      (set2 a k i (a k i / scale), s + a k i / scale * (a k i / scale))) (a, 0) =
    (a1, sum m (from i (fun k => a k i / scale * (a k i / scale)))) /\
  forall r c, a1 r c = if ((c =? i) && (i <=? r) && (r <? m))%nat%bool then a r c / scale else a r c.
Proof.
  intros H.
  pose (I := fun k (st : (nat -> nat -> R) * R) =>
    snd st = sum k (from i (fun k => a k i / scale * (a k i / scale))) /\
    forall r c, fst st r c = if ((c =? i) && (i <=? r) && (r <? k))%nat%bool then a r c / scale else a r c).
  assert (P : I m (for_ i m (fun k (st : (nat -> nat -> R) * R) => let '(a, s) := st in
      (set2 a k i (a k i / scale), s + a k i / scale * (a k i / scale))) (a, 0))).
  { apply for_inv; [ exact H | | ].
    - split.
      + cbn. symmetry. apply sum_0. intros k Hk. now apply from_out.
      + intros r c. cbn [fst]. destruct (Nat.leb_spec i r), (Nat.ltb_spec r i); try lia; rewrite ?andb_false_r; reflexivity.
    - intros k [b s] Hk [I1 I2]. cbn [fst snd] in I1, I2. split.
      + cbn [snd sum]. rewrite I1, from_in by lia. rewrite I2.
        destruct (Nat.ltb_spec k k); [ lia | ]. rewrite !andb_false_r. reflexivity.
      + intros r c. cbn [fst]. unfold set2. rewrite !I2.
        destruct (Nat.eqb_spec r k) as [-> | ].
        * destruct (Nat.eqb_spec c i) as [-> | ]; cbn [andb]; [ | reflexivity ].
          destruct (Nat.leb_spec i k), (Nat.ltb_spec k k), (Nat.ltb_spec k (S k)); try lia. rewrite ?andb_false_r. reflexivity.
        * cbn [andb]. destruct (Nat.ltb_spec r k), (Nat.ltb_spec r (S k)); try lia; reflexivity. }
  destruct (for_ _ _ _ _) as [a1 s]. destruct P as [P1 P2]. cbn [fst snd] in P1, P2. exists a1. split; [ now rewrite P1 | exact P2 ].
Qed.
Lemma scale_row i l n scale (a : nat -> nat -> R) : (l <= n)%nat ->
  exists a1, for_ l n (fun k st => let '(a, s) := st in
      (set2 a i k (a i k / scale), s + a i k / scale * (a i k / scale))) (a, 0) =
    (a1, sum n (from l (fun k => a i k / scale * (a i k / scale)))) /\
  forall r c, a1 r c = if ((r =? i) && (l <=? c) && (c <? n))%nat%bool then a r c / scale else a r c.
Proof.
  intros H.
  pose (I := fun k (st : (nat -> nat -> R) * R) =>
    snd st = sum k (from l (fun k => a i k / scale * (a i k / scale))) /\
    forall r c, fst st r c = if ((r =? i) && (l <=? c) && (c <? k))%nat%bool then a r c / scale else a r c).
  assert (P : I n (for_ l n (fun k (st : (nat -> nat -> R) * R) => let '(a, s) := st in
      (set2 a i k (a i k / scale), s + a i k / scale * (a i k / scale))) (a, 0))).
  { apply for_inv; [ exact H | | ].
    - split.
      + cbn. symmetry. apply sum_0. intros k Hk. now apply from_out.
      + intros r c. cbn [fst]. destruct (Nat.leb_spec l c), (Nat.ltb_spec c l); try lia; rewrite ?andb_false_r; reflexivity.
    - intros k [b s] Hk [I1 I2]. cbn [fst snd] in I1, I2. split.
      + cbn [snd sum]. rewrite I1, from_in by lia. rewrite I2.
        destruct (Nat.ltb_spec k k); [ lia | ]. rewrite !andb_false_r. reflexivity.
      + intros r c. cbn [fst]. unfold set2. rewrite !I2.
        destruct (Nat.eqb_spec c k) as [-> | ].
        * destruct (Nat.eqb_spec r i) as [-> | ]; cbn [andb]; [ | reflexivity ].
          destruct (Nat.leb_spec l k), (Nat.ltb_spec k k), (Nat.ltb_spec k (S k)); try lia. rewrite ?andb_false_r. reflexivity.
        * rewrite andb_false_r. destruct (Nat.ltb_spec c k), (Nat.ltb_spec c (S k)); try lia; reflexivity. }
  destruct (for_ _ _ _ _) as [a1 s]. destruct P as [P1 P2]. cbn [fst snd] in P1, P2. exists a1. split; [ now rewrite P1 | exact P2 ].
Qed.

Definition coef (p w : R) : R := if eqb w 0 then 0 else / (p * w).

Lemma sign_g s f : 0 <= s ->
  let g := - (if Rleb 0 f then Rabs (sqrt s) else - Rabs (sqrt s)) in g * g = s /\ f * g <= 0.
Proof.
  intros H g. assert (Q := sqrt_pos s). assert (E := sqrt_sqrt s H). subst g.
  rewrite Rabs_pos_eq by exact Q. destruct (Rleb_spec 0 f); split; nra.
Qed.

(** What the reduction of column [i] does. *)
Lemma left_spec m n i a : (i < n <= m)%nat -> forall a' g scale, left_step (N := N) m n i a = (a', g, scale) ->
  let w := scale * g in
  let u := from i (fun k => a' k i) in
  let b := coef (a' i i) w in
  (w <> 0 -> a' i i <> 0) /\
  (forall r c, (c < i \/ r < i)%nat -> a' r c = a r c) /\
  b * (b * dot m u u + 2) = 0 /\
  (forall r, (r < m)%nat -> refl m b u (from i (fun k => a k i)) r = if (r =? i)%nat then w else 0) /\
  (forall c z, (i < c < n)%nat -> (forall r, (i <= r < m)%nat -> z r = a r c) ->
     forall r, (i <= r < m)%nat -> refl m b u z r = a' r c).
Proof.
  intros Hi a' g scale. unfold left_step. rewrite (proj2 (Nat.ltb_lt i m)) by lia. unW.
  rewrite for_from by lia. rewrite Rplus_0_l.
  set (sc := sum m (from i (fun k => Rabs (a k i)))).
  destruct (eqb sc 0) eqn:E0; cbn [negb].
  - intros E. injection E as <- <- <-. apply eqb0 in E0. cbv zeta.
    assert (Z : forall k, (i <= k < m)%nat -> a k i = 0).
    { intros k Hk. destruct (Req_dec (a k i) 0) as [ | Hne]; [ assumption | ]. exfalso.
      assert (Q : from i (fun k => Rabs (a k i)) k = 0).
      { apply (sum_pos_0 m); [ | exact E0 | lia ]. intros j _. unfold from. destruct (j <? i)%nat; [ lra | apply Rabs_pos ]. }
      rewrite from_in in Q by lia. apply Hne. destruct (Req_dec (a k i) 0); auto. apply Rabs_no_R0 in H. contradiction. }
    assert (C : forall p, coef p (sc * 0) = 0) by (intros; unfold coef; rewrite (proj2 (eqb0 _)); [ reflexivity | ring ]).
    rewrite C. split; [ intros Q; elim Q; ring | ]. repeat split.
    + ring.
    + intros r Hr. unfold refl. replace (sc * 0) with 0 by ring.
      unfold from at 1. destruct (Nat.ltb_spec r i).
      * destruct (r =? i)%nat; ring.
      * rewrite Z by lia. destruct (r =? i)%nat; ring.
    + intros c z Hc Hz r Hr. unfold refl. rewrite Hz by exact Hr. ring.
  - apply eqb0_false in E0.
    destruct (scale_col i m sc a ltac:(lia)) as (a1 & E1 & A1).
    rewrite E1. clear E1. rewrite if_last by lia.
    set (s := sum m (from i (fun k => a k i / sc * (a k i / sc)))).
    assert (A1i : a1 i i = a i i / sc).
    { rewrite A1, Nat.eqb_refl, Nat.leb_refl, (proj2 (Nat.ltb_lt i m)) by lia. reflexivity. }
    set (x := from i (fun k => a k i)).
    assert (Es : s = dot m (fun k => x k / sc) (fun k => x k / sc)).
    { apply sum_ext. intros k _. unfold x, from. destruct (k <? i)%nat; [ field; auto | reflexivity ]. }
    assert (Hs0 : 0 <= s) by (rewrite Es; apply sum_pos; intros; nra).
    set (f := a1 i i).
    set (gg := - (if Rleb 0 f then Rabs (sqrt s) else - Rabs (sqrt s))).
    set (h := f * gg - s).
    set (a2 := set2 a1 i i (f - gg)).
    destruct (sign_g s f Hs0) as [G1 G2]. fold gg in G1, G2.
    assert (Hne : exists k, (k < m)%nat /\ x k <> 0).
    { destruct (existsb (fun k => if Req_EM_T (x k) 0 then false else true) (seq 0 m)) eqn:Ex.
      - apply existsb_exists in Ex. destruct Ex as (k & Hk & Ek). apply in_seq in Hk.
        exists k. split; [ lia | ]. destruct (Req_EM_T (x k) 0); [ discriminate | assumption ].
      - exfalso. apply E0. unfold sc. apply sum_0. intros k Hk.
        assert (Q : x k = 0).
        { destruct (Req_EM_T (x k) 0) as [ | Q]; [ assumption | ]. exfalso.
          enough (existsb (fun k => if Req_EM_T (x k) 0 then false else true) (seq 0 m) = true) by congruence.
          apply existsb_exists. exists k. split; [ apply in_seq; lia | ]. destruct (Req_EM_T (x k) 0); [ contradiction | reflexivity ]. }
        unfold x, from in *. destruct (k <? i)%nat; [ reflexivity | ]. rewrite Q. apply Rabs_R0. }
    assert (Hxp : forall k, (k < m)%nat -> (k < i)%nat -> x k = 0) by (intros; now apply from_out).
    assert (Ef : f = x i / sc) by (unfold f, x; rewrite A1i, from_in by lia; reflexivity).
    rewrite Es in G1. rewrite Ef in G2.
    set (u0 := fun k => if (k =? i)%nat then x i / sc - gg else x k / sc).
    assert (U0 : forall k, (i <= k < m)%nat -> a2 k i = u0 k).
    { intros k Hk. unfold a2, u0, set2. rewrite Nat.eqb_refl, andb_true_r.
      destruct (Nat.eqb_spec k i) as [-> | ]; [ now rewrite Ef | ].
      rewrite A1, Nat.eqb_refl. unfold x. rewrite from_in by lia.
      destruct (Nat.leb_spec i k), (Nat.ltb_spec k m); try lia; reflexivity. }
    assert (U0' : forall k, (k < i)%nat -> u0 k = 0).
    { intros k Hk. unfold u0. destruct (Nat.eqb_spec k i); [ lia | ]. unfold x. rewrite from_out by lia. field; auto. }
    assert (Eh : h = x i / sc * gg - dot m (fun k => x k / sc) (fun k => x k / sc)) by (unfold h; rewrite Ef, Es; reflexivity).
    set (a3 := for_ (S i) n _ a2).
    assert (D : forall z, sum m (from i (fun k => a2 k i * z k)) = dot m u0 z).
    { intros z. apply sum_ext. intros k Hk. unfold from. destruct (Nat.ltb_spec k i).
      - rewrite U0' by lia. ring.
      - rewrite U0 by lia. reflexivity. }
    assert (A3 : (forall j r c, (S i <= j < n)%nat -> ((c =? j) && (i <=? r) && (r <? m))%nat%bool = true ->
                   a3 r c = a2 r c + dot m u0 (fun k => a2 k j) / h * a2 r i) /\
                 (forall r c, (forall j, (S i <= j < n)%nat -> ((c =? j) && (i <=? r) && (r <? m))%nat%bool = false) ->
                   a3 r c = a2 r c)).
    { pose (F := fun j (a : nat -> nat -> R) r c => a r c + dotp (N := N) i m (fun k => a k i) (fun k => a k j) / h * a r i).
      destruct (for_local (fun j r c => ((c =? j) && (i <=? r) && (r <? m))%nat%bool) F
        (fun j a => for_ i m (fun k a0 => set2 a0 k j (a0 k j + dotp (N := N) i m (fun k => a k i) (fun k => a k j) / h * a0 k i)) a)
        (S i) n) with (a0 := a2) as [P Q]; [ | | | lia | ].
      - intros j j' r c H1 H2. apply andb_true_iff in H1, H2. destruct H1 as [H1 _], H2 as [H2 _].
        apply andb_true_iff in H1, H2. destruct H1 as [H1 _], H2 as [H2 _].
        apply Nat.eqb_eq in H1, H2. congruence.
      - intros j b r c Hj. rewrite (for_col R (fun k a0 => a0 k j + dotp (N := N) i m (fun k => b k i) (fun k => b k j) / h * a0 k i)); [ | lia | ].
        + unfold F. destruct (Nat.eqb_spec c j) as [-> | ]; reflexivity.
        + intros k b1 b2 H. rewrite !H; [ reflexivity | left; lia | right; left; lia ].
      - intros j b1 b2 Hj H r c Z. unfold F.
        assert (HH : forall r c, (c = i \/ c = j) -> b1 r c = b2 r c).
        { intros r' c' Hc. apply H. intros j' Hj'. apply andb_false_iff. left. apply andb_false_iff. left. apply Nat.eqb_neq. lia. }
        assert (c = j). { apply andb_true_iff in Z. destruct Z as [Z _]. apply andb_true_iff in Z. destruct Z as [Z _]. now apply Nat.eqb_eq. }
        subst c. rewrite !HH by auto. f_equal. f_equal. f_equal. rewrite !dotp_from by lia. apply sum_ext.
        intros k _. unfold from. destruct (k <? i)%nat; [ reflexivity | ]. rewrite !HH by auto. reflexivity.
      - split; [ | exact Q ]. intros j r c Hj Z. unfold a3. etransitivity; [ exact (P j r c Hj Z) | ].
        unfold F. rewrite dotp_from by lia. rewrite (D (fun k => a2 k j)). reflexivity. }
    destruct A3 as [A3 A3'].
    intros E. injection E as <- <- <-. cbv zeta.
    set (a4 := for_ i m _ a3).
    assert (A4 : forall r c, a4 r c = if ((c =? i) && (i <=? r) && (r <? m))%nat%bool then a3 r i * sc else a3 r c).
    { intros r c. unfold a4. rewrite (for_col R (fun k a => a k i * sc)); [ reflexivity | lia | ].
      intros k b1 b2 H. rewrite H by (right; left; lia). reflexivity. }
    assert (A4i : forall r, (i <= r < m)%nat -> a4 r i = sc * u0 r).
    { intros r Hr. rewrite A4, Nat.eqb_refl. destruct (Nat.leb_spec i r), (Nat.ltb_spec r m); try lia. cbn [andb].
      rewrite A3' by (intros j Hj; destruct (Nat.eqb_spec i j); [ lia | reflexivity ]). rewrite U0 by lia. ring. }
    assert (Hcoef : coef (a4 i i) (sc * gg) = / (sc * u0 i * (sc * gg))).
    { unfold coef. rewrite A4i by lia. rewrite (proj2 (eqb0_false _)); [ reflexivity | ].
      apply Rmult_integral_contrapositive_currified; [ assumption | ].
      eapply house_g; [ exact E0 | exact Hne | exact G1 ]. }
    rewrite Hcoef.
    assert (Hu : forall k, (k < m)%nat -> from i (fun k => a4 k i) k = sc * u0 k).
    { intros k Hk. unfold from. destruct (Nat.ltb_spec k i); [ rewrite U0' by lia; ring | apply A4i; lia ]. }
    assert (HR : forall z r, (r < m)%nat -> refl m (/ (sc * u0 i * (sc * gg))) (from i (fun k => a4 k i)) z r = refl m (/ h) u0 z r).
    { intros z r Hr. rewrite (refl_ext m _ _ (fun k => sc * u0 k) z z) by auto. rewrite Eh.
      exact (house_scale m i x sc E0 Hne gg G1 G2 z r). }
    split; [ intros _; rewrite A4i by lia; apply Rmult_integral_contrapositive_currified;
             [ assumption | exact (house_up m i x sc E0 Hne gg G1 G2) ] | ].
    repeat split.
    + intros r c Hrc. rewrite A4.
      assert (Z : forall j, (i <= j < n)%nat -> ((c =? j) && (i <=? r) && (r <? m))%nat%bool = false).
      { intros j Hj. destruct (Nat.eqb_spec c j); [ | reflexivity ]. destruct (Nat.leb_spec i r); [ lia | reflexivity ]. }
      rewrite Z by lia. rewrite A3' by (intros; apply Z; lia). unfold a2, set2.
      destruct (Nat.eqb_spec r i), (Nat.eqb_spec c i); try lia; cbn [andb]; rewrite A1; rewrite Z by lia; reflexivity.
    + rewrite (dot_ext m _ _ (fun k => sc * u0 k) (fun k => sc * u0 k)) by auto.
      exact (house_scale_cond m i ltac:(lia) x sc E0 Hne gg G1 G2).
    + intros r Hr. rewrite HR by exact Hr. rewrite Eh.
      exact (house_image m i ltac:(lia) x sc E0 Hne gg G2 r Hr).
    + intros c z Hc Hz r Hr. rewrite HR by lia.
      assert (Zi : (c =? i)%nat = false) by (apply Nat.eqb_neq; lia).
      assert (E2 : forall r, a2 r c = a r c).
      { intros r'. unfold a2, set2. rewrite Zi, andb_false_r, A1, Zi. reflexivity. }
      rewrite A4, Zi. cbn [andb].
      rewrite (A3 c r c); [ | lia | ].
      2: { rewrite Nat.eqb_refl. destruct (Nat.leb_spec i r), (Nat.ltb_spec r m); try lia; reflexivity. }
      rewrite E2, U0 by lia. unfold refl. rewrite Hz by lia.
      replace (dot m u0 (fun k => a2 k c)) with (dot m u0 z); [ unfold Rdiv; ring | ].
      apply sum_ext. intros k Hk. rewrite E2. destruct (Nat.ltb_spec k i).
      * rewrite U0' by lia. ring.
      * rewrite Hz by lia. reflexivity.
Qed.
(** What the reduction of row [i] does. *)
Lemma right_spec m n i a ws : (i < n <= m)%nat -> forall a' ws' g scale,
  right_step (N := N) m n i a ws = (a', ws', g, scale) ->
  let w := scale * g in
  let u := from (S i) (fun k => a' i k) in
  let b := coef (a' i (S i)) w in
  (forall k, (k <= i)%nat -> ws' k = ws k) /\
  (i = (n - 1)%nat -> w = 0) /\
  (forall r c, (c <= i \/ r < i)%nat -> a' r c = a r c) /\
  b * (b * dot n u u + 2) = 0 /\
  (forall c, (c < n)%nat -> refl n b u (from (S i) (fun k => a i k)) c = if (c =? S i)%nat then w else 0) /\
  (forall r z, (i < r < m)%nat -> (forall c, (i < c < n)%nat -> z c = a r c) ->
     forall c, (i < c < n)%nat -> refl n b u z c = a' r c).
Proof.
  intros Hi a' ws' g scale. unfold right_step. rewrite (proj2 (Nat.ltb_lt i m)) by lia. cbn [andb].
  destruct (Nat.eqb_spec i (n - 1)) as [Hl | Hl]; cbn [negb].
  { unW. intros E. injection E as <- <- <- <-. cbv zeta.
    assert (C : forall p, coef p (0 * 0) = 0) by (intros; unfold coef; rewrite (proj2 (eqb0 _)); [ reflexivity | ring ]).
    rewrite C. repeat split.
    - intros; ring.
    - ring.
    - intros c Hc. unfold refl. rewrite from_out by lia. destruct (c =? S i)%nat; ring.
    - intros; lia. }
  unW. rewrite for_from by lia. rewrite Rplus_0_l.
  set (sc := sum n (from (S i) (fun k => Rabs (a i k)))).
  destruct (eqb sc 0) eqn:E0; cbn [negb].
  - intros E. injection E as <- <- <- <-. apply eqb0 in E0. cbv zeta.
    assert (Z : forall k, (i < k < n)%nat -> a i k = 0).
    { intros k Hk. destruct (Req_dec (a i k) 0) as [ | Hne]; [ assumption | ]. exfalso.
      assert (Q : from (S i) (fun k => Rabs (a i k)) k = 0).
      { apply (sum_pos_0 n); [ | exact E0 | lia ]. intros j _. unfold from. destruct (j <? S i)%nat; [ lra | apply Rabs_pos ]. }
      rewrite from_in in Q by lia. apply Rabs_no_R0 in Hne. contradiction. }
    assert (C : forall p, coef p (sc * 0) = 0) by (intros; unfold coef; rewrite (proj2 (eqb0 _)); [ reflexivity | ring ]).
    rewrite C. repeat split.
    + intros; ring.
    + ring.
    + intros r Hr. unfold refl. replace (sc * 0) with 0 by ring.
      unfold from at 1. destruct (Nat.ltb_spec r (S i)).
      * destruct (r =? S i)%nat; ring.
      * rewrite Z by lia. destruct (r =? S i)%nat; ring.
    + intros c z Hc Hz r Hr. unfold refl. rewrite Hz by exact Hr. ring.
  - apply eqb0_false in E0.
    destruct (scale_row i (S i) n sc a ltac:(lia)) as (a1 & E1 & A1).
    rewrite E1. clear E1.
    set (s := sum n (from (S i) (fun k => a i k / sc * (a i k / sc)))).
    assert (A1i : a1 i (S i) = a i (S i) / sc).
    { rewrite A1, Nat.eqb_refl, Nat.leb_refl, (proj2 (Nat.ltb_lt (S i) n)) by lia. reflexivity. }
    set (x := from (S i) (fun k => a i k)).
    assert (Es : s = dot n (fun k => x k / sc) (fun k => x k / sc)).
    { apply sum_ext. intros k _. unfold x, from. destruct (k <? S i)%nat; [ field; auto | reflexivity ]. }
    assert (Hs0 : 0 <= s) by (rewrite Es; apply sum_pos; intros; nra).
    set (f := a1 i (S i)).
    set (gg := - (if Rleb 0 f then Rabs (sqrt s) else - Rabs (sqrt s))).
    set (h := f * gg - s).
    set (a2 := set2 a1 i (S i) (f - gg)).
    set (ws2 := for_ (S i) n (fun k (v : nat -> R) => set1 v k (a2 i k / h)) (ws : nat -> R)).
    destruct (sign_g s f Hs0) as [G1 G2]. fold gg in G1, G2.
    assert (Hne : exists k, (k < n)%nat /\ x k <> 0).
    { destruct (existsb (fun k => if Req_EM_T (x k) 0 then false else true) (seq 0 n)) eqn:Ex.
      - apply existsb_exists in Ex. destruct Ex as (k & Hk & Ek). apply in_seq in Hk.
        exists k. split; [ lia | ]. destruct (Req_EM_T (x k) 0); [ discriminate | assumption ].
      - exfalso. apply E0. unfold sc. apply sum_0. intros k Hk.
        assert (Q : x k = 0).
        { destruct (Req_EM_T (x k) 0) as [ | Q]; [ assumption | ]. exfalso.
          enough (existsb (fun k => if Req_EM_T (x k) 0 then false else true) (seq 0 n) = true) by congruence.
          apply existsb_exists. exists k. split; [ apply in_seq; lia | ]. destruct (Req_EM_T (x k) 0); [ contradiction | reflexivity ]. }
        unfold x, from in *. destruct (k <? S i)%nat; [ reflexivity | ]. rewrite Q. apply Rabs_R0. }
    assert (Ef : f = x (S i) / sc) by (unfold f, x; rewrite A1i, from_in by lia; reflexivity).
    rewrite Es in G1. rewrite Ef in G2.
    set (u0 := fun k => if (k =? S i)%nat then x (S i) / sc - gg else x k / sc).
    assert (U0 : forall k, (i < k < n)%nat -> a2 i k = u0 k).
    { intros k Hk. unfold a2, u0, set2. rewrite Nat.eqb_refl. cbn [andb].
      destruct (Nat.eqb_spec k (S i)) as [-> | ]; [ now rewrite Ef | ].
      rewrite A1, Nat.eqb_refl. unfold x. rewrite from_in by lia.
      destruct (Nat.leb_spec (S i) k), (Nat.ltb_spec k n); try lia; reflexivity. }
    assert (U0' : forall k, (k <= i)%nat -> u0 k = 0).
    { intros k Hk. unfold u0. destruct (Nat.eqb_spec k (S i)); [ lia | ]. unfold x. rewrite from_out by lia. field; auto. }
    assert (Eh : h = x (S i) / sc * gg - dot n (fun k => x k / sc) (fun k => x k / sc)) by (unfold h; rewrite Ef, Es; reflexivity).
    assert (W1 : forall k, ws2 k = if ((S i <=? k) && (k <? n))%nat%bool then u0 k / h else ws k).
    { assert (P : forall k, ws2 k = if ((S i <=? k) && (k <? n))%nat%bool then a2 i k / h else ws k).
      { refine (for_inv _ (fun j (v : nat -> R) => forall k, v k = if ((S i <=? k) && (k <? j))%nat%bool then a2 i k / h else ws k)
          (S i) n (fun k v => set1 v k (a2 i k / h)) ws ltac:(lia) _ _).
        - intros k. destruct (Nat.leb_spec (S i) k), (Nat.ltb_spec k (S i)); try lia; reflexivity.
        - intros j v Hj IH k. unfold set1. rewrite IH. destruct (Nat.eqb_spec k j) as [-> | ].
          + destruct (Nat.leb_spec (S i) j), (Nat.ltb_spec j (S j)); try lia; reflexivity.
          + destruct (Nat.ltb_spec k j), (Nat.ltb_spec k (S j)); try lia; reflexivity. }
      intros k. rewrite P. destruct (Nat.leb_spec (S i) k), (Nat.ltb_spec k n); cbn [andb]; auto. rewrite U0 by lia. reflexivity. }
    match goal with |- context [for_ (S i) n _ ?t] => set (a3 := t) end.
    assert (D : forall z, sum n (from (S i) (fun k => z k * a2 i k)) = dot n u0 z).
    { intros z. apply sum_ext. intros k Hk. unfold from. destruct (Nat.ltb_spec k (S i)).
      - rewrite U0' by lia. ring.
      - rewrite U0 by lia. ring. }
    assert (A3 : (forall j r c, (S i <= j < m)%nat -> ((r =? j) && (S i <=? c) && (c <? n))%nat%bool = true ->
                   a3 r c = a2 r c + dot n u0 (fun k => a2 j k) * (u0 c / h)) /\
                 (forall r c, (forall j, (S i <= j < m)%nat -> ((r =? j) && (S i <=? c) && (c <? n))%nat%bool = false) ->
                   a3 r c = a2 r c)).
    { unfold a3. rewrite if_last by lia. clear a3.
      pose (F := fun j (a : nat -> nat -> R) r c => a r c + dotp (N := N) (S i) n (fun k => a j k) (fun k => a i k) * ws2 c).
      destruct (for_local (fun j r c => ((r =? j) && (S i <=? c) && (c <? n))%nat%bool) F
        (fun j a => for_ (S i) n (fun k a0 => set2 a0 j k (a0 j k + dotp (N := N) (S i) n (fun k => a j k) (fun k => a i k) * ws2 k)) a)
        (S i) m) with (a0 := a2) as [P Q]; [ | | | lia | ].
      - intros j j' r c H1 H2. apply andb_true_iff in H1, H2. destruct H1 as [H1 _], H2 as [H2 _].
        apply andb_true_iff in H1, H2. destruct H1 as [H1 _], H2 as [H2 _].
        apply Nat.eqb_eq in H1, H2. congruence.
      - intros j b r c Hj. rewrite (for_row R (fun k a0 => a0 j k + dotp (N := N) (S i) n (fun k => b j k) (fun k => b i k) * ws2 k)); [ | lia | ].
        + unfold F. destruct (Nat.eqb_spec r j) as [-> | ]; reflexivity.
        + intros k b1 b2 H. rewrite !H; [ reflexivity | right; left; lia ].
      - intros j b1 b2 Hj H r c Z. unfold F.
        assert (HH : forall r c, (r = i \/ r = j) -> b1 r c = b2 r c).
        { intros r' c' Hc. apply H. intros j' Hj'. apply andb_false_iff. left. apply andb_false_iff. left. apply Nat.eqb_neq. lia. }
        assert (r = j). { apply andb_true_iff in Z. destruct Z as [Z _]. apply andb_true_iff in Z. destruct Z as [Z _]. now apply Nat.eqb_eq. }
        subst r. rewrite !HH by auto. f_equal. f_equal. rewrite !dotp_from by lia. apply sum_ext.
        intros k _. unfold from. destruct (k <? S i)%nat; [ reflexivity | ]. rewrite !HH by auto. reflexivity.
      - split; [ | exact Q ]. intros j r c Hj Z. etransitivity; [ exact (P j r c Hj Z) | ].
        unfold F. rewrite dotp_from by lia. rewrite (D (fun k => a2 j k)). rewrite W1.
        apply andb_true_iff in Z. destruct Z as [Z Z3]. apply andb_true_iff in Z. destruct Z as [_ Z2]. rewrite Z2, Z3. reflexivity. }
    destruct A3 as [A3 A3'].
    intros E. injection E as <- <- <- <-. cbv zeta.
    set (a4 := for_ (S i) n _ a3).
    assert (A4 : forall r c, a4 r c = if ((r =? i) && (S i <=? c) && (c <? n))%nat%bool then a3 i c * sc else a3 r c).
    { intros r c. unfold a4. rewrite (for_row R (fun k a => a i k * sc)); [ reflexivity | lia | ].
      intros k b1 b2 H. rewrite H by (right; left; lia). reflexivity. }
    assert (A4i : forall c, (i < c < n)%nat -> a4 i c = sc * u0 c).
    { intros r Hr. rewrite A4, Nat.eqb_refl. destruct (Nat.leb_spec (S i) r), (Nat.ltb_spec r n); try lia. cbn [andb].
      rewrite A3' by (intros j Hj; destruct (Nat.eqb_spec i j); [ lia | reflexivity ]). rewrite U0 by lia. ring. }
    assert (Hcoef : coef (a4 i (S i)) (sc * gg) = / (sc * u0 (S i) * (sc * gg))).
    { unfold coef. rewrite A4i by lia. rewrite (proj2 (eqb0_false _)); [ reflexivity | ].
      apply Rmult_integral_contrapositive_currified; [ assumption | ].
      eapply house_g; [ exact E0 | exact Hne | exact G1 ]. }
    rewrite Hcoef.
    assert (Hu : forall k, (k < n)%nat -> from (S i) (fun k => a4 i k) k = sc * u0 k).
    { intros k Hk. unfold from. destruct (Nat.ltb_spec k (S i)); [ rewrite U0' by lia; ring | apply A4i; lia ]. }
    assert (HR : forall z r, (r < n)%nat -> refl n (/ (sc * u0 (S i) * (sc * gg))) (from (S i) (fun k => a4 i k)) z r = refl n (/ h) u0 z r).
    { intros z r Hr. rewrite (refl_ext n _ _ (fun k => sc * u0 k) z z) by auto. rewrite Eh.
      exact (house_scale n (S i) x sc E0 Hne gg G1 G2 z r). }
    repeat split.
    + intros k Hk. rewrite W1. destruct (Nat.leb_spec (S i) k); [ lia | reflexivity ].
    + intros; lia.
    + intros r c Hrc. rewrite A4.
      assert (Z : forall j, (i <= j < m)%nat -> ((r =? j) && (S i <=? c) && (c <? n))%nat%bool = false).
      { intros j Hj. destruct (Nat.eqb_spec r j); [ | reflexivity ]. destruct (Nat.leb_spec (S i) c); [ lia | reflexivity ]. }
      rewrite Z by lia. rewrite A3' by (intros; apply Z; lia). unfold a2, set2.
      destruct (Nat.eqb_spec r i), (Nat.eqb_spec c (S i)); try lia; cbn [andb]; rewrite A1; rewrite Z by lia; reflexivity.
    + rewrite (dot_ext n _ _ (fun k => sc * u0 k) (fun k => sc * u0 k)) by auto.
      exact (house_scale_cond n (S i) ltac:(lia) x sc E0 Hne gg G1 G2).
    + intros r Hr. rewrite HR by exact Hr. rewrite Eh.
      exact (house_image n (S i) ltac:(lia) x sc E0 Hne gg G2 r Hr).
    + intros r z Hr Hz c Hc. rewrite HR by lia.
      assert (Zi : (r =? i)%nat = false) by (apply Nat.eqb_neq; lia).
      assert (E2 : forall c, a2 r c = a r c).
      { intros c'. unfold a2, set2. rewrite Zi, A1, Zi. reflexivity. }
      rewrite A4, Zi. cbn [andb].
      rewrite (A3 r r c); [ | lia | ].
      2: { rewrite Nat.eqb_refl. destruct (Nat.leb_spec (S i) c), (Nat.ltb_spec c n); try lia; reflexivity. }
      rewrite E2. unfold refl. rewrite Hz by lia.
      replace (dot n u0 (fun k => a2 r k)) with (dot n u0 z); [ unfold Rdiv; ring | ].
      apply sum_ext. intros k Hk. rewrite E2. destruct (Nat.ltb_spec k (S i)).
      * rewrite U0' by lia. ring.
      * rewrite Hz by lia. reflexivity.
Qed.
(** ** All the iterations *)
Lemma refl_agree m b u x x' r : (forall k, (k < m)%nat -> u k = 0 \/ x k = x' k) -> x r = x' r -> refl m b u x r = refl m b u x' r.
Proof.
  intros H E. unfold refl. rewrite E. f_equal. f_equal. apply sum_ext. intros k Hk.
  destruct (H k Hk) as [-> | ->]; ring.
Qed.
Lemma refl_out m b u x r : u r = 0 -> refl m b u x r = x r.
Proof. intros H. unfold refl. rewrite H. ring. Qed.
Lemma delta_same k : delta k k = 1.
Proof. unfold delta. now rewrite Nat.eqb_refl. Qed.
Lemma delta_other j k : j <> k -> delta j k = 0.
Proof. intros H. unfold delta. apply Nat.eqb_neq in H. now rewrite H. Qed.

Lemma bid_step_eq m n i st : exists a1 gl sl a2 ws2 g2 sc2,
  left_step (N := N) m n i (b_a st) = (a1, gl, sl) /\
  right_step (N := N) m n i a1 (set1 (b_ws st) i (b_scale st * b_g st)) = (a2, ws2, g2, sc2) /\
  bid_step m n i st = Bid a2 (set1 (b_w st) i (sl * gl)) ws2 g2 sc2
    (Rmax (b_an st) (Rabs (sl * gl) + Rabs (ws2 i))).
Proof.
  destruct st as [a w ws g scale an]. unfold bid_step. cbn [b_a b_w b_ws b_g b_scale b_an].
  destruct (left_step m n i a) as [[a1 gl] sl] eqn:E1.
  match goal with |- context [right_step m n i a1 ?t] => destruct (right_step m n i a1 t) as [[[a2 ws2] g2] sc2] eqn:E2 end.
  exists a1, gl, sl, a2, ws2, g2, sc2. split; [ reflexivity | ]. split; [ exact E2 | ].
  rewrite set1_same. f_equal. unW. unfold Rmax. destruct (Rltb_spec an (Rabs (sl * gl) + Rabs (ws2 i))), (Rle_dec an (Rabs (sl * gl) + Rabs (ws2 i))); lra.
Qed.

Section All.
Context (m n : nat) (Hmn : (n <= m)%nat) (A : nat -> nat -> R) (w0 ws0 : nat -> R).
Let st (i : nat) : bid N := for_ 0 i (bid_step (N := N) m n) (Bid (N := N) A w0 ws0 0 0 0).
Let a1 : nat -> nat -> R := b_a (st n).
Let W : nat -> R := b_w (st n).
Let WS : nat -> R := b_ws (st n).

Lemma st_step i : st (S i) = bid_step (N := N) m n i (st i).
Proof. unfold st. apply for_last. lia. Qed.

Lemma persist i : (i < n)%nat -> forall j, (S i <= j <= n)%nat ->
  (forall r c, (c <= i \/ r <= i)%nat -> b_a (st j) r c = b_a (st (S i)) r c) /\
  (forall k, (k <= i)%nat -> b_w (st j) k = b_w (st (S i)) k /\ b_ws (st j) k = b_ws (st (S i)) k).
Proof.
  intros Hi j. induction j as [ | j IH]; intros Hj; [ lia | ].
  destruct (Nat.eq_dec j i) as [-> | Hne]; [ auto | ]. destruct (IH ltac:(lia)) as [IH1 IH2]. rewrite (st_step j).
  destruct (bid_step_eq m n j (st j)) as (b1 & gl & sl & b2 & ws2 & g2 & sc2 & E1 & E2 & ->). cbn [b_a b_w b_ws].
  destruct (left_spec m n j _ ltac:(lia) _ _ _ E1) as (_ & L1 & _). cbv zeta in L1.
  destruct (right_spec m n j _ _ ltac:(lia) _ _ _ _ E2) as (R0 & _ & R1 & _). cbv zeta in R0, R1.
  split.
  - intros r c Hrc. rewrite R1 by lia. rewrite L1 by lia. apply IH1; assumption.
  - intros k Hk. destruct (IH2 k Hk) as [Q1 Q2]. split.
    + rewrite set1_other by lia. exact Q1.
    + rewrite R0 by lia. rewrite set1_other by lia. exact Q2.
Qed.

Definition bdiag (w ws : nat -> R) (r c : nat) : R := w r * delta r c + ws c * delta (S r) c.
Let lg (i r c : nat) : R := if (r <? i)%nat then bdiag W WS r c else if (c <? i)%nat then 0 else b_a (st i) r c.

Definition ref_u (a1 : nat -> nat -> R) i : nat -> R := from i (fun k => a1 k i).
Definition ref_v (a1 : nat -> nat -> R) i : nat -> R := from (S i) (fun k => a1 i k).
Definition ref_p (a1 : nat -> nat -> R) (W : nat -> R) i : R := coef (a1 i i) (W i).
Definition ref_q (a1 : nat -> nat -> R) (WS : nat -> R) i : R := if (S i <? n)%nat then coef (a1 i (S i)) (WS (S i)) else 0.

Lemma bid_stage i : (i < n)%nat ->
  (W i <> 0 -> a1 i i <> 0) /\
  ref_p a1 W i * (ref_p a1 W i * dot m (ref_u a1 i) (ref_u a1 i) + 2) = 0 /\
  ref_q a1 WS i * (ref_q a1 WS i * dot n (ref_v a1 i) (ref_v a1 i) + 2) = 0 /\
  forall r c, (r < m)%nat -> (c < n)%nat ->
    refl n (ref_q a1 WS i) (ref_v a1 i) (fun c => refl m (ref_p a1 W i) (ref_u a1 i) (fun r => lg i r c) r) c = lg (S i) r c.
Proof.
  intros Hi. destruct (persist i Hi n ltac:(lia)) as [P1 P2]. fold a1 in P1. fold W WS in P2.
  assert (Es := st_step i). destruct (bid_step_eq m n i (st i)) as (al & gl & sl & ar & ws2 & g2 & sc2 & E1 & E2 & Ebs).
  rewrite Ebs in Es. clear Ebs.
  assert (Ga : b_a (st (S i)) = ar) by (rewrite Es; reflexivity).
  assert (GW : W i = sl * gl). { destruct (P2 i ltac:(lia)) as [-> _]. rewrite Es. cbn. apply set1_same. }
  assert (GWS : (S i < n)%nat -> WS (S i) = sc2 * g2).
  { intros Hs. destruct (persist (S i) Hs n ltac:(lia)) as [_ P3]. destruct (P3 (S i) ltac:(lia)) as [_ Q]. fold WS in Q. rewrite Q.
    rewrite (st_step (S i)), Es.
    match goal with |- context [bid_step m n (S i) ?s] => destruct (bid_step_eq m n (S i) s) as (b1 & gl' & sl' & b2 & ws3 & g3 & sc3 & F1 & F2 & ->) end.
    cbn [b_ws]. destruct (right_spec m n (S i) _ _ ltac:(lia) _ _ _ _ F2) as (R0 & _). rewrite R0 by lia.
    rewrite set1_same. reflexivity. }
  destruct (left_spec m n i _ ltac:(lia) _ _ _ E1) as (L0 & L1 & L2 & L3 & L4). cbv zeta in L0, L1, L2, L3, L4.
  destruct (right_spec m n i _ _ ltac:(lia) _ _ _ _ E2) as (_ & R0 & R1 & R2 & R3 & R4). cbv zeta in R0, R1, R2, R3, R4.
  rewrite <- GW in L0, L2, L3, L4.
  assert (Eu : forall k, ref_u a1 i k = from i (fun k => al k i) k).
  { intros k. unfold ref_u, from. destruct (k <? i)%nat; [ reflexivity | ]. rewrite P1, Ga, R1 by lia. reflexivity. }
  assert (Ev : forall k, ref_v a1 i k = from (S i) (fun k => ar i k) k).
  { intros k. unfold ref_v, from. destruct (k <? S i)%nat; [ reflexivity | ]. rewrite P1, Ga by lia. reflexivity. }
  assert (Ep : ref_p a1 W i = coef (al i i) (W i)).
  { unfold ref_p. rewrite P1, Ga, R1 by lia. reflexivity. }
  assert (Eq : ref_q a1 WS i = coef (ar i (S i)) (sc2 * g2)).
  { unfold ref_q. destruct (Nat.ltb_spec (S i) n).
    - rewrite P1, Ga by lia. rewrite GWS by lia. reflexivity.
    - unfold coef. rewrite (proj2 (eqb0 _)); [ reflexivity | ]. apply R0. lia. }
  rewrite Ep, Eq. rewrite (dot_ext m _ _ _ _ (fun k _ => Eu k) (fun k _ => Eu k)).
  rewrite (dot_ext n _ _ _ _ (fun k _ => Ev k) (fun k _ => Ev k)).
  split; [ rewrite P1, Ga, R1 by lia; exact L0 | ]. split; [ exact L2 | ]. split; [ exact R2 | ].
  set (bp := coef (al i i) (W i)) in *. set (bq := coef (ar i (S i)) (sc2 * g2)) in *.
  set (u := from i (fun k => al k i)) in *. set (v := from (S i) (fun k => ar i k)) in *.
  assert (u0 : forall k, (k < i)%nat -> u k = 0) by (intros; now apply from_out).
  assert (v0 : forall k, (k <= i)%nat -> v k = 0) by (intros; apply from_out; lia).
  pose (X := fun r c => if (r <? i)%nat then bdiag W WS r c else if (c <? i)%nat then 0
                        else if (c =? i)%nat then (if (r =? i)%nat then W i else 0) else al r c).
  assert (HX : forall r c, (r < m)%nat -> (c < n)%nat -> refl m bp (ref_u a1 i) (fun r => lg i r c) r = X r c).
  { intros r c Hr Hc. rewrite (refl_ext m bp _ u _ (fun r => lg i r c)) by auto. unfold X.
    destruct (Nat.ltb_spec r i) as [Hri | Hri].
    { rewrite refl_out by auto. unfold lg. rewrite (proj2 (Nat.ltb_lt r i)) by lia. reflexivity. }
    destruct (Nat.ltb_spec c i) as [Hci | Hci].
    { rewrite refl_fix.
      - unfold lg. rewrite (proj2 (Nat.ltb_ge r i)), (proj2 (Nat.ltb_lt c i)) by lia. reflexivity.
      - apply sum_0. intros k Hk. destruct (Nat.ltb_spec k i); [ rewrite u0 by lia; ring | ].
        unfold lg. rewrite (proj2 (Nat.ltb_ge k i)), (proj2 (Nat.ltb_lt c i)) by lia. ring. }
    assert (EL : forall k, (i <= k)%nat -> lg i k c = b_a (st i) k c).
    { intros k Hk. unfold lg. rewrite (proj2 (Nat.ltb_ge k i)), (proj2 (Nat.ltb_ge c i)) by lia. reflexivity. }
    destruct (Nat.eqb_spec c i) as [-> | Hne].
    - rewrite <- L3 by exact Hr. apply refl_agree.
      + intros k Hk. destruct (Nat.ltb_spec k i); [ left; apply u0; lia | right ]. rewrite EL, from_in by lia. reflexivity.
      + rewrite EL, from_in by lia. reflexivity.
    - apply L4; [ lia | | lia ]. intros k Hk. apply EL. lia. }
  intros r c Hr Hc.
  rewrite (refl_ext n bq _ v _ (X r)); [ | exact Hc | auto | intros k Hk; apply HX; auto ].
  unfold lg. destruct (Nat.ltb_spec r (S i)) as [Hri | Hri].
  - destruct (Nat.eq_dec r i) as [-> | Hne].
    + assert (X0 : forall c, (c <= i)%nat -> X i c = bdiag W WS i c).
      { intros k Hk. unfold X. rewrite Nat.ltb_irrefl. unfold bdiag. rewrite (delta_other (S i) k) by lia.
        destruct (Nat.ltb_spec k i); [ rewrite delta_other by lia; ring | ].
        replace k with i by lia. rewrite !Nat.eqb_refl, delta_same. ring. }
      destruct (Nat.leb_spec c i) as [Hci | Hci]; [ rewrite refl_out by auto; now apply X0 | ].
      assert (X1 : forall c, (i < c)%nat -> X i c = al i c).
      { intros k Hk. unfold X. rewrite Nat.ltb_irrefl. destruct (Nat.ltb_spec k i), (Nat.eqb_spec k i); try lia. reflexivity. }
      transitivity (if (c =? S i)%nat then sc2 * g2 else 0).
      * rewrite <- R3 by exact Hc. apply refl_agree.
        -- intros k Hk. destruct (Nat.leb_spec k i); [ left; now apply v0 | right ]. rewrite X1, from_in by lia. reflexivity.
        -- rewrite X1, from_in by lia. reflexivity.
      * unfold bdiag. rewrite (delta_other i c) by lia. destruct (Nat.eqb_spec c (S i)) as [-> | ].
        -- rewrite delta_same, GWS by lia. ring.
        -- rewrite delta_other by auto. ring.
    + assert (X0 : forall c, X r c = bdiag W WS r c) by (intros k; unfold X; rewrite (proj2 (Nat.ltb_lt r i)) by lia; reflexivity).
      rewrite refl_fix; [ apply X0 | ]. apply sum_0. intros k Hk. rewrite X0.
      destruct (Nat.leb_spec k i); [ rewrite v0 by lia; ring | ]. unfold bdiag. rewrite !delta_other by lia. ring.
  - destruct (Nat.ltb_spec c (S i)) as [Hci | Hci].
    + rewrite refl_out by (apply v0; lia). unfold X. destruct (Nat.ltb_spec r i), (Nat.ltb_spec c i), (Nat.eqb_spec c i), (Nat.eqb_spec r i); try lia; reflexivity.
    + rewrite Ga. apply R4; [ lia | | lia ]. intros k Hk. unfold X.
      destruct (Nat.ltb_spec r i), (Nat.ltb_spec k i), (Nat.eqb_spec k i); try lia. reflexivity.
Qed.

Lemma lg_first r c : (r < m)%nat -> (c < n)%nat -> lg 0 r c = A r c.
Proof. reflexivity. Qed.
Lemma lg_last r c : (r < m)%nat -> (c < n)%nat -> lg n r c = if (r <? n)%nat then bdiag W WS r c else 0.
Proof. intros Hr Hc. unfold lg. destruct (r <? n)%nat; [ reflexivity | ]. now rewrite (proj2 (Nat.ltb_lt c n)). Qed.
Lemma ws_first : (0 < n)%nat -> WS O = 0.
Proof.
  intros H. destruct (persist 0 H n ltac:(lia)) as [_ P]. destruct (P O ltac:(lia)) as [_ Q]. unfold WS. rewrite Q, (st_step 0).
  destruct (bid_step_eq m n 0 (st 0)) as (al & gl & sl & ar & ws2 & g2 & sc2 & E1 & E2 & ->). cbn [b_ws].
  destruct (right_spec m n 0 _ _ ltac:(lia) _ _ _ _ E2) as (R0 & _). rewrite R0 by lia. rewrite set1_same. change ((0 : R) * 0 = 0). ring.
Qed.
Lemma an_bound :
  0 <= b_an (st n) /\ (forall i, (i < n)%nat -> Rabs (W i) + Rabs (WS i) <= b_an (st n)) /\
  (forall M, 0 <= M -> (forall i, (i < n)%nat -> Rabs (W i) + Rabs (WS i) <= M) -> b_an (st n) <= M).
Proof.
  enough (H : forall j, (j <= n)%nat -> 0 <= b_an (st j) /\ (forall i, (i < j)%nat -> Rabs (W i) + Rabs (WS i) <= b_an (st j)) /\
    (forall M, 0 <= M -> (forall i, (i < j)%nat -> Rabs (W i) + Rabs (WS i) <= M) -> b_an (st j) <= M)) by (apply H; lia).
  induction j as [ | j IH]; intros Hj.
  - cbn. split; [ lra | ]. split; [ intros; lia | intros; lra ].
  - destruct (IH ltac:(lia)) as (I1 & I2 & I3).
    destruct (persist j ltac:(lia) n ltac:(lia)) as [_ P]. destruct (P j ltac:(lia)) as [Q1 Q2]. fold W WS in Q1, Q2.
    rewrite (st_step j) in *.
    destruct (bid_step_eq m n j (st j)) as (al & gl & sl & ar & ws2 & g2 & sc2 & E1 & E2 & E). rewrite E in *. cbn [b_an b_w b_ws] in *.
    rewrite set1_same in Q1. rewrite <- Q1, <- Q2.
    assert (M1 := Rmax_l (b_an (st j)) (Rabs (W j) + Rabs (WS j))). assert (M2 := Rmax_r (b_an (st j)) (Rabs (W j) + Rabs (WS j))).
    split; [ lra | ]. split.
    + intros i Hi. destruct (Nat.eq_dec i j) as [-> | ]; [ exact M2 | ]. specialize (I2 i ltac:(lia)). lra.
    + intros M HM H. apply Rmax_lub; [ apply I3; auto | apply H; lia ].
Qed.

(** The reflections are isometries. *)
Lemma bid_norm : sum m (fun r => sum n (fun c => A r c * A r c)) =
  sum m (fun r => sum n (fun c => lg n r c * lg n r c)).
Proof.
  enough (H : forall j, (j <= n)%nat -> sum m (fun r => sum n (fun c => A r c * A r c)) =
    sum m (fun r => sum n (fun c => lg j r c * lg j r c))) by (apply H; lia).
  induction j as [ | j IH]; intros Hj; [ reflexivity | ]. rewrite IH by lia.
  destruct (bid_stage j ltac:(lia)) as (_ & C1 & C2 & C3).
  set (bp := ref_p a1 W j) in *. set (bq := ref_q a1 WS j) in *. set (u := ref_u a1 j) in *. set (v := ref_v a1 j) in *.
  transitivity (sum m (fun r => sum n (fun c => refl m bp u (fun r => lg j r c) r * refl m bp u (fun r => lg j r c) r))).
  - rewrite sum_swap, (sum_swap m n). apply sum_ext. intros c Hc. symmetry. exact (refl_isometry m bp u C1 _ _).
  - apply sum_ext. intros r Hr. symmetry.
    etransitivity; [ | exact (refl_isometry n bq v C2 (fun c => refl m bp u (fun r => lg j r c) r) (fun c => refl m bp u (fun r => lg j r c) r)) ].
    apply sum_ext. intros c Hc. rewrite C3 by auto. reflexivity.
Qed.
End All.
End Bid.
