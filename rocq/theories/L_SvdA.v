(** Loops over arrays, reflections and rotations: the tools for [L_SvdB] and
    [L_SvdC]. *)
From Coq Require Import Reals Arith List Lia Lra Bool.
From Verif Require Import Num NumR M_Lin S_Lin L_Sum M_Svd S_Svd.
Import ListNotations.
Open Scope R_scope.

(** ** Loops *)

(** A loop whose iteration [j] changes only the cells of [zone j], the zones
    being disjoint and the new values not depending on cells of earlier zones. *)
Section Local.
Context {T : Type} (zone : nat -> nat -> nat -> bool) (F : nat -> (nat -> nat -> T) -> nat -> nat -> T).
Context (body : nat -> (nat -> nat -> T) -> nat -> nat -> T) (lo hi : nat).
Context (D : forall j j' r c, zone j r c = true -> zone j' r c = true -> j = j').
Context (B : forall j a r c, (lo <= j < hi)%nat -> body j a r c = if zone j r c then F j a r c else a r c).
Context (L : forall j a a', (lo <= j < hi)%nat ->
  (forall r c, (forall j', (lo <= j' < j)%nat -> zone j' r c = false) -> a r c = a' r c) ->
  forall r c, zone j r c = true -> F j a r c = F j a' r c).

Lemma for_local a0 : (lo <= hi)%nat ->
  (forall j r c, (lo <= j < hi)%nat -> zone j r c = true -> for_ lo hi body a0 r c = F j a0 r c) /\
  (forall r c, (forall j, (lo <= j < hi)%nat -> zone j r c = false) -> for_ lo hi body a0 r c = a0 r c).
Proof.
  intros Hle.
  refine (for_inv _ (fun i a =>
    (forall j r c, (lo <= j < i)%nat -> zone j r c = true -> a r c = F j a0 r c) /\
    (forall r c, (forall j, (lo <= j < i)%nat -> zone j r c = false) -> a r c = a0 r c))
    lo hi body a0 Hle _ _).
  - split; [ intros; lia | reflexivity ].
  - intros i a Hi [I1 I2]. split.
    + intros j r c Hj Z. rewrite B by exact Hi. destruct (Nat.eq_dec j i) as [-> | Hne].
      * rewrite Z. apply L; auto.
      * destruct (zone i r c) eqn:Zi; [ elim Hne; eapply D; eauto | ]. apply I1; [ lia | exact Z ].
    + intros r c Z. rewrite B, Z by lia. apply I2. intros j Hj. apply Z. lia.
Qed.
End Local.

(** The loop over the rows [lo, hi) of column [j]. *)
Lemma for_col T (val : nat -> (nat -> nat -> T) -> T) j lo hi a0 : (lo <= hi)%nat ->
  (forall k a a', (forall r c, c <> j \/ (k <= r)%nat \/ (r < lo)%nat -> a r c = a' r c) -> val k a = val k a') ->
  forall r c, for_ lo hi (fun k a => set2 a k j (val k a)) a0 r c =
    if ((c =? j) && (lo <=? r) && (r <? hi))%nat%bool then val r a0 else a0 r c.
Proof.
  intros Hle HL r c.
  destruct (for_local (fun k r c => ((r =? k) && (c =? j))%nat%bool) (fun k a _ _ => val k a)
    (fun k a => set2 a k j (val k a)) lo hi) with (a0 := a0) as [P Q]; auto.
  - intros k k' r' c' H1 H2. apply andb_true_iff in H1, H2. destruct H1 as [H1 _], H2 as [H2 _].
    apply Nat.eqb_eq in H1, H2. congruence.
  - intros k a a' Hk H r' c' _. apply HL. intros r1 c1 H1. apply H. intros j' Hj'.
    apply andb_false_iff. destruct (Nat.eq_dec r1 j') as [-> | ]; [ right | left; now apply Nat.eqb_neq ].
    apply Nat.eqb_neq. lia.
  - destruct (Nat.eqb_spec c j), (Nat.leb_spec lo r), (Nat.ltb_spec r hi); cbn [andb];
      try (apply Q; intros k Hk; apply andb_false_iff; first [ right; apply Nat.eqb_neq; lia | left; apply Nat.eqb_neq; lia ]).
    apply P; [ lia | ]. rewrite Nat.eqb_refl. cbn. now apply Nat.eqb_eq.
Qed.
(** The loop over the columns [lo, hi) of row [i]. *)
Lemma for_row T (val : nat -> (nat -> nat -> T) -> T) i lo hi a0 : (lo <= hi)%nat ->
  (forall k a a', (forall r c, r <> i \/ (k <= c)%nat \/ (c < lo)%nat -> a r c = a' r c) -> val k a = val k a') ->
  forall r c, for_ lo hi (fun k a => set2 a i k (val k a)) a0 r c =
    if ((r =? i) && (lo <=? c) && (c <? hi))%nat%bool then val c a0 else a0 r c.
Proof.
  intros Hle HL r c.
  destruct (for_local (fun k r c => ((r =? i) && (c =? k))%nat%bool) (fun k a _ _ => val k a)
    (fun k a => set2 a i k (val k a)) lo hi) with (a0 := a0) as [P Q]; auto.
  - intros k k' r' c' H1 H2. apply andb_true_iff in H1, H2. destruct H1 as [_ H1], H2 as [_ H2].
    apply Nat.eqb_eq in H1, H2. congruence.
  - intros k a a' Hk H r' c' _. apply HL. intros r1 c1 H1. apply H. intros j' Hj'.
    apply andb_false_iff. destruct (Nat.eq_dec c1 j') as [-> | ]; [ left | right; now apply Nat.eqb_neq ].
    apply Nat.eqb_neq. lia.
  - destruct (Nat.eqb_spec r i), (Nat.leb_spec lo c), (Nat.ltb_spec c hi); cbn [andb];
      try (apply Q; intros k Hk; apply andb_false_iff; first [ right; apply Nat.eqb_neq; lia | left; apply Nat.eqb_neq; lia ]).
    apply P; [ lia | ]. rewrite Nat.eqb_refl, andb_true_r. now apply Nat.eqb_eq.
Qed.

(** The part of a sum from [lo] on. *)
Definition from (lo : nat) (f : nat -> R) (k : nat) : R := if (k <? lo)%nat then 0 else f k.
Lemma for_from lo hi f s0 : (lo <= hi)%nat ->
  for_ lo hi (fun i (s : R) => s + f i) s0 = s0 + sum hi (from lo f).
Proof.
  intros H. refine (for_inv _ (fun k s => s = s0 + sum k (from lo f)) lo hi _ _ H _ _).
  - rewrite sum_0; [ ring | ]. intros i Hi. unfold from. destruct (Nat.ltb_spec i lo); [ reflexivity | lia ].
  - intros i s Hi ->. cbn [sum]. unfold from at 3. destruct (Nat.ltb_spec i lo); [ lia | ring ].
Qed.
Lemma from_out lo f k : (k < lo)%nat -> from lo f k = 0.
Proof. intros H. unfold from. now rewrite (proj2 (Nat.ltb_lt k lo)). Qed.
Lemma from_in lo f k : (lo <= k)%nat -> from lo f k = f k.
Proof. intros H. unfold from. now rewrite (proj2 (Nat.ltb_ge k lo)). Qed.

(** A downward loop, by its invariant. *)
Lemma down_inv S (I : nat -> S -> Prop) n f s : I n s ->
  (forall i s, (i < n)%nat -> I (Datatypes.S i) s -> I i (f i s)) -> I O (down_ n f s).
Proof.
  revert s. induction n; intros s H0 HS; [ exact H0 | ]. cbn. apply IHn; [ apply HS; auto | ]. intros; apply HS; auto.
Qed.

(** ** Inner products and reflections *)
Definition dot (m : nat) (x y : nat -> R) : R := sum m (fun k => x k * y k).
Lemma dot_ext m x y x' y' : (forall k, (k < m)%nat -> x k = x' k) -> (forall k, (k < m)%nat -> y k = y' k) ->
  dot m x y = dot m x' y'.
Proof. intros H1 H2. apply sum_ext. intros k Hk. now rewrite H1, H2. Qed.
Lemma dot_sym m x y : dot m x y = dot m y x.
Proof. apply sum_ext. intros. ring. Qed.

(** x + b u <u, x>: a reflection or the identity when b (b <u, u> + 2) = 0. *)
Definition refl (m : nat) (b : R) (u x : nat -> R) (r : nat) : R := x r + b * u r * dot m u x.
Lemma refl_ext m b u u' x x' r : (r < m)%nat -> (forall k, (k < m)%nat -> u k = u' k) ->
  (forall k, (k < m)%nat -> x k = x' k) -> refl m b u x r = refl m b u' x' r.
Proof. intros Hr H1 H2. unfold refl. rewrite H1, H2 by exact Hr. now rewrite (dot_ext m u x u' x'). Qed.
Lemma dot_refl m b u x y : dot m y (refl m b u x) = dot m y x + b * dot m u x * dot m y u.
Proof.
  unfold dot at 1. unfold refl. rewrite (sum_ext m _ (fun k => y k * x k + b * dot m u x * (y k * u k))).
  - rewrite sum_plus, sum_scal. reflexivity.
  - intros. ring.
Qed.
Section Refl.
Context (m : nat) (b : R) (u : nat -> R) (Hb : b * (b * dot m u u + 2) = 0).
Lemma refl_isometry x y : dot m (refl m b u x) (refl m b u y) = dot m x y.
Proof.
  rewrite dot_refl, !(dot_sym m (refl m b u x)), !dot_refl, (dot_sym m y u), (dot_sym m y x).
  transitivity (dot m x y + (b * (b * dot m u u + 2)) * dot m u x * dot m u y); [ ring | rewrite Hb; ring ].
Qed.
Lemma refl_refl x r : refl m b u (refl m b u x) r = x r.
Proof.
  unfold refl at 1. rewrite dot_refl. unfold refl.
  transitivity (x r + (b * (b * dot m u u + 2)) * u r * dot m u x); [ ring | rewrite Hb; ring ].
Qed.
End Refl.
Lemma refl_linear m b u n (c : nat -> R) (y : nat -> nat -> R) r :
  refl m b u (fun r => sum n (fun k => y r k * c k)) r = sum n (fun k => refl m b u (fun r => y r k) r * c k).
Proof.
  unfold refl, dot. rewrite (sum_ext m _ (fun k => sum n (fun j => u k * y k j * c j))).
  - rewrite sum_swap, <- sum_scal, <- sum_plus. apply sum_ext. intros j _.
    rewrite sum_scal_r. ring.
  - intros k _. rewrite <- sum_scal. apply sum_ext. intros. ring.
Qed.
Lemma refl_fix m b u x r : dot m u x = 0 -> refl m b u x r = x r.
Proof. intros H. unfold refl. rewrite H. ring. Qed.

(** Householder's vector.  [x] vanishes below [p]; [y] is x over a scale. *)
Section House.
Context (m p : nat) (Hp : (p < m)%nat) (x : nat -> R) (scale : R) (Hs : scale <> 0).
Context (Hx : forall k, (k < m)%nat -> (k < p)%nat -> x k = 0).
Context (Hn : exists k, (k < m)%nat /\ x k <> 0).
Let y k := x k / scale.
Let s := dot m y y.
Context (g : R) (Hg : g * g = s) (Hsg : y p * g <= 0).
Let h := y p * g - s.
Let u k := if (k =? p)%nat then y p - g else y k.

Lemma house_s : 0 < s.
Proof.
  destruct Hn as (k & Hk & Hxk).
  assert (P : 0 <= s) by (apply sum_pos; intros; nra).
  destruct (Req_dec s 0) as [E | ]; [ | lra ]. exfalso.
  assert (Q : y k * y k = 0) by (apply (sum_pos_0 m (fun k => y k * y k)); [ intros; nra | exact E | exact Hk ]).
  apply Hxk. assert (y k = 0) by nra. unfold y in *. replace (x k) with (x k / scale * scale) by (field; auto).
  rewrite H. ring.
Qed.
Lemma house_h : h < 0.
Proof. unfold h. assert (H := house_s). lra. Qed.
Lemma house_g : g <> 0.
Proof. intros E. assert (H := house_s). rewrite E in Hg. lra. Qed.
Lemma house_up : u p <> 0.
Proof. unfold u. rewrite Nat.eqb_refl. intros E. assert (H := house_s). assert (y p = g) by lra. rewrite H0 in Hsg. lra. Qed.
Lemma house_hup : h = u p * g.
Proof. unfold h, u. rewrite Nat.eqb_refl. lra. Qed.
Lemma house_dot z : dot m u z = dot m y z - g * z p.
Proof.
  unfold dot. rewrite (sum_ext m _ (fun k => y k * z k - g * (if (k =? p)%nat then z k else 0))).
  - rewrite sum_minus, sum_scal. f_equal. f_equal. rewrite (sum_one m p); auto.
    + now rewrite Nat.eqb_refl.
    + intros i _ Hi. apply Nat.eqb_neq in Hi. now rewrite Hi.
  - intros k Hk. unfold u. destruct (Nat.eqb_spec k p) as [-> | ]; ring.
Qed.
Lemma house_uu : dot m u u = - (2 * h).
Proof.
  rewrite house_dot, (dot_sym m y u), house_dot. fold s. unfold u at 1. rewrite Nat.eqb_refl. unfold h. lra.
Qed.
Lemma house_uy : dot m u y = - h.
Proof. rewrite house_dot. fold s. unfold h. lra. Qed.
Lemma house_cond : / h * (/ h * dot m u u + 2) = 0.
Proof. rewrite house_uu. field. assert (H := house_h). lra. Qed.
Lemma house_image k : (k < m)%nat -> refl m (/ h) u x k = if (k =? p)%nat then scale * g else 0.
Proof.
  intros Hk. assert (E : forall k, x k = scale * y k) by (intros; unfold y; field; auto).
  assert (Hh := house_h). unfold refl.
  replace (dot m u x) with (scale * dot m u y).
  2: { unfold dot. rewrite <- sum_scal. apply sum_ext. intros i _. rewrite (E i). ring. }
  rewrite house_uy, E. unfold u. destruct (Nat.eqb_spec k p) as [-> | ]; field; lra.
Qed.
(** The same reflection from the vector scaled back. *)
Lemma house_scale z k : refl m (/ (scale * u p * (scale * g))) (fun k => scale * u k) z k = refl m (/ h) u z k.
Proof.
  unfold refl. f_equal.
  replace (dot m (fun k => scale * u k) z) with (scale * dot m u z).
  2: { unfold dot. rewrite <- sum_scal. apply sum_ext. intros. ring. }
  rewrite house_hup. assert (H1 := house_up). assert (H2 := house_g). field. repeat split; auto.
Qed.
Lemma house_scale_cond :
  / (scale * u p * (scale * g)) * (/ (scale * u p * (scale * g)) * dot m (fun k => scale * u k) (fun k => scale * u k) + 2) = 0.
Proof.
  replace (dot m (fun k => scale * u k) (fun k => scale * u k)) with (scale * scale * dot m u u).
  2: { unfold dot. rewrite <- sum_scal. apply sum_ext. intros. ring. }
  rewrite house_uu, house_hup. assert (H1 := house_up). assert (H2 := house_g). field. repeat split; auto.
Qed.
End House.
