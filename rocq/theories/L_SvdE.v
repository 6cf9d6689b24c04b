(** The last phase of [svd]. *)
From Coq Require Import ZArith Reals Arith List Lia Lra Bool.
From Verif Require Import Num NumR M_Lin S_Lin L_Sum M_Svd S_Svd L_SvdA L_SvdB L_SvdC L_SvdD.
Import ListNotations.
Open Scope R_scope.

(** The angle of a rotation that takes (f, h) to (z, 0). *)
Lemma rot_angle f h c0 s0 (eqb : R -> R -> bool) : (forall x, eqb x 0 = true <-> x = 0) -> c0 * c0 + s0 * s0 = 1 ->
  let z := sqrt (f * f + h * h) in
  let '(c, s) := if negb (eqb z 0) then (f / z, h / z) else (c0, s0) in
  c * c + s * s = 1 /\ c * f + s * h = z /\ - s * f + c * h = 0.
Proof.
  intros H0 H1 z. assert (P : 0 <= f * f + h * h) by nra. assert (Q := sqrt_sqrt _ P). fold z in Q.
  assert (Z := sqrt_pos (f * f + h * h)). fold z in Z.
  destruct (eqb z 0) eqn:E; cbn [negb].
  - apply H0 in E. rewrite E in *. assert (f = 0 /\ h = 0) as [-> ->] by (split; nra). split; [ exact H1 | ]. lra.
  - assert (z <> 0) by (apply (eqb0_false eqb H0); exact E). repeat split.
    + transitivity ((f * f + h * h) / (z * z)); [ field; auto | rewrite Q; field; rewrite <- Q; nra ].
    + transitivity ((f * f + h * h) / z); [ field; auto | rewrite <- Q; field; auto ].
    + field; auto.
Qed.

Section Qr.
Context (eqb : R -> R -> bool) (eqb0 : forall x, eqb x 0 = true <-> x = 0) (eqbxx : forall x, eqb x x = true).
Notation N := (RWith eqb).
Context (an eps : R) (Han : 0 <= an) (Heps : 0 <= eps).
Context (tol : forall x, eqb (an + Rabs x) an = true -> Rabs x <= eps * an).
Context (m n : nat) (Hmn : (n <= m)%nat) (A : nat -> nat -> R).

Definition good (U V : nat -> nat -> R) : Prop :=
  orthonormal m n U /\ orthonormal n n V /\
  (forall j k, (j < n)%nat -> (k < n)%nat -> sum n (fun r => V j r * V k r) = delta j k).
Definition fac (e : R) (U B V : nat -> nat -> R) : Prop :=
  forall r c, (r < m)%nat -> (c < n)%nat -> Rabs (A r c - prod3 n U B V r c) <= e.

Lemma fac_ext e U B B' V : (forall k j, (k < n)%nat -> (j < n)%nat -> B k j = B' k j) -> fac e U B V -> fac e U B' V.
Proof. intros H F r c Hr Hc. rewrite <- (prod3_ext n U U B B' V V); auto. Qed.

Lemma entry_le rows U r k : orthonormal rows n U -> (r < rows)%nat -> (k < n)%nat -> Rabs (U r k) <= 1.
Proof.
  intros O Hr Hk. specialize (O k k Hk Hk). rewrite delta_same in O.
  assert (P : U r k * U r k <= 1).
  { rewrite <- O. rewrite (sum_pick rows r) by exact Hr.
    assert (0 <= sum rows (fun i => if (i =? r)%nat then 0 else U i k * U i k)); [ | lra ].
    apply sum_pos. intros i _. destruct (i =? r)%nat; [ lra | nra ]. }
  apply Rabs_le. split; nra.
Qed.

(** One entry of the middle matrix changed. *)
Lemma fac_change e d k0 j0 U B B' V : good U V -> (k0 < n)%nat -> (j0 < n)%nat ->
  (forall k j, (k < n)%nat -> (j < n)%nat -> (k <> k0 \/ j <> j0) -> B k j = B' k j) ->
  Rabs (B k0 j0 - B' k0 j0) <= d -> fac e U B V -> fac (e + d) U B' V.
Proof.
  intros [OU [OV _]] Hk Hj HB Hd F r c Hr Hc. specialize (F r c Hr Hc).
  assert (E : prod3 n U B V r c - prod3 n U B' V r c = U r k0 * (B k0 j0 - B' k0 j0) * V c j0).
  { unfold prod3. rewrite <- sum_minus. rewrite (sum_one n k0); [ | exact Hk | ].
    - rewrite <- sum_minus. rewrite (sum_one n j0); [ ring | exact Hj | ].
      intros j Hj' Hne. rewrite HB by auto. ring.
    - intros k Hk' Hne. rewrite <- sum_minus. apply sum_0. intros j Hj'. rewrite HB by auto. ring. }
  assert (D : Rabs (prod3 n U B V r c - prod3 n U B' V r c) <= d).
  { rewrite E, !Rabs_mult. assert (a1 := entry_le m U r k0 OU Hr Hk). assert (a2 := entry_le n V c j0 OV Hc Hj).
    assert (b1 := Rabs_pos (U r k0)). assert (b2 := Rabs_pos (V c j0)). assert (b3 := Rabs_pos (B k0 j0 - B' k0 j0)).
    set (x := Rabs (U r k0)) in *. set (y := Rabs (V c j0)) in *. set (t := Rabs (B k0 j0 - B' k0 j0)) in *.
    assert (0 <= x * t <= t) by nra. nra. }
  replace (A r c - prod3 n U B' V r c) with (A r c - prod3 n U B V r c + (prod3 n U B V r c - prod3 n U B' V r c)) by ring.
  eapply Rle_trans; [ apply Rabs_triang | ]. lra.
Qed.

(** Rotations of the columns of either factor. *)
Lemma rot_l e p q c s U B V : (p < n)%nat -> (q < n)%nat -> p <> q -> c * c + s * s = 1 -> good U V ->
  good (rot_cols (N := N) m p q c s U) V /\
  (fac e U B V -> fac e (rot_cols (N := N) m p q c s U) (fun k j => rotv p q c s (fun k => B k j) k) V).
Proof.
  intros Hp Hq Hpq H (G1 & G2 & G3). split.
  - split; [ | split; auto ]. apply (rotv_orthonormal m n p q c s U); auto.
    intros r k Hr. rewrite rot_cells, (proj2 (Nat.ltb_lt r m)) by auto. reflexivity.
  - intros F r k Hr Hk. rewrite (prod3_ext n _ (fun r => rotv p q c s (U r)) _ (fun k j => rotv p q c s (fun k => B k j) k) V V); auto.
    + rewrite prod3_rot_l; auto.
    + intros j _. rewrite rot_cells, (proj2 (Nat.ltb_lt r m)) by auto. reflexivity.
Qed.
Lemma rot_r e p q c s U B V : (p < n)%nat -> (q < n)%nat -> p <> q -> c * c + s * s = 1 -> good U V ->
  good U (rot_cols (N := N) n p q c s V) /\
  (fac e U B V -> fac e U (fun k j => rotv p q c s (B k) j) (rot_cols (N := N) n p q c s V)).
Proof.
  intros Hp Hq Hpq H (G1 & G2 & G3). split.
  - split; [ auto | split ].
    + apply (rotv_orthonormal n n p q c s V); auto.
      intros r k Hr. rewrite rot_cells, (proj2 (Nat.ltb_lt r n)) by auto. reflexivity.
    + intros j k Hj Hk. rewrite <- G3 by auto. rewrite <- (rotv_dot n p q c s (V j) (V k) Hp Hq Hpq H).
      apply sum_ext. intros r Hr. rewrite !rot_cells by auto. rewrite !(proj2 (Nat.ltb_lt _ n)) by auto. reflexivity.
  - intros F r k Hr Hk. rewrite (prod3_ext n U U _ (fun k j => rotv p q c s (B k) j) _ (fun c0 => rotv p q c s (V c0))); auto.
    + rewrite prod3_rot_r; auto.
    + intros j _. rewrite rot_cells, (proj2 (Nat.ltb_lt k n)) by auto. reflexivity.
Qed.

Definition qU (q : qr N) : nat -> nat -> R := q_a q.
Definition qV (q : qr N) : nat -> nat -> R := q_v q.
Definition qW (q : qr N) : nat -> R := q_w q.
Definition qS (q : qr N) : nat -> R := q_ws q.

(** ** A sweep *)
Definition chI (e : R) (q0 : qr N) (l K p : nat) (st : chase N) : Prop :=
  let q := c_q st in
  good (qU q) (qV q) /\ q_skip q = q_skip q0 /\
  (forall j, (j < l \/ K <= j)%nat -> qW q j = qW q0 j) /\ (forall j, (j < l \/ K <= j)%nat -> qS q j = qS q0 j) /\
  (fac e (qU q0) (bd K (qW q0) (set1 (qS q0) l 0)) (qV q0) ->
   fac e (qU q) (ch l p K (qW q) (qS q) (c_f st) (c_x st) (c_c st) (c_s st)) (qV q)).

Lemma chase_spec e q0 l K p st : (l <= p < K)%nat -> (K < n)%nat -> chI e q0 l K p st ->
  chI e q0 l K (S p) (chase_step (N := N) m n p st).
Proof.
  intros Hp HK (G & Sk & I1 & I2 & F). destruct st as [[a w v ws skip] f x c s]. unfold chase_step.
  cbn [c_q c_f c_x c_c c_s q_a q_w q_v q_ws q_skip qU qV qW qS] in *. unW.
  set (h := s * ws (S p)). set (g := c * ws (S p)).
  assert (R1 := rot_angle f h 1 0 eqb eqb0 ltac:(ring)). cbv zeta in R1.
  destruct (if negb (eqb (sqrt (f * f + h * h)) 0) then (f / sqrt (f * f + h * h), h / sqrt (f * f + h * h)) else (1, 0)) as [c1 s1].
  destruct R1 as (O1 & Z1 & Z1').
  set (f' := x * c1 + g * s1). set (h' := w (S p) * s1).
  assert (R2 := rot_angle f' h' c1 s1 eqb eqb0 O1). cbv zeta in R2.
  destruct (if negb (eqb (sqrt (f' * f' + h' * h')) 0) then (f' / sqrt (f' * f' + h' * h'), h' / sqrt (f' * f' + h' * h')) else (c1, s1)) as [c2 s2].
  destruct R2 as (O2 & Z2 & Z2').
  unfold chI. cbn [c_q c_f c_x c_c c_s q_a q_w q_v q_ws q_skip qU qV qW qS].
  destruct (rot_r e p (S p) c1 s1 a (ch l p K w ws f x c s) v ltac:(lia) ltac:(lia) ltac:(lia) O1 G) as [G1 F1].
  match type of F1 with _ -> fac e _ ?B1 _ =>
    destruct (rot_l e p (S p) c2 s2 a B1 _ ltac:(lia) ltac:(lia) ltac:(lia) O2 G1) as [G2 F2] end.
  split; [ exact G2 | ]. split; [ exact Sk | ].
  split; [ intros j Hj; rewrite set1_other by lia; apply I1; exact Hj | ].
  split; [ intros j Hj; rewrite set1_other by lia; apply I2; exact Hj | ].
  intros F0. specialize (F2 (F1 (F F0))). eapply fac_ext; [ | exact F2 ].
  intros k j Hk Hj. symmetry.
  exact (ch_step l p K w ws f x c s c1 s1 c2 s2 _ _ f' (- x * s1 + g * c1) h' (w (S p) * c1) Hp Z1 Z1' eq_refl eq_refl eq_refl eq_refl Z2 Z2' k j).
Qed.

Lemma sweep_spec e q l K : (l < K < n)%nat -> good (qU q) (qV q) ->
  let q' := sweep (N := N) m n l K q in
  good (qU q') (qV q') /\ q_skip q' = q_skip q /\ (forall j, (K < j)%nat -> qW q' j = qW q j) /\
  (qS q O = 0 -> qS q' O = 0) /\
  (fac e (qU q) (bd K (qW q) (set1 (qS q) l 0)) (qV q) -> fac e (qU q') (bd K (qW q') (qS q')) (qV q')).
Proof.
  intros Hl G q'.
  unfold q', sweep. cbv zeta.
  match goal with |- context [for_ l K ?b (Chase q ?f0 ?x0 ?c0 ?s0)] =>
    assert (H : chI e q l K K (for_ l K b (Chase q f0 x0 c0 s0))) end.
  { apply (for_inv _ (chI e q l K)); [ lia | | ].
    - unfold chI. cbn [c_q c_f c_x c_c c_s]. split; [ exact G | ]. split; [ reflexivity | ]. split; [ reflexivity | ]. split; [ reflexivity | ].
      intros F. eapply fac_ext; [ | exact F ]. intros k j _ _. symmetry. apply ch_start.
    - intros p st Hp H. apply chase_spec; auto; lia. }
  match goal with H : chI _ _ _ _ _ ?t |- _ => destruct t as [[a w v ws skip] f x c s] end.
  destruct H as (H1 & H2 & H3 & H4 & H5). cbn [c_q c_f c_x c_c c_s q_a q_w q_v q_ws q_skip qU qV qW qS] in *.
  cbn [q_a q_w q_v q_ws q_skip qU qV qW qS].
  split; [ exact H1 | ]. split; [ exact H2 | ]. split; [ intros j Hj; rewrite set1_other by lia; apply H3; lia | ]. split.
  - intros Z. rewrite set1_other by lia. unfold set1. destruct (Nat.eqb_spec 0 l); [ reflexivity | ]. rewrite H4 by lia. exact Z.
  - intros F. eapply fac_ext; [ | exact (H5 F) ]. intros k j _ _. rewrite ch_end by lia. reflexivity.
Qed.

(** ** The test for splitting *)
Lemma split_spec w ws K : ws O = 0 -> exists l b, split (N := N) an w ws K = Some (l, b) /\ (l <= K)%nat /\
  (b = false -> Rabs (ws l) <= eps * an) /\
  (b = true -> (1 <= l)%nat /\ Rabs (w (l - 1)%nat) <= eps * an /\ eqb (an + Rabs (ws l)) an = false).
Proof.
  intros Z. induction K as [ | K IH]; cbn [split].
  - change (n_eqb _ _) with (eqb (an + Rabs (ws O)) an).
    assert (E : eqb (an + Rabs (ws O)) an = true) by (rewrite Z, Rabs_R0, Rplus_0_r; apply eqbxx).
    rewrite E. exists O, false. split; [ reflexivity | ]. split; [ lia | ]. split; [ intros _; apply tol, E | discriminate ].
  - change (n_eqb (n := N) (n_add (n := N) an (n_abs (n := N) (ws (S K)))) an) with (eqb (an + Rabs (ws (S K))) an).
    change (n_eqb (n := N) (n_add (n := N) an (n_abs (n := N) (w K))) an) with (eqb (an + Rabs (w K)) an).
    destruct (eqb (an + Rabs (ws (S K))) an) eqn:E1.
    + exists (S K), false. split; [ reflexivity | ]. split; [ lia | ]. split; [ intros _; apply tol, E1 | discriminate ].
    + destruct (eqb (an + Rabs (w K)) an) eqn:E2.
      * exists (S K), true. split; [ reflexivity | ]. split; [ lia | ]. split; [ discriminate | ].
        intros _. replace (S K - 1)%nat with K by lia. split; [ lia | ]. split; [ apply tol, E2 | exact E1 ].
      * destruct IH as (l & b & E & Hl & H1 & H2). exists l, b. split; [ exact E | ]. split; [ lia | auto ].
Qed.

(** ** Cancellation *)
Lemma cancel_angle f g : f <> 0 -> let h := sqrt (f * f + g * g) in
  let c := g / h in let s := - f / h in c * c + s * s = 1 /\ c * f + s * g = 0 /\ - s * f + c * g = h.
Proof.
  intros Hf h c s. assert (P : 0 < f * f + g * g) by nra. assert (Q := sqrt_sqrt _ (Rlt_le _ _ P)). fold h in Q.
  assert (h <> 0) by (intros E; rewrite E in Q; nra). unfold c, s. repeat split.
  - transitivity ((f * f + g * g) / (h * h)); [ field; auto | rewrite Q; field; lra ].
  - field; auto.
  - transitivity ((f * f + g * g) / h); [ field; auto | rewrite <- Q; field; auto ].
Qed.
Lemma not_negligible f : eqb (an + Rabs f) an = false -> f <> 0.
Proof. intros E ->. rewrite Rabs_R0, Rplus_0_r, eqbxx in E. discriminate. Qed.

Lemma cancel_step_eq l i q (s : R) : cancel_step (N := N) m an l i (q, s, false) =
  let f := s * qS q i in let g := qW q i in let h := sqrt (f * f + g * g) in
  if eqb (an + Rabs f) an then (q, s, true)
  else (Qr (rot_cols (N := N) m (l - 1)%nat i (g / h) (- f / h) (qU q)) (set1 (qW q) i h) (qV q) (qS q) (q_skip q), - f / h, false).
Proof. reflexivity. Qed.

Lemma cancel_good q l K : (1 <= l <= K)%nat -> (K < n)%nat -> good (qU q) (qV q) ->
  let q' := cancel_all (N := N) m an l K q in
  good (qU q') (qV q') /\ qS q' = qS q /\ q_skip q' = (q_skip q || negb (l =? K)%nat)%bool /\
  (forall j, (K < j)%nat -> qW q' j = qW q j).
Proof.
  intros Hl HK G q'. unfold q', cancel_all.
  match goal with |- context [for_ l (S K) ?b ?s] =>
    assert (H : (fun (_ : nat) (st : qr N * R * bool) => let q1 := fst (fst st) in
      good (qU q1) (qV q1) /\ qS q1 = qS q /\ q_skip q1 = q_skip q /\ (forall j, (K < j)%nat -> qW q1 j = qW q j)) (S K) (for_ l (S K) b s)) end.
  { apply for_inv; [ lia | cbn; auto | ].
    intros i [[q1 s] stop] Hi (I1 & I2 & I3 & I4). cbn [fst] in I1, I2, I3, I4.
    destruct stop; [ exact (conj I1 (conj I2 (conj I3 I4))) | ]. rewrite cancel_step_eq. cbv zeta.
    set (f := s * qS q1 i) in *. set (g := qW q1 i).
    destruct (eqb (an + Rabs f) an) eqn:E; [ exact (conj I1 (conj I2 (conj I3 I4))) | ]. cbn [fst].
    destruct (cancel_angle f g (not_negligible f E)) as (O & _).
    cbn [qU qV qS qW q_a q_v q_ws q_skip q_w].
    destruct (rot_l 0 (l - 1)%nat i (g / sqrt (f * f + g * g)) (- f / sqrt (f * f + g * g)) (qU q1) (fun _ _ => 0) (qV q1)) as [G1 _]; try lia; auto.
    split; [ exact G1 | ]. split; [ exact I2 | ]. split; [ exact I3 | ].
    intros j Hj. rewrite set1_other by lia. apply I4. exact Hj. }
  match goal with |- context [for_ l (S K) ?b ?s] => destruct (for_ l (S K) b s) as [[q1 s'] stop] end.
  destruct H as (I1 & I2 & I3 & I4). cbn [fst] in *. destruct q1 as [a w v ws skip]. cbn in *. rewrite I3. auto.
Qed.

(** With l = K there is one rotation. *)
Lemma cancel_fac e q K : (1 <= K < n)%nat -> good (qU q) (qV q) ->
  Rabs (qW q (K - 1)%nat) <= eps * an -> eqb (an + Rabs (qS q K)) an = false ->
  let q' := cancel_all (N := N) m an K K q in
  fac e (qU q) (bd K (qW q) (qS q)) (qV q) ->
  fac (e + 2 * (eps * an)) (qU q') (bd (K - 1) (qW q') (qS q')) (qV q').
Proof.
  intros HK G Hw E q' F. unfold q', cancel_all. rewrite for_last by lia. rewrite for_empty by lia.
  change (n_ofZ (n := N) 1) with 1. rewrite cancel_step_eq. cbv zeta.
  replace (1 * qS q K) with (qS q K) by ring.
  rewrite E.
  set (f := qS q K) in *. set (g := qW q K). set (h := sqrt (f * f + g * g)).
  change (fac (e + 2 * (eps * an)) (rot_cols (N := N) m (K - 1) K (g / h) (- f / h) (qU q)) (bd (K - 1) (set1 (qW q) K h) (qS q)) (qV q)).
  destruct (cancel_angle f g (not_negligible f E)) as (O & Z1 & Z2). fold h in O, Z1, Z2.
  set (c := g / h) in *. set (s := - f / h) in *.
  pose (w0 := set1 (qW q) (K - 1)%nat 0).
  assert (F0 : fac (e + eps * an) (qU q) (bd K w0 (qS q)) (qV q)).
  { apply (fac_change e (eps * an) (K - 1)%nat (K - 1)%nat _ (bd K (qW q) (qS q))); auto; try lia.
    - intros k j Hk Hj Hne. unfold bd, w0, set1. nats; subst; reflexivity || lia.
    - unfold bd, w0, set1. rewrite !Nat.eqb_refl. rewrite Rminus_0_r. exact Hw. }
  destruct (rot_l (e + eps * an) (K - 1)%nat K c s (qU q) (bd K w0 (qS q)) (qV q)) as [G1 F1]; try lia; auto.
  specialize (F1 F0).
  replace (e + 2 * (eps * an)) with (e + eps * an + eps * an) by ring.
  eapply (fac_change _ _ (K - 1)%nat (K - 1)%nat); [ exact G1 | lia | lia | | | exact F1 ].
  - intros k j Hk Hj Hne. unfold rotv, bd, w0, set1.
    destruct (Nat.eqb_spec k (K - 1)) as [-> | ]; [ | destruct (Nat.eqb_spec k K) as [-> | ] ];
      nats; subst; fold f; fold g; try lra; replace (S (K - 1)) with K in * by lia; try lia; fold f; lra.
  - unfold rotv, bd, w0, set1. rewrite !Nat.eqb_refl. nats.
    replace (c * 0 + s * 0 - qW q (K - 1)%nat) with (- qW q (K - 1)%nat) by ring. rewrite Rabs_Ropp. exact Hw.
Qed.

(** ** The sign of a singular value *)
Lemma settle_spec e q K : (K < n)%nat -> good (qU q) (qV q) -> let q' := settle (N := N) n K q in
  good (qU q') (qV q') /\ qS q' = qS q /\ q_skip q' = q_skip q /\ 0 <= qW q' K /\
  (forall j, (K < j)%nat -> qW q' j = qW q j) /\
  (fac e (qU q) (bd (K - 1) (qW q) (qS q)) (qV q) -> fac e (qU q') (bd (K - 1) (qW q') (qS q')) (qV q')).
Proof.
  intros HK G. destruct q as [a w v ws skip]. unfold settle. cbn [q_a q_w q_v q_ws q_skip]. unW.
  destruct (Rltb_spec (w K) 0) as [Hlt | Hge].
  2: { cbn [qU qV qS qW q_a q_w q_v q_ws q_skip]. repeat split; try apply G; auto. lra. }
  pose (v' := for_ 0 n (fun j (v : nat -> nat -> R) => set2 v j K (- v j K)) v).
  match goal with |- context [for_ 0 n ?f v] => change (for_ 0 n f v) with v' end.
  assert (HV : forall r k, (r < n)%nat -> v' r k = if (k =? K)%nat then - v r k else v r k).
  { intros r k Hr. unfold v'. rewrite (for_col R (fun j v => - v j K)); [ | lia | ].
    - rewrite (proj2 (Nat.ltb_lt r n)) by lia. cbn [Nat.leb]. rewrite !andb_true_r. destruct (Nat.eqb_spec k K) as [-> | ]; reflexivity.
    - intros k' b1 b2 H. rewrite H by (right; left; lia). reflexivity. }
  cbn [qU qV qS qW q_a q_w q_v q_ws q_skip].
  destruct G as (G1 & G2 & G3). cbn [qU qV qS qW q_a q_w q_v q_ws q_skip] in G1, G2, G3.
  split; [ split; [ exact G1 | split ] | ]. 2: { intros j k Hj Hk. rewrite <- G3 by auto. apply sum_ext. intros r Hr. rewrite !HV by auto. destruct (r =? K)%nat; ring. }
  { intros j k Hj Hk. specialize (G2 j k Hj Hk).
    rewrite (sum_ext n _ (fun r => (if (j =? K)%nat then -1 else 1) * (if (k =? K)%nat then -1 else 1) * (v r j * v r k))).
    - rewrite sum_scal, G2. unfold delta. destruct (Nat.eqb_spec j K), (Nat.eqb_spec k K), (Nat.eqb_spec j k); try lia; ring.
    - intros r Hr. rewrite !HV by auto. destruct (j =? K)%nat, (k =? K)%nat; ring. }
  split; [ reflexivity | ]. split; [ reflexivity | ]. split; [ rewrite set1_same; lra | ].
  split; [ intros j Hj; apply set1_other; lia | ].
  intros F r c Hr Hc. specialize (F r c Hr Hc). cbn [qU qV qS qW q_a q_w q_v q_ws q_skip] in F.
  enough (E : prod3 n a (bd (K - 1) w ws) v r c = prod3 n a (bd (K - 1) (set1 w K (- w K)) ws) v' r c).
  { refine (eq_ind _ (fun z => Rabs (A r c - z) <= e) F _ E). }
  apply sum_ext. intros k Hk. apply sum_ext. intros j Hj. rewrite HV by auto. unfold bd, set1.
  nats; subst; try ring.
Qed.

(** ** A negligible diagonal element *)
Lemma bd_kernel t K w ws p : 0 <= t -> (p <= K)%nat -> (K < n)%nat -> Rabs (w p) <= t ->
  exists q x, (q <= K)%nat /\ Rabs (w q) <= t /\ x q = 1 /\
    forall r, (r < n)%nat -> sum n (fun j => bd K w ws r j * x j) = if (r =? q)%nat then w q else 0.
Proof.
  intros Ht Hp HK Hw.
  assert (Hmin : exists p, (p <= K)%nat /\ Rabs (w p) <= t /\ forall j, (j < p)%nat -> w j <> 0).
  { clear - Ht Hp Hw. revert Hp Hw. induction p as [p IH] using lt_wf_ind. intros Hp Hw.
    destruct (existsb (fun j => if Rle_dec (Rabs (w j)) t then true else false) (seq 0 p)) eqn:Ex.
    - apply existsb_exists in Ex. destruct Ex as (j & Hj & Ej). apply in_seq in Hj.
      destruct (Rle_dec (Rabs (w j)) t) as [E | ]; [ | discriminate ]. apply (IH j); [ lia | lia | exact E ].
    - exists p. split; [ exact Hp | ]. split; [ exact Hw | ]. intros j Hj E.
      enough (existsb (fun j => if Rle_dec (Rabs (w j)) t then true else false) (seq 0 p) = true) by congruence.
      apply existsb_exists. exists j. split; [ apply in_seq; lia | ]. rewrite E, Rabs_R0. destruct (Rle_dec 0 t); [ reflexivity | contradiction ]. }
  clear p Hp Hw. destruct Hmin as (p & Hp & Hw & Hm).
  assert (Row : forall r x, (r < n)%nat -> sum n (fun j => bd K w ws r j * x j) = w r * x r + (if (S r <=? K)%nat then ws (S r) * x (S r) else 0)).
  { intros r x Hr. destruct (Nat.leb_spec (S r) K).
    - rewrite (sum_two n r (S r)); try lia.
      + unfold bd. nats; ring.
      + intros j Hj H1 H2. unfold bd. nats; ring.
    - rewrite (sum_one n r); try lia.
      + unfold bd. nats; ring.
      + intros j Hj H1. unfold bd. nats; ring. }
  assert (Ex : forall d, (d <= p)%nat -> exists x, x p = 1 /\ (forall j, (p < j)%nat -> x j = 0) /\
    forall r, (p - d <= r < p)%nat -> w r * x r + ws (S r) * x (S r) = 0).
  { induction d as [ | d IH]; intros Hd.
    - exists (fun j => if (j =? p)%nat then 1 else 0). rewrite Nat.eqb_refl. split; [ reflexivity | ]. split; [ | intros; lia ].
      intros j Hj. nats; reflexivity.
    - destruct (IH ltac:(lia)) as (x & X1 & X2 & X3). pose (r0 := (p - S d)%nat).
      exists (set1 x r0 (- (ws (S r0) * x (S r0)) / w r0)). assert (r0 < p)%nat by (unfold r0; lia).
      split; [ rewrite set1_other by lia; exact X1 | ]. split; [ intros j Hj; rewrite set1_other by lia; apply X2; exact Hj | ].
      intros r Hr. destruct (Nat.eq_dec r r0) as [-> | Hne].
      + rewrite set1_same, set1_other by lia. field. apply Hm. lia.
      + rewrite !set1_other by (unfold r0 in *; lia). apply X3. unfold r0 in *. lia. }
  destruct (Ex p ltac:(lia)) as (x & X1 & X2 & X3). exists p, x. split; [ exact Hp | ]. split; [ exact Hw | ]. split; [ exact X1 | ].
  intros r Hr. rewrite Row by exact Hr. destruct (Nat.ltb_spec r p).
  - destruct (Nat.eqb_spec r p); [ lia | ]. destruct (Nat.leb_spec (S r) K); [ apply X3; lia | lia ].
  - rewrite (X2 (S r)) by lia. destruct (Nat.eqb_spec r p) as [-> | ]; [ rewrite X1 | rewrite (X2 r) by lia ]; destruct (S _ <=? K)%nat; ring.
Qed.

Lemma ortho_norm rows U z : orthonormal rows n U -> norm2 rows (fun r => sum n (fun k => U r k * z k)) = norm2 n z.
Proof.
  intros O. unfold norm2.
  rewrite (sum_ext rows _ (fun r => sum n (fun k => sum n (fun l => U r k * U r l * (z k * z l))))).
  2: { intros r _. rewrite <- sum_scal_r. apply sum_ext. intros k _. rewrite <- sum_scal. apply sum_ext. intros; ring. }
  rewrite sum_swap. apply sum_ext. intros k Hk. rewrite sum_swap.
  rewrite (sum_ext n _ (fun l => delta k l * (z k * z l))).
  - rewrite (sum_delta_l n k (fun l => z k * z l)) by exact Hk. ring.
  - intros l Hl. rewrite sum_scal_r. now rewrite O.
Qed.

Lemma sum_sq k f : sum k f * sum k f <= INR k * sum k (fun i => f i * f i).
Proof.
  induction k as [ | k IH]; [ cbn; lra | ]. rewrite S_INR. cbn [sum].
  assert (Q : 0 <= sum k (fun i => f i * f i)) by (apply sum_pos; intros; nra).
  set (s := sum k f) in *. set (q := sum k (fun i => f i * f i)) in *.
  destruct k as [ | k'].
  - replace s with 0 by reflexivity. replace q with 0 by reflexivity. cbn [INR]. nra.
  - assert (P : 0 < INR (S k')) by (apply lt_0_INR; lia). set (N0 := INR (S k')) in *.
    assert (H : 2 * s * f (S k') <= q + N0 * f (S k') ^ 2).
    { apply Rmult_le_reg_l with N0; [ exact P | ]. assert (Sq := pow2_ge_0 (s - N0 * f (S k'))).
      replace ((s - N0 * f (S k')) ^ 2) with (s * s - 2 * (N0 * s * f (S k')) + N0 * N0 * f (S k') ^ 2) in Sq by ring.
      replace (N0 * (2 * s * f (S k'))) with (2 * (N0 * s * f (S k'))) by ring.
      replace (N0 * (q + N0 * f (S k') ^ 2)) with (N0 * q + N0 * N0 * f (S k') ^ 2) by ring. lra. }
    nra.
Qed.

Lemma margin_diag U V K w ws e t : 0 <= t -> 0 <= e -> good U V -> fac e U (bd K w ws) V -> (K < n)%nat ->
  (forall y, (exists c, (c < n)%nat /\ y c <> 0) -> (2 * t ^ 2 + 2 * (INR m * INR n * e ^ 2)) * norm2 n y < norm2 m (mulv n A y)) ->
  forall p, (p <= K)%nat -> t < Rabs (w p).
Proof.
  intros Ht He (OU & OV & _) F HK Mar p Hp. destruct (Rlt_le_dec t (Rabs (w p))) as [ | Hw]; [ assumption | exfalso ].
  destruct (bd_kernel t K w ws p Ht Hp HK Hw) as (q & x & Hq & Hwq & Hx & Hk).
  pose (y := fun c => sum n (fun k => V c k * x k)).
  assert (Ny : norm2 n y = norm2 n x) by (apply ortho_norm; exact OV).
  assert (Nx : 1 <= norm2 n x).
  { unfold norm2. rewrite (sum_pick n q) by lia. rewrite Hx.
    assert (0 <= sum n (fun i => if (i =? q)%nat then 0 else x i * x i)); [ | lra ].
    apply sum_pos. intros i _. destruct (i =? q)%nat; [ lra | nra ]. }
  assert (Y0 : exists c, (c < n)%nat /\ y c <> 0).
  { destruct (existsb (fun c => if Req_EM_T (y c) 0 then false else true) (seq 0 n)) eqn:Ex.
    - apply existsb_exists in Ex. destruct Ex as (c & Hc & E). apply in_seq in Hc. exists c. split; [ lia | ].
      destruct (Req_EM_T (y c) 0); [ discriminate | assumption ].
    - exfalso. enough (norm2 n y = 0) by lra. unfold norm2. apply sum_0. intros c Hc.
      destruct (Req_EM_T (y c) 0) as [-> | Hne]; [ ring | ].
      enough (existsb (fun c => if Req_EM_T (y c) 0 then false else true) (seq 0 n) = true) by congruence.
      apply existsb_exists. exists c. split; [ apply in_seq; lia | ]. destruct (Req_EM_T (y c) 0); [ contradiction | reflexivity ]. }
  specialize (Mar y Y0).
  assert (Y : forall j, (j < n)%nat -> sum n (fun c => V c j * y c) = x j).
  { intros j Hj. unfold y. rewrite (sum_ext n _ (fun c => sum n (fun k => V c j * V c k * x k))) by (intros; rewrite <- sum_scal; apply sum_ext; intros; ring).
    rewrite sum_swap. rewrite (sum_ext n _ (fun k => delta j k * x k)); [ apply sum_delta_l; exact Hj | ].
    intros k Hk'. rewrite sum_scal_r. rewrite OV by auto. reflexivity. }
  pose (B := bd K w ws). pose (D := fun r c => A r c - prod3 n U B V r c).
  pose (z := fun k => if (k =? q)%nat then w q else 0).
  assert (PB : forall r, sum n (fun c => prod3 n U B V r c * y c) = sum n (fun k => U r k * z k)).
  { intros r. unfold prod3.
    rewrite (sum_ext n _ (fun c => sum n (fun k => sum n (fun j => U r k * B k j * V c j * y c)))).
    2: { intros c' _. rewrite <- sum_scal_r. apply sum_ext. intros k _. rewrite <- sum_scal_r. reflexivity. }
    rewrite sum_swap. apply sum_ext. intros k Hk'. rewrite sum_swap.
    rewrite (sum_ext n _ (fun j => U r k * (B k j * x j))).
    - rewrite sum_scal. unfold B. rewrite Hk by exact Hk'. reflexivity.
    - intros j Hj. rewrite <- (Y j) by exact Hj. rewrite <- !sum_scal. apply sum_ext. intros; ring. }
  assert (Split : norm2 m (mulv n A y) <= 2 * norm2 m (fun r => sum n (fun k => U r k * z k)) + 2 * norm2 m (fun r => sum n (fun c => D r c * y c))).
  { unfold norm2. rewrite <- !sum_scal, <- sum_plus. apply sum_le. intros r Hr.
    replace (mulv n A y r) with (sum n (fun k => U r k * z k) + sum n (fun c => D r c * y c)).
    - set (a1 := sum n (fun k => U r k * z k)). set (a2 := sum n (fun c => D r c * y c)). assert (Sq := pow2_ge_0 (a1 - a2)). replace ((a1 - a2) ^ 2) with (a1 * a1 + a2 * a2 - 2 * (a1 * a2)) in Sq by ring. replace ((a1 + a2) * (a1 + a2)) with (a1 * a1 + a2 * a2 + 2 * (a1 * a2)) by ring. lra.
    - rewrite <- PB, <- sum_plus. unfold mulv, D. apply sum_ext. intros; ring. }
  rewrite (ortho_norm m U z OU) in Split.
  assert (Zz : norm2 n z <= t ^ 2).
  { unfold norm2. rewrite (sum_one n q); [ | lia | ].
    - unfold z. rewrite Nat.eqb_refl. replace (w q * w q) with (Rabs (w q) ^ 2) by (rewrite pow2_abs; ring). apply pow_incr. split; [ apply Rabs_pos | exact Hwq ].
    - intros k _ Hne. unfold z. destruct (Nat.eqb_spec k q); [ contradiction | ring ]. }
  assert (Dd : norm2 m (fun r => sum n (fun c => D r c * y c)) <= INR m * INR n * e ^ 2 * norm2 n y).
  { unfold norm2. apply Rle_trans with (sum m (fun _ => INR n * e ^ 2 * norm2 n y)).
    - apply sum_le. intros r Hr. apply Rle_trans with (INR n * sum n (fun c => (D r c * y c) * (D r c * y c))); [ apply sum_sq | ].
      rewrite Rmult_assoc. apply Rmult_le_compat_l; [ apply pos_INR | ]. unfold norm2. rewrite <- sum_scal. apply sum_le. intros c Hc.
      replace (D r c * y c * (D r c * y c)) with (D r c ^ 2 * (y c * y c)) by ring. apply Rmult_le_compat_r; [ nra | ]. specialize (F r c Hr Hc). fold B in F. fold (D r c) in F.
      rewrite <- (pow2_abs (D r c)). apply pow_incr. split; [ apply Rabs_pos | exact F ].
    - replace (sum m (fun _ => INR n * e ^ 2 * norm2 n y)) with (INR m * (INR n * e ^ 2 * norm2 n y)); [ fold (norm2 n y); lra | ].
      generalize (INR n * e ^ 2 * norm2 n y). intros C0. clear. induction m as [ | k IH]; [ cbn; ring | ]. rewrite S_INR. cbn [sum]. rewrite <- IH. ring. }
  assert (0 <= t ^ 2) by nra. rewrite Ny in *. nra.
Qed.

(** ** All iterations for one [K] *)
Definition tot : R := eps * an.
Definition NC : Prop := (n <= 2)%nat \/ forall y, (exists c, (c < n)%nat /\ y c <> 0) ->
  (2 * tot ^ 2 + 2 * (INR m * INR n * (INR n * (31 * tot)) ^ 2)) * norm2 n y < norm2 m (mulv n A y).
Record Inv (ok : Prop) (e : R) (K : nat) (q : qr N) : Prop := {
  i_good : good (qU q) (qV q);
  i_ws : qS q O = 0;
  i_fac : ok -> q_skip q = false -> fac e (qU q) (bd K (qW q) (qS q)) (qV q);
}.
Lemma tot_pos : 0 <= tot.
Proof. unfold tot. apply Rmult_le_pos; assumption. Qed.

Lemma iterate_spec K t : (K < n)%nat -> forall ok e q st, 0 <= e -> e + (INR t + 1) * tot <= INR n * (31 * tot) -> Inv ok e K q ->
  exists q' st', qr_iterate (N := N) m n an K (S t) q st = Some (q', st') /\
    good (qU q') (qV q') /\ qS q' O = 0 /\ (forall j, (K < j)%nat -> qW q' j = qW q j) /\
    (ok -> NC -> q_skip q = false -> q_skip q' = false) /\
    ((st' = st /\ 0 <= qW q' K /\ (ok -> q_skip q' = false -> fac (e + (INR t + 2) * tot) (qU q') (bd (K - 1) (qW q') (qS q')) (qV q')))
     \/ (st' = K /\ (0 < K)%nat)).
Proof.
  intros HK. assert (T := tot_pos).
  assert (Drop : forall e q l, (l <= K)%nat -> good (qU q) (qV q) -> Rabs (qS q l) <= eps * an ->
    fac e (qU q) (bd K (qW q) (qS q)) (qV q) -> fac (e + tot) (qU q) (bd K (qW q) (set1 (qS q) l 0)) (qV q)).
  { intros e q l Hl G Hs F. destruct l as [ | l].
    - intros r c Hr Hc. specialize (F r c Hr Hc).
      rewrite (prod3_ext n _ (qU q) _ (bd K (qW q) (qS q)) _ (qV q)); auto; [ lra | ].
      intros k j _ _. unfold bd, set1. nats; reflexivity.
    - apply (fac_change e tot l (S l) _ (bd K (qW q) (qS q))); auto; try lia.
      + intros k j Hk Hj Hne. unfold bd, set1. nats; subst; reflexivity || lia.
      + unfold bd, set1. nats. rewrite Rminus_0_r. exact Hs. }
  induction t as [ | t IH]; intros ok e q st He He1 [G Z F].
  all: cbn [qr_iterate]; destruct (split_spec (qW q) (qS q) K Z) as (l & b & Es & Hl & H1 & H2).
  all: change (split (N := N) an (q_w q) (q_ws q) K) with (split (N := N) an (qW q) (qS q) K); rewrite Es.
  all: set (q1 := if b then cancel_all (N := N) m an l K q else q).
  all: assert (Q1 : good (qU q1) (qV q1) /\ qS q1 = qS q /\ (forall j, (K < j)%nat -> qW q1 j = qW q j) /\
         (q_skip q1 = false -> q_skip q = false) /\ (ok -> NC -> q_skip q = false -> q_skip q1 = false) /\
         (q_skip q1 = false -> b = true -> l = K)).
  1, 3: destruct b; unfold q1;
    [ destruct (H2 eq_refl) as (L1 & L2 & L3); destruct (cancel_good q l K ltac:(lia) HK G) as (C1 & C2 & C3 & C4);
      split; [ exact C1 | ]; split; [ exact C2 | ]; split; [ exact C4 | ]; rewrite C3; split; [ | split ];
      [ intros E; apply orb_false_iff in E; apply E
      | intros Ok N0 E; rewrite E; cbn [orb]; apply negb_false_iff; apply Nat.eqb_eq;
        destruct N0 as [Hn | N0];
        [ lia
        | exfalso; specialize (F Ok E);
          assert (M1 : tot < Rabs (qW q (l - 1)%nat));
          [ apply (margin_diag (qU q) (qV q) K (qW q) (qS q) e tot T He G F HK); [ | lia ];
            intros y Hy; apply Rle_lt_trans with (2 := N0 y Hy); apply Rmult_le_compat_r; [ apply sum_pos; intros; nra | ];
            apply Rplus_le_compat_l; apply Rmult_le_compat_l; [ lra | ]; apply Rmult_le_compat_l;
            [ apply Rmult_le_pos; apply pos_INR | ]; apply pow_incr; split; [ exact He | ];
            match type of He1 with _ + (INR ?t0 + 1) * _ <= _ => assert (I0 := Rmult_le_pos _ _ (pos_INR t0) T) end; lra
          | unfold tot in M1; lra ] ]
      | intros E _; apply orb_false_iff in E; destruct E as [_ E]; apply negb_false_iff in E; apply Nat.eqb_eq; exact E ]
    | split; [ exact G | ]; repeat split; auto; discriminate ].
  all: destruct Q1 as (G1 & S1 & W1 & Sk1 & NC1 & L1).
  all: destruct (Nat.eqb_spec l K) as [-> | Hne].
  1, 3: destruct (settle_spec (e + 2 * tot) q1 K HK G1) as (T1 & T2 & T3 & T4 & T5 & T6);
    eexists; eexists; (split; [ reflexivity | ]); (split; [ exact T1 | ]);
    (split; [ rewrite T2, S1; exact Z | ]);
    (split; [ intros j Hj; rewrite T5, W1 by lia; reflexivity | ]);
    (split; [ rewrite T3; exact NC1 | ]); left; split; [ reflexivity | ]; split; [ exact T4 | ];
    rewrite T3; intros Ok E; assert (Fa := F Ok (Sk1 E));
    (assert (Fb : fac (e + 2 * tot) (qU q1) (bd (K - 1) (qW q1) (qS q1)) (qV q1));
     [ destruct b; unfold q1;
       [ destruct (H2 eq_refl) as (L2 & L3 & L4); apply cancel_fac; auto; lia
       | assert (Fc := Drop e q K ltac:(lia) G (H1 eq_refl) Fa);
         intros r c Hr Hc; specialize (Fc r c Hr Hc);
         rewrite (prod3_ext n _ (qU q) _ (bd K (qW q) (set1 (qS q) K 0)) _ (qV q)); auto; [ unfold tot in *; lra | ];
         intros k j _ _; unfold bd, set1; nats; reflexivity || lia ]
     | ]);
    specialize (T6 Fb); intros r c Hr Hc; specialize (T6 r c Hr Hc); apply (Rle_trans _ _ _ T6);
    match goal with |- _ <= _ + (INR ?t0 + 2) * _ => assert (I0 := Rmult_le_pos _ _ (pos_INR t0) T) end; lra.
  all: assert (Hb : b = true -> q_skip q1 = true) by (intros Hb; destruct (q_skip q1); [ reflexivity | elim Hne; apply L1; auto ]).
  all: destruct (sweep_spec (e + tot) q1 l K ltac:(lia) G1) as (T1 & T2 & T3 & T4 & T5).
  all: assert (F1 : ok -> q_skip (sweep (N := N) m n l K q1) = false ->
         fac (e + tot) (qU (sweep (N := N) m n l K q1)) (bd K (qW (sweep (N := N) m n l K q1)) (qS (sweep (N := N) m n l K q1))) (qV (sweep (N := N) m n l K q1))).
  1, 3: rewrite T2; intros Ok E; apply T5; destruct b; [ rewrite Hb in E by reflexivity; discriminate | ]; unfold q1 in *; apply Drop; auto.
  - exists (sweep (N := N) m n l K q1), K. split; [ reflexivity | ]. split; [ exact T1 | ]. split; [ apply T4; rewrite S1; exact Z | ].
    split; [ intros j Hj; rewrite T3, W1 by lia; reflexivity | ]. split; [ rewrite T2; exact NC1 | ]. right. split; [ reflexivity | lia ].
  - destruct (IH ok (e + tot) (sweep (N := N) m n l K q1) st) as (q' & st' & R1 & R2 & R3 & R4 & R5 & R6).
    + lra.
    + rewrite S_INR in He1. lra.
    + constructor; [ exact T1 | apply T4; rewrite S1; exact Z | exact F1 ].
    + exists q', st'. split; [ exact R1 | ]. split; [ exact R2 | ]. split; [ exact R3 | ].
      split; [ intros j Hj; rewrite R4, T3, W1 by lia; reflexivity | ].
      split; [ intros Ok N0 E; apply R5; [ exact Ok | exact N0 | ]; rewrite T2; apply NC1; auto | ].
      destruct R6 as [(E1 & E2 & E3) | E]; [ left | right; exact E ]. split; [ exact E1 | ]. split; [ exact E2 | ].
      intros Ok E. specialize (E3 Ok E). rewrite S_INR. replace (e + (INR t + 1 + 2) * tot) with (e + tot + (INR t + 2) * tot) by ring. exact E3.
Qed.

(** ** All of them *)
Lemma qr_all_spec K : (K <= n)%nat -> forall e q st, 0 <= e -> e + INR K * (31 * tot) <= INR n * (31 * tot) -> Inv (st = O) e (K - 1) q ->
  (forall j, (K <= j < n)%nat -> st = O -> 0 <= qW q j) ->
  exists q' st', qr_all (N := N) m n an K q st = Some (q', st') /\
    good (qU q') (qV q') /\ (st' < n \/ st' = st)%nat /\
    (st' = O -> st = O /\ (forall j, (j < n)%nat -> 0 <= qW q' j) /\
       (NC -> q_skip q = false -> q_skip q' = false) /\
       (q_skip q' = false -> fac (e + INR K * (31 * tot)) (qU q') (bd 0 (qW q') (qS q')) (qV q'))).
Proof.
  induction K as [ | K IH]; intros HK e q st He He1 HI Hp; cbn [qr_all].
  - exists q, st. destruct HI as [G Z F]. split; [ reflexivity | ]. split; [ exact G | ]. split; [ right; reflexivity | ].
    intros E. split; [ exact E | ]. split; [ intros j Hj; apply Hp; auto; lia | ]. split; [ auto | ].
    intros Sk. cbn [INR]. replace (e + 0 * (31 * tot)) with e by ring. apply F; auto.
  - replace (S K - 1)%nat with K in HI by lia. unfold MAX_ITERATIONS.
    assert (T := tot_pos). assert (I29 : INR 29 = 29) by (rewrite INR_IZR_INZ; reflexivity).
    rewrite S_INR in He1. assert (IK := Rmult_le_pos _ _ (pos_INR K) T).
    destruct (iterate_spec K 29 ltac:(lia) (st = O) e q st He ltac:(rewrite I29; lra) HI) as (q1 & st1 & E1 & G1 & Z1 & W1 & N1 & D1).
    rewrite E1.
    destruct (IH ltac:(lia) (e + 31 * tot) q1 st1) as (q' & st' & E2 & G2 & R2 & C2).
    + lra.
    + lra.
    + constructor; auto. intros Hst Sk. destruct D1 as [(Ea & Eb & Ec) | (Ea & Eb)]; [ | lia ].
      rewrite Ea in Hst. specialize (Ec Hst Sk). rewrite I29 in Ec. replace (e + 31 * tot) with (e + (29 + 2) * tot) by ring. exact Ec.
    + intros j Hj Hst. destruct D1 as [(Ea & Eb & Ec) | (Ea & Eb)]; [ | lia ].
      destruct (Nat.eq_dec j K) as [-> | ]; [ exact Eb | ]. rewrite W1 by lia. apply Hp; [ lia | congruence ].
    + exists q', st'. split; [ exact E2 | ]. split; [ exact G2 | ]. split.
      * destruct R2 as [R2 | R2]; [ left; exact R2 | ]. destruct D1 as [(Ea & _) | (Ea & _)]; [ right; congruence | left; lia ].
      * intros E. destruct (C2 E) as (Hst & Hpos & HN & HF).
        destruct D1 as [(Ea & Eb & Ec) | (Ea & Eb)]; [ | lia ]. rewrite Ea in Hst.
        split; [ exact Hst | ]. split; [ exact Hpos | ]. split; [ intros N0 Sk; apply HN; auto | ].
        intros Sk. rewrite S_INR. replace (e + (INR K + 1) * (31 * tot)) with (e + 31 * tot + INR K * (31 * tot)) by ring. auto.
Qed.
End Qr.
