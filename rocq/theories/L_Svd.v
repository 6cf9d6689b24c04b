(** The phases of [svd] put together. *)
From Coq Require Import ZArith Reals Arith List Lia Lra Bool.
From Verif Require Import Num NumR M_Lin S_Lin L_Sum L_Lsq M_Svd S_Svd L_SvdA L_SvdB L_SvdC L_SvdD L_SvdE.
Import ListNotations.
Open Scope R_scope.

Lemma term_le n k f : (k < n)%nat -> (forall i, (i < n)%nat -> 0 <= f i) -> f k <= sum n f.
Proof.
  intros Hk H. rewrite (sum_pick n k f Hk).
  assert (0 <= sum n (fun i => if (i =? k)%nat then 0 else f i)); [ | lra ].
  apply sum_pos. intros i Hi. destruct (i =? k)%nat; [ lra | auto ].
Qed.

Lemma frob_entry m n A r c : (r < m)%nat -> (c < n)%nat -> Rabs (A r c) <= frob m n A.
Proof.
  intros Hr Hc. unfold frob. rewrite <- sqrt_Rsqr_abs. apply sqrt_le_1_alt. unfold Rsqr.
  apply Rle_trans with (sum n (fun c => A r c * A r c)).
  - apply (term_le n c (fun c => A r c * A r c)); auto. intros; nra.
  - apply (term_le m r (fun r => sum n (fun c => A r c * A r c))); auto. intros i Hi. apply sum_pos. intros; nra.
Qed.

Section Main.
Context (eqb : R -> R -> bool) (eqb0 : forall x, eqb x 0 = true <-> x = 0) (eqbxx : forall x, eqb x x = true).
Notation N := (RWith eqb).
Context (eps : R) (Heps : 0 <= eps).
Context (tol : forall a x, 0 <= a -> eqb (a + Rabs x) a = true -> Rabs x <= eps * a).
Context (m n : nat) (Hmn : (n <= m)%nat) (A : nat -> nat -> R) (w0 : nat -> R) (v0 : nat -> nat -> R) (ws0 : nat -> R).
Let b : bid N := for_ 0 n (bid_step (N := N) m n) (Bid (N := N) A w0 ws0 0 0 0).

Lemma an_frob : b_an b <= 2 * frob m n A.
Proof.
  destruct (an_bound eqb eqb0 m n Hmn A w0 ws0) as (_ & _ & H). apply H.
  { assert (P := sqrt_pos (sum m (fun r => sum n (fun c => A r c * A r c)))). unfold frob. lra. }
  assert (E := bid_norm eqb eqb0 m n Hmn A w0 ws0).
  set (lg := fun r c => if (r <? n)%nat then bdiag (b_w b) (b_ws b) r c else if (c <? n)%nat then 0 else (b_a b : nat -> nat -> R) r c).
  assert (F : frob m n A = frob m n lg) by (unfold frob; rewrite E; reflexivity).
  intros i Hi. rewrite F.
  assert (H1 : Rabs (b_w b i : R) <= frob m n lg).
  { replace (b_w b i : R) with (lg i i); [ apply frob_entry; lia | ].
    unfold lg, bdiag. rewrite (proj2 (Nat.ltb_lt i n)) by lia. rewrite delta_same, (delta_other (S i) i) by lia. change (car N) with R. ring. }
  assert (H2 : Rabs (b_ws b i : R) <= frob m n lg).
  { destruct i as [ | i].
    - assert (Z : (b_ws b O : R) = 0) by exact (ws_first eqb eqb0 m n Hmn A w0 ws0 ltac:(lia)). rewrite Z, Rabs_R0. apply sqrt_pos.
    - replace (b_ws b (S i) : R) with (lg i (S i)); [ apply frob_entry; lia | ].
      unfold lg, bdiag. rewrite (proj2 (Nat.ltb_lt i n)) by lia. rewrite delta_same, (delta_other i (S i)) by lia. change (car N) with R. ring. }
  unfold b in *. lra.
Qed.

Lemma svd_main : exists st q, svd (N := N) m n A w0 v0 ws0 = Some (Z.of_nat st, q) /\
  (st < n \/ st = O)%nat /\ good m n (q_a q) (q_v q) /\
  (st = O -> (forall j, (j < n)%nat -> 0 <= (q_w q j : R)) /\
     ((n <= 2)%nat \/ stretches m n A (88 * INR n * sqrt (INR m * INR n) * eps * frob m n A) -> q_skip q = false) /\
     (q_skip q = false -> forall r c, (r < m)%nat -> (c < n)%nat ->
        Rabs (A r c - usv n (q_a q) (q_w q) (q_v q) r c) <= INR n * 62 * eps * frob m n A)).
Proof.
  destruct (Nat.eq_dec n 0) as [H0 | H0].
  { subst n. exists O. eexists. split; [ reflexivity | ]. split; [ right; reflexivity | ].
    split; [ split; [ | split ]; intros j k Hj; lia | ]. intros _. split; [ intros j Hj; lia | ]. split; [ reflexivity | ]. intros _ r c _ Hc; lia. }
  apply Nat.neq_0_lt_0 in H0.
  unfold svd. rewrite (proj2 (Nat.ltb_ge m n)) by lia. cbv zeta.
  change (n_ofZ (n := N) 0) with 0. fold b.
  set (V := down_ n (vacc_step (N := N) n (b_a b) (b_ws b)) v0).
  set (U := down_ n (uacc_step (N := N) m n (b_w b)) (b_a b)).
  destruct (three_phases eqb eqb0 m n Hmn A w0 ws0 v0) as (P1 & P2 & P3 & P4).
  destruct (an_bound eqb eqb0 m n Hmn A w0 ws0) as (N1 & _ & _).
  assert (N1' : 0 <= b_an b) by exact N1.
  destruct (qr_all_spec eqb eqb0 eqbxx (b_an b) eps N1' Heps (fun x => tol (b_an b) x N1') m n Hmn A n (le_n n) 0
    (Qr (N := N) U (b_w b) V (b_ws b) false) O) as (q & st & E & G & S1 & C).
  - lra.
  - lra.
  - constructor.
    + split; [ exact P1 | ]. split; [ exact P2 | exact P3 ].
    + exact (ws_first eqb eqb0 m n Hmn A w0 ws0 H0).
    + intros _ _ r c Hr Hc. rewrite (P4 r c Hr Hc). 
      match goal with |- Rabs (?x - ?y) <= 0 => replace y with x end.
      { rewrite Rminus_diag_eq by reflexivity. rewrite Rabs_R0. lra. }
      apply prod3_ext; auto. intros k j Hk Hj. unfold bdiag, bd. cbn [q_w q_ws]. unfold qW, qS. cbn [q_w q_ws].
      unfold delta. nats; subst; try lia; unfold b; nring.
  - intros j Hj. lia.
  - rewrite E. exists st, q. split; [ reflexivity | ]. split; [ exact S1 | ]. split; [ exact G | ].
    intros Est. destruct (C Est) as (_ & C1 & C2 & C3). split; [ exact C1 | ]. split.
    + intros H. apply C2; [ | reflexivity ]. destruct H as [H | H]; [ left; exact H | right ].
      intros y Hy. apply Rle_lt_trans with (2 := H y Hy). apply Rmult_le_compat_r; [ apply sum_pos; intros; nra | ].
      assert (T0 : 0 <= eps * b_an b) by (apply Rmult_le_pos; auto). assert (B := an_frob).
      assert (T1 : eps * b_an b <= 2 * (eps * frob m n A)) by (assert (eps * b_an b <= eps * (2 * frob m n A)) by (apply Rmult_le_compat_l; auto); lra).
      unfold tot. set (t := eps * b_an b) in *. set (u := eps * frob m n A) in *.
      assert (IN : 1 <= INR n) by (apply (le_INR 1); lia). assert (IM : 1 <= INR m) by (apply (le_INR 1); lia).
      assert (Sq := sqrt_sqrt (INR m * INR n) ltac:(nra)).
      replace ((88 * INR n * sqrt (INR m * INR n) * eps * frob m n A) ^ 2) with (7744 * (INR m * INR n * (INR n ^ 2 * u ^ 2)))
        by (transitivity (7744 * (sqrt (INR m * INR n) * sqrt (INR m * INR n) * (INR n ^ 2 * u ^ 2))); [ rewrite Sq; reflexivity | unfold u; ring ]).
      replace (2 * t ^ 2 + 2 * (INR m * INR n * (INR n * (31 * t)) ^ 2)) with (t ^ 2 * (2 + 1922 * (INR m * INR n * INR n ^ 2))) by ring.
      assert (T2 : t ^ 2 <= (2 * u) ^ 2) by (apply pow_incr; lra).
      assert (M1 : 1 <= INR m * INR n) by nra. assert (M2 : 1 <= INR n ^ 2) by nra.
      set (M := INR m * INR n) in *. set (N2 := INR n ^ 2) in *. assert (M3 : 1 <= M * N2) by nra.
      replace (7744 * (M * (N2 * u ^ 2))) with ((2 * u) ^ 2 * (1936 * (M * N2))) by ring.
      apply Rle_trans with ((2 * u) ^ 2 * (2 + 1922 * (M * N2))).
      * apply Rmult_le_compat_r; [ lra | exact T2 ].
      * apply Rmult_le_compat_l; [ apply pow2_ge_0 | lra ].
    + intros Sk r c Hr Hc. specialize (C3 Sk r c Hr Hc).
      assert (B := an_frob). unfold tot in C3.
      apply Rle_trans with (0 + INR n * (31 * (eps * b_an b))).
      * replace (usv n (q_a q) (q_w q) (q_v q) r c) with (prod3 n (qU eqb q) (bd 0 (qW eqb q) (qS eqb q)) (qV eqb q) r c); [ exact C3 | ].
        unfold usv, prod3. apply sum_ext. intros k Hk. rewrite (sum_one n k); auto.
        -- unfold bd. rewrite Nat.eqb_refl. reflexivity.
        -- intros j Hj Hne. unfold bd. nats; ring.
      * assert (I := pos_INR n). assert (0 <= INR n * eps) by (apply Rmult_le_pos; auto).
        replace (INR n * 62 * eps * frob m n A) with (INR n * eps * 31 * (2 * frob m n A)) by ring.
        replace (0 + INR n * (31 * (eps * b_an b))) with (INR n * eps * 31 * b_an b) by ring.
        apply Rmult_le_compat_l; [ lra | exact B ].
Qed.
End Main.

(** ** With the tolerance, and without *)
Section Tol.
Context (eps : R) (He : 0 <= eps).
Lemma near_0 x : near eps x 0 = true <-> x = 0.
Proof.
  unfold near. rewrite Rabs_R0, Rmult_0_r, Rminus_0_r. destruct (Rleb_spec (Rabs x) 0) as [H | H]; split; intros E; auto; try discriminate.
  - destruct (Req_dec x 0) as [ | N0]; [ assumption | ]. apply Rabs_no_R0 in N0. assert (P := Rabs_pos x). lra.
  - subst. rewrite Rabs_R0 in H. lra.
Qed.
Lemma near_refl x : near eps x x = true.
Proof.
  unfold near. rewrite Rminus_diag_eq, Rabs_R0 by reflexivity.
  destruct (Rleb_spec 0 (eps * Rabs x)) as [H | H]; [ reflexivity | ]. assert (P := Rmult_le_pos _ _ He (Rabs_pos x)). lra.
Qed.
Lemma near_tol a x : 0 <= a -> near eps (a + Rabs x) a = true -> Rabs x <= eps * a.
Proof.
  intros Ha. unfold near. replace (a + Rabs x - a) with (Rabs x) by ring. rewrite Rabs_Rabsolu, (Rabs_pos_eq a Ha).
  destruct (Rleb_spec (Rabs x) (eps * a)); [ auto | discriminate ].
Qed.
End Tol.

Lemma abs_le_0 x : Rabs x <= 0 -> x = 0.
Proof. intros H. destruct (Req_dec x 0) as [ | Z]; [ assumption | ]. apply Rabs_no_R0 in Z. assert (P := Rabs_pos x). lra. Qed.
Lemma exact_0 x : Reqb x 0 = true <-> x = 0.
Proof. destruct (Reqb_spec x 0); split; intros; auto; discriminate. Qed.
Lemma exact_refl x : Reqb x x = true.
Proof. destruct (Reqb_spec x x); [ reflexivity | contradiction ]. Qed.
Lemma exact_tol a x : 0 <= a -> Reqb (a + Rabs x) a = true -> Rabs x <= 0 * a.
Proof. intros Ha. destruct (Reqb_spec (a + Rabs x) a); [ intros _; lra | discriminate ]. Qed.

Lemma good_orthogonal m n U V : good m n U V -> orthonormal m n U /\ orthogonal n V.
Proof.
  intros (H1 & H2 & H3). split; [ exact H1 | ]. intros i j Hi Hj. unfold mulm, transp. split; [ apply H3; auto | apply H2; auto ].
Qed.

Lemma svd_orthogonal eps m n A w v ws : 0 <= eps -> (n <= m)%nat ->
  exists status q, svd (N := RTol eps) m n A w v ws = Some (Z.of_nat status, q) /\
    (status = 0 \/ status < n)%nat /\ orthonormal m n (q_a q) /\ orthogonal n (q_v q).
Proof.
  intros He Hmn. destruct (svd_main (near eps) (near_0 eps) (near_refl eps He) eps He (near_tol eps) m n Hmn A w v ws) as (st & q & E & H & G & _).
  exists st, q. split; [ exact E | ]. split; [ destruct H; auto | ]. apply good_orthogonal, G.
Qed.
Lemma svd_orthogonal_exact m n A w v ws : (n <= m)%nat ->
  exists status q, svd (N := RNum) m n A w v ws = Some (Z.of_nat status, q) /\
    (status = 0 \/ status < n)%nat /\ orthonormal m n (q_a q) /\ orthogonal n (q_v q).
Proof.
  intros Hmn. destruct (svd_main Reqb exact_0 exact_refl 0 (Rle_refl 0) exact_tol m n Hmn A w v ws) as (st & q & E & H & G & _).
  exists st, q. split; [ exact E | ]. split; [ destruct H; auto | ]. apply good_orthogonal, G.
Qed.

Lemma svd_any eps m n A w v ws q : 0 <= eps -> (n <= m)%nat ->
  svd (N := RTol eps) m n A w v ws = Some (0%Z, q) ->
  (forall k, (k < n)%nat -> 0 <= (q_w q k : R)) /\
  ((n <= 2)%nat \/ stretches m n A (88 * INR n * sqrt (INR m * INR n) * eps * frob m n A) -> q_skip q = false) /\
  (q_skip q = false -> forall r c, (r < m)%nat -> (c < n)%nat ->
     Rabs (A r c - usv n (q_a q) (q_w q) (q_v q) r c) <= 62 * INR n * eps * frob m n A).
Proof.
  intros He Hmn E0. destruct (svd_main (near eps) (near_0 eps) (near_refl eps He) eps He (near_tol eps) m n Hmn A w v ws) as (st & q' & E & H & G & C).
  assert (X : Some (0%Z, q) = Some (Z.of_nat st, q')) by (rewrite <- E0; exact E). injection X as X1 <-.
  destruct (C ltac:(lia)) as (C1 & C2 & C3). split; [ exact C1 | ]. split; [ exact C2 | ].
  intros Sk r c Hr Hc. rewrite (Rmult_comm 62). apply C3; auto.
Qed.

Lemma svd_factorises eps m n A w v ws q : 0 <= eps -> (n <= m)%nat ->
  svd (N := RTol eps) m n A w v ws = Some (0%Z, q) ->
  (forall k, (k < n)%nat -> 0 <= (q_w q k : R)) /\
  ((n <= 2)%nat \/ stretches m n A (88 * INR n * sqrt (INR m * INR n) * eps * frob m n A) ->
   forall r c, (r < m)%nat -> (c < n)%nat ->
     Rabs (A r c - usv n (q_a q) (q_w q) (q_v q) r c) <= 62 * INR n * eps * frob m n A).
Proof. intros He Hmn E. destruct (svd_any eps m n A w v ws q He Hmn E) as (C1 & C2 & C3). split; [ exact C1 | intros H; apply C3; auto ]. Qed.
Lemma svd_factorises_any eps m n A w v ws q : 0 <= eps -> (n <= m)%nat ->
  svd (N := RTol eps) m n A w v ws = Some (0%Z, q) -> q_skip q = false ->
  forall r c, (r < m)%nat -> (c < n)%nat ->
    Rabs (A r c - usv n (q_a q) (q_w q) (q_v q) r c) <= 62 * INR n * eps * frob m n A.
Proof. intros He Hmn E. apply (svd_any eps m n A w v ws q He Hmn E). Qed.

Lemma independent_stretches m n A : independent m n A -> stretches m n A 0.
Proof.
  intros H y (c & Hc & Hy). rewrite pow_i, Rmult_0_l by lia.
  destruct (Rle_lt_dec (norm2 m (mulv n A y)) 0) as [L | ]; [ exfalso | assumption ].
  apply Hy, H; auto. intros r Hr.
  assert (Z : norm2 m (mulv n A y) = 0) by (apply Rle_antisym; [ exact L | apply sum_pos; intros; nra ]).
  assert (Q := sum_pos_0 m (fun i => mulv n A y i * mulv n A y i) (fun i _ => Rle_0_sqr (mulv n A y i)) Z r Hr). exact (Rsqr_0_uniq _ Q).
Qed.

Lemma svd_exact m n A w v ws q : (n <= m)%nat ->
  svd (N := RNum) m n A w v ws = Some (0%Z, q) -> (n <= 2)%nat \/ independent m n A ->
  factorises m n A (q_a q) (q_w q) (q_v q) /\ forall k, (k < n)%nat -> 0 <= (q_w q k : R).
Proof.
  intros Hmn E0 HI. destruct (svd_main Reqb exact_0 exact_refl 0 (Rle_refl 0) exact_tol m n Hmn A w v ws) as (st & q' & E & H & G & C).
  assert (X : Some (0%Z, q) = Some (Z.of_nat st, q')) by (rewrite <- E0; exact E). injection X as X1 <-.
  destruct (C ltac:(lia)) as (C1 & C2 & C3). split; [ | exact C1 ].
  assert (Sk : q_skip q = false).
  { apply C2. destruct HI as [HI | HI]; [ left; exact HI | right ]. rewrite Rmult_0_r, Rmult_0_l. apply independent_stretches, HI. }
  apply good_orthogonal in G. destruct G as [G1 G2]. split; [ | split; [ | exact G2 ] ].
  - intros r c Hr Hc. specialize (C3 Sk r c Hr Hc). rewrite Rmult_0_r, Rmult_0_l in C3.
    apply Rminus_diag_uniq, abs_le_0. exact C3.
  - intros j k Hj Hk _ _. apply G1; auto.
Qed.

Lemma svd_then_svdsol m n A b w v ws q x0 : (n <= m)%nat ->
  svd (N := RNum) m n A w v ws = Some (0%Z, q) -> (n <= 2)%nat \/ independent m n A ->
  forall z, residual2 m n A b (svdsol (N := RNum) m n b (q_a q) (q_w q) (q_v q) (q_ws q) x0) <= residual2 m n A b z.
Proof.
  intros Hmn E HI z. destruct (svd_exact m n A w v ws q Hmn E HI) as [F _].
  apply (svdsol_best m n A (q_a q) (q_w q) (q_v q) b F); auto.
Qed.
