(** Rounding errors of the vector and matrix kernels, in either precision. *)
From Coq Require Import ZArith Reals Bool Lia Lra Psatz.
From Flocq Require Import Core BinarySingleNaN Relative.
From Verif Require Import Int32 Num NumB M_Vec S_Geom L_Bin L_Flt.
Open Scope R_scope.

Section FltVec.
Context (prec emax : Z) {Hp : Prec_gt_0 prec} {Hm : Prec_lt_emax prec emax}.
Notation bf := (binary_float prec emax).
Notation fin := (fin prec emax).
Notation near := (near prec emax).
Notation u := (u prec).
Notation eta := (eta prec emax).
Notation huge := (huge emax).
Context (lm : libm prec emax).
Notation N := (BNum prec emax lm).
Context (Hu : u <= / 16777216) (He : eta <= / 1000 * u) (Hh : 1000 <= huge).

Definition vfin (x : vec bf) (a : vec R) : Prop := fin (v0 x) (v0 a) /\ fin (v1 x) (v1 a) /\ fin (v2 x) (v2 a).
Definition vnear (x : vec bf) (a e : vec R) : Prop := near (v0 x) (v0 a) (v0 e) /\ near (v1 x) (v1 a) (v1 e) /\ near (v2 x) (v2 a) (v2 e).
(** The sum of the absolute values of the products. *)
Definition adot (a b : vec R) : R := Rabs (v0 a * v0 b) + Rabs (v1 a * v1 b) + Rabs (v2 a * v2 b).

Lemma small_u P : 0 <= P -> 0 <= u * P /\ u * (u * P) <= / 16777216 * (u * P) /\ u * (u * (u * P)) <= / 16777216 * (u * (u * P)).
Proof.
  intros H. pose proof (u_pos prec). assert (A : 0 <= u * P) by nra. split; [exact A|].
  assert (B : 0 <= u * (u * P)) by nra. split; nra.
Qed.

(** p0 + p1, then + p2, of products with errors. *)
Lemma sum3 x0 x1 x2 p0 p1 p2 : near x0 p0 (u * Rabs p0 + eta) -> near x1 p1 (u * Rabs p1 + eta) -> near x2 p2 (u * Rabs p2 + eta) ->
  Rabs p0 + Rabs p1 + Rabs p2 <= huge / 2 ->
  near (Bplus mode_NE (Bplus mode_NE x0 x1) x2) (p0 + p1 + p2) (3.001 * u * (Rabs p0 + Rabs p1 + Rabs p2) + 6 * eta).
Proof.
  intros X0 X1 X2 H. pose proof (u_pos prec) as U0. pose proof (eta_pos prec emax) as E0.
  pose proof (small_u (Rabs p0) (Rabs_pos _)) as (A0 & A1 & A2). pose proof (small_u (Rabs p1) (Rabs_pos _)) as (B0 & B1 & B2).
  pose proof (small_u (Rabs p2) (Rabs_pos _)) as (C0 & C1 & C2).
  destruct (small_u eta ltac:(lra)) as (D0 & D1 & D2).
  pose proof (Rabs_pos p0). pose proof (Rabs_pos p1). pose proof (Rabs_pos p2).
  assert (UP : forall P, 0 <= P -> u * P <= / 16777216 * P) by (intros; nra).
  pose proof (UP _ H0). pose proof (UP _ H1). pose proof (UP _ H2).
  pose proof (UP eta ltac:(lra)).
  assert (S1 := near_add prec emax _ _ _ _ _ _ (Rabs p0 + Rabs p1) X0 X1 (Rabs_triang _ _) ltac:(lra)).
  assert (T : Rabs (p0 + p1 + p2) <= Rabs p0 + Rabs p1 + Rabs p2).
  { eapply Rle_trans; [apply Rabs_triang|]. pose proof (Rabs_triang p0 p1). lra. }
  assert (S2 := near_add prec emax _ _ _ _ _ _ (Rabs p0 + Rabs p1 + Rabs p2) S1 X2 T ltac:(lra)).
  eapply near_weak; [exact S2|]. lra.
Qed.

Lemma fin0 : fin (n_ofZ 0 : N) 0.
Proof. cbn. apply (fin_ofZ prec emax 0). cbn. apply Z.pow_pos_nonneg; [lia|]. pose proof Hp. unfold Prec_gt_0 in *. lia. Qed.

Lemma le_part a b c h : Rabs a + Rabs b + Rabs c <= h -> Rabs a <= h /\ Rabs b <= h /\ Rabs c <= h.
Proof. intros. pose proof (Rabs_pos a). pose proof (Rabs_pos b). pose proof (Rabs_pos c). lra. Qed.

Lemma prods (x y : vec bf) a b : vfin x a -> vfin y b -> adot a b <= huge / 2 ->
  near (Bmult mode_NE (v0 x) (v0 y)) (v0 a * v0 b) (u * Rabs (v0 a * v0 b) + eta) /\
  near (Bmult mode_NE (v1 x) (v1 y)) (v1 a * v1 b) (u * Rabs (v1 a * v1 b) + eta) /\
  near (Bmult mode_NE (v2 x) (v2 y)) (v2 a * v2 b) (u * Rabs (v2 a * v2 b) + eta).
Proof.
  intros (X0 & X1 & X2) (Y0 & Y1 & Y2) H. unfold adot in H. apply le_part in H. destruct H as (H0 & H1 & H2).
  repeat split; apply near_mul0; try assumption; try apply Rle_refl; lra.
Qed.

Lemma dvdv_near (x y : vec N) a b : vfin x a -> vfin y b -> adot a b <= huge / 2 ->
  near (dvdv (N := N) x y) (dot a b) (3.001 * u * adot a b + 6 * eta).
Proof.
  intros X Y H. destruct (prods x y a b X Y H) as (P0 & P1 & P2). exact (sum3 _ _ _ _ _ _ P0 P1 P2 H).
Qed.
Lemma acc3_near (x y : vec N) a b : vfin x a -> vfin y b -> adot a b <= huge / 2 ->
  near (acc3 (N := N) x y) (dot a b) (3.001 * u * adot a b + 6 * eta).
Proof.
  intros X Y H. destruct (prods x y a b X Y H) as (P0 & P1 & P2).
  apply (near_0_add prec emax _ _ _ _ fin0) in P0. exact (sum3 _ _ _ _ _ _ P0 P1 P2 H).
Qed.

(** ** Vector product *)
Lemma diff2 x0 x1 p0 p1 : near x0 p0 (u * Rabs p0 + eta) -> near x1 p1 (u * Rabs p1 + eta) -> Rabs p0 + Rabs p1 <= huge / 2 ->
  near (Bminus mode_NE x0 x1) (p0 - p1) (2.001 * u * (Rabs p0 + Rabs p1) + 4 * eta).
Proof.
  intros X0 X1 H. pose proof (u_pos prec) as U0. pose proof (eta_pos prec emax) as E0.
  pose proof (small_u (Rabs p0) (Rabs_pos _)) as (A0 & A1 & A2). pose proof (small_u (Rabs p1) (Rabs_pos _)) as (B0 & B1 & B2).
  pose proof (Rabs_pos p0). pose proof (Rabs_pos p1).
  assert (UP : forall P, 0 <= P -> u * P <= / 16777216 * P) by (intros; nra).
  pose proof (UP _ H0). pose proof (UP _ H1). pose proof (UP eta ltac:(lra)).
  assert (T : Rabs (p0 - p1) <= Rabs p0 + Rabs p1).
  { eapply Rle_trans; [apply Rabs_triang|]. rewrite Rabs_Ropp. lra. }
  assert (S1 := near_sub prec emax _ _ _ _ _ _ (Rabs p0 + Rabs p1) X0 X1 T ltac:(lra)).
  eapply near_weak; [exact S1|]. lra.
Qed.

Definition across (a b : vec R) : vec R :=
  V3 (Rabs (v1 a * v2 b) + Rabs (v2 a * v1 b)) (Rabs (v2 a * v0 b) + Rabs (v0 a * v2 b)) (Rabs (v0 a * v1 b) + Rabs (v1 a * v0 b)).

Lemma dvxv_near (x y : vec N) a b : vfin x a -> vfin y b ->
  v0 (across a b) <= huge / 2 -> v1 (across a b) <= huge / 2 -> v2 (across a b) <= huge / 2 ->
  vnear (dvxv (N := N) x y) (cross a b)
    (V3 (2.001 * u * v0 (across a b) + 4 * eta) (2.001 * u * v1 (across a b) + 4 * eta) (2.001 * u * v2 (across a b) + 4 * eta)).
Proof.
  intros (X0 & X1 & X2) (Y0 & Y1 & Y2) H0 H1 H2. cbn [across v0 v1 v2] in *.
  assert (L : forall p q, Rabs p + Rabs q <= huge / 2 -> Rabs p <= huge /\ Rabs q <= huge).
  { intros p q. pose proof (Rabs_pos p). pose proof (Rabs_pos q). lra. }
  unfold vnear. cbn [dvxv cross v0 v1 v2].
  split; [|split]; (apply diff2; [| |assumption]; (apply near_mul0; [assumption..|apply Rle_refl|]));
    first [apply (L _ _ H0) | apply (L _ _ H1) | apply (L _ _ H2)].
Qed.

(** ** Normalisation *)
Lemma Rabs_quot c n : 0 < n -> Rabs (c / n) = Rabs c / n.
Proof. intros H. unfold Rdiv. rewrite Rabs_mult, (Rabs_pos_eq (/ n)); [reflexivity|]. apply Rlt_le, Rinv_0_lt_compat, H. Qed.
Lemma sqrt_rel Q s d : 0 < Q -> 0 <= d <= / 2 -> Rabs (s - Q) <= d * Q -> Rabs (sqrt s - sqrt Q) <= (d / 2 + d * d) * sqrt Q.
Proof.
  intros HQ D E. apply Rabs_le_inv in E. assert (S : 0 < s) by nra.
  pose proof (sqrt_lt_R0 _ HQ) as q0. pose proof (sqrt_lt_R0 _ S) as s0.
  pose proof (sqrt_sqrt Q (Rlt_le _ _ HQ)) as QQ. pose proof (sqrt_sqrt s (Rlt_le _ _ S)) as SS.
  set (q := sqrt Q) in *. set (r := sqrt s) in *.
  assert (U : r <= (1 + d / 2) * q).
  { apply Rsqr_incr_0_var; [|nra]. unfold Rsqr. nra. }
  assert (L : (1 - (d / 2 + d * d)) * q <= r).
  { apply Rsqr_incr_0_var; [|lra]. unfold Rsqr.
    assert ((1 - (d / 2 + d * d)) * (1 - (d / 2 + d * d)) <= 1 - d) by nra. nra. }
  apply Rabs_le. split; nra.
Qed.

Lemma dvn_near (x : vec N) a : vfin x a -> norm a <> 0 -> 10000 * eta <= u * dot a a -> dot a a <= huge / 2 ->
  exists m, fin (snd (dvn (N := N) x)) m /\ 0 < m /\ Rabs (m - norm a) <= 2.51 * u * norm a /\
  vnear (fst (dvn (N := N) x)) (scale (/ norm a) a)
    (V3 (3.52 * u * Rabs (v0 a / norm a) + eta) (3.52 * u * Rabs (v1 a / norm a) + eta) (3.52 * u * Rabs (v2 a / norm a) + eta)).
Proof.
  intros X NZ HQ HB. pose proof (u_pos prec) as U0. pose proof (eta_pos prec emax) as E0.
  set (Q := dot a a) in *.
  assert (AD : adot a a = Q).
  { unfold adot, Q, dot. rewrite !Rabs_pos_eq by apply Rle_0_sqr. reflexivity. }
  assert (Q0 : 0 < Q) by nra.
  pose proof (acc3_near x x a a X X ltac:(rewrite AD; exact HB)) as (s & FS & ES). rewrite AD in ES. fold Q in ES.
  assert (ES' : Rabs (s - Q) <= (3.002 * u) * Q) by lra.
  assert (S0 : 0 <= s) by (apply Rabs_le_inv in ES'; nra).
  pose proof (fin_sqrt prec emax _ _ FS S0) as FM. set (m := rnd prec emax (sqrt s)) in FM.
  pose proof (sqrt_rel Q s (3.002 * u) Q0 ltac:(lra) ES') as ER.
  change (norm a) with (sqrt Q) in *. set (n := sqrt Q) in *.
  assert (n0 : 0 < n) by (apply sqrt_lt_R0; exact Q0).
  assert (nn : n * n = Q) by (apply sqrt_sqrt; lra).
  (* eta is far below u n *)
  assert (EN : eta <= / 1000 * (u * n)).
  { destruct (Rle_or_lt 1 n) as [G|G].
    - apply Rle_trans with (/ 1000 * u); [exact He|]. nra.
    - assert (QN : Q <= n) by (clear - nn n0 G; nra).
      assert (u * Q <= u * n) by (apply Rmult_le_compat_l; lra). lra. }
  assert (EM : Rabs (m - n) <= 2.51 * u * n).
  { pose proof (rnd_err prec emax (sqrt s)) as RE. fold m in RE.
    apply Rabs_le_inv in ER. destruct (small_u n ltac:(lra)) as (A0 & A1 & A2).
    rewrite (Rabs_pos_eq (sqrt s)) in RE by apply sqrt_pos.
    assert (SB : sqrt s <= n + 1.502 * (u * n)) by (clear - ER A0 A1; lra).
    assert (u * sqrt s <= u * n + 1.502 * (u * (u * n))) by nra.
    apply Rabs_le_inv in RE. apply Rabs_le. clear - ER A0 A1 RE H EN. split; lra. }
  assert (M0 : 0 < m) by (apply Rabs_le_inv in EM; nra).
  unfold dvn. cbv zeta. cbn [fst snd v0 v1 v2].
  change (n_sqrt _) with (Bsqrt mode_NE (acc3 (N := N) x x)). set (y := Bsqrt mode_NE (acc3 (N := N) x x)) in *.
  assert (LE : n_leb (y : N) (n_ofZ 0) = false).
  { refine (eq_trans (fin_leb prec emax _ _ _ _ FM fin0) _). apply Rle_bool_false. exact M0. }
  rewrite LE. exists m. split; [exact FM|]. split; [exact M0|]. split; [exact EM|].
  assert (G : forall (z : bf) c, fin z c -> Rabs c <= n -> near (Bdiv mode_NE z y) (/ n * c) (3.52 * u * Rabs (c / n) + eta)).
  { intros z c Z C. set (w := Rabs (c / n)).
    assert (W : w = Rabs c / n) by (unfold w; now apply Rabs_quot).
    assert (W0 : 0 <= w) by apply Rabs_pos.
    assert (D : Rabs (c / m - c / n) <= 2.512 * u * w).
    { replace (c / m - c / n) with (c / n * ((n - m) / m)) by (field; lra). rewrite Rabs_mult. fold w.
      assert (Rabs ((n - m) / m) <= 2.512 * u).
      { rewrite Rabs_quot by lra. rewrite Rabs_minus_sym.
        apply Rmult_le_reg_r with m; [exact M0|]. unfold Rdiv. rewrite Rmult_assoc, Rinv_l, Rmult_1_r by lra.
        destruct (small_u n ltac:(lra)) as (A0 & A1 & A2). apply Rabs_le_inv in EM. 
        apply Rle_trans with (2.51 * u * n); [apply Rabs_le; lra|]. nra. }
      pose proof (Rabs_pos ((n - m) / m)). nra. }
    destruct (small_u w W0) as (A0 & A1 & A2).
    assert (CM : Rabs (c / m) <= w + 2.512 * (u * w)).
    { replace (c / m) with ((c / m - c / n) + c / n) by ring. eapply Rle_trans; [apply Rabs_triang|]. fold w. lra. }
    assert (W1 : w <= 1).
    { rewrite W. apply Rmult_le_reg_r with n; [exact n0|]. unfold Rdiv. rewrite Rmult_assoc, Rinv_l by lra. lra. }
    assert (UW : u * w <= / 16777216 * w) by nra.
    pose proof (near_div0 prec emax z y c m (w + 2.512 * (u * w)) Z FM ltac:(lra) CM ltac:(lra)) as NR.
    replace (/ n * c) with (c / n) by (unfold Rdiv; ring).
    eapply near_weak; [apply (near_shift prec emax _ _ (c / n) _ _ NR D)|]. lra. }
  destruct X as (X0 & X1 & X2).
  assert (B : Rabs (v0 a) <= n /\ Rabs (v1 a) <= n /\ Rabs (v2 a) <= n).
  { unfold Q, dot in nn. repeat split; (apply Rsqr_le_abs_0_alt || idtac); (rewrite <- (Rabs_pos_eq n) by lra; apply Rsqr_le_abs_0; unfold Rsqr; nra). }
  destruct B as (B0 & B1 & B2).
  split; [|split]; apply G; assumption.
Qed.
End FltVec.
