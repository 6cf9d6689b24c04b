(** Errors relative to a magnitude: [nr x a M c h] says that [|a| <= M] and that
    the double [x] is within [c u M + h] of [a]; [h] only absorbs underflow. *)
From Coq Require Import ZArith Reals Bool List Lia Lra Psatz.
From Flocq Require Import Core BinarySingleNaN.
From Verif Require Import Num NumB NumR S_Binary S_Float L_Real L_Bin L_Flt L_Float L_FloatVec L_FloatMat L_FloatSph L_FloatPol.
Open Scope R_scope.

Definition nr (x : double) (a M c h : R) : Prop := near 53 1024 x a (c * u64 * M + h) /\ Rabs a <= M.
Lemma nr_val x a : value64 x a -> nr x a (Rabs a) 0 0.
Proof. intros X. split; [|apply Rle_refl]. apply near_weak with (e := 0); [now apply near_fin|lra]. Qed.
Lemma nr_unit x a : value64 x a -> Rabs a <= 1 -> nr x a 1 0 0.
Proof. intros X A. split; [|exact A]. apply near_weak with (e := 0); [now apply near_fin|lra]. Qed.
Lemma nr_weak x a M c h d j : nr x a M c h -> c <= d -> h <= j -> nr x a M d j.
Proof.
  intros [X A] C H. split; [|exact A]. apply near_weak with (e := c * u64 * M + h); [exact X|]. pose proof (Rabs_pos a). pose proof u64_num.
  assert (0 <= u64 * M) by (apply Rmult_le_pos; lra). nra.
Qed.
Lemma tiny323 : 1e-323 <= 1e-300.
Proof. change 1e-323 with (1 / IZR (10 ^ 323)); change 1e-300 with (1 / IZR (10 ^ 300)); apply inv_le; [reflexivity|vm_compute; reflexivity]. Qed.

Lemma eta300 : eta 53 1024 <= 1e-300.
Proof. pose proof eta64 as E. pose proof tiny323 as T. assert (P : 0 < 1e-323) by (change 1e-323 with (1 / IZR (10 ^ 323)); apply Rdiv_lt_0_compat; [lra|apply IZR_lt; reflexivity]). set (a := 1e-323) in *. set (b := 1e-300) in *. clearbody a b. lra. Qed.
Lemma g150 : 1 <= 1e150.
Proof. change 1e150 with (1 * IZR (10 ^ 150)). rewrite Rmult_1_l. apply IZR_le, Z.leb_le. vm_compute. reflexivity. Qed.
Lemma nr_mul lm x y a b M P c d h j : nr x a M c h -> nr y b P d j -> 0 <= c <= 50 -> 0 <= d <= 50 -> 0 <= h <= 1 -> 0 <= j <= 1 -> M <= 1e150 -> P <= 1e150 ->
  nr (n_mul (n := B64 lm) x y) (a * b) (M * P) (c + d + 1.01) (1.01 * (M * j + P * h + h * j) + 1e-300).
Proof.
  intros [X A] [Y B] C D H J MB PB. pose proof (Rabs_pos a). pose proof (Rabs_pos b). pose proof room64 as HH. pose proof g150 as G1. set (g := 1e150) in *. clearbody g. assert (G2 : g <= g * g) by (rewrite <- (Rmult_1_l g) at 1; apply Rmult_le_compat_r; lra). pose proof eta300 as ET. set (z := 1e-300) in *. clearbody z. pose proof u64_num as UN. pose proof u64_eq as UE.
  assert (U : 0 <= u64 <= 1.2e-16) by (rewrite UN; lra).
  assert (AB : Rabs (a * b) <= M * P) by (rewrite Rabs_mult; apply Rmult_le_compat; lra).
  split; [|exact AB].
  set (e := c * u64 * M + h) in *. set (f := d * u64 * P + j) in *.
  set (Q := M * P) in *. assert (Q0 : 0 <= Q) by (apply Rmult_le_pos; lra).
  set (t := M * j + P * h + h * j). assert (t0 : 0 <= t) by (unfold t; assert (0 <= M * j) by (apply Rmult_le_pos; lra); assert (0 <= P * h) by (apply Rmult_le_pos; lra); assert (0 <= h * j) by (apply Rmult_le_pos; lra); lra).
  assert (K : M * f + P * e + e * f <= (c + d + 0.001) * u64 * Q + 1.0001 * t).
  { replace (M * f + P * e + e * f) with ((c + d) * u64 * Q + (c * d * u64) * (u64 * Q) + (c * u64) * (M * j) + (d * u64) * (P * h) + t) by (unfold e, f, Q, t; ring).
    assert (cu : 0 <= c * u64 <= 0.0001) by (split; [apply Rmult_le_pos; lra|apply Rle_trans with (50 * 1.2e-16); [apply Rmult_le_compat; lra|lra]]).
    assert (du : 0 <= d * u64 <= 0.0001) by (split; [apply Rmult_le_pos; lra|apply Rle_trans with (50 * 1.2e-16); [apply Rmult_le_compat; lra|lra]]).
    assert (cdu : 0 <= c * d * u64 <= 0.001). { replace (c * d * u64) with (c * (d * u64)) by ring. split; [apply Rmult_le_pos; lra|]. apply Rle_trans with (50 * (50 * 1.2e-16)); [apply Rmult_le_compat; try lra; apply Rmult_le_compat; lra|lra]. }
    assert (uQ : 0 <= u64 * Q) by (apply Rmult_le_pos; lra).
    assert (L1 : (c * d * u64) * (u64 * Q) <= 0.001 * (u64 * Q)) by (apply Rmult_le_compat_r; lra).
    assert (Mj : 0 <= M * j) by (apply Rmult_le_pos; lra). assert (Ph : 0 <= P * h) by (apply Rmult_le_pos; lra). assert (hj : 0 <= h * j) by (apply Rmult_le_pos; lra).
    assert (L2 : (c * u64) * (M * j) <= 0.0001 * (M * j)) by (apply Rmult_le_compat_r; lra).
    assert (L3 : (d * u64) * (P * h) <= 0.0001 * (P * h)) by (apply Rmult_le_compat_r; lra).
    unfold t in *. lra. }
  set (T := M * f + P * e + e * f) in *.
  assert (MP : Q <= g * g) by (unfold Q; apply Rmult_le_compat; lra).
  assert (tB : t <= 2 * g + 1). { unfold t. assert (M * j <= g * 1) by (apply Rmult_le_compat; lra). assert (P * h <= g * 1) by (apply Rmult_le_compat; lra). assert (h * j <= 1 * 1) by (apply Rmult_le_compat; lra). lra. }
  assert (cdQ : (c + d + 0.001) * u64 * Q <= 0.001 * Q). { apply Rmult_le_compat_r; [exact Q0|]. apply Rle_trans with (101 * 1.2e-16); [apply Rmult_le_compat; lra|lra]. }
  eapply near_weak; [apply (near_mul 53 1024 _ _ _ _ _ _ _ _ X Y A B)|].
  - fold Q T. lra.
  - fold Q T. rewrite UE. assert (TQ : u64 * (Q + T) <= u64 * (1.001 * Q + 1.0001 * t)) by (apply Rmult_le_compat_l; lra).
    assert (ut : u64 * t <= 0.0001 * t) by (apply Rmult_le_compat_r; lra).
    replace (u64 * (1.001 * Q + 1.0001 * t)) with (1.001 * (u64 * Q) + 1.0001 * (u64 * t)) in TQ by ring.
    assert (uQ : 0 <= u64 * Q) by (apply Rmult_le_pos; lra).
    replace ((c + d + 1.01) * u64 * Q) with ((c + d + 0.001) * u64 * Q + 1.009 * (u64 * Q)) by (replace 1.01 with (0.001 + 1.009) by lra; ring). lra.
Qed.
Lemma nr_sum (op : double -> double -> double) (x y : double) a b v M P c d h j :
  (forall e f, near 53 1024 x a e -> near 53 1024 y b f -> (M + P) + (e + f) <= huge 1024 -> near 53 1024 (op x y) v ((e + f) + u 53 * ((M + P) + (e + f)) + eta 53 1024)) -> Rabs v <= M + P ->
  nr x a M c h -> nr y b P d j -> 0 <= c <= 50 -> 0 <= d <= 50 -> 0 <= h <= 1 -> 0 <= j <= 1 -> M <= 1e150 -> P <= 1e150 ->
  nr (op x y) v (M + P) (Rmax c d + 1.01) (1.01 * (h + j) + 1e-300).
Proof.
  intros OP VB [X A] [Y B] C D H J MB PB. pose proof (Rabs_pos a). pose proof (Rabs_pos b). pose proof room64 as HH. pose proof g150 as G1. set (g := 1e150) in *. clearbody g. assert (G2 : g <= g * g) by (rewrite <- (Rmult_1_l g) at 1; apply Rmult_le_compat_r; lra). pose proof eta300 as ET. set (z := 1e-300) in *. clearbody z. pose proof u64_num as UN. pose proof u64_eq as UE.
  assert (U : 0 <= u64 <= 1.2e-16) by (rewrite UN; lra). split; [|exact VB].
  pose proof (Rmax_l c d) as M1. pose proof (Rmax_r c d) as M2. set (m := Rmax c d) in *. assert (m50 : m <= 50) by (unfold m; apply Rmax_lub; lra).
  set (e := c * u64 * M + h) in *. set (f := d * u64 * P + j) in *. set (Q := M + P) in *.
  assert (uM : 0 <= u64 * M) by (apply Rmult_le_pos; lra). assert (uP : 0 <= u64 * P) by (apply Rmult_le_pos; lra). assert (uQ : u64 * Q = u64 * M + u64 * P) by (unfold Q; ring).
  assert (EF : e + f <= m * (u64 * Q) + (h + j)).
  { unfold e, f. rewrite uQ. assert (c * (u64 * M) <= m * (u64 * M)) by (apply Rmult_le_compat_r; lra). assert (d * (u64 * P) <= m * (u64 * P)) by (apply Rmult_le_compat_r; lra). lra. }
  assert (mQ : m * (u64 * Q) <= 0.001 * Q). { rewrite <- Rmult_assoc. apply Rmult_le_compat_r; [unfold Q; lra|]. apply Rle_trans with (50 * 1.2e-16); [apply Rmult_le_compat; lra|lra]. }
  eapply near_weak; [apply (OP _ _ X Y)|].
  - unfold Q in *. lra.
  - rewrite UE. assert (L : u64 * (Q + (e + f)) <= u64 * (1.001 * Q + (h + j))) by (apply Rmult_le_compat_l; lra).
    replace (u64 * (1.001 * Q + (h + j))) with (1.001 * (u64 * Q) + u64 * (h + j)) in L by ring. assert (u64 * (h + j) <= 0.001 * (h + j)) by (apply Rmult_le_compat_r; lra).
    replace ((m + 1.01) * u64 * Q) with (m * (u64 * Q) + 1.01 * (u64 * Q)) by ring. lra.
Qed.
Lemma nr_add lm x y a b M P c d h j : nr x a M c h -> nr y b P d j -> 0 <= c <= 50 -> 0 <= d <= 50 -> 0 <= h <= 1 -> 0 <= j <= 1 -> M <= 1e150 -> P <= 1e150 ->
  nr (n_add (n := B64 lm) x y) (a + b) (M + P) (Rmax c d + 1.01) (1.01 * (h + j) + 1e-300).
Proof.
  intros X Y. assert (VB : Rabs (a + b) <= M + P) by (eapply Rle_trans; [apply Rabs_triang|destruct X, Y; lra]).
  apply (nr_sum (fun x y => n_add (n := B64 lm) x y)) with a b; try assumption. intros e f X' Y' H. now apply (near_add 53 1024).
Qed.
Lemma nr_sub lm x y a b M P c d h j : nr x a M c h -> nr y b P d j -> 0 <= c <= 50 -> 0 <= d <= 50 -> 0 <= h <= 1 -> 0 <= j <= 1 -> M <= 1e150 -> P <= 1e150 ->
  nr (n_sub (n := B64 lm) x y) (a - b) (M + P) (Rmax c d + 1.01) (1.01 * (h + j) + 1e-300).
Proof.
  intros X Y. assert (VB : Rabs (a - b) <= M + P) by (unfold Rminus; eapply Rle_trans; [apply Rabs_triang|rewrite Rabs_Ropp; destruct X, Y; lra]).
  apply (nr_sum (fun x y => n_sub (n := B64 lm) x y)) with a b; try assumption. intros e f X' Y' H. now apply (near_sub 53 1024).
Qed.
Lemma nr_opp lm x a M c h : nr x a M c h -> nr (n_opp (n := B64 lm) x) (- a) M c h.
Proof.
  intros [(r & F & E) A]. split; [|rewrite Rabs_Ropp; exact A]. exists (- r). split; [now apply fin_opp|]. replace (- r - - a) with (- (r - a)) by ring. rewrite Rabs_Ropp. exact E.
Qed.
(** The same with a common bound on the underflow term. *)
Lemma nr_mul' lm x y a b M P c d t : nr x a M c t -> nr y b P d t -> 0 <= c <= 20 -> 0 <= d <= 20 -> 0 <= t <= 1e-100 -> M <= 1e50 -> P <= 1e50 ->
  nr (n_mul (n := B64 lm) x y) (a * b) (M * P) (c + d + 1.01) (1e51 * t + 1e-300).
Proof.
  intros X Y C D T M1 P1. assert (G : 1e50 <= 1e150) by lra. assert (T1 : t <= 1) by lra. eapply nr_weak; [apply (nr_mul lm _ _ _ _ _ _ _ _ _ _ X Y); lra|lra|].
  pose proof (Rabs_pos a). pose proof (Rabs_pos b). destruct X as [_ XA], Y as [_ YA].
  assert (M * t <= 1e50 * t) by (apply Rmult_le_compat_r; lra). assert (P * t <= 1e50 * t) by (apply Rmult_le_compat_r; lra). assert (t * t <= 1 * t) by (apply Rmult_le_compat_r; lra). lra.
Qed.
Lemma nr_add' lm x y a b M P c d m t : nr x a M c t -> nr y b P d t -> 0 <= c <= m -> 0 <= d <= m -> m <= 20 -> 0 <= t <= 1e-100 -> M <= 1e100 -> P <= 1e100 ->
  nr (n_add (n := B64 lm) x y) (a + b) (M + P) (m + 1.01) (3 * t + 1e-300).
Proof. intros X Y C D MM T M1 P1. eapply nr_weak; [apply (nr_add lm _ _ _ _ _ _ _ _ _ _ X Y); lra|assert (Rmax c d <= m) by (apply Rmax_lub; lra); lra|lra]. Qed.
Lemma nr_sub' lm x y a b M P c d m t : nr x a M c t -> nr y b P d t -> 0 <= c <= m -> 0 <= d <= m -> m <= 20 -> 0 <= t <= 1e-100 -> M <= 1e100 -> P <= 1e100 ->
  nr (n_sub (n := B64 lm) x y) (a - b) (M + P) (m + 1.01) (3 * t + 1e-300).
Proof. intros X Y C D MM T M1 P1. eapply nr_weak; [apply (nr_sub lm _ _ _ _ _ _ _ _ _ _ X Y); lra|assert (Rmax c d <= m) by (apply Rmax_lub; lra); lra|lra]. Qed.
