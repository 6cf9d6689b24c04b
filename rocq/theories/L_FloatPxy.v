(** Rounding errors of the residuals of a plate fit (pxy), for any number of
    samples up to a million. *)
From Coq Require Import ZArith Reals Bool List Lia Lra Psatz.
From Flocq Require Import Core BinarySingleNaN.
From Verif Require Import Num NumB NumR M_Plate S_Plate S_Binary S_Float S_FloatPlate L_Real L_Bin L_Flt L_FltVec L_Float L_FloatVec L_FloatMat L_FloatSph L_FloatPol L_FltRel L_FloatPv L_Plate.
Import ListNotations.
Open Scope R_scope.

Definition sumsq (l : list R) : R := Rsum_list (map (fun x => x * x) l).
(** ** Root mean squares of lists that differ little *)
Lemma sumsq_pos l : 0 <= sumsq l.
Proof. apply sum_sq_nonneg. Qed.
Lemma abs_sum l : 0 <= Rsum_list (map Rabs l).
Proof. induction l as [|a l IH]; cbn; [lra|]. pose proof (Rabs_pos a). lra. Qed.
Lemma cauchy l : Rsum_list (map Rabs l) * Rsum_list (map Rabs l) <= INR (length l) * sumsq l.
Proof.
  induction l as [|a l IH]; [cbn; lra|]. pose proof (abs_sum l) as S0. pose proof (sumsq_pos l) as D0. pose proof (pos_INR (length l)) as N0.
  unfold sumsq in *. cbn [length map Rsum_list]. rewrite S_INR. set (S := Rsum_list (map Rabs l)) in *. set (D := Rsum_list (map (fun x => x * x) l)) in *. set (n := INR (length l)) in *.
  replace (a * a) with (Rabs a * Rabs a) by (rewrite <- Rabs_mult; apply Rabs_pos_eq, Rle_0_sqr). pose proof (Rabs_pos a) as A0. set (x := Rabs a) in *. clearbody S D n x.
  assert (X0 : 0 <= x * x) by nra. assert (NX : 0 <= n * (x * x)) by (now apply Rmult_le_pos).
  assert (K : 2 * S * x <= D + n * (x * x)).
  { apply Rsqr_incr_0_var; [|lra]. unfold Rsqr.
    replace (2 * S * x * (2 * S * x)) with (4 * (x * x) * (S * S)) by ring. apply Rle_trans with (4 * (x * x) * (n * D)); [apply Rmult_le_compat_l; lra|].
    pose proof (Rle_0_sqr (D - n * (x * x))) as Q. unfold Rsqr in Q. lra. }
  lra.
Qed.
Lemma sumsq_le l m d : 0 <= d -> Forall2 (fun x y => Rabs (x - y) <= d) l m -> sumsq l <= sumsq m + 2 * d * Rsum_list (map Rabs m) + INR (length m) * (d * d).
Proof.
  intros D. induction 1 as [|x y l m E F IH]; [unfold sumsq; cbn; lra|]. unfold sumsq in *. cbn [length map Rsum_list]. rewrite S_INR.
  set (A := Rsum_list (map _ l)) in *. set (B := Rsum_list (map _ m)) in *. set (C := Rsum_list (map Rabs m)) in *. set (n := INR (length m)) in *. clearbody A B C n.
  assert (K : x * x <= y * y + 2 * d * Rabs y + d * d).
  { replace (x * x) with (y * y + 2 * ((x - y) * y) + (x - y) * (x - y)) by ring. apply Rabs_le_inv in E as E'.
    assert ((x - y) * y <= d * Rabs y) by (eapply Rle_trans; [apply Rle_abs|rewrite Rabs_mult; apply Rmult_le_compat_r; [apply Rabs_pos|exact E]]).
    assert ((x - y) * (x - y) <= d * d) by nra. lra. }
  lra.
Qed.
Lemma sqrt_sumsq l m d : 0 <= d -> Forall2 (fun x y => Rabs (x - y) <= d) l m -> sqrt (sumsq l) <= sqrt (sumsq m) + d * sqrt (INR (length m)).
Proof.
  intros D F. pose proof (sumsq_le l m d D F) as H. pose proof (cauchy m) as C. pose proof (abs_sum m) as S0. pose proof (sumsq_pos m) as M0. pose proof (pos_INR (length m)) as N0.
  pose proof (sqrt_pos (sumsq m)) as q0. pose proof (sqrt_pos (INR (length m))) as n0. pose proof (sqrt_sqrt _ M0) as QQ. pose proof (sqrt_sqrt _ N0) as NN.
  set (S := Rsum_list _) in *. set (q := sqrt (sumsq m)) in *. set (n := sqrt (INR _)) in *.
  assert (SQ : S <= n * q). { apply Rsqr_incr_0_var; [|now apply Rmult_le_pos]. unfold Rsqr. replace (n * q * (n * q)) with ((n * n) * (q * q)) by ring. rewrite NN, QQ. exact C. }
  rewrite <- (sqrt_square (q + d * n)) by (assert (0 <= d * n) by (now apply Rmult_le_pos); lra). apply sqrt_le_1_alt.
  replace ((q + d * n) * (q + d * n)) with (q * q + 2 * d * (n * q) + (n * n) * (d * d)) by ring. rewrite QQ, NN.
  assert (2 * d * S <= 2 * d * (n * q)) by (apply Rmult_le_compat_l; lra). lra.
Qed.
Lemma rms_sqrt l : rms_of l = sqrt (sumsq l) / sqrt (INR (length l)).
Proof.
  unfold rms_of, mean. fold (sumsq l). rewrite map_length. destruct l as [|a l].
  - cbn. unfold sumsq. cbn. rewrite sqrt_0. unfold Rdiv. rewrite !Rmult_0_l. apply sqrt_0.
  - apply sqrt_div_alt. apply lt_0_INR. cbn. lia.
Qed.
Lemma Forall2_len {A B} (P : A -> B -> Prop) l m : Forall2 P l m -> length l = length m.
Proof. induction 1; cbn; congruence. Qed.
Lemma Forall2_imp {A B} (P Q : A -> B -> Prop) l m : (forall a b, P a b -> Q a b) -> Forall2 P l m -> Forall2 Q l m.
Proof. intros H. induction 1; constructor; auto. Qed.
Lemma Forall2_swap {A B} (P : A -> B -> Prop) l m : Forall2 P l m -> Forall2 (fun b a => P a b) m l.
Proof. induction 1; constructor; assumption. Qed.
Lemma rms_near l m d : 0 <= d -> Forall2 (fun x y => Rabs (x - y) <= d) l m -> Rabs (rms_of l - rms_of m) <= d.
Proof.
  intros D F. pose proof (Forall2_len _ _ _ F) as L. rewrite !rms_sqrt, L.
  pose proof (sqrt_sumsq l m d D F) as H1.
  assert (F' : Forall2 (fun x y => Rabs (x - y) <= d) m l) by (apply Forall2_swap in F; eapply Forall2_imp; [|exact F]; cbv beta; intros; rewrite Rabs_minus_sym; assumption).
  pose proof (sqrt_sumsq m l d D F') as H2. rewrite L in H2.
  destruct m as [|y m].
  - destruct l; [|discriminate L]. rewrite Rminus_diag_eq, Rabs_R0; [exact D|reflexivity].
  - assert (P : 0 < sqrt (INR (length (y :: m)))) by (apply sqrt_lt_R0, lt_0_INR; cbn; lia). set (n := sqrt (INR _)) in *.
    replace (sqrt (sumsq l) / n - sqrt (sumsq (y :: m)) / n) with ((sqrt (sumsq l) - sqrt (sumsq (y :: m))) / n) by (field; lra).
    rewrite Rabs_quot by exact P. apply Rmult_le_reg_r with n; [exact P|]. unfold Rdiv. rewrite Rmult_assoc, Rinv_l, Rmult_1_r by lra. apply Rabs_le. lra.
Qed.
Lemma rms_bound l g : 0 <= g -> Forall (fun x => Rabs x <= g) l -> rms_of l <= g.
Proof.
  intros G F. destruct l as [|a l]; [rewrite rms_sqrt; unfold sumsq; cbn; rewrite sqrt_0; unfold Rdiv; rewrite Rmult_0_l; exact G|].
  unfold rms_of, mean. rewrite map_length. fold (sumsq (a :: l)). rewrite <- (sqrt_square g) by exact G. apply sqrt_le_1_alt.
  assert (P : 0 < INR (length (a :: l))) by (apply lt_0_INR; cbn; lia).
  apply Rmult_le_reg_r with (INR (length (a :: l))); [exact P|]. unfold Rdiv. rewrite Rmult_assoc, Rinv_l, Rmult_1_r by lra. clear P. induction F as [|x l' X F IH]; [unfold sumsq; cbn; lra|].
  unfold sumsq in *. cbn [map Rsum_list length]. rewrite S_INR. apply Rabs_le_inv in X. assert (x * x <= g * g) by nra. lra.
Qed.
Lemma rms_pos l : 0 <= rms_of l.
Proof. apply sqrt_pos. Qed.

(** ** The running sums of squares *)
Definition acc (s : double) (T j : R) : Prop := nr s T T ((j + 1) * 1.01) (j * 3e-300) /\ Bsign s = false /\ T <= j * 1e90.
Lemma acc0 : acc (BofZ 53 1024 0) 0 0.
Proof.
  split; [|split; [reflexivity|lra]]. split; [|rewrite Rabs_R0; lra]. apply near_weak with (e := 0); [apply near_fin, (fin_ofZ 53 1024 0); reflexivity|lra].
Qed.
Lemma acc_step lm s T j d r : acc s T j -> value64 d r -> Rabs r <= 1e45 -> 0 <= j <= 1e6 ->
  acc (n_add (n := B64 lm) s (n_mul (n := B64 lm) d d)) (T + r * r) (j + 1).
Proof.
  intros ((NS & TB) & SG & TJ) D R J.
  assert (T0 : 0 <= T) by (pose proof (Rabs_pos T); lra). assert (R0 : 0 <= r * r) by nra.
  assert (RR : r * r <= 1e90). { apply Rabs_le_inv in R. apply Rle_trans with (Rabs r * Rabs r); [rewrite <- Rabs_mult; apply Rle_abs|]. pose proof (Rabs_pos r). apply Rle_trans with (1e45 * 1e45); [apply Rmult_le_compat; try lra; apply Rabs_le; lra|lra]. }
  assert (JT : j * 1e90 <= 1e96) by lra.
  pose proof u64_num as UN. assert (U : 0 <= u64 <= 1.2e-16) by (rewrite UN; lra). clear UN.
  pose proof eta300 as ET. pose proof (eta_pos 53 1024) as EP. pose proof room64 as HH. pose proof (Rabs_pos r).
  assert (HG : 1e100 <= huge 1024). { pose proof g150 as G1. assert (1e100 <= 1e150) by lra. set (g := 1e150) in *. clearbody g. assert (g <= g * g) by nra. lra. }
  assert (RA : Rabs (r * r) <= r * r) by (rewrite Rabs_pos_eq; lra).
  pose proof (near_mul0 53 1024 d d r r (r * r) D D RA ltac:(lra)) as NM.
  assert (JB : 0 <= j * 3e-300 <= 3e-294) by lra.
  set (c := (j + 1) * 1.01) in *. assert (CB : 0 <= c <= 1.1e6) by (unfold c; lra).
  assert (CU : 0 <= c * u64 <= 1e-9) by (split; [apply Rmult_le_pos; lra|apply Rle_trans with (1.1e6 * 1.2e-16); [apply Rmult_le_compat; lra|lra]]).
  assert (CT : 0 <= c * u64 * T <= 1e-9 * T) by (split; [apply Rmult_le_pos; lra|apply Rmult_le_compat_r; lra]).
  assert (UR : 0 <= u64 * (r * r) <= 1e-9 * (r * r)) by (split; [apply Rmult_le_pos; lra|apply Rmult_le_compat_r; lra]).
  rewrite u64_eq in NM.
  assert (AT : Rabs (T + r * r) <= T + r * r) by (rewrite Rabs_pos_eq; lra).
  assert (FIT : T + r * r + (c * u64 * T + j * 3e-300 + (u64 * (r * r) + eta 53 1024)) <= huge 1024) by lra.
  pose proof (near_add 53 1024 _ _ _ _ _ _ _ NS NM AT FIT) as NA. rewrite u64_eq in NA.
  split; [|split; [|lra]].
  - split; [|exact AT]. change (n_add (n := B64 lm) s (n_mul (n := B64 lm) d d)) with (Bplus mode_NE s (Bmult mode_NE d d)).
    apply near_weak with (1 := NA).
    assert (L : u64 * (T + r * r + (c * u64 * T + j * 3e-300 + (u64 * (r * r) + eta 53 1024))) <= 1.005 * (u64 * (T + r * r)) + 1e-301).
    { apply Rle_trans with (u64 * (1.005 * (T + r * r) + 4e-294)); [apply Rmult_le_compat_l; lra|].
      replace (u64 * (1.005 * (T + r * r) + 4e-294)) with (1.005 * (u64 * (T + r * r)) + u64 * 4e-294) by ring. assert (u64 * 4e-294 <= 1.2e-16 * 4e-294) by (apply Rmult_le_compat_r; lra). lra. }
    replace ((j + 1 + 1) * 1.01 * u64 * (T + r * r)) with (c * u64 * T + c * (u64 * (r * r)) + 1.01 * (u64 * (T + r * r))) by (unfold c; ring).
    assert (CR : 1.01 * (u64 * (r * r)) <= c * (u64 * (r * r))) by (apply Rmult_le_compat_r; [lra|unfold c; lra]).
    assert (0 <= u64 * (T + r * r)) by (apply Rmult_le_pos; lra). lra.
  - destruct NA as (v & (FA & _) & _). destruct NM as (w & (FM & _) & _). exact (sign_plus 53 1024 s _ FA SG (sign_sq 53 1024 d FM)).
Qed.
Lemma sqrt_mix d Y e q : 0 <= d -> 0 <= Y -> 0 <= e <= / 2 -> 0 <= q -> Rabs (d - Y) <= e * Y + q * q -> Rabs (sqrt d - sqrt Y) <= e * sqrt Y + q.
Proof.
  intros D0 Y0 E Q0 H. apply Rabs_le_inv in H. pose proof (sqrt_pos Y) as y0. pose proof (sqrt_sqrt Y Y0) as YY. pose proof (sqrt_pos d) as r0. pose proof (sqrt_sqrt d D0) as DD.
  set (y := sqrt Y) in *. set (r := sqrt d) in *. clearbody y r. subst Y d.
  assert (EY : 0 <= e * y) by (apply Rmult_le_pos; lra). assert (YQ : 0 <= y * q) by (now apply Rmult_le_pos). assert (EYQ : 0 <= e * y * q) by (now apply Rmult_le_pos).
  assert (EE : 0 <= e * y * (e * y)) by (now apply Rmult_le_pos). assert (y2 : 0 <= y * y) by (now apply Rmult_le_pos).
  assert (EYY : 0 <= e * (y * y)) by (apply Rmult_le_pos; lra).
  apply Rabs_le. split.
  - destruct (Rle_dec (y - e * y - q) 0) as [L|L]; [lra|]. assert (K : y - e * y - q <= r); [|lra]. apply Rsqr_incr_0_var; [|lra]. unfold Rsqr.
    assert (B : 0 <= (y - e * y - q) * q) by (apply Rmult_le_pos; lra).
    assert (E2 : e * y * (e * y) <= e * (y * y)) by (replace (e * y * (e * y)) with (e * (e * (y * y))) by ring; apply Rmult_le_compat_l; [lra|]; rewrite <- (Rmult_1_l (y * y)) at 2; apply Rmult_le_compat_r; lra).
    replace ((y - e * y - q) * (y - e * y - q)) with (y * y - 2 * (e * (y * y)) + e * y * (e * y) - 2 * ((y - e * y - q) * q) - q * q) by ring. lra.
  - assert (K : r <= y + e * y + q); [|lra]. apply Rsqr_incr_0_var; [|lra]. unfold Rsqr.
    replace ((y + e * y + q) * (y + e * y + q)) with (y * y + 2 * (e * (y * y)) + e * y * (e * y) + 2 * (y * q) + 2 * (e * y * q) + q * q) by ring. lra.
Qed.
Lemma acc_root lm s T j p : acc s T j -> 1 <= j <= 1e6 -> value64 p j ->
  exists m, value64 (n_sqrt (n := B64 lm) (n_div (n := B64 lm) s p)) m /\ 0 <= m /\ Rabs (m - sqrt (T / j)) <= ((j + 1) * 1.01 + 2.02) * u64 * sqrt (T / j) + 2e-146.
Proof.
  intros (((v & FS & ES) & TB) & SG & TJ) J FP. assert (T0 : 0 <= T) by (pose proof (Rabs_pos T); lra).
  assert (V0 : 0 <= v) by (destruct FS as (_ & <-); now apply sign_pos).
  pose proof u64_num as UN. assert (U : 0 <= u64 <= 1.2e-16) by (rewrite UN; lra). clear UN.
  pose proof eta300 as ET. pose proof (eta_pos 53 1024) as EP. pose proof room64 as HH.
  assert (HG : 1e100 <= huge 1024). { pose proof g150 as G1. assert (1e100 <= 1e150) by lra. set (g := 1e150) in *. clearbody g. assert (g <= g * g) by nra. lra. }
  set (c := (j + 1) * 1.01) in *. assert (CB : 0 <= c <= 1.1e6) by (unfold c; lra).
  assert (CU : 0 <= c * u64 <= 1e-9) by (split; [apply Rmult_le_pos; lra|apply Rle_trans with (1.1e6 * 1.2e-16); [apply Rmult_le_compat; lra|lra]]).
  assert (IJ : 0 < / j <= 1) by (split; [apply Rinv_0_lt_compat; lra|rewrite <- Rinv_1; apply Rinv_le_contravar; lra]).
  assert (Y0 : 0 <= T / j) by (apply Rmult_le_pos; lra). set (Y := T / j) in *.
  assert (VJ : Rabs (v / j - Y) <= c * u64 * Y + 3e-294).
  { unfold Y. replace (v / j - T / j) with ((v - T) / j) by (field; lra). rewrite Rabs_quot by lra. apply Rle_trans with ((c * u64 * T + j * 3e-300) / j); [apply Rmult_le_compat_r; lra|].
    replace ((c * u64 * T + j * 3e-300) / j) with (c * u64 * (T / j) + 3e-300) by (field; lra). lra. }
  assert (W0 : 0 <= v / j) by (apply Rmult_le_pos; lra). set (w := v / j) in *.
  assert (CY : 0 <= c * u64 * Y <= 1e-9 * Y) by (split; [apply Rmult_le_pos; lra|apply Rmult_le_compat_r; lra]).
  assert (YB : Y <= 1e97). { unfold Y. apply Rle_trans with (T * 1); [apply Rmult_le_compat_l; lra|lra]. }
  apply Rabs_le_inv in VJ as VJ'.
  destruct (near_div0 53 1024 s p v j w FS FP ltac:(lra) ltac:(fold w; rewrite Rabs_pos_eq; lra) ltac:(lra)) as (d & FD & ED). fold w in ED. rewrite u64_eq in ED.
  assert (D0 : 0 <= d).
  { assert (RF : Rabs (rnd 53 1024 w) < top 1024) by (apply (rnd_fits 53 1024); try reflexivity; rewrite Rabs_pos_eq; lra).
    pose proof (fin_div 53 1024 s p v j FS FP ltac:(lra) RF) as FW. fold w in FW.
    destruct FD as (_ & <-). destruct FW as (_ & ->). rewrite <- (rnd_0 53 1024). now apply rnd_mono. }
  assert (UW : u64 * w <= u64 * (1.001 * Y) + 1e-300).
  { apply Rle_trans with (u64 * (1.001 * Y + 3e-294)); [apply Rmult_le_compat_l; lra|]. rewrite Rmult_plus_distr_l. assert (u64 * 3e-294 <= 1.2e-16 * 3e-294) by (apply Rmult_le_compat_r; lra). lra. }
  assert (UY : 0 <= u64 * Y) by (apply Rmult_le_pos; lra).
  assert (DY : Rabs (d - Y) <= (c + 1.005) * u64 * Y + 1e-146 * 1e-146).
  { replace (d - Y) with ((d - w) + (w - Y)) by ring. eapply Rle_trans; [apply Rabs_triang|].
    replace ((c + 1.005) * u64 * Y) with (c * u64 * Y + 1.005 * (u64 * Y)) by ring. replace (u64 * (1.001 * Y)) with (1.001 * (u64 * Y)) in UW by ring. lra. }
  assert (EB : 0 <= (c + 1.005) * u64 <= 1e-8) by lra.
  pose proof (sqrt_mix d Y ((c + 1.005) * u64) 1e-146 D0 Y0 ltac:(lra) ltac:(lra) DY) as SM.
  pose proof (fin_sqrt 53 1024 _ d FD D0) as FM. exists (rnd 53 1024 (sqrt d)). split; [exact FM|].
  split; [rewrite <- (rnd_0 53 1024); apply rnd_mono; [reflexivity|apply sqrt_pos]|].
  pose proof (rnd_err 53 1024 (sqrt d)) as RE. rewrite u64_eq, (Rabs_pos_eq (sqrt d)) in RE by apply sqrt_pos.
  pose proof (sqrt_pos Y) as y0. set (y := sqrt Y) in *. set (r := sqrt d) in *. apply Rabs_le_inv in SM as SM'.
  assert (EY : (c + 1.005) * u64 * y <= 1e-8 * y) by (apply Rmult_le_compat_r; lra).
  assert (UR : u64 * r <= u64 * (1.001 * y) + 1e-150).
  { apply Rle_trans with (u64 * (1.001 * y + 1e-146)); [apply Rmult_le_compat_l; lra|]. rewrite Rmult_plus_distr_l. assert (u64 * 1e-146 <= 1.2e-16 * 1e-146) by (apply Rmult_le_compat_r; lra). lra. }
  replace (rnd 53 1024 r - y) with ((rnd 53 1024 r - r) + (r - y)) by ring. eapply Rle_trans; [apply Rabs_triang|].
  replace ((c + 2.02) * u64 * y) with ((c + 1.005) * u64 * y + 1.015 * (u64 * y)) by (replace 2.02 with (1.005 + 1.015) by lra; ring). replace (u64 * (1.001 * y)) with (1.001 * (u64 * y)) in UR by ring.
  assert (0 <= u64 * y) by (apply Rmult_le_pos; lra). lra.
Qed.

(** ** The residuals *)
Lemma resid64 lm (xe xp : double) e P A G : value64 xe e -> (exists r, value64 xp r /\ Rabs (r - P) <= 3.03 * u64 * A + 1e-240) -> Rabs P <= A -> Rabs e + A <= G -> G <= 1e40 ->
  exists r, value64 (n_sub (n := B64 lm) xe xp) r /\ Rabs (r - (P - e) * -1) <= 4.05 * u64 * G + 1e-239 /\ Rabs r <= 1e45.
Proof.
  intros XE XP PA EG G1. pose proof (Rabs_pos e) as E0. pose proof (Rabs_pos P) as P0. pose proof u64_num as UN. assert (U : 0 <= u64 <= 1.2e-16) by (rewrite UN; lra). clear UN.
  assert (NP : nr xp P A 3.03 1e-240) by (split; [exact XP|exact PA]).
  pose proof (nr_sub lm _ _ _ _ _ _ _ _ _ _ (nr_val _ _ XE) NP ltac:(lra) ltac:(lra) ltac:(lra) ltac:(lra) ltac:(lra) ltac:(lra)) as [(r & FR & ER) B]. rewrite Rmax_right in ER by lra.
  exists r. split; [exact FR|]. assert (H : Rabs (r - (P - e) * -1) <= 4.05 * u64 * G + 1e-239).
  { replace ((P - e) * -1) with (e - P) by ring. eapply Rle_trans; [exact ER|]. assert (u64 * (Rabs e + A) <= u64 * G) by (apply Rmult_le_compat_l; lra). assert (0 <= u64 * (Rabs e + A)) by (apply Rmult_le_pos; lra).
    replace ((3.03 + 1.01) * u64 * (Rabs e + A)) with (4.04 * (u64 * (Rabs e + A))) by (replace 4.04 with (3.03 + 1.01) by lra; ring). lra. }
  split; [exact H|]. assert (U4 : u64 * G <= 1.2e-16 * 1e40) by (apply Rmult_le_compat; lra).
  replace r with ((r - (P - e) * -1) + (e - P)) by ring. eapply Rle_trans; [apply Rabs_triang|]. lra.
Qed.

Lemma skipn_head {A} (l : list A) : forall i a t, skipn i l = a :: t -> nth_error l i = Some a /\ skipn (S i) l = t.
Proof.
  induction l as [|x l IH]; intros [|i] a t H; cbn [skipn nth_error] in *; try discriminate.
  - injection H as -> ->. auto.
  - apply IH in H. exact H.
Qed.
(** The loop from sample [i]: the sums are those of the squares of numbers close to the residuals. *)
Definition res (sel : point -> R) (c : coeffs R) (es ms : list point) : list R := map (fun q => (sel (fst q) - sel (snd q)) * -1) (combine (map (linear_map c) ms) es).
Lemma loop64 lm (m : coeffs double) c G : coeffs64 m c -> coeffs_within 1e50 c -> G <= 1e40 ->
  forall k i expected measured es ms pred sx sy Tx Ty j,
  points64 (skipn i expected) es -> points64 (skipn i measured) ms -> sample_size c G es ms -> length es = k ->
  acc sx Tx j -> acc sy Ty j -> 0 <= j -> j + INR k <= 1e6 ->
  exists q sx' sy' rx ry, pxy_loop (N := B64 lm) k i expected measured m pred sx sy = Some (pred ++ q, sx', sy') /\
    points_near (3.03 * u64 * G + 1e-240) q (map (linear_map c) ms) /\
    Forall2 (fun x y => Rabs (x - y) <= 4.05 * u64 * G + 1e-239) rx (res fst c es ms) /\ Forall2 (fun x y => Rabs (x - y) <= 4.05 * u64 * G + 1e-239) ry (res snd c es ms) /\
    acc sx' (Tx + sumsq rx) (j + INR k) /\ acc sy' (Ty + sumsq ry) (j + INR k).
Proof.
  intros MC CW G1. induction k as [|k IH]; intros i ex me es ms pr sx sy Tx Ty j HE HM SZ L AX AY J0 J1.
  - destruct es; [|discriminate L]. inversion SZ; subst. exists [], sx, sy, [], []. cbn [pxy_loop]. rewrite app_nil_r. cbn [INR]. rewrite Rplus_0_r. unfold sumsq, res. cbn [map combine Rsum_list]. rewrite !Rplus_0_r.
    split; [reflexivity|]. split; [constructor|]. split; [constructor|]. split; [constructor|]. split; assumption.
  - destruct es as [|[e1 e2] es]; [discriminate L|]. destruct ms as [|[m1 m2] ms]; [inversion SZ|].
    apply Forall2_swap in HE. apply Forall2_swap in HM. inversion HE as [|? d ? lx (E1 & E2) HE' Q1 SE]; subst. inversion HM as [|? f ? ly (M1 & M2) HM' Q2 SM]; subst.
    destruct d as [xe1 xe2], f as [xm1 xm2]. symmetry in SE, SM. cbn [fst snd] in *.
    inversion SZ as [|? ? ? ? (B1 & B2 & G2 & G3) SZ' Q3 Q4]; subst. cbn [fst snd] in *.
    assert (NE : @nth_error (B64 lm * B64 lm) ex i = Some (xe1, xe2) /\ skipn (S i) ex = lx) by (apply skipn_head; exact SE). assert (NM : @nth_error (B64 lm * B64 lm) me i = Some (xm1, xm2) /\ skipn (S i) me = ly) by (apply skipn_head; exact SM).
    destruct NE as [NE KE], NM as [NM KM]. cbn [pxy_loop]. rewrite NE, NM.
    destruct (xy2xy64 lm m c xm1 xm2 m1 m2 MC M1 M2 CW B1 B2) as (p & q & FP & FQ & EP & EQ).
    destruct (xy2xy (N := B64 lm) xm1 xm2 m) as [xp yp] eqn:XY. cbn [fst snd] in FP, FQ.
    assert (TR : forall a b c, Rabs (a + b + c) <= Rabs a + Rabs b + Rabs c) by (intros; eapply Rle_trans; [apply Rabs_triang|]; pose proof (Rabs_triang a b); lra).
    destruct (resid64 lm xe1 xp e1 (fst (linear_map c (m1, m2))) _ G E1 (ex_intro _ p (conj FP EP)) (TR _ _ _) G2 G1) as (rx & FRX & ERX & BRX).
    destruct (resid64 lm xe2 yp e2 (snd (linear_map c (m1, m2))) _ G E2 (ex_intro _ q (conj FQ EQ)) (TR _ _ _) G3 G1) as (ry & FRY & ERY & BRY).
    rewrite S_INR in *. pose proof (pos_INR k) as K0.
    pose proof (acc_step lm _ _ _ _ _ AX FRX BRX ltac:(lra)) as AX'. pose proof (acc_step lm _ _ _ _ _ AY FRY BRY ltac:(lra)) as AY'.
    injection L as L.
    destruct (IH (S i) ex me es ms (pr ++ [(xp, yp)]) _ _ _ _ (j + 1)
      ltac:(rewrite KE; apply Forall2_swap in HE'; exact HE') ltac:(rewrite KM; apply Forall2_swap in HM'; exact HM') SZ' L AX' AY' ltac:(lra) ltac:(lra)) as (q' & sx' & sy' & lx' & ly' & EQ' & PN & FX & FY & AX2 & AY2).
    exists ((xp, yp) :: q'), sx', sy', (rx :: lx'), (ry :: ly').
    split; [rewrite EQ', <- app_assoc; reflexivity|].
    pose proof u64_pos as UP. pose proof (Rabs_pos e1). pose proof (Rabs_pos e2).
    assert (W : forall A, A <= G -> 3.03 * u64 * A + 1e-240 <= 3.03 * u64 * G + 1e-240) by (intros A HA; assert (u64 * A <= u64 * G) by (apply Rmult_le_compat_l; lra); lra).
    split; [cbn [map]; constructor; [|exact PN]; cbn [fst snd]; split; [exists p|exists q]; (split; [assumption|]); (eapply Rle_trans; [eassumption|]); apply W; lra|].
    split; [unfold res; cbn [map combine fst snd]; constructor; [exact ERX|exact FX]|]. split; [unfold res; cbn [map combine fst snd]; constructor; [exact ERY|exact FY]|].
    unfold sumsq in *. cbn [map Rsum_list]. rewrite <- !Rplus_assoc. replace (j + INR k + 1) with (j + 1 + INR k) by ring. split; assumption.
Qed.

(** ** The three root mean squares *)
Lemma sumsq_neg {A} (f : A -> R) l : sumsq (map (fun q => f q * -1) l) = sumsq (map f l).
Proof. unfold sumsq. induction l as [|a l IH]; [reflexivity|]. cbn [map Rsum_list]. rewrite IH. ring. Qed.
Lemma rms_neg {A} (f : A -> R) l : rms_of (map (fun q => f q * -1) l) = rms_of (map f l).
Proof. rewrite !rms_sqrt, sumsq_neg, !map_length. reflexivity. Qed.
Lemma hyp_diff a b c d : Rabs (hyp a b - hyp c d) <= Rabs (a - c) + Rabs (b - d).
Proof.
  assert (TRI : forall a b x y, hyp (a + x) (b + y) <= hyp a b + (Rabs x + Rabs y)).
  { clear. intros a b x y. unfold hyp. pose proof (Rabs_pos x) as x0. pose proof (Rabs_pos y) as y0.
    assert (S0 : 0 <= a * a + b * b) by nra. pose proof (sqrt_pos (a * a + b * b)) as h0. pose proof (sqrt_sqrt _ S0) as HH. 
    assert (HA : Rabs a <= sqrt (a * a + b * b)) by (rewrite <- sqrt_Rsqr_abs; apply sqrt_le_1_alt; unfold Rsqr; nra).
    assert (HB : Rabs b <= sqrt (a * a + b * b)) by (rewrite <- sqrt_Rsqr_abs; apply sqrt_le_1_alt; unfold Rsqr; nra).
    set (h := sqrt (a * a + b * b)) in *. rewrite <- (sqrt_square (h + (Rabs x + Rabs y))) by lra. apply sqrt_le_1_alt.
    assert (X2 : x * x = Rabs x * Rabs x) by (rewrite <- Rabs_mult; symmetry; apply Rabs_pos_eq, Rle_0_sqr). assert (Y2 : y * y = Rabs y * Rabs y) by (rewrite <- Rabs_mult; symmetry; apply Rabs_pos_eq, Rle_0_sqr).
    assert (AX : a * x <= h * Rabs x) by (eapply Rle_trans; [apply Rle_abs|rewrite Rabs_mult; apply Rmult_le_compat_r; lra]).
    assert (BY : b * y <= h * Rabs y) by (eapply Rle_trans; [apply Rle_abs|rewrite Rabs_mult; apply Rmult_le_compat_r; lra]).
    assert (0 <= Rabs x * Rabs y) by (now apply Rmult_le_pos). clearbody h.
    replace ((a + x) * (a + x) + (b + y) * (b + y)) with (a * a + b * b + 2 * (a * x) + 2 * (b * y) + x * x + y * y) by ring. rewrite X2, Y2.
    replace ((h + (Rabs x + Rabs y)) * (h + (Rabs x + Rabs y))) with (h * h + 2 * (h * Rabs x) + 2 * (h * Rabs y) + Rabs x * Rabs x + Rabs y * Rabs y + 2 * (Rabs x * Rabs y)) by ring. lra. }
  pose proof (TRI a b (c - a) (d - b)) as T1. pose proof (TRI c d (a - c) (b - d)) as T2.
  replace (a + (c - a)) with c in T1 by ring. replace (b + (d - b)) with d in T1 by ring. replace (c + (a - c)) with a in T2 by ring. replace (d + (b - d)) with b in T2 by ring.
  rewrite (Rabs_minus_sym c a), (Rabs_minus_sym d b) in T1. apply Rabs_le. lra.
Qed.

(** One coordinate: from the sum to the root mean square. *)
Lemma rms64 lm s p r d n G : acc s (sumsq r) (INR n) -> length r = n -> value64 p (INR n) -> (1 <= n)%nat -> INR n <= 1e6 -> 0 <= G <= 1e40 ->
  Forall2 (fun x y => Rabs (x - y) <= 4.05 * u64 * G + 1e-239) r d -> Forall (fun x => Rabs x <= G) d ->
  exists m, value64 (n_sqrt (n := B64 lm) (n_div (n := B64 lm) s p)) m /\ 0 <= m <= 1e45 /\ Rabs (m - rms_of d) <= (1.02 * INR n + 8) * u64 * G + 1e-145.
Proof.
  intros A L FP N1 N2 G0 F B. assert (J : 1 <= INR n) by (change 1 with (INR 1); now apply le_INR).
  destruct (acc_root lm s _ _ p A ltac:(lra) FP) as (m & FM & M0 & EM). exists m. split; [exact FM|].
  assert (RT : sqrt (sumsq r / INR n) = rms_of r) by (unfold rms_of, mean; rewrite map_length, L; reflexivity). rewrite RT in EM.
  pose proof u64_num as UN. assert (U : 0 <= u64 <= 1.2e-16) by (rewrite UN; lra). clear UN.
  assert (UG : 0 <= u64 * G <= 1.2e-16 * G) by (split; [apply Rmult_le_pos; lra|apply Rmult_le_compat_r; lra]).
  pose proof (rms_near r d (4.05 * u64 * G + 1e-239) ltac:(lra) F) as RN. pose proof (rms_bound d G ltac:(lra) B) as RB. pose proof (rms_pos r) as r0. pose proof (rms_pos d) as d0.
  set (x := rms_of r) in *. set (y := rms_of d) in *. clearbody x y. apply Rabs_le_inv in RN as RN'.
  set (c := (INR n + 1) * 1.01 + 2.02) in *. assert (CB : 0 <= c <= 1.1e6) by (unfold c; lra).
  assert (CU : 0 <= c * u64 <= 1e-9) by (split; [apply Rmult_le_pos; lra|apply Rle_trans with (1.1e6 * 1.2e-16); [apply Rmult_le_compat; lra|lra]]).
  assert (CX : c * u64 * x <= c * u64 * G + 1e-8 * (u64 * G) + 1e-245).
  { apply Rle_trans with (c * u64 * (G + (4.05 * u64 * G + 1e-239))); [apply Rmult_le_compat_l; lra|].
    assert (K : c * u64 * (4.05 * u64 * G + 1e-239) <= 1e-9 * (4.05 * u64 * G + 1e-239)) by (apply Rmult_le_compat_r; lra).
    rewrite Rmult_plus_distr_l. lra. }
  assert (H : Rabs (m - y) <= (1.02 * INR n + 8) * u64 * G + 1e-145).
  { replace (m - y) with ((m - x) + (x - y)) by ring. eapply Rle_trans; [apply Rabs_triang|].
    assert (NG : 0 <= INR n * (u64 * G)) by (apply Rmult_le_pos; lra).
    replace ((1.02 * INR n + 8) * u64 * G) with (1.02 * (INR n * (u64 * G)) + 8 * (u64 * G)) by ring.
    replace (c * u64 * G) with (1.01 * (INR n * (u64 * G)) + 3.03 * (u64 * G)) in CX by (unfold c; replace 3.03 with (1.01 + 2.02) by lra; ring). lra. }
  split; [|exact H]. split; [exact M0|]. apply Rabs_le_inv in H.
  assert ((1.02 * INR n + 8) * u64 * G <= G). { apply Rle_trans with (1 * G); [|lra]. apply Rmult_le_compat_r; [lra|]. apply Rle_trans with (1.1e6 * 1.2e-16); [apply Rmult_le_compat; lra|lra]. }
  lra.
Qed.

Lemma max64 lm n : (1 <= n)%nat -> INR n <= 1e6 -> value64 (n_max (N := B64 lm) (n_ofZ (n := B64 lm) 1) (n_ofZ (n := B64 lm) (Z.of_nat n))) (INR n).
Proof.
  intros N1 N2. rewrite INR_IZR_INZ in *.
  assert (B : (Z.of_nat n <= 1000000)%Z) by (apply le_IZR; lra).
  assert (O : value64 (n_ofZ (n := B64 lm) 1) 1) by (apply (fin_ofZ 53 1024 1); reflexivity).
  assert (F : value64 (n_ofZ (n := B64 lm) (Z.of_nat n)) (IZR (Z.of_nat n))) by (apply (fin_ofZ 53 1024); rewrite Z.abs_eq by lia; apply Z.le_lt_trans with 1000000%Z; [exact B|reflexivity]).
  unfold n_max. change (n_ltb (n := B64 lm)) with (fun x y : double => Bltb x y). cbv beta. rewrite (fin_ltb 53 1024 _ _ _ _ O F).
  destruct (Rlt_bool_spec 1 (IZR (Z.of_nat n))) as [H|H]; [exact F|]. assert (E : (Z.of_nat n = 1)%Z) by (apply le_IZR in H; lia). rewrite E. exact O.
Qed.

Lemma pxy64 lm (m : coeffs double) c expected measured es ms G : coeffs64 m c -> coeffs_within 1e50 c -> points64 expected es -> points64 measured ms ->
  sample_size c G es ms -> G <= 1e40 -> (1 <= length es)%nat -> INR (length es) <= 1e6 ->
  let n := INR (length es) in
  let ps := map (linear_map c) ms in
  let dx := map (fun q => fst (fst q) - fst (snd q)) (combine ps es) in
  let dy := map (fun q => snd (fst q) - snd (snd q)) (combine ps es) in
  exists pred (xr yr tr : double) x y t, pxy (N := B64 lm) (Z.of_nat (length es)) expected measured m = Some (pred, xr, yr, tr) /\
    points_near (3.03 * u64 * G + 1e-240) pred ps /\
    value64 xr x /\ Rabs (x - rms_of dx) <= (1.02 * n + 8) * u64 * G + 1e-145 /\
    value64 yr y /\ Rabs (y - rms_of dy) <= (1.02 * n + 8) * u64 * G + 1e-145 /\
    value64 tr t /\ Rabs (t - sqrt (rms_of dx ^ 2 + rms_of dy ^ 2)) <= (2.04 * n + 22) * u64 * G + 1e-144.
Proof.
  intros MC CW HE HM SZ G1 N1 N2 n ps dx dy.
  assert (G0 : 0 <= G). { destruct SZ as [|e q es ms (_ & _ & H & _) _]; [cbn in N1; lia|]. pose proof (Rabs_pos (fst e)). pose proof (Rabs_pos (fc_a c)). pose proof (Rabs_pos (fc_b c * fst q)). pose proof (Rabs_pos (fc_c c * snd q)). lra. }
  pose proof (max64 lm (length es) N1 N2) as FP. 
  destruct (loop64 lm m c G MC CW G1 (length es) 0 expected measured es ms [] _ _ 0 0 0 HE HM SZ eq_refl acc0 acc0 ltac:(lra) ltac:(lra)) as (q & sx & sy & rx & ry & EQ & PN & FX & FY & AX & AY).
  rewrite !Rplus_0_l in AX, AY.
  assert (LE : length es = length ms) by exact (Forall2_len _ _ _ SZ).
  assert (LR : forall sel, length (res sel c es ms) = length es) by (intros; unfold res; rewrite map_length, combine_length, map_length; apply Nat.min_r; exact (Nat.eq_le_incl _ _ LE)).
  pose proof (Forall2_len _ _ _ FX) as LX. pose proof (Forall2_len _ _ _ FY) as LY. rewrite LR in LX, LY.
  assert (TR : forall a b c, Rabs (a + b + c) <= Rabs a + Rabs b + Rabs c) by (intros; eapply Rle_trans; [apply Rabs_triang|]; pose proof (Rabs_triang a b); lra).
  assert (SX : forall sel, Forall2 (fun e m => Rabs (sel (linear_map c m) - sel e) <= G) es ms -> Forall (fun x => Rabs x <= G) (res sel c es ms)).
  { intros sel F. unfold res. clear - F. induction F as [|e q es ms H F IH]; cbn [map combine]; constructor; [|exact IH]. cbn [fst snd]. replace ((sel (linear_map c q) - sel e) * -1) with (- (sel (linear_map c q) - sel e)) by ring. rewrite Rabs_Ropp. exact H. }
  assert (BX : Forall (fun x => Rabs x <= G) (res fst c es ms)).
  { apply SX. eapply Forall2_imp; [|exact SZ]. intros e [m1 m2] (_ & _ & H & _). cbn [fst snd linear_map] in *. unfold Rminus. eapply Rle_trans; [apply Rabs_triang|]. rewrite Rabs_Ropp. pose proof (TR (fc_a c) (fc_b c * m1) (fc_c c * m2)). lra. }
  assert (BY : Forall (fun x => Rabs x <= G) (res snd c es ms)).
  { apply SX. eapply Forall2_imp; [|exact SZ]. intros e [m1 m2] (_ & _ & _ & H). cbn [fst snd linear_map] in *. unfold Rminus. eapply Rle_trans; [apply Rabs_triang|]. rewrite Rabs_Ropp. pose proof (TR (fc_d c) (fc_e c * m1) (fc_f c * m2)). lra. }
  destruct (rms64 lm sx _ rx _ (length es) G AX LX FP N1 N2 (conj G0 G1) FX BX) as (x & VX & BX' & EX).
  destruct (rms64 lm sy _ ry _ (length es) G AY LY FP N1 N2 (conj G0 G1) FY BY) as (y & VY & BY' & EY).
  unfold res in EX, EY. rewrite rms_neg in EX, EY. change (Rabs (x - rms_of dx) <= (1.02 * n + 8) * u64 * G + 1e-145) in EX. change (Rabs (y - rms_of dy) <= (1.02 * n + 8) * u64 * G + 1e-145) in EY. change (n <= 1e6) in N2.
  assert (W : forall z, 0 <= z <= 1e45 -> Rabs z <= 1e150) by (intros z Z; rewrite Rabs_pos_eq by lra; lra).
  destruct (hyp64 _ _ x y VX VY (W x BX') (W y BY')) as (t & VT & T0 & ET).
  eexists q, _, _, _, x, y, t. unfold pxy. rewrite Nat2Z.id.
  split; [change (n_ofZ (n := B64 lm) 0) with (BofZ 53 1024 0); rewrite EQ; reflexivity|].
  split; [exact PN|]. split; [exact VX|]. split; [exact EX|]. split; [exact VY|]. split; [exact EY|]. split; [exact VT|].
  pose proof (hyp_diff x y (rms_of dx) (rms_of dy)) as HD. assert (HE' : hyp (rms_of dx) (rms_of dy) = sqrt (rms_of dx ^ 2 + rms_of dy ^ 2)) by (unfold hyp; f_equal; ring). rewrite HE' in HD.
  assert (RX : rms_of dx <= G). { unfold dx, ps. rewrite <- rms_neg. apply rms_bound; [exact G0|exact BX]. }
  assert (RY : rms_of dy <= G). { unfold dy, ps. rewrite <- rms_neg. apply rms_bound; [exact G0|exact BY]. }
  pose proof (rms_pos dx) as px. pose proof (rms_pos dy) as py.
  pose proof (hyp_diff (rms_of dx) (rms_of dy) 0 0) as H0. rewrite HE' in H0. assert (hyp 0 0 = 0) as Z0 by (unfold hyp; replace (0 * 0 + 0 * 0) with 0 by ring; apply sqrt_0). rewrite Z0, !Rminus_0_r in H0. rewrite !Rabs_pos_eq in H0 by (try assumption; apply sqrt_pos).
  set (h := sqrt (rms_of dx ^ 2 + rms_of dy ^ 2)) in *. set (X := rms_of dx) in *. set (Y := rms_of dy) in *. set (k := hyp x y) in *. clearbody h X Y k.
  pose proof u64_num as UN. assert (U : 0 <= u64 <= 1.2e-16) by (rewrite UN; lra). clear UN. pose proof (pos_INR (length es)) as n0. fold n in n0.
  assert (UG : 0 <= u64 * G <= 1.2e-16 * G) by (split; [apply Rmult_le_pos; lra|apply Rmult_le_compat_r; lra]).
  set (E := (1.02 * n + 8) * u64 * G) in *.
  assert (EB : E <= 0.01 * G). { unfold E. apply Rmult_le_compat_r; [lra|]. apply Rle_trans with (1.1e6 * 1.2e-16); [apply Rmult_le_compat; lra|lra]. }
  assert (KB : k <= 2.03 * G + 3e-145) by (apply Rabs_le_inv in HD; lra).
  assert (UK : u64 * k <= 2.03 * (u64 * G) + 1e-160).
  { apply Rle_trans with (u64 * (2.03 * G + 3e-145)); [apply Rmult_le_compat_l; lra|]. rewrite Rmult_plus_distr_l. assert (u64 * 3e-145 <= 1.2e-16 * 3e-145) by (apply Rmult_le_compat_r; lra). lra. }
  replace (t - h) with ((t - k) + (k - h)) by ring. eapply Rle_trans; [apply Rabs_triang|].
  replace ((2.04 * n + 22) * u64 * G) with (2 * E + 6 * (u64 * G)) by (unfold E; replace 2.04 with (2 * 1.02) by lra; ring). lra.
Qed.
