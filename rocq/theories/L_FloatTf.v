(** Sexagesimal fields to days and radians in binary64, and back. *)
From Coq Require Import ZArith Reals Bool List Lia Lra Psatz.
From Flocq Require Import Core BinarySingleNaN Relative.
From Verif Require Import Int32 Num NumB NumR M_Angle S_Angle S_Binary S_Float S_FloatTf L_Bin L_Flt L_FltVec L_Float L_Angle L_BinTf L_Err L_ErrT.
From Verif Require L_Pi.
Import ListNotations.
Open Scope R_scope.

Definition it (l h : Z) : item := It (l * Sc) (h * Sc) 0.
Lemma int64 z : (-2147483648 <= z <= 2147483647)%Z -> value64 (BofZ 53 1024 z) (IZR z).
Proof. intros H. apply (fin_ofZ 53 1024). change (2 ^ 53)%Z with 9007199254740992%Z. lia. Qed.
Lemma env3 (x y s : double) a b c l1 h1 l2 h2 l3 h3 : value64 x a -> value64 y b -> value64 s c ->
  IZR l1 <= a <= IZR h1 -> IZR l2 <= b <= IZR h2 -> IZR l3 <= c <= IZR h3 -> okenv [it l1 h1; it l2 h2; it l3 h3] [x; y; s] [a; b; c].
Proof. intros X Y S A B C. split; [now apply okk_in|]. split; [now apply okk_in|]. split; [now apply okk_in|exact Logic.I]. Qed.

Definition hms {N : Num} (x y s : N) : N := n_div (n_add (n_mul (n_ofZ 60) (n_add (n_mul (n_ofZ 60) x) y)) s) (n_ofZ 86400).
Definition dms {N : Num} (x y s : N) : N := n_mul (n_add (n_mul (n_add (n_mul x (n_ofZ 60)) y) (n_ofZ 60)) s) (n_lit 484813681109535994 (-23)).
Lemma hms64 lm (x y s : double) a b c : value64 x a -> value64 y b -> value64 s c -> 0 <= a <= 23 -> 0 <= b <= 59 -> 0 <= c <= 60 ->
  near 53 1024 (hms (N := B64 lm) x y s) (hms (N := RNum) a b c) 6e-16.
Proof.
  intros X Y S A B C. pose proof (env3 x y s a b c 0 23 0 59 0 60 X Y S A B C) as OK. unfold hms.
  err0 lm [it 0 23; it 0 59; it 0 60] [x; y; s] [a; b; c] OK.
Qed.
Lemma turn64 lm (x y s : double) a b c : value64 x a -> value64 y b -> value64 s c -> 0 <= a <= 23 -> 0 <= b <= 59 -> 0 <= c <= 60 ->
  near 53 1024 (n_mul (n := B64 lm) (hms (N := B64 lm) x y s) n_2pi) (n_mul (n := RNum) (hms (N := RNum) a b c) n_2pi) 5e-15.
Proof.
  intros X Y S A B C. pose proof (env3 x y s a b c 0 23 0 59 0 60 X Y S A B C) as OK. unfold hms.
  err0 lm [it 0 23; it 0 59; it 0 60] [x; y; s] [a; b; c] OK.
Qed.
Lemma dms64 lm (x y s : double) a b c : value64 x a -> value64 y b -> value64 s c -> 0 <= a <= 359 -> 0 <= b <= 59 -> 0 <= c <= 60 ->
  near 53 1024 (dms (N := B64 lm) x y s) (dms (N := RNum) a b c) 5e-15.
Proof.
  intros X Y S A B C. pose proof (env3 x y s a b c 0 359 0 59 0 60 X Y S A B C) as OK. unfold dms.
  err0 lm [it 0 359; it 0 59; it 0 60] [x; y; s] [a; b; c] OK.
Qed.

Notation sec_of := seconds_of.
Lemma p10 q : (0 <= q <= 9)%Z -> (1 <= 10 ^ q <= 10 ^ 9)%Z.
Proof. intros H. split; [apply (Z.pow_le_mono_r 10 0); lia|apply Z.pow_le_mono_r; lia]. Qed.
Lemma sec_units q f : (0 <= q <= 9)%Z -> IZR (10 ^ q) * (IZR (fd_h f) * 3600 + IZR (fd_m f) * 60 + sec_of q f) = IZR (units q f).
Proof.
  intros Q. destruct (p10 q Q) as [P _]. apply IZR_le in P. unfold units, seconds_of. rewrite !plus_IZR, !mult_IZR, !plus_IZR, !mult_IZR, !plus_IZR, !mult_IZR. field. lra.
Qed.
Lemma sec_range q f : (0 <= q <= 9)%Z -> canonical q f -> 0 <= sec_of q f <= 60 - 1e-9.
Proof.
  intros Q (_ & _ & S & F). destruct (p10 q Q) as [P P9]. unfold seconds_of.
  assert (S0 : 0 <= IZR (fd_s f) <= 59) by (split; apply IZR_le; lia).
  assert (F0 : 0 <= IZR (fd_f f) <= IZR (10 ^ q) - 1) by (rewrite <- minus_IZR; split; apply IZR_le; lia).
  apply IZR_le in P, P9. set (p := IZR (10 ^ q)) in *. change (IZR (10 ^ 9)) with 1000000000 in P9.
  assert (0 <= IZR (fd_f f) / p) by (apply Rmult_le_pos; [lra|apply Rlt_le, Rinv_0_lt_compat; lra]).
  assert (IZR (fd_f f) / p <= 1 - 1e-9).
  { apply Rmult_le_reg_r with p; [lra|]. unfold Rdiv. rewrite Rmult_assoc, Rinv_l, Rmult_1_r by lra. nra. }
  lra.
Qed.
Lemma units0 q f : (0 <= q <= 9)%Z -> canonical q f -> (0 < units q f)%Z \/ (fd_h f = 0 /\ fd_m f = 0 /\ fd_s f = 0 /\ fd_f f = 0)%Z.
Proof. intros Q (H & M & S & F). destruct (p10 q Q) as [P _]. unfold units. destruct (Z.eq_dec (fd_h f) 0), (Z.eq_dec (fd_m f) 0), (Z.eq_dec (fd_s f) 0), (Z.eq_dec (fd_f f) 0); try (right; tauto); left; nia. Qed.
Lemma sec_zero q f : fd_s f = 0%Z -> fd_f f = 0%Z -> sec_of q f = 0.
Proof. intros A B. unfold seconds_of. rewrite A, B. unfold Rdiv. ring. Qed.
Lemma sec_seconds q f c : (0 <= q <= 9)%Z -> canonical q f -> Rabs (c - sec_of q f) <= 2 * u64 * sec_of q f ->
  0 <= c < 60 /\ Rabs (c - sec_of q f) <= 15e-15.
Proof.
  intros Q C H. pose proof (sec_range q f Q C) as R. rewrite u64_num in H. apply Rabs_le_inv in H.
  split; [split|apply Rabs_le; split]; lra.
Qed.
Lemma mul0 (x y : double) b : value64 x 0 -> value64 y b -> value64 (Bmult mode_NE x y) 0.
Proof. intros X Y. replace 0 with (0 * b) by ring. apply (fin_mul_exact 53 1024); try assumption; rewrite Rmult_0_l; [apply generic_format_0|rewrite Rabs_R0; apply bpow_gt_0]. Qed.
Lemma mul0r (x y : double) b : value64 x b -> value64 y 0 -> value64 (Bmult mode_NE x y) 0.
Proof. intros X Y. replace 0 with (b * 0) by ring. apply (fin_mul_exact 53 1024); try assumption; rewrite Rmult_0_r; [apply generic_format_0|rewrite Rabs_R0; apply bpow_gt_0]. Qed.
Lemma add0 (x y : double) : value64 x 0 -> value64 y 0 -> value64 (Bplus mode_NE x y) 0.
Proof. intros X Y. replace 0 with (0 + 0) by ring. apply (fin_add_exact 53 1024); try assumption; rewrite Rplus_0_r; [apply generic_format_0|rewrite Rabs_R0; apply bpow_gt_0]. Qed.
Lemma div0 (x y : double) b : value64 x 0 -> value64 y b -> b <> 0 -> value64 (Bdiv mode_NE x y) 0.
Proof.
  intros X Y B. replace 0 with (0 / b) by (field; exact B). apply (fin_div_exact 53 1024); try assumption; replace (0 / b) with 0 by (field; exact B); [apply generic_format_0|rewrite Rabs_R0; apply bpow_gt_0].
Qed.
Lemma hms0 lm (x y s : double) : value64 x 0 -> value64 y 0 -> value64 s 0 -> value64 (hms (N := B64 lm) x y s) 0.
Proof.
  intros X Y S. apply div0 with 86400; [|apply (int64 86400); lia|lra]. apply add0; [|exact S].
  apply mul0r with 60; [apply (int64 60); lia|]. apply add0; [|exact Y]. apply mul0r with 60; [apply (int64 60); lia|exact X].
Qed.
Lemma dms0 lm (x y s : double) : value64 x 0 -> value64 y 0 -> value64 s 0 -> value64 (dms (N := B64 lm) x y s) 0.
Proof.
  intros X Y S. assert (LF : is_finite (n_lit 484813681109535994 (-23) : B64 lm) = true) by (vm_compute; reflexivity).
  apply mul0 with (B2R (n_lit 484813681109535994 (-23) : B64 lm)); [|split; [exact LF|reflexivity]]. apply add0; [|exact S].
  apply mul0 with 60; [|apply (int64 60); lia]. apply add0; [|exact Y]. apply mul0 with 60; [exact X|apply (int64 60); lia].
Qed.
Lemma near_pos (x : double) a e : near 53 1024 x a e -> e <= a -> exists r, value64 x r /\ 0 <= r /\ Rabs (r - a) <= e.
Proof. intros (r & F & E) H. exists r. split; [exact F|]. split; [|exact E]. apply Rabs_le_inv in E. lra. Qed.
Lemma tiny_units q f : (0 <= q <= 9)%Z -> (0 < units q f)%Z -> 1e-9 <= IZR (fd_h f) * 3600 + IZR (fd_m f) * 60 + sec_of q f.
Proof.
  intros Q U. pose proof (sec_units q f Q) as E. destruct (p10 q Q) as [P P9]. apply IZR_le in P, P9. change (IZR (10 ^ 9)) with 1000000000 in P9.
  assert (1 <= IZR (units q f)) by (apply IZR_le; lia). set (v := IZR (fd_h f) * 3600 + IZR (fd_m f) * 60 + sec_of q f) in *. set (p := IZR (10 ^ q)) in *.
  nra.
Qed.
Lemma same_units q f g : (0 <= q)%Z -> canonical q f -> canonical q g -> Rabs (IZR (units q g) - IZR (units q f)) < 1 -> fd_sign f = fd_sign g -> g = f.
Proof.
  intros Q F G H S. assert (E : units q g = units q f).
  { rewrite <- minus_IZR, <- abs_IZR in H. apply lt_IZR in H. lia. }
  symmetry. apply (fields_unique q (IZR (units q f)) f g Q F G); [split; lra|rewrite E; split; lra|exact S].
Qed.
Lemma hms_fields lm q f (s : double) c : (0 <= q <= 9)%Z -> canonical q f -> (fd_h f < 24)%Z -> value64 s c -> Rabs (c - sec_of q f) <= 2 * u64 * sec_of q f ->
  exists r, value64 (hms (N := B64 lm) (BofZ 53 1024 (fd_h f)) (BofZ 53 1024 (fd_m f)) s) r /\ 0 <= r /\
    Rabs (r - (IZR (fd_h f) * 3600 + IZR (fd_m f) * 60 + sec_of q f) / 86400) <= 7e-16 /\
  exists t, value64 (n_mul (n := B64 lm) (hms (N := B64 lm) (BofZ 53 1024 (fd_h f)) (BofZ 53 1024 (fd_m f)) s) n_2pi) t /\ 0 <= t /\
    Rabs (t - (IZR (fd_h f) * 3600 + IZR (fd_m f) * 60 + sec_of q f) / 86400 * (2 * PI)) <= 6e-15.
Proof.
  intros Q C H24 S HS. destruct (sec_seconds q f c Q C HS) as [C1 C2]. pose proof C as (H & M & _).
  assert (X : value64 (BofZ 53 1024 (fd_h f)) (IZR (fd_h f))) by (apply int64; lia).
  assert (Y : value64 (BofZ 53 1024 (fd_m f)) (IZR (fd_m f))) by (apply int64; lia).
  assert (A : 0 <= IZR (fd_h f) <= 23) by (split; apply IZR_le; lia). assert (B : 0 <= IZR (fd_m f) <= 59) by (split; apply IZR_le; lia).
  assert (C' : 0 <= c <= 60) by lra. pose proof L_Pi.PI_bounds as PB. apply Rabs_le_inv in C2.
  destruct (units0 q f Q C) as [U|(Z1 & Z2 & Z3 & Z4)].
  - pose proof (tiny_units q f Q U) as T. pose proof (hms64 lm _ _ _ _ _ _ X Y S A B C') as N1. pose proof (turn64 lm _ _ _ _ _ _ X Y S A B C') as N2.
    change (hms (N := RNum) (IZR (fd_h f)) (IZR (fd_m f)) c) with ((60 * (60 * IZR (fd_h f) + IZR (fd_m f)) + c) / 86400) in *.
    change (n_mul (n := RNum) ((60 * (60 * IZR (fd_h f) + IZR (fd_m f)) + c) / 86400) n_2pi) with ((60 * (60 * IZR (fd_h f) + IZR (fd_m f)) + c) / 86400 * (2 * PI)) in N2.
    set (v := IZR (fd_h f) * 3600 + IZR (fd_m f) * 60 + sec_of q f) in *. set (w := 60 * (60 * IZR (fd_h f) + IZR (fd_m f)) + c) in *.
    assert (E : Rabs (w - v) <= 15e-15) by (unfold w, v; apply Rabs_le; split; lra). apply Rabs_le_inv in E.
    assert (P2 : 5e-15 <= w / 86400 * (2 * PI)) by nra.
    apply near_pos in N1; [|lra]. apply near_pos in N2; [|exact P2]. destruct N1 as (r & R1 & R2 & R3). destruct N2 as (t & T1 & T2 & T3).
    exists r. split; [exact R1|]. split; [exact R2|]. apply Rabs_le_inv in R3. split; [apply Rabs_le; split; lra|].
    exists t. split; [exact T1|]. split; [exact T2|]. apply Rabs_le_inv in T3. apply Rabs_le. split; nra.
  - assert (c = 0) as ->. { rewrite (sec_zero q f Z3 Z4) in HS. rewrite Rmult_0_r, Rminus_0_r in HS. apply Rabs_le_inv in HS. lra. }
    rewrite (sec_zero q f Z3 Z4). rewrite Z1, Z2 in *. change (IZR 0) with 0 in *. pose proof (hms0 lm _ _ _ X Y S) as V.
    exists 0. split; [exact V|]. split; [lra|]. split; [apply Rabs_le; split; lra|].
    exists 0. split; [|split; [lra|apply Rabs_le; split; lra]].
    assert (LF : is_finite (n_2pi : B64 lm) = true) by (vm_compute; reflexivity).
    apply mul0 with (B2R (n_2pi : B64 lm)); [exact V|]. split; [exact LF|reflexivity].
Qed.
Lemma dd2tf_fields lm ndp f (s : double) c : let q := Z.max ndp 0 in (ndp <= 9)%Z -> canonical q f -> (fd_h f < 24)%Z -> fd_sign f = true ->
  value64 s c -> Rabs (c - sec_of q f) <= 2 * u64 * sec_of q f ->
  dd2tf (N := B64 lm) ndp (snd (dtf2d (N := B64 lm) (fd_h f) (fd_m f) s)) = Some f /\ dr2tf (N := B64 lm) ndp (snd (dtf2r (N := B64 lm) (fd_h f) (fd_m f) s)) = Some f.
Proof.
  intros q HN C H24 SG S HS. assert (Q : (0 <= q <= 9)%Z) by (unfold q; lia).
  destruct (hms_fields lm q f s c Q C H24 S HS) as (r & R1 & R2 & R3 & t & T1 & T2 & T3).
  pose proof (sec_units q f Q) as E. pose proof (sec_range q f Q C) as SR. destruct (p10 q Q) as [P P9]. apply IZR_le in P, P9. change (IZR (10 ^ 9)) with 1000000000 in P9.
  pose proof C as (H & M & _). assert (A : 0 <= IZR (fd_h f) <= 23) by (split; apply IZR_le; lia). assert (B : 0 <= IZR (fd_m f) <= 59) by (split; apply IZR_le; lia).
  set (v := IZR (fd_h f) * 3600 + IZR (fd_m f) * 60 + sec_of q f) in *. assert (V : 0 <= v <= 86400) by (unfold v; lra).
  assert (PW : IZR (10 ^ q) * 86400 * (v / 86400) = IZR (units q f)) by (rewrite <- E; field).
  set (p := IZR (10 ^ q)) in *. pose proof L_Pi.PI_bounds as PB.
  apply Rabs_le_inv in R3, T3.
  split.
  - destruct (dd2tf_bin_spec lm ndp _ _ HN R1) as (g & G1 & G2 & G3 & G4); fold q.
    + fold p. rewrite (Rabs_pos_eq r R2). nra.
    + rewrite (Rabs_pos_eq r R2). nra.
    + fold q p in G2, G3. change (snd (dtf2d (N := B64 lm) (fd_h f) (fd_m f) s)) with (hms (N := B64 lm) (BofZ 53 1024 (fd_h f)) (BofZ 53 1024 (fd_m f)) s).
      rewrite G1. f_equal. apply (same_units q); [lia|exact C|exact G2| |].
      * rewrite (Rabs_pos_eq r R2) in G3. change (bpow radix2 (-53)) with (/ 9007199254740992) in G3.
        assert (Rabs (p * 86400 * r - p * 86400 * (v / 86400)) <= 86400 * 1000000000 * 7e-16).
        { rewrite <- Rmult_minus_distr_l, Rabs_mult. apply Rmult_le_compat; try apply Rabs_pos; [rewrite Rabs_pos_eq; nra|apply Rabs_le; exact R3]. }
        rewrite PW in *. assert (p * 86400 * r <= 1000000000 * 86400 * 1.1) by (apply Rmult_le_compat; nra).
        apply Rabs_le_inv in G3, H0. apply Rabs_def1; lra.
      * rewrite SG. symmetry. apply G4. exact R2.
  - destruct (dr2tf_bin lm ndp _ _ HN T1) as (g & G1 & G2 & G3 & G4 & _); fold q.
    + fold p. rewrite (Rabs_pos_eq t T2). assert (t / (2 * PI) <= 1.1); [|nra]. apply Rmult_le_reg_r with (2 * PI); [lra|]. unfold Rdiv at 1. rewrite Rmult_assoc, Rinv_l by lra. nra.
    + rewrite (Rabs_pos_eq t T2). assert (t / (2 * PI) <= 1.1); [|nra]. apply Rmult_le_reg_r with (2 * PI); [lra|]. unfold Rdiv at 1. rewrite Rmult_assoc, Rinv_l by lra. nra.
    + fold q p in G2, G3. change (snd (dtf2r (N := B64 lm) (fd_h f) (fd_m f) s)) with (n_mul (n := B64 lm) (hms (N := B64 lm) (BofZ 53 1024 (fd_h f)) (BofZ 53 1024 (fd_m f)) s) n_2pi).
      rewrite G1. f_equal. apply (same_units q); [lia|exact C|exact G2| |].
      * rewrite (Rabs_pos_eq t T2) in G3. set (w := t / (2 * PI)) in *.
        assert (W : - (1e-15) <= w - v / 86400 <= 1e-15).
        { assert (WE : w * (2 * PI) = t) by (unfold w; field; lra). split.
          - apply Rmult_le_reg_r with (2 * PI); [lra|]. rewrite Rmult_minus_distr_r, WE. nra.
          - apply Rmult_le_reg_r with (2 * PI); [lra|]. rewrite Rmult_minus_distr_r, WE. nra. }
        assert (Rabs (p * 86400 * w - p * 86400 * (v / 86400)) <= 86400 * 1000000000 * 1e-15).
        { rewrite <- Rmult_minus_distr_l, Rabs_mult. apply Rmult_le_compat; try apply Rabs_pos; [rewrite Rabs_pos_eq; nra|apply Rabs_le; exact W]. }
        rewrite PW in *. assert (p * 86400 * w <= 1000000000 * 86400 * 1.1) by nra.
        apply Rabs_le_inv in G3, H0. apply Rabs_def1; lra.
      * rewrite SG. symmetry. apply G4. exact T2.
Qed.
Lemma dms_real a b c : let w := a * 3600 + b * 60 + c in 0 <= w <= 1300000 -> Rabs (dms (N := RNum) a b c - w * (PI / 648000)) <= 1e-16.
Proof.
  intros w W. pose proof L_Pi.PI_bounds as PB.
  replace (dms (N := RNum) a b c) with (w * (484813681109535994 / 100000000000000000000000)) by (unfold w; change (dms (N := RNum) a b c) with (((a * 60 + b) * 60 + c) * (484813681109535994 / 100000000000000000000000)); ring).
  rewrite <- Rmult_minus_distr_l, Rabs_mult, (Rabs_pos_eq w) by lra.
  assert (Rabs (484813681109535994 / 100000000000000000000000 - PI / 648000) <= 1e-23) by (apply Rabs_le; split; lra). nra.
Qed.
Lemma dr2af_fields lm ndp f (s : double) c : let q := Z.max ndp 0 in (ndp <= 8)%Z -> canonical q f -> (fd_h f < 360)%Z -> fd_sign f = true ->
  value64 s c -> Rabs (c - sec_of q f) <= 2 * u64 * sec_of q f ->
  dr2af (N := B64 lm) ndp (snd (daf2r (N := B64 lm) (fd_h f) (fd_m f) s)) = Some f.
Proof.
  intros q HN C H24 SG S HS. assert (Q : (0 <= q <= 9)%Z) by (unfold q; lia). assert (P8 : (10 ^ q <= 10 ^ 8)%Z) by (apply Z.pow_le_mono_r; unfold q; lia).
  destruct (sec_seconds q f c Q C HS) as [C1 C2]. pose proof C as (H & M & _).
  assert (X : value64 (BofZ 53 1024 (fd_h f)) (IZR (fd_h f))) by (apply int64; lia).
  assert (Y : value64 (BofZ 53 1024 (fd_m f)) (IZR (fd_m f))) by (apply int64; lia).
  assert (A : 0 <= IZR (fd_h f) <= 359) by (split; apply IZR_le; lia). assert (B : 0 <= IZR (fd_m f) <= 59) by (split; apply IZR_le; lia).
  assert (C' : 0 <= c <= 60) by lra. pose proof L_Pi.PI_bounds as PB. apply Rabs_le_inv in C2.
  pose proof (sec_units q f Q) as E. pose proof (sec_range q f Q C) as SR. destruct (p10 q Q) as [P _]. apply IZR_le in P, P8. change (IZR (10 ^ 8)) with 100000000 in P8.
  assert (D : exists t, value64 (dms (N := B64 lm) (BofZ 53 1024 (fd_h f)) (BofZ 53 1024 (fd_m f)) s) t /\ 0 <= t /\
    Rabs (t - (IZR (fd_h f) * 3600 + IZR (fd_m f) * 60 + sec_of q f) * (PI / 648000)) <= 6e-15).
  { destruct (units0 q f Q C) as [U|(Z1 & Z2 & Z3 & Z4)].
    - assert (T : 1e-8 <= IZR (fd_h f) * 3600 + IZR (fd_m f) * 60 + sec_of q f).
      { assert (1 <= IZR (units q f)) by (apply IZR_le; lia). set (v := IZR (fd_h f) * 3600 + IZR (fd_m f) * 60 + sec_of q f) in *. set (p := IZR (10 ^ q)) in *. nra. }
      pose proof (dms64 lm _ _ _ _ _ _ X Y S A B C') as N1.
      pose proof (dms_real (IZR (fd_h f)) (IZR (fd_m f)) c ltac:(cbv zeta; lra)) as D. cbv zeta in D.
      set (v := IZR (fd_h f) * 3600 + IZR (fd_m f) * 60 + sec_of q f) in *. set (w := IZR (fd_h f) * 3600 + IZR (fd_m f) * 60 + c) in *.
      assert (EW : - (15e-15) <= w - v <= 15e-15) by (unfold w, v; lra). destruct N1 as (t & T1 & T3). apply Rabs_le_inv in T3, D.
      set (dr := dms (N := RNum) (IZR (fd_h f)) (IZR (fd_m f)) c) in *.
      assert (4e-6 <= PI / 648000 <= 5e-6) by lra. set (k := PI / 648000) in *.
      assert (- (75e-21) <= w * k - v * k <= 75e-21) by (split; nra).
      assert (4e-14 <= v * k) by nra.
      exists t. split; [exact T1|]. split; [lra|apply Rabs_le; split; lra].
    - assert (c = 0) as ->. { rewrite (sec_zero q f Z3 Z4) in HS. rewrite Rmult_0_r, Rminus_0_r in HS. apply Rabs_le_inv in HS. lra. }
      rewrite (sec_zero q f Z3 Z4). rewrite Z1, Z2 in *. change (IZR 0) with 0 in *. pose proof (dms0 lm _ _ _ X Y S) as V.
      exists 0. split; [exact V|]. split; [lra|apply Rabs_le; split; lra]. }
  destruct D as (t & T1 & T2 & T3).
  set (v := IZR (fd_h f) * 3600 + IZR (fd_m f) * 60 + sec_of q f) in *. assert (V : 0 <= v <= 1296000) by (unfold v; lra).
  set (p := IZR (10 ^ q)) in *. apply Rabs_le_inv in T3. set (w := t * (180 / PI)) in *.
  assert (W : - (4e-13) <= w - v / 3600 <= 4e-13).
  { assert (WE : w * (PI / 180) = t) by (unfold w; field; lra). replace (v * (PI / 648000)) with (v / 3600 * (PI / 180)) in T3 by field. split.
    - apply Rmult_le_reg_r with (PI / 180); [lra|]. rewrite Rmult_minus_distr_r, WE. lra.
    - apply Rmult_le_reg_r with (PI / 180); [lra|]. rewrite Rmult_minus_distr_r, WE. lra. }
  assert (PW : p * 3600 * (v / 3600) = IZR (units q f)) by (rewrite <- E; field).
  assert (Rabs (p * 3600 * w - p * 3600 * (v / 3600)) <= 100000000 * 3600 * 4e-13).
  { rewrite <- Rmult_minus_distr_l, Rabs_mult. apply Rmult_le_compat; try apply Rabs_pos; [rewrite Rabs_pos_eq; nra|apply Rabs_le; exact W]. }
  rewrite PW in *. assert (PWm : p * 3600 * w <= 100000000 * 3600 * 361) by nra.
  destruct (dr2af_bin lm ndp _ _ ltac:(lia) T1) as (g & G1 & G2 & G3 & G4 & _); fold q.
  - fold p. rewrite (Rabs_pos_eq t T2). fold w. lra.
  - rewrite (Rabs_pos_eq t T2). nra.
  - fold q p in G2, G3. change (snd (daf2r (N := B64 lm) (fd_h f) (fd_m f) s)) with (dms (N := B64 lm) (BofZ 53 1024 (fd_h f)) (BofZ 53 1024 (fd_m f)) s).
    rewrite G1. f_equal. apply (same_units q); [lia|exact C|exact G2| |].
    + rewrite (Rabs_pos_eq t T2) in G3. fold w in G3. apply Rabs_le_inv in G3, H0. apply Rabs_def1; lra.
    + rewrite SG. symmetry. apply G4. exact T2.
Qed.

(** ** Status *)
Lemma sec_test lm (s : double) c : value64 s c -> orb (n_ltb (n := B64 lm) s (n_ofZ 0)) (n_leb (n := B64 lm) (n_ofZ 60) s) = orb (n_ltb (n := RNum) c 0) (n_leb (n := RNum) 60 c).
Proof.
  intros S. change (n_ltb (n := B64 lm) s (n_ofZ 0)) with (Bltb s (BofZ 53 1024 0)). change (n_leb (n := B64 lm) (n_ofZ 60) s) with (Bleb (BofZ 53 1024 60) s).
  rewrite (fin_ltb 53 1024 s (BofZ 53 1024 0) c 0 S ltac:(apply (int64 0); lia)), (fin_leb 53 1024 (BofZ 53 1024 60) s 60 c ltac:(apply (int64 60); lia) S).
  change (n_ltb (n := RNum) c 0) with (Rltb c 0). change (n_leb (n := RNum) 60 c) with (Rleb 60 c).
  unfold Rltb, Rleb. destruct (Rlt_bool_spec c 0), (Rle_bool_spec 60 c), (Rlt_dec c 0), (Rle_dec 60 c); try reflexivity; lra.
Qed.
Lemma status64 lm h m (s : double) c : value64 s c -> fst (dtf2d (N := B64 lm) h m s) = fst (dtf2d (N := RNum) h m c) /\
  fst (dtf2r (N := B64 lm) h m s) = fst (dtf2d (N := RNum) h m c) /\ fst (daf2r (N := B64 lm) h m s) = fst (daf2r (N := RNum) h m c).
Proof.
  intros S. pose proof (sec_test lm s c S) as E. unfold dtf2r, dtf2d, daf2r. cbv zeta. cbn [fst].
  change (n_ofZ (n := RNum) 60) with 60. change (n_ofZ (n := RNum) 0) with 0.
  rewrite E. auto.
Qed.
Lemma value_ok lm h m (s : double) c : value64 s c -> fst (dtf2d (N := B64 lm) h m s) = T2D_OK ->
  exists r t, value64 (snd (dtf2d (N := B64 lm) h m s)) r /\ Rabs (r - (IZR h * 3600 + IZR m * 60 + c) / 86400) <= 6e-16 /\
    value64 (snd (dtf2r (N := B64 lm) h m s)) t /\ Rabs (t - (IZR h * 3600 + IZR m * 60 + c) / 86400 * (2 * PI)) <= 5e-15.
Proof.
  intros S O. destruct (status64 lm h m s c S) as [E _]. rewrite E in O. apply dtf2d_cases in O. destruct O as (H & M & C).
  assert (X : value64 (BofZ 53 1024 h) (IZR h)) by (apply int64; lia). assert (Y : value64 (BofZ 53 1024 m) (IZR m)) by (apply int64; lia).
  assert (A : 0 <= IZR h <= 23) by (split; apply IZR_le; lia). assert (B : 0 <= IZR m <= 59) by (split; apply IZR_le; lia).
  destruct (hms64 lm _ _ _ _ _ _ X Y S A B ltac:(lra)) as (r & R1 & R2). destruct (turn64 lm _ _ _ _ _ _ X Y S A B ltac:(lra)) as (t & T1 & T2).
  exists r, t. split; [exact R1|]. split; [|split; [exact T1|]].
  - replace ((IZR h * 3600 + IZR m * 60 + c) / 86400) with (hms (N := RNum) (IZR h) (IZR m) c); [exact R2|].
    change (hms (N := RNum) (IZR h) (IZR m) c) with ((60 * (60 * IZR h + IZR m) + c) / 86400). match goal with |- @eq _ ?a ?b => change (@eq R a b) end. field.
  - replace ((IZR h * 3600 + IZR m * 60 + c) / 86400 * (2 * PI)) with (n_mul (n := RNum) (hms (N := RNum) (IZR h) (IZR m) c) n_2pi); [exact T2|].
    change (n_mul (n := RNum) (hms (N := RNum) (IZR h) (IZR m) c) n_2pi) with ((60 * (60 * IZR h + IZR m) + c) / 86400 * (2 * PI)). match goal with |- @eq _ ?a ?b => change (@eq R a b) end. field.
Qed.
Lemma arc_ok lm d m (s : double) c : value64 s c -> fst (daf2r (N := B64 lm) d m s) = D2R_OK ->
  exists t, value64 (snd (daf2r (N := B64 lm) d m s)) t /\ Rabs (t - (IZR d * 3600 + IZR m * 60 + c) / 3600 * (PI / 180)) <= 51e-16.
Proof.
  intros S O. destruct (status64 lm d m s c S) as (_ & _ & E). rewrite E in O. apply daf2r_cases in O. destruct O as (H & M & C).
  assert (X : value64 (BofZ 53 1024 d) (IZR d)) by (apply int64; lia). assert (Y : value64 (BofZ 53 1024 m) (IZR m)) by (apply int64; lia).
  assert (A : 0 <= IZR d <= 359) by (split; apply IZR_le; lia). assert (B : 0 <= IZR m <= 59) by (split; apply IZR_le; lia).
  destruct (dms64 lm _ _ _ _ _ _ X Y S A B ltac:(lra)) as (t & T1 & T2). exists t. split; [exact T1|].
  pose proof (dms_real (IZR d) (IZR m) c ltac:(cbv zeta; lra)) as D. cbv zeta in D.
  replace ((IZR d * 3600 + IZR m * 60 + c) / 3600 * (PI / 180)) with ((IZR d * 3600 + IZR m * 60 + c) * (PI / 648000)) by field.
  apply Rabs_le_inv in T2, D. apply Rabs_le. split; lra.
Qed.
(** A NaN passes the range test and comes out as NaN. *)
Lemma nan_ok lm : fst (dtf2d (N := B64 lm) 12 30 B754_nan) = T2D_OK /\ is_nan (snd (dtf2d (N := B64 lm) 12 30 B754_nan)) = true /\
  fst (daf2r (N := B64 lm) 12 30 B754_nan) = D2R_OK /\ is_nan (snd (daf2r (N := B64 lm) 12 30 B754_nan)) = true.
Proof. repeat split; vm_compute; reflexivity. Qed.
Lemma nan_accepted lm : ~ (forall s, fst (dtf2d (N := B64 lm) 12 30 s) = T2D_OK -> is_nan s = false) /\
  ~ (forall s, fst (daf2r (N := B64 lm) 12 30 s) = D2R_OK -> is_nan s = false).
Proof. destruct (nan_ok lm) as (A & _ & B & _). split; intros H; [discriminate (H B754_nan A)|discriminate (H B754_nan B)]. Qed.
Lemma time_fields lm ndp f s : let q := Z.max ndp 0 in (ndp <= 9)%Z -> canonical q f -> (fd_h f < 24)%Z -> fd_sign f = true -> seconds64 q f s ->
  dd2tf (N := B64 lm) ndp (snd (dtf2d (N := B64 lm) (fd_h f) (fd_m f) s)) = Some f /\ dr2tf (N := B64 lm) ndp (snd (dtf2r (N := B64 lm) (fd_h f) (fd_m f) s)) = Some f.
Proof. intros q H C L G (c & V & E). exact (dd2tf_fields lm ndp f s c H C L G V E). Qed.
Lemma arc_fields lm ndp f s : let q := Z.max ndp 0 in (ndp <= 8)%Z -> canonical q f -> (fd_h f < 360)%Z -> fd_sign f = true -> seconds64 q f s ->
  dr2af (N := B64 lm) ndp (snd (daf2r (N := B64 lm) (fd_h f) (fd_m f) s)) = Some f.
Proof. intros q H C L G (c & V & E). exact (dr2af_fields lm ndp f s c H C L G V E). Qed.
Lemma fields_case : canonical 3 (Fields 23 59 59 500 true) /\ seconds64 3 (Fields 23 59 59 500 true) (Bdiv mode_NE (BofZ 53 1024 119) (BofZ 53 1024 2)).
Proof.
  split; [unfold canonical; cbn [fd_h fd_m fd_s fd_f]; change (10 ^ 3)%Z with 1000%Z; lia|]. exists (119 / 2). split.
  - apply (fin_div_exact 53 1024); [apply (int64 119); lia|apply (int64 2); lia|lra| |].
    + apply generic_format_FLT. exists (Float radix2 119 (-1)); [unfold F2R; cbn; lra|cbn; lia|cbn; lia].
    + rewrite Rabs_pos_eq by lra. apply Rlt_le_trans with (bpow radix2 6); [cbn; lra|apply bpow_le; lia].
  - unfold seconds_of. cbn [fd_s fd_f]. change (IZR (10 ^ 3)) with 1000. replace (119 / 2 - (59 + 500 / 1000)) with 0 by field. rewrite Rabs_R0, u64_num. lra.
Qed.
