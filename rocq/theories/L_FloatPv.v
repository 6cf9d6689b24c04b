(** Position and velocity from spherical coordinates, linear plate models and
    radial distortion in binary64. *)
From Coq Require Import ZArith Reals Bool List Lia Lra Psatz.
From Flocq Require Import Core BinarySingleNaN.
From Verif Require Import Num NumB NumR M_Vec M_Plate S_Geom S_Plate S_Binary S_Float S_FloatSph S_FloatPlate L_Real L_Bin L_Flt L_Float L_FloatVec L_FloatMat L_FloatSph L_FloatHor L_FloatPol L_FltRel.
Open Scope R_scope.

Lemma comp_of x a M c h b e E : nr x a M c h -> Rabs (a - b) <= e -> c * u64 * M + h + e <= E -> exists r, value64 x r /\ Rabs (r - b) <= E.
Proof. intros [(r & F & D) _] B L. exists r. split; [exact F|]. replace (r - b) with ((r - a) + (a - b)) by ring. eapply Rle_trans; [apply Rabs_triang|]. lra. Qed.
Lemma norm_same (w : RV) E : 0 <= E -> Rabs (v0 w) <= E -> Rabs (v1 w) <= E -> Rabs (v2 w) <= E -> norm w <= 1.7321 * E.
Proof. intros E0 A B C. apply (norm3 w E E E); try assumption; nra. Qed.
Lemma scaled_err p q c e : Rabs (q - c) <= e -> Rabs (p * q - p * c) <= Rabs p * e.
Proof. intros H. replace (p * q - p * c) with (p * (q - c)) by ring. rewrite Rabs_mult. apply Rmult_le_compat_l; [apply Rabs_pos|exact H]. Qed.

Lemma ds2c6_64 lm k (x : sphpv (B64 lm)) (s : sphpv RNum) : libm_ok lm k ->
  value64 (lon x) (lon s) -> value64 (lat x) (lat s) -> value64 (dist x) (dist s) -> value64 (dlon x) (dlon s) -> value64 (dlat x) (dlat s) -> value64 (ddist x) (ddist s) ->
  Rabs (dist s) <= 1e20 -> Rabs (dlon s) <= 1e20 -> Rabs (dlat s) <= 1e20 -> Rabs (ddist s) <= 1e20 ->
  exists p v, vec64 (pos (ds2c6 (N := B64 lm) x)) p /\ vec64 (velo (ds2c6 (N := B64 lm) x)) v /\
    norm (vsub p (scale (dist s) (direction (lon s) (lat s)))) <= (3.5 * k + 3.5 * u64) * Rabs (dist s) + 1e-120 /\
    norm (vsub v (velo (ds2c6 (N := RNum) s))) <= (3.5 * k + 8.8 * u64) * (Rabs (dist s) * Rabs (dlon s) + Rabs (dist s) * Rabs (dlat s) + Rabs (ddist s)) + 1e-120.
Proof.
  intros L XA XB XR XA' XB' XR' BR BA BB BD. destruct x as [xa xb xr xa' xb' xr'], s as [a b r a' b' r']. cbn [lon lat dist dlon dlat ddist] in *.
  pose proof (libm_k lm k L) as K. pose proof u64_num as UN. assert (U : 0 <= u64 <= 1.2e-16) by (rewrite UN; lra). clear UN.
  destruct (trig64 lm k xa a L XA) as (s1 & c1 & FS1 & FC1 & BS1 & BC1 & ES1 & EC1). destruct (trig64 lm k xb b L XB) as (s2 & c2 & FS2 & FC2 & BS2 & BC2 & ES2 & EC2).
  pose proof (Rabs_pos r) as P0. pose proof (Rabs_pos a') as A0. pose proof (Rabs_pos b') as B0. pose proof (Rabs_pos r') as D0.
  assert (W : forall x a M, nr x a M 0 0 -> nr x a M 0 1e-300) by (intros; eapply nr_weak; [eassumption|lra|lra]).
  pose proof (W _ _ _ (nr_unit _ _ FS1 BS1)) as S1. pose proof (W _ _ _ (nr_unit _ _ FC1 BC1)) as C1. pose proof (W _ _ _ (nr_unit _ _ FS2 BS2)) as S2. pose proof (W _ _ _ (nr_unit _ _ FC2 BC2)) as C2.
  pose proof (W _ _ _ (nr_val _ _ XR)) as NR. pose proof (W _ _ _ (nr_val _ _ XA')) as NA. pose proof (W _ _ _ (nr_val _ _ XB')) as NB. pose proof (W _ _ _ (nr_val _ _ XR')) as ND. clear W.
  assert (WK : forall x a M c t j, nr x a M c t -> t <= j -> nr x a M c j) by (intros; eapply nr_weak; [eassumption|lra|assumption]).
  set (p := Rabs r) in *. set (A := Rabs a') in *. set (B := Rabs b') in *. set (D := Rabs r') in *.
  assert (PA : p * A <= 1e40) by (apply Rle_trans with (1e20 * 1e20); [apply Rmult_le_compat|]; lra). assert (PB : p * B <= 1e40) by (apply Rle_trans with (1e20 * 1e20); [apply Rmult_le_compat|]; lra).
  assert (PA0 : 0 <= p * A) by now apply Rmult_le_pos. assert (PB0 : 0 <= p * B) by now apply Rmult_le_pos.
  assert (ML : forall x y a b M P c d, nr x a M c 1e-300 -> nr y b P d 1e-300 -> 0 <= c <= 20 -> 0 <= d <= 20 -> M <= 1e50 -> P <= 1e50 -> nr (n_mul (n := B64 lm) x y) (a * b) (M * P) (c + d + 1.01) 1e-240).
  { intros. eapply WK; [eapply nr_mul'; eauto; lra|lra]. }
  assert (ML2 : forall x y a b M P c d, nr x a M c 1e-240 -> nr y b P d 1e-240 -> 0 <= c <= 20 -> 0 <= d <= 20 -> M <= 1e50 -> P <= 1e50 -> nr (n_mul (n := B64 lm) x y) (a * b) (M * P) (c + d + 1.01) 1e-180).
  { intros. eapply WK; [eapply nr_mul'; eauto; lra|lra]. }
  assert (ML3 : forall x y a b M P c d, nr x a M c 1e-180 -> nr y b P d 1e-180 -> 0 <= c <= 20 -> 0 <= d <= 20 -> M <= 1e50 -> P <= 1e50 -> nr (n_mul (n := B64 lm) x y) (a * b) (M * P) (c + d + 1.01) 1e-125).
  { intros. eapply WK; [eapply nr_mul'; eauto; lra|lra]. }
  assert (U1 : forall x a M c, nr x a M c 1e-300 -> nr x a M c 1e-240) by (intros; eapply WK; [eassumption|lra]).
  assert (U2 : forall x a M c, nr x a M c 1e-240 -> nr x a M c 1e-180) by (intros; eapply WK; [eassumption|lra]).
  assert (U3 : forall x a M c, nr x a M c 1e-180 -> nr x a M c 1e-125) by (intros; eapply WK; [eassumption|lra]).
  pose proof (ML _ _ _ _ _ _ _ _ NR C2 ltac:(lra) ltac:(lra) ltac:(lra) ltac:(lra)) as Q. rewrite Rmult_1_r in Q.
  pose proof (ML2 _ _ _ _ _ _ _ _ Q (U1 _ _ _ _ C1) ltac:(lra) ltac:(lra) ltac:(lra) ltac:(lra)) as X.
  pose proof (ML2 _ _ _ _ _ _ _ _ Q (U1 _ _ _ _ S1) ltac:(lra) ltac:(lra) ltac:(lra) ltac:(lra)) as Y. rewrite Rmult_1_r in X, Y.
  pose proof (ML _ _ _ _ _ _ _ _ NR S2 ltac:(lra) ltac:(lra) ltac:(lra) ltac:(lra)) as Z. rewrite Rmult_1_r in Z.
  pose proof (ML _ _ _ _ _ _ _ _ NR NB ltac:(lra) ltac:(lra) ltac:(lra) ltac:(lra)) as RB.
  pose proof (ML2 _ _ _ _ _ _ _ _ RB (U1 _ _ _ _ S2) ltac:(lra) ltac:(lra) ltac:(lra) ltac:(lra)) as RBS.
  pose proof (ML2 _ _ _ _ _ _ _ _ RB (U1 _ _ _ _ C2) ltac:(lra) ltac:(lra) ltac:(lra) ltac:(lra)) as RBC. rewrite Rmult_1_r in RBS, RBC.
  pose proof (ML _ _ _ _ _ _ _ _ C2 ND ltac:(lra) ltac:(lra) ltac:(lra) ltac:(lra)) as CD.
  pose proof (ML _ _ _ _ _ _ _ _ S2 ND ltac:(lra) ltac:(lra) ltac:(lra) ltac:(lra)) as SD. rewrite Rmult_1_l in CD, SD.
  assert (WW : nr (n_sub (n := B64 lm) (n_mul (n := B64 lm) (n_mul (n := B64 lm) xr xb') (n_sin (xb : B64 lm))) (n_mul (n := B64 lm) (n_cos (xb : B64 lm)) xr')) (r * b' * s2 - c2 * r') (p * B + D) 3.03 1e-179).
  { eapply nr_weak; [apply (nr_sub' lm _ _ _ _ _ _ _ _ 2.02 _ RBS (U2 _ _ _ _ CD)); lra|lra|lra]. }
  pose proof (nr_mul' lm _ _ _ _ _ _ _ _ _ WW (WK _ _ _ _ _ 1e-179 C1 ltac:(lra)) ltac:(lra) ltac:(lra) ltac:(lra) ltac:(lra) ltac:(lra)) as WC.
  pose proof (nr_mul' lm _ _ _ _ _ _ _ _ _ WW (WK _ _ _ _ _ 1e-179 S1 ltac:(lra)) ltac:(lra) ltac:(lra) ltac:(lra) ltac:(lra) ltac:(lra)) as WS.
  rewrite Rmult_1_r in WC, WS. apply WK with (j := 1e-125) in WC; [|lra]. apply WK with (j := 1e-125) in WS; [|lra].
  pose proof (ML3 _ _ _ _ _ _ _ _ (nr_opp lm _ _ _ _ _ Y) (U2 _ _ _ _ (U1 _ _ _ _ NA)) ltac:(lra) ltac:(lra) ltac:(lra) ltac:(lra)) as YA.
  pose proof (ML3 _ _ _ _ _ _ _ _ X (U2 _ _ _ _ (U1 _ _ _ _ NA)) ltac:(lra) ltac:(lra) ltac:(lra) ltac:(lra)) as XA2.
  pose proof (nr_sub' lm _ _ _ _ _ _ _ _ 4.04 _ YA WC ltac:(lra) ltac:(lra) ltac:(lra) ltac:(lra) ltac:(lra) ltac:(lra)) as V0.
  pose proof (nr_sub' lm _ _ _ _ _ _ _ _ 4.04 _ XA2 WS ltac:(lra) ltac:(lra) ltac:(lra) ltac:(lra) ltac:(lra) ltac:(lra)) as V1.
  pose proof (nr_add' lm _ _ _ _ _ _ _ _ 2.02 _ RBC (U2 _ _ _ _ SD) ltac:(lra) ltac:(lra) ltac:(lra) ltac:(lra) ltac:(lra) ltac:(lra)) as V2.
  pose proof (prod_err _ _ _ _ k BC1 (cos_abs1 b) EC2 EC1) as E21. pose proof (prod_err _ _ _ _ k BS1 (cos_abs1 b) EC2 ES1) as E22.
  pose proof (prod_err _ _ _ _ k BC1 (sin_abs1 b) ES2 EC1) as E23. pose proof (prod_err _ _ _ _ k BS1 (sin_abs1 b) ES2 ES1) as E24.
  assert (PU : 0 <= u64 * p) by (apply Rmult_le_pos; lra). assert (PK : 0 <= p * k) by (apply Rmult_le_pos; lra).
  set (S := p * A + p * B + D). assert (SU : 0 <= u64 * S) by (apply Rmult_le_pos; unfold S; lra). assert (SK : 0 <= k * S) by (apply Rmult_le_pos; unfold S; lra).
  assert (SC : forall q v w e, Rabs (v - w) <= e -> Rabs (q * (v - w)) <= Rabs q * e) by (intros q v w e H; rewrite Rabs_mult; apply Rmult_le_compat_l; [apply Rabs_pos|exact H]).
  assert (ARA : Rabs (r * a') = p * A) by (unfold p, A; apply Rabs_mult). assert (ARB : Rabs (r * b') = p * B) by (unfold p, B; apply Rabs_mult).
  assert (P0' : exists q, value64 (v0 (pos (ds2c6 (N := B64 lm) (SPV (N := B64 lm) xa xb xr xa' xb' xr')))) q /\ Rabs (q - v0 (scale r (direction a b))) <= (2 * k + 2.02 * u64) * p + 1e-170).
  { apply (comp_of _ _ _ _ _ _ (p * (2 * k)) _ X); [|lra]. replace (r * c2 * c1 - v0 (scale r (direction a b))) with (r * (c2 * c1 - cos b * cos a)) by (unfold scale, direction; cbn [v0]; ring). now apply SC. }
  assert (P1' : exists q, value64 (v1 (pos (ds2c6 (N := B64 lm) (SPV (N := B64 lm) xa xb xr xa' xb' xr')))) q /\ Rabs (q - v1 (scale r (direction a b))) <= (2 * k + 2.02 * u64) * p + 1e-170).
  { apply (comp_of _ _ _ _ _ _ (p * (2 * k)) _ Y); [|lra]. replace (r * c2 * s1 - v1 (scale r (direction a b))) with (r * (c2 * s1 - cos b * sin a)) by (unfold scale, direction; cbn [v1]; ring). now apply SC. }
  assert (P2' : exists q, value64 (v2 (pos (ds2c6 (N := B64 lm) (SPV (N := B64 lm) xa xb xr xa' xb' xr')))) q /\ Rabs (q - v2 (scale r (direction a b))) <= (2 * k + 2.02 * u64) * p + 1e-170).
  { apply (comp_of _ _ _ _ _ _ (p * k) _ Z); [|lra]. replace (r * s2 - v2 (scale r (direction a b))) with (r * (s2 - sin b)) by (unfold scale, direction; cbn [v2]; ring). now apply SC. }
  set (v := velo (ds2c6 (N := RNum) (SPV (N := RNum) a b r a' b' r'))).
  assert (T3 : forall a b c e f g, Rabs a <= e -> Rabs b <= f -> Rabs c <= g -> Rabs (a + b + c) <= e + f + g) by (intros; eapply Rle_trans; [apply Rabs_triang|]; apply Rplus_le_compat; [eapply Rle_trans; [apply Rabs_triang|]; lra|assumption]).
  assert (W0 : exists q, value64 (v0 (velo (ds2c6 (N := B64 lm) (SPV (N := B64 lm) xa xb xr xa' xb' xr')))) q /\ Rabs (q - v0 v) <= (2 * k + 5.05 * u64) * S + 1e-121).
  { apply (comp_of _ _ _ _ _ _ (p * A * (2 * k) + p * B * (2 * k) + D * (2 * k)) _ V0); [|unfold S in *; lra].
    replace (- (r * c2 * s1) * a' - (r * b' * s2 - c2 * r') * c1 - v0 v) with ((- (r * a')) * (c2 * s1 - cos b * sin a) + (- (r * b')) * (s2 * c1 - sin b * cos a) + r' * (c2 * c1 - cos b * cos a)) by (unfold v, ds2c6; cbn [velo v0 lon lat dist dlon dlat ddist]; unR; ring).
    apply T3; [rewrite <- ARA, <- (Rabs_Ropp (r * a')); now apply SC|rewrite <- ARB, <- (Rabs_Ropp (r * b')); now apply SC|now apply SC]. }
  assert (W1 : exists q, value64 (v1 (velo (ds2c6 (N := B64 lm) (SPV (N := B64 lm) xa xb xr xa' xb' xr')))) q /\ Rabs (q - v1 v) <= (2 * k + 5.05 * u64) * S + 1e-121).
  { apply (comp_of _ _ _ _ _ _ (p * A * (2 * k) + p * B * (2 * k) + D * (2 * k)) _ V1); [|unfold S in *; lra].
    replace (r * c2 * c1 * a' - (r * b' * s2 - c2 * r') * s1 - v1 v) with ((r * a') * (c2 * c1 - cos b * cos a) + (- (r * b')) * (s2 * s1 - sin b * sin a) + r' * (c2 * s1 - cos b * sin a)) by (unfold v, ds2c6; cbn [velo v1 lon lat dist dlon dlat ddist]; unR; ring).
    apply T3; [rewrite <- ARA; now apply SC|rewrite <- ARB, <- (Rabs_Ropp (r * b')); now apply SC|now apply SC]. }
  assert (W2 : exists q, value64 (v2 (velo (ds2c6 (N := B64 lm) (SPV (N := B64 lm) xa xb xr xa' xb' xr')))) q /\ Rabs (q - v2 v) <= (2 * k + 5.05 * u64) * S + 1e-121).
  { apply (comp_of _ _ _ _ _ _ (0 + p * B * k + D * k) _ V2); [|unfold S in *; assert (0 <= k * (p * A)) by (apply Rmult_le_pos; lra); assert (0 <= k * (p * B)) by (apply Rmult_le_pos; lra); assert (0 <= k * D) by (apply Rmult_le_pos; lra);
      assert (0 <= u64 * (p * A)) by (apply Rmult_le_pos; lra); assert (0 <= u64 * (p * B)) by (apply Rmult_le_pos; lra); assert (0 <= u64 * D) by (apply Rmult_le_pos; lra); lra].
    replace (r * b' * c2 + s2 * r' - v2 v) with (0 + (r * b') * (c2 - cos b) + r' * (s2 - sin b)) by (unfold v, ds2c6; cbn [velo v2 lon lat dist dlon dlat ddist]; unR; ring).
    apply T3; [rewrite Rabs_R0; lra|rewrite <- ARB; now apply SC|now apply SC]. }
  destruct P0' as (p0 & G0 & H0), P1' as (p1 & G1 & H1), P2' as (p2 & G2 & H2), W0 as (w0 & J0 & K0), W1 as (w1 & J1 & K1), W2 as (w2 & J2 & K2).
  exists (V3 p0 p1 p2), (V3 w0 w1 w2). split; [split; [exact G0|split; [exact G1|exact G2]]|]. split; [split; [exact J0|split; [exact J1|exact J2]]|].
  assert (KP : 0 <= k * p) by (rewrite Rmult_comm; exact PK).
  split.
  - eapply Rle_trans; [apply (norm_same _ ((2 * k + 2.02 * u64) * p + 1e-170)); unfold vsub; cbn [v0 v1 v2]; try assumption; lra|lra].
  - fold v S. eapply Rle_trans; [apply (norm_same _ ((2 * k + 5.05 * u64) * S + 1e-121)); unfold vsub; cbn [v0 v1 v2]; try assumption; lra|lra].
Qed.

Lemma nr300 x a : value64 x a -> nr x a (Rabs a) 0 1e-300.
Proof. intros X. apply nr_weak with 0 0; [now apply nr_val|lra|lra]. Qed.
Lemma row64 lm (xa xb xc x y : double) a b c u v : value64 xa a -> value64 xb b -> value64 xc c -> value64 x u -> value64 y v ->
  Rabs a <= 1e50 -> Rabs b <= 1e50 -> Rabs c <= 1e50 -> Rabs u <= 1e50 -> Rabs v <= 1e50 ->
  exists r, value64 (n_add (n := B64 lm) (n_add (n := B64 lm) xa (n_mul (n := B64 lm) xb x)) (n_mul (n := B64 lm) xc y)) r /\
    Rabs (r - (a + b * u + c * v)) <= 3.03 * u64 * (Rabs a + Rabs (b * u) + Rabs (c * v)) + 1e-240.
Proof.
  intros A B C X Y HA HB HC HX HY.
  assert (PR : forall p q, Rabs p <= 1e50 -> Rabs q <= 1e50 -> Rabs p * Rabs q <= 1e100) by (intros p q H1 H2; apply Rle_trans with (1e50 * 1e50); [apply Rmult_le_compat; try apply Rabs_pos; assumption|lra]).
  assert (PC : Rabs b * Rabs u <= 1e100 / 2 + 1e100 / 2) by (pose proof (PR b u HB HX); lra).
  pose proof (nr_mul' lm _ _ _ _ _ _ _ _ _ (nr300 _ _ B) (nr300 _ _ X) ltac:(lra) ltac:(lra) ltac:(lra) HB HX) as M1.
  pose proof (nr_mul' lm _ _ _ _ _ _ _ _ _ (nr300 _ _ C) (nr300 _ _ Y) ltac:(lra) ltac:(lra) ltac:(lra) HC HY) as M2.
  pose proof (nr300 _ _ A) as NA. apply nr_weak with (d := 1.01) (j := 1e-245) in M1; [|lra|lra]. apply nr_weak with (d := 1.01) (j := 1e-244) in M2; [|lra|lra]. apply nr_weak with (d := 0) (j := 1e-245) in NA; [|lra|lra].
  pose proof (nr_add' lm _ _ _ _ _ _ _ _ 1.01 _ NA M1 ltac:(lra) ltac:(lra) ltac:(lra) ltac:(lra) ltac:(lra) (PR b u HB HX)) as S1.
  apply nr_weak with (d := 2.02) (j := 1e-244) in S1; [|lra|lra].
  pose proof (nr_add lm _ _ _ _ _ _ _ _ _ _ S1 M2 ltac:(lra) ltac:(lra) ltac:(lra) ltac:(lra)) as S2.
  pose proof (PR b u HB HX) as P1. pose proof (PR c v HC HY) as P2. specialize (S2 ltac:(lra) ltac:(lra)). rewrite Rmax_left in S2 by lra.
  destruct S2 as [(r & FR & ER) _]. exists r. split; [exact FR|]. rewrite !Rabs_mult. eapply Rle_trans; [exact ER|].
  pose proof (Rabs_pos a). lra.
Qed.
Lemma xy2xy64 lm (m : coeffs double) c (x y : double) u v : coeffs64 m c -> value64 x u -> value64 y v -> coeffs_within 1e50 c -> Rabs u <= 1e50 -> Rabs v <= 1e50 ->
  exists p q, value64 (fst (xy2xy (N := B64 lm) x y m)) p /\ value64 (snd (xy2xy (N := B64 lm) x y m)) q /\
    Rabs (p - fst (linear_map c (u, v))) <= 3.03 * u64 * (Rabs (fc_a c) + Rabs (fc_b c * u) + Rabs (fc_c c * v)) + 1e-240 /\
    Rabs (q - snd (linear_map c (u, v))) <= 3.03 * u64 * (Rabs (fc_d c) + Rabs (fc_e c * u) + Rabs (fc_f c * v)) + 1e-240.
Proof.
  intros (A & B & C & D & E & F) X Y (GA & GB & GC & GD & GE & GF) HX HY.
  destruct (row64 lm _ _ _ _ _ _ _ _ _ _ A B C X Y GA GB GC HX HY) as (p & FP & EP). destruct (row64 lm _ _ _ _ _ _ _ _ _ _ D E F X Y GD GE GF HX HY) as (q & FQ & EQ).
  exists p, q. auto.
Qed.
Lemma pcd64 lm (k x y : double) d u v : value64 k d -> value64 x u -> value64 y v -> Rabs d <= 1e15 -> Rabs u <= 1e15 -> Rabs v <= 1e15 ->
  exists p q, value64 (fst (pcd (N := B64 lm) k x y)) p /\ value64 (snd (pcd (N := B64 lm) k x y)) q /\
    Rabs (p - fst (distort d (u, v))) <= 5.05 * u64 * (1 + Rabs d * (u ^ 2 + v ^ 2)) * Rabs u + 1e-100 /\
    Rabs (q - snd (distort d (u, v))) <= 5.05 * u64 * (1 + Rabs d * (u ^ 2 + v ^ 2)) * Rabs v + 1e-100.
Proof.
  intros K X Y HK HX HY. assert (O : value64 (n_ofZ (n := B64 lm) 1) 1) by (apply (fin_ofZ 53 1024 1); reflexivity).
  pose proof (nr300 _ _ K) as NK. pose proof (nr300 _ _ X) as NX. pose proof (nr300 _ _ Y) as NY. pose proof (nr300 _ _ O) as NO. rewrite Rabs_R1 in NO.
  assert (SQ : forall w, Rabs w * Rabs w = w ^ 2) by (intros w; rewrite <- Rabs_mult, Rabs_pos_eq by nra; ring).
  assert (SB : forall w, Rabs w <= 1e15 -> 0 <= w ^ 2 <= 1e30) by (intros w H; rewrite <- SQ; pose proof (Rabs_pos w); split; [apply Rmult_le_pos; lra|apply Rle_trans with (1e15 * 1e15); [apply Rmult_le_compat; lra|lra]]).
  pose proof (SB u HX) as BU. pose proof (SB v HY) as BV. pose proof (Rabs_pos d) as D0.
  pose proof (nr_mul' lm _ _ _ _ _ _ _ _ _ NX NX ltac:(lra) ltac:(lra) ltac:(lra) ltac:(lra) ltac:(lra)) as XX.
  pose proof (nr_mul' lm _ _ _ _ _ _ _ _ _ NY NY ltac:(lra) ltac:(lra) ltac:(lra) ltac:(lra) ltac:(lra)) as YY. rewrite SQ in XX, YY.
  pose proof (nr_add' lm _ _ _ _ _ _ _ _ 1.01 _ XX YY ltac:(lra) ltac:(lra) ltac:(lra) ltac:(lra) ltac:(lra) ltac:(lra)) as R2.
  apply nr_weak with (d := 2.02) (j := 1e-240) in R2; [|lra|lra]. apply nr_weak with (d := 0) (j := 1e-240) in NK; [|lra|lra].
  pose proof (nr_mul' lm _ _ _ _ _ _ _ _ _ NK R2 ltac:(lra) ltac:(lra) ltac:(lra) ltac:(lra) ltac:(lra)) as KR.
  apply nr_weak with (d := 3.03) (j := 1e-180) in KR; [|lra|lra]. apply nr_weak with (d := 0) (j := 1e-180) in NO; [|lra|lra].
  assert (DB : Rabs d * (u ^ 2 + v ^ 2) <= 2e45) by (apply Rle_trans with (1e15 * 2e30); [apply Rmult_le_compat; lra|lra]).
  pose proof (nr_add' lm _ _ _ _ _ _ _ _ 3.03 _ NO KR ltac:(lra) ltac:(lra) ltac:(lra) ltac:(lra) ltac:(lra) ltac:(lra)) as F.
  apply nr_weak with (d := 4.04) (j := 1e-179) in F; [|lra|lra]. apply nr_weak with (d := 0) (j := 1e-179) in NX; [|lra|lra]. apply nr_weak with (d := 0) (j := 1e-179) in NY; [|lra|lra].
  destruct (nr_mul' lm _ _ _ _ _ _ _ _ _ NX F ltac:(lra) ltac:(lra) ltac:(lra) ltac:(lra) ltac:(lra)) as [(p & FP & EP) _].
  destruct (nr_mul' lm _ _ _ _ _ _ _ _ _ NY F ltac:(lra) ltac:(lra) ltac:(lra) ltac:(lra) ltac:(lra)) as [(q & FQ & EQ) _].
  exists p, q. split; [exact FP|]. split; [exact FQ|]. unfold distort. cbn [fst snd].
  replace ((1 + d * (u ^ 2 + v ^ 2)) * u) with (u * (1 + d * (u * u + v * v))) by ring. replace ((1 + d * (u ^ 2 + v ^ 2)) * v) with (v * (1 + d * (u * u + v * v))) by ring.
  set (G := 1 + Rabs d * (u ^ 2 + v ^ 2)) in *. split; (eapply Rle_trans; [eassumption|]).
  - replace (5.05 * u64 * G * Rabs u) with ((0 + 4.04 + 1.01) * u64 * (Rabs u * G)) by (replace 5.05 with (0 + 4.04 + 1.01) by lra; ring). lra.
  - replace (5.05 * u64 * G * Rabs v) with ((0 + 4.04 + 1.01) * u64 * (Rabs v * G)) by (replace 5.05 with (0 + 4.04 + 1.01) by lra; ring). lra.
Qed.
