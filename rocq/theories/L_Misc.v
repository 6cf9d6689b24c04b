(** Random numbers, version numbers, waiting. *)
From Coq Require Import ZArith Reals Lra Lia Bool String Ascii Decimal DecimalString DecimalZ DecimalFacts List.
From Flocq Require Import Core BinarySingleNaN.
From Verif Require Import Int32 Num NumR NumB L_Real L_Bin M_Misc S_Misc.
Import ListNotations.
Open Scope R_scope.

(** ** Threads *)
Section Threads.
Context {A V S : Type} (call : A -> S -> option (V * S)).

Lemma of_thread_cons {B} i j (b : B) l : of_thread i ((j, b) :: l) = if Nat.eqb j i then b :: of_thread i l else of_thread i l.
Proof. unfold of_thread. cbn [filter fst]. destruct (Nat.eqb j i); reflexivity. Qed.

Lemma upd_same (f : nat -> S) i x : upd f i x i = x.
Proof. unfold upd. now rewrite Nat.eqb_refl. Qed.
Lemma upd_other (f : nat -> S) i j x : Nat.eqb i j = false -> upd f i x j = f j.
Proof. unfold upd. rewrite Nat.eqb_sym. now intros ->. Qed.

Lemma isolated : forall l s out s', schedule call l s = Some (out, s') ->
  forall i, calls call (of_thread i l) (s i) = Some (of_thread i out, s' i).
Proof.
  induction l as [ | [j a] l IH]; intros s out s' H i; cbn [schedule] in H.
  - injection H as <- <-. reflexivity.
  - destruct (call a (s j)) as [[v sj]|] eqn:C; [ | discriminate ].
    destruct (schedule call l (upd s j sj)) as [[vs s'']|] eqn:D; [ | discriminate ]. injection H as <- <-.
    specialize (IH _ _ _ D i). rewrite !of_thread_cons. destruct (Nat.eqb j i) eqn:J.
    + apply Nat.eqb_eq in J. subst i. cbn [calls]. rewrite upd_same in IH. rewrite C, IH. reflexivity.
    + rewrite upd_other in IH by exact J. exact IH.
Qed.

Lemma stuck : forall l s, schedule call l s = None -> exists i, calls call (of_thread i l) (s i) = None.
Proof.
  induction l as [ | [j a] l IH]; intros s H; cbn [schedule] in H; [ discriminate | ].
  destruct (call a (s j)) as [[v sj]|] eqn:C.
  - destruct (schedule call l (upd s j sj)) as [[vs s'']|] eqn:D; [ discriminate | ].
    destruct (IH _ D) as [i K]. exists i. rewrite of_thread_cons. destruct (Nat.eqb j i) eqn:J.
    + apply Nat.eqb_eq in J. subst i. cbn [calls]. rewrite upd_same in K. now rewrite C, K.
    + rewrite upd_other in K by exact J. exact K.
  - exists j. rewrite of_thread_cons, Nat.eqb_refl. cbn [calls]. now rewrite C.
Qed.
End Threads.

(** ** random *)
Section Random.
Context {N : Num} (E : engine N) (lg : N -> N).

Lemma later : forall (l l' : list N) s, length l = length l' -> r_first E s = false ->
  calls (random E lg) l s = calls (random E lg) l' s.
Proof.
  induction l as [ | a l IH]; destruct l' as [ | a' l']; intros s L F; try discriminate; [ reflexivity | ].
  cbn [calls]. unfold random. rewrite F. destruct (g_next E (r_gen E s)) as [u g']. rewrite (IH l'); [ reflexivity | | reflexivity ].
  now injection L.
Qed.

Lemma once a b (l l' : list N) s : length l = length l' -> random E lg a s = random E lg b s ->
  calls (random E lg) (a :: l) s = calls (random E lg) (b :: l') s.
Proof.
  intros L H. cbn [calls]. rewrite H. destruct (random E lg b s) as [[v s']|] eqn:K; [ | reflexivity ].
  rewrite (later l l' s' L); [ reflexivity | ].
  unfold random in K. destruct (if r_first E s then _ else _) as [g|]; [ | discriminate ].
  destruct (g_next E g) as [u g']. injection K as <- <-. reflexivity.
Qed.

Lemma random_values (P : N -> Prop) : (forall g, P (fst (g_next E g))) ->
  forall l s vs s', calls (random E lg) l s = Some (vs, s') -> Forall P vs.
Proof.
  intros HP. induction l as [ | a l IH]; intros s vs s' H; cbn [calls] in H.
  - injection H as <- <-. constructor.
  - destruct (random E lg a s) as [[v s1]|] eqn:K; [ | discriminate ].
    destruct (calls _ l s1) as [[ws s2]|] eqn:C; [ | discriminate ]. injection H as <- <-. constructor; [ | exact (IH _ _ _ C) ].
    unfold random in K. destruct (if r_first E s then _ else _) as [g|]; [ | discriminate ].
    pose proof (HP g) as Q. destruct (g_next E g) as [u g']. injection K as <- <-. exact Q.
Qed.
End Random.

(** ** The integer seed *)
Lemma ln10_pos : 0 < ln 10.
Proof. rewrite <- ln_1. apply ln_increasing; lra. Qed.

Lemma rpow10_Z k : Rpow 10 (IZR k) = Rpower 10 (IZR k).
Proof. unfold Rpow. destruct (Rlt_dec 0 10); [ reflexivity | lra ]. Qed.

Lemma pow10_ratio a k : 1 <= a -> a / Rpower 10 (IZR (k - 6)) = Rpower 10 (log10 a - IZR k + 6).
Proof.
  intros A. pose proof ln10_pos as P. unfold Rpower, Rdiv. rewrite <- exp_Ropp.
  rewrite <- (exp_ln a) at 1 by lra. rewrite <- exp_plus. f_equal. unfold log10. rewrite minus_IZR. field. lra.
Qed.

Lemma chk_some z : (-2147483648 <= z <= 2147483647)%Z -> chk z = Some z.
Proof. intros H. unfold chk, in_int, INT_MIN, INT_MAX. rewrite (proj2 (Z.leb_le _ _) (proj1 H)), (proj2 (Z.leb_le _ _) (proj2 H)). reflexivity. Qed.

Lemma log10_range a : 1 <= a -> a <= 10 ^ 39 -> 0 <= log10 a <= 39.
Proof.
  intros A B. pose proof ln10_pos as P. unfold log10. split.
  - apply Rmult_le_pos; [ | left; now apply Rinv_0_lt_compat ]. rewrite <- ln_1. destruct A as [A|<-]; [ left; apply ln_increasing; lra | lra ].
  - apply Rmult_le_reg_r with (ln 10); [ exact P | ]. unfold Rdiv. rewrite Rmult_assoc, Rinv_l, Rmult_1_r by lra.
    replace (39 * ln 10) with (ln (10 ^ 39)) by (rewrite ln_pow by lra; f_equal; rewrite INR_IZR_INZ; reflexivity).
    destruct B as [B| ->]; [ left; apply ln_increasing; lra | lra ].
Qed.

Lemma half_powers : 316227.6 < Rpower 10 5.5 /\ Rpower 10 6.5 < 3162277.7.
Proof.
  assert (Q : forall n m : nat, INR n * 0.5 * 2 = INR n) by (intros; lra).
  assert (A : Rpower 10 5.5 * Rpower 10 5.5 = 100000000000).
  { rewrite <- Rpower_plus. replace (5.5 + 5.5) with (INR 11) by (rewrite INR_IZR_INZ; cbn; lra). rewrite Rpower_pow by lra. lra. }
  assert (B : Rpower 10 6.5 * Rpower 10 6.5 = 10000000000000).
  { rewrite <- Rpower_plus. replace (6.5 + 6.5) with (INR 13) by (rewrite INR_IZR_INZ; cbn; lra). rewrite Rpower_pow by lra. lra. }
  assert (C : 0 < Rpower 10 5.5) by apply exp_pos. assert (D : 0 < Rpower 10 6.5) by apply exp_pos. split; nra.
Qed.

Lemma iseed_value (seed : R) : Rabs seed <= 3.5e38 ->
  let a := Rabs seed + 1 in let q := a / Rpower 10 (IZR (Zround (log10 a) - 6)) in
  316227.6 < q < 3162277.7 /\
  random_iseed (N := RNum) log10 seed = Some (if Z.even (Zround q) then Zround q + 1 else Zround q)%Z.
Proof.
  intros H a q. pose proof (Rabs_pos seed) as P.
  assert (A : 1 <= a) by (unfold a; lra). assert (A' : a <= 10 ^ 39) by (unfold a; lra).
  pose proof (log10_range a A A') as L. pose proof (Zround_err (log10 a)) as K.
  assert (K' : -0.5 <= log10 a - IZR (Zround (log10 a)) <= 0.5) by (unfold Rabs in K; destruct (Rcase_abs _) in K; lra).
  assert (Q : 316227.6 < q < 3162277.7).
  { unfold q. rewrite pow10_ratio by exact A. destruct half_powers as [U V]. split.
    - eapply Rlt_le_trans; [ exact U | ]. apply Rle_Rpower; lra.
    - eapply Rle_lt_trans; [ | exact V ]. apply Rle_Rpower; lra. }
  split; [ exact Q | ]. unfold random_iseed.
  assert (Z0 : (-1 <= Zround (log10 a) <= 40)%Z) by (clear - K' L; split; apply le_IZR; lra).
  unR. change (Rabs seed + 1) with a. unfold Rround at 1, RtoZ. rewrite Ztrunc_IZR, (chk_some (Zround (log10 a))) by lia.
  rewrite (chk_some (_ - 6)) by lia. rewrite rpow10_Z. change (a / _) with q.
  pose proof (Zround_err q) as W. assert (W' : -0.5 <= IZR (Zround q) - q <= 0.5) by (unfold Rabs in W; destruct (Rcase_abs _) in W; lra).
  assert (Z1 : (316227 <= Zround q <= 3162278)%Z) by (split; apply Zlt_succ_le || apply Z.lt_succ_r; apply lt_IZR; unfold Z.succ; rewrite ?plus_IZR; lra).
  unfold Rround. rewrite Ztrunc_IZR, (chk_some (Zround q)) by lia.
  assert (EV : (Z.land (Zround q) 1 =? 0)%Z = Z.even (Zround q)).
  { change 1%Z with (Z.ones 1). rewrite Z.land_ones by lia. change (2 ^ 1)%Z with 2%Z.
    rewrite Zeven_mod. destruct (Z.eqb_spec (Zround q mod 2) 0) as [e|n]; [ rewrite e; reflexivity | ].
    symmetry. apply Bool.not_true_iff_false. intros C. apply Zeq_bool_eq in C. contradiction. }
  rewrite EV. destruct (Z.even (Zround q)); [ apply chk_some; lia | reflexivity ].
Qed.

Lemma iseed_odd (seed : R) : Rabs seed <= 3.5e38 ->
  exists i, random_iseed (N := RNum) log10 seed = Some i /\ Z.odd i = true /\ (316227 <= i <= 3162279)%Z.
Proof.
  intros H. destruct (iseed_value seed H) as [Q ->]. set (q := _ / _) in *.
  pose proof (Zround_err q) as W. assert (W' : -0.5 <= IZR (Zround q) - q <= 0.5) by (unfold Rabs in W; destruct (Rcase_abs _) in W; lra).
  assert (Z1 : (316227 <= Zround q <= 3162278)%Z) by (split; apply Z.lt_succ_r; apply lt_IZR; unfold Z.succ; rewrite ?plus_IZR; lra).
  eexists. split; [ reflexivity | ]. destruct (Z.even (Zround q)) eqn:V.
  - split; [ | lia ]. rewrite Z.add_1_r, Z.odd_succ. exact V.
  - split; [ | lia ]. rewrite <- Z.negb_even, V. reflexivity.
Qed.

Lemma Zround_add1 x : 0 <= x -> Zround (x + 1) = (Zround x + 1)%Z.
Proof.
  intros H. unfold Zround. destruct (Rle_dec 0 (x + 1)); [ | lra ]. destruct (Rle_dec 0 x); [ | lra ].
  replace (x + 1 + / 2) with (x + / 2 + 1) by ring. apply Zfloor_imp. rewrite !plus_IZR.
  pose proof (Zfloor_lb (x + / 2)). pose proof (Zfloor_ub (x + / 2)). lra.
Qed.

Lemma iseed_scale (s s' : R) : Rabs s <= 3.4e37 -> Rabs s' + 1 = 10 * (Rabs s + 1) ->
  random_iseed (N := RNum) log10 s' = random_iseed (N := RNum) log10 s.
Proof.
  intros H E. pose proof (Rabs_pos s) as P.
  destruct (iseed_value s ltac:(lra)) as [_ ->]. destruct (iseed_value s' ltac:(lra)) as [_ ->].
  rewrite E. set (a := Rabs s + 1) in *. assert (A : 1 <= a) by (unfold a; lra).
  pose proof ln10_pos as L10.
  assert (LA : log10 (10 * a) = log10 a + 1) by (unfold log10; rewrite ln_mult by lra; field; lra).
  assert (Q : 10 * a / Rpower 10 (IZR (Zround (log10 (10 * a)) - 6)) = a / Rpower 10 (IZR (Zround (log10 a) - 6))).
  { rewrite !pow10_ratio by lra. f_equal. rewrite LA, Zround_add1, plus_IZR by (apply (log10_range a); [ lra | unfold a; lra ]). lra. }
  rewrite Q. reflexivity.
Qed.

Lemma iseed_sign (s s' : R) : Rabs s = Rabs s' -> random_iseed (N := RNum) log10 s = random_iseed (N := RNum) log10 s'.
Proof. intros H. unfold random_iseed. unR. now rewrite H. Qed.
Lemma iseed_sign_B (lm : libm 24 128) lg (s : single) :
  random_iseed (N := B32 lm) lg (Bopp s) = random_iseed (N := B32 lm) lg s.
Proof.
  unfold random_iseed. change (n_abs (n := B32 lm)) with (@Babs 24 128).
  replace (Babs (Bopp s)) with (Babs s) by (destruct s; reflexivity). reflexivity.
Qed.
Lemma iseed_inf_B (lm : libm 24 128) lg (sg : bool) : lg (B754_infinity false) = B754_infinity false ->
  random_iseed (N := B32 lm) lg (B754_infinity sg) = None.
Proof.
  intros H. unfold random_iseed. 
  assert (A : (n_abs (n := B32 lm) (B754_infinity sg) + #1)%num = B754_infinity false) by (vm_compute; reflexivity). rewrite A.
  cbv zeta. rewrite H. reflexivity.
Qed.

(** ** gresid *)
Section Gresid.
Context {N : Num} (E : engine N).

(** The deviate before it is scaled. *)
Definition unit_deviate (fuel : nat) (s : gstate E) : option (N * gstate E) :=
  let g0 := if g_ftf E s then g_seed E 123456789 else g_gen E s in
  if g_first E s then
    match disc E fuel g0 with
    | None => None
    | Some (x, y, r, g) =>
      let w := n_sqrt ((- #2) * n_log r / n_max r (n_lit 1 (-20)))%num in
      Some ((y * w)%num, Gst E g (x * w)%num false false)
    end
  else Some (g_nxt E s, Gst E g0 (g_nxt E s) false true).

Lemma gresid_unit fuel sd s :
  gresid E fuel sd s = match unit_deviate fuel s with None => None | Some (d, s') => Some ((d * sd)%num, s') end.
Proof.
  unfold gresid, unit_deviate. cbv zeta. destruct (g_first E s); [ | reflexivity ].
  destruct (disc E fuel _) as [[[[x y] r] g]|]; reflexivity.
Qed.

Lemma gresid_scaled fuel : forall n s,
  (exists ds s', length ds = n /\ forall sd, length sd = n ->
     calls (gresid E fuel) sd s = Some (map (fun p => (fst p * snd p)%num) (combine ds sd), s')) \/
  (forall sd, length sd = n -> calls (gresid E fuel) sd s = None).
Proof.
  induction n as [ | n IH]; intros s.
  - left. exists [], s. split; [ reflexivity | ]. intros [ | ] L; [ reflexivity | discriminate ].
  - destruct (unit_deviate fuel s) as [[d s1]|] eqn:U.
    + destruct (IH s1) as [(ds & s2 & L & K)|K].
      * left. exists (d :: ds), s2. split; [ cbn [length]; now rewrite L | ].
        intros [ | a sd] L'; [ discriminate | ]. injection L' as L'. cbn [calls combine map fst snd].
        now rewrite gresid_unit, U, (K sd L').
      * right. intros [ | a sd] L'; [ discriminate | ]. injection L' as L'. cbn [calls]. now rewrite gresid_unit, U, (K sd L').
    + right. intros [ | a sd] L'; [ discriminate | ]. cbn [calls]. now rewrite gresid_unit, U.
Qed.

Lemma disc_more : forall fuel g v, disc E fuel g = Some v -> forall more, disc E (fuel + more) g = Some v.
Proof.
  induction fuel as [ | fuel IH]; intros g v H more; [ discriminate | ]. cbn [disc Nat.add] in *.
  destruct (g_next E g) as [u g1]. destruct (g_next E g1) as [w g2].
  destruct (_ >=? _)%num; [ now apply IH | exact H ].
Qed.
Lemma gresid_more fuel sd s v : gresid E fuel sd s = Some v -> forall more, gresid E (fuel + more) sd s = Some v.
Proof.
  intros H more. rewrite gresid_unit in *. unfold unit_deviate in *. cbv zeta in *. destruct (g_first E s); [ | exact H ].
  destruct (disc E fuel _) as [z|] eqn:D; [ | discriminate ]. now rewrite (disc_more _ _ _ D more).
Qed.
End Gresid.

(** ** The accepted point *)
Section Points.
Context (E : engine RNum).

Lemma shift2 k g : point_x E (snd (g_next E (snd (g_next E g)))) k = point_x E g (S k) /\
  point_y E (snd (g_next E (snd (g_next E g)))) k = point_y E g (S k).
Proof.
  unfold point_x, point_y, draw. replace (2 * S k)%nat with (S (S (2 * k))) by lia.
  replace (S (S (2 * k)) + 1)%nat with (S (S (2 * k + 1))) by lia. cbn [state_after]. split; reflexivity.
Qed.

Lemma disc_spec : forall fuel g,
  (exists k, (k < fuel)%nat /\ dist2 E g k < 1 /\ (forall j, (j < k)%nat -> 1 <= dist2 E g j) /\
     disc E fuel g = Some (point_x E g k, point_y E g k, dist2 E g k, state_after E (2 * k + 2) g)) \/
  (forall j, (j < fuel)%nat -> 1 <= dist2 E g j) /\ disc E fuel g = None.
Proof.
  induction fuel as [ | fuel IH]; intros g; [ right; split; [ lia | reflexivity ] | ].
  cbn [disc].
  assert (P0 : point_x E g 0 = 2 * fst (g_next E g) - 1) by reflexivity.
  assert (P1 : point_y E g 0 = 2 * fst (g_next E (snd (g_next E g))) - 1) by reflexivity.
  destruct (g_next E g) as [u g1] eqn:G1. cbn [fst snd] in P0, P1. destruct (g_next E g1) as [v g2] eqn:G2. cbn [fst snd] in P0, P1.
  assert (RR : ((#2 * u - #1) * (#2 * u - #1) + (#2 * v - #1) * (#2 * v - #1))%num = dist2 E g 0).
  { unfold dist2. rewrite P0, P1. unR. ring. }
  rewrite RR. change (#2 * u - #1)%num with (2 * u - 1). change (#2 * v - #1)%num with (2 * v - 1). rewrite <- P0, <- P1.
  change (n_leb (n := RNum) #1 (dist2 E g 0))%num with (Rleb 1 (dist2 E g 0)).
  assert (S2 : forall k, dist2 E g2 k = dist2 E g (S k) /\ point_x E g2 k = point_x E g (S k) /\ point_y E g2 k = point_y E g (S k)).
  { intros k. pose proof (shift2 k g) as [A B]. rewrite G1 in A, B. cbn [snd] in A, B. rewrite G2 in A, B. cbn [snd] in A, B.
    unfold dist2. now rewrite A, B. }
  destruct (Rleb_spec 1 (dist2 E g 0)) as [H|H].
  - destruct (IH g2) as [(k & K & D & J & R0)|[J R0]].
    + left. exists (S k). destruct (S2 k) as (S2a & S2b & S2c). rewrite <- S2a. split; [ lia | ]. split; [ exact D | ]. split.
      * intros [ | j] Hj; [ exact H | ]. rewrite <- (proj1 (S2 j)). apply J. lia.
      * rewrite R0, S2b, S2c. replace (2 * S k + 2)%nat with (S (S (2 * k + 2))) by lia. cbn [state_after].
        rewrite G1. cbn [snd]. rewrite G2. reflexivity.
    + right. split; [ | exact R0 ]. intros [ | j] Hj; [ exact H | ]. rewrite <- (proj1 (S2 j)). apply J. lia.
  - left. exists 0%nat. split; [ lia | ]. split; [ lra | ]. split; [ lia | ].
    cbn [Nat.mul Nat.add state_after]. rewrite G1. cbn [snd]. rewrite G2. reflexivity.
Qed.

Definition engine_at (s : gstate E) : gs E := if g_ftf E s then g_seed E 123456789 else g_gen E s.

Lemma gresid_terminates sd s :
  (exists fuel, gresid E fuel sd s <> None) <-> (g_first E s = false \/ exists k, dist2 E (engine_at s) k < 1).
Proof.
  split.
  - intros [fuel H]. rewrite gresid_unit in H. unfold unit_deviate in H. cbv zeta in H. change (if g_ftf E s then _ else _) with (engine_at s) in H.
    destruct (g_first E s); [ right | now left ].
    destruct (disc_spec fuel (engine_at s)) as [(k & _ & D & _)|[_ D]]; [ now exists k | ]. rewrite D in H. congruence.
  - intros H. destruct (g_first E s) eqn:F.
    + destruct H as [H|[k H]]; [ discriminate | ]. exists (S k). rewrite gresid_unit. unfold unit_deviate. rewrite F. cbv zeta.
      change (if g_ftf E s then _ else _) with (engine_at s).
      destruct (disc_spec (S k) (engine_at s)) as [(j & _ & _ & _ & D)|[D _]]; [ rewrite D; congruence | ].
      specialize (D k ltac:(lia)). lra.
    + exists 0%nat. rewrite gresid_unit. unfold unit_deviate. rewrite F. congruence.
Qed.

(** A float of [1/4, 1) is a multiple of 2^-25. *)
Lemma float_grid u : generic_format radix2 (FLT_exp (-149) 24) u -> 1 / 4 <= u < 1 -> exists m : Z, u = IZR m * / 33554432.
Proof.
  intros F B. unfold generic_format, F2R, scaled_mantissa, cexp, FLT_exp in F. cbn [Fnum Fexp] in F.
  assert (M : (-1 <= mag radix2 u)%Z).
  { apply mag_ge_bpow. rewrite Rabs_pos_eq by lra. change (bpow radix2 (-1 - 1)) with (/ 4). lra. }
  set (e := Z.max (mag radix2 u - 24) (-149)) in *. assert (Ee : (-25 <= e)%Z) by (unfold e; lia).
  exists (Ztrunc (u * bpow radix2 (- e)) * 2 ^ (e + 25))%Z. rewrite F at 1. rewrite mult_IZR, Rmult_assoc. f_equal.
  change (2 ^ (e + 25))%Z with (Zpower radix2 (e + 25)). rewrite IZR_Zpower by lia.
  change (/ 33554432) with (bpow radix2 (-25)). rewrite <- bpow_plus. f_equal. lia.
Qed.

Lemma never_tiny : canonical E -> forall g k, dist2 E g k = 0 \/ / 281474976710656 <= dist2 E g k.
Proof.
  intros C g k. unfold dist2, point_x, point_y.
  destruct (C (state_after E (2 * k) g)) as [B1 F1]. destruct (C (state_after E (2 * k + 1) g)) as [B2 F2].
  change (fst (g_next E (state_after E (2 * k) g))) with (draw E (2 * k) g) in *.
  change (fst (g_next E (state_after E (2 * k + 1) g))) with (draw E (2 * k + 1) g) in *.
  set (u := draw E (2 * k) g) in *. set (v := draw E (2 * k + 1) g) in *. change (car RNum) with R in *. clearbody u v.
  assert (G : forall u : R, generic_format radix2 (FLT_exp (-149) 24) u -> 0 <= u < 1 -> (2 * u - 1) ^ 2 = 0 \/ / 281474976710656 <= (2 * u - 1) ^ 2).
  { clear. intros u F B. destruct (Rlt_dec u (1 / 4)) as [L|L].
    - right. assert (1 / 2 <= 1 - 2 * u) by lra. nra.
    - destruct (float_grid u F ltac:(lra)) as [m ->].
      replace (2 * (IZR m * / 33554432) - 1) with (IZR (m - 16777216) * / 16777216) by (rewrite minus_IZR; lra).
      set (d := (m - 16777216)%Z). destruct (Z.eq_dec d 0) as [->|Hd]; [ left; ring | right ].
      assert (1 <= IZR (d * d)) by (apply IZR_le; nia). rewrite mult_IZR in H.
      replace ((IZR d * / 16777216) ^ 2) with (IZR d * IZR d * / 281474976710656) by field. lra. }
  destruct (G u F1 B1) as [A|A], (G v F2 B2) as [A'|A'].
  - left. rewrite A, A'. ring.
  - right. rewrite A. lra.
  - right. rewrite A'. lra.
  - right. lra.
Qed.

(** Box-Muller. *)
Lemma box_muller x y (r := x ^ 2 + y ^ 2) (w := sqrt (- 2 * ln r / Rmax r (/ 100000000000000000000))) :
  / 281474976710656 <= r -> r < 1 ->
  let g1 := y * w in let g2 := x * w in
  g1 ^ 2 + g2 ^ 2 = - 2 * ln r /\ g1 * x = g2 * y /\ 0 <= g1 * y /\ 0 <= g2 * x /\
  (forall t, g1 ^ 2 + g2 ^ 2 <= t <-> exp (- t / 2) <= r).
Proof.
  intros R0 R1 g1 g2. assert (M : Rmax r (/ 100000000000000000000) = r) by (apply Rmax_left; lra).
  assert (L : ln r < 0) by (rewrite <- ln_1; apply ln_increasing; lra).
  assert (W0 : 0 <= w) by apply sqrt_pos.
  assert (W2 : w ^ 2 = - 2 * ln r / r).
  { replace (w ^ 2) with (w * w) by ring. unfold w. rewrite M. apply sqrt_sqrt. apply Rmult_le_pos; [ lra | ]. left. apply Rinv_0_lt_compat. lra. }
  assert (S2 : g1 ^ 2 + g2 ^ 2 = - 2 * ln r).
  { unfold g1, g2. replace ((y * w) ^ 2 + (x * w) ^ 2) with (r * w ^ 2) by (unfold r; ring). rewrite W2. field. lra. }
  split; [ exact S2 | ]. split; [ unfold g1, g2; ring | ].
  split; [ unfold g1; replace (y * w * y) with (y ^ 2 * w) by ring; apply Rmult_le_pos; [ apply pow2_ge_0 | exact W0 ] | ].
  split; [ unfold g2; replace (x * w * x) with (x ^ 2 * w) by ring; apply Rmult_le_pos; [ apply pow2_ge_0 | exact W0 ] | ].
  intros t. rewrite S2. split; intros H.
  - rewrite <- (exp_ln r) by lra. destruct (Req_dec (- t / 2) (ln r)) as [->|n]; [ lra | ]. left. apply exp_increasing. lra.
  - rewrite <- (exp_ln r) in H by lra. destruct (Rle_dec (- t / 2) (ln r)) as [K|K]; [ lra | ].
    exfalso. apply Rnot_le_lt in K. apply exp_increasing in K. lra.
Qed.

Lemma nmax_R (a b : R) : n_max (N := RNum) a b = Rmax a b.
Proof. unfold n_max. unR. rcases; unfold Rmax; destruct (Rle_dec _ _); lra. Qed.

Lemma gresid_pair fuel s1 s2 s vs s' : canonical E -> g_first E s = true ->
  calls (gresid E fuel) [s1; s2] s = Some (vs, s') ->
  g_first E s' = true /\
  exists k x y r g1 g2, x = point_x E (engine_at s) k /\ y = point_y E (engine_at s) k /\ r = x ^ 2 + y ^ 2 /\ r < 1 /\
    (forall j, (j < k)%nat -> 1 <= dist2 E (engine_at s) j) /\
    engine_at s' = state_after E (2 * k + 2) (engine_at s) /\
    vs = [g1 * s1; g2 * s2] /\
    (r <> 0 -> g1 ^ 2 + g2 ^ 2 = - 2 * ln r /\ g1 * x = g2 * y /\ 0 <= g1 * y /\ 0 <= g2 * x /\
               (forall t, g1 ^ 2 + g2 ^ 2 <= t <-> exp (- t / 2) <= r)).
Proof.
  intros C F H. cbn [calls] in H. rewrite gresid_unit in H. unfold unit_deviate in H. rewrite F in H. cbv zeta in H.
  change (if g_ftf E s then _ else _) with (engine_at s) in H.
  destruct (disc_spec fuel (engine_at s)) as [(k & K & D & J & ED)|[_ ED]]; rewrite ED in H; [ | discriminate ].
  rewrite gresid_unit in H. unfold unit_deviate in H. cbn [g_ftf g_first g_nxt g_gen] in H. cbv zeta in H. injection H as <- <-.
  split; [ reflexivity | ].
  pose (w := n_sqrt (n := RNum) ((- #2) * n_log (n := RNum) (dist2 E (engine_at s) k) / n_max (N := RNum) (dist2 E (engine_at s) k) (n_lit 1 (-20)))%num).
  change (car RNum) with R in w. exists k, (point_x E (engine_at s) k), (point_y E (engine_at s) k), (dist2 E (engine_at s) k),
    (point_y E (engine_at s) k * w), (point_x E (engine_at s) k * w).
  repeat (split; [ reflexivity || assumption | ]). intros NZ.
  destruct (never_tiny C (engine_at s) k) as [Z|T]; [ contradiction | ].
  pose proof (box_muller (point_x E (engine_at s) k) (point_y E (engine_at s) k) T D) as B. cbv zeta in B.
  assert (EW : w = sqrt (- 2 * ln (point_x E (engine_at s) k ^ 2 + point_y E (engine_at s) k ^ 2) /
     Rmax (point_x E (engine_at s) k ^ 2 + point_y E (engine_at s) k ^ 2) (/ 100000000000000000000))).
  { unfold w. rewrite nmax_R. unfold dist2. unR. do 3 f_equal. unfold Rdec. change (IZR (Z.pow_pos 10 20)) with 100000000000000000000. lra. }
  rewrite EW. exact B.
Qed.
End Points.

(** ** gresid in binary32: the centre of the square *)
Definition half_engine (lm : libm 24 128) : engine (B32 lm) :=
  @Engine (B32 lm) unit tt (fun _ => tt) (fun _ => (Blit 24 128 5 (-1), tt)).
Lemma centre_nan (lm : libm 24 128) (a b : single) : m_log 24 128 lm (B754_zero false) = B754_infinity true ->
  exists s, calls (gresid (half_engine lm) 1) [a; b] (gresid_start (half_engine lm)) = Some ([B754_nan; B754_nan], s).
Proof.
  intros H.
  assert (D : disc (half_engine lm) 1 tt = Some (B754_zero false, B754_zero false, B754_zero false, tt)) by (vm_compute; reflexivity).
  pose (w := n_sqrt (n := B32 lm) ((- #2) * n_log (n := B32 lm) (B754_zero false) / n_max (N := B32 lm) (B754_zero false) (n_lit 1 (-20)))%num).
  assert (W : w = B754_infinity false).
  { unfold w. change (n_log (n := B32 lm) (B754_zero false)) with (m_log 24 128 lm (B754_zero false)). rewrite H. vm_compute. reflexivity. }
  assert (M : (n_mul (n := B32 lm) (B754_zero false) w) = B754_nan) by (rewrite W; reflexivity).
  eexists. cbn [calls]. rewrite gresid_unit. unfold unit_deviate. cbn [gresid_start g_first g_ftf]. cbv zeta.
  change (g_seed (half_engine lm) 123456789) with tt. rewrite D. fold w. rewrite M.
  rewrite gresid_unit. unfold unit_deviate. cbn [g_first g_ftf g_nxt g_gen]. cbv zeta. reflexivity.
Qed.

(** ** wait *)
Lemma chk_spec z : chk z = if ((-2147483648 <=? z) && (z <=? 2147483647))%Z%bool then Some z else None.
Proof. reflexivity. Qed.
Lemma nearestA_half r : Rabs (IZR (ZnearestA r) - r) <= / 2.
Proof. rewrite Rabs_minus_sym. apply Znearest_half. Qed.
Lemma nearestA_le r (n : Z) : r <= IZR n -> (ZnearestA r <= n)%Z.
Proof.
  intros H. destruct (Req_dec r (IZR n)) as [->|K]; [ rewrite Zrnd_IZR by auto with typeclass_instances; lia | ].
  rewrite <- (Zrnd_IZR ZnearestA n). apply Zrnd_le; [ auto with typeclass_instances | exact H ].
Qed.

Lemma wait_round (lm : libm 24 128) (x : single) : is_finite x = true ->
  wait_seconds (N := B32 lm) x = chk (ZnearestA (B2R x)).
Proof.
  intros F. unfold wait_seconds, f_nint. assert (X : fin 24 128 x (B2R x)) by (split; [ exact F | reflexivity ]).
  apply (fin_anint 24 128) in X. cbn. rewrite (fin_toZ 24 128 _ _ X). now rewrite Ztrunc_IZR.
Qed.

(** ** Versions *)
Lemma veri_defined a b c : (0 <= a <= 2146)%Z -> (0 <= b <= 999)%Z -> (0 <= c <= 999)%Z ->
  veri_of a b c = Some (a * 1000000 + b * 1000 + c)%Z.
Proof.
  intros A B C. unfold veri_of, iadd, imul, lift2. rewrite !chk_some by lia. reflexivity.
Qed.

Fixpoint lacks (c : ascii) (s : string) : Prop :=
  match s with EmptyString => True | String d s => d <> c /\ lacks c s end.
Lemma before_app c s t : lacks c s -> before c (s ++ String c t) = s /\ after c (s ++ String c t) = t.
Proof.
  induction s as [ | d s IH]; cbn [append before after lacks].
  - intros _. now rewrite Ascii.eqb_refl.
  - intros [D L]. apply Ascii.eqb_neq in D. rewrite D. destruct (IH L) as [-> ->]. easy.
Qed.
Lemma digits_lack c d : (c = "."%char \/ c = "-"%char) -> lacks c (NilEmpty.string_of_uint d).
Proof. intros H. induction d; cbn [NilEmpty.string_of_uint lacks]; try exact Logic.I; (split; [ destruct H as [-> | ->]; discriminate | exact IHd ]). Qed.
Lemma stringify_lacks c z : (0 <= z)%Z -> (c = "."%char \/ c = "-"%char) -> lacks c (stringify z).
Proof.
  intros Z H. unfold stringify. destruct z as [ | p | p]; [ | | lia ].
  - cbn. destruct H as [-> | ->]; (split; [ discriminate | exact Logic.I ]).
  - cbn [Z.to_int NilZero.string_of_int]. unfold NilZero.string_of_uint. destruct (Pos.to_uint p) eqn:E; try apply (digits_lack c _ H).
    cbn. destruct H as [-> | ->]; (split; [ discriminate | exact Logic.I ]).
Qed.
Lemma stringify_read z : (0 <= z)%Z -> option_map Z.of_int (NilZero.int_of_string (stringify z)) = Some z.
Proof.
  intros H. unfold stringify. rewrite NilZero.isi.
  - cbn [option_map]. now rewrite DecimalZ.of_to.
  - destruct z as [ | p | p]; cbn [Z.to_int]; intros C; try discriminate C. injection C as C. now apply DecimalPos.Unsigned.to_uint_nonnil in C.
  - destruct z as [ | p | p]; cbn [Z.to_int]; intros C; try discriminate C. lia.
Qed.
Lemma vers_reads a b c : (0 <= a)%Z -> (0 <= b)%Z -> (0 <= c)%Z -> let s := vers_of a b c in
  option_map Z.of_int (NilZero.int_of_string (before "." s)) = Some a /\
  option_map Z.of_int (NilZero.int_of_string (before "-" (after "." s))) = Some b /\
  option_map Z.of_int (NilZero.int_of_string (after "-" (after "." s))) = Some c.
Proof.
  intros A B C s.
  destruct (before_app "." (stringify a) (stringify b ++ String "-" (stringify c)) (stringify_lacks _ _ A (or_introl eq_refl))) as [E F].
  change (stringify a ++ String "." (stringify b ++ String "-" (stringify c)))%string with s in E, F. rewrite E, F.
  destruct (before_app "-" (stringify b) (stringify c) (stringify_lacks _ _ B (or_intror eq_refl))) as [Eb Ea].
  rewrite Eb, Ea. now rewrite !stringify_read by assumption.
Qed.
