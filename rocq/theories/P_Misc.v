(** Properties of the random numbers, the version numbers and waiting. *)
From Coq Require Import ZArith Reals Lra Lia Bool String Ascii Decimal DecimalString List.
From Flocq Require Import Core BinarySingleNaN.
From Verif Require Import Int32 Num NumR NumB M_Misc S_Misc L_Misc.
Import ListNotations.
Open Scope R_scope.

(** ** random *)

(** Every value of every history lies in [0, 1). *)
Theorem C65_range (E : engine RNum) lg l s vs s' : canonical E ->
  calls (random E lg) l s = Some (vs, s') -> Forall (fun v : R => 0 <= v < 1) vs.
Proof. intros C. apply (random_values (N := RNum) E lg (fun v : R => 0 <= v < 1) (fun g => proj1 (C g))). Qed.
Print Assumptions C65_range.

(** The seed counts in the first call only: two histories of the same length with
    the same first seed return the same numbers. *)
Theorem C65_first_seed_only (N : Num) (E : engine N) lg seed l l' : List.length l = List.length l' ->
  calls (random E lg) (seed :: l) (random_start E) = calls (random E lg) (seed :: l') (random_start E).
Proof. intros H. now apply once. Qed.
Print Assumptions C65_first_seed_only.

(** Its sign does not count, and neither does a factor of ten in 1 + |seed|: seeds
    0, 9, 99, ... start the same sequence. *)
Theorem C65_seed_sign (E : engine RNum) (seed : R) (l : list R) :
  calls (random E log10) (- seed :: l) (random_start E) = calls (random E log10) (seed :: l) (random_start E).
Proof.
  apply once; [ reflexivity | ]. unfold random. cbn [random_start r_first].
  now rewrite (iseed_sign (- seed) seed) by apply Rabs_Ropp.
Qed.
Print Assumptions C65_seed_sign.
Theorem C65_seed_sign_binary32 lm (E : engine (B32 lm)) lg (seed : single) l :
  calls (random E lg) (Bopp seed :: l) (random_start E) = calls (random E lg) (seed :: l) (random_start E).
Proof. apply once; [ reflexivity | ]. unfold random. cbn [random_start r_first]. now rewrite iseed_sign_B. Qed.
Print Assumptions C65_seed_sign_binary32.
Theorem C65_seed_scale (E : engine RNum) (seed seed' : R) (l : list R) :
  Rabs seed <= 3.4e37 -> Rabs seed' + 1 = 10 * (Rabs seed + 1) ->
  calls (random E log10) (seed' :: l) (random_start E) = calls (random E log10) (seed :: l) (random_start E).
Proof.
  intros H K. apply once; [ reflexivity | ]. unfold random. cbn [random_start r_first]. now rewrite (iseed_scale seed seed' H K).
Qed.
Print Assumptions C65_seed_scale.

(** For every finite seed (all floats are below 3.5e38) no cast overflows, and the
    generator starts from an odd number between 316227 and 3162279. *)
Theorem C65_integer_seed (seed : R) : Rabs seed <= 3.5e38 ->
  exists i, random_iseed (N := RNum) log10 seed = Some i /\ Z.odd i = true /\ (316227 <= i <= 3162279)%Z.
Proof. exact (iseed_odd seed). Qed.
Print Assumptions C65_integer_seed.

(** "An arbitrary float number" does not include the infinities: the cast of
    log10(seed) to int is undefined. *)
Theorem C65_arbitrary_seed_refuted lm (E : engine (B32 lm)) lg (sign : bool) :
  lg (B754_infinity false) = B754_infinity false ->
  random E lg (B754_infinity sign) (random_start E) = None.
Proof. intros H. unfold random. cbn [random_start r_first]. now rewrite iseed_inf_B. Qed.
Print Assumptions C65_arbitrary_seed_refuted.

(** With thread-local state, however the calls of the threads are interleaved,
    each thread gets the numbers its own calls would give it alone. *)
Theorem C65_threads (N : Num) (E : engine N) lg sched out s' :
  schedule (random E lg) sched (fun _ => random_start E) = Some (out, s') ->
  forall i, exists s, calls (random E lg) (of_thread i sched) (random_start E) = Some (of_thread i out, s).
Proof. intros H i. eexists. exact (isolated _ _ _ _ _ H i). Qed.
Print Assumptions C65_threads.

(** ** gresid *)

(** The k-th call returns stdev times the k-th term of a sequence that no standard
    deviation of the history enters (or, if the loop does not end within [fuel]
    passes, none does). *)
Theorem C66_scaling (N : Num) (E : engine N) fuel n :
  (exists ds s, List.length ds = n /\ forall stdevs, List.length stdevs = n ->
     calls (gresid E fuel) stdevs (gresid_start E) = Some (map (fun p => n_mul (fst p) (snd p)) (combine ds stdevs), s)) \/
  (forall stdevs, List.length stdevs = n -> calls (gresid E fuel) stdevs (gresid_start E) = None).
Proof. apply gresid_scaled. Qed.
Print Assumptions C66_scaling.

(** The calls come in pairs.  A pair takes the first point of the stream inside
    the unit circle, (x, y), and returns the point in the same direction, with
    coordinates exchanged, whose squared length is -2 ln(x^2+y^2): below t exactly
    when x^2+y^2 is above exp(-t/2).  Then the next pair starts. *)
Theorem C66_pair (E : engine RNum) fuel (s1 s2 : R) s vs s' : canonical E -> g_first E s = true ->
  calls (gresid E fuel) [s1; s2] s = Some (vs, s') ->
  g_first E s' = true /\
  exists k x y r g1 g2, x = point_x E (engine_at E s) k /\ y = point_y E (engine_at E s) k /\ r = x ^ 2 + y ^ 2 /\ r < 1 /\
    (forall j, (j < k)%nat -> 1 <= dist2 E (engine_at E s) j) /\
    engine_at E s' = state_after E (2 * k + 2) (engine_at E s) /\
    vs = [g1 * s1; g2 * s2] /\
    (r <> 0 -> g1 ^ 2 + g2 ^ 2 = - 2 * ln r /\ g1 * x = g2 * y /\ 0 <= g1 * y /\ 0 <= g2 * x /\
               (forall t, g1 ^ 2 + g2 ^ 2 <= t <-> exp (- t / 2) <= r)).
Proof. exact (gresid_pair E fuel s1 s2 s vs s'). Qed.
Print Assumptions C66_pair.

(** A call returns exactly when a deviate is left over or the stream reaches the
    circle, and what it returns does not depend on the number of passes allowed. *)
Theorem C66_returns (E : engine RNum) (stdev : R) s :
  (exists fuel, gresid E fuel stdev s <> None) <-> (g_first E s = false \/ exists k, dist2 E (engine_at E s) k < 1).
Proof. exact (gresid_terminates E stdev s). Qed.
Print Assumptions C66_returns.
Theorem C66_passes (N : Num) (E : engine N) fuel more stdev s v :
  gresid E fuel stdev s = Some v -> gresid E (fuel + more) stdev s = Some v.
Proof. intros H. now apply gresid_more. Qed.
Print Assumptions C66_passes.

(** With thread-local state each thread gets what it would get alone; two threads
    that ask for the same deviations get the same numbers. *)
Theorem C66_threads (N : Num) (E : engine N) fuel sched out s' :
  schedule (gresid E fuel) sched (fun _ => gresid_start E) = Some (out, s') ->
  (forall i, exists s, calls (gresid E fuel) (of_thread i sched) (gresid_start E) = Some (of_thread i out, s)) /\
  (forall i j, of_thread i sched = of_thread j sched -> of_thread i out = of_thread j out).
Proof.
  intros H. split.
  - intros i. eexists. exact (isolated _ _ _ _ _ H i).
  - intros i j E'. pose proof (isolated _ _ _ _ _ H i) as A. pose proof (isolated _ _ _ _ _ H j) as B. rewrite E' in A. congruence.
Qed.
Print Assumptions C66_threads.

(** The guard max(r, 1e-20) does not help at the centre: an engine that gives 0.5
    twice makes both deviates of the pair NaN, whatever the deviation, because
    the other factor is already infinite. *)
Theorem C66_finite_refuted lm (s1 s2 : single) : m_log 24 128 lm (B754_zero false) = B754_infinity true ->
  exists E : engine (B32 lm), (forall g, fst (g_next E g) = Blit 24 128 5 (-1)) /\
  exists s, calls (gresid E 1) [s1; s2] (gresid_start E) = Some ([B754_nan; B754_nan], s).
Proof. intros H. exists (half_engine lm). split; [ reflexivity | ]. now apply centre_nan. Qed.
Print Assumptions C66_finite_refuted.

(** ** Versions *)

(** For every version the format has room for, the integer is
    M * 1000000 + N * 1000 + R, gives the three numbers back, and integers compare
    as versions do. *)
Theorem C67_veri a b c : (0 <= a <= 2146)%Z -> (0 <= b <= 999)%Z -> (0 <= c <= 999)%Z ->
  exists v, veri_of a b c = Some v /\ v = (a * 1000000 + b * 1000 + c)%Z /\
    (a = v / 1000000)%Z /\ (b = v / 1000 mod 1000)%Z /\ (c = v mod 1000)%Z.
Proof.
  intros A B C. exists (a * 1000000 + b * 1000 + c)%Z. split; [ now apply veri_defined | ]. split; [ reflexivity | ].
  assert (E : (a * 1000000 + b * 1000 + c = (a * 1000 + b) * 1000 + c)%Z) by lia.
  repeat split.
  - apply (Z.div_unique _ _ _ (b * 1000 + c)); lia.
  - rewrite E, Z.div_add_l, (Z.div_small c), Z.add_0_r by lia. apply (Z.mod_unique _ _ a); lia.
  - rewrite E. apply (Z.mod_unique _ _ (a * 1000 + b)); lia.
Qed.
Print Assumptions C67_veri.
Theorem C67_order a b c a' b' c' v v' : (0 <= a <= 2146)%Z -> (0 <= b <= 999)%Z -> (0 <= c <= 999)%Z ->
  (0 <= a' <= 2146)%Z -> (0 <= b' <= 999)%Z -> (0 <= c' <= 999)%Z ->
  veri_of a b c = Some v -> veri_of a' b' c' = Some v' ->
  (v < v' <-> a < a' \/ a = a' /\ (b < b' \/ b = b' /\ c < c'))%Z.
Proof.
  intros A B C A' B' C' V V'. rewrite veri_defined in V, V' by assumption. injection V as <-. injection V' as <-. lia.
Qed.
Print Assumptions C67_order.

(** The string reads back as the three numbers. *)
Theorem C67_vers a b c : (0 <= a)%Z -> (0 <= b)%Z -> (0 <= c)%Z -> let s := vers_of a b c in
  option_map Z.of_int (NilZero.int_of_string (before "." s)) = Some a /\
  option_map Z.of_int (NilZero.int_of_string (before "-" (after "." s))) = Some b /\
  option_map Z.of_int (NilZero.int_of_string (after "-" (after "." s))) = Some c.
Proof. exact (vers_reads a b c). Qed.
Print Assumptions C67_vers.

(** What this library answers. *)
Theorem C67_this_version : veri = Some 2005007%Z /\ vers = "2.5-7"%string.
Proof. split; reflexivity. Qed.
Print Assumptions C67_this_version.

(** ** wait *)

(** For every float below 2^31: wait sleeps a whole number of seconds, the nearest
    to the request; not at all for less than half a second or a negative one. *)
Theorem C68_nearest lm (x : single) : is_finite x = true -> Rabs (B2R x) <= 2147483520 ->
  exists n, wait_seconds (N := B32 lm) x = Some n /\ Rabs (IZR n - B2R x) <= / 2 /\
    (Rabs (B2R x) < / 2 -> n = 0%Z) /\ (B2R x <= 0 -> (n <= 0)%Z).
Proof.
  intros F B. exists (ZnearestA (B2R x)). rewrite wait_round by exact F. pose proof (nearestA_half (B2R x)) as H.
  assert (K : - / 2 <= IZR (ZnearestA (B2R x)) - B2R x <= / 2) by (unfold Rabs in H; destruct (Rcase_abs _) in H; lra).
  assert (B' : - 2147483520 <= B2R x <= 2147483520) by (unfold Rabs in B; destruct (Rcase_abs _) in B; lra).
  split; [ | split; [ exact H | split ] ].
  - apply chk_some. split; apply le_IZR; lra.
  - intros S. apply Znearest_imp. now rewrite Rminus_0_r.
  - intros S. apply nearestA_le. exact S.
Qed.
Print Assumptions C68_nearest.

(** From 2^31 seconds on, for the infinities and for NaN the cast is undefined. *)
Theorem C68_range_refuted lm (x : single) : is_finite x = false \/ 2147483648 <= B2R x ->
  wait_seconds (N := B32 lm) x = None.
Proof.
  intros H. destruct (is_finite x) eqn:F.
  - destruct H as [H|H]; [ discriminate | ]. rewrite wait_round by exact F.
    assert (K : (2147483648 <= ZnearestA (B2R x))%Z).
    { rewrite <- (Zrnd_IZR ZnearestA 2147483648). apply Zrnd_le; [ auto with typeclass_instances | exact H ]. }
    rewrite chk_spec. destruct (Z.leb_spec (ZnearestA (B2R x)) 2147483647); [ lia | ]. now rewrite andb_false_r.
  - unfold wait_seconds, f_nint. destruct x; try discriminate F; reflexivity.
Qed.
Print Assumptions C68_range_refuted.

(** So it may return early: wait(1.25f) sleeps one second. *)
Theorem C68_at_least_refuted lm : exists x : single, 0 < B2R x /\
  exists n, wait_seconds (N := B32 lm) x = Some n /\ IZR n < B2R x.
Proof.
  exists (Blit 24 128 125 (-2)).
  assert (V : B2R (Blit 24 128 125 (-2)) = 1.25).
  { replace (Blit 24 128 125 (-2)) with (@B754_finite 24 128 false 10485760 (-23) eq_refl) by (vm_compute; reflexivity).
    unfold B2R, F2R. cbn. lra. }
  rewrite V. split; [ lra | ]. exists 1%Z. split; [ vm_compute; reflexivity | lra ].
Qed.
Print Assumptions C68_at_least_refuted.

(** ** The hypotheses are met *)

(** An engine with numbers of [0, 1): a linear congruential generator, top 24
    bits. *)
Definition lcg : engine RNum :=
  @Engine RNum Z 1%Z (fun i => i) (fun g => let g' := ((1664525 * g + 1013904223) mod 2 ^ 32)%Z in (IZR (g' / 256) * bpow radix2 (-24), g')).
Example lcg_canonical : canonical lcg.
Proof.
  intros g. cbn [lcg g_next fst]. set (z := ((1664525 * g + 1013904223) mod 2 ^ 32)%Z).
  assert (Z0 : (0 <= z < 2 ^ 32)%Z) by (apply Z.mod_pos_bound; lia).
  assert (Q : (0 <= z / 256 < 16777216)%Z).
  { split; [ apply Z.div_pos; lia | apply Z.div_lt_upper_bound; lia ]. }
  change (bpow radix2 (-24)) with (/ 16777216). split.
  - destruct Q as [Q1 Q2]. apply IZR_le in Q1. apply IZR_lt in Q2. lra.
  - apply generic_format_FLT. exists (Float radix2 (z / 256) (-24)); cbn [Fnum Fexp]; [ unfold F2R; reflexivity | | lia ].
    change (Zpower radix2 24) with 16777216%Z. lia.
Qed.
Example lcg_two_seeds : exists v w s, calls (random lcg log10) [5; 7] (random_start lcg) = Some ([v; w], s).
Proof.
  cbn [calls]. unfold random at 1. cbn [random_start r_first].
  destruct (iseed_odd 5) as (i & -> & _). { rewrite Rabs_pos_eq; lra. }
  unfold random. cbn -[Z.mul Z.modulo Z.div]. eexists _, _, _. reflexivity.
Qed.

(** One that gives 3/4 for ever: the first point is inside the circle, the
    deviates are two equal numbers of squared length 2 ln 2. *)
Definition three_quarters : engine RNum := @Engine RNum unit tt (fun _ => tt) (fun _ => (3 / 4, tt)).
Example three_quarters_canonical : canonical three_quarters.
Proof.
  intros g. cbn [three_quarters g_next fst]. split; [ lra | ].
  apply generic_format_FLT. exists (Float radix2 3 (-2)); cbn [Fnum Fexp]; [ unfold F2R; cbn; lra | cbn; lia | lia ].
Qed.
Example three_quarters_pair : exists a b s,
  calls (gresid three_quarters 1) [1; 1] (gresid_start three_quarters) = Some ([a; b], s) /\ a ^ 2 + b ^ 2 = 2 * ln 2.
Proof.
  assert (D : forall k, point_x three_quarters tt k = 1 / 2 /\ point_y three_quarters tt k = 1 / 2).
  { intros k. unfold point_x, point_y, draw. cbn [three_quarters g_next fst]. split; lra. }
  assert (R0 : dist2 three_quarters tt 0 < 1) by (unfold dist2; destruct (D 0%nat) as [-> ->]; lra).
  destruct (calls (gresid three_quarters 1) [1; 1] (gresid_start three_quarters)) as [[vs s']|] eqn:C.
  - destruct (C66_pair three_quarters 1 1 1 (gresid_start three_quarters) vs s' three_quarters_canonical eq_refl C)
      as (_ & k & x & y & r & g1 & g2 & X & Y & R1 & _ & _ & _ & -> & K).
    change (engine_at three_quarters (gresid_start three_quarters)) with tt in *. destruct (D k) as [Dx Dy]. rewrite Dx in X. rewrite Dy in Y. subst x y.
    assert (Er : r = / 2) by lra. subst r. rewrite Er in K. destruct (K ltac:(lra)) as [K' _].
    exists (g1 * 1), (g2 * 1), s'. split; [ reflexivity | ]. rewrite !Rmult_1_r, K', ln_Rinv by lra. ring.
  - exfalso. cbn [calls] in C. rewrite gresid_unit in C. unfold unit_deviate in C. cbn [gresid_start g_first g_ftf] in C. cbv zeta in C.
    change (g_seed three_quarters 123456789) with tt in C.
    destruct (disc_spec three_quarters 1 tt) as [(k & _ & _ & _ & E)|[J _]]; [ | specialize (J 0%nat ltac:(lia)); lra ].
    rewrite E in C. rewrite gresid_unit in C. unfold unit_deviate in C. cbn [g_first] in C. discriminate.
Qed.
(** Two threads, the second between the two calls of the first. *)
Example two_threads : exists out s,
  schedule (gresid three_quarters 1) [(0%nat, 1); (1%nat, 1); (0%nat, 1); (1%nat, 1)] (fun _ => gresid_start three_quarters) = Some (out, s).
Proof.
  destruct (schedule _ _ _) as [[out s]|] eqn:C; [ now exists out, s | exfalso ].
  apply stuck in C as [i C]. destruct three_quarters_pair as (a & b & s & K & _).
  destruct i as [ | [ | i]].
  - change (of_thread 0 _) with [1; 1] in C. rewrite K in C. discriminate.
  - change (of_thread 1 _) with [1; 1] in C. rewrite K in C. discriminate.
  - discriminate.
Qed.
Example wait_two_and_a_half lm : wait_seconds (N := B32 lm) (Blit 24 128 25 (-1)) = Some 3%Z.
Proof. vm_compute. reflexivity. Qed.
