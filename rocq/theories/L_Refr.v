(** Proofs about refraction. *)
From Coq Require Import ZArith Bool QArith Reals Lra Lia Psatz.
From Coquelicot Require Import Coquelicot.
From Flocq Require Import Core.Raux.
From Verif Require Import Num NumR L_Pi L_Real L_Angle L_Frame L_Site M_Angle M_Refr S_Refr.
Open Scope R_scope.

(** * Termination, over any arithmetic *)

Section Any.
Context {N : Num}.

Lemma pass_some (prof : N -> N * N) sk0 z0 h n step : (1 <= step)%Z ->
  forall fuel i s, (1 <= fuel)%nat -> (n - i < Z.of_nat fuel)%Z -> (i <= n - 1 + step)%Z ->
  exists s', pass prof sk0 z0 h n step fuel i s = Some s' /\
    (step * (p_cnt s' - p_cnt s) <= n - i + step - 1)%Z.
Proof.
  intros Hs. induction fuel as [|fuel IH]; intros i s H1 H2 H3; [lia|].
  cbn [pass]. destruct (Z.leb_spec i (n - 1)).
  - edestruct (IH (i + step)%Z) as [s' [E C]]; [lia|lia|lia|].
    exists s'. split; [exact E|].
    revert C. destruct ((step =? 1)%Z && (i mod 2 =? 0)%Z); cbn [p_cnt]; nia.
  - exists s. split; [reflexivity|]. nia.
Qed.

Lemma quad_some (prof : N -> N * N) sk0 rstart z0 zr fb ff tol :
  forall fuel n step ro fo fe cnt,
  (0 < n)%Z -> (16384 <= n * 2 ^ (Z.of_nat fuel - 1))%Z -> (1 <= fuel)%nat -> (n <= 16384)%Z ->
  (exists j, 16384 = n * 2 ^ Z.of_nat j)%Z ->
  (step = 1 /\ cnt = 0 \/ step = 2 /\ 2 * cnt <= n - 2)%Z ->
  exists v c, quad prof sk0 rstart z0 zr fb ff tol fuel n step ro fo fe cnt = Some (v, c) /\ (c <= 16383)%Z.
Proof.
  induction fuel as [|fuel IH]; intros n step ro fo fe cnt Hn Hf H1 Hm [j Hj] Hst; [lia|].
  cbn [quad].
  edestruct (pass_some prof sk0 z0 (zr / n_ofZ n)%num n step) with (fuel := Z.to_nat n) (i := 1%Z)
    (s := Pass rstart fo fe cnt) as [s [E C]]; [lia|lia|lia|lia|].
  rewrite E. cbn [p_cnt] in C.
  assert (Hc : (p_cnt s <= n - 1)%Z) by (destruct Hst as [[-> ->]|[-> Hc]]; lia).
  destruct (Z.ltb_spec n 16384) as [L|L].
  - rewrite andb_true_r. destruct (n_ltb tol _).
    + destruct fuel as [|fuel]; [cbn in Hf; lia|].
      apply IH; try lia.
      * replace (Z.of_nat (S (S fuel)) - 1)%Z with (Z.succ (Z.of_nat (S fuel) - 1)) in Hf by lia.
        rewrite Z.pow_succ_r in Hf by lia. lia.
      * destruct j as [|j]; [cbn in Hj; lia|].
        replace (Z.of_nat (S j)) with (Z.succ (Z.of_nat j)) in Hj by lia.
        rewrite Z.pow_succ_r in Hj by lia.
        assert (0 < 2 ^ Z.of_nat j)%Z by (apply Z.pow_pos_nonneg; lia). nia.
      * destruct j as [|j]; [cbn in Hj; lia|]. exists j.
        replace (Z.of_nat (S j)) with (Z.succ (Z.of_nat j)) in Hj by lia.
        rewrite Z.pow_succ_r in Hj by lia. lia.
    + eexists _, _. split; [reflexivity|]. lia.
  - rewrite andb_false_r. eexists _, _. split; [reflexivity|]. lia.
Qed.

Lemma quadrature_some (prof : N -> N * N) sk0 rstart z0 zr fb ff tol :
  exists v c, quadrature prof sk0 rstart z0 zr fb ff tol = Some (v, c) /\ (c <= 16383)%Z.
Proof.
  unfold quadrature. apply quad_some; try lia.
  exists 11%nat. reflexivity.
Qed.

Lemma refro_at_some (z oh atk apm arh wl phi tlr eps : N) :
  exists v c, refro_at z oh atk apm arh wl phi tlr eps = Some (v, c) /\ (c <= 32766)%Z.
Proof.
  unfold refro_at. cbv zeta.
  match goal with |- context [quadrature ?a ?b ?c ?d ?e ?f ?g ?h] =>
    destruct (quadrature_some a b c d e f g h) as [v [c1 [E C]]]; rewrite E end.
  match goal with |- context [quadrature ?a ?b ?c ?d ?e ?f ?g ?h] =>
    destruct (quadrature_some a b c d e f g h) as [v' [c2 [E' C']]]; rewrite E' end.
  eexists _, _. split; [reflexivity|lia].
Qed.

Lemma refro_terminates (ozd oh atk apm arh wl phi tlr eps : N) :
  exists v c, refro_run ozd oh atk apm arh wl phi tlr eps = Some (v, c) /\ (c <= 32766)%Z.
Proof.
  unfold refro_run. cbv zeta.
  match goal with |- context [refro_at ?a ?b ?c ?d ?e ?f ?g ?h ?i] =>
    destruct (refro_at_some a b c d e f g h i) as [v [k [E C]]] end.
  rewrite E. eexists _, _. split; [reflexivity|exact C].
Qed.

Lemma refro_some (ozd oh atk apm arh wl phi tlr eps : N) :
  exists v, refro ozd oh atk apm arh wl phi tlr eps = Some v.
Proof.
  destruct (refro_terminates ozd oh atk apm arh wl phi tlr eps) as [v [c [E _]]].
  exists v. unfold refro. rewrite E. reflexivity.
Qed.

(** The two parts, for given atmospheres. *)
Opaque quadrature.
Definition two_parts (trop strat : N -> N * N) (r0 rt rs z k tol : N) : option (N * Z) :=
  match quadrature trop k r0 z (n_sub (ray_zd k rt (fst (trop rt))) z) (integrand (trop r0)) (integrand (trop rt)) tol with
  | None => None
  | Some (reft, c0) =>
    match quadrature strat k rt (ray_zd k rt (fst (strat rt)))
      (n_sub (ray_zd k rs (fst (strat rs))) (ray_zd k rt (fst (strat rt)))) (integrand (strat rt)) (integrand (strat rs)) tol with
    | None => None
    | Some (refp, c1) => Some (n_add reft refp, (c0 + c1)%Z)
    end
  end.
Definition strato (m : tropo) (gamal rt : N) : N -> N * N := atms rt (atmt_t m rt) (fst (atmt m rt)) gamal.
Lemma refro_at_eq (z hm tdk pmb rh wl phi alpha tol : N) :
  let m := refro_tropo hm tdk pmb rh wl phi alpha in
  refro_at z hm tdk pmb rh wl phi alpha tol =
  two_parts (atmt m) (strato m (refro_gamal hm phi) (n_add earth_radius (n_max (n_ofZ 11000) hm)))
    (t_r0 m) (n_add earth_radius (n_max (n_ofZ 11000) hm)) (n_add earth_radius height_limit) z
    (n_mul (n_mul (fst (atmt m (t_r0 m))) (t_r0 m)) (n_sin z)) tol.
Proof. reflexivity. Qed.

(** The clamped problem, and the sign. *)
Local Opaque refro_at.
Definition refro_clamped (zobs2 oh atk apm arh wl phi tlr eps : N) : option (N * Z) :=
  refro_at zobs2 (clip oh (n_opp (n_ofZ 1000)) height_limit) (clip atk (n_ofZ 100) (n_ofZ 500))
    (clip apm (n_ofZ 0) (n_ofZ 10000)) (clip arh (n_ofZ 0) (n_ofZ 1)) (n_max wl (n_lit 1 (-1))) phi
    (clip (n_abs tlr) (n_lit 1 (-3)) (n_lit 1 (-2)))
    (n_div (clip (n_abs eps) (n_lit 1 (-12)) (n_lit 1 (-1))) (n_ofZ 2)).
Definition apply_sign (d : N) (o : option (N * Z)) : option N :=
  match o with None => None | Some (x, _) => Some (if n_ltb d (n_ofZ 0) then n_opp x else x) end.
Lemma refro_eq (ozd oh atk apm arh wl phi tlr eps : N) :
  refro ozd oh atk apm arh wl phi tlr eps =
  apply_sign (drange ozd) (refro_clamped (n_min (n_abs (drange ozd)) deg93) oh atk apm arh wl phi tlr eps).
Proof.
  unfold refro, refro_run, refro_clamped. cbv zeta.
  destruct (refro_at _ _ _ _ _ _ _ _ _) as [[x c]|]; reflexivity.
Qed.
End Any.

(** * Clamping *)

Lemma clip_clamp (x lo hi : R) : clip (N := RNum) x lo hi = clamp x lo hi.
Proof. unfold clip, clamp, Rmin, Rmax. unR. destruct (Rltb_spec x lo); rcases; repeat destruct (Rle_dec _ _); lra. Qed.
Lemma clip_idem (x lo hi : R) : lo <= hi -> clip (N := RNum) (clip (N := RNum) x lo hi) lo hi = clip (N := RNum) x lo hi.
Proof. intros H. rewrite !clip_clamp. unfold clamp, Rmin, Rmax. repeat destruct (Rle_dec _ _); lra. Qed.
Lemma max_idem (x lo : R) : @n_max RNum (@n_max RNum x lo) lo = @n_max RNum x lo.
Proof. unR. destruct (Rltb_spec x lo); rcases; lra. Qed.
Lemma abs_clip (x lo hi : R) : 0 <= lo <= hi ->
  clip (N := RNum) (n_abs (clip (N := RNum) (n_abs (x : RNum)) lo hi)) lo hi = clip (N := RNum) (n_abs (x : RNum)) lo hi.
Proof.
  intros H. rewrite !clip_clamp. unR. rewrite (Rabs_pos_eq (clamp _ _ _)).
  - unfold clamp, Rmin, Rmax. repeat destruct (Rle_dec _ _); lra.
  - unfold clamp, Rmin, Rmax. pose proof (Rabs_pos x). repeat destruct (Rle_dec _ _); lra.
Qed.

Lemma refro_clip (ozd oh atk apm arh wl phi tlr eps : R) :
  refro (N := RNum) ozd oh atk apm arh wl phi tlr eps =
  refro (N := RNum) ozd (clip (N := RNum) oh (n_opp (n_ofZ 1000)) height_limit)
    (clip (N := RNum) atk (n_ofZ 100) (n_ofZ 500)) (clip (N := RNum) apm (n_ofZ 0) (n_ofZ 10000))
    (clip (N := RNum) arh (n_ofZ 0) (n_ofZ 1)) (@n_max RNum wl (n_lit 1 (-1))) phi
    (clip (N := RNum) (n_abs (tlr : RNum)) (n_lit 1 (-3)) (n_lit 1 (-2)))
    (clip (N := RNum) (n_abs (eps : RNum)) (n_lit 1 (-12)) (n_lit 1 (-1))).
Proof.
  rewrite !refro_eq. unfold refro_clamped.
  rewrite !clip_idem, !max_idem, !abs_clip.
  - reflexivity.
  - unR. decs. lra.
  - unR. decs. lra.
  - unR. decs. lra.
  - unR. decs. lra.
  - unR. decs. lra.
  - unfold height_limit. unR. lra.
Qed.

Lemma refro_clamps (ozd oh atk apm arh wl phi tlr eps : R) :
  refro (N := RNum) ozd oh atk apm arh wl phi tlr eps =
  refro (N := RNum) ozd (clamp oh (-1000) 80000) (clamp atk 100 500) (clamp apm 0 10000) (clamp arh 0 1)
    (Rmax wl 0.1) phi (clamp (Rabs tlr) 0.001 0.01) (clamp (Rabs eps) (1 / 10 ^ 12) 0.1).
Proof.
  rewrite refro_clip, !clip_clamp. unfold height_limit.
  replace (@n_max RNum wl (n_lit 1 (-1))) with (Rmax wl 0.1).
  2: { unfold Rmax. unR. decs. rcases; destruct (Rle_dec _ _); lra. }
  unR. f_equal; f_equal; decs; try lra.
Qed.

(** * Zenith distance *)

Lemma fmod_opp x y : Rfmod (- x) y = - Rfmod x y.
Proof.
  unfold Rfmod, Rtrunc, Rdiv. replace (- x * / y) with (- (x * / y)) by ring.
  rewrite Ztrunc_opp, opp_IZR. ring.
Qed.
Lemma drange_odd a : drange (N := RNum) (- a) = - drange (N := RNum) a.
Proof.
  pose proof PI_RGT_0. unfold drange. unR. cbv zeta. rewrite fmod_opp, Rabs_Ropp.
  destruct (Req_dec a 0) as [->|D].
  - assert (F : Rfmod 0 (2 * PI) = 0).
    { unfold Rfmod, Rtrunc. unfold Rdiv. rewrite Rmult_0_l. rewrite (Ztrunc_IZR 0). lra. }
    rewrite F, Rabs_R0. rcases; lra.
  - rcases; lra.
Qed.

Lemma refro_odd (ozd oh atk apm arh wl phi tlr eps v : R) :
  refro (N := RNum) ozd oh atk apm arh wl phi tlr eps = Some v ->
  drange (N := RNum) ozd <> 0 ->
  refro (N := RNum) (- ozd) oh atk apm arh wl phi tlr eps = Some (- v).
Proof.
  intros H D. rewrite refro_eq in *. rewrite drange_odd.
  replace (@n_abs RNum (- drange (N := RNum) ozd)) with (n_abs (drange (N := RNum) ozd)) by (symmetry; apply Rabs_Ropp).
  revert H. generalize (refro_clamped (N := RNum) (@n_min RNum (n_abs (drange (N := RNum) ozd)) deg93) oh atk apm arh wl phi tlr eps).
  intros [[x c]|] H; [|discriminate].
  cbn [apply_sign] in *. apply some_inj in H. f_equal. change (car RNum) with R in x.
  revert H D. generalize (drange (N := RNum) ozd). intros d. change (car RNum) with R in d. unR. intros H D.
  subst v. asR. rcases; lra.
Qed.

Lemma refro_same (a b oh atk apm arh wl phi tlr eps : R) : same_angle a b -> cos a <> - 1 ->
  refro (N := RNum) a oh atk apm arh wl phi tlr eps = refro (N := RNum) b oh atk apm arh wl phi tlr eps.
Proof.
  intros S C. pose proof PI_RGT_0.
  assert (E : drange (N := RNum) a = drange (N := RNum) b).
  { destruct (drange_spec a) as (S1 & R1 & _). destruct (drange_spec b) as (S2 & R2 & _).
    set (x := drange (N := RNum) a) in *. set (y := drange (N := RNum) b) in *. change (car RNum) with R in x, y.
    change (@eq R x y).
    assert (Cx : cos x <> -1).
    { destruct S1 as [k1 E1]. rewrite E1 in C. rewrite cos_period_Z in C. exact C. }
    assert (x <> PI) by (intros ->; rewrite cos_PI in Cx; lra).
    assert (x <> - PI) by (intros ->; rewrite cos_neg, cos_PI in Cx; lra).
    destruct S as [k E0], S1 as [k1 E1], S2 as [k2 E2].
    assert (Ek : x - y = IZR (k + k2 - k1) * (2 * PI)) by (rewrite minus_IZR, plus_IZR; lra).
    assert (k + k2 - k1 = 0)%Z; [|rewrite H2 in Ek; lra].
    assert (- 1 < IZR (k + k2 - k1) < 1) as [L1 L2] by (split; nra).
    apply (lt_IZR (-1)) in L1. apply (lt_IZR _ 1) in L2. lia. }
  rewrite !refro_eq, E. reflexivity.
Qed.

Lemma refro_flat (ozd oh atk apm arh wl phi tlr eps : R) : 1.623156204 <= ozd < PI ->
  refro (N := RNum) ozd oh atk apm arh wl phi tlr eps = refro (N := RNum) 1.623156204 oh atk apm arh wl phi tlr eps.
Proof.
  intros [L U]. pose proof PI_bounds.
  assert (E : forall z, 1.623156204 <= z < PI -> drange (N := RNum) z = z /\ @n_min RNum (n_abs (z : RNum)) deg93 = 1.623156204).
  { intros z Hz. split.
    - apply drange_id. rewrite Rabs_pos_eq; lra.
    - unfold deg93. unR. rewrite Rabs_pos_eq by lra. revert Hz. decs. intros Hz. rcases; lra. }
  destruct (E ozd (conj L U)) as [E1 E2]. destruct (E 1.623156204) as [E3 E4]; [lra|].
  rewrite !refro_eq, E1, E3, E2, E4. destruct (refro_clamped _ _ _ _ _ _ _ _ _) as [[x c]|]; [|reflexivity].
  cbn [apply_sign]. unR. rcases; try reflexivity; lra.
Qed.

(** * Quadrature *)

Lemma integrand_bending (a : atmosphere) r : integrand (N := RNum) (a r) = bending a r.
Proof. unfold integrand, bending, index, rdndr. destruct (a r) as [n d]. reflexivity. Qed.

Lemma find_r_last (a : atmosphere) (w : R) : forall j (rg dr : R), 1 < Rabs dr -> (1 <= j)%nat ->
  exists r', find_r (N := RNum) a w j rg dr = r' - (r' * index a r' - w) / (index a r' + rdndr a r').
Proof.
  induction j as [|j IH]; intros rg dr D J; [lia|].
  cbn [find_r]. unR. destruct (Rltb_spec 1 (Rabs dr)); [|lra].
  unfold index at 1, rdndr at 1. destruct (a rg) as [n d] eqn:E.
  set (q := (rg * n - w) / (n + d)).
  destruct j as [|j].
  - cbn [find_r]. exists rg. unfold index, rdndr. rewrite E. reflexivity.
  - destruct (Rlt_dec 1 (Rabs q)) as [L|L].
    + destruct (IH (rg - q) q L ltac:(lia)) as [r' H]. exists r'. exact H.
    + exists rg. change (find_r (N := RNum) a w (S j) (rg - q) q = rg - (rg * index a rg - w) / (index a rg + rdndr a rg)).
      cbn [find_r]. unR. destruct (Rltb_spec 1 (Rabs q)); [lra|]. unfold index, rdndr. rewrite E. reflexivity.
Qed.

Lemma radius_sampled (a : atmosphere) (k z0 h : R) i (r : R) :
  sampled a k (z0 + h * IZR i) (integrand (N := RNum) (a (radius (N := RNum) a k z0 h i r))).
Proof.
  rewrite integrand_bending. eexists. split; [reflexivity|]. intros S.
  unfold radius. unR. destruct (Rltb_spec (Rdec 1 (-20)) (sin (z0 + h * IZR i))) as [L|L].
  - apply find_r_last; [|lia]. change (Rdec 1 6) with (IZR (Z.pow_pos 10 6)). change (Z.pow_pos 10 6) with 1000000%Z. rewrite Rabs_pos_eq; lra.
  - exfalso. revert L S. decs. intros. lra.
Qed.

Lemma sumto_ext n f g : (forall i, (i < n)%nat -> f i = g i) -> sumto n f = sumto n g.
Proof.
  induction n as [|n IH]; intros H; [reflexivity|]. cbn [sumto].
  rewrite IH by (intros; apply H; lia). rewrite H by lia. reflexivity.
Qed.
Lemma sumto_add n f g : sumto n (fun i => f i + g i) = sumto n f + sumto n g.
Proof. induction n as [|n IH]; cbn [sumto]; [ring|rewrite IH; ring]. Qed.
Lemma sumto_scale n c f : sumto n (fun i => c * f i) = c * sumto n f.
Proof. induction n as [|n IH]; cbn [sumto]; [ring|rewrite IH; ring]. Qed.
Lemma sumto_double b f : sumto (2 * b) f = sumto b (fun t => f (2 * t)%nat + f (2 * t + 1)%nat).
Proof.
  induction b as [|b IH]; [reflexivity|].
  replace (2 * S b)%nat with (S (S (2 * b))) by lia. cbn [sumto].
  rewrite IH. replace (S (2 * b)) with (2 * b + 1)%nat by lia. ring.
Qed.

(** The ordinates strictly inside. *)
Definition inner (n : nat) (g : nat -> R) : R := sumto n (fun i => if Nat.eqb i 0 then 0 else g i).
Definition odds (b : nat) (g : nat -> R) : R := sumto b (fun t => g (2 * t + 1)%nat).
Definition evens (b : nat) (g : nat -> R) : R := inner b (fun t => g (2 * t)%nat).

Lemma even_2t t : Nat.even (2 * t) = true.
Proof. apply Nat.even_spec. exists t. lia. Qed.
Lemma even_2t1 t : Nat.even (2 * t + 1) = false.
Proof. rewrite Nat.add_1_r, Nat.even_succ, <- Nat.negb_even, even_2t. reflexivity. Qed.

Lemma simpson_split b h g : simpson (2 * b) h g = h * (g 0%nat + 4 * odds b g + 2 * evens b g + g (2 * b)%nat) / 3.
Proof.
  unfold simpson. rewrite sumto_double.
  rewrite (sumto_ext b _ (fun t => 2 * (if Nat.eqb t 0 then 0 else g (2 * t)%nat) + 4 * g (2 * t + 1)%nat)).
  - rewrite sumto_add, !sumto_scale. unfold odds, evens, inner. field.
  - intros t _. rewrite even_2t, even_2t1.
    replace (Nat.eqb (2 * t + 1) 0) with false by (symmetry; apply Nat.eqb_neq; lia).
    destruct (Nat.eqb_spec t 0) as [->|D]; [change (2 * 0 =? 0)%nat with true; change (0 =? 0)%nat with true; cbv iota; ring|].
    replace (Nat.eqb (2 * t) 0) with false by (symmetry; apply Nat.eqb_neq; lia). reflexivity.
Qed.
Lemma inner_split b g : inner (2 * b) g = evens b g + odds b g.
Proof.
  unfold inner at 1. rewrite sumto_double. unfold evens, odds, inner. rewrite <- sumto_add. apply sumto_ext.
  intros t _. replace (Nat.eqb (2 * t + 1) 0) with false by (symmetry; apply Nat.eqb_neq; lia).
  destruct (Nat.eqb_spec t 0) as [->|D]; [reflexivity|].
  replace (Nat.eqb (2 * t) 0) with false by (symmetry; apply Nat.eqb_neq; lia). reflexivity.
Qed.

(** Ordinates of the refined grid. *)
Definition weave (g go : nat -> R) (i : nat) : R := if Nat.even i then g (Nat.div2 i) else go (Nat.div2 i).
Lemma weave_even g go t : weave g go (2 * t) = g t.
Proof. unfold weave. rewrite even_2t, Nat.div2_double. reflexivity. Qed.
Lemma weave_odd g go t : weave g go (2 * t + 1) = go t.
Proof. unfold weave. rewrite even_2t1, Nat.add_1_r, Nat.div2_succ_double. reflexivity. Qed.

Lemma pass_odd (a : atmosphere) (k z0 h : R) (b : nat) :
  forall fuel t s s', (t <= b)%nat ->
  pass (N := RNum) a k z0 h (Z.of_nat (2 * b)) 2 fuel (Z.of_nat (2 * t + 1)) s = Some s' ->
  (exists go, p_odd s = sumto t go /\ forall i, (i < t)%nat -> sampled a k (z0 + h * INR (2 * i + 1)) (go i)) ->
  p_even s' = p_even s /\
  exists go, p_odd s' = sumto b go /\ forall i, (i < b)%nat -> sampled a k (z0 + h * INR (2 * i + 1)) (go i).
Proof.
  induction fuel as [|fuel IH]; intros t s s' T H G; [discriminate|].
  cbn [pass] in H. destruct (Z.leb_spec (Z.of_nat (2 * t + 1)) (Z.of_nat (2 * b) - 1)) as [L|L].
  - cbn [Z.eqb andb] in H. change (2 =? 1)%Z with false in H. cbn [andb] in H.
    replace (Z.of_nat (2 * t + 1) + 2)%Z with (Z.of_nat (2 * S t + 1)) in H by lia.
    apply IH in H; [|lia|].
    + exact H.
    + cbn [p_odd]. destruct G as [go [E Sm]].
      set (f := integrand (N := RNum) (a (radius (N := RNum) a k z0 h (Z.of_nat (2 * t + 1)) (p_r s)))).
      exists (fun i => if Nat.eqb i t then f else go i). split.
      * cbn [sumto]. rewrite Nat.eqb_refl. rewrite E. change (@eq R (sumto t go + f) (sumto t (fun i => if Nat.eqb i t then f else go i) + f)).
        f_equal. apply sumto_ext. intros i I. replace (Nat.eqb i t) with false by (symmetry; apply Nat.eqb_neq; lia). reflexivity.
      * intros i I. destruct (Nat.eqb_spec i t) as [->|D].
        -- rewrite INR_IZR_INZ. apply radius_sampled.
        -- apply Sm. lia.
  - apply (f_equal (fun o => match o with Some x => x | None => s end)) in H. subst s'.
    assert (t = b) by lia. subst t. split; [reflexivity|exact G].
Qed.

Lemma quad_refine (a : atmosphere) (k rs z0 range tol : R) :
  forall fuel b (ro : R) (gp : nat -> R) cnt (v : R) c, (1 <= b)%nat ->
  quad (N := RNum) a k rs z0 range (gp 0%nat) (gp b) tol fuel (Z.of_nat (2 * b)) 2 ro 0 (inner b gp) cnt = Some (v, c) ->
  exists g, (forall i, (i <= b)%nat -> g (2 * i)%nat = gp i) /\
    (forall i, (i < b)%nat -> sampled a k (z0 + range / INR (2 * b) * INR (2 * i + 1)) (g (2 * i + 1)%nat)) /\
    refine (sampled a k) z0 range tol (2 * b) ro g v.
Proof.
  induction fuel as [|fuel IH]; intros b ro gp cnt v c B H; [discriminate|].
  cbn [quad] in H.
  set (h := @n_div RNum range (n_ofZ (Z.of_nat (2 * b)))) in *.
  assert (Eh : h = range / INR (2 * b)) by (unfold h; rewrite INR_IZR_INZ; reflexivity). clearbody h. subst h.
  destruct (pass _ _ _ _ _ _ _ _ _) as [s|] eqn:E; [|discriminate].
  change 1%Z with (Z.of_nat (2 * 0 + 1)) in E.
  apply pass_odd in E; [|lia|exists gp; split; [reflexivity|intros; lia]].
  cbn [p_even] in E. destruct E as [Ee [go [Eo Sm]]].
  exists (weave gp go).
  assert (Hg : forall i, (i <= b)%nat -> weave gp go (2 * i)%nat = gp i) by (intros; apply weave_even).
  assert (Hs : forall i, (i < b)%nat -> sampled a k (z0 + range / INR (2 * b) * INR (2 * i + 1)) (weave gp go (2 * i + 1)%nat))
    by (intros; rewrite weave_odd; auto).
  split; [exact Hg|]. split; [exact Hs|].
  assert (Ev : evens b (weave gp go) = inner b gp).
  { unfold evens, inner. apply sumto_ext. intros i _. rewrite weave_even. reflexivity. }
  assert (Od : odds b (weave gp go) = sumto b go).
  { unfold odds. apply sumto_ext. intros i _. apply weave_odd. }
  assert (Si : @n_div RNum (@n_mul RNum (range / INR (2 * b)) (@n_add RNum (@n_add RNum (@n_add RNum (gp 0%nat) (n_mul (n_ofZ 4) (p_odd s))) (n_mul (n_ofZ 2) (p_even s))) (gp b))) (n_ofZ 3)
    = simpson (2 * b) (range / INR (2 * b)) (weave gp go)).
  { rewrite simpson_split, Ev, Od, Ee, Eo. rewrite (weave_even gp go b). change (weave gp go 0%nat) with (weave gp go (2 * 0)).
    rewrite weave_even. reflexivity. }
  rewrite Si in H.
  assert (In : @n_add RNum (p_even s) (p_odd s) = inner (2 * b) (weave gp go)).
  { rewrite inner_split, Ev, Od, Ee, Eo. reflexivity. }
  rewrite In in H. revert H. unR. set (S := simpson (2 * b) (range / INR (2 * b)) (weave gp go)).
  destruct (Rltb_spec tol (Rabs (S - ro))) as [L|L]; cbn [andb].
  - destruct (Z.ltb_spec (Z.of_nat (2 * b)) 16384) as [L'|L']; intros H.
    + replace (Z.of_nat (2 * b) + Z.of_nat (2 * b))%Z with (Z.of_nat (2 * (2 * b))) in H by lia.
      rewrite <- (weave_even gp go b) in H. change (gp 0%nat) with (weave gp go 0%nat) in H.
      apply (IH (2 * b)%nat S (weave gp go)) in H; [|lia].
      destruct H as [g'' [Hg' [Hs' Hr]]].
      eapply refine_more; eauto.
    + injection H as H _. subst v. apply refine_stop. right. exact L'.
  - intros H. injection H as H _. subst v. apply refine_stop. left. apply Rnot_lt_le. exact L.
Qed.

Lemma pass1_odd (a : atmosphere) (k z0 h : R) n fuel i s : (i <=? n - 1)%Z = true -> (i mod 2 =? 0)%Z = false ->
  pass (N := RNum) a k z0 h n 1 (S fuel) i s =
  let r := radius (N := RNum) a k z0 h i (p_r s) in
  pass (N := RNum) a k z0 h n 1 fuel (i + 1)%Z (@Pass RNum r (p_odd s + integrand (N := RNum) (a r)) (p_even s) (p_cnt s + 1)).
Proof. intros A B. cbn [pass]. rewrite A, B. reflexivity. Qed.
Lemma pass1_even (a : atmosphere) (k z0 h : R) n fuel i s : (i <=? n - 1)%Z = true -> (i mod 2 =? 0)%Z = true ->
  pass (N := RNum) a k z0 h n 1 (S fuel) i s =
  let r := radius (N := RNum) a k z0 h i (p_r s) in
  pass (N := RNum) a k z0 h n 1 fuel (i + 1)%Z (@Pass RNum r (p_odd s) (p_even s + integrand (N := RNum) (a r)) (p_cnt s + 1)).
Proof. intros A B. cbn [pass]. rewrite A, B. reflexivity. Qed.
Lemma pass1_end (a : atmosphere) (k z0 h : R) n fuel i s : (i <=? n - 1)%Z = false ->
  pass (N := RNum) a k z0 h n 1 (S fuel) i s = Some s.
Proof. intros A. cbn [pass]. rewrite A. reflexivity. Qed.

Lemma quad_S (a : atmosphere) (k rs z0 range fb ff tol : R) fuel n step ro fo fe cnt :
  quad (N := RNum) a k rs z0 range fb ff tol (S fuel) n step ro fo fe cnt =
  match pass (N := RNum) a k z0 (@n_div RNum range (n_ofZ n)) n step (Z.to_nat n) 1 (@Pass RNum rs fo fe cnt) with
  | None => None
  | Some s =>
    if @n_ltb RNum tol (n_abs (n_sub (@n_div RNum (@n_mul RNum (@n_div RNum range (n_ofZ n)) (@n_add RNum (@n_add RNum (@n_add RNum fb (n_mul (n_ofZ 4) (p_odd s))) (n_mul (n_ofZ 2) (p_even s))) ff)) (n_ofZ 3)) ro))
       && (n <? 16384)%Z
    then quad (N := RNum) a k rs z0 range fb ff tol fuel (n + n) 2
      (@n_div RNum (@n_mul RNum (@n_div RNum range (n_ofZ n)) (@n_add RNum (@n_add RNum (@n_add RNum fb (n_mul (n_ofZ 4) (p_odd s))) (n_mul (n_ofZ 2) (p_even s))) ff)) (n_ofZ 3))
      (n_ofZ 0) (@n_add RNum (p_even s) (p_odd s)) (p_cnt s)
    else Some (@n_div RNum (@n_mul RNum (@n_div RNum range (n_ofZ n)) (@n_add RNum (@n_add RNum (@n_add RNum fb (n_mul (n_ofZ 4) (p_odd s))) (n_mul (n_ofZ 2) (p_even s))) ff)) (n_ofZ 3), p_cnt s)
  end.
Proof. reflexivity. Qed.

Lemma first_pass (a : atmosphere) (k z0 h rs : R) c s :
  pass (N := RNum) a k z0 h 8 1 8 1 (@Pass RNum rs 0 0 c) = Some s ->
  exists f1 f2 f3 f4 f5 f6 f7 : R,
    sampled a k (z0 + h * 1) f1 /\ sampled a k (z0 + h * 2) f2 /\ sampled a k (z0 + h * 3) f3 /\
    sampled a k (z0 + h * 4) f4 /\ sampled a k (z0 + h * 5) f5 /\ sampled a k (z0 + h * 6) f6 /\
    sampled a k (z0 + h * 7) f7 /\ p_odd s = 0 + f1 + f3 + f5 + f7 /\ p_even s = 0 + f2 + f4 + f6.
Proof.
  intros E.
  rewrite pass1_odd in E by reflexivity. cbv zeta in E. cbn [p_r p_odd p_even p_cnt] in E.
  pose proof (radius_sampled a k z0 h 1 rs) as S1. revert S1 E. generalize (radius (N := RNum) a k z0 h 1 rs) as q1. intros q1. generalize (integrand (N := RNum) (a q1)) as f1. intros f1 S1 E.
  rewrite pass1_even in E by reflexivity. cbv zeta in E. cbn [p_r p_odd p_even p_cnt] in E.
  pose proof (radius_sampled a k z0 h 2 q1) as S2. revert S2 E. change (1 + 1)%Z with 2%Z. generalize (radius (N := RNum) a k z0 h 2 q1) as q2. intros q2. generalize (integrand (N := RNum) (a q2)) as f2. intros f2 S2 E.
  rewrite pass1_odd in E by reflexivity. cbv zeta in E. cbn [p_r p_odd p_even p_cnt] in E.
  pose proof (radius_sampled a k z0 h 3 q2) as S3. revert S3 E. change (2 + 1)%Z with 3%Z. generalize (radius (N := RNum) a k z0 h 3 q2) as q3. intros q3. generalize (integrand (N := RNum) (a q3)) as f3. intros f3 S3 E.
  rewrite pass1_even in E by reflexivity. cbv zeta in E. cbn [p_r p_odd p_even p_cnt] in E.
  pose proof (radius_sampled a k z0 h 4 q3) as S4. revert S4 E. change (3 + 1)%Z with 4%Z. generalize (radius (N := RNum) a k z0 h 4 q3) as q4. intros q4. generalize (integrand (N := RNum) (a q4)) as f4. intros f4 S4 E.
  rewrite pass1_odd in E by reflexivity. cbv zeta in E. cbn [p_r p_odd p_even p_cnt] in E.
  pose proof (radius_sampled a k z0 h 5 q4) as S5. revert S5 E. change (4 + 1)%Z with 5%Z. generalize (radius (N := RNum) a k z0 h 5 q4) as q5. intros q5. generalize (integrand (N := RNum) (a q5)) as f5. intros f5 S5 E.
  rewrite pass1_even in E by reflexivity. cbv zeta in E. cbn [p_r p_odd p_even p_cnt] in E.
  pose proof (radius_sampled a k z0 h 6 q5) as S6. revert S6 E. change (5 + 1)%Z with 6%Z. generalize (radius (N := RNum) a k z0 h 6 q5) as q6. intros q6. generalize (integrand (N := RNum) (a q6)) as f6. intros f6 S6 E.
  rewrite pass1_odd in E by reflexivity. cbv zeta in E. cbn [p_r p_odd p_even p_cnt] in E.
  pose proof (radius_sampled a k z0 h 7 q6) as S7. revert S7 E. change (6 + 1)%Z with 7%Z. generalize (radius (N := RNum) a k z0 h 7 q6) as q7. intros q7. generalize (integrand (N := RNum) (a q7)) as f7. intros f7 S7 E.
  rewrite pass1_end in E by reflexivity.
  apply (f_equal (fun o => match o with Some x => x | None => s end)) in E. subst s. cbn [p_odd p_even].
  exists f1, f2, f3, f4, f5, f6, f7. repeat (split; [assumption|]). split; reflexivity.
Qed.

Lemma quad_refraction (a : atmosphere) (k ra za rb zb tol v : R) fuel c :
  quad (N := RNum) a k ra za (zb - za) (bending a ra) (bending a rb) tol (S fuel) 8 1 1 0 0 0 = Some (v, c) ->
  refraction_between a k ra za rb zb tol v.
Proof.
  intros H. rewrite quad_S in H.
  set (h := @n_div RNum (zb - za) (n_ofZ 8)) in *.
  assert (Eh : h = (zb - za) / INR 8) by (unfold h; rewrite INR_IZR_INZ; reflexivity). clearbody h. subst h.
  destruct (pass _ _ _ _ _ _ _ _ _) as [s|] eqn:E; [|discriminate].
  assert (P : exists g, g 0%nat = bending a ra /\ g 8%nat = bending a rb /\
    (forall i, (0 < i < 8)%nat -> sampled a k (za + (zb - za) / INR 8 * INR i) (g i)) /\
    p_odd s = odds 4 g /\ p_even s = evens 4 g).
  { change (Z.to_nat 8) with 8%nat in E. apply first_pass in E.
    destruct E as (f1 & f2 & f3 & f4 & f5 & f6 & f7 & S1 & S2 & S3 & S4 & S5 & S6 & S7 & Eo & Ee).
    exists (fun i => match i with 0 => bending a ra | 1 => f1 | 2 => f2 | 3 => f3 | 4 => f4 | 5 => f5 | 6 => f6 | 7 => f7
      | _ => bending a rb end)%nat.
    split; [reflexivity|]. split; [reflexivity|]. split; [|split].
    - intros i I. rewrite (INR_IZR_INZ i).
      do 8 (destruct i as [|i]; [first [lia|assumption]|]). lia.
    - rewrite Eo. unfold odds. cbn [sumto Nat.eqb Nat.mul Nat.add]. asR. ring.
    - rewrite Ee. unfold evens, inner. cbn [sumto Nat.eqb Nat.mul Nat.add]. asR. ring. }
  destruct P as [g [G0 [G8 [Sm [Eo Ee]]]]].
  exists g. split; [exact G0|]. split; [exact G8|]. split; [exact Sm|].
  assert (Si : @n_div RNum (@n_mul RNum ((zb - za) / INR 8) (@n_add RNum (@n_add RNum (@n_add RNum (bending a ra) (n_mul (n_ofZ 4) (p_odd s))) (n_mul (n_ofZ 2) (p_even s))) (bending a rb))) (n_ofZ 3)
    = simpson (2 * 4) ((zb - za) / INR 8) g).
  { rewrite simpson_split, Eo, Ee. change (2 * 4)%nat with 8%nat. rewrite G0, G8. reflexivity. }
  rewrite Si in H.
  assert (In : @n_add RNum (p_even s) (p_odd s) = inner (2 * 4) g).
  { rewrite inner_split, Ee, Eo. reflexivity. }
  rewrite In in H. change (2 * 4)%nat with 8%nat in H. revert H. unR. set (S := simpson 8 ((zb - za) / INR 8) g).
  destruct (Rltb_spec tol (Rabs (S - 1))) as [L|L]; cbn [andb].
  - change (8 <? 16384)%Z with true. cbn iota. intros H.
    replace (8 + 8)%Z with (Z.of_nat (2 * 8)) in H by reflexivity.
    rewrite <- G0, <- G8 in H. apply quad_refine in H; [|lia].
    destruct H as [g' [Hg [Hs Hr]]]. eapply refine_more; eauto. reflexivity.
  - intros H. injection H as H _. subst v. apply refine_stop. left. apply Rnot_lt_le. exact L.
Qed.

Transparent quadrature.
Lemma quadrature_refraction (a : atmosphere) (k ra za rb zb tol v : R) c :
  quadrature (N := RNum) a k ra za (zb - za) (bending a ra) (bending a rb) tol = Some (v, c) ->
  refraction_between a k ra za rb zb tol v.
Proof. exact (quad_refraction a k ra za rb zb tol v 11 c). Qed.
Opaque quadrature.

(** * The whole ray *)

Lemma on_ray_zd (a : atmosphere) (k r : R) : on_ray a k r (ray_zd (N := RNum) k r (index a r)).
Proof.
  split.
  { intros ->. unfold ray_zd. unR. replace (0 / (r * index a r)) with 0 by (unfold Rdiv; ring). replace (1 - 0 * 0) with 1 by ring.
    destruct (Rltb_spec 1 0); [lra|]. rewrite sqrt_1. pose proof PI_RGT_0.
    apply (atan2_unique 0 1 1 0); rewrite ?cos_0, ?sin_0; lra. }
  intros D B. unfold ray_zd. unR. set (s := k / (r * index a r)).
  assert (Es : index a r * r * s = k) by (unfold s; field; split; intros E; apply D; rewrite E; ring).
  assert (Bs : Rabs s <= 1).
  { unfold s. unfold Rdiv. rewrite Rabs_mult, Rabs_inv.
    replace (r * index a r) with (index a r * r) by ring.
    pose proof (Rabs_pos_lt _ D). apply Rmult_le_reg_r with (Rabs (index a r * r)); [lra|].
    rewrite Rmult_assoc, Rinv_l by lra. lra. }
  clearbody s. apply Rabs_le_between in Bs.
  assert (Q : 0 <= 1 - s * s) by nra.
  replace (if Rltb (1 - s * s) 0 then 0 else 1 - s * s) with (1 - s * s) by (destruct (Rltb_spec (1 - s * s) 0); lra).
  assert (Hh : hyp (sqrt (1 - s * s)) s = 1).
  { unfold hyp. rewrite sqrt_sqrt by exact Q. rewrite <- sqrt_1 at 2. f_equal. ring. }
  split.
  - pose proof (atan2_sin s (sqrt (1 - s * s))) as E. rewrite Hh in E. rewrite Rmult_1_l in E. rewrite E. exact Es.
  - apply atan2_range_pos. apply sqrt_pos.
Qed.

Lemma two_parts_rays (trop strat : atmosphere) (r0 rt rs z k tol v : R) c :
  two_parts (N := RNum) trop strat r0 rt rs z k tol = Some (v, c) -> index strat rt = index trop rt ->
  exists zt zs a b, on_ray trop k rt zt /\ on_ray strat k rs zs /\
    refraction_between trop k r0 z rt zt tol a /\ refraction_between strat k rt zt rs zs tol b /\ v = a + b.
Proof.
  unfold two_parts. intros H C. 
  change (@fst (car RNum) (car RNum) (strat rt)) with (index strat rt) in H. change (@fst (car RNum) (car RNum) (strat rs)) with (index strat rs) in H.
  change (@fst (car RNum) (car RNum) (trop rt)) with (index trop rt) in H.
  rewrite C in H. rewrite !integrand_bending in H.
  pose proof (on_ray_zd trop k rt) as OT. pose proof (on_ray_zd strat k rs) as OS. revert H OT OS.
  generalize (ray_zd (N := RNum) k rt (index trop rt)) as zt. generalize (ray_zd (N := RNum) k rs (index strat rs)) as zs.
  intros zs zt H OT OS. change (car RNum) with R in zs, zt.
  change (@n_sub RNum zt z) with (zt - z) in H. change (@n_sub RNum zs zt) with (zs - zt) in H.
  destruct (quadrature (N := RNum) trop k r0 z _ _ _ tol) as [[reft c0]|] eqn:Q1; [|discriminate].
  destruct (quadrature (N := RNum) strat k rt zt _ _ _ tol) as [[refp c1]|] eqn:Q2; [|discriminate].
  apply quadrature_refraction in Q1. apply quadrature_refraction in Q2.
  exists zt, zs, reft, refp. split; [exact OT|]. split; [exact OS|]. split; [exact Q1|]. split; [exact Q2|].
  injection H as H _. symmetry. exact H.
Qed.

Lemma refro_rays (ozd oh atk apm arh wl phi tlr eps v : R) :
  refro (N := RNum) ozd oh atk apm arh wl phi tlr eps = Some v ->
  let hm := clamp oh (-1000) 80000 in
  let trop : atmosphere := atmt (N := RNum) (refro_tropo (N := RNum) hm (clamp atk 100 500) (clamp apm 0 10000)
                      (clamp arh 0 1) (Rmax wl 0.1) phi (clamp (Rabs tlr) 0.001 0.01)) in
  let r0 := 6378120 + hm in
  let rt := 6378120 + Rmax 11000 hm in
  let rs := 6378120 + 80000 in
  let strat : atmosphere := atms (N := RNum) rt
    (atmt_t (N := RNum) (refro_tropo (N := RNum) hm (clamp atk 100 500) (clamp apm 0 10000)
                      (clamp arh 0 1) (Rmax wl 0.1) phi (clamp (Rabs tlr) 0.001 0.01)) rt)
    (index trop rt) (refro_gamal (N := RNum) hm phi) in
  let z := Rmin (Rabs (drange (N := RNum) ozd)) 1.623156204 in
  let k := index trop r0 * r0 * sin z in
  let tol := clamp (Rabs eps) (1 / 10 ^ 12) 0.1 / 2 in
  exists zt zs troposphere stratosphere,
    on_ray trop k rt zt /\ on_ray strat k rs zs /\
    refraction_between trop k r0 z rt zt tol troposphere /\
    refraction_between strat k rt zt rs zs tol stratosphere /\
    v = (if Rlt_dec (drange (N := RNum) ozd) 0 then -1 else 1) * (troposphere + stratosphere).
Proof.
  intros H. rewrite refro_eq in H. unfold refro_clamped in H. rewrite !clip_clamp in H.
  cbv zeta.
  replace (@n_max RNum wl (n_lit 1 (-1))) with (Rmax wl 0.1) in H.
  2: { unfold Rmax. unR. decs. rcases; destruct (Rle_dec _ _); lra. }
  replace (@n_min RNum (n_abs (drange (N := RNum) ozd)) deg93) with (Rmin (Rabs (drange (N := RNum) ozd)) 1.623156204) in H.
  2: { unfold Rmin, deg93. unR. decs. rcases; destruct (Rle_dec _ _); lra. }
  set (hm := clamp oh (-1000) 80000) in *.
  replace (clamp oh (@n_opp RNum (n_ofZ 1000)) (@height_limit RNum)) with hm in H
    by (unfold hm, height_limit; unR; f_equal; lra).
  change (@n_ofZ RNum 100) with 100 in H. change (@n_ofZ RNum 500) with 500 in H. change (@n_ofZ RNum 0) with 0 in H.
  change (@n_ofZ RNum 10000) with 10000 in H. change (@n_ofZ RNum 1) with 1 in H.
  change (@n_abs RNum tlr) with (Rabs tlr) in H. change (@n_abs RNum eps) with (Rabs eps) in H.
  replace (clamp (Rabs tlr) (@n_lit RNum 1 (-3)) (@n_lit RNum 1 (-2))) with (clamp (Rabs tlr) 0.001 0.01) in H
    by (unR; f_equal; decs; lra).
  replace (@n_div RNum (clamp (Rabs eps) (@n_lit RNum 1 (-12)) (@n_lit RNum 1 (-1))) (n_ofZ 2)) with (clamp (Rabs eps) (1 / 10 ^ 12) 0.1 / 2) in H
    by (unR; f_equal; f_equal; decs; lra).
  set (tdk := clamp atk 100 500) in *. set (pmb := clamp apm 0 10000) in *. set (rh := clamp arh 0 1) in *.
  set (wlok := Rmax wl 0.1) in *. set (alpha := clamp (Rabs tlr) 0.001 0.01) in *.
  set (tol := clamp (Rabs eps) (1 / 10 ^ 12) 0.1 / 2) in *.
  set (z := Rmin (Rabs (drange (N := RNum) ozd)) 1.623156204) in *.
  revert H. generalize (drange (N := RNum) ozd) as d. intros d H. change (car RNum) with R in d.
  rewrite refro_at_eq in H.
  assert (E0 : t_r0 (refro_tropo (N := RNum) hm tdk pmb rh wlok phi alpha) = 6378120 + hm) by reflexivity.
  assert (Et : @n_add RNum (@earth_radius RNum) (@n_max RNum (n_ofZ 11000) hm) = 6378120 + Rmax 11000 hm).
  { unfold earth_radius, Rmax. unR. asR. f_equal. rcases; destruct (Rle_dec _ _); lra. }
  assert (Es : @n_add RNum (@earth_radius RNum) (@height_limit RNum) = 6378120 + 80000) by reflexivity.
  rewrite E0, Et, Es in H. clear E0 Et Es.
  revert H. generalize (refro_tropo (N := RNum) hm tdk pmb rh wlok phi alpha) as m. intros m.
  generalize (6378120 + hm) as r0. intros r0. generalize (6378120 + Rmax 11000 hm) as rt. intros rt.
  generalize (6378120 + 80000) as rs. intros rs. generalize (refro_gamal (N := RNum) hm phi) as gamal. intros gamal H.
  destruct (two_parts _ _ _ _ _ _ _ _) as [[x c]|] eqn:Q; [|discriminate].
  apply two_parts_rays in Q.
  - destruct Q as (zt & zs & a & b & OT & OS & Q1 & Q2 & X). exists zt, zs, a, b.
    split; [exact OT|]. split; [exact OS|]. split; [exact Q1|]. split; [exact Q2|].
    cbn [apply_sign] in H. apply some_inj in H. change (car RNum) with R in x. revert H. unR. intros H. subst v. asR.
    destruct (Rlt_dec d 0); destruct (Rltb_spec d 0); lra.
  - unfold strato, atms, index at 1. cbv zeta. cbn [fst]. unR.
    rewrite Rminus_eq_0, Rmult_0_r, exp_0. unfold index. asR. unR. ring.
Qed.
