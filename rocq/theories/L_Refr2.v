(** More proofs about refraction: special rays, the model atmosphere, refco. *)
From Coq Require Import ZArith Bool QArith Reals Lra Lia Psatz.
From Coquelicot Require Import Coquelicot.
From Verif Require Import Num NumR L_Pi L_Real L_Angle L_Trig L_Frame L_Site M_Angle M_Refr S_Refr L_Refr.
Open Scope R_scope.

(** * Rays without refraction *)

Lemma sumto_0 n f : (forall i, (i < n)%nat -> f i = 0) -> sumto n f = 0.
Proof. induction n as [|n IH]; intros H; [reflexivity|]. cbn [sumto]. rewrite IH, H by (intros; auto with arith). ring. Qed.

Lemma refine_still (sample : R -> R -> Prop) z0 tol n prev g v :
  refine sample z0 0 tol n prev g v -> v = 0.
Proof. induction 1; [|assumption]. unfold simpson, Rdiv. ring. Qed.
Lemma refraction_between_still (a : atmosphere) k ra z rb tol v : refraction_between a k ra z rb z tol v -> v = 0.
Proof. intros [g (_ & _ & _ & H)]. replace (z - z) with 0 in H by ring. eapply refine_still, H. Qed.

Lemma refine_zero (sample : R -> R -> Prop) z0 range tol n prev g v :
  (forall z x, sample z x -> x = 0) -> refine sample z0 range tol n prev g v ->
  (forall i, (i <= n)%nat -> g i = 0) -> v = 0.
Proof.
  intros S. induction 1 as [n prev g E|n prev g g' v L L' G O RR IH]; intros Z.
  - unfold simpson. rewrite sumto_0.
    + rewrite !Z by lia. ring.
    + intros i I. rewrite Z by lia. destruct (Nat.eqb i 0), (Nat.even i); ring.
  - apply IH. intros i I. destruct (Nat.Even_or_Odd i) as [[t ->]|[t ->]].
    + rewrite G by lia. apply Z. lia.
    + eapply S. apply O. lia.
Qed.
Lemma refraction_between_zero (a : atmosphere) k ra za rb zb tol v :
  (forall r, bending a r = 0) -> refraction_between a k ra za rb zb tol v -> v = 0.
Proof.
  intros B [g (G0 & G8 & G & H)]. eapply refine_zero; [|exact H|].
  - intros z x [r [-> _]]. apply B.
  - intros i I. destruct (Nat.eq_dec i 0) as [->|N0]; [rewrite G0; apply B|].
    destruct (Nat.eq_dec i 8) as [->|N8]; [rewrite G8; apply B|].
    destruct (G i ltac:(lia)) as [r [-> _]]. apply B.
Qed.

Lemma refro_zenith (ozd oh atk apm arh wl phi tlr eps : R) : drange (N := RNum) ozd = 0 ->
  refro (N := RNum) ozd oh atk apm arh wl phi tlr eps = Some 0.
Proof.
  intros D. destruct (refro_some (N := RNum) ozd oh atk apm arh wl phi tlr eps) as [v E].
  rewrite E. f_equal. apply refro_rays in E. cbv zeta in E.
  destruct E as (zt & zs & a & b & O1 & O2 & Q1 & Q2 & ->). rewrite D, Rabs_R0 in *.
  assert (Z : Rmin 0 1.623156204 = 0) by (apply Rmin_left; lra).
  rewrite Z, sin_0, Rmult_0_r in *.
  destruct O1 as [O1 _]. destruct O2 as [O2 _]. rewrite O1 in * by reflexivity. rewrite O2 in * by reflexivity.
  apply refraction_between_still in Q1. apply refraction_between_still in Q2. subst a b. asR. ring.
Qed.

Lemma tropo_vacuum (hm tdk rh wl phi alpha r : R) :
  atmt (N := RNum) (refro_tropo (N := RNum) hm tdk 0 rh wl phi alpha) r = (1, 0).
Proof.
  unfold refro_tropo, vapour_pressure. cbv zeta. unfold atmt. cbn [t_r0 t_t0 t_alpha t_gamm2 t_delm2 t_c1 t_c2 t_c3 t_c4 t_c5 t_c6]. cbv zeta.
  generalize (@n_pow RNum). intros pw. generalize (refro_gamal (N := RNum) hm phi). intros ga. change (car RNum) with R in *.
  unR. destruct (Rltb_spec 0 0) as [L|_]; [lra|].
  unfold Rdiv. destruct (Rleb wl 100); apply (f_equal2 (@pair R R)); ring.
Qed.

Lemma refro_vacuum (ozd oh atk apm arh wl phi tlr eps : R) : apm <= 0 ->
  refro (N := RNum) ozd oh atk apm arh wl phi tlr eps = Some 0.
Proof.
  intros D. destruct (refro_some (N := RNum) ozd oh atk apm arh wl phi tlr eps) as [v E].
  rewrite E. f_equal. apply refro_rays in E. cbv zeta in E.
  destruct E as (zt & zs & a & b & _ & _ & Q1 & Q2 & ->).
  assert (P : clamp apm 0 10000 = 0) by (unfold clamp, Rmin, Rmax; repeat destruct (Rle_dec _ _); lra).
  rewrite P in *.
  apply refraction_between_zero in Q1.
  2: { intros r. unfold bending, index, rdndr. rewrite tropo_vacuum. cbn [fst snd]. unfold Rdiv. ring. }
  apply refraction_between_zero in Q2.
  2: { intros r. unfold index at 1. rewrite tropo_vacuum. cbn [fst]. unfold bending, index, rdndr, atms. cbn [fst snd]. unR. unfold Rdiv. ring. }
  subst a b. asR. ring.
Qed.

(** * The model atmosphere *)

Lemma atms_derivative (rt tt dnt gamal r : R) : r <> 0 ->
  derivable_pt_lim (index (atms (N := RNum) rt tt dnt gamal)) r (rdndr (atms (N := RNum) rt tt dnt gamal) r / r).
Proof.
  intros D. apply is_derive_Reals. unfold index, rdndr, atms. cbn [fst snd]. unR.
  generalize (gamal / tt). intros b. auto_derive; [trivial|].
  replace (- b * (r + - rt)) with (- b * (r - rt)) by ring. field. exact D.
Qed.

Lemma atmt_derivative (m : @tropo RNum) (r : R) :
  let T := fun x : R => t_t0 m - t_alpha m * (x - t_r0 m) in
  r <> 0 -> (0 < t_t0 m)%R -> 100 < T r < 320 ->
  (t_c3 m = (t_gamm2 m + 1) * t_alpha m * t_c1 m / t_t0 m :> R) ->
  (t_c4 m = (t_delm2 m + 1) * t_alpha m * t_c2 m / t_t0 m :> R) ->
  (t_c6 m = t_c5 m * t_delm2 m * t_alpha m / (t_t0 m * t_t0 m) :> R) ->
  derivable_pt_lim (index (atmt (N := RNum) m)) r (rdndr (atmt (N := RNum) m) r / r).
Proof.
  intros T D P0 RG C3 C4 C6. apply is_derive_Reals.
  destruct m as [r0 t0 al g d c1 c2 c3 c4 c5 c6]. cbn [t_r0 t_t0 t_alpha t_gamm2 t_delm2 t_c1 t_c2 t_c3 t_c4 t_c5 t_c6] in *.
  change (car RNum) with R in *.
  assert (Ti : forall x, 100 < T x < 320 -> atmt_t (N := RNum) (@Tropo RNum r0 t0 al g d c1 c2 c3 c4 c5 c6) x = T x).
  { intros x Hx. unfold atmt_t. cbn [t_r0 t_t0 t_alpha]. fold (T x) in *. unR. fold (T x).
    change (t0 - al * (x - r0)) with (T x). destruct (Rltb_spec 320 (T x)); [lra|]. rcases; lra. }
  apply (is_derive_ext_loc (fun x => 1 + (c1 * exp (g * ln (T x / t0)) - (c2 - c5 / T x) * exp (d * ln (T x / t0))) * (T x / t0))).
  - assert (CT : continuous T r) by (apply (ex_derive_continuous (V := R_NormedModule)); unfold T; auto_derive; trivial).
    assert (L : locally r (fun x => 100 < T x < 320)).
    { apply (CT (fun y => 100 < y < 320)). apply locally_open with (D := fun y => 100 < y < 320).
      - apply open_and; [apply open_gt|apply open_lt].
      - trivial.
      - exact RG. }
    revert L. apply filter_imp. intros x Hx. unfold index, atmt. cbv zeta. cbn [fst]. rewrite (Ti x Hx).
    cbn [t_t0 t_gamm2 t_delm2 t_c1 t_c2 t_c5]. unR.
    assert (0 < T x / t0) by (apply Rdiv_lt_0_compat; lra).
    rewrite !Rpow_pos by assumption. reflexivity.
  - unfold rdndr, atmt. cbv zeta. cbn [snd]. rewrite (Ti r RG).
    cbn [t_t0 t_gamm2 t_delm2 t_c3 t_c4 t_c6]. unR.
    assert (X : 0 < T r / t0) by (apply Rdiv_lt_0_compat; lra).
    rewrite !Rpow_pos by assumption. unfold Rpower.
    assert (TP : 0 < T r) by lra.
    rewrite C3, C4, C6.
    unfold T. change (0 < (t0 - al * (r - r0)) / t0) in X. change (0 < t0 - al * (r - r0)) in TP.
    auto_derive.
    { replace (t0 + - (al * (r + - r0))) with (t0 - al * (r - r0)) by ring. repeat split; first [exact X|lra]. }
    replace (t0 + - (al * (r + - r0))) with (t0 - al * (r - r0)) by ring. change (T r) with (t0 - al * (r - r0)).
    revert TP. generalize (t0 - al * (r - r0)). intros t TP. change (t * / t0) with (t / t0).
    generalize (exp (g * ln (t / t0))) (exp (d * ln (t / t0))). intros p q. field. repeat split; lra.
Qed.

Lemma refro_tropo_derivative (hm tdk pmb rh wl phi alpha r : R) :
  let m := refro_tropo (N := RNum) hm tdk pmb rh wl phi alpha in
  r <> 0 -> 0 < tdk -> 100 < tdk - alpha * (r - (6378120 + hm)) < 320 ->
  derivable_pt_lim (index (atmt (N := RNum) m)) r (rdndr (atmt (N := RNum) m) r / r).
Proof.
  intros m D P0 RG. apply atmt_derivative; [exact D|exact P0|exact RG| | |].
  - unfold m, refro_tropo. cbv zeta. cbn [t_r0 t_t0 t_alpha t_gamm2 t_delm2 t_c1 t_c2 t_c3 t_c4 t_c5 t_c6].
    generalize (refro_gamal (N := RNum) hm phi). intros ga. change (car RNum) with R in ga. unR. f_equal. ring.
  - unfold m, refro_tropo. cbv zeta. cbn [t_r0 t_t0 t_alpha t_gamm2 t_delm2 t_c1 t_c2 t_c3 t_c4 t_c5 t_c6]. unR. f_equal. ring.
  - unfold m, refro_tropo. cbv zeta. cbn [t_r0 t_t0 t_alpha t_gamm2 t_delm2 t_c1 t_c2 t_c3 t_c4 t_c5 t_c6]. unR.
    destruct (Rleb wl 100); [unfold Rdiv; ring|reflexivity].
Qed.

(** The clamps do not prevent a division by zero: a lapse rate of about
    1.86 mK/m makes the program divide by delta - gamma = 0. *)
Lemma refro_division_by_zero :
  exists phi tlr : R, 0.001 <= tlr <= 0.01 /\
    @n_sub RNum (@delta RNum) (@n_div RNum (refro_gamal (N := RNum) 0 phi) tlr) = 0.
Proof.
  exists (PI / 4), (9.784 * 28.9644 / 8314.32 / 18.36). split.
  - split; lra.
  - unfold refro_gamal, delta. unR. replace (PI / 4 + PI / 4) with (PI / 2) by field. rewrite cos_PI2. decs. asR. field.
Qed.

(** Nor does the vapour pressure formula: air hotter than the boiling point. *)
Lemma vapour_division_by_zero :
  exists arh : R, 0 <= arh <= 1 /\ 1 - (1 - arh) * saturation (N := RNum) 500 1000 / 1000 = 0.
Proof.
  assert (S : 1000 <= saturation (N := RNum) 500 1000).
  { unfold saturation. cbv zeta. unR. rewrite Rpow_pos by lra.
    apply Rle_trans with (Rpower 10 3 * 1).
    - replace 3 with (INR 3) by (cbn; lra). rewrite Rpower_pow by lra. cbn [pow]. lra.
    - apply Rmult_le_compat; [left; apply exp_pos|lra| |].
      + apply Rle_Rpower; [lra|]. decs. match goal with |- _ <= ?a / ?b => assert (0 < / b) by (apply Rinv_0_lt_compat; lra);
          apply Rmult_le_reg_r with b; [lra|]; replace (a / b * b) with a by (field; lra); lra end.
      + decs. lra. }
  set (s := saturation (N := RNum) 500 1000) in *. change (car RNum) with R in s.
  exists (1 - 1000 / s). assert (0 < / s) by (apply Rinv_0_lt_compat; lra).
  assert (E : s * / s = 1) by (apply Rinv_r; lra). split.
  - unfold Rdiv. split; nra.
  - field. lra.
Qed.

(** * refco *)
Lemma refco_fits (oh atk apm arh wl phi tlr eps : R) : exists A B r1 r2 : R,
  refco (N := RNum) oh atk apm arh wl phi tlr eps = Some (A, B) /\
  refro (N := RNum) 0.7853981633974483 oh atk apm arh wl phi tlr eps = Some r1 /\
  refro (N := RNum) 1.325817663668033 oh atk apm arh wl phi tlr eps = Some r2 /\
  A * 1 + B * 1 ^ 3 = r1 /\ A * 4 + B * 4 ^ 3 = r2.
Proof.
  assert (E1 : @atan_1 RNum = 0.7853981633974483) by (unfold atan_1; unR; decs; lra).
  assert (E4 : @atan_4 RNum = 1.325817663668033) by (unfold atan_4; unR; decs; lra).
  destruct (refro_some (N := RNum) 0.7853981633974483 oh atk apm arh wl phi tlr eps) as [r1 H1].
  destruct (refro_some (N := RNum) 1.325817663668033 oh atk apm arh wl phi tlr eps) as [r2 H2].
  unfold refco. rewrite E1, E4, H1, H2. do 4 eexists. split; [reflexivity|]. split; [reflexivity|]. split; [reflexivity|].
  unR. split; field.
Qed.
