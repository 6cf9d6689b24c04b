(** altaz: velocities and accelerations are derivatives. *)
From Coq Require Import ZArith Reals Lra Lia Psatz Nsatz Bool.
From Coquelicot Require Import Coquelicot.
From Verif Require Import Num NumR L_Real M_Vec S_Geom L_Vec L_Rot M_Angle L_Angle M_Sphere S_Sphere L_Sphere L_Bear.
Open Scope R_scope.

Ltac undrv := repeat match goal with |- context [Derive ?f ?t] =>
  match goal with H : is_derive ?g t ?l |- _ => let E := fresh in assert (E : Derive f t = l) by (apply is_derive_unique; exact H); rewrite E; clear E end end.

(** ** Differentiating a polar angle *)
Lemma atan2_turn x0 y0 x y : 0 < x0 * x + y0 * y ->
  same_angle (Ratan2 y0 x0 + atan ((x0 * y - y0 * x) / (x0 * x + y0 * y))) (Ratan2 y x).
Proof.
  intros P. set (c := x0 * x + y0 * y) in *. set (s := x0 * y - y0 * x).
  assert (NZ : x0 <> 0 \/ y0 <> 0).
  { destruct (Req_EM_T x0 0); [|tauto]. destruct (Req_EM_T y0 0); [|tauto]. unfold c in P. subst. lra. }
  pose proof (hyp_pos x0 y0 NZ) as H0. pose proof (atan2_cos y0 x0) as C0. pose proof (atan2_sin y0 x0) as S0.
  set (t := Ratan2 y0 x0) in *.
  assert (A : Ratan2 s c = atan (s / c)) by (unfold Ratan2; destruct (Rlt_dec 0 c); [reflexivity|lra]).
  rewrite <- A. pose proof (atan2_cos s c) as C1. pose proof (atan2_sin s c) as S1. set (u := Ratan2 s c) in *.
  pose proof (hyp_pos c s ltac:(left; lra)) as H1.
  apply same_angle_sym. apply (atan2_same_angle y x (hyp c s / hyp x0 y0)); [apply Rdiv_lt_0_compat; assumption| |].
  - rewrite cos_plus. apply Rmult_eq_reg_r with (hyp x0 y0 * hyp x0 y0); [|nra].
    replace (hyp c s / hyp x0 y0 * (cos t * cos u - sin t * sin u) * (hyp x0 y0 * hyp x0 y0)) with
      ((hyp x0 y0 * cos t) * (hyp c s * cos u) - (hyp x0 y0 * sin t) * (hyp c s * sin u)) by (field; lra).
    rewrite C0, S0, C1, S1, hyp_sq. unfold c, s. ring.
  - rewrite sin_plus. apply Rmult_eq_reg_r with (hyp x0 y0 * hyp x0 y0); [|nra].
    replace (hyp c s / hyp x0 y0 * (sin t * cos u + cos t * sin u) * (hyp x0 y0 * hyp x0 y0)) with
      ((hyp x0 y0 * sin t) * (hyp c s * cos u) + (hyp x0 y0 * cos t) * (hyp c s * sin u)) by (field; lra).
    rewrite C0, S0, C1, S1, hyp_sq. unfold c, s. ring.
Qed.

Lemma locally_gt (f : R -> R) (t m : R) : continuous f t -> m < f t -> locally t (fun u => m < f u).
Proof. intros C P. exact (C (fun w => m < w) (open_gt m (f t) P)). Qed.
Lemma locally_lt (f : R -> R) (t m : R) : continuous f t -> f t < m -> locally t (fun u => f u < m).
Proof. intros C P. exact (C (fun w => w < m) (open_lt m (f t) P)). Qed.

Lemma angle_lift (x y : R -> R) (t x' y' : R) : is_derive x t x' -> is_derive y t y' -> x t <> 0 \/ y t <> 0 ->
  exists f, f t = Ratan2 (y t) (x t) /\ is_derive f t ((x t * y' - y t * x') / (x t * x t + y t * y t)) /\
            locally t (fun u => same_angle (f u) (Ratan2 (y u) (x u))).
Proof.
  intros DX DY NZ. assert (P : 0 < x t * x t + y t * y t) by (destruct NZ; nra).
  exists (fun u => Ratan2 (y t) (x t) + atan ((x t * y u - y t * x u) / (x t * x u + y t * y u))).
  split; [|split].
  - replace (x t * y t - y t * x t) with 0 by ring. unfold Rdiv. rewrite Rmult_0_l, atan_0. ring.
  - auto_derive.
    + repeat split; try (eexists; eassumption). lra.
    + undrv.
      replace (x t * y t + - (y t * x t)) with 0 by ring. field. apply Rgt_not_eq; exact P.
  - assert (C : continuous (fun u => x t * x u + y t * y u) t).
    { apply (@ex_derive_continuous R_AbsRing R_NormedModule). auto_derive. repeat split; eexists; eassumption. }
    generalize (locally_gt _ _ _ C P). apply filter_imp. intros u. apply atan2_turn.
Qed.

(** An angle-valued function that stays strictly inside one turn around [t]
    inherits the derivative of any lift. *)
Lemma angle_derive (f g : R -> R) (t d lo : R) : f t = g t -> is_derive f t d ->
  locally t (fun u => same_angle (f u) (g u)) -> (forall u, lo <= g u <= lo + 2 * PI) -> lo < g t < lo + 2 * PI -> is_derive g t d.
Proof.
  intros E D S RG IN. apply (is_derive_ext_loc f); [|assumption].
  assert (C : continuous f t) by (apply (@ex_derive_continuous R_AbsRing R_NormedModule); eexists; eassumption).
  assert (L1 : locally t (fun u => lo < f u)) by (apply locally_gt; [assumption|lra]).
  assert (L2 : locally t (fun u => f u < lo + 2 * PI)) by (apply locally_lt; [assumption|lra]).
  generalize (filter_and _ _ S (filter_and _ _ L1 L2)). apply filter_imp. intros u ([k K] & A & B).
  specialize (RG u). pose proof PI_RGT_0.
  assert (IZR k * (2 * PI) < 1 * (2 * PI)) as H1 by lra. assert (-1 * (2 * PI) < IZR k * (2 * PI)) as H2 by lra.
  apply Rmult_lt_reg_r in H1; [|lra]. apply Rmult_lt_reg_r in H2; [|lra]. apply lt_IZR in H1, H2.
  assert (k = 0%Z) by lia. subst k. lra.
Qed.

Section AZ.
Variables dec phi : R.
Let cd := cos dec. Let sd := sin dec. Let cp := cos phi. Let sp := sin phi.
Let x h := - (cos h * cd) * sp + sd * cp.
Let y h := - sin h * cd.
Let z h := cos h * cd * cp + sd * sp.
Let c h := cd * sp - cos h * (sd * cp).
Let s h := sin h * cp.
Let r2 h := x h * x h + y h * y h.

Lemma az_unit h : r2 h + z h * z h = 1.
Proof.
  unfold r2, x, y, z, cd, sd, cp, sp. pose proof (sc1 h) as A. pose proof (sc1 dec) as B. pose proof (sc1 phi) as C. unfold Rsqr in *. clear - A B C. nsatz.
Qed.
Lemma az_cs h : c h * c h + s h * s h = r2 h.
Proof.
  unfold r2, x, y, c, s, cd, sd, cp, sp. pose proof (sc1 h) as A. pose proof (sc1 dec) as B. pose proof (sc1 phi) as C. unfold Rsqr in *. clear - A B C. nsatz.
Qed.
Lemma der_x h : is_derive x h (- (y h * sp)).
Proof. unfold x, y. auto_derive; [exact Logic.I|]. ring. Qed.
Lemma der_z h : is_derive z h (y h * cp).
Proof. unfold z, y. auto_derive; [exact Logic.I|]. ring. Qed.
Lemma der_y h : is_derive y h (x h * sp - z h * cp).
Proof.
  unfold x, y, z. auto_derive; [exact Logic.I|]. unfold cp, sp. pose proof (sc1 phi) as C. unfold Rsqr in C.
  replace (sin phi * sin phi) with (1 - cos phi * cos phi) by lra. clear - C. unfold Rminus. nsatz.
Qed.
Lemma der_s h : is_derive s h (cos h * cp).
Proof. unfold s. auto_derive; [exact Logic.I|]. ring. Qed.
Lemma der_c h : is_derive c h (s h * sd).
Proof. unfold c, s. auto_derive; [exact Logic.I|]. ring. Qed.
Lemma der_r2 h : is_derive r2 h (- (2 * y h * z h * cp)).
Proof.
  pose proof (der_x h) as DX. pose proof (der_y h) as DY. unfold r2. auto_derive.
  - repeat split; eexists; eassumption.
  - undrv. ring.
Qed.

Let pv h := - x h * cp / r2 h.
Let av h := sp + z h * pv h.
Let ev h := cp * y h / sqrt (r2 h).
Let edr h := ev h / sqrt (r2 h).

Lemma der_pv h : 0 < r2 h -> is_derive pv h (edr h * (sp + 2 * z h * pv h)).
Proof.
  intros P. pose proof (der_x h) as DX. pose proof (der_r2 h) as DR. pose proof (sqrt_lt_R0 _ P) as Q. pose proof (sqrt_sqrt (r2 h) ltac:(lra)) as QQ.
  unfold pv, edr, ev. auto_derive.
  - repeat split; try (eexists; eassumption); try lra.
  - undrv.
    set (q := sqrt (r2 h)) in *. rewrite <- QQ. field. lra.
Qed.
Lemma der_av h : 0 < r2 h -> is_derive av h (edr h * (z h * sp + (2 - r2 h) * pv h)).
Proof.
  intros P. pose proof (der_z h) as DZ. pose proof (der_pv h P) as DP. pose proof (az_unit h) as U.
  pose proof (sqrt_lt_R0 _ P) as Q. pose proof (sqrt_sqrt (r2 h) ltac:(lra)) as QQ.
  unfold av. auto_derive.
  - repeat split; eexists; eassumption.
  - undrv.
    replace (y h * cp) with (edr h * r2 h) by (unfold edr, ev; set (q := sqrt (r2 h)) in *; rewrite <- QQ; field; lra).
    rewrite !Rmult_1_l. replace (z h * (edr h * (sp + 2 * z h * pv h))) with (edr h * (z h * sp + 2 * (z h * z h) * pv h)) by ring.
    replace (z h * z h) with (1 - r2 h) by lra. ring.
Qed.
Lemma der_ev h : 0 < r2 h -> is_derive ev h (- sqrt (r2 h) * pv h * av h).
Proof.
  intros P. pose proof (der_y h) as DY. pose proof (der_r2 h) as DR. pose proof (az_unit h) as U.
  pose proof (sqrt_lt_R0 _ P) as Q. pose proof (sqrt_sqrt (r2 h) ltac:(lra)) as QQ.
  unfold ev. auto_derive.
  - repeat split; try (eexists; eassumption); try lra. 
  - undrv.
    unfold av, pv. set (q := sqrt (r2 h)) in *.
    assert (E : q * q = x h * x h + y h * y h) by (rewrite QQ; reflexivity).
    rewrite <- QQ. clear - E Q. clearbody q. field_simplify_eq; [|lra]. replace (q ^ 3) with (q * (q * q)) by ring. rewrite E. ring.
Qed.

Let A h := altaz (N := RNum) (Sph (N := RNum) h dec) phi.
Let eps := Rdec 1 (-30).
Lemma eps_pos : 0 < eps.
Proof. unfold eps, Rdec. apply Rdiv_lt_0_compat; [lra|]. apply IZR_lt. reflexivity. Qed.

Lemma A_az h : am_az (A h) = (let a := if Reqb (r2 h) 0 then 0 else Ratan2 (y h) (x h) in if Rltb a 0 then a + 2 * PI else a).
Proof. reflexivity. Qed.
Lemma A_el h : am_el (A h) = Ratan2 (z h) (sqrt (r2 h)).
Proof. reflexivity. Qed.
Lemma A_pa h : am_pa (A h) = if Rltb 0 (c h * c h + s h * s h) then Ratan2 (s h) (c h) else PI - h.
Proof. reflexivity. Qed.
Lemma A_rates h : eps <= r2 h ->
  am_pa_vel (A h) = pv h /\ am_az_vel (A h) = av h /\ am_el_vel (A h) = ev h /\
  am_az_acc (A h) = edr h * (z h * sp + (2 - r2 h) * pv h) /\
  am_el_acc (A h) = - sqrt (r2 h) * pv h * av h /\
  am_pa_acc (A h) = edr h * (sp + 2 * z h * pv h).
Proof.
  intros L. assert (C : Rltb (r2 h) eps = false) by (apply Rltb_false; exact L).
  unfold A, altaz. cbn [am_az am_az_vel am_az_acc am_el am_el_vel am_el_acc am_pa am_pa_vel am_pa_acc s_a s_b]. unR. cbv zeta.
  change (- (cos h * cos dec) * sin phi + sin dec * cos phi) with (x h).
  change (- sin h * cos dec) with (y h). change (x h * x h + y h * y h) with (r2 h).
  change (Rdec 1 (-30)) with eps. rewrite C. repeat split; reflexivity.
Qed.

Lemma A_cos_el h : cos (am_el (A h)) * cos (am_el (A h)) = r2 h /\ (0 < r2 h -> sqrt (r2 h) = cos (am_el (A h))) /\ sin (am_el (A h)) = z h /\ - (PI / 2) <= am_el (A h) <= PI / 2.
Proof.
  pose proof (az_unit h) as U.
  assert (P : 0 <= r2 h) by (unfold r2; nra).
  pose proof (sqrt_sqrt (r2 h) P) as Q. pose proof (sqrt_pos (r2 h)) as QP.
  destruct (polar_two (sqrt (r2 h)) (z h) ltac:(lra) QP) as (RG & C & S). rewrite <- A_el in *. rewrite C.
  split; [assumption|]. split; [intros _; reflexivity|]. split; [exact S|exact RG].
Qed.

Lemma r2_xy h : 0 < r2 h -> x h <> 0 \/ y h <> 0.
Proof. intros P. destruct (Req_EM_T (x h) 0) as [E|E]; [|tauto]. destruct (Req_EM_T (y h) 0) as [F|F]; [|tauto]. unfold r2 in P. rewrite E, F in P. lra. Qed.
Lemma r2_cs h : 0 < r2 h -> c h <> 0 \/ s h <> 0.
Proof. intros P. rewrite <- az_cs in P. destruct (Req_EM_T (c h) 0) as [E|E]; [|tauto]. destruct (Req_EM_T (s h) 0) as [F|F]; [|tauto]. rewrite E, F in P. lra. Qed.
Lemma r2_loc h m : m < r2 h -> locally h (fun u => m < r2 u).
Proof. apply locally_gt. apply (@ex_derive_continuous R_AbsRing R_NormedModule). eexists. apply der_r2. Qed.

Lemma locally_delta (t : R) P : locally t P -> exists d, 0 < d /\ forall u, Rabs (u - t) < d -> P u.
Proof. intros [d H]. exists d. split; [apply cond_pos|]. intros u U. apply H. exact U. Qed.

Lemma A_az_eq h : 0 < r2 h -> exists k : Z, am_az (A h) = Ratan2 (y h) (x h) + IZR k * (2 * PI).
Proof.
  intros P. rewrite A_az. cbv zeta. destruct (Reqb_spec (r2 h) 0); [lra|].
  destruct (Rltb_spec (Ratan2 (y h) (x h)) 0); [exists 1%Z|exists 0%Z]; lra.
Qed.
Lemma A_az_range h : 0 <= am_az (A h) < 2 * PI.
Proof.
  rewrite A_az. cbv zeta. pose proof PI_RGT_0. pose proof (atan2_range (y h) (x h)).
  destruct (Reqb (r2 h) 0).
  - destruct (Rltb_spec 0 0); lra.
  - destruct (Rltb_spec (Ratan2 (y h) (x h)) 0); lra.
Qed.

Lemma rate_az h : 0 < r2 h -> exists f, f h = am_az (A h) /\ is_derive f h (av h) /\ locally h (fun u => same_angle (f u) (am_az (A u))).
Proof.
  intros P. destruct (angle_lift x y h _ _ (der_x h) (der_y h) (r2_xy h P)) as (f & E & D & L).
  destruct (A_az_eq h P) as [k K]. exists (fun u => f u + IZR k * (2 * PI)). split; [rewrite E, K; reflexivity|]. split.
  - replace (av h) with ((x h * (x h * sp - z h * cp) - y h * - (y h * sp)) / (x h * x h + y h * y h)).
    2:{ unfold av, pv. change (x h * x h + y h * y h) with (r2 h). field_simplify_eq; [|lra]. unfold r2. ring. }
    auto_derive; [eexists; exact D|]. undrv. ring.
  - generalize (filter_and _ _ L (r2_loc h 0 P)). apply filter_imp. intros u ([j J] & PU).
    destruct (A_az_eq u PU) as [i I]. exists (j + k - i)%Z. rewrite J, I, minus_IZR, plus_IZR. ring.
Qed.
Lemma rate_pa h : 0 < r2 h -> exists f, f h = am_pa (A h) /\ is_derive f h (pv h) /\ locally h (fun u => same_angle (f u) (am_pa (A u))).
Proof.
  intros P. destruct (angle_lift c s h _ _ (der_c h) (der_s h) (r2_cs h P)) as (f & E & D & L).
  assert (F : forall u, 0 < r2 u -> am_pa (A u) = Ratan2 (s u) (c u)).
  { intros u U. rewrite A_pa, az_cs. destruct (Rltb_spec 0 (r2 u)); [reflexivity|lra]. }
  exists f. split; [rewrite F by assumption; exact E|]. split.
  - replace (pv h) with ((c h * (cos h * cp) - s h * (s h * sd)) / (c h * c h + s h * s h)); [exact D|].
    rewrite az_cs. unfold pv. f_equal. unfold c, s, x. pose proof (sc1 h) as C1. unfold Rsqr in C1. clear - C1. clearbody cd sd cp sp.
    assert (E : sin h * sin h = 1 - cos h * cos h) by lra. 
    replace (sin h * cp * (sin h * cp * sd)) with ((sin h * sin h) * (cp * cp * sd)) by ring. rewrite E. ring.
  - generalize (filter_and _ _ L (r2_loc h 0 P)). apply filter_imp. intros u (J & PU). rewrite F by assumption. exact J.
Qed.
Lemma rate_el h : 0 < r2 h -> is_derive (fun u => am_el (A u)) h (ev h).
Proof.
  intros P. apply (is_derive_ext_loc (fun u => atan (z u / sqrt (r2 u)))).
  - generalize (r2_loc h 0 P). apply filter_imp. intros u PU. rewrite A_el. unfold Ratan2. pose proof (sqrt_lt_R0 _ PU). destruct (Rlt_dec 0 (sqrt (r2 u))); [reflexivity|lra].
  - pose proof (der_z h) as DZ. pose proof (der_r2 h) as DR. pose proof (sqrt_lt_R0 _ P) as Q. pose proof (sqrt_sqrt (r2 h) ltac:(lra)) as QQ.
    pose proof (az_unit h) as U.
    auto_derive.
    + repeat split; try (eexists; eassumption); lra.
    + undrv. unfold ev. set (q := sqrt (r2 h)) in *. rewrite <- QQ in U. clear - U Q. clearbody q cp. clearbody z y.
      assert (E : z h * z h = 1 - q * q) by lra.
      replace (1 + z h * / q * (z h * / q * 1)) with (/ (q * q)) by (field_simplify_eq; [|lra]; nra).
      field_simplify_eq; [|lra]. replace (z h ^ 2) with (1 - q * q) by nra. ring.
Qed.

Lemma rate_of (f g : R -> R) t d : f t = g t -> is_derive f t d -> locally t (fun u => same_angle (f u) (g u)) -> angle_rate g t d.
Proof.
  intros E D L. exists f. split; [apply dpl_is_derive; exact D|]. split; [exact E|]. apply locally_delta. exact L.
Qed.

Lemma altaz_velocities h : eps < cos (am_el (A h)) * cos (am_el (A h)) ->
  angle_rate (fun u => am_az (A u)) h (am_az_vel (A h)) /\
  derivable_pt_lim (fun u => am_el (A u)) h (am_el_vel (A h)) /\
  angle_rate (fun u => am_pa (A u)) h (am_pa_vel (A h)) /\
  (am_az (A h) <> 0 -> derivable_pt_lim (fun u => am_az (A u)) h (am_az_vel (A h))) /\
  (am_pa (A h) <> PI -> derivable_pt_lim (fun u => am_pa (A u)) h (am_pa_vel (A h))).
Proof.
  destruct (A_cos_el h) as [E _]. intros P. rewrite E in P. clear E.
  pose proof eps_pos as EP. destruct (A_rates h ltac:(lra)) as (R1 & R2 & R3 & _). rewrite R1, R2, R3.
  assert (Q : 0 < r2 h) by lra.
  destruct (rate_az h Q) as (f & F1 & F2 & F3). destruct (rate_pa h Q) as (g & G1 & G2 & G3).
  split; [apply (rate_of f); assumption|]. split; [apply dpl_is_derive; apply rate_el; exact Q|]. split; [apply (rate_of g); assumption|]. split.
  - intros NZ. apply dpl_is_derive. pose proof (A_az_range h). apply (angle_derive f _ h _ 0); try assumption.
    + intros u. pose proof (A_az_range u). lra.
    + lra.
  - intros NP. apply dpl_is_derive. 
    assert (F : forall u, 0 < r2 u -> am_pa (A u) = Ratan2 (s u) (c u)).
    { intros u U. rewrite A_pa, az_cs. destruct (Rltb_spec 0 (r2 u)); [reflexivity|lra]. }
    apply (is_derive_ext_loc (fun u => Ratan2 (s u) (c u))).
    { generalize (r2_loc h 0 Q). apply filter_imp. intros u U. symmetry. apply F. exact U. }
    rewrite F in G1, NP by assumption. pose proof (atan2_range (s h) (c h)).
    apply (angle_derive g _ h _ (- PI)); try assumption.
    + generalize (filter_and _ _ G3 (r2_loc h 0 Q)). apply filter_imp. intros u (J & U). rewrite <- F by assumption. exact J.
    + intros u. pose proof (atan2_range (s u) (c u)). lra.
    + lra.
Qed.

Lemma altaz_accelerations h : eps < cos (am_el (A h)) * cos (am_el (A h)) ->
  derivable_pt_lim (fun u => am_az_vel (A u)) h (am_az_acc (A h)) /\
  derivable_pt_lim (fun u => am_el_vel (A u)) h (am_el_acc (A h)) /\
  derivable_pt_lim (fun u => am_pa_vel (A u)) h (am_pa_acc (A h)).
Proof.
  destruct (A_cos_el h) as [E _]. intros P. rewrite E in P. clear E.
  pose proof eps_pos as EP. destruct (A_rates h ltac:(lra)) as (_ & _ & _ & R1 & R2 & R3). rewrite R1, R2, R3.
  assert (Q : 0 < r2 h) by lra. pose proof (r2_loc h eps P) as L.
  repeat split; apply dpl_is_derive.
  - apply (is_derive_ext_loc av); [|apply der_av; exact Q]. revert L. apply filter_imp. intros u U. symmetry. apply A_rates. lra.
  - apply (is_derive_ext_loc ev); [|apply der_ev; exact Q]. revert L. apply filter_imp. intros u U. symmetry. apply A_rates. lra.
  - apply (is_derive_ext_loc pv); [|apply der_pv; exact Q]. revert L. apply filter_imp. intros u U. symmetry. apply A_rates. lra.
Qed.
End AZ.
