(** Bounds by structure, and the elliptic motion of evp: the truncated equation
    of the centre and its rate agree to the fifth power of the eccentricity. *)
From Coq Require Import Reals ZArith Lra Lia.
From Verif Require Import L_Real L_Trig L_EphB.
Open Scope R_scope.

(** ** Bounds by structure *)
Lemma b_add a b x y : Rabs a <= x -> Rabs b <= y -> Rabs (a + b) <= x + y.
Proof. intros. eapply Rle_trans; [apply Rabs_triang|]. lra. Qed.
Lemma b_sub a b x y : Rabs a <= x -> Rabs b <= y -> Rabs (a - b) <= x + y.
Proof. intros. unfold Rminus. apply b_add; [assumption|]. rewrite Rabs_Ropp. assumption. Qed.
Lemma b_opp a x : Rabs a <= x -> Rabs (- a) <= x.
Proof. intros. rewrite Rabs_Ropp. assumption. Qed.
Lemma b_mul a b x y : Rabs a <= x -> Rabs b <= y -> Rabs (a * b) <= x * y.
Proof. intros. rewrite Rabs_mult. apply Rmult_le_compat; auto using Rabs_pos. Qed.
Lemma b_div a b x y : Rabs a <= x -> Rabs (/ b) <= y -> Rabs (a / b) <= x * y.
Proof. exact (b_mul a (/ b) x y). Qed.
Lemma b_pow a n x : Rabs a <= x -> Rabs (a ^ n) <= x ^ n.
Proof. intros. rewrite <- RPow_abs. apply pow_incr. split; [apply Rabs_pos|assumption]. Qed.
Lemma b_pos c : 0 <= c -> Rabs c <= c.
Proof. intros. rewrite Rabs_pos_eq; lra. Qed.
Lemma b_neg c : c <= 0 -> Rabs c <= - c.
Proof. intros. rewrite Rabs_left1; lra. Qed.
Ltac isnum t := match t with
  | IZR ?z => idtac
  | ?a / ?b => isnum a; isnum b
  | - ?a => isnum a
  | / ?a => isnum a
  | ?a * ?b => isnum a; isnum b
  | ?a + ?b => isnum a; isnum b
  | ?a - ?b => isnum a; isnum b
  end.
Ltac bd := lazymatch goal with
  | |- Rabs (sin ?x) <= _ => first [match goal with H : Rabs (sin x) <= _ |- _ => exact H end | apply sin1]
  | |- Rabs (cos ?x) <= _ => first [match goal with H : Rabs (cos x) <= _ |- _ => exact H end | apply cos1]
  | |- Rabs ?a <= _ => first
     [ match goal with H : Rabs a <= _ |- _ => exact H end
     | isnum a; first [apply b_pos; lra | apply b_neg; lra]
     | lazymatch a with
       | _ + _ => eapply b_add
       | _ - _ => eapply b_sub
       | - _ => eapply b_opp
       | _ * _ => eapply b_mul
       | _ / _ => eapply b_div
       | _ ^ _ => eapply b_pow
       end ]
  end.
Ltac bnd := eapply Rle_trans; [repeat bd | cbn [pow]; lra].

Lemma sin_2a' a : sin (a + a) = 2 * sin a * cos a.
Proof. rewrite sin_plus. ring. Qed.
Lemma cos_2a' a : cos (a + a) = 2 * (cos a * cos a) - 1.
Proof. rewrite cos_plus. pose proof (sc1 a). lra. Qed.

(** ** Equation of the centre *)
Definition cphi (e g : R) : R :=
  (e + e) * ((1 - e * e * (125 / 1000)) * sin g + e * (625 / 1000) * sin (g + g) + e * e * (54166667 / 100000000) * sin (g + (g + g))).
(** Its derivative in the anomaly. *)
Definition cphi_g (e g : R) : R :=
  (e + e) * ((1 - e * e * (125 / 1000)) * cos g + e * (125 / 100) * cos (g + g) + e * e * (162500001 / 100000000) * cos (g + (g + g))).
(** Its rate as the code has it, a function of the true anomaly. *)
Definition cphid (e f : R) : R := (e + e) * ((1 + e * e * (15 / 10)) * cos f + e * ((125 / 100) - sin f * sin f * (5 / 10))).

Definition cA (e c : R) : R := 1 - e * e * (125 / 1000) + (125 / 100) * e * c + (54166667 / 100000000) * e * e * (4 * c * c - 1).
Definition cC (e c : R) : R :=
  let u := 1 - c * c in c * (1 - 2 * e * e * u * cA e c * cA e c) - 2 * e * u * cA e c
  + 4 / 3 * e ^ 3 * u * u * cA e c * cA e c * cA e c.
(** The first terms in the eccentricity. *)
Definition cB (e c : R) : R := 5 / 4 * c + e * (54166667 / 100000000 * (4 * c * c - 1) - 125 / 1000).
Definition cR (e c : R) : R :=
  let u := 1 - c * c in - (2 * u * c * (2 * cB e c + e * (cB e c * cB e c)))
  - 2 * u * (54166667 / 100000000 * (4 * c * c - 1) - 125 / 1000) + 4 / 3 * (u * u) * (cA e c * (cA e c * cA e c)).
Lemma cA_cB e c : cA e c = 1 + e * cB e c.
Proof. unfold cA, cB. field. Qed.
Lemma cC_cR e c : cC e c = c - 2 * e * (1 - c * c) - 9 / 2 * e * e * (1 - c * c) * c + e * e * e * cR e c.
Proof. unfold cC, cR. rewrite cA_cB. unfold cB. cbv zeta. generalize (54166667 / 100000000 * (4 * c * c - 1) - 125 / 1000); intros. field. Qed.
Lemma square1 c : Rabs c <= 1 -> Rabs (1 - c * c) <= 1.
Proof. intros C. apply ab in C. apply Rabs_le. nra. Qed.
Lemma square4 c : Rabs c <= 1 -> Rabs (4 * c * c - 1) <= 3.
Proof. intros C. apply ab in C. apply Rabs_le. nra. Qed.
Lemma cR_bound e c : Rabs e <= 172 / 10000 -> Rabs c <= 1 -> Rabs (cR e c) <= 102 / 10.
Proof.
  intros E C. pose proof (square1 c C) as U. pose proof (square4 c C) as V.
  assert (B : Rabs (cB e c) <= 129 / 100) by (unfold cB; bnd).
  assert (A : Rabs (cA e c) <= 1023 / 1000) by (rewrite cA_cB; bnd).
  unfold cR. cbv zeta. bnd.
Qed.
Lemma centre_poly e c : let u := 1 - c * c in let C2 := e * cR e c - 9 / 2 * u * c in let C1 := e * C2 - 2 * u in
  2 * e * ((1 - e * e * (125 / 1000)) * c + e * (125 / 100) * (2 * c * c - 1) + e * e * (162500001 / 100000000) * (4 * c ^ 3 - 3 * c))
  - 2 * e * ((1 + e * e * (15 / 10)) * cC e c + e * (75 / 100 + cC e c * cC e c * (5 / 10)))
  = e ^ 3 * (8 / 100000000 * c ^ 3 - 6 / 100000000 * c) - 2 * e ^ 4 * (cR e c + 3 / 2 * C1 + c * C2 + C1 * C1 / 2).
Proof. intros. rewrite cC_cR. unfold C1, C2, u. generalize (cR e c); intros. field. Qed.
Lemma centre_small e c : Rabs e <= 172 / 10000 -> Rabs c <= 1 -> let u := 1 - c * c in let C2 := e * cR e c - 9 / 2 * u * c in
  let C1 := e * C2 - 2 * u in Rabs (cR e c + 3 / 2 * C1 + c * C2 + C1 * C1 / 2) <= 207 / 10.
Proof.
  intros E C u C2 C1. pose proof (cR_bound e c E C) as R1. pose proof (square1 c C) as U. fold u in U.
  assert (B2 : Rabs C2 <= 468 / 100) by (unfold C2; bnd). assert (B1 : Rabs C1 <= 21 / 10) by (unfold C1; bnd). bnd.
Qed.
Lemma cphi_bound e g : Rabs e <= (172 / 10000) -> Rabs (cphi e g) <= (348 / 10000).
Proof. intros E. unfold cphi. bnd. Qed.
Lemma cos_taylor x : Rabs x <= 1 -> Rabs (cos x - (1 - x * x / 2)) <= x ^ 4 / 24.
Proof.
  intros X. apply ab in X. destruct (pre_cos_bound x 0 ltac:(lra) ltac:(lra)) as (L & U).
  unfold cos_approx in L, U. cbn in L, U. unfold cos_term in L, U. cbn in L, U.
  assert (0 <= x ^ 4) by (replace (x ^ 4) with ((x * x) * (x * x)) by ring; apply sq_pos).
  apply Rabs_le. cbn [pow] in *. lra.
Qed.
Lemma sin_taylor0 x : 0 <= x <= 1 -> Rabs (sin x - (x - x * x * x / 6)) <= x ^ 5 / 120.
Proof.
  intros X. destruct (pre_sin_bound x 0 ltac:(lra) ltac:(lra)) as (L & U).
  unfold sin_approx in L, U. cbn in L, U. unfold sin_term in L, U. cbn in L, U.
  assert (0 <= x ^ 5) by (apply pow_le; lra).
  apply Rabs_le. cbn [pow] in *. lra.
Qed.
Lemma sin_taylor x : Rabs x <= 1 -> Rabs (sin x - (x - x * x * x / 6)) <= Rabs x ^ 5 / 120.
Proof.
  intros X. destruct (Rle_dec 0 x) as [P|P].
  - rewrite (Rabs_pos_eq x) in * by assumption. apply sin_taylor0. lra.
  - assert (Q : Rabs x = - x) by (apply Rabs_left; lra). rewrite Q in *.
    replace (sin x - (x - x * x * x / 6)) with (- (sin (- x) - (- x - - x * - x * - x / 6))) by (rewrite sin_neg; field).
    rewrite Rabs_Ropp. apply sin_taylor0. lra.
Qed.

Lemma cphi_A e g : cphi e g = 2 * e * sin g * cA e (cos g).
Proof.
  unfold cphi, cA. rewrite (sin_plus g (g + g)), sin_2a', cos_2a'. pose proof (sc1 g) as Q.
  replace (sin g * sin g) with (1 - cos g * cos g) by lra. 
  replace (sin g * (2 * (cos g * cos g) - 1) + cos g * (2 * sin g * cos g)) with (sin g * (4 * cos g * cos g - 1)) by ring.
  field.
Qed.
Lemma cphi_g_c e g : cphi_g e g = 2 * e * ((1 - e * e * (125 / 1000)) * cos g + e * (125 / 100) * (2 * cos g * cos g - 1) +
  e * e * (162500001 / 100000000) * (4 * cos g ^ 3 - 3 * cos g)).
Proof.
  unfold cphi_g. rewrite (cos_plus g (g + g)), sin_2a', cos_2a'. pose proof (sc1 g) as Q.
  replace (cos g * (2 * (cos g * cos g) - 1) - sin g * (2 * sin g * cos g)) with (4 * cos g ^ 3 - 3 * cos g).
  2: { replace (sin g * (2 * sin g * cos g)) with (2 * cos g * (1 - cos g * cos g)) by (rewrite <- Q; ring). ring. }
  ring.
Qed.

Lemma true_anomaly e g : Rabs e <= (172 / 10000) -> Rabs (cos (g + cphi e g) - cC e (cos g)) <= (62 / 1000000000).
Proof.
  intros E. pose proof (cphi_bound e g E) as B. pose proof (cphi_A e g) as A.
  pose proof (cos_taylor (cphi e g) ltac:(lra)) as C. pose proof (sin_taylor (cphi e g) ltac:(lra)) as S.
  assert (B4 : cphi e g ^ 4 <= (348 / 10000) ^ 4).
  { replace (cphi e g ^ 4) with (Rabs (cphi e g) ^ 4); [apply pow_incr; split; [apply Rabs_pos|exact B]|].
    rewrite RPow_abs. apply Rabs_pos_eq. replace (cphi e g ^ 4) with ((cphi e g * cphi e g) * (cphi e g * cphi e g)) by ring. apply sq_pos. }
  assert (B5 : Rabs (cphi e g) ^ 5 <= (348 / 10000) ^ 5) by (apply pow_incr; split; [apply Rabs_pos|exact B]).
  assert (C' : Rabs (cos (cphi e g) - (1 - cphi e g * cphi e g / 2)) <= (612 / 10000000000)) by (eapply Rle_trans; [exact C|lra]).
  assert (S' : Rabs (sin (cphi e g) - (cphi e g - cphi e g * cphi e g * cphi e g / 6)) <= (43 / 100000000000)) by (eapply Rle_trans; [exact S|lra]).
  clear C S B4 B5.
  assert (X : cos (g + cphi e g) - cC e (cos g) =
    cos g * (cos (cphi e g) - (1 - cphi e g * cphi e g / 2)) - sin g * (sin (cphi e g) - (cphi e g - cphi e g * cphi e g * cphi e g / 6))).
  { rewrite cos_plus. unfold cC. pose proof (sc1 g) as Q. replace (1 - cos g * cos g) with (sin g * sin g) by lra.
    cbv zeta. generalize (cos (cphi e g)) (sin (cphi e g)); intros x y. rewrite A. generalize (cA e (cos g)) (sin g) (cos g); intros; field. }
  rewrite X. bnd.
Qed.

Lemma centre_rate e g : Rabs e <= (172 / 10000) -> Rabs (cphi_g e g - cphid e (g + cphi e g)) <= 38 / 10000000.
Proof.
  intros E. pose proof (true_anomaly e g E) as T. pose proof (cos1 g) as C.
  pose proof (centre_small e _ E C) as H1. pose proof (centre_poly e (cos g)) as P. cbv zeta in H1, P.
  match type of H1 with Rabs ?z <= _ => set (Z4 := z) in * end.
  rewrite cphi_g_c. unfold cphid. set (f := g + cphi e g) in *. pose proof (sc1 f) as Q.
  replace (sin f * sin f) with (1 - cos f * cos f) by lra. pose proof (cos1 f) as CF.
  set (d := cos f - cC e (cos g)) in *. assert (DD : cC e (cos g) = cos f - d) by (unfold d; ring).
  match goal with |- Rabs ?x <= _ => replace x with
    (e ^ 3 * ((8 / 100000000) * cos g ^ 3 - (6 / 100000000) * cos g) - 2 * e ^ 4 * Z4
     - 2 * e * ((1 + e * e * (15 / 10)) * d + e * ((5 / 10) * (d * (2 * cos f - d))))) end.
  2: { rewrite <- P, DD. field. }
  bnd.
Qed.
