(** fitxy. *)
From Coq Require Import Reals ZArith Arith Lia Lra List.
From Verif Require Import Num NumR M_Vec M_Plate M_Lin M_Fit S_Plate S_Lin S_Fit L_Sum L_Dmat L_Lin L_Lsq.
Import ListNotations.
Open Scope R_scope.

Lemma acc_sum n (f : nat -> R) : acc (N := RNum) n f = sum n f.
Proof. unfold acc. etransitivity; [ exact (for_sum n f 0) | ]. apply Rplus_0_l. Qed.

Lemma sum_const n c : sum n (fun _ => c) = INR n * c.
Proof. induction n as [ | n IH ]; [ cbn; ring | ]. cbn [sum]. rewrite IH, S_INR. ring. Qed.

Lemma INR_to_nat k : (0 <= k)%Z -> INR (Z.to_nat k) = IZR k.
Proof. intros H. rewrite INR_IZR_INZ, Z2Nat.id by exact H. reflexivity. Qed.

(** Projections of a residual. *)
Lemma proj n a b c (x y e g : nat -> R) :
  sum n (fun i => (a + b * x i + c * y i - e i) * g i) =
  a * sum n g + b * sum n (fun i => x i * g i) + c * sum n (fun i => y i * g i) - sum n (fun i => e i * g i).
Proof. induction n as [ | n IH ]; cbn [sum]; [ ring | ]. rewrite IH. ring. Qed.

Lemma sum_sq_pos n (s : nat -> R) : 0 <= sum n (fun i => s i ^ 2).
Proof. apply sum_pos. intros. apply pow2_ge_0. Qed.

(** One coordinate of the six-parameter fit. *)
Lemma best3 n (x y e : nat -> R) a b c :
  INR n * a + sum n x * b + sum n y * c = sum n e ->
  sum n x * a + sum n (fun i => x i * x i) * b + sum n (fun i => x i * y i) * c = sum n (fun i => e i * x i) ->
  sum n y * a + sum n (fun i => x i * y i) * b + sum n (fun i => y i * y i) * c = sum n (fun i => e i * y i) ->
  forall a' b' c', sum n (fun i => (a + b * x i + c * y i - e i) ^ 2) +
                   sum n (fun i => ((a' - a) + (b' - b) * x i + (c' - c) * y i) ^ 2) =
                   sum n (fun i => (a' + b' * x i + c' * y i - e i) ^ 2).
Proof.
  intros E1 E2 E3 a' b' c'.
  assert (G : forall m, sum m (fun i => (a' + b' * x i + c' * y i - e i) ^ 2) =
     sum m (fun i => (a + b * x i + c * y i - e i) ^ 2) +
     sum m (fun i => ((a' - a) + (b' - b) * x i + (c' - c) * y i) ^ 2) +
     2 * ((a' - a) * (INR m * a + sum m x * b + sum m y * c - sum m e) +
          (b' - b) * (sum m x * a + sum m (fun i => x i * x i) * b + sum m (fun i => x i * y i) * c - sum m (fun i => e i * x i)) +
          (c' - c) * (sum m y * a + sum m (fun i => x i * y i) * b + sum m (fun i => y i * y i) * c - sum m (fun i => e i * y i)))).
  { induction m as [ | m IH ]; [ cbn; ring | ]. cbn [sum]. rewrite IH, S_INR. ring. }
  rewrite G, E1, E2, E3. ring.
Qed.

(** Both coordinates of the four-parameter fit. *)
Lemma best4 n (x y e f : nat -> R) a b c d :
  INR n * a + sum n x * b - sum n y * c = sum n e ->
  sum n x * a + sum n (fun i => x i * x i + y i * y i) * b + sum n y * d = sum n (fun i => e i * x i + f i * y i) ->
  sum n y * a - sum n (fun i => x i * x i + y i * y i) * c - sum n x * d = sum n (fun i => e i * y i - f i * x i) ->
  sum n y * b + sum n x * c + INR n * d = sum n f ->
  forall a' b' c' d', sum n (fun i => (a + b * x i - c * y i - e i) ^ 2 + (d + c * x i + b * y i - f i) ^ 2) +
     sum n (fun i => ((a' - a) + (b' - b) * x i - (c' - c) * y i) ^ 2 + ((d' - d) + (c' - c) * x i + (b' - b) * y i) ^ 2) =
     sum n (fun i => (a' + b' * x i - c' * y i - e i) ^ 2 + (d' + c' * x i + b' * y i - f i) ^ 2).
Proof.
  intros E1 E2 E3 E4 a' b' c' d'.
  assert (G : forall m, sum m (fun i => (a' + b' * x i - c' * y i - e i) ^ 2 + (d' + c' * x i + b' * y i - f i) ^ 2) =
     sum m (fun i => (a + b * x i - c * y i - e i) ^ 2 + (d + c * x i + b * y i - f i) ^ 2) +
     sum m (fun i => ((a' - a) + (b' - b) * x i - (c' - c) * y i) ^ 2 + ((d' - d) + (c' - c) * x i + (b' - b) * y i) ^ 2) +
     2 * ((a' - a) * (INR m * a + sum m x * b - sum m y * c - sum m e) +
          (b' - b) * (sum m x * a + sum m (fun i => x i * x i + y i * y i) * b + sum m y * d - sum m (fun i => e i * x i + f i * y i)) -
          (c' - c) * (sum m y * a - sum m (fun i => x i * x i + y i * y i) * c - sum m x * d - sum m (fun i => e i * y i - f i * x i)) +
          (d' - d) * (sum m y * b + sum m x * c + INR m * d - sum m f))).
  { induction m as [ | m IH ]; [ cbn; ring | ]. cbn [sum]. rewrite IH, S_INR. ring. }
  rewrite G.
  replace (INR n * a + sum n x * b - sum n y * c - sum n e) with 0 by lra.
  replace (sum n x * a + sum n (fun i => x i * x i + y i * y i) * b + sum n y * d - sum n (fun i => e i * x i + f i * y i)) with 0 by lra.
  replace (sum n y * a - sum n (fun i => x i * x i + y i * y i) * c - sum n x * d - sum n (fun i => e i * y i - f i * x i)) with 0 by lra.
  replace (sum n y * b + sum n x * c + INR n * d - sum n f) with 0 by lra. ring.
Qed.

(** The matrices, as the program fills them. *)
Definition mat3 (k : Z) (p : nat -> point) : nat -> nat -> R :=
  let n := Z.to_nat k in let x i := fst (p i) in let y i := snd (p i) in
  mat_of (N := RNum) [[IZR k; sum n x; sum n y];
    [sum n x; sum n (fun i => x i * x i); sum n (fun i => x i * y i)];
    [sum n y; sum n (fun i => x i * y i); sum n (fun i => y i * y i)]].
Definition mat4 (k : Z) (p : nat -> point) : nat -> nat -> R :=
  let n := Z.to_nat k in let x i := fst (p i) in let y i := snd (p i) in
  let s := sum n (fun i => x i * x i + y i * y i) in
  mat_of (N := RNum) [[IZR k; sum n x; - sum n y; 0]; [sum n x; s; 0; sum n y];
    [sum n y; 0; - s; - sum n x]; [0; sum n y; sum n x; IZR k]].

Lemma misfit_split n e p m : misfit n e p m =
  sum n (fun i => (fc_a m + fc_b m * fst (p i) + fc_c m * snd (p i) - fst (e i)) ^ 2) +
  sum n (fun i => (fc_d m + fc_e m * fst (p i) + fc_f m * snd (p i) - snd (e i)) ^ 2).
Proof.
  unfold misfit. rewrite <- sum_plus. apply sum_ext. intros i _. unfold linear_map. destruct (p i) as [x y]. reflexivity.
Qed.


Lemma inverse_solve n A B v i : inverse n A B -> (i < n)%nat -> mulv n A (mulv n B v) i = v i.
Proof.
  intros HI Hi. unfold mulv at 1.
  rewrite (sum_ext n _ (fun j => sum n (fun l => A i j * B j l * v l))).
  2: { intros j _. unfold mulv. rewrite <- sum_scal. apply sum_ext. intros. ring. }
  rewrite sum_swap, <- (sum_delta_l n i v Hi). apply sum_ext. intros l Hl.
  destruct (HI i l Hi Hl) as [<- _]. unfold mulm. rewrite <- sum_scal_r. reflexivity.
Qed.

Lemma proj0 n a b c (x y g : nat -> R) : (forall i, (i < n)%nat -> a + b * x i + c * y i = 0) ->
  sum n g * a + sum n (fun i => x i * g i) * b + sum n (fun i => y i * g i) * c = 0.
Proof.
  intros H. rewrite <- (sum_0 n (fun i => (a + b * x i + c * y i - 0) * g i)).
  - rewrite proj. rewrite (sum_0 n (fun i => 0 * g i)) by (intros; ring). ring.
  - intros i Hi. rewrite H by exact Hi. ring.
Qed.
Lemma one_r n f : sum n (fun i => f i * 1) = sum n f.
Proof. apply sum_ext. intros. ring. Qed.

Lemma kernel3 k p a b c : (0 <= k)%Z ->
  (forall i, (i < Z.to_nat k)%nat -> a + b * fst (p i) + c * snd (p i) = 0) ->
  forall j, (j < 3)%nat -> mulv 3 (mat3 k p) (fun j => nth j [a; b; c] 0) j = 0.
Proof.
  intros Hk H j Hj.
  pose proof (proj0 _ a b c (fun i => fst (p i)) (fun i => snd (p i)) (fun _ => 1) H) as P0.
  pose proof (proj0 _ a b c (fun i => fst (p i)) (fun i => snd (p i)) (fun i => fst (p i)) H) as P1.
  pose proof (proj0 _ a b c (fun i => fst (p i)) (fun i => snd (p i)) (fun i => snd (p i)) H) as P2.
  cbv beta in P0, P1, P2. rewrite sum_const, INR_to_nat, Rmult_1_r in P0 by exact Hk. rewrite !one_r in P0.
  rewrite (sum_ext _ (fun i => snd (p i) * fst (p i)) (fun i => fst (p i) * snd (p i))) in P1 by (intros; ring).
  destruct j as [ | [ | [ | ? ]]]; [ | | | lia ]; unfold mulv, mat3, mat_of; cbn [sum nth]; lra.
Qed.

Lemma coeffs_eq (m m' : coeffs R) : fc_a m = fc_a m' -> fc_b m = fc_b m' -> fc_c m = fc_c m' ->
  fc_d m = fc_d m' -> fc_e m = fc_e m' -> fc_f m = fc_f m' -> m = m'.
Proof. destruct m, m'. cbn. intros. now subst. Qed.

(** The six-parameter branch. *)
Lemma fitxy6_cases k (e p : nat -> point) ws (m : coeffs R) : (3 <= k)%Z ->
  (exists m', fitxy6 (N := RNum) k e p ws m = (FIT_OK, m') /\
     (forall m'', misfit (Z.to_nat k) e p m' <= misfit (Z.to_nat k) e p m'') /\
     (forall m'', misfit (Z.to_nat k) e p m'' <= misfit (Z.to_nat k) e p m' -> m'' = m') /\
     exists B, inverse 3 (mat3 k p) B) \/
  (fitxy6 (N := RNum) k e p ws m = (FIT_NONE, m) /\ nearly_singular 3 (mat3 k p) (/ 10 ^ 20)).
Proof.
  intros Hk. unfold fitxy6. rewrite (proj2 (Z.leb_le 3 k) Hk). cbv zeta.
  set (n := Z.to_nat k).
  assert (HA : forall f, acc (N := RNum) n f = sum n f) by (intros; apply acc_sum).
  set (x := fun i => fst (p i)). set (y := fun i => snd (p i)).
  set (xe := fun i => fst (e i)). set (ye := fun i => snd (e i)).
  match goal with |- context [dmat 3 ?A ?b ws] => set (A0 := A); set (b0 := b) end.
  assert (EA : A0 = mat3 k p).
  { unfold A0, mat3. cbv zeta. fold n. rewrite !HA. reflexivity. }
  assert (EB : forall j, (j < 3)%nat -> b0 j = nth j [sum n xe; sum n (fun i => xe i * x i); sum n (fun i => xe i * y i)] 0).
  { intros j Hj. unfold b0. rewrite !HA. reflexivity. }
  clearbody A0 b0. subst A0.
  destruct (dmat (N := RNum) 3 (mat3 k p) b0 ws) as [[[[|] B] v] d] eqn:ED; cbn [negb].
  - right. split; [ reflexivity | ]. rewrite <- eps_val. now destruct (dmat_reported _ _ _ _ _ _ _ ED).
  - left. eexists. split; [ reflexivity | ].
    destruct (dmat_correct _ _ _ _ _ _ _ ED) as [HI [HX _]].
    set (g := fun j => nth j [acc (N := RNum) n ye; acc (N := RNum) n (fun i => ye i * x i); acc (N := RNum) n (fun i => ye i * y i)] 0).
    pose proof (fun i H => inverse_solve 3 (mat3 k p) B g i HI H) as HY.
    set (h := mulv 3 B g) in HY.
    set (m' := Coeffs _ _ _ _ _ _).
    assert (EM : fc_a m' = v 0%nat /\ fc_b m' = v 1%nat /\ fc_c m' = v 2%nat /\
                 fc_d m' = h 0%nat /\ fc_e m' = h 1%nat /\ fc_f m' = h 2%nat).
    { unfold m', h, mulv, g. cbn. repeat split; unR; try reflexivity; unfold acc; ring. }
    destruct EM as [E1 [E2 [E3 [E4 [E5 E6]]]]]. clearbody m' h.
    change (car RNum) with R in *.
    assert (Q : forall m'', misfit n e p m'' = misfit n e p m' +
      (sum n (fun i => ((fc_a m'' - fc_a m') + (fc_b m'' - fc_b m') * x i + (fc_c m'' - fc_c m') * y i) ^ 2) +
       sum n (fun i => ((fc_d m'' - fc_d m') + (fc_e m'' - fc_e m') * x i + (fc_f m'' - fc_f m') * y i) ^ 2))).
    { intros m''. rewrite !misfit_split.
      pose proof (HX 0%nat ltac:(lia)) as X0. pose proof (HX 1%nat ltac:(lia)) as X1. pose proof (HX 2%nat ltac:(lia)) as X2.
      pose proof (HY 0%nat ltac:(lia)) as Y0. pose proof (HY 1%nat ltac:(lia)) as Y1. pose proof (HY 2%nat ltac:(lia)) as Y2.
      rewrite EB in X0, X1, X2 by lia. unfold g in Y0, Y1, Y2.
      unfold mulv, mat3, mat_of in X0, X1, X2, Y0, Y1, Y2. cbn [sum nth] in X0, X1, X2, Y0, Y1, Y2. fold n in X0, X1, X2, Y0, Y1, Y2.
      rewrite HA in Y0, Y1, Y2. rewrite <- E1, <- E2, <- E3 in X0, X1, X2. rewrite <- E4, <- E5, <- E6 in Y0, Y1, Y2.
      pose proof (INR_to_nat k ltac:(lia)) as EN. fold n in EN. rewrite <- EN in X0, Y0.
      unfold x, y, xe, ye in *. cbv beta in *.
      pose proof (best3 n (fun i => fst (p i)) (fun i => snd (p i)) (fun i => fst (e i)) (fc_a m') (fc_b m') (fc_c m')) as B1.
      pose proof (best3 n (fun i => fst (p i)) (fun i => snd (p i)) (fun i => snd (e i)) (fc_d m') (fc_e m') (fc_f m')) as B2.
      cbv beta in B1, B2.
      rewrite <- B1 by lra. rewrite <- B2 by lra. change (car RNum) with R. ring. }
    split; [ | split ].
    + intros m''. rewrite (Q m''). pose proof (sum_sq_pos n (fun i => (fc_a m'' - fc_a m') + (fc_b m'' - fc_b m') * x i + (fc_c m'' - fc_c m') * y i)).
      pose proof (sum_sq_pos n (fun i => (fc_d m'' - fc_d m') + (fc_e m'' - fc_e m') * x i + (fc_f m'' - fc_f m') * y i)).
      cbv beta in *. lra.
    + intros m'' L. rewrite (Q m'') in L.
      pose proof (sum_sq_pos n (fun i => (fc_a m'' - fc_a m') + (fc_b m'' - fc_b m') * x i + (fc_c m'' - fc_c m') * y i)) as P1.
      pose proof (sum_sq_pos n (fun i => (fc_d m'' - fc_d m') + (fc_e m'' - fc_e m') * x i + (fc_f m'' - fc_f m') * y i)) as P2.
      cbv beta in P1, P2.
      assert (Z : forall a b c, sum n (fun i => (a + b * x i + c * y i) ^ 2) = 0 -> a = 0 /\ b = 0 /\ c = 0).
      { intros a b c Z. assert (Z' : forall i, (i < n)%nat -> a + b * x i + c * y i = 0).
        { intros i Hi. apply Rsqr_0_uniq. rewrite Rsqr_pow2.
          exact (sum_pos_0 n _ (fun i _ => pow2_ge_0 _) Z i Hi). }
        pose proof (kernel3 k p a b c ltac:(lia) Z') as K.
        pose proof (fun i H => inverse_kernel 3 _ B (fun j => nth j [a; b; c] 0) i HI K H) as K'.
        exact (conj (K' 0%nat ltac:(lia)) (conj (K' 1%nat ltac:(lia)) (K' 2%nat ltac:(lia)))). }
      destruct (Z (fc_a m'' - fc_a m') (fc_b m'' - fc_b m') (fc_c m'' - fc_c m')) as [Z1 [Z2 Z3]]; [ lra | ].
      destruct (Z (fc_d m'' - fc_d m') (fc_e m'' - fc_e m') (fc_f m'' - fc_f m')) as [Z4 [Z5 Z6]]; [ lra | ].
      apply coeffs_eq; lra.
    + exists B. exact HI.
Qed.

(** The four-parameter branch. *)
Definition S4 n (e p : nat -> point) (g a b c d : R) : R :=
  sum n (fun i => (a + b * fst (p i) - c * snd (p i) - fst (e i) * g) ^ 2 + (d + c * fst (p i) + b * snd (p i) - snd (e i)) ^ 2).

Lemma S4_plus n e p a b c d : misfit n e p (Coeffs a b (- c) d c b) = S4 n e p 1 a b c d.
Proof. unfold misfit, S4. apply sum_ext. intros i _. destruct (p i) as [x y]. cbn. ring. Qed.
Lemma S4_minus n e p a b c d : misfit n e p (Coeffs (- a) (- b) c d c b) = S4 n e p (-1) a b c d.
Proof. unfold misfit, S4. apply sum_ext. intros i _. destruct (p i) as [x y]. cbn. ring. Qed.

Lemma rigid_cases m : rigid m -> exists a b c d, m = Coeffs a b (- c) d c b \/ m = Coeffs (- a) (- b) c d c b.
Proof.
  destruct m as [a b c d e f]. unfold rigid. cbn. intros [[-> ->] | [-> ->]].
  - exists a, b, (- c), d. left. f_equal; ring.
  - exists (- a), (- b), c, d. right. f_equal; ring.
Qed.

Lemma sdr2_sum n (f g : nat -> R) : for_ 0 n (fun i s => s + f i * f i + g i * g i) 0 = sum n (fun i => f i ^ 2 + g i ^ 2).
Proof.
  induction n as [ | n IH ]; [ reflexivity | ]. rewrite for_last by lia. rewrite IH. cbn [sum]. ring.
Qed.

Definition vec4 k (e p : nat -> point) (g : R) : nat -> R :=
  let n := Z.to_nat k in fun j => nth j
    [sum n (fun i => fst (e i) * g); sum n (fun i => fst (e i) * g * fst (p i) + snd (e i) * snd (p i));
     sum n (fun i => fst (e i) * g * snd (p i) - snd (e i) * fst (p i)); sum n (fun i => snd (e i))] 0.

Lemma pass_spec k (e p : nat -> point) ws g :
  fit4_pass (N := RNum) k e p ws g =
  let '(singular, _, v, _) := dmat (N := RNum) 4 (mat4 k p) (vec4 k e p g) ws in
  if negb singular then Some (v 0%nat, v 1%nat, v 2%nat, v 3%nat, S4 (Z.to_nat k) e p g (v 0%nat) (v 1%nat) (v 2%nat) (v 3%nat)) else None.
Proof.
  unfold fit4_pass. cbv zeta. set (n := Z.to_nat k).
  assert (HA : forall f, acc (N := RNum) n f = sum n f) by (intros; apply acc_sum).
  match goal with |- context [dmat (N := RNum) 4 ?A ?b ws] => set (A0 := A); set (b0 := b) end.
  assert (EA : A0 = mat4 k p).
  { unfold A0, mat4. cbv zeta. fold n. rewrite !HA. reflexivity. }
  assert (EB : b0 = vec4 k e p g).
  { unfold b0, vec4. cbv zeta. fold n. rewrite !HA. reflexivity. }
  rewrite EA, EB. clear. destruct (dmat (N := RNum) 4 _ _ ws) as [[[[|] B] v] d]; cbn [negb]; [ reflexivity | ].
  do 2 f_equal.
  exact (sdr2_sum n (fun i => v 0%nat + v 1%nat * fst (p i) - v 2%nat * snd (p i) - fst (e i) * g)
                    (fun i => v 3%nat + v 2%nat * fst (p i) + v 1%nat * snd (p i) - snd (e i))).
Qed.

Lemma pass_none k (e p : nat -> point) ws ws' g g' :
  fit4_pass (N := RNum) k e p ws g = None <-> fit4_pass (N := RNum) k e p ws' g' = None.
Proof.
  rewrite !pass_spec. pose proof (dmat_flag (N := RNum) 4 (mat4 k p) (vec4 k e p g) (vec4 k e p g') ws ws') as [H _].
  destruct (dmat (N := RNum) 4 _ _ ws) as [[[f B] v] d]. destruct (dmat (N := RNum) 4 _ _ ws') as [[[f' B'] v'] d'].
  cbn [fst] in H. subst f'. destruct f; cbn [negb]; split; congruence.
Qed.

Lemma pass_reported k (e p : nat -> point) ws g : fit4_pass (N := RNum) k e p ws g = None ->
  nearly_singular 4 (mat4 k p) (/ 10 ^ 20).
Proof.
  rewrite pass_spec. destruct (dmat (N := RNum) 4 _ _ ws) as [[[[|] B] v] d] eqn:E; cbn [negb]; [ | discriminate ].
  intros _. rewrite <- eps_val. now destruct (dmat_reported _ _ _ _ _ _ _ E).
Qed.

Lemma pass_best k (e p : nat -> point) ws g a b c d s : (0 <= k)%Z ->
  fit4_pass (N := RNum) k e p ws g = Some (a, b, c, d, s) ->
  let n := Z.to_nat k in
  s = S4 n e p g a b c d /\ (exists B, inverse 4 (mat4 k p) B) /\
  forall a' b' c' d', S4 n e p g a b c d <= S4 n e p g a' b' c' d'.
Proof.
  intros Hk. rewrite pass_spec. cbv zeta.
  destruct (dmat (N := RNum) 4 _ _ ws) as [[[[|] B] v] t] eqn:E; cbn [negb]; [ discriminate | ].
  intros H. apply (f_equal (fun o => match o with Some z => z | None => (a, b, c, d, s) end)) in H.
  pose proof (f_equal snd H) as Es. pose proof (f_equal (fun z => snd (fst z)) H) as Ed.
  pose proof (f_equal (fun z => snd (fst (fst z))) H) as Ec. pose proof (f_equal (fun z => snd (fst (fst (fst z)))) H) as Eb.
  pose proof (f_equal (fun z => fst (fst (fst (fst z)))) H) as Ea. cbn [fst snd] in *. clear H.
  destruct (dmat_correct _ _ _ _ _ _ _ E) as [HI [HX _]]. subst a b c d s.
  split; [ reflexivity | split; [ exists B; exact HI | ]].
  pose proof (HX 0%nat ltac:(lia)) as X0. pose proof (HX 1%nat ltac:(lia)) as X1.
  pose proof (HX 2%nat ltac:(lia)) as X2. pose proof (HX 3%nat ltac:(lia)) as X3. clear HX E HI.
  unfold mulv, mat4, mat_of, vec4 in X0, X1, X2, X3. cbn [sum nth] in X0, X1, X2, X3.
  rewrite <- (INR_to_nat k Hk) in X0, X3. change (car RNum) with R in *.
  intros a' b' c' d'. unfold S4.
  pose proof (best4 (Z.to_nat k) (fun i => fst (p i)) (fun i => snd (p i)) (fun i => fst (e i) * g) (fun i => snd (e i))
                (v 0%nat) (v 1%nat) (v 2%nat) (v 3%nat)) as Q. cbv beta in Q.
  rewrite <- (Q ltac:(lra) ltac:(lra) ltac:(lra) ltac:(lra) a' b' c' d').
  match goal with |- ?u <= ?u + ?w => assert (0 <= w); [ | lra ] end.
  apply sum_pos. intros i _. apply Rplus_le_le_0_compat; apply pow2_ge_0.
Qed.

Lemma mat4_kernel k p u v : (0 <= k)%Z -> (forall i, (i < Z.to_nat k)%nat -> p i = (u, v)) ->
  forall j, (j < 4)%nat -> mulv 4 (mat4 k p) (fun j => nth j [- u; 1; 0; - v] 0) j = 0.
Proof.
  intros Hk H j Hj. set (n := Z.to_nat k).
  assert (E : forall f : point -> R, sum n (fun i => f (p i)) = IZR k * f (u, v)).
  { intros f. rewrite <- (INR_to_nat k Hk). fold n. rewrite <- sum_const. apply sum_ext. intros i Hi. now rewrite H. }
  pose proof (E fst) as E1. pose proof (E snd) as E2. pose proof (E (fun q => fst q * fst q + snd q * snd q)) as E3.
  cbn [fst snd] in E1, E2, E3.
  unfold mulv, mat4, mat_of. fold n. cbv zeta.
  destruct j as [ | [ | [ | [ | ? ]]]]; [ | | | | lia ]; cbn [sum nth]; rewrite ?E1, ?E2, ?E3; ring.
Qed.

Lemma pass_coincident k (e p : nat -> point) ws g : (1 <= k)%Z -> coincident (Z.to_nat k) p ->
  fit4_pass (N := RNum) k e p ws g = None.
Proof.
  intros Hk HC. destruct (p 0%nat) as [u v] eqn:EP.
  assert (H : forall i, (i < Z.to_nat k)%nat -> p i = (u, v)).
  { intros i Hi. rewrite <- EP. apply HC; lia. }
  rewrite pass_spec.
  destruct (dmat_kernel 4 (mat4 k p) (vec4 k e p g) ws (fun j => nth j [- u; 1; 0; - v] 0) 1%nat) as [B [x E]].
  - lia.
  - cbn. lra.
  - apply mat4_kernel; [ lia | exact H ].
  - rewrite E. reflexivity.
Qed.

(** Two distinct points can be matched exactly. *)
Lemma two_exact (e p : nat -> point) : p 0%nat <> p 1%nat -> exists a b c d, S4 2 e p 1 a b c d = 0.
Proof.
  destruct (p 0%nat) as [x0 y0] eqn:E0. destruct (p 1%nat) as [x1 y1] eqn:E1. intros NE.
  destruct (e 0%nat) as [u0 w0] eqn:F0. destruct (e 1%nat) as [u1 w1] eqn:F1.
  set (D := (x1 - x0) ^ 2 + (y1 - y0) ^ 2).
  assert (HD : D <> 0).
  { intros Z. apply NE. pose proof (pow2_ge_0 (x1 - x0)). pose proof (pow2_ge_0 (y1 - y0)). unfold D in Z.
    f_equal; apply Rminus_diag_uniq; apply Rsqr_0_uniq; rewrite Rsqr_pow2; lra. }
  set (b := ((x1 - x0) * (u1 - u0) + (y1 - y0) * (w1 - w0)) / D).
  set (c := ((x1 - x0) * (w1 - w0) - (y1 - y0) * (u1 - u0)) / D).
  exists (u0 - b * x0 + c * y0), b, c, (w0 - c * x0 - b * y0).
  unfold S4. cbn [sum]. rewrite E0, E1, F0, F1. cbn [fst snd].
  assert (H1 : b * (x1 - x0) - c * (y1 - y0) = u1 - u0) by (unfold b, c; field_simplify; [ unfold D in *; field; exact HD | exact HD ]).
  assert (H2 : c * (x1 - x0) + b * (y1 - y0) = w1 - w0) by (unfold b, c; field_simplify; [ unfold D in *; field; exact HD | exact HD ]).
  replace (u0 - b * x0 + c * y0 + b * x1 - c * y1 - u1 * 1) with 0 by lra.
  replace (w0 - c * x0 - b * y0 + c * x1 + b * y1 - w1) with 0 by lra. ring.
Qed.

Lemma S4_pos n e p g a b c d : 0 <= S4 n e p g a b c d.
Proof. apply sum_pos. intros. apply Rplus_le_le_0_compat; apply pow2_ge_0. Qed.

Lemma fitxy4_cases k (e p : nat -> point) ws ws' (m : coeffs R) : (2 <= k)%Z ->
  (exists m', fitxy4 (N := RNum) k e p ws ws' m = (FIT_OK, m') /\ rigid m' /\
     (forall m'', rigid m'' -> misfit (Z.to_nat k) e p m' <= misfit (Z.to_nat k) e p m'')) \/
  (fit4_pass (N := RNum) k e p ws 1 = None /\
   fitxy4 (N := RNum) k e p ws ws' m = if (k =? 2)%Z then (FIT_OK, null_model) else (FIT_NONE, m)).
Proof.
  intros Hk. unfold fitxy4. rewrite (proj2 (Z.leb_le 2 k) Hk).
  pose proof (pass_none k e p ws ws' 1 (-1)) as PN.
  change (n_ofZ 1) with 1. change (n_ofZ (-1)) with (-1).
  destruct (fit4_pass (N := RNum) k e p ws 1) as [[[[[a b] c] d] s] | ] eqn:E1;
    destruct (fit4_pass (N := RNum) k e p ws' (-1)) as [[[[[a' b'] c'] d'] s'] | ] eqn:E2.
  - left. destruct (pass_best k e p ws 1 a b c d s ltac:(lia) E1) as [-> [[B HB] M1]].
    destruct (pass_best k e p ws' (-1) a' b' c' d' s' ltac:(lia) E2) as [-> [_ M2]].
    set (n := Z.to_nat k) in *.
    assert (D2 : k = 2%Z -> S4 n e p 1 a b c d <= S4 n e p (-1) a' b' c' d').
    { intros ->. change n with 2%nat in *. destruct (two_exact e p) as [a0 [b0 [c0 [d0 Z]]]].
      - intros EQ. assert (C : coincident (Z.to_nat 2) p).
        { intros i j Hi Hj. change (Z.to_nat 2) with 2%nat in Hi, Hj.
          destruct i as [ | [ | ? ]], j as [ | [ | ? ]]; try lia; congruence. }
        pose proof (pass_coincident 2 e p ws 1 ltac:(lia) C). congruence.
      - pose proof (M1 a0 b0 c0 d0) as L. rewrite Z in L. pose proof (S4_pos 2 e p (-1) a' b' c' d'). lra. }
    unR. set (s := S4 n e p 1 a b c d) in *. set (s' := S4 n e p (-1) a' b' c' d') in *.
    assert (P : 0 <= s) by apply S4_pos.
    destruct (Rleb_spec 0 s) as [_ | ]; [ | lra ]. cbn [andb].
    destruct (Rleb_spec s s') as [L | L]; [ | destruct (Z.eqb_spec k 2) as [K | K]; [ specialize (D2 K); lra | ] ]; cbn [orb].
    + eexists. split; [ reflexivity | split ].
      * left. cbn. split; [ reflexivity | ]. symmetry. apply Ropp_involutive.
      * intros m'' R. rewrite S4_plus. fold s. destruct (rigid_cases m'' R) as [a0 [b0 [c0 [d0 [-> | ->]]]]].
        -- rewrite S4_plus. apply M1.
        -- rewrite S4_minus. pose proof (M2 a0 b0 c0 d0). lra.
    + eexists. split; [ reflexivity | split ].
      * right. cbn. split; [ | reflexivity ]. symmetry. apply Ropp_involutive.
      * intros m'' R. rewrite S4_minus. fold s'. destruct (rigid_cases m'' R) as [a0 [b0 [c0 [d0 [-> | ->]]]]].
        -- rewrite S4_plus. pose proof (M1 a0 b0 c0 d0). lra.
        -- rewrite S4_minus. apply M2.
  - pose proof (proj2 PN eq_refl). discriminate.
  - pose proof (proj1 PN eq_refl). discriminate.
  - right. split; [ reflexivity | ]. unR.
    destruct (Rleb_spec 0 0) as [_ | ]; [ | lra ]. destruct (Rleb_spec 0 (-1)) as [ | _ ]; [ lra | ]. cbn [andb orb].
    destruct (k =? 2)%Z; [ | reflexivity ]. unfold null_model. f_equal. apply coeffs_eq; try reflexivity. apply Ropp_0.
Qed.

(** Normal matrices: program and specification. *)
Lemma mat3_normal k p : (0 <= k)%Z -> forall i j, (i < 3)%nat -> (j < 3)%nat -> mat3 k p i j = normal6 (Z.to_nat k) p i j.
Proof.
  intros Hk i j Hi Hj. unfold mat3, normal6, mat_of. cbv zeta. set (n := Z.to_nat k).
  assert (E : IZR k = sum n (fun _ => 1 * 1)) by (rewrite sum_const, <- (INR_to_nat k Hk); unfold n; ring).
  destruct i as [ | [ | [ | ? ]]], j as [ | [ | [ | ? ]]]; try lia; cbn [nth]; try exact E; apply sum_ext; intros; ring.
Qed.
Lemma mat4_normal k p : (0 <= k)%Z -> forall i j, (i < 4)%nat -> (j < 4)%nat -> mat4 k p i j = normal4 (Z.to_nat k) p i j.
Proof.
  intros Hk i j Hi Hj. unfold mat4, normal4, mat_of. cbv zeta. rewrite <- (INR_to_nat k Hk).
  rewrite (sum_ext _ (fun s => fst (p s) ^ 2 + snd (p s) ^ 2) (fun s => fst (p s) * fst (p s) + snd (p s) * snd (p s))) by (intros; ring).
  destruct i as [ | [ | [ | [ | ? ]]]], j as [ | [ | [ | [ | ? ]]]]; try lia; reflexivity.
Qed.

Lemma lead_ext n A B rows : (forall i j, (i < n)%nat -> (j < n)%nat -> A i j = B i j) ->
  (forall r, In r rows -> (r < n)%nat) -> (length rows <= n)%nat -> lead rows A = lead rows B.
Proof.
  intros H HR HL. unfold lead. apply det_ext. intros r c Hr Hc. unfold rows_of. apply H; [ | lia ].
  apply HR, nth_In. exact Hr.
Qed.
Lemma greedy_in n A rows : greedy n A rows -> forall r, In r rows -> (r < n)%nat.
Proof.
  induction 1 as [ | rows r G IH H1 H2 H3 ]; intros q Hq; [ destruct Hq | ].
  apply in_app_or in Hq. destruct Hq as [Hq | [<- | []]]; auto.
Qed.
Lemma greedy_ext n A B rows : (forall i j, (i < n)%nat -> (j < n)%nat -> A i j = B i j) -> (length rows <= n)%nat ->
  greedy n A rows -> greedy n B rows.
Proof.
  intros H HL G. induction G as [ | rows r G IH H1 H2 H3 ]; [ constructor | ].
  rewrite app_length in HL. cbn in HL.
  constructor; [ apply IH; lia | exact H1 | exact H2 | ].
  intros r' Hr' Hn. rewrite <- !(lead_ext n A B); try assumption.
  - now apply H3.
  - intros q Hq. apply in_app_or in Hq. destruct Hq as [Hq | [<- | []]]; [ now apply (greedy_in n A rows) | assumption ].
  - rewrite app_length. cbn. lia.
  - intros q Hq. apply in_app_or in Hq. destruct Hq as [Hq | [<- | []]]; [ now apply (greedy_in n A rows) | assumption ].
  - rewrite app_length. cbn. lia.
Qed.
Lemma nearly_singular_ext n A B t : (forall i j, (i < n)%nat -> (j < n)%nat -> A i j = B i j) ->
  nearly_singular n A t -> nearly_singular n B t.
Proof.
  intros H [rows [G [L [NZ D]]]]. pose proof (greedy_in n A rows G) as HR.
  assert (E : lead rows A = lead rows B) by (apply (lead_ext n); auto; lia).
  assert (E1 : forall r, (r < n)%nat -> lead (rows ++ [r]) A = lead (rows ++ [r]) B).
  { intros r Hr. apply (lead_ext n); auto.
    - intros q Hq. apply in_app_or in Hq. destruct Hq as [Hq | [<- | []]]; auto.
    - rewrite app_length. cbn. lia. }
  exists rows. split; [ apply (greedy_ext n A B); auto; lia | split; [ exact L | split; [ now rewrite <- E | ]]].
  destruct D as [D | D]; [ left | right ]; intros r Hr Hn; rewrite <- E1, <- ?E by exact Hr; now apply D.
Qed.

(** Statements about fitxy itself. *)
Lemma fitxy_six k (e p : nat -> point) ws ws' (m m' : coeffs R) :
  fitxy (N := RNum) false k e p ws ws' m = (FIT_OK, m') ->
  (forall m'', misfit (Z.to_nat k) e p m' <= misfit (Z.to_nat k) e p m'') /\
  (forall m'', misfit (Z.to_nat k) e p m'' <= misfit (Z.to_nat k) e p m' -> m'' = m').
Proof.
  unfold fitxy. cbn [negb]. intros H. destruct (Z.leb_spec 3 k) as [L | L].
  - destruct (fitxy6_cases k e p ws m L) as [[q [E [M1 [M2 _]]]] | [E _]]; rewrite E in H; [ | discriminate ].
    apply (f_equal snd) in H. cbn [snd] in H. subst q. auto.
  - unfold fitxy6 in H. rewrite (proj2 (Z.leb_gt 3 k) L) in H. discriminate.
Qed.

Lemma fitxy_four k (e p : nat -> point) ws ws' (m m' : coeffs R) :
  fitxy (N := RNum) true k e p ws ws' m = (FIT_OK, m') -> k <> 2%Z \/ m' <> null_model ->
  rigid m' /\ forall m'', rigid m'' -> misfit (Z.to_nat k) e p m' <= misfit (Z.to_nat k) e p m''.
Proof.
  unfold fitxy. cbn [negb]. intros H HN. destruct (Z.leb_spec 2 k) as [L | L].
  - destruct (fitxy4_cases k e p ws ws' m L) as [[q [E [M1 M2]]] | [_ E]]; rewrite E in H.
    + apply (f_equal snd) in H. cbn [snd] in H. subst q. auto.
    + destruct (Z.eqb_spec k 2) as [K | K]; [ | discriminate ].
      apply (f_equal snd) in H. cbn [snd] in H. destruct HN as [HN | HN]; [ contradiction | now subst m' ].
  - unfold fitxy4 in H. rewrite (proj2 (Z.leb_gt 2 k) L) in H. discriminate.
Qed.

Lemma fitxy_insufficient sbr k (e p : nat -> point) ws ws' (m : coeffs R) :
  fst (fitxy (N := RNum) sbr k e p ws ws' m) = FIT_INSUFFICIENT <-> (k < if sbr then 2 else 3)%Z.
Proof.
  unfold fitxy. destruct sbr; cbn [negb].
  - destruct (Z.leb_spec 2 k) as [L | L].
    + destruct (fitxy4_cases k e p ws ws' m L) as [[q [E _]] | [_ E]]; rewrite E; [ | destruct (k =? 2)%Z ]; cbn; split; (discriminate || lia).
    + unfold fitxy4. rewrite (proj2 (Z.leb_gt 2 k) L). cbn. split; auto.
  - destruct (Z.leb_spec 3 k) as [L | L].
    + destruct (fitxy6_cases k e p ws m L) as [[q [E _]] | [E _]]; rewrite E; cbn; split; (discriminate || lia).
    + unfold fitxy6. rewrite (proj2 (Z.leb_gt 3 k) L). cbn. split; auto.
Qed.

Lemma fitxy_unchanged sbr k (e p : nat -> point) ws ws' (m : coeffs R) :
  fst (fitxy (N := RNum) sbr k e p ws ws' m) <> FIT_OK -> snd (fitxy (N := RNum) sbr k e p ws ws' m) = m.
Proof.
  unfold fitxy. destruct sbr; cbn [negb].
  - destruct (Z.leb_spec 2 k) as [L | L].
    + destruct (fitxy4_cases k e p ws ws' m L) as [[q [E _]] | [_ E]]; rewrite E; [ | destruct (k =? 2)%Z ]; cbn; intros; congruence.
    + unfold fitxy4. rewrite (proj2 (Z.leb_gt 2 k) L). reflexivity.
  - destruct (Z.leb_spec 3 k) as [L | L].
    + destruct (fitxy6_cases k e p ws m L) as [[q [E _]] | [E _]]; rewrite E; cbn; intros; congruence.
    + unfold fitxy6. rewrite (proj2 (Z.leb_gt 3 k) L). reflexivity.
Qed.

Lemma fitxy_collinear k (e p : nat -> point) ws ws' (m : coeffs R) : (3 <= k)%Z -> collinear (Z.to_nat k) p ->
  fitxy (N := RNum) false k e p ws ws' m = (FIT_NONE, m).
Proof.
  intros L [a [b [c [NZ H]]]]. unfold fitxy. cbn [negb].
  destruct (fitxy6_cases k e p ws m L) as [[q [E [_ [_ [B HB]]]]] | [E _]]; [ exfalso | exact E ].
  pose proof (kernel3 k p a b c ltac:(lia) H) as K.
  pose proof (inverse_kernel 3 _ B _ 1%nat HB K ltac:(lia)) as K1.
  pose proof (inverse_kernel 3 _ B _ 2%nat HB K ltac:(lia)) as K2. cbn in K1, K2. tauto.
Qed.

Lemma fitxy_coincident k (e p : nat -> point) ws ws' (m : coeffs R) : (3 <= k)%Z -> coincident (Z.to_nat k) p ->
  fitxy (N := RNum) true k e p ws ws' m = (FIT_NONE, m).
Proof.
  intros L HC. unfold fitxy, fitxy4. cbn [negb]. rewrite (proj2 (Z.leb_le 2 k)) by lia.
  change (n_ofZ 1) with 1. change (n_ofZ (-1)) with (-1).
  rewrite (pass_coincident k e p ws 1) by (lia || assumption).
  rewrite (pass_coincident k e p ws' (-1)) by (lia || assumption). unR.
  destruct (Rleb_spec 0 0) as [_ | ]; [ | lra ]. destruct (Rleb_spec 0 (-1)) as [ | _ ]; [ lra | ].
  cbn [andb orb]. rewrite (proj2 (Z.eqb_neq k 2)) by lia. reflexivity.
Qed.

Lemma fitxy_none k sbr (e p : nat -> point) ws ws' (m : coeffs R) :
  fst (fitxy (N := RNum) sbr k e p ws ws' m) = FIT_NONE ->
  if sbr then nearly_singular 4 (normal4 (Z.to_nat k) p) (/ 10 ^ 20)
  else nearly_singular 3 (normal6 (Z.to_nat k) p) (/ 10 ^ 20).
Proof.
  unfold fitxy. destruct sbr; cbn [negb]; intros H.
  - destruct (Z.leb_spec 2 k) as [L | L].
    + destruct (fitxy4_cases k e p ws ws' m L) as [[q [E _]] | [P E]]; rewrite E in H; [ discriminate | ].
      apply pass_reported in P. revert P. apply nearly_singular_ext, mat4_normal. lia.
    + unfold fitxy4 in H. rewrite (proj2 (Z.leb_gt 2 k) L) in H. discriminate.
  - destruct (Z.leb_spec 3 k) as [L | L].
    + destruct (fitxy6_cases k e p ws m L) as [[q [E _]] | [E P]]; rewrite E in H; [ discriminate | ].
      revert P. apply nearly_singular_ext, mat3_normal. lia.
    + unfold fitxy6 in H. rewrite (proj2 (Z.leb_gt 3 k) L) in H. discriminate.
Qed.

(** Two points nearer than 1e-5. *)
Lemma det4_two p : det 4 (mat4 2 p) =
  - (((fst (p 1%nat) - fst (p 0%nat)) ^ 2 + (snd (p 1%nat) - snd (p 0%nat)) ^ 2) ^ 2).
Proof.
  unfold mat4, mat_of. change (Z.to_nat 2) with 2%nat. destruct (p 0%nat) as [a b] eqn:E0. destruct (p 1%nat) as [c d] eqn:E1.
  cbn [det sum]. unfold minor. rewrite E0, E1. cbn [nth Nat.ltb Nat.leb fst snd].
  change (car RNum) with R. change (n_ofZ 0) with 0. ring.
Qed.

Lemma close_pair (e p : nat -> point) ws ws' (m : coeffs R) : distance (p 0%nat) (p 1%nat) < 1 / 10 ^ 5 ->
  fitxy (N := RNum) true 2 e p ws ws' m = (FIT_OK, null_model).
Proof.
  intros H. set (q := (fst (p 0%nat) - fst (p 1%nat)) ^ 2 + (snd (p 0%nat) - snd (p 1%nat)) ^ 2).
  assert (Q0 : 0 <= q) by (apply Rplus_le_le_0_compat; apply pow2_ge_0).
  unfold distance in H. fold q in H.
  assert (Q1 : q < 1 / 10 ^ 10).
  { rewrite <- (sqrt_sqrt q Q0). pose proof (sqrt_pos q). replace (1 / 10 ^ 10) with (1 / 10 ^ 5 * (1 / 10 ^ 5)) by field.
    apply Rmult_le_0_lt_compat; lra. }
  assert (D : Rabs (det 4 (mat4 2 p)) < / 10 ^ 20).
  { rewrite det4_two, Rabs_Ropp.
    replace ((fst (p 1%nat) - fst (p 0%nat)) ^ 2 + (snd (p 1%nat) - snd (p 0%nat)) ^ 2) with q by (unfold q; ring).
    rewrite Rabs_pos_eq by apply pow2_ge_0.
    replace (/ 10 ^ 20) with (1 / 10 ^ 10 * (1 / 10 ^ 10)) by field. replace (q ^ 2) with (q * q) by ring.
    apply Rmult_le_0_lt_compat; lra. }
  unfold fitxy, fitxy4. cbn [negb]. change (2 <=? 2)%Z with true. cbv iota.
  change (n_ofZ 1) with 1. change (n_ofZ (-1)) with (-1).
  rewrite !pass_spec.
  destruct (dmat_small_det 4 (mat4 2 p) (vec4 2 e p 1) ws ltac:(lia) D) as [B [x ->]].
  destruct (dmat_small_det 4 (mat4 2 p) (vec4 2 e p (-1)) ws' ltac:(lia) D) as [B' [x' ->]]. cbn [negb].
  unR. destruct (Rleb_spec 0 0) as [_ | ]; [ | lra ]. change (2 =? 2)%Z with true. rewrite Bool.orb_true_r. cbn [andb].
  unfold null_model. f_equal. apply coeffs_eq; try reflexivity. apply Ropp_0.
Qed.
