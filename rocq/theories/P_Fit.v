(** Properties C39, C40: fitting a linear model to matched positions.  Exact
    arithmetic.  Specifications in S_Fit.v, S_Plate.v, S_Lin.v; proofs in
    L_Fit.v. *)
From Coq Require Import Reals ZArith Arith Lia Lra List.
From Verif Require Import Num NumR M_Plate M_Lin M_Fit S_Plate S_Lin S_Fit L_Sum L_Lin L_Fit.
Import ListNotations.
Open Scope R_scope.

(** C39.  [fitxy sbr k expected measured ws ws' m] is (status, model on
    return); [ws] and [ws'] are the uninitialised workspaces, [m] the model on
    entry.  Six coefficients: the model returned is the only best one. *)
Theorem C39_six : forall k (expected measured : nat -> point) ws ws' (m m' : coeffs R),
  fitxy (N := RNum) false k expected measured ws ws' m = (FIT_OK, m') ->
  (forall m'', misfit (Z.to_nat k) expected measured m' <= misfit (Z.to_nat k) expected measured m'') /\
  (forall m'', misfit (Z.to_nat k) expected measured m'' <= misfit (Z.to_nat k) expected measured m' -> m'' = m').
Proof. exact fitxy_six. Qed.
Print Assumptions C39_six.

Example C39_six_example : forall expected ws ws' m,
  let measured i := nth i [(1, 0); (-1, 0); (0, 1); (0, -1)] (0, 0) in
  exists m', fitxy (N := RNum) false 4 expected measured ws ws' m = (FIT_OK, m').
Proof.
  intros expected ws ws' m measured.
  destruct (fitxy (N := RNum) false 4 expected measured ws ws' m) as [[ | | ] m'] eqn:E; [ now exists m' | exfalso | exfalso ].
  - pose proof (fitxy_insufficient false 4 expected measured ws ws' m) as [H _]. rewrite E in H. specialize (H eq_refl). lia.
  - pose proof (fitxy_none 4 false expected measured ws ws' m) as H. rewrite E in H. specialize (H eq_refl). cbv iota in H.
    apply (diag3_ok 4 2 2); [ lra | lra | lra | ].
    revert H. apply nearly_singular_ext. intros i j Hi Hj. unfold normal6, diag, measured. change (Z.to_nat 4) with 4%nat.
    destruct i as [ | [ | [ | ? ]]], j as [ | [ | [ | ? ]]]; try lia; cbn [sum nth fst snd Nat.eqb]; ring.
Qed.

(** Four coefficients: origin, scale and orientation only.  With three or more
    samples, or when the result is not the null model, the model returned is of
    that kind and no such model, of either parity, does better. *)
Theorem C39_four : forall k (expected measured : nat -> point) ws ws' (m m' : coeffs R),
  fitxy (N := RNum) true k expected measured ws ws' m = (FIT_OK, m') -> k <> 2%Z \/ m' <> null_model ->
  rigid m' /\ forall m'', rigid m'' ->
    misfit (Z.to_nat k) expected measured m' <= misfit (Z.to_nat k) expected measured m''.
Proof. exact fitxy_four. Qed.
Print Assumptions C39_four.

Example C39_four_example : forall expected ws ws' m,
  let measured i := nth i [(1, 0); (-1, 0); (0, 0)] (0, 0) in
  exists m', fitxy (N := RNum) true 3 expected measured ws ws' m = (FIT_OK, m').
Proof.
  intros expected ws ws' m measured.
  destruct (fitxy (N := RNum) true 3 expected measured ws ws' m) as [[ | | ] m'] eqn:E; [ now exists m' | exfalso | exfalso ].
  - pose proof (fitxy_insufficient true 3 expected measured ws ws' m) as [H _]. rewrite E in H. specialize (H eq_refl). lia.
  - pose proof (fitxy_none 3 true expected measured ws ws' m) as H. rewrite E in H. specialize (H eq_refl). cbv iota in H.
    apply diag4_ok. revert H. apply nearly_singular_ext. intros i j Hi Hj. unfold normal4, diag, measured.
    change (Z.to_nat 3) with 3%nat.
    destruct i as [ | [ | [ | [ | ? ]]]], j as [ | [ | [ | [ | ? ]]]]; try lia; cbn [sum nth fst snd Nat.eqb INR]; ring.
Qed.

(** Two samples whose measured positions are nearer than 1e-5 make the
    four-coefficient fit report success with the null model, which does not fit:
    here the expected positions equal the measured ones. *)
Theorem C39_four_close_pair_refuted :
  (forall (expected measured : nat -> point) ws ws' (m : coeffs R), distance (measured 0%nat) (measured 1%nat) < 1 / 10 ^ 5 ->
     fitxy (N := RNum) true 2 expected measured ws ws' m = (FIT_OK, null_model)) /\
  (exists (p : nat -> point) m, distance (p 0%nat) (p 1%nat) < 1 / 10 ^ 5 /\ p 0%nat <> p 1%nat /\ rigid m /\
     misfit 2 p p m = 0 /\ misfit 2 p p null_model >= 2).
Proof.
  split; [ exact close_pair | ].
  exists (fun i => (1, INR i / 10 ^ 6)), (Coeffs 0 1 0 0 0 1).
  assert (Q : forall i, 0 <= (INR i / 10 ^ 6) ^ 2) by (intros; apply pow2_ge_0).
  split; [ | split; [ | split; [ | split ]]].
  - unfold distance. cbn [fst snd INR]. replace ((1 - 1) ^ 2 + (0 / 10 ^ 6 - 1 / 10 ^ 6) ^ 2) with ((1 / 10 ^ 6) * (1 / 10 ^ 6)) by field.
    rewrite sqrt_square by lra. lra.
  - intros E. apply (f_equal snd) in E. cbn in E. lra.
  - left. cbn. split; ring.
  - unfold misfit, linear_map. cbn [sum fst snd fc_a fc_b fc_c fc_d fc_e fc_f]. ring.
  - unfold misfit, linear_map, null_model. cbn [sum fst snd fc_a fc_b fc_c fc_d fc_e fc_f].
    pose proof (Q 0%nat). pose proof (Q 1%nat). lra.
Qed.
Print Assumptions C39_four_close_pair_refuted.

(** C40.  Too few samples, and only that, is FIT_INSUFFICIENT. *)
Theorem C40_insufficient : forall sbr k (expected measured : nat -> point) ws ws' (m : coeffs R),
  fst (fitxy (N := RNum) sbr k expected measured ws ws' m) = FIT_INSUFFICIENT <-> (k < if sbr then 2 else 3)%Z.
Proof. exact fitxy_insufficient. Qed.
Print Assumptions C40_insufficient.

(** A failed fit leaves the model alone. *)
Theorem C40_unchanged : forall sbr k (expected measured : nat -> point) ws ws' (m : coeffs R),
  fst (fitxy (N := RNum) sbr k expected measured ws ws' m) <> FIT_OK ->
  snd (fitxy (N := RNum) sbr k expected measured ws ws' m) = m.
Proof. exact fitxy_unchanged. Qed.
Print Assumptions C40_unchanged.

(** Six coefficients, measured points on a line: no unique model. *)
Theorem C40_collinear : forall k (expected measured : nat -> point) ws ws' (m : coeffs R), (3 <= k)%Z ->
  collinear (Z.to_nat k) measured ->
  fitxy (N := RNum) false k expected measured ws ws' m = (FIT_NONE, m).
Proof. exact fitxy_collinear. Qed.
Print Assumptions C40_collinear.

(** Four coefficients, all measured points the same: no unique model. *)
Theorem C40_coincident : forall k (expected measured : nat -> point) ws ws' (m : coeffs R), (3 <= k)%Z ->
  coincident (Z.to_nat k) measured ->
  fitxy (N := RNum) true k expected measured ws ws' m = (FIT_NONE, m).
Proof. exact fitxy_coincident. Qed.
Print Assumptions C40_coincident.

Example C40_example : collinear 3 (fun i => (INR i, 2 * INR i + 1)) /\ coincident 3 (fun _ => (1, 2)).
Proof.
  split; [ exists 1, 2, (-1); split; [ left; lra | ]; intros; cbn [fst snd]; ring | ].
  intros i j _ _. reflexivity.
Qed.

(** The converse: FIT_NONE means that the normal equations are singular, or
    within 1e-20 of it. *)
Theorem C40_none : forall k sbr (expected measured : nat -> point) ws ws' (m : coeffs R),
  fst (fitxy (N := RNum) sbr k expected measured ws ws' m) = FIT_NONE ->
  if sbr then nearly_singular 4 (normal4 (Z.to_nat k) measured) (/ 10 ^ 20)
  else nearly_singular 3 (normal6 (Z.to_nat k) measured) (/ 10 ^ 20).
Proof. exact fitxy_none. Qed.
Print Assumptions C40_none.

(** Two coincident points, four coefficients: no unique model, yet FIT_OK. *)
Theorem C40_two_refuted : forall (expected measured : nat -> point) ws ws' (m : coeffs R),
  measured 0%nat = measured 1%nat ->
  fitxy (N := RNum) true 2 expected measured ws ws' m = (FIT_OK, null_model).
Proof.
  intros expected measured ws ws' m E. apply close_pair. rewrite E. unfold distance.
  replace (_ + _) with 0 by ring. rewrite sqrt_0. lra.
Qed.
Print Assumptions C40_two_refuted.
