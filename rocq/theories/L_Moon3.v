(** The Moon without reduction of the angles: closeness of the computed values
    and rates to those of the theory. *)
From Coq Require Import Reals List ZArith Lra Lia Bool.
From Coquelicot Require Import Coquelicot.
From Flocq Require Import Core.Raux.
From Verif Require Import Num NumR L_Pi L_Real M_Vec M_EphTab M_Eph S_Geom S_Eph S_Moon L_Vec L_Trig L_Frame L_NutDiff L_Eph L_EphB L_EvpA L_EvpB L_Moon L_MoonB.
Import ListNotations.
Open Scope R_scope.

(** ** Closeness of numbers: |x - y| <= e and both at most b *)
Definition cl (x y e b : R) : Prop := Rabs (x - y) <= e /\ Rabs x <= b /\ Rabs y <= b.
Lemma cl_add x y e b x' y' e' b' : cl x y e b -> cl x' y' e' b' -> cl (x + x') (y + y') (e + e') (b + b').
Proof.
  intros (A & B & C) (A' & B' & C'). split; [|split; apply b_add; assumption].
  replace (x + x' - (y + y')) with ((x - y) + (x' - y')) by ring. apply b_add; assumption.
Qed.
Lemma cl_opp x y e b : cl x y e b -> cl (- x) (- y) e b.
Proof.
  intros (A & B & C). split; [|split; apply b_opp; assumption].
  replace (- x - - y) with (- (x - y)) by ring. apply b_opp; assumption.
Qed.
Lemma cl_sub x y e b x' y' e' b' : cl x y e b -> cl x' y' e' b' -> cl (x - x') (y - y') (e + e') (b + b').
Proof. intros. unfold Rminus. apply cl_add; [assumption|]. apply cl_opp; assumption. Qed.
Lemma cl_mul x y e b x' y' e' b' : cl x y e b -> cl x' y' e' b' -> cl (x * x') (y * y') (b * e' + e * b') (b * b').
Proof.
  intros (A & B & C) (A' & B' & C'). split; [|split; apply b_mul; assumption].
  replace (x * x' - y * y') with (x * (x' - y') + (x - y) * y') by ring.
  apply b_add; apply b_mul; assumption.
Qed.
Lemma cl_const c b : Rabs c <= b -> cl c c 0 b.
Proof. intros. split; [|split; assumption]. rewrite Rminus_diag_eq, Rabs_R0 by reflexivity. lra. Qed.
Lemma cl_sin e a b : anear e a b -> cl (sin a) (sin b) e 1.
Proof. intros. split; [apply anear_sin; assumption|]. split; apply sin1. Qed.
Lemma cl_cos e a b : anear e a b -> cl (cos a) (cos b) e 1.
Proof. intros. split; [apply anear_cos; assumption|]. split; apply cos1. Qed.
Lemma cl_weak x y e b e' b' : cl x y e b -> e <= e' -> b <= b' -> cl x y e' b'.
Proof. intros (A & B & C) E F. repeat split; lra. Qed.
Lemma cl_inv x y e m : 0 < m -> m <= x -> m <= y -> Rabs (x - y) <= e -> cl (/ x) (/ y) (e * / (m * m)) (/ m).
Proof.
  intros M X Y E. split; [|split].
  - replace (/ x - / y) with ((y - x) * / (x * y)) by (field; lra).
    apply b_mul; [rewrite Rabs_minus_sym; exact E|].
    rewrite Rabs_pos_eq.
    + apply Rinv_le_contravar; [apply Rmult_lt_0_compat; lra|]. apply Rmult_le_compat; lra.
    + apply Rlt_le, Rinv_0_lt_compat, Rmult_lt_0_compat; lra.
  - rewrite Rabs_pos_eq by (apply Rlt_le, Rinv_0_lt_compat; lra). apply Rinv_le_contravar; lra.
  - rewrite Rabs_pos_eq by (apply Rlt_le, Rinv_0_lt_compat; lra). apply Rinv_le_contravar; lra.
Qed.
Lemma cl_div x y e b x' y' e' b' : cl x y e b -> cl (/ x') (/ y') e' b' -> cl (x / x') (y / y') (b * e' + e * b') (b * b').
Proof. exact (cl_mul x y e b (/ x') (/ y') e' b'). Qed.

(** Prove a closeness by structure. *)
Ltac clx := lazymatch goal with
  | |- cl ?x ?x _ _ => eapply cl_const; (eapply Rle_trans; [repeat bd|apply Rle_refl])
  | |- cl ?x ?y _ _ => first
     [ match goal with H : cl x y _ _ |- _ => exact H end
     | match goal with H : cl (Rinv x) (Rinv y) _ _ |- _ => exact H end
     | lazymatch x with
       | _ + _ => eapply cl_add
       | _ - _ => eapply cl_sub
       | - _ => eapply cl_opp
       | _ * _ => eapply cl_mul
       | _ / _ => eapply cl_div
       | sin _ => eapply cl_sin; eassumption
       | cos _ => eapply cl_cos; eassumption
       end ]
  end.
Ltac closes := eapply cl_weak; [repeat clx | cbn [pow]; lra | cbn [pow]; lra].

(** ** Reduction in degrees *)
Lemma fmod360_near : forall (k x e : R), Rabs (k - PI / 180) <= e -> anear (360 * e) (k * Rfmod x 360) (radians x).
Proof.
  intros k x e E. exists (- Ztrunc (x / 360))%Z. rewrite opp_IZR.
  assert (D : Rabs (Rfmod x 360) <= 360).
  { unfold Rfmod, Rtrunc. destruct (Ztrunc_bounds (x / 360)) as [A B].
    apply Rabs_le. destruct (Rle_dec 0 (x / 360)) as [P|P]; [specialize (A P)|specialize (B ltac:(lra))]; lra. }
  unfold radians. set (q := Rfmod x 360) in *.
  assert (Q : x = q + 360 * IZR (Ztrunc (x / 360))) by (unfold q, Rfmod, Rtrunc; ring).
  set (z := IZR (Ztrunc (x / 360))) in *. rewrite Q.
  replace (k * q - (q + 360 * z) * (PI / 180) - - z * (2 * PI)) with (q * (k - PI / 180)) by field.
  apply b_mul; assumption.
Qed.
Lemma deg_near : Rabs (deg (N := RNum) - PI / 180) <= 1e-23.
Proof. pose proof PI_bounds. unfold deg; unR. decs. apply Rabs_le. lra. Qed.
Lemma deg_b : Rabs (deg (N := RNum)) <= 0.01746.
Proof. unfold deg; unR. decs. apply Rabs_le. lra. Qed.
Definition kap : R := PI / 180.
Lemma kap_b : Rabs kap <= 0.01746.
Proof. pose proof PI_bounds. unfold kap. apply Rabs_le. lra. Qed.
Lemma cl_deg : cl (deg (N := RNum)) kap 1e-23 0.01746.
Proof. exact (conj deg_near (conj deg_b kap_b)). Qed.

(** ** An angle with its rate, computed and exact *)
Definition nr (e e' b : R) (x y : R * R) : Prop := anear e (fst x) (fst y) /\ cl (snd x) (snd y) e' b.

(** The exact fundamental arguments. *)
Definition sarg (c0 c1 c2 c3 t : R) : R * R :=
  (kap * cubic c0 c1 c2 c3 t, kap * (c1 + (2 * c2 + 3 * c3 * t) * t)).
Lemma sarg_rated : forall c0 c1 c2 c3 t, rated (sarg c0 c1 c2 c3) t.
Proof. intros. unfold rated, sarg, cubic; cbn [fst snd]. generalize kap; intros k. auto_derive; [easy|]. ring. Qed.
Lemma arg_nr : forall c0 c1 c2 c3 t, Rabs t <= 10 -> Rabs c1 <= 483203 -> Rabs c2 <= 0.01 -> Rabs c3 <= 0.00002 ->
  nr 1e-20 1e-17 8437 (dmoon_arg (N := RNum) c0 c1 c2 c3 t) (sarg c0 c1 c2 c3 t).
Proof.
  intros c0 c1 c2 c3 t T H1 H2 H3. unfold nr, dmoon_arg, sarg; cbn [fst snd]. unR. rewrite two, three. split.
  - eapply anear_weak.
    + replace (c0 + (c1 + (c2 + c3 * t) * t) * t) with (cubic c0 c1 c2 c3 t) by (unfold cubic; ring).
      replace (kap * cubic c0 c1 c2 c3 t) with (radians (cubic c0 c1 c2 c3 t)) by (unfold radians, kap; ring).
      apply fmod360_near. exact deg_near.
    + lra.
  - pose proof cl_deg as K. change (car RNum) with R in *.
    eapply cl_weak; [eapply cl_mul; [exact K|]|..].
    + apply (cl_const _ 483204). bnd.
    + lra.
    + lra.
Qed.
