(** dmoon against the theory: the series, the position and the velocity. *)
From Coq Require Import Reals List ZArith Lra Lia Bool.
From Coquelicot Require Import Coquelicot.
From Verif Require Import Num NumR L_Pi L_Real M_Vec M_EphTab M_Eph S_Geom S_Eph S_Moon L_Vec L_Trig L_Frame L_NutDiff L_Eph L_EphB L_EvpA L_EvpB L_Moon L_MoonB L_Moon3 L_Moon4.
Import ListNotations.
Open Scope R_scope.

Definition wt4 (r : Z * Z * Z * Z * Z) : Z := let '(a, b, c, h, _) := r in (Z.abs a + Z.abs b + Z.abs c + Z.abs h)%Z.
Local Notation zz := (n_ofZ (n := RNum) 0, n_ofZ (n := RNum) 0).

Lemma b_int z b : (Z.abs z <= b)%Z -> Rabs (IZR z) <= IZR b.
Proof. intros. rewrite <- abs_IZR. now apply IZR_le. Qed.

Section Series.
Context (t : R) (T : Rabs t <= 10) (g : margs (N := RNum)) (G : near_args g (sargs t)).

Lemma en_eq i : dmoon_en (N := RNum) g i = dmoon_en (N := RNum) (sargs t) i.
Proof. destruct G as (_ & _ & _ & _ & _ & _ & _ & E). unfold dmoon_en. now rewrite E. Qed.
Lemma en_b i : Rabs (fst (dmoon_en (N := RNum) (sargs t) i)) <= 1.05 /\ Rabs (snd (dmoon_en (N := RNum) (sargs t) i)) <= 0.01.
Proof.
  apply ab in T. unfold dmoon_en, sargs; cbn [g_e].
  set (e := 1 + (-2495 / 1000000 + -752 / 100000000 * t) * t).
  set (de := -2495 / 1000000 + 2 * (-752 / 100000000) * t).
  assert (E : 0.97 <= e <= 1.0245) by (unfold e; nra).
  assert (D : -0.0027 <= de <= -0.0023) by (unfold de; lra). clearbody e de.
  destruct (i =? 0)%Z; [|destruct (i =? 1)%Z]; cbn [fst snd]; unR; rewrite ?one, ?zero, ?two; split; apply Rabs_le; nra.
Qed.

Lemma theta_nr r : (wt4 r <= 8)%Z -> nr 16e-20 16e-17 67520 (dmoon_theta (N := RNum) g r) (dmoon_theta (N := RNum) (sargs t) r).
Proof.
  destruct r as [[[[a b] c] h] i]. unfold wt4, dmoon_theta, nr; cbn [fst snd]. unR. intros W.
  destruct G as (_ & (G1 & G1') & (G2 & G2') & (G3 & G3') & (G4 & G4') & _).
  assert (Q : IZR (Z.abs a) + IZR (Z.abs b) + IZR (Z.abs c) + IZR (Z.abs h) <= 8) by (rewrite <- !plus_IZR; apply IZR_le; exact W).
  assert (P : forall z, 0 <= IZR (Z.abs z)) by (intros; apply IZR_le, Z.abs_nonneg).
  pose proof (P a). pose proof (P b). pose proof (P c). pose proof (P h).
  split.
  - eapply anear_weak.
    + apply anear_add; [apply anear_add; [apply anear_add|]|]; apply anear_mul; eassumption.
    + lra.
  - pose proof (b_int a _ (Z.le_refl _)) as Ba. pose proof (b_int b _ (Z.le_refl _)) as Bb.
    pose proof (b_int c _ (Z.le_refl _)) as Bc. pose proof (b_int h _ (Z.le_refl _)) as Bh.
    change (car RNum) with R in *.
    apply cl_const in Ba, Bb, Bc, Bh.
    eapply cl_weak; [eapply cl_add; [eapply cl_add; [eapply cl_add|]|]; (eapply cl_mul; [eassumption|eassumption])|lra|lra].
Qed.

Definition close2 (A : R) (x y : R * R) : Prop := cl (fst x) (fst y) (A * 18e-20) (A * 1.05) /\ cl (snd x) (snd y) (A * 2e-14) (A * 70897).
Lemma sin_close : forall l : list row, forallb (fun r : row => fine (fst r) && (wt4 (snd r) <=? 8)%Z) l = true ->
  close2 (IZR (ampr l) / IZR unit30) (fold_right (dmoon_sin (N := RNum) g) zz l) (fold_right (dmoon_sin (N := RNum) (sargs t)) zz l).
Proof.
  induction l as [|r l IH]; intros F; cbn [fold_right].
  - unfold close2, ampr; cbn [fold_right fst snd]. change (n_ofZ (n := RNum) 0) with 0. unfold Rdiv. rewrite !Rmult_0_l.
    split; apply cl_weak with (e := 0) (b := 0); try lra; apply cl_const; rewrite Rabs_R0; lra.
  - cbn [forallb] in F. apply andb_prop in F as (F & F'). apply andb_prop in F as (F & W). apply Z.leb_le in W.
    specialize (IH F'). destruct IH as (I1 & I2).
    destruct (theta_nr (snd r) W) as (N1 & N2). destruct (en_b (snd (snd r))) as (E1 & E2).
    unfold dmoon_sin at 1 3. rewrite en_eq. pairs. unR. unfold close2; cbn [fst snd].
    cbn [ampr fold_right]. fold (ampr l). rewrite plus_IZR, Rdiv_plus_distr, <- abs_decimal by exact F.
    rewrite lit_decimal. set (c := decimal (fst r)). set (A := IZR (ampr l) / IZR unit30) in *.
    pose proof (cl_const c (Rabs c) (Rle_refl _)) as C. pose proof (Rabs_pos c) as C0.
    apply cl_sin in N1 as S1. apply cl_cos in N1 as S2. change (car RNum) with R in *.
    apply cl_const in E1, E2.
    split.
    + eapply cl_weak; [eapply cl_add; [exact I1|eapply cl_mul; [eapply cl_mul; [exact C|exact S1]|exact E1]]|lra|lra].
    + eapply cl_weak; [eapply cl_add; [exact I2|eapply cl_mul; [exact C|eapply cl_add; [eapply cl_mul; [eapply cl_mul; [exact S2|exact N2]|exact E1]|eapply cl_mul; [exact S1|exact E2]]]]|lra|lra].
Qed.
Lemma cos_close : forall l : list row, forallb (fun r : row => fine (fst r) && (wt4 (snd r) <=? 8)%Z) l = true ->
  close2 (IZR (ampr l) / IZR unit30) (fold_right (dmoon_cos (N := RNum) g) zz l) (fold_right (dmoon_cos (N := RNum) (sargs t)) zz l).
Proof.
  induction l as [|r l IH]; intros F; cbn [fold_right].
  - unfold close2, ampr; cbn [fold_right fst snd]. change (n_ofZ (n := RNum) 0) with 0. unfold Rdiv. rewrite !Rmult_0_l.
    split; apply cl_weak with (e := 0) (b := 0); try lra; apply cl_const; rewrite Rabs_R0; lra.
  - cbn [forallb] in F. apply andb_prop in F as (F & F'). apply andb_prop in F as (F & W). apply Z.leb_le in W.
    specialize (IH F'). destruct IH as (I1 & I2).
    destruct (theta_nr (snd r) W) as (N1 & N2). destruct (en_b (snd (snd r))) as (E1 & E2).
    unfold dmoon_cos at 1 3. rewrite en_eq. pairs. unR. unfold close2; cbn [fst snd].
    cbn [ampr fold_right]. fold (ampr l). rewrite plus_IZR, Rdiv_plus_distr, <- abs_decimal by exact F.
    rewrite lit_decimal. set (c := decimal (fst r)). set (A := IZR (ampr l) / IZR unit30) in *.
    pose proof (cl_const c (Rabs c) (Rle_refl _)) as C. pose proof (Rabs_pos c) as C0.
    apply cl_sin in N1 as S1. apply cl_cos in N1 as S2. change (car RNum) with R in *.
    apply cl_const in E1, E2. apply cl_opp in S1 as S3.
    split.
    + eapply cl_weak; [eapply cl_add; [exact I1|eapply cl_mul; [eapply cl_mul; [exact C|exact S2]|exact E1]]|lra|lra].
    + eapply cl_weak; [eapply cl_add; [exact I2|eapply cl_mul; [exact C|eapply cl_add; [eapply cl_mul; [eapply cl_mul; [exact S3|exact N2]|exact E1]|eapply cl_mul; [exact S2|exact E2]]]]|lra|lra].
Qed.
End Series.

Lemma close2_weak A B x y : close2 A x y -> A <= B -> close2 B x y.
Proof. intros (P & Q) H. split; eapply cl_weak; [exact P| | |exact Q| |]; lra. Qed.

(** ** Longitude, latitude and parallax with exact degrees *)
Definition xel (t : R) : R * R :=
  let s := fold_right (dmoon_sin (N := RNum) (sargs t)) zz dmoon_L in
  (fst (g_elp (sargs t)) + kap * fst s, (snd (g_elp (sargs t)) + kap * snd s) / 3155760000).
Definition xb (t : R) : R * R :=
  let s := fold_right (dmoon_sin (N := RNum) (sargs t)) zz dmoon_B in
  let bf := 1 - 4664 / 10000000 * cos (fst (som t)) - 754 / 10000000 * cos (fst (swom t)) in
  let dbf := 4664 / 10000000 * snd (som t) * sin (fst (som t)) + 754 / 10000000 * snd (swom t) * sin (fst (swom t)) in
  (kap * fst s * bf, kap * (snd s * bf + fst s * dbf) / 3155760000).
Definition xp (t : R) : R * R :=
  let s := fold_right (dmoon_cos (N := RNum) (sargs t)) zz dmoon_P in
  (kap * fst s, kap * snd s / 3155760000).

Lemma xel_rated t : rated_s t xel.
Proof.
  pose proof (sin_series _ _ (sargs_ready t) dmoon_L) as S. pose proof (ok_elp _ _ (sargs_ready t)) as E. unfold rated in S, E.
  assert (X : forall f1 f2 : R -> R, forall d1 d2 k, is_derive f1 t d1 -> is_derive f2 t d2 ->
    is_derive (fun s => f1 s + k * f2 s) t (d1 + k * d2)).
  { intros. rate_step. }
  apply (rated_s_by _ _ _ _ (X _ _ _ _ kap E S)); [intros x|]; unfold xel; reflexivity.
Qed.
Lemma xb_rated t : rated_s t xb.
Proof.
  pose proof (sin_series _ _ (sargs_ready t) dmoon_B) as S. pose proof (ok_om _ _ (sargs_ready t)) as E.
  pose proof (ok_wom _ _ (sargs_ready t)) as W. unfold rated in S, E, W.
  assert (X : forall f1 f2 f3 : R -> R, forall d1 d2 d3 k c1 c2, is_derive f1 t d1 -> is_derive f2 t d2 -> is_derive f3 t d3 ->
    is_derive (fun s => k * f1 s * (1 - c1 * cos (f2 s) - c2 * cos (f3 s))) t
      (k * (d1 * (1 - c1 * cos (f2 t) - c2 * cos (f3 t)) + f1 t * (c1 * d2 * sin (f2 t) + c2 * d3 * sin (f3 t))))).
  { intros. rate_step. }
  apply (rated_s_by _ _ _ _ (X _ _ _ _ _ _ kap (4664 / 10000000) (754 / 10000000) S E W)); [intros x|]; unfold xb; reflexivity.
Qed.
Lemma xp_rated t : rated_s t xp.
Proof.
  pose proof (cos_series _ _ (sargs_ready t) dmoon_P) as S. unfold rated in S.
  assert (X : forall f1 : R -> R, forall d1 k, is_derive f1 t d1 -> is_derive (fun s => k * f1 s) t (k * d1)).
  { intros. rate_step. }
  apply (rated_s_by _ _ _ _ (X _ _ kap S)); [intros x|]; unfold xp; reflexivity.
Qed.

Lemma amp_le (l : list row) (n d : Z) : (0 < d)%Z -> (ampr l * d <= n * unit30)%Z -> IZR (ampr l) / IZR unit30 <= IZR n / IZR d.
Proof.
  intros D H. pose proof unit30_pos as U. apply IZR_lt in D. apply IZR_le in H. rewrite !mult_IZR in H.
  apply (Rmult_le_reg_r (IZR unit30 * IZR d)); [apply Rmult_lt_0_compat; assumption|].
  replace (IZR (ampr l) / IZR unit30 * (IZR unit30 * IZR d)) with (IZR (ampr l) * IZR d) by (field; lra).
  replace (IZR n / IZR d * (IZR unit30 * IZR d)) with (IZR n * IZR unit30) by (field; lra). exact H.
Qed.


Lemma isec : cl (/ 3155760000) (/ 3155760000) 0 (1 / 3155760000).
Proof. apply cl_const. apply Rabs_le. lra. Qed.
Lemma el_abs (dg k : R) (x x' l l' : R * R) : k = 3155760000 -> cl dg kap 1e-23 0.01746 -> nr 2e-20 2e-17 8440 x x' -> close2 (93 / 10) l l' ->
  nr 1e-18 1e-22 1e-5 (fst x + dg * fst l, (snd x + dg * snd l) / k) (fst x' + kap * fst l', (snd x' + kap * snd l') / 3155760000).
Proof.
  intros -> K (X & X') (L & L'). pose proof isec as I. unfold nr; cbn [fst snd]. split.
  - eapply anear_weak; [apply anear_add; [exact X|]|]; [apply (anear_cl 1e-19 _ _ 1); closes|lra].
  - closes.
Qed.
Lemma b_abs (dg k : R) (o o' w w' l l' : R * R) : k = 3155760000 -> cl dg kap 1e-23 0.01746 -> nr 2e-20 2e-17 8440 o o' -> nr 2e-20 2e-17 8440 w w' -> close2 (61 / 10) l l' ->
  let bf (o w : R * R) := 1 - 4664 / 10000000 * cos (fst o) - 754 / 10000000 * cos (fst w) in
  let dbf (o w : R * R) := 4664 / 10000000 * snd o * sin (fst o) + 754 / 10000000 * snd w * sin (fst w) in
  nr 1e-18 1e-22 1e-5 (dg * fst l * bf o w, dg * (snd l * bf o w + fst l * dbf o w) / k)
    (kap * fst l' * bf o' w', kap * (snd l' * bf o' w' + fst l' * dbf o' w') / 3155760000).
Proof.
  intros -> K (O & O') (W & W') (L & L') bf dbf. pose proof isec as I. unfold bf, dbf, nr; cbn [fst snd].
  apply cl_sin in O as SO. apply cl_cos in O as CO. apply cl_sin in W as SW. apply cl_cos in W as CW. split.
  - apply (anear_cl _ _ _ 1). closes.
  - closes.
Qed.
Lemma p_abs (dg k : R) (l l' : R * R) : k = 3155760000 -> cl dg kap 1e-23 0.01746 -> close2 (103 / 100) l l' ->
  cl (dg * fst l) (kap * fst l') 1e-18 1 /\ cl (dg * snd l / k) (kap * snd l' / 3155760000) 1e-22 1e-5.
Proof. intros -> K (L & L'). pose proof isec as I. split; closes. Qed.

Lemma spherical_near : forall t, Rabs t <= 10 ->
  nr 1e-18 1e-22 1e-5 (dmoon_el (N := RNum) (dmoon_args (N := RNum) t)) (xel t) /\
  nr 1e-18 1e-22 1e-5 (dmoon_b (N := RNum) (dmoon_args (N := RNum) t)) (xb t) /\
  cl (fst (dmoon_p (N := RNum) (dmoon_args (N := RNum) t))) (fst (xp t)) 1e-18 1 /\
  cl (snd (dmoon_p (N := RNum) (dmoon_args (N := RNum) t))) (snd (xp t)) 1e-22 1e-5.
Proof.
  intros t T. pose proof (args_near t T) as G.
  pose proof (sin_close t T _ G dmoon_L ltac:(vm_compute; reflexivity)) as CL.
  pose proof (sin_close t T _ G dmoon_B ltac:(vm_compute; reflexivity)) as CB.
  pose proof (cos_close t T _ G dmoon_P ltac:(vm_compute; reflexivity)) as CP.
  apply close2_weak with (B := 93 / 10) in CL; [|apply amp_le; [reflexivity|vm_compute; discriminate]].
  apply close2_weak with (B := 61 / 10) in CB; [|apply amp_le; [reflexivity|vm_compute; discriminate]].
  apply close2_weak with (B := 103 / 100) in CP; [|apply amp_le; [reflexivity|vm_compute; discriminate]].
  destruct G as (G0 & _ & _ & _ & _ & GO & GW & _).
  pose proof (el_abs _ _ _ _ _ _ sec cl_deg G0 CL) as HL. pose proof (b_abs _ _ _ _ _ _ _ _ sec cl_deg GO GW CB) as HB. cbv zeta in HB.
  pose proof (p_abs _ _ _ _ sec cl_deg CP) as HP.
  split; [|split].
  - unfold dmoon_el, xel. pairs. cbv zeta. change (n_lit (n := RNum) 10 (-1)) with (Rdec 10 (-1)). unR. exact HL.
  - unfold dmoon_b, xb. pairs. cbv zeta. change (n_lit (n := RNum) 10 (-1)) with (Rdec 10 (-1)). unR. rewrite ?one. decs. exact HB.
  - unfold dmoon_p, xp. pairs. cbv zeta. unR. exact HP.
Qed.
