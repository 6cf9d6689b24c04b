(** moon against the short theory. *)
From Coq Require Import Reals List ZArith Lra Lia Bool.
From Coquelicot Require Import Coquelicot.
From Verif Require Import Int32 Num NumR L_Pi L_Real M_Vec M_Site M_EphTab M_Eph S_Geom S_Eph S_Moon L_Vec L_Rot L_Trig L_Frame L_NutDiff L_Site L_Eph L_EphB L_EvpA L_EvpB L_Moon L_MoonB L_Moon2 L_Moon3 L_Moon4 L_Moon6.
Import ListNotations.
Open Scope R_scope.
Local Notation zz := (n_ofZ (n := RNum) 0, n_ofZ (n := RNum) 0).

Definition wt (r : Z * Z * Z * Z) : Z := let '(a, b, c, h) := r in (Z.abs a + Z.abs b + Z.abs c + Z.abs h)%Z.
Definition famp (l : list frow) : Z := fold_right (fun (r : frow) acc => (mag (fst r) + acc)%Z) 0%Z l.
Definition fampw (l : list frow) : Z := fold_right (fun (r : frow) acc => (mag (fst r) * wt (snd r) + acc)%Z) 0%Z l.
Definition row_ok (r : frow) : bool := fine (fst r) && (wt (snd r) <=? 8)%Z.

Section Series.
Context (a b c d a' b' c' d' eta : R) (E0 : 0 <= eta)
  (H1 : anear eta a a') (H2 : anear eta b b') (H3 : anear eta c c') (H4 : anear eta d d').

Lemma mtheta r : anear (IZR (wt r) * eta) (fst (moon_theta (N := RNum) a b c d r)) (fst (moon_theta (N := RNum) a' b' c' d' r)) /\
  snd (moon_theta (N := RNum) a b c d r) = snd (moon_theta (N := RNum) a' b' c' d' r) /\
  Rabs (snd (moon_theta (N := RNum) a b c d r)) <= IZR (wt r) * 4833.
Proof.
  destruct r as [[[i j] k] h]. unfold wt, moon_theta; cbn [fst snd]. unR. rewrite !plus_IZR. split; [|split].
  - replace ((IZR (Z.abs i) + IZR (Z.abs j) + IZR (Z.abs k) + IZR (Z.abs h)) * eta)
      with (IZR (Z.abs i) * eta + IZR (Z.abs j) * eta + IZR (Z.abs k) * eta + IZR (Z.abs h) * eta) by ring.
    apply anear_add; [apply anear_add; [apply anear_add|]|]; apply anear_mul; assumption.
  - reflexivity.
  - rewrite !abs_IZR. decs.
    replace ((Rabs (IZR i) + Rabs (IZR j) + Rabs (IZR k) + Rabs (IZR h)) * 4833)
      with (Rabs (IZR i) * 4833 + Rabs (IZR j) * 4833 + Rabs (IZR k) * 4833 + Rabs (IZR h) * 4833) by ring.
    assert (X : forall z y, Rabs y <= 4833 -> Rabs (IZR z * y) <= Rabs (IZR z) * 4833).
    { intros z y Y. rewrite Rabs_mult. apply Rmult_le_compat_l; [apply Rabs_pos|exact Y]. }
    apply b_add; [apply b_add; [apply b_add|]|]; apply X; apply Rabs_le; lra.
Qed.

Definition close3 (l : list frow) (x y : R * R) : Prop :=
  let W := IZR (fampw l) / IZR unit30 in let A := IZR (famp l) / IZR unit30 in
  cl (fst x) (fst y) (W * eta) A /\ cl (snd x) (snd y) (W * (8 * eta * 4833)) (W * 4833).

Lemma wt_nonneg r : (0 <= wt r)%Z.
Proof. destruct r as [[[i j] k] h]. unfold wt. lia. Qed.
Lemma row_step r : row_ok r = true -> forall l,
  IZR (famp (r :: l)) / IZR unit30 = Rabs (decimal (fst r)) + IZR (famp l) / IZR unit30 /\
  IZR (fampw (r :: l)) / IZR unit30 = Rabs (decimal (fst r)) * IZR (wt (snd r)) + IZR (fampw l) / IZR unit30 /\
  0 <= IZR (wt (snd r)) <= 8.
Proof.
  intros F l. apply andb_prop in F as (F & W). apply Z.leb_le in W. pose proof (wt_nonneg (snd r)) as W0. pose proof unit30_pos as U.
  rewrite abs_decimal by exact F. cbn [famp fampw fold_right]. fold (famp l). fold (fampw l). rewrite !plus_IZR, mult_IZR.
  split; [field; lra|]. split; [field; lra|]. split; apply IZR_le; lia.
Qed.
Lemma nonlin w x y : 0 <= w <= 8 -> 0 <= x -> 0 <= y -> x * (w * y) * (w * 4833) <= x * w * (8 * y * 4833).
Proof.
  intros W X Y. replace (x * (w * y) * (w * 4833)) with (x * w * (w * (y * 4833))) by ring.
  replace (8 * y * 4833) with (8 * (y * 4833)) by ring. apply Rmult_le_compat_l; [apply Rmult_le_pos; lra|].
  apply Rmult_le_compat_r; lra.
Qed.

Lemma msin_close : forall l : list frow, forallb row_ok l = true ->
  close3 l (fold_right (moon_sin (N := RNum) a b c d) zz l) (fold_right (moon_sin (N := RNum) a' b' c' d') zz l).
Proof.
  induction l as [|r l IH]; intros F; cbn [fold_right].
  - unfold close3, famp, fampw; cbn [fold_right fst snd]. change (n_ofZ (n := RNum) 0) with 0. unfold Rdiv. rewrite !Rmult_0_l.
    split; apply cl_weak with (e := 0) (b := 0); try lra; apply cl_const; rewrite Rabs_R0; lra.
  - cbn [forallb] in F. apply andb_prop in F as (F & F'). specialize (IH F').
    destruct (row_step r F l) as (EA & EW & W). unfold moon_sin at 1 3. pairs. unfold close3 in *. rewrite EA, EW. clear EA EW.
    destruct (mtheta (snd r)) as (N1 & N2 & N3). destruct IH as (I1 & I2).
    unR. cbn [fst snd]. rewrite lit_decimal.
    set (x := decimal (fst r)) in *. pose proof (cl_const x (Rabs x) (Rle_refl _)) as C. pose proof (Rabs_pos x) as X0.
    apply cl_sin in N1 as S1. apply cl_cos in N1 as S2. change (car RNum) with R in *. apply cl_const in N3. rewrite N2 in N3 at 2.
    pose proof (nonlin _ _ _ W X0 E0).
    split.
    + eapply cl_weak; [eapply cl_add; [exact I1|eapply cl_mul; [exact C|exact S1]]|lra|lra].
    + eapply cl_weak; [eapply cl_add; [exact I2|eapply cl_mul; [eapply cl_mul; [exact C|exact S2]|exact N3]]|lra|lra].
Qed.
Lemma mcos_close : forall l : list frow, forallb row_ok l = true ->
  close3 l (fold_right (moon_cos (N := RNum) a b c d) zz l) (fold_right (moon_cos (N := RNum) a' b' c' d') zz l).
Proof.
  induction l as [|r l IH]; intros F; cbn [fold_right].
  - unfold close3, famp, fampw; cbn [fold_right fst snd]. change (n_ofZ (n := RNum) 0) with 0. unfold Rdiv. rewrite !Rmult_0_l.
    split; apply cl_weak with (e := 0) (b := 0); try lra; apply cl_const; rewrite Rabs_R0; lra.
  - cbn [forallb] in F. apply andb_prop in F as (F & F'). specialize (IH F').
    destruct (row_step r F l) as (EA & EW & W). unfold moon_cos at 1 3. pairs. unfold close3 in *. rewrite EA, EW. clear EA EW.
    destruct (mtheta (snd r)) as (N1 & N2 & N3). destruct IH as (I1 & I2).
    unR. cbn [fst snd]. rewrite lit_decimal.
    set (x := decimal (fst r)) in *. pose proof (cl_const x (Rabs x) (Rle_refl _)) as C. pose proof (Rabs_pos x) as X0.
    apply cl_sin in N1 as S1. apply cl_cos in N1 as S2. change (car RNum) with R in *. apply cl_const in N3. rewrite N2 in N3 at 2.
    pose proof (nonlin _ _ _ W X0 E0).
    split.
    + eapply cl_weak; [eapply cl_add; [exact I1|eapply cl_mul; [exact C|exact S2]]|lra|lra].
    + eapply cl_weak; [eapply cl_sub; [exact I2|eapply cl_mul; [eapply cl_mul; [exact C|exact S1]|exact N3]]|lra|lra].
Qed.
End Series.

(** ** Exact arguments *)
Section Exact.
Context (year : Z).
Let yi : R := IZR year.
Definition ye0 (y : R) : R := radians (270.434164 + 4812.678831 * (IZR year + y)).
Definition yem (y : R) : R := radians (358.475833 + 359.990498 * (IZR year + y)).
Definition yemp (y : R) : R := radians (296.104608 + 4771.988491 * (IZR year + y)).
Definition yd (y : R) : R := radians (350.737486 + 4452.671142 * (IZR year + y)).
Definition yf (y : R) : R := radians (11.250889 + 4832.020251 * (IZR year + y)).
Definition yL (y : R) := fold_right (moon_sin (N := RNum) (yem y) (yemp y) (yd y) (yf y)) zz moon_L.
Definition yB (y : R) := fold_right (moon_sin (N := RNum) (yem y) (yemp y) (yd y) (yf y)) zz moon_B.
Definition yP (y : R) := fold_right (moon_cos (N := RNum) (yem y) (yemp y) (yd y) (yf y)) zz moon_P.

Lemma fdeg_near : Rabs (fdeg (N := RNum) - PI / 180) <= 5.8e-14.
Proof. pose proof PI_bounds. unfold fdeg; unR. decs. apply Rabs_le. lra. Qed.
Definition eta : R := 2.1e-11.

Lemma marg_near : forall (c0 c1 c2 : R) (n : Z) y, c1 = 360 * IZR n ->
  anear eta (moon_arg (N := RNum) c0 c1 c2 (yi + y) y) (radians (c0 + (c1 + c2) * (yi + y))).
Proof.
  intros c0 c1 c2 n y E. unfold moon_arg. unR.
  pose proof (fmod360_near _ (c0 + c1 * y + c2 * (yi + y)) _ fdeg_near) as H.
  eapply anear_weak; [|unfold eta; apply Rle_refl].
  destruct H as (k & H). exists (k - n * year)%Z. rewrite minus_IZR, mult_IZR. fold yi.
  match goal with |- Rabs ?x <= _ => match type of H with Rabs ?z <= _ => replace x with z end end; [lra|].
  unfold yi. rewrite E. unfold radians. change (car RNum) with R. set (q := Rfmod _ _). set (g := fdeg). change (car RNum) with R in *. clearbody q g. field.
Qed.
Lemma yargs_near y :
  anear eta (moon_elp (N := RNum) (yi + y) y) (ye0 y) /\ anear eta (moon_em (N := RNum) (yi + y)) (yem y) /\
  anear eta (moon_emp (N := RNum) (yi + y) y) (yemp y) /\ anear eta (moon_d (N := RNum) (yi + y) y) (yd y) /\
  anear eta (moon_f (N := RNum) (yi + y) y) (yf y).
Proof.
  assert (X : forall c0 c1 c2 e0 e1 n, c1 = 360 * IZR n -> e0 = c0 -> e1 = c1 + c2 ->
     anear eta (moon_arg (N := RNum) c0 c1 c2 (yi + y) y) (radians (e0 + e1 * (yi + y)))).
  { intros c0 c1 c2 e0 e1 n H -> ->. apply marg_near with n. exact H. }
  refine (conj _ (conj _ (conj _ (conj _ _)))).
  - apply X with (n := 13%Z); unR; decs; lra.
  - replace (moon_em (N := RNum) (yi + y)) with (moon_arg (N := RNum) (Rdec 358475833 (-6)) 0 (Rdec 359990498 (-6)) (yi + y) y).
    + apply X with (n := 0%Z); decs; lra.
    + unfold moon_em, moon_arg. unR. rewrite Rmult_0_l, Rplus_0_r. reflexivity.
  - apply X with (n := 13%Z); unR; decs; lra.
  - apply X with (n := 12%Z); unR; decs; lra.
  - apply X with (n := 13%Z); unR; decs; lra.
Qed.
End Exact.
