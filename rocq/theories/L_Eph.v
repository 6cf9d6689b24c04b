From Coq Require Import Reals List ZArith Lra Lia.
From Coquelicot Require Import Coquelicot.
From Verif Require Import Num NumR M_Vec M_EphTab M_Eph S_Geom S_Eph L_Frame.
Import ListNotations.
Open Scope R_scope.

Lemma lit_decimal : forall d, lit (N := RNum) d = decimal d.
Proof.
  intros [m e]; unfold lit, decimal; unR; cbn [fst snd]. unfold Rdec.
  destruct e; cbn [Z.ltb Z.compare Z.opp]; try reflexivity.
  - change (10 ^ 0)%Z with 1%Z. lra.
  - rewrite mult_IZR; reflexivity.
Qed.

Ltac derives := repeat match goal with
  |- context [Derive ?g ?x] => erewrite (is_derive_unique g x) by eassumption end.

(** ** epv *)
Fixpoint harmonic' (l : list term) (t : R) : R :=
  match l with
  | nil => 0
  | (a, b, c) :: l => - (decimal a * decimal c * sin (decimal b + decimal c * t)) + harmonic' l t
  end.

Lemma harmonic_derive : forall l t, is_derive (harmonic l) t (harmonic' l t).
Proof.
  induction l as [|[[a b] c] l IH]; intros t; cbn [harmonic harmonic'].
  - exact (is_derive_const 0 t).
  - apply @is_derive_plus with (f := fun t => decimal a * cos (decimal b + decimal c * t)) (g := harmonic l).
    2: apply IH.
    generalize (decimal a) (decimal b) (decimal c); intros x y z. auto_derive; [easy|]. ring.
Qed.

Lemma epv_t0_eq : forall t l s, epv_t0 (N := RNum) t l s = (fst s + harmonic l t, snd s + harmonic' l t).
Proof.
  induction l as [|[[a b] c] l IH]; intros [p v]; unfold epv_t0 in *; cbn [fold_left harmonic harmonic' fst snd].
  - f_equal; unR; symmetry; apply Rplus_0_r.
  - rewrite IH. cbn [fst snd]. rewrite !lit_decimal. unR. f_equal; ring.
Qed.
Lemma epv_t1_eq : forall t l s, epv_t1 (N := RNum) t l s =
  (fst s + t * harmonic l t, snd s + (harmonic l t + t * harmonic' l t)).
Proof.
  induction l as [|[[a b] c] l IH]; intros [p v]; unfold epv_t1 in *; cbn [fold_left harmonic harmonic' fst snd].
  - unR. change (car RNum) with R in *. f_equal; ring.
  - rewrite IH. cbn [fst snd]. rewrite !lit_decimal. unR. f_equal; ring.
Qed.
Lemma epv_t2_eq : forall t l s, epv_t2 (N := RNum) t l s =
  (fst s + t * t * harmonic l t, snd s + (2 * t * harmonic l t + t * t * harmonic' l t)).
Proof.
  induction l as [|[[a b] c] l IH]; intros [p v]; unfold epv_t2 in *; cbn [fold_left harmonic harmonic' fst snd].
  - unR. change (car RNum) with R in *. f_equal; ring.
  - rewrite IH. cbn [fst snd]. rewrite !lit_decimal. unR.
    replace (Rdec 20 (-1)) with 2 by (unfold Rdec; cbn; lra). f_equal; ring.
Qed.

Definition poisson' (l0 l1 l2 : list term) (t : R) : R :=
  harmonic' l0 t + (harmonic l1 t + t * harmonic' l1 t) + (2 * t * harmonic l2 t + t * t * harmonic' l2 t).
Lemma poisson_derive : forall l0 l1 l2 t, is_derive (poisson l0 l1 l2) t (poisson' l0 l1 l2 t).
Proof.
  intros. unfold poisson, poisson'.
  pose proof (harmonic_derive l0 t) as H0. pose proof (harmonic_derive l1 t) as H1. pose proof (harmonic_derive l2 t) as H2.
  auto_derive.
  - repeat split; eexists; eassumption.
  - derives. ring.
Qed.

Definition helio (x : axis) : R -> R := poisson (e0 x) (e1 x) (e2 x).
Definition solar (x : axis) : R -> R := poisson (s0 x) (s1 x) (s2 x).
Definition helio' (x : axis) : R -> R := poisson' (e0 x) (e1 x) (e2 x).
Definition solar' (x : axis) : R -> R := poisson' (s0 x) (s1 x) (s2 x).
Definition jyear : R := Rdec 36525 (-2).
Definition since (date : R) : R := (date - Rdec 515445 (-1)) / jyear.

Lemma epv_axis_eq : forall t x, epv_axis (N := RNum) t x =
  ((helio x t, helio' x t / jyear), (helio x t + solar x t, (helio' x t + solar' x t) / jyear)).
Proof.
  intros. unfold epv_axis.
  do 2 (rewrite epv_t0_eq, epv_t1_eq, epv_t2_eq; cbn [fst snd]). unR.
  change (Rdec 36525 (-2)) with jyear.
  unfold helio, solar, helio', solar', poisson, poisson'.
  change (car RNum) with R.
  apply f_equal2; apply f_equal2; [ring|apply f_equal2; [ring|reflexivity]|ring|apply f_equal2; [ring|reflexivity]].
Qed.

Definition orient : RM := M3
  (V3 1 (Rdec 211284 (-12)) (Rdec (-91603) (-12)))
  (V3 (Rdec (-230286) (-12)) (Rdec 917482137087 (-12)) (Rdec (-397776982902) (-12)))
  (V3 0 (Rdec 397776982902 (-12)) (Rdec 917482137087 (-12))).
Lemma epv_rotate_eq : forall x y z, epv_rotate (N := RNum) x y z = mapply orient (V3 x y z).
Proof.
  intros. unfold epv_rotate, mapply, orient, dot; cbn [v0 v1 v2 r0 r1 r2]; unR.
  f_equal; ring.
Qed.

Lemma epv_with_eq : forall ax ay az date, let t := since date in
  epv_with (N := RNum) ax ay az date =
  (VPV (N := RNum) (mapply orient (V3 (helio ax t) (helio ay t) (helio az t)))
       (mapply orient (V3 (helio' ax t / jyear) (helio' ay t / jyear) (helio' az t / jyear))),
   VPV (N := RNum) (mapply orient (V3 (helio ax t + solar ax t) (helio ay t + solar ay t) (helio az t + solar az t)))
       (mapply orient (V3 ((helio' ax t + solar' ax t) / jyear) ((helio' ay t + solar' ay t) / jyear)
                          ((helio' az t + solar' az t) / jyear)))).
Proof.
  intros. unfold epv_with. rewrite !epv_axis_eq. unR. rewrite !epv_rotate_eq. reflexivity.
Qed.

Lemma since_derive : forall date, is_derive since date (/ jyear).
Proof. intros. unfold since. generalize (Rdec 515445 (-1)) jyear; intros a b. auto_derive; [easy|]. unfold Rdiv; ring. Qed.

Lemma comp_since : forall (f : R -> R) f' date, is_derive f (since date) f' ->
  is_derive (fun d => f (since d)) date (f' / jyear).
Proof.
  intros f f' date H. replace (f' / jyear) with (scal (/ jyear) f').
  - apply (is_derive_comp f since); [exact H|apply since_derive].
  - unfold scal; cbn; unfold mult; cbn. unfold Rdiv; ring.
Qed.

Lemma row_derive : forall a b c (f g h : R -> R) f' g' h' x, is_derive f x f' -> is_derive g x g' -> is_derive h x h' ->
  is_derive (fun s => a * f s + b * g s + c * h s) x (a * f' + b * g' + c * h').
Proof.
  intros a b c f g h f' g' h' x F G H.
  auto_derive; [repeat split; eexists; eassumption|].
  derives. ring.
Qed.

Lemma mapply_velocity : forall m (f g h : R -> R) f' g' h' x, is_derive f x f' -> is_derive g x g' -> is_derive h x h' ->
  velocity_at (fun s => mapply m (V3 (f s) (g s) (h s))) x (mapply m (V3 f' g' h')).
Proof.
  intros. unfold velocity_at, mapply, dot; cbn [v0 v1 v2].
  repeat split; apply is_derive_Reals; apply row_derive; assumption.
Qed.

Lemma helio_derive : forall x t, is_derive (helio x) t (helio' x t).
Proof. intros. apply poisson_derive. Qed.
Lemma both_derive : forall x t, is_derive (fun t => helio x t + solar x t) t (helio' x t + solar' x t).
Proof. intros. apply @is_derive_plus; apply poisson_derive. Qed.

Lemma velocity_ext : forall f g x v, (forall s, f s = g s) -> velocity_at g x v -> velocity_at f x v.
Proof.
  intros f g x v E (A & B & C).
  repeat split; apply is_derive_Reals.
  - apply is_derive_ext with (f := fun s => v0 (g s)); [intros; now rewrite E|now apply is_derive_Reals].
  - apply is_derive_ext with (f := fun s => v1 (g s)); [intros; now rewrite E|now apply is_derive_Reals].
  - apply is_derive_ext with (f := fun s => v2 (g s)); [intros; now rewrite E|now apply is_derive_Reals].
Qed.

Lemma epv_velocity : forall ax ay az date,
  velocity_at (fun d => pos (fst (epv_with (N := RNum) ax ay az d))) date (velo (fst (epv_with (N := RNum) ax ay az date))) /\
  velocity_at (fun d => pos (snd (epv_with (N := RNum) ax ay az d))) date (velo (snd (epv_with (N := RNum) ax ay az date))).
Proof.
  intros. rewrite epv_with_eq. cbn [fst snd velo]. split.
  - eapply velocity_ext; [intros s; rewrite epv_with_eq; cbn [fst pos]; reflexivity|].
    apply (mapply_velocity orient (fun s => helio ax (since s)) (fun s => helio ay (since s)) (fun s => helio az (since s)));
      apply comp_since with (f := helio _); apply helio_derive.
  - eapply velocity_ext; [intros s; rewrite epv_with_eq; cbn [snd pos]; reflexivity|].
    apply (mapply_velocity orient (fun s => helio ax (since s) + solar ax (since s))
      (fun s => helio ay (since s) + solar ay (since s)) (fun s => helio az (since s) + solar az (since s)));
    [apply comp_since with (f := fun t => helio ax t + solar ax t)
    |apply comp_since with (f := fun t => helio ay t + solar ay t)
    |apply comp_since with (f := fun t => helio az t + solar az t)]; apply both_derive.
Qed.
