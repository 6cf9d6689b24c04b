(** evp: the Moon's part of the Earth's motion. *)
From Coq Require Import Reals ZArith Lra Lia List.
From Coquelicot Require Import Coquelicot.
From Verif Require Import Num NumR L_Pi L_Real M_Vec M_EphTab M_Eph M_EvpTab M_Evp S_Geom S_Eph L_Vec L_Trig L_Frame L_NutDiff L_Eph L_EphB L_EvpA L_EvpB L_EvpC.
Import ListNotations.
Open Scope R_scope.

(** ** The three lunar perturbations *)
Definition mo_l (a : nat -> R) : R :=
  1097594 / 10000000 * sin (a 0%nat) + (-2223581) / 100000000 * sin (a 1%nat) + 1148966 / 100000000 * sin (a 2%nat).
Definition mo_ld (a : nat -> R) : R :=
  2896773 / 10000000000000 * cos (a 0%nat) + 5083103 / 100000000000000 * cos (a 1%nat) + 5658888 / 100000000000000 * cos (a 2%nat).
Definition mo_p (a : nat -> R) : R :=
  5450474 / 100000000 * cos (a 0%nat) + 1002548 / 100000000 * cos (a 1%nat) + 8249439 / 1000000000 * cos (a 2%nat).
Definition mo_pd (a : nat -> R) : R :=
  - (1438491 / 10000000000000 * sin (a 0%nat)) - (-2291823) / 100000000000000 * sin (a 1%nat) - 4063015 / 100000000000000 * sin (a 2%nat).
(** Rates of the arguments per century. *)
Notation W0 := (83286911095275 / 10000000000).
Notation W1 := ((-72140632838100) / 10000000000).
Notation W2 := (15542754389685 / 1000000000).
Definition maS (t : R) (k : nat) : R := lin t (nth k dcargm (d0, d0)).
Definition mah (t : R) (k : nat) : R := evp_arg (N := RNum) (nth k dcargm (d0, d0)) t.
Definition mlS' (a : nat -> R) : R :=
  1097594 / 10000000 * W0 * cos (a 0%nat) + (-2223581) / 100000000 * W1 * cos (a 1%nat) + 1148966 / 100000000 * W2 * cos (a 2%nat).
Definition mpS' (a : nat -> R) : R :=
  - (5450474 / 100000000 * W0 * sin (a 0%nat)) - 1002548 / 100000000 * W1 * sin (a 1%nat) - 8249439 / 1000000000 * W2 * sin (a 2%nat).

Lemma mah_near (t : R) k : Rabs t <= 10 -> (k < 3)%nat -> anear 4e-10 (mah t k) (maS t k).
Proof. intros T K. apply arg_near'; [exact T|right]. apply nth_In. exact K. Qed.
Lemma maS_derive t k W : W = decimal (snd (nth k dcargm (d0, d0))) -> is_derive (fun t => maS t k) t W.
Proof. intros ->. unfold maS, lin. generalize (decimal (fst (nth k dcargm (d0, d0)))) (decimal (snd (nth k dcargm (d0, d0)))); intros. auto_derive; [easy|]. ring. Qed.
Lemma w0 : W0 = decimal (snd (nth 0 dcargm (d0, d0))). Proof. cbn [nth dcargm snd]. dnum. reflexivity. Qed.
Lemma w1 : W1 = decimal (snd (nth 1 dcargm (d0, d0))). Proof. cbn [nth dcargm snd]. dnum. reflexivity. Qed.
Lemma w2 : W2 = decimal (snd (nth 2 dcargm (d0, d0))). Proof. cbn [nth dcargm snd]. dnum. reflexivity. Qed.
Lemma moon_R (t : R) : evp_moon (N := RNum) t = (mo_l (mah t), mo_ld (mah t), mo_p (mah t), mo_pd (mah t)).
Proof.
  unfold evp_moon. cbn [combine fold_left dcargm ccampm evp_lunar]. rewrite !lit_decimal.
  change (evp_arg (N := RNum) ((51679830, -7)%Z, (83286911095275, -10)%Z) t) with (mah t 0).
  change (evp_arg (N := RNum) ((54913150, -7)%Z, (-72140632838100, -10)%Z) t) with (mah t 1).
  change (evp_arg (N := RNum) ((59598530, -7)%Z, (15542754389685, -9)%Z) t) with (mah t 2).
  unfold mo_l, mo_ld, mo_p, mo_pd. unR. dnum. f_equal; [f_equal; [f_equal|]|]; ring.
Qed.

Definition M1S (t : R) : R := qd (row3 dcfel 2) t.
Definition FmS (t : R) : R := qd (row3 dcfel 3) t.
Definition thS (t : R) : R := M1S t + mo_l (maS t).
Definition siS (t : R) : R := 3122140 / 100000000000 / (1 + mo_p (maS t)).
Definition beS (t : R) : R := 8978749 / 100000000 * sin (FmS t).
Definition thS' (t : R) : R := qd' (row3 dcfel 2) t + mlS' (maS t).
Definition siS' (t : R) : R := - (siS t * mpS' (maS t) * / (1 + mo_p (maS t))).
Definition beS' (t : R) : R := 8978749 / 100000000 * cos (FmS t) * qd' (row3 dcfel 3) t.

Lemma mo_p_bound a : Rabs (mo_p a) <= 73 / 1000. Proof. unfold mo_p. bnd. Qed.
Lemma mo_den a : 927 / 1000 <= 1 + mo_p a. Proof. pose proof (mo_p_bound a) as B. apply ab in B. lra. Qed.
Lemma mo_inv a : Rabs (/ (1 + mo_p a)) <= 1079 / 1000.
Proof. eapply Rle_trans; [apply (inv_bound _ (927 / 1000)); [lra|apply mo_den]|]. lra. Qed.
Lemma th_derive t : is_derive thS t (thS' t).
Proof.
  unfold thS, thS'. apply @is_derive_plus with (f := M1S) (g := fun t => mo_l (maS t)); [apply qd_derive|].
  unfold mo_l, mlS'. pose proof (maS_derive t 0 W0 w0) as A0. pose proof (maS_derive t 1 W1 w1) as A1. pose proof (maS_derive t 2 W2 w2) as A2.
  set (a := fun s => maS s 0) in *. set (b := fun s => maS s 1) in *. set (c := fun s => maS s 2) in *.
  change (is_derive (fun s => 1097594 / 10000000 * sin (a s) + (-2223581) / 100000000 * sin (b s) + 1148966 / 100000000 * sin (c s)) t
   (1097594 / 10000000 * W0 * cos (a t) + (-2223581) / 100000000 * W1 * cos (b t) + 1148966 / 100000000 * W2 * cos (c t))).
  auto_derive; [repeat split; first [exists W0; exact A0|exists W1; exact A1|exists W2; exact A2]|].
  derives. field.
Qed.
Lemma p_derive t : is_derive (fun s => mo_p (maS s)) t (mpS' (maS t)).
Proof.
  unfold mo_p, mpS'. pose proof (maS_derive t 0 W0 w0) as A0. pose proof (maS_derive t 1 W1 w1) as A1. pose proof (maS_derive t 2 W2 w2) as A2.
  set (a := fun s => maS s 0) in *. set (b := fun s => maS s 1) in *. set (c := fun s => maS s 2) in *.
  change (is_derive (fun s => 5450474 / 100000000 * cos (a s) + 1002548 / 100000000 * cos (b s) + 8249439 / 1000000000 * cos (c s)) t
   (- (5450474 / 100000000 * W0 * sin (a t)) - 1002548 / 100000000 * W1 * sin (b t) - 8249439 / 1000000000 * W2 * sin (c t))).
  auto_derive; [repeat split; first [exists W0; exact A0|exists W1; exact A1|exists W2; exact A2]|].
  derives. field.
Qed.
Lemma si_derive t : is_derive siS t (siS' t).
Proof.
  unfold siS, siS'. pose proof (p_derive t) as P. pose proof (mo_den (maS t)) as D. unfold siS.
  set (p := fun s => mo_p (maS s)) in *. change (mo_p (maS t)) with (p t) in *.
  change (is_derive (fun s => 3122140 / 100000000000 / (1 + p s)) t (- (3122140 / 100000000000 / (1 + p t) * mpS' (maS t) * / (1 + p t)))).
  auto_derive; [repeat split; [exists (mpS' (maS t)); exact P|lra]|]. derives. field. lra.
Qed.
Lemma be_derive t : is_derive beS t (beS' t).
Proof.
  unfold beS, beS'. pose proof (qd_derive (row3 dcfel 3) t) as Q. fold FmS in Q. change (qd (row3 dcfel 3)) with FmS in Q.
  set (w := qd' (row3 dcfel 3) t) in *. auto_derive; [exists w; exact Q|]. derives. field.
Qed.

(** ** Bounds *)
Lemma si_bound t : Rabs (siS t) <= 337 / 10000000.
Proof. unfold siS, Rdiv at 1. pose proof (mo_inv (maS t)) as I. bnd. Qed.
Lemma mp'_bound a : Rabs (mpS' a) <= 655. Proof. unfold mpS'. bnd. Qed.
Lemma mpd_rate a : Rabs (SC * mo_pd a - mpS' a) <= 1 / 1000.
Proof.
  unfold mo_pd, mpS'.
  match goal with |- Rabs (?s * (- (?a * ?x) - ?b * ?y - ?c * ?z) - (- (?a' * ?x) - ?b' * ?y - ?c' * ?z)) <= _ =>
    replace (s * (- (a * x) - b * y - c * z) - (- (a' * x) - b' * y - c' * z)) with ((a' - s * a) * x + (b' - s * b) * y + (c' - s * c) * z) by ring;
    assert (A : Rabs (a' - s * a) <= 3 / 10000) by (apply Rabs_le; lra); assert (B : Rabs (b' - s * b) <= 3 / 10000) by (apply Rabs_le; lra);
    assert (C : Rabs (c' - s * c) <= 3 / 10000) by (apply Rabs_le; lra) end.
  bnd.
Qed.
Lemma mld_rate a : Rabs (SC * mo_ld a - mlS' a) <= 1 / 1000.
Proof.
  unfold mo_ld, mlS'.
  match goal with |- Rabs (?s * (?a * ?x + ?b * ?y + ?c * ?z) - (?a' * ?x + ?b' * ?y + ?c' * ?z)) <= _ =>
    replace (s * (a * x + b * y + c * z) - (a' * x + b' * y + c' * z)) with ((s * a - a') * x + (s * b - b') * y + (s * c - c') * z) by ring;
    assert (A : Rabs (s * a - a') <= 3 / 10000) by (apply Rabs_le; lra); assert (B : Rabs (s * b - b') <= 3 / 10000) by (apply Rabs_le; lra);
    assert (C : Rabs (s * c - c') <= 3 / 10000) by (apply Rabs_le; lra) end.
  bnd.
Qed.
Lemma ml'_bound a : Rabs (mlS' a) <= 1254. Proof. unfold mlS'. bnd. Qed.
Lemma m1'_bound t : Rabs t <= 10 -> Rabs (qd' (row3 dcfel 2) t - OM - SC * (2661699 / 1000000000000)) <= 3 / 1000.
Proof.
  intros T. unfold qd'. cbn [row3 nth dcfel fst snd]. dnum.
  match goal with |- Rabs (?a + 2 * t * ?b - ?c - ?d) <= _ => replace (a + 2 * t * b - c - d) with ((a - c - d) + 2 * t * b) by ring end.
  eapply Rle_trans; [apply b_add; [apply Rabs_le; split; [instantiate (1 := 2 / 1000); lra|lra]|repeat bd]|lra].
Qed.
Lemma fm'_bound t : Rabs t <= 10 -> Rabs (8978749 / 100000000 * qd' (row3 dcfel 3) t - SC * (2399485 / 10000000000000)) <= 2 / 1000.
Proof.
  intros T. unfold qd'. cbn [row3 nth dcfel fst snd]. dnum.
  match goal with |- Rabs (?k * (?a + 2 * t * ?b) - ?d) <= _ => replace (k * (a + 2 * t * b) - d) with ((k * a - d) + k * (2 * t * b)) by ring end.
  eapply Rle_trans; [apply b_add; [apply Rabs_le; split; [instantiate (1 := 1 / 1000); lra|lra]|repeat bd]|lra].
Qed.
Lemma be_bound t : Rabs (beS t) <= 8978749 / 100000000. Proof. unfold beS. bnd. Qed.
Lemma be'_bound t : Rabs t <= 10 -> Rabs (beS' t) <= 758.
Proof.
  intros T. unfold beS', qd'. cbn [row3 nth dcfel fst snd]. dnum. bnd.
Qed.
Lemma sin_le x b : Rabs x <= b -> Rabs (sin x) <= b.
Proof. intros H. pose proof (sin_lip x 0) as L. rewrite sin_0, !Rminus_0_r in L. lra. Qed.
Lemma cos_ge x b : Rabs x <= b -> b <= 1 -> Rabs (1 - cos x) <= b * b / 2.
Proof.
  intros X B. pose proof (Rabs_pos x). pose proof (ab _ _ X) as X'. destruct (pre_cos_bound x 0 ltac:(lra) ltac:(lra)) as (L & _).
  unfold cos_approx in L. cbn in L. unfold cos_term in L. cbn in L. pose proof (COS_bound x) as [_ U].
  assert (x * x <= b * b) by nra. apply Rabs_le. split; [nra|]. lra.
Qed.

(** ** Rates: radial, tangential and vertical *)
Section Moon.
Context (t : R) (T : Rabs t <= 10).
Let u := siS t * cos (beS t).
Let u' := siS' t * cos (beS t) - siS t * sin (beS t) * beS' t.
Lemma u_derive : is_derive (fun s => siS s * cos (beS s)) t u'.
Proof.
  unfold u'. pose proof (si_derive t) as A. pose proof (be_derive t) as B. auto_derive.
  - repeat split; [exists (siS' t); exact A|exists (beS' t); exact B].
  - derives. ring.
Qed.
Lemma z_derive : is_derive (fun s => - (siS s * sin (beS s))) t (- (siS' t * sin (beS t) + siS t * cos (beS t) * beS' t)).
Proof.
  pose proof (si_derive t) as A. pose proof (be_derive t) as B. auto_derive.
  - repeat split; [exists (siS' t); exact A|exists (beS' t); exact B].
  - derives. ring.
Qed.
Lemma moon_radial : Rabs (siS t * (SC * mo_pd (maS t)) + u') <= 43 / 10000.
Proof.
  unfold u', siS'. pose proof (si_bound t) as S. pose proof (mp'_bound (maS t)) as P. pose proof (mpd_rate (maS t)) as R.
  pose proof (mo_p_bound (maS t)) as PB. pose proof (mo_inv (maS t)) as I. pose proof (mo_den (maS t)) as D.
  pose proof (be_bound t) as B. pose proof (be'_bound t T) as B'. pose proof (sin_le _ _ B) as SB. pose proof (cos_ge _ _ B ltac:(lra)) as CB.
  set (i := / (1 + mo_p (maS t))) in *. set (p := mo_p (maS t)) in *. set (p' := mpS' (maS t)) in *.
  assert (E : i = 1 - p * i) by (unfold i; field; lra).
  replace (siS t * (SC * mo_pd (maS t)) + (- (siS t * p' * i) * cos (beS t) - siS t * sin (beS t) * beS' t)) with
    (siS t * (SC * mo_pd (maS t) - p') + siS t * p' * (1 - i + i * (1 - cos (beS t))) - siS t * sin (beS t) * beS' t) by ring.
  assert (J : Rabs (1 - i) <= 79 / 1000). { rewrite E at 1. replace (1 - (1 - p * i)) with (p * i) by ring. bnd. }
  bnd.
Qed.
Lemma moon_tangential : Rabs (siS t * (SC * (2661699 / 1000000000000 + mo_ld (maS t))) - u * (thS' t - OM)) <= 14 / 10000.
Proof.
  unfold u, thS'. pose proof (si_bound t) as S. pose proof (mld_rate (maS t)) as R. pose proof (ml'_bound (maS t)) as L.
  pose proof (m1'_bound t T) as M. pose proof (be_bound t) as B. pose proof (cos_ge _ _ B ltac:(lra)) as CB.
  set (m := qd' (row3 dcfel 2) t) in *. set (l' := mlS' (maS t)) in *. set (k := SC * (2661699 / 1000000000000)) in *.
  assert (K : Rabs k <= 8400) by (unfold k; bnd).
  replace (siS t * (SC * (2661699 / 1000000000000 + mo_ld (maS t))) - siS t * cos (beS t) * (m + l' - OM)) with
    (siS t * ((1 - cos (beS t)) * (k + (m - OM - k) + l') - (m - OM - k) + (SC * mo_ld (maS t) - l'))) by (unfold k; ring).
  bnd.
Qed.
Lemma moon_vertical : Rabs (- (siS t * (SC * (2399485 / 10000000000000)) * cos (FmS t)) - - (siS' t * sin (beS t) + siS t * cos (beS t) * beS' t)) <= 25 / 10000.
Proof.
  unfold siS', beS'. pose proof (si_bound t) as S. pose proof (fm'_bound t T) as R. pose proof (mp'_bound (maS t)) as P.
  pose proof (mo_inv (maS t)) as I. pose proof (be_bound t) as B. pose proof (sin_le _ _ B) as SB. pose proof (cos_ge _ _ B ltac:(lra)) as CB.
  set (m := qd' (row3 dcfel 3) t) in *. set (k := SC * (2399485 / 10000000000000)) in *. set (i := / (1 + mo_p (maS t))) in *.
  assert (K : Rabs k <= 760) by (unfold k; bnd).
  replace (- (siS t * k * cos (FmS t)) - - (- (siS t * mpS' (maS t) * i) * sin (beS t) + siS t * cos (beS t) * (8978749 / 100000000 * cos (FmS t) * m))) with
    (siS t * cos (FmS t) * ((8978749 / 100000000 * m - k) * (1 - (1 - cos (beS t))) - k * (1 - cos (beS t))) - siS t * mpS' (maS t) * i * sin (beS t)) by ring.
  bnd.
Qed.
End Moon.
