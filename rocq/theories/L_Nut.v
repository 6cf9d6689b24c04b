(** Lemmas for the nutation series. *)
From Coq Require Import ZArith QArith Qreals Reals Lra Lia List.
From Verif Require Import Num NumR L_Real M_Angle S_Geom S_Frame S_Nut L_Angle L_Vec M_Nutc L_Gal L_Frame.
Import ListNotations.
Open Scope R_scope.

(** The series of nutc80 at given arguments. *)
Definition angle80 (l lp f d om : R) (r : nut_row) : R :=
  IZR (n_l r) * l + IZR (n_lp r) * lp + IZR (n_F r) * f + IZR (n_D r) * d + IZR (n_Om r) * om.
Definition accp (t l lp f d om : R) (r : nut_row) (acc : R) : R :=
  acc + (IZR (n_psi r) + IZR (n_psi' r) / 10 * t) * sin (angle80 l lp f d om r).
Definition acce (t l lp f d om : R) (r : nut_row) (acc : R) : R :=
  acc + (IZR (n_eps r) + IZR (n_eps' r) / 10 * t) * cos (angle80 l lp f d om r).

Lemma step_add A A' t t' : A = A' -> t = t' -> A + t = A' + t'. Proof. congruence. Qed.
Lemma step_sub A A' t t' : A = A' -> - t = t' -> A - t = A' + t'. Proof. intros; subst; ring. Qed.
Lemma step_skip A A' T x : A = A' -> A = A' + (0 + 0 / 10 * T) * x. Proof. intros; subst; lra. Qed.
Ltac term80 f :=
  match goal with |- ?L = ?Rr =>
    match L with context [f ?x] => match Rr with context [f ?y] =>
      replace y with x by ring; lra end end end.
Lemma series80 (t l lp f d om : R) : nutc80_series (N := RNum) t l lp f d om =
  (fold_right (accp t l lp f d om) 0 iau1980_table, fold_right (acce t l lp f d om) 0 iau1980_table).
Proof.
  unfold nutc80_series. unR. cbv zeta. cbn [Rdec]. change (Z.pow_pos 10 1) with 10%Z.
  cbv beta iota delta [fold_right iau1980_table accp acce angle80 n_l n_lp n_F n_D n_Om n_psi n_psi' n_eps n_eps'].
  apply f_equal2.
  - repeat (first [apply step_add | apply step_sub]; [|term80 sin]). reflexivity.
  - repeat first [apply step_skip | (apply step_add || apply step_sub); [|term80 cos]]. reflexivity.
Qed.

Lemma fold_acc {A} (g : A -> R) l : fold_right (fun r acc => acc + g r) 0 l = Rsum (map g l).
Proof. induction l as [|x l IH]; cbn [fold_right map Rsum]; [reflexivity|]. rewrite IH. ring. Qed.

Lemma same_angle_mul k a b : same_angle a b -> same_angle (IZR k * a) (IZR k * b).
Proof. intros [n ->]. exists (k * n)%Z. rewrite mult_IZR. ring. Qed.
Lemma same_angle_add a b c d : same_angle a b -> same_angle c d -> same_angle (a + c) (b + d).
Proof. intros [n ->] [m ->]. exists (n + m)%Z. rewrite plus_IZR. ring. Qed.

Lemma nutc80_args_spec tdb : exists l lp f d om,
  nutc80_args (N := RNum) tdb = (centuries_J2000 tdb, l, lp, f, d, om) /\
  let T := centuries_J2000 tdb in
  same_angle (iau1980_l T) l /\ same_angle (iau1980_lp T) lp /\ same_angle (iau1980_F T) f /\
  same_angle (iau1980_D T) d /\ same_angle (iau1980_Om T) om.
Proof.
  unfold nutc80_args. cbv zeta.
  replace (n_div (n_sub tdb (n_lit 515445 (-1))) (n_ofZ (n := RNum) 36525)) with (centuries_J2000 tdb)
    by (unfold centuries_J2000; unR; decs; lra).
  set (T := centuries_J2000 tdb).
  do 5 eexists. split; [reflexivity|].
  assert (DR : forall x y : R, x = y -> same_angle x (drange (N := RNum) y)) by (intros x y ->; apply drange_spec).
  unfold iau1980_l, iau1980_lp, iau1980_F, iau1980_D, iau1980_Om, arcsec.
  repeat split; apply DR; unR; decs; field.
Qed.
Lemma angle80_same T l lp f d om r :
  same_angle (iau1980_l T) l -> same_angle (iau1980_lp T) lp -> same_angle (iau1980_F T) f ->
  same_angle (iau1980_D T) d -> same_angle (iau1980_Om T) om -> same_angle (iau1980_angle T r) (angle80 l lp f d om r).
Proof. intros. unfold iau1980_angle, angle80. repeat apply same_angle_add; apply same_angle_mul; assumption. Qed.
Lemma Rsum_ext {A} (g h : A -> R) l : (forall x, g x = h x) -> Rsum (map g l) = Rsum (map h l).
Proof. intros E. induction l as [|x l IH]; cbn; [reflexivity|]. rewrite E, IH. reflexivity. Qed.

Lemma nutc80_spec tdb : let T := centuries_J2000 tdb in
  nutc80 (N := RNum) tdb = (iau1980_dpsi T, iau1980_deps T, obliquity tdb).
Proof.
  cbv zeta. unfold nutc80. cbv zeta. destruct (nutc80_args_spec tdb) as (l & lp & f & d & om & E & H). rewrite E.
  cbv zeta in H. set (T := centuries_J2000 tdb) in *. change (car RNum) with R in *. rewrite series80.
  destruct H as (H1 & H2 & H3 & H4 & H5).
  assert (P : fold_right (accp T l lp f d om) 0 iau1980_table =
              Rsum (map (fun r => (IZR (n_psi r) + IZR (n_psi' r) / 10 * T) * sin (iau1980_angle T r)) iau1980_table)).
  { unfold accp. rewrite (fold_acc (fun r => (IZR (n_psi r) + IZR (n_psi' r) / 10 * T) * sin (angle80 l lp f d om r))).
    apply Rsum_ext. intros r. f_equal. symmetry. apply same_angle_sin, angle80_same; assumption. }
  assert (Q : fold_right (acce T l lp f d om) 0 iau1980_table =
              Rsum (map (fun r => (IZR (n_eps r) + IZR (n_eps' r) / 10 * T) * cos (iau1980_angle T r)) iau1980_table)).
  { unfold acce. rewrite (fold_acc (fun r => (IZR (n_eps r) + IZR (n_eps' r) / 10 * T) * cos (angle80 l lp f d om r))).
    apply Rsum_ext. intros r. f_equal. symmetry. apply same_angle_cos, angle80_same; assumption. }
  rewrite P, Q. clear P Q. unfold iau1980_dpsi, iau1980_deps, obliquity. cbv zeta. fold T.
  set (sp := Rsum (map (fun r => _ * sin _) _)). set (se := Rsum (map (fun r => _ * cos _) _)).
  unfold arcsec. unR. f_equal; [f_equal|]; decs; field.
Qed.

(** Size of a trigonometric sum. *)
Definition zabs_sum (f : nut_row -> Z) (l : list nut_row) : Z := fold_right (fun r acc => Z.abs (f r) + acc)%Z 0%Z l.
Lemma sum_bound (f g : nut_row -> Z) (h : nut_row -> R) T l : (forall r, Rabs (h r) <= 1) ->
  Rabs (Rsum (map (fun r => (IZR (f r) + IZR (g r) / 10 * T) * h r) l)) <= IZR (zabs_sum f l) + IZR (zabs_sum g l) / 10 * Rabs T.
Proof.
  intros H. induction l as [|r l IH]; cbn [map Rsum zabs_sum fold_right].
  - rewrite Rabs_R0. lra.
  - fold (zabs_sum f l) (zabs_sum g l). rewrite !plus_IZR, !abs_IZR.
    eapply Rle_trans; [apply Rabs_triang|]. rewrite Rabs_mult. specialize (H r).
    assert (Rabs (IZR (f r) + IZR (g r) / 10 * T) <= Rabs (IZR (f r)) + Rabs (IZR (g r)) / 10 * Rabs T).
    { eapply Rle_trans; [apply Rabs_triang|]. unfold Rdiv. rewrite !Rabs_mult, (Rabs_pos_eq (/ 10)) by lra. lra. }
    pose proof (Rabs_pos (IZR (f r) + IZR (g r) / 10 * T)). pose proof (Rabs_pos (h r)). nra.
Qed.
Lemma nutc80_bound T : Rabs (iau1980_dpsi T) <= (19.44 + 0.02 * Rabs T) * arcsec /\ Rabs (iau1980_deps T) <= (10.08 + 0.002 * Rabs T) * arcsec.
Proof.
  pose proof (sum_bound n_psi n_psi' (fun r => sin (iau1980_angle T r)) T iau1980_table (fun r => abs_sin _)) as P.
  pose proof (sum_bound n_eps n_eps' (fun r => cos (iau1980_angle T r)) T iau1980_table (fun r => abs_cos _)) as Q.
  change (zabs_sum n_psi iau1980_table) with 194368%Z in P. change (zabs_sum n_psi' iau1980_table) with 1823%Z in P.
  change (zabs_sum n_eps iau1980_table) with 100762%Z in Q. change (zabs_sum n_eps' iau1980_table) with 141%Z in Q.
  unfold iau1980_dpsi, iau1980_deps. set (sp := Rsum _) in *. set (se := Rsum _) in *. pose proof (Rabs_pos T).
  assert (A : 0 < arcsec) by (unfold arcsec; lra).
  rewrite !Rabs_mult, (Rabs_pos_eq arcsec), (Rabs_pos_eq 0.0001) by lra.
  split; apply Rmult_le_compat_r; lra.
Qed.

(** nutc: the Shirai-Fukushima series. *)
Definition zabs_cols (i j : nat) (l : list (list Z)) : Z :=
  fold_right (fun r acc => Z.abs (nth i r 0%Z) + Z.abs (nth j r 0%Z) + acc)%Z 0%Z l.
Lemma nutc_term_bound (coef : list Z) (t c s : R) : Rabs c <= 1 -> Rabs s <= 1 ->
  Rabs (nutc_term (N := RNum) coef t c s) <=
  (IZR (Z.abs (nth 0 coef 0%Z)) + IZR (Z.abs (nth 1 coef 0%Z))) / 10 +
  (IZR (Z.abs (nth 2 coef 0%Z)) + IZR (Z.abs (nth 3 coef 0%Z))) / 10 * Rabs t.
Proof.
  intros C S. pose proof (Rabs_pos t) as T0.
  assert (Z0 : Rabs 0 <= (IZR (Z.abs (nth 0 coef 0%Z)) + IZR (Z.abs (nth 1 coef 0%Z))) / 10 +
     (IZR (Z.abs (nth 2 coef 0%Z)) + IZR (Z.abs (nth 3 coef 0%Z))) / 10 * Rabs t).
  { rewrite Rabs_R0, !abs_IZR. pose proof (Rabs_pos (IZR (nth 0 coef 0%Z))). pose proof (Rabs_pos (IZR (nth 1 coef 0%Z))).
    pose proof (Rabs_pos (IZR (nth 2 coef 0%Z))). pose proof (Rabs_pos (IZR (nth 3 coef 0%Z))). nra. }
  destruct coef as [|c0 [|c1 [|c2 [|c3 [|]]]]]; try exact Z0. clear Z0. cbn [nth nutc_term]. unR. cbn [Rdec]. change (Z.pow_pos 10 1) with 10%Z.
  rewrite !abs_IZR.
  assert (B : forall a b x : R, Rabs x <= 1 -> Rabs ((a / 10 + b / 10 * t) * x) <= Rabs a / 10 + Rabs b / 10 * Rabs t).
  { intros a b x X. rewrite Rabs_mult.
    assert (Rabs (a / 10 + b / 10 * t) <= Rabs a / 10 + Rabs b / 10 * Rabs t).
    { eapply Rle_trans; [apply Rabs_triang|]. unfold Rdiv. rewrite !Rabs_mult, (Rabs_pos_eq (/ 10)) by lra. lra. }
    pose proof (Rabs_pos (a / 10 + b / 10 * t)). pose proof (Rabs_pos x). nra. }
  eapply Rle_trans; [apply Rabs_triang|]. pose proof (B (IZR c0) (IZR c2) c C). pose proof (B (IZR c1) (IZR c3) s S). lra.
Qed.
Lemma nutc_series_bound (t : R) angles table (init : R) : length table = length fa_coef ->
  Rabs (nutc_series (N := RNum) t angles table init) <=
  Rabs init + IZR (zabs_cols 0 1 table) / 10 + IZR (zabs_cols 2 3 table) / 10 * Rabs t.
Proof.
  unfold nutc_series. generalize fa_coef as fa. intros fa. revert table.
  induction fa as [|row fa IH]; intros [|coef table] L; try discriminate.
  - cbn [combine fold_right zabs_cols]. lra.
  - cbn [combine fold_right fst snd]. injection L as L. specialize (IH table L).
    unfold zabs_cols. cbn [fold_right]. fold (zabs_cols 0 1 table) (zabs_cols 2 3 table). rewrite !plus_IZR.
    set (acc := fold_right _ _ _) in *. cbv zeta. unR. eapply Rle_trans; [apply Rabs_triang|].
    pose proof (nutc_term_bound coef t (cos (nutc_theta (N := RNum) row angles)) (sin (nutc_theta (N := RNum) row angles)) (abs_cos _) (abs_sin _)) as B.
    unR_in B. change (car RNum) with R in *. lra.
Qed.
Lemma nutc_args_centuries tdb : fst (nutc_args (N := RNum) tdb) = centuries_J2000 tdb.
Proof. unfold nutc_args. cbv zeta. cbn [fst]. unfold centuries_J2000. unR. decs. lra. Qed.
(** IAU 1980 obliquity corrected for the epoch-of-date precession rates. *)
Lemma nutc_bound tdb : let T := centuries_J2000 tdb in let '(psi, eps, eps0) := nutc (N := RNum) tdb in
  Rabs psi <= (19.51 + 0.32 * Rabs T) * arcsec /\ Rabs eps <= (10.1 + 0.03 * Rabs T) * arcsec.
Proof.
  cbv zeta. unfold nutc. pose proof (nutc_args_centuries tdb) as C. destruct (nutc_args (N := RNum) tdb) as [t angles]. cbn [fst] in C. subst t.
  set (T := centuries_J2000 tdb). cbv zeta. cbv iota. set (ms := nth 1 angles _).
  match goal with |- context [nutc_series T angles l_psi ?i] => pose proof (nutc_series_bound T angles l_psi i eq_refl) as P; set (ip := i) in * end.
  match goal with |- context [nutc_series T angles o_eps ?i] => pose proof (nutc_series_bound T angles o_eps i eq_refl) as Q; set (ie := i) in * end.
  change (zabs_cols 0 1 l_psi) with 194591524%Z in P. change (zabs_cols 2 3 l_psi) with 183910%Z in P.
  change (zabs_cols 0 1 o_eps) with 100860148%Z in Q. change (zabs_cols 2 3 o_eps) with 14668%Z in Q.
  assert (I1 : Rabs ip <= 155.1).
  { unfold ip. unR. decs. pose proof (SIN_bound ms). pose proof (SIN_bound (2 * ms)). apply Rabs_le. lra. }
  assert (I2 : Rabs ie = 0) by (unfold ie; unR; apply Rabs_R0).
  set (sp := nutc_series (N := RNum) T angles l_psi ip) in *. set (se := nutc_series (N := RNum) T angles o_eps ie) in *.
  change (car RNum) with R in *. clearbody sp se. pose proof (Rabs_pos T) as T0.
  assert (A : arcsec - 1e-23 <= n_lit (n := RNum) 4848136811095359935899141 (-30) <= arcsec + 1e-23) by (unfold arcsec; unR; decs; lra).
  set (k := n_lit (n := RNum) 4848136811095359935899141 (-30)) in *. change (car RNum) with R in *. clearbody k. unfold arcsec in *.
  assert (K : forall x b, Rabs x <= b -> Rabs (x * k) <= b * (0.00000484813681109535994 + 1e-23)).
  { intros x b H. rewrite Rabs_mult, (Rabs_pos_eq k) by lra. pose proof (Rabs_pos x). apply Rmult_le_compat; lra. }
  split.
  - match goal with |- Rabs (n_mul ?x k) <= _ => assert (B : Rabs x <= 19.503 + 0.318 * Rabs T) end.
    { unR. decs. eapply Rle_trans; [apply Rabs_triang|]. eapply Rle_trans; [apply Rplus_le_compat_r, Rabs_triang|].
      unfold Rdiv. rewrite !Rabs_Ropp, !Rabs_mult. rewrite !(Rabs_pos_eq (IZR _)), !(Rabs_pos_eq (/ IZR _)) by lra. lra. }
    pose proof (K _ _ B) as G. eapply Rle_trans; [exact G|]. nra.
  - match goal with |- Rabs (n_mul ?x k) <= _ => assert (B : Rabs x <= 10.0915 + 0.026 * Rabs T) end.
    { unR. decs. eapply Rle_trans; [apply Rabs_triang|]. eapply Rle_trans; [apply Rplus_le_compat_r, Rabs_triang|].
      unfold Rdiv. rewrite !Rabs_Ropp, !Rabs_mult. rewrite !(Rabs_pos_eq (IZR _)), !(Rabs_pos_eq (/ IZR _)) by lra. lra. }
    pose proof (K _ _ B) as G. eapply Rle_trans; [exact G|]. nra.
Qed.
