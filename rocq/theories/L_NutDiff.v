(** The two nutation series compared: the Shirai-Fukushima model of nutc against
    the IAU 1980 series of nutc80. *)
From Coq Require Import ZArith QArith Qreals Reals Lra Lia List Bool Permutation.
From Verif Require Import Num NumR L_Pi L_Real M_Angle S_Geom S_Frame S_Nut L_Angle L_Vec M_Nutc L_Trig L_Gal L_Frame L_Nut.
Import ListNotations.
Open Scope R_scope.

Lemma abs_between x a : Rabs x <= a -> - a <= x <= a.
Proof. intros H. pose proof (Rle_abs x). pose proof (Rle_abs (- x)) as H1. rewrite Rabs_Ropp in H1. lra. Qed.

(** Angles equal up to whole turns and an error. *)
Definition anear (d a b : R) : Prop := exists k : Z, Rabs (a - b - IZR k * (2 * PI)) <= d.
Lemma anear_sin d a b : anear d a b -> Rabs (sin a - sin b) <= d.
Proof.
  intros [k K]. assert (E : sin b = sin (b + IZR k * (2 * PI))) by (symmetry; apply same_angle_sin; exists k; reflexivity).
  rewrite E. eapply Rle_trans; [apply sin_lip|]. replace (a - (b + IZR k * (2 * PI))) with (a - b - IZR k * (2 * PI)) by ring. exact K.
Qed.
Lemma anear_cos d a b : anear d a b -> Rabs (cos a - cos b) <= d.
Proof.
  intros [k K]. assert (E : cos b = cos (b + IZR k * (2 * PI))) by (symmetry; apply same_angle_cos; exists k; reflexivity).
  rewrite E. eapply Rle_trans; [apply cos_lip|]. replace (a - (b + IZR k * (2 * PI))) with (a - b - IZR k * (2 * PI)) by ring. exact K.
Qed.
Lemma anear_add d e a b a' b' : anear d a b -> anear e a' b' -> anear (d + e) (a + a') (b + b').
Proof.
  intros [k K] [m M]. exists (k + m)%Z. rewrite plus_IZR.
  replace (a + a' - (b + b') - (IZR k + IZR m) * (2 * PI)) with ((a - b - IZR k * (2 * PI)) + (a' - b' - IZR m * (2 * PI))) by ring.
  eapply Rle_trans; [apply Rabs_triang|]. lra.
Qed.
Lemma anear_mul d n a b : anear d a b -> anear (IZR (Z.abs n) * d) (IZR n * a) (IZR n * b).
Proof.
  intros [k K]. exists (n * k)%Z. rewrite mult_IZR, abs_IZR.
  replace (IZR n * a - IZR n * b - IZR n * IZR k * (2 * PI)) with (IZR n * (a - b - IZR k * (2 * PI))) by ring.
  rewrite Rabs_mult. apply Rmult_le_compat_l; [apply Rabs_pos|exact K].
Qed.

(** One fundamental argument: the constant in degrees plus a polynomial in
    arcseconds reduced by whole turns. *)
Lemma arg_near (c x y : R) : Rabs x <= 2000000000 -> Rabs (c * 3600 + x - y) <= 6 -> Rabs y <= 2000000000 ->
  anear 3e-5 (c * n_lit (n := RNum) 1745329251994329576923691 (-26) +
     Rfmod x 1296000 * n_lit (n := RNum) 4848136811095359935899141 (-30)) (y * arcsec).
Proof.
  intros X D Y. destruct (Rfmod_range x 1296000 ltac:(lra)) as [F1 F2]. destruct (Rfmod_congr x 1296000) as [k E].
  set (f := Rfmod x 1296000) in *.
  assert (KB : Rabs (IZR k) <= 1545).
  { assert (-1296000 < f < 1296000) by (destruct (Rle_dec 0 x); [specialize (F1 ltac:(assumption))|specialize (F2 ltac:(lra))]; lra).
    apply Rabs_le. apply abs_between in X. lra. }
  exists (- k)%Z. rewrite opp_IZR. unfold arcsec. unR. decs.
  pose proof PI_bounds as P.
  apply abs_between in X, D, Y, KB.
  set (A := 4848136811095359935899141 / 1000000000000000000000000000000).
  set (D2 := 1745329251994329576923691 / 100000000000000000000000000).
  assert (E1 : f = x - IZR k * 1296000) by lra. rewrite E1.
  assert (KP : exists e, 2 * PI = 1296000 * A + e /\ Rabs e <= 1e-17).
  { exists (2 * PI - 1296000 * A). split; [ring|]. unfold A. apply Rabs_le. lra. }
  destruct KP as (e & -> & EB). apply abs_between in EB.
  assert (CD : exists e2, D2 = 3600 * A + e2 /\ Rabs e2 <= 1e-22).
  { exists (D2 - 3600 * A). split; [ring|]. unfold D2, A. apply Rabs_le. lra. }
  destruct CD as (e2 & -> & EB2). apply abs_between in EB2.
  match goal with |- Rabs ?t <= _ => replace t with
    ((c * 3600 + x - y) * A + c * e2 + y * (A - 484813681109535994 / 100000000000000000000000) + IZR k * e) by (unfold A; field) end.
  assert (C : -2000000 <= c <= 2000000) by lra.
  assert (T1 : -2.91e-5 <= (c * 3600 + x - y) * A <= 2.91e-5) by (unfold A; lra).
  assert (T2 : -1e-15 <= c * e2 <= 1e-15) by nra.
  assert (T3 : -1e-13 <= y * (A - 484813681109535994 / 100000000000000000000000) <= 1e-13) by (unfold A; lra).
  assert (T4 : -1e-13 <= IZR k * e <= 1e-13) by nra.
  apply Rabs_le. lra.
Qed.
Lemma pow_small T : Rabs T <= 1 -> -1 <= T <= 1 /\ -1 <= T ^ 2 <= 1 /\ -1 <= T ^ 3 <= 1 /\ -1 <= T ^ 4 <= 1.
Proof.
  intros H. apply abs_between in H. assert (P2 : 0 <= T ^ 2 <= 1) by nra. assert (P3 : -1 <= T ^ 3 <= 1) by (replace (T ^ 3) with (T * T ^ 2) by ring; nra).
  assert (-1 <= T ^ 4 <= 1) by (replace (T ^ 4) with (T ^ 2 * T ^ 2) by ring; nra). lra.
Qed.

Lemma nutc_args_near tdb : Rabs (centuries_J2000 tdb) <= 1 -> exists l lp f d om rest,
  let T := centuries_J2000 tdb in
  nutc_args (N := RNum) tdb = (T, l :: lp :: f :: d :: om :: rest) /\ length rest = 4%nat /\
  anear 3e-5 l (iau1980_l T) /\ anear 3e-5 lp (iau1980_lp T) /\ anear 3e-5 f (iau1980_F T) /\
  anear 3e-5 d (iau1980_D T) /\ anear 3e-5 om (iau1980_Om T).
Proof.
  intros HT. pose proof (nutc_args_centuries tdb) as C. unfold nutc_args in *. cbv zeta in *. cbn [fst] in C.
  rewrite C. set (T := centuries_J2000 tdb) in *. clearbody T. clear C.
  destruct (pow_small T HT) as (T1 & T2 & T3 & T4).
  do 6 eexists. cbv zeta. split; [reflexivity|]. split; [reflexivity|].
  set (lit1 := n_lit (n := RNum) 1745329251994329576923691 (-26)). set (lit2 := n_lit (n := RNum) 4848136811095359935899141 (-30)).
  repeat split; unR; apply arg_near; apply Rabs_le; decs; lra.
Qed.

(** The published rows brought to the signs used by the other table: a row and
    its negation (angles and sine coefficient negated) denote the same term. *)
Definition nr_angles (r : nut_row) : list Z := [n_l r; n_lp r; n_F r; n_D r; n_Om r].
Definition nr_flip (r : nut_row) : nut_row :=
  NR (- n_l r) (- n_lp r) (- n_F r) (- n_D r) (- n_Om r) (- n_psi r) (- n_psi' r) (n_eps r) (n_eps' r).
Definition nr_zero : nut_row := NR 0 0 0 0 0 0 0 0 0.
Fixpoint zl_eqb (a b : list Z) : bool :=
  match a, b with [], [] => true | x :: a, y :: b => Z.eqb x y && zl_eqb a b | _, _ => false end.
Lemma zl_eqb_eq a b : zl_eqb a b = true -> a = b.
Proof.
  revert b. induction a as [|x a IH]; intros [|y b] H; try discriminate; [reflexivity|]. cbn in H.
  apply andb_true_iff in H as [H1 H2]. apply Z.eqb_eq in H1. f_equal; auto.
Qed.
Definition nr_code (r : nut_row) : list Z := nr_angles r ++ [n_psi r; n_psi' r; n_eps r; n_eps' r].
Lemma nr_code_inj r s : nr_code r = nr_code s -> r = s.
Proof. destruct r, s. unfold nr_code. cbn. intros H. injection H. intros. subst. reflexivity. Qed.
Definition pad (r : nut_row) : list Z := nr_angles r ++ [0; 0; 0; 0]%Z.
Definition signed_table : list nut_row :=
  map (fun r => if existsb (zl_eqb (pad r)) fa_coef then r else nr_flip r) iau1980_table.
Definition lookup80 (row : list Z) : nut_row :=
  match find (fun r => zl_eqb (pad r) row) signed_table with Some r => r | None => nr_zero end.
Definition matched : list nut_row := map lookup80 fa_coef.

(** Permutation by removal. *)
Fixpoint remove1 (r : nut_row) (l : list nut_row) : option (list nut_row) :=
  match l with
  | [] => None
  | s :: l => if zl_eqb (nr_code r) (nr_code s) then Some l else match remove1 r l with Some k => Some (s :: k) | None => None end
  end.
Fixpoint perm_check (a b : list nut_row) : bool :=
  match a with
  | [] => match b with [] => true | _ => false end
  | r :: a => match remove1 r b with Some b => perm_check a b | None => false end
  end.
Lemma remove1_perm r l k : remove1 r l = Some k -> Permutation l (r :: k).
Proof.
  revert k. induction l as [|s l IH]; cbn [remove1]; intros k H; [discriminate|].
  destruct (zl_eqb (nr_code r) (nr_code s)) eqn:E.
  - injection H as <-. apply zl_eqb_eq, nr_code_inj in E. subst. reflexivity.
  - destruct (remove1 r l) as [k'|]; [|discriminate]. injection H as <-.
    rewrite (IH k' eq_refl). apply perm_swap.
Qed.
Lemma perm_check_perm a b : perm_check a b = true -> Permutation a b.
Proof.
  revert b. induction a as [|r a IH]; cbn; intros b H.
  - destruct b; [constructor|discriminate].
  - destruct (remove1 r b) as [k|] eqn:E; [|discriminate]. rewrite (remove1_perm _ _ _ E). constructor. apply IH, H.
Qed.
Definition nonzero (r : nut_row) : bool := negb (zl_eqb (nr_code r) (nr_code nr_zero)).
Lemma matched_perm : Permutation (filter nonzero matched) signed_table.
Proof. apply perm_check_perm. vm_compute. reflexivity. Qed.

Lemma Rsum_perm (f : nut_row -> R) a b : Permutation a b -> Rsum (map f a) = Rsum (map f b).
Proof. induction 1; cbn; lra. Qed.
Lemma Rsum_filter (f : nut_row -> R) l : f nr_zero = 0 -> Rsum (map f (filter nonzero l)) = Rsum (map f l).
Proof.
  intros Z. induction l as [|r l IH]; [reflexivity|]. cbn [filter]. unfold nonzero at 1.
  destruct (zl_eqb (nr_code r) (nr_code nr_zero)) eqn:E; cbn [negb map Rsum]; rewrite IH; [|reflexivity].
  apply zl_eqb_eq, nr_code_inj in E. subst. rewrite Z. lra.
Qed.
Lemma matched_sum (f : nut_row -> R) : f nr_zero = 0 -> (forall r, f (nr_flip r) = f r) ->
  Rsum (map f matched) = Rsum (map f iau1980_table).
Proof.
  intros Z F. rewrite <- (Rsum_filter f matched Z), (Rsum_perm f _ _ matched_perm).
  unfold signed_table. rewrite map_map. apply Rsum_ext. intros r. destruct existsb; [reflexivity|apply F].
Qed.

(** Comparing a sum over one table with the sum over the other. *)
Definition zfold {A} (f : A -> Z) (l : list A) : Z := fold_right (fun a acc => f a + acc)%Z 0%Z l.
Lemma sum_diff {A} (f g : A -> R) (z0 z1 z2 z3 : A -> Z) (w : list A) t d :
  (forall a, In a w -> Rabs (f a - g a) <= IZR (z0 a) / 10 + IZR (z1 a) / 10 * t + (IZR (z2 a) + IZR (z3 a) * t) / 10 * d) ->
  Rabs (Rsum (map f w) - Rsum (map g w)) <=
    IZR (zfold z0 w) / 10 + IZR (zfold z1 w) / 10 * t + (IZR (zfold z2 w) + IZR (zfold z3 w) * t) / 10 * d.
Proof.
  induction w as [|a w IH]; intros H; cbn.
  - rewrite Rminus_0_r, Rabs_R0. lra.
  - fold (zfold z0 w) (zfold z1 w) (zfold z2 w) (zfold z3 w). rewrite !plus_IZR.
    replace (f a + Rsum (map f w) - (g a + Rsum (map g w))) with ((f a - g a) + (Rsum (map f w) - Rsum (map g w))) by ring.
    eapply Rle_trans; [apply Rabs_triang|]. pose proof (H a (or_introl eq_refl)). pose proof (IH (fun b h => H b (or_intror h))). lra.
Qed.

(** A row of the tables of nutc with its published counterpart. *)
Notation triple := (list Z * list Z * nut_row)%type.
Definition wt (row : list Z) : Z := (Z.abs (nth 0 row 0) + Z.abs (nth 1 row 0) + Z.abs (nth 2 row 0) + Z.abs (nth 3 row 0) + Z.abs (nth 4 row 0))%Z.
Definition row_ok (p : triple) : bool :=
  let '(row, coef, r) := p in
  (Nat.eqb (length coef) 4) && (zl_eqb row (pad r) || zl_eqb (nr_code r) (nr_code nr_zero)).

Section Diff.
Context (T l lp f d om : R) (rest : list R).
Hypothesis HL : length rest = 4%nat.
Hypothesis Hl : anear 3e-5 l (iau1980_l T).
Hypothesis Hlp : anear 3e-5 lp (iau1980_lp T).
Hypothesis Hf : anear 3e-5 f (iau1980_F T).
Hypothesis Hd : anear 3e-5 d (iau1980_D T).
Hypothesis Hom : anear 3e-5 om (iau1980_Om T).
Notation angles := (l :: lp :: f :: d :: om :: rest).

Lemma theta_near r : anear (IZR (wt (nr_angles r)) * 3e-5) (nutc_theta (N := RNum) (pad r) angles) (iau1980_angle T r).
Proof using HL Hl Hlp Hf Hd Hom.
  destruct rest as [|a [|b [|c [|e [|]]]]]; try discriminate.
  assert (E : nutc_theta (N := RNum) (pad r) [l; lp; f; d; om; a; b; c; e] =
     IZR (n_l r) * l + IZR (n_lp r) * lp + IZR (n_F r) * f + IZR (n_D r) * d + IZR (n_Om r) * om + 0 * a + 0 * b + 0 * c + 0 * e)
    by reflexivity.
  rewrite E. clear E.
  replace (IZR (n_l r) * l + IZR (n_lp r) * lp + IZR (n_F r) * f + IZR (n_D r) * d + IZR (n_Om r) * om + 0 * a + 0 * b + 0 * c + 0 * e)
    with (IZR (n_l r) * l + IZR (n_lp r) * lp + IZR (n_F r) * f + IZR (n_D r) * d + IZR (n_Om r) * om) by ring.
  unfold wt, nr_angles, iau1980_angle. cbn [nth]. rewrite !plus_IZR, !Rmult_plus_distr_r.
  repeat apply anear_add; apply anear_mul; assumption.
Qed.

Definition f_psi (p : triple) : R := let '(row, coef, r) := p in
  nutc_term (N := RNum) coef T (cos (nutc_theta (N := RNum) row angles)) (sin (nutc_theta (N := RNum) row angles)).
Definition g_psi (p : triple) : R := let '(row, coef, r) := p in
  100 * ((IZR (n_psi r) + IZR (n_psi' r) / 10 * T) * sin (iau1980_angle T r)).
Definition g_eps (p : triple) : R := let '(row, coef, r) := p in
  100 * ((IZR (n_eps r) + IZR (n_eps' r) / 10 * T) * cos (iau1980_angle T r)).
Definition z0_psi (p : triple) : Z := let '(row, coef, r) := p in (Z.abs (nth 0 coef 0) + Z.abs (nth 1 coef 0 - 1000 * n_psi r))%Z.
Definition z1_psi (p : triple) : Z := let '(row, coef, r) := p in (Z.abs (nth 2 coef 0) + Z.abs (nth 3 coef 0 - 100 * n_psi' r))%Z.
Definition z2_psi (p : triple) : Z := let '(row, coef, r) := p in (1000 * Z.abs (n_psi r) * wt (nr_angles r))%Z.
Definition z3_psi (p : triple) : Z := let '(row, coef, r) := p in (100 * Z.abs (n_psi' r) * wt (nr_angles r))%Z.
Definition z0_eps (p : triple) : Z := let '(row, coef, r) := p in (Z.abs (nth 0 coef 0 - 1000 * n_eps r) + Z.abs (nth 1 coef 0))%Z.
Definition z1_eps (p : triple) : Z := let '(row, coef, r) := p in (Z.abs (nth 2 coef 0 - 100 * n_eps' r) + Z.abs (nth 3 coef 0))%Z.
Definition z2_eps (p : triple) : Z := let '(row, coef, r) := p in (1000 * Z.abs (n_eps r) * wt (nr_angles r))%Z.
Definition z3_eps (p : triple) : Z := let '(row, coef, r) := p in (100 * Z.abs (n_eps' r) * wt (nr_angles r))%Z.

Lemma lin_bound (a b x t : R) : Rabs x <= 1 -> Rabs ((a / 10 + b / 10 * t) * x) <= Rabs a / 10 + Rabs b / 10 * Rabs t.
Proof.
  intros X. rewrite Rabs_mult.
  assert (Rabs (a / 10 + b / 10 * t) <= Rabs a / 10 + Rabs b / 10 * Rabs t).
  { eapply Rle_trans; [apply Rabs_triang|]. unfold Rdiv. rewrite !Rabs_mult, (Rabs_pos_eq (/ 10)) by lra. lra. }
  pose proof (Rabs_pos (a / 10 + b / 10 * t)). pose proof (Rabs_pos x). nra.
Qed.
Lemma lin_bound2 (a b x t e : R) : 0 <= e -> Rabs x <= e -> Rabs (100 * ((a + b / 10 * t) * x)) <= (1000 * Rabs a + 100 * Rabs b * Rabs t) / 10 * e.
Proof.
  intros E X. rewrite !Rabs_mult, (Rabs_pos_eq 100) by lra.
  assert (Rabs (a + b / 10 * t) <= Rabs a + Rabs b / 10 * Rabs t).
  { eapply Rle_trans; [apply Rabs_triang|]. unfold Rdiv. rewrite !Rabs_mult, (Rabs_pos_eq (/ 10)) by lra. lra. }
  pose proof (Rabs_pos (a + b / 10 * t)). pose proof (Rabs_pos x).
  assert (Rabs (a + b / 10 * t) * Rabs x <= (Rabs a + Rabs b / 10 * Rabs t) * e) by (apply Rmult_le_compat; assumption). lra.
Qed.

Lemma wt_pos r : 0 <= IZR (wt (nr_angles r)).
Proof. apply IZR_le. unfold wt. lia. Qed.
Lemma row_psi p : row_ok p = true ->
  Rabs (f_psi p - g_psi p) <= IZR (z0_psi p) / 10 + IZR (z1_psi p) / 10 * Rabs T + (IZR (z2_psi p) + IZR (z3_psi p) * Rabs T) / 10 * 3e-5.
Proof using HL Hl Hlp Hf Hd Hom.
  destruct p as [[row coef] r]. unfold row_ok, f_psi, g_psi, z0_psi, z1_psi, z2_psi, z3_psi. intros OK.
  apply andb_true_iff in OK as [L OK]. destruct coef as [|c0 [|c1 [|c2 [|c3 [|]]]]]; try discriminate. clear L. cbn [nth].
  assert (DEF : forall c s : R, nutc_term (N := RNum) [c0; c1; c2; c3] T c s =
    (IZR c0 / 10 + IZR c2 / 10 * T) * c + (IZR c1 / 10 + IZR c3 / 10 * T) * s)
    by (intros; unfold nutc_term; unR; cbn [Rdec]; change (Z.pow_pos 10 1) with 10%Z; reflexivity).
  rewrite DEF. set (th := nutc_theta (N := RNum) row angles). set (th' := iau1980_angle T r).
  rewrite !plus_IZR, !mult_IZR, !abs_IZR, !minus_IZR, !mult_IZR.
  assert (D : Rabs (100 * ((IZR (n_psi r) + IZR (n_psi' r) / 10 * T) * (sin th - sin th'))) <=
     (1000 * Rabs (IZR (n_psi r)) + 100 * Rabs (IZR (n_psi' r)) * Rabs T) / 10 * (IZR (wt (nr_angles r)) * 3e-5)).
  { apply orb_true_iff in OK as [OK|OK]; apply zl_eqb_eq in OK.
    - apply lin_bound2; [pose proof (wt_pos r); lra|]. apply anear_sin. unfold th, th'. rewrite OK. apply theta_near.
    - apply nr_code_inj in OK. rewrite OK. cbn [n_psi n_psi' nr_zero]. rewrite Rabs_R0.
      replace (100 * ((0 + 0 / 10 * T) * (sin th - sin th'))) with 0 by lra. rewrite Rabs_R0. change (IZR (wt (nr_angles nr_zero))) with 0. lra. }
  pose proof (lin_bound (IZR c0) (IZR c2) (cos th) T (abs_cos _)) as P0.
  pose proof (lin_bound (IZR c1 - 1000 * IZR (n_psi r)) (IZR c3 - 100 * IZR (n_psi' r)) (sin th) T (abs_sin _)) as P1.
  match goal with |- Rabs ?x <= _ => replace x with
    ((IZR c0 / 10 + IZR c2 / 10 * T) * cos th +
     ((IZR c1 - 1000 * IZR (n_psi r)) / 10 + (IZR c3 - 100 * IZR (n_psi' r)) / 10 * T) * sin th +
     100 * ((IZR (n_psi r) + IZR (n_psi' r) / 10 * T) * (sin th - sin th'))) by field end.
  eapply Rle_trans; [apply Rabs_triang|]. eapply Rle_trans; [apply Rplus_le_compat_r, Rabs_triang|]. lra.
Qed.
Lemma row_eps p : row_ok p = true ->
  Rabs (f_psi p - g_eps p) <= IZR (z0_eps p) / 10 + IZR (z1_eps p) / 10 * Rabs T + (IZR (z2_eps p) + IZR (z3_eps p) * Rabs T) / 10 * 3e-5.
Proof using HL Hl Hlp Hf Hd Hom.
  destruct p as [[row coef] r]. unfold row_ok, f_psi, g_eps, z0_eps, z1_eps, z2_eps, z3_eps. intros OK.
  apply andb_true_iff in OK as [L OK]. destruct coef as [|c0 [|c1 [|c2 [|c3 [|]]]]]; try discriminate. clear L. cbn [nth].
  assert (DEF : forall c s : R, nutc_term (N := RNum) [c0; c1; c2; c3] T c s =
    (IZR c0 / 10 + IZR c2 / 10 * T) * c + (IZR c1 / 10 + IZR c3 / 10 * T) * s)
    by (intros; unfold nutc_term; unR; cbn [Rdec]; change (Z.pow_pos 10 1) with 10%Z; reflexivity).
  rewrite DEF. set (th := nutc_theta (N := RNum) row angles). set (th' := iau1980_angle T r).
  rewrite !plus_IZR, !mult_IZR, !abs_IZR, !minus_IZR, !mult_IZR.
  assert (D : Rabs (100 * ((IZR (n_eps r) + IZR (n_eps' r) / 10 * T) * (cos th - cos th'))) <=
     (1000 * Rabs (IZR (n_eps r)) + 100 * Rabs (IZR (n_eps' r)) * Rabs T) / 10 * (IZR (wt (nr_angles r)) * 3e-5)).
  { apply orb_true_iff in OK as [OK|OK]; apply zl_eqb_eq in OK.
    - apply lin_bound2; [pose proof (wt_pos r); lra|]. apply anear_cos. unfold th, th'. rewrite OK. apply theta_near.
    - apply nr_code_inj in OK. rewrite OK. cbn [n_eps n_eps' nr_zero]. rewrite Rabs_R0.
      replace (100 * ((0 + 0 / 10 * T) * (cos th - cos th'))) with 0 by lra. rewrite Rabs_R0. change (IZR (wt (nr_angles nr_zero))) with 0. lra. }
  pose proof (lin_bound (IZR c1) (IZR c3) (sin th) T (abs_sin _)) as P0.
  pose proof (lin_bound (IZR c0 - 1000 * IZR (n_eps r)) (IZR c2 - 100 * IZR (n_eps' r)) (cos th) T (abs_cos _)) as P1.
  match goal with |- Rabs ?x <= _ => replace x with
    ((IZR c1 / 10 + IZR c3 / 10 * T) * sin th +
     ((IZR c0 - 1000 * IZR (n_eps r)) / 10 + (IZR c2 - 100 * IZR (n_eps' r)) / 10 * T) * cos th +
     100 * ((IZR (n_eps r) + IZR (n_eps' r) / 10 * T) * (cos th - cos th'))) by field end.
  eapply Rle_trans; [apply Rabs_triang|]. eapply Rle_trans; [apply Rplus_le_compat_r, Rabs_triang|]. lra.
Qed.

Definition triples (table : list (list Z)) : list triple := combine (combine fa_coef table) matched.
Lemma series_sum table init : length table = length fa_coef ->
  nutc_series (N := RNum) T angles table init = init + Rsum (map f_psi (triples table)).
Proof using.
  unfold nutc_series, triples, matched. generalize fa_coef as fa. intros fa. revert table.
  induction fa as [|row fa IH]; intros [|coef table] L; try discriminate.
  - cbn. lra.
  - injection L as L. specialize (IH table L). cbn [combine fold_right map Rsum fst snd]. rewrite IH. cbv zeta.
    set (S := Rsum (map f_psi _)). change (init + S + f_psi (row, coef, lookup80 row) = init + (f_psi (row, coef, lookup80 row) + S)).
    ring.
Qed.
Lemma g_sum (h : nut_row -> R) table : length table = length fa_coef ->
  Rsum (map (fun p : triple => let '(row, coef, r) := p in h r) (triples table)) = Rsum (map h matched).
Proof using.
  unfold triples, matched. generalize fa_coef as fa. intros fa. revert table.
  induction fa as [|row fa IH]; intros [|coef table] L; try discriminate; [reflexivity|].
  injection L as L. specialize (IH table L). cbn [combine map Rsum]. rewrite IH. reflexivity.
Qed.
Lemma flip_angle r : iau1980_angle T (nr_flip r) = - iau1980_angle T r.
Proof using. unfold iau1980_angle, nr_flip. cbn [n_l n_lp n_F n_D n_Om]. rewrite !opp_IZR. ring. Qed.

Lemma psi_diff init :
  Rabs (nutc_series (N := RNum) T angles l_psi init - (init + 100 * Rsum (map (fun r => (IZR (n_psi r) + IZR (n_psi' r) / 10 * T) * sin (iau1980_angle T r)) iau1980_table)))
  <= 29126.3 + 225.5 * Rabs T + (IZR (zfold z2_psi (triples l_psi)) + IZR (zfold z3_psi (triples l_psi)) * Rabs T) / 10 * 3e-5.
Proof using HL Hl Hlp Hf Hd Hom.
  rewrite series_sum by reflexivity.
  set (h := fun r => 100 * ((IZR (n_psi r) + IZR (n_psi' r) / 10 * T) * sin (iau1980_angle T r))).
  assert (G : 100 * Rsum (map (fun r => (IZR (n_psi r) + IZR (n_psi' r) / 10 * T) * sin (iau1980_angle T r)) iau1980_table) = Rsum (map g_psi (triples l_psi))).
  { transitivity (Rsum (map h iau1980_table)).
    - unfold h. generalize iau1980_table. intros tb. induction tb as [|r tb IH]; cbn; [lra|]. rewrite <- IH. ring.
    - rewrite <- matched_sum. + symmetry. apply (g_sum h). reflexivity.
      + unfold h. cbn [n_psi n_psi' nr_zero]. lra.
      + intros r. unfold h. rewrite flip_angle, sin_neg. unfold nr_flip. cbn [n_psi n_psi']. rewrite !opp_IZR. lra. }
  rewrite G. replace (init + Rsum (map f_psi (triples l_psi)) - (init + Rsum (map g_psi (triples l_psi)))) with
    (Rsum (map f_psi (triples l_psi)) - Rsum (map g_psi (triples l_psi))) by ring.
  assert (OK : forallb row_ok (triples l_psi) = true) by (vm_compute; reflexivity).
  rewrite forallb_forall in OK.
  pose proof (sum_diff f_psi g_psi z0_psi z1_psi z2_psi z3_psi (triples l_psi) (Rabs T) 3e-5 (fun a h => row_psi a (OK a h))) as D.
  replace (zfold z0_psi (triples l_psi)) with 291262%Z in D by (vm_compute; reflexivity).
  replace (zfold z1_psi (triples l_psi)) with 2254%Z in D by (vm_compute; reflexivity).
  pose proof (Rabs_pos T). lra.
Qed.
Lemma eps_diff :
  Rabs (nutc_series (N := RNum) T angles o_eps 0 - 100 * Rsum (map (fun r => (IZR (n_eps r) + IZR (n_eps' r) / 10 * T) * cos (iau1980_angle T r)) iau1980_table))
  <= 12924.5 + 91.7 * Rabs T + (IZR (zfold z2_eps (triples o_eps)) + IZR (zfold z3_eps (triples o_eps)) * Rabs T) / 10 * 3e-5.
Proof using HL Hl Hlp Hf Hd Hom.
  rewrite series_sum by reflexivity.
  set (h := fun r => 100 * ((IZR (n_eps r) + IZR (n_eps' r) / 10 * T) * cos (iau1980_angle T r))).
  assert (G : 100 * Rsum (map (fun r => (IZR (n_eps r) + IZR (n_eps' r) / 10 * T) * cos (iau1980_angle T r)) iau1980_table) = Rsum (map g_eps (triples o_eps))).
  { transitivity (Rsum (map h iau1980_table)).
    - unfold h. generalize iau1980_table. intros tb. induction tb as [|r tb IH]; cbn; [lra|]. rewrite <- IH. ring.
    - rewrite <- matched_sum. + symmetry. apply (g_sum h). reflexivity.
      + unfold h. cbn [n_eps n_eps' nr_zero]. lra.
      + intros r. unfold h. rewrite flip_angle, cos_neg. reflexivity. }
  rewrite G. replace (0 + Rsum (map f_psi (triples o_eps)) - Rsum (map g_eps (triples o_eps))) with
    (Rsum (map f_psi (triples o_eps)) - Rsum (map g_eps (triples o_eps))) by ring.
  assert (OK : forallb row_ok (triples o_eps) = true) by (vm_compute; reflexivity).
  rewrite forallb_forall in OK.
  pose proof (sum_diff f_psi g_eps z0_eps z1_eps z2_eps z3_eps (triples o_eps) (Rabs T) 3e-5 (fun a h => row_eps a (OK a h))) as D.
  replace (zfold z0_eps (triples o_eps)) with 129244%Z in D by (vm_compute; reflexivity).
  replace (zfold z1_eps (triples o_eps)) with 916%Z in D by (vm_compute; reflexivity).
  pose proof (Rabs_pos T). lra.
Qed.
End Diff.

Lemma k_near : arcsec - 1e-23 <= n_lit (n := RNum) 4848136811095359935899141 (-30) <= arcsec + 1e-23.
Proof. unfold arcsec. unR. decs. lra. Qed.

(** 1900 to 2100: within 0.38 arcsecond in longitude and 0.05 in obliquity. *)
Lemma nutc_nutc80 tdb : Rabs (centuries_J2000 tdb) <= 1 ->
  let '(psi, eps, eps0) := nutc (N := RNum) tdb in let '(psi80, eps80, eps080) := nutc80 (N := RNum) tdb in
  Rabs (psi - psi80) <= (0.0735 + 0.299 * Rabs (centuries_J2000 tdb)) * arcsec /\
  Rabs (eps - eps80) <= (0.0186 + 0.0243 * Rabs (centuries_J2000 tdb)) * arcsec /\
  Rabs (eps0 - eps080) <= 0.044 * arcsec.
Proof.
  intros HT. rewrite nutc80_spec. unfold nutc.
  destruct (nutc_args_near tdb HT) as (l & lp & f & d & om & rest & E & L & H1 & H2 & H3 & H4 & H5). cbv zeta in E. rewrite E. clear E.
  set (T := centuries_J2000 tdb) in *. cbv zeta. cbv iota. set (ms := nth 1 _ _).
  match goal with |- context [nutc_series T (?x :: ?y) l_psi ?i] => pose proof (psi_diff T l lp f d om rest L H1 H2 H3 H4 H5 i) as P; set (ip := i) in * end.
  pose proof (eps_diff T l lp f d om rest L H1 H2 H3 H4 H5) as Q. change (n_ofZ (n := RNum) 0) with 0.
  replace (zfold z2_psi (triples l_psi)) with 279650000%Z in P by (vm_compute; reflexivity).
  replace (zfold z3_psi (triples l_psi)) with 203500%Z in P by (vm_compute; reflexivity).
  replace (zfold z2_eps (triples o_eps)) with 137636000%Z in Q by (vm_compute; reflexivity).
  replace (zfold z3_eps (triples o_eps)) with 37400%Z in Q by (vm_compute; reflexivity).
  assert (I1 : Rabs ip <= 155.1).
  { unfold ip. unR. decs. pose proof (SIN_bound ms). pose proof (SIN_bound (2 * ms)). apply Rabs_le. lra. }
  destruct (nutc80_bound T) as [B1 B2]. unfold iau1980_dpsi, iau1980_deps in *.
  set (sp80 := Rsum _) in *. clearbody sp80. set (se80 := Rsum _) in *. clearbody se80.
  set (sp := nutc_series (N := RNum) T _ l_psi ip) in *. set (se := nutc_series (N := RNum) T _ o_eps 0) in *.
  change (car RNum) with R in *. clearbody sp se. pose proof (Rabs_pos T) as T0.
  pose proof k_near as A. set (k := n_lit (n := RNum) 4848136811095359935899141 (-30)) in *. change (car RNum) with R in *. clearbody k.
  assert (AP : 4.848e-6 <= arcsec <= 4.849e-6) by (unfold arcsec; lra).
  assert (B1' : Rabs (sp80 * 0.0001) <= 20).
  { rewrite Rabs_mult, (Rabs_pos_eq arcsec) in B1 by lra. apply (Rmult_le_reg_r arcsec); [lra|]. eapply Rle_trans; [exact B1|]. apply Rmult_le_compat_r; lra. }
  assert (B2' : Rabs (se80 * 0.0001) <= 11).
  { rewrite Rabs_mult, (Rabs_pos_eq arcsec) in B2 by lra. apply (Rmult_le_reg_r arcsec); [lra|]. eapply Rle_trans; [exact B2|]. apply Rmult_le_compat_r; lra. }
  clear B1 B2. apply abs_between in P, Q, I1, B1', B2'. pose proof (pow_small T HT) as (T1 & T2 & T3 & T4).
  pose proof (Rle_abs T) as A1. pose proof (Rle_abs (- T)) as A2. rewrite Rabs_Ropp in A2.
  set (aT := Rabs T) in *. assert (aT1 : aT <= 1) by exact HT. clearbody aT ip.
  (* in arcseconds, then the two conversion factors *)
  assert (K : forall x y b : R, 0 <= b -> Rabs (x - y) <= b -> Rabs x <= 100000 -> Rabs (x * k - y * arcsec) <= (b + 1e-10) * arcsec).
  { intros x y b B H X. replace (x * k - y * arcsec) with ((x - y) * arcsec + x * (k - arcsec)) by ring.
    eapply Rle_trans; [apply Rabs_triang|]. rewrite !Rabs_mult, (Rabs_pos_eq arcsec) by lra.
    assert (Rabs (k - arcsec) <= 1e-23) by (apply Rabs_le; lra). pose proof (Rabs_pos (k - arcsec)). pose proof (Rabs_pos x).
    assert (Rabs x * Rabs (k - arcsec) <= 100000 * 1e-23) by (apply Rmult_le_compat; assumption).
    assert (Rabs (x - y) * arcsec <= b * arcsec) by (apply Rmult_le_compat_r; lra).
    assert (100000 * 1e-23 <= 1e-10 * arcsec) by lra. lra. }
  split; [|split].
  - match goal with |- Rabs (n_mul ?x k - _) <= _ => set (X := x) end.
    assert (XB : -0.0734 - 0.2989 * aT <= X - sp80 * 0.0001 <= 0.0734 + 0.2989 * aT) by (unfold X; unR; decs; lra).
    eapply Rle_trans; [apply (K X (sp80 * 0.0001) (0.0734 + 0.2989 * aT)); [lra| |]; apply Rabs_le; lra|].
    apply Rmult_le_compat_r; lra.
  - match goal with |- Rabs (n_mul ?x k - _) <= _ => set (X := x) end.
    assert (XB : -0.01855 - 0.0242 * aT <= X - se80 * 0.0001 <= 0.01855 + 0.0242 * aT) by (unfold X; unR; decs; lra).
    eapply Rle_trans; [apply (K X (se80 * 0.0001) (0.01855 + 0.0242 * aT)); [lra| |]; apply Rabs_le; lra|].
    apply Rmult_le_compat_r; lra.
  - unfold obliquity. cbv zeta. fold T.
    match goal with |- Rabs (n_mul ?x k - ?y * arcsec) <= _ => set (X := x); set (Y := y) end.
    assert (T5 : -1 <= T ^ 5 <= 1) by (replace (T ^ 5) with (T ^ 2 * T ^ 3) by ring; nra).
    assert (XE : X = 84381.412 - 46.80927 * T - 0.000152 * T ^ 2 + 0.0019989 * T ^ 3 - 0.00000051 * T ^ 4 - 0.000000025 * T ^ 5)
      by (unfold X; unR; decs; field).
    assert (XB : -0.0439 <= X - Y <= 0.0439) by (rewrite XE; unfold Y; lra).
    assert (XA : 0 <= X <= 100000) by (rewrite XE; lra).
    eapply Rle_trans; [apply (K X Y 0.0439); [lra| |]; apply Rabs_le; lra|].
    apply Rmult_le_compat_r; lra.
Qed.
