(** Frames: corollaries in the form of the property theorems. *)
From Coq Require Import ZArith QArith Qreals Reals Lra Lia Nsatz List Ascii String.
From Verif Require Import Num NumR L_Pi L_Real M_Vec M_Angle S_Geom S_Frame L_Vec L_Rot L_Angle L_Gal M_Nutc M_Epoch M_Frame L_Frame L_FrameGal.
Import ListNotations.
Open Scope R_scope.

Lemma pole_frame_pole a d l : rotation (pole_frame a d l) /\
  mapply (pole_frame a d l) (direction a d) = V3 0 0 1 /\
  mapply (pole_frame a d l) (V3 0 0 1) = direction l d.
Proof.
  split; [apply pole_frame_rotation|]. unfold pole_frame, deg.
  replace (90 * PI / 180) with (PI / 2) by field.
  assert (E1 : sin (a + PI / 2) = cos a) by (rewrite sin_plus, cos_PI2, sin_PI2; ring).
  assert (E2 : cos (a + PI / 2) = - sin a) by (rewrite cos_plus, cos_PI2, sin_PI2; ring).
  pose proof (sc1 a) as A. pose proof (sc1 d) as B. unfold Rsqr in *.
  split; apply vec_eq; geo; rewrite ?E1, ?E2, ?sin_shift, ?cos_shift; try ring; clear - A B; nsatz.
Qed.
Lemma frame_rotations a b : rotation (prec (N := RNum) a b) /\ rotation (precl (N := RNum) a b) /\
  rotation (prebn (N := RNum) a b) /\ rotation (nut (N := RNum) a) /\ rotation (prenut (N := RNum) a b) /\ rotation (ecmat (N := RNum) a).
Proof.
  assert (NT : forall t, rotation (nut (N := RNum) t)).
  { intros t. rewrite nut_spec. destruct (nutc t) as [[? ?] ?]. apply nutation_rotation. }
  split; [rewrite prec_spec; apply precession_rotation|]. split; [rewrite precl_spec; apply precession_rotation|].
  split; [rewrite prebn_spec; apply precession_rotation|]. split; [apply NT|].
  split; [rewrite prenut_spec; apply rotation_mmul; [apply NT|apply precession_rotation]|]. rewrite ecmat_spec. apply rotation_frame_x.
Qed.
Lemma zero_interval ep : prec (N := RNum) ep ep = mident /\ precl (N := RNum) ep ep = mident /\ prebn (N := RNum) ep ep = mident.
Proof. rewrite prec_spec, precl_spec, prebn_spec. destruct (precession_zero_interval ep) as (A & B & C). auto. Qed.
Lemma nut_is_nutation tdb : let '(psi, eps, eps0) := nutc (N := RNum) tdb in nut (N := RNum) tdb = nutation psi eps eps0.
Proof. rewrite nut_spec. destruct (nutc tdb) as [[? ?] ?]. reflexivity. Qed.
Lemma prenut_nut_prec je mjd : prenut (N := RNum) je mjd = mmul (nut (N := RNum) mjd) (prec (N := RNum) je (julian_year mjd)).
Proof. rewrite prenut_spec, prec_spec. reflexivity. Qed.
Lemma eg50_frame (s : sph RNum) : let g := eg50 (N := RNum) s in let p := subet (N := RNum) s 1950 in
  vdist (direction (s_a g) (s_b g)) (mapply galactic_frame_B1950 (direction (s_a p) (s_b p))) <= 1e-10 /\ conventional (s_a g) (s_b g).
Proof. cbv zeta. destruct (eg50_spec s) as [[_ A] B]. split; assumption. Qed.
Lemma ge50_frame (g : sph RNum) : let s := ge50 (N := RNum) g in let v := direction (s_a g) (s_b g) in
  vdist (direction (s_a s) (s_b s)) (unit_of (vadd (mapply (transpose galactic_frame_B1950) v) (e_terms 1950))) <= 1e-10 /\
  conventional (s_a s) (s_b s).
Proof. cbv zeta. destruct (ge50_spec g) as [[_ A] B]. split; assumption. Qed.
Lemma g50_round_trips (s : sph RNum) :
  (let r := ge50 (N := RNum) (eg50 (N := RNum) s) in vdist (direction (s_a r) (s_b r)) (direction (s_a s) (s_b s)) <= 1e-10) /\
  (let r := eg50 (N := RNum) (ge50 (N := RNum) s) in vdist (direction (s_a r) (s_b r)) (direction (s_a s) (s_b s)) <= 1e-10).
Proof. exact (conj (g50_round1 s) (g50_round2 s)). Qed.
