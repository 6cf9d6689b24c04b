(** dmoon against the theory: arguments and series. *)
From Coq Require Import Reals List ZArith Lra Lia Bool.
From Coquelicot Require Import Coquelicot.
From Verif Require Import Num NumR L_Pi L_Real M_Vec M_EphTab M_Eph S_Geom S_Eph S_Moon L_Vec L_Trig L_Frame L_NutDiff L_Eph L_EphB L_EvpA L_EvpB L_Moon L_MoonB L_Moon3.
Import ListNotations.
Open Scope R_scope.

(** ** The exact arguments with their rates *)
Definition selp := sarg (270434164 / 1000000) (4812678831 / 10000) (-1133 / 1000000) (19 / 10000000).
Definition sem := sarg (358475833 / 1000000) (359990498 / 10000) (-150 / 1000000) (-33 / 10000000).
Definition semp := sarg (296104608 / 1000000) (4771988491 / 10000) (9192 / 1000000) (144 / 10000000).
Definition sd := sarg (350737486 / 1000000) (4452671142 / 10000) (-1436 / 1000000) (19 / 10000000).
Definition sf := sarg (11250889 / 1000000) (4832020251 / 10000) (-3211 / 1000000) (-3 / 10000000).
Definition som := sarg (259183275 / 1000000) (-19341420 / 10000) (2078 / 1000000) (22 / 10000000).

Definition swa (t : R) : R * R := (sin (kap * (512 / 10 + 202 / 10 * t)), kap * (202 / 10) * cos (kap * (512 / 10 + 202 / 10 * t))).
Definition swb (t : R) : R * R :=
  (3964 / 1000000 * sin (kap * (346560 / 1000 + (132870 / 1000 + -91731 / 10000000 * t) * t)),
   kap * (3964 / 1000000) * (132870 / 1000 + 2 * (-91731 / 10000000) * t) *
     cos (kap * (346560 / 1000 + (132870 / 1000 + -91731 / 10000000 * t) * t))).
Definition swom (t : R) : R * R :=
  (fst (som t) + kap * (27505 / 100 + -230 / 100 * t), snd (som t) + kap * (-230 / 100)).

Definition sargs (t : R) : margs (N := RNum) := MArgs (N := RNum)
    (fst (selp t) + kap * (233 / 1000000 * fst (swa t) + fst (swb t) + 1964 / 1000000 * sin (fst (som t))),
     snd (selp t) + kap * (233 / 1000000 * snd (swa t) + snd (swb t) + 1964 / 1000000 * (snd (som t) * cos (fst (som t)))))
    (fst (sem t) + kap * (-1778 / 1000000) * fst (swa t), snd (sem t) + kap * (-1778 / 1000000) * snd (swa t))
    (fst (semp t) + kap * (817 / 1000000 * fst (swa t) + fst (swb t) + 2541 / 1000000 * sin (fst (som t))),
     snd (semp t) + kap * (817 / 1000000 * snd (swa t) + snd (swb t) + 2541 / 1000000 * (snd (som t) * cos (fst (som t)))))
    (fst (sd t) + kap * (2011 / 1000000 * fst (swa t) + fst (swb t) + 1964 / 1000000 * sin (fst (som t))),
     snd (sd t) + kap * (2011 / 1000000 * snd (swa t) + snd (swb t) + 1964 / 1000000 * (snd (som t) * cos (fst (som t)))))
    (fst (sf t) + kap * (fst (swb t) + -24691 / 1000000 * sin (fst (som t)) + -4328 / 1000000 * sin (fst (swom t))),
     snd (sf t) + kap * (snd (swb t) + -24691 / 1000000 * (snd (som t) * cos (fst (som t))) + -4328 / 1000000 * snd (swom t) * cos (fst (swom t))))
    (som t) (swom t)
    (1 + (-2495 / 1000000 + -752 / 100000000 * t) * t, -2495 / 1000000 + 2 * (-752 / 100000000) * t).

Lemma swa_rated : forall t, rated swa t.
Proof. intros t. unfold rated, swa; cbn [fst snd]. generalize kap; intros k. auto_derive; [easy|]. field. Qed.
Lemma swb_rated : forall t, rated swb t.
Proof. intros t. unfold rated, swb; cbn [fst snd]. generalize kap; intros k. auto_derive; [easy|]. field. Qed.

Lemma sargs_ready : forall t, ready sargs t.
Proof.
  intros t.
  pose proof (sarg_rated (270434164 / 1000000) (4812678831 / 10000) (-1133 / 1000000) (19 / 10000000) t) as H1.
  pose proof (sarg_rated (358475833 / 1000000) (359990498 / 10000) (-150 / 1000000) (-33 / 10000000) t) as H2.
  pose proof (sarg_rated (296104608 / 1000000) (4771988491 / 10000) (9192 / 1000000) (144 / 10000000) t) as H3.
  pose proof (sarg_rated (350737486 / 1000000) (4452671142 / 10000) (-1436 / 1000000) (19 / 10000000) t) as H4.
  pose proof (sarg_rated (11250889 / 1000000) (4832020251 / 10000) (-3211 / 1000000) (-3 / 10000000) t) as H5.
  pose proof (sarg_rated (259183275 / 1000000) (-19341420 / 10000) (2078 / 1000000) (22 / 10000000) t) as H6.
  fold selp in H1. fold sem in H2. fold semp in H3. fold sd in H4. fold sf in H5. fold som in H6.
  pose proof (swa_rated t) as Ha. pose proof (swb_rated t) as Hb. unfold rated in *.
  constructor; unfold rated, sargs; cbn [g_elp g_em g_emp g_d g_f g_om g_wom g_e fst snd].
  - exact (shape1 _ _ _ _ _ _ _ _ _ H1 Ha Hb H6 _ _ _).
  - exact (shape2 _ _ _ _ _ H2 Ha _ _).
  - exact (shape1 _ _ _ _ _ _ _ _ _ H3 Ha Hb H6 _ _ _).
  - exact (shape1 _ _ _ _ _ _ _ _ _ H4 Ha Hb H6 _ _ _).
  - exact (shape4 _ _ _ _ _ _ _ H5 Hb H6 _ _ _ _ _).
  - exact H6.
  - exact (shape3 _ _ _ H6 _ _ _).
  - apply shape5.
Qed.

(** ** The computed arguments are close to them *)
Definition near_args (g h : margs (N := RNum)) : Prop :=
  nr 2e-20 2e-17 8440 (g_elp g) (g_elp h) /\ nr 2e-20 2e-17 8440 (g_em g) (g_em h) /\
  nr 2e-20 2e-17 8440 (g_emp g) (g_emp h) /\ nr 2e-20 2e-17 8440 (g_d g) (g_d h) /\
  nr 2e-20 2e-17 8440 (g_f g) (g_f h) /\ nr 2e-20 2e-17 8440 (g_om g) (g_om h) /\
  nr 2e-20 2e-17 8440 (g_wom g) (g_wom h) /\ g_e g = g_e h.

Lemma kdiff x b : Rabs x <= b -> cl (deg (N := RNum) * x) (kap * x) (0.01746 * 0 + 1e-23 * b) (0.01746 * b).
Proof. intros. change (car RNum) with R. exact (cl_mul _ _ _ _ _ _ _ _ cl_deg (cl_const x b H)). Qed.

Lemma anear_cl e x y b : cl x y e b -> anear e x y.
Proof. intros (A & _). apply anear_abs, A. Qed.

Lemma args_near : forall t, Rabs t <= 10 -> near_args (dmoon_args (N := RNum) t) (sargs t).
Proof.
  intros t T. rewrite args_eq. cbv zeta.
  assert (A1 : nr 1e-20 1e-17 8437 (dmoon_elp (N := RNum) t) (selp t)).
  { unfold dmoon_elp, selp. unR. decs. apply arg_nr; [exact T|..]; apply Rabs_le; lra. }
  assert (A2 : nr 1e-20 1e-17 8437 (dmoon_em (N := RNum) t) (sem t)).
  { unfold dmoon_em, sem. unR. decs. apply arg_nr; [exact T|..]; apply Rabs_le; lra. }
  assert (A3 : nr 1e-20 1e-17 8437 (dmoon_emp (N := RNum) t) (semp t)).
  { unfold dmoon_emp, semp. unR. decs. apply arg_nr; [exact T|..]; apply Rabs_le; lra. }
  assert (A4 : nr 1e-20 1e-17 8437 (dmoon_d (N := RNum) t) (sd t)).
  { unfold dmoon_d, sd. unR. decs. apply arg_nr; [exact T|..]; apply Rabs_le; lra. }
  assert (A5 : nr 1e-20 1e-17 8437 (dmoon_f (N := RNum) t) (sf t)).
  { unfold dmoon_f, sf. unR. decs. apply arg_nr; [exact T|..]; apply Rabs_le; lra. }
  assert (A6 : nr 1e-20 1e-17 8437 (dmoon_om (N := RNum) t) (som t)).
  { unfold dmoon_om, som. unR. decs. apply arg_nr; [exact T|..]; apply Rabs_le; lra. }
  assert (B6 : Rabs (snd (dmoon_om (N := RNum) t)) <= 34 /\ Rabs (snd (som t)) <= 34).
  { split.
    - change (snd (dmoon_om (N := RNum) t)) with (deg (N := RNum) * (Rdec (-19341420) (-4) + (Rdec 20 (-1) * Rdec 2078 (-6) + Rdec 30 (-1) * Rdec 22 (-7) * t) * t)).
      rewrite two, three. decs. pose proof deg_b as D. change (car RNum) with R in *. set (d' := deg (N := RNum)) in *. clearbody d'. bnd.
    - unfold som, sarg; cbn [snd]. pose proof kap_b. bnd. }
  generalize dependent (dmoon_elp (N := RNum) t). generalize dependent (dmoon_em (N := RNum) t).
  generalize dependent (dmoon_emp (N := RNum) t). generalize dependent (dmoon_d (N := RNum) t).
  generalize dependent (dmoon_f (N := RNum) t). generalize dependent (dmoon_om (N := RNum) t).
  change (car RNum) with R. intros om [AO AO'] (BO & BO') f [AF AF'] d [AD AD'] mp [AP AP'] m [AM AM'] l [AL AL'].
  assert (CO : cl (snd om) (snd (som t)) 1e-17 34) by (destruct AO' as (X & _); repeat split; assumption).
  pose proof cl_deg as K. change (car RNum) with R in K.
  assert (CT : cl t t 0 10) by (apply cl_const; exact T).
  assert (NA : anear 1e-20 (deg (N := RNum) * (Rdec 512 (-1) + Rdec 202 (-1) * t)) (kap * (512 / 10 + 202 / 10 * t))).
  { apply (anear_cl _ _ _ 5). decs. closes. }
  assert (NB : anear 2e-20 (deg (N := RNum) * (Rdec 346560 (-3) + (Rdec 132870 (-3) + Rdec (-91731) (-7) * t) * t))
                           (kap * (346560 / 1000 + (132870 / 1000 + -91731 / 10000000 * t) * t))).
  { apply (anear_cl _ _ _ 500). decs. closes. }
  assert (NW : anear 2e-20 (fst om + deg (N := RNum) * (Rdec 27505 (-2) + Rdec (-230) (-2) * t)) (fst (swom t))).
  { unfold swom; cbn [fst]. eapply anear_weak; [apply anear_add; [exact AO|]|].
    - apply (anear_cl 1e-20 _ _ 500). decs. closes.
    - lra. }
  assert (SW : cl (snd om + deg (N := RNum) * Rdec (-230) (-2)) (snd (swom t)) 2e-17 8440).
  { unfold swom; cbn [snd]. decs. closes. }
  assert (WA : cl (fst (wa t)) (fst (swa t)) 1e-20 1) by (unfold wa, swa; cbn [fst]; apply cl_sin; exact NA).
  assert (WA' : cl (snd (wa t)) (snd (swa t)) 2e-20 1).
  { unfold wa, swa; cbn [snd]. pose proof (cl_cos _ _ _ NA). set (c1 := cos _) in *. set (c2 := cos (kap * _)) in *. clearbody c1 c2. decs. closes. }
  assert (WB : cl (fst (wb t)) (fst (swb t)) 1e-20 1).
  { unfold wb, swb; cbn [fst]. pose proof (cl_sin _ _ _ NB). set (c1 := sin _) in *. set (c2 := sin (kap * _)) in *. clearbody c1 c2. decs. closes. }
  assert (WB' : cl (snd (wb t)) (snd (swb t)) 2e-20 1).
  { unfold wb, swb; cbn [snd]. pose proof (cl_cos _ _ _ NB). set (c1 := cos _) in *. set (c2 := cos (kap * _)) in *. clearbody c1 c2. rewrite two. decs. closes. }
  assert (X : forall k : R, anear 1e-20 k k) by (intros; apply anear_abs; rewrite Rminus_diag_eq, Rabs_R0 by reflexivity; lra).
  set (d' := deg (N := RNum)) in *. change (car RNum) with R in d'. clearbody d'.
  generalize dependent (wa t). generalize dependent (wb t). intros b WB WB' a WA WA'.
  set (w := fst om + d' * (Rdec 27505 (-2) + Rdec (-230) (-2) * t)) in *. set (w' := snd om + d' * Rdec (-230) (-2)) in *.
  pose proof (cl_sin _ _ _ AO) as SO. pose proof (cl_cos _ _ _ AO) as CSO.
  pose proof (cl_sin _ _ _ NW) as SNW. pose proof (cl_cos _ _ _ NW) as CNW.
  assert (Y : forall z z' u v, anear 1e-20 z z' -> cl u v 1e-21 1 -> anear 2e-20 (z + u) (z' + v)).
  { intros z z' u v Z (U & _). eapply anear_weak; [apply anear_add; [exact Z|apply anear_abs; exact U]|lra]. }
  unfold near_args, sargs, nr; cbn [g_elp g_em g_emp g_d g_f g_om g_wom g_e fst snd].
  clearbody w w'.
  split; [split|split; [split|split; [split|split; [split|split; [split|split; [split|split; [split|]]]]]]].
  - apply Y; [exact AL|]. decs. closes.
  - decs. closes.
  - apply Y; [exact AM|]. decs. closes.
  - decs. closes.
  - apply Y; [exact AP|]. decs. closes.
  - decs. closes.
  - apply Y; [exact AD|]. decs. closes.
  - decs. closes.
  - apply Y; [exact AF|]. decs. closes.
  - decs. closes.
  - eapply anear_weak; [exact AO|lra].
  - eapply cl_weak; [exact CO|lra|lra].
  - exact NW.
  - exact SW.
  - rewrite one, two. decs. reflexivity.
Qed.
