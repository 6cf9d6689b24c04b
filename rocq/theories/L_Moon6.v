(** dmoon against the theory: position and velocity. *)
From Coq Require Import Reals List ZArith Lra Lia Bool.
From Coquelicot Require Import Coquelicot.
From Verif Require Import Num NumR L_Pi L_Real M_Vec M_EphTab M_Eph S_Geom S_Eph S_Moon L_Vec L_Trig L_Frame L_NutDiff L_Eph L_EphB L_EvpA L_EvpB L_Moon L_MoonB L_Moon3 L_Moon4 L_Moon5.
Import ListNotations.
Open Scope R_scope.
Local Notation zz := (n_ofZ (n := RNum) 0, n_ofZ (n := RNum) 0).

(** ** The exact path is the theory of the specification *)
Lemma sarg_cubic c0 c1 c2 c3 t : fst (sarg c0 c1 c2 c3 t) = radians (cubic c0 c1 c2 c3 t).
Proof. unfold sarg, radians, cubic, kap; cbn [fst]. ring. Qed.
Lemma rad_add x y : radians (x + y) = radians x + radians y.
Proof. unfold radians. ring. Qed.
Lemma kap_rad x : kap * x = radians x.
Proof. unfold kap, radians. ring. Qed.

Lemma som_node t : fst (som t) = radians (node t).
Proof. unfold som. rewrite sarg_cubic. unfold node. f_equal. Qed.
Lemma swa_add t : fst (swa t) = additive t.
Proof. unfold swa, additive, sind; cbn [fst]. rewrite kap_rad. reflexivity. Qed.
Lemma swb_ven t : fst (swb t) = great_venus t.
Proof. unfold swb, great_venus, sind; cbn [fst]. rewrite kap_rad. apply f_equal, (f_equal sin), (f_equal radians). lra. Qed.
Lemma swom_node t : fst (swom t) = radians (node' t).
Proof. unfold swom; cbn [fst]. rewrite som_node, kap_rad, <- rad_add. apply (f_equal radians). unfold node'. lra. Qed.

Lemma elp_mean t : fst (g_elp (sargs t)) = radians (S_Moon.mean_longitude t).
Proof.
  unfold sargs; cbn [g_elp fst]. rewrite swa_add, swb_ven, som_node, kap_rad. unfold selp. rewrite sarg_cubic.
  unfold S_Moon.mean_longitude. fold (sind (node t)). unfold cubic. rewrite <- rad_add. apply (f_equal radians). lra.
Qed.
Lemma em_sun t : fst (g_em (sargs t)) = radians (S_Moon.sun_anomaly t).
Proof.
  unfold sargs; cbn [g_em fst]. rewrite swa_add, Rmult_assoc, kap_rad. unfold sem. rewrite sarg_cubic.
  unfold S_Moon.sun_anomaly, cubic. rewrite <- rad_add. apply (f_equal radians). lra.
Qed.
Lemma emp_moon t : fst (g_emp (sargs t)) = radians (moon_anomaly t).
Proof.
  unfold sargs; cbn [g_emp fst]. rewrite swa_add, swb_ven, som_node, kap_rad. unfold semp. rewrite sarg_cubic.
  unfold moon_anomaly. fold (sind (node t)). unfold cubic. rewrite <- rad_add. apply (f_equal radians). lra.
Qed.
Lemma d_elong t : fst (g_d (sargs t)) = radians (elongation t).
Proof.
  unfold sargs; cbn [g_d fst]. rewrite swa_add, swb_ven, som_node, kap_rad. unfold sd. rewrite sarg_cubic.
  unfold elongation. fold (sind (node t)). unfold cubic. rewrite <- rad_add. apply (f_equal radians). lra.
Qed.
Lemma f_node t : fst (g_f (sargs t)) = radians (node_distance t).
Proof.
  unfold sargs; cbn [g_f fst]. rewrite swb_ven, som_node, swom_node, kap_rad. unfold sf. rewrite sarg_cubic.
  unfold node_distance. fold (sind (node t)). fold (sind (node' t)). unfold cubic. rewrite <- rad_add. apply (f_equal radians). lra.
Qed.
Lemma e_ecc t n : (0 <= n <= 2)%Z -> fst (dmoon_en (N := RNum) (sargs t) n) = ecc t ^ Z.to_nat n.
Proof.
  intros N. unfold dmoon_en, sargs; cbn [g_e].
  assert (E : 1 + (-2495 / 1000000 + -752 / 100000000 * t) * t = ecc t) by (unfold ecc; lra). rewrite E.
  assert (n = 0 \/ n = 1 \/ n = 2)%Z as [-> | [-> | ->]] by lia; cbn [Z.eqb Pos.eqb fst]; unR; change (car RNum) with R; rewrite ?one.
  - reflexivity.
  - change (Z.to_nat 1) with 1%nat. ring.
  - change (Z.to_nat 2) with 2%nat. ring.
Qed.

Definition n_ok (r : row) : bool := let '(_, (_, _, _, _, n)) := r in (0 <=? n)%Z && (n <=? 2)%Z.
Lemma sin_lunar t : forall l : list row, forallb n_ok l = true -> fst (fold_right (dmoon_sin (N := RNum) (sargs t)) zz l) = lunar_series sind l t.
Proof.
  induction l as [|[c [[[[i j] k] h] n]] l IH]; intros F; [reflexivity|]. cbn [forallb n_ok] in F.
  apply andb_prop in F as (F & F'). apply andb_prop in F as (F0 & F2). apply Z.leb_le in F0, F2. specialize (IH F').
  cbn [fold_right lunar_series]. rewrite <- IH. unfold dmoon_sin at 1. pairs. cbn [fst snd].
  rewrite e_ecc by (cbn [fst snd]; lia). unfold dmoon_theta; cbn [fst snd]. rewrite lit_decimal.
  rewrite em_sun, emp_moon, d_elong, f_node. unR. unfold sind.
  replace (radians (IZR i * S_Moon.sun_anomaly t + IZR j * moon_anomaly t + IZR k * elongation t + IZR h * node_distance t)) with
    (IZR i * radians (S_Moon.sun_anomaly t) + IZR j * radians (moon_anomaly t) + IZR k * radians (elongation t) + IZR h * radians (node_distance t))
    by (unfold radians; ring).
  change (car RNum) with R. ring.
Qed.
Lemma cos_lunar t : forall l : list row, forallb n_ok l = true -> fst (fold_right (dmoon_cos (N := RNum) (sargs t)) zz l) = lunar_series cosd l t.
Proof.
  induction l as [|[c [[[[i j] k] h] n]] l IH]; intros F; [reflexivity|]. cbn [forallb n_ok] in F.
  apply andb_prop in F as (F & F'). apply andb_prop in F as (F0 & F2). apply Z.leb_le in F0, F2. specialize (IH F').
  cbn [fold_right lunar_series]. rewrite <- IH. unfold dmoon_cos at 1. pairs. cbn [fst snd].
  rewrite e_ecc by (cbn [fst snd]; lia). unfold dmoon_theta; cbn [fst snd]. rewrite lit_decimal.
  rewrite em_sun, emp_moon, d_elong, f_node. unR. unfold cosd.
  replace (radians (IZR i * S_Moon.sun_anomaly t + IZR j * moon_anomaly t + IZR k * elongation t + IZR h * node_distance t)) with
    (IZR i * radians (S_Moon.sun_anomaly t) + IZR j * radians (moon_anomaly t) + IZR k * radians (elongation t) + IZR h * radians (node_distance t))
    by (unfold radians; ring).
  change (car RNum) with R. ring.
Qed.

Lemma theory_cart t : pos (cart (xel t) (xb t) (xp t)) = moon_theory t.
Proof.
  assert (L : fst (xel t) = radians (moon_longitude t)).
  { unfold xel, moon_longitude; cbn [fst]. rewrite elp_mean, sin_lunar by (vm_compute; reflexivity). rewrite kap_rad, rad_add. reflexivity. }
  assert (B : fst (xb t) = radians (moon_latitude t)).
  { unfold xb, moon_latitude; cbn [fst]. rewrite sin_lunar by (vm_compute; reflexivity). rewrite som_node, swom_node.
    unfold cosd, radians, kap. lra. }
  assert (P : fst (xp t) = radians (moon_parallax t)).
  { unfold xp, moon_parallax; cbn [fst]. rewrite cos_lunar by (vm_compute; reflexivity). apply kap_rad. }
  unfold cart. pairs. cbn [pos]. rewrite L, B, P.
  unfold moon_theory, place, scale, direction, sind; cbn [v0 v1 v2].
  replace (Rdec 42635212653763 (-18)) with earth_radius by (unfold earth_radius; decs; lra).
  f_equal; ring.
Qed.

(** ** Closeness of the Cartesian path *)
Lemma cart_close e e' l l' p p' :
  nr 1e-18 1e-22 1e-5 e e' -> nr 1e-18 1e-22 1e-5 l l' -> cl (fst p) (fst p') 1e-18 1 -> cl (snd p) (snd p') 1e-22 1e-5 ->
  0.015 <= sin (fst p) -> 0.015 <= sin (fst p') ->
  norm (vsub (pos (cart e l p)) (pos (cart e' l' p'))) <= 1e-15 /\
  norm (vsub (velo (cart e l p)) (velo (cart e' l' p'))) <= 1e-20.
Proof.
  intros (E & E') (L & L') P P' S S'.
  pose proof (cl_sin _ _ _ E) as SE. pose proof (cl_cos _ _ _ E) as CE.
  pose proof (cl_sin _ _ _ L) as SL. pose proof (cl_cos _ _ _ L) as CL.
  pose proof (cl_sin _ _ _ (anear_cl _ _ _ _ P)) as SP. pose proof (cl_cos _ _ _ (anear_cl _ _ _ _ P)) as CP.
  pose proof (cl_inv _ _ _ 0.015 ltac:(lra) S S' (proj1 SP)) as I.
  apply cl_weak with (e' := 4.5e-15) (b' := 67) in I; [|lra|lra].
  unfold cart. pairs. cbn [pos velo fst snd]. decs.
  set (K := 42635212653763 / 1000000000000000000).
  assert (KB : Rabs K <= 0.0000427) by (unfold K; apply Rabs_le; lra). clearbody K.
  set (r := K / sin (fst p)). set (r' := K / sin (fst p')).
  assert (RB : cl r r' 2e-19 0.0029) by (unfold r, r'; clear SP; closes).
  set (dr := - r * snd p * cos (fst p) / sin (fst p)). set (dr' := - r' * snd p' * cos (fst p') / sin (fst p')).
  assert (DB : cl dr dr' 4.2e-21 6e-5) by (unfold dr, dr'; clear SP; clearbody r r'; closes).
  clearbody dr dr' r r'.
  set (w := r * snd l * sin (fst l) - cos (fst l) * dr). set (w' := r' * snd l' * sin (fst l') - cos (fst l') * dr').
  assert (WB : cl w w' 5e-21 7e-5) by (unfold w, w'; closes).
  clearbody w w'.
  split.
  - apply norm_box with (a := 1e-17) (b := 1e-17) (c := 1e-17); unfold vsub; cbn [v0 v1 v2]; try lra.
    + assert (X : cl (r * cos (fst l) * cos (fst e)) (r' * cos (fst l') * cos (fst e')) 1e-17 1) by closes. exact (proj1 X).
    + assert (X : cl (r * cos (fst l) * sin (fst e)) (r' * cos (fst l') * sin (fst e')) 1e-17 1) by closes. exact (proj1 X).
    + assert (X : cl (r * sin (fst l)) (r' * sin (fst l')) 1e-17 1) by closes. exact (proj1 X).
  - apply norm_box with (a := 5.5e-21) (b := 5.5e-21) (c := 5.5e-21); unfold vsub; cbn [v0 v1 v2]; try lra.
    + assert (X : cl (- (r * cos (fst l) * sin (fst e)) * snd e - w * cos (fst e)) (- (r' * cos (fst l') * sin (fst e')) * snd e' - w' * cos (fst e')) 5.5e-21 1) by closes. exact (proj1 X).
    + assert (X : cl (r * cos (fst l) * cos (fst e) * snd e - w * sin (fst e)) (r' * cos (fst l') * cos (fst e') * snd e' - w' * sin (fst e')) 5.5e-21 1) by closes. exact (proj1 X).
    + assert (X : cl (r * snd l * cos (fst l) + sin (fst l) * dr) (r' * snd l' * cos (fst l') + sin (fst l') * dr') 5.5e-21 1) by closes. exact (proj1 X).
Qed.

Lemma theory_sin t : Rabs t <= 10 -> 0.015 <= sin (fst (xp t)).
Proof.
  intros T. destruct (spherical_near t T) as (_ & _ & P & _). destruct (sin_parallax t T) as (S & _). unfold parallax in S.
  pose proof (proj1 (cl_sin _ _ _ (anear_cl _ _ _ _ P))) as D. apply ab in D. lra.
Qed.

Lemma theory_close t : Rabs t <= 10 ->
  norm (vsub (pos (dmoon_ecl (N := RNum) t)) (moon_theory t)) <= 1e-15 /\
  exists u, velocity_at moon_theory t (scale 3155760000 u) /\ norm (vsub (velo (dmoon_ecl (N := RNum) t)) u) <= 1e-20.
Proof.
  intros T. destruct (spherical_near t T) as (E & L & P & P'). destruct (sin_parallax t T) as (S & _). unfold parallax in S.
  assert (S0 : 0.015 <= sin (fst (dmoon_p (N := RNum) (dmoon_args (N := RNum) t)))) by lra.
  destruct (cart_close _ _ _ _ _ _ E L P P' S0 (theory_sin t T)) as (X & V).
  rewrite ecl_cart. rewrite <- theory_cart. split; [exact X|].
  exists (velo (cart (xel t) (xb t) (xp t))). split; [|exact V].
  pose proof (theory_sin t T) as S'.
  pose proof (cart_velocity xel xb xp t (xel_rated t) (xb_rated t) (xp_rated t) ltac:(lra)) as W.
  eapply velocity_ext; [intros s; symmetry; apply theory_cart|]. exact W.
Qed.

(** ** The public routine *)
Lemma to_equator_sub date p q : vsub (to_equator date p) (to_equator date q) = to_equator date (vsub p q).
Proof. unfold to_equator, mapply, frame_x, cross, vadd, vsub, scale, dot; cbn [v0 v1 v2 r0 r1 r2]. f_equal; ring. Qed.
Lemma to_equator_scale date k q : scale k (to_equator date q) = to_equator date (scale k q).
Proof. unfold to_equator, mapply, frame_x, cross, vadd, scale, dot; cbn [v0 v1 v2 r0 r1 r2]. f_equal; ring. Qed.
Lemma equinox_small date : Rabs (centuries1900 date) <= 10 -> Rabs (equinox_correction date) <= 0.0001.
Proof. intros H. unfold equinox_correction, timesecond. unfold centuries1900 in H. apply ab in H. apply Rabs_le. lra. Qed.
Lemma vsub_scale k p q : vsub (scale k p) (scale k q) = scale k (vsub p q).
Proof. unfold vsub, scale; cbn [v0 v1 v2]. f_equal; ring. Qed.
Lemma equator_close date p q e : Rabs (centuries1900 date) <= 10 -> norm (vsub p q) <= e -> e <= 1e-15 ->
  norm (vsub (to_equator date p) (to_equator date q)) <= 2e-15.
Proof.
  intros H N E. rewrite to_equator_sub. destruct (to_equator_norm date (vsub p q) (equinox_small _ H)) as (_ & B).
  pose proof (norm_nonneg (vsub p q)). lra.
Qed.

Lemma chain_centuries : forall (g : R -> R) (w date : R), derivable_pt_lim g (centuries1900 date) (3155760000 * w) ->
  derivable_pt_lim (fun d => g (centuries1900 d)) date (86400 * w).
Proof.
  intros g w date G. apply is_derive_Reals in G. apply is_derive_Reals.
  assert (D : is_derive centuries1900 date (/ 36525)) by (unfold centuries1900; auto_derive; [easy|lra]).
  pose proof (is_derive_comp g centuries1900 date _ _ G D) as E.
  replace (86400 * w) with (scal (/ 36525) (3155760000 * w)); [exact E|].
  unfold scal; cbn. unfold mult; cbn. lra.
Qed.

Lemma dmoon_theory : forall date, Rabs (centuries1900 date) <= 10 ->
  norm (vsub (pos (dmoon (N := RNum) date)) (to_equator date (moon_theory (centuries1900 date)))) <= 2e-15 /\
  exists u, velocity_at (fun d => moon_theory (centuries1900 d)) date u /\
    norm (vsub (scale 86400 (velo (dmoon (N := RNum) date))) (to_equator date u)) <= 2e-15.
Proof.
  intros date H. destruct (theory_close _ H) as (P & u & V & U). rewrite dmoon_eq; cbn [pos velo]. split.
  - apply equator_close with (e := 1e-15); [exact H|exact P|lra].
  - exists (scale 86400 u). split.
    + destruct V as (A0 & A1 & A2). unfold velocity_at, scale in *; cbn [v0 v1 v2] in *. split; [|split].
      * exact (chain_centuries (fun s => v0 (moon_theory s)) _ _ A0).
      * exact (chain_centuries (fun s => v1 (moon_theory s)) _ _ A1).
      * exact (chain_centuries (fun s => v2 (moon_theory s)) _ _ A2).
    + rewrite to_equator_scale. apply equator_close with (e := 86400 * 1e-20); [exact H| |lra].
      rewrite vsub_scale, norm_scale_abs, Rabs_pos_eq by lra. apply Rmult_le_compat_l; [lra|exact U].
Qed.
