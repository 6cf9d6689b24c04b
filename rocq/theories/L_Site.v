(** Proofs about observer position, polar motion, velocities, space motion. *)
From Coq Require Import Reals ZArith QArith Qreals Lra Lia Bool Psatz Nsatz String.
From Coquelicot Require Import Coquelicot.
From Verif Require Import Int32 Num NumR L_Real L_Pi L_Trig S_Geom S_Sphere S_Frame M_Angle L_Angle M_Vec L_Vec L_Rot L_Tan L_Tps
  M_Frame L_Gal L_Frame M_Site S_Site.
Open Scope R_scope.

Ltac asR := match goal with |- @eq _ ?a ?b => change (@eq R a b) end.

(** ** Observer *)
Definition geo_c (lat : R) : R := 1 / sqrt (cos lat * cos lat + (1 - 1 / 298.257) * (1 - 1 / 298.257) * sin lat * sin lat).

Lemma geoc_eq lat h : geoc (N := RNum) lat h =
  ((earth_a * geo_c lat + h) * cos lat / au_m,
   (earth_a * ((1 - 1 / 298.257) * (1 - 1 / 298.257) * geo_c lat) + h) * sin lat / au_m).
Proof.
  unfold geoc, geo_c, earth_a, au_m. unR. cbv zeta.
  replace (Rdec 298257 (-3)) with 298.257 by (decs; field).
  replace (Rdec 149597870 3) with 149597870000 by (unfold Rdec; f_equal). reflexivity.
Qed.

Lemma geo_pos lat : 0 < cos lat * cos lat + (1 - 1 / 298.257) * (1 - 1 / 298.257) * sin lat * sin lat.
Proof. pose proof (sc1 lat). set (s := sin lat) in *. set (c := cos lat) in *. nra. Qed.

Lemma geoc_spec lat h : let '(x, z) := geoc (N := RNum) lat h in
  exists rho z0, spheroid_point lat rho z0 /\ x * au_m = rho + h * cos lat /\ z * au_m = z0 + h * sin lat.
Proof.
  rewrite geoc_eq. exists (earth_a * geo_c lat * cos lat), (earth_a * ((1 - 1 / 298.257) * (1 - 1 / 298.257) * geo_c lat) * sin lat).
  pose proof (geo_pos lat) as P. unfold geo_c. set (q := (1 - 1 / 298.257)) in *.
  assert (Q : q <> 0) by (unfold q; lra).
  set (D := cos lat * cos lat + q * q * sin lat * sin lat) in *.
  pose proof (sqrt_lt_R0 _ P) as SP. pose proof (sqrt_sqrt D (Rlt_le _ _ P)) as SS.
  split; [|split].
  - unfold spheroid_point, earth_b. fold q. split.
    + transitivity ((cos lat * cos lat + q * q * sin lat * sin lat) / (sqrt D * sqrt D)).
      * unfold earth_a. field; repeat split; solve [exact Q | lra].
      * fold D. rewrite SS. field. lra.
    + exists (1 / (earth_a * sqrt D)). split; [|split].
      * apply Rdiv_lt_0_compat; [lra|]. apply Rmult_lt_0_compat; [unfold earth_a; lra|exact SP].
      * unfold earth_a. field. lra.
      * unfold earth_a. field; repeat split; solve [exact Q | lra].
  - unfold au_m. field. lra.
  - unfold au_m. field. lra.
Qed.

(** On the equator and at the pole. *)
Lemma geoc_example : geoc (N := RNum) 0 0 = (earth_a / au_m, 0) /\ geoc (N := RNum) (PI / 2) 0 = (0, earth_b / au_m).
Proof.
  rewrite !geoc_eq. unfold geo_c. rewrite cos_0, sin_0, cos_PI2, sin_PI2. set (q := 1 - 1 / 298.257).
  assert (q0 : 0 < q) by (unfold q; lra).
  split; f_equal; unfold au_m; try (unfold Rdiv; ring).
  - replace (1 * 1 + q * q * 0 * 0) with 1 by ring. rewrite sqrt_1. unfold earth_a. field.
  - replace (0 * 0 + q * q * 1 * 1) with (q * q) by ring. rewrite sqrt_square by lra. unfold earth_b. fold q. field. lra.
Qed.

Lemma pvobs_eq lat h lst : pvobs (N := RNum) lat h lst =
  let '(x, z) := geoc (N := RNum) lat h in
  VPV (N := RNum) (V3 (x * cos lst) (x * sin lst) z) (V3 (- (sidereal_rate * x) * sin lst) (sidereal_rate * x * cos lst) 0).
Proof.
  unfold pvobs. rewrite geoc_eq. unR. cbv zeta.
  replace (Rdec 7292115855306589 (-20)) with sidereal_rate by (unfold sidereal_rate; decs; field). reflexivity.
Qed.

Lemma pvobs_derivative lat h lst : let P t := pos (pvobs (N := RNum) lat h (lst + sidereal_rate * t)) in
  let V := velo (pvobs (N := RNum) lat h lst) in
  derivable_pt_lim (fun t => v0 (P t)) 0 (v0 V) /\ derivable_pt_lim (fun t => v1 (P t)) 0 (v1 V) /\
  derivable_pt_lim (fun t => v2 (P t)) 0 (v2 V).
Proof.
  intros P V. unfold P, V. rewrite pvobs_eq. 
  assert (E : forall t, pos (pvobs (N := RNum) lat h (lst + sidereal_rate * t)) =
    let '(x, z) := geoc (N := RNum) lat h in V3 (x * cos (lst + sidereal_rate * t)) (x * sin (lst + sidereal_rate * t)) z).
  { intros t. rewrite pvobs_eq. destruct (geoc lat h). reflexivity. }
  destruct (geoc (N := RNum) lat h) as [x z]. cbn [velo pos v0 v1 v2]. unfold car, RNum in x, z.
  split; [|split].
  - apply (derivable_pt_lim_ext (fun t => x * cos (lst + sidereal_rate * t))); [intros t; rewrite E; reflexivity|].
    apply is_derive_Reals. auto_derive; [trivial|]. rewrite Rmult_0_r, Rplus_0_r. ring.
  - apply (derivable_pt_lim_ext (fun t => x * sin (lst + sidereal_rate * t))); [intros t; rewrite E; reflexivity|].
    apply is_derive_Reals. auto_derive; [trivial|]. rewrite Rmult_0_r, Rplus_0_r. ring.
  - apply (derivable_pt_lim_ext (fun t => z)); [intros t; rewrite E; reflexivity|]. apply derivable_pt_lim_const.
Qed.

Lemma pvobs_position lat h lst : let p := pos (pvobs (N := RNum) lat h lst) in let '(x, z) := geoc (N := RNum) lat h in
  p = mapply (frame_z (- lst)) (V3 x 0 z) /\ dot p (velo (pvobs (N := RNum) lat h lst)) = 0.
Proof.
  rewrite pvobs_eq. destruct (geoc (N := RNum) lat h) as [x z]. cbn [pos velo]. unfold car, RNum in x, z. split.
  - geo. rewrite cos_neg, sin_neg. f_equal; ring.
  - geo. ring.
Qed.

(** ** Polar motion *)
Lemma rotation_polar x y : rotation (polar_motion x y).
Proof. apply rotation_mmul; [apply rotation_frame_y|apply rotation_frame_x]. Qed.

Lemma if_atan2' (y x : R) : (if (negb (Reqb x 0) || negb (Reqb y 0))%bool then Ratan2 y x else 0) = Ratan2 y x.
Proof.
  destruct (Reqb_spec x 0) as [->|]; cbn [negb orb]; [|reflexivity].
  destruct (Reqb_spec y 0) as [->|]; cbn [negb orb]; [|reflexivity]. symmetry. apply atan2_00.
Qed.

Lemma if_atan2_neg (y x : R) : (if (negb (Reqb x 0) || negb (Reqb y 0))%bool then Ratan2 (- y) (- x) else 0) = Ratan2 (- y) (- x).
Proof.
  destruct (Reqb_spec x 0) as [->|]; cbn [negb orb]; [|reflexivity].
  destruct (Reqb_spec y 0) as [->|]; cbn [negb orb]; [|reflexivity]. rewrite Ropp_0. symmetry. apply atan2_00.
Qed.

Lemma polmo_eq ml mp x y : polmo (N := RNum) ml mp x y =
  let T := mapply (polar_motion x y) (direction ml mp) in
  let P := mapply (polar_motion x y) (V3 0 0 1) in
  let cp := hyp (v0 T) (v1 T) in
  let xt := if Reqb cp 0 then 1 else v0 T in
  let sl := v1 T / cp in let cl := xt / cp in
  let xnt := (v0 P * cl + v1 P * sl) * v2 T - v2 P * cp in
  let ynt := - v0 P * sl + v1 P * cl in
  (Ratan2 (v1 T) xt, Ratan2 (v2 T) cp, if Reqb cp 0 then None else Some (Ratan2 (- ynt) (- xnt))).
Proof.
  set (T := mapply (polar_motion x y) (direction ml mp)). set (P := mapply (polar_motion x y) (V3 0 0 1)).
  assert (T0 : v0 T = cos ml * cos mp * cos x - (- (sin ml * cos mp) * sin y + sin mp * cos y) * sin x) by (unfold T, polar_motion; geo; ring).
  assert (T1 : v1 T = sin ml * cos mp * cos y + sin mp * sin y) by (unfold T, polar_motion; geo; ring).
  assert (T2 : v2 T = cos ml * cos mp * sin x + (- (sin ml * cos mp) * sin y + sin mp * cos y) * cos x) by (unfold T, polar_motion; geo; ring).
  assert (P0 : v0 P = - sin x * cos y) by (unfold P, polar_motion; geo; ring).
  assert (P1 : v1 P = sin y) by (unfold P, polar_motion; geo; ring).
  assert (P2 : v2 P = cos x * cos y) by (unfold P, polar_motion; geo; ring).
  unfold polmo. unR. cbv zeta. rewrite <- T0, <- T1, <- T2, <- P0, <- P1, <- P2. fold (hyp (v0 T) (v1 T)). rewrite if_atan2', if_atan2_neg. reflexivity.
Qed.

Lemma polmo_direction ml mp x y : let '(tl, tp, _) := polmo (N := RNum) ml mp x y in
  direction tl tp = mapply (polar_motion x y) (direction ml mp) /\ - PI < tl <= PI /\ - (PI / 2) <= tp <= PI / 2.
Proof.
  rewrite polmo_eq. cbv zeta. set (T := mapply (polar_motion x y) (direction ml mp)).
  assert (N1 : norm T = 1) by (unfold T; rewrite rotation_norm by apply rotation_polar; apply norm_direction).
  split; [|split; [apply atan2_range|apply atan2_range_pos, hyp_nonneg]].
  pose proof (direction_dcc2s T) as D. rewrite dcc2s_eq in D. cbn [s_a s_b] in D. cbv zeta in D. rewrite N1 in D.
  destruct (Reqb_spec (hyp (v0 T) (v1 T)) 0) as [E|E].
  - apply hyp_0 in E as E'. destruct E' as [E0 E1]. etransitivity; [|exact D]. rewrite E, E1.
    assert (C : cos (Ratan2 (v2 T) 0) = 0).
    { pose proof (atan2_cos (v2 T) 0) as C. apply Rmult_integral in C. destruct C as [C|C]; [|exact C]. apply hyp_0 in C. exfalso.
      destruct C as [_ C]. pose proof (norm_sq T) as S2. rewrite N1 in S2. unfold dot in S2. rewrite E0, E1, C in S2. lra. }
    unfold direction, scale. cbn [v0 v1 v2]. rewrite C. f_equal; ring.
  - etransitivity; [|exact D]. unfold scale, direction. cbn [v0 v1 v2]. f_equal; ring.
Qed.

Lemma polmo_none ml mp x y : snd (polmo (N := RNum) ml mp x y) = None <->
  let T := mapply (polar_motion x y) (direction ml mp) in v0 T = 0 /\ v1 T = 0.
Proof.
  rewrite polmo_eq. cbv zeta. set (T := mapply (polar_motion x y) (direction ml mp)). cbn [snd].
  destruct (Reqb_spec (hyp (v0 T) (v1 T)) 0) as [E|E]; split; intros H; try discriminate; try reflexivity.
  - apply hyp_0. exact E.
  - destruct H as [A B]. exfalso. apply E. rewrite A, B. apply hyp_00.
Qed.

Lemma some_inj (a b : R) : Some a = Some b -> a = b.
Proof. intros H. exact (f_equal (fun o => match o with Some x => x | None => a end) H). Qed.

Lemma mapply_cross m u v : rotation m -> mapply m (cross u v) = cross (mapply m u) (mapply m v).
Proof.
  intros H. destruct (rotation_cross m H) as (A & B & C). destruct m as [a b c]. cbn [r0 r1 r2] in *.
  unfold mapply; cbn [r0 r1 r2]. apply vec_eq; cbn [v0 v1 v2].
  - transitivity (dot (cross b c) (cross u v)); [rewrite B; reflexivity|unfold dot, cross; cbn [v0 v1 v2]; ring].
  - transitivity (dot (cross c a) (cross u v)); [rewrite C; reflexivity|unfold dot, cross; cbn [v0 v1 v2]; ring].
  - transitivity (dot (cross a b) (cross u v)); [rewrite A; reflexivity|unfold dot, cross; cbn [v0 v1 v2]; ring].
Qed.

Lemma polmo_azimuth ml mp x y tl tp daz (v : RV) A : - (PI / 2) < mp < PI / 2 -> polmo (N := RNum) ml mp x y = (tl, tp, Some daz) ->
  has_bearing tl tp v A -> has_bearing ml mp (mapply (transpose (polar_motion x y)) v) (A + daz).
Proof.
  intros M E (k & K & HN & HE). pose proof (polmo_direction ml mp x y) as D. rewrite E in D. destruct D as (D & _ & TP).
  rewrite polmo_eq in E. cbv zeta in E.
  set (RR := polar_motion x y) in *. assert (RO : rotation RR) by apply rotation_polar.
  set (T := mapply RR (direction ml mp)) in *. set (P := mapply RR (V3 0 0 1)) in *.
  destruct (Reqb_spec (hyp (v0 T) (v1 T)) 0) as [Z|Z]; [discriminate|].
  pose proof (f_equal snd E) as ED. cbn [snd] in ED. apply some_inj in ED.
  assert (cm : 0 < cos mp) by (apply cos_gt_0; lra).
  (* the true direction *)
  assert (ctp : hyp (v0 T) (v1 T) = cos tp).
  { rewrite <- D. unfold direction. cbn [v0 v1]. replace (cos tl * cos tp) with (cos tp * cos tl) by ring.
    replace (sin tl * cos tp) with (cos tp * sin tl) by ring. apply hyp_polar. apply cos_ge_0; lra. }
  rewrite ctp in *. 
  assert (C1 : v0 T / cos tp = cos tl) by (rewrite <- D; unfold direction; cbn [v0]; field; exact Z).
  assert (S1 : v1 T / cos tp = sin tl) by (rewrite <- D; unfold direction; cbn [v1]; field; exact Z).
  assert (T2 : v2 T = sin tp) by (rewrite <- D; reflexivity).
  rewrite C1, S1, T2 in ED.
  replace (- (- v0 P * sin tl + v1 P * cos tl)) with (- dot P (east tl)) in ED by (unfold dot, east; cbn [v0 v1 v2]; ring).
  replace (- ((v0 P * cos tl + v1 P * sin tl) * sin tp - v2 P * cos tp)) with (dot P (north tl tp)) in ED by (unfold dot, north; cbn [v0 v1 v2]; ring).
  set (pe := dot P (east tl)) in *. set (pn := dot P (north tl tp)) in *.
  (* the pole *)
  assert (PT : dot P T = sin mp). { unfold P, T. rewrite rotation_dot by exact RO. unfold dot, direction; cbn [v0 v1 v2]. ring. }
  assert (PP : dot P P = 1). { unfold P. rewrite rotation_dot by exact RO. unfold dot; cbn [v0 v1 v2]. ring. }
  pose proof (frame_expand tl tp P) as X1. fold pe pn in X1. rewrite D, PT in X1.
  assert (PQ : pe * pe + pn * pn = cos mp * cos mp).
  { destruct (frame_dots tl tp) as (F1 & F2 & F3 & F4 & F5 & F6). rewrite D in F3, F5, F6.
    assert (Q : dot P P = sin mp * sin mp + pe * pe + pn * pn).
    { rewrite X1 at 1. transitivity (sin mp * dot P T + pe * dot P (east tl) + pn * dot P (north tl tp)); [unfold dot, vadd, scale; cbn [v0 v1 v2]; ring|].
      rewrite PT. fold pe pn. ring. }
    pose proof (sc1 mp). nra. }
  assert (HY : hyp pn (- pe) = cos mp). { unfold hyp. replace (pn * pn + - pe * - pe) with (cos mp * cos mp) by lra. apply sqrt_square. lra. }
  pose proof (atan2_cos (- pe) pn) as AC. pose proof (atan2_sin (- pe) pn) as AS. rewrite HY, ED in AC, AS.
  (* bearings *)
  set (vT := dot v T).
  assert (VP : dot v P = sin mp * vT + pe * (k * sin A) + pn * (k * cos A)).
  { rewrite X1. rewrite <- HN, <- HE. unfold vT, dot, vadd, scale; cbn [v0 v1 v2]. ring. }
  assert (B1 : cos mp * dot (mapply (transpose RR) v) (north ml mp) = dot v P - sin mp * vT).
  { rewrite dot_mapply. replace (transpose (transpose RR)) with RR by (destruct RR as [[a0 a1 a2] [b0 b1 b2] [c0 c1 c2]]; reflexivity).
    unfold P, vT, T. transitivity (dot v (mapply RR (vsub (V3 0 0 1) (scale (sin mp) (direction ml mp))))).
    - replace (vsub (V3 0 0 1) (scale (sin mp) (direction ml mp))) with (scale (cos mp) (north ml mp)).
      + clear - RR; destruct RR as [[a0 a1 a2] [b0 b1 b2] [c0 c1 c2]]; unfold dot, mapply, scale; cbn [v0 v1 v2 r0 r1 r2]. unfold dot; cbn [v0 v1 v2]. ring.
      + unfold vsub, scale, north, direction; cbn [v0 v1 v2]. pose proof (sc1 mp) as Q; unfold Rsqr in Q. f_equal; nsatz.
    - clear - RR; destruct RR as [[a0 a1 a2] [b0 b1 b2] [c0 c1 c2]]; unfold dot, mapply, scale, vsub; cbn [v0 v1 v2 r0 r1 r2]. unfold dot; cbn [v0 v1 v2]. ring. }
  assert (B2 : cos mp * dot (mapply (transpose RR) v) (east ml) = dot v (cross P T)).
  { rewrite dot_mapply. replace (transpose (transpose RR)) with RR by (destruct RR as [[a0 a1 a2] [b0 b1 b2] [c0 c1 c2]]; reflexivity).
    unfold P, T. rewrite <- (mapply_cross RR) by exact RO.
    replace (cross (V3 0 0 1) (direction ml mp)) with (scale (cos mp) (east ml)) by (unfold cross, scale, direction, east; cbn [v0 v1 v2]; f_equal; ring).
    clear - RR; destruct RR as [[a0 a1 a2] [b0 b1 b2] [c0 c1 c2]]; unfold dot, mapply, scale; cbn [v0 v1 v2 r0 r1 r2]. unfold dot; cbn [v0 v1 v2]. ring. }
  assert (B3 : dot v (cross P T) = pn * (k * sin A) - pe * (k * cos A)).
  { rewrite <- HN, <- HE. rewrite X1. rewrite <- D. 
    assert (EX : cross (east tl) (direction tl tp) = scale (-1) (north tl tp)).
    { unfold cross, scale, east, north, direction; cbn [v0 v1 v2]. pose proof (sc1 tl) as Q; unfold Rsqr in Q. f_equal; nsatz. }
    assert (NX : cross (north tl tp) (direction tl tp) = east tl).
    { unfold cross, east, north, direction; cbn [v0 v1 v2]. pose proof (sc1 tp) as Q; unfold Rsqr in Q. f_equal; nsatz. }
    transitivity (pe * dot v (cross (east tl) (direction tl tp)) + pn * dot v (cross (north tl tp) (direction tl tp))).
    - unfold dot, cross, vadd, scale; cbn [v0 v1 v2]. ring.
    - rewrite EX, NX. unfold dot, scale; cbn [v0 v1 v2]. ring. }
  exists k. split; [exact K|]. rewrite cos_plus, sin_plus. 
  assert (cm' : cos mp <> 0) by lra.
  split; apply (Rmult_eq_reg_l (cos mp)); try exact cm'.
  - rewrite B1, VP. transitivity (k * cos A * (cos mp * cos daz) - k * sin A * (cos mp * sin daz)); [rewrite AC, AS; ring|ring].
  - rewrite B2, B3. transitivity (k * sin A * (cos mp * cos daz) + k * cos A * (cos mp * sin daz)); [rewrite AC, AS; ring|ring].
Qed.

Lemma polmo_none_offsets ml mp : - PI < ml <= PI -> - (PI / 2) < mp < PI / 2 -> polmo (N := RNum) ml mp 0 0 = (ml, mp, Some 0).
Proof.
  intros L M. rewrite polmo_eq. cbv zeta.
  assert (T : mapply (polar_motion 0 0) (direction ml mp) = direction ml mp).
  { unfold polar_motion. geo. rewrite cos_0, sin_0. f_equal; ring. }
  assert (P : mapply (polar_motion 0 0) (V3 0 0 1) = V3 0 0 1).
  { unfold polar_motion. geo. rewrite cos_0, sin_0. f_equal; ring. }
  rewrite T, P. unfold direction. cbn [v0 v1 v2]. assert (cm : 0 < cos mp) by (apply cos_gt_0; lra).
  replace (cos ml * cos mp) with (cos mp * cos ml) by ring. replace (sin ml * cos mp) with (cos mp * sin ml) by ring.
  rewrite hyp_polar by lra. destruct (Reqb_spec (cos mp) 0) as [Z|_]; [lra|].
  f_equal; [f_equal|f_equal].
  - apply atan2_polar_eq; assumption.
  - rewrite <- (Rmult_1_l (sin mp)), <- (Rmult_1_l (cos mp)). apply atan2_polar_eq; lra.
  - match goal with |- Ratan2 ?y ?x = 0 => replace y with (cos mp * sin 0) by (rewrite sin_0; field; lra); replace x with (cos mp * cos 0) by (rewrite cos_0; field; lra) end.
    pose proof PI_RGT_0. apply atan2_polar_eq; lra.
Qed.

(** ** Radial velocities *)
Definition star (p : sph RNum) : RV := direction (s_a p) (s_b p).
Lemma dvdv_star (va : RV) (p : sph RNum) : dvdv (N := RNum) va (dcs2c p) = dot va (star p).
Proof. rewrite dvdv_dot, dcs2c_direction. reflexivity. Qed.
Lemma norm_star p : norm (star p) = 1. Proof. apply norm_direction. Qed.

Lemma rverot_spec phi p st : rverot (N := RNum) phi p st = receding (scale (0.4655 * cos phi) (east st)) (star p).
Proof.
  unfold rverot, receding, star, east. unR. geo. rewrite sin_minus. decs. field.
Qed.

Lemma row_dot (g m : RM) x y z v e : mnear g m e -> norm v = 1 ->
  Rabs (dot (mapply (transpose g) (V3 x y z)) v - dot (mapply (transpose m) (V3 x y z)) v) <= 2 * e * (Rabs x + Rabs y + Rabs z).
Proof.
  intros ((A0 & A1 & A2) & (B0 & B1 & B2) & (C0 & C1 & C2)) N1.
  pose proof (near_dot _ _ v e A0 A1 A2 N1) as A. pose proof (near_dot _ _ v e B0 B1 B2 N1) as B. pose proof (near_dot _ _ v e C0 C1 C2 N1) as C.
  set (a := dot (r0 g) v - dot (r0 m) v) in *. set (b := dot (r1 g) v - dot (r1 m) v) in *. set (c := dot (r2 g) v - dot (r2 m) v) in *.
  replace (dot (mapply (transpose g) (V3 x y z)) v - dot (mapply (transpose m) (V3 x y z)) v) with (x * a + y * b + z * c)
    by (unfold a, b, c; geo; ring).
  eapply Rle_trans; [apply Rabs_triang|]. eapply Rle_trans; [apply Rplus_le_compat_r, Rabs_triang|]. rewrite !Rabs_mult.
  pose proof (Rabs_pos x). pose proof (Rabs_pos y). pose proof (Rabs_pos z). nra.
Qed.

Lemma galactic_projection (va : RV) x y z e (p : sph RNum) : norm (star p) = 1 ->
  (let w := mapply (transpose (gal_mat (N := RNum))) (V3 x y z) in
   near (v0 va) (- v0 w) e /\ near (v1 va) (- v1 w) e /\ near (v2 va) (- v2 w) e) ->
  Rabs (dot va (star p) - receding (galactic_vector x y z) (star p)) <= 2 * e + 2e-7 * (Rabs x + Rabs y + Rabs z).
Proof.
  intros N1 (A & B & C). set (w := mapply (transpose (gal_mat (N := RNum))) (V3 x y z)) in *.
  pose proof (near_dot va (V3 (- v0 w) (- v1 w) (- v2 w)) (star p) e A B C N1) as F.
  pose proof (row_dot _ _ x y z (star p) _ gal_near N1) as G. fold w in G. unfold receding, galactic_vector.
  replace (dot va (star p) - - dot (mapply (transpose galactic_frame) (V3 x y z)) (star p)) with
    ((dot va (star p) - dot (V3 (- v0 w) (- v1 w) (- v2 w)) (star p)) + (dot (mapply (transpose galactic_frame) (V3 x y z)) (star p) - dot w (star p)))
    by (unfold dot; cbn [v0 v1 v2]; ring).
  eapply Rle_trans; [apply Rabs_triang|]. lra.
Qed.

Ltac gal_num := unfold near, gal_mat; unR; geo; decs; apply Rabs_le; split; lra.
Lemma rvgalc_spec p : Rabs (rvgalc (N := RNum) p - receding (galactic_vector 0 220 0) (star p)) <= 2e-4.
Proof.
  unfold rvgalc. rewrite dvdv_star. eapply Rle_trans; [apply (galactic_projection _ 0 220 0 1e-5); [apply norm_star|]|].
  - cbv zeta. split; [gal_num|split; gal_num].
  - rewrite !Rabs_R0, Rabs_pos_eq by lra. lra.
Qed.
Lemma rvlg_spec p : Rabs (rvlg (N := RNum) p - receding (galactic_vector 0 300 0) (star p)) <= 2e-4.
Proof.
  unfold rvlg. rewrite dvdv_star. eapply Rle_trans; [apply (galactic_projection _ 0 300 0 1e-5); [apply norm_star|]|].
  - cbv zeta. split; [gal_num|split; gal_num].
  - rewrite !Rabs_R0, Rabs_pos_eq by lra. lra.
Qed.
Lemma rvlsrd_spec p : Rabs (rvlsrd (N := RNum) p - receding (galactic_vector 9 12 7) (star p)) <= 2e-4.
Proof.
  unfold rvlsrd. rewrite dvdv_star. eapply Rle_trans; [apply (galactic_projection _ 9 12 7 5e-5); [apply norm_star|]|].
  - cbv zeta. split; [gal_num|split; gal_num].
  - rewrite !Rabs_pos_eq by lra. lra.
Qed.

Lemma trig_q (x : R) (q vs vc : Q) : Rabs (x - Q2R q) <= Q2R (Qmake 1 10000000) -> (0 <= q <= Qmake 3 2)%Q ->
  (vs - Qmake 1 10000000 <= qs_sum q 3)%Q -> (qs_sum q 4 <= vs + Qmake 1 10000000)%Q ->
  (vc - Qmake 1 10000000 <= qc_sum q 3)%Q -> (qc_sum q 4 <= vc + Qmake 1 10000000)%Q ->
  near (sin x) (Q2R vs) 2e-7 /\ near (cos x) (Q2R vc) 2e-7.
Proof.
  intros A [Q0 Q1] B C D E. split; unfold near.
  - eapply Rle_trans; [apply (sin_near x q vs (Qmake 1 10000000) 1)|]; try assumption.
    + split; [exact Q0|]. eapply Qle_trans; [exact Q1|]. discriminate.
    + unfold Q2R; cbn [Qnum Qden]. lra.
  - eapply Rle_trans; [apply (cos_near x q vc (Qmake 1 10000000) 1)|]; try assumption.
    + split; [|exact Q1]. eapply Qle_trans; [|exact Q0]. discriminate.
    + unfold Q2R; cbn [Qnum Qden]. lra.
Qed.
Ltac qle := vm_compute; discriminate.
Tactic Notation "mulq" constr(num) constr(S) constr(Z) constr(H) ident(name) :=
  pose proof (near_mul _ _ _ _ _ _ S Z H) as name;
  match type of name with ?P -> _ => let W := fresh in assert (W : P) by (apply num; lra); specialize (name W); clear W end.
Lemma apex_near : near (20 * v0 standard_apex) 0.2899780 5e-5 /\ near (20 * v1 standard_apex) (- 17.3172669) 5e-5 /\ near (20 * v2 standard_apex) 10.0014089 5e-5.
Proof.
  assert (ZE : near (sin (iau1976_zeta (-1) 1 * arcsec)) (Q2R (Qmake 111754093 10000000000)) 2e-7 /\ near (cos (iau1976_zeta (-1) 1 * arcsec)) (Q2R (Qmake 9999375532 10000000000)) 2e-7).
  { apply (trig_q _ (Qmake 111756419 10000000000)); try qle; [|split; qle].
    unfold iau1976_zeta, arcsec, Q2R; cbn [Qnum Qden]. apply Rabs_le; split; lra. }
  assert (ZZ : near (sin (iau1976_z (-1) 1 * arcsec)) (Q2R (Qmake 111792517 10000000000)) 2e-7 /\ near (cos (iau1976_z (-1) 1 * arcsec)) (Q2R (Qmake 9999375102 10000000000)) 2e-7).
  { apply (trig_q _ (Qmake 111794845 10000000000)); try qle; [|split; qle].
    unfold iau1976_z, arcsec, Q2R; cbn [Qnum Qden]. apply Rabs_le; split; lra. }
  assert (TH : near (sin (iau1976_theta (-1) 1 * arcsec)) (Q2R (Qmake 97188861 10000000000)) 2e-7 /\ near (cos (iau1976_theta (-1) 1 * arcsec)) (Q2R (Qmake 9999527705 10000000000)) 2e-7).
  { apply (trig_q _ (Qmake 97190391 10000000000)); try qle; [|split; qle].
    unfold iau1976_theta, arcsec, Q2R; cbn [Qnum Qden]. apply Rabs_le; split; lra. }
  set (zeta := iau1976_zeta (-1) 1 * arcsec) in *. set (z := iau1976_z (-1) 1 * arcsec) in *. set (th := iau1976_theta (-1) 1 * arcsec) in *.
  assert (DE : standard_apex = mapply (precession zeta z th) (V3 0 (- (sqrt 3 / 2)) (1 / 2))).
  { unfold standard_apex, iau1976_precession. replace ((1900 - 2000) / 100) with (-1) by field. replace ((2000 - 1900) / 100) with 1 by field.
    fold zeta z th. f_equal. unfold direction. rewrite cos_3PI2, sin_3PI2, cos_PI6, sin_PI6. f_equal; ring. }
  assert (S3 : near (sqrt 3 / 2) 0.8660254 1e-7).
  { assert (1.7320508 <= sqrt 3 <= 1.7320509).
    { split; [apply Rsqr_incr_0_var|apply Rsqr_incr_0_var]; try apply sqrt_pos; try lra; rewrite Rsqr_sqrt by lra; unfold Rsqr; lra. }
    unfold near. apply Rabs_le; split; lra. }
  assert (E0 : v0 standard_apex = (sqrt 3 / 2 * sin zeta * cos th - 1 / 2 * sin th) * cos z + sqrt 3 / 2 * cos zeta * sin z)
    by (rewrite DE; unfold precession; geo; rewrite !cos_neg, !sin_neg; ring).
  assert (E1 : v1 standard_apex = (sqrt 3 / 2 * sin zeta * cos th - 1 / 2 * sin th) * sin z - sqrt 3 / 2 * cos zeta * cos z)
    by (rewrite DE; unfold precession; geo; rewrite !cos_neg, !sin_neg; ring).
  assert (E2 : v2 standard_apex = sqrt 3 / 2 * sin zeta * sin th + 1 / 2 * cos th)
    by (rewrite DE; unfold precession; geo; rewrite !cos_neg, !sin_neg; ring).
  assert (T1 : forall t, Rabs (sin t) <= 1) by (intros t; apply Rabs_le, SIN_bound).
  assert (T2 : forall t, Rabs (cos t) <= 1) by (intros t; apply Rabs_le, COS_bound).
  assert (M1 : forall a b, Rabs a <= 1 -> Rabs b <= 1 -> Rabs (a * b) <= 1) by (intros a b; rewrite Rabs_mult; pose proof (Rabs_pos a); pose proof (Rabs_pos b); nra).
  assert (H : Rabs (sqrt 3 / 2) <= 1) by (unfold near in S3; apply Rabs_le; apply Rabs_le_between in S3; lra).
  assert (HH : near (1 / 2) (1 / 2) 0) by (unfold near; replace (1 / 2 - 1 / 2) with 0 by ring; rewrite Rabs_R0; lra).
  assert (H2 : Rabs (1 / 2) <= 1) by (apply Rabs_le; lra).
  destruct ZE as [Z1 Z2], ZZ as [Y1 Y2], TH as [X1 X2].
  assert (num : forall n d, 0 <= IZR n <= IZR (Zpos d) -> Rabs (Q2R (Qmake n d)) <= 1).
  { intros n d [L U]. unfold Q2R; cbn [Qnum Qden]. assert (0 < IZR (Zpos d)) by (apply IZR_lt; reflexivity).
    apply Rabs_le. split; [apply Rle_trans with 0; [lra|]|]; [apply Rmult_le_pos; [exact L|left; apply Rinv_0_lt_compat; lra]|].
    apply (Rmult_le_reg_r (IZR (Zpos d))); [lra|]. rewrite Rmult_assoc, Rinv_l by lra. lra. }
  mulq num S3 Z1 H A1.
  mulq num A1 X2 (M1 _ _ H (T1 zeta)) A2.
  mulq num HH X1 H2 A3.
  pose proof (near_sub _ _ _ _ _ _ A2 A3) as A4.
  assert (B4 : Rabs (sqrt 3 / 2 * sin zeta * cos th - 1 / 2 * sin th) <= 1).
  { unfold near in A4. unfold Q2R in A4; cbn [Qnum Qden] in A4. apply Rabs_le. apply Rabs_le_between in A4. lra. }
  mulq num A4 Y2 B4 A5.
  mulq num A4 Y1 B4 A6.
  mulq num S3 Z2 H A7.
  mulq num A7 Y1 (M1 _ _ H (T2 zeta)) A8.
  mulq num A7 Y2 (M1 _ _ H (T2 zeta)) A9.
  mulq num A1 X1 (M1 _ _ H (T1 zeta)) A10.
  mulq num HH X2 H2 A11.
  rewrite E0, E1, E2. unfold near in *. unfold Q2R in A5, A6, A8, A9, A10, A11; cbn [Qnum Qden] in A5, A6, A8, A9, A10, A11.
  apply Rabs_le_between in A5, A6, A8, A9, A10, A11.
  split; [|split]; apply Rabs_le; split; lra.
Qed.

Lemma rvlsrk_spec p : Rabs (rvlsrk (N := RNum) p - receding (scale 20 standard_apex) (star p)) <= 2e-4.
Proof.
  unfold rvlsrk. rewrite dvdv_star. destruct apex_near as (A & B & C). unfold receding.
  match goal with |- Rabs (dot ?va _ - _) <= _ => 
    pose proof (near_dot va (V3 (- (20 * v0 standard_apex)) (- (20 * v1 standard_apex)) (- (20 * v2 standard_apex))) (star p) 1e-4) as F end.
  replace (- dot (scale 20 standard_apex) (star p)) with (dot (V3 (- (20 * v0 standard_apex)) (- (20 * v1 standard_apex)) (- (20 * v2 standard_apex))) (star p))
    by (unfold dot, scale; cbn [v0 v1 v2]; ring).
  eapply Rle_trans; [apply F|lra]; try apply norm_star; cbn [v0 v1 v2]; unfold near in *; unR; decs;
    apply Rabs_le_between in A, B, C; apply Rabs_le; split; lra.
Qed.

Lemma rv_projection : forall rv : sph RNum -> R,
  rv = rvgalc (N := RNum) \/ rv = rvlg (N := RNum) \/ rv = rvlsrd (N := RNum) \/ rv = rvlsrk (N := RNum) ->
  exists w : RV, forall p, rv p = receding w (star p).
Proof.
  assert (G : forall va : RV, exists w : RV, forall p, dvdv (N := RNum) va (dcs2c p) = receding w (star p)).
  { intros va. exists (scale (-1) va). intros p. rewrite dvdv_star. unfold receding, dot, scale; cbn [v0 v1 v2]. asR; ring. }
  intros rv [E|[E|[E|E]]]; subst rv; apply G.
Qed.

(** ** Proper motion *)
Lemma pm_eq (p m : sph RNum) px rv (ep0 ep1 : R) :
  let w := km_s_arcsec * rv * px in
  let d := V3 (- s_a m * (sin (s_a p) * cos (s_b p)) - s_b m * cos (s_a p) * sin (s_b p))
              (s_a m * (cos (s_a p) * cos (s_b p)) - s_b m * sin (s_a p) * sin (s_b p)) (s_b m * cos (s_b p)) in
  pm (N := RNum) p m px rv ep0 ep1 =
  let r := dcc2s (N := RNum) (vadd (star p) (scale (ep1 - ep0) (vadd d (scale w (star p))))) in
  Sph (N := RNum) (dranrm (N := RNum) (s_a r)) (s_b r).
Proof.
  intros w d. unfold pm. rewrite dcs2c_direction. cbv zeta.
  match goal with |- Sph (dranrm (s_a (dcc2s ?a))) _ = Sph (dranrm (s_a (dcc2s ?b))) _ => assert (E : @eq RV a b) end.
  { unfold d, w, star, km_s_arcsec, direction, vadd, scale. unR. cbn [v0 v1 v2].
    replace (Rdec 36525 (-2)) with 365.25 by (decs; field). replace (Rdec 48481368111 (-16)) with 0.0000048481368111 by (decs; field). reflexivity. }
  rewrite E. reflexivity.
Qed.

Lemma pm_spec (p m : sph RNum) px rv (ep0 ep1 : R) :
  let D t := direction (s_a p + s_a m * t) (s_b p + s_b m * t) in
  exists d : RV, (derivable_pt_lim (fun t => v0 (D t)) 0 (v0 d) /\ derivable_pt_lim (fun t => v1 (D t)) 0 (v1 d) /\
    derivable_pt_lim (fun t => v2 (D t)) 0 (v2 d)) /\
    let w := vadd (star p) (scale (ep1 - ep0) (vadd d (scale (km_s_arcsec * rv * px) (star p)))) in
    let r := pm (N := RNum) p m px rv ep0 ep1 in
    0 <= s_a r < 2 * PI /\ - (PI / 2) <= s_b r <= PI / 2 /\
    (w <> vzero -> direction (s_a r) (s_b r) = unit_of w).
Proof.
  intros D. eexists. split; [|]; cycle 1.
  - intros w r. unfold r. rewrite pm_eq. cbv zeta. cbn [s_a s_b]. fold w. destruct (dcc2s_range w) as [A B].
    split; [|split]; [apply dranrm_spec|exact B|]. intros NZ. rewrite direction_dranrm. apply unit_of_direction. exact NZ.
  - cbn [v0 v1 v2]. unfold D, direction; cbn [v0 v1 v2]. destruct p as [a b], m as [ma mb]. cbn [s_a s_b]. unfold car, RNum in a, b, ma, mb.
    split; [|split]; apply is_derive_Reals; auto_derive; try trivial; rewrite !Rmult_0_r, !Rplus_0_r; ring.
Qed.

Lemma direction_inj x y a b : 0 <= x < 2 * PI -> - (PI / 2) <= y <= PI / 2 -> 0 <= a < 2 * PI -> - (PI / 2) < b < PI / 2 ->
  direction x y = direction a b -> x = a /\ y = b.
Proof.
  intros X YY A BB E.
  assert (Y : y = b). { pose proof (f_equal v2 E) as E2. unfold direction in E2; cbn [v2] in E2. apply sin_inj; assumption || lra. }
  split; [|exact Y]. subst y. assert (cb : 0 < cos b) by (apply cos_gt_0; lra).
  pose proof (f_equal v0 E) as E0. pose proof (f_equal v1 E) as E1. unfold direction in E0, E1; cbn [v0 v1] in E0, E1.
  apply Rmult_eq_reg_r in E0, E1; try lra.
  destruct (cos_sin_same_angle x a E0 E1) as [k K].
  assert (k = 0%Z). { pose proof PI_RGT_0. assert (-1 < IZR k < 1) by (split; apply (Rmult_lt_reg_r (2 * PI)); lra). 
    assert (-1 < k < 1)%Z by (split; apply lt_IZR; lra). lia. }
  subst k. lra.
Qed.

Lemma pm_same_epoch (p m : sph RNum) px rv (ep : R) : 0 <= s_a p < 2 * PI -> - (PI / 2) <= s_b p <= PI / 2 ->
  let r := pm (N := RNum) p m px rv ep ep in direction (s_a r) (s_b r) = star p /\ (- (PI / 2) < s_b p < PI / 2 -> r = p).
Proof.
  intros A B. destruct (pm_spec p m px rv ep ep) as (d & _ & RA & RB & E). cbv zeta in *.
  assert (W : vadd (star p) (scale (ep - ep) (vadd d (scale (km_s_arcsec * rv * px) (star p)))) = star p).
  { replace (ep - ep) with 0 by ring. unfold vadd, scale, star, direction; cbn [v0 v1 v2]. f_equal; ring. }
  rewrite W in E. specialize (E (norm_1_nz _ (norm_star p))). rewrite (unit_of_unit _ (norm_star p)) in E.
  split; [exact E|]. intros BB. set (r := pm p m px rv ep ep) in *. destruct r as [x y], p as [a b]. cbn [s_a s_b] in *.
  unfold star in E. cbn [s_a s_b] in E. destruct (direction_inj x y a b RA RB A BB E) as [-> ->]. reflexivity.
Qed.

(** ** Earth *)
Lemma chk_in z : in_int z = true -> chk z = Some z.
Proof. intros H. unfold chk. rewrite H. reflexivity. Qed.
Lemma in_int_true z : (INT_MIN <= z <= INT_MAX)%Z -> in_int z = true.
Proof. intros H. unfold in_int. apply andb_true_intro. split; apply Z.leb_le; lia. Qed.
Definition earth_yf (year day : Z) (f : R) : R :=
  (IZR (4 * (day - (if (year mod 4 =? 0)%Z then 1 else 0)) - year mod 4 - 2) + 4 * f) / 1461.

Lemma earth_time_eq year day f : (INT_MIN + 1900 <= year <= INT_MAX)%Z -> (-500000000 <= day <= 500000000)%Z ->
  earth_time (N := RNum) year day f = Some (IZR (year - 1900), earth_yf year day f).
Proof.
  intros Y D. unfold INT_MIN, INT_MAX in Y.
  assert (Y4 : (((I year) %% (I 4) + I 4) %% (I 4))%cint = Some (year mod 4)%Z).
  { pose proof (Z.mod_pos_bound year 4 ltac:(lia)) as MB. pose proof (Z.rem_bound_abs year 4 ltac:(lia)) as RB.
    pose proof (Z.quot_rem' year 4) as QR. pose proof (Z.div_mod year 4 ltac:(lia)) as DM.
    assert (RB' : (-4 < Z.rem year 4 < 4)%Z) by (change (Z.abs 4) with 4%Z in RB; apply (proj1 (Z.abs_lt _ _)) in RB; exact RB). clear RB.
    assert (ME : (Z.rem (Z.rem year 4 + 4) 4 = year mod 4)%Z).
    { rewrite Z.rem_mod_nonneg by (clear - RB'; lia). symmetry. apply (Z.mod_unique_pos (Z.rem year 4 + 4) 4 (1 + year / 4 - year ÷ 4)%Z); [exact MB|].
      revert QR DM. generalize (year ÷ 4)%Z (Z.rem year 4) (year / 4)%Z (year mod 4)%Z. clear. intros; lia. }
    unfold I, imod, iadd, lift2. cbn [Z.eqb]. rewrite (in_int_true (year ÷ 4)) by (unfold INT_MIN, INT_MAX; lia).
    rewrite chk_in by (apply in_int_true; unfold INT_MIN, INT_MAX; lia).
    cbn [Z.eqb]. rewrite in_int_true; [rewrite ME; reflexivity|].
    pose proof (Z.quot_rem' (Z.rem year 4 + 4) 4). pose proof (Z.rem_bound_abs (Z.rem year 4 + 4) 4 ltac:(lia)). unfold INT_MIN, INT_MAX; lia. }
  unfold earth_time. cbv zeta. rewrite Y4. pose proof (Z.mod_pos_bound year 4 ltac:(lia)) as MB.
  assert (Q : (1 ÷ (year mod 4 + 1) = if (year mod 4 =? 0) then 1 else 0)%Z).
  { assert (C : (year mod 4 = 0 \/ year mod 4 = 1 \/ year mod 4 = 2 \/ year mod 4 = 3)%Z) by lia.
    destruct C as [C|[C|[C|C]]]; rewrite C; reflexivity. }
  assert (QB : (0 <= (if (year mod 4 =? 0) then 1 else 0) <= 1)%Z) by (destruct (year mod 4 =? 0)%Z; lia).
  unfold earth_yf. set (q := (if (year mod 4 =? 0)%Z then 1%Z else 0%Z)) in *.
  unfold I, isub, imul, idiv, iadd, lift2.
  rewrite !(chk_in (year - 1900)) by (apply in_int_true; unfold INT_MIN, INT_MAX; lia).
  rewrite (chk_in (year mod 4 + 1)) by (apply in_int_true; unfold INT_MIN, INT_MAX; lia).
  replace (year mod 4 + 1 =? 0)%Z with false by (symmetry; apply Z.eqb_neq; lia). rewrite Q.
  rewrite !(chk_in q) by (apply in_int_true; unfold INT_MIN, INT_MAX; lia).
  rewrite (chk_in (day - q)) by (apply in_int_true; unfold INT_MIN, INT_MAX; lia).
  rewrite (chk_in (4 * (day - q))) by (apply in_int_true; unfold INT_MIN, INT_MAX; lia).
  rewrite (chk_in (4 * (day - q) - year mod 4)) by (apply in_int_true; unfold INT_MIN, INT_MAX; lia).
  rewrite (chk_in (4 * (day - q) - year mod 4 - 2)) by (apply in_int_true; unfold INT_MIN, INT_MAX; lia).
  unR. f_equal. f_equal. replace (Rdec 40 (-1)) with 4 by (decs; field). replace (Rdec 14610 (-1)) with 1461 by (decs; field). reflexivity.
Qed.

Lemma earth_epoch year day f : IZR (year - 1900) + earth_yf year day f =
  (IZR (julian_calendar_day year day) + f - (365 * 1900 + 475 + 0.5)) / 365.25.
Proof.
  unfold earth_yf, julian_calendar_day. pose proof (Z.div_mod year 4 ltac:(lia)) as DM. pose proof (Z.mod_pos_bound year 4 ltac:(lia)) as MB.
  set (m := (year mod 4)%Z) in *. set (k := (year / 4)%Z) in *.
  assert (E : ((year - 1) / 4 = k - (if (m =? 0) then 1 else 0))%Z).
  { symmetry. apply (Z.div_unique _ 4 _ ((m - 1) mod 4)). { left. apply Z.mod_pos_bound. lia. }
    assert (C : (m = 0 \/ m = 1 \/ m = 2 \/ m = 3)%Z) by lia. clear MB; clearbody m k; destruct C as [C|[C|[C|C]]]; rewrite C in DM |- *; rewrite DM; cbn [Z.eqb]; match goal with |- context [(?a mod 4)%Z] => let v := eval vm_compute in (a mod 4)%Z in change (a mod 4)%Z with v end; ring. }
  rewrite E. set (q := (if (m =? 0)%Z then 1%Z else 0%Z)). rewrite DM.
  clearbody m k q. repeat rewrite ?plus_IZR, ?minus_IZR, ?mult_IZR. lra.
Qed.

Lemma fmod_shift x y k : 0 < y -> 0 <= x -> 0 <= x + IZR k * y -> Rfmod (x + IZR k * y) y = Rfmod x y.
Proof.
  intros Y A B. destruct (Rfmod_congr x y) as [i I1]. destruct (Rfmod_congr (x + IZR k * y) y) as [j J1].
  destruct (Rfmod_range x y Y) as [RA _]. destruct (Rfmod_range (x + IZR k * y) y Y) as [RB _]. specialize (RA A). specialize (RB B).
  set (a := Rfmod x y) in *. set (b := Rfmod (x + IZR k * y) y) in *.
  assert (E : b - a = IZR (i + k - j) * y) by (rewrite minus_IZR, plus_IZR; lra).
  assert (Z0 : (i + k - j = 0)%Z).
  { assert (-1 < IZR (i + k - j) < 1) by (split; apply (Rmult_lt_reg_r y); lra).
    assert (-1 < i + k - j < 1)%Z by (split; apply lt_IZR; lra). lia. }
  rewrite Z0 in E. lra.
Qed.

Lemma earth_yf_ge year day f : (1 <= day)%Z -> 0 <= f -> - (3) / 1461 <= earth_yf year day f.
Proof.
  intros D F. unfold earth_yf. pose proof (Z.mod_pos_bound year 4 ltac:(lia)) as MB.
  assert (Z1 : (-3 <= 4 * (day - (if (year mod 4 =? 0) then 1 else 0)) - year mod 4 - 2)%Z).
  { destruct (Z.eqb_spec (year mod 4) 0); lia. }
  apply IZR_le in Z1. lra.
Qed.

Lemma earth_some year day f : (INT_MIN + 1900 <= year <= INT_MAX)%Z -> (-500000000 <= day <= 500000000)%Z ->
  earth (N := RNum) year day f = Some (earth_pv (N := RNum) (IZR (year - 1900)) (earth_yf year day f)).
Proof. intros Y D. unfold earth. rewrite (earth_time_eq year day f Y D). reflexivity. Qed.

Lemma earth_instant year day f year' day' f' :
  (1800 <= year <= INT_MAX)%Z -> (1 <= day <= 500000000)%Z -> 0 <= f ->
  (1800 <= year' <= INT_MAX)%Z -> (1 <= day' <= 500000000)%Z -> 0 <= f' ->
  IZR (julian_calendar_day year day) + f = IZR (julian_calendar_day year' day') + f' ->
  earth (N := RNum) year day f = earth (N := RNum) year' day' f'.
Proof.
  intros Y D F Y' D' F' E. unfold INT_MAX in *.
  rewrite (earth_some year day f), (earth_some year' day' f') by (unfold INT_MIN, INT_MAX; lia).
  pose proof (earth_epoch year day f) as T. pose proof (earth_epoch year' day' f') as T'. rewrite E, <- T' in T.
  pose proof (earth_yf_ge year day f ltac:(lia) F) as G. pose proof (earth_yf_ge year' day' f' ltac:(lia) F') as G'.
  assert (YB : -100 <= IZR (year - 1900)) by (apply IZR_le; lia). assert (YB' : -100 <= IZR (year' - 1900)) by (apply IZR_le; lia).
  set (a := earth_yf year day f) in *. set (b := earth_yf year' day' f') in *. clearbody a b.
  f_equal. unfold earth_pv. unR. cbv zeta.
  assert (EQ : Rdec 4881628 (-6) + Rdec 628318530718 (-11) * a + Rdec 13420 (-8) * (IZR (year - 1900) + a) =
     (Rdec 4881628 (-6) + Rdec 628318530718 (-11) * b + Rdec 13420 (-8) * (IZR (year' - 1900) + b)) + IZR (year' - year) * Rdec 628318530718 (-11)).
  { rewrite T. replace a with (b + IZR (year' - year)); [ring|]. rewrite !minus_IZR in *. lra. }
  rewrite EQ, fmod_shift; [rewrite T; reflexivity| | |].
  - decs. lra.
  - decs. lra.
  - rewrite <- EQ. decs. lra.
Qed.

Lemma norm_le_1 (a b c : R) : a * a + b * b + c * c <= 1 -> norm (V3 a b c) <= 1.
Proof. intros H. unfold norm, dot; cbn [v0 v1 v2]. rewrite <- sqrt_1. apply sqrt_le_1_alt. exact H. Qed.

Lemma orbit_r e v : 0 < e < 1 -> 1 - e <= (1 - e * e) / (1 + e * cos v) <= 1 + e.
Proof.
  intros E. pose proof (COS_bound v) as C. assert (P : 0 < 1 + e * cos v) by nra.
  assert (A : 0 <= (1 - e) * e * (1 - cos v)) by (repeat apply Rmult_le_pos; lra).
  assert (B : 0 <= (1 + e) * e * (1 + cos v)) by (repeat apply Rmult_le_pos; lra).
  split; apply (Rmult_le_reg_r (1 + e * cos v)); try exact P; unfold Rdiv; rewrite Rmult_assoc, Rinv_l, Rmult_1_r by lra; lra.
Qed.

Lemma norm_combo k (u : RV) h (w : RV) : norm u = 1 -> norm w <= 1 -> 0 <= k -> 0 <= h ->
  k - h <= norm (vadd (scale k u) (scale h w)) <= k + h.
Proof.
  intros U W K H. split.
  - pose proof (norm_triangle (vadd (scale k u) (scale h w)) (scale h (scale (-1) w))) as T.
    replace (vadd (vadd (scale k u) (scale h w)) (scale h (scale (-1) w))) with (scale k u) in T
      by (unfold vadd, scale; cbn [v0 v1 v2]; f_equal; ring).
    rewrite !norm_scale in T by assumption. rewrite norm_scale_abs in T. rewrite U in T.
    replace (Rabs (-1)) with 1 in T by (unfold Rabs; destruct (Rcase_abs (-1)); lra). pose proof (norm_nonneg w). nra.
  - eapply Rle_trans; [apply norm_triangle|]. rewrite !norm_scale by assumption. rewrite U. pose proof (norm_nonneg w). nra.
Qed.

Lemma earth_pv_bounds y yf : -101 <= y + yf <= 301 -> let pv := earth_pv (N := RNum) y yf in
  0.983 <= norm (pos pv) <= 1.017 /\ 1.957e-7 <= norm (velo pv) <= 2.026e-7.
Proof.
  intros T. unfold earth_pv. unR. cbv zeta.
  set (t := y + yf) in *.
  set (gamma := Rdec 4908230 (-6) + Rdec 30005 (-8) * t).
  set (eps0 := Rdec 40931975 (-8) - Rdec 227 (-8) * t).
  assert (EE : 0.0166 <= Rdec 16751 (-6) - Rdec 42 (-8) * t <= 0.0168) by (decs; lra).
  set (e := Rdec 16751 (-6) - Rdec 42 (-8) * t) in *.
  match goal with |- context [Rfmod (Rdec 472 (-2) + ?a) ?b] => set (m := Rfmod (Rdec 472 (-2) + a) b) end.
  match goal with |- context [Rdec 10 (-1) + e * cos ?x] => set (v := x) end.
  clearbody m v t gamma eps0 e.
  set (r := (Rdec 10 (-1) - e * e) / (Rdec 10 (-1) + e * cos v)).
  assert (RB : 1 - e <= r <= 1 + e).
  { unfold r. replace (Rdec 10 (-1)) with 1 by (decs; field). apply orbit_r. lra. }
  clearbody r. set (l := v + gamma). pose proof (sc1 l) as SL. pose proof (sc1 eps0) as SE. pose proof (sc1 m) as SM. unfold Rsqr in *.
  cbn [pos velo]. split.
  - match goal with |- _ <= norm ?x <= _ => replace x with (vadd (scale r (V3 (- cos l) (- sin l * cos eps0) (- sin l * sin eps0)))
      (scale (Rdec 312 (-7)) (V3 (- cos m) (- sin m * cos eps0) 0))) by (unfold vadd, scale; cbn [v0 v1 v2]; f_equal; ring) end.
    assert (N1 : norm (V3 (- cos l) (- sin l * cos eps0) (- sin l * sin eps0)) = 1).
    { unfold norm, dot; cbn [v0 v1 v2]. rewrite <- sqrt_1. f_equal. nsatz. }
    assert (N2 : norm (V3 (- cos m) (- sin m * cos eps0) 0) <= 1).
    { apply norm_le_1. assert (0 <= sin m * sin m) by nra. assert (0 <= sin eps0 * sin eps0) by nra. nra. }
    pose proof (norm_combo r _ (Rdec 312 (-7)) _ N1 N2 ltac:(lra) ltac:(decs; lra)) as [B1 B2].
    assert (D : Rdec 312 (-7) = 0.0000312) by (decs; lra). rewrite D in *. lra.
  - set (O := Rdec 19913 (-11)). assert (OD : O = 1.9913e-7) by (unfold O; decs; lra).
    set (w := V3 (sin l) (- cos l * cos eps0) (- cos l * sin eps0)).
    set (g := V3 (e * sin gamma) (- (e * cos gamma) * cos eps0) (- (e * cos gamma) * sin eps0)).
    set (h := V3 (sin m) (- cos m * cos eps0) 0).
    match goal with |- _ <= norm ?x <= _ => replace x with (vadd (scale O (vadd (scale 1 w) (scale e (V3 (sin gamma) (- cos gamma * cos eps0) (- cos gamma * sin eps0)))))
      (scale (Rdec 831 (-13)) h)) by (unfold vadd, scale, w, h; cbn [v0 v1 v2]; f_equal; ring) end.
    assert (N1 : norm w = 1). { unfold w, norm, dot; cbn [v0 v1 v2]. rewrite <- sqrt_1. f_equal. nsatz. }
    assert (N3 : norm (V3 (sin gamma) (- cos gamma * cos eps0) (- cos gamma * sin eps0)) = 1).
    { pose proof (sc1 gamma) as SG. unfold Rsqr in SG. unfold norm, dot; cbn [v0 v1 v2]. rewrite <- sqrt_1. f_equal. nsatz. }
    assert (N2 : norm h <= 1).
    { apply norm_le_1. assert (0 <= cos m * cos m) by nra. assert (0 <= sin eps0 * sin eps0) by nra. nra. }
    pose proof (norm_combo 1 w e _ N1 (Req_le _ _ N3) ltac:(lra) ltac:(lra)) as [B1 B2].
    set (q := vadd (scale 1 w) (scale e (V3 (sin gamma) (- cos gamma * cos eps0) (- cos gamma * sin eps0)))) in *.
    set (hh := scale (Rdec 831 (-13)) h).
    assert (NH : norm hh <= 8.31e-11).
    { unfold hh. rewrite norm_scale by (decs; lra). pose proof (norm_nonneg h). decs. nra. }
    pose proof (norm_triangle (scale O q) hh) as T1.
    pose proof (norm_triangle (vadd (scale O q) hh) (scale (-1) hh)) as T2.
    replace (vadd (vadd (scale O q) hh) (scale (-1) hh)) with (scale O q) in T2 by (unfold vadd, scale; cbn [v0 v1 v2]; f_equal; ring).
    rewrite (norm_scale_abs (-1)) in T2. replace (Rabs (-1)) with 1 in T2 by (unfold Rabs; destruct (Rcase_abs (-1)); lra).
    rewrite (norm_scale O) in T1, T2 by lra. split; nra.
Qed.

Lemma earth_bounds year day f : (1800 <= year <= 2199)%Z -> (1 <= day <= 366)%Z -> 0 <= f <= 1 ->
  exists pv, earth (N := RNum) year day f = Some pv /\ 0.983 <= norm (pos pv) <= 1.017 /\ 1.957e-7 <= norm (velo pv) <= 2.026e-7.
Proof.
  intros Y D F. eexists. split; [apply earth_some; unfold INT_MIN, INT_MAX; lia|]. apply earth_pv_bounds.
  pose proof (earth_yf_ge year day f ltac:(lia) (proj1 F)) as G.
  assert (earth_yf year day f <= 1.01).
  { unfold earth_yf. pose proof (Z.mod_pos_bound year 4 ltac:(lia)) as MB.
    assert (Z1 : (4 * (day - (if (year mod 4 =? 0) then 1 else 0)) - year mod 4 - 2 <= 1463)%Z).
    { destruct (Z.eqb_spec (year mod 4) 0); lia. }
    apply IZR_le in Z1. lra. }
  assert (-100 <= IZR (year - 1900) <= 299) by (split; apply IZR_le; lia). lra.
Qed.

Lemma ecor_eq p year day f pv : earth (N := RNum) year day f = Some pv ->
  ecor (N := RNum) p year day f = Some (receding (scale 149597870.66 (velo pv)) (star p), 499.0047837 * dot (pos pv) (star p)).
Proof.
  intros E. unfold ecor. rewrite E, !dvdv_star. unR. cbv zeta. apply f_equal. apply (f_equal2 (@pair R R)).
  - unfold receding, scale, dot; cbn [v0 v1 v2]. replace (Rdec 14959787066 (-2)) with 149597870.66 by (decs; lra). asR. ring.
  - apply f_equal2; [decs; lra|reflexivity].
Qed.

Lemma ecor_bounds p year day f : (1800 <= year <= 2199)%Z -> (1 <= day <= 366)%Z -> 0 <= f <= 1 ->
  exists v l, ecor (N := RNum) p year day f = Some (v, l) /\ Rabs v <= 30.31 /\ Rabs l <= 507.5.
Proof.
  intros Y D F. destruct (earth_bounds year day f Y D F) as (pv & E & P & V). rewrite (ecor_eq _ _ _ _ _ E).
  eexists. eexists. split; [reflexivity|]. unfold receding.
  assert (CS : forall a, Rabs (dot a (star p)) <= norm a).
  { intros a. pose proof (cauchy a (star p)) as C1. pose proof (cauchy (scale (-1) a) (star p)) as C2.
    rewrite norm_scale_abs in C2. rewrite norm_star in C1, C2. replace (Rabs (-1)) with 1 in C2 by (unfold Rabs; destruct (Rcase_abs (-1)); lra).
    replace (dot (scale (-1) a) (star p)) with (- dot a (star p)) in C2 by (unfold dot, scale; cbn [v0 v1 v2]; ring).
    apply Rabs_le. lra. }
  split.
  - rewrite Rabs_Ropp. eapply Rle_trans; [apply CS|]. rewrite norm_scale by lra. lra.
  - rewrite Rabs_mult, (Rabs_pos_eq 499.0047837) by lra. pose proof (CS (pos pv)). pose proof (Rabs_pos (dot (pos pv) (star p))). nra.
Qed.

(** ** Examples and remaining facts *)
Lemma receding_props (w u : RV) : norm u = 1 ->
  Rabs (receding w u) <= norm w /\ receding w (scale (-1) u) = - receding w u /\ (dot w u = 0 -> receding w u = 0) /\
  (0 < norm w -> receding w (unit_of w) = - norm w).
Proof.
  intros U. unfold receding. split; [|split; [|split]].
  - rewrite Rabs_Ropp. pose proof (cauchy w u) as C1. pose proof (cauchy (scale (-1) w) u) as C2.
    rewrite norm_scale_abs in C2. rewrite U in C1, C2. replace (Rabs (-1)) with 1 in C2 by (unfold Rabs; destruct (Rcase_abs (-1)); lra).
    replace (dot (scale (-1) w) u) with (- dot w u) in C2 by (unfold dot, scale; cbn [v0 v1 v2]; ring). apply Rabs_le. lra.
  - unfold dot, scale; cbn [v0 v1 v2]. ring.
  - intros ->. ring.
  - intros P. f_equal. unfold unit_of. pose proof (norm_sq w) as S2.
    replace (dot w (scale (/ norm w) w)) with (/ norm w * dot w w) by (unfold dot, scale; cbn [v0 v1 v2]; ring).
    rewrite <- S2. field. lra.
Qed.

Lemma rverot_example : rverot (N := RNum) 0 (Sph (N := RNum) 0 0) (PI / 2) = 0.4655.
Proof.
  unfold rverot. unR. cbn [s_a s_b]. replace (PI / 2 - 0) with (PI / 2) by ring. rewrite cos_0, sin_PI2. decs. lra.
Qed.

Lemma polmo_pole : ~ (forall ml mp x y : R, exists daz, snd (polmo (N := RNum) ml mp x y) = Some daz).
Proof.
  intros H. destruct (H 0 (PI / 2) 0 0) as [daz E].
  assert (N0 : snd (polmo (N := RNum) 0 (PI / 2) 0 0) = None).
  { apply polmo_none. cbv zeta. unfold polar_motion. geo. rewrite cos_0, sin_0, cos_PI2, sin_PI2. split; ring. }
  rewrite N0 in E. discriminate.
Qed.

Lemma pm_radial (p : sph RNum) px rv (ep0 ep1 : R) : 0 <= s_a p < 2 * PI -> - (PI / 2) < s_b p < PI / 2 ->
  0 < 1 + (ep1 - ep0) * (km_s_arcsec * rv * px) -> pm (N := RNum) p (Sph (N := RNum) 0 0) px rv ep0 ep1 = p.
Proof.
  intros A B K. rewrite pm_eq. cbn [s_a s_b]. cbv zeta.
  match goal with |- context [dcc2s ?a] => assert (E : @eq RV a (scale (1 + (ep1 - ep0) * (km_s_arcsec * rv * px)) (star p))) end.
  { unfold vadd, scale; cbn [v0 v1 v2]. f_equal; ring. }
  rewrite E. clear E. set (w := scale (1 + (ep1 - ep0) * (km_s_arcsec * rv * px)) (star p)).
  assert (U : unit_of w = star p) by (unfold w; rewrite unit_of_scale by exact K; apply unit_of_unit, norm_star).
  assert (NZ : w <> vzero).
  { intros Z. assert (N0 : norm w = 1 + (ep1 - ep0) * (km_s_arcsec * rv * px)) by (unfold w; rewrite norm_scale, norm_star by lra; ring).
    rewrite Z in N0. unfold norm, dot, vzero in N0; cbn [v0 v1 v2] in N0. replace (0 * 0 + 0 * 0 + 0 * 0) with 0 in N0 by ring. rewrite sqrt_0 in N0. lra. }
  pose proof (unit_of_direction w NZ) as D. cbv zeta in D. rewrite U, <- direction_dranrm in D.
  destruct (dcc2s_range w) as [_ L].
  destruct (direction_inj (dranrm (N := RNum) (s_a (dcc2s (N := RNum) w))) (s_b (dcc2s (N := RNum) w)) (s_a p) (s_b p)) as [X Y].
  - apply dranrm_spec.
  - exact L.
  - exact A.
  - exact B.
  - exact D.
  - rewrite X, Y. destruct p. reflexivity.
Qed.

Lemma pm_example : pm (N := RNum) (Sph (N := RNum) 0 0) (Sph (N := RNum) 1 0) 0 0 2000 2001 = Sph (N := RNum) (PI / 4) 0.
Proof.
  rewrite pm_eq. cbn [s_a s_b]. cbv zeta. unfold star. cbn [s_a s_b].
  match goal with |- context [dcc2s ?a] => assert (E : @eq RV a (V3 1 1 0)) end.
  { unfold direction, vadd, scale; cbn [v0 v1 v2]. rewrite cos_0, sin_0. f_equal; ring. }
  rewrite E, dcc2s_eq. cbn [v0 v1 v2 s_a s_b].
  assert (H : hyp 1 1 = sqrt 2) by (unfold hyp; f_equal; ring). rewrite H.
  assert (S0 : 0 < sqrt 2) by (apply sqrt_lt_R0; lra). pose proof PI_RGT_0.
  assert (A1 : Ratan2 1 1 = PI / 4).
  { apply (atan2_unique 1 1 (sqrt 2)); try lra; [rewrite cos_PI4|rewrite sin_PI4]; field; lra. }
  assert (A2 : Ratan2 0 (sqrt 2) = 0).
  { apply (atan2_unique 0 (sqrt 2) (sqrt 2)); try lra; [rewrite cos_0|rewrite sin_0]; ring. }
  rewrite A1, A2, dranrm_id by lra. reflexivity.
Qed.

Lemma polmo_example : exists tl tp daz, polmo (N := RNum) 0 0 0 (PI / 4) = (tl, tp, Some daz) /\ sin daz < 0 /\
  has_bearing tl tp (V3 0 0 1) 0.
Proof.
  rewrite polmo_eq. cbv zeta.
  assert (T : mapply (polar_motion 0 (PI / 4)) (direction 0 0) = V3 1 0 0).
  { unfold polar_motion. geo. rewrite cos_0, sin_0. f_equal; ring. }
  assert (P : mapply (polar_motion 0 (PI / 4)) (V3 0 0 1) = V3 0 (sin (PI / 4)) (cos (PI / 4))).
  { unfold polar_motion. geo. rewrite cos_0, sin_0. f_equal; ring. }
  rewrite T, P. cbn [v0 v1 v2]. assert (H : hyp 1 0 = 1) by (unfold hyp; replace (1 * 1 + 0 * 0) with 1 by ring; apply sqrt_1). rewrite H.
  destruct (Reqb_spec 1 0) as [Z|_]; [lra|]. pose proof PI_RGT_0.
  exists 0, 0, (- (PI / 4)).
  assert (A1 : Ratan2 0 1 = 0).
  { apply (atan2_unique 0 1 1); try lra; [rewrite cos_0|rewrite sin_0]; ring. }
  assert (S4 : 0 < sin (PI / 4)) by (apply sin_gt_0; lra).
  split; [|split].
  - match goal with |- (_, _, Some ?a) = _ => assert (A3 : @eq R a (- (PI / 4))) end.
    { apply (atan2_unique _ _ 1); try lra; rewrite ?cos_neg, ?sin_neg; field. }
    rewrite A1, A3. reflexivity.
  - rewrite sin_neg. lra.
  - exists 1. split; [lra|]. unfold dot, north, east; cbn [v0 v1 v2]. rewrite cos_0, sin_0. split; ring.
Qed.
