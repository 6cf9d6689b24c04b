(** Proofs about plate models, radial distortion and air mass. *)
From Coq Require Import Reals ZArith Lra Lia List Bool Psatz.
From Verif Require Import Num NumR L_Real L_Pi L_Trig L_Frame M_Angle L_Angle M_Plate S_Plate.
Import ListNotations.
Open Scope R_scope.

(** ** Linear models *)
Lemma xy2xy_linear m x y : xy2xy (N := RNum) x y m = linear_map m (x, y).
Proof. reflexivity. Qed.

Lemma invf_eq (m : coeffs R) : invf (N := RNum) m =
  let D := fc_b m * fc_f m - fc_c m * fc_e m in
  if Reqb D 0 then None else
  Some (Coeffs ((fc_c m * fc_d m - fc_a m * fc_f m) / D) (fc_f m / D) (- fc_c m / D)
          ((fc_a m * fc_e m - fc_b m * fc_d m) / D) (- fc_e m / D) (fc_b m / D)).
Proof. unfold invf. unR. cbv zeta. destruct (Reqb _ 0); reflexivity. Qed.

Lemma invf_inverse (m i : coeffs R) : invf (N := RNum) m = Some i ->
  forall p, linear_map i (linear_map m p) = p /\ linear_map m (linear_map i p) = p.
Proof.
  rewrite invf_eq. cbv zeta. destruct (Reqb_spec (fc_b m * fc_f m - fc_c m * fc_e m) 0) as [E|E]; [discriminate|].
  intros H [x y]. injection H as <-. destruct m as [a b c d e f]; cbn [fc_a fc_b fc_c fc_d fc_e fc_f] in *.
  unfold linear_map; cbn [fc_a fc_b fc_c fc_d fc_e fc_f].
  split; f_equal; field; exact E.
Qed.

Lemma invf_none (m : coeffs R) : invf (N := RNum) m = None <->
  ~ exists g : point -> point, forall p, g (linear_map m p) = p.
Proof.
  split.
  - rewrite invf_eq. cbv zeta. destruct (Reqb_spec (fc_b m * fc_f m - fc_c m * fc_e m) 0) as [E|E]; [|discriminate].
    intros _ [g G]. destruct m as [a b c d e f]; cbn [fc_a fc_b fc_c fc_d fc_e fc_f] in *.
    assert (Z : forall x y, b * x + c * y = 0 -> e * x + f * y = 0 -> x = 0 /\ y = 0).
    { intros x y A B. pose proof (G (x, y)) as G1. pose proof (G (0, 0)) as G0.
      unfold linear_map in *; cbn [fc_a fc_b fc_c fc_d fc_e fc_f] in *.
      replace (a + b * x + c * y) with (a + b * 0 + c * 0) in G1 by lra.
      replace (d + e * x + f * y) with (d + e * 0 + f * 0) in G1 by lra.
      rewrite G0 in G1. injection G1. intros; split; lra. }
    destruct (Z f (- e)) as [F0 E0]; [lra|lra|].
    destruct (Z c (- b)) as [C0 B0]; [lra| |].
    + replace e with 0 by lra. replace f with 0 by lra. ring.
    + destruct (Z 1 0) as [K _]; [| |lra].
      * replace b with 0 by lra. replace c with 0 by lra. ring.
      * replace e with 0 by lra. replace f with 0 by lra. ring.
  - intros H. destruct (invf (N := RNum) m) as [i|] eqn:E; [|reflexivity].
    exfalso. apply H. exists (linear_map i). intros p. apply (invf_inverse m i E).
Qed.

Lemma invf_twice (m i : coeffs R) : invf (N := RNum) m = Some i -> invf (N := RNum) i = Some m.
Proof.
  rewrite invf_eq. cbv zeta. destruct (Reqb_spec (fc_b m * fc_f m - fc_c m * fc_e m) 0) as [E|E]; [discriminate|].
  intros H. injection H as <-. destruct m as [a b c d e f]; cbn [fc_a fc_b fc_c fc_d fc_e fc_f] in *.
  rewrite invf_eq. cbv zeta. cbn [fc_a fc_b fc_c fc_d fc_e fc_f].
  assert (D : f / (b * f - c * e) * (b / (b * f - c * e)) - - c / (b * f - c * e) * (- e / (b * f - c * e))
              = / (b * f - c * e)) by (field; exact E).
  rewrite D. destruct (Reqb_spec (/ (b * f - c * e)) 0) as [K|K].
  - exfalso. apply (Rinv_neq_0_compat _ E). exact K.
  - f_equal. f_equal; field; exact E.
Qed.

(** Read an equation between model numbers as one between reals. *)
Ltac asR := match goal with |- @eq _ ?a ?b => change (@eq R a b) end.

(** ** Decomposition *)
Lemma if_atan2 y x : (if (negb (Reqb y 0) || negb (Reqb x 0))%bool then Ratan2 y x else 0) = Ratan2 y x.
Proof.
  destruct (Reqb_spec y 0) as [->|]; destruct (Reqb_spec x 0) as [->|]; cbn [negb orb]; try reflexivity.
  symmetry. apply atan2_00.
Qed.

Lemma dcmpf_eq (m : coeffs R) : dcmpf (N := RNum) m =
  let a := fc_a m in let c := fc_c m in let d := fc_d m in let f := fc_f m in
  let rb := hyp (fc_b m) (fc_e m) in let rc := hyp c f in
  let pos := Rleb 0 (fc_b m * f - c * fc_e m) in
  let xsc := if pos then rb else - rb in
  let b := if pos then fc_b m else - fc_b m in
  let e := if pos then fc_e m else - fc_e m in
  let p := drange (N := RNum) (Ratan2 c f + Ratan2 e b) in
  let o := Ratan2 (c * rb - e * rc) (b * rc + f * rb) in
  let det := xsc * rc * (cos (p / 2) + sin (p / 2)) * (cos (p / 2) - sin (p / 2)) in
  let ok := Rltb 0 (Rabs det) in
  Decomp (N := RNum)
    (if ok then rc * (a * (cos (p / 2) * cos o - sin (p / 2) * sin o) - d * (cos (p / 2) * sin o + sin (p / 2) * cos o)) / det else 0)
    (if ok then xsc * (a * (cos (p / 2) * sin o - sin (p / 2) * cos o) + d * (cos (p / 2) * cos o + sin (p / 2) * sin o)) / det else 0)
    xsc rc p o.
Proof. unfold dcmpf. unR. cbv zeta. rewrite !if_atan2. reflexivity. Qed.

Lemma hyp_comm x y : hyp x y = hyp y x.
Proof. unfold hyp. f_equal. ring. Qed.
Lemma hyp_opp x y : hyp (- x) (- y) = hyp x y.
Proof. unfold hyp. f_equal. ring. Qed.

Lemma decomp_angles (b c e f : R) : 0 < hyp b e -> 0 < hyp c f -> 0 <= b * f - c * e ->
  let p := drange (N := RNum) (Ratan2 c f + Ratan2 e b) in
  let o := Ratan2 (c * hyp b e - e * hyp c f) (b * hyp c f + f * hyp b e) in
  - (PI / 2) <= p <= PI / 2 /\ hyp b e * hyp c f * cos p = b * f - c * e /\
  hyp b e * cos (o - p / 2) = b /\ - hyp b e * sin (o - p / 2) = e /\
  hyp c f * sin (o + p / 2) = c /\ hyp c f * cos (o + p / 2) = f.
Proof.
  intros Hb Hc HD p o.
  set (p1 := Ratan2 c f). set (p2 := Ratan2 e b).
  assert (Cf : f = hyp c f * cos p1) by (unfold p1; rewrite (hyp_comm c f); symmetry; apply atan2_cos).
  assert (Cc : c = hyp c f * sin p1) by (unfold p1; rewrite (hyp_comm c f); symmetry; apply atan2_sin).
  assert (Cb : b = hyp b e * cos p2) by (unfold p2; symmetry; apply atan2_cos).
  assert (Ce : e = hyp b e * sin p2) by (unfold p2; symmetry; apply atan2_sin).
  destruct (drange_spec (p1 + p2)) as (SA & RG).
  fold p1 p2 in p. change (drange (N := RNum) (p1 + p2)) with p in SA, RG.
  set (rb := hyp b e) in *. set (rc := hyp c f) in *.
  assert (Dp : rb * rc * cos p = b * f - c * e).
  { rewrite <- (same_angle_cos _ _ SA), cos_plus.
    transitivity ((rb * cos p2) * (rc * cos p1) - (rc * sin p1) * (rb * sin p2)); [ring|].
    rewrite <- Cf, <- Cc, <- Cb, <- Ce. ring. }
  assert (Cp : 0 <= cos p).
  { destruct (Rle_dec 0 (cos p)); [assumption|]. exfalso.
    assert (0 < rb * rc) by (apply Rmult_lt_0_compat; assumption). nra. }
  assert (Pr : - (PI / 2) <= p <= PI / 2).
  { pose proof PI_RGT_0. split.
    - destruct (Rle_dec (- (PI / 2)) p); [assumption|]. exfalso.
      assert (cos (- p) < 0) by (apply cos_lt_0; lra). rewrite cos_neg in H0. lra.
    - destruct (Rle_dec p (PI / 2)); [assumption|]. exfalso.
      assert (cos p < 0) by (apply cos_lt_0; lra). lra. }
  split; [exact Pr|]. split; [exact Dp|].
  set (h := p / 2). set (dl := p1 - h).
  assert (Ch : 0 < cos h) by (pose proof PI_RGT_0; apply cos_gt_0; unfold h; lra).
  assert (S2 : sin p2 = sin (h - dl) /\ cos p2 = cos (h - dl)).
  { assert (SA2 : same_angle p2 (h - dl)).
    { destruct SA as [k K]. exists k. unfold h, dl, h. lra. }
    split; [apply same_angle_sin|apply same_angle_cos]; exact SA2. }
  destruct S2 as [S2 C2].
  assert (P1 : p1 = h + dl) by (unfold dl; ring).
  assert (O : same_angle o dl).
  { unfold o. apply atan2_same_angle with (r := 2 * rb * rc * cos h).
    - assert (0 < rb * rc) by (apply Rmult_lt_0_compat; assumption). nra.
    - transitivity (rb * rc * (cos p2 + cos p1)); [rewrite Cb at 1; rewrite Cf at 1; ring|].
      rewrite C2, P1, cos_plus, cos_minus. ring.
    - transitivity (rb * rc * (sin p1 - sin p2)); [rewrite Cc at 1; rewrite Ce at 1; ring|].
      rewrite S2, P1, sin_plus, sin_minus. ring. }
  pose proof (same_angle_sin _ _ O) as So. pose proof (same_angle_cos _ _ O) as Co.
  rewrite cos_minus, sin_minus, sin_plus, cos_plus, So, Co.
  assert (cos h * cos dl + sin h * sin dl = cos p2) by (rewrite C2, cos_minus; ring).
  assert (sin h * cos dl - cos h * sin dl = sin p2) by (rewrite S2, sin_minus; ring).
  assert (sin h * cos dl + cos h * sin dl = sin p1) by (rewrite P1, sin_plus; ring).
  assert (cos h * cos dl - sin h * sin dl = cos p1) by (rewrite P1, cos_plus; ring).
  split; [|split; [|split]].
  - transitivity (rb * cos p2); [rewrite <- H; ring|symmetry; exact Cb].
  - transitivity (rb * sin p2); [rewrite <- H0; ring|symmetry; exact Ce].
  - transitivity (rc * sin p1); [rewrite <- H1; ring|symmetry; exact Cc].
  - transitivity (rc * cos p1); [rewrite <- H2; ring|symmetry; exact Cf].
Qed.

(** The linear part is recovered unless a column vanishes; the zero points as
    well when the model is invertible. *)
Lemma dcmpf_linear (m : coeffs R) : (fc_b m <> 0 \/ fc_e m <> 0) -> (fc_c m <> 0 \/ fc_f m <> 0) ->
  let r := dcmpf (N := RNum) m in let h := dc_perp r / 2 in let o := dc_orient r in
  - (PI / 2) <= dc_perp r <= PI / 2 /\ - PI < o <= PI /\
  dc_ys r = sqrt (fc_c m ^ 2 + fc_f m ^ 2) /\
  dc_xs r = (if Rle_dec 0 (fc_b m * fc_f m - fc_c m * fc_e m) then 1 else - (1)) * sqrt (fc_b m ^ 2 + fc_e m ^ 2) /\
  dc_xs r * dc_ys r * cos (dc_perp r) = fc_b m * fc_f m - fc_c m * fc_e m /\
  dc_xs r * cos (o - h) = fc_b m /\ - dc_xs r * sin (o - h) = fc_e m /\
  dc_ys r * sin (o + h) = fc_c m /\ dc_ys r * cos (o + h) = fc_f m.
Proof.
  intros Hb Hc. rewrite dcmpf_eq. cbv zeta. cbn [dc_perp dc_orient dc_xs dc_ys].
  destruct m as [a b c d e f]; cbn [fc_a fc_b fc_c fc_d fc_e fc_f] in *.
  assert (Pb : 0 < hyp b e) by (apply hyp_pos; exact Hb).
  assert (Pc : 0 < hyp c f) by (apply hyp_pos; exact Hc).
  assert (SY : hyp c f = sqrt (c ^ 2 + f ^ 2)) by (unfold hyp; f_equal; ring).
  assert (SX : hyp b e = sqrt (b ^ 2 + e ^ 2)) by (unfold hyp; f_equal; ring).
  destruct (Rleb_spec 0 (b * f - c * e)) as [D|D]; (destruct (Rle_dec 0 (b * f - c * e)) as [D'|D']; [try lra|try lra]).
  - destruct (decomp_angles b c e f Pb Pc D) as (A & B & C1 & C2 & C3 & C4).
    split; [exact A|]. split; [apply atan2_range|]. split; [exact SY|]. split; [rewrite <- SX; asR; ring|]. auto.
  - assert (Pb' : 0 < hyp (- b) (- e)) by (rewrite hyp_opp; exact Pb).
    assert (D2 : 0 <= (- b) * f - c * (- e)) by lra.
    destruct (decomp_angles (- b) c (- e) f Pb' Pc D2) as (A & B & C1 & C2 & C3 & C4).
    rewrite hyp_opp in *.
    split; [exact A|]. split; [apply atan2_range|]. split; [exact SY|]. split; [rewrite <- SX; asR; ring|].
    split; [lra|]. split; [lra|]. split; [lra|]. split; [exact C3|exact C4].
Qed.

Lemma dcmpf_recompose (m : coeffs R) : fc_b m * fc_f m - fc_c m * fc_e m <> 0 ->
  let r := dcmpf (N := RNum) m in
  forall p, step_orient (dc_orient r) (step_perp (dc_perp r)
    (step_scale (dc_xs r) (dc_ys r) (step_zero (dc_xz r) (dc_yz r) p))) = linear_map m p.
Proof.
  intros HD r [x y].
  assert (Hb : fc_b m <> 0 \/ fc_e m <> 0).
  { destruct (Req_dec (fc_b m) 0) as [E|E]; [right|left; exact E]. intros E2. apply HD. rewrite E, E2. ring. }
  assert (Hc : fc_c m <> 0 \/ fc_f m <> 0).
  { destruct (Req_dec (fc_c m) 0) as [E|E]; [right|left; exact E]. intros E2. apply HD. rewrite E, E2. ring. }
  destruct (dcmpf_linear m Hb Hc) as (A & _ & _ & _ & B & C1 & C2 & C3 & C4).
  fold r in A, B, C1, C2, C3, C4.
  assert (DET : dc_xs r * dc_ys r * (cos (dc_perp r / 2) + sin (dc_perp r / 2)) * (cos (dc_perp r / 2) - sin (dc_perp r / 2))
                = fc_b m * fc_f m - fc_c m * fc_e m).
  { rewrite <- B. assert (C2h : forall t : R, cos t = cos (t / 2) * cos (t / 2) - sin (t / 2) * sin (t / 2))
      by (intros t; rewrite <- cos_2a; f_equal; field).
    rewrite (C2h (dc_perp r)). asR. ring. }
  assert (Z : dc_xz r = (fc_a m * fc_f m - fc_d m * fc_c m) / (fc_b m * fc_f m - fc_c m * fc_e m) /\
              dc_yz r = (fc_d m * fc_b m - fc_a m * fc_e m) / (fc_b m * fc_f m - fc_c m * fc_e m)).
  { rewrite <- DET. rewrite <- DET in HD. revert DET HD C1 C2 C3 C4. unfold r. rewrite dcmpf_eq. cbv zeta.
    cbn [dc_perp dc_orient dc_xs dc_ys dc_xz dc_yz].
    match goal with |- context [Rltb 0 (Rabs ?D)] => set (DD := D) end.
    intros _ HD. destruct (Rltb_spec 0 (Rabs DD)) as [Q|Q]; [|exfalso; apply Q, Rabs_pos_lt; exact HD].
    rewrite !cos_minus, !sin_minus, !cos_plus, !sin_plus. intros C1 C2 C3 C4.
    pose proof (f_equal (Rmult (fc_a m)) C4) as A4. pose proof (f_equal (Rmult (fc_d m)) C3) as D3.
    pose proof (f_equal (Rmult (fc_d m)) C1) as D1. pose proof (f_equal (Rmult (fc_a m)) C2) as A2.
    split; apply (f_equal (fun z => z / DD)); lra. }
  destruct Z as [ZX ZY].
  rewrite cos_minus in C1. rewrite sin_minus in C2. rewrite sin_plus in C3. rewrite cos_plus in C4.
  unfold step_orient, step_perp, step_scale, step_zero, linear_map. 
  set (so := sin (dc_orient r)) in *. set (co := cos (dc_orient r)) in *.
  set (sh := sin (dc_perp r / 2)) in *. set (ch := cos (dc_perp r / 2)) in *.
  set (xz := dc_xz r) in *. set (yz := dc_yz r) in *. set (xs := dc_xs r) in *. set (ys := dc_ys r) in *.
  clearbody so co sh ch xz yz xs ys. clear DET A B.
  assert (X : fc_a m = fc_b m * xz + fc_c m * yz) by (rewrite ZX, ZY; field; exact HD).
  assert (Y : fc_d m = fc_e m * xz + fc_f m * yz) by (rewrite ZX, ZY; field; exact HD).
  f_equal.
  - rewrite X, <- C1, <- C3. ring.
  - rewrite Y, <- C2, <- C4. ring.
Qed.

Lemma steps_origin o p xs ys xz yz :
  step_orient o (step_perp p (step_scale xs ys (step_zero xz yz (- xz, - yz)))) = (0, 0).
Proof. unfold step_orient, step_perp, step_scale, step_zero. f_equal; ring. Qed.

Lemma dcmpf_example : let r := dcmpf (N := RNum) (Coeffs 3 0 2 5 1 0) in
  dc_xs r = - (1) /\ dc_ys r = 2 /\ dc_xz r = 5 /\ dc_yz r = 3 / 2.
Proof.
  intros r. assert (HD : fc_b (Coeffs 3 0 2 5 1 0) * fc_f (Coeffs 3 0 2 5 1 0) - fc_c (Coeffs 3 0 2 5 1 0) * fc_e (Coeffs 3 0 2 5 1 0) <> 0)
    by (cbn [fc_a fc_b fc_c fc_d fc_e fc_f]; lra).
  pose proof (dcmpf_recompose _ HD) as RC.
  destruct (dcmpf_linear (Coeffs 3 0 2 5 1 0)) as (A & _ & SY & SX & _); cbn [fc_a fc_b fc_c fc_d fc_e fc_f] in *; [right; lra|left; lra|].
  fold r in A, SY, SX, RC.
  replace (2 ^ 2 + 0 ^ 2) with (2 * 2) in SY by ring. rewrite sqrt_square in SY by lra.
  replace (0 ^ 2 + 1 ^ 2) with (1 * 1) in SX by ring. rewrite sqrt_square in SX by lra.
  destruct (Rle_dec 0 (0 * 0 - 2 * 1)); [lra|].
  split; [lra|]. split; [exact SY|].
  pose proof (RC (- dc_xz r, - dc_yz r)) as R1. rewrite steps_origin in R1.
  unfold linear_map in R1. cbn [fc_a fc_b fc_c fc_d fc_e fc_f] in R1. revert R1.
  generalize (dc_xz r) (dc_yz r). clear. intros x y; change R in x; change R in y. intros R1.
  pose proof (f_equal fst R1) as E1. pose proof (f_equal snd R1) as E2. cbn [fst snd] in E1, E2. split; lra.
Qed.

(** ** Residuals *)
Lemma skipn_nth {A} (l : list A) : forall i a, nth_error l i = Some a -> skipn i l = a :: skipn (S i) l.
Proof.
  induction l as [|x l IH]; intros [|i] a E; cbn [nth_error] in E; try discriminate.
  - injection E as ->. reflexivity.
  - apply IH in E. exact E.
Qed.

Lemma pxy_loop_spec (model : coeffs R) : forall k i (expected measured predicted : list (RNum * RNum)) (sx sy : RNum),
  (i + k <= length expected)%nat -> (i + k <= length measured)%nat ->
  let es := firstn k (skipn i expected) in let ms := firstn k (skipn i measured) in
  let ps := map (linear_map model) ms in
  let dx := map (fun q => fst (fst q) - fst (snd q)) (combine ps es) in
  let dy := map (fun q => snd (fst q) - snd (snd q)) (combine ps es) in
  pxy_loop (N := RNum) k i expected measured model predicted sx sy =
  Some (predicted ++ ps, sx + Rsum_list (map (fun x => x * x) dx), sy + Rsum_list (map (fun x => x * x) dy)).
Proof.
  induction k as [|k IH]; intros i ex me pr sx sy He Hm.
  - cbn. rewrite app_nil_r, !Rplus_0_r. reflexivity.
  - cbn [pxy_loop].
    destruct (nth_error ex i) as [[e1 e2]|] eqn:E; [|apply nth_error_None in E; lia].
    destruct (nth_error me i) as [[m1 m2]|] eqn:M; [|apply nth_error_None in M; lia].
    assert (SE : skipn i ex = (e1, e2) :: skipn (S i) ex) by (apply skipn_nth; assumption).
    assert (SM : skipn i me = (m1, m2) :: skipn (S i) me) by (apply skipn_nth; assumption).
    rewrite xy2xy_linear. destruct (linear_map model (m1, m2)) as [px py] eqn:LM.
    rewrite IH by lia. cbv zeta. rewrite SE, SM. cbn [firstn map combine fst snd Rsum_list].
    rewrite LM. cbn [firstn map combine fst snd Rsum_list]. unR.
    f_equal. f_equal; [f_equal|].
    + rewrite <- app_assoc. reflexivity.
    + ring.
    + ring.
Qed.

Lemma sum_sq_nonneg l : 0 <= Rsum_list (map (fun x => x * x) l).
Proof. induction l as [|a l IH]; cbn; [lra|]. pose proof (sq_pos a). lra. Qed.

Lemma pxy_spec (n : Z) (expected measured : list point) (model : coeffs R) :
  (Z.to_nat n <= length expected)%nat -> (Z.to_nat n <= length measured)%nat ->
  let es := firstn (Z.to_nat n) expected in
  let ps := map (linear_map model) (firstn (Z.to_nat n) measured) in
  let dx := map (fun q => fst (fst q) - fst (snd q)) (combine ps es) in
  let dy := map (fun q => snd (fst q) - snd (snd q)) (combine ps es) in
  exists x_rms y_rms rms : R, pxy (N := RNum) n expected measured model = Some (ps, x_rms, y_rms, rms) /\
    ((n <= 0)%Z -> x_rms = 0 /\ y_rms = 0 /\ rms = 0) /\
    ((0 < n)%Z -> x_rms = rms_of dx /\ y_rms = rms_of dy) /\
    rms = sqrt (x_rms ^ 2 + y_rms ^ 2).
Proof.
  intros He Hm es ps dx dy. unfold pxy.
  rewrite (pxy_loop_spec model (Z.to_nat n) 0 expected measured [] _ _); [|exact He|exact Hm].
  cbv zeta. cbn [skipn app]. fold es. fold ps. fold dx. fold dy. unR. rewrite !Rplus_0_l.
  eexists _, _, _. split; [reflexivity|].
  assert (Len : (0 < n)%Z -> IZR n = INR (length dx) /\ IZR n = INR (length dy)).
  { intros Hn. unfold dx, dy, ps, es. rewrite !map_length, combine_length, map_length, !firstn_length_le by assumption.
    rewrite Nat.min_id. rewrite INR_IZR_INZ, Z2Nat.id by lia. auto. }
  split; [|split].
  - intros Hn. replace (Z.to_nat n) with O in * by lia. unfold dx, dy, ps, es. cbn.
    replace (0 / (if Rltb 1 (IZR n) then IZR n else 1)) with 0 by (unfold Rdiv; ring).
    rewrite sqrt_0. split; [reflexivity|]. split; [reflexivity|]. replace (0 * 0 + 0 * 0) with 0 by ring. apply sqrt_0.
  - intros Hn. destruct (Len Hn) as [L1 L2].
    assert (P : (if Rltb 1 (IZR n) then IZR n else 1) = IZR n).
    { destruct (Rltb_spec 1 (IZR n)); [reflexivity|]. assert (1 <= IZR n) by (apply IZR_le; lia). lra. }
    rewrite P. unfold rms_of, mean. rewrite !map_length. split; [rewrite <- L1|rewrite <- L2]; reflexivity.
  - f_equal. ring.
Qed.

Lemma rms_of_0 l : rms_of l = 0 <-> Forall (fun x => x = 0) l.
Proof.
  unfold rms_of, mean. rewrite map_length. split.
  - intros H. destruct l as [|a l]; [constructor|].
    assert (P : 0 < INR (length (a :: l))) by (apply lt_0_INR; cbn; lia).
    apply sqrt_eq_0 in H.
    + assert (S0 : Rsum_list (map (fun x => x * x) (a :: l)) = 0).
      { apply (Rmult_eq_reg_r (/ INR (length (a :: l)))); [rewrite Rmult_0_l; exact H|apply Rinv_neq_0_compat; lra]. }
      clear H P. revert S0. generalize (a :: l). clear. induction l as [|a l IH]; intros S0; constructor.
      * cbn in S0. pose proof (sum_sq_nonneg l). nra.
      * apply IH. cbn in S0. pose proof (sum_sq_nonneg l). pose proof (sq_pos a). lra.
    + apply Rmult_le_pos; [apply sum_sq_nonneg|]. apply Rlt_le, Rinv_0_lt_compat, P.
  - intros H. assert (S0 : Rsum_list (map (fun x => x * x) l) = 0).
    { induction H as [|a l -> H IH]; cbn; [reflexivity|]. rewrite IH. ring. }
    rewrite S0. unfold Rdiv. rewrite Rmult_0_l. apply sqrt_0.
Qed.

(** ** Radial distortion *)
Lemma pcd_distort (k x y : R) : pcd (N := RNum) k x y = distort k (x, y).
Proof. unfold pcd, distort. unR. cbv zeta. f_equal; ring. Qed.

Definition cbrt (u : R) : R := if Rleb 0 u then Rabs (Rpow (Rabs u) (1 / 3)) else - Rabs (Rpow (Rabs u) (1 / 3)).

Lemma Rpower_third u : 0 < u -> Rpower u (1 / 3) ^ 3 = u.
Proof.
  intros H. rewrite <- Rpower_pow by apply exp_pos. rewrite Rpower_mult.
  replace (1 / 3 * INR 3) with 1 by (cbn; field). apply Rpower_1, H.
Qed.

Lemma cbrt_cube u : u <> 0 -> cbrt u ^ 3 = u.
Proof.
  intros H. unfold cbrt. assert (P : 0 < Rabs u) by (apply Rabs_pos_lt; exact H).
  rewrite Rpow_pos by exact P. rewrite Rabs_right by (apply Rle_ge, Rlt_le, exp_pos).
  pose proof (Rpower_third _ P) as Q. destruct (Rleb_spec 0 u).
  - rewrite Q. apply Rabs_right. lra.
  - rewrite Rabs_left in Q by lra. rewrite Rabs_left by lra. 
    transitivity (- (Rpower (- u) (1 / 3) ^ 3)); [ring|]. rewrite Q. ring.
Qed.

Lemma cube_inj a b : a ^ 3 = b ^ 3 -> a = b.
Proof.
  intros H. destruct (Req_dec a b) as [|N]; [assumption|]. exfalso.
  assert (E : (a - b) * (a * a + a * b + b * b) = 0) by lra.
  apply Rmult_integral in E. destruct E as [E|E]; [lra|].
  assert (Q : (a + b / 2) ^ 2 + 3 / 4 * b ^ 2 = 0) by lra.
  assert (0 <= (a + b / 2) ^ 2) by apply pow2_ge_0. assert (0 <= b ^ 2) by apply pow2_ge_0.
  assert (B2 : b ^ 2 = 0) by lra. assert (b = 0) by nra. subst b. assert (a = 0) by nra. lra.
Qed.

(** Cardano: one real root. *)
Lemma cardano q r : q <> 0 -> 0 <= q * q * q + r * r ->
  let d := sqrt (q * q * q + r * r) in let f := cbrt (r + d) + cbrt (r - d) in
  f ^ 3 + 3 * q * f - 2 * r = 0 /\
  (0 < q * q * q + r * r -> forall g, g ^ 3 + 3 * q * g - 2 * r = 0 -> g = f).
Proof.
  intros Hq Hw d f. assert (Dd : d * d = q * q * q + r * r) by (apply sqrt_def; exact Hw).
  assert (Q3 : q * q * q <> 0) by (repeat apply Rmult_integral_contrapositive_currified; exact Hq).
  assert (A : r + d <> 0) by (intros E; apply Q3; nra).
  assert (B : r - d <> 0) by (intros E; apply Q3; nra).
  pose proof (cbrt_cube _ A) as CA. pose proof (cbrt_cube _ B) as CB.
  unfold f. set (s := cbrt (r + d)) in *. set (t := cbrt (r - d)) in *.
  assert (ST : s * t = - q).
  { apply cube_inj. transitivity ((s ^ 3) * (t ^ 3)); [ring|]. rewrite CA, CB.
    transitivity (r * r - d * d); [ring|]. rewrite Dd. ring. }
  assert (R0 : (s + t) ^ 3 + 3 * q * (s + t) - 2 * r = 0).
  { transitivity (s ^ 3 + t ^ 3 + 3 * (s * t) * (s + t) + 3 * q * (s + t) - 2 * r); [ring|].
    rewrite CA, CB, ST. ring. }
  split; [exact R0|]. intros Pw g G.
  assert (E : (g - (s + t)) * (g * g + g * (s + t) + (s + t) * (s + t) + 3 * q) = 0) by lra.
  apply Rmult_integral in E. destruct E as [E|E]; [lra|]. exfalso.
  assert (NE : s <> t).
  { intros K. rewrite K in CA. rewrite CA in CB. assert (d = 0) by lra. nra. }
  assert (0 < (s - t) * (s - t)) by (destruct (Rtotal_order s t) as [|[|]]; nra).
  assert (0 <= (2 * g + (s + t)) * (2 * g + (s + t))) by apply sq_pos.
  nra.
Qed.

(** Viete: three real roots. *)
Lemma viete s r : 0 < s -> r * r < s * s * s * (s * s * s) ->
  let c := r / (s * s * s) in let t := Ratan2 (sqrt (1 - c * c)) c in let w := 2 * s in
  let f1 := w * cos ((2 * PI - t) / 3) in let f2 := w * cos (t / 3) in let f3 := w * cos ((2 * PI + t) / 3) in
  forall g, g ^ 3 - 3 * (s * s) * g - 2 * r = 0 <-> g = f1 \/ g = f2 \/ g = f3.
Proof.
  intros Hs Hr c t w f1 f2 f3 g.
  assert (S3 : 0 < s * s * s) by (repeat apply Rmult_lt_0_compat; exact Hs).
  assert (Cc : c * (s * s * s) = r) by (unfold c; field; lra).
  assert (C1 : 0 <= 1 - c * c).
  { assert ((c * c) * (s * s * s * (s * s * s)) < 1 * (s * s * s * (s * s * s))).
    { rewrite <- Cc in Hr. lra. }
    assert (0 < s * s * s * (s * s * s)) by (apply Rmult_lt_0_compat; exact S3).
    apply Rmult_lt_reg_r in H; lra. }
  assert (Ct : cos t = c).
  { assert (H1 : hyp c (sqrt (1 - c * c)) = 1).
    { unfold hyp. rewrite sqrt_def by exact C1. replace (c * c + (1 - c * c)) with 1 by ring. apply sqrt_1. }
    pose proof (atan2_cos (sqrt (1 - c * c)) c) as K. rewrite H1 in K. fold t in K. lra. }
  set (th := t / 3).
  assert (T3 : cos t = 4 * cos th ^ 3 - 3 * cos th).
  { replace t with (2 * th + th) by (unfold th; field). rewrite cos_plus, cos_2a, sin_2a.
    assert (S2 : sin th * sin th = 1 - cos th * cos th) by (pose proof (sc1 th); lra).
    transitivity ((cos th * cos th - sin th * sin th) * cos th - 2 * (sin th * sin th) * cos th); [ring|].
    rewrite S2. ring. }
  assert (C23 : cos (2 * (PI / 3)) = - 1 / 2) by apply cos_2PI3.
  assert (S23 : sin (2 * (PI / 3)) = sqrt 3 / 2) by apply sin_2PI3.
  assert (F1 : f1 = w * (- 1 / 2 * cos th + sqrt 3 / 2 * sin th)).
  { unfold f1. replace ((2 * PI - t) / 3) with (2 * (PI / 3) - th) by (unfold th; field).
    rewrite cos_minus, C23, S23. reflexivity. }
  assert (F3 : f3 = w * (- 1 / 2 * cos th - sqrt 3 / 2 * sin th)).
  { unfold f3. replace ((2 * PI + t) / 3) with (2 * (PI / 3) + th) by (unfold th; field).
    rewrite cos_plus, C23, S23. reflexivity. }
  assert (F2 : f2 = w * cos th) by reflexivity.
  assert (S3' : sqrt 3 * sqrt 3 = 3) by (apply sqrt_def; lra).
  assert (SC : sin th * sin th = 1 - cos th * cos th) by (pose proof (sc1 th); lra).
  assert (FAC : g ^ 3 - 3 * (s * s) * g - 2 * r = (g - f2) * ((g - f1) * (g - f3))).
  { assert (P13 : (g - f1) * (g - f3) = g * g + g * f2 + f2 * f2 - 3 * (s * s)).
    { rewrite F1, F3, F2.
      transitivity (g * g + g * (w * cos th) + w * w * (cos th * cos th / 4 - (sqrt 3 * sqrt 3) * (sin th * sin th) / 4)); [field|].
      rewrite S3', SC. unfold w. field. }
    rewrite P13. 
    assert (R2 : 2 * r = f2 ^ 3 - 3 * (s * s) * f2).
    { rewrite F2. unfold w. rewrite <- Cc, <- Ct, T3. ring. }
    rewrite R2. ring. }
  rewrite FAC. split.
  - intros H. apply Rmult_integral in H. destruct H as [H|H]; [right; left; lra|].
    apply Rmult_integral in H. destruct H as [H|H]; [left; lra|right; right; lra].
  - intros [->|[->| ->]]; ring.
Qed.

(** The root selected by unpcd, by cases on the discriminant. *)
Definition undistorted_root (k rp : R) : R :=
  let q := 1 / (3 * k) in let r := rp / (2 * k) in
  if Rleb 0 (q * q * q + r * r) then
    cbrt (r + sqrt (q * q * q + r * r)) + cbrt (r - sqrt (q * q * q + r * r))
  else
    let w := 2 / sqrt (- (3) * k) in
    let c := 4 * rp / (k * w * w * w) in
    let t := Ratan2 (sqrt (1 - (if Rltb 1 (c * c) then 1 else c * c))) c in
    let f1 := w * cos ((2 * PI - t) / 3) in
    let f2 := w * cos (t / 3) in
    let f3 := w * cos ((2 * PI + t) / 3) in
    if Rltb (Rabs (f1 - rp)) (Rabs (f2 - rp)) then
      (if Rltb (Rabs (f1 - rp)) (Rabs (f3 - rp)) then f1 else f3)
    else (if Rltb (Rabs (f2 - rp)) (Rabs (f3 - rp)) then f2 else f3).

Lemma unpcd_eq (k x y : R) : unpcd (N := RNum) k x y =
  let rp := sqrt (x * x + y * y) in
  if (negb (Reqb rp 0) && negb (Reqb k 0))%bool then
    (undistorted_root k rp / rp * x, undistorted_root k rp / rp * y) else (x, y).
Proof. unfold unpcd, undistorted_root, cbrt. unR. cbv zeta. reflexivity. Qed.

Lemma root_spec k rp : k <> 0 -> rp <> 0 -> let f := undistorted_root k rp in
  f * (1 + k * (f * f)) = rp /\
  (27 * k * (rp * rp) <> - (4) -> forall g, g * (1 + k * (g * g)) = rp -> Rabs (f - rp) <= Rabs (g - rp)) /\
  (- (4) < 27 * k * (rp * rp) -> 0 < k -> forall g, g * (1 + k * (g * g)) = rp -> g = f).
Proof.
  intros Hk Hr f. assert (FD : f = undistorted_root k rp) by reflexivity. clearbody f.
  unfold undistorted_root in FD. cbv zeta in FD.
  set (q := 1 / (3 * k)) in *. set (r := rp / (2 * k)) in *.
  assert (Hq : q <> 0) by (unfold q; apply Rmult_integral_contrapositive_currified; [lra|apply Rinv_neq_0_compat; lra]).
  assert (Q : 3 * q * k = 1) by (unfold q; field; exact Hk).
  assert (Rk : 2 * r * k = rp) by (unfold r; field; exact Hk).
  assert (W : (q * q * q + r * r) * (108 * (k * k) * (k * k)) = k * (4 + 27 * k * (rp * rp))).
  { rewrite <- Rk. transitivity (4 * (3 * q * k) * (3 * q * k) * (3 * q * k) * k + 27 * k * k * ((2 * r * k) * (2 * r * k))); [ring|].
    rewrite Q. ring. }
  assert (K4 : 0 < 108 * (k * k) * (k * k)) by (assert (0 < k * k) by (destruct (Rtotal_order k 0) as [|[|]]; nra); nra).
  assert (EQ : forall g, g * (1 + k * (g * g)) = rp <-> g ^ 3 + 3 * q * g - 2 * r = 0).
  { intros g. split; intros H.
    - apply (Rmult_eq_reg_r k); [|exact Hk]. rewrite Rmult_0_l.
      transitivity (k * g ^ 3 + (3 * q * k) * g - 2 * r * k); [ring|]. rewrite Q, Rk, <- H. ring.
    - apply (f_equal (Rmult k)) in H. rewrite Rmult_0_r in H.
      assert (k * g ^ 3 + (3 * q * k) * g - 2 * r * k = 0) by lra. rewrite Q, Rk in H0. lra. }
  destruct (Rleb_spec 0 (q * q * q + r * r)) as [Hw|Hw].
  - destruct (cardano q r Hq Hw) as [A B]. rewrite <- FD in A, B. split; [apply EQ; exact A|]. split.
    + intros N g G. apply EQ in G.
      assert (0 < q * q * q + r * r).
      { destruct (Rle_lt_or_eq_dec _ _ Hw) as [|E]; [assumption|]. exfalso. rewrite <- E, Rmult_0_l in W.
        symmetry in W. apply Rmult_integral in W. destruct W as [W|W]; [contradiction|lra]. }
      rewrite (B H g G). lra.
    + intros P Kp g G. apply EQ in G. apply B; [|exact G].
      destruct (Rle_lt_or_eq_dec _ _ Hw) as [|E]; [assumption|]. exfalso. rewrite <- E, Rmult_0_l in W. nra.
  - assert (Kn : k < 0).
    { destruct (Rlt_dec k 0); [assumption|]. exfalso. assert (0 < k) by lra.
      assert (0 <= rp * rp) by apply sq_pos. assert (0 < k * (4 + 27 * k * (rp * rp))) by (apply Rmult_lt_0_compat; nra). nra. }
    set (s := / sqrt (- (3) * k)).
    assert (SQ : 0 < sqrt (- (3) * k)) by (apply sqrt_lt_R0; lra).
    assert (Sp : 0 < s) by (apply Rinv_0_lt_compat, SQ).
    assert (SS : s * s = - q).
    { unfold s. rewrite <- Rinv_mult, sqrt_def by lra. unfold q. field. exact Hk. }
    assert (Ws : 2 / sqrt (- (3) * k) = 2 * s) by reflexivity.
    assert (S3 : 0 < s * s * s) by (repeat apply Rmult_lt_0_compat; exact Sp).
    assert (Cs : 4 * rp / (k * (2 * s) * (2 * s) * (2 * s)) = r / (s * s * s)).
    { unfold r. field. split; [exact Hk|lra]. }
    assert (Rs : r * r < s * s * s * (s * s * s)).
    { replace (s * s * s * (s * s * s)) with ((s * s) * (s * s) * (s * s)) by ring. rewrite SS. lra. }
    assert (CC : r / (s * s * s) * (r / (s * s * s)) < 1).
    { apply (Rmult_lt_reg_r (s * s * s * (s * s * s))); [apply Rmult_lt_0_compat; exact S3|].
      replace (r / (s * s * s) * (r / (s * s * s)) * (s * s * s * (s * s * s))) with (r * r) by (field; lra). lra. }
    rewrite Ws, Cs in FD.
    destruct (Rltb_spec 1 (r / (s * s * s) * (r / (s * s * s)))) as [K|_]; [lra|].
    pose proof (viete s r Sp Rs) as V. cbv zeta in V.
    set (c := r / (s * s * s)) in *. set (t := Ratan2 (sqrt (1 - c * c)) c) in *.
    set (f1 := 2 * s * cos ((2 * PI - t) / 3)) in *. set (f2 := 2 * s * cos (t / 3)) in *.
    set (f3 := 2 * s * cos ((2 * PI + t) / 3)) in *.
    assert (V' : forall g, g * (1 + k * (g * g)) = rp <-> g = f1 \/ g = f2 \/ g = f3).
    { intros g. rewrite EQ, <- V. rewrite SS. split; intros; lra. }
    split; [|split].
    + apply V'. rewrite FD. destruct (Rltb _ _); destruct (Rltb _ _); auto.
    + intros _ g G. apply V' in G. rewrite FD.
      destruct (Rltb_spec (Rabs (f1 - rp)) (Rabs (f2 - rp)));
      destruct (Rltb_spec (Rabs (f1 - rp)) (Rabs (f3 - rp)));
      destruct (Rltb_spec (Rabs (f2 - rp)) (Rabs (f3 - rp))); destruct G as [->|[->| ->]]; lra.
    + intros _ Kp. lra.
Qed.

Lemma norm_xy (x y : R) : sqrt (x * x + y * y) * sqrt (x * x + y * y) = x * x + y * y.
Proof. apply sqrt_def. pose proof (sq_pos x). pose proof (sq_pos y). lra. Qed.

Lemma unpcd_undoes (k x y : R) : distort k (unpcd (N := RNum) k x y) = (x, y).
Proof.
  rewrite unpcd_eq. cbv zeta. pose proof (norm_xy x y) as NN. set (rp := sqrt (x * x + y * y)) in *.
  destruct (Reqb_spec rp 0) as [E|E]; cbn [negb andb].
  - rewrite E in NN. assert (x = 0) by (pose proof (sq_pos y); nra). assert (y = 0) by (pose proof (sq_pos x); nra).
    subst x y. unfold distort. f_equal; ring.
  - destruct (Reqb_spec k 0) as [->|Hk]; cbn [negb].
    + unfold distort. f_equal; ring.
    + destruct (root_spec k rp Hk E) as (A & _). set (f := undistorted_root k rp) in *. unfold distort.
      assert (S : (f / rp * x) ^ 2 + (f / rp * y) ^ 2 = f * f).
      { transitivity (f * f * (x * x + y * y) / (rp * rp)); [field; exact E|]. rewrite <- NN. field. exact E. }
      rewrite S. assert (F : (1 + k * (f * f)) * (f / rp) = 1).
      { transitivity (f * (1 + k * (f * f)) / rp); [field; exact E|]. rewrite A. field. exact E. }
      f_equal; rewrite <- Rmult_assoc, F; ring.
Qed.

(** Every point that distorts to (x, y) lies on its radius. *)
Lemma preimage_radial k x y (p : point) : distort k p = (x, y) -> sqrt (x * x + y * y) <> 0 ->
  exists g, g * (1 + k * (g * g)) = sqrt (x * x + y * y) /\
    p = (g / sqrt (x * x + y * y) * x, g / sqrt (x * x + y * y) * y) /\
    fst p ^ 2 + snd p ^ 2 = g * g /\ (0 <= 1 + k * (fst p ^ 2 + snd p ^ 2) -> 0 <= g).
Proof.
  destruct p as [u v]. unfold distort. intros H E. pose proof (f_equal fst H) as X. pose proof (f_equal snd H) as Y. cbn [fst snd] in X, Y. clear H.
  pose proof (norm_xy x y) as NN. pose proof (sqrt_pos (x * x + y * y)) as RP. set (rp := sqrt (x * x + y * y)) in *.
  set (F := 1 + k * (u ^ 2 + v ^ 2)) in *.
  assert (F0 : F <> 0).
  { intros F0. apply E. assert (x = 0) by (rewrite <- X, F0; ring). assert (y = 0) by (rewrite <- Y, F0; ring).
    assert (Q : rp * rp = 0) by (rewrite NN; nra). apply Rmult_integral in Q. tauto. }
  assert (RF : rp * rp = F * F * (u ^ 2 + v ^ 2)) by (rewrite NN, <- X, <- Y; ring).
  exists (rp / F).
  assert (G2 : rp / F * (rp / F) = u ^ 2 + v ^ 2).
  { transitivity (rp * rp / (F * F)); [field; exact F0|]. rewrite RF. field. exact F0. }
  split; [|split; [|split]].
  - rewrite G2. fold F. field. exact F0.
  - rewrite <- X, <- Y. f_equal; field; split; assumption.
  - cbn [fst snd]. symmetry. exact G2.
  - cbn [fst snd]. fold F. intros PF. apply Rmult_le_pos; [exact RP|]. apply Rlt_le, Rinv_0_lt_compat. lra.
Qed.

Lemma radial_distance g x y : sqrt (x * x + y * y) <> 0 ->
  distance (g / sqrt (x * x + y * y) * x, g / sqrt (x * x + y * y) * y) (x, y) = Rabs (g - sqrt (x * x + y * y)).
Proof.
  intros E. pose proof (norm_xy x y) as NN. set (rp := sqrt (x * x + y * y)) in *.
  unfold distance. cbn [fst snd]. rewrite <- sqrt_Rsqr_abs. f_equal. unfold Rsqr.
  transitivity ((g - rp) * (g - rp) / (rp * rp) * (x * x + y * y)); [field; exact E|].
  rewrite <- NN. field. exact E.
Qed.

Lemma unpcd_least (k x y : R) : 27 * k * (x ^ 2 + y ^ 2) <> - (4) ->
  forall p, distort k p = (x, y) -> distance (unpcd (N := RNum) k x y) (x, y) <= distance p (x, y).
Proof.
  intros N p D. rewrite unpcd_eq. cbv zeta.
  assert (Z : forall q, 0 <= distance q (x, y)) by (intros; apply sqrt_pos).
  assert (Z0 : distance (x, y) (x, y) = 0).
  { unfold distance. cbn [fst snd]. replace ((x - x) ^ 2 + (y - y) ^ 2) with 0 by ring. apply sqrt_0. }
  destruct (Reqb_spec (sqrt (x * x + y * y)) 0) as [E|E]; cbn [negb andb]; [rewrite Z0; apply Z|].
  destruct (Reqb_spec k 0) as [Ek|Hk]; cbn [negb]; [rewrite Z0; apply Z|].
  destruct (preimage_radial k x y p D E) as (g & G & -> & _).
  rewrite !radial_distance by exact E.
  destruct (root_spec k _ Hk E) as (_ & A & _). apply A; [|exact G].
  rewrite norm_xy. intros K. apply N. rewrite <- K. ring.
Qed.

Lemma unpcd_pcd (k x y : R) : - (1) < 3 * k * (x ^ 2 + y ^ 2) ->
  (let '(u, v) := pcd (N := RNum) k x y in unpcd (N := RNum) k u v) = (x, y).
Proof.
  intros H. rewrite pcd_distort. destruct (distort k (x, y)) as [u v] eqn:D.
  rewrite unpcd_eq. cbv zeta.
  set (F := 1 + k * (x ^ 2 + y ^ 2)) in *.
  assert (XY : u = F * x /\ v = F * y) by (unfold distort in D; split; [exact (eq_sym (f_equal fst D))|exact (eq_sym (f_equal snd D))]).
  assert (F0 : 0 < F) by (unfold F; lra).
  destruct (Reqb_spec (sqrt (u * u + v * v)) 0) as [E|E]; cbn [negb andb].
  - pose proof (norm_xy u v) as NN. rewrite E in NN.
    assert (u = 0) by (pose proof (sq_pos v); nra). assert (v = 0) by (pose proof (sq_pos u); nra).
    destruct XY as [XU XV]. f_equal; nra.
  - destruct (Reqb_spec k 0) as [Ek|Hk]; cbn [negb].
    + destruct XY as [-> ->]. unfold F. rewrite Ek. f_equal; ring.
    + destruct (preimage_radial k u v (x, y) D E) as (g & G & P & G2 & Gp).
      cbn [fst snd] in G2, Gp. specialize (Gp (Rlt_le _ _ F0)).
      rewrite G2 in H.
      destruct (root_spec k _ Hk E) as (A & B & C). pose proof (sqrt_pos (u * u + v * v)) as RP.
      set (rp := sqrt (u * u + v * v)) in *. set (f := undistorted_root k rp) in *.
      assert (FG : f = g); [|rewrite FG; symmetry; exact P].
      assert (gp : 0 < g) by (destruct (Rle_lt_or_eq_dec _ _ Gp) as [|E0]; [assumption|exfalso; apply E; rewrite <- G, <- E0; ring]).
      destruct (Rlt_dec 0 k) as [Kp|Kn].
      * symmetry. apply C; [|exact Kp|exact G]. assert (0 <= rp * rp) by apply sq_pos. nra.
      * assert (Kn' : k < 0) by (destruct (Rtotal_order k 0) as [|[|]]; [assumption|contradiction|contradiction]).
        set (z := - k * (g * g)). assert (z1 : 0 < z < 1 / 3) by (unfold z; assert (0 < g * g) by (apply Rmult_lt_0_compat; exact gp); split; [apply Rmult_lt_0_compat|]; lra).
        assert (NE : 27 * k * (rp * rp) <> - (4)).
        { rewrite <- G. replace (27 * k * (g * (1 + k * (g * g)) * (g * (1 + k * (g * g))))) with (- (27 * z * ((1 - z) * (1 - z)))) by (unfold z; ring).
          assert (0 < (1 - 3 * z) * (1 - 3 * z) * (4 - 3 * z)) by (repeat apply Rmult_lt_0_compat; lra). lra. }
        specialize (B NE g G).
        assert (RGz : rp = g - g * z) by (rewrite <- G; unfold z; ring).
        assert (gz : 0 < g * z) by (apply Rmult_lt_0_compat; [exact gp|apply z1]).
        assert (RG : rp <= g) by lra.
        assert (Bd : - g <= f <= g).
        { rewrite (Rabs_right (g - rp)) in B by lra.
          unfold Rabs in B. destruct (Rcase_abs (f - rp)); lra. }
        assert (E2 : (f - g) * (1 + k * (f * f + f * g + g * g)) = 0) by lra.
        apply Rmult_integral in E2. destruct E2 as [E2|E2]; [lra|]. exfalso.
        assert (F3 : f * f + f * g + g * g <= 3 * (g * g)).
        { assert (0 <= (g - f) * (2 * g + f)) by (apply Rmult_le_pos; lra). lra. }
        assert (0 <= - k * (3 * (g * g) - (f * f + f * g + g * g))) by (apply Rmult_le_pos; lra).
        unfold z in z1. lra.
Qed.

Lemma unpcd_critical : unpcd (N := RNum) (- (1 / 3)) (2 / 3) 0 = (- (2), 0) /\
  distort (- (1 / 3)) (1, 0) = (2 / 3, 0).
Proof.
  split; [|unfold distort; f_equal; field].
  rewrite unpcd_eq. cbv zeta.
  assert (S : sqrt (2 / 3 * (2 / 3) + 0 * 0) = 2 / 3).
  { replace (2 / 3 * (2 / 3) + 0 * 0) with (2 / 3 * (2 / 3)) by ring. apply sqrt_square. lra. }
  rewrite S. destruct (Reqb_spec (2 / 3) 0); [lra|]. destruct (Reqb_spec (- (1 / 3)) 0); [lra|]. cbn [negb andb].
  assert (U : undistorted_root (- (1 / 3)) (2 / 3) = - (2)).
  { unfold undistorted_root. cbv zeta.
    replace (1 / (3 * - (1 / 3))) with (- (1)) by field. replace (2 / 3 / (2 * - (1 / 3))) with (- (1)) by field.
    replace (- (1) * - (1) * - (1) + - (1) * - (1)) with 0 by ring.
    destruct (Rleb_spec 0 0); [|lra]. rewrite sqrt_0, Rplus_0_r, Rminus_0_r.
    assert (C : cbrt (- (1)) = - (1)).
    { apply cube_inj. rewrite cbrt_cube by lra. ring. }
    rewrite C. ring. }
  rewrite U. f_equal; field.
Qed.

Lemma unpcd_least_refuted : ~ (forall k x y : R, forall p, distort k p = (x, y) ->
  distance (unpcd (N := RNum) k x y) (x, y) <= distance p (x, y)).
Proof.
  intros H. destruct unpcd_critical as [A B]. specialize (H (- (1 / 3)) (2 / 3) 0 (1, 0) B).
  rewrite A in H. unfold distance in H. cbn [fst snd] in H.
  apply sqrt_le_0 in H; lra.
Qed.

(** ** Air mass *)
Definition hardie (s : R) : R := 1 + s * (0.9981833 - s * (0.002875 + 0.0008083 * s)).
Definition clamp_z (z : R) : R := Rmin 1.52 (Rabs z).

Lemma airmas_eq (z : R) : airmas (N := RNum) z = hardie (1 / cos (clamp_z z) - 1).
Proof.
  unfold airmas, hardie. cbv zeta. unR.
  assert (E : (if Rltb (Rabs z) (Rdec 152 (-2)) then Rabs z else Rdec 152 (-2)) = clamp_z z).
  { unfold clamp_z, Rmin. replace (Rdec 152 (-2)) with 1.52 by (decs; field).
    destruct (Rltb_spec (Rabs z) 1.52); destruct (Rle_dec 1.52 (Rabs z)); try reflexivity; lra. }
  rewrite E. generalize (1 / cos (clamp_z z) - 1). intros s. decs. field.
Qed.

Lemma cos_152 : 0.0507 < cos 1.52.
Proof.
  assert (E : cos 1.52 = sin (PI / 2 - 1.52)) by (rewrite <- cos_shift; f_equal; field).
  pose proof PI_bounds as P.
  assert (L : sin 0.0507963 <= sin (PI / 2 - 1.52)).
  { apply sin_incr_1; lra. }
  destruct (sin_bound 0.0507963 0) as [A _]; [lra|lra|].
  unfold sin_approx, sin_term in A. cbn -[Rmult Rplus Rdiv Rinv] in A. rewrite E. lra.
Qed.

Lemma cos_clamp z : 0.0507 < cos (clamp_z z) <= 1.
Proof.
  split; [|apply COS_bound]. apply Rlt_le_trans with (1 := cos_152). pose proof PI_bounds.
  unfold clamp_z. apply cos_decr_1; try lra; unfold Rmin; destruct (Rle_dec 1.52 (Rabs z)); try lra.
  - pose proof (Rabs_pos z). lra.
Qed.

Lemma sec_clamp z : 0 <= 1 / cos (clamp_z z) - 1 <= 18.73.
Proof.
  destruct (cos_clamp z) as [A B]. split.
  - assert (1 <= 1 / cos (clamp_z z)); [|lra]. apply (Rmult_le_reg_r (cos (clamp_z z))); [lra|]. field_simplify; lra.
  - assert (1 / cos (clamp_z z) <= 19.73); [|lra]. apply (Rmult_le_reg_r (cos (clamp_z z))); [lra|]. field_simplify; lra.
Qed.

Lemma hardie_mono s t : 0 <= s -> s < t -> t <= 18.73 -> hardie s < hardie t.
Proof.
  intros. unfold hardie.
  assert (0 < (t - s) * (0.9981833 - 0.002875 * (s + t) - 0.0008083 * (s * s + s * t + t * t))).
  { apply Rmult_lt_0_compat; [lra|]. nra. }
  lra.
Qed.

Lemma airmas_facts :
  (forall z, airmas (N := RNum) (- z) = airmas (N := RNum) z) /\ airmas (N := RNum) 0 = 1 /\
  (forall z w, Rabs z <= Rabs w -> airmas (N := RNum) z <= airmas (N := RNum) w) /\
  (forall z w, Rabs z < Rabs w <= 1.52 -> airmas (N := RNum) z < airmas (N := RNum) w) /\
  (forall z, 1.52 <= Rabs z -> airmas (N := RNum) z = airmas (N := RNum) 1.52) /\
  (forall z, Rabs z <= 1.52 -> 1 <= airmas (N := RNum) z <= 1 / cos z) /\
  (forall z, 1 <= airmas (N := RNum) z <= 13.4).
Proof.
  assert (R52 : Rabs 1.52 = 1.52) by (apply Rabs_right; lra).
  assert (ST : forall z w, Rabs z < Rabs w <= 1.52 -> airmas (N := RNum) z < airmas (N := RNum) w).
  { intros z w H. rewrite !airmas_eq. apply hardie_mono; [apply sec_clamp| |apply sec_clamp].
    pose proof PI_bounds. destruct (cos_clamp z) as [A _]. destruct (cos_clamp w) as [B _].
    apply Rplus_lt_compat_r. unfold Rdiv. rewrite !Rmult_1_l. apply Rinv_lt_contravar; [nra|].
    unfold clamp_z. rewrite !Rmin_right by lra. pose proof (Rabs_pos z). apply cos_decreasing_1; lra. }
  assert (CL : forall z, 1.52 <= Rabs z -> airmas (N := RNum) z = airmas (N := RNum) 1.52).
  { intros z H. rewrite !airmas_eq. unfold clamp_z. rewrite R52. rewrite !Rmin_left by lra. reflexivity. }
  assert (MO : forall z w, Rabs z <= Rabs w -> airmas (N := RNum) z <= airmas (N := RNum) w).
  { intros z w H. destruct (Rle_dec 1.52 (Rabs z)) as [G|G].
    - rewrite (CL z G), (CL w) by lra. lra.
    - destruct (Rle_dec (Rabs w) 1.52) as [K|K].
      + destruct H as [H|H]; [apply Rlt_le, ST; lra|]. rewrite !airmas_eq. unfold clamp_z. rewrite H. lra.
      + rewrite (CL w) by lra. apply Rlt_le, ST. rewrite R52. lra. }
  assert (A0 : airmas (N := RNum) 0 = 1).
  { rewrite airmas_eq. unfold clamp_z. rewrite Rabs_R0, Rmin_right by lra. rewrite cos_0. unfold hardie. asR. field. }
  assert (LB : forall z, 1 <= airmas (N := RNum) z).
  { intros z. rewrite <- A0. apply MO. rewrite Rabs_R0. apply Rabs_pos. }
  split; [|split; [exact A0|split; [exact MO|split; [exact ST|split; [exact CL|split]]]]].
  - intros z. rewrite !airmas_eq. unfold clamp_z. rewrite Rabs_Ropp. reflexivity.
  - intros z H. split; [apply LB|]. rewrite airmas_eq.
    assert (C : cos (clamp_z z) = cos z).
    { unfold clamp_z. rewrite Rmin_right by lra. unfold Rabs. destruct (Rcase_abs z); [apply cos_neg|reflexivity]. }
    pose proof (sec_clamp z) as S. rewrite C in *. set (s := 1 / cos z - 1) in *.
    replace (1 / cos z) with (1 + s) by (unfold s; ring). unfold hardie.
    assert (0 <= s * (0.0018167 + s * (0.002875 + 0.0008083 * s))) by (apply Rmult_le_pos; [lra|]; assert (0 <= s * (0.002875 + 0.0008083 * s)) by (apply Rmult_le_pos; lra); lra).
    lra.
  - intros z. split; [apply LB|]. rewrite airmas_eq. destruct (sec_clamp z) as [S1 S2].
    apply Rle_trans with (hardie 18.73).
    + destruct S2 as [S2|S2]; [apply Rlt_le, hardie_mono; lra|]. rewrite S2. lra.
    + unfold hardie. lra.
Qed.

(** ** Forms used in the theorems *)
Lemma dcmpf_recompose_inv (m : coeffs R) : (exists i, invf (N := RNum) m = Some i) ->
  let r := dcmpf (N := RNum) m in
  forall p, step_orient (dc_orient r) (step_perp (dc_perp r)
    (step_scale (dc_xs r) (dc_ys r) (step_zero (dc_xz r) (dc_yz r) p))) = linear_map m p.
Proof.
  intros [i E]. apply dcmpf_recompose. intros D. rewrite invf_eq in E. cbv zeta in E.
  destruct (Reqb_spec (fc_b m * fc_f m - fc_c m * fc_e m) 0); [discriminate|contradiction].
Qed.

Lemma dcmpf_linear_part (m : coeffs R) : (fc_b m <> 0 \/ fc_e m <> 0) -> (fc_c m <> 0 \/ fc_f m <> 0) ->
  let r := dcmpf (N := RNum) m in
  - (PI / 2) <= dc_perp r <= PI / 2 /\ - PI < dc_orient r <= PI /\
  dc_ys r = sqrt (fc_c m ^ 2 + fc_f m ^ 2) /\
  dc_xs r = (if Rle_dec 0 (fc_b m * fc_f m - fc_c m * fc_e m) then 1 else - (1)) * sqrt (fc_b m ^ 2 + fc_e m ^ 2) /\
  forall x y, step_orient (dc_orient r) (step_perp (dc_perp r) (step_scale (dc_xs r) (dc_ys r) (x, y)))
    = (fc_b m * x + fc_c m * y, fc_e m * x + fc_f m * y).
Proof.
  intros Hb Hc r. destruct (dcmpf_linear m Hb Hc) as (A & O & SY & SX & _ & C1 & C2 & C3 & C4).
  fold r in A, O, SY, SX, C1, C2, C3, C4.
  split; [exact A|]. split; [exact O|]. split; [exact SY|]. split; [exact SX|].
  intros x y. rewrite cos_minus in C1. rewrite sin_minus in C2. rewrite sin_plus in C3. rewrite cos_plus in C4.
  unfold step_orient, step_perp, step_scale. rewrite <- C1, <- C2, <- C3, <- C4. f_equal; asR; ring.
Qed.

Lemma pxy_loop_bounds (model : coeffs R) : forall k i (expected measured predicted : list (RNum * RNum)) (sx sy : RNum),
  (i <= length expected)%nat -> (i <= length measured)%nat ->
  (length expected < i + k \/ length measured < i + k)%nat ->
  pxy_loop (N := RNum) k i expected measured model predicted sx sy = None.
Proof.
  induction k as [|k IH]; intros i ex me pr sx sy He Hm H; [lia|]. cbn [pxy_loop].
  destruct (nth_error ex i) as [[e1 e2]|] eqn:E; [|reflexivity].
  destruct (nth_error me i) as [[m1 m2]|] eqn:M; [|reflexivity].
  assert (i < length ex)%nat by (apply nth_error_Some; congruence).
  assert (i < length me)%nat by (apply nth_error_Some; congruence).
  destruct (xy2xy m1 m2 model) as [px py]. apply IH; lia.
Qed.

Lemma pxy_bounds (n : Z) (expected measured : list point) (model : coeffs R) :
  (length expected < Z.to_nat n \/ length measured < Z.to_nat n)%nat ->
  pxy (N := RNum) n expected measured model = None.
Proof.
  intros H. unfold pxy. rewrite pxy_loop_bounds; [reflexivity|apply Nat.le_0_l|apply Nat.le_0_l|exact H].
Qed.

Lemma residuals_zero (f g : point -> R) : forall ps es : list point, length ps = length es ->
  (Forall (fun x => x = 0) (map (fun q => f (fst q) - g (snd q)) (combine ps es)) <-> map f ps = map g es).
Proof.
  induction ps as [|p ps IH]; intros [|e es] L; cbn [combine map fst snd length] in *; try discriminate.
  - split; constructor.
  - injection L as L. split.
    + intros H. inversion H as [|? ? A B]; subst. apply IH in B; [|exact L]. f_equal; [lra|exact B].
    + intros H. injection H as A B. constructor; [lra|]. apply IH; assumption.
Qed.

Lemma points_eq : forall ps es : list point, map fst ps = map fst es -> map snd ps = map snd es -> ps = es.
Proof.
  induction ps as [|[a b] ps IH]; intros [|[c d] es] A B; cbn [map fst snd] in *; try discriminate; [reflexivity|].
  injection A as -> A. injection B as -> B. f_equal. apply IH; assumption.
Qed.

Lemma pxy_zero (n : Z) (expected measured : list point) (model : coeffs R) ps x_rms y_rms rms :
  length expected = Z.to_nat n -> length measured = Z.to_nat n ->
  pxy (N := RNum) n expected measured model = Some (ps, x_rms, y_rms, rms) ->
  (rms = 0 <-> map (linear_map model) measured = expected).
Proof.
  intros Le Lm H.
  destruct (pxy_spec n expected measured model) as (xr & yr & rr & E & N0 & N1 & T); [lia|lia|].
  rewrite <- Le in E at 1. rewrite H in E. injection E as _ -> -> ->.
  rewrite <- Le, firstn_all in N1. rewrite Le, <- Lm, firstn_all in N1.
  destruct (Z_le_gt_dec n 0) as [Hn|Hn].
  - destruct (N0 Hn) as (_ & _ & ->). replace (Z.to_nat n) with O in * by lia.
    apply length_zero_iff_nil in Le. apply length_zero_iff_nil in Lm. subst. cbn. tauto.
  - destruct N1 as [X Y]; [lia|]. rewrite T.
    assert (Q : sqrt (xr ^ 2 + yr ^ 2) = 0 <-> xr = 0 /\ yr = 0).
    { split.
      - intros S. apply sqrt_eq_0 in S; [|pose proof (pow2_ge_0 xr); pose proof (pow2_ge_0 yr); lra].
        pose proof (pow2_ge_0 xr). pose proof (pow2_ge_0 yr). split; nra.
      - intros [-> ->]. replace (0 ^ 2 + 0 ^ 2) with 0 by ring. apply sqrt_0. }
    rewrite Q, X, Y, !rms_of_0.
    rewrite !(residuals_zero fst fst), !(residuals_zero snd snd) by (rewrite map_length; lia).
    split.
    + intros [A B]. apply points_eq; assumption.
    + intros ->. split; reflexivity.
Qed.

Lemma pxy_example : exists ps, pxy (N := RNum) 2 [(4, 0); (0, 0)] [(1, 0); (0, 0)] (Coeffs 0 1 0 0 0 1)
  = Some (ps, sqrt (9 / 2), 0, sqrt (9 / 2)).
Proof.
  destruct (pxy_spec 2 [(4, 0); (0, 0)] [(1, 0); (0, 0)] (Coeffs 0 1 0 0 0 1)) as (xr & yr & rr & E & _ & N1 & T);
    [cbn; lia|cbn; lia|].
  destruct N1 as [X Y]; [lia|]. eexists. rewrite E.
  change (Z.to_nat 2) with 2%nat in *. unfold rms_of, mean in X, Y. cbn -[Rmult Rplus Rminus Rdiv IZR] in X, Y.
  assert (X' : xr = sqrt (9 / 2)).
  { rewrite X. f_equal. replace (1 + 1) with 2 by ring. field. }
  assert (Y' : yr = 0).
  { rewrite Y. transitivity (sqrt 0); [f_equal; field|apply sqrt_0]. }
  rewrite T, X', Y'. replace (sqrt (9 / 2) ^ 2 + 0 ^ 2) with (9 / 2) by (replace (sqrt (9 / 2) ^ 2) with (sqrt (9 / 2) * sqrt (9 / 2)) by ring; rewrite sqrt_def; lra).
  reflexivity.
Qed.

Lemma distort_example : distort (- (1 / 3)) (1 / 2, 1 / 2) = (5 / 12, 5 / 12).
Proof. unfold distort. f_equal; field. Qed.

Lemma airmas_hardie z : Rabs z <= 1.52 -> let s := 1 / cos z - 1 in
  airmas (N := RNum) z = 1 + 0.9981833 * s - 0.002875 * s ^ 2 - 0.0008083 * s ^ 3.
Proof.
  intros H s. rewrite airmas_eq.
  assert (C : cos (clamp_z z) = cos z).
  { unfold clamp_z. rewrite Rmin_right by lra. unfold Rabs. destruct (Rcase_abs z); [apply cos_neg|reflexivity]. }
  rewrite C. fold s. unfold hardie. asR. ring.
Qed.

Lemma airmas_example : Rabs (PI / 3) <= 1.52 /\ airmas (N := RNum) (PI / 3) = 1.9945.
Proof.
  pose proof PI_bounds. assert (A : Rabs (PI / 3) <= 1.52) by (rewrite Rabs_right; lra).
  split; [exact A|]. rewrite airmas_hardie by exact A. cbv zeta. rewrite cos_PI3.
  replace (1 / (1 / 2) - 1) with 1 by field. asR. lra.
Qed.
