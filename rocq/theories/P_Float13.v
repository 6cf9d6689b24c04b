(** Property theorems over IEEE binary64: the residuals of a plate fit,
    the inversion of a plate model, and spherical coordinates with their rates
    from position and velocity.  Proofs are in L_FloatPxy, L_FloatInv and L_FloatPs; specifications in S_Plate and S_FloatPlate. *)
From Coq Require Import ZArith Reals List Lra.
From Flocq Require Import Core BinarySingleNaN.
From Verif Require Import Num NumB NumR M_Vec M_Plate S_Geom S_Frame S_Plate L_Real L_Plate S_Binary S_Float S_FloatPlate L_Bin L_Float L_FloatVec L_FloatPxy L_FloatInv L_FloatLibm L_FloatPs.
Import ListNotations.
Open Scope R_scope.

(** ** C42: predicted points and root mean squares in double precision, for
    any number of samples up to a million.  [G] bounds the terms that make up
    each residual. *)
Theorem C42_pxy_binary : forall lm (m : coeffs double) c expected measured es ms G, coeffs64 m c -> coeffs_within 1e50 c -> points64 expected es -> points64 measured ms ->
  sample_size c G es ms -> G <= 1e40 -> (1 <= length es)%nat -> INR (length es) <= 1e6 ->
  let n := INR (length es) in
  let ps := map (linear_map c) ms in
  let dx := map (fun q => fst (fst q) - fst (snd q)) (combine ps es) in
  let dy := map (fun q => snd (fst q) - snd (snd q)) (combine ps es) in
  exists pred (xr yr tr : double) x y t, pxy (N := B64 lm) (Z.of_nat (length es)) expected measured m = Some (pred, xr, yr, tr) /\
    points_near (3.03 * u64 * G + 1e-240) pred ps /\
    value64 xr x /\ Rabs (x - rms_of dx) <= (1.02 * n + 8) * u64 * G + 1e-145 /\
    value64 yr y /\ Rabs (y - rms_of dy) <= (1.02 * n + 8) * u64 * G + 1e-145 /\
    value64 tr t /\ Rabs (t - sqrt (rms_of dx ^ 2 + rms_of dy ^ 2)) <= (2.04 * n + 22) * u64 * G + 1e-144.
Proof. exact pxy64. Qed.
Print Assumptions C42_pxy_binary.

(** Two samples, the identity model, one sample 3 units off in x. *)
Example C42_binary_case : let z := BofZ 53 1024 0 in let o := BofZ 53 1024 1 in let c := Coeffs 0 1 0 0 0 1 in
  coeffs64 (Coeffs z o z z z o) c /\ coeffs_within 1e50 c /\ points64 [(BofZ 53 1024 4, z); (z, z)] [(4, 0); (0, 0)] /\ points64 [(o, z); (z, z)] [(1, 0); (0, 0)] /\
  sample_size c 5 [(4, 0); (0, 0)] [(1, 0); (0, 0)] /\ map (fun q => fst (fst q) - fst (snd q)) (combine (map (linear_map c) [(1, 0); (0, 0)]) [(4, 0); (0, 0)]) = [-3; 0].
Proof.
  cbv zeta. assert (Z : value64 (BofZ 53 1024 0) 0) by (apply (fin_ofZ 53 1024 0); reflexivity). assert (O : value64 (BofZ 53 1024 1) 1) by (apply (fin_ofZ 53 1024 1); reflexivity).
  assert (F : value64 (BofZ 53 1024 4) 4) by (apply (fin_ofZ 53 1024 4); reflexivity).
  split; [unfold coeffs64; cbn [fc_a fc_b fc_c fc_d fc_e fc_f]; auto 10|].
  split; [unfold coeffs_within; cbn [fc_a fc_b fc_c fc_d fc_e fc_f]; rewrite Rabs_R1, Rabs_R0; lra|].
  split; [constructor; [split; assumption|constructor; [split; assumption|constructor]]|]. split; [constructor; [split; assumption|constructor; [split; assumption|constructor]]|].
  split.
  - unfold sample_size. cbn [fc_a fc_b fc_c fc_d fc_e fc_f]. constructor; [|constructor; [|constructor]]; cbn [fst snd]; rewrite ?Rmult_0_l, ?Rmult_0_r, ?Rmult_1_l, ?Rabs_R0, ?Rabs_R1, ?(Rabs_pos_eq 4) by lra; lra.
  - cbn [map combine linear_map fst snd fc_a fc_b fc_c fc_d fc_e fc_f]. f_equal; [lra|]. f_equal. lra.
Qed.

(** ** C41: inverting a model in double precision.  [K] bounds how much the two
    products of the determinant cancel; [w] is the exact inverse model. *)
Theorem C41_invf_binary : forall lm (m : coeffs double) c K w, coeffs64 m c -> coeffs_within 1e20 c -> invf (N := RNum) c = Some w ->
  let D := Rabs (fc_b c * fc_f c - fc_c c * fc_e c) in
  1e-20 <= D -> Rabs (fc_b c * fc_f c) + Rabs (fc_c c * fc_e c) <= K * D -> K <= 1e6 ->
  exists i j, invf (N := B64 lm) m = Some i /\ coeffs64 i j /\
    Rabs (fc_b j - fc_b w) <= (2.1 * K + 1.1) * u64 * Rabs (fc_b w) + 1e-200 /\ Rabs (fc_c j - fc_c w) <= (2.1 * K + 1.1) * u64 * Rabs (fc_c w) + 1e-200 /\
    Rabs (fc_e j - fc_e w) <= (2.1 * K + 1.1) * u64 * Rabs (fc_e w) + 1e-200 /\ Rabs (fc_f j - fc_f w) <= (2.1 * K + 1.1) * u64 * Rabs (fc_f w) + 1e-200 /\
    Rabs (fc_a j - fc_a w) <= (2.1 * K + 3.1) * u64 * ((Rabs (fc_c c * fc_d c) + Rabs (fc_a c * fc_f c)) / D) + 1e-200 /\
    Rabs (fc_d j - fc_d w) <= (2.1 * K + 3.1) * u64 * ((Rabs (fc_a c * fc_e c) + Rabs (fc_b c * fc_d c)) / D) + 1e-200.
Proof. exact invf64. Qed.
Print Assumptions C41_invf_binary.

Example C41_invf_binary_case : let i k := BofZ 53 1024 k in let c := Coeffs 3 1 2 5 3 4 in
  coeffs64 (Coeffs (i 3%Z) (i 1%Z) (i 2%Z) (i 5%Z) (i 3%Z) (i 4%Z)) c /\ coeffs_within 1e20 c /\
  (exists w, invf (N := RNum) c = Some w /\ fc_b w = -2) /\
  Rabs (fc_b c * fc_f c - fc_c c * fc_e c) = 2 /\ Rabs (fc_b c * fc_f c) + Rabs (fc_c c * fc_e c) <= 5 * Rabs (fc_b c * fc_f c - fc_c c * fc_e c).
Proof.
  cbv zeta. assert (V : forall z, (Z.abs z < 2 ^ 53)%Z -> value64 (BofZ 53 1024 z) (IZR z)) by (intros z Hz; now apply (fin_ofZ 53 1024)).
  split; [unfold coeffs64; cbn [fc_a fc_b fc_c fc_d fc_e fc_f]; repeat split; apply V; reflexivity|].
  split; [unfold coeffs_within; cbn [fc_a fc_b fc_c fc_d fc_e fc_f]; rewrite !Rabs_pos_eq by lra; lra|].
  cbn [fc_a fc_b fc_c fc_d fc_e fc_f].
  assert (D : Rabs (1 * 4 - 2 * 3) = 2) by (rewrite Rabs_left; lra). rewrite D.
  split; [|split; [reflexivity|rewrite !Rabs_pos_eq by lra; lra]].
  rewrite invf_eq. cbv zeta. cbn [fc_a fc_b fc_c fc_d fc_e fc_f]. destruct (Reqb_spec (1 * 4 - 2 * 3) 0) as [H|H]; [lra|]. eexists. split; [reflexivity|]. cbn [fc_b]. field_simplify; lra.
Qed.

(** ** C21: spherical coordinates and rates from position and velocity, away
    from the polar axis.  The direction and the distance are accurate in
    relative terms; each rate is accurate relative to the terms it is made of. *)
Theorem C21_dc62s_binary : forall lm k (c : vecpv (B64 lm)) x y z xd yd zd, libm_ok lm k -> vec64 (pos c) (V3 x y z) -> vec64 (velo c) (V3 xd yd zd) ->
  within 1e12 (V3 x y z) -> within 1e12 (V3 xd yd zd) -> 1e-18 <= x ^ 2 + y ^ 2 ->
  let s := dc62s (N := B64 lm) c in
  let e := dc62s (N := RNum) (VPV (N := RNum) (V3 x y z) (V3 xd yd zd)) in
  exists t b r t' b' r', value64 (lon s) t /\ value64 (lat s) b /\ value64 (dist s) r /\ value64 (dlon s) t' /\ value64 (dlat s) b' /\ value64 (ddist s) r' /\
    norm (vsub (direction t b) (unit_of (V3 x y z))) <= 6 * k + 2.6 * u64 /\
    Rabs (r - norm (V3 x y z)) <= 2.6 * u64 * norm (V3 x y z) /\
    Rabs (t' - dlon e) <= 5.2 * u64 * ((Rabs (x * yd) + Rabs (y * xd)) / (x ^ 2 + y ^ 2)) + 1e-100 /\
    Rabs (b' - dlat e) <= 12 * u64 * ((Rabs zd * (x ^ 2 + y ^ 2) + Rabs z * (Rabs (x * xd) + Rabs (y * yd))) / ((x ^ 2 + y ^ 2 + z ^ 2) * sqrt (x ^ 2 + y ^ 2))) + 1e-100 /\
    Rabs (r' - ddist e) <= 6.9 * u64 * ((Rabs (x * xd) + Rabs (y * yd) + Rabs (z * zd)) / norm (V3 x y z)) + 1e-100.
Proof. exact dc62s64. Qed.
Print Assumptions C21_dc62s_binary.

Example C21_dc62s_binary_case : let i k := BofZ 53 1024 k in let c := VPV (N := B64 ideal_libm) (V3 (i 3%Z) (i 4%Z) (i 12%Z)) (V3 (i 1%Z) (i 2%Z) (i (-3)%Z)) in
  libm_ok ideal_libm (2 * u64) /\ vec64 (pos c) (V3 3 4 12) /\ vec64 (velo c) (V3 1 2 (-3)) /\ within 1e12 (V3 3 4 12) /\ within 1e12 (V3 1 2 (-3)) /\ 1e-18 <= 3 ^ 2 + 4 ^ 2.
Proof.
  cbv zeta. assert (V : forall z, (Z.abs z < 2 ^ 53)%Z -> value64 (BofZ 53 1024 z) (IZR z)) by (intros z Hz; now apply (fin_ofZ 53 1024)).
  split; [exact ideal_libm_ok|]. unfold vec64, within. cbn [pos velo v0 v1 v2].
  split; [split; [|split]; apply V; reflexivity|]. split; [split; [|split]; apply V; reflexivity|].
  rewrite (Rabs_left (-3)), !Rabs_pos_eq by lra. lra.
Qed.
