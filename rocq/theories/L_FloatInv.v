(** Inverting a plate model in binary64. *)
From Coq Require Import ZArith Reals Bool List Lia Lra Psatz.
From Flocq Require Import Core BinarySingleNaN.
From Verif Require Import Num NumB NumR M_Plate S_Plate S_Binary S_Float S_FloatPlate L_Real L_Bin L_Flt L_FltVec L_Float L_FloatVec L_FloatMat L_FloatSph L_FloatPol L_FltRel L_FloatPv.
Open Scope R_scope.

Lemma nr_div lm x y a M c h d D e : nr x a M c h -> value64 y d -> Rabs (d - D) <= e * Rabs D -> 0 <= c <= 50 -> 0 <= h <= 1e-100 -> 0 <= e <= 1e-9 -> 1e-40 <= Rabs D -> M <= 1e100 ->
  exists r, value64 (n_div (n := B64 lm) x y) r /\ Rabs (r - a / D) <= ((1.01 * c + 1.01) * u64 + 1.001 * e) * (M / Rabs D) + 1e41 * h + 1e-300.
Proof.
  intros [(r & FX & EX) A] FY ED C H E DB MB. pose proof (Rabs_pos a) as A0. assert (D0 : 0 < Rabs D) by lra.
  assert (DN : D <> 0) by (intros ->; rewrite Rabs_R0 in D0; lra).
  pose proof u64_num as UN. assert (U : 0 <= u64 <= 1.2e-16) by (rewrite UN; lra). clear UN.
  assert (LD : 0.999999 * Rabs D <= Rabs d). { assert (e * Rabs D <= 1e-9 * Rabs D) by (apply Rmult_le_compat_r; lra). pose proof (Rabs_triang_inv D (D - d)) as T. replace (D - (D - d)) with d in T by ring. rewrite (Rabs_minus_sym D d) in T. lra. }
  assert (d0 : 0 < Rabs d) by lra. assert (dN : d <> 0) by (intros ->; rewrite Rabs_R0 in d0; lra).
  set (g := c * u64 * M + h) in *. assert (CU : 0 <= c * u64 <= 1e-14) by (split; [apply Rmult_le_pos; lra|apply Rle_trans with (50 * 1.2e-16); [apply Rmult_le_compat; lra|lra]]).
  assert (CM : 0 <= c * u64 * M) by (apply Rmult_le_pos; lra). assert (G0 : 0 <= g) by (unfold g; lra).
  set (Q := M / Rabs D). assert (ID : 0 < / Rabs D) by now apply Rinv_0_lt_compat.
  assert (IB : / Rabs D <= 1e40) by (apply Rle_trans with (/ 1e-40); [apply Rinv_le_contravar; lra|lra]).
  assert (Q0 : 0 <= Q) by (apply Rmult_le_pos; lra).
  assert (Id : / Rabs d <= 1.00001 * / Rabs D).
  { apply Rmult_le_reg_r with (Rabs d); [exact d0|]. rewrite Rinv_l by lra. apply Rle_trans with (1.00001 * / Rabs D * (0.999999 * Rabs D)); [|apply Rmult_le_compat_l; lra].
    replace (1.00001 * / Rabs D * (0.999999 * Rabs D)) with (1.00001 * 0.999999 * (/ Rabs D * Rabs D)) by ring. rewrite Rinv_l by lra. lra. }
  assert (id0 : 0 < / Rabs d) by now apply Rinv_0_lt_compat.
  set (w := r / d). set (P := (c * u64 + e) * Q + h * / Rabs D). assert (HD : 0 <= h * / Rabs D <= 1e40 * h) by (split; [apply Rmult_le_pos; lra|rewrite Rmult_comm; apply Rmult_le_compat_r; lra]).
  assert (EQ : 0 <= (c * u64 + e) * Q <= 1e-8 * Q) by (split; [apply Rmult_le_pos; lra|apply Rmult_le_compat_r; lra]).
  assert (W : Rabs (w - a / D) <= 1.00001 * P).
  { unfold w. replace (r / d - a / D) with (((r - a) + a * (D - d) * / D) * / d) by (field; auto). rewrite Rabs_mult, (Rabs_inv d).
    assert (T : Rabs ((r - a) + a * (D - d) * / D) <= g + M * e).
    { eapply Rle_trans; [apply Rabs_triang|]. apply Rplus_le_compat; [exact EX|]. rewrite !Rabs_mult, (Rabs_inv D), (Rabs_minus_sym D d), Rmult_assoc.
      apply Rmult_le_compat; [lra|apply Rmult_le_pos; [apply Rabs_pos|lra]|exact A|]. apply Rle_trans with (e * Rabs D * / Rabs D); [apply Rmult_le_compat_r; lra|]. rewrite Rmult_assoc, Rinv_r by lra. lra. }
    apply Rle_trans with ((g + M * e) * (1.00001 * / Rabs D)); [apply Rmult_le_compat; try lra; apply Rabs_pos|]. right. unfold P, g, Q, Rdiv. ring. }
  assert (AQ : Rabs (a / D) <= Q) by (unfold Q, Rdiv; rewrite Rabs_mult, Rabs_inv; apply Rmult_le_compat_r; lra).
  assert (WB : Rabs w <= Q + 1.00001 * P) by (replace w with ((w - a / D) + a / D) by ring; eapply Rle_trans; [apply Rabs_triang|lra]).
  pose proof eta300 as ET. pose proof (eta_pos 53 1024) as EP. pose proof room64 as HH.
  assert (HG : 1e145 <= huge 1024). { pose proof g150 as G1. assert (1e145 <= 1e150) by lra. set (k := 1e150) in *. clearbody k. assert (k <= k * k) by nra. lra. }
  assert (QB : Q <= 1e140) by (unfold Q, Rdiv; apply Rle_trans with (1e100 * 1e40); [apply Rmult_le_compat; lra|lra]).
  assert (PB : P <= 1e-8 * Q + 1e40 * h) by (unfold P; lra).
  destruct (near_div0 53 1024 x y r d (Q + 1.00001 * P) FX FY dN WB ltac:(lra)) as (v & FV & EV). fold w in EV. rewrite u64_eq in EV.
  exists v. split; [exact FV|]. replace (v - a / D) with ((v - w) + (w - a / D)) by ring. eapply Rle_trans; [apply Rabs_triang|].
  assert (UQ : u64 * (Q + 1.00001 * P) <= 1.001 * (u64 * Q) + 1e30 * h).
  { apply Rle_trans with (u64 * (1.001 * Q + 1.1e40 * h)); [apply Rmult_le_compat_l; lra|]. rewrite Rmult_plus_distr_l. assert (u64 * (1.1e40 * h) <= 1.2e-16 * (1.1e40 * h)) by (apply Rmult_le_compat_r; lra). lra. }
  assert (uQ : 0 <= u64 * Q) by (apply Rmult_le_pos; lra). assert (cQ : 0 <= c * u64 * Q) by (apply Rmult_le_pos; lra). assert (eQ : 0 <= e * Q) by (apply Rmult_le_pos; lra).
  replace (((1.01 * c + 1.01) * u64 + 1.001 * e) * Q) with (1.01 * (c * u64 * Q) + 1.01 * (u64 * Q) + 1.001 * (e * Q)) by ring.
  unfold P in *. replace ((c * u64 + e) * Q) with (c * u64 * Q + e * Q) in * by ring. lra.
Qed.

Lemma det64 lm (x1 x2 x3 x4 : double) a b c d t : value64 x1 a -> value64 x2 b -> value64 x3 c -> value64 x4 d ->
  Rabs a <= t -> Rabs b <= t -> Rabs c <= t -> Rabs d <= t -> t <= 1e40 ->
  nr (n_sub (n := B64 lm) (n_mul (n := B64 lm) x1 x2) (n_mul (n := B64 lm) x3 x4)) (a * b - c * d) (Rabs (a * b) + Rabs (c * d)) 2.02 1e-245.
Proof.
  intros A B C D HA HB HC HD T.
  assert (PR : forall p q, Rabs p <= t -> Rabs q <= t -> Rabs p * Rabs q <= 1e80) by (intros p q H1 H2; pose proof (Rabs_pos p); pose proof (Rabs_pos q); apply Rle_trans with (1e40 * 1e40); [apply Rmult_le_compat; lra|lra]).
  pose proof (nr_mul' lm _ _ _ _ _ _ _ _ _ (nr300 _ _ A) (nr300 _ _ B) ltac:(lra) ltac:(lra) ltac:(lra) ltac:(lra) ltac:(lra)) as M1.
  pose proof (nr_mul' lm _ _ _ _ _ _ _ _ _ (nr300 _ _ C) (nr300 _ _ D) ltac:(lra) ltac:(lra) ltac:(lra) ltac:(lra) ltac:(lra)) as M2.
  rewrite !Rabs_mult. pose proof (PR a b HA HB) as P1. pose proof (PR c d HC HD) as P2.
  eapply nr_weak; [apply (nr_sub' lm _ _ _ _ _ _ _ _ 1.01 _ M1 M2); lra|lra|lra].
Qed.

Lemma invf64 lm (m : coeffs double) c K w : coeffs64 m c -> coeffs_within 1e20 c -> invf (N := RNum) c = Some w ->
  let D := Rabs (fc_b c * fc_f c - fc_c c * fc_e c) in
  1e-20 <= D -> Rabs (fc_b c * fc_f c) + Rabs (fc_c c * fc_e c) <= K * D -> K <= 1e6 ->
  exists i j, invf (N := B64 lm) m = Some i /\ coeffs64 i j /\
    Rabs (fc_b j - fc_b w) <= (2.1 * K + 1.1) * u64 * Rabs (fc_b w) + 1e-200 /\ Rabs (fc_c j - fc_c w) <= (2.1 * K + 1.1) * u64 * Rabs (fc_c w) + 1e-200 /\
    Rabs (fc_e j - fc_e w) <= (2.1 * K + 1.1) * u64 * Rabs (fc_e w) + 1e-200 /\ Rabs (fc_f j - fc_f w) <= (2.1 * K + 1.1) * u64 * Rabs (fc_f w) + 1e-200 /\
    Rabs (fc_a j - fc_a w) <= (2.1 * K + 3.1) * u64 * ((Rabs (fc_c c * fc_d c) + Rabs (fc_a c * fc_f c)) / D) + 1e-200 /\
    Rabs (fc_d j - fc_d w) <= (2.1 * K + 3.1) * u64 * ((Rabs (fc_a c * fc_e c) + Rabs (fc_b c * fc_d c)) / D) + 1e-200.
Proof.
  intros (A & B & C & DD & E & F) (HA & HB & HC & HD & HE & HF) IW D D1 KS K1. destruct m as [xa xb xc xd xe xf], c as [a b c d e f]. cbn [fc_a fc_b fc_c fc_d fc_e fc_f] in *.
  pose proof u64_num as UN. assert (U : 1e-17 <= u64 <= 1.2e-16) by (rewrite UN; lra). clear UN.
  destruct (det64 lm _ _ _ _ _ _ _ _ 1e20 B F C E HB HF HC HE ltac:(lra)) as [(v & FV & EV) DM]. fold D in DM.
  assert (D0 : 0 < D) by lra. assert (K0 : 1 <= K) by (apply Rmult_le_reg_r with D; lra).
  set (eps := 2.05 * K * u64). assert (KU : 0 <= K * u64 <= 1.2e-10) by (split; [apply Rmult_le_pos; lra|apply Rle_trans with (1e6 * 1.2e-16); [apply Rmult_le_compat; lra|lra]]).
  assert (EB : 0 <= eps <= 1e-9) by (unfold eps; lra).
  assert (KU1 : 1e-17 <= K * u64) by (apply Rle_trans with (1 * 1e-17); [lra|apply Rmult_le_compat; lra]).
  assert (EV' : Rabs (v - (b * f - c * e)) <= eps * Rabs (b * f - c * e)).
  { fold D. eapply Rle_trans; [exact EV|]. set (S := Rabs (b * f) + Rabs (c * e)) in *.
    assert (S1 : u64 * S <= u64 * (K * D)) by (apply Rmult_le_compat_l; lra).
    assert (KD : 1e-37 <= K * u64 * D) by (apply Rle_trans with (1e-17 * 1e-20); [lra|apply Rmult_le_compat; lra]).
    replace (eps * D) with (2.05 * (K * u64 * D)) by (unfold eps; ring). replace (u64 * (K * D)) with (K * u64 * D) in S1 by ring. lra. }
  assert (V0 : v <> 0). { intros ->. rewrite Rminus_0_l, Rabs_Ropp in EV'. fold D in EV'. assert (eps * D <= 1e-9 * D) by (apply Rmult_le_compat_r; lra). lra. }
  assert (DN : b * f - c * e <> 0). { intros HH. unfold D in D0. rewrite HH, Rabs_R0 in D0. lra. }
  unfold invf in IW. cbn [fc_a fc_b fc_c fc_d fc_e fc_f] in IW. cbv zeta in IW.
  assert (WE : w = Coeffs ((c * d - a * f) / (b * f - c * e)) (f / (b * f - c * e)) (- c / (b * f - c * e)) ((a * e - b * d) / (b * f - c * e)) (- e / (b * f - c * e)) (b / (b * f - c * e))).
  { revert IW. unR. destruct (Reqb_spec (b * f - c * e) 0) as [HH|_]; [contradiction|]. cbn [negb]. intros IW. injection IW as <-. reflexivity. }
  subst w. cbn [fc_a fc_b fc_c fc_d fc_e fc_f].
  assert (Z : value64 (n_ofZ (n := B64 lm) 0) 0) by (apply (fin_ofZ 53 1024 0); reflexivity).
  unfold invf. cbn [fc_a fc_b fc_c fc_d fc_e fc_f]. cbv zeta. set (det := n_sub (n := B64 lm) (n_mul (n := B64 lm) xb xf) (n_mul (n := B64 lm) xc xe)) in *.
  change (n_eqb (n := B64 lm)) with (fun x y : double => Beqb x y). cbv beta. rewrite (fin_eqb _ _ _ _ FV Z), Req_bool_false by exact V0. cbn [negb].
  assert (DB : 1e-40 <= Rabs (b * f - c * e)) by (fold D; lra).
  assert (SM : forall x z, value64 x z -> Rabs z <= 1e20 -> exists r, value64 (n_div (n := B64 lm) x det) r /\ Rabs (r - z / (b * f - c * e)) <= (2.1 * K + 1.1) * u64 * Rabs (z / (b * f - c * e)) + 1e-200).
  { intros x z X BZ. destruct (nr_div lm x det z (Rabs z) 0 0 v _ eps (nr_val _ _ X) FV EV' ltac:(lra) ltac:(lra) EB DB ltac:(lra)) as (r & FR & ER). exists r. split; [exact FR|].
    unfold Rdiv at 2. rewrite Rabs_mult, Rabs_inv. fold (Rabs z / Rabs (b * f - c * e)). set (q := Rabs z / Rabs (b * f - c * e)) in *.
    assert (q0 : 0 <= q) by (apply Rmult_le_pos; [apply Rabs_pos|apply Rlt_le, Rinv_0_lt_compat; lra]).
    assert (0 <= u64 * q) by (apply Rmult_le_pos; lra). assert (0 <= K * u64 * q) by (apply Rmult_le_pos; lra). eapply Rle_trans; [exact ER|]. unfold eps.
    replace (((1.01 * 0 + 1.01) * u64 + 1.001 * (2.05 * K * u64)) * q) with (1.01 * (u64 * q) + 1.001 * 2.05 * (K * u64 * q)) by ring.
    replace ((2.1 * K + 1.1) * u64 * q) with (2.1 * (K * u64 * q) + 1.1 * (u64 * q)) by ring. lra. }
  assert (SD : forall x1 x2 x3 x4 z1 z2 z3 z4, value64 x1 z1 -> value64 x2 z2 -> value64 x3 z3 -> value64 x4 z4 -> Rabs z1 <= 1e20 -> Rabs z2 <= 1e20 -> Rabs z3 <= 1e20 -> Rabs z4 <= 1e20 ->
    exists r, value64 (n_div (n := B64 lm) (n_sub (n := B64 lm) (n_mul (n := B64 lm) x1 x2) (n_mul (n := B64 lm) x3 x4)) det) r /\
      Rabs (r - (z1 * z2 - z3 * z4) / (b * f - c * e)) <= (2.1 * K + 3.1) * u64 * ((Rabs (z1 * z2) + Rabs (z3 * z4)) / D) + 1e-200).
  { intros x1 x2 x3 x4 z1 z2 z3 z4 X1 X2 X3 X4 H1 H2 H3 H4. pose proof (det64 lm _ _ _ _ _ _ _ _ 1e20 X1 X2 X3 X4 H1 H2 H3 H4 ltac:(lra)) as NN.
    assert (PR : forall p q, Rabs p <= 1e20 -> Rabs q <= 1e20 -> 0 <= Rabs (p * q) <= 1e40) by (intros p q P1 P2; split; [apply Rabs_pos|]; rewrite Rabs_mult; apply Rle_trans with (1e20 * 1e20); [apply Rmult_le_compat; try apply Rabs_pos; assumption|lra]).
    pose proof (PR z1 z2 H1 H2) as P1. pose proof (PR z3 z4 H3 H4) as P2.
    destruct (nr_div lm _ det _ _ _ _ v _ eps NN FV EV' ltac:(lra) ltac:(lra) EB DB ltac:(lra)) as (r & FR & ER). exists r. split; [exact FR|]. fold D in ER. set (q := (Rabs (z1 * z2) + Rabs (z3 * z4)) / D) in *.
    assert (q0 : 0 <= q) by (apply Rmult_le_pos; [lra|apply Rlt_le, Rinv_0_lt_compat; lra]).
    assert (0 <= u64 * q) by (apply Rmult_le_pos; lra). assert (0 <= K * u64 * q) by (apply Rmult_le_pos; lra). eapply Rle_trans; [exact ER|]. unfold eps.
    replace (((1.01 * 2.02 + 1.01) * u64 + 1.001 * (2.05 * K * u64)) * q) with ((1.01 * 2.02 + 1.01) * (u64 * q) + 1.001 * 2.05 * (K * u64 * q)) by ring.
    replace ((2.1 * K + 3.1) * u64 * q) with (2.1 * (K * u64 * q) + 3.1 * (u64 * q)) by ring. lra. }
  assert (NC : value64 (n_opp (n := B64 lm) xc) (- c)) by now apply fin_opp. assert (NE : value64 (n_opp (n := B64 lm) xe) (- e)) by now apply fin_opp.
  destruct (SD xc xd xa xf c d a f C DD A F HC HD HA HF) as (ja & FA & EA). destruct (SD xa xe xb xd a e b d A E B DD HA HE HB HD) as (jd & FD & EDD).
  destruct (SM xf f F HF) as (jb & FB & EBB). destruct (SM _ _ NC ltac:(rewrite Rabs_Ropp; exact HC)) as (jc & FC & EC). destruct (SM _ _ NE ltac:(rewrite Rabs_Ropp; exact HE)) as (je & FE & EE). destruct (SM xb b B HB) as (jf & FF & EF).
  eexists _, (Coeffs ja jb jc jd je jf). split; [reflexivity|]. split; [unfold coeffs64; cbn [fc_a fc_b fc_c fc_d fc_e fc_f]; auto 10|]. cbn [fc_a fc_b fc_c fc_d fc_e fc_f]. auto 10.
Qed.
