(** The galactic and supergalactic matrices agree with the frames defined by
    their poles. *)
From Coq Require Import ZArith QArith Qreals Reals Lra Lia.
From Verif Require Import Num NumR L_Pi L_Trig M_Vec S_Geom S_Frame L_Vec M_Frame.
Open Scope R_scope.

Ltac qr := rewrite ?Q2R_minus, ?Q2R_plus; unfold Q2R; cbn [Qnum Qden].
(** [x] is within [e] of [v]. *)
Definition near (x v e : R) : Prop := Rabs (x - v) <= e.
Lemma trig_both a q vs vc : Rabs (deg a - Q2R q) <= 1e-15 -> (0 <= q <= Qmake 3 2)%Q ->
  (vs - (Qmake 1 1000000000000000) <= qs_sum q 11)%Q -> (qs_sum q 12 <= vs + (Qmake 1 1000000000000000))%Q ->
  (vc - (Qmake 1 1000000000000000) <= qc_sum q 11)%Q -> (qc_sum q 12 <= vc + (Qmake 1 1000000000000000))%Q ->
  Rabs (sin (deg a) - Q2R vs) <= 1e-14 /\ Rabs (cos (deg a) - Q2R vc) <= 1e-14.
Proof.
  intros H [Q0 Q1] A B C D.
  assert (E : Q2R (Qmake 1 1000000000000000) = 1e-15) by (unfold Q2R; cbn [Qnum Qden]; lra).
  split.
  - eapply Rle_trans; [apply (sin_near _ q vs (Qmake 1 1000000000000000) 5)|]; rewrite ?E; try assumption; [|lra].
    split; [assumption|]. eapply Qle_trans; [exact Q1|]. unfold Qle; cbn; lia.
  - eapply Rle_trans; [apply (cos_near _ q vc (Qmake 1 1000000000000000) 5)|]; rewrite ?E; try assumption; [|lra].
    split; [|assumption]. eapply Qle_trans; [|exact Q0]. unfold Qle; cbn; lia.
Qed.
Ltac trigs q vs vc :=
  match goal with |- near (sin (deg ?a)) _ _ /\ _ =>
    let X := fresh in let Y := fresh in
    destruct (trig_both a q vs vc) as [X Y];
    [ pose proof PI_bounds; unfold deg, Q2R; cbn [Qnum Qden]; apply Rabs_le; lra
    | split; vm_compute; discriminate | vm_compute; discriminate .. | ];
    match vs with Qmake ?n ?d => change (Q2R vs) with (IZR n / IZR (Zpos d)) in X end;
    match vc with Qmake ?n ?d => change (Q2R vc) with (IZR n / IZR (Zpos d)) in Y end;
    split; assumption
  end.
Lemma trig_gal_l : near (sin (deg 32.93192)) (5436421254985537 / 10000000000000000) 1e-14 /\ near (cos (deg 32.93192)) (8393171268259780 / 10000000000000000) 1e-14.
Proof. trigs (Qmake 5747704330033710 10000000000000000) (Qmake 5436421254985537 10000000000000000) (Qmake 8393171268259780 10000000000000000). Qed.
Lemma trig_gal_d : near (sin (deg 62.87175)) (8899880874849542 / 10000000000000000) 1e-14 /\ near (cos (deg 62.87175)) (4559837761750669 / 10000000000000000) 1e-14.
Proof. trigs (Qmake 10973190439907449 10000000000000000) (Qmake 8899880874849542 10000000000000000) (Qmake 4559837761750669 10000000000000000). Qed.
Lemma trig_gal_a : near (sin (deg 12.85948)) (2225607018976534 / 10000000000000000) 1e-14 /\ near (cos (deg 12.85948)) (9749188345553818 / 10000000000000000) 1e-14.
Proof. trigs (Qmake 2244402660943604 10000000000000000) (Qmake 2225607018976534 10000000000000000) (Qmake 9749188345553818 10000000000000000). Qed.
Lemma trig_g50_l : near (sin (deg 33)) (5446390350150271 / 10000000000000000) 1e-14 /\ near (cos (deg 33)) (8386705679454240 / 10000000000000000) 1e-14.
Proof. trigs (Qmake 5759586531581288 10000000000000000) (Qmake 5446390350150271 10000000000000000) (Qmake 8386705679454240 10000000000000000). Qed.
Lemma trig_g50_d : near (sin (deg 62.6)) (8878153851364013 / 10000000000000000) 1e-14 /\ near (cos (deg 62.6)) (4601997847838516 / 10000000000000000) 1e-14.
Proof. trigs (Qmake 10925761117484503 10000000000000000) (Qmake 8878153851364013 10000000000000000) (Qmake 4601997847838516 10000000000000000). Qed.
Lemma trig_g50_a : near (sin (deg 12.25)) (2121776721564463 / 10000000000000000) 1e-14 /\ near (cos (deg 12.25)) (9772311064626789 / 10000000000000000) 1e-14.
Proof. trigs (Qmake 2138028333693054 10000000000000000) (Qmake 2121776721564463 10000000000000000) (Qmake 9772311064626789 10000000000000000). Qed.
Lemma trig_sup_d : near (sin (deg 83.68)) (9939225903997749 / 10000000000000000) 1e-14 /\ near (cos (deg 83.68)) (1100812622247821 / 10000000000000000) 1e-14.
Proof. trigs (Qmake 14604915180688550 10000000000000000) (Qmake 9939225903997749 10000000000000000) (Qmake 1100812622247821 10000000000000000). Qed.
Lemma trig_sup_a : near (sin (deg 47.37)) (7357425748043749 / 10000000000000000) 1e-14 /\ near (cos (deg 47.37)) (6772612964138943 / 10000000000000000) 1e-14.
Proof. trigs (Qmake 8267624666697139 10000000000000000) (Qmake 7357425748043749 10000000000000000) (Qmake 6772612964138943 10000000000000000). Qed.

Lemma near_neg x v e : near x v e -> near (- x) (- v) e.
Proof. unfold near. intros H. replace (- x - - v) with (- (x - v)) by ring. rewrite Rabs_Ropp. exact H. Qed.
Lemma near_add x v e y w f : near x v e -> near y w f -> near (x + y) (v + w) (e + f).
Proof.
  unfold near. intros H G. replace (x + y - (v + w)) with ((x - v) + (y - w)) by ring.
  eapply Rle_trans; [apply Rabs_triang|lra].
Qed.
Lemma near_sub x v e y w f : near x v e -> near y w f -> near (x - y) (v - w) (e + f).
Proof. intros. apply near_add; [assumption|]. apply near_neg. assumption. Qed.
Lemma near_mul x v e y w f : near x v e -> near y w f -> Rabs x <= 1 -> Rabs w <= 1 -> near (x * y) (v * w) (e + f).
Proof.
  unfold near. intros H G X W. replace (x * y - v * w) with (x * (y - w) + (x - v) * w) by ring.
  eapply Rle_trans; [apply Rabs_triang|]. rewrite !Rabs_mult.
  pose proof (Rabs_pos x). pose proof (Rabs_pos w). pose proof (Rabs_pos (y - w)). pose proof (Rabs_pos (x - v)). nra.
Qed.
Lemma near_use x v e w f : near x v e -> Rabs (v - w) + e <= f -> near x w f.
Proof.
  unfold near. intros H G. replace (x - w) with ((x - v) + (v - w)) by ring. eapply Rle_trans; [apply Rabs_triang|lra].
Qed.

(** Entrywise closeness of matrices. *)
Definition mnear (a b : RM) (e : R) : Prop :=
  (near (v0 (r0 a)) (v0 (r0 b)) e /\ near (v1 (r0 a)) (v1 (r0 b)) e /\ near (v2 (r0 a)) (v2 (r0 b)) e) /\
  (near (v0 (r1 a)) (v0 (r1 b)) e /\ near (v1 (r1 a)) (v1 (r1 b)) e /\ near (v2 (r1 a)) (v2 (r1 b)) e) /\
  (near (v0 (r2 a)) (v0 (r2 b)) e /\ near (v1 (r2 a)) (v1 (r2 b)) e /\ near (v2 (r2 a)) (v2 (r2 b)) e).

Lemma zxz_entries p q r : mmul (frame_z p) (mmul (frame_x q) (frame_z r)) =
  M3 (V3 (cos p * cos r - sin p * (cos q * sin r)) (cos p * sin r + sin p * (cos q * cos r)) (sin p * sin q))
     (V3 (- (sin p * cos r) - cos p * (cos q * sin r)) (cos p * (cos q * cos r) - sin p * sin r) (cos p * sin q))
     (V3 (sin q * sin r) (- (sin q * cos r)) (cos q)).
Proof. unfold mmul, frame_x, frame_z, dot, col. cbn [r0 r1 r2 v0 v1 v2]. f_equal; f_equal; ring. Qed.

Lemma sin_270 a : sin (deg a + 3 * (PI / 2)) = - cos (deg a).
Proof. replace (deg a + 3 * (PI / 2)) with ((PI / 2 + deg a) + PI) by field. rewrite neg_sin, <- cos_sin. reflexivity. Qed.
Lemma cos_270 a : cos (deg a + 3 * (PI / 2)) = sin (deg a).
Proof.
  replace (deg a + 3 * (PI / 2)) with ((PI / 2 + deg a) + PI) by field. rewrite neg_cos.
  rewrite cos_sin. replace (PI / 2 + (PI / 2 + deg a)) with (deg a + PI) by field. rewrite neg_sin. ring.
Qed.
Lemma abs_sin x : Rabs (sin x) <= 1. Proof. pose proof (SIN_bound x). apply Rabs_le; lra. Qed.
Lemma abs_cos x : Rabs (cos x) <= 1. Proof. pose proof (COS_bound x). apply Rabs_le; lra. Qed.
Lemma abs_mul x y : Rabs x <= 1 -> Rabs y <= 1 -> Rabs (x * y) <= 1.
Proof. intros. rewrite Rabs_mult. pose proof (Rabs_pos x). pose proof (Rabs_pos y). nra. Qed.

Ltac near_go :=
  match goal with
  | |- near (- _) _ _ => apply near_neg; near_go
  | |- near (_ + _) _ _ => apply near_add; near_go
  | |- near (_ - _) _ _ => apply near_sub; near_go
  | |- near (_ * _) _ _ => eapply near_mul; [near_go | near_go | repeat apply abs_mul; rewrite ?Rabs_Ropp; auto using abs_sin, abs_cos |
        apply Rabs_le; lra]
  | |- near _ _ _ => eassumption
  end.
Ltac near_entry := eapply near_use; [near_go | apply Rplus_le_reg_r with (r := 0); rewrite Rplus_0_r;
   match goal with |- Rabs ?x + ?y <= ?z => cut (Rabs x <= z - y); [lra | apply Rabs_le; lra] end].

Ltac mat_near :=
  unfold mnear; cbn [r0 r1 r2 v0 v1 v2]; unR; cbn [Rdec]; 
  repeat match goal with |- context [Z.pow_pos 10 12] => change (Z.pow_pos 10 12) with 1000000000000%Z end;
  split; [|split]; (split; [|split]); near_entry.

(** The supergalactic matrix. *)
Lemma near_0 : near 0 0 0. Proof. unfold near. rewrite Rminus_0_r, Rabs_R0. lra. Qed.
Lemma near_1 : near 1 1 0. Proof. unfold near. replace (1 - 1) with 0 by ring. rewrite Rabs_R0. lra. Qed.
Lemma abs_0 : Rabs 0 <= 1. Proof. rewrite Rabs_R0. lra. Qed.
Lemma abs_1 : Rabs 1 <= 1. Proof. rewrite Rabs_R1. lra. Qed.
Lemma sup_near : mnear supergalactic_frame (sup_mat (N := RNum)) 1e-12.
Proof.
  unfold supergalactic_frame, pole_frame. rewrite zxz_entries.
  replace (deg 90 - deg 90) with 0 by ring. replace (deg 90 - deg 6.32) with (deg 83.68) by (unfold deg; lra).
  replace (deg 47.37 + deg 90) with (PI / 2 + deg 47.37) by (unfold deg; lra).
  assert (E : cos (PI / 2 + deg 47.37) = - sin (deg 47.37)).
  { replace (PI / 2 + deg 47.37) with (PI / 2 - (- deg 47.37)) by ring. rewrite cos_shift. apply sin_neg. }
  rewrite sin_0, cos_0, <- cos_sin, E. destruct trig_sup_d as [A1 A2]. destruct trig_sup_a as [B1 B2].
  pose proof near_0. pose proof near_1. pose proof abs_0. pose proof abs_1. unfold sup_mat. mat_near.
Qed.
(** The IAU 1958 galactic matrix. *)
Lemma gal50_near : mnear galactic_frame_B1950 (gal50_mat (N := RNum)) 1e-12.
Proof.
  unfold galactic_frame_B1950, pole_frame. rewrite zxz_entries.
  replace (deg 90 - deg 123) with (- deg 33) by (unfold deg; lra).
  replace (deg 90 - deg 27.4) with (deg 62.6) by (unfold deg; lra).
  replace (deg 192.25 + deg 90) with (deg 12.25 + 3 * (PI / 2)) by (unfold deg; lra).
  rewrite sin_270, cos_270, sin_neg, cos_neg.
  destruct trig_g50_l as [A1 A2]. destruct trig_g50_d as [B1 B2]. destruct trig_g50_a as [C1 C2].
  unfold gal50_mat. mat_near.
Qed.
(** The J2000.0 galactic matrix, against the pole to five decimals of a degree. *)
Lemma gal_near : mnear galactic_frame (gal_mat (N := RNum)) 1e-7.
Proof.
  unfold galactic_frame, pole_frame. rewrite zxz_entries.
  replace (deg 90 - deg 122.93192) with (- deg 32.93192) by (unfold deg; lra).
  replace (deg 90 - deg 27.12825) with (deg 62.87175) by (unfold deg; lra).
  replace (deg 192.85948 + deg 90) with (deg 12.85948 + 3 * (PI / 2)) by (unfold deg; lra).
  rewrite sin_270, cos_270, sin_neg, cos_neg.
  destruct trig_gal_l as [A1 A2]. destruct trig_gal_d as [B1 B2]. destruct trig_gal_a as [C1 C2].
  unfold gal_mat. mat_near.
Qed.
