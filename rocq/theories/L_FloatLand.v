(** Where the computed conversions between celestial frames land, in binary64. *)
From Coq Require Import ZArith Reals Bool List String Lia Lra Psatz.
From Flocq Require Import Core BinarySingleNaN Relative.
From Verif Require Import Int32 Num NumB NumR M_Angle M_Vec M_Frame M_Epoch S_Geom S_Sphere S_Frame S_Binary S_Float S_FloatSph L_Bin L_Flt L_FltVec L_Float.
From Verif Require Import L_Real L_Vec L_Rot L_Frame L_Trig L_FloatVec L_FloatMat L_FltGeo L_FloatSph L_Err L_ErrT L_FloatFrame.
From Verif Require L_FrameGal L_BinAngle L_Binary L_Pi L_Gal.
Import ListNotations.
Open Scope R_scope.

Lemma vdist_via a b c d e : vdist a b <= d -> vdist b c <= e -> vdist a c <= d + e.
Proof. unfold vdist. pose proof (vsub_via a b c). lra. Qed.
Lemma lands_via {lm} k (s : sph (B64 lm)) v w d e : lands k s v d -> vdist v w <= e -> lands k s w (d + e).
Proof. intros (p & q & A & P & Q & E) V. exists p, q. split; [exact A|]. split; [exact P|]. split; [exact Q|]. exact (vdist_via _ _ _ _ _ E V). Qed.
Lemma lands_le {lm} k (s : sph (B64 lm)) w d e : lands k s w d -> d <= e -> lands k s w e.
Proof. intros (p & q & A & P & Q & E) V. exists p, q. split; [exact A|]. split; [exact P|]. split; [exact Q|]. lra. Qed.
Lemma angles_Sph {lm} (s : sph (B64 lm)) a b : angles64 s a b -> exists x y, s = Sph (N := B64 lm) x y /\ value64 x a /\ value64 y b.
Proof. intros (A & B). exists (s_a s), (s_b s). split; [now destruct s|]. split; assumption. Qed.

Lemma eqecl_lands lm k s z a b c : libm_ok lm k -> 0 <= k <= 1e-6 -> angles64 s a b -> value64 z c -> -678000 <= c <= 782000 ->
  lands k (eqecl (N := B64 lm) s z) (mapply (ecliptic_frame c) (direction a b)) (20 * k + 104 * u64).
Proof.
  intros L K S Z C. destruct (angles_Sph s a b S) as (x & y & -> & X & Y).
  destruct (eqecl64 lm k x y z a b c L K X Y Z C) as (p & q & FP & FQ & RP & RQ & E). exists p, q. split; [split; [exact FP|exact FQ]|]. split; [exact RP|]. split; [exact RQ|exact E].
Qed.
Lemma ecleq_lands lm k s z a b c : libm_ok lm k -> 0 <= k <= 1e-6 -> angles64 s a b -> value64 z c -> -678000 <= c <= 782000 ->
  lands k (ecleq (N := B64 lm) s z) (mapply (transpose (ecliptic_frame c)) (direction a b)) (20 * k + 104 * u64).
Proof.
  intros L K S Z C. destruct (angles_Sph s a b S) as (x & y & -> & X & Y).
  destruct (ecleq64 lm k x y z a b c L K X Y Z C) as (p & q & FP & FQ & RP & RQ & E). exists p, q. split; [split; [exact FP|exact FQ]|]. split; [exact RP|]. split; [exact RQ|exact E].
Qed.
(** Through a rotation and back. *)
Lemma there_and_back {lm} k (f g : sph (B64 lm) -> sph (B64 lm)) P Q d e s a b :
  (forall s a b, angles64 s a b -> lands k (f s) (mapply P (direction a b)) d) -> (forall s a b, angles64 s a b -> lands k (g s) (mapply Q (direction a b)) e) ->
  rotation Q -> mmul Q P = mident -> angles64 s a b -> lands k (g (f s)) (direction a b) (e + d).
Proof.
  intros F G RQ I S. destruct (F s a b S) as (p & q & A & _ & _ & D). apply (lands_via k _ _ _ _ _ (G _ p q A)).
  unfold vdist in *. replace (direction a b) with (mapply Q (mapply P (direction a b))) at 1 by (now rewrite <- mapply_mmul, I, mapply_ident).
  rewrite <- mapply_vsub, (rotation_norm _ _ RQ). exact D.
Qed.
Lemma ecl_both_lands lm k s z a b c : libm_ok lm k -> 0 <= k <= 1e-6 -> angles64 s a b -> value64 z c -> -678000 <= c <= 782000 ->
  lands k (ecleq (N := B64 lm) (eqecl (N := B64 lm) s z) z) (direction a b) (40 * k + 208 * u64) /\
  lands k (eqecl (N := B64 lm) (ecleq (N := B64 lm) s z) z) (direction a b) (40 * k + 208 * u64).
Proof.
  intros L K S Z C. pose proof (ecliptic_rotation c) as RE. pose proof RE as (I1 & I2 & _). pose proof u64_pos.
  assert (F : forall s a b, angles64 s a b -> lands k ((fun s => eqecl (N := B64 lm) s z) s) (mapply (ecliptic_frame c) (direction a b)) (20 * k + 104 * u64)) by (intros; now apply eqecl_lands).
  assert (G : forall s a b, angles64 s a b -> lands k ((fun s => ecleq (N := B64 lm) s z) s) (mapply (transpose (ecliptic_frame c)) (direction a b)) (20 * k + 104 * u64)) by (intros; now apply ecleq_lands).
  split; apply (lands_le k _ _ ((20 * k + 104 * u64) + (20 * k + 104 * u64))); [|lra| |lra].
  - exact (there_and_back k _ _ _ _ _ _ s a b F G (rotation_transpose _ RE) I2 S).
  - exact (there_and_back k _ _ _ _ _ _ s a b G F RE I1 S).
Qed.
Lemma preces_lands lm k s z w a b c d cat : libm_ok lm k -> 0 <= k <= 1e-6 -> angles64 s a b -> value64 z c -> value64 w d -> 0 <= c <= 4000 -> 0 <= d <= 4000 ->
  cat <> CAT_OTHER -> lands k (preces (N := B64 lm) cat z w s) (mapply (match cat with CAT_FK4 => newcomb_precession c d | _ => iau1976_precession c d end) (direction a b)) (14 * k + 69 * u64).
Proof.
  intros L K S Z W C D CA. destruct (angles_Sph s a b S) as (x & y & -> & X & Y).
  destruct (preces64 lm k x y z w a b c d L K X Y Z W C D cat CA) as (p & q & FP & FQ & RP & RQ & E). exists p, q. split; [split; [exact FP|exact FQ]|]. split; [exact RP|]. split; [exact RQ|exact E].
Qed.
Lemma mnear_weak a b e f : L_Gal.mnear a b e -> e <= f -> L_Gal.mnear a b f.
Proof. unfold L_Gal.mnear, L_Gal.near. intros ((A0 & A1 & A2) & (B0 & B1 & B2) & (C0 & C1 & C2)) H. split; [|split]; (split; [|split]); lra. Qed.
Lemma real_gal a b : let v := Sph (N := RNum) a b in let go t := conv_range (N := RNum) (dcc2s (N := RNum) t) in
  eqgal (N := RNum) v = go (mapply (gal_mat (N := RNum)) (direction a b)) /\ galeq (N := RNum) v = go (mapply (transpose (gal_mat (N := RNum))) (direction a b)) /\
  galsup (N := RNum) v = go (mapply (sup_mat (N := RNum)) (direction a b)) /\ supgal (N := RNum) v = go (mapply (transpose (sup_mat (N := RNum))) (direction a b)).
Proof. cbv zeta. unfold eqgal, galeq, galsup, supgal. rewrite !dmxv_mapply, !dimxv_mapply, !dcs2c_direction. repeat split. Qed.
Lemma gal_lands lm k s a b : libm_ok lm k -> 0 <= k <= 1e-6 -> angles64 s a b -> let v := Sph (N := RNum) a b in let e := 7.1 * k + 20 * u64 in
  let dir (r : sph RNum) := direction (s_a r) (s_b r) in
  lands k (eqgal (N := B64 lm) s) (dir (eqgal (N := RNum) v)) e /\ lands k (galeq (N := B64 lm) s) (dir (galeq (N := RNum) v)) e /\
  lands k (galsup (N := B64 lm) s) (dir (galsup (N := RNum) v)) e /\ lands k (supgal (N := B64 lm) s) (dir (supgal (N := RNum) v)) e.
Proof.
  intros L K S. cbv zeta. destruct (angles_Sph s a b S) as (x & y & -> & X & Y). destruct (gal_mats64 lm k L K) as (G & SU & _).
  destruct (real_gal a b) as (-> & -> & -> & ->). pose proof (mnear_weak _ _ _ 1e-7 L_Gal.sup_near ltac:(lra)) as SN.
  destruct (through64 lm k _ _ _ x y a b L K G L_Gal.gal_near (L_FrameGal.pole_frame_rotation _ _ _) X Y) as ((p1 & q1 & A1 & B1 & C1 & D1 & E1) & (p2 & q2 & A2 & B2 & C2 & D2 & E2)).
  destruct (through64 lm k _ _ _ x y a b L K SU SN (L_FrameGal.pole_frame_rotation _ _ _) X Y) as ((p3 & q3 & A3 & B3 & C3 & D3 & E3) & (p4 & q4 & A4 & B4 & C4 & D4 & E4)).
  split; [|split; [|split]].
  - exists p1, q1. split; [split; [exact A1|exact B1]|]. split; [exact C1|]. split; [exact D1|exact E1].
  - exists p2, q2. split; [split; [exact A2|exact B2]|]. split; [exact C2|]. split; [exact D2|exact E2].
  - exists p3, q3. split; [split; [exact A3|exact B3]|]. split; [exact C3|]. split; [exact D3|exact E3].
  - exists p4, q4. split; [split; [exact A4|exact B4]|]. split; [exact C4|]. split; [exact D4|exact E4].
Qed.
Lemma through_lip M g a b c d e : L_Gal.mnear g M 1e-7 -> rotation g -> vdist (direction a b) (direction c d) <= e -> e <= 1e-4 ->
  let w t := conv_range (N := RNum) (dcc2s (N := RNum) t) in let at_ t := direction (s_a (w t)) (s_b (w t)) in
  vdist (at_ (mapply M (direction a b))) (at_ (mapply M (direction c d))) <= 1.003 * e.
Proof.
  intros MN G D E w at_. pose proof (norm_direction a b) as N0. pose proof (norm_direction c d) as N1.
  destruct (L_FrameGal.sph_matrix M g (direction a b) 1e-7 MN G N0 ltac:(lra)) as (_ & D0 & _). change (at_ (mapply M (direction a b)) = unit_of (mapply M (direction a b))) in D0.
  destruct (L_FrameGal.sph_matrix M g (direction c d) 1e-7 MN G N1 ltac:(lra)) as (_ & D1 & _). change (at_ (mapply M (direction c d)) = unit_of (mapply M (direction c d))) in D1.
  rewrite D0, D1. unfold vdist in *. pose proof (mnear_fnorm _ _ _ MN) as EM. pose proof (norm_nonneg (vsub (direction a b) (direction c d))) as P0.
  pose proof (mnear_apply _ _ _ _ MN N1) as NM. unfold vdist in NM. pose proof (norm_lip (mapply g (direction c d)) (mapply M (direction c d))) as NL. rewrite (rotation_norm _ _ G), N1 in NL. apply Rabs_le_inv in NL.
  assert (S : norm (vsub (mapply M (direction a b)) (mapply M (direction c d))) <= 1.0001 * e).
  { rewrite <- mapply_vsub. replace (mapply M (vsub (direction a b) (direction c d))) with (vadd (mapply (msub M g) (vsub (direction a b) (direction c d))) (mapply g (vsub (direction a b) (direction c d)))).
    - eapply Rle_trans; [apply norm_triangle|]. rewrite (rotation_norm g _ G). pose proof (norm_mapply (msub M g) (vsub (direction a b) (direction c d))). nra.
    - rewrite mapply_msub. apply vadd_vsub. }
  eapply Rle_trans; [apply (unit_near _ _ (1.0002 * e)); [lra| |lra]|lra]. nra.
Qed.
Lemma gal_both_lands lm k s a b : libm_ok lm k -> 0 <= k <= 1e-6 -> angles64 s a b ->
  lands k (galeq (N := B64 lm) (eqgal (N := B64 lm) s)) (direction a b) (1e-9 + 15 * k + 41 * u64) /\
  lands k (eqgal (N := B64 lm) (galeq (N := B64 lm) s)) (direction a b) (1e-9 + 15 * k + 41 * u64) /\
  lands k (supgal (N := B64 lm) (galsup (N := B64 lm) s)) (direction a b) (1e-11 + 15 * k + 41 * u64) /\
  lands k (galsup (N := B64 lm) (supgal (N := B64 lm) s)) (direction a b) (1e-11 + 15 * k + 41 * u64).
Proof.
  intros L K S. pose proof u64_pos as U0. assert (U1 : u64 <= 1e-15) by (rewrite u64_num; lra).
  destruct (gal_lands lm k s a b L K S) as (G1 & G2 & G3 & G4). cbv zeta in *. pose proof (mnear_weak _ _ _ 1e-7 L_Gal.sup_near ltac:(lra)) as SN.
  pose proof L_Gal.gal_near as GN. pose proof (L_FrameGal.mnear_transpose _ _ _ GN) as GT. pose proof (L_FrameGal.mnear_transpose _ _ _ SN) as ST.
  destruct (L_FrameGal.gal_round_trip (Sph (N := RNum) a b)) as (R1 & R2). destruct (L_FrameGal.sup_round_trip (Sph (N := RNum) a b)) as (R3 & R4). cbv zeta in R1, R2, R3, R4. rewrite sa_Sph, sb_Sph in R1, R2, R3, R4.
  assert (RG : rotation galactic_frame) by apply L_FrameGal.pole_frame_rotation. assert (RS : rotation supergalactic_frame) by apply L_FrameGal.pole_frame_rotation.
  assert (RGT := rotation_transpose _ RG). assert (RST := rotation_transpose _ RS).
  split; [|split; [|split]].
  - destruct G1 as (p & q & A & _ & _ & D). destruct (gal_lands lm k _ p q L K A) as (_ & H & _). cbv zeta in H.
    destruct (eqgal (N := RNum) (Sph (N := RNum) a b)) as [g h]. cbn [s_a s_b] in D.
    destruct (real_gal p q) as (_ & E1 & _). destruct (real_gal g h) as (_ & E2 & _). cbv zeta in E1, E2.
    assert (LP : vdist (direction (s_a (galeq (N := RNum) (Sph (N := RNum) p q))) (s_b (galeq (N := RNum) (Sph (N := RNum) p q)))) (direction (s_a (galeq (N := RNum) (Sph (N := RNum) g h))) (s_b (galeq (N := RNum) (Sph (N := RNum) g h)))) <= 1.003 * (7.1 * k + 20 * u64)) by (rewrite E1, E2; exact (through_lip _ _ p q g h _ GT RGT D ltac:(lra))).
    eapply lands_le; [exact (lands_via k _ _ _ _ _ H (vdist_via _ _ _ _ _ LP R1))|]. lra.
  - destruct G2 as (p & q & A & _ & _ & D). destruct (gal_lands lm k _ p q L K A) as (H & _). cbv zeta in H.
    destruct (galeq (N := RNum) (Sph (N := RNum) a b)) as [g h]. cbn [s_a s_b] in D.
    destruct (real_gal p q) as (E1 & _). destruct (real_gal g h) as (E2 & _). cbv zeta in E1, E2.
    assert (LP : vdist (direction (s_a (eqgal (N := RNum) (Sph (N := RNum) p q))) (s_b (eqgal (N := RNum) (Sph (N := RNum) p q)))) (direction (s_a (eqgal (N := RNum) (Sph (N := RNum) g h))) (s_b (eqgal (N := RNum) (Sph (N := RNum) g h)))) <= 1.003 * (7.1 * k + 20 * u64)) by (rewrite E1, E2; exact (through_lip _ _ p q g h _ GN RG D ltac:(lra))).
    eapply lands_le; [exact (lands_via k _ _ _ _ _ H (vdist_via _ _ _ _ _ LP R2))|]. lra.
  - destruct G3 as (p & q & A & _ & _ & D). destruct (gal_lands lm k _ p q L K A) as (_ & _ & _ & H). cbv zeta in H.
    destruct (galsup (N := RNum) (Sph (N := RNum) a b)) as [g h]. cbn [s_a s_b] in D.
    destruct (real_gal p q) as (_ & _ & _ & E1). destruct (real_gal g h) as (_ & _ & _ & E2). cbv zeta in E1, E2.
    assert (LP : vdist (direction (s_a (supgal (N := RNum) (Sph (N := RNum) p q))) (s_b (supgal (N := RNum) (Sph (N := RNum) p q)))) (direction (s_a (supgal (N := RNum) (Sph (N := RNum) g h))) (s_b (supgal (N := RNum) (Sph (N := RNum) g h)))) <= 1.003 * (7.1 * k + 20 * u64)) by (rewrite E1, E2; exact (through_lip _ _ p q g h _ ST RST D ltac:(lra))).
    eapply lands_le; [exact (lands_via k _ _ _ _ _ H (vdist_via _ _ _ _ _ LP R3))|]. lra.
  - destruct G4 as (p & q & A & _ & _ & D). destruct (gal_lands lm k _ p q L K A) as (_ & _ & H & _). cbv zeta in H.
    destruct (supgal (N := RNum) (Sph (N := RNum) a b)) as [g h]. cbn [s_a s_b] in D.
    destruct (real_gal p q) as (_ & _ & E1 & _). destruct (real_gal g h) as (_ & _ & E2 & _). cbv zeta in E1, E2.
    assert (LP : vdist (direction (s_a (galsup (N := RNum) (Sph (N := RNum) p q))) (s_b (galsup (N := RNum) (Sph (N := RNum) p q)))) (direction (s_a (galsup (N := RNum) (Sph (N := RNum) g h))) (s_b (galsup (N := RNum) (Sph (N := RNum) g h)))) <= 1.003 * (7.1 * k + 20 * u64)) by (rewrite E1, E2; exact (through_lip _ _ p q g h _ SN RS D ltac:(lra))).
    eapply lands_le; [exact (lands_via k _ _ _ _ _ H (vdist_via _ _ _ _ _ LP R4))|]. lra.
Qed.
Lemma eqgal_lands lm k s a b : libm_ok lm k -> 0 <= k <= 1e-6 -> angles64 s a b -> lands k (eqgal (N := B64 lm) s) (mapply galactic_frame (direction a b)) (1e-6 + 7.1 * k + 20 * u64).
Proof. intros L K S. destruct (gal_lands lm k s a b L K S) as (G & _). eapply lands_le; [exact (lands_via _ _ _ _ _ _ G (proj1 (L_FrameGal.eqgal_spec (Sph (N := RNum) a b))))|]. lra. Qed.
Lemma galeq_lands lm k s a b : libm_ok lm k -> 0 <= k <= 1e-6 -> angles64 s a b -> lands k (galeq (N := B64 lm) s) (mapply (transpose galactic_frame) (direction a b)) (1e-6 + 7.1 * k + 20 * u64).
Proof. intros L K S. destruct (gal_lands lm k s a b L K S) as (_ & G & _). eapply lands_le; [exact (lands_via _ _ _ _ _ _ G (proj1 (L_FrameGal.galeq_spec (Sph (N := RNum) a b))))|]. lra. Qed.
Lemma galsup_lands lm k s a b : libm_ok lm k -> 0 <= k <= 1e-6 -> angles64 s a b -> lands k (galsup (N := B64 lm) s) (mapply supergalactic_frame (direction a b)) (1e-11 + 7.1 * k + 20 * u64).
Proof. intros L K S. destruct (gal_lands lm k s a b L K S) as (_ & _ & G & _). eapply lands_le; [exact (lands_via _ _ _ _ _ _ G (proj1 (L_FrameGal.galsup_spec (Sph (N := RNum) a b))))|]. lra. Qed.
Lemma supgal_lands lm k s a b : libm_ok lm k -> 0 <= k <= 1e-6 -> angles64 s a b -> lands k (supgal (N := B64 lm) s) (mapply (transpose supergalactic_frame) (direction a b)) (1e-11 + 7.1 * k + 20 * u64).
Proof. intros L K S. destruct (gal_lands lm k s a b L K S) as (_ & _ & _ & G). eapply lands_le; [exact (lands_via _ _ _ _ _ _ G (proj1 (L_FrameGal.supgal_spec (Sph (N := RNum) a b))))|]. lra. Qed.
