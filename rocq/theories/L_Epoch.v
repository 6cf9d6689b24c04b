(** Lemmas for epochs, TAI-UTC and sidereal time. *)
From Coq Require Import ZArith QArith Qreals Reals Lra Lia List Ascii.
From Verif Require Import Num NumR L_Pi L_Real M_Angle S_Geom S_Calendar S_Frame S_Epoch L_Angle L_Vec M_Nutc M_Epoch L_Gal L_Frame.
Import ListNotations.
Open Scope R_scope.

Lemma epb_spec mjd : epb (N := RNum) mjd = besselian_year mjd.
Proof. unfold epb, besselian_year. unR. decs. field. Qed.
Lemma epj_inverse : (forall d, epj2d (N := RNum) (epj (N := RNum) d) = d) /\ (forall y, epj (N := RNum) (epj2d (N := RNum) y) = y).
Proof. split; intros x; unfold epj, epj2d; unR; decs; field. Qed.
Lemma epb_inverse : (forall d, epb2d (N := RNum) (epb (N := RNum) d) = d) /\ (forall y, epb (N := RNum) (epb2d (N := RNum) y) = y).
Proof. split; intros x; unfold epb, epb2d; unR; decs; field. Qed.

Lemma epco_accepted (res given : ascii) (e : R) :
  (besselian res \/ res = "J"%char) -> (given = "B"%char \/ julian given) ->
  let kind c := if (Ascii.eqb c "B" || Ascii.eqb c "b")%bool then true else false in
  epco (N := RNum) res given e =
  match kind res, kind given with
  | true, true | false, false => e
  | true, false => besselian_year (epj2d (N := RNum) e)
  | false, true => julian_year (epb2d (N := RNum) e)
  end.
Proof.
  intros H1 H2. cbv zeta. rewrite <- epb_spec, <- epj_spec.
  destruct H1 as [[-> | ->] | ->]; destruct H2 as [-> | [-> | ->]]; reflexivity.
Qed.
Lemma epco_rejected (res given : ascii) (e : R) :
  ~ (besselian res \/ res = "J"%char) \/ ~ (given = "B"%char \/ julian given) -> epco (N := RNum) res given e = 0.
Proof.
  unfold besselian, julian, epco. cbv zeta. intros H.
  destruct (Ascii.eqb_spec res "b") as [Eb|Nb]; [subst res|].
  - change (negb (Ascii.eqb "B" "B") && negb (Ascii.eqb "B" "J"))%bool with false. cbv iota.
    destruct (Ascii.eqb_spec given "j") as [Ej|Nj]; [subst given; tauto|].
    destruct (Ascii.eqb_spec given "B") as [EB|NB]; [subst given; tauto|].
    destruct (Ascii.eqb_spec given "J") as [EJ|NJ]; [subst given; tauto|]. reflexivity.
  - destruct (Ascii.eqb_spec res "B") as [EB|NB]; destruct (Ascii.eqb_spec res "J") as [EJ|NJ]; cbn [negb andb]; try reflexivity;
    (destruct (Ascii.eqb_spec given "j") as [Ej|Nj]; [subst given; tauto|];
     destruct (Ascii.eqb_spec given "B") as [EB'|NB']; [subst given; tauto|];
     destruct (Ascii.eqb_spec given "J") as [EJ'|NJ']; [subst given; tauto|]; reflexivity).
Qed.
Lemma epco_doc : exists (res given : ascii) (e : R), julian res /\ julian given /\ res = given /\ e <> 0 /\ epco (N := RNum) res given e = 0.
Proof. exists "j"%char, "j"%char, 2000. split; [right; reflexivity|]. split; [right; reflexivity|]. split; [reflexivity|]. split; [lra|reflexivity]. Qed.
Lemma epco_doc_b : exists e : R, e <> 0 /\ epco (N := RNum) "J"%char "b"%char e = 0 /\ epco (N := RNum) "J"%char "B"%char e <> 0.
Proof.
  exists 1950. split; [lra|]. split; [reflexivity|].
  assert (E : epco (N := RNum) "J"%char "B"%char 1950 = epj (N := RNum) (epb2d (N := RNum) 1950)) by reflexivity.
  rewrite E. unfold epj, epb2d. unR. decs. lra.
Qed.

(** Sidereal time *)
Lemma same_turn_intro e a b x : same_angle x a -> Rabs (x - b) <= e -> same_turn e a b.
Proof. intros [k ->] H. exists (- k)%Z. rewrite opp_IZR. replace (a - b - - IZR k * (2 * PI)) with (a + IZR k * (2 * PI) - b) by ring. exact H. Qed.
Lemma same_turn_trans e f a b c : same_turn e a b -> same_turn f c b -> same_turn (e + f) a c.
Proof.
  intros [k H] [m J]. exists (k - m)%Z. rewrite minus_IZR.
  replace (a - c - (IZR k - IZR m) * (2 * PI)) with ((a - b - IZR k * (2 * PI)) - (c - b - IZR m * (2 * PI))) by ring.
  eapply Rle_trans; [apply Rabs_triang|]. rewrite Rabs_Ropp. lra.
Qed.
Definition gmst_poly (T : R) : R := 24110.54841 + 8640184.812866 * T + 0.093104 * T ^ 2 - 0.0000062 * T ^ 3.
Lemma gmst_poly_bound ut1 : Rabs ut1 <= 10000000 -> Rabs (gmst_poly (centuries_J2000 ut1)) <= 3000000000.
Proof.
  intros H. assert (B : -10000000 <= ut1 <= 10000000) by (pose proof (Rle_abs ut1); pose proof (Rle_abs (- ut1)) as H1; rewrite Rabs_Ropp in H1; lra).
  assert (T : -300 <= centuries_J2000 ut1 <= 300) by (unfold centuries_J2000; lra).
  set (t := centuries_J2000 ut1) in *. unfold gmst_poly. clearbody t.
  assert (P2 : 0 <= t ^ 2 <= 90000) by nra. assert (P3 : -27000000 <= t ^ 3 <= 27000000) by (replace (t ^ 3) with (t * t ^ 2) by ring; nra).
  apply Rabs_le. lra.
Qed.
Lemma gmst_core (ut1 X s : R) (k : Z) : Rabs ut1 <= 10000000 -> Rabs (s - PI / 43200) <= 1e-25 ->
  X = 2 * PI * (ut1 - IZR k) + gmst_poly (centuries_J2000 ut1) * s -> same_turn 1e-15 X (iau1982_gmst ut1).
Proof.
  intros B S ->. exists (- k)%Z. rewrite opp_IZR. unfold iau1982_gmst. cbv zeta. fold (gmst_poly (centuries_J2000 ut1)).
  pose proof (gmst_poly_bound ut1 B) as P. set (p := gmst_poly _) in *.
  replace (2 * PI * (ut1 - IZR k) + p * s - (2 * PI * ut1 + p * (2 * PI / 86400)) - - IZR k * (2 * PI)) with (p * (s - PI / 43200)) by field.
  rewrite Rabs_mult. pose proof (Rabs_pos p). pose proof (Rabs_pos (s - PI / 43200)).
  eapply Rle_trans; [apply Rmult_le_compat; eassumption|]. lra.
Qed.
Lemma same_turn_angle e a b x : same_angle x a -> same_turn e x b -> same_turn e a b.
Proof.
  intros [k ->] [m H]. exists (m - k)%Z. rewrite minus_IZR.
  replace (a - b - (IZR m - IZR k) * (2 * PI)) with (a + IZR k * (2 * PI) - b - IZR m * (2 * PI)) by ring. exact H.
Qed.
Lemma fmod1 (x : R) : exists k : Z, Rfmod x 1 = x - IZR k.
Proof. destruct (Rfmod_congr x 1) as [k E]. exists k. lra. Qed.
Lemma gmst_spec (ut1 : R) : 0 <= gmst (N := RNum) ut1 < 2 * PI /\
  (Rabs ut1 <= 10000000 -> same_turn 1e-15 (gmst (N := RNum) ut1) (iau1982_gmst ut1)).
Proof.
  unfold gmst. cbv zeta. match goal with |- context [dranrm ?x] => set (X := x); destruct (dranrm_spec X) as [A R0] end.
  split; [exact R0|]. intros B. apply (same_turn_angle _ _ _ X A). destruct (fmod1 ut1) as [k K].
  apply (gmst_core ut1 X (n_lit (n := RNum) 7272205216643039903848711535369 (-35)) k B).
  - pose proof PI_bounds. unR. decs. apply Rabs_le. lra.
  - unfold X, gmst_poly, centuries_J2000. unR. rewrite K. decs. field.
Qed.
Lemma gmsta_spec (d1 d2 : R) : 0 <= gmsta (N := RNum) d1 d2 < 2 * PI /\
  (Rabs (d1 + d2) <= 10000000 -> same_turn 2e-15 (gmsta (N := RNum) d1 d2) (iau1982_gmst (d1 + d2))).
Proof.
  unfold gmsta. cbv zeta. match goal with |- context [dranrm ?x] => set (X := x); destruct (dranrm_spec X) as [A R0] end.
  split; [exact R0|]. intros B. apply (same_turn_angle _ _ _ X A). destruct (fmod1 d1) as [k1 K1]. destruct (fmod1 d2) as [k2 K2].
  destruct (Rfmod_range d1 1 ltac:(lra)) as [F1 F1']. destruct (Rfmod_range d2 1 ltac:(lra)) as [F2 F2'].
  assert (G1 : -1 < Rfmod d1 1 < 1) by (destruct (Rle_dec 0 d1) as [h|h]; [specialize (F1 h)|specialize (F1' ltac:(lra))]; lra).
  assert (G2 : -1 < Rfmod d2 1 < 1) by (destruct (Rle_dec 0 d2) as [h|h]; [specialize (F2 h)|specialize (F2' ltac:(lra))]; lra).
  clear F1 F1' F2 F2'. set (s := n_lit (n := RNum) 7272205216643039903848712 (-29)).
  assert (S : Rabs (s - PI / 43200) <= 1e-25) by (unfold s; pose proof PI_bounds; unR; decs; apply Rabs_le; lra).
  assert (XE : X = s * (gmst_poly (centuries_J2000 (d1 + d2)) + 86400 * (Rfmod d1 1 + Rfmod d2 1))).
  { unfold X, s, gmst_poly, centuries_J2000. unR. destruct (Rltb d1 d2); decs; field. }
  pose proof (gmst_core (d1 + d2) _ s (k1 + k2) B S eq_refl) as [m M]. exists m.
  set (Y := 2 * PI * (d1 + d2 - IZR (k1 + k2)) + gmst_poly (centuries_J2000 (d1 + d2)) * s) in *.
  assert (D : Rabs (X - Y) <= 1e-15).
  { rewrite XE. unfold Y. rewrite plus_IZR.
    replace (s * (gmst_poly (centuries_J2000 (d1 + d2)) + 86400 * (Rfmod d1 1 + Rfmod d2 1)) -
      (2 * PI * (d1 + d2 - (IZR k1 + IZR k2)) + gmst_poly (centuries_J2000 (d1 + d2)) * s))
      with (86400 * (Rfmod d1 1 + Rfmod d2 1) * (s - PI / 43200)) by (rewrite K1, K2; field).
    rewrite Rabs_mult. pose proof (Rabs_pos (s - PI / 43200)).
    assert (Rabs (86400 * (Rfmod d1 1 + Rfmod d2 1)) <= 200000) by (apply Rabs_le; lra).
    pose proof (Rabs_pos (86400 * (Rfmod d1 1 + Rfmod d2 1))).
    eapply Rle_trans; [apply Rmult_le_compat; eassumption|]. lra. }
  replace (X - iau1982_gmst (d1 + d2) - IZR m * (2 * PI)) with ((X - Y) + (Y - iau1982_gmst (d1 + d2) - IZR m * (2 * PI))) by ring.
  eapply Rle_trans; [apply Rabs_triang|]. lra.
Qed.
Lemma gmst_gmsta (d1 d2 : R) : Rabs (d1 + d2) <= 10000000 -> same_turn 3e-15 (gmst (N := RNum) (d1 + d2)) (gmsta (N := RNum) d1 d2).
Proof.
  intros B. replace 3e-15 with (1e-15 + 2e-15) by lra.
  apply (same_turn_trans _ _ _ (iau1982_gmst (d1 + d2))); [apply gmst_spec|apply gmsta_spec]; exact B.
Qed.
Lemma gmsta_sym (d1 d2 : R) : gmsta (N := RNum) d1 d2 = gmsta (N := RNum) d2 d1.
Proof.
  unfold gmsta. cbv zeta. cbn [n_ltb RNum].
  destruct (Rltb d1 d2) eqn:E1, (Rltb d2 d1) eqn:E2; try reflexivity.
  - apply Rltb_true in E1, E2. lra.
  - apply Rltb_false in E1, E2. assert (d1 = d2) by lra. subst. reflexivity.
Qed.
Lemma eqeqx_spec date : let '(psi, eps, eps0) := nutc (N := RNum) date in
  eqeqx (N := RNum) date = equation_of_equinoxes psi eps0 (centuries_J2000 date).
Proof.
  unfold eqeqx, equation_of_equinoxes. destruct (nutc date) as [[psi eps] eps0]. cbv zeta.
  match goal with |- context [n_sin (n_add ?o ?o)] => assert (OM : o = lunar_node (centuries_J2000 date)) end.
  { unfold lunar_node, centuries_J2000, arcsec. unR. decs. field. }
  rewrite OM. set (w := lunar_node _). unR. replace (w + w) with (2 * w) by ring. unfold arcsec. decs. field.
Qed.

(** ET-UT *)
Lemma dt_spec (y : R) :
  (y < 979 -> dt (N := RNum) y = stephenson_morrison_390BC y) /\
  (980 <= y < 1708 -> dt (N := RNum) y = stephenson_morrison_948 y) /\
  (1709 <= y -> dt (N := RNum) y = mccarthy_babcock y).
Proof.
  unfold dt, stephenson_morrison_390BC, stephenson_morrison_948, mccarthy_babcock. cbv zeta. unR.
  repeat split; intros H; decs; rcases; try lra; field.
Qed.
(** At each change of model the two curves meet. *)
Lemma dt_continuous : exists b1 b2, 979 < b1 < 980 /\ 1708 < b2 < 1709 /\
  (forall y, y < b1 -> dt (N := RNum) y = stephenson_morrison_390BC y) /\
  (forall y, b1 <= y < b2 -> dt (N := RNum) y = stephenson_morrison_948 y) /\
  (forall y, b2 <= y -> dt (N := RNum) y = mccarthy_babcock y) /\
  Rabs (stephenson_morrison_390BC b1 - stephenson_morrison_948 b1) <= 1e-9 /\
  Rabs (stephenson_morrison_948 b2 - mccarthy_babcock b2) <= 1e-9.
Proof.
  exists 979.0258204760233, 1708.185161980887.
  unfold dt, stephenson_morrison_390BC, stephenson_morrison_948, mccarthy_babcock. cbv zeta. unR.
  split; [lra|]. split; [lra|].
  split; [intros y H; decs; rcases; try lra; field|]. split; [intros y H; decs; rcases; try lra; field|].
  split; [intros y H; decs; rcases; try lra; field|].
  split; apply Rabs_le; decs; lra.
Qed.
Lemma dt_case : dt (N := RNum) 1919 = 5.156 + 13.3066.
Proof. destruct (dt_spec 1919) as (_ & _ & H). rewrite H by lra. unfold mccarthy_babcock. lra. Qed.
