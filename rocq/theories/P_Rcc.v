(** Properties of the relativistic clock correction. *)
From Coq Require Import ZArith Reals List Lia Lra Bool.
From Verif Require Import Num NumR M_EphTab M_Eph M_RccTab M_Rcc S_Eph S_Rcc L_EphB L_Rcc.
Import ListNotations.
Open Scope R_scope.

(** For every date, universal time and observer: the value is the sum of the
    diurnal terms, the 787-row Poisson series and the mass adjustment.  The only
    difference is the last digit of the program's decimal 2 pi and pi/180. *)
Theorem C64_value (tdb ut1 cl cda cdp : R) :
  let t := millennia tdb in
  Rabs (rcc (N := RNum) tdb ut1 cl cda cdp - (diurnal t ut1 cl cda cdp + fairhead fb_coeffs t + jpl_masses t))
    <= 1e-30 * (Rabs cda + Rabs cdp).
Proof. exact (rcc_value tdb ut1 cl cda cdp). Qed.
Print Assumptions C64_value.

(** The table has the 787 rows the five powers of t need, and the annual row is
    the only one of the constant block above 22.5 microseconds. *)
Theorem C64_table :
  length fb_coeffs = 787%nat /\
  Forall (fun r => Rabs (decimal (fst (fst r))) <= 22.5e-6) (tl (block 0 474 fb_coeffs)).
Proof.
  split; [ reflexivity | ]. apply Forall_forall. intros [[a f] p] H.
  assert (K : forallb (fun r : term => fine (fst (fst r)) && (mag (fst (fst r)) * 10000000 <=? 225 * unit30)%Z) (tl (block 0 474 fb_coeffs)) = true) by (vm_compute; reflexivity).
  rewrite forallb_forall in K. apply K in H. cbn [fst snd] in *. apply andb_prop in H as [F G]. apply Z.leb_le in G.
  rewrite (abs_decimal _ F). apply IZR_le in G. rewrite !mult_IZR in G. pose proof unit30_pos as U.
  apply Rmult_le_reg_r with (IZR unit30); [ exact U | ]. unfold Rdiv. rewrite Rmult_assoc, Rinv_l by lra. lra.
Qed.
Print Assumptions C64_table.

(** Within a millennium of J2000 the correction is the annual sine of 1.657 ms,
    up to 63.6 + 111 |t| microseconds of planetary terms and the observer's
    share. *)
Theorem C64_annual (tdb ut1 cl cda cdp : R) :
  let t := millennia tdb in Rabs t <= 1 ->
  Rabs (rcc (N := RNum) tdb ut1 cl cda cdp - 0.001656674564 * sin (6283.075849991 * t + 6.240054195))
    <= (63.6 + 111 * Rabs t) / 1000000 + 3.37292e-10 * Rabs cda + 1.3404e-10 * Rabs cdp.
Proof. exact (rcc_annual tdb ut1 cl cda cdp). Qed.
Print Assumptions C64_annual.

(** A clock at the centre of the Earth sees neither the time of day nor the
    longitude. *)
Theorem C64_geocentre (tdb ut1 cl ut1' cl' : R) :
  rcc (N := RNum) tdb ut1 cl 0 0 = rcc (N := RNum) tdb ut1' cl' 0 0.
Proof. now rewrite !rcc_geocentre. Qed.
Print Assumptions C64_geocentre.

(** One within 6400 km of it differs by at most 2.4 microseconds, at any date. *)
Theorem C64_observer (tdb ut1 cl cda cdp ut1' cl' : R) : cda ^ 2 + cdp ^ 2 <= 6400 ^ 2 ->
  Rabs (rcc (N := RNum) tdb ut1 cl cda cdp - rcc (N := RNum) tdb ut1' cl' 0 0) <= 2.4e-6.
Proof.
  intros H. eapply Rle_trans; [ apply rcc_observer | ].
  rewrite <- (pow2_abs cda), <- (pow2_abs cdp) in H. pose proof (Rabs_pos cda) as A. pose proof (Rabs_pos cdp) as B.
  set (x := Rabs cda) in *. set (y := Rabs cdp) in *. clearbody x y.
  pose proof (pow2_ge_0 (1.3404 * x - 3.37292 * y)) as Q.
  assert (K : (3.37292 * x + 1.3404 * y) ^ 2 <= (3.37292 ^ 2 + 1.3404 ^ 2) * 6400 ^ 2) by nra.
  assert (L : (3.37292 * x + 1.3404 * y) ^ 2 <= 24000 ^ 2) by lra.
  assert (3.37292 * x + 1.3404 * y <= 24000); [ | lra ].
  apply Rnot_lt_le. intros C. assert (24000 ^ 2 < (3.37292 * x + 1.3404 * y) ^ 2); [ | lra ].
  replace (24000 ^ 2) with (24000 * 24000) by ring. replace ((3.37292 * x + 1.3404 * y) ^ 2) with ((3.37292 * x + 1.3404 * y) * (3.37292 * x + 1.3404 * y)) by ring.
  apply Rmult_le_0_lt_compat; lra.
Qed.
Print Assumptions C64_observer.

(** The observer's share is linear in the two distances: displacements add, a
    scaled place scales it, the opposite place reverses it. *)
Theorem C64_linear (tdb ut1 cl a b c d k : R) :
  let share x y : R := rcc (N := RNum) tdb ut1 cl x y - rcc (N := RNum) tdb ut1 cl 0 0 in
  share (a + b) (c + d) = share a c + share b d /\ share (k * a) (k * c) = k * share a c.
Proof.
  intros share. destruct (rcc_linear tdb ut1 cl a b c d) as [E F]. unfold share. split.
  - rewrite E. nring.
  - rewrite F. nring.
Qed.
Print Assumptions C64_linear.

(** Whole days of universal time and whole turns of longitude do not count, and
    moving west by an angle is the same as letting that fraction of a day less
    go by. *)
Theorem C64_day (tdb ut1 cl cda cdp a : R) (j k : Z) :
  Rabs (rcc (N := RNum) tdb (ut1 + IZR j + a) (cl + 2 * PI * (IZR k + a)) cda cdp - rcc (N := RNum) tdb ut1 cl cda cdp)
    <= 2e-30 * (Rabs cda + Rabs cdp).
Proof. apply (rcc_turn tdb _ _ _ _ cda cdp (j - k)). rewrite minus_IZR. ring. Qed.
Print Assumptions C64_day.

(** Within a millennium of J2000 the geocentric correction changes by less than
    32 microseconds a day. *)
Theorem C64_rate (tdb tdb' ut1 cl ut1' cl' : R) : Rabs (millennia tdb) <= 1 -> Rabs (millennia tdb') <= 1 ->
  Rabs (rcc (N := RNum) tdb ut1 cl 0 0 - rcc (N := RNum) tdb' ut1' cl' 0 0) <= 3.19e-5 * Rabs (tdb - tdb').
Proof. exact (rcc_rate tdb tdb' ut1 cl ut1' cl'). Qed.
Print Assumptions C64_rate.

(** So terrestrial time, TDB minus the correction, runs forward. *)
Theorem C64_forward (tdb tdb' ut1 cl ut1' cl' : R) : Rabs (millennia tdb) <= 1 -> Rabs (millennia tdb') <= 1 -> tdb < tdb' ->
  tdb - rcc (N := RNum) tdb ut1 cl 0 0 / 86400 < tdb' - rcc (N := RNum) tdb' ut1' cl' 0 0 / 86400.
Proof.
  intros A B L. pose proof (rcc_rate tdb tdb' ut1 cl ut1' cl' A B) as H. rewrite (Rabs_left (tdb - tdb')) in H by lra.
  set (x := rcc (N := RNum) tdb ut1 cl 0 0) in *. set (y := rcc (N := RNum) tdb' ut1' cl' 0 0) in *. clearbody x y.
  change (car RNum) with R in *. apply ab in H. lra.
Qed.
Print Assumptions C64_forward.

(** 2020 January 1 is within a millennium of J2000; an observatory at latitude
    20 degrees is within 6400 km of the centre; the series is not the zero
    function. *)
Example dates_2020 : Rabs (millennia 58849) <= 1 /\ Rabs (millennia 58850) <= 1 /\ (58849 < 58850)%R.
Proof. unfold millennia. repeat split; try apply Rabs_le; lra. Qed.
Example observatory_20 : 5994 ^ 2 + 2168 ^ 2 <= 6400 ^ 2.
Proof. lra. Qed.
Example annual_peak : exists tdb, Rabs (millennia tdb) <= 1 /\ 0.00159 <= rcc (N := RNum) tdb 0 0 0 0.
Proof.
  pose proof L_Pi.PI_bounds as P.
  set (t := (PI / 2 - 6.240054195) / 6283.075849991). exists (51544.5 + 365250 * t).
  assert (E : millennia (51544.5 + 365250 * t) = t) by (unfold millennia; lra).
  assert (B : Rabs t <= 0.001) by (apply Rabs_le; unfold t; lra). rewrite E. split; [ lra | ].
  pose proof (rcc_annual (51544.5 + 365250 * t) 0 0 0 0) as H. rewrite E in H. specialize (H ltac:(lra)).
  unfold annual in H. replace (6283.075849991 * t + 6.240054195) with (PI / 2) in H by (unfold t; lra).
  rewrite sin_PI2, Rabs_R0 in H. set (r := rcc (N := RNum) _ 0 0 0 0) in *. clearbody r. change (car RNum) with R in *.
  apply ab in H. lra.
Qed.
