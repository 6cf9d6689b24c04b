(** Properties C37, C38, C53, C58: epochs, TAI-UTC, sidereal time and the
    historical ET-UT estimate.  Specifications in S_Epoch.v; proofs in
    L_Epoch.v and L_Dat.v. *)
From Coq Require Import ZArith Reals Lra List Ascii.
From Verif Require Import Num NumR S_Calendar S_Frame S_Epoch M_Nutc M_Epoch L_Frame L_Epoch L_Dat.
Open Scope R_scope.

(** C37 *)
Theorem C37_epochs : forall mjd, epj (N := RNum) mjd = julian_year mjd /\ epb (N := RNum) mjd = besselian_year mjd.
Proof. exact (fun mjd => conj (epj_spec mjd) (epb_spec mjd)). Qed.
Print Assumptions C37_epochs.

Theorem C37_julian_inverse :
  (forall d, epj2d (N := RNum) (epj (N := RNum) d) = d) /\ (forall y, epj (N := RNum) (epj2d (N := RNum) y) = y).
Proof. exact epj_inverse. Qed.
Print Assumptions C37_julian_inverse.

Theorem C37_besselian_inverse :
  (forall d, epb2d (N := RNum) (epb (N := RNum) d) = d) /\ (forall y, epb (N := RNum) (epb2d (N := RNum) y) = y).
Proof. exact epb_inverse. Qed.
Print Assumptions C37_besselian_inverse.

(** For the designations B, b, J of the result and B, J, j of the argument, epco
    goes through the date; every other pair gives zero. *)
Theorem C37_epco_partial : forall (res given : ascii) (e : R),
  (besselian res \/ res = "J"%char) -> (given = "B"%char \/ julian given) ->
  let kind c := if (Ascii.eqb c "B" || Ascii.eqb c "b")%bool then true else false in
  epco (N := RNum) res given e =
  match kind res, kind given with
  | true, true | false, false => e
  | true, false => besselian_year (epj2d (N := RNum) e)
  | false, true => julian_year (epb2d (N := RNum) e)
  end.
Proof. exact epco_accepted. Qed.
Print Assumptions C37_epco_partial.

Theorem C37_epco_otherwise_zero : forall (res given : ascii) (e : R),
  ~ (besselian res \/ res = "J"%char) \/ ~ (given = "B"%char \/ julian given) -> epco (N := RNum) res given e = 0.
Proof. exact epco_rejected. Qed.
Print Assumptions C37_epco_otherwise_zero.

(** So a documented designation, even the same for both, can give zero. *)
Theorem C37_epco_lowercase_refuted :
  (exists (res given : ascii) (e : R), julian res /\ julian given /\ res = given /\ e <> 0 /\ epco (N := RNum) res given e = 0) /\
  (exists e : R, e <> 0 /\ epco (N := RNum) "J"%char "b"%char e = 0 /\ epco (N := RNum) "J"%char "B"%char e <> 0).
Proof. exact (conj epco_doc epco_doc_b). Qed.
Print Assumptions C37_epco_lowercase_refuted.

Example C37_case : (besselian "b"%char \/ "b"%char = "J"%char) /\ ("j"%char = "B"%char \/ julian "j"%char).
Proof. split; [left; right|right; right]; reflexivity. Qed.

(** C38 *)
Theorem C38_leap_second_dates : Forall (fun p => is_mjd (fst p) (snd p)) leap_seconds /\
  Forall (fun s => is_mjd (sg_from s) (sg_mjd s)) (seg_1960 :: segments).
Proof. exact (conj leap_dates segment_dates). Qed.
Print Assumptions C38_leap_second_dates.

Theorem C38_dat_from_1972 : forall utc, 41317 <= utc -> dat (N := RNum) utc = 10 + INR (leaps_by utc).
Proof. exact dat_leap. Qed.
Print Assumptions C38_dat_from_1972.

Theorem C38_dat_before_1972 : forall utc, utc < 41317 -> dat (N := RNum) utc = seg_value (in_force utc seg_1960 segments) utc.
Proof. exact dat_segments. Qed.
Print Assumptions C38_dat_before_1972.

Theorem C38_dtt : forall utc, dtt (N := RNum) utc = 32.184 + dat (N := RNum) utc.
Proof. exact dtt_spec. Qed.
Print Assumptions C38_dtt.

(** The documented fixed value before 1972 is not what is returned. *)
Theorem C38_dtt_fixed_before_1972_refuted : exists utc, utc < 41317 /\ dtt (N := RNum) utc <> 10 + 32.184.
Proof. exact dtt_not_fixed. Qed.
Print Assumptions C38_dtt_fixed_before_1972_refuted.

Example C38_case : dat (N := RNum) 50000.5 = 29 /\ is_mjd (Dt 1972 1 1) 41317.
Proof. exact dat_case. Qed.

(** C53 *)
Theorem C53_range : forall a b : R, 0 <= gmst (N := RNum) a < 2 * PI /\ 0 <= gmsta (N := RNum) a b < 2 * PI.
Proof. exact (fun a b => conj (proj1 (gmst_spec a)) (proj1 (gmsta_spec a b))). Qed.
Print Assumptions C53_range.

Theorem C53_gmst : forall ut1 : R, Rabs ut1 <= 10000000 -> same_turn 1e-15 (gmst (N := RNum) ut1) (iau1982_gmst ut1).
Proof. exact (fun u => proj2 (gmst_spec u)). Qed.
Print Assumptions C53_gmst.

Theorem C53_gmsta : forall d1 d2 : R, Rabs (d1 + d2) <= 10000000 ->
  same_turn 2e-15 (gmsta (N := RNum) d1 d2) (iau1982_gmst (d1 + d2)).
Proof. exact (fun a b => proj2 (gmsta_spec a b)). Qed.
Print Assumptions C53_gmsta.

Theorem C53_split : forall d1 d2 : R, Rabs (d1 + d2) <= 10000000 ->
  same_turn 3e-15 (gmst (N := RNum) (d1 + d2)) (gmsta (N := RNum) d1 d2).
Proof. exact gmst_gmsta. Qed.
Print Assumptions C53_split.

Theorem C53_argument_order : forall d1 d2 : R, gmsta (N := RNum) d1 d2 = gmsta (N := RNum) d2 d1.
Proof. exact gmsta_sym. Qed.
Print Assumptions C53_argument_order.

Theorem C53_equation_of_equinoxes : forall date, let '(psi, eps, eps0) := nutc (N := RNum) date in
  eqeqx (N := RNum) date = equation_of_equinoxes psi eps0 (centuries_J2000 date).
Proof. exact eqeqx_spec. Qed.
Print Assumptions C53_equation_of_equinoxes.

Example C53_case : Rabs (51544 + 0.75) <= 10000000.
Proof. rewrite Rabs_pos_eq; lra. Qed.

(** C58 *)
Theorem C58_dt_models_meet : exists b1 b2, 979 < b1 < 980 /\ 1708 < b2 < 1709 /\
  (forall y, y < b1 -> dt (N := RNum) y = stephenson_morrison_390BC y) /\
  (forall y, b1 <= y < b2 -> dt (N := RNum) y = stephenson_morrison_948 y) /\
  (forall y, b2 <= y -> dt (N := RNum) y = mccarthy_babcock y) /\
  Rabs (stephenson_morrison_390BC b1 - stephenson_morrison_948 b1) <= 1e-9 /\
  Rabs (stephenson_morrison_948 b2 - mccarthy_babcock b2) <= 1e-9.
Proof. exact dt_continuous. Qed.
Print Assumptions C58_dt_models_meet.

Example C58_case : dt (N := RNum) 1919 = 5.156 + 13.3066.
Proof. exact dt_case. Qed.
