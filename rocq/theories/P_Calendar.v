(** Property theorems C01-C06 (calendar integer arithmetic).
    Vocabulary: [date], [valid], [is_mjd], [ydate] ... are defined in
    S_Calendar; [cldj], [djcl_date], ... are the model (M_Calendar).  An outer
    [None] is undefined behaviour, an inner [None] is "output not written". *)
From Coq Require Import ZArith List.
From Verif Require Import Int32 M_Calendar S_Calendar L_Calendar L_Clyd.
Open Scope Z_scope.

(** C01: on every valid Gregorian date in the supported range, [cldj] reports
    success and its result is the number of days since 1858-11-17, counted one
    calendar day at a time. *)
Theorem C01_cldj_counts_days : forall x : date,
  valid x -> -4699 <= yr x <= 1465160 ->
  exists n, cldj (yr x) (mon x) (dom x) = Some (G2J_OK, Some n) /\ is_mjd x n.
Proof. exact cldj_counts_days. Qed.
Print Assumptions C01_cldj_counts_days.

(** ... and that number is unique, so the theorem pins the output. *)
Theorem C01_day_number_unique : forall x n n',
  valid x -> -4712 <= yr x -> is_mjd x n -> is_mjd x n' -> n = n'.
Proof. exact is_mjd_inj. Qed.
Print Assumptions C01_day_number_unique.

Example C01_case : valid (Dt 2000 2 29) /\ -4699 <= yr (Dt 2000 2 29) <= 1465160 /\
  cldj 2000 2 29 = Some (G2J_OK, Some 51603).
Proof. repeat split; vm_compute; congruence. Qed.

(** C02: the inverse.  For every integral MJD in the range where the code is
    defined, the date is valid and is that many days after the epoch ... *)
Theorem C02_djcl_is_the_date : forall n, -2395520 <= n <= 534459923 ->
  exists x, djcl_date n = Some (yr x, mon x, dom x) /\ valid x /\ is_mjd x n.
Proof. exact djcl_date_spec. Qed.
Print Assumptions C02_djcl_is_the_date.

(** ... and both compositions with [cldj] are the identity. *)
Theorem C02_djcl_of_cldj : forall x n, valid x -> -4699 <= yr x <= 1465160 -> n <= 534459923 ->
  cldj (yr x) (mon x) (dom x) = Some (G2J_OK, Some n) -> djcl_date n = Some (yr x, mon x, dom x).
Proof. exact djcl_cldj. Qed.
Print Assumptions C02_djcl_of_cldj.

Theorem C02_cldj_of_djcl : forall n y m d, -2395215 <= n <= 534459923 -> djcl_date n = Some (y, m, d) ->
  cldj y m d = Some (G2J_OK, Some n).
Proof. exact cldj_djcl. Qed.
Print Assumptions C02_cldj_of_djcl.

Theorem C02_djcal_same_date : forall n, -2395520 <= n <= 534459923 -> djcal_date n = djcl_date n.
Proof. exact djcal_djcl. Qed.
Print Assumptions C02_djcal_same_date.

Example C02_case : djcl_date 51603 = Some (2000, 2, 29) /\ cldj 2000 2 29 = Some (G2J_OK, Some 51603)
  /\ djcl_date (-2395215) = Some (-4699, 1, 1) /\ djcl_date 534459923 = Some (1465160, 6, 12).
Proof. vm_compute. repeat split. Qed.

(** C03: the status says exactly what is wrong, checked in the documented
    order, and the output is written exactly when year and month are
    acceptable; with a bad day it extrapolates linearly. *)
Theorem C03_cldj_status : forall y m d st out, cldj y m d = Some (st, out) ->
  (st = G2J_BAD_YEAR <-> y < -4699) /\
  (st = G2J_BAD_MONTH <-> -4699 <= y /\ ~ 1 <= m <= 12) /\
  (st = G2J_BAD_DAY <-> -4699 <= y /\ 1 <= m <= 12 /\ ~ valid (Dt y m d)) /\
  (st = G2J_OK <-> -4699 <= y /\ valid (Dt y m d)) /\
  (out = None <-> st = G2J_BAD_YEAR \/ st = G2J_BAD_MONTH).
Proof. exact cldj_status. Qed.
Print Assumptions C03_cldj_status.

Theorem C03_cldj_linear_in_day : forall y m d d' st st' v v',
  cldj y m d = Some (st, Some v) -> cldj y m d' = Some (st', Some v') -> v' - v = d' - d.
Proof. exact cldj_linear. Qed.
Print Assumptions C03_cldj_linear_in_day.

Theorem C03_clyd_status : forall y m d st out, clyd y m d = Some (st, out) ->
  (st = G2J_BAD_YEAR <-> y < -4711) /\
  (st = G2J_BAD_MONTH <-> -4711 <= y /\ ~ 1 <= m <= 12) /\
  (st = G2J_BAD_DAY <-> -4711 <= y /\ 1 <= m <= 12 /\ ~ valid (Dt y m d)) /\
  (st = G2J_OK <-> -4711 <= y /\ valid (Dt y m d)) /\
  (out = None <-> st = G2J_BAD_YEAR \/ st = G2J_BAD_MONTH).
Proof. exact clyd_status. Qed.
Print Assumptions C03_clyd_status.

Theorem C03_cldj_defined : forall y m d, INT_MIN <= y <= 1465160 -> INT_MIN <= m <= INT_MAX ->
  -2000000000 <= d <= 1600000000 -> exists r, cldj y m d = Some r.
Proof. exact cldj_total. Qed.
Print Assumptions C03_cldj_defined.

Example C03_case :
  cldj (-4700) 1 1 = Some (G2J_BAD_YEAR, None) /\ cldj 2023 13 1 = Some (G2J_BAD_MONTH, None) /\
  cldj 2023 2 29 = Some (G2J_BAD_DAY, Some 60004) /\ cldj 2023 3 1 = Some (G2J_OK, Some 60004) /\
  cldj 1900 2 29 = Some (G2J_BAD_DAY, Some 15079) /\ cldj 2024 0 40 = Some (G2J_BAD_MONTH, None).
Proof. vm_compute. repeat split. Qed.

(** C04: signed overflow.  The documented domain has no upper year limit; the
    code is defined on exactly the years below. *)
Theorem C04_cldj_defined_iff : forall x, valid x -> -4699 <= yr x <= INT_MAX ->
  cldj (yr x) (mon x) (dom x) = None <-> yr x > 1465160 + (if mon x <=? 2 then 1 else 0).
Proof. exact cldj_defined_iff. Qed.
Print Assumptions C04_cldj_defined_iff.

Theorem C04_clyd_defined_iff : forall x, valid x -> -4711 <= yr x <= INT_MAX ->
  clyd (yr x) (mon x) (dom x) = None <-> yr x > 1465072 + (if mon x <=? 2 then 1 else 0).
Proof. exact clyd_defined_iff. Qed.
Print Assumptions C04_clyd_defined_iff.

(** [djcl] accepts MJDs up to 1e9 (djcl.cc:37) but overflows above 534459923. *)
Theorem C04_djcl_defined_iff : forall n, -2395520 <= n < 1000000000 -> djcl_date n = None <-> n > 534459923.
Proof. exact djcl_defined_iff. Qed.
Print Assumptions C04_djcl_defined_iff.

(** "No accepted input overflows" is therefore false: *)
Theorem C04_no_overflow_refuted :
  (exists n, -2395520 <= n < 1000000000 /\ djcl_date n = None) /\
  (exists x, valid x /\ -4699 <= yr x <= INT_MAX /\ cldj (yr x) (mon x) (dom x) = None) /\
  (exists x, valid x /\ -4711 <= yr x <= INT_MAX /\ clyd (yr x) (mon x) (dom x) = None).
Proof.
  split; [|split].
  - exists 600000000. split; [split; [vm_compute; congruence|reflexivity]|vm_compute; reflexivity].
  - exists (Dt 2000000 1 1). repeat split; vm_compute; congruence.
  - exists (Dt 2000000 1 1). repeat split; vm_compute; congruence.
Qed.
Print Assumptions C04_no_overflow_refuted.

(** C05: two-digit years. *)
Theorem C05_two_digit_years : forall y m d,
  (0 <= y <= 49 -> caldj y m d = cldj (y + 2000) m d /\ calyd y m d = clyd (y + 2000) m d) /\
  (50 <= y <= 99 -> caldj y m d = cldj (y + 1900) m d /\ calyd y m d = clyd (y + 1900) m d) /\
  (y < 0 \/ 100 <= y -> caldj y m d = cldj y m d /\ calyd y m d = clyd y m d).
Proof. exact two_digit_years. Qed.
Print Assumptions C05_two_digit_years.

Example C05_case : caldj 49 1 1 = cldj 2049 1 1 /\ caldj 50 1 1 = Some (G2J_OK, Some 33282) /\
  caldj 100 1 1 = cldj 100 1 1 /\ caldj (-1) 1 1 = cldj (-1) 1 1.
Proof. vm_compute. repeat split. Qed.

(** C06: [clyd] follows an every-fourth-year-leap calendar, one day per day,
    from 4712 BC January 1 on ... *)
Theorem C06_clyd_follows_julian : forall n,
  let x := days_after n (Dt (-4711) 1 1) in yr x <= 1465072 ->
  let r := ydays_after n (Yd (-4711) 52) in
  clyd (yr x) (mon x) (dom x) = Some (G2J_OK, Some (yd_year r, yd_day r)).
Proof. exact clyd_calendar. Qed.
Print Assumptions C06_clyd_follows_julian.

(** ... every valid date is reached by such an [n], and the day is always
    within its year ... *)
Theorem C06_every_date_reached : forall x, valid x -> -4711 <= yr x ->
  exists n, x = days_after n (Dt (-4711) 1 1).
Proof. exact clyd_reaches. Qed.
Print Assumptions C06_every_date_reached.

Theorem C06_day_in_year : forall n, yvalid (ydays_after n (Yd (-4711) 52)).
Proof. intros n. apply yvalid_days_after. vm_compute. split; congruence. Qed.
Print Assumptions C06_day_in_year.

(** ... and it agrees with the Gregorian year and day of the year from
    1901 January 1 to 2100 February 28. *)
Theorem C06_clyd_agrees : forall x, valid x -> 1901 <= yr x <= 2100 -> (yr x = 2100 -> mon x <= 2) ->
  clyd (yr x) (mon x) (dom x) = Some (G2J_OK, Some (yr x, day_of_year x)).
Proof. exact clyd_agrees. Qed.
Print Assumptions C06_clyd_agrees.

(** The header comment (clyd.cc) promises agreement from 1900 March 1; in 1900
    the day is one too large from March 1 to December 31. *)
Theorem C06_agreement_1900_refuted : forall x, valid x -> yr x = 1900 -> 3 <= mon x ->
  clyd (yr x) (mon x) (dom x) = Some (G2J_OK, Some (1900, day_of_year x + 1)).
Proof. exact clyd_1900. Qed.
Print Assumptions C06_agreement_1900_refuted.

Example C06_case : clyd 2000 12 31 = Some (G2J_OK, Some (2000, 366)) /\
  day_of_year (Dt 2000 12 31) = 366 /\ clyd 1900 3 1 = Some (G2J_OK, Some (1900, 61)) /\
  day_of_year (Dt 1900 3 1) = 60 /\ days_after 366 (Dt (-4711) 1 1) = Dt (-4710) 1 2.
Proof. vm_compute. repeat split. Qed.
