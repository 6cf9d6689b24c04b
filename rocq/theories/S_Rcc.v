(** Independent specification for the relativistic clock correction. *)
From Coq Require Import Reals List ZArith.
From Verif Require Import S_Eph.
Open Scope R_scope.

(** Julian millennia since J2000 of a Modified Julian Date. *)
Definition millennia (date : R) : R := (date - 51544.5) / 365250.

(** Sum of a sin(f t + p) over the rows (a, f, p). *)
Fixpoint sines (l : list ((Z * Z) * (Z * Z) * (Z * Z))) (t : R) : R :=
  match l with
  | nil => 0
  | (a, f, p) :: l => decimal a * sin (decimal f * t + decimal p) + sines l t
  end.

(** The rows from the [lo]-th on, [n] of them, counted from zero. *)
Definition block (lo n : nat) (l : list ((Z * Z) * (Z * Z) * (Z * Z))) := firstn n (skipn lo l).

(** The Poisson series of Fairhead and Bretagnon: 474 rows for t^0, 205 for
    t^1, 85 for t^2, 20 for t^3 and 3 for t^4. *)
Definition fairhead (l : list ((Z * Z) * (Z * Z) * (Z * Z))) (t : R) : R :=
  sines (block 0 474 l) t + t * sines (block 474 205 l) t + t ^ 2 * sines (block 679 85 l) t +
  t ^ 3 * sines (block 764 20 l) t + t ^ 4 * sines (block 784 3 l) t.

(** The correction for the JPL planetary masses. *)
Definition jpl_masses (t : R) : R :=
  0.00065e-6 * sin (6069.776754 * t + 4.021194) + 0.00033e-6 * sin (213.299095 * t + 5.543132)
  - 0.00196e-6 * sin (6208.294251 * t + 5.696701) - 0.00173e-6 * sin (74.781599 * t + 2.435900) + 0.03638e-6 * t ^ 2.

(** Moyer's and Murray's diurnal terms: [S] is the local solar time, [L] and [M]
    the Sun's mean longitude and anomaly, [D] the Moon's elongation, [J] and [Sa]
    the mean longitudes of Jupiter and Saturn; [cda] is the distance from the
    axis, [cdp] that from the equator, in km. *)
Definition degrees (d : R) : R := d * PI / 180.
Definition diurnal (t ut1 cl cda cdp : R) : R :=
  let S := 2 * PI * ut1 - cl in
  let L := degrees (280.46645683 + 1296027711.03429 * t / 3600) in
  let M := degrees (357.52910918 + 1295965810.481 * t / 3600) in
  let D := degrees (297.85019547 + 16029616012.09 * t / 3600) in
  let J := degrees (34.35151874 + 109306899.89453 * t / 3600) in
  let Sa := degrees (50.0774443 + 44046398.47038 * t / 3600) in
  1e-10 * (cda * (3.17679 * sin S - 0.13677 * sin (S + 2 * L) + 0.05312 * sin (S - M) - 0.00229 * sin (S + 2 * L + M)
      + 0.00133 * sin (S + L - J) + 0.00133 * sin (S - D) + 0.00100 * sin (S - 2 * M) + 0.00029 * sin (S + L - Sa))
    - cdp * (1.31840 * cos L + 0.02200 * cos (L + M))).
