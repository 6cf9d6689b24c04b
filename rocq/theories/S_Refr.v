(** Specification vocabulary for refraction, independent of the models. *)
From Coq Require Import ZArith Reals.
Open Scope R_scope.

(** [x] limited to the range from [lo] to [hi]. *)
Definition clamp (x lo hi : R) : R := Rmin (Rmax x lo) hi.

(** f 0 + ... + f (n-1). *)
Fixpoint sumto (n : nat) (f : nat -> R) : R :=
  match n with O => 0 | S k => sumto k f + f k end.

(** Simpson's rule for [n] strips of width [h] and ordinates g 0, ..., g n. *)
Definition simpson (n : nat) (h : R) (g : nat -> R) : R :=
  h / 3 * (g 0%nat
           + sumto n (fun i => if Nat.eqb i 0 then 0 else if Nat.even i then 2 * g i else 4 * g i)
           + g n).

(** An atmosphere gives the refractive index n(r), and r dn/dr. *)
Definition atmosphere := R -> R * R.
Definition index (a : atmosphere) (r : R) : R := fst (a r).
Definition rdndr (a : atmosphere) (r : R) : R := snd (a r).
(** The integrand of the refraction integral in zenith distance
    (Auer and Standish):  (r dn/dr) / (n + r dn/dr). *)
Definition bending (a : atmosphere) (r : R) : R := rdndr a r / (index a r + rdndr a r).

(** [v] is the integrand for the point of the ray whose zenith distance is [z],
    found from the invariant  r n(r) sin z = k  by a Newton step. *)
Definition sampled (a : atmosphere) (k z v : R) : Prop :=
  exists r, v = bending a r /\
    (sin z > 1 / 10 ^ 20 ->
     exists r', r = r' - (r' * index a r' - k / sin z) / (index a r' + rdndr a r')).

(** Simpson estimates with strips doubled until two successive estimates agree
    to [tol], or there are 16384 strips; every ordinate is used again. *)
Inductive refine (sample : R -> R -> Prop) (z0 range tol : R) : nat -> R -> (nat -> R) -> R -> Prop :=
| refine_stop n prev g :
    Rabs (simpson n (range / INR n) g - prev) <= tol \/ (16384 <= Z.of_nat n)%Z ->
    refine sample z0 range tol n prev g (simpson n (range / INR n) g)
| refine_more n prev g g' v :
    tol < Rabs (simpson n (range / INR n) g - prev) -> (Z.of_nat n < 16384)%Z ->
    (forall i, (i <= n)%nat -> g' (2 * i)%nat = g i) ->
    (forall i, (i < n)%nat -> sample (z0 + range / INR (2 * n) * INR (2 * i + 1)) (g' (2 * i + 1)%nat)) ->
    refine sample z0 range tol (2 * n) (simpson n (range / INR n) g) g' v ->
    refine sample z0 range tol n prev g v.

(** The refraction along the ray with invariant [k] from radius [ra] and zenith
    distance [za] to radius [rb] and zenith distance [zb], by adaptive
    quadrature beginning with eight strips. *)
Definition refraction_between (a : atmosphere) (k ra za rb zb tol v : R) : Prop :=
  exists g : nat -> R,
    g 0%nat = bending a ra /\ g 8%nat = bending a rb /\
    (forall i, (0 < i < 8)%nat -> sampled a k (za + (zb - za) / INR 8 * INR i) (g i)) /\
    refine (sampled a k) za (zb - za) tol 8 1 g v.

(** The ray with invariant [k] has zenith distance [z] at radius [r], unless it
    does not reach that radius; the vertical ray stays vertical. *)
Definition on_ray (a : atmosphere) (k r z : R) : Prop :=
  (k = 0 -> z = 0) /\
  (index a r * r <> 0 -> Rabs k <= Rabs (index a r * r) ->
  index a r * r * sin z = k /\ - (PI / 2) <= z <= PI / 2).

(** The two-term refraction law: refraction as a function of the observed
    zenith distance. *)
Definition law (A B z : R) : R := A * tan z + B * tan z ^ 3.
(** Its first Newton correction at tangent [t]. *)
Definition newton_step (A B t : R) : R :=
  (A * t + B * t ^ 3) / (1 + (A + 3 * B * t ^ 2) * (1 + t ^ 2)).
(** Coefficients found on Earth (A is about 57.6 arcseconds, B about -0.07). *)
Definition terrestrial (A B : R) : Prop := 0 <= A <= 0.0005 /\ -0.000001 <= B <= 0.

(** The high zenith distance model of refz: degrees of refraction at elevation
    [E] degrees. *)
Definition low_elevation (E : R) : R :=
  (0.55445 - 0.01133 * E + 0.00202 * E ^ 2) / (1 + 0.28385 * E + 0.02390 * E ^ 2).
(** Degrees per radian, as the program's literal has it. *)
Definition deg : R := 57.29577951308232.

(** One-iteration refraction leaves [z'] as the observed zenith distance of the
    direction at unrefracted zenith distance [z]; this is how far it misses the
    law.  1 milliarcsecond is about 4.848e-9 radians. *)
Definition miss (A B z z' : R) : R := Rabs (z' + law A B z' - z).
Definition microarcsec : R := PI / (180 * 3600 * 1000000).

(** Saturation pressure (millibars) at [T] kelvins and [P] millibars, and the
    partial pressure of water vapour at relative humidity [h]. *)
Definition saturation_pressure (T P : R) : R :=
  Rpower 10 ((0.7859 + 0.03477 * (T - 273.15)) / (1 + 0.00412 * (T - 273.15))) *
    (1 + P * (4.5 / 10 ^ 6 + 6 / 10 ^ 10 * (T - 273.15) ^ 2)).
Definition water_vapour (T P h : R) : R :=
  h * saturation_pressure T P / (1 - (1 - h) * saturation_pressure T P / P).

(** Refractivity of moist air for light of wavelength [w] micrometres and for
    radio, with water vapour pressure [pw]. *)
Definition optical_refractivity (T P pw w : R) : R :=
  ((77.53484 + 0.439108 / w ^ 2 + 0.003666 / w ^ 4) * P - 11.2684 * pw) / T / 10 ^ 6.
Definition radio_refractivity (T P pw : R) : R :=
  (77.6890 * P - 6.3938 * pw + 375463 * pw / T) / T / 10 ^ 6.
(** Green's coefficients from the refractivity and the scale height ratio. *)
Definition green (g b : R) : R * R := (g * (1 - b), - (g * b) + g ^ 2 / 2).

(** The refractivity used for dispersion. *)
Definition dispersion_refractivity (T P h w : R) : R :=
  ((77.5317 + 0.43909 / w ^ 2 + 0.00367 / w ^ 4) * P - 11.2684 * (h * Rpower 10 (0.03477 * T - 8.7115))) / T / 10 ^ 6.
(** Refractivity at the observer for the ray-tracing model: light of wavelength
    [w] (up to 100 micrometres) or radio. *)
Definition surface_refractivity (T P pw w : R) : R :=
  if Rle_dec w 100
  then ((287.6155 + 1.62887 / w ^ 2 + 0.0136 / w ^ 4) * (273.15 / 1013.25) * P - 11.2684 * pw) / T / 10 ^ 6
  else (77.6890 * P - 6.3938 * pw + 375463 * pw / T) / T / 10 ^ 6.
