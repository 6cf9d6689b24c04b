(** Vocabulary of the floating-point properties. *)
From Coq Require Import ZArith Reals.
From Flocq Require Import Core BinarySingleNaN.
From Verif Require Import NumB M_Angle.
Open Scope R_scope.

(** The double (float) [x] is finite and stands for the real [a]. *)
Definition value64 (x : double) (a : R) : Prop := is_finite x = true /\ B2R x = a.
Definition value32 (x : single) (a : R) : Prop := is_finite x = true /\ B2R x = a.

(** The constants PI of drange.cc (binary64) and of range.cc (binary32). *)
Definition pi_double : R := 884279719003555 / 281474976710656.
Definition pi_float : R := 13176795 / 4194304.

(** The sign field tells the sign of [a]; a quotient that underflows counts as
    positive. *)
Definition signed_as (f : fields) (a : R) : Prop :=
  (0 <= a -> fd_sign f = true) /\ (a <= - / 1000000000000000000 -> fd_sign f = false).

(** std::pow(10, k) is within 1/2 of 10^k, for the k that matter. *)
Definition pow10_good (lm : libm 53 1024) : Prop := forall k, (0 <= k <= 9)%Z ->
  exists p, value64 (m_pow lm (BofZ 53 1024 10) (BofZ 53 1024 k)) p /\ Rabs (p - IZR (10 ^ k)) < / 2.
