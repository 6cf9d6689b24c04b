(** Specification vocabulary for sexagesimal fields held in doubles. *)
From Coq Require Import ZArith Reals.
From Verif Require Import NumB M_Angle S_Binary S_Float.
Open Scope R_scope.

(** The seconds of [f], its fraction being in units of the [q]th decimal. *)
Definition seconds_of (q : Z) (f : fields) : R := IZR (fd_s f) + IZR (fd_f f) / IZR (10 ^ q).
(** The double [s] holds those seconds to within one unit in the last place, as
    the correctly rounded decimal does. *)
Definition seconds64 (q : Z) (f : fields) (s : double) : Prop :=
  exists c, value64 s c /\ Rabs (c - seconds_of q f) <= 2 * u64 * seconds_of q f.
