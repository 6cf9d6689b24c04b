(** Independent specification of sexagesimal fields. *)
From Coq Require Import ZArith Reals.
From Verif Require Import Num M_Angle.

(** A canonical set of fields with [p] decimal digits of seconds, and the number
    of units of the last digit it stands for. *)
Definition canonical (p : Z) (f : fields) : Prop :=
  (0 <= fd_h f /\ 0 <= fd_m f < 60 /\ 0 <= fd_s f < 60 /\ 0 <= fd_f f < 10 ^ p)%Z.
Definition units (p : Z) (f : fields) : Z :=
  (((fd_h f * 60 + fd_m f) * 60 + fd_s f) * 10 ^ p + fd_f f)%Z.

(** [n] is the integer nearest to [x] (halves away from zero, [x >= 0]). *)
Definition nearest (x : R) (n : Z) : Prop := (IZR n - / 2 <= x < IZR n + / 2)%R.
