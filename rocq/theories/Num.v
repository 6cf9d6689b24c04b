(** The arithmetic interface used by the models of floating-point code.

    A model function is written once, over an arbitrary [Num], and is then read
    either over the reals ([NumR.RNum], exact arithmetic) or over IEEE binary64 /
    binary32 ([NumB.B64] / [NumB.B32], round to nearest even, NaNs and
    infinities included).  The [float] and [double] twins in /repo/src are the
    same code at two precisions, so one model serves both.

    [n_lit m e] is the decimal literal [m * 10^e].  The literals the sources
    use for pi and 2 pi (3.14159265358979323846..., 6.28318530717958647692...)
    are the separate constants [n_pi] and [n_2pi]: exactly pi and 2 pi over the
    reals, the correctly rounded literals over binary64/32. *)
From Coq Require Import ZArith Bool.

Record Num : Type := MkNum {
  car :> Type;
  n_lit : Z -> Z -> car;
  n_pi : car;
  n_2pi : car;
  n_ofZ : Z -> car;                     (* int -> floating conversion *)
  n_opp : car -> car;
  n_abs : car -> car;
  n_sqrt : car -> car;
  n_sin : car -> car;
  n_cos : car -> car;
  n_tan : car -> car;
  n_asin : car -> car;
  n_acos : car -> car;
  n_atan : car -> car;
  n_exp : car -> car;
  n_log : car -> car;
  n_trunc : car -> car;                 (* std::trunc *)
  n_round : car -> car;                 (* std::round, halves away from zero *)
  n_add : car -> car -> car;
  n_sub : car -> car -> car;
  n_mul : car -> car -> car;
  n_div : car -> car -> car;
  n_atan2 : car -> car -> car;          (* std::atan2(y, x) *)
  n_fmod : car -> car -> car;
  n_pow : car -> car -> car;
  n_ltb : car -> car -> bool;
  n_leb : car -> car -> bool;
  n_eqb : car -> car -> bool;
  n_toZ : car -> option Z               (* (int) x; None is undefined behaviour *)
}.

Arguments n_lit {_} _ _.
Arguments n_pi {_}.
Arguments n_2pi {_}.
Arguments n_ofZ {_} _.
Arguments n_opp {_} _.
Arguments n_abs {_} _.
Arguments n_sqrt {_} _.
Arguments n_sin {_} _.
Arguments n_cos {_} _.
Arguments n_tan {_} _.
Arguments n_asin {_} _.
Arguments n_acos {_} _.
Arguments n_atan {_} _.
Arguments n_exp {_} _.
Arguments n_log {_} _.
Arguments n_trunc {_} _.
Arguments n_round {_} _.
Arguments n_add {_} _ _.
Arguments n_sub {_} _ _.
Arguments n_mul {_} _ _.
Arguments n_div {_} _ _.
Arguments n_atan2 {_} _ _.
Arguments n_fmod {_} _ _.
Arguments n_pow {_} _ _.
Arguments n_ltb {_} _ _.
Arguments n_leb {_} _ _.
Arguments n_eqb {_} _ _.
Arguments n_toZ {_} _.

Declare Scope num_scope.
Delimit Scope num_scope with num.
Notation "x + y" := (n_add x y) : num_scope.
Notation "x - y" := (n_sub x y) : num_scope.
Notation "x * y" := (n_mul x y) : num_scope.
Notation "x / y" := (n_div x y) : num_scope.
Notation "- x" := (n_opp x) : num_scope.
Notation "x <? y" := (n_ltb x y) : num_scope.
Notation "x <=? y" := (n_leb x y) : num_scope.
Notation "x >? y" := (n_ltb y x) (only parsing) : num_scope.
Notation "x >=? y" := (n_leb y x) (only parsing) : num_scope.
Notation "x =? y" := (n_eqb x y) : num_scope.
(** Integral literal or converted integer. *)
Notation "# z" := (n_ofZ z%Z) (at level 0, z at level 0, format "# z") : num_scope.

(** f77_utils.h:28-31. *)
Definition f_sign {N : Num} (a b : N) : N :=
  let aa := n_abs a in if (b >=? #0)%num then aa else (- aa)%num.
(** f77_utils.h:34; the cast of a non-representable value is undefined. *)
Definition f_nint {N : Num} (x : N) : option Z := n_toZ (n_round x).
(** f77_utils.h:37. *)
Definition f_aint {N : Num} (x : N) : N := n_trunc x.
(** f77_utils.h:40. *)
Definition f_anint {N : Num} (x : N) : N := n_round x.
(** std::min(a, b) = (b < a)? b : a;  std::max(a, b) = (a < b)? b : a. *)
Definition n_min {N : Num} (a b : N) : N := if (b <? a)%num then b else a.
Definition n_max {N : Num} (a b : N) : N := if (a <? b)%num then b else a.

(** Three-component arrays (Vector<T>, slalib.h:101) and 3x3 arrays
    (Matrix<T>, slalib.h:105), as values. *)
Record vec (A : Type) := V3 { v0 : A; v1 : A; v2 : A }.
Arguments V3 {A} _ _ _.  Arguments v0 {A} _.  Arguments v1 {A} _.  Arguments v2 {A} _.
Record mat (A : Type) := M3 { r0 : vec A; r1 : vec A; r2 : vec A }.
Arguments M3 {A} _ _ _.  Arguments r0 {A} _.  Arguments r1 {A} _.  Arguments r2 {A} _.
