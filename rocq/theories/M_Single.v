(** Models of the sexagesimal conversions that mix [float] and [double], at
    binary32 and binary64.  Files are relative to /repo/src. *)
From Coq Require Import ZArith Bool.
From Flocq Require Import Core BinarySingleNaN.
From Verif Require Import Int32 Num NumB M_Angle.

(** The conversions double(x) and (float) x of a value. *)
Definition convert (prec emax prec' emax' : Z) {Hp : Prec_gt_0 prec'} {Hm : Prec_lt_emax prec' emax'}
    (x : binary_float prec emax) : binary_float prec' emax' :=
  match x with
  | B754_zero s => B754_zero s
  | B754_infinity s => B754_infinity s
  | B754_nan => B754_nan
  | B754_finite s m e _ => binary_normalize prec' emax' Hp Hm mode_NE (SpecFloat.cond_Zopp s (Zpos m)) e s
  end.
Definition widen : single -> double := convert 24 128 53 1024.
Definition narrow : double -> single := convert 53 1024 24 128.

Section Single.
Context (lm : libm 53 1024) (lm32 : libm 24 128).

(** cd2tf.cc:34-36. *)
Definition cd2tf (ndp : Z) (days : single) : option fields := dd2tf (N := B64 lm) ndp (widen days).
(** cr2tf.cc:34-39. *)
Definition cr2tf (ndp : Z) (angle : single) : option fields :=
  cd2tf ndp (n_div (angle : B32 lm32) n_2pi).
(** cr2af.cc:34-38. *)
Definition cr2af (ndp : Z) (angle : single) : option fields :=
  cd2tf ndp (n_mul (angle : B32 lm32) (narrow (n_div (n_ofZ 15 : B64 lm) n_2pi))).
End Single.
