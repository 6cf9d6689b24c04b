(** Specification vocabulary: the accuracy of the single precision library
    functions. *)
From Coq Require Import Reals.
From Flocq Require Import Core BinarySingleNaN.
From Verif Require Import Num NumB S_Binary S_Float.
Open Scope R_scope.

(** sin and cos of every finite float are within [k] of the exact value and not
    above 1 in size. *)
Definition libm32_ok (lm : libm 24 128) (k : R) : Prop :=
  (forall x a, value32 x a -> exists s, value32 (m_sin _ _ lm x) s /\ Rabs s <= 1 /\ Rabs (s - sin a) <= k) /\
  (forall x a, value32 x a -> exists c, value32 (m_cos _ _ lm x) c /\ Rabs c <= 1 /\ Rabs (c - cos a) <= k).
