(** Independent specification for the random numbers and the utilities. *)
From Coq Require Import ZArith Reals List Bool String Ascii Arith.
From Flocq Require Import Core.
From Verif Require Import Num NumR M_Misc.
Import ListNotations.
Open Scope R_scope.

(** What the standard promises of generate_canonical<float>: a float of [0, 1). *)
Definition canonical (E : engine RNum) : Prop :=
  forall g : gs E, 0 <= fst (g_next E g) < 1 /\ generic_format radix2 (FLT_exp (-149) 24) (fst (g_next E g)).

(** The state after [n] numbers from [g], and number [n] counted from zero. *)
Fixpoint state_after {N} (E : engine N) (n : nat) (g : gs E) : gs E :=
  match n with O => g | S n => state_after E n (snd (g_next E g)) end.
Definition draw {N} (E : engine N) (n : nat) (g : gs E) : N := fst (g_next E (state_after E n g)).

(** Point [k] of the square [-1, 1) x [-1, 1) the stream from [g] gives, and the
    square of its distance from the centre. *)
Definition point_x (E : engine RNum) (g : gs E) (k : nat) : R := 2 * draw E (2 * k) g - 1.
Definition point_y (E : engine RNum) (g : gs E) (k : nat) : R := 2 * draw E (2 * k + 1) g - 1.
Definition dist2 (E : engine RNum) (g : gs E) (k : nat) : R := point_x E g k ^ 2 + point_y E g k ^ 2.

(** Decimal logarithm. *)
Definition log10 (x : R) : R := ln x / ln 10.

(** The entries of thread [i], in order. *)
Definition of_thread {A} (i : nat) (l : list (nat * A)) : list A := map snd (filter (fun p => Nat.eqb (fst p) i) l).

(** Text before and after the first [c]. *)
Fixpoint before (c : ascii) (s : string) : string :=
  match s with
  | EmptyString => EmptyString
  | String d s => if Ascii.eqb d c then EmptyString else String d (before c s)
  end.
Fixpoint after (c : ascii) (s : string) : string :=
  match s with
  | EmptyString => EmptyString
  | String d s => if Ascii.eqb d c then s else after c s
  end.
