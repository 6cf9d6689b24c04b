(** 32-bit signed [int] arithmetic of C++ with undefined behaviour made explicit.

    A value of type [cint] is the outcome of evaluating an [int] expression:
    [Some z] is the value, [None] is undefined behaviour (signed overflow or
    division by zero; C++17 [expr.pre]/4, [expr.mul]/4).  The platform is the
    usual one with a 32-bit [int] (the code uses plain [int] throughout). *)
From Coq Require Import ZArith Bool.
Open Scope Z_scope.

Definition INT_MIN : Z := -2147483648.
Definition INT_MAX : Z := 2147483647.

Definition in_int (z : Z) : bool := (INT_MIN <=? z) && (z <=? INT_MAX).

Definition cint := option Z.

(** Result of a signed operation: defined only when representable. *)
Definition chk (z : Z) : cint := if in_int z then Some z else None.

Definition lift2 (f : Z -> Z -> cint) (a b : cint) : cint :=
  match a, b with Some x, Some y => f x y | _, _ => None end.

Definition iadd : cint -> cint -> cint := lift2 (fun x y => chk (x + y)).
Definition isub : cint -> cint -> cint := lift2 (fun x y => chk (x - y)).
Definition imul : cint -> cint -> cint := lift2 (fun x y => chk (x * y)).
(** [/] truncates toward zero; [%] takes the sign of the dividend. *)
Definition idiv : cint -> cint -> cint :=
  lift2 (fun x y => if y =? 0 then None else chk (Z.quot x y)).
Definition imod : cint -> cint -> cint :=
  lift2 (fun x y => if y =? 0 then None else
                    if in_int (Z.quot x y) then Some (Z.rem x y) else None).

(** Literals and variables (already representable). *)
Definition I (z : Z) : cint := Some z.

Declare Scope cint_scope.
Delimit Scope cint_scope with cint.
Bind Scope cint_scope with cint.
Notation "a + b" := (iadd a b) : cint_scope.
Notation "a - b" := (isub a b) : cint_scope.
Notation "a * b" := (imul a b) : cint_scope.
Notation "a / b" := (idiv a b) : cint_scope.
Notation "a %% b" := (imod a b) (at level 40, left associativity) : cint_scope.
