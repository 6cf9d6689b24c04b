(** What combinations and permutations are, and what "repeated calls" means. *)
From Coq Require Import ZArith List Sorted Permutation.
From Verif Require Import M_Enum.
Import ListNotations.
Open Scope Z_scope.

(** The list lo, lo+1, ..., lo+n-1. *)
Definition run_of (lo : Z) (n : nat) : list Z := map (fun i => lo + Z.of_nat i) (seq 0 n).

(** An [nsel]-element subset of 1..ncand in ascending order. *)
Definition combination (nsel ncand : Z) (l : list Z) : Prop :=
  Z.of_nat (length l) = nsel /\ StronglySorted Z.lt l /\ Forall (fun x => 1 <= x <= ncand) l.

(** An ordering of 1..n. *)
Definition arrangement (n : Z) (l : list Z) : Prop := Permutation l (run_of 1 (Z.to_nat n)).

(** Binomial coefficients by Pascal's rule. *)
Fixpoint binom (n k : nat) : nat :=
  match n, k with
  | _, O => 1
  | O, S _ => 0
  | S n, S k => binom n k + binom n (S k)
  end.

(** Call number [k] (counting from 0), each call given the array left by the
    one before. *)
Fixpoint combn_call (nsel ncand : Z) (k : nat) (start : list Z) : option (CPStatus * list Z) :=
  match k with
  | O => combn nsel ncand start
  | S k => match combn_call nsel ncand k start with Some (_, a) => combn nsel ncand a | None => None end
  end.
Fixpoint permut_call (n : Z) (k : nat) (state order : list Z) : option (CPStatus * list Z * list Z) :=
  match k with
  | O => permut n state order
  | S k => match permut_call n k state order with Some (_, s, o) => permut n s o | None => None end
  end.

(** [enum] lists each item satisfying [P] exactly once. *)
Definition lists_once {A} (P : A -> Prop) (enum : list A) : Prop :=
  NoDup enum /\ forall x, In x enum <-> P x.

(** Status of call [k] when the sequence has [T] members. *)
Definition cycle_status (T k : nat) : CPStatus :=
  if (Nat.eqb k 0 || negb (Nat.eqb (k mod T) 0))%bool then CPS_OK else CPS_NO_MORE.
