(** Model of the combination and permutation generators (combn.cc, permut.cc).

    Arrays are lists; reading or writing outside them is undefined behaviour
    ([None]), as is signed overflow.  Index variables are modelled by [nat]:
    they start at 0 or 1 and only grow. *)
From Coq Require Import ZArith List Bool.
From Verif Require Import Int32.
Import ListNotations.
Open Scope Z_scope.

(** slalib.h:86-90, enum CPStatus. *)
Inductive CPStatus := CPS_OK | CPS_NO_MORE | CPS_INVALID_ARG.

(** [a[i]] and [a[i] = v]. *)
Definition aget (a : list Z) (i : nat) : option Z := nth_error a i.
Definition aset (a : list Z) (i : nat) (v : Z) : option (list Z) :=
  if (i <? length a)%nat then Some (firstn i a ++ v :: skipn (S i) a) else None.

Definition bind {A B} (x : option A) (f : A -> option B) : option B :=
  match x with Some a => f a | None => None end.
Notation "'do' x <- e ; f" := (bind e (fun x => f)) (at level 60, x pattern, e at level 60, right associativity).

(** combn.cc:57-61, 87-91 and 98-102: list[j] = j + 1 for [n] values of j from [j0]. *)
Fixpoint fill_up (n j0 : nat) (a : list Z) : option (list Z) :=
  match n with
  | O => Some a
  | S n => do a <- aset a j0 (Z.of_nat (S j0)); fill_up n (S j0) a
  end.

(** combn.cc:66-106, the search from item [i]; [fuel] bounds the number of
    items looked at (at most [nsel]). *)
Fixpoint combn_from (fuel : nat) (nsel i : nat) (ncand : Z) (a : list Z) : option (CPStatus * list Z) :=
  match fuel with
  | O => None
  | S fuel =>
    do list_i <- aget a (i - 1);
    do nmax <- (if (nsel <=? i)%nat then chk (ncand + 1) else aget a i);
    do gap <- chk (nmax - list_i);
    if 1 <? gap then
      do v <- chk (list_i + 1);
      do a <- aset a (i - 1) v;
      do a <- fill_up (i - 1) 0 a;
      Some (CPS_OK, a)
    else if (nsel <=? i)%nat then
      do a <- fill_up nsel 0 a;
      Some (CPS_NO_MORE, a)
    else combn_from fuel nsel (S i) ncand a
  end.

(** combn.cc:50-103. *)
Definition combn (nsel ncand : Z) (a : list Z) : option (CPStatus * list Z) :=
  if (nsel <? 1) || (ncand <? 1) || (nsel >? ncand) then Some (CPS_INVALID_ARG, a)
  else
    do first <- aget a 0;
    if first <? 1 then do a <- fill_up (Z.to_nat nsel) 0 a; Some (CPS_OK, a)
    else combn_from (Z.to_nat nsel) (Z.to_nat nsel) 1 ncand a.

(** permut.cc:55-57: state[i] = 0 for [n] values of i from [i]. *)
Fixpoint zero_from (n i : nat) (a : list Z) : option (list Z) :=
  match n with
  | O => Some a
  | S n => do a <- aset a i 0; zero_from n (S i) a
  end.

(** permut.cc:72-86, [count] values of j from [j]; [n] as in the source. *)
Fixpoint carry_from (count j : nat) (n : Z) (st : CPStatus) (a : list Z) : option (CPStatus * list Z) :=
  match count with
  | O => Some (st, a)
  | S count =>
    do d <- aget a (j - 1);
    if d >=? Z.of_nat j then
      do a <- aset a (j - 1) 0;
      if Z.of_nat j >=? n then carry_from count (S j) n CPS_NO_MORE a
      else
        do e <- aget a j;
        do e <- chk (e + 1);
        do a <- aset a j e;
        carry_from count (S j) n st a
    else carry_from count (S j) n st a
  end.

(** permut.cc:106-108: while (order[slot - 1] > 1) slot++. *)
Fixpoint skip_used (fuel slot : nat) (order : list Z) : option nat :=
  match fuel with
  | O => None
  | S fuel => do v <- aget order (slot - 1); if v >? 1 then skip_used fuel (S slot) order else Some slot
  end.

(** permut.cc:103-109: the body of the loop on skip, [times] times. *)
Fixpoint find_slot (times slot : nat) (order : list Z) : option nat :=
  match times with
  | O => Some slot
  | S times => do slot <- skip_used (S (length order)) (S slot) order; find_slot times slot order
  end.

(** permut.cc:99-112: l from [l] down to 2.  The loop on skip runs state[l-1]+1
    times (not at all when that is negative, leaving slot 0 and the store at
    order[-1] undefined). *)
Fixpoint place_from (l : nat) (state order : list Z) : option (list Z) :=
  match l with
  | S (S _ as l') =>
    do d <- aget state (l - 1);
    if d <? 0 then None
    else
      do slot <- find_slot (Z.to_nat (d + 1)) 0 order;
      do order <- aset order (slot - 1) (Z.of_nat l);
      place_from l' state order
  | _ => Some order
  end.

(** permut.cc:94-96: order[k] = 1. *)
Fixpoint ones_from (n k : nat) (a : list Z) : option (list Z) :=
  match n with
  | O => Some a
  | S n => do a <- aset a k 1; ones_from n (S k) a
  end.

(** permut.cc:46-117: status, state and order.  For n = INT_MAX the increment
    j++ at line 72 overflows. *)
Definition permut (n : Z) (state order : list Z) : option (CPStatus * list Z * list Z) :=
  if n <? 1 then Some (CPS_INVALID_ARG, state, order)
  else
    do first <- aget state 0;
    do state <- (if first <? 0 then do s <- aset state 0 (-1); zero_from (Z.to_nat n - 1) 1 s else Some state);
    do first <- aget state 0;
    do first <- chk (first + 1);
    do state <- aset state 0 first;
    do _ <- chk (n + 1);
    do r <- carry_from (Z.to_nat n) 1 n CPS_OK state;
    do order <- ones_from (Z.to_nat n) 0 order;
    do order <- place_from (Z.to_nat n) (snd r) order;
    Some (fst r, snd r, order).
