(** Independent specification of the proleptic Gregorian calendar: month
    lengths, the leap-year rule and "the next day".  Nothing here refers to the
    model of the code. *)
From Coq Require Import ZArith Bool.
Open Scope Z_scope.

Record date := Dt { yr : Z; mon : Z; dom : Z }.

Definition leap (y : Z) : bool :=
  (y mod 4 =? 0) && (negb (y mod 100 =? 0) || (y mod 400 =? 0)).

Definition month_length (y m : Z) : Z :=
  match m with
  | 2 => if leap y then 29 else 28
  | 4 | 6 | 9 | 11 => 30
  | _ => 31
  end.

Definition valid (x : date) : Prop :=
  1 <= mon x <= 12 /\ 1 <= dom x <= month_length (yr x) (mon x).

(** The day after [x]. *)
Definition tomorrow (x : date) : date :=
  if dom x <? month_length (yr x) (mon x) then Dt (yr x) (mon x) (dom x + 1)
  else if mon x <? 12 then Dt (yr x) (mon x + 1) 1
  else Dt (yr x + 1) 1 1.

(** [n] days after [x]. *)
Fixpoint days_after (n : nat) (x : date) : date :=
  match n with O => x | S k => tomorrow (days_after k x) end.

(** MJD 0 is 1858 November 17. *)
Definition mjd_epoch : date := Dt 1858 11 17.

(** [x] is [n] days after the MJD epoch ([n] may be negative). *)
Definition is_mjd (x : date) (n : Z) : Prop :=
  (0 <= n /\ x = days_after (Z.to_nat n) mjd_epoch) \/
  (n < 0 /\ days_after (Z.to_nat (- n)) x = mjd_epoch).

(** A Julian-style calendar given by year and ordinal day, with a leap year
    exactly every four years. *)
Record ydate := Yd { yd_year : Z; yd_day : Z }.
Definition jleap (y : Z) : bool := y mod 4 =? 0.
Definition jyear_length (y : Z) : Z := if jleap y then 366 else 365.
Definition yvalid (x : ydate) : Prop := 1 <= yd_day x <= jyear_length (yd_year x).
Definition ytomorrow (x : ydate) : ydate :=
  if yd_day x <? jyear_length (yd_year x) then Yd (yd_year x) (yd_day x + 1)
  else Yd (yd_year x + 1) 1.

(** Ordinal day of a Gregorian date within its year. *)
Fixpoint days_before_month (y : Z) (k : nat) : Z :=
  match k with O => 0 | S j => days_before_month y j + month_length y (Z.of_nat (S j)) end.
Definition day_of_year (x : date) : Z :=
  days_before_month (yr x) (Z.to_nat (mon x - 1)) + dom x.
Fixpoint ydays_after (n : nat) (x : ydate) : ydate :=
  match n with O => x | S k => ytomorrow (ydays_after k x) end.
