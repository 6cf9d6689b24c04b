(** Model of the integer part of the calendar routines.
    Cited files are relative to /repo/src.  Every [int] operation goes through
    the checked operators of [Int32]; [None] is undefined behaviour. *)
From Coq Require Import ZArith Bool List.
From Verif Require Import Int32.
Import ListNotations.
Open Scope Z_scope.

(** slalib.h:63-68, enum G2JStatus. *)
Inductive G2JStatus := G2J_OK | G2J_BAD_YEAR | G2J_BAD_MONTH | G2J_BAD_DAY.

(** slalib.cc:22-29, process_year_defaults (the guards exclude overflow). *)
Definition process_year_defaults (year : Z) : Z :=
  if (year >=? 0) && (year <=? 49) then year + 2000
  else if (year >=? 50) && (year <=? 99) then year + 1900
  else year.

(** slalib.cc:38-40, the table [days_in_month]. *)
Definition days_in_month : list Z := [31; 0; 31; 30; 31; 30; 31; 31; 30; 31; 30; 31].

(** slalib.cc:31-44, validate_gregorian_day.  The table access is undefined
    behaviour ([None]) when [month - 1] is not in 0..11. *)
Definition validate_gregorian_day (year month day : Z) : option G2JStatus :=
  let days_in_given_month :=
    if month =? 2 then
      Some (if (Z.rem year 4 =? 0) && (negb (Z.rem year 100 =? 0) || (Z.rem year 400 =? 0))
            then 29 else 28)
    else if (1 <=? month) && (month <=? 12)
         then nth_error days_in_month (Z.to_nat (month - 1)) else None in
  match days_in_given_month with
  | None => None
  | Some n => Some (if (day <? 1) || (day >? n) then G2J_BAD_DAY else G2J_OK)
  end.

(** cldj.cc:40-43, the day-number expression (an [int], converted to [double]
    exactly, so the model keeps the integer). *)
Definition cldj_expr (year month day : Z) : cint :=
  (let year := I year in let month := I month in let day := I day in
   (I 1461 * (year - (I 12 - month) / I 10 + I 4712)) / I 4
   + (I 306 * ((month + I 9) %% I 12) + I 5) / I 10
   - (I 3 * ((year - (I 12 - month) / I 10 + I 4900) / I 100)) / I 4
   + day - I 2399904)%cint.

(** cldj.cc:34-52.  Result: [None] = undefined behaviour; otherwise the status
    and the value stored in [mjd], [None] meaning [mjd] is left untouched. *)
Definition cldj (year month day : Z) : option (G2JStatus * option Z) :=
  if year >=? -4699 then
    if (month >=? 1) && (month <=? 12) then
      match cldj_expr year month day with
      | None => None
      | Some v =>
        match validate_gregorian_day year month day with
        | None => None
        | Some st => Some (st, Some v)
        end
      end
    else Some (G2J_BAD_MONTH, None)
  else Some (G2J_BAD_YEAR, None).

(** caldj.cc:38-41. *)
Definition caldj (year month day : Z) : option (G2JStatus * option Z) :=
  cldj (process_year_defaults year) month day.

(** clyd.cc:53-63, the conversion proper; returns (jyear, jday). *)
Definition clyd_expr (year month day : Z) : option (Z * Z) :=
  (let year := I year in let month := I month in let day := I day in
   let i := (I 14 - month) / I 12 in
   let k := year - i in
   let j := (I 1461 * (k + I 4800)) / I 4 + (I 367 * (month - I 2 + I 12 * i)) / I 12 -
            (I 3 * ((k + I 4900) / I 100)) / I 4 + day - I 30660 in
   let k := (j - I 1) / I 1461 in
   let L := j - I 1461 * k in
   let N := (L - I 1) / I 365 - L / I 1461 in
   let j := ((I 80 * (L - I 365 * N + I 30)) / I 2447) / I 11 in
   let i := N + j in
   let jday := I 59 + L - I 365 * i + ((I 4 - N) / I 4) * (I 1 - j) in
   let jyear := I 4 * k + i - I 4716 in
   match jyear, jday with Some y, Some d => Some (y, d) | _, _ => None end)%cint.

(** clyd.cc:47-73. *)
Definition clyd (year month day : Z) : option (G2JStatus * option (Z * Z)) :=
  if year >=? -4711 then
    if (month >=? 1) && (month <=? 12) then
      match clyd_expr year month day with
      | None => None
      | Some v =>
        match validate_gregorian_day year month day with
        | None => None
        | Some st => Some (st, Some v)
        end
      end
    else Some (G2J_BAD_MONTH, None)
  else Some (G2J_BAD_YEAR, None).

(** calyd.cc:49-52. *)
Definition calyd (year month day : Z) : option (G2JStatus * option (Z * Z)) :=
  clyd (process_year_defaults year) month day.

(** djcl.cc:49-56: from the (already rounded) integral day [d] =
    [f_nint(d)] to year, month, day. *)
Definition djcl_date (d : Z) : option (Z * Z * Z) :=
  (let jd := I d + I 2400001 in
   let n4 := I 4 * (jd + ((I 6 * ((I 4 * jd - I 17918) / I 146097)) / I 4 + I 1) / I 2 - I 37) in
   let nd10 := I 10 * (((n4 - I 237) %% I 1461) / I 4) + I 5 in
   let year := n4 / I 1461 - I 4712 in
   let month := ((nd10 / I 306 + I 2) %% I 12) + I 1 in
   let day := (nd10 %% I 306) / I 10 + I 1 in
   match year, month, day with Some y, Some m, Some d => Some (y, m, d) | _, _, _ => None end)%cint.

(** djcal.cc:59-66: the same with a differently associated correction term. *)
Definition djcal_date (d : Z) : option (Z * Z * Z) :=
  (let jd := I d + I 2400001 in
   let n4 := I 4 * (jd + ((I 2 * ((I 4 * jd - I 17918) / I 146097) * I 3) / I 4 + I 1) / I 2 - I 37) in
   let nd10 := I 10 * (((n4 - I 237) %% I 1461) / I 4) + I 5 in
   let year := n4 / I 1461 - I 4712 in
   let month := ((nd10 / I 306 + I 2) %% I 12) + I 1 in
   let day := (nd10 %% I 306) / I 10 + I 1 in
   match year, month, day with Some y, Some m, Some d => Some (y, m, d) | _, _, _ => None end)%cint.
