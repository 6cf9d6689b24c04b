(** Model of obs.cc: the table of observing stations and its search.
    Generated by tools/gen_obs.py from /repo/src/obs.cc. *)
From Coq Require Import ZArith String Ascii List.
From Verif Require Import Num.
Import ListNotations.
Open Scope num_scope.
Local Open Scope string_scope.

Section Obs.
Context {N : Num}.

(** slalib.h:248-254. *)
Record observatory := Obs { o_id : string; o_name : string; o_long : N; o_lat : N; o_height : N }.

(** obs.cc:49-52: the lambda [west]. *)
Definition west (degrees arcmins : Z) (arcsecs : N) : N :=
  n_lit 484813681109535994 (-23) * (n_ofZ (60 * (60 * degrees + arcmins)) + arcsecs).
(** obs.cc:53-55. *)
Definition north (degrees arcmins : Z) (arcsecs : N) : N := west degrees arcmins arcsecs.
(** obs.cc:56-58. *)
Definition east (degrees arcmins : Z) (arcsecs : N) : N := - west degrees arcmins arcsecs.
(** obs.cc:59-61. *)
Definition south (degrees arcmins : Z) (arcsecs : N) : N := - west degrees arcmins arcsecs.

(** obs.cc:64-235. *)
Definition observatories : list observatory :=
@TABLE@.

(** std::strncmp(s, t, n) == 0 as used at obs.cc:248: characters up to the
    n-th are compared; a C string ends with NUL. *)
Fixpoint strncmp_eq (s t : string) (n : nat) : bool :=
  match n with
  | O => true
  | S n =>
    match s, t with
    | EmptyString, EmptyString => true
    | EmptyString, String d _ => Ascii.eqb Ascii.zero d
    | String c _, EmptyString => Ascii.eqb c Ascii.zero
    | String c s, String d t => if Ascii.eqb c d then strncmp_eq s t n else false
    end
  end.

(** obs.cc:244-252: the first entry that matches [id] in its first strlen(id)
    characters. *)
Fixpoint search (id : string) (table : list observatory) : option observatory :=
  match table with
  | [] => None
  | p :: table => if strncmp_eq id (o_id p) (String.length id) then Some p else search id table
  end.

(** obs.cc:47-268.  [id = None] is the null pointer.  The result is the return
    value and the contents of the returned structure. *)
Definition obs (n : Z) (id : option string) : bool * observatory :=
  let o :=
    if (0 <=? n)%Z then (if (n <? 85)%Z then nth_error observatories (Z.to_nat n) else None)
    else match id with None => None | Some id => search id observatories end in
  match o with
  | Some o => (true, Obs (o_id o) (o_name o) (o_long o) (o_lat o) (o_height o))
  | None => (false, Obs "?" "?" (n_ofZ 0) (n_ofZ 0) (n_ofZ 0))
  end.

End Obs.
