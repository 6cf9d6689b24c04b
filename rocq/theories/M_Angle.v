(** Models of angle normalisation and of the sexagesimal conversions, over any
    [Num].  Files are relative to /repo/src.  [None] is undefined behaviour. *)
From Coq Require Import ZArith Bool.
From Verif Require Import Int32 Num M_Calendar.
Open Scope num_scope.

Section Angle.
Context {N : Num}.

(** drange.cc:31-39, range.cc:31-39. *)
Definition drange (angle : N) : N :=
  let result := n_fmod angle n_2pi in
  if n_abs result >=? n_pi then result - f_sign n_2pi angle else result.

(** dranrm.cc:31-38, ranorm.cc:31-38. *)
Definition dranrm (angle : N) : N :=
  let result := n_fmod angle n_2pi in
  if result <? #0 then result + n_2pi else result.

(** slalib.h:297-326, class ConversionResult: four ints and the sign. *)
Record fields := Fields { fd_h : Z; fd_m : Z; fd_s : Z; fd_f : Z; fd_sign : bool }.

(** dd2tf.cc:37-40: the loop [for (i = 0; i < ndp; i++) nrs *= 10]. *)
Fixpoint times10 (k : nat) (nrs : cint) : cint :=
  match k with O => nrs | S k => times10 k (nrs * I 10)%cint end.

(** dd2tf.cc:35-63. *)
Definition dd2tf (ndp : Z) (days : N) : option fields :=
  match times10 (Z.to_nat ndp) (I 1) with
  | None => None
  | Some nrs =>
    let rs := n_ofZ nrs in
    let rm := rs * #60 in
    let rh := rm * #60 in
    let interval := f_anint (rs * #86400 * n_abs days) in
    let hours := f_aint (interval / rh) in
    let interval := interval - hours * rh in
    let minutes := f_aint (interval / rm) in
    let interval := interval - minutes * rm in
    let seconds := f_aint (interval / rs) in
    let fraction := interval - seconds * rs in
    match f_nint hours, f_nint minutes, f_nint seconds, f_nint (n_min fraction (rs - #1)) with
    | Some h, Some m, Some s, Some f =>
      Some (Fields (Z.max h 0) (Z.max (Z.min m 59) 0) (Z.max (Z.min s 59) 0) (Z.max f 0) (days >=? #0))
    | _, _, _, _ => None
    end
  end.

(** dr2tf.cc:34-39; cr2tf.cc:34-39 (in float, then widened by cd2tf). *)
Definition dr2tf (ndp : Z) (angle : N) : option fields := dd2tf ndp (angle / n_2pi).
(** dr2af.cc:34-38; cr2af.cc:34-38. *)
Definition dr2af (ndp : Z) (angle : N) : option fields := dd2tf ndp (angle * (#15 / n_2pi)).

(** slalib.h:71-76 and 55-60. *)
Inductive t2d := T2D_OK | T2D_BAD_HOURS | T2D_BAD_MINUTES | T2D_BAD_SECONDS.
Inductive d2r := D2R_OK | D2R_BAD_DEGREES | D2R_BAD_ARCMINUTES | D2R_BAD_ARCSECONDS.

(** dtf2d.cc:35-46, ctf2d.cc:35-46. *)
Definition dtf2d (hours minutes : Z) (seconds : N) : t2d * N :=
  let result := T2D_OK in
  let result := if ((hours <? 0) || (hours >? 23))%bool%Z then T2D_BAD_HOURS else result in
  let result := if ((minutes <? 0) || (minutes >? 59))%bool%Z then T2D_BAD_MINUTES else result in
  let result := if ((seconds <? #0) || (seconds >=? #60))%bool then T2D_BAD_SECONDS else result in
  (result, (#60 * (#60 * n_ofZ hours + n_ofZ minutes) + seconds) / #86400).

(** dtf2r.cc:35-40, ctf2r.cc:35-40. *)
Definition dtf2r (hours minutes : Z) (seconds : N) : t2d * N :=
  let (result, days) := dtf2d hours minutes seconds in (result, days * n_2pi).

(** daf2r.cc:33-51, caf2r.cc:33-51. *)
Definition daf2r (degrees minutes : Z) (seconds : N) : d2r * N :=
  let status := D2R_OK in
  let status := if ((seconds <? #0) || (seconds >=? #60))%bool then D2R_BAD_ARCSECONDS else status in
  let status := if ((minutes <? 0) || (minutes >? 59))%bool%Z then D2R_BAD_ARCMINUTES else status in
  let status := if ((degrees <? 0) || (degrees >? 359))%bool%Z then D2R_BAD_DEGREES else status in
  (status, ((n_ofZ degrees * #60 + n_ofZ minutes) * #60 + seconds) * n_lit 484813681109535994 (-23)).

(** djcl.cc:36-60.  [Some None]: the call returns true (rejected) and writes
    nothing; [Some (Some (y, m, d, f))]: accepted. *)
Definition djcl (mjd : N) : option (option (Z * Z * Z * N)) :=
  if ((mjd <=? #(-2395520)) || (mjd >=? #1000000000))%bool then Some None
  else
    let f := n_fmod mjd #1 in
    let f := if f <? #0 then f + #1 else f in
    let d := f_anint (mjd - f) in
    match f_nint d with
    | None => None
    | Some n => match djcl_date n with Some (y, m, dd) => Some (Some (y, m, dd, f)) | None => None end
    end.

(** djcal.cc:39-70. *)
Definition djcal (ndp : Z) (mjd : N) : option (option (Z * Z * Z * Z)) :=
  if ((mjd <=? #(-2395520)) || (mjd >=? #1000000000))%bool then Some None
  else
    match n_toZ (n_round (n_pow (#10 : N) (n_ofZ (Z.max ndp 0)))) with
    | None => None
    | Some nfd =>
      let fd := n_ofZ nfd in
      let df := f_anint (mjd * fd) in
      let f := n_fmod df fd in
      let f := if f <? #0 then f + fd else f in
      let d := (df - f) / fd in
      match f_nint d, f_nint f with
      | Some n, Some i =>
        match djcal_date n with Some (y, m, dd) => Some (Some (y, m, dd, i)) | None => None end
      | _, _ => None
      end
    end.

End Angle.
