(** Models of the vector, matrix and coordinate kernels, over any [Num].
    Files are relative to /repo/src; where a float and a double twin exist
    both are cited and the double one gives the line numbers.
    Simplification: array arguments are passed and returned by value here; the
    in-place and overlapping calls are modelled separately in M_Mem. *)
From Coq Require Import ZArith Bool List Ascii String.
From Verif Require Import Num.
Import ListNotations.
Open Scope num_scope.

Section Vec.
Context {N : Num}.

(** slalib.h:137-154, struct Spherical. *)
Record sph := Sph { s_a : N; s_b : N }.

(** dvdv.cc:32-34, vdv.cc:32-34. *)
Definition dvdv (va vb : vec N) : N := v0 va * v0 vb + v1 va * v1 vb + v2 va * v2 vb.

(** dvxv.cc:32-44, vxv.cc:32-44. *)
Definition dvxv (va vb : vec N) : vec N :=
  V3 (v1 va * v2 vb - v2 va * v1 vb) (v2 va * v0 vb - v0 va * v2 vb) (v0 va * v1 vb - v1 va * v0 vb).

(** dvn.cc:34-52, vn.cc:35-53: (unit vector, modulus). *)
Definition dvn (v : vec N) : vec N * N :=
  let modulus := n_sqrt (((#0 + v0 v * v0 v) + v1 v * v1 v) + v2 v * v2 v) in
  let result := modulus in
  let modulus := if modulus <=? #0 then #1 else modulus in
  (V3 (v0 v / modulus) (v1 v / modulus) (v2 v / modulus), result).

(** The inner accumulation loop shared by dmxv.cc:37-41, dimxv.cc:37-41,
    dmxm.cc:38-42 and deuler.cc:133-137. *)
Definition acc3 (a b : vec N) : N := ((#0 + v0 a * v0 b) + v1 a * v1 b) + v2 a * v2 b.
(** Column [j] of a matrix. *)
Definition col0 (m : mat N) : vec N := V3 (v0 (r0 m)) (v0 (r1 m)) (v0 (r2 m)).
Definition col1 (m : mat N) : vec N := V3 (v1 (r0 m)) (v1 (r1 m)) (v1 (r2 m)).
Definition col2 (m : mat N) : vec N := V3 (v2 (r0 m)) (v2 (r1 m)) (v2 (r2 m)).

(** dmxv.cc:33-48, mxv.cc:33-48. *)
Definition dmxv (m : mat N) (va : vec N) : vec N := V3 (acc3 (r0 m) va) (acc3 (r1 m) va) (acc3 (r2 m) va).
(** dimxv.cc:33-47, imxv.cc:33-47. *)
Definition dimxv (m : mat N) (va : vec N) : vec N := V3 (acc3 (col0 m) va) (acc3 (col1 m) va) (acc3 (col2 m) va).
(** dmxm.cc:33-52, mxm.cc:33-52. *)
Definition dmxm (a b : mat N) : mat N :=
  M3 (V3 (acc3 (r0 a) (col0 b)) (acc3 (r0 a) (col1 b)) (acc3 (r0 a) (col2 b)))
     (V3 (acc3 (r1 a) (col0 b)) (acc3 (r1 a) (col1 b)) (acc3 (r1 a) (col2 b)))
     (V3 (acc3 (r2 a) (col0 b)) (acc3 (r2 a) (col1 b)) (acc3 (r2 a) (col2 b))).

(** dcs2c.cc:33-38, cs2c.cc:33-38. *)
Definition dcs2c (s : sph) : vec N :=
  let cos_b := n_cos (s_b s) in
  V3 (n_cos (s_a s) * cos_b) (n_sin (s_a s) * cos_b) (n_sin (s_b s)).

(** dcc2s.cc:36-43, cc2s.cc:36-43. *)
Definition dcc2s (v : vec N) : sph :=
  let x := v0 v in let y := v1 v in let z := v2 v in
  let r := n_sqrt (x * x + y * y) in
  Sph (if r =? #0 then #0 else n_atan2 y x) (if z =? #0 then #0 else n_atan2 z r).

(** slalib.h:166-196, class VectorPV; slalib.h:199-236, class SphericalPV. *)
Record vecpv := VPV { pos : vec N; velo : vec N }.
Record sphpv := SPV { lon : N; lat : N; dist : N; dlon : N; dlat : N; ddist : N }.

(** ds2c6.cc:31-52, cs2c6.cc:31-52. *)
Definition ds2c6 (s : sphpv) : vecpv :=
  let sin_long := n_sin (lon s) in let cos_long := n_cos (lon s) in
  let sin_lat := n_sin (lat s) in let cos_lat := n_cos (lat s) in
  let dist_cos_lat := dist s * cos_lat in
  let x := dist_cos_lat * cos_long in
  let y := dist_cos_lat * sin_long in
  let dist_dlat := dist s * dlat s in
  let w := dist_dlat * sin_lat - cos_lat * ddist s in
  VPV (V3 x y (dist s * sin_lat))
      (V3 (- y * dlon s - w * cos_long) (x * dlon s - w * sin_long) (dist_dlat * cos_lat + sin_lat * ddist s)).

(** dc62s.cc:32-73, cc62s.cc:32-73. *)
Definition dc62s (c : vecpv) : sphpv :=
  let x := v0 (pos c) in let y := v1 (pos c) in let z := v2 (pos c) in
  let xd := v0 (velo c) in let yd := v1 (velo c) in let zd := v2 (velo c) in
  let rxy2 := x * x + y * y in
  let r2 := rxy2 + z * z in
  let '(x, y, z, rxy2, r2) :=
    if r2 =? #0 then (xd, yd, zd, xd * xd + yd * yd, xd * xd + yd * yd + zd * zd) else (x, y, z, rxy2, r2) in
  let rxy := n_sqrt rxy2 in
  let xyp := x * xd + y * yd in
  let d := n_sqrt r2 in
  let rd := if negb (d =? #0) then (xyp + z * zd) / d else #0 in
  if negb (rxy2 =? #0)
  then SPV (n_atan2 y x) (n_atan2 z rxy) d ((x * yd - y * xd) / rxy2) ((zd * rxy2 - z * xyp) / (r2 * rxy)) rd
  else SPV #0 (if negb (z =? #0) then n_atan2 z rxy else #0) d #0 #0 rd.

(** dav2m.cc:34-60, av2m.cc:34-60. *)
Definition dav2m (v : vec N) : mat N :=
  let x := v0 v in let y := v1 v in let z := v2 v in
  let phi := n_sqrt (x * x + y * y + z * z) in
  let sin_phi := n_sin phi in
  let cos_phi := n_cos phi in
  let w := #1 - cos_phi in
  let nz := negb (phi =? #0) in
  let x := if nz then x / phi else x in
  let y := if nz then y / phi else y in
  let z := if nz then z / phi else z in
  M3 (V3 (x * x * w + cos_phi) (x * y * w + z * sin_phi) (x * z * w - y * sin_phi))
     (V3 (x * y * w - z * sin_phi) (y * y * w + cos_phi) (y * z * w + x * sin_phi))
     (V3 (x * z * w + y * sin_phi) (y * z * w - x * sin_phi) (z * z * w + cos_phi)).

(** dm2av.cc:35-52, m2av.cc:35-52. *)
Definition dm2av (m : mat N) : vec N :=
  let x := v2 (r1 m) - v1 (r2 m) in
  let y := v0 (r2 m) - v2 (r0 m) in
  let z := v1 (r0 m) - v0 (r1 m) in
  let s2 := n_sqrt (x * x + y * y + z * z) in
  if negb (s2 =? #0) then
    let c2 := v0 (r0 m) + v1 (r1 m) + v2 (r2 m) - #1 in
    let phi := n_atan2 (s2 / #2) (c2 / #2) in
    let f := phi / s2 in
    V3 (x * f) (y * f) (z * f)
  else V3 #0 #0 #0.

(** deuler.cc:53-60, the identity matrix. *)
Definition ident : mat N := M3 (V3 #1 #0 #0) (V3 #0 #1 #0) (V3 #0 #0 #1).

(** deuler.cc:96-127: the rotation selected by one character, or [None] for an
    unrecognised one. *)
Definition euler_axis (axis : ascii) (sin_a cos_a : N) : option (mat N) :=
  if (Ascii.eqb axis "X" || Ascii.eqb axis "x" || Ascii.eqb axis "1")%bool%char then
    Some (M3 (V3 #1 #0 #0) (V3 #0 cos_a sin_a) (V3 #0 (- sin_a) cos_a))
  else if (Ascii.eqb axis "Y" || Ascii.eqb axis "y" || Ascii.eqb axis "2")%bool%char then
    Some (M3 (V3 cos_a #0 (- sin_a)) (V3 #0 #1 #0) (V3 sin_a #0 cos_a))
  else if (Ascii.eqb axis "Z" || Ascii.eqb axis "z" || Ascii.eqb axis "3")%bool%char then
    Some (M3 (V3 cos_a sin_a #0) (V3 (- sin_a) cos_a #0) (V3 #0 #0 #1))
  else None.

(** deuler.cc:69-145: the loop over the first [min 3 (strlen order)]
    characters, the n-th of which takes the n-th angle.  An unrecognised
    character sets [l = 0], which ends the loop after the identity has been
    applied once.  dmxm's accumulation is textually the one of lines 131-139. *)
Fixpoint euler_loop (order : string) (angles : list N) (result : mat N) : mat N :=
  match order, angles with
  | String c rest, angle :: more =>
    match euler_axis c (n_sin angle) (n_cos angle) with
    | Some rotation => euler_loop rest more (dmxm rotation result)
    | None => dmxm ident result
    end
  | _, _ => result
  end.

(** deuler.cc:52-153; euler.cc:53-63 is deuler followed by rounding to float. *)
Definition deuler (order : string) (phi theta psi : N) : mat N :=
  euler_loop order [phi; theta; psi] ident.

End Vec.
Arguments sph : clear implicits.
Arguments vecpv : clear implicits.
Arguments sphpv : clear implicits.
