(** Models of the plate-model, radial-distortion and air-mass routines, over
    any [Num].  Files are relative to /repo/src. *)
From Coq Require Import ZArith Bool List.
From Verif Require Import Num M_Angle.
Import ListNotations.
Open Scope num_scope.

(** FitCoeffs (slalib.h:330-349): six doubles a..f. *)
Record coeffs (A : Type) := Coeffs { fc_a : A; fc_b : A; fc_c : A; fc_d : A; fc_e : A; fc_f : A }.
Arguments Coeffs {A} _ _ _ _ _ _.
Arguments fc_a {A} _.  Arguments fc_b {A} _.  Arguments fc_c {A} _.
Arguments fc_d {A} _.  Arguments fc_e {A} _.  Arguments fc_f {A} _.

Section Plate.
Context {N : Num}.

(** xy2xy.cc:42-45. *)
Definition xy2xy (x1 y1 : N) (model : coeffs N) : N * N :=
  (fc_a model + fc_b model * x1 + fc_c model * y1, fc_d model + fc_e model * x1 + fc_f model * y1).

(** invf.cc:46-65.  [None] is the false return, which leaves the output
    untouched. *)
Definition invf (model : coeffs N) : option (coeffs N) :=
  let b := fc_b model in let c := fc_c model in let e := fc_e model in let f := fc_f model in
  let det := b * f - c * e in
  if negb (det =? #0) then
    let a := fc_a model in let d := fc_d model in
    Some (Coeffs ((c * d - a * f) / det) (f / det) ((- c) / det) ((a * e - b * d) / det) ((- e) / det) (b / det))
  else None.

(** dcmpf.cc:66-121.  The result is (xz, yz, xs, ys, perp, orient). *)
Record decomp := Decomp { dc_xz : N; dc_yz : N; dc_xs : N; dc_ys : N; dc_perp : N; dc_orient : N }.
Definition dcmpf (model : coeffs N) : decomp :=
  let a := fc_a model in let b := fc_b model in let c := fc_c model in
  let d := fc_d model in let e := fc_e model in let f := fc_f model in
  let rb2e2 := n_sqrt (b * b + e * e) in
  let rc2f2 := n_sqrt (c * c + f * f) in
  let pos := b * f - c * e >=? #0 in
  let xsc := if pos then rb2e2 else - rb2e2 in
  let b := if pos then b else - b in
  let e := if pos then e else - e in
  let ysc := rc2f2 in
  let p1 := if (negb (c =? #0) || negb (f =? #0))%bool then n_atan2 c f else #0 in
  let p2 := if (negb (e =? #0) || negb (b =? #0))%bool then n_atan2 e b else #0 in
  let p := drange (p1 + p2) in
  let ws := c * rb2e2 - e * rc2f2 in
  let wc := b * rc2f2 + f * rb2e2 in
  let orientation := if (negb (ws =? #0) || negb (wc =? #0))%bool then n_atan2 ws wc else #0 in
  let hp := p / #2 in
  let shp := n_sin hp in let chp := n_cos hp in
  let sor := n_sin orientation in let cor := n_cos orientation in
  let det := xsc * ysc * (chp + shp) * (chp - shp) in
  let ok := n_abs det >? #0 in
  let X0 := if ok then ysc * (a * (chp * cor - shp * sor) - d * (chp * sor + shp * cor)) / det else #0 in
  let Y0 := if ok then xsc * (a * (chp * sor - shp * cor) + d * (chp * cor + shp * sor)) / det else #0 in
  Decomp X0 Y0 xsc ysc p orientation.

(** pxy.cc:57-70: the loop from sample [i], [k] samples to go.  [None] is a
    read past the end of a sample array.  Simplification: [predicted] is a
    separate array, so writing it does not disturb the samples still to be
    read; the values written are returned as a list. *)
Fixpoint pxy_loop (k i : nat) (expected measured : list (N * N)) (model : coeffs N)
    (predicted : list (N * N)) (sum_dx2 sum_dy2 : N) : option (list (N * N) * N * N) :=
  match k with
  | O => Some (predicted, sum_dx2, sum_dy2)
  | S k =>
    match nth_error expected i, nth_error measured i with
    | Some (ex, ey), Some (mx, my) =>
      let '(x_predicted, y_predicted) := xy2xy mx my model in
      let dx := ex - x_predicted in
      let dy := ey - y_predicted in
      pxy_loop k (S i) expected measured model (predicted ++ [(x_predicted, y_predicted)])
        (sum_dx2 + dx * dx) (sum_dy2 + dy * dy)
    | _, _ => None
    end
  end.

(** pxy.cc:50-77: (values written to predicted, x_rms, y_rms, rms). *)
Definition pxy (nsamples : Z) (expected measured : list (N * N)) (model : coeffs N) :
    option (list (N * N) * N * N * N) :=
  match pxy_loop (Z.to_nat nsamples) 0 expected measured model [] #0 #0 with
  | Some (predicted, sum_dx2, sum_dy2) =>
    let p := n_max #1 (n_ofZ nsamples) in
    let x_rms := n_sqrt (sum_dx2 / p) in
    let y_rms := n_sqrt (sum_dy2 / p) in
    Some (predicted, x_rms, y_rms, n_sqrt (x_rms * x_rms + y_rms * y_rms))
  | None => None
  end.

(** pcd.cc:49-53. *)
Definition pcd (disco x y : N) : N * N :=
  let f := #1 + disco * (x * x + y * y) in (x * f, y * f).

(** unpcd.cc:56-116. *)
Definition unpcd (disco x y : N) : N * N :=
  let ONE_THIRD := #1 / #3 in
  let rp := n_sqrt (x * x + y * y) in
  if (negb (rp =? #0) && negb (disco =? #0))%bool then
    let q := #1 / (#3 * disco) in
    let r := rp / (#2 * disco) in
    let w := q * q * q + r * r in
    let f :=
      if w >=? #0 then
        let d := n_sqrt w in
        let w := r + d in
        let s1 := f_sign (n_pow (n_abs w) ONE_THIRD) w in
        let w := r - d in
        let t := f_sign (n_pow (n_abs w) ONE_THIRD) w in
        s1 + t
      else
        let w := #2 / n_sqrt ((- #3) * disco) in
        let c := #4 * rp / (disco * w * w * w) in
        let s2 := n_sqrt (#1 - n_min (c * c) #1) in
        let t3 := n_atan2 s2 c in
        let f1 := w * n_cos ((n_2pi - t3) / #3) in
        let f2 := w * n_cos (t3 / #3) in
        let f3 := w * n_cos ((n_2pi + t3) / #3) in
        let w1 := n_abs (f1 - rp) in
        let w2 := n_abs (f2 - rp) in
        let w3 := n_abs (f3 - rp) in
        if w1 <? w2 then (if w1 <? w3 then f1 else f3) else (if w2 <? w3 then f2 else f3) in
    let f := f / rp in
    (f * x, f * y)
  else (x, y).

(** airmas.cc:44-47.  fmin on non-NaN arguments is the smaller. *)
Definition airmas (zenith_dist : N) : N :=
  let seczm1 := #1 / n_cos (n_min (n_lit 152 (-2)) (n_abs zenith_dist)) - #1 in
  #1 + seczm1 * (n_lit 9981833 (-7) - seczm1 * (n_lit 2875 (-6) + n_lit 8083 (-7) * seczm1)).

End Plate.
Arguments decomp N : clear implicits.
