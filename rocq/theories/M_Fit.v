(** Model of fitxy, over any [Num].  Files are relative to /repo/src. *)
From Coq Require Import ZArith Bool List.
From Verif Require Import Num M_Vec M_Plate M_Lin.
Open Scope num_scope.

(** slalib.h:79-83. *)
Inductive fit_status := FIT_OK | FIT_INSUFFICIENT | FIT_NONE.

Section Fit.
Context {N : Num}.

(** A set of samples (slalib.h:327): sample index to (x, y). *)
Definition samples := nat -> N * N.

(** A sum accumulated in a loop over the samples, from 0.0 (fitxy.cc:88-116
    and 163-183 accumulate several in one loop; the sums do not depend on each
    other). *)
Definition acc (n : nat) (f : nat -> N) : N := for_ 0 n (fun i s => s + f i) #0.

(** An array initialised cell by cell. *)
Definition vec_of (l : list N) : vx N := fun i => nth i l #0.
Definition mat_of (l : list (list N)) : mx N := fun i j => nth j (nth i l nil) #0.

(** fitxy.cc:79-148.  [ws] is the uninitialised workspace. *)
Definition fitxy6 (nsamples : Z) (expected measured : samples) (ws : nat -> nat) (model : coeffs N)
    : fit_status * coeffs N :=
  let n := Z.to_nat nsamples in
  if (3 <=? nsamples)%Z then
    let xe i := fst (expected i) in let ye i := snd (expected i) in
    let xm i := fst (measured i) in let ym i := snd (measured i) in
    let sum_x_expected := acc n xe in
    let sum_xe_xm := acc n (fun i => xe i * xm i) in
    let sum_xe_ym := acc n (fun i => xe i * ym i) in
    let sum_y_expected := acc n ye in
    let sum_ye_ym := acc n (fun i => ye i * ym i) in
    let sum_ye_xm := acc n (fun i => ye i * xm i) in
    let sum_x_measured := acc n xm in
    let sum_y_measured := acc n ym in
    let sum_xm_xm := acc n (fun i => xm i * xm i) in
    let sum_xm_ym := acc n (fun i => xm i * ym i) in
    let sum_ym_ym := acc n (fun i => ym i * ym i) in
    let vec := vec_of (sum_x_expected :: sum_xe_xm :: sum_xe_ym :: nil) in
    let mat3 := mat_of ((n_ofZ nsamples :: sum_x_measured :: sum_y_measured :: nil) ::
                        (sum_x_measured :: sum_xm_xm :: sum_xm_ym :: nil) ::
                        (sum_y_measured :: sum_xm_ym :: sum_ym_ym :: nil) :: nil) in
    let '(singular, mat3, vec, _) := dmat 3 mat3 vec ws in
    if negb singular then
      let m3 := M3 (V3 (mat3 0 0) (mat3 0 1) (mat3 0 2))
                   (V3 (mat3 1 0) (mat3 1 1) (mat3 1 2))
                   (V3 (mat3 2 0) (mat3 2 1) (mat3 2 2)) in
      let r := dmxv m3 (V3 sum_y_expected sum_ye_xm sum_ye_ym) in
      (FIT_OK, Coeffs (vec 0) (vec 1) (vec 2) (v0 r) (v1 r) (v2 r))
    else (FIT_NONE, model)
  else (FIT_INSUFFICIENT, model).

(** fitxy.cc:160-227: one pass; [Some (a, b, c, d, sdr2)], or [None] when the
    matrix is singular (then sdr2 = -1). *)
Definition fit4_pass (nsamples : Z) (expected measured : samples) (ws : nat -> nat) (sign : N)
    : option (N * N * N * N * N) :=
  let n := Z.to_nat nsamples in
  let xe i := fst (expected i) * sign in let ye i := snd (expected i) in
  let xm i := fst (measured i) in let ym i := snd (measured i) in
  let sum_x_expected := acc n xe in
  let sum_xx_yy := acc n (fun i => xe i * xm i + ye i * ym i) in
  let sum_xy_yx := acc n (fun i => xe i * ym i - ye i * xm i) in
  let sum_y_expected := acc n ye in
  let sum_x_measured := acc n xm in
  let sum_y_measured := acc n ym in
  let sum_x2_y2 := acc n (fun i => xm i * xm i + ym i * ym i) in
  let vec := vec_of (sum_x_expected :: sum_xx_yy :: sum_xy_yx :: sum_y_expected :: nil) in
  let mat4 := mat_of ((n_ofZ nsamples :: sum_x_measured :: - sum_y_measured :: #0 :: nil) ::
                      (sum_x_measured :: sum_x2_y2 :: #0 :: sum_y_measured :: nil) ::
                      (sum_y_measured :: #0 :: - sum_x2_y2 :: - sum_x_measured :: nil) ::
                      (#0 :: sum_y_measured :: sum_x_measured :: n_ofZ nsamples :: nil) :: nil) in
  let '(singular, _, vec, _) := dmat 4 mat4 vec ws in
  if negb singular then
    let a := vec 0 in let b := vec 1 in let c := vec 2 in let d := vec 3 in
    let sdr2 := for_ 0 n (fun i sdr2 =>
      let xr := a + b * xm i - c * ym i - fst (expected i) * sign in
      let yr := d + c * xm i + b * ym i - snd (expected i) in
      sdr2 + xr * xr + yr * yr) #0 in
    Some (a, b, c, d, sdr2)
  else None.

(** fitxy.cc:149-262.  The two passes may start from different contents of the
    workspace. *)
Definition fitxy4 (nsamples : Z) (expected measured : samples) (ws ws' : nat -> nat) (model : coeffs N)
    : fit_status * coeffs N :=
  if (2 <=? nsamples)%Z then
    let '(a_old, b_old, c_old, d_old, sdr2_old) :=
      match fit4_pass nsamples expected measured ws #1 with
      | Some s => s
      | None => (#0, #0, #0, #0, #0)      (* the initial values, fitxy.cc:65-69 *)
      end in
    let second := fit4_pass nsamples expected measured ws' (#(-1)) in
    let sdr2 := match second with Some (_, _, _, _, sdr2) => sdr2 | None => #(-1) end in
    if (sdr2_old >=? #0) && ((sdr2_old <=? sdr2) || (nsamples =? 2)%Z) then
      (FIT_OK, Coeffs a_old b_old (- c_old) d_old c_old b_old)
    else match second with
      | Some (a, b, c, d, _) => (FIT_OK, Coeffs (- a) (- b) c d c b)
      | None => (FIT_NONE, model)
      end
  else (FIT_INSUFFICIENT, model).

(** fitxy.cc:54-264. *)
Definition fitxy (sbr : bool) (nsamples : Z) (expected measured : samples) (ws ws' : nat -> nat)
    (model : coeffs N) : fit_status * coeffs N :=
  if negb sbr then fitxy6 nsamples expected measured ws model
  else fitxy4 nsamples expected measured ws ws' model.

End Fit.
Arguments samples N : clear implicits.
