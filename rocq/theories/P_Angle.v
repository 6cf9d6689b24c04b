(** Property theorems C09-C13 in exact real arithmetic ([RNum]).
    Vocabulary: S_Angle, S_Sphere.congruent.  Model: M_Angle.  The binary64
    versions are in P_Binary. *)
From Coq Require Import ZArith Reals Lra Lia Bool.
From Verif Require Import Num NumR M_Angle S_Angle S_Sphere L_Angle.
Open Scope R_scope.

(** C09: whatever fields are returned are canonical, stand for the magnitude
    rounded to the requested resolution, and carry its sign. *)
Theorem C09_dd2tf_canonical : forall ndp days f, dd2tf (N := RNum) ndp days = Some f ->
  let q := Z.max ndp 0 in
  canonical q f /\ nearest (IZR (10 ^ q) * 86400 * Rabs days) (units q f) /\ (fd_sign f = true <-> 0 <= days).
Proof. exact dd2tf_spec. Qed.
Print Assumptions C09_dd2tf_canonical.

Theorem C09_dr2tf_canonical : forall ndp angle f, dr2tf (N := RNum) ndp angle = Some f ->
  let q := Z.max ndp 0 in
  canonical q f /\ nearest (IZR (10 ^ q) * 86400 * (Rabs angle / (2 * PI))) (units q f) /\ (fd_sign f = true <-> 0 <= angle).
Proof. exact dr2tf_spec. Qed.
Print Assumptions C09_dr2tf_canonical.

Theorem C09_dr2af_canonical : forall ndp angle f, dr2af (N := RNum) ndp angle = Some f ->
  let q := Z.max ndp 0 in
  canonical q f /\ nearest (IZR (10 ^ q) * 3600 * (Rabs angle * (180 / PI))) (units q f) /\ (fd_sign f = true <-> 0 <= angle).
Proof. exact dr2af_spec. Qed.
Print Assumptions C09_dr2af_canonical.

(** Exactly when the fields are defined: at most nine decimals (the scaling loop
    overflows int beyond), and fewer than 2^31 hours. *)
Theorem C09_dd2tf_defined : forall ndp days, (exists f, dd2tf (N := RNum) ndp days = Some f) <->
  (ndp <= 9)%Z /\ IZR (10 ^ Z.max ndp 0) * 86400 * Rabs days < 2147483648 * 3600 * IZR (10 ^ Z.max ndp 0) - / 2.
Proof. exact dd2tf_defined. Qed.
Print Assumptions C09_dd2tf_defined.

(** The nearest unit count is unique, so the theorems above determine every field. *)
Theorem C09_fields_unique : forall q x f g, (0 <= q)%Z -> canonical q f -> canonical q g ->
  nearest x (units q f) -> nearest x (units q g) -> fd_sign f = fd_sign g -> f = g.
Proof. exact fields_unique. Qed.
Print Assumptions C09_fields_unique.

(** Half an hour less a hair rounds up through seconds and minutes. *)
Example C09_case : dd2tf (N := RNum) 2 (- (1 / 48 - 1 / 86400000)) = Some (Fields 0 30 0 0 false).
Proof. exact dd2tf_example. Qed.

(** C10 *)
Theorem C10_dtf2d_status : forall h m s, let st := fst (dtf2d (N := RNum) h m s) in
  (st = T2D_OK <-> (0 <= h < 24)%Z /\ (0 <= m < 60)%Z /\ 0 <= s < 60) /\
  (st = T2D_BAD_SECONDS <-> ~ 0 <= s < 60) /\
  (st = T2D_BAD_MINUTES <-> 0 <= s < 60 /\ ~ (0 <= m < 60)%Z) /\
  (st = T2D_BAD_HOURS <-> 0 <= s < 60 /\ (0 <= m < 60)%Z /\ ~ (0 <= h < 24)%Z).
Proof. exact dtf2d_cases. Qed.
Print Assumptions C10_dtf2d_status.

Theorem C10_dtf2d_value : forall h m s,
  snd (dtf2d (N := RNum) h m s) * 86400 = IZR h * 3600 + IZR m * 60 + s.
Proof. exact dtf2d_value. Qed.
Print Assumptions C10_dtf2d_value.

Theorem C10_dtf2r : forall h m s, fst (dtf2r (N := RNum) h m s) = fst (dtf2d (N := RNum) h m s) /\
  snd (dtf2r (N := RNum) h m s) = (IZR h * 3600 + IZR m * 60 + s) / 86400 * (2 * PI).
Proof. exact dtf2r_value. Qed.
Print Assumptions C10_dtf2r.

Theorem C10_daf2r_status : forall d m s, let st := fst (daf2r (N := RNum) d m s) in
  (st = D2R_OK <-> (0 <= d < 360)%Z /\ (0 <= m < 60)%Z /\ 0 <= s < 60) /\
  (st = D2R_BAD_DEGREES <-> ~ (0 <= d < 360)%Z) /\
  (st = D2R_BAD_ARCMINUTES <-> (0 <= d < 360)%Z /\ ~ (0 <= m < 60)%Z) /\
  (st = D2R_BAD_ARCSECONDS <-> (0 <= d < 360)%Z /\ (0 <= m < 60)%Z /\ ~ 0 <= s < 60).
Proof. exact daf2r_cases. Qed.
Print Assumptions C10_daf2r_status.

(** The source's constant for one arcsecond in radians is right to 1e-23. *)
Theorem C10_daf2r_value : forall d m s,
  let v := snd (daf2r (N := RNum) d m s) in let arcsec := IZR d * 3600 + IZR m * 60 + s in
  v = arcsec * 4.84813681109535994e-6 /\ Rabs (v - arcsec / 3600 * (PI / 180)) <= Rabs arcsec * 1e-23.
Proof. exact daf2r_value. Qed.
Print Assumptions C10_daf2r_value.

(** The two routines rank several bad fields in opposite orders. *)
Example C10_case : fst (dtf2d (N := RNum) 25 60 60) = T2D_BAD_SECONDS /\ fst (daf2r (N := RNum) 360 60 60) = D2R_BAD_DEGREES.
Proof. exact status_example. Qed.

(** C11 *)
Theorem C11_round_trip : forall ndp days f, dd2tf (N := RNum) ndp days = Some f -> Rabs days < 1 ->
  let q := Z.max ndp 0 in
  let back := dtf2d (N := RNum) (fd_h f) (fd_m f) (IZR (fd_s f) + IZR (fd_f f) / IZR (10 ^ q)) in
  Rabs (days - (if fd_sign f then snd back else - snd back)) <= / 2 / (86400 * IZR (10 ^ q)) /\
  (fst back = T2D_OK \/ fst back = T2D_BAD_HOURS /\ f = Fields 24 0 0 0 (fd_sign f)).
Proof. exact round_trip_full. Qed.
Print Assumptions C11_round_trip.

(** Every interval below a day, and every number of decimals up to 9, is served. *)
Theorem C11_total : forall ndp days, (ndp <= 9)%Z -> Rabs days < 1 -> exists f, dd2tf (N := RNum) ndp days = Some f.
Proof. exact dd2tf_total. Qed.
Print Assumptions C11_total.

(** Rounding can carry to 24 hours, which dtf2d then reports as bad. *)
Example C11_case : dd2tf (N := RNum) 0 (1 - 1 / 864000) = Some (Fields 24 0 0 0 true) /\ fst (dtf2d (N := RNum) 24 0 0) = T2D_BAD_HOURS.
Proof. exact carry_example. Qed.

(** C12 *)
Theorem C12_drange_real : forall a, let r := drange (N := RNum) a in
  congruent a r /\ - PI <= r <= PI /\ (0 <= a -> r < PI) /\ (a <= 0 -> - PI < r).
Proof. exact drange_spec. Qed.
Print Assumptions C12_drange_real.

Theorem C12_drange_real_id : forall a, Rabs a < PI -> drange (N := RNum) a = a.
Proof. exact drange_id. Qed.
Print Assumptions C12_drange_real_id.

(** The half-open range [-pi, pi) is not what the code gives. *)
Theorem C12_half_open_refuted : ~ (forall a, - PI <= drange (N := RNum) a < PI).
Proof. exact drange_half_open_refuted. Qed.
Print Assumptions C12_half_open_refuted.

Example C12_case : drange (N := RNum) (- PI) = PI /\ drange (N := RNum) PI = - PI.
Proof. exact drange_minus_pi. Qed.

(** C13 *)
Theorem C13_dranrm_real : forall a, let r := dranrm (N := RNum) a in congruent a r /\ 0 <= r < 2 * PI.
Proof. exact dranrm_spec. Qed.
Print Assumptions C13_dranrm_real.

Theorem C13_dranrm_real_id : forall a, 0 <= a < 2 * PI -> dranrm (N := RNum) a = a.
Proof. exact dranrm_id. Qed.
Print Assumptions C13_dranrm_real_id.

Example C13_case : dranrm (N := RNum) (- 1) = 2 * PI - 1.
Proof. exact dranrm_example. Qed.
