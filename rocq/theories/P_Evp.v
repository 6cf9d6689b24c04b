(** Properties C69-C71: evp, the Earth's position and velocity. *)
From Coq Require Import Reals Lra.
From Verif Require Import Num NumR M_Vec M_Evp S_Geom S_Frame S_Eph S_Evp L_Vec L_Frame L_EvpI L_EvpJ L_EvpK.
Open Scope R_scope.

(** The result of evp is the pair heliocentric, barycentric. *)

(** ** C69 frames *)

(** A positive epoch: the vectors of date precessed, all four alike, to the
    mean equator and equinox of that Julian epoch; otherwise the vectors of date. *)
Theorem C69_evp_frame : forall date deqx : R, 0 < deqx ->
  let m := mapply (iau1976_precession (julian_year date) deqx) in
  let r := evp (N := RNum) date deqx in let d := evp (N := RNum) date 0 in
  pos (fst r) = m (pos (fst d)) /\ velo (fst r) = m (velo (fst d)) /\
  pos (snd r) = m (pos (snd d)) /\ velo (snd r) = m (velo (snd d)).
Proof. exact evp_frame. Qed.
Print Assumptions C69_evp_frame.

Theorem C69_evp_of_date : forall date deqx : R, deqx <= 0 -> evp (N := RNum) date deqx = evp (N := RNum) date 0.
Proof. exact evp_date. Qed.
Print Assumptions C69_evp_of_date.

(** So the choice of epoch changes no length and no angle. *)
Theorem C69_evp_lengths : forall date e1 e2 : R,
  let r := evp (N := RNum) date e1 in let s := evp (N := RNum) date e2 in
  norm (pos (fst r)) = norm (pos (fst s)) /\ norm (velo (fst r)) = norm (velo (fst s)) /\
  norm (pos (snd r)) = norm (pos (snd s)) /\ norm (velo (snd r)) = norm (velo (snd s)) /\
  dot (pos (fst r)) (velo (fst r)) = dot (pos (fst s)) (velo (fst s)) /\
  dot (pos (fst r)) (pos (snd r)) = dot (pos (fst s)) (pos (snd s)).
Proof. exact evp_lengths. Qed.
Print Assumptions C69_evp_lengths.

Example C69_example : (0 < 2000 /\ -1 <= 0)%R.
Proof. split; lra. Qed.

(** ** C70 the orbit *)

(** Within ten centuries of 1900 the Earth is between 0.982 and 1.019 AU from
    the Sun and moves at 1.94e-7 to 2.04e-7 AU per second (29.0 to 30.5 km/s),
    opposite, to 5.5e-4 AU, to Newcomb's unperturbed Sun; the Sun itself stays
    within 0.0107 AU of the barycentre and below 1.16e-10 AU per second. *)
Theorem C70_evp_orbit : forall date deqx : R, Rabs (centuries1900 date) <= 10 ->
  let (h, b) := evp (N := RNum) date deqx in
  0.982 <= norm (pos h) <= 1.019 /\ 1.94e-7 <= norm (velo h) <= 2.04e-7 /\
  norm (vsub (pos b) (pos h)) <= 0.0107 /\ norm (vsub (velo b) (velo h)) <= 1.16e-10.
Proof. exact evp_orbit. Qed.
Print Assumptions C70_evp_orbit.

Theorem C70_evp_newcomb : forall date : R, Rabs (centuries1900 date) <= 10 ->
  norm (vadd (pos (fst (evp (N := RNum) date 0))) (newcomb_sun (centuries1900 date))) <= 5.5e-4.
Proof. exact evp_newcomb. Qed.
Print Assumptions C70_evp_newcomb.

(** The positions are, to 2e-9 AU (300 m) and 8.3e-9 AU, those of Stumpff's theory
    evaluated without reducing any angle. *)
Theorem C70_evp_theory : forall date : R, Rabs (centuries1900 date) <= 10 ->
  norm (vsub (pos (fst (evp (N := RNum) date 0))) (heliocentric_path date)) <= 2e-9 /\
  norm (vsub (pos (snd (evp (N := RNum) date 0))) (barycentric_path date)) <= 8.3e-9.
Proof. exact evp_theory. Qed.
Print Assumptions C70_evp_theory.

Example C70_example : Rabs (centuries1900 60000) <= 10.
Proof. unfold centuries1900. apply Rabs_le. lra. Qed.

(** ** C71 velocities *)

(** The velocities are, to 4.1e-12 and 7.1e-12 AU per second (0.6 and 1.1 m/s),
    the derivatives of those positions with respect to the stars. *)
Theorem C71_evp_velocity : forall date : R, Rabs (centuries1900 date) <= 10 ->
  let (h, b) := evp (N := RNum) date 0 in
  exists wh wb, velocity_at heliocentric_path date wh /\ velocity_at barycentric_path date wb /\
    norm (vsub (velo h) (scale (/ 86400) (star_velocity date (heliocentric_path date) wh))) <= 4.1e-12 /\
    norm (vsub (velo b) (scale (/ 86400) (star_velocity date (barycentric_path date) wb))) <= 7.1e-12.
Proof. exact evp_velocity. Qed.
Print Assumptions C71_evp_velocity.

Example C71_example : Rabs (centuries1900 (-300000)) <= 10.
Proof. unfold centuries1900. apply Rabs_le. lra. Qed.
