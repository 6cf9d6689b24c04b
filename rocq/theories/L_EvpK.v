(** evp: the claims put together. *)
From Coq Require Import Reals Lra.
From Verif Require Import Num NumR M_Vec M_Evp S_Geom S_Frame S_Eph S_Evp L_Vec L_Frame L_EvpI.
Open Scope R_scope.

Lemma evp_any (date e : R) : exists m, rotation m /\ let r := evp (N := RNum) date e in let d := evp (N := RNum) date 0 in
  pos (fst r) = mapply m (pos (fst d)) /\ velo (fst r) = mapply m (velo (fst d)) /\ pos (snd r) = mapply m (pos (snd d)) /\ velo (snd r) = mapply m (velo (snd d)).
Proof.
  destruct (Rlt_dec 0 e) as [E|E].
  - exists (iau1976_precession (julian_year date) e). split; [unfold iau1976_precession; apply precession_rotation|]. exact (evp_frame date e E).
  - exists mident. split; [apply rotation_ident|]. cbv zeta. rewrite (evp_date date e) by lra.
    assert (I : forall v : RV, v = mapply mident v) by (intros v; apply vec_eq; unfold mapply, mident, dot; cbn [v0 v1 v2 r0 r1 r2]; ring).
    repeat split; apply I.
Qed.
Lemma evp_lengths (date e1 e2 : R) :
  let r := evp (N := RNum) date e1 in let s := evp (N := RNum) date e2 in
  norm (pos (fst r)) = norm (pos (fst s)) /\ norm (velo (fst r)) = norm (velo (fst s)) /\
  norm (pos (snd r)) = norm (pos (snd s)) /\ norm (velo (snd r)) = norm (velo (snd s)) /\
  dot (pos (fst r)) (velo (fst r)) = dot (pos (fst s)) (velo (fst s)) /\
  dot (pos (fst r)) (pos (snd r)) = dot (pos (fst s)) (pos (snd s)).
Proof.
  destruct (evp_any date e1) as (m & M & A & B & C & D). destruct (evp_any date e2) as (n & Nn & E & F & G & H). cbv zeta.
  rewrite A, B, C, D, E, F, G, H. rewrite !rotation_norm, !rotation_dot by assumption. repeat split.
Qed.
Lemma evp_orbit (date deqx : R) : Rabs (centuries1900 date) <= 10 ->
  let (h, b) := evp (N := RNum) date deqx in
  0.982 <= norm (pos h) <= 1.019 /\ 1.94e-7 <= norm (velo h) <= 2.04e-7 /\
  norm (vsub (pos b) (pos h)) <= 0.0107 /\ norm (vsub (velo b) (velo h)) <= 1.16e-10.
Proof.
  intros T. pose proof (evp_distance date T) as X. pose proof (evp_speed date T) as Y. destruct (evp_sun date T) as [Z W].
  destruct (evp_any date deqx) as (m & M & A & B & C & D).
  destruct (evp (N := RNum) date deqx) as [h b]. cbn [fst snd] in A, B, C, D. rewrite A, B, C, D.
  assert (L : forall a c : RV, vsub (mapply m a) (mapply m c) = mapply m (vsub a c)) by (intros; apply vec_eq; unfold vsub, mapply, dot; cbn [v0 v1 v2]; ring).
  rewrite !L, !rotation_norm by exact M. repeat split; assumption || apply X || apply Y.
Qed.
Lemma evp_theory (date : R) : Rabs (centuries1900 date) <= 10 ->
  norm (vsub (pos (fst (evp (N := RNum) date 0))) (heliocentric_path date)) <= 2e-9 /\
  norm (vsub (pos (snd (evp (N := RNum) date 0))) (barycentric_path date)) <= 8.3e-9.
Proof. intros T. split; [apply (evp_helio_path date T)|apply (evp_bary_path date T)]. Qed.
Lemma evp_velocity (date : R) : Rabs (centuries1900 date) <= 10 ->
  let (h, b) := evp (N := RNum) date 0 in
  exists wh wb, velocity_at heliocentric_path date wh /\ velocity_at barycentric_path date wb /\
    norm (vsub (velo h) (scale (/ 86400) (star_velocity date (heliocentric_path date) wh))) <= 4.1e-12 /\
    norm (vsub (velo b) (scale (/ 86400) (star_velocity date (barycentric_path date) wb))) <= 7.1e-12.
Proof.
  intros T. destruct (evp_helio_path date T) as (_ & w & A & B). destruct (evp_bary_path date T) as (_ & u & C & D).
  destruct (evp (N := RNum) date 0) as [h b]. cbn [fst snd] in B, D. exists w, u. repeat split; try assumption; apply A || apply C.
Qed.
