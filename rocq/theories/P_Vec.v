(** Property theorems C20-C25 (vectors, rotations and spherical coordinates),
    in exact real arithmetic ([RNum]); the aliasing theorems hold for every
    arithmetic.  Vocabulary: S_Geom.  Model: M_Vec, M_Mem. *)
From Coq Require Import ZArith Reals Lra Lia List Ascii String.
From Verif Require Import Num NumR L_Real M_Vec M_Mem S_Geom L_Vec L_Rot L_Mem.
Import ListNotations.
Open Scope R_scope.

(** C20: spherical to Cartesian gives the unit vector of the direction. *)
Theorem C20_dcs2c_unit_vector : forall s : sph RNum,
  dcs2c (N := RNum) s = direction (s_a s) (s_b s) /\ norm (dcs2c (N := RNum) s) = 1.
Proof. exact dcs2c_unit. Qed.
Print Assumptions C20_dcs2c_unit_vector.

Theorem C20_dcc2s_range : forall v : RV, let s := dcc2s (N := RNum) v in
  - PI < s_a s <= PI /\ - (PI / 2) <= s_b s <= PI / 2.
Proof. exact dcc2s_range. Qed.
Print Assumptions C20_dcc2s_range.

(** Cartesian to spherical and back: every vector is its length times the unit
    vector of the direction found for it. *)
Theorem C20_dcc2s_direction : forall v : RV,
  scale (norm v) (dcs2c (N := RNum) (dcc2s (N := RNum) v)) = v.
Proof. exact dcs2c_dcc2s. Qed.
Print Assumptions C20_dcc2s_direction.

(** Spherical to Cartesian and back, also for vectors of any positive length. *)
Theorem C20_dcc2s_dcs2c : forall a b k, - PI < a <= PI -> - (PI / 2) < b < PI / 2 -> 0 < k ->
  dcc2s (N := RNum) (scale k (dcs2c (N := RNum) (Sph (N := RNum) a b))) = Sph (N := RNum) a b.
Proof. exact dcc2s_scale_dcs2c. Qed.
Print Assumptions C20_dcc2s_dcs2c.

Theorem C20_dcc2s_poles_and_origin :
  (forall k, 0 < k -> dcc2s (N := RNum) (V3 0 0 k) = Sph (N := RNum) 0 (PI / 2)) /\
  (forall k, k < 0 -> dcc2s (N := RNum) (V3 0 0 k) = Sph (N := RNum) 0 (- (PI / 2))) /\
  dcc2s (N := RNum) vzero = Sph (N := RNum) 0 0.
Proof. exact dcc2s_special. Qed.
Print Assumptions C20_dcc2s_poles_and_origin.

Example C20_case : - PI < 3 <= PI /\ - (PI / 2) < -1 < PI / 2 /\ dcs2c (N := RNum) (Sph (N := RNum) 0 0) = V3 1 0 0.
Proof. exact C20_example. Qed.

(** C21: the position returned for given spherical coordinates, and the
    velocity is the time derivative of the position of any body that moves
    through those coordinates at the given rates. *)
Theorem C21_ds2c6_position : forall s : sphpv RNum,
  pos (ds2c6 (N := RNum) s) = scale (dist s) (direction (lon s) (lat s)).
Proof. exact ds2c6_position. Qed.
Print Assumptions C21_ds2c6_position.

Theorem C21_ds2c6_velocity : forall (a b r : R -> R) t a' b' r',
  derivable_pt_lim a t a' -> derivable_pt_lim b t b' -> derivable_pt_lim r t r' ->
  let P := fun u => scale (r u) (direction (a u) (b u)) in
  let V := velo (ds2c6 (N := RNum) (SPV (N := RNum) (a t) (b t) (r t) a' b' r')) in
  derivable_pt_lim (fun u => v0 (P u)) t (v0 V) /\
  derivable_pt_lim (fun u => v1 (P u)) t (v1 V) /\
  derivable_pt_lim (fun u => v2 (P u)) t (v2 V).
Proof. exact ds2c6_velocity. Qed.
Print Assumptions C21_ds2c6_velocity.

Theorem C21_dc62s_ds2c6 : forall a b r a' b' r',
  - PI < a <= PI -> - (PI / 2) < b < PI / 2 -> 0 < r ->
  dc62s (N := RNum) (ds2c6 (N := RNum) (SPV (N := RNum) a b r a' b' r')) = SPV (N := RNum) a b r a' b' r'.
Proof. exact dc62s_ds2c6. Qed.
Print Assumptions C21_dc62s_ds2c6.

Theorem C21_ds2c6_dc62s : forall c : vecpv RNum, v0 (pos c) <> 0 \/ v1 (pos c) <> 0 ->
  ds2c6 (N := RNum) (dc62s (N := RNum) c) = c.
Proof. exact ds2c6_dc62s. Qed.
Print Assumptions C21_ds2c6_dc62s.

(** On the polar axis the longitude and both angular rates are reported as 0
    and the radial fields are right. *)
Theorem C21_dc62s_pole : forall z xd yd zd, z <> 0 ->
  dc62s (N := RNum) (VPV (N := RNum) (V3 0 0 z) (V3 xd yd zd)) =
  SPV (N := RNum) 0 (if Rlt_dec 0 z then PI / 2 else - (PI / 2)) (Rabs z) 0 0 (if Rlt_dec 0 z then zd else - zd).
Proof. exact dc62s_pole. Qed.
Print Assumptions C21_dc62s_pole.

(** At the origin the direction reported is that of the velocity, and the
    distance field holds the speed although the distance is 0. *)
Theorem C21_dc62s_origin : forall xd yd zd,
  let s := dc62s (N := RNum) (VPV (N := RNum) vzero (V3 xd yd zd)) in
  dist s = norm (V3 xd yd zd) /\ ddist s = norm (V3 xd yd zd) /\ dlon s = 0 /\ dlat s = 0 /\
  Sph (N := RNum) (lon s) (lat s) = dcc2s (N := RNum) (V3 xd yd zd).
Proof. exact dc62s_null. Qed.
Print Assumptions C21_dc62s_origin.

(** So the distance field is not the length of the position vector there. *)
Theorem C21_distance_is_length_refuted : exists c : vecpv RNum, dist (dc62s (N := RNum) c) <> norm (pos c).
Proof. exact dc62s_distance_refuted. Qed.
Print Assumptions C21_distance_is_length_refuted.

Example C21_case : - PI < 1 <= PI /\ - (PI / 2) < 1 < PI / 2 /\ 0 < 2.
Proof. exact C21_example. Qed.

(** C22: [dav2m v] turns the frame about the direction of [v] by |v|. *)
Theorem C22_dav2m_rotation : forall v : RV, rotation (dav2m (N := RNum) v).
Proof. exact dav2m_rotation. Qed.
Print Assumptions C22_dav2m_rotation.

Theorem C22_dav2m_turns : forall v : RV,
  (v = vzero -> dav2m (N := RNum) v = mident) /\
  (forall n t, dot n n = 1 -> 0 < t -> v = scale t n ->
     forall u, mapply (dav2m (N := RNum) v) u = turned n t u) /\
  mapply (dav2m (N := RNum) v) v = v.
Proof. exact dav2m_turns. Qed.
Print Assumptions C22_dav2m_turns.

Theorem C22_dm2av_dav2m : forall v : RV, norm v < PI -> dm2av (N := RNum) (dav2m (N := RNum) v) = v.
Proof. exact dm2av_dav2m. Qed.
Print Assumptions C22_dm2av_dav2m.

(** Every rotation matrix other than a half turn is recovered from its axial
    vector, whose length is then below pi. *)
Theorem C22_dav2m_dm2av : forall m : RM, rotation m -> trace m <> -1 ->
  dav2m (N := RNum) (dm2av (N := RNum) m) = m /\ norm (dm2av (N := RNum) m) < PI.
Proof. exact dav2m_dm2av. Qed.
Print Assumptions C22_dav2m_dm2av.

(** A half turn about any axis gives the zero vector. *)
Theorem C22_half_turn : forall m : RM, rotation m -> trace m = -1 -> dm2av (N := RNum) m = vzero.
Proof. exact dm2av_half. Qed.
Print Assumptions C22_half_turn.

Theorem C22_round_trip_refuted : exists v, norm v = PI /\ dm2av (N := RNum) (dav2m (N := RNum) v) <> v.
Proof. exact half_turn_exists. Qed.
Print Assumptions C22_round_trip_refuted.

Example C22_case : rotation (frame_z 1) /\ trace (frame_z 1) <> -1 /\ norm (V3 1 0 0) < PI.
Proof. exact C22_example. Qed.

(** C23: [deuler] is the product of the elementary rotations named by the
    leading characters, and that product is unique and a rotation. *)
Theorem C23_deuler_product : forall order phi theta psi,
  euler order [phi; theta; psi] (deuler (N := RNum) order phi theta psi).
Proof. exact deuler_spec. Qed.
Print Assumptions C23_deuler_product.

Theorem C23_product_unique : forall order angles m m', euler order angles m -> euler order angles m' -> m = m'.
Proof. exact euler_det. Qed.
Print Assumptions C23_product_unique.

Theorem C23_deuler_rotation : forall order phi theta psi, rotation (deuler (N := RNum) order phi theta psi).
Proof. exact deuler_rotation. Qed.
Print Assumptions C23_deuler_rotation.

Example C23_case : forall a b c d, euler "zY1x" [a; b; c] (mmul (mmul (mmul mident (frame_x c)) (frame_y b)) (frame_z a))
  /\ euler "z y" [a; d] (mmul mident (frame_z a)).
Proof. exact C23_example. Qed.

(** C24: the matrix kernels compute Mv, transpose(M) v and AB ... *)
Theorem C24_kernels : forall (m a b : RM) (v : RV),
  dmxv (N := RNum) m v = mapply m v /\
  dimxv (N := RNum) m v = mapply (transpose m) v /\
  dmxm (N := RNum) a b = mmul a b /\
  (rotation m -> dimxv (N := RNum) m (dmxv (N := RNum) m v) = v /\ dmxv (N := RNum) m (dimxv (N := RNum) m v) = v).
Proof. exact kernels_spec. Qed.
Print Assumptions C24_kernels.

(** ... and wherever in memory the output is placed (equal to, overlapping or
    disjoint from the inputs), it receives the value computed from the inputs'
    original contents, and no other cell changes.  In any arithmetic. *)
Theorem C24_any_placement : forall (N : Num) (s : @mem N),
  (forall m va vb, vec_at (dmxv_mem m va vb s) vb = dmxv (mat_at s m) (vec_at s va) /\
     forall q, ~ (vb <= q < vb + 3)%Z -> dmxv_mem m va vb s q = s q) /\
  (forall m va vb, vec_at (dimxv_mem m va vb s) vb = dimxv (mat_at s m) (vec_at s va) /\
     forall q, ~ (vb <= q < vb + 3)%Z -> dimxv_mem m va vb s q = s q) /\
  (forall ma mb mc, mat_at (dmxm_mem ma mb mc s) mc = dmxm (mat_at s ma) (mat_at s mb) /\
     forall q, ~ (mc <= q < mc + 9)%Z -> dmxm_mem ma mb mc s q = s q).
Proof. exact any_placement. Qed.
Print Assumptions C24_any_placement.

Example C24_case : vec_at (dmxv_mem (N := RNum) 0 9 9 (fun p => IZR p)) 9 = V3 32 122 212.
Proof. exact C24_example. Qed.

(** C25 *)
Theorem C25_dot_cross : forall a b : RV,
  dvdv (N := RNum) a b = dot a b /\ dvxv (N := RNum) a b = cross a b /\
  dot a (dvxv (N := RNum) a b) = 0 /\ dot b (dvxv (N := RNum) a b) = 0 /\
  dot (dvxv (N := RNum) a b) (dvxv (N := RNum) a b) = dot a a * dot b b - dot a b * dot a b /\
  det (M3 a b (dvxv (N := RNum) a b)) = dot (dvxv (N := RNum) a b) (dvxv (N := RNum) a b).
Proof. exact dot_cross. Qed.
Print Assumptions C25_dot_cross.

Theorem C25_dvn : forall v : RV,
  snd (dvn (N := RNum) v) = norm v /\
  (v = vzero -> fst (dvn (N := RNum) v) = vzero) /\
  (v <> vzero -> norm (fst (dvn (N := RNum) v)) = 1 /\ scale (norm v) (fst (dvn (N := RNum) v)) = v).
Proof. exact dvn_spec. Qed.
Print Assumptions C25_dvn.

(** Cross product with the output anywhere; normalisation with the output
    anywhere except starting inside the input. *)
Theorem C25_any_placement : forall (N : Num) (s : @mem N),
  (forall va vb vc, vec_at (dvxv_mem va vb vc s) vc = dvxv (vec_at s va) (vec_at s vb) /\
     forall q, ~ (vc <= q < vc + 3)%Z -> dvxv_mem va vb vc s q = s q) /\
  (forall va nv, ~ (va < nv < va + 3)%Z ->
     vec_at (fst (dvn_mem va nv s)) nv = fst (dvn (vec_at s va)) /\
     snd (dvn_mem va nv s) = snd (dvn (vec_at s va)) /\
     forall q, ~ (nv <= q < nv + 3)%Z -> fst (dvn_mem va nv s) q = s q).
Proof. exact any_placement_v. Qed.
Print Assumptions C25_any_placement.

(** The exception is real. *)
Theorem C25_dvn_overlap_refuted : exists s : @mem RNum,
  vec_at (fst (dvn_mem 0 1 s)) 1 <> fst (dvn (N := RNum) (vec_at s 0)).
Proof. exact dvn_overlap_refuted. Qed.
Print Assumptions C25_dvn_overlap_refuted.

Example C25_case : fst (dvn (N := RNum) (V3 3 0 4)) = V3 (3 / 5) 0 (4 / 5).
Proof. exact C25_example. Qed.
