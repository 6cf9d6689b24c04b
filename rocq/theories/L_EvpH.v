(** evp: velocities in equatorial axes. *)
From Coq Require Import Reals ZArith Lra Lia List.
From Coquelicot Require Import Coquelicot.
From Verif Require Import Num NumR L_Pi L_Real M_Vec M_Epoch M_Frame M_EphTab M_Eph M_EvpTab M_Evp S_Geom S_Frame S_Eph S_Evp L_Vec L_Trig L_Frame L_NutDiff L_Eph L_EphB L_EvpA L_EvpB L_EvpC L_EvpD L_EvpE L_EvpF L_EvpG.
Import ListNotations.
Open Scope R_scope.

(** ** Lengths *)
Lemma norm_le v d : 0 <= d -> dot v v <= d * d -> norm v <= d.
Proof. intros D H. unfold norm. rewrite <- (sqrt_square d D). apply sqrt_le_1_alt. exact H. Qed.
Lemma norm_ge v d : 0 <= d -> d * d <= dot v v -> d <= norm v.
Proof. intros D H. unfold norm. rewrite <- (sqrt_square d D) at 1. apply sqrt_le_1_alt. exact H. Qed.
Lemma norm_eq v d : 0 <= d -> dot v v = d * d -> norm v = d.
Proof. intros D H. apply Rle_antisym; [apply norm_le|apply norm_ge]; lra. Qed.
Lemma polar_norm r l b : norm (polar r l b) = Rabs r.
Proof.
  apply norm_eq; [apply Rabs_pos|]. rewrite <- Rabs_mult, Rabs_pos_eq by nra. unfold polar, dot. cbn [v0 v1 v2].
  pose proof (sc1 l). pose proof (sc1 b).
  replace (r * cos b * cos l * (r * cos b * cos l) + r * cos b * sin l * (r * cos b * sin l) + r * sin b * (r * sin b))
    with (r * r * (cos b * cos b * (sin l * sin l + cos l * cos l) + sin b * sin b)) by ring. rewrite H. replace (cos b * cos b * 1 + sin b * sin b) with 1 by lra. ring.
Qed.
Lemma norm_vsub_sym a b : norm (vsub a b) = norm (vsub b a).
Proof. unfold norm, dot, vsub. cbn [v0 v1 v2]. f_equal. ring. Qed.
Lemma vsub_back (a b : RV) : vadd (vsub a b) b = a.
Proof. apply vec_eq; unfold vadd, vsub; cbn [v0 v1 v2]; ring. Qed.
Lemma norm_apart a b d : norm (vsub a b) <= d -> norm b - d <= norm a <= norm b + d.
Proof.
  intros H. split.
  - pose proof (norm_triangle (vsub b a) a) as T. replace (vadd (vsub b a) a) with b in T
      by (symmetry; apply vsub_back). rewrite norm_vsub_sym in T. lra.
  - pose proof (norm_triangle (vsub a b) b) as T. replace (vadd (vsub a b) b) with a in T
      by (symmetry; apply vsub_back). lra.
Qed.

Lemma eq_of_sub e q a b : eq_of e q (vsub a b) = vsub (eq_of e q a) (eq_of e q b).
Proof. unfold eq_of, vsub. cbn [v0 v1 v2]. f_equal; ring. Qed.
Lemma eq_of_scale e q k a : eq_of e q (scale k a) = scale k (eq_of e q a).
Proof. unfold eq_of, scale. cbn [v0 v1 v2]. f_equal; ring. Qed.
Lemma eq_of_norm e q v : Rabs q <= 1 / 10000 -> norm v <= norm (eq_of e q v) <= 100000001 / 100000000 * norm v.
Proof.
  intros Q. pose proof (norm_nonneg v) as P. pose proof (norm_sq v) as S.
  set (y := cos e * v1 v - sin e * v2 v). set (z := sin e * v1 v + cos e * v2 v).
  assert (YZ : y * y + z * z = v1 v * v1 v + v2 v * v2 v).
  { unfold y, z. pose proof (sc1 e). replace ((cos e * v1 v - sin e * v2 v) * (cos e * v1 v - sin e * v2 v) + (sin e * v1 v + cos e * v2 v) * (sin e * v1 v + cos e * v2 v))
      with ((sin e * sin e + cos e * cos e) * (v1 v * v1 v + v2 v * v2 v)) by ring. rewrite H. ring. }
  assert (D : dot (eq_of e q v) (eq_of e q v) = (v0 v * v0 v + y * y) * (1 + q * q) + z * z).
  { unfold eq_of, dot. fold y z. cbn [v0 v1 v2]. ring. }
  assert (V : dot v v = v0 v * v0 v + (y * y + z * z)) by (rewrite YZ; unfold dot; ring).
  assert (QQ : 0 <= q * q <= 1 / 100000000) by (apply ab in Q; nra).
  assert (W : 0 <= v0 v * v0 v + y * y) by nra. assert (Z : 0 <= z * z) by nra.
  split.
  - apply norm_ge; [exact P|]. rewrite S, V, D. nra.
  - apply norm_le; [nra|]. rewrite D.
    replace (100000001 / 100000000 * norm v * (100000001 / 100000000 * norm v)) with (100000001 / 100000000 * (100000001 / 100000000) * (norm v * norm v)) by ring.
    rewrite S, V. nra.
Qed.

(** ** Derivative *)
Definition qT (t : R) : R := 7.272205216643e-5 * (0.035 + 0.00085 * (1900 + 100 * t - 1949.9997904423)).
Definition obq' (t : R) : R := - 2.271110e-4 - 2 * 2.860401e-8 * t.
Definition qT' : R := 7.272205216643e-5 * (0.00085 * 100).
Lemma qT_bound t : Rabs t <= 10 -> Rabs (qT t) <= 1 / 10000.
Proof. intros T. apply ab in T. unfold qT. apply Rabs_le. lra. Qed.
Lemma obq'_bound t : Rabs t <= 10 -> Rabs (obq' t) <= 228 / 1000000.
Proof. intros T. apply ab in T. unfold obq'. apply Rabs_le. lra. Qed.
Definition turn (t : R) (p : RV) : RV :=
  let y := cos (evp_obliquity t) * v1 p - sin (evp_obliquity t) * v2 p in
  let z := sin (evp_obliquity t) * v1 p + cos (evp_obliquity t) * v2 p in
  V3 (- (qT' * y) + qT t * obq' t * z) (- (obq' t * z) + qT' * v0 p) (obq' t * y).
Definition derives_to (p : R -> RV) (t : R) (v : RV) : Prop :=
  is_derive (fun s => v0 (p s)) t (v0 v) /\ is_derive (fun s => v1 (p s)) t (v1 v) /\ is_derive (fun s => v2 (p s)) t (v2 v).

Lemma eq_derive (x y z e q : R -> R) t x' y' z' e' q' : is_derive x t x' -> is_derive y t y' -> is_derive z t z' -> is_derive e t e' -> is_derive q t q' ->
  derives_to (fun s => eq_of (e s) (q s) (V3 (x s) (y s) (z s))) t
    (vadd (eq_of (e t) (q t) (V3 x' y' z'))
       (V3 (- (q' * (cos (e t) * y t - sin (e t) * z t)) + q t * e' * (sin (e t) * y t + cos (e t) * z t))
           (- (e' * (sin (e t) * y t + cos (e t) * z t)) + q' * x t) (e' * (cos (e t) * y t - sin (e t) * z t)))).
Proof.
  intros X Y Z E Q. unfold derives_to, eq_of, vadd. cbn [v0 v1 v2].
  split; [|split]; (auto_derive; [repeat split; first [exists x'; exact X|exists y'; exact Y|exists z'; exact Z|exists e'; exact E|exists q'; exact Q]|
    unfold Rminus; derives; ring]).
Qed.
Lemma path_derive (p : R -> RV) t v : derives_to p t v ->
  derives_to (fun s => eq_of (evp_obliquity s) (qT s) (p s)) t (vadd (eq_of (evp_obliquity t) (qT t) v) (turn t (p t))).
Proof.
  intros (X & Y & Z).
  assert (E : is_derive evp_obliquity t (obq' t)) by (unfold evp_obliquity, obq'; auto_derive; [easy|lra]).
  assert (Q : is_derive qT t qT') by (unfold qT, qT'; auto_derive; [easy|lra]).
  pose proof (eq_derive _ _ _ _ _ t _ _ _ _ _ X Y Z E Q) as (A & B & C).
  split; [exact A|split; [exact B|exact C]].
Qed.
Lemma date_derive (p : R -> RV) date v : derives_to p (centuries1900 date) v ->
  velocity_at (fun d => p (centuries1900 d)) date (scale (/ 36525) v).
Proof.
  intros (X & Y & Z).
  assert (C : is_derive centuries1900 date (/ 36525)) by (unfold centuries1900; auto_derive; [easy|lra]).
  unfold velocity_at, scale. cbn [v0 v1 v2]. rewrite <- !is_derive_Reals.
  split; [|split]; match goal with |- is_derive (fun d => ?f (p _)) _ _ => apply (is_derive_comp (fun s => f (p s)) centuries1900); assumption end.
Qed.
Lemma equatorial_t date v : equatorial date v = eq_of (evp_obliquity (centuries1900 date)) (qT (centuries1900 date)) v.
Proof. rewrite equatorial_eq. unfold equinox_offset, qT. reflexivity. Qed.

Lemma comp_norm v : Rabs (v0 v) <= norm v /\ Rabs (v1 v) <= norm v /\ Rabs (v2 v) <= norm v.
Proof.
  assert (P : forall x d, 0 <= d -> x * x <= d * d -> Rabs x <= d).
  { intros x d D H. apply Rabs_le. nra. }
  pose proof (norm_nonneg v). pose proof (norm_sq v) as S. unfold dot in S.
  repeat split; apply P; nra.
Qed.
Lemma rot_comp e (p : RV) : Rabs (cos e * v1 p - sin e * v2 p) <= norm p /\ Rabs (sin e * v1 p + cos e * v2 p) <= norm p.
Proof.
  pose proof (comp_norm (eq_of e 0 p)) as (_ & A & B). destruct (eq_of_norm e 0 p ltac:(rewrite Rabs_R0; lra)) as [L U].
  assert (E : norm (eq_of e 0 p) = norm p).
  { apply norm_eq; [apply norm_nonneg|]. rewrite norm_sq. unfold eq_of, dot. cbn [v0 v1 v2]. pose proof (sc1 e).
    replace (v0 p * v0 p + v1 p * v1 p + v2 p * v2 p) with (v0 p * v0 p + (sin e * sin e + cos e * cos e) * (v1 p * v1 p + v2 p * v2 p)) by (rewrite H; ring). ring. }
  rewrite E in A, B. unfold eq_of in A, B. cbn [v0 v1 v2] in A, B. split; [|exact B].
  replace (cos e * v1 p - sin e * v2 p) with (cos e * v1 p - sin e * v2 p + 0 * v0 p) by ring. exact A.
Qed.

(** The rate of the path, seen from the stars, against the ecliptic one. *)
Lemma star_near (t : R) (p v u : RV) (d : R) : Rabs t <= 10 -> norm p <= 103 / 100 -> norm (vsub u (inertial p v)) <= d ->
  norm (vsub (eq_of (evp_obliquity t) (qT t) u)
    (vsub (vadd (eq_of (evp_obliquity t) (qT t) v) (turn t p))
          (scale (5029 * arcsecond) (cross (V3 0 (- sin (evp_obliquity t)) (cos (evp_obliquity t))) (eq_of (evp_obliquity t) (qT t) p)))))
  <= 100000001 / 100000000 * d + 36 / 100000.
Proof.
  intros T P D. set (e := evp_obliquity t). pose proof (qT_bound t T) as Q. pose proof (obq'_bound t T) as O. set (q := qT t) in *.
  set (A := eq_of e q (vsub u (inertial p v))).
  destruct (rot_comp e p) as [Y Z]. destruct (comp_norm p) as (X0 & X1 & X2).
  set (y := cos e * v1 p - sin e * v2 p) in *. set (z := sin e * v1 p + cos e * v2 p) in *.
  set (om := 5029 * arcsecond). assert (OB : Rabs (om - OM) <= 1 / 1000000) by (unfold om, arcsecond; apply Rabs_le; lra).
  set (B := V3 (- (- (qT' * y) + q * obq' t * z) + (om - OM) * - v1 p - (om - OM) * (q * (cos e * v0 p)))
               (obq' t * z - qT' * v0 p + (om - OM) * (cos e * (v0 p - q * y)) + OM * (q * (sin e * z)))
               (- (obq' t * y) + (om - OM) * (sin e * (v0 p - q * y)) - OM * (q * (sin e * y)))).
  match goal with |- norm ?g <= _ => replace g with (vadd A B) end.
  2: { pose proof (sc1 e) as S. unfold A, B, inertial, turn, eq_of, vadd, vsub, scale, cross. cbn [v0 v1 v2]. fold e q. fold y z.
       assert (E1 : v1 p = cos e * y + sin e * z) by (unfold y, z; replace (cos e * (cos e * v1 p - sin e * v2 p) + sin e * (sin e * v1 p + cos e * v2 p)) with ((sin e * sin e + cos e * cos e) * v1 p) by ring; rewrite S; ring).
       f_equal.
       - rewrite E1. ring.
       - rewrite E1. ring.
       - ring. }
  assert (NA : norm A <= 100000001 / 100000000 * d).
  { destruct (eq_of_norm e q (vsub u (inertial p v)) Q) as [_ U]. fold A in U. lra. }
  assert (QB : Rabs qT' <= 7 / 1000000) by (unfold qT'; apply Rabs_le; lra).
  assert (NB : norm B <= 36 / 100000).
  { apply (norm_box _ (15 / 1000000) (250 / 1000000) (245 / 1000000)); unfold B; cbn [v0 v1 v2]; [bnd|bnd|bnd|lra|lra]. }
  pose proof (norm_triangle A B). lra.
Qed.
