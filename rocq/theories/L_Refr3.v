(** Proofs about refz, refv, refcoq and atmdsp. *)
From Coq Require Import ZArith Bool QArith Qreals Reals Lra Lia Psatz.
From Coquelicot Require Import Coquelicot.
From Verif Require Import Num NumR L_Pi L_Real L_Trig L_Frame L_Site M_Refr S_Refr L_Refr.
Open Scope R_scope.

(** * The two-term law *)
Definition law' (A B z : R) : R := 1 + (A + 3 * B * tan z ^ 2) * (1 + tan z ^ 2).
Definition law'' (A B z : R) : R :=
  2 * tan z * (1 + tan z ^ 2) * ((A + 3 * B * tan z ^ 2) + 3 * B * (1 + tan z ^ 2)).

Lemma tan_derive z : cos z <> 0 -> is_derive tan z (1 + tan z ^ 2).
Proof. intros C. unfold tan. auto_derive; [exact C|]. field. exact C. Qed.
Lemma ex_tan z : cos z <> 0 -> ex_derive tan z.
Proof. intros C. eexists. apply tan_derive, C. Qed.
Lemma Derive_tan z : cos z <> 0 -> Derive tan z = 1 + tan z ^ 2.
Proof. intros C. apply is_derive_unique, tan_derive, C. Qed.
Lemma law_derive A B z : cos z <> 0 -> is_derive (fun z => z + law A B z) z (law' A B z).
Proof.
  intros C. unfold law, law'. auto_derive.
  - repeat split; auto using ex_tan.
  - change (Derive (fun x : R => tan x) z) with (Derive tan z). rewrite (Derive_tan z C). ring.
Qed.
Lemma law'_derive A B z : cos z <> 0 -> is_derive (law' A B) z (law'' A B z).
Proof.
  intros C. unfold law', law''. auto_derive.
  - repeat split; auto using ex_tan.
  - change (Derive (fun x : R => tan x) z) with (Derive tan z). rewrite (Derive_tan z C). ring.
Qed.

Lemma cos_sec z : cos z <> 0 -> 1 / (cos z * cos z) = 1 + tan z ^ 2.
Proof.
  intros C. unfold tan. pose proof (sin2_cos2 z) as S. unfold Rsqr in S. field_simplify_eq; [|exact C]. nra.
Qed.

Lemma cos_1455 : 0.1155 <= cos 1.455.
Proof.
  pose proof PI_bounds. destruct (cos_enclosure (Qmake 1455 1000) 4) as [L _].
  - unfold Q2R; cbn [Qnum Qden]. lra.
  - replace 1.455 with (Q2R (Qmake 1455 1000)) by (unfold Q2R; cbn [Qnum Qden]; lra).
    eapply Rle_trans; [|exact L]. replace 0.1155 with (Q2R (Qmake 1155 10000)) by (unfold Q2R; cbn [Qnum Qden]; lra).
    apply Qle_Rle. vm_compute. discriminate.
Qed.
Lemma cos_domain z : Rabs z <= 1.455 -> 0.1155 <= cos z.
Proof.
  intros H. pose proof PI_bounds. apply Rle_trans with (cos 1.455); [apply cos_1455|].
  replace (cos z) with (cos (Rabs z)) by (unfold Rabs; destruct (Rcase_abs z); [apply cos_neg|reflexivity]).
  apply cos_decr_1; pose proof (Rabs_pos z); lra.
Qed.
Lemma tan_domain z : Rabs z <= 1.455 -> tan z ^ 2 <= 74 /\ Rabs (tan z) <= 8.61.
Proof.
  intros H. pose proof (cos_domain z H) as C.
  assert (E : tan z ^ 2 * (cos z * cos z) = 1 - cos z * cos z).
  { unfold tan. pose proof (sin2_cos2 z) as S. unfold Rsqr in S. field_simplify_eq; [nra|lra]. }
  assert (Q : 0.01334 <= cos z * cos z) by nra.
  assert (T : tan z ^ 2 <= 74).
  { apply Rnot_lt_le. intros T. assert (74 * (cos z * cos z) < tan z ^ 2 * (cos z * cos z)) by (apply Rmult_lt_compat_r; lra). lra. }
  split; [exact T|]. apply Rsqr_incr_0_var; [|lra]. rewrite <- Rsqr_abs. unfold Rsqr. nra.
Qed.

Section Terrestrial.
Context (A B : R) (AB : terrestrial A B).

Lemma law_coeff t2 : 0 <= t2 <= 74 -> -0.000074 <= A + B * t2 <= 0.0005 /\ -0.000222 <= A + 3 * B * t2 <= 0.0005 /\
  Rabs (A + 3 * B * t2 + 3 * B * (1 + t2)) <= 0.0005.
Proof.
  intros T. destruct AB as [[A0 A1] [B0 B1]].
  assert (P : -0.000074 <= B * t2 <= 0) by (split; nra).
  split; [lra|]. split; [lra|]. apply Rabs_le. lra.
Qed.
Lemma law_small z : Rabs z <= 1.455 -> Rabs (law A B z) <= 0.004305.
Proof.
  intros H. destruct (tan_domain z H) as [T T']. destruct (law_coeff (tan z ^ 2)) as [C _]; [pose proof (pow2_ge_0 (tan z)); lra|].
  replace (law A B z) with (tan z * (A + B * tan z ^ 2)) by (unfold law; ring). rewrite Rabs_mult.
  apply Rle_trans with (8.61 * 0.0005); [|lra]. apply Rmult_le_compat; try apply Rabs_pos; [exact T'|]. apply Rabs_le. lra.
Qed.
Lemma law'_bounds z : Rabs z <= 1.455 -> 0.983 <= law' A B z <= 1.0375.
Proof.
  intros H. destruct (tan_domain z H) as [T T']. pose proof (pow2_ge_0 (tan z)). destruct (law_coeff (tan z ^ 2)) as [_ [C _]]; [lra|].
  unfold law'. pose proof (Rmult_le_compat_r (1 + tan z ^ 2) _ _ ltac:(lra) (proj1 C)) as P1.
  pose proof (Rmult_le_compat_r (1 + tan z ^ 2) _ _ ltac:(lra) (proj2 C)) as P2. lra.
Qed.
Lemma law''_bound z : Rabs z <= 1.455 -> Rabs (law'' A B z) <= 0.6458.
Proof.
  intros H. destruct (tan_domain z H) as [T T']. pose proof (pow2_ge_0 (tan z)). destruct (law_coeff (tan z ^ 2)) as [_ [_ C]]; [lra|].
  unfold law''. rewrite !Rabs_mult. rewrite (Rabs_pos_eq 2) by lra. rewrite (Rabs_pos_eq (1 + tan z ^ 2)) by lra.
  apply Rle_trans with (2 * 8.61 * 75 * 0.0005); [|lra].
  pose proof (Rabs_pos (tan z)).
  repeat apply Rmult_le_compat; try apply Rabs_pos; try lra; repeat apply Rmult_le_pos; lra.
Qed.
Lemma law'_lip x y : Rabs x <= 1.455 -> Rabs y <= 1.455 -> Rabs (law' A B y - law' A B x) <= 0.6458 * Rabs (y - x).
Proof.
  intros X Y. destruct (MVT_abs (law' A B) (law'' A B) x y) as (c & E & C).
  - intros c C. apply is_derive_Reals, law'_derive.
    assert (D : Rabs c <= 1.455).
    { apply Rabs_le_between in X. apply Rabs_le_between in Y. apply Rabs_le. unfold Rmin, Rmax in C. destruct (Rle_dec x y); lra. }
    pose proof (cos_domain c D). lra.
  - rewrite E. apply Rmult_le_compat_r; [apply Rabs_pos|]. apply law''_bound.
    apply Rabs_le_between in X. apply Rabs_le_between in Y. apply Rabs_le. unfold Rmin, Rmax in C. destruct (Rle_dec x y); lra.
Qed.
Lemma law_second x y : Rabs x <= 1.455 -> Rabs y <= 1.455 ->
  Rabs ((y + law A B y) - (x + law A B x) - law' A B x * (y - x)) <= 0.6458 * (Rabs (y - x) * Rabs (y - x)).
Proof.
  intros X Y. destruct (MVT_abs (fun z => (z + law A B z) - law' A B x * z) (fun z => law' A B z - law' A B x) x y) as (c & E & C).
  - intros c C. apply is_derive_Reals.
    assert (D : Rabs c <= 1.455).
    { apply Rabs_le_between in X. apply Rabs_le_between in Y. apply Rabs_le. unfold Rmin, Rmax in C. destruct (Rle_dec x y); lra. }
    pose proof (cos_domain c D).
    apply (is_derive_minus (fun z => z + law A B z) (fun z => law' A B x * z)); [apply law_derive; lra|].
    auto_derive; [trivial|ring].
  - replace ((y + law A B y) - (x + law A B x) - law' A B x * (y - x)) with (y + law A B y - law' A B x * y - (x + law A B x - law' A B x * x)) by ring.
    rewrite E, <- Rmult_assoc. apply Rmult_le_compat_r; [apply Rabs_pos|].
    assert (D : Rabs c <= 1.455 /\ Rabs (c - x) <= Rabs (y - x)).
    { apply Rabs_le_between in X. apply Rabs_le_between in Y. split; [apply Rabs_le|]; unfold Rmin, Rmax in C; destruct (Rle_dec x y); try lra.
      - rewrite !Rabs_pos_eq; lra.
      - rewrite !Rabs_left1; lra. }
    destruct D as [D1 D2]. pose proof (law'_lip x c X D1). lra.
Qed.

(** One Newton step for the zero of z + law z - zu. *)
Definition next (zu z : R) : R := z - (z + law A B z - zu) / law' A B z.
Lemma next_residual zu z e : Rabs z <= 1.455 -> Rabs (z + law A B z - zu) <= e -> Rabs z + e / 0.983 <= 1.455 ->
  Rabs (next zu z + law A B (next zu z) - zu) <= 0.6458 * (e / 0.983 * (e / 0.983)) /\ Rabs (next zu z - z) <= e / 0.983 /\
  Rabs (next zu z) <= 1.455.
Proof.
  intros Z E D. pose proof (law'_bounds z Z) as [L U].
  set (f := z + law A B z - zu) in *.
  assert (S : Rabs (next zu z - z) <= e / 0.983).
  { unfold next. fold f. replace (z - f / law' A B z - z) with (- (f / law' A B z)) by ring. rewrite Rabs_Ropp.
    unfold Rdiv. rewrite Rabs_mult, Rabs_inv, (Rabs_pos_eq (law' A B z)) by lra.
    apply Rmult_le_compat; [apply Rabs_pos|left; apply Rinv_0_lt_compat; lra|exact E|apply Rinv_le_contravar; lra]. }
  assert (N : Rabs (next zu z) <= 1.455).
  { replace (next zu z) with (z + (next zu z - z)) by ring. eapply Rle_trans; [apply Rabs_triang|]. lra. }
  split; [|split; assumption].
  pose proof (law_second z (next zu z) Z N) as Q.
  replace (next zu z + law A B (next zu z) - zu) with (next zu z + law A B (next zu z) - (z + law A B z) - law' A B z * (next zu z - z)).
  - eapply Rle_trans; [exact Q|]. apply Rmult_le_compat_l; [lra|]. apply Rmult_le_compat; try apply Rabs_pos; exact S.
  - unfold next. fold f. replace (law' A B z * (z - f / law' A B z - z)) with (- f) by (field; lra). unfold f. ring.
Qed.

Lemma two_steps zu : Rabs zu <= 1.4487 ->
  Rabs (next zu zu) <= 1.455 /\ Rabs (next zu (next zu zu) + law A B (next zu (next zu zu)) - zu) <= 2 / 10 ^ 10 /\
  Rabs (next zu zu + law A B (next zu zu) - zu) <= 1.25 / 10 ^ 5 /\ Rabs (next zu (next zu zu)) <= 1.455.
Proof.
  intros H. destruct (next_residual zu zu 0.004305) as (R1 & S1 & N1); [lra| |lra|].
  { replace (zu + law A B zu - zu) with (law A B zu) by ring. apply law_small. lra. }
  assert (R1' : Rabs (next zu zu + law A B (next zu zu) - zu) <= 1.25 / 10 ^ 5) by lra.
  assert (S1' : Rabs (next zu zu) <= 1.4531).
  { replace (next zu zu) with (zu + (next zu zu - zu)) by ring. eapply Rle_trans; [apply Rabs_triang|]. lra. }
  destruct (next_residual zu (next zu zu) (1.25 / 10 ^ 5)) as (R2 & S2 & N2); [exact N1|exact R1'|lra|].
  split; [exact N1|]. split; [lra|]. split; assumption.
Qed.
End Terrestrial.

(** * refz *)

Lemma r2d_deg : @r2d RNum = deg.
Proof. unfold r2d, deg. unR. decs. lra. Qed.
Lemma zd83_deg : @zd83 RNum = 83 / deg.
Proof. unfold zd83. rewrite r2d_deg. reflexivity. Qed.
Lemma zd83_bounds : 1.4486 < 83 / deg < 1.4487.
Proof. unfold deg. split; unfold Rdiv; [apply Rmult_lt_reg_r with 57.29577951308232|apply Rmult_lt_reg_r with 57.29577951308232]; try lra; rewrite Rmult_assoc, Rinv_l by lra; lra. Qed.

Lemma high_model E : @n_div RNum
    (@n_add RNum (@n_add RNum rz_c1 (@n_mul RNum rz_c2 E)) (@n_mul RNum rz_c3 (@n_mul RNum E E)))
    (@n_add RNum (@n_add RNum (n_ofZ 1) (@n_mul RNum rz_c4 E)) (@n_mul RNum rz_c5 (@n_mul RNum E E))) = low_elevation E.
Proof. unfold rz_c1, rz_c2, rz_c3, rz_c4, rz_c5, low_elevation. unR. decs. f_equal; lra. Qed.
Lemma ref83_eq : @ref83 RNum = low_elevation 7.
Proof. unfold ref83, rz_c1, rz_c2, rz_c3, rz_c4, rz_c5, low_elevation. unR. decs. asR. f_equal; lra. Qed.
Lemma low_elevation_7 : low_elevation 7 <> 0.
Proof. unfold low_elevation. decs. apply Rgt_not_eq. apply Rdiv_lt_0_compat; lra. Qed.

(** The refraction at or above 83 degrees. *)
Definition low_ref (A B z : R) : R :=
  let t := sin z / cos z in
  let z1 := z - (A * t + B * (t * (t * t))) / (1 + (A + 3 * B * (t * t)) / (cos z * cos z)) in
  let t1 := sin z1 / cos z1 in
  z - z1 + (z1 - z + A * t1 + B * (t1 * (t1 * t1))) / (1 + (A + 3 * B * (t1 * t1)) / (cos z1 * cos z1)).

Lemma refz_low (zu A B : R) : zu <= 83 / deg -> refz (N := RNum) zu A B = zu - low_ref A B zu.
Proof.
  intros H. unfold refz. rewrite zd83_deg. cbv zeta.
  replace (@n_min RNum zu (83 / deg)) with zu.
  2: { unR. destruct (Rltb_spec (83 / deg) zu); [lra|reflexivity]. }
  unR. destruct (Rltb_spec zu zu); [lra|]. reflexivity.
Qed.
Lemma refz_high (zu A B : R) : 83 / deg < zu ->
  refz (N := RNum) zu A B = zu - low_ref A B (83 / deg) * (low_elevation (90 - Rmin 93 (zu * deg)) / low_elevation 7).
Proof.
  intros H. unfold refz. rewrite zd83_deg, ref83_eq, r2d_deg. cbv zeta.
  replace (@n_min RNum zu (83 / deg)) with (83 / deg).
  2: { unR. destruct (Rltb_spec (83 / deg) zu); [reflexivity|lra]. }
  replace (@n_min RNum (n_ofZ 93) (@n_mul RNum zu deg)) with (Rmin 93 (zu * deg)).
  2: { unfold Rmin. unR. destruct (Rltb_spec (zu * deg) 93), (Rle_dec 93 (zu * deg)); lra. }
  assert (T : @n_ltb RNum (83 / deg) zu = true) by (apply Rltb_true; exact H). rewrite T.
  pose proof low_elevation_7 as D.
  rewrite <- (high_model (90 - Rmin 93 (zu * deg))). unR. fold (low_ref A B (83 / deg)).
  generalize (low_elevation 7) D. intros q Dq. unfold Rdiv. ring.
Qed.

Lemma refz_beyond (zu A B : R) : 83 / deg <= zu ->
  zu - refz (N := RNum) zu A B = (83 / deg - refz (N := RNum) (83 / deg) A B) * (low_elevation (90 - Rmin 93 (zu * deg)) / low_elevation 7).
Proof.
  intros H. rewrite (refz_low (83 / deg)) by lra. destruct (Rle_lt_or_eq_dec _ _ H) as [L|<-].
  - rewrite refz_high by exact L. ring.
  - rewrite refz_low by lra. assert (P : 83 / deg * deg = 83) by (field; unfold deg; lra). rewrite P, Rmin_right by lra.
    replace (90 - 83) with 7 by ring. field. split; [apply low_elevation_7|unfold deg; lra].
Qed.
Lemma refz_93 (zu A B : R) : 93 / deg <= zu ->
  zu - refz (N := RNum) zu A B = 93 / deg - refz (N := RNum) (93 / deg) A B.
Proof.
  intros H. assert (D : 0 < deg) by (unfold deg; lra).
  assert (L : 83 / deg <= 93 / deg) by (apply Rmult_le_compat_r; [left; apply Rinv_0_lt_compat; exact D|lra]).
  rewrite (refz_beyond zu), (refz_beyond (93 / deg)) by lra.
  replace (93 / deg * deg) with 93 by (field; lra).
  assert (93 <= zu * deg).
  { replace 93 with (93 / deg * deg) by (field; lra). apply Rmult_le_compat_r; lra. }
  rewrite !Rmin_left by lra. reflexivity.
Qed.

Lemma low_ref_next A B z : cos z <> 0 -> cos (next A B z z) <> 0 -> low_ref A B z = z - next A B z (next A B z z).
Proof.
  intros C C1.
  assert (E : forall y, cos y <> 0 -> forall w, w + (y - w + A * (sin y / cos y) + B * (sin y / cos y * (sin y / cos y * (sin y / cos y)))) = y + law A B y).
  { intros y _ w. unfold law. change (sin y / cos y) with (tan y). ring. }
  assert (F : forall y, cos y <> 0 -> 1 + (A + 3 * B * (sin y / cos y * (sin y / cos y))) / (cos y * cos y) = law' A B y).
  { intros y Cy. unfold law'. rewrite <- (cos_sec y Cy). change (sin y / cos y) with (tan y). unfold Rdiv. ring. }
  unfold low_ref. cbv zeta. rewrite (F z C).
  replace (z - (A * (sin z / cos z) + B * (sin z / cos z * (sin z / cos z * (sin z / cos z)))) / law' A B z) with (next A B z z).
  2: { unfold next. f_equal. f_equal. unfold law. change (sin z / cos z) with (tan z). ring. }
  rewrite (F _ C1). set (z1 := next A B z z) in *. unfold next. rewrite <- (E z1 C1 z). unfold Rdiv. ring.
Qed.

Lemma refz_solves (zu A B : R) : terrestrial A B -> Rabs zu <= 83 / deg ->
  let zr := refz (N := RNum) zu A B in Rabs (zr + law A B zr - zu) <= 2 / 10 ^ 10.
Proof.
  intros AB H. pose proof zd83_bounds. cbv zeta. rewrite refz_low by (pose proof (Rle_abs zu); lra).
  destruct (two_steps A B AB zu) as (N1 & R2 & _); [lra|].
  pose proof (cos_domain _ N1). pose proof (cos_domain zu ltac:(lra)).
  rewrite low_ref_next by lra. replace (zu - (zu - next A B zu (next A B zu zu))) with (next A B zu (next A B zu zu)) by ring. exact R2.
Qed.

Lemma low_ref_odd A B z : low_ref A B (- z) = - low_ref A B z.
Proof.
  unfold low_ref. cbv zeta. rewrite sin_neg, cos_neg.
  replace (- sin z / cos z) with (- (sin z / cos z)) by (unfold Rdiv; ring). set (t := sin z / cos z).
  replace (- t * - t) with (t * t) by ring. replace (A * - t + B * (- t * (t * t))) with (- (A * t + B * (t * (t * t)))) by ring.
  set (q := A * t + B * (t * (t * t))). set (dd := 1 + (A + 3 * B * (t * t)) / (cos z * cos z)).
  replace (- z - - q / dd) with (- (z - q / dd)) by (unfold Rdiv; ring). set (y := z - q / dd). rewrite sin_neg, cos_neg.
  replace (- sin y / cos y) with (- (sin y / cos y)) by (unfold Rdiv; ring). set (s := sin y / cos y).
  replace (- s * - s) with (s * s) by ring. unfold Rdiv. ring.
Qed.
Lemma refz_odd (zu A B : R) : Rabs zu <= 83 / deg -> refz (N := RNum) (- zu) A B = - refz (N := RNum) zu A B.
Proof.
  intros H. apply Rabs_le_between in H. rewrite !refz_low by lra. rewrite low_ref_odd. asR. ring.
Qed.

(** Continuity. *)
Lemma law_ex A B z : cos z <> 0 -> ex_derive (law A B) z.
Proof. intros C. unfold law. auto_derive. repeat split; auto using ex_tan. Qed.
Lemma law'_ex A B z : cos z <> 0 -> ex_derive (law' A B) z.
Proof. intros C. eexists. apply law'_derive, C. Qed.
Lemma next_derive A B z : cos z <> 0 -> law' A B z <> 0 -> ex_derive (fun x => next A B x x) z.
Proof.
  intros C L. unfold next. auto_derive.
  repeat split; auto using law_ex, law'_ex.
Qed.
Lemma next2_derive A B z : cos z <> 0 -> law' A B z <> 0 -> cos (next A B z z) <> 0 -> law' A B (next A B z z) <> 0 ->
  ex_derive (fun x => x - next A B x (next A B x x)) z.
Proof.
  intros C L C1 L1. pose proof (next_derive A B z C L) as N.
  pose (n := fun x => next A B x x). change (ex_derive n z) in N.
  apply (ex_derive_ext (fun x => x - (n x - (n x + law A B (n x) - x) / law' A B (n x)))); [reflexivity|].
  assert (L2 : ex_derive (law A B) (n z)) by (apply law_ex; exact C1).
  assert (L3 : ex_derive (law' A B) (n z)) by (apply law'_ex; exact C1).
  change (law' A B (n z) <> 0) in L1. clearbody n. auto_derive. repeat split; assumption.
Qed.

Lemma low_ref_continuous A B z : terrestrial A B -> Rabs z < 1.4487 -> continuous (low_ref A B) z.
Proof.
  intros AB H.
  apply (continuous_ext_loc _ (fun x => x - next A B x (next A B x x))).
  - assert (L : locally z (fun x => Rabs x < 1.4487)).
    { apply (continuous_Rabs z (fun y => y < 1.4487)). apply locally_open with (D := fun y => y < 1.4487); [apply open_lt|trivial|exact H]. }
    revert L. apply filter_imp. intros x Hx. symmetry.
    destruct (two_steps A B AB x) as (N1 & _); [lra|].
    pose proof (cos_domain _ N1). pose proof (cos_domain x ltac:(lra)). apply low_ref_next; lra.
  - destruct (two_steps A B AB z) as (N1 & _); [lra|].
    pose proof (cos_domain _ N1). pose proof (cos_domain z ltac:(lra)).
    pose proof (law'_bounds A B AB _ N1). pose proof (law'_bounds A B AB z ltac:(lra)).
    apply (ex_derive_continuous (V := R_NormedModule)). apply next2_derive; lra.
Qed.

Lemma Rmin_abs x y : Rmin x y = (x + y - Rabs (x - y)) / 2.
Proof. unfold Rmin, Rabs. destruct (Rle_dec x y), (Rcase_abs (x - y)); lra. Qed.
Lemma Rmax_abs x y : Rmax x y = (x + y + Rabs (x - y)) / 2.
Proof. unfold Rmax, Rabs. destruct (Rle_dec x y), (Rcase_abs (x - y)); lra. Qed.
Lemma continuous_min (f : R -> R) c x : continuous f x -> continuous (fun x => Rmin c (f x)) x.
Proof.
  intros H. apply (continuous_ext (fun x => ((c + f x) - Rabs (c - f x)) / 2)); [intros; rewrite Rmin_abs; reflexivity|].
  apply (continuous_mult (fun x => (c + f x) - Rabs (c - f x)) (fun _ => / 2)); [|apply continuous_const].
  apply (continuous_minus (V := R_NormedModule) (fun x => c + f x) (fun x => Rabs (c - f x))).
  - apply (continuous_plus (V := R_NormedModule) (fun _ => c) f); [apply continuous_const|exact H].
  - apply (continuous_comp (fun x => c - f x) Rabs); [|apply continuous_Rabs].
    apply (continuous_minus (V := R_NormedModule) (fun _ => c) f); [apply continuous_const|exact H].
Qed.
Lemma continuous_max (f : R -> R) c x : continuous f x -> continuous (fun x => Rmax c (f x)) x.
Proof.
  intros H. apply (continuous_ext (fun x => ((c + f x) + Rabs (c - f x)) / 2)); [intros; rewrite Rmax_abs; reflexivity|].
  apply (continuous_mult (fun x => (c + f x) + Rabs (c - f x)) (fun _ => / 2)); [|apply continuous_const].
  apply (continuous_plus (V := R_NormedModule) (fun x => c + f x) (fun x => Rabs (c - f x))).
  - apply (continuous_plus (V := R_NormedModule) (fun _ => c) f); [apply continuous_const|exact H].
  - apply (continuous_comp (fun x => c - f x) Rabs); [|apply continuous_Rabs].
    apply (continuous_minus (V := R_NormedModule) (fun _ => c) f); [apply continuous_const|exact H].
Qed.

Lemma refz_uniform (zu A B : R) : refz (N := RNum) zu A B =
  zu - low_ref A B (Rmin (83 / deg) zu) * (low_elevation (90 - Rmin 93 (Rmax 83 (zu * deg))) / low_elevation 7).
Proof.
  pose proof low_elevation_7. assert (D : 0 < deg) by (unfold deg; lra).
  destruct (Rle_lt_dec zu (83 / deg)) as [L|L].
  - rewrite refz_low, Rmin_right by exact L.
    assert (zu * deg <= 83) by (replace 83 with (83 / deg * deg) by (field; lra); apply Rmult_le_compat_r; lra).
    rewrite (Rmax_left 83), (Rmin_right 93) by lra. replace (90 - 83) with 7 by ring. asR. field. assumption.
  - rewrite refz_high, (Rmin_left (83 / deg)) by lra.
    assert (83 <= zu * deg) by (replace 83 with (83 / deg * deg) by (field; lra); apply Rmult_le_compat_r; lra).
    rewrite (Rmax_right 83) by lra. reflexivity.
Qed.
Lemma refz_continuous (zu A B : R) : terrestrial A B -> - (83 / deg) <= zu ->
  continuity_pt (fun z => refz (N := RNum) z A B) zu.
Proof.
  intros AB H. pose proof zd83_bounds. apply continuity_pt_filterlim.
  change (continuous (fun z : R => refz (N := RNum) z A B : R) zu).
  eapply continuous_ext; [intros x; symmetry; apply refz_uniform|].
  apply (continuous_minus (V := R_NormedModule) (fun x => x)); [apply continuous_id|].
  apply (continuous_mult (fun x => low_ref A B (Rmin (83 / deg) x)) (fun x => low_elevation (90 - Rmin 93 (Rmax 83 (x * deg))) / low_elevation 7)).
  - apply (continuous_comp (fun x => Rmin (83 / deg) x) (low_ref A B)).
    + apply continuous_min, continuous_id.
    + apply low_ref_continuous; [exact AB|]. apply Rabs_def1; unfold Rmin; destruct (Rle_dec (83 / deg) zu); lra.
  - apply (continuous_mult (fun x => low_elevation (90 - Rmin 93 (Rmax 83 (x * deg)))) (fun _ => / low_elevation 7)); [|apply continuous_const].
    apply (continuous_comp (fun x => 90 - Rmin 93 (Rmax 83 (x * deg))) low_elevation).
    + apply (continuous_minus (V := R_NormedModule) (fun _ => 90)); [apply continuous_const|].
      apply continuous_min. apply continuous_max. apply (continuous_mult (fun x => x) (fun _ => deg)); [apply continuous_id|apply continuous_const].
    + set (m := Rmin 93 (Rmax 83 (zu * deg))).
      assert (M : 83 <= m <= 93) by (unfold m, Rmin, Rmax; repeat destruct (Rle_dec _ _); lra). clearbody m.
      apply (ex_derive_continuous (V := R_NormedModule)). unfold low_elevation. auto_derive.
      decs. nra.
Qed.
