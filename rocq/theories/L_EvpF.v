(** evp: the planets' part, and the barycentric motion in ecliptic coordinates. *)
From Coq Require Import Reals ZArith Lra Lia List.
From Coquelicot Require Import Coquelicot.
From Verif Require Import Num NumR L_Pi L_Real M_Vec M_EphTab M_Eph M_EvpTab M_Evp S_Geom S_Eph L_Vec L_Trig L_Frame L_NutDiff L_Eph L_EphB L_EvpA L_EvpB L_EvpC L_EvpD L_EvpE.
Import ListNotations.
Open Scope R_scope.

(** ** One planet: first order in eccentricity and inclination *)
Section Planet.
Context (A nu n e e' w w' i i' l o o' : R).
Let M := l - w.
Let N := l - o.
Let rho := 1 - e * cos M.
Let L := l + 2 * e * sin M.
Let be := i * sin N.
Let rho' := - (e' * cos M) + e * sin M * (n - w').
Let L' := n + 2 * e' * sin M + 2 * e * cos M * (n - w').
Let be' := i' * sin N + i * cos N * (n - o').
Definition pl_vx : R := - A * (rho' * cos be * cos L - rho * sin be * be' * cos L - rho * cos be * L' * sin L).
Definition pl_vy : R := - A * (rho' * cos be * sin L - rho * sin be * be' * sin L + rho * cos be * L' * cos L).
Definition pl_vz : R := - A * (rho' * sin be + rho * cos be * be').
Context (HA : 0 <= A) (Hn : 0 <= nu) (He : Rabs e <= 6 / 100) (Hi : Rabs i <= 45 / 1000)
  (H1 : Rabs (n - OM - nu) <= 5 / 100000 * nu) (H2 : Rabs (n - w' - nu) <= 3 / 1000 * nu) (H3 : Rabs (n - o' - nu) <= 3 / 1000 * nu)
  (H4 : Rabs e' <= 5 / 100000 * nu) (H5 : Rabs i' <= 5 / 100000 * nu).

Lemma planet_rates :
  Rabs (A * nu * (sin L + e * sin w) - (pl_vx + OM * (- A * (rho * cos be * sin L)))) <= 195 / 10000 * (A * nu) /\
  Rabs (- (A * nu * (cos L + e * cos w)) - (pl_vy - OM * (- A * (rho * cos be * cos L)))) <= 195 / 10000 * (A * nu) /\
  Rabs (- (A * nu * i * cos N) - pl_vz) <= 7 / 1000 * (A * nu).
Proof.
  assert (BA : Rabs A <= A) by (apply b_pos; exact HA). assert (BN : Rabs nu <= nu) by (apply b_pos; exact Hn).
  assert (Bb : Rabs be <= 45 / 1000) by (unfold be; bnd).
  pose proof (sin_le _ _ Bb) as SB. pose proof (cos_ge _ _ Bb ltac:(lra)) as CB.
  assert (PN : 0 <= A * nu) by (apply Rmult_le_pos; assumption).
  set (k1 := n - OM - nu) in *. set (k2 := n - w' - nu) in *. set (k3 := n - o' - nu) in *.
  assert (Br : Rabs rho <= 106 / 100) by (unfold rho; bnd).
  assert (ER : rho' = e * sin M * (nu + k2) - e' * cos M) by (unfold rho', k2; ring).
  assert (EL : L' - OM = nu + k1 + 2 * e * cos M * (nu + k2) + 2 * e' * sin M) by (unfold L', k1, k2; ring).
  assert (EB : be' = i * cos N * (nu + k3) + i' * sin N) by (unfold be', k3; ring).
  assert (BR : Rabs rho' <= 603 / 10000 * nu) by (rewrite ER; bnd).
  assert (BL : Rabs (L' - OM) <= 1121 / 1000 * nu) by (rewrite EL; bnd).
  assert (BB : Rabs be' <= 452 / 10000 * nu) by (rewrite EB; bnd).
  assert (D1 : Rabs (rho * cos be * (L' - OM) - nu * (1 + e * cos M)) <= 90 / 10000 * nu).
  { replace (rho * cos be * (L' - OM) - nu * (1 + e * cos M)) with
      (- (2 * nu * (e * cos M * (e * cos M))) + rho * (k1 + 2 * e * cos M * k2 + 2 * e' * sin M) - rho * (1 - cos be) * (L' - OM))
      by (rewrite EL; unfold rho; ring). bnd. }
  assert (D2 : Rabs (rho' * cos be - nu * (e * sin M)) <= 3 / 10000 * nu).
  { replace (rho' * cos be - nu * (e * sin M)) with (e * sin M * k2 - e' * cos M - rho' * (1 - cos be)) by (rewrite ER; ring). bnd. }
  assert (LM : Rabs (L - M - w) <= 12 / 100) by (unfold L, M; replace (l + 2 * e * sin (l - w) - (l - w) - w) with (2 * e * sin (l - w)) by ring; bnd).
  destruct (trig_near (L - M) w _ LM) as [LS LC].
  assert (E1 : sin (L - M) = sin L * cos M - cos L * sin M) by apply sin_minus.
  assert (E2 : cos (L - M) = cos L * cos M + sin L * sin M) by apply cos_minus.
  set (d1 := rho * cos be * (L' - OM) - nu * (1 + e * cos M)) in *. set (d2 := rho' * cos be - nu * (e * sin M)) in *.
  repeat split.
  - replace (A * nu * (sin L + e * sin w) - (pl_vx + OM * (- A * (rho * cos be * sin L)))) with
      (- (A * (sin L * d1 - cos L * d2 + rho * sin be * be' * cos L + nu * e * (sin (L - M) - sin w)))).
    2: { rewrite E1. unfold pl_vx, d1, d2. fold M. fold N. fold L. fold be. fold rho. fold rho'. fold L'. fold be'. ring. }
    bnd.
  - replace (- (A * nu * (cos L + e * cos w)) - (pl_vy - OM * (- A * (rho * cos be * cos L)))) with
      (A * (cos L * d1 + sin L * d2 - rho * sin be * be' * sin L + nu * e * (cos (L - M) - cos w))).
    2: { rewrite E2. unfold pl_vy, d1, d2. fold M. fold N. fold L. fold be. fold rho. fold rho'. fold L'. fold be'. ring. }
    bnd.
  - replace (- (A * nu * i * cos N) - pl_vz) with
      (A * (rho' * sin be + (- (e * cos M)) * cos be * be' - (1 - cos be) * be' + (i * cos N * k3 + i' * sin N))).
    2: { unfold pl_vz. fold M. fold N. fold L. fold be. fold rho. fold rho'. fold L'. fold be'.
         replace (i * cos N * k3 + i' * sin N) with (be' - nu * i * cos N) by (rewrite EB; ring). unfold rho. ring. }
    bnd.
Qed.
End Planet.

(** ** The four planets *)
Definition Am (k : nat) : R := decimal (nth k ccpam d0).
Definition Vm (k : nat) : R := decimal (nth k ccpamv d0).
Definition plk (k : nat) : R -> R := qd (row3 dcfel (k + 4)).
Definition omk (k : nat) : R -> R := qd (row3 ccsel (k + 1)).
Definition ndk (k : nat) : R -> R := qd (row3 ccsel (k + 5)).
Definition eck (k : nat) : R -> R := qd (row3 ccsel (k + 9)).
Definition ick (k : nat) : R -> R := qd (row3 ccsel (k + 13)).
Definition bek (k : nat) (t : R) : R := ick k t * sin (plk k t - ndk k t).
Definition rhk (k : nat) (t : R) : R := 1 - eck k t * cos (plk k t - omk k t).
Definition lok (k : nat) (t : R) : R := plk k t + 2 * eck k t * sin (plk k t - omk k t).
Definition qS (k : nat) (t : R) : RV :=
  V3 (- Am k * (rhk k t * cos (bek k t) * cos (lok k t))) (- Am k * (rhk k t * cos (bek k t) * sin (lok k t))) (- Am k * (rhk k t * sin (bek k t))).
Definition qvS (k : nat) (t : R) : RV :=
  let n := qd' (row3 dcfel (k + 4)) t in let e' := qd' (row3 ccsel (k + 9)) t in let w' := qd' (row3 ccsel (k + 1)) t in
  let i' := qd' (row3 ccsel (k + 13)) t in let o' := qd' (row3 ccsel (k + 5)) t in
  V3 (pl_vx (Am k) n (eck k t) e' (omk k t) w' (ick k t) i' (plk k t) (ndk k t) o')
     (pl_vy (Am k) n (eck k t) e' (omk k t) w' (ick k t) i' (plk k t) (ndk k t) o')
     (pl_vz (Am k) n (eck k t) e' (omk k t) w' (ick k t) i' (plk k t) (ndk k t) o').

Lemma planet_derive (A : R) (e w i l o : R -> R) t e' w' i' n o' :
  is_derive e t e' -> is_derive w t w' -> is_derive i t i' -> is_derive l t n -> is_derive o t o' ->
  is_derive (fun s => - A * ((1 - e s * cos (l s - w s)) * cos (i s * sin (l s - o s)) * cos (l s + 2 * e s * sin (l s - w s)))) t
    (pl_vx A n (e t) e' (w t) w' (i t) i' (l t) (o t) o') /\
  is_derive (fun s => - A * ((1 - e s * cos (l s - w s)) * cos (i s * sin (l s - o s)) * sin (l s + 2 * e s * sin (l s - w s)))) t
    (pl_vy A n (e t) e' (w t) w' (i t) i' (l t) (o t) o') /\
  is_derive (fun s => - A * ((1 - e s * cos (l s - w s)) * sin (i s * sin (l s - o s)))) t
    (pl_vz A n (e t) e' (w t) w' (i t) i' (l t) (o t) o').
Proof.
  intros E W I L O.
  split; [|split]; (auto_derive; [repeat split; first [exists e'; exact E|exists w'; exact W|exists i'; exact I|exists n; exact L|exists o'; exact O]|
    unfold pl_vx, pl_vy, pl_vz, Rminus; derives; ring]).
Qed.
Lemma qS_derive k t : is_derive (fun s => v0 (qS k s)) t (v0 (qvS k t)) /\ is_derive (fun s => v1 (qS k s)) t (v1 (qvS k t)) /\
  is_derive (fun s => v2 (qS k s)) t (v2 (qvS k t)).
Proof. apply planet_derive; apply qd_derive. Qed.

Definition nuk (k : nat) : R := SC * Vm k / Am k.
Section Planets.
Context (t : R) (T : Rabs t <= 10).
Lemma TT : Rabs (t * t) <= 100. Proof. eapply Rle_trans; [apply (b_mul t t 10 10); assumption|lra]. Qed.

Ltac four k K := do 4 (destruct k as [|k]; [|]); [..|lia].
Ltac row := unfold eck, ick, qd, qd', nuk, Vm, Am; cbn [row3 nth ccsel dcfel ccpam ccpamv fst snd Nat.add]; dnum.
Ltac rate := row; apply Rabs_le; pose proof (ab _ _ T); split; lra.
Lemma planet_numbers k : (k < 4)%nat ->
  0 <= Am k /\ 0 <= nuk k /\ Rabs (eck k t) <= 6 / 100 /\ Rabs (ick k t) <= 45 / 1000 /\
  Rabs (qd' (row3 dcfel (k + 4)) t - OM - nuk k) <= 5 / 100000 * nuk k /\
  Rabs (qd' (row3 dcfel (k + 4)) t - qd' (row3 ccsel (k + 1)) t - nuk k) <= 3 / 1000 * nuk k /\
  Rabs (qd' (row3 dcfel (k + 4)) t - qd' (row3 ccsel (k + 5)) t - nuk k) <= 3 / 1000 * nuk k /\
  Rabs (qd' (row3 ccsel (k + 9)) t) <= 5 / 100000 * nuk k /\
  Rabs (qd' (row3 ccsel (k + 13)) t) <= 5 / 100000 * nuk k.
Proof.
  intros K. pose proof TT as T2.
  do 4 (destruct k as [|k]; [repeat split; [row; lra|row; lra|row; bnd|row; bnd|rate|rate|rate|rate|rate]|]). lia.
Qed.
Lemma Am_nuk k : (k < 4)%nat -> Am k * nuk k = SC * Vm k.
Proof. intros K. do 4 (destruct k as [|k]; [row; field|]). lia. Qed.

Section One.
Context (k : nat) (K : (k < 4)%nat).
Let ph : R := forbel (N := RNum) t (k + 3).
Let lh : R := evp_planet_l (N := RNum) t k.
Definition qh : RV := V3 (- (Am k * (1 - eck k t * cos (ph - omk k t)) * cos (ick k t * sin (ph - ndk k t)) * cos lh))
  (- (Am k * (1 - eck k t * cos (ph - omk k t)) * cos (ick k t * sin (ph - ndk k t)) * sin lh))
  (- (Am k * (1 - eck k t * cos (ph - omk k t)) * sin (ick k t * sin (ph - ndk k t)))).
Definition qvh : RV := V3 (Vm k * (sin lh + eck k t * sin (omk k t))) (- (Vm k * (cos lh + eck k t * cos (omk k t))))
  (- (Vm k * ick k t * cos (ph - ndk k t))).
Lemma planet_p_R v : evp_planet_p (N := RNum) t v k = vadd v qh.
Proof.
  unfold evp_planet_p. rewrite !slow_id by (assumption || lia). fold ph. fold lh. rewrite !lit_decimal. unR.
  unfold vadd, qh. cbn [v0 v1 v2]. fold (Am k) (eck k t) (omk k t) (ick k t) (ndk k t). change (car RNum) with R in *. f_equal; ring.
Qed.
Lemma planet_v_R v : evp_planet_v (N := RNum) t v k = vadd v qvh.
Proof.
  unfold evp_planet_v. rewrite !slow_id by (assumption || lia). fold ph. fold lh. rewrite !lit_decimal. unR.
  unfold vadd, qvh. cbn [v0 v1 v2]. fold (Vm k) (eck k t) (omk k t) (ick k t) (ndk k t). change (car RNum) with R in *. f_equal; ring.
Qed.
Lemma ph_near : anear 2.1e-10 ph (plk k t).
Proof. unfold ph, plk. replace (k + 4)%nat with (S (k + 3)) by lia. apply fast_near; [exact T|lia]. Qed.
Lemma ph_bound : Rabs ph <= 6284 / 1000.
Proof.
  unfold ph, forbel. change (n_mul (n := RNum) t t) with (t * t). rewrite element_R, two_pi.
  match goal with |- Rabs (Rfmod ?x ?m) <= _ => destruct (Rfmod_range x m ltac:(lra)) as [P Q];
    destruct (Rle_lt_dec 0 x) as [S|S]; [specialize (P S)|specialize (Q (Rlt_le _ _ S))]; apply Rabs_le; lra end.
Qed.
Lemma an_shift d a b c : anear d a b -> anear d (a - c) (b - c).
Proof. intros H. eapply anear_weak; [apply (anear_add d 0 a b (- c) (- c) H (anear_refl _))|lra]. Qed.
Lemma lh_near : anear 3.3e-7 lh (lok k t).
Proof.
  destruct (planet_numbers k K) as (_ & _ & E & _). pose proof ph_bound as B. pose proof ph_near as P.
  pose proof (anear_sin _ _ _ (an_shift _ _ _ (omk k t) P)) as S.
  unfold lh, evp_planet_l. rewrite !slow_id by (assumption || lia). fold ph. rewrite two_pif. unR. fold (eck k t) (omk k t).
  change (n_fmod (n := RNum)) with Rfmod.
  match goal with |- anear _ (Rfmod ?x ?m) _ => assert (X : Rabs x <= 65 / 10) by bnd;
    pose proof (fmod_turn x m 3.08e-7 (65 / 10) ltac:(lra) two_pif_near X) as F; set (z := x) in * end.
  eapply anear_weak; [eapply anear_trans; [exact F|instantiate (1 := 3e-10)]|lra]. unfold z, lok.
  eapply anear_weak; [apply anear_add; [exact P|apply anear_abs; instantiate (1 := 3e-11)]|lra].
  match goal with |- Rabs (?a * ?e * ?x - ?a * ?e * ?y) <= _ => replace (a * e * x - a * e * y) with (a * e * (x - y)) by ring end. bnd.
Qed.
Lemma qh_near : norm (vsub qh (qS k t)) <= 6e-7 * Am k.
Proof.
  destruct (planet_numbers k K) as (A & _ & E & I & _). pose proof ph_near as P. pose proof lh_near as L.
  assert (BA : Rabs (Am k) <= Am k) by (apply b_pos; exact A).
  pose proof (anear_cos _ _ _ (an_shift _ _ _ (omk k t) P)) as C. pose proof (anear_sin _ _ _ (an_shift _ _ _ (ndk k t) P)) as S.
  pose proof (anear_cos _ _ _ L) as LC. pose proof (anear_sin _ _ _ L) as LS.
  set (bh := ick k t * sin (ph - ndk k t)) in *.
  assert (BN : Rabs (bh - bek k t) <= 1e-11).
  { unfold bh, bek. replace (ick k t * sin (ph - ndk k t) - ick k t * sin (plk k t - ndk k t)) with (ick k t * (sin (ph - ndk k t) - sin (plk k t - ndk k t))) by ring. bnd. }
  destruct (trig_near _ _ _ BN) as [BS BC].
  assert (BB : Rabs (bek k t) <= 45 / 1000) by (unfold bek; bnd). pose proof (sin_le _ _ BB) as SB.
  set (rh := 1 - eck k t * cos (ph - omk k t)).
  assert (RB : Rabs rh <= 106 / 100) by (unfold rh; bnd).
  assert (RN : Rabs (rh - rhk k t) <= 2e-11).
  { unfold rh, rhk. replace (1 - eck k t * cos (ph - omk k t) - (1 - eck k t * cos (plk k t - omk k t))) with (- (eck k t * (cos (ph - omk k t) - cos (plk k t - omk k t)))) by ring. bnd. }
  apply (norm_box _ (4e-7 * Am k) (4e-7 * Am k) (1e-10 * Am k)); unfold qh, qS, vsub; cbn [v0 v1 v2]; fold bh; fold rh; [| | |nra|lra].
  - match goal with |- Rabs (- (?a * ?r * ?c * ?l) - - ?a * (?r' * ?c' * ?l')) <= _ =>
      replace (- (a * r * c * l) - - a * (r' * c' * l')) with (- (a * (r * c * (l - l') + r * (c - c') * l' + (r - r') * c' * l'))) by ring end. bnd.
  - match goal with |- Rabs (- (?a * ?r * ?c * ?l) - - ?a * (?r' * ?c' * ?l')) <= _ =>
      replace (- (a * r * c * l) - - a * (r' * c' * l')) with (- (a * (r * c * (l - l') + r * (c - c') * l' + (r - r') * c' * l'))) by ring end. bnd.
  - match goal with |- Rabs (- (?a * ?r * ?c) - - ?a * (?r' * ?c')) <= _ =>
      replace (- (a * r * c) - - a * (r' * c')) with (- (a * (r * (c - c') + (r - r') * c'))) by ring end. bnd.
Qed.
Lemma qvh_near : norm (vsub (scale SC qvh) (inertial (qS k t) (qvS k t))) <= 29 / 1000 * (SC * Vm k).
Proof.
  destruct (planet_numbers k K) as (A & N0 & E & I & H1 & H2 & H3 & H4 & H5). pose proof ph_near as P. pose proof lh_near as L.
  pose proof (anear_cos _ _ _ (an_shift _ _ _ (ndk k t) P)) as NC'.
  pose proof (anear_cos _ _ _ L) as LC. pose proof (anear_sin _ _ _ L) as LS.
  destruct (planet_rates (Am k) (nuk k) _ (eck k t) _ (omk k t) _ (ick k t) _ (plk k t) (ndk k t) _ A N0 E I H1 H2 H3 H4 H5) as (X & Y & Z).
  assert (AN : 0 <= Am k * nuk k) by (apply Rmult_le_pos; assumption).
  rewrite (Am_nuk k K) in *. set (V := SC * Vm k) in *. assert (BV : Rabs V <= V) by (apply b_pos; exact AN).
  fold (lok k t) (rhk k t) (bek k t) in X, Y, Z.
  match type of X with Rabs ?zz <= _ => set (x := zz) in X end. match type of Y with Rabs ?zz <= _ => set (y := zz) in Y end.
  match type of Z with Rabs ?zz <= _ => set (z := zz) in Z end.
  apply (norm_box _ (196 / 10000 * V) (196 / 10000 * V) (71 / 10000 * V)); unfold inertial, vsub, scale, cross; cbn [v0 v1 v2]; [| | |nra|lra].
  - match goal with |- Rabs ?g <= _ => replace g with (V * (sin lh - sin (lok k t)) + x) end; [bnd|].
    unfold x, qvh, qS, qvS, V, lh, ph. cbn [v0 v1 v2]. ring.
  - match goal with |- Rabs ?g <= _ => replace g with (- (V * (cos lh - cos (lok k t))) + y) end; [bnd|].
    unfold y, qvh, qS, qvS, V, lh, ph. cbn [v0 v1 v2]. ring.
  - match goal with |- Rabs ?g <= _ => replace g with (- (V * ick k t * (cos (ph - ndk k t) - cos (plk k t - ndk k t))) + z) end; [bnd|].
    unfold z, qvh, qS, qvS, V, lh, ph. cbn [v0 v1 v2]. ring.
Qed.
End One.

(** ** All of it *)
Definition MM : R := 99999696 / 100000000.
Definition bpS (t : R) : RV := vadd (vadd (vadd (vadd (scale MM (hpS t)) (qS 0 t)) (qS 1 t)) (qS 2 t)) (qS 3 t).
Definition bvS (t : R) : RV := vadd (vadd (vadd (vadd (scale MM (hvS t)) (qvS 0 t)) (qvS 1 t)) (qvS 2 t)) (qvS 3 t).
End Planets.

Lemma add_derive (p q : R -> RV) t v w :
  (is_derive (fun s => v0 (p s)) t (v0 v) /\ is_derive (fun s => v1 (p s)) t (v1 v) /\ is_derive (fun s => v2 (p s)) t (v2 v)) ->
  (is_derive (fun s => v0 (q s)) t (v0 w) /\ is_derive (fun s => v1 (q s)) t (v1 w) /\ is_derive (fun s => v2 (q s)) t (v2 w)) ->
  is_derive (fun s => v0 (vadd (p s) (q s))) t (v0 (vadd v w)) /\ is_derive (fun s => v1 (vadd (p s) (q s))) t (v1 (vadd v w)) /\
  is_derive (fun s => v2 (vadd (p s) (q s))) t (v2 (vadd v w)).
Proof.
  intros (A & B & C) (D & E & F). unfold vadd. cbn [v0 v1 v2].
  split; [|split]; apply @is_derive_plus; assumption.
Qed.
Lemma scale_derive k (p : R -> RV) t v :
  (is_derive (fun s => v0 (p s)) t (v0 v) /\ is_derive (fun s => v1 (p s)) t (v1 v) /\ is_derive (fun s => v2 (p s)) t (v2 v)) ->
  is_derive (fun s => v0 (scale k (p s))) t (v0 (scale k v)) /\ is_derive (fun s => v1 (scale k (p s))) t (v1 (scale k v)) /\
  is_derive (fun s => v2 (scale k (p s))) t (v2 (scale k v)).
Proof.
  intros (A & B & C). unfold scale. cbn [v0 v1 v2].
  split; [|split]; apply @is_derive_scal; assumption.
Qed.
Lemma bpS_derive t : Rabs t <= 10 -> is_derive (fun s => v0 (bpS s)) t (v0 (bvS t)) /\ is_derive (fun s => v1 (bpS s)) t (v1 (bvS t)) /\
  is_derive (fun s => v2 (bpS s)) t (v2 (bvS t)).
Proof.
  intros T. unfold bpS, bvS. repeat apply add_derive; [apply scale_derive, hpS_derive, T|apply qS_derive..].
Qed.
Lemma bary_R (t : R) : Rabs t <= 10 -> evp_bary (N := RNum) t = VPV (N := RNum)
  (vadd (vadd (vadd (vadd (scale MM (pos (evp_helio (N := RNum) t))) (qh t 0)) (qh t 1)) (qh t 2)) (qh t 3))
  (vadd (vadd (vadd (vadd (scale MM (velo (evp_helio (N := RNum) t))) (qvh t 0)) (qvh t 1)) (qvh t 2)) (qvh t 3)).
Proof.
  intros T. unfold evp_bary. cbn [fold_left seq]. rewrite !planet_p_R, !planet_v_R by (assumption || lia).
  f_equal; repeat (f_equal; []); unfold scale, MM, evp_1mme; unR; decs; change (car RNum) with R in *; f_equal; ring.
Qed.

(** Differences of sums. *)
Lemma sum5 m a a' b b' c c' d d' e e' : 
  vsub (vadd (vadd (vadd (vadd (scale m a) b) c) d) e) (vadd (vadd (vadd (vadd (scale m a') b') c') d') e') =
  vadd (vadd (vadd (vadd (scale m (vsub a a')) (vsub b b')) (vsub c c')) (vsub d d')) (vsub e e').
Proof. unfold vsub, vadd, scale. cbn [v0 v1 v2]. f_equal; ring. Qed.
Lemma sum5n a b c d e A B C D E : norm a <= A -> norm b <= B -> norm c <= C -> norm d <= D -> norm e <= E ->
  norm (vadd (vadd (vadd (vadd (scale MM a) b) c) d) e) <= A + B + C + D + E.
Proof.
  intros. eapply Rle_trans; [apply norm_triangle|]. apply Rplus_le_compat; [|assumption].
  eapply Rle_trans; [apply norm_triangle|]. apply Rplus_le_compat; [|assumption].
  eapply Rle_trans; [apply norm_triangle|]. apply Rplus_le_compat; [|assumption].
  eapply Rle_trans; [apply norm_triangle|]. apply Rplus_le_compat; [|assumption].
  rewrite norm_scale_abs. unfold MM. rewrite Rabs_pos_eq by lra. pose proof (norm_nonneg a). lra.
Qed.
Lemma bary_pos (t : R) : Rabs t <= 10 -> norm (vsub (pos (evp_bary (N := RNum) t)) (bpS t)) <= 8.2e-9.
Proof.
  intros T. rewrite (bary_R t T). unfold bpS. cbn [pos]. rewrite sum5. eapply Rle_trans.
  - apply sum5n; [apply helio_pos, T|apply qh_near; [exact T|lia]..].
  - unfold Am. cbn [nth ccpam]. dnum. lra.
Qed.
Lemma bary_velo (t : R) : Rabs t <= 10 -> norm (vsub (scale SC (velo (evp_bary (N := RNum) t))) (inertial (bpS t) (bvS t))) <= 22 / 1000.
Proof.
  intros T. rewrite (bary_R t T). cbn [velo].
  set (h := velo (evp_helio (N := RNum) t)).
  replace (vsub _ _) with (vadd (vadd (vadd (vadd (scale MM (vsub (scale SC h) (inertial (hpS t) (hvS t)))) (vsub (scale SC (qvh t 0)) (inertial (qS 0 t) (qvS 0 t))))
    (vsub (scale SC (qvh t 1)) (inertial (qS 1 t) (qvS 1 t)))) (vsub (scale SC (qvh t 2)) (inertial (qS 2 t) (qvS 2 t)))) (vsub (scale SC (qvh t 3)) (inertial (qS 3 t) (qvS 3 t)))).
  2: { unfold bpS, bvS, inertial, vsub, vadd, scale, cross. cbn [v0 v1 v2]. f_equal; ring. }
  eapply Rle_trans.
  - apply sum5n; [apply helio_velo, T|apply qvh_near; [exact T|lia]..].
  - unfold Vm. cbn [nth ccpamv]. dnum. lra.
Qed.
