(** The relativistic clock correction. *)
From Coq Require Import ZArith QArith Qreals Reals Lra Lia List Bool.
From Verif Require Import Num NumR L_Pi L_Real M_EphTab M_Eph M_RccTab M_Rcc S_Eph S_Rcc L_Trig L_Frame L_NutDiff L_Eph L_EphB.
Import ListNotations.
Open Scope R_scope.
Ltac nring := match goal with |- @eq _ ?x ?y => change (@eq R x y) end; ring.

Lemma fairhead_eq tab (t : R) : rcc_fairhead (N := RNum) tab t = fairhead tab t.
Proof.
  assert (H : forall l, rcc_terms (N := RNum) t l = sines l t).
  { induction l as [ | [[a f] p] l IH]; [ reflexivity | ]. cbn [rcc_terms fold_right sines].
    change (fold_right _ _ l) with (rcc_terms (N := RNum) t l). rewrite IH, !lit_decimal. unR. apply Rplus_comm. }
  unfold rcc_fairhead. rewrite !H. unfold fairhead.
  change (rows 0 473 tab) with (block 0 474 tab). change (rows 474 678 tab) with (block 474 205 tab).
  change (rows 679 763 tab) with (block 679 85 tab). change (rows 764 783 tab) with (block 764 20 tab).
  change (rows 784 786 tab) with (block 784 3 tab). unR.
  generalize (sines (block 0 474 tab) t), (sines (block 474 205 tab) t), (sines (block 679 85 tab) t), (sines (block 764 20 tab) t), (sines (block 784 3 tab) t).
  intros. ring.
Qed.

Lemma jpl_eq (t : R) : rcc_jpl (N := RNum) t = jpl_masses t.
Proof.
  unfold rcc_jpl, jpl_masses. unR. decs.
  rewrite ?Rmult_1_r.
  replace (6069776754 / 1000000) with 6069.776754 by lra. replace (4021194 / 1000000) with 4.021194 by lra.
  replace (213299095 / 1000000) with 213.299095 by lra. replace (5543132 / 1000000) with 5.543132 by lra.
  replace (6208294251 / 1000000) with 6208.294251 by lra. replace (5696701 / 1000000) with 5.696701 by lra.
  replace (74781599 / 1000000) with 74.781599 by lra. replace (2435900 / 1000000) with 2.435900 by lra.
  set (s1 := sin _). set (s2 := sin _). set (s3 := sin _). set (s4 := sin _). field.
Qed.

(** ** The reduced arguments *)
Lemma deg_near : Rabs (deg (N := RNum) - PI / 180) <= 1e-24.
Proof. pose proof PI_bounds. unfold deg. unR. decs. apply Rabs_le. lra. Qed.
Lemma pi2_near : Rabs (rcc_pi2 (N := RNum) - 2 * PI) <= 1e-21.
Proof. pose proof PI_bounds. unfold rcc_pi2. unR. decs. apply Rabs_le. lra. Qed.

Lemma arg_turns x : anear 4e-22 (Rfmod x 360 * deg (N := RNum)) (degrees x).
Proof.
  destruct (Rfmod_range x 360 ltac:(lra)) as [F1 F2]. destruct (Rfmod_congr x 360) as [k E].
  set (f := Rfmod x 360) in *. exists (- k)%Z. rewrite opp_IZR. unfold degrees.
  replace (f * deg (N := RNum) - x * PI / 180 - - IZR k * (2 * PI)) with (f * (deg (N := RNum) - PI / 180)) by (rewrite E; field).
  assert (B : Rabs f <= 360) by (apply Rabs_le; destruct (Rle_dec 0 x); [specialize (F1 ltac:(assumption))|specialize (F2 ltac:(lra))]; lra).
  rewrite Rabs_mult. pose proof deg_near as D. pose proof (Rabs_pos f). pose proof (Rabs_pos (deg (N := RNum) - PI / 180)).
  change (car RNum) with R in *. nra.
Qed.

Lemma solar_turns u cl : anear 1e-21 (Rfmod u 1 * rcc_pi2 (N := RNum) - cl) (2 * PI * u - cl).
Proof.
  destruct (Rfmod_range u 1 ltac:(lra)) as [F1 F2]. destruct (Rfmod_congr u 1) as [k E].
  set (f := Rfmod u 1) in *. exists (- k)%Z. rewrite opp_IZR.
  replace (f * rcc_pi2 (N := RNum) - cl - (2 * PI * u - cl) - - IZR k * (2 * PI)) with (f * (rcc_pi2 (N := RNum) - 2 * PI)) by (rewrite E; ring).
  assert (B : Rabs f <= 1) by (apply Rabs_le; destruct (Rle_dec 0 u); [specialize (F1 ltac:(assumption))|specialize (F2 ltac:(lra))]; lra).
  rewrite Rabs_mult. pose proof pi2_near as D. pose proof (Rabs_pos f). pose proof (Rabs_pos (rcc_pi2 (N := RNum) - 2 * PI)).
  change (car RNum) with R in *. nra.
Qed.

Lemma anear_sub d e a b a' b' : anear d a b -> anear e a' b' -> anear (d + e) (a - a') (b - b').
Proof.
  intros H K. apply (anear_mul e (-1)) in K. change (IZR (Z.abs (-1))) with 1 in K. rewrite Rmult_1_l in K.
  replace (a - a') with (a + -1 * a') by ring. replace (b - b') with (b + -1 * b') by ring. apply anear_add; assumption.
Qed.
Lemma anear_2 d a b : anear d a b -> anear (2 * d) (2 * a) (2 * b).
Proof. exact (anear_mul d 2 a b). Qed.
Lemma anear_le d e a b : d <= e -> anear d a b -> anear e a b.
Proof. intros L [k K]. exists k. lra. Qed.


(** The model's sum as a function of its six angles. *)
Definition tsum (S L M D J A cda cdp : R) : R :=
  Rdec 29 (-15) * cda * sin (S + L - A)
  + Rdec 100 (-15) * cda * sin (S - 2 * M)
  + Rdec 133 (-15) * cda * sin (S - D)
  + Rdec 133 (-15) * cda * sin (S + L - J)
  - Rdec 229 (-15) * cda * sin (S + 2 * L + M)
  - Rdec 2200 (-15) * cdp * cos (L + M)
  + Rdec 5312 (-15) * cda * sin (S - M)
  - Rdec 13677 (-15) * cda * sin (S + 2 * L)
  - Rdec 131840 (-15) * cdp * cos L
  + Rdec 317679 (-15) * cda * sin S.

Lemma tsum_near S' S L' L M' M D' D J' J A' A cda cdp :
  anear 1e-21 S' S -> anear 4e-22 L' L -> anear 4e-22 M' M -> anear 4e-22 D' D -> anear 4e-22 J' J -> anear 4e-22 A' A ->
  Rabs (tsum S' L' M' D' J' A' cda cdp - 1e-10 * (cda * (3.17679 * sin S - 0.13677 * sin (S + 2 * L) + 0.05312 * sin (S - M) - 0.00229 * sin (S + 2 * L + M)
      + 0.00133 * sin (S + L - J) + 0.00133 * sin (S - D) + 0.00100 * sin (S - 2 * M) + 0.00029 * sin (S + L - A))
    - cdp * (1.31840 * cos L + 0.02200 * cos (L + M)))) <= 1e-30 * (Rabs cda + Rabs cdp).
Proof.
  intros HS HL HM HD HJ HA. unfold tsum.
  pose proof (anear_sin _ _ _ (anear_sub _ _ _ _ _ _ (anear_add _ _ _ _ _ _ HS HL) HA)) as E1.
  pose proof (anear_sin _ _ _ (anear_sub _ _ _ _ _ _ HS (anear_2 _ _ _ HM))) as E2.
  pose proof (anear_sin _ _ _ (anear_sub _ _ _ _ _ _ HS HD)) as E3.
  pose proof (anear_sin _ _ _ (anear_sub _ _ _ _ _ _ (anear_add _ _ _ _ _ _ HS HL) HJ)) as E4.
  pose proof (anear_sin _ _ _ (anear_add _ _ _ _ _ _ (anear_add _ _ _ _ _ _ HS (anear_2 _ _ _ HL)) HM)) as E5.
  pose proof (anear_cos _ _ _ (anear_add _ _ _ _ _ _ HL HM)) as E6.
  pose proof (anear_sin _ _ _ (anear_sub _ _ _ _ _ _ HS HM)) as E7.
  pose proof (anear_sin _ _ _ (anear_add _ _ _ _ _ _ HS (anear_2 _ _ _ HL))) as E8.
  pose proof (anear_cos _ _ _ HL) as E9. pose proof (anear_sin _ _ _ HS) as E10.
  apply abs_between in E1, E2, E3, E4, E5, E6, E7, E8, E9, E10.
  set (x1 := sin (S' + L' - A')) in *. set (x2 := sin (S' - 2 * M')) in *. set (x3 := sin (S' - D')) in *. set (x4 := sin (S' + L' - J')) in *.
  set (x5 := sin (S' + 2 * L' + M')) in *. set (x6 := cos (L' + M')) in *. set (x7 := sin (S' - M')) in *. set (x8 := sin (S' + 2 * L')) in *.
  set (x9 := cos L') in *. set (x10 := sin S') in *.
  set (y1 := sin (S + L - A)) in *. set (y2 := sin (S - 2 * M)) in *. set (y3 := sin (S - D)) in *. set (y4 := sin (S + L - J)) in *.
  set (y5 := sin (S + 2 * L + M)) in *. set (y6 := cos (L + M)) in *. set (y7 := sin (S - M)) in *. set (y8 := sin (S + 2 * L)) in *.
  set (y9 := cos L) in *. set (y10 := sin S) in *.
  clearbody x1 x2 x3 x4 x5 x6 x7 x8 x9 x10 y1 y2 y3 y4 y5 y6 y7 y8 y9 y10. clear - E1 E2 E3 E4 E5 E6 E7 E8 E9 E10.
  decs.
  match goal with |- Rabs ?e <= _ => replace e with
    (cda * (1e-10 * (0.00029 * (x1 - y1) + 0.00100 * (x2 - y2) + 0.00133 * (x3 - y3) + 0.00133 * (x4 - y4) - 0.00229 * (x5 - y5)
       + 0.05312 * (x7 - y7) - 0.13677 * (x8 - y8) + 3.17679 * (x10 - y10)))
     + cdp * (1e-10 * (- 0.02200 * (x6 - y6) - 1.31840 * (x9 - y9)))) by lra end.
  set (P := 1e-10 * (0.00029 * (x1 - y1) + _ + _ + _ - _ + _ - _ + _)). set (Q := 1e-10 * (- 0.02200 * _ - _)).
  assert (HP : Rabs P <= 1e-30) by (apply Rabs_le; unfold P; lra).
  assert (HQ : Rabs Q <= 1e-30) by (apply Rabs_le; unfold Q; lra).
  eapply Rle_trans; [ apply Rabs_triang | ]. rewrite !Rabs_mult.
  pose proof (Rabs_pos cda). pose proof (Rabs_pos cdp). pose proof (Rabs_pos P). pose proof (Rabs_pos Q). nra.
Qed.

Lemma arg_eq (c0 c1 a b t : R) : c0 = a -> c1 = b ->
  anear 4e-22 (rcc_arg (N := RNum) c0 c1 (t / 3600)) (degrees (a + b * t / 3600)).
Proof.
  intros -> ->. replace (a + b * t / 3600) with (a + b * (t / 3600)) by (unfold Rdiv; ring).
  exact (arg_turns (a + b * (t / 3600))).
Qed.

Lemma topo_near (t ut1 cl cda cdp : R) :
  Rabs (rcc_topo (N := RNum) t ut1 cl cda cdp - diurnal t ut1 cl cda cdp) <= 1e-30 * (Rabs cda + Rabs cdp).
Proof.
  unfold diurnal. cbv zeta.
  apply (tsum_near (Rfmod ut1 1 * rcc_pi2 (N := RNum) - cl) _ (rcc_arg (N := RNum) (Rdec 28046645683 (-8)) (Rdec 129602771103429 (-5)) (t / 3600)) _
    (rcc_arg (N := RNum) (Rdec 35752910918 (-8)) (Rdec 1295965810481 (-3)) (t / 3600)) _
    (rcc_arg (N := RNum) (Rdec 29785019547 (-8)) (Rdec 1602961601209 (-2)) (t / 3600)) _
    (rcc_arg (N := RNum) (Rdec 3435151874 (-8)) (Rdec 10930689989453 (-5)) (t / 3600)) _
    (rcc_arg (N := RNum) (Rdec 500774443 (-7)) (Rdec 4404639847038 (-5)) (t / 3600)) _);
    [ apply solar_turns | apply arg_eq; decs; lra .. ].
Qed.

(** ** Amplitudes and rates *)
Definition ampf (l : list term) : Z := fold_right (fun (r : term) acc => (mag (fst (fst r)) * mag (snd (fst r)) + acc)%Z) 0%Z l.
Definition finef (l : list term) : bool := forallb (fun r : term => fine (fst (fst r)) && fine (snd (fst r))) l.

Lemma sines_amp : forall l t, finef l = true -> Rabs (sines l t) <= IZR (amp l) / IZR unit30.
Proof.
  induction l as [|[[a b] c] l IH]; intros t F; cbn [sines].
  - rewrite Rabs_R0. unfold amp; cbn [fold_right]. unfold Rdiv; rewrite Rmult_0_l; lra.
  - cbn [finef forallb fst snd] in F. apply andb_prop in F as (F & G). apply andb_prop in F as (F & _).
    eapply Rle_trans; [apply Rabs_triang|]. cbn [amp fold_right fst snd]. fold (amp l).
    rewrite plus_IZR, Rdiv_plus_distr, <- abs_decimal by exact F.
    apply Rplus_le_compat; [|exact (IH t G)]. apply abs1, sin1.
Qed.
Lemma sines_ampf : forall l t s, finef l = true -> Rabs (sines l t - sines l s) <= IZR (ampf l) / (IZR unit30 * IZR unit30) * Rabs (t - s).
Proof.
  pose proof unit30_pos as U.
  induction l as [|[[a b] c] l IH]; intros t s F; cbn [sines].
  - rewrite Rminus_0_r, Rabs_R0. unfold ampf; cbn [fold_right]. unfold Rdiv; rewrite !Rmult_0_l; lra.
  - cbn [finef forallb fst snd] in F. apply andb_prop in F as (F & G). apply andb_prop in F as (F & F').
    replace (decimal a * sin (decimal b * t + decimal c) + sines l t - (decimal a * sin (decimal b * s + decimal c) + sines l s))
      with (decimal a * (sin (decimal b * t + decimal c) - sin (decimal b * s + decimal c)) + (sines l t - sines l s)) by ring.
    eapply Rle_trans; [apply Rabs_triang|]. cbn [ampf fold_right fst snd]. fold (ampf l).
    rewrite plus_IZR, mult_IZR, Rdiv_plus_distr, Rmult_plus_distr_r.
    apply Rplus_le_compat; [|exact (IH t s G)].
    rewrite Rabs_mult. eapply Rle_trans; [ apply Rmult_le_compat_l; [ apply Rabs_pos | apply sin_lip ] | ].
    replace (decimal b * t + decimal c - (decimal b * s + decimal c)) with (decimal b * (t - s)) by ring.
    rewrite Rabs_mult, !abs_decimal by assumption. right; field. lra.
Qed.
Lemma sines_le : forall l t (n d : Z), (finef l && (0 <? d) && (amp l * d <=? n * unit30))%Z = true -> Rabs (sines l t) <= IZR n / IZR d.
Proof.
  intros l t n d H. apply andb_prop in H as (H & K). apply andb_prop in H as (F & D).
  apply Z.ltb_lt in D. apply Z.leb_le in K. apply IZR_lt in D. apply IZR_le in K. rewrite !mult_IZR in K.
  pose proof unit30_pos as U. eapply Rle_trans; [apply sines_amp, F|].
  apply Rmult_le_reg_r with (IZR unit30 * IZR d); [apply Rmult_lt_0_compat; assumption|].
  replace (IZR (amp l) / IZR unit30 * (IZR unit30 * IZR d)) with (IZR (amp l) * IZR d) by (field; lra).
  replace (IZR n / IZR d * (IZR unit30 * IZR d)) with (IZR n * IZR unit30) by (field; lra). exact K.
Qed.
Lemma sines_lip : forall l t s (n d : Z), (finef l && (0 <? d) && (ampf l * d <=? n * (unit30 * unit30)))%Z = true ->
  Rabs (sines l t - sines l s) <= IZR n / IZR d * Rabs (t - s).
Proof.
  intros l t s n d H. apply andb_prop in H as (H & K). apply andb_prop in H as (F & D).
  apply Z.ltb_lt in D. apply Z.leb_le in K. apply IZR_lt in D. apply IZR_le in K. rewrite !mult_IZR in K.
  pose proof unit30_pos as U. eapply Rle_trans; [apply sines_ampf, F|].
  apply Rmult_le_compat_r; [ apply Rabs_pos | ].
  assert (U2 : 0 < IZR unit30 * IZR unit30) by (apply Rmult_lt_0_compat; assumption).
  apply Rmult_le_reg_r with (IZR unit30 * IZR unit30 * IZR d); [apply Rmult_lt_0_compat; assumption|].
  replace (IZR (ampf l) / (IZR unit30 * IZR unit30) * (IZR unit30 * IZR unit30 * IZR d)) with (IZR (ampf l) * IZR d) by (field; lra).
  replace (IZR n / IZR d * (IZR unit30 * IZR unit30 * IZR d)) with (IZR n * (IZR unit30 * IZR unit30)) by (field; lra). exact K.
Qed.

Ltac sb := apply sines_le; vm_compute; reflexivity.
Ltac sl := apply sines_lip; vm_compute; reflexivity.
Lemma b0 t : Rabs (sines (tl (block 0 474 fb_coeffs)) t) <= 63486 / 1000000000. Proof. sb. Qed.
Lemma b1 t : Rabs (sines (block 474 205 fb_coeffs) t) <= 105388 / 1000000000. Proof. sb. Qed.
Lemma b2 t : Rabs (sines (block 679 85 fb_coeffs) t) <= 5001 / 1000000000. Proof. sb. Qed.
Lemma b3 t : Rabs (sines (block 764 20 fb_coeffs) t) <= 158 / 1000000000. Proof. sb. Qed.
Lemma b4 t : Rabs (sines (block 784 3 fb_coeffs) t) <= 5 / 1000000000. Proof. sb. Qed.
Lemma l0 t s : Rabs (sines (block 0 474 fb_coeffs) t - sines (block 0 474 fb_coeffs) s) <= 10944 / 1000 * Rabs (t - s). Proof. sl. Qed.
Lemma l1 t s : Rabs (sines (block 474 205 fb_coeffs) t - sines (block 474 205 fb_coeffs) s) <= 667 / 1000 * Rabs (t - s). Proof. sl. Qed.
Lemma l2 t s : Rabs (sines (block 679 85 fb_coeffs) t - sines (block 679 85 fb_coeffs) s) <= 30 / 1000 * Rabs (t - s). Proof. sl. Qed.
Lemma l3 t s : Rabs (sines (block 764 20 fb_coeffs) t - sines (block 764 20 fb_coeffs) s) <= 2 / 1000 * Rabs (t - s). Proof. sl. Qed.
Lemma l4 t s : Rabs (sines (block 784 3 fb_coeffs) t - sines (block 784 3 fb_coeffs) s) <= 1 / 1000 * Rabs (t - s). Proof. sl. Qed.

Definition annual (t : R) : R := 0.001656674564 * sin (6283.075849991 * t + 6.240054195).
Lemma block0_head t : sines (block 0 474 fb_coeffs) t = annual t + sines (tl (block 0 474 fb_coeffs)) t.
Proof.
  assert (E : block 0 474 fb_coeffs = ((1656674564, -12)%Z, (6283075849991, -9)%Z, (6240054195, -9)%Z) :: tl (block 0 474 fb_coeffs)) by reflexivity.
  rewrite E at 1. cbn [sines]. f_equal.
Qed.

Lemma mulb a b A B : Rabs a <= A -> Rabs b <= B -> Rabs (a * b) <= A * B.
Proof. intros. rewrite Rabs_mult. apply Rmult_le_compat; try apply Rabs_pos; assumption. Qed.

Lemma jpl_bound t : Rabs t <= 1 -> Rabs (jpl_masses t) <= 42 / 1000000000.
Proof.
  intros T. unfold jpl_masses. 
  assert (Q : Rabs (t ^ 2) <= 1) by (replace (t ^ 2) with (t * t) by ring; replace 1 with (1 * 1) by ring; apply mulb; assumption).
  pose proof (ab _ _ Q). 
  pose proof (SIN_bound (6069.776754 * t + 4.021194)). pose proof (SIN_bound (213.299095 * t + 5.543132)).
  pose proof (SIN_bound (6208.294251 * t + 5.696701)). pose proof (SIN_bound (74.781599 * t + 2.435900)).
  apply Rabs_le. lra.
Qed.

Lemma geocentric_bound t : Rabs t <= 1 ->
  Rabs (fairhead fb_coeffs t + jpl_masses t - annual t) <= (63.6 + 111 * Rabs t) / 1000000.
Proof.
  intros T. unfold fairhead. rewrite block0_head.
  pose proof (jpl_bound t T) as J. pose proof (Rabs_pos t) as P.
  pose proof (b0 t) as B0. pose proof (b1 t) as B1. pose proof (b2 t) as B2. pose proof (b3 t) as B3. pose proof (b4 t) as B4.
  set (s0 := sines _ t) in *. set (s1 := sines (block 474 205 _) t) in *. set (s2 := sines (block 679 85 _) t) in *.
  set (s3 := sines (block 764 20 _) t) in *. set (s4 := sines (block 784 3 _) t) in *.
  replace (annual t + s0 + t * s1 + t ^ 2 * s2 + t ^ 3 * s3 + t ^ 4 * s4 + jpl_masses t - annual t)
    with (s0 + jpl_masses t + t * (s1 + t * (s2 + t * (s3 + t * s4)))) by ring.
  assert (C4 : Rabs (s3 + t * s4) <= 200 / 1000000000).
  { eapply Rle_trans; [apply Rabs_triang|]. pose proof (mulb _ _ _ _ T B4). lra. }
  assert (C3 : Rabs (s2 + t * (s3 + t * s4)) <= 5300 / 1000000000).
  { eapply Rle_trans; [apply Rabs_triang|]. pose proof (mulb _ _ _ _ T C4). lra. }
  assert (C2 : Rabs (s1 + t * (s2 + t * (s3 + t * s4))) <= 111000 / 1000000000).
  { eapply Rle_trans; [apply Rabs_triang|]. pose proof (mulb _ _ _ _ T C3). lra. }
  pose proof (mulb _ _ _ _ (Rle_refl (Rabs t)) C2) as C1.
  eapply Rle_trans; [apply Rabs_triang|]. pose proof (Rabs_triang s0 (jpl_masses t)). lra.
Qed.

(** A product of bounded Lipschitz values. *)
Lemma horner_lip t s w w' B L : Rabs t <= 1 -> Rabs s <= 1 -> Rabs w' <= B -> Rabs (w - w') <= L * Rabs (t - s) ->
  Rabs (t * w - s * w') <= (B + L) * Rabs (t - s).
Proof.
  intros T S' W D. replace (t * w - s * w') with (t * (w - w') + (t - s) * w') by ring.
  eapply Rle_trans; [apply Rabs_triang|]. pose proof (mulb _ _ _ _ T D). pose proof (mulb _ _ _ _ (Rle_refl (Rabs (t - s))) W). lra.
Qed.
Lemma sin_lin_lip a b t s : 0 <= a -> Rabs (sin (a * t + b) - sin (a * s + b)) <= a * Rabs (t - s).
Proof.
  intros A. eapply Rle_trans; [apply sin_lip|]. replace (a * t + b - (a * s + b)) with (a * (t - s)) by ring.
  rewrite Rabs_mult, (Rabs_pos_eq a A). lra.
Qed.

Lemma jpl_lip t s : Rabs t <= 1 -> Rabs s <= 1 -> Rabs (jpl_masses t - jpl_masses s) <= 1 / 1000 * Rabs (t - s).
Proof.
  intros T S'. unfold jpl_masses.
  pose proof (ab _ _ (sin_lin_lip 6069.776754 4.021194 t s ltac:(lra))). pose proof (ab _ _ (sin_lin_lip 213.299095 5.543132 t s ltac:(lra))).
  pose proof (ab _ _ (sin_lin_lip 6208.294251 5.696701 t s ltac:(lra))). pose proof (ab _ _ (sin_lin_lip 74.781599 2.435900 t s ltac:(lra))).
  assert (Q : Rabs (t ^ 2 - s ^ 2) <= 2 * Rabs (t - s)).
  { replace (t ^ 2 - s ^ 2) with (t * t - s * s) by ring.
    pose proof (horner_lip t s t s 1 1 T S' S' ltac:(lra)). lra. }
  apply ab in Q. pose proof (Rabs_pos (t - s)).
  apply Rabs_le. lra.
Qed.

Lemma geocentric_lip t s : Rabs t <= 1 -> Rabs s <= 1 ->
  Rabs (fairhead fb_coeffs t + jpl_masses t - (fairhead fb_coeffs s + jpl_masses s)) <= 11.65 * Rabs (t - s).
Proof.
  intros T S'. pose proof (jpl_lip t s T S') as J. pose proof (Rabs_pos (t - s)) as P.
  unfold fairhead.
  pose proof (b1 s) as B1. pose proof (b2 s) as B2. pose proof (b3 s) as B3. pose proof (b4 s) as B4.
  pose proof (l0 t s) as L0. pose proof (l1 t s) as L1. pose proof (l2 t s) as L2. pose proof (l3 t s) as L3. pose proof (l4 t s) as L4.
  set (u0 := sines (block 0 474 _) t) in *. set (u1 := sines (block 474 205 _) t) in *. set (u2 := sines (block 679 85 _) t) in *.
  set (u3 := sines (block 764 20 _) t) in *. set (u4 := sines (block 784 3 _) t) in *.
  set (v0 := sines (block 0 474 _) s) in *. set (v1 := sines (block 474 205 _) s) in *. set (v2 := sines (block 679 85 _) s) in *.
  set (v3 := sines (block 764 20 _) s) in *. set (v4 := sines (block 784 3 _) s) in *.
  pose proof (horner_lip t s u4 v4 _ _ T S' B4 L4) as H4.
  assert (W3 : Rabs (v3 + s * v4) <= 200 / 1000000000).
  { eapply Rle_trans; [apply Rabs_triang|]. pose proof (mulb _ _ _ _ S' B4). lra. }
  assert (D3 : Rabs (u3 + t * u4 - (v3 + s * v4)) <= 4 / 1000 * Rabs (t - s)).
  { replace (u3 + t * u4 - (v3 + s * v4)) with (u3 - v3 + (t * u4 - s * v4)) by ring. eapply Rle_trans; [apply Rabs_triang|]. lra. }
  pose proof (horner_lip t s _ _ _ _ T S' W3 D3) as H3.
  assert (W2 : Rabs (v2 + s * (v3 + s * v4)) <= 5300 / 1000000000).
  { eapply Rle_trans; [apply Rabs_triang|]. pose proof (mulb _ _ _ _ S' W3). lra. }
  assert (D2 : Rabs (u2 + t * (u3 + t * u4) - (v2 + s * (v3 + s * v4))) <= 35 / 1000 * Rabs (t - s)).
  { replace (u2 + t * (u3 + t * u4) - (v2 + s * (v3 + s * v4))) with (u2 - v2 + (t * (u3 + t * u4) - s * (v3 + s * v4))) by ring. eapply Rle_trans; [apply Rabs_triang|]. lra. }
  pose proof (horner_lip t s _ _ _ _ T S' W2 D2) as H2.
  assert (W1 : Rabs (v1 + s * (v2 + s * (v3 + s * v4))) <= 111000 / 1000000000).
  { eapply Rle_trans; [apply Rabs_triang|]. pose proof (mulb _ _ _ _ S' W2). lra. }
  assert (D1 : Rabs (u1 + t * (u2 + t * (u3 + t * u4)) - (v1 + s * (v2 + s * (v3 + s * v4)))) <= 703 / 1000 * Rabs (t - s)).
  { replace (u1 + t * (u2 + t * (u3 + t * u4)) - (v1 + s * (v2 + s * (v3 + s * v4))))
      with (u1 - v1 + (t * (u2 + t * (u3 + t * u4)) - s * (v2 + s * (v3 + s * v4)))) by ring. eapply Rle_trans; [apply Rabs_triang|]. lra. }
  pose proof (horner_lip t s _ _ _ _ T S' W1 D1) as H1.
  match goal with |- Rabs ?e <= _ => replace e with
    (u0 - v0 + (t * (u1 + t * (u2 + t * (u3 + t * u4))) - s * (v1 + s * (v2 + s * (v3 + s * v4)))) + (jpl_masses t - jpl_masses s)) by ring end.
  eapply Rle_trans; [apply Rabs_triang|]. eapply Rle_trans; [apply Rplus_le_compat_r, Rabs_triang|]. lra.
Qed.

(** ** The observer's place *)
Lemma tsum_bound S L M D J A cda cdp : Rabs (tsum S L M D J A cda cdp) <= 3.37292e-10 * Rabs cda + 1.3404e-10 * Rabs cdp.
Proof.
  unfold tsum. pose proof (SIN_bound (S + L - A)). pose proof (SIN_bound (S - 2 * M)). pose proof (SIN_bound (S - D)).
  pose proof (SIN_bound (S + L - J)). pose proof (SIN_bound (S + 2 * L + M)). pose proof (SIN_bound (S - M)). pose proof (SIN_bound (S + 2 * L)).
  pose proof (SIN_bound S). pose proof (COS_bound (L + M)). pose proof (COS_bound L).
  set (x1 := sin (S + L - A)) in *. set (x2 := sin (S - 2 * M)) in *. set (x3 := sin (S - D)) in *. set (x4 := sin (S + L - J)) in *.
  set (x5 := sin (S + 2 * L + M)) in *. set (x6 := cos (L + M)) in *. set (x7 := sin (S - M)) in *. set (x8 := sin (S + 2 * L)) in *.
  set (x9 := cos L) in *. set (x10 := sin S) in *. clearbody x1 x2 x3 x4 x5 x6 x7 x8 x9 x10. decs.
  set (P := 29 * x1 + 100 * x2 + 133 * x3 + 133 * x4 - 229 * x5 + 5312 * x7 - 13677 * x8 + 317679 * x10).
  set (Q := - 2200 * x6 - 131840 * x9).
  assert (HP : Rabs P <= 337292) by (apply Rabs_le; unfold P; lra).
  assert (HQ : Rabs Q <= 134040) by (apply Rabs_le; unfold Q; lra).
  match goal with |- Rabs ?e <= _ => replace e with (cda * P / 1000000000000000 + cdp * Q / 1000000000000000) by (unfold P, Q; lra) end.
  eapply Rle_trans; [ apply Rabs_triang | ]. unfold Rdiv. rewrite !Rabs_mult. rewrite (Rabs_pos_eq (/ 1000000000000000)) by lra.
  pose proof (mulb _ _ _ _ (Rle_refl (Rabs cda)) HP) as K1. pose proof (mulb _ _ _ _ (Rle_refl (Rabs cdp)) HQ) as K2.
  rewrite Rabs_mult in K1, K2. lra.
Qed.

Lemma topo_tsum t ut1 cl : exists S L M D J A, forall cda cdp, rcc_topo (N := RNum) t ut1 cl cda cdp = tsum S L M D J A cda cdp.
Proof.
  exists (Rfmod ut1 1 * rcc_pi2 (N := RNum) - cl), (rcc_arg (N := RNum) (Rdec 28046645683 (-8)) (Rdec 129602771103429 (-5)) (t / 3600)),
    (rcc_arg (N := RNum) (Rdec 35752910918 (-8)) (Rdec 1295965810481 (-3)) (t / 3600)),
    (rcc_arg (N := RNum) (Rdec 29785019547 (-8)) (Rdec 1602961601209 (-2)) (t / 3600)),
    (rcc_arg (N := RNum) (Rdec 3435151874 (-8)) (Rdec 10930689989453 (-5)) (t / 3600)),
    (rcc_arg (N := RNum) (Rdec 500774443 (-7)) (Rdec 4404639847038 (-5)) (t / 3600)).
  reflexivity.
Qed.
Lemma tsum_0 S L M D J A : tsum S L M D J A 0 0 = 0.
Proof. unfold tsum. ring. Qed.
Lemma tsum_add S L M D J A a b c d : tsum S L M D J A (a + b) (c + d) = tsum S L M D J A a c + tsum S L M D J A b d.
Proof. unfold tsum. ring. Qed.
Lemma tsum_scale S L M D J A k a c : tsum S L M D J A (k * a) (k * c) = k * tsum S L M D J A a c.
Proof. unfold tsum. ring. Qed.

(** ** The whole routine *)
Lemma rcc_parts (tdb ut1 cl cda cdp : R) :
  rcc (N := RNum) tdb ut1 cl cda cdp = rcc_topo (N := RNum) (millennia tdb) ut1 cl cda cdp + fairhead fb_coeffs (millennia tdb) + jpl_masses (millennia tdb).
Proof.
  unfold rcc. cbv zeta. rewrite fairhead_eq, jpl_eq.
  assert (E : ((tdb - Rdec 515445 (-1)) / 365250) = millennia tdb) by (unfold millennia; decs; lra).
  unR. rewrite E. reflexivity.
Qed.

Lemma rcc_value tdb ut1 cl cda cdp :
  Rabs (rcc (N := RNum) tdb ut1 cl cda cdp -
        (diurnal (millennia tdb) ut1 cl cda cdp + fairhead fb_coeffs (millennia tdb) + jpl_masses (millennia tdb)))
    <= 1e-30 * (Rabs cda + Rabs cdp).
Proof.
  rewrite rcc_parts. pose proof (topo_near (millennia tdb) ut1 cl cda cdp) as H.
  match goal with |- Rabs ?e <= _ => replace e with (rcc_topo (N := RNum) (millennia tdb) ut1 cl cda cdp - diurnal (millennia tdb) ut1 cl cda cdp) by nring end. exact H.
Qed.

Lemma rcc_geocentre tdb ut1 cl : rcc (N := RNum) tdb ut1 cl 0 0 = fairhead fb_coeffs (millennia tdb) + jpl_masses (millennia tdb).
Proof.
  rewrite rcc_parts. destruct (topo_tsum (millennia tdb) ut1 cl) as (S & L & M & D & J & A & E). rewrite E, tsum_0. nring.
Qed.

Lemma rcc_observer tdb ut1 cl cda cdp ut1' cl' :
  Rabs (rcc (N := RNum) tdb ut1 cl cda cdp - rcc (N := RNum) tdb ut1' cl' 0 0) <= 3.37292e-10 * Rabs cda + 1.3404e-10 * Rabs cdp.
Proof.
  rewrite rcc_geocentre, rcc_parts. destruct (topo_tsum (millennia tdb) ut1 cl) as (S & L & M & D & J & A & E). rewrite E.
  match goal with |- Rabs ?e <= _ => replace e with (tsum S L M D J A cda cdp) by nring end. apply tsum_bound.
Qed.

Lemma rcc_linear tdb ut1 cl (a b c d : R) :
  rcc (N := RNum) tdb ut1 cl (a + b) (c + d) = rcc (N := RNum) tdb ut1 cl a c + rcc (N := RNum) tdb ut1 cl b d - rcc (N := RNum) tdb ut1 cl 0 0 /\
  (forall k : R, rcc (N := RNum) tdb ut1 cl (k * a) (k * c) = rcc (N := RNum) tdb ut1 cl 0 0 + k * (rcc (N := RNum) tdb ut1 cl a c - rcc (N := RNum) tdb ut1 cl 0 0)).
Proof.
  rewrite rcc_geocentre, !rcc_parts. destruct (topo_tsum (millennia tdb) ut1 cl) as (S & L & M & D & J & A & E). split.
  - rewrite !E, tsum_add. nring.
  - intros k. rewrite !rcc_parts, !E, tsum_scale. nring.
Qed.

Lemma rcc_annual tdb ut1 cl cda cdp : Rabs (millennia tdb) <= 1 ->
  Rabs (rcc (N := RNum) tdb ut1 cl cda cdp - annual (millennia tdb))
    <= (63.6 + 111 * Rabs (millennia tdb)) / 1000000 + 3.37292e-10 * Rabs cda + 1.3404e-10 * Rabs cdp.
Proof.
  intros H. pose proof (geocentric_bound _ H) as G. pose proof (rcc_observer tdb ut1 cl cda cdp 0 0) as O. rewrite rcc_geocentre in O.
  set (r := rcc (N := RNum) tdb ut1 cl cda cdp) in *. change (car RNum) with R in *.
  match goal with |- Rabs ?e <= _ => replace e with ((r - (fairhead fb_coeffs (millennia tdb) + jpl_masses (millennia tdb))) +
    (fairhead fb_coeffs (millennia tdb) + jpl_masses (millennia tdb) - annual (millennia tdb))) by nring end.
  eapply Rle_trans; [apply Rabs_triang|]. lra.
Qed.

Lemma rcc_rate a b ut1 cl ut1' cl' : Rabs (millennia a) <= 1 -> Rabs (millennia b) <= 1 ->
  Rabs (rcc (N := RNum) a ut1 cl 0 0 - rcc (N := RNum) b ut1' cl' 0 0) <= 3.19e-5 * Rabs (a - b).
Proof.
  intros A B. rewrite !rcc_geocentre. eapply Rle_trans; [ exact (geocentric_lip _ _ A B) | ].
  replace (millennia a - millennia b) with ((a - b) * / 365250) by (unfold millennia; field).
  rewrite Rabs_mult, (Rabs_pos_eq (/ 365250)) by lra. pose proof (Rabs_pos (a - b)). lra.
Qed.

Lemma sin_per x k : sin (x + 2 * IZR k * PI) = sin x.
Proof.
  destruct (Z_le_dec 0 k) as [H|H].
  - rewrite <- (Z2Nat.id k H), <- INR_IZR_INZ. apply sin_period.
  - replace x with ((x + 2 * IZR k * PI) + 2 * INR (Z.to_nat (- k)) * PI) at 2; [ symmetry; apply sin_period | ].
    rewrite INR_IZR_INZ, Z2Nat.id, opp_IZR by lia. ring.
Qed.

Lemma diurnal_turn t u v cl cl' cda cdp (k : Z) : 2 * PI * u - cl = 2 * PI * v - cl' + 2 * IZR k * PI ->
  diurnal t u cl cda cdp = diurnal t v cl' cda cdp.
Proof.
  intros H. unfold diurnal. cbv zeta. rewrite H. set (S := 2 * PI * v - cl').
  assert (E : forall y, sin (S + 2 * IZR k * PI + y) = sin (S + y))
    by (intros y; replace (S + 2 * IZR k * PI + y) with (S + y + 2 * IZR k * PI) by ring; apply sin_per).
  assert (E' : forall y, sin (S + 2 * IZR k * PI - y) = sin (S - y)) by (intros y; apply (E (- y))).
  assert (E2 : forall y z, sin (S + 2 * IZR k * PI + y + z) = sin (S + y + z)) by (intros y z; rewrite !(Rplus_assoc _ y z); apply E).
  assert (E2' : forall y z, sin (S + 2 * IZR k * PI + y - z) = sin (S + y - z)) by (intros y z; apply (E2 y (- z))).
  rewrite (sin_per S k), !E2, !E2', !E, !E'. reflexivity.
Qed.

Lemma rcc_turn tdb u v cl cl' (cda cdp : R) (k : Z) : 2 * PI * u - cl = 2 * PI * v - cl' + 2 * IZR k * PI ->
  Rabs (rcc (N := RNum) tdb u cl cda cdp - rcc (N := RNum) tdb v cl' cda cdp) <= 2e-30 * (Rabs cda + Rabs cdp).
Proof.
  intros H. pose proof (rcc_value tdb u cl cda cdp) as A. pose proof (rcc_value tdb v cl' cda cdp) as B.
  rewrite (diurnal_turn _ _ _ _ _ _ _ _ H) in A.
  set (z := diurnal _ _ _ _ _ + _ + _) in *. clearbody z. set (x := rcc (N := RNum) tdb u cl cda cdp) in *. set (y := rcc (N := RNum) tdb v cl' cda cdp) in *.
  clearbody x y. change (car RNum) with R in *. apply ab in A, B. apply Rabs_le. lra.
Qed.
