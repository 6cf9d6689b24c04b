(** evp: the reduction of the arguments, and the sums over the tables. *)
From Coq Require Import Reals ZArith Lra Lia List Bool.
From Flocq Require Import Core.Raux.
From Verif Require Import Num NumR L_Pi L_Real M_Vec M_EphTab M_Eph M_EvpTab M_Evp S_Geom S_Eph L_Vec L_Trig L_Frame L_NutDiff L_Eph L_EphB L_EvpA.
Import ListNotations.
Open Scope R_scope.

(** ** Reduction *)
Lemma trunc_abs x : Rabs (IZR (Ztrunc x)) <= Rabs x.
Proof.
  destruct (Ztrunc_bounds x) as [A B]. destruct (Rle_dec 0 x) as [P|P].
  - specialize (A P). rewrite (Rabs_pos_eq x) by exact P. apply Rabs_le. split; [|lra].
    assert (0 <= IZR (Ztrunc x)); [|lra]. apply IZR_le. apply Z.lt_succ_r. apply lt_IZR. rewrite succ_IZR. lra.
  - specialize (B ltac:(lra)). rewrite (Rabs_left x) by lra. apply Rabs_le. split; [lra|].
    assert (IZR (Ztrunc x) <= 0); [|lra]. apply IZR_le. apply Z.lt_succ_r. apply lt_IZR. rewrite succ_IZR. lra.
Qed.
Lemma fmod_id x m : Rabs x < m -> Rfmod x m = x.
Proof.
  intros H. pose proof (Rabs_pos x). unfold Rfmod, Rtrunc. pose proof (trunc_abs (x / m)) as T.
  assert (D : Rabs (x / m) < 1).
  { unfold Rdiv. rewrite Rabs_mult, (Rabs_pos_eq (/ m)) by (apply Rlt_le, Rinv_0_lt_compat; lra).
    apply (Rmult_lt_reg_r m); [lra|]. rewrite Rmult_assoc, Rinv_l by lra. lra. }
  assert (Z : Ztrunc (x / m) = 0%Z).
  { assert (Q : Rabs (IZR (Ztrunc (x / m))) < 1) by lra. apply Rabs_def2 in Q as [Q1 Q2].
    apply lt_IZR in Q1. assert (Q3 : IZR (-1) < IZR (Ztrunc (x / m))) by lra. apply lt_IZR in Q3. lia. }
  rewrite Z. ring.
Qed.
Lemma fmod_turn x m eps B : 0 < m -> Rabs (m - 2 * PI) <= eps -> Rabs x <= B -> anear (eps * (B / m)) (Rfmod x m) x.
Proof.
  intros M E X. exists (- Ztrunc (x / m))%Z. rewrite opp_IZR. unfold Rfmod, Rtrunc.
  replace (x - m * IZR (Ztrunc (x / m)) - x - - IZR (Ztrunc (x / m)) * (2 * PI)) with (- ((m - 2 * PI) * IZR (Ztrunc (x / m)))) by ring.
  rewrite Rabs_Ropp. apply b_mul; [exact E|]. eapply Rle_trans; [apply trunc_abs|].
  unfold Rdiv. rewrite Rabs_mult, (Rabs_pos_eq (/ m)) by (apply Rlt_le, Rinv_0_lt_compat; lra).
  apply Rmult_le_compat_r; [apply Rlt_le, Rinv_0_lt_compat; lra|exact X].
Qed.
Lemma anear_weak d e a b : anear d a b -> d <= e -> anear e a b.
Proof. intros [k K] H. exists k. lra. Qed.
Lemma anear_abs d a b : Rabs (a - b) <= d -> anear d a b.
Proof. intros H. exists 0%Z. replace (a - b - 0 * (2 * PI)) with (a - b) by ring. exact H. Qed.
Lemma anear_refl a : anear 0 a a.
Proof. apply anear_abs. rewrite Rminus_diag_eq, Rabs_R0 by reflexivity. lra. Qed.
Lemma anear_trans d e a b c : anear d a b -> anear e b c -> anear (d + e) a c.
Proof.
  intros [k K] [m M]. exists (k + m)%Z. rewrite plus_IZR.
  replace (a - c - (IZR k + IZR m) * (2 * PI)) with ((a - b - IZR k * (2 * PI)) + (b - c - IZR m * (2 * PI))) by ring.
  apply b_add; assumption.
Qed.
Lemma anear_opp d a b : anear d a b -> anear d (- a) (- b).
Proof.
  intros [k K]. exists (- k)%Z. rewrite opp_IZR. replace (- a - - b - - IZR k * (2 * PI)) with (- (a - b - IZR k * (2 * PI))) by ring.
  rewrite Rabs_Ropp. exact K.
Qed.

(** ** Elements *)
Definition qd (c : dec * dec * dec) (t : R) : R :=
  decimal (fst (fst c)) + t * decimal (snd (fst c)) + t * t * decimal (snd c).
Definition qd' (c : dec * dec * dec) (t : R) : R := decimal (snd (fst c)) + 2 * t * decimal (snd c).
Definition lin (t : R) (c : dec * dec) : R := decimal (fst c) + t * decimal (snd c).

Ltac dnum := unfold decimal; cbn [fst snd Z.ltb Z.compare Z.opp];
  repeat match goal with |- context [(10 ^ ?p)%Z] =>
    let v := eval vm_compute in (10 ^ p)%Z in change (10 ^ p)%Z with v end.

Lemma two_pi : evp_2pi (N := RNum) = 62831853071796 / 10000000000000.
Proof. unfold evp_2pi. unR. decs. reflexivity. Qed.
Lemma two_pif : evp_2pif (N := RNum) = 6283185 / 1000000.
Proof. unfold evp_2pif. unR. decs. reflexivity. Qed.
Lemma two_pi_near : Rabs (62831853071796 / 10000000000000 - 2 * PI) <= 1.42e-14.
Proof. pose proof PI_bounds. apply Rabs_le. lra. Qed.
Lemma two_pif_near : Rabs (6283185 / 1000000 - 2 * PI) <= 3.08e-7.
Proof. pose proof PI_bounds. apply Rabs_le. lra. Qed.

Lemma element_R c (t : R) m : element (N := RNum) c t (t * t) m = Rfmod (qd c t) m.
Proof. destruct c as [[a b] c]. unfold element, qd. rewrite !lit_decimal. reflexivity. Qed.

Lemma reduced x B : Rabs x <= B -> B <= 90000 -> anear 2.1e-10 (Rfmod x (evp_2pi (N := RNum))) x.
Proof.
  intros X H. rewrite two_pi. eapply anear_weak; [apply (fmod_turn x _ 1.42e-14 B); [lra|apply two_pi_near|exact X]|].
  lra.
Qed.

Lemma slow_id k (t : R) : Rabs t <= 10 -> (k < 17)%nat -> sorbel (N := RNum) t k = qd (row3 ccsel k) t.
Proof.
  intros T K. unfold sorbel. change (n_mul (n := RNum) t t) with (t * t). rewrite element_R. apply fmod_id. rewrite two_pif.
  assert (T2 : Rabs (t * t) <= 100) by (eapply Rle_trans; [apply (b_mul t t 10 10); assumption|lra]).
  do 17 (destruct k as [|k]; [unfold qd; cbn [row3 nth ccsel fst snd]; dnum; eapply Rle_lt_trans; [repeat bd|lra]|]). lia.
Qed.
Lemma fast_near k (t : R) : Rabs t <= 10 -> (k < 7)%nat -> anear 2.1e-10 (forbel (N := RNum) t k) (qd (row3 dcfel (S k)) t).
Proof.
  intros T K. unfold forbel. change (n_mul (n := RNum) t t) with (t * t). rewrite element_R. apply (reduced _ 90000); [|lra].
  assert (T2 : Rabs (t * t) <= 100) by (eapply Rle_trans; [apply (b_mul t t 10 10); assumption|lra]).
  do 7 (destruct k as [|k]; [unfold qd; cbn [row3 nth dcfel fst snd]; dnum; bnd|]). lia.
Qed.
Lemma mean_near (t : R) : Rabs t <= 10 -> anear 2.1e-10 (evp_dml (N := RNum) t) (qd (row3 dcfel 0) t).
Proof.
  intros T. unfold evp_dml. change (n_mul (n := RNum) t t) with (t * t). rewrite element_R. apply (reduced _ 90000); [|lra].
  assert (T2 : Rabs (t * t) <= 100) by (eapply Rle_trans; [apply (b_mul t t 10 10); assumption|lra]).
  unfold qd; cbn [row3 nth dcfel fst snd]; dnum; bnd.
Qed.
Lemma obliquity_id (t : R) : Rabs t <= 10 -> evp_deps (N := RNum) t = qd dceps t.
Proof.
  intros T. unfold evp_deps. change (n_mul (n := RNum) t t) with (t * t). rewrite element_R. apply fmod_id. rewrite two_pi.
  assert (T2 : Rabs (t * t) <= 100) by (eapply Rle_trans; [apply (b_mul t t 10 10); assumption|lra]).
  unfold qd; cbn [dceps fst snd]; dnum; eapply Rle_lt_trans; [repeat bd|lra].
Qed.
Lemma arg_near' c (t : R) : Rabs t <= 10 -> In c dcargs \/ In c dcargm -> anear 4e-10 (evp_arg (N := RNum) c t) (lin t c).
Proof.
  intros T I. unfold evp_arg. rewrite !lit_decimal. change (anear 4e-10 (Rfmod (lin t c) (evp_2pi (N := RNum))) (lin t c)).
  assert (B : Rabs (lin t c) <= 160000).
  { cbn [In dcargs dcargm] in I. unfold lin. repeat (destruct I as [I|I]); try contradiction; subst c; cbn [fst snd]; dnum; bnd. }
  rewrite two_pi. eapply anear_weak; [apply (fmod_turn _ _ 1.42e-14 160000); [lra|apply two_pi_near|exact B]|]. lra.
Qed.

(** ** Periodic perturbations *)
Notation prow := ((dec * dec) * (dec * dec * dec))%type.
Fixpoint tsum (ang : dec * dec -> R) (l : list prow) : R :=
  match l with
  | nil => 0
  | (c, (x, y, _)) :: l => (decimal x * cos (ang c) + decimal y * sin (ang c)) + tsum ang l
  end.
Fixpoint trate (ang : dec * dec -> R) (l : list prow) : R :=
  match l with
  | nil => 0
  | (c, (x, y, w)) :: l => (decimal y * cos (ang c) - decimal x * sin (ang c)) * decimal w + trate ang l
  end.
Fixpoint tder (t : R) (l : list prow) : R :=
  match l with
  | nil => 0
  | (c, (x, y, _)) :: l => (decimal y * cos (lin t c) - decimal x * sin (lin t c)) * decimal (snd c) + tder t l
  end.
Definition sel_l (r : nat * ((dec * dec) * (dec * dec * dec * dec * dec))) : prow :=
  let '(_, (c, (p0, p1, _, _, p4))) := r in (c, (p0, p1, p4)).
Definition sel_r (r : nat * ((dec * dec) * (dec * dec * dec * dec * dec))) : prow :=
  let '(_, (c, (_, _, p2, p3, p4))) := r in (c, (p2, p3, p4)).
Definition quiet (r : nat * ((dec * dec) * (dec * dec * dec * dec * dec))) : bool :=
  let '(k, (_, (_, _, _, _, p4))) := r in ((k <? 10)%nat || (fst p4 =? 0)%Z).

Lemma decimal_0 e : decimal (0%Z, e) = 0.
Proof. unfold decimal. cbn [fst snd]. destruct (e <? 0)%Z; unfold Rdiv; ring. Qed.

Lemma fold_short (t : R) l : forall a b c d : R, forallb quiet l = true ->
  fold_left (evp_short (N := RNum) t) l (a, b, c, d) =
  (a + tsum (fun c => evp_arg (N := RNum) c t) (map sel_l l), b + trate (fun c => evp_arg (N := RNum) c t) (map sel_l l),
   c + tsum (fun c => evp_arg (N := RNum) c t) (map sel_r l), d + trate (fun c => evp_arg (N := RNum) c t) (map sel_r l)).
Proof.
  induction l as [|[k [r [[[[p0 p1] p2] p3] p4]]] l IH]; intros a b c d Q; cbn [fold_left map tsum trate sel_l sel_r].
  - rewrite !Rplus_0_r. reflexivity.
  - cbn [forallb] in Q. apply andb_prop in Q as [Q1 Q2]. cbn [quiet] in Q1. unfold evp_short at 2.
    destruct (k <? 10)%nat eqn:K.
    + rewrite !lit_decimal. rewrite IH by exact Q2. unR. f_equal; [f_equal; [f_equal|]|]; ring.
    + cbn [orb] in Q1. apply Z.eqb_eq in Q1. destruct p4 as [m e]. cbn [fst] in Q1. subst m. rewrite decimal_0.
      rewrite !lit_decimal. rewrite IH by exact Q2. unR. f_equal; [f_equal; [f_equal|]|]; ring.
Qed.

Definition rows_l : list prow := Eval cbv in map sel_l (combine (seq 0 15) (combine dcargs ccamps)).
Definition rows_r : list prow := Eval cbv in map sel_r (combine (seq 0 15) (combine dcargs ccamps)).
Lemma pert_R (t : R) : evp_pert (N := RNum) t =
  (evp_secular (N := RNum) t + tsum (fun c => evp_arg (N := RNum) c t) rows_l, trate (fun c => evp_arg (N := RNum) c t) rows_l,
   tsum (fun c => evp_arg (N := RNum) c t) rows_r, trate (fun c => evp_arg (N := RNum) c t) rows_r).
Proof.
  unfold evp_pert. change (fold_left (evp_short (N := RNum) t) (combine (seq 0 15) (combine dcargs ccamps)) (evp_secular (N := RNum) t, 0, 0, 0) = 
   (evp_secular (N := RNum) t + tsum (fun c => evp_arg (N := RNum) c t) rows_l, trate (fun c => evp_arg (N := RNum) c t) rows_l,
   tsum (fun c => evp_arg (N := RNum) c t) rows_r, trate (fun c => evp_arg (N := RNum) c t) rows_r)).
  rewrite fold_short by reflexivity. rewrite !Rplus_0_l. reflexivity.
Qed.

(** Exact amplitude sums in units of 10^-30. *)
Definition z30 (d : dec) : Z := (fst d * 10 ^ (snd d + 30))%Z.
Lemma decimal_z30 d : fine d = true -> decimal d = IZR (z30 d) / IZR unit30.
Proof.
  destruct d as [m e]. unfold fine, decimal, z30; cbn [fst snd]. intros F. apply Z.leb_le in F. pose proof unit30_pos as U.
  rewrite mult_IZR. destruct (Z.ltb_spec e 0).
  - assert (P : (0 < 10 ^ (- e))%Z) by (apply Z.pow_pos_nonneg; lia).
    assert (Q : (10 ^ (e + 30) * 10 ^ (- e) = unit30)%Z).
    { unfold unit30. rewrite <- Z.pow_add_r by lia. f_equal; lia. }
    rewrite <- Q, mult_IZR. apply IZR_lt in P.
    assert (0 < IZR (10 ^ (e + 30))) by (apply IZR_lt, Z.pow_pos_nonneg; lia). field. lra.
  - rewrite Z.pow_add_r, mult_IZR by lia. fold unit30. field. lra.
Qed.
Definition fine4 (r : prow) : bool := let '(c, (x, y, w)) := r in fine (snd c) && fine x && fine y && fine w.
Definition asum (l : list prow) : Z := fold_right (fun (r : prow) a => let '(_, (x, y, _)) := r in (mag x + mag y + a)%Z) 0%Z l.
Definition wsum (l : list prow) : Z := fold_right (fun (r : prow) a => let '(_, (x, y, w)) := r in ((mag x + mag y) * mag w + a)%Z) 0%Z l.
Definition dsum (l : list prow) : Z := fold_right (fun (r : prow) a => let '(c, (x, y, w)) := r in
  ((mag x + mag y) * Z.abs (z30 (snd c) - 3155760000 * z30 w) + a)%Z) 0%Z l.

Lemma mag_pos d : 0 <= IZR (mag d) / IZR unit30 \/ fine d = false.
Proof.
  destruct (fine d) eqn:F; [left|right; reflexivity]. rewrite <- abs_decimal by exact F. apply Rabs_pos.
Qed.
Lemma rot2 x y a : Rabs (x * cos a + y * sin a) <= Rabs x + Rabs y.
Proof. eapply Rle_trans; [apply Rabs_triang|]. apply Rplus_le_compat; apply abs1; [apply cos1|apply sin1]. Qed.
Lemma rot2' x y a : Rabs (y * cos a - x * sin a) <= Rabs x + Rabs y.
Proof.
  eapply Rle_trans; [apply b_sub; [apply abs1, cos1|apply abs1, sin1]|]. lra.
Qed.
Lemma rot2d x y a b d : Rabs (cos a - cos b) <= d -> Rabs (sin a - sin b) <= d ->
  Rabs ((x * cos a + y * sin a) - (x * cos b + y * sin b)) <= (Rabs x + Rabs y) * d.
Proof.
  intros C S. replace (x * cos a + y * sin a - (x * cos b + y * sin b)) with (x * (cos a - cos b) + y * (sin a - sin b)) by ring.
  rewrite Rmult_plus_distr_r. apply b_add; (eapply b_mul; [apply Rle_refl|assumption]).
Qed.
Lemma rot2d' x y a b d : Rabs (cos a - cos b) <= d -> Rabs (sin a - sin b) <= d ->
  Rabs ((y * cos a - x * sin a) - (y * cos b - x * sin b)) <= (Rabs x + Rabs y) * d.
Proof.
  intros C S. replace (y * cos a - x * sin a - (y * cos b - x * sin b)) with (y * (cos a - cos b) - x * (sin a - sin b)) by ring.
  rewrite (Rplus_comm (Rabs x)), Rmult_plus_distr_r. apply b_sub; (eapply b_mul; [apply Rle_refl|assumption]).
Qed.

Lemma tsum_amp ang l : forallb fine4 l = true -> Rabs (tsum ang l) <= IZR (asum l) / IZR unit30.
Proof.
  induction l as [|[c [[x y] w]] l IH]; intros F; cbn [tsum].
  - rewrite Rabs_R0. unfold asum; cbn [fold_right]. unfold Rdiv; rewrite Rmult_0_l; lra.
  - cbn [forallb fine4] in F. apply andb_prop in F as (F & G). repeat (apply andb_prop in F as [F ?]).
    cbn [asum fold_right]. fold (asum l). rewrite !plus_IZR, !Rdiv_plus_distr, <- !abs_decimal by assumption.
    apply b_add; [apply rot2|exact (IH G)].
Qed.
Lemma tsum_near ang ang' l d : forallb fine4 l = true -> (forall r, In r l -> anear d (ang (fst r)) (ang' (fst r))) ->
  Rabs (tsum ang l - tsum ang' l) <= IZR (asum l) / IZR unit30 * d.
Proof.
  induction l as [|[c [[x y] w]] l IH]; intros F N; cbn [tsum].
  - rewrite Rminus_0_r, Rabs_R0. unfold asum; cbn [fold_right]. unfold Rdiv; rewrite !Rmult_0_l; lra.
  - cbn [forallb fine4] in F. apply andb_prop in F as (F & G). repeat (apply andb_prop in F as [F ?]).
    cbn [asum fold_right]. fold (asum l). rewrite !plus_IZR, !Rdiv_plus_distr, <- !abs_decimal by assumption.
    pose proof (N _ (or_introl eq_refl)) as A. cbn [fst] in A.
    specialize (IH G (fun r I => N r (or_intror I))).
    match goal with |- Rabs (?p + ?q - (?p' + ?q')) <= _ => replace (p + q - (p' + q')) with ((p - p') + (q - q')) by ring end.
    rewrite Rmult_plus_distr_r. apply b_add; [|exact IH]. apply rot2d; [apply anear_cos|apply anear_sin]; exact A.
Qed.
Lemma trate_near ang ang' l d : forallb fine4 l = true -> (forall r, In r l -> anear d (ang (fst r)) (ang' (fst r))) ->
  Rabs (trate ang l - trate ang' l) <= IZR (wsum l) / (IZR unit30 * IZR unit30) * d.
Proof.
  pose proof unit30_pos as U.
  induction l as [|[c [[x y] w]] l IH]; intros F N; cbn [trate].
  - rewrite Rminus_0_r, Rabs_R0. unfold wsum; cbn [fold_right]. unfold Rdiv; rewrite !Rmult_0_l; lra.
  - cbn [forallb fine4] in F. apply andb_prop in F as (F & G). repeat (apply andb_prop in F as [F ?]).
    cbn [wsum fold_right]. fold (wsum l). 
    pose proof (N _ (or_introl eq_refl)) as A. cbn [fst] in A.
    specialize (IH G (fun r I => N r (or_intror I))).
    match goal with |- Rabs (?p * ?w + ?q - (?p' * ?w + ?q')) <= _ => replace (p * w + q - (p' * w + q')) with ((p - p') * w + (q - q')) by ring end.
    eapply Rle_trans; [apply b_add; [eapply b_mul; [eapply (rot2d' _ _ _ _ d); [apply anear_cos|apply anear_sin]; exact A|apply Rle_refl]|exact IH]|].
    rewrite !abs_decimal by assumption. rewrite plus_IZR, mult_IZR, plus_IZR. right. field. lra.
Qed.
Lemma trate_amp ang l : forallb fine4 l = true -> Rabs (trate ang l) <= IZR (wsum l) / (IZR unit30 * IZR unit30).
Proof.
  pose proof unit30_pos as U.
  induction l as [|[c [[x y] w]] l IH]; intros F; cbn [trate].
  - rewrite Rabs_R0. unfold wsum; cbn [fold_right]. unfold Rdiv; rewrite !Rmult_0_l; lra.
  - cbn [forallb fine4] in F. apply andb_prop in F as (F & G). repeat (apply andb_prop in F as [F ?]).
    cbn [wsum fold_right]. fold (wsum l).
    eapply Rle_trans; [apply b_add; [eapply b_mul; [apply rot2'|apply Rle_refl]|exact (IH G)]|].
    rewrite !abs_decimal by assumption. rewrite plus_IZR, mult_IZR, plus_IZR. right. field. lra.
Qed.
Lemma tder_rate t l : forallb fine4 l = true ->
  Rabs (tder t l - 3155760000 * trate (lin t) l) <= IZR (dsum l) / (IZR unit30 * IZR unit30).
Proof.
  pose proof unit30_pos as U.
  induction l as [|[c [[x y] w]] l IH]; intros F; cbn [trate tder].
  - rewrite Rmult_0_r, Rminus_0_r, Rabs_R0. unfold dsum; cbn [fold_right]. unfold Rdiv; rewrite !Rmult_0_l; lra.
  - cbn [forallb fine4] in F. apply andb_prop in F as (F & G). repeat (apply andb_prop in F as [F ?]).
    cbn [dsum fold_right]. fold (dsum l). specialize (IH G).
    match goal with |- Rabs (?p * ?c + ?q - ?s * (?p * ?w + ?q')) <= _ => replace (p * c + q - s * (p * w + q')) with (p * (c - s * w) + (q - s * q')) by ring end.
    eapply Rle_trans; [apply b_add; [eapply b_mul; [apply rot2'|apply Rle_refl]|exact IH]|].
    rewrite !abs_decimal by assumption. rewrite (decimal_z30 (snd c)), (decimal_z30 w) by assumption.
    replace (IZR (z30 (snd c)) / IZR unit30 - 3155760000 * (IZR (z30 w) / IZR unit30)) with (IZR (z30 (snd c) - 3155760000 * z30 w) / IZR unit30)
      by (rewrite minus_IZR, mult_IZR; field; lra).
    unfold Rdiv at 3. rewrite Rabs_mult, (Rabs_pos_eq (/ IZR unit30)), <- abs_IZR by (apply Rlt_le, Rinv_0_lt_compat; exact U).
    rewrite plus_IZR, mult_IZR, plus_IZR. right. field. lra.
Qed.

Lemma zle a b n d : ((0 <? b) && (0 <? d) && (a * d <=? n * b))%Z = true -> IZR a / IZR b <= IZR n / IZR d.
Proof.
  intros H. apply andb_prop in H as [H H2]. apply andb_prop in H as [H0 H1].
  apply Z.ltb_lt in H0, H1. apply Z.leb_le in H2. apply IZR_lt in H0, H1. apply IZR_le in H2. rewrite !mult_IZR in H2.
  apply (Rmult_le_reg_r (IZR b * IZR d)); [nra|].
  replace (IZR a / IZR b * (IZR b * IZR d)) with (IZR a * IZR d) by (field; lra).
  replace (IZR n / IZR d * (IZR b * IZR d)) with (IZR n * IZR b) by (field; lra). exact H2.
Qed.
Lemma amp_l ang : Rabs (tsum ang rows_l) <= 212 / 1000000.
Proof. eapply Rle_trans; [apply tsum_amp; reflexivity|]. apply zle. vm_compute. reflexivity. Qed.
Lemma amp_r ang : Rabs (tsum ang rows_r) <= 81 / 1000000.
Proof. eapply Rle_trans; [apply tsum_amp; reflexivity|]. apply zle. vm_compute. reflexivity. Qed.
Lemma mulz a b n d : ((0 <? b) && (0 <? d) && (a * d <=? n * (b * b)))%Z = true -> IZR a / (IZR b * IZR b) <= IZR n / IZR d.
Proof.
  intros H. rewrite <- mult_IZR. apply zle. apply andb_prop in H as [H H2]. apply andb_prop in H as [H0 H1].
  rewrite H1, H2. replace (0 <? b * b)%Z with true; [reflexivity|]. symmetry. apply Z.ltb_lt in H0. apply Z.ltb_lt.
  apply Z.mul_pos_pos; assumption.
Qed.
Lemma ratea_l ang : Rabs (trate ang rows_l) <= 34 / 1000000000000.
Proof. eapply Rle_trans; [apply trate_amp; reflexivity|]. apply mulz. vm_compute. reflexivity. Qed.
Lemma ratea_r ang : Rabs (trate ang rows_r) <= 18 / 1000000000000.
Proof. eapply Rle_trans; [apply trate_amp; reflexivity|]. apply mulz. vm_compute. reflexivity. Qed.
Lemma rated_l t : Rabs (tder t rows_l - 3155760000 * trate (lin t) rows_l) <= 37 / 10000.
Proof. eapply Rle_trans; [apply tder_rate; reflexivity|]. apply mulz. vm_compute. reflexivity. Qed.
Lemma rated_r t : Rabs (tder t rows_r - 3155760000 * trate (lin t) rows_r) <= 88 / 100000.
Proof. eapply Rle_trans; [apply tder_rate; reflexivity|]. apply mulz. vm_compute. reflexivity. Qed.
Lemma rows_args r : In r rows_l \/ In r rows_r -> In (fst r) dcargs.
Proof.
  assert (E : map fst rows_l = dcargs /\ map fst rows_r = dcargs) by (split; reflexivity). destruct E as [E1 E2].
  intros [I|I]; [rewrite <- E1|rewrite <- E2]; apply in_map; exact I.
Qed.
Notation hat t := (fun c => evp_arg (N := RNum) c t).
Lemma near_l (t : R) : Rabs t <= 10 -> Rabs (tsum (hat t) rows_l - tsum (lin t) rows_l) <= 1e-13.
Proof.
  intros T. eapply Rle_trans; [apply (tsum_near _ (lin t) _ 4e-10); [reflexivity|]|].
  - intros r I. apply arg_near'; [exact T|left; apply rows_args; left; exact I].
  - assert (Q : IZR (asum rows_l) / IZR unit30 <= 212 / 1000000) by (apply zle; vm_compute; reflexivity). lra.
Qed.
Lemma near_r (t : R) : Rabs t <= 10 -> Rabs (tsum (hat t) rows_r - tsum (lin t) rows_r) <= 1e-13.
Proof.
  intros T. eapply Rle_trans; [apply (tsum_near _ (lin t) _ 4e-10); [reflexivity|]|].
  - intros r I. apply arg_near'; [exact T|left; apply rows_args; right; exact I].
  - assert (Q : IZR (asum rows_r) / IZR unit30 <= 81 / 1000000) by (apply zle; vm_compute; reflexivity). lra.
Qed.
Lemma ratenear_l (t : R) : Rabs t <= 10 -> Rabs (trate (hat t) rows_l - trate (lin t) rows_l) <= 2e-20.
Proof.
  intros T. eapply Rle_trans; [apply (trate_near _ (lin t) _ 4e-10); [reflexivity|]|].
  - intros r I. apply arg_near'; [exact T|left; apply rows_args; left; exact I].
  - assert (Q : IZR (wsum rows_l) / (IZR unit30 * IZR unit30) <= 34 / 1000000000000) by (apply mulz; vm_compute; reflexivity). lra.
Qed.
Lemma ratenear_r (t : R) : Rabs t <= 10 -> Rabs (trate (hat t) rows_r - trate (lin t) rows_r) <= 2e-20.
Proof.
  intros T. eapply Rle_trans; [apply (trate_near _ (lin t) _ 4e-10); [reflexivity|]|].
  - intros r I. apply arg_near'; [exact T|left; apply rows_args; right; exact I].
  - assert (Q : IZR (wsum rows_r) / (IZR unit30 * IZR unit30) <= 18 / 1000000000000) by (apply mulz; vm_compute; reflexivity). lra.
Qed.

(** ** Secular perturbations *)
Definition sec_of (red : R -> R) (t : R) : R :=
  1289600 / 1000000000000 * sin (red (5550147 / 10000000 + t * (2076942 / 1000000))) +
  3102810 / 100000000000 * sin (red (4035027 / 1000000 + t * (3525565 / 10000000))) +
  (9124190 / 1000000000000 + t * (-7757020 / 100000000000000)) * sin (red (9990265 / 10000000 + t * (2622706 / 1000000))) +
  9793240 / 10000000000000 * sin (red (5508259 / 1000000 + t * (1559103 / 100000))).
Lemma secular_R (t : R) : evp_secular (N := RNum) t = sec_of (fun x => Rfmod x (6283185 / 1000000)) t.
Proof.
  unfold evp_secular. cbn [row3 nth ccsec]. rewrite !lit_decimal. unfold evp_sec3, evp_2pif. unR. decs. dnum. reflexivity.
Qed.
Lemma sec_near (t : R) : Rabs t <= 10 -> Rabs (sec_of (fun x => Rfmod x (6283185 / 1000000)) t - sec_of (fun x => x) t) <= 5e-10.
Proof.
  intros T. unfold sec_of.
  assert (S : forall x, Rabs x <= 165 -> Rabs (sin (Rfmod x (6283185 / 1000000)) - sin x) <= 8.1e-6).
  { intros x X. apply anear_sin. eapply anear_weak; [apply (fmod_turn _ _ 3.08e-7 165); [lra|apply two_pif_near|exact X]|]. lra. }
  match goal with |- Rabs (?a * sin (Rfmod ?x ?m) + ?b * sin (Rfmod ?y ?m) + ?c * sin (Rfmod ?z ?m) + ?d * sin (Rfmod ?w ?m) - _) <= _ =>
    assert (X : Rabs x <= 165) by bnd; assert (Y : Rabs y <= 165) by bnd; assert (Z : Rabs z <= 165) by bnd; assert (W : Rabs w <= 165) by bnd;
    apply S in X, Y, Z, W; set (x1 := sin (Rfmod x m)) in *; set (y1 := sin (Rfmod y m)) in *; set (z1 := sin (Rfmod z m)) in *; set (w1 := sin (Rfmod w m)) in *;
    set (x2 := sin x) in *; set (y2 := sin y) in *; set (z2 := sin z) in *; set (w2 := sin w) in *;
    replace (a * x1 + b * y1 + c * z1 + d * w1 - (a * x2 + b * y2 + c * z2 + d * w2)) with
      (a * (x1 - x2) + b * (y1 - y2) + c * (z1 - z2) + d * (w1 - w2)) by ring
  end.
  bnd.
Qed.
