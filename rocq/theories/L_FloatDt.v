(** dat, dtt, dt and airmas in binary64. *)
From Coq Require Import ZArith Reals Bool List Lia Lra Psatz.
From Flocq Require Import Core BinarySingleNaN.
From Verif Require Import Int32 Num NumB NumR M_Vec M_Epoch M_Plate S_Geom S_Epoch S_Binary S_Float L_Bin L_Flt L_FltVec L_Float.
From Verif Require Import L_Err L_ErrT L_FloatEp L_FloatFrame L_FloatTf L_FloatHor L_Frame L_Epoch L_Dat L_Plate L_FloatLibm.
Import ListNotations.
Open Scope R_scope.

(** ** dat, dtt *)
Lemma choose64 lm (x : double) a z (p q : double) r s e : (Z.abs z <= 100000)%Z -> value64 x a ->
  (IZR z <= a -> near 53 1024 p r e) -> (a < IZR z -> near 53 1024 q s e) ->
  near 53 1024 (if n_leb (n_ofZ (n := B64 lm) z) x then p else q) (if n_leb (n_ofZ (n := RNum) z) a then r else s) e.
Proof.
  intros Z X P Q. change (n_leb (n_ofZ (n := B64 lm) z) x) with (Bleb (BofZ 53 1024 z) x).
  rewrite (fin_leb 53 1024 (BofZ 53 1024 z) x (IZR z) a ltac:(apply int64; lia) X).
  change (n_leb (n_ofZ (n := RNum) z) a) with (Rleb (IZR z) a). unfold Rleb.
  destruct (Rle_bool_spec (IZR z) a), (Rle_dec (IZR z) a); try lra; auto.
Qed.
Lemma leaf64 lm z : (Z.abs z <= 100000)%Z -> near 53 1024 (n_ofZ (n := B64 lm) z) (n_ofZ (n := RNum) z) 0.
Proof. intros Z. apply near_fin. apply int64. lia. Qed.
Lemma dat64_late lm (x : double) a : value64 x a -> 41317 <= a -> value64 (dat (N := B64 lm) x) (dat (N := RNum) a).
Proof.
  intros X A. assert (H : near 53 1024 (dat (N := B64 lm) x) (dat (N := RNum) a) 0).
  { unfold dat. repeat first [apply leaf64; lia | apply choose64; [lia|exact X|intros _; apply leaf64; lia|intros ?; try (exfalso; lra)]]. }
  destruct H as (r & F & E). assert (r = dat (N := RNum) a) as <-; [|exact F].
  pose proof (Rabs_pos (r - dat (N := RNum) a)). assert (Z : Rabs (r - dat (N := RNum) a) = 0) by (apply Rle_antisym; assumption).
  destruct (Req_dec (r - dat (N := RNum) a) 0) as [W|W]; [apply Rminus_diag_uniq; exact W|apply Rabs_no_R0 in W; contradiction].
Qed.
Lemma dat64_early lm (x : double) a : value64 x a -> -1000000 <= a < 41317 -> near 53 1024 (dat (N := B64 lm) x) (dat (N := RNum) a) 2e-12.
Proof.
  intros X A. pose proof (env1 x a (-1000000) 41317 X ltac:(lra)) as OK. unfold dat.
  repeat match goal with |- near _ _ (if _ then _ else _) _ _ => apply choose64; [lia|exact X|intros ?; try (exfalso; lra)|intros ?] end;
    err0 lm [it (-1000000) 41317] [x] [a] OK.
Qed.
Lemma dat64 lm (x : double) a : value64 x a ->
  (41317 <= a -> value64 (dat (N := B64 lm) x) (10 + INR (leaps_by a))) /\
  (-1000000 <= a < 41317 -> exists r, value64 (dat (N := B64 lm) x) r /\ Rabs (r - seg_value (in_force a seg_1960 segments) a) <= 2e-12).
Proof.
  intros X. split; intros A.
  - rewrite <- dat_leap by exact A. now apply dat64_late.
  - rewrite <- dat_segments by lra. now apply dat64_early.
Qed.

(** dtt: one more addition. *)
Definition tt_add {N : Num} (x : N) : N := n_add (n_lit 32184 (-3)) x.
Lemma tt_add64 lm (x : double) a : value64 x a -> -4000 <= a <= 4000 -> near 53 1024 (tt_add (N := B64 lm) x) (tt_add (N := RNum) a) 5e-13.
Proof. intros X A. pose proof (env1 x a (-4000) 4000 X A) as OK. unfold tt_add. err0 lm [it (-4000) 4000] [x] [a] OK. Qed.
Lemma dat_range a : -1000000 <= a -> -3000 <= dat (N := RNum) a <= 200.
Proof.
  intros A. unfold dat. unR.
  repeat match goal with |- context [Rleb ?p ?q] => let E := fresh in destruct (Rleb p q) eqn:E; [apply Rleb_true in E; decs; lra|apply Rleb_false in E] end.
  decs. lra.
Qed.
Lemma dtt64 lm (x : double) a : value64 x a -> -1000000 <= a ->
  exists r, value64 (dtt (N := B64 lm) x) r /\ Rabs (r - (32.184 + dat (N := RNum) a)) <= 3e-12.
Proof.
  intros X A. assert (D : near 53 1024 (dat (N := B64 lm) x) (dat (N := RNum) a) 2e-12).
  { destruct (Rlt_or_le a 41317); [apply dat64_early; [exact X|lra]|]. apply near_weak with 0; [|lra]. apply near_fin. now apply dat64_late. }
  destruct D as (d & FD & ED). pose proof (dat_range a A) as RD. assert (RD' : -4000 <= d <= 4000).
  { apply Rabs_le_inv in ED. lra. }
  destruct (tt_add64 lm _ _ FD RD') as (r & FR & ER). exists r. split; [exact FR|].
  change (tt_add (N := RNum) d) with (Rdec 32184 (-3) + d) in ER. decs_in ER. apply Rabs_le_inv in ER, ED. apply Rabs_le. split; lra.
Qed.

(** ** dt *)
Lemma choose_lit lm (x y : double) a b f (p q : double) r s e : value64 x a -> near 53 1024 y b f ->
  (b <= a -> near 53 1024 p r e) -> (a < b -> near 53 1024 q s e) -> (b <= a <= b + f -> near 53 1024 q r e) -> (b - f <= a < b -> near 53 1024 p s e) ->
  near 53 1024 (if n_leb (n := B64 lm) y x then p else q) (if n_leb (n := RNum) b a then r else s) e.
Proof.
  intros X (y' & Y & E) P Q P' Q'. change (n_leb (n := B64 lm) y x) with (Bleb y x).
  rewrite (fin_leb 53 1024 y x y' a Y X). change (n_leb (n := RNum) b a) with (Rleb b a). unfold Rleb. apply Rabs_le_inv in E.
  destruct (Rle_bool_spec y' a), (Rle_dec b a).
  - auto. - apply Q'. lra. - apply P'. lra. - apply Q. lra.
Qed.
Definition dt_a {N : Num} (y : N) : N := let c := n_div (n_sub y (n_ofZ 1800)) (n_ofZ 100) in let w := n_sub c (n_lit 19 (-2)) in
  n_add (n_lit 5156 (-3)) (n_mul (n_mul (n_lit 133066 (-4)) w) w).
Definition dt_b {N : Num} (y : N) : N := let c := n_div (n_sub y (n_ofZ 1800)) (n_ofZ 100) in n_mul (n_mul (n_lit 255 (-1)) c) c.
Definition dt_c {N : Num} (y : N) : N := let c := n_div (n_sub y (n_ofZ 1800)) (n_ofZ 100) in
  n_add (n_ofZ 1360) (n_mul (n_add (n_ofZ 320) (n_mul (n_lit 443 (-1)) c)) c).
Lemma dt_parts {N : Num} (y : N) : dt y = if n_leb (n_lit 1708185161980887 (-12)) y then dt_a y else if n_leb (n_lit 9790258204760233 (-13)) y then dt_b y else dt_c y.
Proof. reflexivity. Qed.
Lemma dt_abc lm (x : double) a : value64 x a -> -10000 <= a <= 10000 ->
  near 53 1024 (dt_a (N := B64 lm) x) (dt_a (N := RNum) a) 1e-9 /\ near 53 1024 (dt_b (N := B64 lm) x) (dt_b (N := RNum) a) 1e-9 /\
  near 53 1024 (dt_c (N := B64 lm) x) (dt_c (N := RNum) a) 1e-9.
Proof.
  intros X A. pose proof (env1 x a (-10000) 10000 X A) as OK. unfold dt_a, dt_b, dt_c. cbv zeta.
  split; [|split]; err0 lm [it (-10000) 10000] [x] [a] OK.
Qed.
Lemma dt_sw lm : near 53 1024 (n_lit (n := B64 lm) 1708185161980887 (-12)) (n_lit (n := RNum) 1708185161980887 (-12)) 4e-13 /\
  near 53 1024 (n_lit (n := B64 lm) 9790258204760233 (-13)) (n_lit (n := RNum) 9790258204760233 (-13)) 4e-13.
Proof. split; err0 lm (@nil item) (@nil double) (@nil R) Logic.I. Qed.
Lemma dt_meet_ab a d : a = Rdec 1708185161980887 (-12) + d -> Rabs d <= 4e-13 -> Rabs (dt_a (N := RNum) a - dt_b (N := RNum) a) <= 1e-9.
Proof.
  intros -> D. unfold dt_a, dt_b. cbv zeta. unR. decs. apply Rabs_le_inv in D.
  assert (d * d <= 1e-9) by nra. assert (0 <= d * d) by nra. apply Rabs_le. split; lra.
Qed.
Lemma dt_meet_bc a d : a = Rdec 9790258204760233 (-13) + d -> Rabs d <= 4e-13 -> Rabs (dt_b (N := RNum) a - dt_c (N := RNum) a) <= 1e-9.
Proof.
  intros -> D. unfold dt_b, dt_c. cbv zeta. unR. decs. apply Rabs_le_inv in D.
  assert (d * d <= 1e-12) by nra. assert (0 <= d * d) by nra. apply Rabs_le. split; lra.
Qed.
Lemma dt64 lm (x : double) a : value64 x a -> -10000 <= a <= 10000 ->
  exists r, value64 (dt (N := B64 lm) x) r /\ Rabs (r - dt (N := RNum) a) <= 2e-9.
Proof.
  intros X A. change (near 53 1024 (dt (N := B64 lm) x) (dt (N := RNum) a) 2e-9). rewrite (dt_parts (N := B64 lm) x), (dt_parts (N := RNum) a).
  destruct (dt_abc lm x a X A) as (NA & NB & NC). destruct (dt_sw lm) as (S1 & S2).
  assert (W : 1e-9 <= 2e-9) by lra. assert (W2 : 1e-9 + 1e-9 <= 2e-9) by lra.
  change (n_lit (n := RNum) 1708185161980887 (-12)) with (Rdec 1708185161980887 (-12)) in *.
  change (n_lit (n := RNum) 9790258204760233 (-13)) with (Rdec 9790258204760233 (-13)) in *.
  assert (G : 4e-13 + Rdec 9790258204760233 (-13) < Rdec 1708185161980887 (-12) - 4e-13) by (decs; lra).
  assert (T : forall b, b = Rdec 1708185161980887 (-12) \/ b = Rdec 9790258204760233 (-13) -> a = b + (a - b)) by (intros; ring).
  assert (AB : Rabs (a - Rdec 1708185161980887 (-12)) <= 4e-13 -> Rabs (dt_a (N := RNum) a - dt_b (N := RNum) a) <= 1e-9) by (apply dt_meet_ab, T; now left).
  assert (BC : Rabs (a - Rdec 9790258204760233 (-13)) <= 4e-13 -> Rabs (dt_b (N := RNum) a - dt_c (N := RNum) a) <= 1e-9) by (apply dt_meet_bc, T; now right).
  eapply choose_lit; [exact X|exact S1|intros _; now apply near_weak with 1e-9|intros H1|intros H1|intros H1].
  - eapply choose_lit; [exact X|exact S2|intros _; now apply near_weak with 1e-9|intros _; now apply near_weak with 1e-9|intros H2|intros H2].
    + apply near_weak with (1e-9 + 1e-9); [|exact W2]. eapply near_shift; [exact NC|]. rewrite Rabs_minus_sym. apply BC. apply Rabs_le. split; lra.
    + apply near_weak with (1e-9 + 1e-9); [|exact W2]. eapply near_shift; [exact NB|]. apply BC. apply Rabs_le. split; lra.
  - assert (E : Bleb (n_lit (n := B64 lm) 9790258204760233 (-13)) x = true).
    { destruct S2 as (y & Y & EY). rewrite (fin_leb 53 1024 _ _ _ _ Y X). apply Rle_bool_true. apply Rabs_le_inv in EY. lra. }
    change (n_leb (n := B64 lm)) with (@Bleb 53 1024). rewrite E.
    apply near_weak with (1e-9 + 1e-9); [|exact W2]. eapply near_shift; [exact NB|]. rewrite Rabs_minus_sym. apply AB. apply Rabs_le. split; lra.
  - assert (E : n_leb (n := RNum) (Rdec 9790258204760233 (-13)) a = true).
    { change (Rleb (Rdec 9790258204760233 (-13)) a = true). apply Rleb_true. lra. }
    rewrite E. apply near_weak with (1e-9 + 1e-9); [|exact W2]. eapply near_shift; [exact NA|]. apply AB. apply Rabs_le. split; lra.
Qed.

(** ** airmas *)
Definition am_tail {N : Num} (c : N) : N := let s := n_sub (n_div (n_ofZ 1) c) (n_ofZ 1) in
  n_add (n_ofZ 1) (n_mul s (n_sub (n_lit 9981833 (-7)) (n_mul s (n_add (n_lit 2875 (-6)) (n_mul (n_lit 8083 (-7)) s))))).
Lemma airmas_tail {N : Num} (z : N) : airmas z = am_tail (n_cos (n_min (n_lit 152 (-2)) (n_abs z))).
Proof. reflexivity. Qed.
Definition am_it : item := It (506 * Sc / 10000) Sc 0.
Lemma am_tail64 lm (x : double) c : value64 x c -> 0.0506 <= c <= 1 -> near 53 1024 (am_tail (N := B64 lm) x) (am_tail (N := RNum) c) 2e-13.
Proof.
  intros X C. assert (OK : okenv [am_it] [x] [c]).
  { split; [|exact Logic.I]. unfold am_it, okk. cbn [lo hi er]. split; [rewrite V_0; now apply near_fin|]. pose proof (V_Sc 1) as V1. rewrite Z.mul_1_l in V1.
    rewrite V1. split; [|lra]. eapply Rle_trans; [|apply C]. unfold V. pose proof Sc_pos as P. apply (Rmult_le_reg_r (IZR Sc)); [exact P|].
    unfold Rdiv. rewrite Rmult_assoc, Rinv_l, Rmult_1_r by lra. eapply Rle_trans; [apply (fdiv_le (506 * Sc) 10000); lia|]. rewrite mult_IZR. lra. }
  unfold am_tail. cbv zeta. err0 lm [am_it] [x] [c] OK.
Qed.
Lemma am_tail_R c : am_tail (N := RNum) c = hardie (1 / c - 1).
Proof. unfold am_tail, hardie. cbv zeta. unR. generalize (1 / c - 1). intros s. decs. field. Qed.
Lemma hardie_lip s t : 0 <= s <= 18.77 -> 0 <= t <= 18.77 -> Rabs (hardie s - hardie t) <= Rabs (s - t).
Proof.
  intros S T. unfold hardie.
  replace (1 + s * (0.9981833 - s * (0.002875 + 0.0008083 * s)) - (1 + t * (0.9981833 - t * (0.002875 + 0.0008083 * t))))
    with ((s - t) * (0.9981833 - 0.002875 * (s + t) - 0.0008083 * (s * s + s * t + t * t))) by (asR; lra).
  rewrite Rabs_mult. rewrite <- (Rmult_1_r (Rabs (s - t))) at 2. apply Rmult_le_compat_l; [apply Rabs_pos|].
  assert (0 <= s * s) by nra. assert (0 <= t * t) by nra. assert (0 <= s * t) by nra.
  assert (s * s <= 18.77 * 18.77) by nra. assert (t * t <= 18.77 * 18.77) by nra. assert (s * t <= 18.77 * 18.77) by nra.
  apply Rabs_le. split; lra.
Qed.
Lemma clamp64 lm (x : double) a : value64 x a -> exists c, value64 (n_min (N := B64 lm) (n_lit 152 (-2)) (n_abs (x : B64 lm))) c /\ Rabs (c - clamp_z a) <= 3e-16.
Proof.
  intros X. assert (L : near 53 1024 (n_lit (n := B64 lm) 152 (-2)) (n_lit (n := RNum) 152 (-2)) 3e-16) by err0 lm (@nil item) (@nil double) (@nil R) Logic.I.
  destruct L as (l & FL & EL). change (n_lit (n := RNum) 152 (-2)) with (Rdec 152 (-2)) in EL. replace (Rdec 152 (-2)) with 1.52 in EL by (decs; field).
  assert (FA : value64 (n_abs (n := B64 lm) x) (Rabs a)) by (apply (fin_abs 53 1024); exact X).
  apply Rabs_le_inv in EL. unfold n_min, clamp_z, Rmin.
  assert (E : n_ltb (n := B64 lm) (n_abs (n := B64 lm) x) (n_lit (n := B64 lm) 152 (-2)) = Rlt_bool (Rabs a) l) by (apply (fin_ltb 53 1024); assumption).
  rewrite E. destruct (Rlt_bool_spec (Rabs a) l), (Rle_dec 1.52 (Rabs a)).
  - exists (Rabs a). split; [exact FA|]. apply Rabs_le. split; lra.
  - exists (Rabs a). split; [exact FA|]. unfold Rminus. rewrite Rplus_opp_r, Rabs_R0. lra.
  - exists l. split; [exact FL|]. apply Rabs_le. split; lra.
  - exists l. split; [exact FL|]. apply Rabs_le. split; lra.
Qed.
Lemma airmas64 lm k (x : double) a : libm_ok lm k -> k <= 1e-5 -> value64 x a ->
  exists r, value64 (airmas (N := B64 lm) x) r /\ Rabs (r - airmas (N := RNum) a) <= 390 * k + 4e-13.
Proof.
  intros L K X. pose proof (libm_k lm k L) as K0. rewrite airmas_tail, airmas_eq. destruct (clamp64 lm x a X) as (z & FZ & EZ).
  destruct (trig64 lm k _ z L FZ) as (s & c & _ & FC & _ & C1 & _ & EC). destruct (cos_clamp a) as (CL & CU).
  assert (D : Rabs (c - cos (clamp_z a)) <= k + 3e-16).
  { replace (c - cos (clamp_z a)) with ((c - cos z) + (cos z - cos (clamp_z a))) by ring. eapply Rle_trans; [apply Rabs_triang|]. pose proof (cos_lip z (clamp_z a)). lra. }
  set (w := cos (clamp_z a)) in *. assert (C0 : 0.0506 <= c <= 1) by (apply Rabs_le_inv in D, C1; lra).
  destruct (am_tail64 lm _ c FC C0) as (r & FR & ER). exists r. split; [exact FR|]. rewrite am_tail_R in ER.
  assert (IV : forall d, 0.0506 <= d <= 1 -> 0 <= 1 / d - 1 <= 18.77).
  { intros d Hd. assert (P : 1 / d * d = 1) by (field; lra). split; nra. }
  pose proof (hardie_lip (1 / c - 1) (1 / w - 1) (IV c C0) (IV w ltac:(lra))) as H.
  assert (Q : Rabs (1 / c - 1 - (1 / w - 1)) <= 390 * (k + 3e-16)).
  { replace (1 / c - 1 - (1 / w - 1)) with ((w - c) / (c * w)) by (field; lra). unfold Rdiv. rewrite Rabs_mult, (Rmult_comm 390).
    apply Rmult_le_compat; [apply Rabs_pos|apply Rabs_pos|rewrite Rabs_minus_sym; exact D|].
    assert (M : 0.00256542 <= c * w) by nra. rewrite Rabs_pos_eq by (apply Rlt_le, Rinv_0_lt_compat; lra).
    apply Rle_trans with (/ 0.00256542); [apply Rinv_le_contravar; lra|lra]. }
  replace (r - hardie (1 / w - 1)) with ((r - hardie (1 / c - 1)) + (hardie (1 / c - 1) - hardie (1 / w - 1))) by ring.
  eapply Rle_trans; [apply Rabs_triang|]. lra.
Qed.
