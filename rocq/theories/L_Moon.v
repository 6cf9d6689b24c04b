From Coq Require Import Reals List ZArith Lra Lia.
From Coquelicot Require Import Coquelicot.
From Flocq Require Import Core.Raux.
From Verif Require Import Num NumR M_Vec M_EphTab M_Eph S_Geom S_Eph L_Frame L_Eph.
Import ListNotations.
Open Scope R_scope.

(** ** fmod is locally a translation *)
Lemma trunc_locally : forall x, (forall k : Z, k <> 0%Z -> x <> IZR k) -> locally x (fun y => Rtrunc y = Rtrunc x).
Proof.
  intros x H. unfold Rtrunc.
  assert (exists a b, a < x < b /\ forall y, a < y < b -> Ztrunc y = Ztrunc x) as (a & b & (A & B) & E).
  { destruct (Rtotal_order x 0) as [L|[L|L]].
    - exists (IZR (Zceil x - 1)), (Rmin (IZR (Zceil x)) (0 + IZR (Zceil x) + 1)).
      assert (IZR (Zceil x) - 1 < x <= IZR (Zceil x)).
      { split; [|apply Zceil_ub]. destruct (Rle_or_lt x (IZR (Zceil x) - 1)) as [K|K]; [|exact K].
        rewrite <- minus_IZR in K. apply Zceil_glb in K. lia. }
      assert (Zceil x <= 0)%Z by (apply Zceil_glb; lra).
      rewrite minus_IZR.
      destruct (Z.eq_dec (Zceil x) 0) as [Z0|Z0].
      + rewrite Z0 in *. split; [split; [lra|]|].
        * apply Rmin_glb_lt; lra.
        * intros y (Y1 & Y2).
          rewrite (Ztrunc_ceil x) by lra. rewrite Z0.
          destruct (Rle_or_lt 0 y).
          -- rewrite Ztrunc_floor by lra. apply Zfloor_imp. cbn. pose proof (Rmin_l 0 (0 + 0 + 1)). lra.
          -- rewrite Ztrunc_ceil by lra. apply Zceil_imp. cbn. lra.
      + pose proof (H _ Z0). split; [split; [lra|]|].
        * apply Rmin_glb_lt; lra.
        * intros y (Y1 & Y2). pose proof (Rmin_l (IZR (Zceil x)) (0 + IZR (Zceil x) + 1)).
          assert (IZR (Zceil x) <= -1) by (apply IZR_le; lia).
          rewrite !Ztrunc_ceil by lra. apply Zceil_imp. rewrite minus_IZR. lra.
    - subst. exists (-1), 1. split; [lra|]. intros y (Y1 & Y2).
      rewrite (Ztrunc_floor 0) by lra. rewrite (Zfloor_IZR 0).
      destruct (Rle_or_lt 0 y).
      + rewrite Ztrunc_floor by lra. apply Zfloor_imp. cbn. lra.
      + rewrite Ztrunc_ceil by lra. apply Zceil_imp. cbn. lra.
    - assert (IZR (Zfloor x) <= x < IZR (Zfloor x) + 1) by (split; [apply Zfloor_lb|apply Zfloor_ub]).
      assert (0 <= Zfloor x)%Z by (apply Zfloor_lub; cbn; lra).
      destruct (Z.eq_dec (Zfloor x) 0) as [Z0|Z0].
      + rewrite Z0 in *. exists (-1), 1. split; [cbn in *; lra|]. intros y (Y1 & Y2).
        rewrite (Ztrunc_floor x), Z0 by lra.
        destruct (Rle_or_lt 0 y).
        * rewrite Ztrunc_floor by lra. apply Zfloor_imp. cbn. lra.
        * rewrite Ztrunc_ceil by lra. apply Zceil_imp. cbn. lra.
      + pose proof (H _ Z0). exists (IZR (Zfloor x)), (IZR (Zfloor x) + 1). split; [lra|].
        intros y (Y1 & Y2). assert (1 <= IZR (Zfloor x)) by (apply IZR_le; lia).
        rewrite !Ztrunc_floor by lra. apply Zfloor_imp. rewrite plus_IZR. lra. }
  assert (D : 0 < Rmin (x - a) (b - x)) by (apply Rmin_glb_lt; lra).
  exists (mkposreal _ D). intros y Y. f_equal. apply E.
  unfold ball in Y; cbn in Y; unfold AbsRing_ball, abs, minus, plus, opp in Y; cbn in Y.
  pose proof (Rmin_l (x - a) (b - x)). pose proof (Rmin_r (x - a) (b - x)).
  apply Rabs_def2 in Y. lra.
Qed.

Lemma fmod_derive : forall (f : R -> R) x f' c, c <> 0 -> is_derive f x f' ->
  (forall k : Z, k <> 0%Z -> f x <> IZR k * c) -> is_derive (fun y => Rfmod (f y) c) x f'.
Proof.
  intros f x f' c C D H. unfold Rfmod.
  assert (K : locally (f x / c) (fun y => Rtrunc y = Rtrunc (f x / c))).
  { apply trunc_locally. intros k Hk E. apply (H k Hk). rewrite <- E. field. exact C. }
  assert (CT : continuous (fun y => f y / c) x).
  { apply (ex_derive_continuous (fun y => f y / c) x). auto_derive. exists f'; exact D. }
  apply is_derive_ext_loc with (f := fun y => f y - c * Rtrunc (f x / c)).
  - specialize (CT _ K). unfold filtermap in CT.
    eapply filter_imp; [|exact CT]. intros y Y. cbn in Y. rewrite Y. reflexivity.
  - generalize (Rtrunc (f x / c)); intros q.
    auto_derive; [eexists; eassumption|]. derives. ring.
Qed.

(** ** A quantity computed together with its rate *)
Definition rated (p : R -> R * R) (t : R) : Prop := is_derive (fun s => fst (p s)) t (snd (p t)).

Definition unwrapped (x : R) : Prop := forall k : Z, k <> 0%Z -> x <> IZR k * 360.

Lemma two : Rdec 20 (-1) = 2. Proof. unfold Rdec; cbn; lra. Qed.
Lemma three : Rdec 30 (-1) = 3. Proof. unfold Rdec; cbn; lra. Qed.
Lemma one : Rdec 10 (-1) = 1. Proof. unfold Rdec; cbn; lra. Qed.
Lemma zero : Rdec 0 (-1) = 0. Proof. unfold Rdec; cbn; lra. Qed.
Ltac nolits := rewrite ?two, ?three, ?one, ?zero; repeat match goal with |- context [Rdec ?m ?e] => generalize (Rdec m e); intro end.

Lemma arg_rated : forall c0 c1 c2 c3 t, unwrapped (S_Eph.cubic c0 c1 c2 c3 t) ->
  rated (fun t => dmoon_arg (N := RNum) c0 c1 c2 c3 t) t.
Proof.
  intros c0 c1 c2 c3 t H. unfold rated, dmoon_arg; cbn [fst snd]; unfold deg; unR.
  rewrite two, three. generalize (Rdec 174532925199432957692369 (-25)); intros k.
  assert (D : is_derive (fun t => c0 + (c1 + (c2 + c3 * t) * t) * t) t (c1 + (2 * c2 + 3 * c3 * t) * t)).
  { auto_derive; [easy|]. ring. }
  apply fmod_derive with (c := 360) in D; [|lra|].
  - change (car RNum) with R in *.
    set (F := fun y : R => Rfmod (c0 + (c1 + (c2 + c3 * y) * y) * y) 360) in *.
    change (is_derive (fun s => k * F s) t (k * (c1 + (2 * c2 + 3 * c3 * t) * t))).
    apply is_derive_scal. exact D.
  - intros z Z. replace (c0 + (c1 + (c2 + c3 * t) * t) * t) with (S_Eph.cubic c0 c1 c2 c3 t) by (unfold S_Eph.cubic; ring).
    apply H, Z.
Qed.

(** ** dmoon *)
Lemma args6_rated : forall t, between_turns t ->
  rated (dmoon_elp (N := RNum)) t /\ rated (dmoon_em (N := RNum)) t /\ rated (dmoon_emp (N := RNum)) t /\
  rated (dmoon_d (N := RNum)) t /\ rated (dmoon_f (N := RNum)) t /\ rated (dmoon_om (N := RNum)) t.
Proof.
  intros t B.
  assert (X : forall c0 c1 c2 c3 a, In a (lunar_arguments t) -> a = S_Eph.cubic c0 c1 c2 c3 t ->
              rated (fun t => dmoon_arg (N := RNum) c0 c1 c2 c3 t) t).
  { intros c0 c1 c2 c3 a I ->. apply arg_rated. intros k K. rewrite Rmult_comm. exact (B _ I k K). }
  unfold lunar_arguments in X.
  refine (conj _ (conj _ (conj _ (conj _ (conj _ _))))).

  - eapply X; [left; reflexivity|]; f_equal; unR; decs; lra.
  - eapply X; [right; left; reflexivity|]; f_equal; unR; decs; lra.
  - eapply X; [do 2 right; left; reflexivity|]; f_equal; unR; decs; lra.
  - eapply X; [do 3 right; left; reflexivity|]; f_equal; unR; decs; lra.
  - eapply X; [do 4 right; left; reflexivity|]; f_equal; unR; decs; lra.
  - eapply X; [do 5 right; left; reflexivity|]; f_equal; unR; decs; lra.
Qed.

Record ready (g : R -> margs) (t : R) : Prop := Ready {
  ok_elp : rated (fun s => g_elp (N := RNum) (g s)) t; ok_em : rated (fun s => g_em (N := RNum) (g s)) t;
  ok_emp : rated (fun s => g_emp (N := RNum) (g s)) t; ok_d : rated (fun s => g_d (N := RNum) (g s)) t;
  ok_f : rated (fun s => g_f (N := RNum) (g s)) t; ok_om : rated (fun s => g_om (N := RNum) (g s)) t;
  ok_wom : rated (fun s => g_wom (N := RNum) (g s)) t; ok_e : rated (fun s => g_e (N := RNum) (g s)) t }.

Ltac rate_step := auto_derive; [repeat split; try (eexists; eassumption); easy|]; derives; try ring.

(** The periodic variations as functions of time. *)
Definition wa (t : R) : R * R := let k := deg (N := RNum) in
  (sin (k * (Rdec 512 (-1) + Rdec 202 (-1) * t)), k * Rdec 202 (-1) * cos (k * (Rdec 512 (-1) + Rdec 202 (-1) * t))).
Definition wb (t : R) : R * R := let k := deg (N := RNum) in
  (Rdec 3964 (-6) * sin (k * (Rdec 346560 (-3) + (Rdec 132870 (-3) + Rdec (-91731) (-7) * t) * t)),
   k * Rdec 3964 (-6) * (Rdec 132870 (-3) + Rdec 20 (-1) * Rdec (-91731) (-7) * t) *
     cos (k * (Rdec 346560 (-3) + (Rdec 132870 (-3) + Rdec (-91731) (-7) * t) * t))).
Definition plus3 (x : R * R) (a b c : R) (y : R * R) : R * R :=
  (fst x + deg (N := RNum) * (a * fst y + b), snd x + deg (N := RNum) * (a * snd y + c)).
Lemma args_eq : forall t,
  let k := deg (N := RNum) in let om := dmoon_om (N := RNum) t in
  let wom := (fst om + k * (Rdec 27505 (-2) + Rdec (-230) (-2) * t), snd om + k * Rdec (-230) (-2)) in
  dmoon_args (N := RNum) t = MArgs (N := RNum)
    (fst (dmoon_elp (N := RNum) t) + k * (Rdec 233 (-6) * fst (wa t) + fst (wb t) + Rdec 1964 (-6) * sin (fst om)),
     snd (dmoon_elp (N := RNum) t) + k * (Rdec 233 (-6) * snd (wa t) + snd (wb t) + Rdec 1964 (-6) * (snd om * cos (fst om))))
    (fst (dmoon_em (N := RNum) t) + k * Rdec (-1778) (-6) * fst (wa t),
     snd (dmoon_em (N := RNum) t) + k * Rdec (-1778) (-6) * snd (wa t))
    (fst (dmoon_emp (N := RNum) t) + k * (Rdec 817 (-6) * fst (wa t) + fst (wb t) + Rdec 2541 (-6) * sin (fst om)),
     snd (dmoon_emp (N := RNum) t) + k * (Rdec 817 (-6) * snd (wa t) + snd (wb t) + Rdec 2541 (-6) * (snd om * cos (fst om))))
    (fst (dmoon_d (N := RNum) t) + k * (Rdec 2011 (-6) * fst (wa t) + fst (wb t) + Rdec 1964 (-6) * sin (fst om)),
     snd (dmoon_d (N := RNum) t) + k * (Rdec 2011 (-6) * snd (wa t) + snd (wb t) + Rdec 1964 (-6) * (snd om * cos (fst om))))
    (fst (dmoon_f (N := RNum) t) + k * (fst (wb t) + Rdec (-24691) (-6) * sin (fst om) + Rdec (-4328) (-6) * sin (fst wom)),
     snd (dmoon_f (N := RNum) t) + k * (snd (wb t) + Rdec (-24691) (-6) * (snd om * cos (fst om)) + Rdec (-4328) (-6) * snd wom * cos (fst wom)))
    om wom
    (Rdec 10 (-1) + (Rdec (-2495) (-6) + Rdec (-752) (-8) * t) * t, Rdec (-2495) (-6) + Rdec 20 (-1) * Rdec (-752) (-8) * t).
Proof. intros. reflexivity. Qed.

Lemma wa_rated : forall t, rated wa t.
Proof.
  intros t. unfold rated, wa; cbn [fst snd]. generalize (deg (N := RNum)); change (car RNum) with R; intros k.
  nolits. auto_derive; [easy|]. ring.
Qed.
Lemma wb_rated : forall t, rated wb t.
Proof.
  intros t. unfold rated, wb; cbn [fst snd]. generalize (deg (N := RNum)); change (car RNum) with R; intros k.
  nolits. auto_derive; [easy|]. ring.
Qed.

Section Shapes.
Context (a w u o : R -> R) (a' w' u' o' t : R)
  (Ha : is_derive a t a') (Hw : is_derive w t w') (Hu : is_derive u t u') (Ho : is_derive o t o').
Lemma shape1 : forall k r r0, is_derive (fun s => a s + k * (r * w s + u s + r0 * sin (o s))) t
  (a' + k * (r * w' + u' + r0 * (o' * cos (o t)))).
Proof. intros. rate_step. Qed.
Lemma shape2 : forall k r, is_derive (fun s => a s + k * r * w s) t (a' + k * r * w').
Proof. intros. rate_step. Qed.
Lemma shape3 : forall k r1 r2, is_derive (fun s => o s + k * (r1 + r2 * s)) t (o' + k * r2).
Proof. intros. rate_step. Qed.
Lemma shape4 : forall k r r0 r1 r2, is_derive
  (fun s => a s + k * (u s + r * sin (o s) + r0 * sin (o s + k * (r1 + r2 * s)))) t
  (a' + k * (u' + r * (o' * cos (o t)) + r0 * (o' + k * r2) * cos (o t + k * (r1 + r2 * t)))).
Proof. intros. rate_step. Qed.
Lemma shape5 : forall r r0, is_derive (fun s => 1 + (r + r0 * s) * s) t (r + 2 * r0 * t).
Proof. intros. auto_derive; [easy|]. ring. Qed.
End Shapes.

Lemma args_ready : forall t, between_turns t -> ready (dmoon_args (N := RNum)) t.
Proof.
  intros t B. destruct (args6_rated t B) as (H1 & H2 & H3 & H4 & H5 & H6).
  pose proof (wa_rated t) as Ha. pose proof (wb_rated t) as Hb. unfold rated in *.
  assert (X : forall pr : margs -> R * R, forall f f',
    (forall s, pr (dmoon_args (N := RNum) s) = (f s, f' s)) -> is_derive f t (f' t) ->
    is_derive (fun s => fst (pr (dmoon_args (N := RNum) s))) t (snd (pr (dmoon_args (N := RNum) t)))).
  { intros pr f f' E D. rewrite E. cbn [snd]. apply is_derive_ext with (f := f); [|exact D]. intros s; now rewrite E. }
  assert (OM : rated (fun s => g_om (N := RNum) (dmoon_args (N := RNum) s)) t) by exact H6.
  constructor; unfold rated; [| | | | |exact OM| |];
  (eapply X; [intros s; rewrite args_eq; cbn [g_elp g_em g_emp g_d g_f g_om g_wom g_e]; cbv zeta;
     reflexivity|];
   cbn [fst snd]; generalize (deg (N := RNum)); change (car RNum) with R; intros k; nolits).
  - exact (shape1 _ _ _ _ _ _ _ _ _ H1 Ha Hb H6 _ _ _).
  - exact (shape2 _ _ _ _ _ H2 Ha _ _).
  - exact (shape1 _ _ _ _ _ _ _ _ _ H3 Ha Hb H6 _ _ _).
  - exact (shape1 _ _ _ _ _ _ _ _ _ H4 Ha Hb H6 _ _ _).
  - exact (shape4 _ _ _ _ _ _ _ H5 Hb H6 _ _ _ _ _).
  - exact (shape3 _ _ _ H6 _ _ _).
  - apply shape5.
Qed.

Ltac pairs := repeat match goal with
  |- context [match ?e with pair _ _ => _ end] => rewrite (surjective_pairing e) end; cbn [fst snd]; try reflexivity.

Section Series.
Context (g : R -> margs) (t : R) (G : ready g t).

Lemma en_rated : forall i, rated (fun s => dmoon_en (N := RNum) (g s) i) t.
Proof.
  intros i. pose proof (ok_e _ _ G) as E. unfold rated in *.
  unfold dmoon_en. destruct (i =? 0)%Z; [|destruct (i =? 1)%Z].
  - apply is_derive_ext with (f := fun _ => 1).
    + intros s. destruct (g_e (N := RNum) (g s)); cbn [fst]. unR. now rewrite one.
    + destruct (g_e (N := RNum) (g t)); cbn [snd]. unR. rewrite zero. exact (is_derive_const 1 t).
  - apply is_derive_ext with (f := fun s => fst (g_e (N := RNum) (g s))).
    + intros s. now destruct (g_e (N := RNum) (g s)).
    + destruct (g_e (N := RNum) (g t)) eqn:K; cbn [snd] in *. exact E.
  - apply is_derive_ext with (f := fun s => (fun s => fst (g_e (N := RNum) (g s))) s * (fun s => fst (g_e (N := RNum) (g s))) s).
    + intros s. now destruct (g_e (N := RNum) (g s)).
    + assert (X : forall f : R -> R, forall f', is_derive f t f' -> is_derive (fun s => f s * f s) t (2 * f t * f')).
      { intros f f' F. rate_step. }
      apply X in E. destruct (g_e (N := RNum) (g t)) eqn:K; cbn [fst snd] in *. unR. rewrite two. exact E.
Qed.

Lemma theta_rated : forall r, rated (fun s => dmoon_theta (N := RNum) (g s) r) t.
Proof.
  intros [[[[a b] c] h] i]. unfold rated, dmoon_theta; cbn [fst snd]. unR.
  pose proof (ok_em _ _ G) as H1. pose proof (ok_emp _ _ G) as H2. pose proof (ok_d _ _ G) as H3. pose proof (ok_f _ _ G) as H4.
  unfold rated in *.
  assert (X : forall f1 f2 f3 f4 : R -> R, forall d1 d2 d3 d4 x1 x2 x3 x4, is_derive f1 t d1 -> is_derive f2 t d2 -> is_derive f3 t d3 -> is_derive f4 t d4 ->
    is_derive (fun s => x1 * f1 s + x2 * f2 s + x3 * f3 s + x4 * f4 s) t (x1 * d1 + x2 * d2 + x3 * d3 + x4 * d4)).
  { intros. rate_step. }
  exact (X _ _ _ _ _ _ _ _ (IZR a) (IZR b) (IZR c) (IZR h) H1 H2 H3 H4).
Qed.

Lemma rated_by : forall (p : R -> R * R) (f : R -> R) (d : R), is_derive f t d -> (forall s, fst (p s) = f s) -> snd (p t) = d -> rated p t.
Proof.
  intros p f d D E F. unfold rated. rewrite F.
  apply is_derive_ext with (f := f); [|exact D]. intros s; now rewrite E.
Qed.

Lemma sin_step : forall r (s : R -> R * R), rated s t -> rated (fun x => dmoon_sin (N := RNum) (g x) r (s x)) t.
Proof.
  intros r s S. pose proof (en_rated (snd (snd r))) as E. pose proof (theta_rated (snd r)) as T.
  assert (X : forall f1 f2 f3 : R -> R, forall d1 d2 d3 k, is_derive f1 t d1 -> is_derive f2 t d2 -> is_derive f3 t d3 ->
    is_derive (fun s => f1 s + k * sin (f2 s) * f3 s) t (d1 + k * (cos (f2 t) * d2 * f3 t + sin (f2 t) * d3))).
  { intros. rate_step. }
  unfold rated in S, T, E.
  apply (rated_by _ _ _ (X _ _ _ _ _ _ (lit (N := RNum) (fst r)) S T E)); [intros x|]; unfold dmoon_sin.
  - now destruct (s x), (dmoon_en (N := RNum) (g x) (snd (snd r))), (dmoon_theta (N := RNum) (g x) (snd r)).
  - now destruct (s t), (dmoon_en (N := RNum) (g t) (snd (snd r))), (dmoon_theta (N := RNum) (g t) (snd r)).
Qed.

Lemma cos_step : forall r (s : R -> R * R), rated s t -> rated (fun x => dmoon_cos (N := RNum) (g x) r (s x)) t.
Proof.
  intros r s S. pose proof (en_rated (snd (snd r))) as E. pose proof (theta_rated (snd r)) as T.
  assert (X : forall f1 f2 f3 : R -> R, forall d1 d2 d3 k, is_derive f1 t d1 -> is_derive f2 t d2 -> is_derive f3 t d3 ->
    is_derive (fun s => f1 s + k * cos (f2 s) * f3 s) t (d1 + k * (- sin (f2 t) * d2 * f3 t + cos (f2 t) * d3))).
  { intros. rate_step. }
  unfold rated in S, T, E.
  apply (rated_by _ _ _ (X _ _ _ _ _ _ (lit (N := RNum) (fst r)) S T E)); [intros x|]; unfold dmoon_cos.
  - now destruct (s x), (dmoon_en (N := RNum) (g x) (snd (snd r))), (dmoon_theta (N := RNum) (g x) (snd r)).
  - now destruct (s t), (dmoon_en (N := RNum) (g t) (snd (snd r))), (dmoon_theta (N := RNum) (g t) (snd r)).
Qed.

Local Notation zz := (n_ofZ (n := RNum) 0, n_ofZ (n := RNum) 0).
Lemma zero_rated : rated (fun _ => zz) t.
Proof. exact (is_derive_const 0 t). Qed.
Lemma sin_series : forall l, rated (fun x => fold_right (dmoon_sin (N := RNum) (g x)) zz l) t.
Proof.
  induction l as [|r l IH]; cbn [fold_right]; [exact zero_rated|].
  exact (sin_step r (fun x => fold_right (dmoon_sin (N := RNum) (g x)) zz l) IH).
Qed.
Lemma cos_series : forall l, rated (fun x => fold_right (dmoon_cos (N := RNum) (g x)) zz l) t.
Proof.
  induction l as [|r l IH]; cbn [fold_right]; [exact zero_rated|].
  exact (cos_step r (fun x => fold_right (dmoon_cos (N := RNum) (g x)) zz l) IH).
Qed.

(** Rates per second: the derivative in centuries over the length of a century. *)
Definition rated_s (p : R -> R * R) : Prop :=
  is_derive (fun s => fst (p s)) t (snd (p t) * 3155760000).

Lemma rated_s_by : forall (p : R -> R * R) (f : R -> R) (d : R), is_derive f t d -> (forall s, fst (p s) = f s) -> snd (p t) = d / 3155760000 -> rated_s p.
Proof.
  intros p f d D E F. unfold rated_s. rewrite F. replace (d / 3155760000 * 3155760000) with d by field.
  apply is_derive_ext with (f := f); [|exact D]. intros s; now rewrite E.
Qed.
Lemma sec : dmoon_sec (N := RNum) = 3155760000.
Proof. unfold dmoon_sec; unR. unfold Rdec; cbn. lra. Qed.

Lemma el_rated : rated_s (fun x => dmoon_el (N := RNum) (g x)).
Proof.
  pose proof (sin_series dmoon_L) as S. pose proof (ok_elp _ _ G) as E. unfold rated in S, E.
  assert (X : forall f1 f2 : R -> R, forall d1 d2 k, is_derive f1 t d1 -> is_derive f2 t d2 ->
    is_derive (fun s => f1 s + k * f2 s) t (d1 + k * d2)).
  { intros. rate_step. }
  apply (rated_s_by _ _ _ (X _ _ _ _ (deg (N := RNum)) E S)); [intros x|]; unfold dmoon_el.
  - change (car RNum) with R. pairs.
  - change (car RNum) with R. pairs. now rewrite <- sec.
Qed.
Lemma b_rated : rated_s (fun x => dmoon_b (N := RNum) (g x)).
Proof.
  pose proof (sin_series dmoon_B) as S. pose proof (ok_om _ _ G) as E. pose proof (ok_wom _ _ G) as W. unfold rated in S, E, W.
  assert (X : forall f1 f2 f3 : R -> R, forall d1 d2 d3 k c1 c2, is_derive f1 t d1 -> is_derive f2 t d2 -> is_derive f3 t d3 ->
    is_derive (fun s => k * f1 s * (1 - c1 * cos (f2 s) - c2 * cos (f3 s))) t
      (k * (d1 * (1 - c1 * cos (f2 t) - c2 * cos (f3 t)) + f1 t * (c1 * d2 * sin (f2 t) + c2 * d3 * sin (f3 t))))).
  { intros. rate_step. }
  apply (rated_s_by _ _ _ (X _ _ _ _ _ _ (deg (N := RNum)) (Rdec 4664 (-7)) (Rdec 754 (-7)) S E W)); [intros x|]; unfold dmoon_b.
  - change (n_lit (n := RNum) 10 (-1)) with (Rdec 10 (-1)). rewrite one.
    pairs.
  - change (n_lit (n := RNum) 10 (-1)) with (Rdec 10 (-1)). rewrite one.
    pairs. now rewrite <- sec.
Qed.
Lemma p_rated : rated_s (fun x => dmoon_p (N := RNum) (g x)).
Proof.
  pose proof (cos_series dmoon_P) as S. unfold rated in S.
  assert (X : forall f1 : R -> R, forall d1 k, is_derive f1 t d1 -> is_derive (fun s => k * f1 s) t (k * d1)).
  { intros. rate_step. }
  apply (rated_s_by _ _ _ (X _ _ (deg (N := RNum)) S)); [intros x|]; unfold dmoon_p.
  - pairs.
  - pairs. now rewrite <- sec.
Qed.
End Series.

(** Cartesian velocity from the spherical rates. *)
Section Cart.
Context (el b p : R -> R) (del db dp t k c : R)
  (He : is_derive el t (del * c)) (Hb : is_derive b t (db * c)) (Hp : is_derive p t (dp * c)) (Sp : sin (p t) <> 0).
Let r (s : R) := k / sin (p s).
Let dr := - r t * dp * cos (p t) / sin (p t).
Let w := r t * db * sin (b t) - cos (b t) * dr.

Lemma r_derive : is_derive r t (dr * c).
Proof. unfold dr, r. auto_derive; [repeat split; try (eexists; eassumption); assumption|]. derives. field. exact Sp. Qed.
Lemma cart_x : is_derive (fun s => r s * cos (b s) * cos (el s)) t
  ((- (r t * cos (b t) * sin (el t)) * del - w * cos (el t)) * c).
Proof. pose proof r_derive as Hr. unfold w. clearbody dr. clearbody r. rate_step. Qed.
Lemma cart_y : is_derive (fun s => r s * cos (b s) * sin (el s)) t
  ((r t * cos (b t) * cos (el t) * del - w * sin (el t)) * c).
Proof. pose proof r_derive as Hr. unfold w. clearbody dr. clearbody r. rate_step. Qed.
Lemma cart_z : is_derive (fun s => r s * sin (b s)) t ((r t * db * cos (b t) + sin (b t) * dr) * c).
Proof. pose proof r_derive as Hr. clearbody dr. clearbody r. rate_step. Qed.
End Cart.

(** The final stage of dmoon as a function of longitude, latitude, parallax. *)
Definition cart (e l q : R * R) : vecpv RNum :=
  let '(el, del) := e in let '(b, db) := l in let '(p, dp) := q in
  let r := Rdec 42635212653763 (-18) / sin p in
  let dr := - r * dp * cos p / sin p in
  let w := r * db * sin b - cos b * dr in
  VPV (N := RNum) (V3 (r * cos b * cos el) (r * cos b * sin el) (r * sin b))
      (V3 (- (r * cos b * sin el) * del - w * cos el) (r * cos b * cos el * del - w * sin el)
          (r * db * cos b + sin b * dr)).
Lemma ecl_cart : forall t, dmoon_ecl (N := RNum) t =
  cart (dmoon_el (dmoon_args t)) (dmoon_b (dmoon_args t)) (dmoon_p (dmoon_args t)).
Proof.
  intros. unfold dmoon_ecl, cart. generalize (dmoon_args (N := RNum) t); intros g.
  generalize (dmoon_el g) (dmoon_b g) (dmoon_p g). intros [a b] [c d] [e f]. reflexivity.
Qed.

Lemma cart_velocity : forall (e l q : R -> R * R) t,
  rated_s t e -> rated_s t l -> rated_s t q -> sin (fst (q t)) <> 0 ->
  velocity_at (fun s => pos (cart (e s) (l s) (q s))) t (scale 3155760000 (velo (cart (e t) (l t) (q t)))).
Proof.
  intros e l q t E L Q P. unfold rated_s in *.
  set (K := Rdec 42635212653763 (-18)).
  pose proof (cart_x _ _ _ _ _ _ _ K _ E L Q P) as X.
  pose proof (cart_y _ _ _ _ _ _ _ K _ E L Q P) as Y.
  pose proof (cart_z _ _ _ _ _ K _ L Q P) as Z.
  unfold velocity_at, scale; cbn [v0 v1 v2]. split; [|split]; apply is_derive_Reals; rewrite Rmult_comm;
  (eapply is_derive_ext; [intros s; unfold cart; rewrite (surjective_pairing (e s)), (surjective_pairing (l s)), (surjective_pairing (q s)); cbn [fst snd pos v0 v1 v2]; reflexivity|]);
  unfold cart; rewrite (surjective_pairing (e t)), (surjective_pairing (l t)), (surjective_pairing (q t)); cbn [fst snd velo v0 v1 v2];
  fold K; [exact X|exact Y|exact Z].
Qed.

Definition parallax (t : R) : R := fst (dmoon_p (N := RNum) (dmoon_args (N := RNum) t)).

Lemma ecl_velocity : forall t, between_turns t -> sin (parallax t) <> 0 ->
  velocity_at (fun s => pos (dmoon_ecl (N := RNum) s)) t (scale 3155760000 (velo (dmoon_ecl (N := RNum) t))).
Proof.
  intros t B P. pose proof (args_ready t B) as G.
  pose proof (el_rated _ _ G) as E. pose proof (b_rated _ _ G) as L. pose proof (p_rated _ _ G) as Q.
  rewrite ecl_cart.
  eapply velocity_ext; [intros s; rewrite ecl_cart; reflexivity|].
  exact (cart_velocity _ _ _ t E L Q P).
Qed.
