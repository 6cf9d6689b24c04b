(** Tactics for the error analyser. *)
From Coq Require Import ZArith Reals Bool List Lia Lra.
From Flocq Require Import Core BinarySingleNaN.
From Verif Require Import Num NumB NumR S_Binary S_Float L_Bin L_Flt L_Float L_Err L_FloatLibm.
Import ListNotations.
Open Scope R_scope.

Lemma V_le z n d : (0 < d)%Z -> (z * d <=? n * Sc)%Z = true -> V z <= IZR n / IZR d.
Proof.
  intros D H. apply Z.leb_le, IZR_le in H. rewrite !mult_IZR in H. unfold V. pose proof Sc_pos. assert (0 < IZR d) by now apply IZR_lt.
  apply Rmult_le_reg_r with (IZR Sc * IZR d); [nra|]. replace (IZR z / IZR Sc * (IZR Sc * IZR d)) with (IZR z * IZR d) by (field; lra).
  replace (IZR n / IZR d * (IZR Sc * IZR d)) with (IZR n * IZR Sc) by (field; lra). exact H.
Qed.
Lemma V_ge z n d : (0 < d)%Z -> (n * Sc <=? z * d)%Z = true -> IZR n / IZR d <= V z.
Proof.
  intros D H. apply Z.leb_le, IZR_le in H. rewrite !mult_IZR in H. unfold V. pose proof Sc_pos. assert (0 < IZR d) by now apply IZR_lt.
  apply Rmult_le_reg_r with (IZR Sc * IZR d); [nra|]. replace (IZR z / IZR Sc * (IZR Sc * IZR d)) with (IZR z * IZR d) by (field; lra).
  replace (IZR n / IZR d * (IZR Sc * IZR d)) with (IZR n * IZR Sc) by (field; lra). exact H.
Qed.
(** An exact input between two integers. *)
Lemma okk_in (x : double) a l h : value64 x a -> IZR l <= a <= IZR h -> okk (It (l * Sc) (h * Sc) 0) x a.
Proof.
  intros F R. split; [|cbn [lo hi]; rewrite !V_Sc; exact R]. exists a. split; [exact F|]. cbn [er]. rewrite V_0. unfold Rminus. rewrite Rplus_opp_r, Rabs_R0. lra.
Qed.
Lemma okk_near i x a n d : okk i x a -> (0 < d)%Z -> (er i * d <=? n * Sc)%Z = true -> near 53 1024 x a (IZR n / IZR d).
Proof. intros (N & _) D H. eapply near_weak; [exact N|]. now apply V_le. Qed.

Lemma okk_near_eq i t r x a n d : t = x -> r = a -> okk i x a -> (0 < d)%Z -> (er i * d <=? n * Sc)%Z = true -> near 53 1024 t r (IZR n / IZR d).
Proof. intros -> ->. apply okk_near. Qed.

(** [err S lm K env xs rs ok] proves [near 53 1024 t r (n / d)], where [S] is
    [ana_sound lm k K L HK], [t] the code over binary64 and [r] the same over
    the reals, with variables [xs] and [rs]. *)
Ltac err S lm K env xs rs ok :=
  lazymatch goal with
  | |- near 53 1024 ?t ?r (IZR ?n / IZR ?d) =>
    let e := reify xs t in
    let c := eval vm_compute in (ana K env e) in
    lazymatch c with
    | Some ?i =>
      refine (okk_near_eq i t r (L_Err.eval (B64 lm) xs e) (L_Err.eval RNum rs e) n d _ _ (S env xs rs ok e i _) _ _);
      [exact_no_check (eq_refl t)|exact_no_check (eq_refl r)|vm_cast_no_check (eq_refl (Some i))|reflexivity|vm_compute; reflexivity]
    | None => fail "no bound" e
    end
  end.

(** ** Code without library functions: no assumption on libm *)
Fixpoint notrig (e : ex) : bool :=
  match e with
  | Var _ | Lit _ _ | OfZ _ | EPi | E2Pi => true
  | Opp a | Abs a | Sqrt a => notrig a
  | Sin _ | Cos _ => false
  | Add a b | Sub a b | Mul a b | Div a b => (notrig a && notrig b)%bool
  end.
Lemma eval_any l m xs e : notrig e = true -> L_Err.eval (B64 l) xs e = L_Err.eval (B64 m) xs e.
Proof.
  induction e as [i|p q|z| | |a A|a A|a A|a A|a A|a A b B|a A b B|a A b B|a A b B]; cbn [notrig L_Err.eval]; intros H;
    try reflexivity; try discriminate H; try (rewrite (A H); reflexivity).
  all: apply andb_prop in H; destruct H as [Ha Hb]; rewrite (A Ha), (B Hb); reflexivity.
Qed.
Lemma ana_sound0 lm is xs rs : okenv is xs rs -> forall e i, ana Sc is e = Some i -> notrig e = true ->
  okk i (L_Err.eval (B64 lm) xs e) (L_Err.eval RNum rs e).
Proof.
  intros OK e i H T. rewrite (eval_any lm ideal_libm xs e T). apply (ana_sound ideal_libm (2 * u64) Sc ideal_libm_ok) with is; [|exact OK|exact H].
  replace Sc with (1 * Sc)%Z by reflexivity. rewrite V_Sc, u64_num. lra.
Qed.
Ltac err0 lm env xs rs ok :=
  lazymatch goal with
  | |- near 53 1024 ?t ?r (IZR ?n / IZR ?d) =>
    let e := reify xs t in
    let c := eval vm_compute in (ana Sc env e) in
    lazymatch c with
    | Some ?i =>
      refine (okk_near_eq i t r (L_Err.eval (B64 lm) xs e) (L_Err.eval RNum rs e) n d _ _ (ana_sound0 lm env xs rs ok e i _ _) _ _);
      [exact_no_check (eq_refl t)|exact_no_check (eq_refl r)|vm_cast_no_check (eq_refl (Some i))|reflexivity|reflexivity|vm_compute; reflexivity]
    | None => fail "no bound" e
    end
  end.

(** Error and size together. *)
Lemma okk_mag_eq i (t : double) r x a n d m : t = x -> r = a -> okk i x a -> (0 < d)%Z -> (er i * d <=? n * Sc)%Z = true -> (mag i <=? m * Sc)%Z = true ->
  near 53 1024 t r (IZR n / IZR d) /\ Rabs r <= IZR m.
Proof.
  intros -> -> O D E M. split; [now apply okk_near with i|]. destruct O as [_ [L H]]. apply Z.leb_le, Vz in M. rewrite V_Sc in M.
  eapply Rle_trans; [|exact M]. unfold mag. apply Rabs_le. split.
  - apply Rle_trans with (V (lo i)); [|exact L]. rewrite <- V_opp. apply Vz. lia.
  - apply Rle_trans with (V (hi i)); [exact H|]. apply Vz. lia.
Qed.
Ltac errm0 lm env xs rs ok :=
  lazymatch goal with
  | |- near 53 1024 ?t ?r (IZR ?n / IZR ?d) /\ Rabs ?r <= IZR ?m =>
    let e := reify xs t in
    let c := eval vm_compute in (ana Sc env e) in
    lazymatch c with
    | Some ?i =>
      refine (okk_mag_eq i t r (L_Err.eval (B64 lm) xs e) (L_Err.eval RNum rs e) n d m _ _ (ana_sound0 lm env xs rs ok e i _ _) _ _ _);
      [exact_no_check (eq_refl t)|exact_no_check (eq_refl r)|vm_cast_no_check (eq_refl (Some i))|reflexivity|reflexivity|vm_compute; reflexivity|vm_compute; reflexivity]
    | None => fail "no bound" e
    end
  end.
Ltac errm S lm K env xs rs ok :=
  lazymatch goal with
  | |- near 53 1024 ?t ?r (IZR ?n / IZR ?d) /\ Rabs ?r <= IZR ?m =>
    let e := reify xs t in
    let c := eval vm_compute in (ana K env e) in
    lazymatch c with
    | Some ?i =>
      refine (okk_mag_eq i t r (L_Err.eval (B64 lm) xs e) (L_Err.eval RNum rs e) n d m _ _ (S env xs rs ok e i _) _ _ _);
      [exact_no_check (eq_refl t)|exact_no_check (eq_refl r)|vm_cast_no_check (eq_refl (Some i))|reflexivity|vm_compute; reflexivity|vm_compute; reflexivity]
    | None => fail "no bound" e
    end
  end.
