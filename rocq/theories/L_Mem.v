(** Aliasing of the vector kernels, for every arithmetic. *)
From Coq Require Import ZArith Bool Lia.
From Verif Require Import Num M_Vec M_Mem.
Open Scope Z_scope.

Section Mem.
Context {N : Num}.

Lemma upd_eq (s : mem) p (x : N) : upd s p x p = x.
Proof. unfold upd. rewrite Z.eqb_refl. reflexivity. Qed.
Lemma upd_neq (s : mem) p (x : N) q : q <> p -> upd s p x q = s q.
Proof. intros. unfold upd. destruct (Z.eqb_spec q p); [contradiction|reflexivity]. Qed.

Ltac upds := repeat (rewrite upd_eq || rewrite upd_neq by lia).

Lemma copy_out_at p (r : vec N) s : vec_at (copy_out p r s) p = r.
Proof. destruct r as [a b c]. unfold vec_at, copy_out; cbn [v0 v1 v2]. f_equal; upds; reflexivity. Qed.
Lemma copy_out_other p (r : vec N) s q : ~ (p <= q < p + 3) -> copy_out p r s q = s q.
Proof. intros. unfold copy_out. upds. reflexivity. Qed.
Lemma vec_at_other p (r : vec N) s q : q + 3 <= p \/ p + 3 <= q -> vec_at (copy_out p r s) q = vec_at s q.
Proof. intros. unfold vec_at. f_equal; apply copy_out_other; lia. Qed.

Lemma dmxv_mem_spec m va vb (s : @mem N) :
  vec_at (dmxv_mem m va vb s) vb = dmxv (mat_at s m) (vec_at s va) /\
  (forall q, ~ (vb <= q < vb + 3) -> dmxv_mem m va vb s q = s q).
Proof. split; [apply copy_out_at|intros; apply copy_out_other; assumption]. Qed.

Lemma dimxv_mem_spec m va vb (s : @mem N) :
  vec_at (dimxv_mem m va vb s) vb = dimxv (mat_at s m) (vec_at s va) /\
  (forall q, ~ (vb <= q < vb + 3) -> dimxv_mem m va vb s q = s q).
Proof. split; [apply copy_out_at|intros; apply copy_out_other; assumption]. Qed.

Lemma dvxv_mem_spec va vb vc (s : @mem N) :
  vec_at (dvxv_mem va vb vc s) vc = dvxv (vec_at s va) (vec_at s vb) /\
  (forall q, ~ (vc <= q < vc + 3) -> dvxv_mem va vb vc s q = s q).
Proof. split; [apply copy_out_at|intros; apply copy_out_other; assumption]. Qed.

Lemma dmxm_mem_spec ma mb mc (s : @mem N) :
  mat_at (dmxm_mem ma mb mc s) mc = dmxm (mat_at s ma) (mat_at s mb) /\
  (forall q, ~ (mc <= q < mc + 9) -> dmxm_mem ma mb mc s q = s q).
Proof.
  unfold dmxm_mem. destruct (dmxm (mat_at s ma) (mat_at s mb)) as [a b c]; cbn [r0 r1 r2]. split.
  - unfold mat_at. rewrite copy_out_at. rewrite (vec_at_other (mc + 6)) by lia.
    rewrite (vec_at_other (mc + 6)) by lia. rewrite copy_out_at. rewrite (vec_at_other (mc + 3)) by lia.
    rewrite copy_out_at. reflexivity.
  - intros q H. rewrite !copy_out_other by lia. reflexivity.
Qed.

Lemma dvn_mem_spec va nv (s : @mem N) : ~ (va < nv < va + 3) ->
  vec_at (fst (dvn_mem va nv s)) nv = fst (dvn (vec_at s va)) /\
  snd (dvn_mem va nv s) = snd (dvn (vec_at s va)) /\
  (forall q, ~ (nv <= q < nv + 3) -> fst (dvn_mem va nv s) q = s q).
Proof.
  intros H. unfold dvn_mem, dvn. cbn [fst snd vec_at v0 v1 v2].
  match goal with |- context [n_sqrt ?a] => set (md := n_sqrt a) end.
  set (m2 := if (md <=? #0)%num then (#1)%num else md).
  split; [|split].
  - unfold vec_at. f_equal.
    + upds. reflexivity.
    + upds. reflexivity.
    + upds. reflexivity.
  - reflexivity.
  - intros q Hq. upds. reflexivity.
Qed.
End Mem.
