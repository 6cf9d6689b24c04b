(** Singular matrices, independence of the right-hand side, and the tools for
    the examples. *)
From Coq Require Import Reals Arith Lia Lra List.
From Verif Require Import Num NumR M_Lin S_Lin L_Sum L_Dmat.
Import ListNotations.
Open Scope R_scope.

Lemma for_rel A B (R : A -> B -> Prop) lo hi f g s t : R s t ->
  (forall i s t, (lo <= i < hi)%nat -> R s t -> R (f i s) (g i t)) -> R (for_ lo hi f s) (for_ lo hi g t).
Proof.
  intros H0 HS. destruct (Nat.le_gt_cases lo hi) as [L | L].
  2: { rewrite !for_empty by lia. exact H0. }
  induction L as [ | hi L IH ].
  - rewrite !for_empty by lia. exact H0.
  - rewrite !for_last by lia. apply HS; [ lia | ]. apply IH. intros. apply HS; [ lia | assumption ].
Qed.

Section Indep.
Context {N : Num}.

(** Elimination does not look at the vector. *)
Lemma eliminate_mat n k (a : mx N) (v v' : vx N) :
  fst (dmat_eliminate n k a v) = fst (dmat_eliminate n k a v').
Proof.
  unfold dmat_eliminate.
  set (a1 := for_ 0 n _ (set2 a k k _)). clearbody a1.
  match goal with |- context [for_ 0 n ?f (a1, ?v1)] => set (F := f); set (s1 := v1) end.
  match goal with |- context [for_ 0 n ?f (a1, ?v2)] => lazymatch v2 with s1 => fail | _ => set (G := f); set (s2 := v2) end end.
  assert (E : fst (for_ 0 n F (a1, s1)) = fst (for_ 0 n G (a1, s2))).
  { apply (for_rel _ _ (fun s t => fst s = fst t)); [ reflexivity | ].
    intros i [p q] [p' q'] _ H. cbn [fst] in H. subst p'. unfold F, G. destruct (negb (i =? k)%nat); reflexivity. }
  destruct (for_ 0 n F (a1, s1)) as [p q]; destruct (for_ 0 n G (a1, s2)) as [p' q']. cbn [fst] in E |- *. now subst p'.
Qed.

Definition same (s t : dmat_st (N := N)) : Prop :=
  d_mat s = d_mat t /\ d_det s = d_det t /\ d_singular s = d_singular t.

Lemma step_same n k s t : same s t -> same (dmat_step n k s) (dmat_step n k t).
Proof.
  destruct s as [a v d w g], t as [a' v' d' w' g']. unfold same. cbn [d_mat d_det d_singular].
  intros [<- [<- <-]]. unfold dmat_step. destruct (dmat_pivot n k a) as [amx imx].
  destruct (amx <? epsilon)%num; [ cbn; auto | ].
  destruct (negb (imx =? k)%nat).
  - destruct (n_abs _ <? epsilon)%num; [ cbn; auto | ].
    pose proof (eliminate_mat n k (row_swap n k imx a) (vec_swap k imx v) (vec_swap k imx v')) as E.
    destruct (dmat_eliminate n k _ (vec_swap k imx v)); destruct (dmat_eliminate n k _ (vec_swap k imx v')).
    cbn in *. auto.
  - destruct (n_abs _ <? epsilon)%num; [ cbn; auto | ].
    pose proof (eliminate_mat n k a v v') as E.
    destruct (dmat_eliminate n k _ v); destruct (dmat_eliminate n k _ v'). cbn in *. auto.
Qed.

Lemma dmat_flag n (A : mx N) b b' ws ws' :
  fst (fst (fst (dmat n A b ws))) = fst (fst (fst (dmat n A b' ws'))) /\
  snd (dmat n A b ws) = snd (dmat n A b' ws').
Proof.
  unfold dmat.
  set (s := for_ 0 n _ (DmatSt A b _ ws false)). set (t := for_ 0 n _ (DmatSt A b' _ ws' false)).
  assert (H : same s t).
  { apply for_rel; [ repeat split | ]. intros. now apply step_same. }
  destruct H as [H1 [H2 H3]]. rewrite <- H3. destruct (d_singular s); cbn; auto.
Qed.
End Indep.

Lemma dmat_cases n A b ws : exists B x d,
  dmat (N := RNum) n A b ws = (false, B, x, d) \/ dmat (N := RNum) n A b ws = (true, B, x, d).
Proof. destruct (dmat (N := RNum) n A b ws) as [[[[|] B] x] d]; exists B, x, d; auto. Qed.

Lemma dmat_not_ok n A b ws :
  (forall B x d, dmat (N := RNum) n A b ws = (false, B, x, d) -> False) ->
  exists B x, dmat (N := RNum) n A b ws = (true, B, x, 0).
Proof.
  intros H. destruct (dmat_cases n A b ws) as [B [x [d [E | E]]]]; [ now apply H in E | ].
  exists B, x. destruct (dmat_reported _ _ _ _ _ _ _ E) as [_ ->]. exact E.
Qed.

Lemma dmat_no_inverse n A b ws : (forall B, ~ inverse n A B) ->
  exists B x, dmat (N := RNum) n A b ws = (true, B, x, 0).
Proof. intros H. apply dmat_not_ok. intros B x d E. apply (H B). now apply (dmat_correct _ _ _ _ _ _ _ E). Qed.

Lemma dmat_small_det n A b ws : n <> O -> Rabs (det n A) < / 10 ^ 20 ->
  exists B x, dmat (N := RNum) n A b ws = (true, B, x, 0).
Proof.
  intros Hn H. apply dmat_not_ok. intros B x d E. destruct (dmat_correct _ _ _ _ _ _ _ E) as [_ [_ [-> G]]].
  specialize (G Hn). rewrite eps_val in G. lra.
Qed.

Lemma inverse_kernel n A B z i : inverse n A B -> (forall i, (i < n)%nat -> mulv n A z i = 0) ->
  (i < n)%nat -> z i = 0.
Proof.
  intros HI HZ Hi. rewrite <- (sum_delta_l n i z Hi).
  rewrite (sum_ext n _ (fun k => sum n (fun j => B i j * (A j k * z k)))).
  2: { intros k Hk. destruct (HI i k Hi Hk) as [_ <-]. unfold mulm. rewrite <- sum_scal_r. apply sum_ext. intros. ring. }
  rewrite sum_swap. apply sum_0. intros j Hj. rewrite sum_scal. specialize (HZ j Hj). unfold mulv in HZ. rewrite HZ. ring.
Qed.

Lemma dmat_kernel n A b ws z i : (i < n)%nat -> z i <> 0 -> (forall i, (i < n)%nat -> mulv n A z i = 0) ->
  exists B x, dmat (N := RNum) n A b ws = (true, B, x, 0).
Proof. intros Hi Hz HZ. apply dmat_no_inverse. intros B HB. apply Hz. now apply (inverse_kernel n A B z i). Qed.

(** Uniqueness of the solution. *)
Lemma dmat_unique n A b ws B x d z : dmat (N := RNum) n A b ws = (false, B, x, d) ->
  (forall i, (i < n)%nat -> mulv n A z i = b i) -> forall i, (i < n)%nat -> z i = x i.
Proof.
  intros E HZ i Hi. destruct (dmat_correct _ _ _ _ _ _ _ E) as [HI [HX _]].
  assert (z i - x i = 0); [ | lra ].
  apply (inverse_kernel n A B (fun i => z i - x i) i HI); [ | exact Hi ].
  intros k Hk. unfold mulv. rewrite (sum_ext n _ (fun j => A k j * z j - A k j * x j)) by (intros; ring).
  rewrite sum_minus. specialize (HZ k Hk). specialize (HX k Hk). unfold mulv in HZ, HX. lra.
Qed.

(** Accepted: no greedy choice of rows meets a small pivot or determinant. *)
Lemma dmat_ok n A b ws : ~ nearly_singular n A (/ 10 ^ 20) ->
  exists B x d, dmat (N := RNum) n A b ws = (false, B, x, d).
Proof.
  intros H. destruct (dmat_cases n A b ws) as [B [x [d [E | E]]]]; [ now exists B, x, d | ].
  exfalso. apply H. rewrite <- eps_val. now destruct (dmat_reported _ _ _ _ _ _ _ E).
Qed.

Lemma greedy_0 (n : nat) (A : nat -> nat -> R) (rows : list nat) : length rows = O -> rows = [].
Proof. apply length_zero_iff_nil. Qed.

Lemma greedy_S n A rows k : greedy n A rows -> length rows = S k ->
  exists rs r, rows = rs ++ [r] /\ greedy n A rs /\ length rs = k /\ (r < n)%nat /\ ~ In r rs /\
    forall r', (r' < n)%nat -> ~ In r' rs -> Rabs (lead (rs ++ [r']) A) <= Rabs (lead (rs ++ [r]) A).
Proof.
  intros G. destruct G as [ | rs r G H1 H2 H3 ]; cbn; [ discriminate | ].
  intros L. rewrite app_length in L. cbn in L. exists rs, r. repeat split; auto. lia.
Qed.

Ltac leads := unfold lead, rows_of, minor in *; cbn in *.
Ltac absr := repeat match goal with
  | H : context [Rabs ?x] |- _ => revert H; unfold Rabs at 1; destruct (Rcase_abs x); intros H
  | |- context [Rabs ?x] => unfold Rabs at 1; destruct (Rcase_abs x)
  end.

Lemma example2_ok : ~ nearly_singular 2 (fun i j => nth j (nth i [[0; 2]; [3; 4]] []) 0) (/ 10 ^ 20).
Proof.
  set (A := fun i j => _). assert (T : 0 < / 10 ^ 20 < 1) by (split; [ apply Rinv_0_lt_compat | rewrite <- Rinv_1; apply Rinv_lt_contravar ]; nra || lra).
  intros [rows [G [L [NZ H]]]].
  destruct (length rows) as [ | [ | ? ]] eqn:E; [ | | cbn in L; lia ].
  - apply (greedy_0 2 A) in E. subst rows. destruct H as [H | H]; specialize (H 1%nat ltac:(lia) ltac:(intros []));
      unfold A in H; leads; absr; lra.
  - destruct (greedy_S 2 A rows 0 G E) as [rs [r [-> [G' [L' [Hr [_ M]]]]]]]. apply (greedy_0 2 A) in L'. subst rs. cbn [app] in *.
    destruct r as [ | [ | ? ]]; [ | | lia ].
    + apply NZ. unfold A. leads. ring.
    + destruct H as [H | H]; specialize (H 0%nat ltac:(lia) ltac:(intros [X | []]; discriminate));
        unfold A in H; leads; absr; lra.
Qed.

Lemma tiny20 : 0 < / 10 ^ 20 < 1 / 100.
Proof. split; [ apply Rinv_0_lt_compat, pow_lt; lra | ]. apply Rmult_lt_reg_l with (10 ^ 20); [ apply pow_lt; lra | ]. rewrite Rinv_r by (apply pow_nonzero; lra). lra. Qed.

(** One step of a search for a bad choice of rows, when the next row can only be [r]. *)
Lemma greedy_only n A k rs r rows : greedy n A rows -> length rows = S k ->
  (forall rs', greedy n A rs' -> length rs' = k -> rs' = rs) -> (r < n)%nat -> ~ In r rs -> lead (rs ++ [r]) A <> 0 ->
  (forall r', (r' < n)%nat -> ~ In r' rs -> r' <> r -> lead (rs ++ [r']) A = 0) ->
  rows = rs ++ [r].
Proof.
  intros G L U Hr Hin NZ Z. destruct (greedy_S n A rows k G L) as [rs' [r' [-> [G' [L' [H1 [H2 M]]]]]]].
  rewrite (U rs' G' L') in *. f_equal. f_equal.
  destruct (Nat.eq_dec r' r) as [ | NE ]; [ assumption | exfalso ].
  specialize (M r Hr Hin). rewrite (Z r' H1 H2 NE), Rabs_R0 in M. pose proof (Rabs_pos (lead (rs ++ [r]) A)).
  apply NZ. destruct (Req_dec (lead (rs ++ [r]) A) 0) as [ | Q ]; [ assumption | ]. apply Rabs_pos_lt in Q. lra.
Qed.

Definition diag (l : list R) : nat -> nat -> R := fun i j => if Nat.eqb i j then nth i l 0 else 0.

Lemma diag3_ok a b c : 1 <= a <= 10 -> 1 <= b <= 10 -> 1 <= c <= 10 -> ~ nearly_singular 3 (diag [a; b; c]) (/ 10 ^ 20).
Proof.
  intros Ha Hb Hc [rows [G [L [NZ H]]]]. pose proof tiny20 as T.
  set (A := diag _) in *.
  assert (U0 : forall rs, greedy 3 A rs -> length rs = 0%nat -> rs = []) by (intros rs _; apply length_zero_iff_nil).
  assert (U1 : forall rs, greedy 3 A rs -> length rs = 1%nat -> rs = [0%nat]).
  { intros rs g l. apply (greedy_only 3 A 0 [] 0 rs g l U0); [ lia | intros [] | unfold A, diag; leads; lra | ].
    intros [ | [ | [ | ? ]]] Hr Hi NE; try lia; unfold A, diag; leads; lra. }
  assert (U2 : forall rs, greedy 3 A rs -> length rs = 2%nat -> rs = [0%nat; 1%nat]).
  { intros rs g l. apply (greedy_only 3 A 1 [0%nat] 1 rs g l U1); [ lia | cbn; lia | unfold A, diag; leads; nra | ].
    intros [ | [ | [ | ? ]]] Hr Hi NE; try lia; cbn in Hi; try (exfalso; tauto); unfold A, diag; leads; lra. }
  assert (ab : 1 <= a * b <= 100) by nra.
  destruct (length rows) as [ | [ | [ | ? ]]] eqn:E; [ | | | lia ].
  - rewrite (U0 rows G E) in H. destruct H as [H | H]; specialize (H 0%nat ltac:(lia) ltac:(intros []));
      unfold A, diag in H; leads; absr; lra.
  - rewrite (U1 rows G E) in H. destruct H as [H | H]; specialize (H 1%nat ltac:(lia) ltac:(cbn; lia));
      unfold A, diag in H; leads; absr; nra.
  - rewrite (U2 rows G E) in H. assert (abc : 1 <= a * b * c <= 1000) by nra.
    destruct H as [H | H]; specialize (H 2%nat ltac:(lia) ltac:(cbn; lia)); unfold A, diag in H; leads.
    + match type of H with Rabs ?u < _ * Rabs ?v => replace u with (a * b * c) in H by ring; replace v with (a * b) in H by ring end.
      rewrite !Rabs_pos_eq in H by lra. nra.
    + match type of H with Rabs ?u < _ => replace u with (a * b * c) in H by ring end.
      rewrite Rabs_pos_eq in H by lra. lra.
Qed.

Lemma diag4_ok : ~ nearly_singular 4 (diag [3; 2; - (2); 3]) (/ 10 ^ 20).
Proof.
  intros [rows [G [L [NZ H]]]]. pose proof tiny20 as T.
  set (A := diag _) in *.
  assert (U0 : forall rs, greedy 4 A rs -> length rs = 0%nat -> rs = []) by (intros rs _; apply length_zero_iff_nil).
  assert (U1 : forall rs, greedy 4 A rs -> length rs = 1%nat -> rs = [0%nat]).
  { intros rs g l. apply (greedy_only 4 A 0 [] 0 rs g l U0); [ lia | intros [] | unfold A, diag; leads; lra | ].
    intros [ | [ | [ | [ | ? ]]]] Hr Hi NE; try lia; unfold A, diag; leads; lra. }
  assert (U2 : forall rs, greedy 4 A rs -> length rs = 2%nat -> rs = [0%nat; 1%nat]).
  { intros rs g l. apply (greedy_only 4 A 1 [0%nat] 1 rs g l U1); [ lia | cbn; lia | unfold A, diag; leads; lra | ].
    intros [ | [ | [ | [ | ? ]]]] Hr Hi NE; try lia; cbn in Hi; try (exfalso; tauto); unfold A, diag; leads; lra. }
  assert (U3 : forall rs, greedy 4 A rs -> length rs = 3%nat -> rs = [0%nat; 1%nat; 2%nat]).
  { intros rs g l. apply (greedy_only 4 A 2 [0%nat; 1%nat] 2 rs g l U2); [ lia | cbn; lia | unfold A, diag; leads; lra | ].
    intros [ | [ | [ | [ | ? ]]]] Hr Hi NE; try lia; cbn in Hi; try (exfalso; tauto); unfold A, diag; leads; lra. }
  destruct (length rows) as [ | [ | [ | [ | ? ]]]] eqn:E; [ | | | | lia ].
  - rewrite (U0 rows G E) in H. destruct H as [H | H]; specialize (H 0%nat ltac:(lia) ltac:(intros []));
      unfold A, diag in H; leads; absr; lra.
  - rewrite (U1 rows G E) in H. destruct H as [H | H]; specialize (H 1%nat ltac:(lia) ltac:(cbn; lia));
      unfold A, diag in H; leads; absr; lra.
  - rewrite (U2 rows G E) in H. destruct H as [H | H]; specialize (H 2%nat ltac:(lia) ltac:(cbn; lia));
      unfold A, diag in H; leads; absr; lra.
  - rewrite (U3 rows G E) in H. destruct H as [H | H]; specialize (H 3%nat ltac:(lia) ltac:(cbn; lia));
      unfold A, diag in H; leads; absr; lra.
Qed.
