(** Sidereal time in binary64. *)
From Coq Require Import ZArith Reals Bool List Lia Lra Psatz.
From Flocq Require Import Core BinarySingleNaN.
From Verif Require Import Int32 Num NumB NumR M_Angle M_Epoch S_Angle S_Frame S_Epoch S_Binary S_Float L_Bin L_Flt L_Float L_Angle L_Frame L_Epoch L_Err L_ErrT L_FloatTf L_FloatEp.
From Verif Require L_Pi L_Binary L_Real.
Import ListNotations.
Open Scope R_scope.

Lemma dranrm_near lm (x : double) a e M : near 53 1024 x a e -> Rabs a + e <= M ->
  exists g, value64 (dranrm (N := B64 lm) x) g /\ 0 <= g <= 2 * pi_double /\ same_turn (e + / 2 ^ 51 + (M / 6 + 1) * 25e-17) g a.
Proof.
  intros (r & F & E) HM. destruct (L_Binary.dranrm64 lm x r F) as (k & g & G1 & G2 & _ & G4 & _ & G6). exists g. split; [exact G1|]. split; [exact G2|].
  exists (- k)%Z. rewrite opp_IZR.
  assert (K : Rabs (IZR k) <= M / 6 + 1).
  { pose proof (Rabs_pos (r - a)). assert (Rabs r <= M) by (replace r with ((r - a) + a) by ring; eapply Rle_trans; [apply Rabs_triang|lra]).
    apply Rabs_le_inv in H0. unfold pi_double in G4. apply Rabs_le. split; lra. }
  replace (g - a - - IZR k * (2 * PI)) with ((r - a) + (g - (r - IZR k * (2 * PI)))) by ring.
  eapply Rle_trans; [apply Rabs_triang|]. assert (Rabs (IZR k) * (25 / 100000000000000000) <= (M / 6 + 1) * 25e-17) by nra. lra.
Qed.
(** fmod (x, 1) is exact. *)
Lemma frac64 lm (x : double) a : value64 x a -> value64 (n_fmod (n := B64 lm) x (n_ofZ 1)) (n_fmod (n := RNum) a (n_ofZ 1)) /\ -1 <= n_fmod (n := RNum) a (n_ofZ 1) <= 1.
Proof.
  intros X. destruct (fin_fmod 53 1024 x (BofZ 53 1024 1) a 1 X ltac:(apply (int64 1); lia) ltac:(lra)) as [F _].
  change (n_fmod (n := RNum) a (n_ofZ 1)) with (Rfmod a 1). change (n_fmod (n := B64 lm) x (n_ofZ 1)) with (Bfmod 53 1024 x (BofZ 53 1024 1)).
  replace (Rfmod a 1) with (a - IZR (Ztrunc (a / 1)) * 1) by (unfold Rfmod, Rtrunc; ring). split; [exact F|].
  replace (a - IZR (Ztrunc (a / 1)) * 1) with (Rfmod a 1) by (unfold Rfmod, Rtrunc; ring).
  destruct (L_Real.Rfmod_range a 1 ltac:(lra)) as [F1 F1']. destruct (Rle_dec 0 a) as [h|h]; [specialize (F1 h)|specialize (F1' ltac:(lra))]; lra.
Qed.
Definition graw {N : Num} (ut1 f : N) : N :=
  let s2r := n_lit 7272205216643039903848711535369 (-35) in
  let jc := n_div (n_sub ut1 (n_lit 515445 (-1))) (n_ofZ 36525) in
  n_add (n_mul f n_2pi) (n_mul (n_add (n_lit 2411054841 (-5)) (n_mul (n_add (n_lit 8640184812866 (-6)) (n_mul (n_sub (n_lit 93104 (-6)) (n_mul (n_lit 62 (-7)) jc)) jc)) jc)) s2r).
Lemma gmst_graw {N : Num} (ut1 : N) : gmst ut1 = dranrm (graw ut1 (n_fmod ut1 (n_ofZ 1))).
Proof. reflexivity. Qed.
Lemma env2 (x y : double) a b l1 h1 l2 h2 : value64 x a -> value64 y b ->
  IZR l1 <= a <= IZR h1 -> IZR l2 <= b <= IZR h2 -> okenv [it l1 h1; it l2 h2] [x; y] [a; b].
Proof. intros X Y A B. split; [now apply okk_in|]. split; [now apply okk_in|exact Logic.I]. Qed.
Lemma graw64 lm (x f : double) a b : value64 x a -> value64 f b -> -1000000 <= a <= 1000000 -> -1 <= b <= 1 -> near 53 1024 (graw (N := B64 lm) x f) (graw (N := RNum) a b) 19e-12 /\ Rabs (graw (N := RNum) a b) <= 20000.
Proof.
  intros X F A B. pose proof (env2 x f a b (-1000000) 1000000 (-1) 1 X F A B) as OK. unfold graw.
  errm0 lm [it (-1000000) 1000000; it (-1) 1] [x; f] [a; b] OK.
Qed.
Lemma turns g r d i m n k e f : Rabs (g - r - IZR m * (2 * PI)) <= e -> Rabs (d - i - IZR n * (2 * PI)) <= f -> r = d + IZR k * (2 * PI) -> same_turn (e + f) g i.
Proof.
  intros G D K. exists (m + n + k)%Z. rewrite !plus_IZR.
  replace (g - i - (IZR m + IZR n + IZR k) * (2 * PI)) with ((g - r - IZR m * (2 * PI)) + (d - i - IZR n * (2 * PI))) by (rewrite K; ring).
  eapply Rle_trans; [apply Rabs_triang|]. lra.
Qed.
Lemma same_turn_le e f a b : same_turn e a b -> e <= f -> same_turn f a b.
Proof. intros [k K] H. exists k. lra. Qed.
Lemma gmst64 lm (x : double) a : value64 x a -> -1000000 <= a <= 1000000 ->
  exists g, value64 (gmst (N := B64 lm) x) g /\ 0 <= g <= 2 * pi_double /\ same_turn 2e-11 g (iau1982_gmst a).
Proof.
  intros X A. destruct (frac64 lm x a X) as [F B]. destruct (graw64 lm x _ a _ X F A B) as [N M].
  rewrite gmst_graw. destruct (dranrm_near lm _ _ (19e-12) 20001 N ltac:(lra)) as (g & G1 & G2 & G3). exists g. split; [exact G1|]. split; [exact G2|].
  destruct (gmst_spec a) as [_ S]. specialize (S ltac:(apply Rabs_le; lra)). rewrite gmst_graw in S.
  destruct (dranrm_spec (graw (N := RNum) a (n_fmod (n := RNum) a (n_ofZ 1)))) as [[k K] _]. destruct G3 as [m G3]. destruct S as [n S].
  eapply same_turn_le; [exact (turns g _ _ _ m n k _ _ G3 S K)|]. lra.
Qed.
Definition graw2 {N : Num} (d1 d2 f1 f2 : N) : N :=
  let s2r := n_lit 7272205216643039903848712 (-29) in
  let jc := n_div (n_add d1 (n_sub d2 (n_lit 515445 (-1)))) (n_ofZ 36525) in
  n_mul s2r (n_add (n_add (n_lit 2411054841 (-5)) (n_mul (n_add (n_lit 8640184812866 (-6)) (n_mul (n_sub (n_lit 93104 (-6)) (n_mul (n_lit 62 (-7)) jc)) jc)) jc)) (n_mul (n_ofZ 86400) (n_add f1 f2))).
Lemma gmsta_graw {N : Num} (a b : N) : gmsta a b =
  let d1 := if n_ltb a b then a else b in let d2 := if n_ltb a b then b else a in dranrm (graw2 d1 d2 (n_fmod d1 (n_ofZ 1)) (n_fmod d2 (n_ofZ 1))).
Proof. reflexivity. Qed.
Lemma graw2_64 lm (x y f h : double) a b c d : value64 x a -> value64 y b -> value64 f c -> value64 h d -> -1000000 <= a <= 1000000 -> -1000000 <= b <= 1000000 -> -1 <= c <= 1 -> -1 <= d <= 1 ->
  near 53 1024 (graw2 (N := B64 lm) x y f h) (graw2 (N := RNum) a b c d) 4e-11 /\ Rabs (graw2 (N := RNum) a b c d) <= 40000.
Proof.
  intros X Y F H A B C D.
  assert (OK : okenv [it (-1000000) 1000000; it (-1000000) 1000000; it (-1) 1; it (-1) 1] [x; y; f; h] [a; b; c; d]).
  { split; [now apply okk_in|]. split; [now apply okk_in|]. split; [now apply okk_in|]. split; [now apply okk_in|exact Logic.I]. }
  unfold graw2. errm0 lm [it (-1000000) 1000000; it (-1000000) 1000000; it (-1) 1; it (-1) 1] [x; y; f; h] [a; b; c; d] OK.
Qed.
Lemma gmsta64 lm (x y : double) a b : value64 x a -> value64 y b -> -1000000 <= a <= 1000000 -> -1000000 <= b <= 1000000 ->
  exists g, value64 (gmsta (N := B64 lm) x y) g /\ 0 <= g <= 2 * pi_double /\ same_turn 42e-12 g (iau1982_gmst (a + b)).
Proof.
  intros X Y A B.
  assert (G : forall (p q : double) c d, value64 p c -> value64 q d -> -1000000 <= c <= 1000000 -> -1000000 <= d <= 1000000 ->
    gmsta (N := RNum) a b = dranrm (N := RNum) (graw2 (N := RNum) c d (n_fmod (n := RNum) c (n_ofZ 1)) (n_fmod (n := RNum) d (n_ofZ 1))) ->
    exists g, value64 (dranrm (N := B64 lm) (graw2 (N := B64 lm) p q (n_fmod (n := B64 lm) p (n_ofZ 1)) (n_fmod (n := B64 lm) q (n_ofZ 1)))) g /\ 0 <= g <= 2 * pi_double /\ same_turn 42e-12 g (iau1982_gmst (a + b))).
  { intros p q c d P Q C D E. destruct (frac64 lm p c P) as [F1 B1]. destruct (frac64 lm q d Q) as [F2 B2].
    destruct (graw2_64 lm p q _ _ c d _ _ P Q F1 F2 C D B1 B2) as [N M].
    destruct (dranrm_near lm _ _ (4e-11) 40001 N ltac:(lra)) as (g & G1 & G2 & G3). exists g. split; [exact G1|]. split; [exact G2|].
    destruct (gmsta_spec a b) as [_ S]. specialize (S ltac:(apply Rabs_le; lra)). rewrite E in S.
    destruct (dranrm_spec (graw2 (N := RNum) c d (n_fmod (n := RNum) c (n_ofZ 1)) (n_fmod (n := RNum) d (n_ofZ 1)))) as [[k K] _]. destruct G3 as [m G3]. destruct S as [n S].
    eapply same_turn_le; [exact (turns g _ _ _ m n k _ _ G3 S K)|]. lra. }
  rewrite gmsta_graw. cbv zeta. change (n_ltb (n := B64 lm) x y) with (Bltb x y). rewrite (fin_ltb 53 1024 x y a b X Y).
  assert (T : Rlt_bool a b = n_ltb (n := RNum) a b).
  { change (n_ltb (n := RNum) a b) with (Rltb a b). unfold Rltb. destruct (Rlt_bool_spec a b), (Rlt_dec a b); try reflexivity; exfalso; lra. }
  rewrite T. pose proof (gmsta_graw (N := RNum) a b) as E. cbv zeta in E. destruct (n_ltb (n := RNum) a b).
  - exact (G x y a b X Y A B E).
  - exact (G y x b a Y X B A E).
Qed.
