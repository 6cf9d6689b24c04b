(** Nutation (194 terms) in binary64. *)
From Coq Require Import ZArith Reals Bool List Lia Lra Psatz.
From Flocq Require Import Core BinarySingleNaN.
From Verif Require Import Int32 Num NumB NumR M_Angle M_Vec M_Nutc S_Geom S_Frame S_Nut S_Binary S_Float L_Bin L_Flt L_Float.
From Verif Require Import L_Real L_Frame L_Nut L_NutDiff L_FloatVec L_FloatSph L_Err L_ErrT L_FloatTf L_FloatEp L_FloatHor L_FloatEt L_FloatNut.
From Verif Require L_Binary L_Pi.
Import ListNotations.
Open Scope R_scope.

(** ** Code run on expressions, so that loops over tables can be analysed *)
Definition ExNum : Num := MkNum ex Lit EPi E2Pi OfZ Opp Abs Sqrt Sin Cos (fun x => x) (fun x => x) (fun x => x) (fun x => x) (fun x => x) (fun x => x) (fun x => x) (fun x => x)
  Add Sub Mul Div (fun x _ => x) (fun x _ => x) (fun x _ => x) (fun _ _ => true) (fun _ _ => true) (fun _ _ => true) (fun _ => None).
Lemma eval_theta (N : Num) env row angs : L_Err.eval N env (nutc_theta (N := ExNum) row angs) = nutc_theta row (map (L_Err.eval N env) angs).
Proof.
  unfold nutc_theta. revert row. destruct angs as [|a angs]; intros [|r row]; try reflexivity. cbn [combine map fst snd].
  change (L_Err.eval N env (fold_left (fun u v : ex => Add u v) (map (fun p : Z * ex => Mul (OfZ (fst p)) (snd p)) (combine row angs)) (Mul (OfZ r) a)) =
    fold_left (fun u v : N => n_add u v) (map (fun p : Z * N => n_mul (n_ofZ (fst p)) (snd p)) (combine row (map (L_Err.eval N env) angs))) (L_Err.eval N env (Mul (OfZ r) a))).
  generalize (Mul (OfZ r) a) as z. revert angs. induction row as [|r' row IH]; intros [|b angs] z; try reflexivity.
  cbn [combine map fold_left fst snd]. rewrite (IH angs). reflexivity.
Qed.
Lemma eval_nterm (N : Num) env coef c co si : L_Err.eval N env (nutc_term (N := ExNum) coef c co si) = nutc_term coef (L_Err.eval N env c) (L_Err.eval N env co) (L_Err.eval N env si).
Proof. destruct coef as [|c0 [|c1 [|c2 [|c3 [|]]]]]; reflexivity. Qed.
Lemma eval_nseries (N : Num) env c angs table init : L_Err.eval N env (nutc_series (N := ExNum) c angs table init) = nutc_series (L_Err.eval N env c) (map (L_Err.eval N env) angs) table (L_Err.eval N env init).
Proof.
  unfold nutc_series. induction (combine fa_coef table) as [|p l IH]; [reflexivity|]. cbn [fold_right]. cbv zeta. rewrite <- IH.
  set (acc := fold_right _ init l). set (th := nutc_theta (N := ExNum) (fst p) angs).
  change (n_add (L_Err.eval N env acc) (L_Err.eval N env (nutc_term (N := ExNum) (snd p) c (Cos th) (Sin th))) =
    n_add (L_Err.eval N env acc) (nutc_term (snd p) (L_Err.eval N env c) (n_cos (nutc_theta (fst p) (map (L_Err.eval N env) angs))) (n_sin (nutc_theta (fst p) (map (L_Err.eval N env) angs))))).
  rewrite eval_nterm. change (L_Err.eval N env (Cos th)) with (n_cos (L_Err.eval N env th)). change (L_Err.eval N env (Sin th)) with (n_sin (L_Err.eval N env th)).
  unfold th. rewrite eval_theta. reflexivity.
Qed.

(** ** The code, with names *)
Definition nc_A {N : Num} : N := n_lit 4848136811095359935899141 (-30).
Definition nc_D {N : Num} : N := n_lit 1745329251994329576923691 (-26).
Definition nc_p0 {N : Num} (c : N) : N := c *! (n_lit 17179159232178 (-4) +! c *! (n_lit 318792 (-4) +! c *! (n_lit 51635 (-6) +! c *! n_lit (-2447) (-7)))).
Definition nc_p1 {N : Num} (c : N) : N := c *! (n_lit 1295965810481 (-4) +! c *! (n_lit (-5532) (-4) +! c *! (n_lit 136 (-6) +! c *! n_lit (-1149) (-8)))).
Definition nc_p2 {N : Num} (c : N) : N := c *! (n_lit 17395272628478 (-4) +! c *! (n_lit (-127512) (-4) +! c *! (n_lit (-1037) (-6) +! c *! n_lit 417 (-8)))).
Definition nc_p3 {N : Num} (c : N) : N := c *! (n_lit 1602961601209 (-3) +! c *! (n_lit (-63706) (-4) +! c *! (n_lit 6539 (-6) +! c *! n_lit (-3169) (-8)))).
Definition nc_p4 {N : Num} (c : N) : N := c *! (n_lit (-69628905431) (-4) +! c *! (n_lit 74722 (-4) +! c *! (n_lit 7702 (-6) +! c *! n_lit (-5939) (-8)))).
Definition nc_p5 {N : Num} (c : N) : N := n_lit 210664136433548 (-6) *! c.
Definition nc_p6 {N : Num} (c : N) : N := n_lit 68905077493988 (-6) *! c.
Definition nc_p7 {N : Num} (c : N) : N := n_lit 10925660377991 (-6) *! c.
Definition nc_p8 {N : Num} (c : N) : N := n_lit 4399609855732 (-6) *! c.
Definition nc_ang {N : Num} (m e : Z) (x : N) : N := n_lit m e *! nc_D +! x *! nc_A.
Definition nc_red {N : Num} (m e : Z) (x : N) : N := nc_ang m e (n_fmod x (n_ofZ 1296000)).
Definition nc_angles {N : Num} (c : N) : list N :=
  [nc_red 13496340251 (-8) (nc_p0 c); nc_red 35752910918 (-8) (nc_p1 c); nc_red 9327209062 (-8) (nc_p2 c); nc_red 29785019547 (-8) (nc_p3 c); nc_red 12504455501 (-8) (nc_p4 c);
   nc_red 18197980085 (-8) (nc_p5 c); nc_red 35543299958 (-8) (nc_p6 c); nc_red 3435151874 (-8) (nc_p7 c); nc_red 500774443 (-7) (nc_p8 c)].
Lemma args_nc {N : Num} (t : N) : nutc_args t = (n80_c t, nc_angles (n80_c t)).
Proof. reflexivity. Qed.
Definition nc_init {N : Num} (ms : N) : N := n_lit (-1531) (-1) *! n_sin ms -! n_lit 19 (-1) *! n_sin (n_ofZ 2 *! ms).
Definition nc_psi {N : Num} (c dp : N) : N := (dp *! n_lit 1 (-6) -! n_lit 42888 (-6) -! n_lit 29856 (-5) *! c) *! nc_A.
Definition nc_eps {N : Num} (c de : N) : N := (de *! n_lit 1 (-6) -! n_lit 5171 (-6) -! n_lit 2408 (-5) *! c) *! nc_A.
Definition nc_e0 {N : Num} (c : N) : N := (n_lit 84381412 (-3) +! (n_lit (-4680927) (-5) +! (n_lit (-152) (-6) +! (n_lit 19989 (-7) +! (n_lit (-51) (-8) +! n_lit (-25) (-9) *! c) *! c) *! c) *! c) *! c) *! nc_A.
Lemma nutc_nc {N : Num} (t : N) : nutc t = let c := n80_c t in let a := nc_angles c in
  (nc_psi c (nutc_series c a l_psi (nc_init (nth 1 a (n_ofZ 0)))), nc_eps c (nutc_series c a o_eps (n_ofZ 0)), nc_e0 c).
Proof. reflexivity. Qed.

(** ** The polynomials *)
Lemma nc_poly64 lm (x : double) a : value64 x a -> -21505 <= a <= 124594 ->
  let cb := n80_c (N := B64 lm) x in let cr := n80_c (N := RNum) a in
  near 53 1024 cb cr 8e-16 /\
  (near 53 1024 (nc_p0 (N := B64 lm) cb) (nc_p0 (N := RNum) cr) 4e-6 /\ Rabs (nc_p0 (N := RNum) cr) <= 3500000000) /\
  (near 53 1024 (nc_p1 (N := B64 lm) cb) (nc_p1 (N := RNum) cr) 4e-6 /\ Rabs (nc_p1 (N := RNum) cr) <= 3500000000) /\
  (near 53 1024 (nc_p2 (N := B64 lm) cb) (nc_p2 (N := RNum) cr) 4e-6 /\ Rabs (nc_p2 (N := RNum) cr) <= 3500000000) /\
  (near 53 1024 (nc_p3 (N := B64 lm) cb) (nc_p3 (N := RNum) cr) 4e-6 /\ Rabs (nc_p3 (N := RNum) cr) <= 3500000000) /\
  (near 53 1024 (nc_p4 (N := B64 lm) cb) (nc_p4 (N := RNum) cr) 4e-6 /\ Rabs (nc_p4 (N := RNum) cr) <= 3500000000) /\
  (near 53 1024 (nc_p5 (N := B64 lm) cb) (nc_p5 (N := RNum) cr) 4e-6 /\ Rabs (nc_p5 (N := RNum) cr) <= 3500000000) /\
  (near 53 1024 (nc_p6 (N := B64 lm) cb) (nc_p6 (N := RNum) cr) 4e-6 /\ Rabs (nc_p6 (N := RNum) cr) <= 3500000000) /\
  (near 53 1024 (nc_p7 (N := B64 lm) cb) (nc_p7 (N := RNum) cr) 4e-6 /\ Rabs (nc_p7 (N := RNum) cr) <= 3500000000) /\
  (near 53 1024 (nc_p8 (N := B64 lm) cb) (nc_p8 (N := RNum) cr) 4e-6 /\ Rabs (nc_p8 (N := RNum) cr) <= 3500000000) /\
  near 53 1024 (nc_e0 (N := B64 lm) cb) (nc_e0 (N := RNum) cr) 2e-16.
Proof.
  intros X A. pose proof (env1 x a (-21505) 124594 X A) as OK. cbv zeta. unfold nc_p0, nc_p1, nc_p2, nc_p3, nc_p4, nc_p5, nc_p6, nc_p7, nc_p8, nc_e0, nc_A, n80_c.
  repeat match goal with |- _ /\ _ => first [errm0 lm [it (-21505) 124594] [x] [a] OK|split] end; err0 lm [it (-21505) 124594] [x] [a] OK.
Qed.

(** ** One argument, reduced *)
Lemma nc_ang64 lm m e (y : double) v : In (m, e) [(13496340251, -8); (35752910918, -8); (9327209062, -8); (29785019547, -8); (12504455501, -8); (18197980085, -8); (35543299958, -8); (3435151874, -8); (500774443, -7)]%Z ->
  value64 y v -> -1296000 <= v <= 1296000 -> near 53 1024 (nc_ang (N := B64 lm) m e y) (nc_ang (N := RNum) m e v) 6e-15 /\ Rabs (nc_ang (N := RNum) m e v) <= 13.
Proof.
  intros H Y V. pose proof (env1 y v (-1296000) 1296000 Y V) as OK. unfold nc_ang, nc_A, nc_D.
  repeat (destruct H as [H|H]; [injection H as <- <-; errm0 lm [it (-1296000) 1296000] [y] [v] OK|]). destruct H.
Qed.
Lemma fmod64 lm (x : double) v : value64 x v -> value64 (n_fmod (n := B64 lm) x (n_ofZ 1296000)) (Rfmod v 1296000) /\ -1296000 <= Rfmod v 1296000 <= 1296000.
Proof.
  intros X. destruct (fin_fmod 53 1024 x (BofZ 53 1024 1296000) v 1296000 X ltac:(apply (int64 1296000); lia) ltac:(lra)) as [F _].
  change (n_fmod (n := B64 lm) x (n_ofZ 1296000)) with (Bfmod 53 1024 x (BofZ 53 1024 1296000)).
  replace (Rfmod v 1296000) with (v - IZR (Ztrunc (v / 1296000)) * 1296000) by (unfold Rfmod, Rtrunc; ring). split; [exact F|].
  replace (v - IZR (Ztrunc (v / 1296000)) * 1296000) with (Rfmod v 1296000) by (unfold Rfmod, Rtrunc; ring).
  destruct (L_Real.Rfmod_range v 1296000 ltac:(lra)) as [F1 F1']. destruct (Rle_dec 0 v) as [h|h]; [specialize (F1 h)|specialize (F1' ltac:(lra))]; lra.
Qed.
Lemma nc_red_diff m e v p : Rabs (v - p) <= 4e-6 -> Rabs p <= 3500000000 -> anear 20e-12 (nc_red (N := RNum) m e v) (nc_red (N := RNum) m e p).
Proof.
  intros D P. unfold nc_red, nc_ang. change (n_fmod (n := RNum) ?x (n_ofZ 1296000)) with (Rfmod x 1296000). change (n_fmod (n := RNum) p (n_ofZ 1296000)) with (Rfmod p 1296000). change (n_fmod (n := RNum) v (n_ofZ 1296000)) with (Rfmod v 1296000).
  destruct (Rfmod_congr v 1296000) as [j J]. destruct (Rfmod_congr p 1296000) as [k K]. destruct (Rfmod_range v 1296000 ltac:(lra)) as [V1 V2]. destruct (Rfmod_range p 1296000 ltac:(lra)) as [P1 P2].
  set (f := Rfmod v 1296000) in *. set (g := Rfmod p 1296000) in *. set (A := nc_A (N := RNum)). set (C := n_mul (n := RNum) _ (nc_D (N := RNum))).
  change (anear 20e-12 (C + f * A) (C + g * A)). change (car RNum) with R in *.
  assert (FB : -1296000 < f < 1296000) by (destruct (Rle_dec 0 v); [specialize (V1 ltac:(assumption))|specialize (V2 ltac:(lra))]; lra).
  assert (GB : -1296000 < g < 1296000) by (destruct (Rle_dec 0 p); [specialize (P1 ltac:(assumption))|specialize (P2 ltac:(lra))]; lra).
  apply Rabs_le_inv in D. apply Rabs_le_inv in P. exists (k - j)%Z. rewrite minus_IZR. pose proof L_Pi.PI_bounds as PB.
  assert (KB : Rabs (IZR k - IZR j) <= 3) by (apply Rabs_le; lra). apply Rabs_le_inv in KB.
  assert (AE : A = 4848136811095359935899141 / 1000000000000000000000000000000) by (unfold A, nc_A; unR; decs; reflexivity). clearbody A. change (car RNum) with R in *.
  replace (C + f * A - (C + g * A) - (IZR k - IZR j) * (2 * PI)) with ((v - p) * A + (IZR k - IZR j) * (1296000 * A - 2 * PI)) by (replace f with (v - IZR j * 1296000) by lra; replace g with (p - IZR k * 1296000) by lra; ring).
  assert (E1 : Rabs (1296000 * A - 2 * PI) <= 1e-17) by (apply Rabs_le; rewrite AE; lra). apply Rabs_le_inv in E1.
  assert (T1 : -19.9e-12 <= (v - p) * A <= 19.9e-12) by (rewrite AE; lra). assert (T2 : -1e-16 <= (IZR k - IZR j) * (1296000 * A - 2 * PI) <= 1e-16) by nra. apply Rabs_le. lra.
Qed.
Lemma nc_red64 lm m e (x : double) p : In (m, e) [(13496340251, -8); (35752910918, -8); (9327209062, -8); (29785019547, -8); (12504455501, -8); (18197980085, -8); (35543299958, -8); (3435151874, -8); (500774443, -7)]%Z ->
  near 53 1024 x p 4e-6 /\ Rabs p <= 3500000000 -> exists r, value64 (nc_red (N := B64 lm) m e x) r /\ -14 <= r <= 14 /\ anear 21e-12 r (nc_red (N := RNum) m e p).
Proof.
  intros H [(v & F & E) P]. destruct (fmod64 lm x v F) as [FF FB]. destruct (nc_ang64 lm m e _ _ H FF FB) as ((r & FR & ER) & RB). exists r. split; [exact FR|].
  set (z := nc_ang (N := RNum) m e (Rfmod v 1296000)) in *. change (car RNum) with R in *. split; [apply Rabs_le_inv in ER; apply Rabs_le_inv in RB; lra|].
  destruct (nc_red_diff m e v p E P) as [k K]. exists k. change (nc_red (N := RNum) m e v) with z in K. set (w := nc_red (N := RNum) m e p) in *. change (car RNum) with R in *.
  replace (r - w - IZR k * (2 * PI)) with ((r - z) + (z - w - IZR k * (2 * PI))) by ring. eapply Rle_trans; [apply Rabs_triang|]. lra.
Qed.

(** ** The series *)
Definition nc_env : list item := [it (-3) 3; it (-14) 14; it (-14) 14; it (-14) 14; it (-14) 14; it (-14) 14; it (-14) 14; it (-14) 14; it (-14) 14; it (-14) 14].
Definition nc_vars : list ex := [Var 1; Var 2; Var 3; Var 4; Var 5; Var 6; Var 7; Var 8; Var 9].
Definition ex_psi : ex := nc_psi (N := ExNum) (Var 0) (nutc_series (N := ExNum) (Var 0) nc_vars l_psi (nc_init (N := ExNum) (Var 2))).
Definition ex_eps : ex := nc_eps (N := ExNum) (Var 0) (nutc_series (N := ExNum) (Var 0) nc_vars o_eps (OfZ 0)).
Lemma eval_psi (N : Num) c a1 a2 a3 a4 a5 a6 a7 a8 a9 : L_Err.eval N [c; a1; a2; a3; a4; a5; a6; a7; a8; a9] ex_psi = nc_psi c (nutc_series c [a1; a2; a3; a4; a5; a6; a7; a8; a9] l_psi (nc_init a2)).
Proof.
  unfold ex_psi. set (env := [c; a1; a2; a3; a4; a5; a6; a7; a8; a9]). set (s := nutc_series (N := ExNum) _ _ _ _).
  change (nc_psi c (L_Err.eval N env s) = nc_psi c (nutc_series c [a1; a2; a3; a4; a5; a6; a7; a8; a9] l_psi (nc_init a2))). unfold s. rewrite eval_nseries. reflexivity.
Qed.
Lemma eval_eps (N : Num) c a1 a2 a3 a4 a5 a6 a7 a8 a9 : L_Err.eval N [c; a1; a2; a3; a4; a5; a6; a7; a8; a9] ex_eps = nc_eps c (nutc_series c [a1; a2; a3; a4; a5; a6; a7; a8; a9] o_eps (n_ofZ 0)).
Proof.
  unfold ex_eps. set (env := [c; a1; a2; a3; a4; a5; a6; a7; a8; a9]). set (s := nutc_series (N := ExNum) _ _ _ _).
  change (nc_eps c (L_Err.eval N env s) = nc_eps c (nutc_series c [a1; a2; a3; a4; a5; a6; a7; a8; a9] o_eps (n_ofZ 0))). unfold s. rewrite eval_nseries. reflexivity.
Qed.
Definition it_psi : item := Eval vm_compute in match ana KN nc_env ex_psi with Some i => i | None => unit_it end.
Definition it_eps : item := Eval vm_compute in match ana KN nc_env ex_eps with Some i => i | None => unit_it end.
Lemma ana_psi : ana KN nc_env ex_psi = Some it_psi.
Proof. vm_cast_no_check (eq_refl (Some it_psi)). Qed.
Lemma ana_eps : ana KN nc_env ex_eps = Some it_eps.
Proof. vm_cast_no_check (eq_refl (Some it_eps)). Qed.
Lemma nc_series64 lm k (c a1 a2 a3 a4 a5 a6 a7 a8 a9 : double) c' b1 b2 b3 b4 b5 b6 b7 b8 b9 : libm_ok lm k -> k <= 1e-15 ->
  okenv nc_env [c; a1; a2; a3; a4; a5; a6; a7; a8; a9] [c'; b1; b2; b3; b4; b5; b6; b7; b8; b9] ->
  near 53 1024 (nc_psi (N := B64 lm) c (nutc_series (N := B64 lm) c [a1; a2; a3; a4; a5; a6; a7; a8; a9] l_psi (nc_init (N := B64 lm) a2)))
    (nc_psi (N := RNum) c' (nutc_series (N := RNum) c' [b1; b2; b3; b4; b5; b6; b7; b8; b9] l_psi (nc_init (N := RNum) b2))) 2e-18 /\
  near 53 1024 (nc_eps (N := B64 lm) c (nutc_series (N := B64 lm) c [a1; a2; a3; a4; a5; a6; a7; a8; a9] o_eps (n_ofZ 0)))
    (nc_eps (N := RNum) c' (nutc_series (N := RNum) c' [b1; b2; b3; b4; b5; b6; b7; b8; b9] o_eps (n_ofZ 0))) 1e-18.
Proof.
  intros L K OK. assert (HK : k <= V KN) by (pose proof KN_ok; lra).
  rewrite <- !eval_psi, <- !eval_eps. split.
  - apply okk_near with it_psi; [exact (ana_sound lm k KN L HK nc_env _ _ OK ex_psi it_psi ana_psi)|reflexivity|vm_compute; reflexivity].
  - apply okk_near with it_eps; [exact (ana_sound lm k KN L HK nc_env _ _ OK ex_eps it_eps ana_eps)|reflexivity|vm_compute; reflexivity].
Qed.

(** ** The series moves little when its arguments do *)
Definition wt9 (row : list Z) : Z := fold_right (fun r s => Z.abs r + s)%Z 0%Z row.
Lemma wt9_pos row : 0 <= IZR (wt9 row).
Proof. apply IZR_le. induction row as [|r row IH]; cbn [wt9 fold_right]; [lia|]. fold (wt9 row). lia. Qed.
Lemma theta9 e row a b : length row = 9%nat -> length a = 9%nat -> Forall2 (anear e) a b -> anear (IZR (wt9 row) * e) (nutc_theta (N := RNum) row a) (nutc_theta (N := RNum) row b).
Proof.
  intros L M H. do 10 (destruct row as [|? row]; try discriminate). do 10 (destruct a as [|? a]; try discriminate).
  repeat match goal with H : Forall2 _ (_ :: _) _ |- _ => inversion H; subst; clear H | H : Forall2 _ [] _ |- _ => inversion H; subst; clear H end.
  unfold nutc_theta. cbn [combine map fold_left fst snd wt9 fold_right]. rewrite !plus_IZR, Rplus_0_r, !Rmult_plus_distr_r, <- !Rplus_assoc.
  repeat apply anear_add; apply (anear_mul e); assumption.
Qed.
Definition zc (p : list Z * list Z) : Z := let '(row, coef) := p in ((Z.abs (nth 0 coef 0) + Z.abs (nth 1 coef 0) + 3 * (Z.abs (nth 2 coef 0) + Z.abs (nth 3 coef 0))) * wt9 row)%Z.
Definition zt (p : list Z * list Z) : Z := let '(row, coef) := p in (Z.abs (nth 2 coef 0) + Z.abs (nth 3 coef 0))%Z.
Definition len_ok (p : list Z * list Z) : bool := (Nat.eqb (length (fst p)) 9 && Nat.eqb (length (snd p)) 4)%bool.
Lemma lin_lip a b t t' s s' w e g : 0 <= e -> 0 <= w -> Rabs t' <= 3 -> Rabs s <= 1 -> Rabs (t' - t) <= g -> Rabs (s' - s) <= w * e ->
  Rabs ((a / 10 + b / 10 * t') * s' - (a / 10 + b / 10 * t) * s) <= (Rabs a + 3 * Rabs b) * w * (e / 10) + Rabs b * (g / 10).
Proof.
  intros E W T S G D. replace ((a / 10 + b / 10 * t') * s' - (a / 10 + b / 10 * t) * s) with ((a / 10 + b / 10 * t') * (s' - s) + b / 10 * (t' - t) * s) by field.
  eapply Rle_trans; [apply Rabs_triang|]. rewrite !Rabs_mult. apply Rplus_le_compat.
  - assert (Q : Rabs (a / 10 + b / 10 * t') <= (Rabs a + 3 * Rabs b) / 10).
    { eapply Rle_trans; [apply Rabs_triang|]. rewrite Rabs_mult. unfold Rdiv. rewrite !Rabs_mult, (Rabs_pos_eq (/ 10)) by lra. pose proof (Rabs_pos b). nra. }
    pose proof (Rmult_le_compat _ _ _ _ (Rabs_pos _) (Rabs_pos _) Q D). lra.
  - unfold Rdiv. rewrite Rabs_mult, (Rabs_pos_eq (/ 10)) by lra. pose proof (Rabs_pos b). pose proof (Rabs_pos (t' - t)). pose proof (Rabs_pos s).
    assert (Rabs (t' - t) * Rabs s <= g) by nra. replace (Rabs b * / 10 * Rabs (t' - t) * Rabs s) with (Rabs b * / 10 * (Rabs (t' - t) * Rabs s)) by ring.
    replace (Rabs b * (g * / 10)) with (Rabs b * / 10 * g) by ring. apply Rmult_le_compat_l; lra.
Qed.
Lemma nterm_lip coef t t' c c' s s' w e g : length coef = 4%nat -> 0 <= e -> 0 <= w -> Rabs t' <= 3 -> Rabs c <= 1 -> Rabs s <= 1 -> Rabs (t' - t) <= g -> Rabs (c' - c) <= w * e -> Rabs (s' - s) <= w * e ->
  Rabs (nutc_term (N := RNum) coef t' c' s' - nutc_term (N := RNum) coef t c s) <=
  (Rabs (IZR (nth 0 coef 0%Z)) + Rabs (IZR (nth 1 coef 0%Z)) + 3 * (Rabs (IZR (nth 2 coef 0%Z)) + Rabs (IZR (nth 3 coef 0%Z)))) * w * (e / 10) + (Rabs (IZR (nth 2 coef 0%Z)) + Rabs (IZR (nth 3 coef 0%Z))) * (g / 10).
Proof.
  intros LC E W T C S G DC DS. destruct coef as [|c0 [|c1 [|c2 [|c3 [|]]]]]; try discriminate. cbn [nth].
  assert (DEF : forall t c s : R, nutc_term (N := RNum) [c0; c1; c2; c3] t c s = (IZR c0 / 10 + IZR c2 / 10 * t) * c + (IZR c1 / 10 + IZR c3 / 10 * t) * s)
    by (intros; unfold nutc_term; unR; cbn [Rdec]; change (Z.pow_pos 10 1) with 10%Z; reflexivity).
  rewrite !DEF. clear DEF LC.
  pose proof (lin_lip (IZR c0) (IZR c2) t t' c c' w e g E W T C G DC) as P. pose proof (lin_lip (IZR c1) (IZR c3) t t' s s' w e g E W T S G DS) as Q.
  match type of P with Rabs ?x <= _ => match type of Q with Rabs ?y <= _ => match goal with |- Rabs ?z <= _ => replace z with (x + y) by ring end end end.
  eapply Rle_trans; [apply Rabs_triang|]. lra.
Qed.
Lemma nseries_lip table e g t t' a b i i' : forallb len_ok (combine fa_coef table) = true -> length a = 9%nat -> 0 <= e -> Rabs t' <= 3 -> Rabs (t' - t) <= g -> Forall2 (anear e) a b ->
  Rabs (nutc_series (N := RNum) t' a table i' - nutc_series (N := RNum) t b table i) <= Rabs (i' - i) + (IZR (zfold zc (combine fa_coef table)) * (e / 10) + IZR (zfold zt (combine fa_coef table)) * (g / 10)).
Proof.
  unfold nutc_series. intros OK M E T G H. induction (combine fa_coef table) as [|[row coef] l IH].
  - cbn [fold_right zfold]. lra.
  - cbn [forallb] in OK. apply andb_true_iff in OK as [O OK]. specialize (IH OK). unfold len_ok in O. cbn [fst snd] in O. apply andb_true_iff in O as [O1 O2].
    apply Nat.eqb_eq in O1. apply Nat.eqb_eq in O2. cbn [fold_right fst snd]. cbv zeta.
    set (X := fold_right _ i' l) in *. set (Y := fold_right _ i l) in *. 
    change (zfold zc ((row, coef) :: l)) with (zc (row, coef) + zfold zc l)%Z. change (zfold zt ((row, coef) :: l)) with (zt (row, coef) + zfold zt l)%Z. rewrite !plus_IZR.
    pose proof (theta9 e row a b O1 M H) as TH. set (th := nutc_theta (N := RNum) row a) in *. set (ph := nutc_theta (N := RNum) row b) in *.
    pose proof (nterm_lip coef t t' (cos ph) (cos th) (sin ph) (sin th) (IZR (wt9 row)) e g O2 E (wt9_pos row) T (cos_abs1 _) (sin_abs1 _) G (anear_cos _ _ _ TH) (anear_sin _ _ _ TH)) as D.
    assert (Z1 : IZR (zc (row, coef)) = (Rabs (IZR (nth 0 coef 0%Z)) + Rabs (IZR (nth 1 coef 0%Z)) + 3 * (Rabs (IZR (nth 2 coef 0%Z)) + Rabs (IZR (nth 3 coef 0%Z)))) * IZR (wt9 row))
      by (unfold zc; rewrite mult_IZR, !plus_IZR, mult_IZR, plus_IZR, !abs_IZR; reflexivity).
    assert (Z2 : IZR (zt (row, coef)) = Rabs (IZR (nth 2 coef 0%Z)) + Rabs (IZR (nth 3 coef 0%Z))) by (unfold zt; rewrite plus_IZR, !abs_IZR; reflexivity).
    rewrite Z1, Z2. change (n_cos (n := RNum)) with cos. change (n_sin (n := RNum)) with sin. set (U := nutc_term (N := RNum) coef t' _ _) in *. set (V := nutc_term (N := RNum) coef t _ _) in *.
    change (n_add (n := RNum)) with Rplus. change (car RNum) with R in *.
    replace (X + U - (Y + V)) with ((X - Y) + (U - V)) by ring. eapply Rle_trans; [apply Rabs_triang|]. lra.
Qed.
Lemma zc_sums : forallb len_ok (combine fa_coef l_psi) = true /\ forallb len_ok (combine fa_coef o_eps) = true /\
  (zfold zc (combine fa_coef l_psi) <= 300000000)%Z /\ (zfold zt (combine fa_coef l_psi) <= 200000)%Z /\ (zfold zc (combine fa_coef o_eps) <= 150000000)%Z /\ (zfold zt (combine fa_coef o_eps) <= 200000)%Z.
Proof. repeat split; vm_compute; try reflexivity; discriminate. Qed.

(** ** The whole routine *)
Lemma nutc_64 lm k (x : double) a : libm_ok lm k -> k <= 1e-15 -> value64 x a -> -21505 <= a <= 124594 ->
  exists psi eps eps0, let r := nutc (N := B64 lm) x in let r' := nutc (N := RNum) a in
  value64 (fst (fst r)) psi /\ value64 (snd (fst r)) eps /\ value64 (snd r) eps0 /\
  Rabs (psi - fst (fst r')) <= 4e-15 /\ Rabs (eps - snd (fst r')) <= 2e-15 /\ Rabs (eps0 - snd r') <= 2e-16.
Proof.
  intros L K X A. pose proof (nc_poly64 lm x a X A) as PL. cbv zeta in PL. destruct PL as ((c & FC & EC) & P0 & P1 & P2 & P3 & P4 & P5 & P6 & P7 & P8 & (e0 & FE & EE)).
  destruct (nc_red64 lm 13496340251 (-8) _ _ ltac:(cbn; tauto) P0) as (r0 & F0 & B0 & A0). destruct (nc_red64 lm 35752910918 (-8) _ _ ltac:(cbn; tauto) P1) as (r1 & F1 & B1 & A1).
  destruct (nc_red64 lm 9327209062 (-8) _ _ ltac:(cbn; tauto) P2) as (r2 & F2 & B2 & A2). destruct (nc_red64 lm 29785019547 (-8) _ _ ltac:(cbn; tauto) P3) as (r3 & F3 & B3 & A3).
  destruct (nc_red64 lm 12504455501 (-8) _ _ ltac:(cbn; tauto) P4) as (r4 & F4 & B4 & A4). destruct (nc_red64 lm 18197980085 (-8) _ _ ltac:(cbn; tauto) P5) as (r5 & F5 & B5 & A5).
  destruct (nc_red64 lm 35543299958 (-8) _ _ ltac:(cbn; tauto) P6) as (r6 & F6 & B6 & A6). destruct (nc_red64 lm 3435151874 (-8) _ _ ltac:(cbn; tauto) P7) as (r7 & F7 & B7 & A7).
  destruct (nc_red64 lm 500774443 (-7) _ _ ltac:(cbn; tauto) P8) as (r8 & F8 & B8 & A8). clear P0 P1 P2 P3 P4 P5 P6 P7 P8.
  set (T := n80_c (N := RNum) a) in *. assert (TB : -2 <= T <= 2) by (unfold T; rewrite (proj1 (n80_R a)); unfold centuries_J2000; lra).
  assert (CB : -3 <= c <= 3) by (apply Rabs_le_inv in EC; change (car RNum) with R in *; lra).
  assert (OK : okenv nc_env (n80_c (N := B64 lm) x :: nc_angles (N := B64 lm) (n80_c (N := B64 lm) x)) [c; r0; r1; r2; r3; r4; r5; r6; r7; r8])
    by (unfold nc_env, nc_angles; repeat (split; [now apply okk_in|]); exact Logic.I).
  destruct (nc_series64 lm k _ _ _ _ _ _ _ _ _ _ _ _ _ _ _ _ _ _ _ _ L K OK) as ((psi & FP & EP) & (eps & FEp & EEp)). 
  exists psi, eps, e0. cbv zeta. rewrite !nutc_nc. cbv zeta. cbn [fst snd]. fold T. split; [exact FP|]. split; [exact FEp|]. split; [exact FE|].
  assert (FA : Forall2 (anear 21e-12) [r0; r1; r2; r3; r4; r5; r6; r7; r8] (nc_angles (N := RNum) T)) by (unfold nc_angles; repeat (constructor; [assumption|]); constructor).
  assert (C3 : Rabs c <= 3) by (apply Rabs_le; lra). destruct zc_sums as (O1 & O2 & Z1 & Z2 & Z3 & Z4). apply IZR_le in Z1, Z2, Z3, Z4.
  set (m := nth 1 (nc_angles (N := RNum) T) (n_ofZ 0)).
  pose proof (nseries_lip l_psi 21e-12 8e-16 T c [r0; r1; r2; r3; r4; r5; r6; r7; r8] (nc_angles (N := RNum) T) (nc_init (N := RNum) m) (nc_init (N := RNum) r1) O1 eq_refl ltac:(lra) C3 EC FA) as D1.
  pose proof (nseries_lip o_eps 21e-12 8e-16 T c [r0; r1; r2; r3; r4; r5; r6; r7; r8] (nc_angles (N := RNum) T) (n_ofZ (n := RNum) 0) (n_ofZ (n := RNum) 0) O2 eq_refl ltac:(lra) C3 EC FA) as D2.
  assert (DI : Rabs (nc_init (N := RNum) r1 - nc_init (N := RNum) m) <= 200 * 21e-12).
  { assert (AM : anear 21e-12 r1 m) by exact A1. pose proof (anear_sin _ _ _ AM) as S1. pose proof (anear_sin _ _ _ (anear_mul _ 2 _ _ AM)) as S2. change (Z.abs 2) with 2%Z in S2.
    unfold nc_init. unR. decs. apply Rabs_le_inv in S1. apply Rabs_le_inv in S2. apply Rabs_le. lra. }
  replace (n_ofZ (n := RNum) 0 - n_ofZ (n := RNum) 0) with 0 in D2 by (change (n_ofZ (n := RNum) 0) with 0; ring). rewrite Rabs_R0 in D2.
  set (s1 := nutc_series (N := RNum) T _ l_psi _) in *. set (s1' := nutc_series (N := RNum) c _ l_psi _) in *. set (s2 := nutc_series (N := RNum) T _ o_eps _) in *. set (s2' := nutc_series (N := RNum) c _ o_eps _) in *.
  assert (N1 : Rabs (s1' - s1) <= 0.0007) by lra. assert (N2 : Rabs (s2' - s2) <= 0.00033) by lra. clear D1 D2 DI.
  clearbody s1 s1' s2 s2'. unfold nc_psi, nc_eps, nc_A in *. change (n_mul (n := RNum)) with Rmult in *. change (n_sub (n := RNum)) with Rminus in *. change (car RNum) with R in *.
  apply Rabs_le_inv in N1. apply Rabs_le_inv in N2. apply Rabs_le_inv in EC. apply Rabs_le_inv in EP. apply Rabs_le_inv in EEp.
  split; [|split; [|exact EE]]; apply Rabs_le.
  - revert EP. unR. decs. intros EP. lra.
  - revert EEp. unR. decs. intros EEp. lra.
Qed.
