(** Forward rounding-error analysis of straight-line binary64 code: expressions,
    an analyser computing with integers (fixed point, 128 binary places), and its
    soundness. *)
From Coq Require Import ZArith Reals Bool List Lia Lra Psatz.
From Flocq Require Import Core BinarySingleNaN Relative.
From Verif Require Import Int32 Num NumB NumR S_Binary S_Float L_Bin L_Flt L_FltVec L_Float L_FloatVec L_Pi L_Trig.
Import ListNotations.
Open Scope R_scope.

Inductive ex : Set :=
| Var (i : nat) | Lit (m e : Z) | OfZ (z : Z) | EPi | E2Pi
| Opp (a : ex) | Abs (a : ex) | Sqrt (a : ex) | Sin (a : ex) | Cos (a : ex)
| Add (a b : ex) | Sub (a b : ex) | Mul (a b : ex) | Div (a b : ex).

Fixpoint eval (N : Num) (env : list N) (e : ex) : N :=
  match e with
  | Var i => nth i env (n_ofZ 0)
  | Lit m x => n_lit m x
  | OfZ z => n_ofZ z
  | EPi => n_pi
  | E2Pi => n_2pi
  | Opp a => n_opp (eval N env a)
  | Abs a => n_abs (eval N env a)
  | Sqrt a => n_sqrt (eval N env a)
  | Sin a => n_sin (eval N env a)
  | Cos a => n_cos (eval N env a)
  | Add a b => n_add (eval N env a) (eval N env b)
  | Sub a b => n_sub (eval N env a) (eval N env b)
  | Mul a b => n_mul (eval N env a) (eval N env b)
  | Div a b => n_div (eval N env a) (eval N env b)
  end.

Definition Sc : Z := 2 ^ 128.
(** Division by [Sc] and by 2^53, rounding down or up. *)
Definition fS (a : Z) : Z := Z.shiftr a 128.
Definition cS (a : Z) : Z := (- Z.shiftr (- a) 128)%Z.
Definition c53 (a : Z) : Z := (- Z.shiftr (- a) 53)%Z.
Definition V (z : Z) : R := IZR z / IZR Sc.
Definition cdiv (a b : Z) : Z := - ((- a) / b).
Record item := It { lo : Z; hi : Z; er : Z }.
Definition mag (i : item) : Z := Z.max (Z.abs (lo i)) (Z.abs (hi i)).
Definition BIG : Z := 2 ^ 330.
Definition R53 : Z := 9007199254740992.

(** Rounding of a result with exact value in [l, h] and propagated error [e];
    [m] bounds the size of the exact value. *)
Definition rounded (l h m e : Z) : option item :=
  if (m + e <=? BIG)%Z then Some (It l h (e + c53 (m + e) + 1)) else None.

Section Ana.
Context (K : Z).
Definition a_opp (a : item) : item := It (- hi a) (- lo a) (er a).
Definition a_abs (a : item) : item := It 0 (mag a) (er a).
Definition a_add (a b : item) : option item :=
  let l := (lo a + lo b)%Z in let h := (hi a + hi b)%Z in
  rounded l h (Z.max (Z.abs l) (Z.abs h)) (er a + er b).
Definition a_sub (a b : item) : option item := a_add a (a_opp b).
Definition a_mul (a b : item) : option item :=
  let p := (lo a * lo b)%Z in let q := (lo a * hi b)%Z in let r := (hi a * lo b)%Z in let s := (hi a * hi b)%Z in
  let l := fS (Z.min (Z.min p q) (Z.min r s)) in let h := cS (Z.max (Z.max p q) (Z.max r s)) in
  rounded l h (cS (mag a * mag b)) (cS (mag a * er b + mag b * er a + er a * er b)).
Definition a_div (a b : item) : option item :=
  if (0 <? lo b - er b)%Z then
    let m := cdiv (mag a * Sc) (lo b) in
    let e := cdiv (er a * Sc + m * er b) (lo b - er b) in
    if (0 <=? lo a)%Z then rounded (lo a * Sc / hi b) m m e else rounded (- m) m m e
  else None.
Definition a_sqrt (a : item) : option item :=
  if (0 <? lo a)%Z && (er a <? lo a)%Z then
    let l := Z.sqrt (lo a * Sc) in let h := (Z.sqrt (hi a * Sc) + 1)%Z in
    if (0 <? l)%Z then rounded l h h (cdiv (er a * Sc) l) else None
  else None.
Definition a_trig (a : item) : item := It (- Sc) Sc (er a + K).
Definition a_lit (m e : Z) : option item :=
  let n := (m * Sc * 10 ^ Z.max e 0)%Z in let d := (10 ^ Z.max (- e) 0)%Z in
  let l := (n / d)%Z in let h := if (l * d =? n)%Z then l else (l + 1)%Z in
  rounded l h (Z.max (Z.abs l) (Z.abs h)) 0.
Definition a_pi : item := It 1069028584064966747859665610596836749231 1069028584064966747859699638833528843078 136112946768375385385349.
Definition a_2pi : item := It 2138057168129933495719331221193673498462 2138057168129933495719399277667057686156 272225893536750770770699.
Definition bind2 (f : item -> item -> option item) (a b : option item) : option item :=
  match a, b with Some x, Some y => f x y | _, _ => None end.
Fixpoint ana (env : list item) (e : ex) : option item :=
  match e with
  | Var i => nth_error env i
  | Lit m x => a_lit m x
  | OfZ z => if (Z.abs z <? 2 ^ 53)%Z then Some (It (z * Sc) (z * Sc) 0) else None
  | EPi => Some a_pi
  | E2Pi => Some a_2pi
  | Opp a => option_map a_opp (ana env a)
  | Abs a => option_map a_abs (ana env a)
  | Sqrt a => match ana env a with Some x => a_sqrt x | None => None end
  | Sin a | Cos a => option_map a_trig (ana env a)
  | Add a b => bind2 a_add (ana env a) (ana env b)
  | Sub a b => bind2 a_sub (ana env a) (ana env b)
  | Mul a b => bind2 a_mul (ana env a) (ana env b)
  | Div a b => bind2 a_div (ana env a) (ana env b)
  end.
End Ana.

(** ** Soundness *)
Lemma Sc_pos : 0 < IZR Sc. Proof. apply IZR_lt. reflexivity. Qed.
Lemma Vz a b : (a <= b)%Z -> V a <= V b.
Proof. intros H. unfold V. apply Rmult_le_compat_r; [apply Rlt_le, Rinv_0_lt_compat, Sc_pos|]. now apply IZR_le. Qed.
Lemma V_lt a b : (a < b)%Z -> V a < V b.
Proof. intros H. unfold V. apply Rmult_lt_compat_r; [apply Rinv_0_lt_compat, Sc_pos|]. now apply IZR_lt. Qed.
Lemma V_add a b : V (a + b) = V a + V b. Proof. unfold V. rewrite plus_IZR. field. apply Rgt_not_eq, Sc_pos. Qed.
Lemma V_sub a b : V (a - b) = V a - V b. Proof. unfold V. rewrite minus_IZR. field. apply Rgt_not_eq, Sc_pos. Qed.
Lemma V_opp a : V (- a) = - V a. Proof. unfold V. rewrite opp_IZR. field. apply Rgt_not_eq, Sc_pos. Qed.
Lemma V_0 : V 0 = 0. Proof. unfold V. unfold Rdiv. ring. Qed.
Lemma V_Sc z : V (z * Sc) = IZR z. Proof. unfold V. rewrite mult_IZR. field. apply Rgt_not_eq, Sc_pos. Qed.
Lemma V_abs a : V (Z.abs a) = Rabs (V a).
Proof. unfold V, Rdiv. rewrite Rabs_mult, (Rabs_pos_eq (/ _)) by (apply Rlt_le, Rinv_0_lt_compat, Sc_pos). now rewrite abs_IZR. Qed.
Lemma cdiv_ge a b : (0 < b)%Z -> IZR a / IZR b <= IZR (cdiv a b).
Proof.
  intros B. unfold cdiv. assert (P : 0 < IZR b) by now apply IZR_lt.
  apply Rmult_le_reg_r with (IZR b); [exact P|]. unfold Rdiv. rewrite Rmult_assoc, Rinv_l, Rmult_1_r by lra. rewrite <- mult_IZR. apply IZR_le.
  pose proof (Z.div_mod (- a) b ltac:(lia)). pose proof (Z.mod_pos_bound (- a) b B). nia.
Qed.
Lemma fdiv_le a b : (0 < b)%Z -> IZR (a / b) <= IZR a / IZR b.
Proof.
  intros B. assert (P : 0 < IZR b) by now apply IZR_lt.
  apply Rmult_le_reg_r with (IZR b); [exact P|]. unfold Rdiv. rewrite Rmult_assoc, Rinv_l, Rmult_1_r by lra. rewrite <- mult_IZR. apply IZR_le.
  pose proof (Z.div_mod a b ltac:(lia)). pose proof (Z.mod_pos_bound a b B). nia.
Qed.
Lemma V_mul a b : V a * V b = IZR (a * b) / IZR Sc / IZR Sc.
Proof. unfold V. rewrite mult_IZR. field. apply Rgt_not_eq, Sc_pos. Qed.
Lemma fS_div a : fS a = (a / Sc)%Z. Proof. unfold fS. now rewrite Z.shiftr_div_pow2. Qed.
Lemma cS_div a : cS a = cdiv a Sc. Proof. unfold cS, cdiv. now rewrite Z.shiftr_div_pow2. Qed.
Lemma c53_div a : c53 a = cdiv a R53. Proof. unfold c53, cdiv. now rewrite Z.shiftr_div_pow2. Qed.
Lemma V_cmul a b : V a * V b <= V (cS (a * b)).
Proof.
  rewrite cS_div.
  rewrite V_mul. unfold V at 1. apply Rmult_le_compat_r; [apply Rlt_le, Rinv_0_lt_compat, Sc_pos|]. apply cdiv_ge. reflexivity.
Qed.
Lemma V_fmul a b : V (a * b / Sc) <= V a * V b.
Proof.
  rewrite V_mul. unfold V at 1. apply Rmult_le_compat_r; [apply Rlt_le, Rinv_0_lt_compat, Sc_pos|]. apply fdiv_le. reflexivity.
Qed.
Lemma V_cdiv a b : (0 < b)%Z -> V a / V b <= V (cdiv (a * Sc) b).
Proof.
  intros B. assert (P : 0 < IZR b) by now apply IZR_lt. pose proof Sc_pos.
  replace (V a / V b) with (IZR (a * Sc) / IZR b / IZR Sc) by (unfold V; rewrite mult_IZR; field; lra).
  unfold V. apply Rmult_le_compat_r; [apply Rlt_le, Rinv_0_lt_compat, Sc_pos|]. now apply cdiv_ge.
Qed.
Lemma V_fdiv a b : (0 < b)%Z -> V (a * Sc / b) <= V a / V b.
Proof.
  intros B. assert (P : 0 < IZR b) by now apply IZR_lt. pose proof Sc_pos.
  replace (V a / V b) with (IZR (a * Sc) / IZR b / IZR Sc) by (unfold V; rewrite mult_IZR; field; lra).
  unfold V. apply Rmult_le_compat_r; [apply Rlt_le, Rinv_0_lt_compat, Sc_pos|]. now apply fdiv_le.
Qed.
Lemma V_u m : u64 * V m <= V (c53 m).
Proof.
  rewrite c53_div.
  replace (u64 * V m) with (IZR m / IZR R53 / IZR Sc).
  - unfold V. apply Rmult_le_compat_r; [apply Rlt_le, Rinv_0_lt_compat, Sc_pos|]. apply cdiv_ge. reflexivity.
  - unfold V. rewrite u64_num. unfold R53. field. apply Rgt_not_eq, Sc_pos.
Qed.
Lemma eta_V1 : eta 53 1024 <= V 1.
Proof.
  pose proof eta64. pose proof (eta_pos 53 1024). assert (1e-323 <= V 1); [|lra].
  unfold V. change 1e-323 with (1 / IZR (10 ^ 323)). unfold Rdiv. rewrite !Rmult_1_l.
  apply Rinv_le_contravar; [apply Sc_pos|]. apply IZR_le, Z.leb_le. vm_compute. reflexivity.
Qed.
Lemma BIG_huge m : (m <= BIG)%Z -> V m <= huge 1024 / 4.
Proof.
  intros H. apply Rle_trans with 1e61.
  - apply Rle_trans with (V BIG); [now apply Vz|]. unfold V. change 1e61 with (1 * IZR (10 ^ 61)). 
    replace (IZR BIG) with (IZR (2 ^ 202) * IZR Sc) by (rewrite <- mult_IZR; apply f_equal; reflexivity).
    unfold Rdiv. rewrite Rmult_assoc, Rinv_r, Rmult_1_r, Rmult_1_l by (apply Rgt_not_eq, Sc_pos). apply IZR_le, Z.leb_le. vm_compute. reflexivity.
  - pose proof huge64. assert (1e61 * 4 <= 4e307); [|lra]. 
    replace (1e61 * 4) with (IZR (4 * 10 ^ 61)) by (rewrite mult_IZR; change 1e61 with (1 * IZR (10 ^ 61)); ring).
    replace 4e307 with (IZR (4 * 10 ^ 307)) by (rewrite mult_IZR; reflexivity). apply IZR_le, Z.leb_le. vm_compute. reflexivity.
Qed.

Definition okk (i : item) (x : double) (a : R) : Prop := near 53 1024 x a (V (er i)) /\ V (lo i) <= a <= V (hi i).
Lemma okk_er i x a : okk i x a -> 0 <= V (er i).
Proof. intros ((r & _ & E) & _). pose proof (Rabs_pos (r - a)). lra. Qed.
Lemma okk_mag i x a : okk i x a -> Rabs a <= V (mag i).
Proof.
  intros (_ & A & B). unfold mag. pose proof (Vz _ _ (Z.le_max_l (Z.abs (lo i)) (Z.abs (hi i)))) as P.
  pose proof (Vz _ _ (Z.le_max_r (Z.abs (lo i)) (Z.abs (hi i)))) as Q. rewrite !V_abs in P, Q.
  apply Rabs_le. apply Rabs_le_inv in P. apply Rabs_le_inv in Q. lra.
Qed.
(** Values rounded from something within [V e] of [a]. *)
Lemma rounded_ok l h m e i x r a : rounded l h m e = Some i -> V l <= a <= V h -> Rabs a <= V m -> Rabs (r - a) <= V e ->
  (Rabs (rnd 53 1024 r) < top 1024 -> fin 53 1024 x (rnd 53 1024 r)) -> okk i x a.
Proof.
  unfold rounded. destruct (Z.leb_spec (m + e) BIG) as [H|]; [|discriminate]. intros E R M D F. injection E as <-.
  pose proof (BIG_huge _ H) as B. rewrite V_add in B. pose proof (huge_pos 1024).
  destruct (near_rnd 53 1024 r a (V e) (V m) D M ltac:(lra)) as (T & Q). split; [|exact R]. exists (rnd 53 1024 r). split; [now apply F|].
  cbn [er]. rewrite !V_add. rewrite u64_eq in Q. pose proof (V_u (m + e)) as U. rewrite V_add in U. pose proof eta_V1. lra.
Qed.

Section Sound.
Context (lm : libm 53 1024) (k : R) (K : Z) (L : libm_ok lm k) (HK : k <= V K).
Lemma opp_ok i x a : okk i x a -> okk (a_opp i) (Bopp x) (- a).
Proof. intros (N & R). split; [exact (near_opp 53 1024 _ _ _ N)|]. cbn [a_opp lo hi]. rewrite !V_opp. lra. Qed.
Lemma abs_ok i x a : okk i x a -> okk (a_abs i) (Babs x) (Rabs a).
Proof.
  intros O. pose proof (okk_mag _ _ _ O) as M. destruct O as ((r & F & E) & R). split.
  - exists (Rabs r). split; [now apply fin_abs|]. cbn [a_abs er]. eapply Rle_trans; [apply Rabs_triang_inv2|exact E].
  - cbn [a_abs lo hi]. rewrite V_0. split; [apply Rabs_pos|exact M].
Qed.
Lemma add_ok i j n x y a b : a_add i j = Some n -> okk i x a -> okk j y b -> okk n (Bplus mode_NE x y) (a + b).
Proof.
  unfold a_add. intros E ((r & FX & EX) & RX) ((s & FY & EY) & RY).
  apply (rounded_ok _ _ _ _ _ _ (r + s) _ E).
  - rewrite !V_add. lra.
  - assert (A : V (lo i + lo j) <= a + b <= V (hi i + hi j)) by (rewrite !V_add; lra).
    pose proof (Vz _ _ (Z.le_max_l (Z.abs (lo i + lo j)) (Z.abs (hi i + hi j)))) as P.
    pose proof (Vz _ _ (Z.le_max_r (Z.abs (lo i + lo j)) (Z.abs (hi i + hi j)))) as Q. rewrite !V_abs in P, Q.
    apply Rabs_le. apply Rabs_le_inv in P. apply Rabs_le_inv in Q. lra.
  - rewrite V_add. replace (r + s - (a + b)) with ((r - a) + (s - b)) by ring. eapply Rle_trans; [apply Rabs_triang|lra].
  - intros T. now apply fin_add.
Qed.
Lemma sub_ok i j n x y a b : a_sub i j = Some n -> okk i x a -> okk j y b -> okk n (Bminus mode_NE x y) (a - b).
Proof.
  unfold a_sub, a_add, a_opp. cbn [lo hi er]. intros E ((r & FX & EX) & RX) ((s & FY & EY) & RY).
  assert (A : V (lo i + - hi j) <= a - b <= V (hi i + - lo j)) by (rewrite !V_add, !V_opp; lra).
  apply (rounded_ok _ _ _ _ _ _ (r - s) _ E).
  - exact A.
  - pose proof (Vz _ _ (Z.le_max_l (Z.abs (lo i + - hi j)) (Z.abs (hi i + - lo j)))) as P.
    pose proof (Vz _ _ (Z.le_max_r (Z.abs (lo i + - hi j)) (Z.abs (hi i + - lo j)))) as Q. rewrite !V_abs in P, Q.
    apply Rabs_le. apply Rabs_le_inv in P. apply Rabs_le_inv in Q. lra.
  - rewrite V_add. replace (r - s - (a - b)) with ((r - a) + - (s - b)) by ring. eapply Rle_trans; [apply Rabs_triang|rewrite Rabs_Ropp; lra].
  - intros T. now apply fin_sub.
Qed.
Lemma prod_range a b p q r s : p <= a <= q -> r <= b <= s ->
  Rmin (Rmin (p * r) (p * s)) (Rmin (q * r) (q * s)) <= a * b <= Rmax (Rmax (p * r) (p * s)) (Rmax (q * r) (q * s)).
Proof.
  intros A B. assert (C : Rmin (a * r) (a * s) <= a * b <= Rmax (a * r) (a * s)).
  { unfold Rmin, Rmax. destruct (Rle_dec (a * r) (a * s)), (Rle_or_lt 0 a); nra. }
  assert (D : forall w, Rmin (p * w) (q * w) <= a * w <= Rmax (p * w) (q * w)).
  { intros w. unfold Rmin, Rmax. destruct (Rle_dec (p * w) (q * w)), (Rle_or_lt 0 w); nra. }
  pose proof (D r) as D1. pose proof (D s) as D2. revert C D1 D2. unfold Rmin, Rmax. 
  repeat destruct (Rle_dec _ _); lra.
Qed.
Lemma IZR_min a b : IZR (Z.min a b) = Rmin (IZR a) (IZR b).
Proof. destruct (Z.min_spec a b) as [(H & ->)|(H & ->)]; [rewrite Rmin_left; [reflexivity|apply IZR_le; lia]|rewrite Rmin_right; [reflexivity|now apply IZR_le]]. Qed.
Lemma IZR_max a b : IZR (Z.max a b) = Rmax (IZR a) (IZR b).
Proof. destruct (Z.max_spec a b) as [(H & ->)|(H & ->)]; [rewrite Rmax_right; [reflexivity|apply IZR_le; lia]|rewrite Rmax_left; [reflexivity|now apply IZR_le]]. Qed.
Lemma mul_range i j x y a b : okk i x a -> okk j y b ->
  V (fS (Z.min (Z.min (lo i * lo j) (lo i * hi j)) (Z.min (hi i * lo j) (hi i * hi j)))) <= a * b <=
  V (cS (Z.max (Z.max (lo i * lo j) (lo i * hi j)) (Z.max (hi i * lo j) (hi i * hi j)))).
Proof.
  rewrite fS_div, cS_div.
  intros (_ & A) (_ & B). pose proof Sc_pos as S0.
  assert (A' : IZR (lo i) <= a * IZR Sc <= IZR (hi i)).
  { unfold V in A. split; [apply Rmult_le_reg_r with (/ IZR Sc)|apply Rmult_le_reg_r with (/ IZR Sc)]; try (now apply Rinv_0_lt_compat);
      rewrite (Rmult_assoc a), Rinv_r, Rmult_1_r by lra; apply A. }
  assert (B' : IZR (lo j) <= b * IZR Sc <= IZR (hi j)).
  { unfold V in B. split; [apply Rmult_le_reg_r with (/ IZR Sc)|apply Rmult_le_reg_r with (/ IZR Sc)]; try (now apply Rinv_0_lt_compat);
      rewrite (Rmult_assoc b), Rinv_r, Rmult_1_r by lra; apply B. }
  pose proof (prod_range _ _ _ _ _ _ A' B') as P. rewrite <- !mult_IZR, <- !IZR_min, <- !IZR_max in P.
  set (mn := Z.min (Z.min _ _) _) in *. set (mx := Z.max (Z.max _ _) _) in *.
  assert (E : a * b = a * IZR Sc * (b * IZR Sc) / IZR Sc / IZR Sc) by (field; lra).
  pose proof (fdiv_le mn Sc eq_refl) as F1. pose proof (cdiv_ge mx Sc eq_refl) as F2. pose proof (Rinv_0_lt_compat _ S0) as I0.
  rewrite E. unfold V. split; (apply Rmult_le_compat_r; [lra|]); [eapply Rle_trans; [exact F1|]|eapply Rle_trans; [|exact F2]]; apply Rmult_le_compat_r; lra.
Qed.
Lemma V_nonneg i x a : okk i x a -> (0 <= er i)%Z /\ (0 <= mag i)%Z.
Proof.
  intros O. pose proof (okk_er _ _ _ O) as E. split; [|unfold mag; lia].
  destruct (Z.le_gt_cases 0 (er i)) as [|G]; [assumption|]. pose proof (V_lt _ _ G). rewrite V_0 in H. lra.
Qed.
Lemma mul_ok i j n x y a b : a_mul i j = Some n -> okk i x a -> okk j y b -> okk n (Bmult mode_NE x y) (a * b).
Proof.
  unfold a_mul. intros E OX OY. pose proof (mul_range _ _ _ _ _ _ OX OY) as RG.
  pose proof (okk_mag _ _ _ OX) as MX. pose proof (okk_mag _ _ _ OY) as MY.
  pose proof (okk_er _ _ _ OX) as PX. pose proof (okk_er _ _ _ OY) as PY.
  destruct OX as ((r & FX & EX) & RX). destruct OY as ((s & FY & EY) & RY).
  pose proof (Rabs_pos a). pose proof (Rabs_pos b).
  apply (rounded_ok _ _ _ _ _ _ (r * s) _ E).
  - exact RG.
  - eapply Rle_trans; [|apply V_cmul]. rewrite Rabs_mult. nra.
  - replace (r * s - a * b) with (a * (s - b) + b * (r - a) + (r - a) * (s - b)) by ring.
    eapply Rle_trans; [apply Rabs_triang|]. eapply Rle_trans; [apply Rplus_le_compat_r, Rabs_triang|]. rewrite !Rabs_mult.
    pose proof (Rabs_pos (r - a)). pose proof (Rabs_pos (s - b)).
    apply Rle_trans with (V (mag i) * V (er j) + V (mag j) * V (er i) + V (er i) * V (er j)); [nra|].
    rewrite cS_div, !V_mul. unfold V. pose proof Sc_pos.
    replace (IZR (mag i * er j) / IZR Sc / IZR Sc + IZR (mag j * er i) / IZR Sc / IZR Sc + IZR (er i * er j) / IZR Sc / IZR Sc)
      with (IZR (mag i * er j + mag j * er i + er i * er j) / IZR Sc / IZR Sc) by (rewrite !plus_IZR; field; lra).
    apply Rmult_le_compat_r; [apply Rlt_le, Rinv_0_lt_compat, Sc_pos|]. apply cdiv_ge. reflexivity.
  - intros T. now apply fin_mul.
Qed.
Lemma div_ok i j n x y a b : a_div i j = Some n -> okk i x a -> okk j y b -> okk n (Bdiv mode_NE x y) (a / b).
Proof.
  unfold a_div. destruct (Z.ltb_spec 0 (lo j - er j)) as [H|]; [|discriminate]. cbv zeta. intros E OX OY.
  pose proof (okk_mag _ _ _ OX) as MX. pose proof (okk_er _ _ _ OX) as PX. destruct (V_nonneg _ _ _ OX) as (ZX & ZM). destruct (V_nonneg _ _ _ OY) as (ZY & _).
  destruct OX as ((r & FX & EX) & RX). destruct OY as ((s & FY & EY) & RY).
  assert (L0 : (0 < lo j)%Z) by lia. pose proof (V_lt _ _ L0) as VL. rewrite V_0 in VL. pose proof (V_lt _ _ H) as VH. rewrite V_0, V_sub in VH.
  pose proof (Vz _ _ ZY) as VY. rewrite V_0 in VY.
  assert (B0 : 0 < b) by lra. pose proof EY as EY'. apply Rabs_le_inv in EY'. assert (S0 : 0 < s) by lra. assert (SL : V (lo j) - V (er j) <= s) by lra.
  set (m := cdiv (mag i * Sc) (lo j)) in *. set (e := cdiv (er i * Sc + m * er j) (lo j - er j)) in *.
  assert (M : Rabs (a / b) <= V m).
  { unfold Rdiv. rewrite Rabs_mult, (Rabs_pos_eq (/ b)) by (apply Rlt_le, Rinv_0_lt_compat, B0). change (Rabs a * / b) with (Rabs a / b).
    eapply Rle_trans; [|unfold m; apply V_cdiv; exact L0]. unfold Rdiv. apply Rmult_le_compat; [apply Rabs_pos|apply Rlt_le, Rinv_0_lt_compat, B0|exact MX|]. apply Rinv_le_contravar; [exact VL|lra]. }
  assert (D : Rabs (r / s - a / b) <= V e).
  { replace (r / s - a / b) with (((r - a) - a / b * (s - b)) / s) by (field; lra).
    unfold Rdiv at 1. rewrite Rabs_mult, (Rabs_pos_eq (/ s)) by (apply Rlt_le, Rinv_0_lt_compat, S0).
    assert (NUM : Rabs (r - a - a / b * (s - b)) <= V (er i) + V m * V (er j)).
    { unfold Rminus at 1. eapply Rle_trans; [apply Rabs_triang|]. rewrite Rabs_Ropp, Rabs_mult. pose proof (Rabs_pos (s - b)). pose proof (Rabs_pos (a / b)). nra. }
    assert (VE : V (er i) + V m * V (er j) = IZR (er i * Sc + m * er j) / IZR Sc / IZR Sc).
    { rewrite V_mul. unfold V. rewrite plus_IZR, (mult_IZR (er i)). pose proof Sc_pos. field. lra. }
    apply Rle_trans with ((V (er i) + V m * V (er j)) * / (V (lo j) - V (er j))).
    - pose proof (Rabs_pos (r - a - a / b * (s - b))). apply Rmult_le_compat; [assumption|apply Rlt_le, Rinv_0_lt_compat, S0|assumption|]. apply Rinv_le_contravar; [lra|lra].
    - rewrite VE, <- V_sub. unfold V at 1 2. fold (V (lo j)). pose proof Sc_pos. assert (P : 0 < IZR (lo j - er j)) by now apply IZR_lt.
      replace (IZR (er i * Sc + m * er j) / IZR Sc / IZR Sc * / (IZR (lo j - er j) / IZR Sc)) with (IZR (er i * Sc + m * er j) / IZR (lo j - er j) / IZR Sc) by (field; lra).
      unfold V. apply Rmult_le_compat_r; [apply Rlt_le, Rinv_0_lt_compat, Sc_pos|]. unfold e. now apply cdiv_ge. }
  assert (T : Rabs (rnd 53 1024 (r / s)) < top 1024 -> fin 53 1024 (Bdiv mode_NE x y) (rnd 53 1024 (r / s))) by (intros T; apply fin_div; [exact FX|exact FY|lra|exact T]).
  destruct (Z.leb_spec 0 (lo i)) as [G|G].
  - apply (rounded_ok _ _ _ _ _ _ (r / s) _ E); [|exact M|exact D|exact T].
    pose proof (Vz _ _ G) as VG. rewrite V_0 in VG. split; [|apply Rabs_le_inv in M; lra].
    assert (HH : (0 < hi j)%Z) by (destruct (Z.le_gt_cases (hi j) 0) as [Q|]; [pose proof (Vz _ _ Q); rewrite V_0 in *; lra|assumption]).
    eapply Rle_trans; [apply V_fdiv; exact HH|]. unfold Rdiv. apply Rmult_le_compat; [exact VG|pose proof (V_lt _ _ HH) as Q; rewrite V_0 in Q; apply Rlt_le, Rinv_0_lt_compat, Q|lra|]. apply Rinv_le_contravar; [exact B0|lra].
  - apply (rounded_ok _ _ _ _ _ _ (r / s) _ E); [|exact M|exact D|exact T]. apply Rabs_le_inv in M. rewrite V_opp. exact M.
Qed.
Lemma V_sqrt_lo z : (0 <= z)%Z -> V (Z.sqrt (z * Sc)) <= sqrt (V z).
Proof.
  intros Z0. pose proof Sc_pos as S0. pose proof (Z.sqrt_nonneg (z * Sc)) as Q0. 
  assert (N : 0 <= V (Z.sqrt (z * Sc))) by (rewrite <- V_0; now apply Vz).
  rewrite <- (sqrt_square (V (Z.sqrt (z * Sc)))) by exact N. apply sqrt_le_1_alt. rewrite V_mul.
  replace (V z) with (IZR (z * Sc) / IZR Sc / IZR Sc) by (unfold V; rewrite mult_IZR; field; lra).
  pose proof (Rinv_0_lt_compat _ S0). apply Rmult_le_compat_r; [lra|]. apply Rmult_le_compat_r; [lra|]. apply IZR_le.
  apply Z.sqrt_spec. apply Z.mul_nonneg_nonneg; [exact Z0|discriminate].
Qed.
Lemma V_sqrt_hi z : (0 <= z)%Z -> sqrt (V z) <= V (Z.sqrt (z * Sc) + 1).
Proof.
  intros Z0. pose proof Sc_pos as S0. pose proof (Z.sqrt_nonneg (z * Sc)) as Q0. 
  assert (N : 0 <= V (Z.sqrt (z * Sc) + 1)) by (rewrite <- V_0; apply Vz; lia).
  rewrite <- (sqrt_square (V (Z.sqrt (z * Sc) + 1))) by exact N. apply sqrt_le_1_alt. rewrite V_mul.
  replace (V z) with (IZR (z * Sc) / IZR Sc / IZR Sc) by (unfold V; rewrite mult_IZR; field; lra).
  pose proof (Rinv_0_lt_compat _ S0). apply Rmult_le_compat_r; [lra|]. apply Rmult_le_compat_r; [lra|]. apply IZR_le.
  assert (P : (0 <= z * Sc)%Z) by (apply Z.mul_nonneg_nonneg; [exact Z0|discriminate]).
  pose proof (Z.sqrt_spec _ P). unfold Z.succ in *. lia.
Qed.
Lemma sqrt_ok i n x a : a_sqrt i = Some n -> okk i x a -> okk n (Bsqrt mode_NE x) (sqrt a).
Proof.
  unfold a_sqrt. destruct (Z.ltb_spec 0 (lo i)) as [H|]; [|discriminate]. destruct (Z.ltb_spec (er i) (lo i)) as [G|]; [|discriminate].
  cbn [andb]. destruct (Z.ltb_spec 0 (Z.sqrt (lo i * Sc))) as [J|]; [|discriminate]. intros E O.
  destruct (V_nonneg _ _ _ O) as (ZE & _). destruct O as ((r & FX & EX) & RX).
  pose proof (V_lt _ _ H) as VH. rewrite V_0 in VH. pose proof (V_lt _ _ G) as VG. pose proof (V_lt _ _ J) as VJ. rewrite V_0 in VJ.
  pose proof EX as EX'. apply Rabs_le_inv in EX'. assert (R0 : 0 < r) by lra. assert (A0 : 0 < a) by lra.
  pose proof (V_sqrt_lo (lo i) ltac:(lia)) as SL.
  assert (HI : (0 <= hi i)%Z) by (destruct (Z.le_gt_cases 0 (hi i)) as [|Q]; [assumption|pose proof (V_lt _ _ Q); rewrite V_0 in *; lra]).
  pose proof (V_sqrt_hi (hi i) HI) as SH. pose proof (sqrt_le_1_alt _ _ (proj1 RX)) as S1. pose proof (sqrt_le_1_alt _ _ (proj2 RX)) as S2.
  pose proof (sqrt_lt_R0 _ R0) as r0. pose proof (sqrt_lt_R0 _ A0) as a0.
  apply (rounded_ok _ _ _ _ _ _ (sqrt r) _ E).
  - lra.
  - rewrite Rabs_pos_eq; lra.
  - eapply Rle_trans; [|apply V_cdiv; exact J].
    assert (SS : (sqrt r - sqrt a) * (sqrt r + sqrt a) = r - a).
    { replace ((sqrt r - sqrt a) * (sqrt r + sqrt a)) with (sqrt r * sqrt r - sqrt a * sqrt a) by ring. rewrite !sqrt_sqrt by lra. reflexivity. }
    apply Rmult_le_reg_r with (V (Z.sqrt (lo i * Sc))); [exact VJ|]. unfold Rdiv. rewrite Rmult_assoc, Rinv_l, Rmult_1_r by lra.
    rewrite <- SS, Rabs_mult, (Rabs_pos_eq (sqrt r + sqrt a)) in EX by lra. pose proof (Rabs_pos (sqrt r - sqrt a)). nra.
  - intros _. apply fin_sqrt; [exact FX|lra].
Qed.
Lemma sin_ok i x a : okk i x a -> okk (a_trig K i) (m_sin _ _ lm x) (sin a).
Proof.
  intros ((r & F & E) & _). destruct L as (LS & _ & _). destruct (LS x r F) as (s & FS & _ & ES). split.
  - exists s. split; [exact FS|]. cbn [a_trig er]. rewrite V_add. replace (s - sin a) with ((s - sin r) + (sin r - sin a)) by ring.
    eapply Rle_trans; [apply Rabs_triang|]. pose proof (sin_lip r a). lra.
  - cbn [a_trig lo hi]. rewrite V_opp. replace (V Sc) with 1 by (unfold V; field; apply Rgt_not_eq, Sc_pos). apply SIN_bound.
Qed.
Lemma cos_ok i x a : okk i x a -> okk (a_trig K i) (m_cos _ _ lm x) (cos a).
Proof.
  intros ((r & F & E) & _). destruct L as (_ & LC & _). destruct (LC x r F) as (s & FS & _ & ES). split.
  - exists s. split; [exact FS|]. cbn [a_trig er]. rewrite V_add. replace (s - cos a) with ((s - cos r) + (cos r - cos a)) by ring.
    eapply Rle_trans; [apply Rabs_triang|]. pose proof (cos_lip r a). lra.
  - cbn [a_trig lo hi]. rewrite V_opp. replace (V Sc) with 1 by (unfold V; field; apply Rgt_not_eq, Sc_pos). apply COS_bound.
Qed.
Lemma Rdec_quot m e : Rdec m e = IZR (m * 10 ^ Z.max e 0) / IZR (10 ^ Z.max (- e) 0).
Proof.
  unfold Rdec. destruct e as [|p|p].
  - change (Z.max 0 0) with 0%Z. change (Z.max (- 0) 0) with 0%Z. change (10 ^ 0)%Z with 1%Z. rewrite Z.mul_1_r. unfold Rdiv. rewrite Rinv_1. ring.
  - rewrite Z.max_l by lia. rewrite Z.max_r by lia. change (10 ^ 0)%Z with 1%Z. change (10 ^ Z.pos p)%Z with (Z.pow_pos 10 p). unfold Rdiv. rewrite Rinv_1. ring.
  - rewrite Z.max_r by lia. change (10 ^ 0)%Z with 1%Z. rewrite Z.mul_1_r. rewrite Z.max_l by lia. reflexivity.
Qed.
Lemma lit_ok m e n : a_lit m e = Some n -> okk n (Blit 53 1024 m e) (Rdec m e).
Proof.
  unfold a_lit. cbv zeta. intros E. set (N := (m * Sc * 10 ^ Z.max e 0)%Z) in E. set (D := (10 ^ Z.max (- e) 0)%Z) in E.
  assert (PD : (0 < D)%Z) by (apply Z.pow_pos_nonneg; lia). assert (RD : 0 < IZR D) by now apply IZR_lt. pose proof Sc_pos as S0.
  assert (EN : Rdec m e = IZR N / IZR D / IZR Sc).
  { rewrite Rdec_quot. fold D. unfold N. rewrite !mult_IZR. field. lra. }
  set (l := (N / D)%Z) in E. set (h := if (l * D =? N)%Z then l else _) in E.
  assert (R : V l <= Rdec m e <= V h).
  { rewrite EN. pose proof (Rinv_0_lt_compat _ S0). unfold V. split; apply Rmult_le_compat_r; try lra; [now apply fdiv_le|].
    unfold h. destruct (Z.eqb_spec (l * D) N) as [G|G].
    - rewrite <- G, mult_IZR. unfold Rdiv. rewrite Rmult_assoc, Rinv_r, Rmult_1_r by lra. lra.
    - apply Rmult_le_reg_r with (IZR D); [exact RD|]. unfold Rdiv. rewrite Rmult_assoc, Rinv_l, Rmult_1_r by lra. rewrite <- mult_IZR. apply IZR_le.
      unfold l. pose proof (Z.div_mod N D ltac:(lia)). pose proof (Z.mod_pos_bound N D PD). nia. }
  apply (rounded_ok _ _ _ _ _ _ (Rdec m e) _ E).
  - exact R.
  - pose proof (Vz _ _ (Z.le_max_l (Z.abs l) (Z.abs h))) as P. pose proof (Vz _ _ (Z.le_max_r (Z.abs l) (Z.abs h))) as Q. rewrite !V_abs in P, Q.
    apply Rabs_le. apply Rabs_le_inv in P. apply Rabs_le_inv in Q. lra.
  - unfold Rminus. rewrite Rplus_opp_r, Rabs_R0, V_0. lra.
  - rewrite Rdec_quot. intros T. now apply fin_lit.
Qed.
Lemma ofZ_ok z : (Z.abs z < 2 ^ 53)%Z -> okk (It (z * Sc) (z * Sc) 0) (BofZ 53 1024 z) (IZR z).
Proof.
  intros H. split; [|cbn [lo hi]; rewrite V_Sc; lra]. exists (IZR z). split; [now apply fin_ofZ|].
  cbn [er]. rewrite V_0. unfold Rminus. rewrite Rplus_opp_r, Rabs_R0. lra.
Qed.
Lemma widen i x a b l h d : okk i x a -> V l <= b <= V h -> Rabs (a - b) <= V d -> okk (It l h (er i + d)) x b.
Proof.
  intros ((r & F & E) & _) R D. split; [|exact R]. exists r. split; [exact F|]. cbn [er]. rewrite V_add.
  replace (r - b) with ((r - a) + (a - b)) by ring. eapply Rle_trans; [apply Rabs_triang|lra].
Qed.
Lemma okk_err i x a e : okk i x a -> (er i <= e)%Z -> okk (It (lo i) (hi i) e) x a.
Proof. intros ((r & F & E) & R) H. split; [|exact R]. exists r. split; [exact F|]. cbn [er]. pose proof (Vz _ _ H). lra. Qed.
Lemma pi_ok : okk a_pi (Blit 53 1024 3141592653589793238462643 (-24)) PI.
Proof.
  assert (E : exists n, a_lit 3141592653589793238462643 (-24) = Some n /\ (er n <= 132710123099166000750716)%Z).
  { eexists. split; [vm_compute; reflexivity|]. vm_compute. discriminate. }
  destruct E as (n & E & B). pose proof (lit_ok _ _ _ E) as O. pose proof PI_bounds as P.
  assert (W : okk (It (lo a_pi) (hi a_pi) (er n + 3402823669209384634)) (Blit 53 1024 3141592653589793238462643 (-24)) PI).
  { apply (widen _ _ _ _ _ _ _ O); unfold V, Sc.
    - change (2 ^ 128)%Z with 340282366920938463463374607431768211456%Z. cbn [lo hi a_pi]. lra.
    - change (2 ^ 128)%Z with 340282366920938463463374607431768211456%Z. unfold Rdec. change (Z.pow_pos 10 24) with 1000000000000000000000000%Z. apply Rabs_le. lra. }
  apply (okk_err _ _ _ (er a_pi) W). cbn [er a_pi]. lia.
Qed.
Lemma twopi_ok : okk a_2pi (Blit 53 1024 6283185307179586476925287 (-24)) (2 * PI).
Proof.
  assert (E : exists n, a_lit 6283185307179586476925287 (-24) = Some n /\ (er n <= 268823069867541386136065)%Z).
  { eexists. split; [vm_compute; reflexivity|]. vm_compute. discriminate. }
  destruct E as (n & E & B). pose proof (lit_ok _ _ _ E) as O. pose proof PI_bounds as P.
  assert (W : okk (It (lo a_2pi) (hi a_2pi) (er n + 3402823669209384634)) (Blit 53 1024 6283185307179586476925287 (-24)) (2 * PI)).
  { apply (widen _ _ _ _ _ _ _ O); unfold V, Sc.
    - change (2 ^ 128)%Z with 340282366920938463463374607431768211456%Z. cbn [lo hi a_2pi]. lra.
    - change (2 ^ 128)%Z with 340282366920938463463374607431768211456%Z. unfold Rdec. change (Z.pow_pos 10 24) with 1000000000000000000000000%Z. apply Rabs_le. lra. }
  apply (okk_err _ _ _ (er a_2pi) W). cbn [er a_2pi]. lia.
Qed.

Fixpoint okenv (is : list item) (xs : list double) (rs : list R) : Prop :=
  match is, xs, rs with
  | [], [], [] => True
  | i :: is, x :: xs, r :: rs => okk i x r /\ okenv is xs rs
  | _, _, _ => False
  end.
Lemma okenv_nth : forall is xs rs n i, okenv is xs rs -> nth_error is n = Some i ->
  okk i (nth n xs (BofZ 53 1024 0)) (nth n rs (IZR 0)).
Proof.
  induction is as [|j is IH]; intros [|x xs] [|r rs] n i O E; try (now destruct O); destruct n as [|n]; try discriminate E.
  - injection E as <-. exact (proj1 O).
  - exact (IH xs rs n i (proj2 O) E).
Qed.
Theorem ana_sound is xs rs : okenv is xs rs -> forall e i, ana K is e = Some i ->
  okk i (eval (B64 lm) xs e) (eval RNum rs e).
Proof.
  intros O. induction e as [n|m x|z| | |e IH|e IH|e IH|e IH|e IH|e IHe f IHf|e IHe f IHf|e IHe f IHf|e IHe f IHf]; intros i E; cbn [ana] in E.
  - exact (okenv_nth _ _ _ _ _ O E).
  - exact (lit_ok _ _ _ E).
  - destruct (Z.ltb_spec (Z.abs z) (2 ^ 53)); [|discriminate]. injection E as <-. now apply ofZ_ok.
  - injection E as <-. exact pi_ok.
  - injection E as <-. exact twopi_ok.
  - destruct (ana K is e) as [a|]; [|discriminate]. injection E as <-. exact (opp_ok _ _ _ (IH _ eq_refl)).
  - destruct (ana K is e) as [a|]; [|discriminate]. injection E as <-. exact (abs_ok _ _ _ (IH _ eq_refl)).
  - destruct (ana K is e) as [a|]; [|discriminate]. exact (sqrt_ok _ _ _ _ E (IH _ eq_refl)).
  - destruct (ana K is e) as [a|]; [|discriminate]. injection E as <-. exact (sin_ok _ _ _ (IH _ eq_refl)).
  - destruct (ana K is e) as [a|]; [|discriminate]. injection E as <-. exact (cos_ok _ _ _ (IH _ eq_refl)).
  - destruct (ana K is e) as [a|], (ana K is f) as [b|]; try discriminate E. exact (add_ok _ _ _ _ _ _ _ E (IHe _ eq_refl) (IHf _ eq_refl)).
  - destruct (ana K is e) as [a|], (ana K is f) as [b|]; try discriminate E. exact (sub_ok _ _ _ _ _ _ _ E (IHe _ eq_refl) (IHf _ eq_refl)).
  - destruct (ana K is e) as [a|], (ana K is f) as [b|]; try discriminate E. exact (mul_ok _ _ _ _ _ _ _ E (IHe _ eq_refl) (IHf _ eq_refl)).
  - destruct (ana K is e) as [a|], (ana K is f) as [b|]; try discriminate E. exact (div_ok _ _ _ _ _ _ _ E (IHe _ eq_refl) (IHf _ eq_refl)).
Qed.
End Sound.

(** Reification. *)
Ltac index x l := lazymatch l with | x :: _ => constr:(O) | _ :: ?l' => let n := index x l' in constr:(S n) end.
Ltac reify vars t :=
  lazymatch t with
  | n_lit ?m ?e => constr:(Lit m e)
  | n_ofZ ?z => constr:(OfZ z)
  | n_pi => constr:(EPi)
  | n_2pi => constr:(E2Pi)
  | n_opp ?a => let a' := reify vars a in constr:(Opp a')
  | n_abs ?a => let a' := reify vars a in constr:(Abs a')
  | n_sqrt ?a => let a' := reify vars a in constr:(Sqrt a')
  | n_sin ?a => let a' := reify vars a in constr:(Sin a')
  | n_cos ?a => let a' := reify vars a in constr:(Cos a')
  | n_add ?a ?b => let a' := reify vars a in let b' := reify vars b in constr:(Add a' b')
  | n_sub ?a ?b => let a' := reify vars a in let b' := reify vars b in constr:(Sub a' b')
  | n_mul ?a ?b => let a' := reify vars a in let b' := reify vars b in constr:(Mul a' b')
  | n_div ?a ?b => let a' := reify vars a in let b' := reify vars b in constr:(Div a' b')
  | _ => let n := index t vars in constr:(Var n)
  end.
