(** Epochs in binary64. *)
From Coq Require Import ZArith Reals Bool Ascii List Lia Lra.
From Flocq Require Import Core BinarySingleNaN.
From Verif Require Import Int32 Num NumB NumR M_Epoch S_Frame S_Epoch S_Binary S_Float L_Bin L_Flt L_Float L_Frame L_Epoch L_Err L_ErrT L_FloatTf.
Import ListNotations.
Open Scope R_scope.

Lemma env1 (x : double) a l h : value64 x a -> IZR l <= a <= IZR h -> okenv [it l h] [x] [a].
Proof. intros X A. split; [now apply okk_in|exact Logic.I]. Qed.
Lemma days64 lm (x : double) a : value64 x a -> -1000000 <= a <= 1000000 ->
  near 53 1024 (epj (N := B64 lm) x) (epj (N := RNum) a) 16e-13 /\ near 53 1024 (epb (N := B64 lm) x) (epb (N := RNum) a) 16e-13.
Proof.
  intros X A. pose proof (env1 x a (-1000000) 1000000 X A) as OK. unfold epj, epb. split; err0 lm [it (-1000000) 1000000] [x] [a] OK.
Qed.
Lemma years64 lm (x : double) a : value64 x a -> -1000 <= a <= 5000 ->
  near 53 1024 (epj2d (N := B64 lm) x) (epj2d (N := RNum) a) 9e-10 /\ near 53 1024 (epb2d (N := B64 lm) x) (epb2d (N := RNum) a) 9e-10.
Proof.
  intros X A. pose proof (env1 x a (-1000) 5000 X A) as OK. unfold epj2d, epb2d. split; err0 lm [it (-1000) 5000] [x] [a] OK.
Qed.
Lemma days_back64 lm (x : double) a : value64 x a -> -1000000 <= a <= 1000000 ->
  near 53 1024 (epj2d (N := B64 lm) (epj (N := B64 lm) x)) (epj2d (N := RNum) (epj (N := RNum) a)) 13e-10 /\
  near 53 1024 (epb2d (N := B64 lm) (epb (N := B64 lm) x)) (epb2d (N := RNum) (epb (N := RNum) a)) 13e-10.
Proof.
  intros X A. pose proof (env1 x a (-1000000) 1000000 X A) as OK. unfold epj, epb, epj2d, epb2d. split; err0 lm [it (-1000000) 1000000] [x] [a] OK.
Qed.
Lemma years_back64 lm (x : double) a : value64 x a -> -1000 <= a <= 5000 ->
  near 53 1024 (epj (N := B64 lm) (epj2d (N := B64 lm) x)) (epj (N := RNum) (epj2d (N := RNum) a)) 4e-12 /\
  near 53 1024 (epb (N := B64 lm) (epb2d (N := B64 lm) x)) (epb (N := RNum) (epb2d (N := RNum) a)) 4e-12.
Proof.
  intros X A. pose proof (env1 x a (-1000) 5000 X A) as OK. unfold epj, epb, epj2d, epb2d. split; err0 lm [it (-1000) 5000] [x] [a] OK.
Qed.
Lemma years_change64 lm (x : double) a : value64 x a -> -1000 <= a <= 5000 ->
  near 53 1024 (epb (N := B64 lm) (epj2d (N := B64 lm) x)) (epb (N := RNum) (epj2d (N := RNum) a)) 4e-12 /\
  near 53 1024 (epj (N := B64 lm) (epb2d (N := B64 lm) x)) (epj (N := RNum) (epb2d (N := RNum) a)) 4e-12.
Proof.
  intros X A. pose proof (env1 x a (-1000) 5000 X A) as OK. unfold epj, epb, epj2d, epb2d. split; err0 lm [it (-1000) 5000] [x] [a] OK.
Qed.
Lemma near_value (x : double) a e : near 53 1024 x a e -> exists r, value64 x r /\ Rabs (r - a) <= e.
Proof. exact (fun H => H). Qed.
Lemma epochs64 lm (x : double) a : value64 x a -> -1000000 <= a <= 1000000 ->
  exists j b, value64 (epj (N := B64 lm) x) j /\ Rabs (j - julian_year a) <= 16e-13 /\ value64 (epb (N := B64 lm) x) b /\ Rabs (b - besselian_year a) <= 16e-13.
Proof.
  intros X A. destruct (days64 lm x a X A) as ((j & J1 & J2) & (b & B1 & B2)). exists j, b. rewrite <- epj_spec, <- epb_spec. auto.
Qed.
Lemma days_return64 lm (x : double) a : value64 x a -> -1000000 <= a <= 1000000 ->
  exists j b, value64 (epj2d (N := B64 lm) (epj (N := B64 lm) x)) j /\ Rabs (j - a) <= 13e-10 /\ value64 (epb2d (N := B64 lm) (epb (N := B64 lm) x)) b /\ Rabs (b - a) <= 13e-10.
Proof.
  intros X A. destruct (days_back64 lm x a X A) as ((j & J1 & J2) & (b & B1 & B2)). exists j, b.
  rewrite (proj1 epj_inverse) in J2. rewrite (proj1 epb_inverse) in B2. auto.
Qed.
Lemma years_return64 lm (x : double) a : value64 x a -> -1000 <= a <= 5000 ->
  exists j b, value64 (epj (N := B64 lm) (epj2d (N := B64 lm) x)) j /\ Rabs (j - a) <= 4e-12 /\ value64 (epb (N := B64 lm) (epb2d (N := B64 lm) x)) b /\ Rabs (b - a) <= 4e-12.
Proof.
  intros X A. destruct (years_back64 lm x a X A) as ((j & J1 & J2) & (b & B1 & B2)). exists j, b.
  rewrite (proj2 epj_inverse) in J2. rewrite (proj2 epb_inverse) in B2. auto.
Qed.
(** epco over doubles follows epco over the reals. *)
Lemma epco64 lm res giv (x : double) a : value64 x a -> -1000 <= a <= 5000 ->
  exists r, value64 (epco (N := B64 lm) res giv x) r /\ Rabs (r - epco (N := RNum) res giv a) <= 4e-12.
Proof.
  intros X A. assert (Z : exists r, value64 (n_ofZ 0 : B64 lm) r /\ Rabs (r - n_ofZ (n := RNum) 0) <= 4e-12).
  { exists 0. split; [apply (int64 0); lia|]. change (n_ofZ (n := RNum) 0) with 0. rewrite Rminus_0_r, Rabs_R0. lra. }
  destruct (years_change64 lm x a X A) as [B J]. unfold epco.
  destruct (negb (Ascii.eqb (if Ascii.eqb res "b" then "B"%char else res) "B") && negb (Ascii.eqb (if Ascii.eqb res "b" then "B"%char else res) "J"))%bool; [exact Z|].
  destruct (negb (Ascii.eqb (if Ascii.eqb giv "j" then "J"%char else giv) "B") && negb (Ascii.eqb (if Ascii.eqb giv "j" then "J"%char else giv) "J"))%bool; [exact Z|].
  destruct (Ascii.eqb (if Ascii.eqb res "b" then "B"%char else res) (if Ascii.eqb giv "j" then "J"%char else giv)).
  - exists a. split; [exact X|]. unfold Rminus. rewrite Rplus_opp_r, Rabs_R0. lra.
  - destruct (Ascii.eqb (if Ascii.eqb res "b" then "B"%char else res) "B"); [exact B|exact J].
Qed.
