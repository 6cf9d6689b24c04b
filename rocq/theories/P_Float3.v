(** Property theorems with rounding: C34, C35 and C36 in IEEE binary64, for any
    libm accurate to [k] (see [libm_ok]).  Vocabulary: S_Float, S_FloatSph,
    S_Frame.  The real-number frames are those of P_Frame. *)
From Coq Require Import ZArith Reals Lra.
From Flocq Require Import Core BinarySingleNaN.
From Verif Require Import Num NumB NumR M_Vec M_Frame S_Geom S_Frame S_Binary S_Float S_FloatSph.
From Verif Require Import L_Flt L_Bin L_Float L_FloatMat L_FloatLibm L_FloatFrame L_FloatLand.
Open Scope R_scope.

(** ** C34: between the equator of J2000 and the ecliptic of date (years 3 to 3999) *)
Theorem C34_eqecl_binary : forall lm k s z a b c, libm_ok lm k -> 0 <= k <= 1e-6 -> angles64 s a b -> value64 z c -> -678000 <= c <= 782000 ->
  lands k (eqecl (N := B64 lm) s z) (mapply (ecliptic_frame c) (direction a b)) (20 * k + 104 * u64).
Proof. exact eqecl_lands. Qed.
Print Assumptions C34_eqecl_binary.

Theorem C34_ecleq_binary : forall lm k s z a b c, libm_ok lm k -> 0 <= k <= 1e-6 -> angles64 s a b -> value64 z c -> -678000 <= c <= 782000 ->
  lands k (ecleq (N := B64 lm) s z) (mapply (transpose (ecliptic_frame c)) (direction a b)) (20 * k + 104 * u64).
Proof. exact ecleq_lands. Qed.
Print Assumptions C34_ecleq_binary.

Theorem C34_round_trip_binary : forall lm k s z a b c, libm_ok lm k -> 0 <= k <= 1e-6 -> angles64 s a b -> value64 z c -> -678000 <= c <= 782000 ->
  lands k (ecleq (N := B64 lm) (eqecl (N := B64 lm) s z) z) (direction a b) (40 * k + 208 * u64) /\
  lands k (eqecl (N := B64 lm) (ecleq (N := B64 lm) s z) z) (direction a b) (40 * k + 208 * u64).
Proof. exact ecl_both_lands. Qed.
Print Assumptions C34_round_trip_binary.

(** ** C35: galactic and supergalactic coordinates *)
Theorem C35_eqgal_binary : forall lm k s a b, libm_ok lm k -> 0 <= k <= 1e-6 -> angles64 s a b ->
  lands k (eqgal (N := B64 lm) s) (mapply galactic_frame (direction a b)) (1e-6 + 7.1 * k + 20 * u64).
Proof. exact eqgal_lands. Qed.
Print Assumptions C35_eqgal_binary.
Theorem C35_galeq_binary : forall lm k s a b, libm_ok lm k -> 0 <= k <= 1e-6 -> angles64 s a b ->
  lands k (galeq (N := B64 lm) s) (mapply (transpose galactic_frame) (direction a b)) (1e-6 + 7.1 * k + 20 * u64).
Proof. exact galeq_lands. Qed.
Print Assumptions C35_galeq_binary.
Theorem C35_galsup_binary : forall lm k s a b, libm_ok lm k -> 0 <= k <= 1e-6 -> angles64 s a b ->
  lands k (galsup (N := B64 lm) s) (mapply supergalactic_frame (direction a b)) (1e-11 + 7.1 * k + 20 * u64).
Proof. exact galsup_lands. Qed.
Print Assumptions C35_galsup_binary.
Theorem C35_supgal_binary : forall lm k s a b, libm_ok lm k -> 0 <= k <= 1e-6 -> angles64 s a b ->
  lands k (supgal (N := B64 lm) s) (mapply (transpose supergalactic_frame) (direction a b)) (1e-11 + 7.1 * k + 20 * u64).
Proof. exact supgal_lands. Qed.
Print Assumptions C35_supgal_binary.

(** The tolerances 1e-6 and 1e-11 are those of the published matrices; rounding
    adds no more than 20 units in the last place to the exact result. *)
Theorem C35_rounding_binary : forall lm k s a b, libm_ok lm k -> 0 <= k <= 1e-6 -> angles64 s a b ->
  let v := Sph (N := RNum) a b in let e := 7.1 * k + 20 * u64 in let dir (r : sph RNum) := direction (s_a r) (s_b r) in
  lands k (eqgal (N := B64 lm) s) (dir (eqgal (N := RNum) v)) e /\ lands k (galeq (N := B64 lm) s) (dir (galeq (N := RNum) v)) e /\
  lands k (galsup (N := B64 lm) s) (dir (galsup (N := RNum) v)) e /\ lands k (supgal (N := B64 lm) s) (dir (supgal (N := RNum) v)) e.
Proof. exact gal_lands. Qed.
Print Assumptions C35_rounding_binary.

Theorem C35_round_trip_binary : forall lm k s a b, libm_ok lm k -> 0 <= k <= 1e-6 -> angles64 s a b ->
  lands k (galeq (N := B64 lm) (eqgal (N := B64 lm) s)) (direction a b) (1e-9 + 15 * k + 41 * u64) /\
  lands k (eqgal (N := B64 lm) (galeq (N := B64 lm) s)) (direction a b) (1e-9 + 15 * k + 41 * u64) /\
  lands k (supgal (N := B64 lm) (galsup (N := B64 lm) s)) (direction a b) (1e-11 + 15 * k + 41 * u64) /\
  lands k (galsup (N := B64 lm) (supgal (N := B64 lm) s)) (direction a b) (1e-11 + 15 * k + 41 * u64).
Proof. exact gal_both_lands. Qed.
Print Assumptions C35_round_trip_binary.

(** ** C36: the precession matrices and preces, epochs in years 0 to 4000 *)
Theorem C36_prec_binary : forall lm k x y a b, libm_ok lm k -> 0 <= k <= 1e-6 -> value64 x a -> value64 y b -> 0 <= a <= 4000 -> 0 <= b <= 4000 ->
  exists C, mat64 (prec (N := B64 lm) x y) C /\ fnorm (msub C (iau1976_precession a b)) <= 6.03 * k + 48 * u64.
Proof. exact prec64. Qed.
Print Assumptions C36_prec_binary.
Theorem C36_prebn_binary : forall lm k x y a b, libm_ok lm k -> 0 <= k <= 1e-6 -> value64 x a -> value64 y b -> 0 <= a <= 4000 -> 0 <= b <= 4000 ->
  exists C, mat64 (prebn (N := B64 lm) x y) C /\ fnorm (msub C (newcomb_precession a b)) <= 6.03 * k + 48 * u64.
Proof. exact prebn64. Qed.
Print Assumptions C36_prebn_binary.
Theorem C36_precl_binary : forall lm k x y a b, libm_ok lm k -> 0 <= k <= 1e-6 -> value64 x a -> value64 y b -> 0 <= a <= 4000 -> 0 <= b <= 4000 ->
  exists C, mat64 (precl (N := B64 lm) x y) C /\ fnorm (msub C (simon_precession a b)) <= 6.03 * k + 48 * u64.
Proof. exact precl64. Qed.
Print Assumptions C36_precl_binary.
Theorem C36_ecmat_binary : forall lm k x a, libm_ok lm k -> 0 <= k <= 1e-6 -> value64 x a -> -678000 <= a <= 782000 ->
  exists C, mat64 (ecmat (N := B64 lm) x) C /\ fnorm (msub C (frame_x (obliquity a))) <= 6.03 * k + 34 * u64.
Proof. exact ecmat64. Qed.
Print Assumptions C36_ecmat_binary.
Theorem C36_preces_binary : forall lm k s z w a b c d cat, libm_ok lm k -> 0 <= k <= 1e-6 -> angles64 s a b -> value64 z c -> value64 w d ->
  0 <= c <= 4000 -> 0 <= d <= 4000 -> cat <> CAT_OTHER ->
  lands k (preces (N := B64 lm) cat z w s) (mapply (match cat with CAT_FK4 => newcomb_precession c d | _ => iau1976_precession c d end) (direction a b)) (14 * k + 69 * u64).
Proof. exact preces_lands. Qed.
Print Assumptions C36_preces_binary.

(** The hypotheses are met, for example by a correctly rounded libm, the
    direction (3 rad, -1 rad), the epochs 1950 and 2000 and the date MJD 60000. *)
Example C36_binary_case : libm_ok ideal_libm (2 * u64) /\ 0 <= 2 * u64 <= 1e-6 /\
  angles64 (lm := ideal_libm) (Sph (N := B64 ideal_libm) (BofZ 53 1024 3) (BofZ 53 1024 (-1))) 3 (-1) /\
  value64 (BofZ 53 1024 1950) 1950 /\ 0 <= 1950 <= 4000 /\ value64 (BofZ 53 1024 60000) 60000 /\ -678000 <= 60000 <= 782000.
Proof.
  split; [exact ideal_libm_ok|]. split; [rewrite u64_num; lra|]. split; [split; apply (fin_ofZ 53 1024); reflexivity|].
  split; [apply (fin_ofZ 53 1024); reflexivity|]. split; [lra|]. split; [apply (fin_ofZ 53 1024); reflexivity|lra].
Qed.
