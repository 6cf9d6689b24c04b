(** Property theorems with rounding: C56 in IEEE binary64, for any libm accurate
    to [k] (see [libm_ok]).  Vocabulary: S_Float, S_FloatSph, S_Frame, S_Geom. *)
From Coq Require Import ZArith Reals Lra.
From Flocq Require Import Core BinarySingleNaN.
From Verif Require Import Num NumB NumR M_Vec M_Frame S_Geom S_Frame S_Binary S_Float S_FloatSph.
From Verif Require Import L_Flt L_Bin L_Float L_FloatLibm L_FloatFrame L_FloatEt.
Open Scope R_scope.

(** ** C56: E-terms of aberration and B1950 galactic coordinates *)
Theorem C56_etrms_binary : forall lm k (x : double) a, libm_ok lm k -> 0 <= k <= 1e-6 -> value64 x a -> 1000 <= a <= 3000 ->
  exists r, vec64 (etrms (N := B64 lm) x) r /\ norm (vsub r (e_terms a)) <= 2e-5 * k + 2e-19.
Proof. exact etrms64. Qed.
Print Assumptions C56_etrms_binary.

Theorem C56_addet_binary : forall lm k s z a b c, libm_ok lm k -> 0 <= k <= 1e-6 -> angles64 s a b -> value64 z c -> 1000 <= c <= 3000 ->
  lands k (addet (N := B64 lm) s z) (unit_of (vadd (direction a b) (e_terms c))) (7.1 * k + 12.5 * u64).
Proof. exact addet_lands. Qed.
Print Assumptions C56_addet_binary.

Theorem C56_subet_binary : forall lm k s z a b c, libm_ok lm k -> 0 <= k <= 1e-6 -> angles64 s a b -> value64 z c -> 1000 <= c <= 3000 ->
  let v := direction a b in lands k (subet (N := B64 lm) s z) (unit_of (vsub (scale (1 + dot v (e_terms c)) v) (e_terms c))) (7.1 * k + 16.2 * u64).
Proof. exact subet_lands. Qed.
Print Assumptions C56_subet_binary.

(** Adding and removing the E-terms undo each other to a few units of rounding. *)
Theorem C56_round_trip_binary : forall lm k s z a b c, libm_ok lm k -> 0 <= k <= 1e-6 -> angles64 s a b -> value64 z c -> 1000 <= c <= 3000 ->
  lands k (subet (N := B64 lm) (addet (N := B64 lm) s z) z) (direction a b) (22 * k + 42 * u64) /\
  lands k (addet (N := B64 lm) (subet (N := B64 lm) s z) z) (direction a b) (22 * k + 46 * u64).
Proof. exact et_both_lands. Qed.
Print Assumptions C56_round_trip_binary.

Theorem C56_eg50_binary : forall lm k s a b, libm_ok lm k -> 0 <= k <= 1e-6 -> angles64 s a b -> let v := direction a b in let e := e_terms 1950 in
  lands k (eg50 (N := B64 lm) s) (mapply galactic_frame_B1950 (unit_of (vsub (scale (1 + dot v e) v) e))) (1e-10 + 14.2 * k + 36.2 * u64).
Proof. exact eg50_lands. Qed.
Print Assumptions C56_eg50_binary.

Theorem C56_ge50_binary : forall lm k s a b, libm_ok lm k -> 0 <= k <= 1e-6 -> angles64 s a b ->
  lands k (ge50 (N := B64 lm) s) (unit_of (vadd (mapply (transpose galactic_frame_B1950) (direction a b)) (e_terms 1950))) (1e-10 + 22 * k + 42 * u64).
Proof. exact ge50_lands. Qed.
Print Assumptions C56_ge50_binary.

Theorem C56_eg50_round_trip_binary : forall lm k s a b, libm_ok lm k -> 0 <= k <= 1e-6 -> angles64 s a b ->
  lands k (ge50 (N := B64 lm) (eg50 (N := B64 lm) s)) (direction a b) (4e-10 + 51 * k + 115 * u64) /\
  lands k (eg50 (N := B64 lm) (ge50 (N := B64 lm) s)) (direction a b) (4e-10 + 59 * k + 121 * u64).
Proof. exact g50_both_lands. Qed.
Print Assumptions C56_eg50_round_trip_binary.

(** The hypotheses are met. *)
Example C56_binary_case : libm_ok ideal_libm (2 * u64) /\ 0 <= 2 * u64 <= 1e-6 /\
  angles64 (lm := ideal_libm) (Sph (N := B64 ideal_libm) (BofZ 53 1024 3) (BofZ 53 1024 1)) 3 1 /\ value64 (BofZ 53 1024 1975) 1975 /\ 1000 <= 1975 <= 3000.
Proof.
  split; [exact ideal_libm_ok|]. split; [rewrite u64_num; lra|]. split; [split; apply (fin_ofZ 53 1024); reflexivity|].
  split; [apply (fin_ofZ 53 1024); reflexivity|lra].
Qed.
