(** Property theorems with rounding: C10, C11, C37 and C53 in IEEE binary64.  None
    of these routines calls a transcendental function, so any libm will do. *)
From Coq Require Import ZArith Reals Ascii Lia Lra.
From Flocq Require Import Core BinarySingleNaN.
From Verif Require Import Num NumB NumR M_Angle M_Epoch S_Angle S_Frame S_Epoch S_Binary S_Float S_FloatTf.
From Verif Require Import L_Bin L_Float L_FloatTf L_FloatEp L_FloatSid.
Open Scope R_scope.

(** ** C10: status and value *)
Theorem C10_status_binary : forall lm h m s c, value64 s c ->
  fst (dtf2d (N := B64 lm) h m s) = fst (dtf2d (N := RNum) h m c) /\ fst (dtf2r (N := B64 lm) h m s) = fst (dtf2d (N := RNum) h m c) /\
  fst (daf2r (N := B64 lm) h m s) = fst (daf2r (N := RNum) h m c).
Proof. exact status64. Qed.
Print Assumptions C10_status_binary.
Theorem C10_time_binary : forall lm h m s c, value64 s c -> fst (dtf2d (N := B64 lm) h m s) = T2D_OK ->
  exists r t, value64 (snd (dtf2d (N := B64 lm) h m s)) r /\ Rabs (r - (IZR h * 3600 + IZR m * 60 + c) / 86400) <= 6e-16 /\
    value64 (snd (dtf2r (N := B64 lm) h m s)) t /\ Rabs (t - (IZR h * 3600 + IZR m * 60 + c) / 86400 * (2 * PI)) <= 5e-15.
Proof. exact value_ok. Qed.
Print Assumptions C10_time_binary.
Theorem C10_arc_binary : forall lm d m s c, value64 s c -> fst (daf2r (N := B64 lm) d m s) = D2R_OK ->
  exists t, value64 (snd (daf2r (N := B64 lm) d m s)) t /\ Rabs (t - (IZR d * 3600 + IZR m * 60 + c) / 3600 * (PI / 180)) <= 51e-16.
Proof. exact arc_ok. Qed.
Print Assumptions C10_arc_binary.

(** The range test is not a test for numbers: a NaN is reported as good. *)
Theorem C10_nan_binary_refuted : forall lm, ~ (forall s, fst (dtf2d (N := B64 lm) 12 30 s) = T2D_OK -> is_nan s = false) /\
  ~ (forall s, fst (daf2r (N := B64 lm) 12 30 s) = D2R_OK -> is_nan s = false).
Proof. exact nan_accepted. Qed.
Print Assumptions C10_nan_binary_refuted.

(** ** C11: fields to days or radians and back give the same fields *)
Theorem C11_time_binary : forall lm ndp f s, let q := Z.max ndp 0 in (ndp <= 9)%Z -> canonical q f -> (fd_h f < 24)%Z -> fd_sign f = true -> seconds64 q f s ->
  dd2tf (N := B64 lm) ndp (snd (dtf2d (N := B64 lm) (fd_h f) (fd_m f) s)) = Some f /\ dr2tf (N := B64 lm) ndp (snd (dtf2r (N := B64 lm) (fd_h f) (fd_m f) s)) = Some f.
Proof. exact time_fields. Qed.
Print Assumptions C11_time_binary.
Theorem C11_arc_binary : forall lm ndp f s, let q := Z.max ndp 0 in (ndp <= 8)%Z -> canonical q f -> (fd_h f < 360)%Z -> fd_sign f = true -> seconds64 q f s ->
  dr2af (N := B64 lm) ndp (snd (daf2r (N := B64 lm) (fd_h f) (fd_m f) s)) = Some f.
Proof. exact arc_fields. Qed.
Print Assumptions C11_arc_binary.
Example C11_binary_case : canonical 3 (Fields 23 59 59 500 true) /\ seconds64 3 (Fields 23 59 59 500 true) (Bdiv mode_NE (BofZ 53 1024 119) (BofZ 53 1024 2)).
Proof. exact fields_case. Qed.

(** ** C37: epochs, for 1e6 days or 1000 BC to AD 5000 *)
Theorem C37_epochs_binary : forall lm x a, value64 x a -> -1000000 <= a <= 1000000 ->
  exists j b, value64 (epj (N := B64 lm) x) j /\ Rabs (j - julian_year a) <= 16e-13 /\ value64 (epb (N := B64 lm) x) b /\ Rabs (b - besselian_year a) <= 16e-13.
Proof. exact epochs64. Qed.
Print Assumptions C37_epochs_binary.
Theorem C37_days_return_binary : forall lm x a, value64 x a -> -1000000 <= a <= 1000000 ->
  exists j b, value64 (epj2d (N := B64 lm) (epj (N := B64 lm) x)) j /\ Rabs (j - a) <= 13e-10 /\ value64 (epb2d (N := B64 lm) (epb (N := B64 lm) x)) b /\ Rabs (b - a) <= 13e-10.
Proof. exact days_return64. Qed.
Print Assumptions C37_days_return_binary.
Theorem C37_years_return_binary : forall lm x a, value64 x a -> -1000 <= a <= 5000 ->
  exists j b, value64 (epj (N := B64 lm) (epj2d (N := B64 lm) x)) j /\ Rabs (j - a) <= 4e-12 /\ value64 (epb (N := B64 lm) (epb2d (N := B64 lm) x)) b /\ Rabs (b - a) <= 4e-12.
Proof. exact years_return64. Qed.
Print Assumptions C37_years_return_binary.
Theorem C37_epco_binary : forall lm res giv x a, value64 x a -> -1000 <= a <= 5000 ->
  exists r, value64 (epco (N := B64 lm) res giv x) r /\ Rabs (r - epco (N := RNum) res giv a) <= 4e-12.
Proof. exact epco64. Qed.
Print Assumptions C37_epco_binary.

(** ** C53: sidereal time, for 1e6 days either side of the MJD origin *)
Theorem C53_gmst_binary : forall lm x a, value64 x a -> -1000000 <= a <= 1000000 ->
  exists g, value64 (gmst (N := B64 lm) x) g /\ 0 <= g <= 2 * pi_double /\ same_turn 2e-11 g (iau1982_gmst a).
Proof. exact gmst64. Qed.
Print Assumptions C53_gmst_binary.
Theorem C53_gmsta_binary : forall lm x y a b, value64 x a -> value64 y b -> -1000000 <= a <= 1000000 -> -1000000 <= b <= 1000000 ->
  exists g, value64 (gmsta (N := B64 lm) x y) g /\ 0 <= g <= 2 * pi_double /\ same_turn 42e-12 g (iau1982_gmst (a + b)).
Proof. exact gmsta64. Qed.
Print Assumptions C53_gmsta_binary.
Example C53_binary_case : value64 (BofZ 53 1024 60000) 60000 /\ -1000000 <= 60000 <= 1000000.
Proof. split; [apply (int64 60000); lia|lra]. Qed.
