(** Specification vocabulary: plate models held in doubles. *)
From Coq Require Import Reals.
From Flocq Require Import Core BinarySingleNaN.
From Verif Require Import Num NumB M_Plate S_Binary S_Float.
Open Scope R_scope.

(** The six coefficients are finite doubles with the given values. *)
Definition coeffs64 (m : coeffs double) (c : coeffs R) : Prop :=
  value64 (fc_a m) (fc_a c) /\ value64 (fc_b m) (fc_b c) /\ value64 (fc_c m) (fc_c c) /\ value64 (fc_d m) (fc_d c) /\ value64 (fc_e m) (fc_e c) /\ value64 (fc_f m) (fc_f c).
(** No coefficient exceeds [g] in magnitude. *)
Definition coeffs_within (g : R) (c : coeffs R) : Prop :=
  Rabs (fc_a c) <= g /\ Rabs (fc_b c) <= g /\ Rabs (fc_c c) <= g /\ Rabs (fc_d c) <= g /\ Rabs (fc_e c) <= g /\ Rabs (fc_f c) <= g.
(** Sample lists held in doubles, and doubles within [e] of given points. *)
Definition points64 (l : list (double * double)) (q : list (R * R)) : Prop :=
  List.Forall2 (fun d p => value64 (fst d) (fst p) /\ value64 (snd d) (snd p)) l q.
Definition points_near (e : R) (l : list (double * double)) (q : list (R * R)) : Prop :=
  List.Forall2 (fun d p => (exists r, value64 (fst d) r /\ Rabs (r - fst p) <= e) /\ (exists r, value64 (snd d) r /\ Rabs (r - snd p) <= e)) l q.
(** Every sample of a fit is of moderate size: the terms that make up each
    residual add up to at most [G] in magnitude. *)
Definition sample_size (c : coeffs R) (G : R) (es ms : list (R * R)) : Prop :=
  List.Forall2 (fun e m => Rabs (fst m) <= 1e50 /\ Rabs (snd m) <= 1e50 /\
    Rabs (fst e) + (Rabs (fc_a c) + Rabs (fc_b c * fst m) + Rabs (fc_c c * snd m)) <= G /\
    Rabs (snd e) + (Rabs (fc_d c) + Rabs (fc_e c * fst m) + Rabs (fc_f c * snd m)) <= G) es ms.
