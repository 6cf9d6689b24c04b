(** Lemmas for TAI-UTC. *)
From Coq Require Import ZArith QArith Qreals Reals Lra Lia List Ascii.
From Verif Require Import Num NumR L_Pi L_Real M_Angle S_Geom S_Calendar S_Frame S_Epoch L_Angle L_Vec M_Nutc M_Epoch L_Gal L_Frame.
Import ListNotations.
Open Scope R_scope.

(** TAI-UTC *)
Lemma leap_dates : Forall (fun p => is_mjd (fst p) (snd p)) leap_seconds.
Proof. repeat (apply Forall_cons; [left; split; [apply Z.leb_le; reflexivity|vm_compute; reflexivity]|]). apply Forall_nil. Qed.
Lemma segment_dates : Forall (fun s => is_mjd (sg_from s) (sg_mjd s)) (seg_1960 :: segments).
Proof. repeat (apply Forall_cons; [left; split; [apply Z.leb_le; reflexivity|vm_compute; reflexivity]|]). apply Forall_nil. Qed.

Lemma begun_true utc d n : IZR n <= utc -> begun utc (d, n) = true.
Proof. intros H. unfold begun. cbn [snd]. destruct Rle_dec; [reflexivity|contradiction]. Qed.
Lemma begun_false utc d n : utc < IZR n -> begun utc (d, n) = false.
Proof. intros H. unfold begun. cbn [snd]. destruct Rle_dec; [lra|reflexivity]. Qed.
Lemma leaps_step utc p l : length (filter (begun utc) (p :: l)) = ((if begun utc p then 1 else 0) + length (filter (begun utc) l))%nat.
Proof. cbn [filter]. destruct (begun utc p); reflexivity. Qed.
Lemma dat_leap utc : 41317 <= utc -> dat (N := RNum) utc = 10 + INR (leaps_by utc).
Proof.
  intros H. unfold leaps_by, leap_seconds, dat. unR.
  repeat match goal with |- context [Rleb ?a utc] =>
    destruct (Rleb_spec a utc); [repeat (rewrite leaps_step; first [rewrite begun_true by lra|rewrite begun_false by lra]);
       cbn [filter length Nat.add INR]; lra|] end; lra.
Qed.
Lemma dat_segments utc : utc < 41317 -> dat (N := RNum) utc = seg_value (in_force utc seg_1960 segments) utc.
Proof.
  intros H. unfold segments, dat, seg_value. unR. cbn [in_force sg_mjd seg_1960].
  repeat match goal with |- (if Rleb ?a utc then _ else _) = _ => destruct (Rleb_spec a utc); [exfalso; lra|] end.
  clear - n26.
  repeat match goal with |- (if Rleb ?a utc then _ else _) = _ => destruct (Rleb_spec a utc);
    [repeat match goal with |- context [Rle_dec ?b utc] => destruct (Rle_dec b utc); [|try (exfalso; lra)]; try (exfalso; lra) end;
     cbn [sg_off sg_ref sg_rate]; decs; lra|] end.
  repeat match goal with |- context [Rle_dec ?b utc] => destruct (Rle_dec b utc); [exfalso; lra|] end.
  unfold seg_1960. cbn [sg_off sg_ref sg_rate]. decs. lra.
Qed.
Lemma dtt_spec utc : dtt (N := RNum) utc = 32.184 + dat (N := RNum) utc.
Proof. unfold dtt. unR. decs. lra. Qed.

Lemma dtt_not_fixed : exists utc, utc < 41317 /\ dtt (N := RNum) utc <> 10 + 32.184.
Proof.
  exists 40000. split; [lra|]. rewrite dtt_spec, dat_segments by lra. unfold segments, seg_value. cbn [in_force sg_mjd].
  repeat match goal with |- context [Rle_dec ?b 40000] => destruct (Rle_dec b 40000); [|exfalso; lra] end.
  cbn [sg_off sg_ref sg_rate]. lra.
Qed.
Lemma dat_case : dat (N := RNum) 50000.5 = 29 /\ is_mjd (Dt 1972 1 1) 41317.
Proof.
  split.
  - unfold dat. unR. repeat match goal with |- context [Rleb ?a ?u] => destruct (Rleb_spec a u); [try (exfalso; lra)|try (exfalso; lra)] end. reflexivity.
  - left. split; [apply Z.leb_le; reflexivity|vm_compute; reflexivity].
Qed.
