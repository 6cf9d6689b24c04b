(** The rounding-error bounds at the two precisions. *)
From Coq Require Import ZArith Reals Bool Lia Lra Psatz.
From Flocq Require Import Core BinarySingleNaN Relative.
From Verif Require Import Int32 Num NumB NumR M_Vec S_Geom S_Binary S_Float L_Bin L_Flt L_FltVec.
Open Scope R_scope.

Lemma u64_eq : u 53 = u64.
Proof. unfold u, u64. change (- (53))%Z with (-53)%Z. cbn. lra. Qed.
Lemma u32_eq : u 24 = u32.
Proof. unfold u, u32. cbn. lra. Qed.
Lemma u64_num : u64 = / 9007199254740992.
Proof. unfold u64. lra. Qed.
Lemma u32_num : u32 = / 16777216.
Proof. unfold u32. lra. Qed.

Lemma bpow_inv e : (0 < e)%Z -> bpow radix2 (- e) = / IZR (2 ^ e).
Proof. intros H. rewrite bpow_opp. f_equal. change (2 ^ e)%Z with (Zpower radix2 e). rewrite IZR_Zpower by lia. reflexivity. Qed.
Lemma bpow_nat e : (0 <= e)%Z -> bpow radix2 e = IZR (2 ^ e).
Proof. intros H. change (2 ^ e)%Z with (Zpower radix2 e). now rewrite IZR_Zpower by lia. Qed.

Lemma eta64 : eta 53 1024 <= 1e-323 / 4.
Proof.
  unfold eta. change (SpecFloat.emin 53 1024 - 1)%Z with (- (1075))%Z. rewrite bpow_inv by lia.
  replace (1e-323 / 4) with (/ IZR (4 * 10 ^ 323)).
  - apply Rinv_le_contravar; [apply IZR_lt; reflexivity|]. apply IZR_le. now vm_compute.
  - rewrite mult_IZR. rewrite Rinv_mult. change (1e-323) with (1 / IZR (10 ^ 323)).
    unfold Rdiv. ring.
Qed.
Lemma eta32 : eta 24 128 <= 8e-46.
Proof.
  unfold eta. change (SpecFloat.emin 24 128 - 1)%Z with (- (150))%Z. rewrite bpow_inv by lia.
  change (2 ^ 150)%Z with 1427247692705959881058285969449495136382746624%Z. lra.
Qed.
Lemma huge64 : 4e307 <= huge 1024.
Proof. unfold huge. change (1024 - 1)%Z with 1023%Z. rewrite bpow_nat by lia.
  replace 4e307 with (IZR (4 * 10 ^ 307)) by (rewrite mult_IZR; reflexivity). apply IZR_le. now vm_compute. Qed.
Lemma huge32 : 1e38 <= huge 128.
Proof. unfold huge. change (128 - 1)%Z with 127%Z. rewrite bpow_nat by lia.
  replace 1e38 with (IZR (1 * 10 ^ 38)) by (rewrite mult_IZR; reflexivity). apply IZR_le. now vm_compute. Qed.
