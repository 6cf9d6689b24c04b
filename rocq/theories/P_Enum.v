(** Properties C14 and C15: the combination and permutation generators. *)
From Coq Require Import ZArith Lia List Sorted Permutation Arith.
From Verif Require Import Int32 M_Enum S_Enum L_Enum.
Import ListNotations.
Open Scope Z_scope.

(** C14: every history of calls from a freshly initialised array.  The
    theorem says that all calls are defined: no access outside the array and
    no int overflow. *)
Theorem C14_combn_enumerates : forall nsel ncand start,
  1 <= nsel <= ncand -> ncand < INT_MAX -> Z.of_nat (length start) = nsel -> hd 1 start < 1 ->
  exists enum, lists_once (combination nsel ncand) enum /\
    length enum = binom (Z.to_nat ncand) (Z.to_nat nsel) /\
    hd [] enum = run_of 1 (Z.to_nat nsel) /\ last enum [] = run_of (ncand - nsel + 1) (Z.to_nat nsel) /\
    forall k, combn_call nsel ncand k start = Some (cycle_status (length enum) k, nth (k mod length enum) enum []).
Proof. exact combn_enumerates. Qed.
Print Assumptions C14_combn_enumerates.

(** The documented period. *)
Theorem C14_period : forall n k : nat, (k <= n)%nat -> (binom n k * (fact k * fact (n - k)) = fact n)%nat.
Proof. exact binom_fact. Qed.
Print Assumptions C14_period.

Theorem C14_combn_invalid : forall nsel ncand l,
  combn nsel ncand l = Some (CPS_INVALID_ARG, l) <-> ~ 1 <= nsel <= ncand.
Proof. exact combn_invalid. Qed.
Print Assumptions C14_combn_invalid.

(** The header comment of combn gives the last combination in descending
    order, which contradicts its own first sentence; the code returns it in
    ascending order. *)
Theorem C14_documented_last_refuted : ~ (forall nsel ncand start,
  1 <= nsel <= ncand -> Z.of_nat (length start) = nsel -> hd 1 start < 1 ->
  exists k st, combn_call nsel ncand k start = Some (st, rev (run_of (ncand - nsel + 1) (Z.to_nat nsel)))).
Proof. exact combn_doc_refuted. Qed.
Print Assumptions C14_documented_last_refuted.

Example C14_case : map (fun k => combn_call 2 4 k [0; 77]) (seq 0 8) =
  [Some (CPS_OK, [1; 2]); Some (CPS_OK, [1; 3]); Some (CPS_OK, [2; 3]); Some (CPS_OK, [1; 4]);
   Some (CPS_OK, [2; 4]); Some (CPS_OK, [3; 4]); Some (CPS_NO_MORE, [1; 2]); Some (CPS_OK, [1; 3])].
Proof. reflexivity. Qed.

(** C15 *)
Theorem C15_permut_enumerates : forall n state order,
  1 <= n < INT_MAX -> Z.of_nat (length state) = n -> Z.of_nat (length order) = n -> hd 0 state < 0 ->
  exists enum, lists_once (arrangement n) enum /\ length enum = fact (Z.to_nat n) /\
    hd [] enum = rev (run_of 1 (Z.to_nat n)) /\ last enum [] = run_of 1 (Z.to_nat n) /\
    forall k, exists s, permut_call n k state order = Some (cycle_status (length enum) k, s, nth (k mod length enum) enum []).
Proof. exact permut_enumerates. Qed.
Print Assumptions C15_permut_enumerates.

Theorem C15_permut_invalid : forall n state order,
  permut n state order = Some (CPS_INVALID_ARG, state, order) <-> n < 1.
Proof. exact permut_invalid_iff. Qed.
Print Assumptions C15_permut_invalid.

Example C15_case : map (fun k => permut_call 3 k [-1; 5; 5] [9; 9; 9]) (seq 0 7) =
  [Some (CPS_OK, [0; 0; 0], [3; 2; 1]); Some (CPS_OK, [0; 1; 0], [3; 1; 2]); Some (CPS_OK, [0; 0; 1], [2; 3; 1]);
   Some (CPS_OK, [0; 1; 1], [1; 3; 2]); Some (CPS_OK, [0; 0; 2], [2; 1; 3]); Some (CPS_OK, [0; 1; 2], [1; 2; 3]);
   Some (CPS_NO_MORE, [0; 0; 0], [3; 2; 1])].
Proof. reflexivity. Qed.
