(** The vector and matrix kernels as they act on memory, for calls whose output
    array is, or overlaps, an input array.

    Memory is a map from cell addresses to values; [Vector<T>] is three
    consecutive cells and [Matrix<T>] nine, row by row (slalib.h:101-105, array
    parameters decay to pointers).  The scratch arrays [result]/[tmp] are locals
    of the routines and so cannot overlap the arguments; they are Gallina
    values.  Writes happen in the order of the source. *)
From Coq Require Import ZArith Bool.
From Verif Require Import Num M_Vec.
Open Scope Z_scope.

Section Mem.
Context {N : Num}.

Definition mem := Z -> car N.
Definition upd (s : mem) (p : Z) (x : car N) : mem := fun q => if q =? p then x else s q.

(** Contents of a 3-vector / 3x3 matrix starting at [p]. *)
Definition vec_at (s : mem) (p : Z) : vec N := V3 (s p) (s (p + 1)) (s (p + 2)).
Definition mat_at (s : mem) (p : Z) : mat N := M3 (vec_at s p) (vec_at s (p + 3)) (vec_at s (p + 6)).

(** The copy-out loop [for (k = 0; k < 3; k++) vb[k] = result[k];]. *)
Definition copy_out (vb : Z) (r : vec N) (s : mem) : mem :=
  upd (upd (upd s vb (v0 r)) (vb + 1) (v1 r)) (vb + 2) (v2 r).

(** dmxv.cc:33-48, mxv.cc:33-48: the loop at lines 35-41 only reads memory. *)
Definition dmxv_mem (m va vb : Z) (s : mem) : mem := copy_out vb (dmxv (mat_at s m) (vec_at s va)) s.
(** dimxv.cc:33-47, imxv.cc:33-47. *)
Definition dimxv_mem (m va vb : Z) (s : mem) : mem := copy_out vb (dimxv (mat_at s m) (vec_at s va)) s.
(** dmxm.cc:33-52, mxm.cc:33-52. *)
Definition dmxm_mem (ma mb mc : Z) (s : mem) : mem :=
  let r := dmxm (mat_at s ma) (mat_at s mb) in
  copy_out (mc + 6) (r2 r) (copy_out (mc + 3) (r1 r) (copy_out mc (r0 r) s)).
(** dvxv.cc:32-44, vxv.cc:32-44. *)
Definition dvxv_mem (va vb vc : Z) (s : mem) : mem := copy_out vc (dvxv (vec_at s va) (vec_at s vb)) s.

(** dvn.cc:34-52, vn.cc:35-53: there is no scratch array, element [i] is read
    after elements below [i] have been written. *)
Definition dvn_mem (va nv : Z) (s : mem) : mem * N :=
  let modulus := n_sqrt (((#0 + s va * s va) + s (va + 1)%Z * s (va + 1)%Z) + s (va + 2)%Z * s (va + 2)%Z)%num in
  let result := modulus in
  let modulus := if (modulus <=? #0)%num then (#1)%num else modulus in
  let s := upd s nv (n_div (s va) modulus) in
  let s := upd s (nv + 1) (n_div (s (va + 1)) modulus) in
  let s := upd s (nv + 2) (n_div (s (va + 2)) modulus) in
  (s, result).

End Mem.
